(** * The statements about any database that passes the check *)
From Coq Require Import String QArith Qcanon FMapPositive.
From Verif Require Import Py StrTools Network SearchSpec NetworkFacts Search SearchFacts SearchFacts2 DescFacts
  Hybrid HybridFacts Conv ConvFacts NetFacts2 Converter EngineSpec EngineFacts EngineFacts2 EngineFacts3 EngineFacts4 EngineFacts5 EngineFacts6
  ConsistSpec ConsistFacts CleanFacts Affine Demo EngineFacts7 EngineFacts8 RegionSpec RegionFacts SymAffine
  Dict Database FastDb Shipped ShippedSpec ShippedCert ShippedCheck ShippedFacts ShippedFacts2 ShippedFacts3.
Local Open Scope N_scope.

Section G.
Context (cs : list crow) (d : db Qc).
Hypothesis H : check_db cs d = true.
Local Notation g := (db_net d).
Local Notation kd := (merge_data (db_kinds d)).
Local Notation R := (rules_of (merge_data (db_kinds d))).
Local Notation D := (dicts_of (all_kinds (db_kinds d))).

Lemma parts : exists T, let fvfc := comps_of T [u "standard barrel"] in
  tabulate (rows cs g) hempty = Some T /\ length cs = length (n_edges g) /\ distinct_by N.eqb (roots cs) = true
  /\ forallb (check_entry T (n_next g) fvfc) (n_edges g) = true /\ check_kinds (kind_comps T kd) = true /\ forallb (check_gates T) kd = true
  /\ forallb (check_whole T fvfc) kd = true /\ forallb (check_ordinary R) kd = true /\ check_ounces R kd = true
  /\ forallb (fun p => forallb (check_prefix T R p) si_units) si_prefixes = true /\ forallb (check_def T R) definitions = true
  /\ (forallb (check_defs kd) defs = true /\ kind_has kd (u "Density") (u "API") = true) /\ forallb (check_odd T R) checked_odd = true /\ forallb (check_registered T) kd = true
  /\ forallb (check_value T R) checked_values = true /\ forallb (check_unlinked T R kd) checked_unlinked = true
  /\ forallb (check_mixed T fvfc R kd) checked_mixed = true /\ check_units cs T kd R = true.
Proof.
  pose proof H as K. unfold check_db in K. destruct (tabulate (rows cs g) hempty) as [T|] eqn:E; [|discriminate K]. exists T. cbv zeta.
  cbv zeta in K. rewrite !andb_true_iff in K. destruct K as (((((((((((((((((K1 & K2) & K3) & K4) & K5) & K6) & K7) & K8) & K9) & K10) & K11) & K11') & K12) & K13) & K14) & K15) & K16) & K17).
  apply Nat.eqb_eq in K1. split; [reflexivity|]. split; [exact K1|]. split; [exact K2|]. split; [exact K3|]. split; [exact K4|]. split; [exact K5|].
  split; [exact K6|]. split; [exact K7|]. split; [exact K8|]. split; [exact K9|]. split; [exact K10|]. split; [exact (conj K11 K11')|]. split; [exact K12|].
  split; [exact K13|]. split; [exact K14|]. split; [exact K15|]. exact (conj K16 K17).
Qed.
Local Open Scope Qc_scope.
Lemma gen_scale b : b <> 0 -> exists m, (forall x, k_of m x <> 0)
  /\ (forall p a z l x, walk (registered g) a p z -> convs_along g p l -> ~ follows disagreeing p ->
        run_convs (Ok b) l x = Ok (rescale m (nname a) (nname z) x))
  /\ (forall s l v w f t uc, session_of d s -> Forall keeps l -> fvf_is b (do_calls l s) -> unit_name f -> unit_name t ->
        ordinary D f -> density_case D f t = false -> never_in g disagreeing f t ->
        fst (convert (VNum v) (UStr f) (UStr t) uc (do_calls l s)) = Ok (Some (CVal w)) -> w = rescale m f t v)
  /\ (forall k s l v w f t uc, session_of d s -> Forall keeps l -> fvf_is b (do_calls l s) -> unit_name f -> unit_name t ->
        listed_in kd k f -> listed_in kd k t -> ~ In k contradictory_kinds -> ~ In k rule_kinds ->
        fst (convert (VNum v) (UStr f) (UStr t) uc (do_calls l s)) = Ok (Some (CVal w)) -> w = rescale m f t v).
Proof.
  intros Hb. destruct parts as (T & HT & HL & HR & HE & HK & HG & HW & HO & HN & HP & HD & (HC & HC') & HX & HG' & HV & HU & HM & HZ).
  exists (cscale (size_at T) b). split; [intros x; exact (size_ne T g cs _ HT HL HE b x Hb)|]. split; [|split].
  - intros p a z l x W Hl Hn. destruct (walk_quantity T g cs _ HT HL HE b Hb p a z l x W Hl Hn) as (y & -> & Hy). f_equal.
    apply rescale_unique; [exact (size_ne T g cs _ HT HL HE b _ Hb)|exact Hy].
  - intros s l v w f t uc S K Hv Hf Ht Ho Hd Hn Hc. exact (value cs d T HT HL HE s l v w f t uc b S K Hf Ht Ho Hd Hb Hv Hn Hc).
  - intros k s l v w f t uc S K Hv Hf Ht Lf Lt Hc Hr Hw.
    exact (kind_value cs d T HT HL HR HE HK HG HO HN HG' k f t s l v w uc b S K Hf Ht Lf Lt Hc Hr Hb Hv Hw).
Qed.
Lemma gen_kinds k k' f t : listed_in kd k f -> listed_in kd k' t -> linked_in g f t -> k = k' \/ In (k, k') merged.
Proof. destruct parts as (T & HT & HL & HR & HE & HK & HG & HW & HO & HN & HP & HD & (HC & HC') & HX & HG' & HV & HU & HM & HZ). exact (kinds_apart cs d T HT HL HR HE HK k k' f t). Qed.
Lemma gen_no_number k k' f t s l v w uc : listed_in kd k f -> listed_in kd k' t -> k <> k' -> ~ In (k, k') merged -> ~ In k rule_kinds ->
  unit_name f -> unit_name t -> session_of d s -> Forall keeps l -> fst (convert (VNum v) (UStr f) (UStr t) uc (do_calls l s)) <> Ok (Some (CVal w)).
Proof.
  destruct parts as (T & HT & HL & HR & HE & HK & HG & HW & HO & HN & HP & HD & (HC & HC') & HX & HG' & HV & HU & HM & HZ).
  exact (apart_no_number cs d T HT HL HR HE HK HO HG' k k' f t s l v w uc).
Qed.
Lemma gen_prefixes p e x n s l v uc : In (p, e) si_prefixes -> In (x, n) si_units -> p <> u "K" \/ n = 1%Z ->
  session_of d s -> bounded (s_par s) -> Forall converts l ->
  fst (convert (VNum v) (UStr (p ++ x)) (UStr x) uc (do_calls l s)) = Ok (Some (CVal (v * Q2Qc (ten_to (n * e)))))
  /\ fst (convert (VNum v) (UStr x) (UStr (p ++ x)) uc (do_calls l s)) = Ok (Some (CVal (v / Q2Qc (ten_to (n * e))))).
Proof.
  destruct parts as (T & HT & HL & HR & HE & HK & HG & HW & HO & HN & HP & HD & (HC & HC') & HX & HG' & HV & HU & HM & HZ).
  exact (prefixes cs d T HT HL HE HP p e x n s l v uc).
Qed.
Lemma gen_order s l v w v' w' f t uc : session_of d s -> Forall keeps l -> unit_name f -> unit_name t -> ordinary D f -> density_case D f t = false ->
  (forall b, fv_of (do_calls l s) = Ok b -> 0 < b) -> never_in g decreasing f t ->
  fst (convert (VNum v) (UStr f) (UStr t) uc (do_calls l s)) = Ok (Some (CVal w)) ->
  fst (convert (VNum v') (UStr f) (UStr t) uc (do_calls l s)) = Ok (Some (CVal w')) -> v < v' -> w < w'.
Proof.
  destruct parts as (T & HT & HL & HR & HE & HK & HG & HW & HO & HN & HP & HD & (HC & HC') & HX & HG' & HV & HU & HM & HZ).
  exact (order cs d T HT HL HE s l v w v' w' f t uc).
Qed.
Lemma gen_not_decreasing f t : ~ linked_in g (u "API") f -> never_in g decreasing f t.
Proof.
  destruct parts as (T & HT & HL & HR & HE & HK & HG & HW & HO & HN & HP & HD & (HC & HC') & HX & HG' & HV & HU & HM & HZ).
  exact (not_decreasing cs d T HT HL HR HE f t).
Qed.
Lemma gen_def k ds x s l v w uc : In (k, ds) defs -> In x ds -> session_of d s -> Forall keeps l -> (forall b, fv_of (do_calls l s) = Ok b -> b <> 0) ->
  fst (convert (VNum v) (UStr (d_from x)) (UStr (d_to x)) uc (do_calls l s)) = Ok (Some (CVal w)) -> w = v * Q2Qc (d_factor x) + Q2Qc (d_offset x).
Proof.
  destruct parts as (T & HT & HL & HR & HE & HK & HG & HW & HO & HN & HP & HD & (HC & HC') & HX & HG' & HV & HU & HM & HZ). intros Hk Hx.
  exact (def_value cs d T HT HL HE x s l v w uc (proj2 (proj2 (defs_listed d T HD HC k ds x Hk Hx)))).
Qed.
Lemma gen_def_returned k ds x s l v uc : In (k, ds) defs -> In x ds -> In k whole_kinds -> session_of d s -> searches (s_par s) -> Forall converts l ->
  (forall b, fv_of s = Ok b -> b <> 0) ->
  fst (convert (VNum v) (UStr (d_from x)) (UStr (d_to x)) uc (do_calls l s)) = Ok (Some (CVal (v * Q2Qc (d_factor x) + Q2Qc (d_offset x)))).
Proof.
  destruct parts as (T & HT & HL & HR & HE & HK & HG & HW & HO & HN & HP & HD & (HC & HC') & HX & HG' & HV & HU & HM & HZ). intros Hk Hx Hw.
  destruct (defs_listed d T HD HC k ds x Hk Hx) as (Lf & Lt & Cd).
  destruct (whole_comp d T HW k _ _ Hw Lf Lt) as (c & C1 & C2 & Rc).
  exact (def_reached cs d T HT HL HR HE x s l v uc Cd (ex_intro _ c (conj C1 Rc))).
Qed.
Lemma gen_defs_listed k ds x : In (k, ds) defs -> In x ds -> listed_in kd k (d_from x) /\ listed_in kd k (d_to x).
Proof.
  destruct parts as (T & HT & HL & HR & HE & HK & HG & HW & HO & HN & HP & HD & (HC & HC') & HX & HG' & HV & HU & HM & HZ). intros Hk Hx.
  destruct (defs_listed d T HD HC k ds x Hk Hx) as (Lf & Lt & _). exact (conj Lf Lt).
Qed.
Lemma gen_whole k f t s l v uc : In k whole_kinds -> listed_in kd k f -> listed_in kd k t -> unit_name f -> unit_name t ->
  session_of d s -> searches (s_par s) -> Forall converts l -> exists w, fst (convert (VNum v) (UStr f) (UStr t) uc (do_calls l s)) = Ok (Some (CVal w)).
Proof.
  destruct parts as (T & HT & HL & HR & HE & HK & HG & HW & HO & HN & HP & HD & (HC & HC') & HX & HG' & HV & HU & HM & HZ).
  exact (whole_number cs d T HT HL HR HE HK HW HN HG' k f t s l v uc).
Qed.
Lemma gen_odd f t p q s l v uc : In (f, t, p, q) checked_odd -> session_of d s -> bounded (s_par s) -> Forall converts l ->
  fst (convert (VNum v) (UStr (u f)) (UStr (u t)) uc (do_calls l s)) = Ok (Some (CVal (v * Q2Qc p + Q2Qc q))).
Proof.
  destruct parts as (T & HT & HL & HR & HE & HK & HG & HW & HO & HN & HP & HD & (HC & HC') & HX & HG' & HV & HU & HM & HZ).
  exact (odd_value cs d T HT HL HE HX f t p q s l v uc).
Qed.
Lemma gen_value f t x y s l uc : In (f, t, x, y) checked_values -> session_of d s -> bounded (s_par s) -> Forall converts l ->
  fst (convert (VNum (Q2Qc x)) (UStr (u f)) (UStr (u t)) uc (do_calls l s)) = Ok (Some (CVal (Q2Qc y))).
Proof.
  destruct parts as (T & HT & HL & HR & HE & HK & HG & HW & HO & HN & HP & HD & (HC & HC') & HX & HG' & HV & HU & HM & HZ).
  exact (known_value cs d T HT HL HE HV f t x y s l uc).
Qed.
Lemma gen_unlinked k f t : In (k, (f, t)) checked_unlinked -> listed_in kd (u k) (u f) /\ listed_in kd (u k) (u t)
  /\ unit_name (u f) /\ unit_name (u t) /\ forall s l v w uc, session_of d s -> Forall keeps l -> fst (convert (VNum v) (UStr (u f)) (UStr (u t)) uc (do_calls l s)) <> Ok (Some (CVal w)).
Proof.
  destruct parts as (T & HT & HL & HR & HE & HK & HG & HW & HO & HN & HP & HD & (HC & HC') & HX & HG' & HV & HU & HM & HZ).
  exact (unlinked_pair cs d T HT HL HR HE HU k f t).
Qed.
Lemma gen_mixed k k' x s l v uc : In (k, k', x) checked_mixed -> session_of d s -> searches (s_par s) -> Forall converts l -> (forall b, fv_of s = Ok b -> b <> 0) ->
  listed_in kd (u k) (d_from x) /\ listed_in kd (u k') (d_to x)
  /\ fst (convert (VNum v) (UStr (d_from x)) (UStr (d_to x)) uc (do_calls l s)) = Ok (Some (CVal (v * Q2Qc (d_factor x) + Q2Qc (d_offset x)))).
Proof.
  destruct parts as (T & HT & HL & HR & HE & HK & HG & HW & HO & HN & HP & HD & (HC & HC') & HX & HG' & HV & HU & HM & HZ).
  exact (mixed_pair cs d T HT HL HR HE HM k k' x s l v uc).
Qed.
Lemma gen_registered k x : listed_in kd k x -> k <> u "Acceleration" -> exists a, get_node g x = Ok a.
Proof.
  destruct parts as (T & HT & HL & HR & HE & HK & HG & HW & HO & HN & HP & HD & (HC & HC') & HX & HG' & HV & HU & HM & HZ). intros Hx Hk.
  destruct (kind_registered d T HG' k x Hx Hk) as (c & Hc). unfold comp_of in Hc. destruct (hget x T) as [r|] eqn:E; [|discriminate Hc].
  exists (e_node (r_entry r)). exact (row_node T g cs HT HL x r E).
Qed.
Lemma gen_API : listed_in kd (u "Density") (u "API").
Proof.
  destruct parts as (T & HT & HL & HR & HE & HK & HG & HW & HO & HN & HP & HD & (HC & HC') & HX & HG' & HV & HU & HM & HZ). exact (kind_has_listed d _ _ HC').
Qed.
Lemma gen_ordinary k x : listed_in kd k x -> ~ In k rule_kinds -> ordinary D x.
Proof.
  destruct parts as (T & HT & HL & HR & HE & HK & HG & HW & HO & HN & HP & HD & (HC & HC') & HX & HG' & HV & HU & HM & HZ). exact (kind_ordinary d HO k x).
Qed.
Lemma gen_density k f t : listed_in kd k f -> listed_in kd k t -> simple f -> simple t -> k <> u "Volume" -> density_case D f t = false.
Proof.
  destruct parts as (T & HT & HL & HR & HE & HK & HG & HW & HO & HN & HP & HD & (HC & HC') & HX & HG' & HV & HU & HM & HZ).
  exact (kind_density cs d T HT HL HR HE HK HN HG' k f t).
Qed.
End G.
