(** * Properties of the shipped database: C32, C33, C34, C49, C52, C53

    [shipped_net] and [shipped_dicts] are what database.py builds from
    dictionaries.py: the network of 2 600 units that a session starts with. *)
From Coq Require Import String QArith Qcanon.
From Verif Require Import Py StrTools Network SearchSpec Conv Converter EngineSpec ConsistSpec RegionSpec Demo
  Dict Database Shipped ShippedSpec ShippedCert ShippedCheck ShippedFacts ShippedFacts2 ShippedFacts3 ShippedFacts4.
Local Open Scope Qc_scope.

Ltac by_check L := unfold shipped_session, listed_as, linked, never_through, shipped_net, shipped_dicts, shipped_kinds; exact (L cert shipped_db shipped_checked).
Lemma session_db s : shipped_session s -> session_of shipped_db s.
Proof. unfold shipped_session, session_of, shipped_net, shipped_dicts, shipped_kinds. exact (fun h => h). Qed.
Lemma no_calls : Forall (converts (V:=Qc)) []. Proof. constructor. Qed.
Lemma odd_known f t p q s v uc : In (f, t, p, q) checked_odd -> shipped_session s -> bounded (s_par s) ->
  fst (convert (VNum v) (UStr (u f)) (UStr (u t)) uc s) = Ok (Some (CVal (v * Q2Qc p + Q2Qc q))).
Proof. intros I S B. exact (gen_odd cert shipped_db shipped_checked f t p q s [] v uc I (session_db s S) B no_calls). Qed.
Lemma value_known f t x y s : In (f, t, x, y) checked_values -> shipped_session s -> bounded (s_par s) -> ask x f t s = Ok (Some (CVal (Q2Qc y))).
Proof. intros I S B. exact (gen_value cert shipped_db shipped_checked f t x y s [] None I (session_db s S) B no_calls). Qed.
Lemma mixed_known k k' x s v uc : In (k, k', x) checked_mixed -> shipped_session s -> searches (s_par s) -> (forall b, fv_of s = Ok b -> b <> 0) ->
  listed_as (u k) (d_from x) /\ listed_as (u k') (d_to x)
  /\ fst (convert (VNum v) (UStr (d_from x)) (UStr (d_to x)) uc s) = Ok (Some (CVal (v * Q2Qc (d_factor x) + Q2Qc (d_offset x)))).
Proof. intros I S B F. exact (gen_mixed cert shipped_db shipped_checked k k' x s [] v uc I (session_db s S) B no_calls F). Qed.
Lemma defs_known k ds x : In (k, ds) defs -> In x ds -> listed_as k (d_from x) /\ listed_as k (d_to x).
Proof. revert k ds x. by_check gen_defs_listed. Qed.
Lemma shipped_API : listed_as (u "Density") (u "API").
Proof. by_check gen_API. Qed.
Lemma shipped_ordinary : forall k x, listed_as k x -> ~ In k rule_kinds -> ordinary shipped_dicts x.
Proof. by_check gen_ordinary. Qed.
Lemma shipped_density : forall k f t, listed_as k f -> listed_as k t -> simple f -> simple t -> k <> u "Volume" -> density_case shipped_dicts f t = false.
Proof. by_check gen_density. Qed.
Ltac member := cbn [In]; repeat (first [left; reflexivity|right]).

(** a session of the shipped database, with the default settings *)
Definition shipped_start : st Qc :=
  St shipped_net None [] [] None (Err NoFVFError) (Err NoFVFError) (demo_par "lean_BFS") shipped_dicts [] [].
Lemma shipped_start_session : shipped_session shipped_start.
Proof.
  split; [reflexivity|]. split; [reflexivity|]. split; [reflexivity|]. split; [reflexivity|]. split; [reflexivity|]. split; cbn; lia.
Qed.
Lemma shipped_start_searches : searches (s_par shipped_start) /\ bounded (s_par shipped_start).
Proof. split; [split; [right; reflexivity|cbn; lia]|right; split; [reflexivity|cbn; lia]]. Qed.
Lemma shipped_start_fvf b : fv_of shipped_start = Ok b -> b <> 0.
Proof. change (Err NoFVFError = Ok b -> b <> 0). discriminate. Qed.
Lemma bounded_searches p : searches p -> bounded p.
Proof. intros [[H|H] Hg]; [left; exact H|right]. split; [exact H|lia]. Qed.

(** ** C32 *)
(** One scale (a size and an origin for every unit) explains all the numbers:
    for every formation volume factor b there is a scale such that, whatever the
    algorithm and the history, convert returns the value of the target unit for
    the same quantity - between units of one kind, for every kind but the four
    contradictory ones; between any two units if no path goes through one of
    the 16 disagreeing conversions; and along every walk, of any length, without them. *)
Theorem C32_one_scale_partial : forall b, b <> 0 -> exists m, (forall x, k_of m x <> 0)
  /\ (forall p a z l x, walk (registered shipped_net) a p z -> convs_along shipped_net p l -> ~ follows disagreeing p ->
        run_convs (Ok b) l x = Ok (rescale m (nname a) (nname z) x))
  /\ (forall s l v w f t uc, shipped_session s -> Forall keeps l -> fvf_is b (do_calls l s) -> unit_name f -> unit_name t ->
        ordinary shipped_dicts f -> density_case shipped_dicts f t = false -> never_through disagreeing f t ->
        fst (convert (VNum v) (UStr f) (UStr t) uc (do_calls l s)) = Ok (Some (CVal w)) -> w = rescale m f t v)
  /\ (forall k s l v w f t uc, shipped_session s -> Forall keeps l -> fvf_is b (do_calls l s) -> unit_name f -> unit_name t ->
        listed_as k f -> listed_as k t -> ~ In k contradictory_kinds -> ~ In k rule_kinds ->
        fst (convert (VNum v) (UStr f) (UStr t) uc (do_calls l s)) = Ok (Some (CVal w)) -> w = rescale m f t v).
Proof. by_check gen_scale. Qed.
Print Assumptions C32_one_scale_partial.
(** the pressures contradict one another: psi gauge is psi, but not through absolute psi, which is psi *)
Theorem C32_refuted : forall s uc, shipped_session s -> bounded (s_par s) ->
  ask 1 "psi gauge" "psi" s = Ok (Some (CVal 1))
  /\ (forall v, fst (convert (VNum v) (UStr (u "psi gauge")) (UStr (u "absolute psi")) uc s) = Ok (Some (CVal (v + Q2Qc (146959 # 10000)))))
  /\ (forall v, fst (convert (VNum v) (UStr (u "absolute psi")) (UStr (u "psi")) uc s) = Ok (Some (CVal v)))
  /\ forall m, ~ (forall f t v w, fst (convert (VNum v) (UStr f) (UStr t) None s) = Ok (Some (CVal w)) -> w = rescale m f t v).
Proof.
  intros s uc S B.
  pose proof (fun uc v => odd_known "psi gauge" "psi" 1 0 s v uc ltac:(member) S B) as A1.
  pose proof (fun uc v => odd_known "psi gauge" "absolute psi" 1 (146959 # 10000) s v uc ltac:(member) S B) as A2.
  pose proof (fun uc v => odd_known "absolute psi" "psi" 1 0 s v uc ltac:(member) S B) as A3.
  assert (E1 : forall v, v * Q2Qc 1 + Q2Qc 0 = v) by (intros v; change (Q2Qc 1) with 1; change (Q2Qc 0) with 0; ring).
  assert (E2 : forall v q, v * Q2Qc 1 + q = v + q) by (intros v q; change (Q2Qc 1) with 1; ring).
  split; [|split; [|split]].
  - refine (eq_trans (A1 None 1) _). now rewrite E1.
  - intros v. refine (eq_trans (A2 uc v) _). now rewrite E2.
  - intros v. refine (eq_trans (A3 uc v) _). now rewrite E1.
  - intros m Hm. pose proof (Hm _ _ _ _ (A1 None 0)) as M1. pose proof (Hm _ _ _ _ (A2 None 0)) as M2. pose proof (Hm _ _ _ _ (A3 None (Q2Qc (146959 # 10000)))) as M3.
    rewrite E1 in M1, M3. rewrite E2 in M2. clear A1 A2 A3 Hm S B E1 E2. unfold rescale in *.
    set (kg := k_of m (u "psi gauge")) in *. set (og := o_of m (u "psi gauge")) in *. set (ka := k_of m (u "absolute psi")) in *. set (oa := o_of m (u "absolute psi")) in *.
    set (kp := k_of m (u "psi")) in *. set (op := o_of m (u "psi")) in *. clearbody kg og ka oa kp op. set (c := Q2Qc (146959 # 10000)) in *.
    assert (Hc : c <> 0) by discriminate. rewrite Qcplus_0_l in M2.
    destruct (Qc_eq_dec ka 0) as [Za|Na].
    { rewrite Za in M2. unfold Qcdiv in M2. change (/ 0) with 0 in M2. rewrite Qcmult_0_r in M2. contradiction. }
    destruct (Qc_eq_dec kp 0) as [Zp|Np].
    { rewrite Zp in M3. unfold Qcdiv in M3. change (/ 0) with 0 in M3. rewrite Qcmult_0_r in M3. contradiction. }
    apply Hc. rewrite M3.
    assert (X1 : og = op). { apply (f_equal (fun z => z * kp)) in M1. rewrite Qcmult_0_l in M1. rewrite Qcmult_comm, Qcmult_div_r in M1 by exact Np.
      rewrite Qcmult_0_l, Qcplus_0_l in M1. apply (f_equal (fun z => z + op)) in M1. ring_simplify in M1. congruence. }
    assert (X2 : c * ka + oa = og). { apply (f_equal (fun z => z * ka)) in M2. rewrite (Qcmult_comm (_ / _)), Qcmult_div_r in M2 by exact Na.
      rewrite M2. ring. }
    rewrite X2, X1. unfold Qcdiv. replace (op - op) with 0 by ring. ring.
Qed.
Print Assumptions C32_refuted.

(** ** C33 *)
(** units of two kinds are linked only for the seven pairs of kinds of [merged] *)
Theorem C33_kinds_apart_partial : forall k k' f t, listed_as k f -> listed_as k' t -> linked f t -> k = k' \/ In (k, k') merged.
Proof. by_check gen_kinds. Qed.
Print Assumptions C33_kinds_apart_partial.
(** ... so convert returns no number, whatever the algorithm and the history *)
Theorem C33_no_number_partial : forall k k' f t s l v w uc, listed_as k f -> listed_as k' t -> k <> k' -> ~ In (k, k') merged -> ~ In k rule_kinds ->
  unit_name f -> unit_name t -> shipped_session s -> Forall keeps l ->
  fst (convert (VNum v) (UStr f) (UStr t) uc (do_calls l s)) <> Ok (Some (CVal w)).
Proof. by_check gen_no_number. Qed.
Print Assumptions C33_no_number_partial.
(** 'F' is both a Fahrenheit degree and a farad *)
Theorem C33_refuted : forall s v uc, shipped_session s -> searches (s_par s) -> (forall b, fv_of s = Ok b -> b <> 0) ->
  listed_as (u "Temperature") (u "Celsius") /\ listed_as (u "Capacitance") (u "Farad")
  /\ fst (convert (VNum v) (UStr (u "Celsius")) (UStr (u "Farad")) uc s) = Ok (Some (CVal (v * Q2Qc (9 # 5) + Q2Qc 32))).
Proof.
  intros s v uc S Hs Hb.
  exact (mixed_known "Temperature" "Capacitance" (Def (u "Celsius") (u "Farad") (9 # 5) 32) s v uc ltac:(member) S Hs Hb).
Qed.
Print Assumptions C33_refuted.

(** ** C34 *)
Theorem C34_prefixes_partial : forall p e x n s l v uc, In (p, e) si_prefixes -> In (x, n) si_units -> p <> u "K" \/ n = 1%Z ->
  shipped_session s -> bounded (s_par s) -> Forall converts l ->
  fst (convert (VNum v) (UStr (p ++ x)%list) (UStr x) uc (do_calls l s)) = Ok (Some (CVal (v * Q2Qc (ten_to (n * e)))))
  /\ fst (convert (VNum v) (UStr x) (UStr (p ++ x)%list) uc (do_calls l s)) = Ok (Some (CVal (v / Q2Qc (ten_to (n * e))))).
Proof. by_check gen_prefixes. Qed.
Print Assumptions C34_prefixes_partial.
(** the prefix K of a squared unit is not squared *)
Theorem C34_refuted : forall s, shipped_session s -> bounded (s_par s) -> ask 1 "Km2" "m2" s = Ok (Some (CVal (Q2Qc 1000))).
Proof.
  intros s S B. exact (value_known "Km2" "m2" 1 1000 s ltac:(member) S B).
Qed.
Print Assumptions C34_refuted.

(** ** C49 *)
Theorem C49_order_preserved_partial : forall s l v w v' w' f t uc, shipped_session s -> Forall keeps l -> unit_name f -> unit_name t ->
  ordinary shipped_dicts f -> density_case shipped_dicts f t = false ->
  (forall b, fv_of (do_calls l s) = Ok b -> 0 < b) -> never_through decreasing f t ->
  fst (convert (VNum v) (UStr f) (UStr t) uc (do_calls l s)) = Ok (Some (CVal w)) ->
  fst (convert (VNum v') (UStr f) (UStr t) uc (do_calls l s)) = Ok (Some (CVal w')) -> v < v' -> w < w'.
Proof. by_check gen_order. Qed.
Print Assumptions C49_order_preserved_partial.
(** every unit that has nothing to do with API degrees *)
Theorem C49_not_linked_to_API : forall f t, ~ linked (u "API") f -> never_through decreasing f t.
Proof. by_check gen_not_decreasing. Qed.
Print Assumptions C49_not_linked_to_API.
(** API degrees go down when the gravity goes up *)
Theorem C49_refuted : forall s, shipped_session s -> bounded (s_par s) ->
  ask 10 "API" "SgO" s = Ok (Some (CVal (Q2Qc 1))) /\ ask 30 "API" "SgO" s = Ok (Some (CVal (Q2Qc (1415 # 1615)))) /\ Q2Qc (1415 # 1615) < Q2Qc 1.
Proof.
  intros s S B. split; [|split].
  - exact (value_known "API" "SgO" 10 1 s ltac:(member) S B).
  - exact (value_known "API" "SgO" 30 (1415 # 1615) s ltac:(member) S B).
  - reflexivity.
Qed.
Print Assumptions C49_refuted.

(** ** C52 *)
(** any number returned for a pair of the table of definitions is the right one *)
Theorem C52_definitions_partial : forall k ds x s l v w uc, In (k, ds) defs -> In x ds -> shipped_session s -> Forall keeps l ->
  (forall b, fv_of (do_calls l s) = Ok b -> b <> 0) ->
  fst (convert (VNum v) (UStr (d_from x)) (UStr (d_to x)) uc (do_calls l s)) = Ok (Some (CVal w)) -> w = v * Q2Qc (d_factor x) + Q2Qc (d_offset x).
Proof. by_check gen_def. Qed.
Print Assumptions C52_definitions_partial.
(** ... and one is returned, for the kinds that are whole *)
Theorem C52_definitions_returned_partial : forall k ds x s l v uc, In (k, ds) defs -> In x ds -> In k whole_kinds ->
  shipped_session s -> searches (s_par s) -> Forall converts l -> (forall b, fv_of s = Ok b -> b <> 0) ->
  fst (convert (VNum v) (UStr (d_from x)) (UStr (d_to x)) uc (do_calls l s)) = Ok (Some (CVal (v * Q2Qc (d_factor x) + Q2Qc (d_offset x)))).
Proof. by_check gen_def_returned. Qed.
Print Assumptions C52_definitions_returned_partial.
(** a light year is 9460730472580800 m (60 times as much), a British gill is 5 fluid ounces, a kilogram mass weighs one kilogram force *)
Theorem C52_refuted : forall s, shipped_session s -> bounded (s_par s) ->
  ask 1 "light year" "meter" s = Ok (Some (CVal (Q2Qc 157678841209680)))
  /\ ask 1 "gillUK" "fluid ounce UK" s = Ok (Some (CVal (Q2Qc 4)))
  /\ ask 1 "kilogram mass" "kilogram force" s = Ok (Some (CVal (Q2Qc (980665 # 100000)))).
Proof.
  intros s S B. split; [|split].
  - exact (value_known "light year" "meter" 1 157678841209680 s ltac:(member) S B).
  - exact (value_known "gillUK" "fluid ounce UK" 1 4 s ltac:(member) S B).
  - exact (value_known "kilogram mass" "kilogram force" 1 (980665 # 100000) s ltac:(member) S B).
Qed.
Print Assumptions C52_refuted.

(** ** C53 *)
Theorem C53_same_kind_number_partial : forall k f t s l v uc, In k whole_kinds -> listed_as k f -> listed_as k t -> unit_name f -> unit_name t ->
  shipped_session s -> searches (s_par s) -> Forall converts l -> exists w, fst (convert (VNum v) (UStr f) (UStr t) uc (do_calls l s)) = Ok (Some (CVal w)).
Proof. by_check gen_whole. Qed.
Print Assumptions C53_same_kind_number_partial.
(** every listed unit is registered, but the accelerations *)
Theorem C53_registered : forall k x, listed_as k x -> k <> u "Acceleration" -> exists a, get_node shipped_net x = Ok a.
Proof. by_check gen_registered. Qed.
Print Assumptions C53_registered.
(** no search and no history makes a number of these *)
Theorem C53_refuted : forall k f t, In (k, (f, t)) [("Frequency", ("RPM", "Hz")); ("Viscosity", ("centipoise", "Poise")); ("Force", ("kilogram force", "Newton"))]%string ->
  listed_as (u k) (u f) /\ listed_as (u k) (u t) /\ unit_name (u f) /\ unit_name (u t)
  /\ forall s l v w uc, shipped_session s -> Forall keeps l -> fst (convert (VNum v) (UStr (u f)) (UStr (u t)) uc (do_calls l s)) <> Ok (Some (CVal w)).
Proof. by_check gen_unlinked. Qed.
Print Assumptions C53_refuted.

(** ** The hypotheses are met *)
Lemma celsius_names : unit_name (u "Celsius") /\ unit_name (u "Kelvin") /\ unit_name (u "mile").
Proof. split; [|split]; apply unit_check; vm_compute; reflexivity. Qed.
Example shipped_example_defs : exists ds1 ds2,
  In (u "Temperature", ds1) defs /\ In (Def (u "Celsius") (u "Kelvin") 1 (27315 # 100)) ds1
  /\ In (u "Length", ds2) defs /\ In (Def (u "mile") (u "m") (1609344 # 1000) 0) ds2.
Proof. eexists. eexists. split; [right; left; reflexivity|]. split; [left; reflexivity|]. split; [right; right; left; reflexivity|]. do 6 right. left. reflexivity. Qed.
Lemma temperature_plain : ~ In (u "Temperature") contradictory_kinds /\ ~ In (u "Temperature") rule_kinds.
Proof. split; intros K; apply smem_In in K; discriminate K. Qed.
Lemma one_scale_of s b f t v w : shipped_session s -> b <> 0 -> fvf_is b s -> unit_name f -> unit_name t ->
  listed_as (u "Temperature") f -> listed_as (u "Temperature") t ->
  fst (convert (VNum v) (UStr f) (UStr t) None s) = Ok (Some (CVal w)) ->
  exists m, (forall x, k_of m x <> 0) /\ rescale m f t v = w.
Proof.
  intros S Hb F N1 N2 L1 L2 A. destruct (C32_one_scale_partial b Hb) as (m & M1 & _ & _ & M2). exists m. split; [exact M1|].
  exact (eq_sym (M2 (u "Temperature") s [] v w f t None S (Forall_nil _) F N1 N2 L1 L2 (proj1 temperature_plain) (proj2 temperature_plain) A)).
Qed.
Lemma shipped_start_fvf_is b : fvf_is b shipped_start.
Proof. right. exists NoFVFError. reflexivity. Qed.
Lemma shipped_example_of s : shipped_session s -> searches (s_par s) -> bounded (s_par s) -> (forall b, fv_of s = Ok b -> b <> 0) -> (forall b, fvf_is b s) ->
  shipped_session s /\ searches (s_par s) /\ bounded (s_par s) /\ fvf_is 1 s
  /\ listed_as (u "Temperature") (u "Celsius") /\ listed_as (u "Temperature") (u "Kelvin") /\ listed_as (u "Length") (u "mile")
  /\ ask 25 "Celsius" "Kelvin" s = Ok (Some (CVal (Q2Qc (29815 # 100))))
  /\ ask 3 "mile" "m" (do_calls [conv_of 1 "foot" "mile"; KCleanMemory] s) = Ok (Some (CVal (Q2Qc (4828032 # 1000))))
  /\ ask 5 "km2" "m2" s = Ok (Some (CVal (Q2Qc 5000000)))
  /\ (forall w, ask 5 "mile" "Kelvin" s <> Ok (Some (CVal w)))
  /\ (forall b, b <> 0 -> exists m, (forall x, k_of m x <> 0) /\ rescale m (u "Celsius") (u "Kelvin") (Q2Qc 25) = Q2Qc (29815 # 100))
  /\ (never_through decreasing (u "Celsius") (u "Kelvin") /\ ordinary shipped_dicts (u "Celsius") /\ density_case shipped_dicts (u "Celsius") (u "Kelvin") = false).
Proof.
  intros S Hs Hbd Hf Hi.
  destruct shipped_example_defs as (ds1 & ds2 & D1 & X1 & D2 & X2). destruct celsius_names as (N1 & N2 & N3).
  destruct (defs_known _ _ _ D1 X1) as [L1 L2]. destruct (defs_known _ _ _ D2 X2) as [L3 _].
  assert (A : ask 25 "Celsius" "Kelvin" s = Ok (Some (CVal (Q2Qc (29815 # 100))))).
  { refine (eq_trans (C52_definitions_returned_partial _ _ _ s [] (Q2Qc 25) None D1 X1 _ S Hs (Forall_nil _) Hf) _).
    - right; left; reflexivity.
    - cbn [d_factor d_offset]. do 3 f_equal. now apply Qc_is_canon. }
  split; [exact S|]. split; [exact Hs|]. split; [exact Hbd|].
  split; [exact (Hi 1)|].
  split; [exact L1|]. split; [exact L2|]. split; [exact L3|]. split; [exact A|]. split; [|split; [|split]].
  - refine (eq_trans (C52_definitions_returned_partial _ _ _ s [conv_of 1 "foot" "mile"; KCleanMemory] (Q2Qc 3) None D2 X2 _ S Hs _ Hf) _).
    + do 3 right; left; reflexivity.
    + constructor; [exact I|constructor; [exact I|constructor]].
    + cbn [d_factor d_offset]. do 3 f_equal. now apply Qc_is_canon.
  - refine (eq_trans (proj1 (C34_prefixes_partial (u "k") 3 (u "m2") 2 s [] (Q2Qc 5) None _ _ _ S Hbd (Forall_nil _))) _).
    + do 10 right; left; reflexivity. + do 2 right; left; reflexivity. + left. discriminate. + do 3 f_equal.
  - intros w. refine (C33_no_number_partial _ _ _ _ s [] _ w None L3 L2 _ _ _ N3 N2 S (Forall_nil _)).
    + discriminate. + intros K. apply listed_In in K. discriminate K. + intros K. apply smem_In in K. discriminate K.
  - split.
    { intros b Hb. exact (one_scale_of s b _ _ (Q2Qc 25) (Q2Qc (29815 # 100)) S Hb (Hi b) N1 N2 L1 L2 A). }
    split; [|split; [exact (shipped_ordinary _ _ L1 (proj2 temperature_plain))|refine (shipped_density _ _ _ L1 L2 (proj1 N1) (proj1 N2) _); discriminate]].
    apply C49_not_linked_to_API. intros K.
    destruct (C33_kinds_apart_partial _ _ _ _ shipped_API L1 K) as [X|X]; [discriminate X|apply listed_In in X; discriminate X].
Qed.

Example shipped_example :
  shipped_session shipped_start /\ searches (s_par shipped_start) /\ bounded (s_par shipped_start) /\ fvf_is 1 shipped_start
  /\ listed_as (u "Temperature") (u "Celsius") /\ listed_as (u "Temperature") (u "Kelvin") /\ listed_as (u "Length") (u "mile")
  /\ ask 25 "Celsius" "Kelvin" shipped_start = Ok (Some (CVal (Q2Qc (29815 # 100))))
  /\ ask 3 "mile" "m" (do_calls [conv_of 1 "foot" "mile"; KCleanMemory] shipped_start) = Ok (Some (CVal (Q2Qc (4828032 # 1000))))
  /\ ask 5 "km2" "m2" shipped_start = Ok (Some (CVal (Q2Qc 5000000)))
  /\ (forall w, ask 5 "mile" "Kelvin" shipped_start <> Ok (Some (CVal w)))
  /\ (forall b, b <> 0 -> exists m, (forall x, k_of m x <> 0) /\ rescale m (u "Celsius") (u "Kelvin") (Q2Qc 25) = Q2Qc (29815 # 100))
  /\ (never_through decreasing (u "Celsius") (u "Kelvin") /\ ordinary shipped_dicts (u "Celsius") /\ density_case shipped_dicts (u "Celsius") (u "Kelvin") = false).
Proof.
  exact (shipped_example_of shipped_start shipped_start_session (proj1 shipped_start_searches) (proj2 shipped_start_searches) shipped_start_fvf shipped_start_fvf_is).
Qed.
