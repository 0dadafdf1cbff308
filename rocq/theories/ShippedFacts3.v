(** * Kinds, definitions and prefixes of the shipped database *)
From Coq Require Import String QArith Qcanon Qpower FMapPositive.
From Verif Require Import Py StrTools Network SearchSpec NetworkFacts Search SearchFacts SearchFacts2 DescFacts
  Hybrid HybridFacts Conv ConvFacts NetFacts2 Converter EngineSpec EngineFacts EngineFacts2 EngineFacts3 EngineFacts4 EngineFacts5 EngineFacts6
  ConsistSpec ConsistFacts CleanFacts Affine Demo EngineFacts7 EngineFacts8 RegionSpec RegionFacts SymAffine
  Dict Database FastDb Shipped ShippedSpec ShippedCert ShippedCheck ShippedFacts ShippedFacts2.
Local Open Scope N_scope.

Definition listed_in (kd : kinds) (k x : str) : Prop := exists l, dget k kd = Some l /\ In x l.
Definition linked_in (g : net (conv Qc)) (f t : str) : Prop := exists a b, get_node g f = Ok a /\ get_node g t = Ok b /\ reachable (registered g) a b.

Lemma volume_dg k : d_volume (dicts_of k) = dg "Volume" k. Proof. reflexivity. Qed.
Lemma weight_dg k : d_weight (dicts_of k) = dg "Weight" k. Proof. reflexivity. Qed.
Lemma uncertain_dg k : d_uncertain (dicts_of k) = shipped_uncertain. Proof. reflexivity. Qed.

Section Use.
Context (cs : list crow) (d : db Qc) (T : htab row).
Local Notation g := (db_net d).
Local Notation kd := (merge_data (db_kinds d)).
Local Notation R := (rules_of (merge_data (db_kinds d))).
Local Notation fvfc := (comps_of T [u "standard barrel"]).
Local Notation D := (dicts_of (all_kinds (db_kinds d))).
Hypothesis HT : tabulate (rows cs g) hempty = Some T.
Hypothesis HL : length cs = length (n_edges g).
Hypothesis HR : distinct_by N.eqb (roots cs) = true.
Hypothesis HE : forallb (check_entry T (n_next g) fvfc) (n_edges g) = true.
Hypothesis HK : check_kinds (kind_comps T kd) = true.
Hypothesis HG : forallb (check_gates T) kd = true.
Hypothesis HW : forallb (check_whole T fvfc) kd = true.
Hypothesis HO : forallb (check_ordinary R) kd = true.
Hypothesis HN : check_ounces R kd = true.
Hypothesis HP : forallb (fun p => forallb (check_prefix T R p) si_units) si_prefixes = true.
Hypothesis HD : forallb (check_def T R) definitions = true.
Hypothesis HC : forallb (check_defs kd) defs = true.
Hypothesis HX : forallb (check_odd T R) checked_odd = true.
Hypothesis HG' : forallb (check_registered T) kd = true.
Hypothesis HV : forallb (check_value T R) checked_values = true.
Hypothesis HU : forallb (check_unlinked T R kd) checked_unlinked = true.
Hypothesis HM : forallb (check_mixed T fvfc R kd) checked_mixed = true.

Lemma comp_kind k x c : listed_in kd k x -> comp_of T x = Some c -> exists l, In (k, comps_of T l) (kind_comps T kd) /\ In c (comps_of T l).
Proof.
  intros (l & Hl & Hx) Hc. exists l. split; [apply in_map_iff; exists (k, l); split; [reflexivity|now apply dget_In]|].
  unfold comp_of in Hc. destruct (hget x T) as [r|] eqn:E; [|discriminate]. injection Hc as <-. apply comps_of_In. exists x, r. auto.
Qed.
Lemma kinds_apart k k' x y : listed_in kd k x -> listed_in kd k' y -> linked_in g x y -> k = k' \/ In (k, k') merged.
Proof.
  intros Hx Hy Hl. apply (linked_comp T g cs fvfc HT HL HR HE) in Hl as (c & Cx & Cy). destruct (comp_kind k x c Hx Cx) as (l & L1 & L2).
  destruct (comp_kind k' y c Hy Cy) as (l' & L3 & L4). pose proof (proj1 (forallb_forall _ _) HK _ L1) as H. cbn beta in H.
  pose proof (proj1 (forallb_forall _ _) H _ L3) as H'. cbn [fst snd] in H'. rewrite !orb_true_iff in H'. destruct H' as [[H'|H']|H'].
  - left. now apply seqb_eq. - right. now apply listed_In.
  - exfalso. pose proof (proj1 (forallb_forall _ _) H' _ L2) as K. apply negb_true_iff in K. apply not_true_iff_false in K. apply K. now apply in_N_In.
Qed.
Lemma kind_safe k f t : listed_in kd k f -> listed_in kd k t -> ~ In k contradictory_kinds -> never_in g disagreeing f t.
Proof.
  intros (l & Hl & Hf) (l' & Hl' & Ht) Hk a b p Ea Eb Hp. assert (l' = l) as -> by congruence.
  apply (gates_safe T g cs fvfc HT HL HE a p b Hp).
  destruct (get_node_entry T g cs HT HL f a Ea) as (e & c & _ & _ & Na & Ta). destruct (get_node_entry T g cs HT HL t b Eb) as (e' & c' & _ & _ & Nb & Tb).
  pose proof (walk_comp T g cs fvfc HT HL HE a p b (proj1 Hp)) as Hc. rewrite Na, Nb in *. unfold comp_of in Hc. unfold mark_at. rewrite Ta, Tb in *.
  cbn [r_cert] in *. f_equal.
  pose proof (proj1 (forallb_forall _ _) HG _ (dget_In k kd l Hl)) as G. unfold check_gates in G. cbn [fst snd] in G. apply orb_true_iff in G as [G|G].
  { exfalso. apply Hk. now apply smem_In. }
  pose proof (marks_of_In T l f _ Hf Ta) as Ma. pose proof (marks_of_In T l t _ Ht Tb) as Mb. cbn [r_cert] in Ma, Mb.
  apply (distinct_by_inj _ _ G _ _ Ma Mb); cbn [mark_of fst]; apply N.eqb_eq; congruence.
Qed.
Lemma kind_ordinary k x : listed_in kd k x -> ~ In k rule_kinds -> ordinary D x.
Proof.
  intros (l & Hl & Hx) Hk. pose proof (proj1 (forallb_forall _ _) HO _ (dget_In k kd l Hl)) as G. unfold check_ordinary in G. cbn [fst snd] in G.
  apply orb_true_iff in G as [G|G]; [exfalso; apply Hk; now apply smem_In|]. apply ordinary_ok. exact (proj1 (forallb_forall _ _) G x Hx).
Qed.
Lemma kind_registered k x : listed_in kd k x -> k <> u "Acceleration" -> exists c, comp_of T x = Some c.
Proof.
  intros (l & Hl & Hx) Hk. pose proof (proj1 (forallb_forall _ _) HG' _ (dget_In k kd l Hl)) as G. unfold check_registered in G. cbn [fst snd] in G.
  apply orb_true_iff in G as [G|G]; [exfalso; apply smem_In in G as [G|[]]; congruence|]. pose proof (proj1 (forallb_forall _ _) G x Hx) as K. cbn beta in K.
  unfold comp_of. destruct (hget x T); [eauto|discriminate].
Qed.
Lemma comp_linked x y c : comp_of T x = Some c -> comp_of T y = Some c -> linked_in g x y.
Proof. intros H1 H2. apply (linked_comp T g cs fvfc HT HL HR HE). eauto. Qed.
Lemma merged_volume k : In (u "Volume", k) merged -> k = u "Weight".
Proof. intros H. cbn in H. repeat (destruct H as [H|H]; [first [discriminate H|injection H as <-; reflexivity]|]). contradiction. Qed.
Lemma dg_listed k x : In x (dg k kd) -> listed_in kd (u k) x.
Proof. unfold dg, listed_in. destruct (dget (u k) kd) as [l|]; [eauto|contradiction]. Qed.
Lemma listed_dg k x : listed_in kd (u k) x -> In x (dg k kd).
Proof. unfold dg. intros (l & -> & H). exact H. Qed.
Lemma volume_or_not k x : listed_in kd k x -> simple x -> In x (d_volume D) -> k = u "Volume" \/ In x (d_uncertain D) \/ ~ In x (d_weight D).
Proof.
  intros Hx Hs Hv. rewrite volume_dg, dg_all in Hv by reflexivity.
  pose proof (proj1 (forallb_forall _ _) HN _ Hv) as G. cbn beta in G. apply orb_true_iff in G as [G|G].
  - right. right. intros K. apply negb_true_iff, not_true_iff_false in G. apply G. apply sset_spec.
    now rewrite weight_dg, dg_all in K by reflexivity.
  - right. left. rewrite uncertain_dg. now apply smem_In.
Qed.
Lemma volume_kind k x : listed_in kd k x -> simple x -> In x (d_volume D) -> k = u "Volume" \/ k = u "Weight".
Proof.
  intros Hx Hs Hv. rewrite volume_dg, dg_all in Hv by reflexivity.
  apply complete_simple in Hv; [|exact Hs]. apply dg_listed in Hv. destruct (kind_registered _ _ Hv ltac:(discriminate)) as (c & Hc).
  destruct (kinds_apart (u "Volume") k x x Hv Hx (comp_linked x x c Hc Hc)) as [E|E]; [left; congruence|right; now apply merged_volume].
Qed.
Lemma kind_density k f t : listed_in kd k f -> listed_in kd k t -> simple f -> simple t -> k <> u "Volume" -> density_case D f t = false.
Proof.
  intros Hf Ht Sf St Hk. apply not_true_is_false. unfold density_case. rewrite !andb_true_iff, orb_true_iff, !andb_true_iff, !negb_true_iff, !smem_In.
  intros ((U1 & U2) & H).
  assert (K : forall x, listed_in kd k x -> simple x -> In x (d_volume D) -> smem x (d_uncertain D) = false -> False).
  { intros x Lx Sx Vx Ux. destruct (volume_kind k x Lx Sx Vx) as [E|E]; [contradiction|]. subst k.
    assert (W : In x (d_weight D)).
    { rewrite weight_dg, dg_all by reflexivity. apply complete_in. exact (listed_dg "Weight" x Lx). }
    destruct (volume_or_not _ x Lx Sx Vx) as [E|[E|E]]; [discriminate E|apply smem_In in E; rewrite E in Ux; discriminate Ux|exact (E W)]. }
  destruct H as [[H _]|[H _]]; [exact (K f Hf Sf H U1)|exact (K t Ht St H U2)].
Qed.
Lemma merged_weight k : In (u "Weight", k) merged -> k = u "Volume".
Proof. intros H. cbn in H. repeat (destruct H as [H|H]; [first [discriminate H|injection H as <-; reflexivity]|]). contradiction. Qed.
Lemma weight_kind k x : listed_in kd k x -> simple x -> In x (d_weight D) -> k = u "Volume" \/ k = u "Weight".
Proof.
  intros Hx Hs Hv. rewrite weight_dg, dg_all in Hv by reflexivity.
  apply complete_simple in Hv; [|exact Hs]. apply dg_listed in Hv. destruct (kind_registered _ _ Hv ltac:(discriminate)) as (c & Hc).
  destruct (kinds_apart (u "Weight") k x x Hv Hx (comp_linked x x c Hc Hc)) as [E|E]; [right; congruence|left; now apply merged_weight].
Qed.
Lemma apart_density k k' f t : listed_in kd k f -> listed_in kd k' t -> simple f -> simple t -> k <> k' -> ~ In (k, k') merged -> density_case D f t = false.
Proof.
  intros Hf Ht Sf St Hk Hm. apply not_true_is_false. unfold density_case. rewrite !andb_true_iff, orb_true_iff, !andb_true_iff, !smem_In.
  intros (_ & H). assert (X : (k = u "Volume" \/ k = u "Weight") /\ (k' = u "Volume" \/ k' = u "Weight")).
  { destruct H as [[H1 H2]|[H1 H2]].
    - exact (conj (volume_kind k f Hf Sf H1) (weight_kind k' t Ht St H2)).
    - exact (conj (weight_kind k f Hf Sf H2) (volume_kind k' t Ht St H1)). }
  destruct X as [[-> | ->] [-> | ->]]; first [exact (Hk eq_refl)|apply Hm; apply listed_In; reflexivity].
Qed.
Lemma apart_no_number k k' f t s l v w uc : listed_in kd k f -> listed_in kd k' t -> k <> k' -> ~ In (k, k') merged -> ~ In k rule_kinds ->
  unit_name f -> unit_name t -> session_of d s -> Forall keeps l -> fst (convert (VNum v) (UStr f) (UStr t) uc (do_calls l s)) <> Ok (Some (CVal w)).
Proof.
  intros Lf Lt Hk Hm Hr Hf Ht S K H.
  destruct (number_linked cs d T HT HL HE s l v w f t uc S K Hf Ht (kind_ordinary k f Lf Hr) (apart_density k k' f t Lf Lt (proj1 Hf) (proj1 Ht) Hk Hm) H) as [E|E].
  - subst t. assert (Hc : exists c, comp_of T f = Some c).
    { destruct (seqb k (u "Acceleration")) eqn:Ea.
      - apply seqb_eq in Ea. apply (kind_registered k' f Lt). intros ->. exact (Hk Ea).
      - apply (kind_registered k f Lf). intros ->. discriminate Ea. }
    destruct Hc as (c & Hc). destruct (kinds_apart k k' f f Lf Lt (comp_linked f f c Hc Hc)); [exact (Hk H0)|exact (Hm H0)].
  - destruct (kinds_apart k k' f t Lf Lt E) as [X|X]; [exact (Hk X)|exact (Hm X)].
Qed.
Lemma whole_comp k f t : In k whole_kinds -> listed_in kd k f -> listed_in kd k t -> exists c, comp_of T f = Some c /\ comp_of T t = Some c /\ regular_comp T fvfc c.
Proof.
  intros Hk (l & Hl & Hf) (l' & Hl' & Ht). assert (l' = l) as -> by congruence.
  pose proof (proj1 (forallb_forall _ _) HW _ (dget_In k kd l Hl)) as G. unfold check_whole in G. cbn [fst snd] in G.
  apply smem_In in Hk. rewrite Hk in G. apply andb_true_iff in G as [G1 G2]. destruct (comps_of T l) as [|c [|? ?]] eqn:Ec; try discriminate.
  assert (K : forall x, In x l -> comp_of T x = Some c).
  { intros x Hx. pose proof (proj1 (forallb_forall _ _) G1 x Hx) as Gx. cbn beta in Gx. unfold comp_of. destruct (hget x T) as [r|] eqn:E; [|discriminate].
    assert (I : In (c_comp (r_cert r)) (comps_of T l)) by (apply comps_of_In; exists x, r; auto). rewrite Ec in I. destruct I as [->|[]]. reflexivity. }
  exists c. split; [now apply K|]. split; [now apply K|]. apply negb_true_iff, not_true_iff_false in G2. rewrite in_N_In in G2.
  split; intros X; apply G2, in_or_app; [left|right]; exact X.
Qed.
Lemma regular_at_comp x : regular_at T fvfc x = true -> exists c, comp_of T x = Some c /\ regular_comp T fvfc c.
Proof.
  unfold regular_at, comp_of. destruct (hget x T) as [r|]; [|discriminate]. intros G. exists (c_comp (r_cert r)). split; [reflexivity|].
  apply negb_true_iff, not_true_iff_false in G. rewrite in_N_In in G. split; intros X; apply G, in_or_app; [left|right]; exact X.
Qed.
Lemma kind_has_listed k x : kind_has kd k x = true -> listed_in kd k x.
Proof. unfold kind_has, listed_in. destruct (dget k kd) as [l|]; [|discriminate]. intros H. exists l. split; [reflexivity|now apply smem_In]. Qed.

(** ** Definitions *)
Lemma def_facts x : check_def T R x = true -> plain_b R (d_from x) (d_to x) = true /\ mark_at T (d_from x) = mark_at T (d_to x)
  /\ (exists c, comp_of T (d_from x) = Some c /\ comp_of T (d_to x) = Some c)
  /\ size_ok (CThen (CMul (d_factor x)) (CAdd (d_offset x))) (size_at T (d_from x)) (size_at T (d_to x)) = true.
Proof.
  unfold check_def, mark_at, comp_of, size_at. intros H. apply andb_true_iff in H as [H1 H]. destruct (hget (d_from x) T) as [a|]; [|discriminate]. destruct (hget (d_to x) T) as [b|]; [|discriminate].
  apply andb_true_iff in H as [H2 H3]. apply mark_eqb_eq in H2. split; [exact H1|]. split; [now rewrite H2|]. split; [|exact H3].
  exists (c_comp (r_cert a)). split; [reflexivity|]. unfold mark_of in H2. congruence.
Qed.
Lemma mark_safe f t : mark_at T f = mark_at T t -> never_in g disagreeing f t.
Proof.
  intros M a b p Ea Eb Hp. apply (gates_safe T g cs fvfc HT HL HE a p b Hp). apply get_node_spec in Ea as [_ ->]. apply get_node_spec in Eb as [_ ->]. exact M.
Qed.
Local Open Scope Qc_scope.
Lemma fvf_some (s : st Qc) : (forall b, fv_of s = Ok b -> b <> 0) -> exists b, b <> 0 /\ fvf_is b s.
Proof.
  intros H. unfold fvf_is. destruct (fv_of s) as [b|e]; [exists b; split; [now apply H|now left]|].
  exists 1. split; [discriminate|]. right. now exists e.
Qed.
Lemma def_value x s l v w uc : check_def T R x = true -> session_of d s -> Forall keeps l -> (forall b, fv_of (do_calls l s) = Ok b -> b <> 0) ->
  fst (convert (VNum v) (UStr (d_from x)) (UStr (d_to x)) uc (do_calls l s)) = Ok (Some (CVal w)) -> w = v * Q2Qc (d_factor x) + Q2Qc (d_offset x).
Proof.
  intros Hx S K Hb H. destruct (def_facts x Hx) as (H1 & H2 & _ & H3). destruct (plain_ok d _ _ H1) as (Hf & Ht & Ho & Hd & Hn).
  destruct (fvf_some _ Hb) as (b & B0 & B1).
  rewrite (value cs d T HT HL HE s l v w _ _ uc b S K Hf Ht Ho Hd B0 B1 (mark_safe _ _ H2) H).
  destruct (size_ok_sound (size_at T) b _ _ _ v B0 H3) as (y & Y1 & Y2). cbn [ceval] in Y1. cbn [rbind] in Y1.
  symmetry. apply rescale_unique; [exact (size_ne T g cs fvfc HT HL HE b _ B0)|]. injection Y1 as Y1. now rewrite <- Y2, <- Y1.
Qed.
Lemma def_reached x s l v uc : check_def T R x = true -> (exists c, comp_of T (d_from x) = Some c /\ regular_comp T fvfc c) ->
  session_of d s -> searches (s_par s) -> Forall converts l -> (forall b, fv_of s = Ok b -> b <> 0) ->
  fst (convert (VNum v) (UStr (d_from x)) (UStr (d_to x)) uc (do_calls l s)) = Ok (Some (CVal (v * Q2Qc (d_factor x) + Q2Qc (d_offset x)))).
Proof.
  intros Hx (c & Hc & Rc) S Hs Hl Hb. destruct (def_facts x Hx) as (H1 & _ & (c' & C1 & C2) & _). assert (c' = c) as -> by congruence.
  destruct (plain_ok d _ _ H1) as (Hf & Ht & Ho & Hd & Hn).
  destruct (reached cs d T HT HL HR HE s l v _ _ uc c S Hs Hl Hf Ht Hd (ordinary_none d _ _ Ho Hn) C1 C2 Rc) as (w & Hw).
  rewrite Hw. do 3 f_equal. apply (def_value x s l v w uc Hx S (converts_keep l Hl)); [|exact Hw].
  rewrite (fv_frame _ _ (do_calls_frame l s Hl)). exact Hb.
Qed.
Lemma kind_value k f t s l v w uc b : session_of d s -> Forall keeps l -> unit_name f -> unit_name t -> listed_in kd k f -> listed_in kd k t ->
  ~ In k contradictory_kinds -> ~ In k rule_kinds -> b <> 0 -> fvf_is b (do_calls l s) ->
  fst (convert (VNum v) (UStr f) (UStr t) uc (do_calls l s)) = Ok (Some (CVal w)) -> w = rescale (cscale (size_at T) b) f t v.
Proof.
  intros S K Hf Ht Lf Lt Hc Hr Hb Hv H.
  assert (Hd : density_case D f t = false).
  { apply (kind_density k); try assumption; [apply Hf|apply Ht|]. intros ->. apply Hc. left. reflexivity. }
  exact (value cs d T HT HL HE s l v w f t uc b S K Hf Ht (kind_ordinary k f Lf Hr) Hd Hb Hv (kind_safe k f t Lf Lt Hc) H).
Qed.
Lemma defs_listed k l x : In (k, l) defs -> In x l -> listed_in kd k (d_from x) /\ listed_in kd k (d_to x) /\ check_def T R x = true.
Proof.
  intros Hk Hx. pose proof (proj1 (forallb_forall _ _) (proj1 (forallb_forall _ _) HC _ Hk) x Hx) as G. apply andb_true_iff in G as [G1 G2].
  split; [now apply kind_has_listed|]. split; [now apply kind_has_listed|]. apply (proj1 (forallb_forall _ _) HD). apply in_flat_map. exists (k, l). auto.
Qed.
(** ** Registered conversions *)
Lemma direct_b_edge f t p q : direct_b T f t p q = true -> exists c, edge_of T f t = Some c /\ forall fv x, ceval fv c x = Ok (x * Q2Qc p + Q2Qc q).
Proof.
  unfold direct_b. destruct (edge_of T f t) as [c|]; [|discriminate]. intros H. apply andb_true_iff in H as [H1 H2]. exists c. split; [reflexivity|].
  intros fv x. destruct (saff c) as [[[p' e] q']|] eqn:E; [|discriminate]. rewrite !andb_true_iff in H2. destruct H2 as ((H2 & H3) & H4).
  apply Z.eqb_eq in H2. subst e. rewrite (no_fvf_any fv (Ok 1) c x H1), (saff_sound 1 c ltac:(discriminate) _ E x). f_equal. unfold sval. rewrite bpow_0.
  apply Qeq_bool_iff in H3, H4. rewrite (Q2Qc_eq _ _ H3), (Q2Qc_eq _ _ H4). ring.
Qed.
Lemma both_direct f t p q p' q' s l v uc : plain_b R f t = true -> direct_b T f t p q = true -> direct_b T t f p' q' = true ->
  session_of d s -> bounded (s_par s) -> Forall converts l ->
  fst (convert (VNum v) (UStr f) (UStr t) uc (do_calls l s)) = Ok (Some (CVal (v * Q2Qc p + Q2Qc q))).
Proof.
  intros H1 H2 H3 S B Hl. destruct (direct_b_edge _ _ _ _ H2) as (c & Ec & Hc). destruct (direct_b_edge _ _ _ _ H3) as (c' & Ec' & _).
  exact (direct cs d T HT HL HE s l v _ f t uc c c' S B Hl H1 Ec Ec' (Hc (fv_of s) v)).
Qed.
Lemma prefixes p e x n s l v uc : In (p, e) si_prefixes -> In (x, n) si_units -> p <> u "K" \/ n = 1%Z ->
  session_of d s -> bounded (s_par s) -> Forall converts l ->
  fst (convert (VNum v) (UStr (p ++ x)) (UStr x) uc (do_calls l s)) = Ok (Some (CVal (v * Q2Qc (ten_to (n * e)))))
  /\ fst (convert (VNum v) (UStr x) (UStr (p ++ x)) uc (do_calls l s)) = Ok (Some (CVal (v / Q2Qc (ten_to (n * e))))).
Proof.
  intros Hp Hu Hk S B Hl. pose proof (proj1 (forallb_forall _ _) (proj1 (forallb_forall _ _) HP _ Hp) _ Hu) as G. unfold check_prefix in G. cbn [fst snd] in G.
  apply orb_true_iff in G as [G|G].
  { exfalso. apply andb_true_iff in G as [G1 G2]. apply seqb_eq in G1. apply negb_true_iff, Z.eqb_neq in G2. tauto. }
  rewrite !andb_true_iff in G. destruct G as (((G1 & G2) & G3) & G4). rewrite (Z.mul_comm n e).
  rewrite (both_direct _ _ _ _ _ _ s l v uc G1 G3 G4 S B Hl), (both_direct _ _ _ _ _ _ s l v uc G2 G4 G3 S B Hl).
  change (Q2Qc 0) with 0. rewrite !Qcplus_0_r. split; [reflexivity|]. do 3 f_equal. unfold Qcdiv. f_equal. unfold ten_to. rewrite <- Q2Qc_inv. apply Q2Qc_eq. apply Qpower_opp.
Qed.
Lemma odd_value f t p q s l v uc : In (f, t, p, q) checked_odd -> session_of d s -> bounded (s_par s) -> Forall converts l ->
  fst (convert (VNum v) (UStr (u f)) (UStr (u t)) uc (do_calls l s)) = Ok (Some (CVal (v * Q2Qc p + Q2Qc q))).
Proof.
  intros H S B Hl. pose proof (proj1 (forallb_forall _ _) HX _ H) as G. cbn [check_odd] in G. unfold check_odd in G. rewrite !andb_true_iff in G.
  destruct G as ((G1 & G2) & G3). exact (both_direct _ _ _ _ _ _ s l v uc G1 G2 G3 S B Hl).
Qed.
Lemma known_value f t x y s l uc : In (f, t, x, y) checked_values -> session_of d s -> bounded (s_par s) -> Forall converts l ->
  fst (convert (VNum (Q2Qc x)) (UStr (u f)) (UStr (u t)) uc (do_calls l s)) = Ok (Some (CVal (Q2Qc y))).
Proof.
  intros H S B Hl. pose proof (proj1 (forallb_forall _ _) HV _ H) as G. unfold check_value in G. rewrite !andb_true_iff in G. destruct G as ((G1 & G2) & G3).
  destruct (edge_of T (u t) (u f)) as [c'|] eqn:Ec'; [|discriminate]. destruct (edge_of T (u f) (u t)) as [c|] eqn:Ec; [|discriminate].
  apply andb_true_iff in G3 as [G3 G4]. destruct (ceval (Ok 1) c (Q2Qc x)) as [z|] eqn:Ez; [|discriminate].
  assert (z = Q2Qc y) as ->. { apply Qeq_bool_iff in G4. apply Qc_is_canon. cbn. rewrite G4. symmetry. apply Qred_correct. }
  refine (direct cs d T HT HL HE s l _ _ _ _ uc c c' S B Hl G1 Ec Ec' _). rewrite (no_fvf_any (fv_of s) (Ok 1) c _ G3). exact Ez.
Qed.
Lemma unlinked_pair k f t : In (k, (f, t)) checked_unlinked -> listed_in kd (u k) (u f) /\ listed_in kd (u k) (u t)
  /\ unit_name (u f) /\ unit_name (u t) /\ forall s l v w uc, session_of d s -> Forall keeps l -> fst (convert (VNum v) (UStr (u f)) (UStr (u t)) uc (do_calls l s)) <> Ok (Some (CVal w)).
Proof.
  intros H. pose proof (proj1 (forallb_forall _ _) HU _ H) as G. unfold check_unlinked in G. rewrite !andb_true_iff in G. destruct G as (((G1 & G2) & G3) & G4).
  destruct (plain_ok d _ _ G1) as (Hf & Ht & Ho & Hd & Hn). split; [now apply kind_has_listed|]. split; [now apply kind_has_listed|]. split; [exact Hf|]. split; [exact Ht|].
  intros s l v w uc S K Hc.
  destruct (number_linked cs d T HT HL HE s l v w _ _ uc S K Hf Ht Ho Hd Hc) as [E|E]; [contradiction|].
  apply (linked_comp T g cs fvfc HT HL HR HE) in E as (c & C1 & C2). unfold comp_of in C1, C2.
  destruct (hget (u f) T) as [a|]; [|discriminate]. destruct (hget (u t) T) as [b|]; [|discriminate]. apply negb_true_iff, N.eqb_neq in G4. congruence.
Qed.
Lemma mixed_pair k k' x s l v uc : In (k, k', x) checked_mixed -> session_of d s -> searches (s_par s) -> Forall converts l -> (forall b, fv_of s = Ok b -> b <> 0) ->
  listed_in kd (u k) (d_from x) /\ listed_in kd (u k') (d_to x)
  /\ fst (convert (VNum v) (UStr (d_from x)) (UStr (d_to x)) uc (do_calls l s)) = Ok (Some (CVal (v * Q2Qc (d_factor x) + Q2Qc (d_offset x)))).
Proof.
  intros H S Hs Hl Hb. pose proof (proj1 (forallb_forall _ _) HM _ H) as G. unfold check_mixed in G. rewrite !andb_true_iff in G. destruct G as (((G1 & G2) & G3) & G4).
  split; [now apply kind_has_listed|]. split; [now apply kind_has_listed|]. apply def_reached; try assumption. now apply regular_at_comp.
Qed.
(** ** Whole kinds *)
Lemma quick_feval D' f t h fv (v : Qc) : quick (V:=Qc) D' f t = Some h -> exists w, feval fv h v = Ok w.
Proof.
  unfold quick. intros H. repeat match type of H with (if ?c then _ else _) = _ => destruct c end; try discriminate; injection H as <-; cbn [feval]; eauto.
  cbn [adiv aconst exact_arith]. rewrite qdiv_ok by discriminate. eauto.
Qed.
Lemma whole_number k f t s l v uc : In k whole_kinds -> listed_in kd k f -> listed_in kd k t -> unit_name f -> unit_name t ->
  session_of d s -> searches (s_par s) -> Forall converts l -> exists w, fst (convert (VNum v) (UStr f) (UStr t) uc (do_calls l s)) = Ok (Some (CVal w)).
Proof.
  intros Hk Lf Lt Hf Ht S Hs Hl. destruct (whole_comp k f t Hk Lf Lt) as (c & C1 & C2 & Rc).
  assert (Hd : density_case D f t = false).
  { apply (kind_density k); try assumption; [apply Hf|apply Ht|]. intros ->. apply smem_In in Hk. discriminate Hk. }
  destruct (quick (V:=Qc) D f t) as [h|] eqn:Eq.
  - rewrite (convert_quick s l v f t uc h (session_fresh cs d T HT HL HE s S) (proj2 (proj2 (proj2 (proj2 (proj2 S))))) (keeps_enough l (converts_keep l Hl)) Hf Ht).
    + destruct (quick_feval D f t h (fv_of (do_calls l s)) v Eq) as (w & ->). exists w. reflexivity.
    + destruct S as (_ & -> & _). exact Hd. + destruct S as (_ & -> & _). exact Eq.
  - exact (reached cs d T HT HL HR HE s l v f t uc c S Hs Hl Hf Ht Hd Eq C1 C2 Rc).
Qed.
(** ** Order *)
Lemma not_decreasing f t : ~ linked_in g (u "API") f -> never_in g decreasing f t.
Proof.
  intros H a b p Ea Eb Hp F. destruct (follows_edge g _ _ _ _ (proj1 Hp) F) as (x & y & Hx & Hy & Hr & Hd).
  assert (G : forall p a b, walk (registered g) a p b -> forall x, In x p -> comp_of T (nname x) = comp_of T (nname a)).
  { clear - HT HL HE. intros p a b W. induction W as [a|a a' p b Hab W IH]; intros x Hx; [destruct Hx as [->|[]]; reflexivity|].
    destruct Hx as [->|Hx]; [reflexivity|]. rewrite (IH x Hx). exact (proj1 (registered_comp T g cs fvfc HT HL HE a a' Hab)). }
  pose proof (G _ _ _ (proj1 Hp) x Hx) as Gx. pose proof (G _ _ _ (proj1 Hp) y Hy) as Gy.
  destruct (registered_comp T g cs fvfc HT HL HE x y Hr) as [_ Nx]. destruct (comp_of T (nname x)) as [c|] eqn:Cx; [|now apply Nx].
  apply get_node_spec in Ea as [_ Ea]. rewrite Ea in Gx, Gy.
  assert (X : comp_of T (u "API") = Some c); [|exact (H (comp_linked _ _ c X (eq_sym Gx)))].
  change decreasing with [(u "API", u "SgO"); (u "API", u "g/cc"); (u "SgO", u "API"); (u "g/cc", u "API")] in Hd.
  destruct Hd as [Hd|[Hd|[Hd|[Hd|[]]]]]; injection Hd as E1 E2.
  - rewrite E1. exact Cx. - rewrite E1. exact Cx. - rewrite E2, Gy. now symmetry. - rewrite E2, Gy. now symmetry.
Qed.
End Use.
