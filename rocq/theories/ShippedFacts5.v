(** * The statements for the quantities, about any database that passes the check *)
From Coq Require Import String QArith Qcanon FMapPositive.
From Verif Require Import Py StrTools Network SearchSpec NetworkFacts Search SearchFacts SearchFacts2 DescFacts
  Hybrid HybridFacts Conv ConvFacts NetFacts2 Converter EngineSpec EngineFacts EngineFacts2 EngineFacts3 EngineFacts4 EngineFacts5 EngineFacts6
  ConsistSpec ConsistFacts CleanFacts Affine Demo EngineFacts7 EngineFacts8 OpsSpec Operations OpsFacts2 PropsOps RegionSpec RegionFacts SymAffine
  Dict Database FastDb Shipped Units ShippedSpec ShippedCert ShippedCheck ShippedFacts ShippedFacts2 ShippedFacts3 ShippedFacts4 KindFacts.
Local Open Scope N_scope.

Lemma kind_lists : (forall k, In k proportional_kinds -> ~ In k contradictory_kinds /\ ~ In k rule_kinds)
  /\ (forall k, In k measured_kinds -> In k whole_kinds /\ ~ In k contradictory_kinds /\ ~ In k rule_kinds)
  /\ (forall k, In k square_kinds -> In k proportional_kinds /\ In k measured_kinds).
Proof.
  assert (G : forallb (fun k => negb (smem k contradictory_kinds) && negb (smem k rule_kinds)) proportional_kinds
    && forallb (fun k => smem k whole_kinds && (negb (smem k contradictory_kinds) && negb (smem k rule_kinds))) measured_kinds
    && forallb (fun k => smem k proportional_kinds && smem k measured_kinds) square_kinds = true) by (vm_compute; reflexivity).
  rewrite !andb_true_iff, !forallb_forall in G. destruct G as ((G1 & G2) & G3).
  assert (N : forall k l, negb (smem k l) = true -> ~ In k l) by (intros k l H K; apply smem_In in K; rewrite K in H; discriminate H).
  split; [|split]; intros k Hk.
  - apply G1 in Hk. apply andb_true_iff in Hk as [H1 H2]. auto.
  - apply G2 in Hk. rewrite !andb_true_iff in Hk. destruct Hk as (H1 & H2 & H3). apply smem_In in H1. auto.
  - apply G3 in Hk. apply andb_true_iff in Hk as [H1 H2]. now apply smem_In in H1, H2.
Qed.

Section G.
Context (cs : list crow) (d : db Qc).
Hypothesis H : check_db cs d = true.
Local Notation g := (db_net d).
Local Notation kd := (merge_data (db_kinds d)).
Local Notation R := (rules_of (merge_data (db_kinds d))).
Local Notation D := (dicts_of (all_kinds (db_kinds d))).
Local Open Scope Qc_scope.

Lemma gen_measure b : 0 < b -> exists m, (forall x, 0 < k_of m x)
  /\ (forall k s l v w f t uc, session_of d s -> Forall keeps l -> fvf_is b (do_calls l s) -> unit_name f -> unit_name t ->
        listed_in kd k f -> listed_in kd k t -> ~ In k contradictory_kinds -> ~ In k rule_kinds ->
        fst (convert (VNum v) (UStr f) (UStr t) uc (do_calls l s)) = Ok (Some (CVal w)) -> w = rescale m f t v)
  /\ (forall k f t, In k proportional_kinds -> listed_in kd k f -> listed_in kd k t -> o_of m f = o_of m t).
Proof.
  intros Hb. assert (Hb0 : b <> 0) by (intros ->; discriminate Hb).
  destruct (parts cs d H) as (T & HT & HL & HR & HE & HK & HG & HW & HO & HN & HP & HD & (HC & HC') & HX & HG' & HV & HU & HM & HZ).
  unfold check_units in HZ. rewrite !andb_true_iff in HZ. destruct HZ as ((((Z1 & Z2) & Z3) & Z4) & Z5).
  exists (cscale (size_at T) b). split; [|split].
  - intros x. unfold cscale, size_at. cbn [k_of]. destruct (hget x T) as [r|] eqn:Er.
    + assert (P : size_pos (r_cert r) = true).
      { apply (proj1 (forallb_forall _ _) Z1). apply (proj2 (tabulate_spec _ _ _ HT)) in Er. rewrite hget_empty in Er. destruct Er as [Er|Er]; [|discriminate Er].
        unfold rows in Er. apply in_map_iff in Er as ([e c] & Ee & Ec). apply in_combine_r in Ec. injection Ee as _ <-. exact Ec. }
      unfold size_pos in P. destruct (c_size (r_cert r)) as [[q e] o]. cbn [fst] in P. rewrite <- (Qcmult_0_l (bpow b e)).
      apply Qcmult_lt_compat_r; [now apply bpow_pos|]. apply Q2Qc_pos. unfold Qlt. cbn. rewrite Z.mul_1_r. destruct (Qnum q); try discriminate P. reflexivity.
    + rewrite bpow_0. reflexivity.
  - intros k s l v w f t uc S K Hv Hf Ht Lf Lt Hc Hr Hw.
    exact (kind_value cs d T HT HL HR HE HK HG HO HN HG' k f t s l v w uc b S K Hf Ht Lf Lt Hc Hr Hb0 Hv Hw).
  - intros k f t Hk (l & Hl & Hf) (l' & Hl' & Ht). assert (l' = l) as -> by congruence.
    pose proof (proj1 (forallb_forall _ _) Z2 _ (dget_In k kd l Hl)) as G. unfold check_origin in G. cbn [fst snd] in G. apply smem_In in Hk. rewrite Hk in G.
    destruct l as [|x l]; [contradiction|]. rewrite forallb_forall in G. pose proof (G f Hf) as Gf. pose proof (G t Ht) as Gt.
    unfold cscale. cbn [o_of]. revert Gf Gt. unfold origin_of, size_at, same_origin. destruct (hget x T) as [rx|]; [|discriminate].
    destruct (hget f T) as [rf|]; [|discriminate]. destruct (hget t T) as [rt|]; [|discriminate]. rewrite !Qeq_bool_iff.
    destruct (c_size (r_cert rf)) as [[kf ef] of_]. destruct (c_size (r_cert rt)) as [[kt et] ot]. cbn [snd]. intros Gf Gt. apply Q2Qc_eq. now rewrite <- Gf, Gt.
Qed.
Lemma gen_convertible k f t s l : In k measured_kinds -> listed_in kd k f -> listed_in kd k t -> unit_name f -> unit_name t ->
  session_of d s -> searches (s_par s) -> Forall converts l -> fst (convertible (V:=Qc) f t None (do_calls l s)) = Ok true.
Proof.
  intros Hk Lf Lt Hf Ht S Hs Hl. destruct (proj1 (proj2 kind_lists) k Hk) as (Hw & Hc & Hr).
  destruct (gen_whole cs d H k f t s l qone None Hw Lf Lt Hf Ht S Hs Hl) as (w & E).
  assert (Fr : fresh_session s).
  { destruct (parts cs d H) as (T & HT & HL & HR & HE & HK & HG & HW & HO & HN & HP & HD & (HC & HC') & HX & HG' & HV & HU & HM & HZ).
    exact (session_fresh cs d T HT HL HE s S). }
  pose proof S as (S1 & S2 & S3 & _ & _ & S6).
  destruct (quiet_session s l Fr S6 (converts_quiet _ _ Hl)) as (St & En & _ & N & Ds).
  rewrite (convertible_simple f t None _ St En (proj1 Hf) (proj1 Ht)). unfold convertible_result.
  rewrite convert_settled in E; try assumption.
  - destruct (val_result (do_calls l s) qone (bare_answer (do_calls l s) f t)) as [[c|]|e]; [reflexivity| |discriminate E].
    exfalso. cbn [finish_result] in E. destruct (p_raise _); discriminate E.
  - rewrite Ds, S2. apply (gen_density cs d H k f t Lf Lt (proj1 Hf) (proj1 Ht)). intros ->. apply Hc. now left.
Qed.

(** ** The dictionary *)
Lemma gen_class k x : listed_in kd k x -> exists l, dget k (all_kinds (db_kinds d)) = Some l /\ In x l.
Proof. intros (l & Hl & Hx). destruct (ext_get _ _ k l (ext_all (db_kinds d)) Hl) as (l' & Hl' & G & _). exists l'. auto. Qed.
Lemma gen_order_keys : exists A B, kd = A ++ B /\ (forall k, In k (map fst A) -> ~ In k late_kinds /\ (In k classes \/ k = u "Date")) /\ map fst B = late_kinds.
Proof.
  destruct (parts cs d H) as (T & HT & HL & HR & HE & HK & HG & HW & HO & HN & HP & HD & (HC & HC') & HX & HG' & HV & HU & HM & HZ).
  unfold check_units in HZ. rewrite !andb_true_iff in HZ. destruct HZ as ((((Z1 & Z2) & Z3) & Z4) & Z5). unfold check_order in Z5. apply andb_true_iff in Z5 as [_ Z5].
  destruct (rev (map fst kd)) as [|k1 [|k2 [|k3 t]]] eqn:Er; try discriminate Z5. rewrite !andb_true_iff in Z5. destruct Z5 as ((((E1 & E2) & E3) & E4) & E5).
  apply seqb_eq in E1, E2, E3. apply (f_equal (@rev _)) in Er. rewrite rev_involutive in Er. cbn [rev] in Er. rewrite <- !app_assoc in Er. cbn [Datatypes.app] in Er.
  exists (firstn (length (rev t)) kd), (skipn (length (rev t)) kd). split; [symmetry; apply firstn_skipn|]. split.
  - rewrite <- firstn_map, Er. rewrite <- (Nat.add_0_r (length (rev t))), firstn_app_2. cbn [firstn]. rewrite app_nil_r. intros k Hk. apply in_rev in Hk.
    split.
    + pose proof (proj1 (forallb_forall _ _) E4 k Hk) as X. cbn beta in X. intros Y. apply smem_In in Y. rewrite Y in X. discriminate X.
    + pose proof (proj1 (forallb_forall _ _) E5 k Hk) as X. cbn beta in X. apply orb_true_iff in X as [X|X]; [left; now apply smem_In|right; now apply seqb_eq].
  - rewrite <- skipn_map, Er. rewrite skipn_app, skipn_all, Nat.sub_diag. cbn [skipn Datatypes.app]. now rewrite E1, E2, E3.
Qed.
Lemma distinct_get (l : kinds) k v : distinct_by seqb (map fst l) = true -> In (k, v) l -> dget k l = Some v.
Proof.
  induction l as [|[k' v'] l IH]; [intros _ []|]. cbn [map fst distinct_by dget]. intros X. apply andb_true_iff in X as [X1 X2]. intros [Y|Y].
  - injection Y as -> ->. now rewrite seqb_refl.
  - destruct (seqb k k') eqn:Ek; [|exact (IH X2 Y)]. exfalso. apply seqb_eq in Ek. subst k'. apply negb_true_iff, not_true_iff_false in X1. apply X1.
    apply existsb_exists. exists k. split; [now apply (in_map fst) in Y|apply seqb_refl].
Qed.
Lemma gen_keys : distinct_by seqb (map fst kd) = true.
Proof.
  destruct (parts cs d H) as (T & HT & HL & HR & HE & HK & HG & HW & HO & HN & HP & HD & (HC & HC') & HX & HG' & HV & HU & HM & HZ).
  unfold check_units in HZ. rewrite !andb_true_iff in HZ. destruct HZ as (_ & Z5). unfold check_order in Z5. apply andb_true_iff in Z5 as [Z5 _]. apply andb_true_iff in Z5 as [_ Z5]. exact Z5.
Qed.
Lemma gen_first x k : In (x, k) checked_first -> first_in kd (u x) = option_map u k.
Proof.
  intros I. destruct (parts cs d H) as (T & HT & HL & HR & HE & HK & HG & HW & HO & HN & HP & HD & (HC & HC') & HX & HG' & HV & HU & HM & HZ).
  unfold check_units in HZ. rewrite !andb_true_iff in HZ. destruct HZ as (_ & Z5). unfold check_order in Z5. apply andb_true_iff in Z5 as [Z5 _].
  apply andb_true_iff in Z5 as [Z5 _]. pose proof (proj1 (forallb_forall _ _) Z5 _ I) as G. unfold check_first in G. cbn [fst snd] in G.
  destruct (first_in kd (u x)) as [k0|], k as [k1|]; try discriminate G; [|reflexivity]. apply seqb_eq in G. now rewrite G.
Qed.
Lemma gen_first_listed x k : first_in kd x = Some k -> listed_in kd k x.
Proof.
  unfold first_in. destruct (find _ kd) as [[k' l]|] eqn:Ef; [|intros X; discriminate X]. intros [= <-]. apply find_some in Ef as [E1 E2]. exists l.
  split; [exact (distinct_get kd k' l gen_keys E1)|now apply smem_In].
Qed.
Lemma gen_quotable k x : listed_in kd k x -> literal x = Some x /\ strip x = x.
Proof.
  intros (l & Hl & Hx). destruct (parts cs d H) as (T & HT & HL & HR & HE & HK & HG & HW & HO & HN & HP & HD & (HC & HC') & HX & HG' & HV & HU & HM & HZ).
  unfold check_units in HZ. rewrite !andb_true_iff in HZ. destruct HZ as ((((Z1 & Z2) & Z3) & (Z4 & (Z6 & (Z7 & Z8)))) & Z5).
  pose proof (proj1 (forallb_forall _ _) Z4 _ (dget_In k kd l Hl)) as G. pose proof (proj1 (forallb_forall _ _) G x Hx) as K. unfold quotable in K.
  apply andb_true_iff in K as [K1 K2]. apply seqb_eq in K2. split; [|exact K2]. destruct (literal x) as [y|]; [|discriminate K1]. apply seqb_eq in K1. now subst.
Qed.
Lemma gen_twin k x : In k odd_kinds -> listed_in kd k x -> twin_b x = false.
Proof.
  intros Hk (l & Hl & Hx). destruct (parts cs d H) as (T & HT & HL & HR & HE & HK & HG & HW & HO & HN & HP & HD & (HC & HC') & HX & HG' & HV & HU & HM & HZ).
  unfold check_units in HZ. rewrite !andb_true_iff in HZ. destruct HZ as ((((Z1 & Z2) & Z3) & (Z4 & (Z6 & (Z7 & Z8)))) & Z5).
  destruct Z7 as [Z7 _]. pose proof (proj1 (forallb_forall _ _) Z7 _ (dget_In k kd l Hl)) as G. unfold check_twin in G. cbn [fst snd] in G. apply smem_In in Hk. rewrite Hk in G.
  cbn [negb orb] in G. pose proof (proj1 (forallb_forall _ _) G x Hx) as K. cbn beta in K. now apply negb_true_iff in K.
Qed.
Lemma gen_digits k x : listed_in kd k x -> (In k (map u ["Date"; "Percentage"]%string) -> ~ In c_slash x -> existsb isdigit x = false) /\ (In k square_kinds -> inverse_b x = false).
Proof.
  intros (l & Hl & Hx). destruct (parts cs d H) as (T & HT & HL & HR & HE & HK & HG & HW & HO & HN & HP & HD & (HC & HC') & HX & HG' & HV & HU & HM & HZ).
  unfold check_units in HZ. rewrite !andb_true_iff in HZ. destruct HZ as ((((Z1 & Z2) & Z3) & (Z4 & (Z6 & (Z7 & Z8)))) & Z5).
  pose proof (proj1 (forallb_forall _ _) Z8 _ (dget_In k kd l Hl)) as G. unfold check_digits in G. cbn [fst snd] in G. apply andb_true_iff in G as [G _]. apply andb_true_iff in G as [G1 G2]. split.
  - intros Hk Hs. apply smem_In in Hk. rewrite Hk in G1. cbn [negb orb] in G1. pose proof (proj1 (forallb_forall _ _) G1 x Hx) as K. cbn beta in K.
    apply cmem_false in Hs. rewrite Hs in K. cbn [orb] in K. now apply negb_true_iff in K.
  - intros Hk. apply smem_In in Hk. rewrite Hk in G2. cbn [negb orb] in G2. pose proof (proj1 (forallb_forall _ _) G2 x Hx) as K. cbn beta in K. now apply negb_true_iff in K.
Qed.
(** ** Inverses *)
Lemma gen_minus_one k x : In k measured_kinds -> listed_in kd k x -> letters_b x = true -> x <> u "s" -> x <> u "S" ->
  let y := (x ++ u "-1")%list in first_in kd y = None /\ ~ In y shipped_uncertain /\ ordinary D y /\ forall z, ~ linked_in g y z /\ ~ linked_in g z y.
Proof.
  intros Hk (l & Hl & Hx) Bx N1 N2. destruct (parts cs d H) as (T & HT & HL & HR & HE & HK & HG & HW & HO & HN & HP & HD & (HC & HC') & HX & HG' & HV & HU & HM & HZ).
  unfold check_units in HZ. rewrite !andb_true_iff in HZ. destruct HZ as ((((Z1 & Z2) & Z3) & (Z4 & (Z6 & ((Z7 & Z9) & Z8)))) & Z5).
  pose proof (proj1 (forallb_forall _ _) Z9 _ (dget_In k kd l Hl)) as G. unfold check_inverse in G. cbn [fst snd] in G. apply smem_In in Hk. rewrite Hk in G. cbn [negb orb] in G.
  pose proof (proj1 (forallb_forall _ _) G x Hx) as K. cbn beta in K. rewrite Bx in K. cbn [negb orb] in K.
  destruct (smem x (map u ["s"; "S"]%string)) eqn:Es; [exfalso; apply smem_In in Es; destruct Es as [Es|[Es|[]]]; [exact (N1 (eq_sym Es))|exact (N2 (eq_sym Es))]|].
  cbn [orb] in K. unfold inverse_new in K. cbv zeta in *. destruct (hget (x ++ u "-1")%list T) as [r|] eqn:Eh; [discriminate K|].
  destruct (first_in kd (x ++ u "-1")%list) as [k0|] eqn:Ef; [discriminate K|]. apply andb_true_iff in K as [K1 K2].
  split; [reflexivity|]. split; [intros I; apply smem_In in I; rewrite I in K2; discriminate K2|]. split; [now apply ordinary_ok|]. intros z.
  split; intros Y; apply (linked_comp T g cs _ HT HL HR HE) in Y as (c' & Y1 & Y2); [unfold comp_of in Y1; rewrite Eh in Y1; discriminate Y1|unfold comp_of in Y2; rewrite Eh in Y2; discriminate Y2].
Qed.
(** ** Squares *)
Lemma gen_square k x : In k square_kinds -> listed_in kd k x -> letters_b x = true ->
  first_in kd x = Some k /\ ~ In x shipped_uncertain /\ is_unitless unitless_names x = false
  /\ (~ In x not_squared -> let y := (x ++ u "2")%list in
      ordinary D y /\ ~ In y shipped_uncertain /\ literal y = Some y /\ strip y = y
      /\ (first_in kd y = None \/ first_in kd y = Some (u "Area") /\ k <> u "Area")
      /\ forall x', listed_in kd k x' -> ~ linked_in g x' y /\ ~ linked_in g y x').
Proof.
  intros Hk (l & Hl & Hx) Hb. destruct (parts cs d H) as (T & HT & HL & HR & HE & HK & HG & HW & HO & HN & HP & HD & (HC & HC') & HX & HG' & HV & HU & HM & HZ).
  unfold check_units in HZ. rewrite !andb_true_iff in HZ. destruct HZ as ((((Z1 & Z2) & Z3) & Z4) & Z5).
  pose proof (proj1 (forallb_forall _ _) Z3 _ (dget_In k kd l Hl)) as G. unfold check_square in G. cbn [fst snd] in G. pose proof Hk as Hk'. apply smem_In in Hk'. rewrite Hk' in G.
  pose proof (proj1 (forallb_forall _ _) G x Hx) as K. cbn beta in K. rewrite Hb in K. cbn [negb orb] in K. rewrite !andb_true_iff in K. destruct K as (((K1 & K2) & K3) & K4).
  split; [destruct (first_in kd x) as [k0|]; [apply seqb_eq in K1; now subst|discriminate K1]|].
  split; [intros X; apply smem_In in X; rewrite X in K2; discriminate K2|]. split; [unfold is_unitless; now apply negb_true_iff|].
  intros Hn. cbv zeta. apply orb_true_iff in K4 as [K4|K4]; [apply smem_In in K4; contradiction|]. unfold square_b in K4. cbv zeta in K4. rewrite !andb_true_iff in K4.
  destruct K4 as ((((A1 & A2) & A3) & A4) & A5). split; [now apply ordinary_ok|]. split; [intros X; apply smem_In in X; rewrite X in A3; discriminate A3|].
  unfold quotable in A4. apply andb_true_iff in A4 as [A4 A6]. apply seqb_eq in A6. split; [destruct (literal _) as [y|]; [apply seqb_eq in A4; now subst|discriminate A4]|].
  split; [exact A6|]. split.
  { destruct (first_in kd (x ++ u "2")%list) as [k0|]; [right|now left]. apply andb_true_iff in A5 as [A5 A7]. apply seqb_eq in A5. subst k0. split; [reflexivity|].
    intros ->. rewrite seqb_refl in A7. discriminate A7. }
  intros x' Lx'. destruct (proj1 (proj2 kind_lists) k (proj2 (proj2 (proj2 kind_lists) k Hk))) as (Hw & _ & _).
  destruct (whole_comp d T HW k x x' Hw (ex_intro _ l (conj Hl Hx)) Lx') as (c & C1 & C2 & _).
  assert (X : forall c', comp_of T x' = Some c' -> comp_of T (x ++ u "2")%list = Some c' -> False).
  { intros c' X1 X2. assert (c' = c) as -> by congruence. unfold apart_b in A1. unfold comp_of in C1, X2. destruct (hget x T) as [r|]; [|discriminate C1].
    destruct (hget (x ++ u "2")%list T) as [r'|]; [|discriminate X2]. injection C1 as C1. injection X2 as X2. apply negb_true_iff, N.eqb_neq in A1. congruence. }
  split; intros Y; apply (linked_comp T g cs _ HT HL HR HE) in Y as (c' & Y1 & Y2); [exact (X c' Y1 Y2)|exact (X c' Y2 Y1)].
Qed.
Lemma gen_new x : In x checked_new -> ordinary D (u x) /\ forall y, ~ linked_in g (u x) y /\ ~ linked_in g y (u x).
Proof.
  intros I. destruct (parts cs d H) as (T & HT & HL & HR & HE & HK & HG & HW & HO & HN & HP & HD & (HC & HC') & HX & HG' & HV & HU & HM & HZ).
  unfold check_units in HZ. rewrite !andb_true_iff in HZ. destruct HZ as ((((Z1 & Z2) & Z3) & (Z4 & (Z6 & (Z7 & Z8)))) & Z5).
  pose proof (proj1 (forallb_forall _ _) Z6 x I) as G. unfold check_new in G. destruct (hget (u x) T) as [r|] eqn:Eh; [discriminate G|].
  split; [now apply ordinary_ok|]. intros y.
  split; intros Y; apply (linked_comp T g cs _ HT HL HR HE) in Y as (c' & Y1 & Y2); [unfold comp_of in Y1; rewrite Eh in Y1; discriminate Y1|unfold comp_of in Y2; rewrite Eh in Y2; discriminate Y2].
Qed.
(** not convertible *)
Lemma gen_not_convertible f t s l : unit_name f -> unit_name t -> ordinary D f -> f <> t -> ~ linked_in g f t ->
  session_of d s -> searches (s_par s) -> Forall converts l -> fst (convertible (V:=Qc) f t None (do_calls l s)) = Ok false.
Proof.
  intros Hf Ht Ho Hn Hc S (Ha & _) Hl.
  assert (Fr : fresh_session s /\ wf_net g).
  { destruct (parts cs d H) as (T & HT & HL & HR & HE & HK & HG & HW & HO & HN & HP & HD & (HC & HC') & HX & HG' & HV & HU & HM & HZ).
    exact (conj (session_fresh cs d T HT HL HE s S) (use_wf cs d T HT HL HE)). }
  pose proof S as (S1 & S2 & S3 & _ & _ & S6).
  destruct (quiet_session s l (proj1 Fr) S6 (converts_quiet _ _ Hl)) as (St & En & _ & N & Ds).
  rewrite (convertible_simple f t None _ St En (proj1 Hf) (proj1 Ht)). unfold convertible_result.
  rewrite (bare_answer_frame s _ f t (do_calls_frame l s Hl)), (unconnected_answer s f t).
  - reflexivity. - rewrite S1. exact (proj2 Fr). - destruct Ha as [Ha|Ha]; [now left|right; now left].
  - rewrite S2. now apply ordinary_none.
  - unfold connected. rewrite S1. exact Hc.
Qed.
Lemma gen_fresh s : session_of d s -> fresh_session s /\ wf_net g.
Proof.
  intros S. destruct (parts cs d H) as (T & HT & HL & HR & HE & HK & HG & HW & HO & HN & HP & HD & (HC & HC') & HX & HG' & HV & HU & HM & HZ).
  exact (conj (session_fresh cs d T HT HL HE s S) (use_wf cs d T HT HL HE)).
Qed.
End G.
