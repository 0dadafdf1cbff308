(** * Quantities of the kinds of a checked database *)
From Coq Require Import String QArith Qcanon Lia.
From Verif Require Import Py StrTools Network NetworkFacts SearchSpec Conv Converter EngineSpec EngineFacts EngineFacts2 EngineFacts3 EngineFacts4 EngineFacts5 EngineFacts6 EngineFacts7 PropsEngine
  OpsSpec OpsFacts OpsFacts2 OpsFacts3 PropsOps ConsistSpec ConsistFacts Demo Dict Database Shipped
  Operations ShippedSpec ShippedCheck ShippedFacts2 ShippedFacts3 ShippedFacts5 Units UnitsSpec KindFacts UnitsFacts.
Local Open Scope N_scope.

(** the kinds with an ordinary class *)
Definition plain_class (k : str) : bool :=
  smem k classes && negb (is_k k "Unit") && negb (is_k k "UserUnits") && negb (is_k k "Date") && negb (kindless k).
Lemma kinds_plain : forallb plain_class (proportional_kinds ++ measured_kinds) = true. Proof. vm_compute. reflexivity. Qed.
Lemma plain_measured k : In k measured_kinds -> plain_class k = true.
Proof. intros H. apply (proj1 (forallb_forall _ _) kinds_plain). apply in_or_app. now right. Qed.
Lemma plain_proportional k : In k proportional_kinds -> plain_class k = true.
Proof. intros H. apply (proj1 (forallb_forall _ _) kinds_plain). apply in_or_app. now left. Qed.
Lemma plain_parts k : plain_class k = true -> smem k classes = true /\ is_k k "Unit" = false /\ is_k k "UserUnits" = false /\ is_k k "Date" = false
  /\ is_k k "Percentage" = false /\ is_k k "Dimensionless" = false /\ kindless k = false.
Proof.
  unfold plain_class. rewrite !andb_true_iff, !negb_true_iff. intros ((((H1 & H2) & H3) & H4) & H5). pose proof H5 as H6. unfold kindless in H6.
  apply orb_false_iff in H6 as [H6 H7]. auto 10.
Qed.
Lemma run_quiet {X} (m : M Qc X) w r : fst (m (w_st w)) = r -> quietM m -> exists w', run m w = (r, w') /\ later w w'.
Proof.
  intros E Q. exists (snd (run m w)). split.
  - unfold run. destruct (m (w_st w)) as [x s]. cbn [fst snd] in *. now rewrite E.
  - destruct (Q (w_st w)) as (l & L & E'). unfold run. destruct (m (w_st w)) as [x s]. cbn [snd] in *. split; [exists l; auto|split; [reflexivity|split; [reflexivity|]]]. unfold user_named. cbn [w_kinds]. tauto.
Qed.
Lemma wbind_ok {X Y} (m : W X) (k : X -> W Y) w x w' : m w = (Ok x, w') -> wbind m k w = k x w'.
Proof. intros H. unfold wbind. now rewrite H. Qed.

Local Opaque all_kinds merge_data.
Lemma world_kinds x k : w_kinds (world_of x k) = k. Proof. reflexivity. Qed.
Section W.
Context (cs : list ShippedCert.crow) (d : db Qc).
Context (H : check_db cs d = true).
Local Notation g := (db_net d).
Local Notation kd := (merge_data (db_kinds d)).
Local Notation D := (dicts_of (all_kinds (db_kinds d))).
Context {F : Floats} {P : Pow} {E : Eval}.
Context (s : st Qc) (S : session_of d s) (Hs : searches (s_par s)) (Hb : forall b, fv_of s = Ok b -> (0 < b)%Qc).
Local Open Scope Qc_scope.
Definition era (w : world) : Prop := later (world_of s (all_kinds (db_kinds d))) w.
Lemma era_later w w' : era w -> later w w' -> era w'. Proof. apply later_trans. Qed.
Lemma era_calls w : era w -> exists l, Forall converts l /\ w_st w = do_calls l s. Proof. intros (X & _). exact X. Qed.
Lemma users_listed : exists l, dget (u "UserUnits") (all_kinds (db_kinds d)) = Some l.
Proof.
  destruct (gen_order_keys cs d H) as (A & B & Ek & _ & Eb).
  destruct (ext_keys _ _ (ext_all (db_kinds d))) as (e & Ee). 
  assert (K : In (u "UserUnits") (map fst (all_kinds (db_kinds d)))).
  { rewrite Ee, Ek, map_app, Eb, !in_app_iff. left. right. now left. }
  clear - K. revert K. generalize (all_kinds (db_kinds d)). intros k0. induction k0 as [|[k l] k0 IH]; [intros []|]. cbn [map fst dget].
  destruct (seqb (u "UserUnits") k) eqn:Ek; [eauto|]. intros [Ek'|K]; [subst k; rewrite seqb_refl in Ek; discriminate Ek|exact (IH K)].
Qed.
Lemma era_user w : era w -> has_user w.
Proof.
  intros X. apply (later_user _ _ X). unfold has_user. rewrite world_kinds. destruct users_listed as (l & ->). intros Y. discriminate Y.
Qed.
Lemma era_stays {X} (m : W X) w : stays m -> era w -> era (snd (m w)).
Proof. intros Hm Hw. exact (era_later _ _ Hw (Hm w (era_user w Hw))). Qed.
Lemma pos_fvf : exists b, 0 < b /\ forall w, era w -> fvf_is b (w_st w).
Proof.
  assert (G : forall b, fvf_is b s -> forall w, era w -> fvf_is b (w_st w)).
  { intros b X w Hw. destruct (era_calls w Hw) as (l & L & El). rewrite El. unfold fvf_is in *. now rewrite (fv_frame _ _ (do_calls_frame l s L)). }
  destruct (fv_of s) as [b|e] eqn:Eb.
  - exists b. split; [now apply Hb|]. apply G. now left.
  - exists 1. split; [reflexivity|]. apply G. right. now exists e.
Qed.
(** the dictionary *)
Lemma class_get k w : era w -> is_k k "UserUnits" = false -> class_units k w = class_units k (world_of s (all_kinds (db_kinds d))).
Proof. intros (_ & K & _) Hk. unfold class_units. now rewrite (but_users_get _ _ k K Hk). Qed.
Lemma class_listed k x w : era w -> is_k k "UserUnits" = false -> listed_in kd k x -> smem x (class_units k w) = true.
Proof.
  intros Hw Hk Hx. rewrite (class_get k w Hw Hk). unfold class_units. rewrite world_kinds. destruct (gen_class d k x Hx) as (l & -> & Hl). now apply smem_In.
Qed.
Lemma make_listed k v x w : era w -> plain_class k = true -> listed_in kd k x -> make k v x w = (Ok (PQ (Qty k x v)), w).
Proof.
  intros Hw Hk Hx. destruct (plain_parts k Hk) as (P1 & P2 & P3 & P4 & P5 & P6 & P7). unfold make, wbind, construct. rewrite P1, P2, P3, P4, P5, (class_listed k x w Hw P3 Hx). reflexivity.
Qed.
Lemma first_front x k w : era w -> simple x -> first_in kd x = Some k -> ~ In k late_kinds -> first_kind x w = Some k.
Proof.
  intros (_ & K & _) Hx Hf Hk. destruct (gen_order_keys cs d H) as (A & B & Ek & Ha & Hb'). rewrite world_kinds in K.
  pose proof (ext_all (db_kinds d)) as X. rewrite Ek in X. destruct (ext_split A B _ X) as (A' & B' & Ed & Ea & XA & XB). rewrite Ed in K.
  change (first_in (w_kinds w) x = Some k). apply (but_users_first A' B'); [|exact K|].
  - rewrite Ea. intros I. destruct (Ha _ I) as [I' _]. apply I'. now left.
  - rewrite (ext_first _ _ _ XA Hx). rewrite Ek, first_in_app in Hf. destruct (first_in A x) as [k0|]; [exact Hf|]. exfalso. apply Hk.
    rewrite <- Hb'. exact (first_in_key _ _ _ Hf).
Qed.
Lemma first_none x w : era w -> simple x -> first_in kd x = None -> first_kind x w = None \/ first_kind x w = Some (u "UserUnits").
Proof.
  intros (_ & K & _) Hx Hf. apply (but_users_none _ _ x K). apply first_but_users. rewrite world_kinds. now rewrite (ext_first _ _ _ (ext_all (db_kinds d)) Hx).
Qed.
Lemma era_uncertain w : era w -> uncertain w = shipped_uncertain.
Proof.
  intros Hw. destruct (era_calls w Hw) as (l & L & El). unfold uncertain. rewrite El. pose proof (do_calls_frame l s L) as Fr.
  apply frame_fields in Fr as (_ & _ & _ & _ & _ & Ds & _). rewrite Ds. destruct S as (_ & -> & _). apply uncertain_dg.
Qed.
Lemma first_in_listed x k : first_in kd x = Some k -> exists l, In (k, l) kd /\ In x l.
Proof.
  unfold first_in. destruct (find _ kd) as [[k' l]|] eqn:Ef; [|discriminate]. intros [= <-]. apply find_some in Ef as [E1 E2]. exists l. split; [exact E1|now apply smem_In].
Qed.

(** ** Conversions *)
Lemma conv_run v f t w r : fst (convert (VNum v) (UStr f) (UStr t) None (w_st w)) = r ->
  exists w', conv_opt v f t w = (match r with Ok (Some (CVal v)) => Ok (Some v) | Ok _ => Ok None | Err e => Err e end, w') /\ later w w'.
Proof.
  intros Er. destruct (run_quiet (convert (VNum v) (UStr f) (UStr t) None) w r Er (quiet_convert _ _ _ _)) as (w' & R & L). exists w'. split; [|exact L].
  unfold conv_opt, wbind. rewrite R. destruct r as [[[x|h]|]|e]; reflexivity.
Qed.
Section M.
Context (m : scale) (b : Qc) (Hb0 : forall w, era w -> fvf_is b (w_st w)) (M0 : forall x, 0 < k_of m x)
 (M1 : forall k s l v w f t uc, session_of d s -> Forall keeps l -> fvf_is b (do_calls l s) -> unit_name f -> unit_name t ->
        listed_in kd k f -> listed_in kd k t -> ~ In k contradictory_kinds -> ~ In k rule_kinds ->
        fst (convert (VNum v) (UStr f) (UStr t) uc (do_calls l s)) = Ok (Some (CVal w)) -> w = rescale m f t v).
Lemma size_nz x : k_of m x <> 0. Proof. intros X. pose proof (M0 x) as Y. rewrite X in Y. discriminate Y. Qed.
Lemma conv_value k v f t w x : era w -> unit_name f -> unit_name t -> listed_in kd k f -> listed_in kd k t -> ~ In k contradictory_kinds -> ~ In k rule_kinds ->
  fst (conv_opt v f t w) = Ok (Some x) -> x = rescale m f t v.
Proof.
  intros Hw Hf Ht Lf Lt Hc Hr Hx. destruct (conv_run v f t w _ eq_refl) as (w' & R & _). rewrite R in Hx. cbn [fst] in Hx.
  destruct (era_calls w Hw) as (l & L & El). pose proof (Hb0 w Hw) as B. rewrite El in Hx, B.
  apply (M1 k s l v x f t None S (converts_keep l L) B Hf Ht Lf Lt Hc Hr).
  destruct (fst (convert (VNum v) (UStr f) (UStr t) None (do_calls l s))) as [[[y|h]|]|e]; try discriminate Hx. injection Hx as ->. reflexivity.
Qed.
Lemma conv_total k v f t w : era w -> In k measured_kinds -> unit_name f -> unit_name t -> listed_in kd k f -> listed_in kd k t ->
  exists w', conv_opt v f t w = (Ok (Some (rescale m f t v)), w') /\ later w w'.
Proof.
  intros Hw Hk Hf Ht Lf Lt. destruct (proj1 (proj2 kind_lists) k Hk) as (Hwh & Hc & Hr).
  destruct (era_calls w Hw) as (l & L & El). destruct (ShippedFacts4.gen_whole cs d H k f t s l v None Hwh Lf Lt Hf Ht S Hs L) as (x & Hx). rewrite <- El in Hx.
  destruct (conv_run v f t w _ Hx) as (w' & R & X). exists w'. split; [|exact X]. rewrite R. do 2 f_equal.
  f_equal. apply (conv_value k v f t w x Hw Hf Ht Lf Lt Hc Hr). now rewrite R.
Qed.
Lemma conv_num_total k v f t w : era w -> In k measured_kinds -> unit_name f -> unit_name t -> listed_in kd k f -> listed_in kd k t ->
  exists w', conv_num v f t w = (Ok (rescale m f t v), w') /\ later w w'.
Proof.
  intros Hw Hk Hf Ht Lf Lt. destruct (conv_total k v f t w Hw Hk Hf Ht Lf Lt) as (w' & R & X). exists w'. split; [|exact X]. unfold conv_num. now rewrite (wbind_ok _ _ _ _ _ R).
Qed.
Lemma convertible_total k f t w : era w -> In k measured_kinds -> unit_name f -> unit_name t -> listed_in kd k f -> listed_in kd k t ->
  exists w', convertible_ f t w = (Ok true, w') /\ later w w'.
Proof.
  intros Hw Hk Hf Ht Lf Lt. destruct (era_calls w Hw) as (l & L & El). pose proof (gen_convertible cs d H k f t s l Hk Lf Lt Hf Ht S Hs L) as C. rewrite <- El in C.
  exact (run_quiet _ w _ C (quiet_convertible _ _ _)).
Qed.
Lemma not_convertible_total f t w : era w -> unit_name f -> unit_name t -> ordinary D f -> f <> t -> ~ linked_in g f t ->
  exists w', convertible_ f t w = (Ok false, w') /\ later w w'.
Proof.
  intros Hw Hf Ht Ho Hn Hc. destruct (era_calls w Hw) as (l & L & El). pose proof (gen_not_convertible cs d H f t s l Hf Ht Ho Hn Hc S Hs L) as C. rewrite <- El in C.
  exact (run_quiet _ w _ C (quiet_convertible _ _ _)).
Qed.
(** ** [to] *)
Definition qof (k : str) (q : qty) : Prop := q_kind q = k /\ listed_in kd k (q_unit q) /\ unit_name (q_unit q).
Lemma to_total k a t w : era w -> In k measured_kinds -> qof k a -> listed_in kd k t -> unit_name t ->
  exists w', to a (Some t) w = (Ok (PQ (Qty k t (rescale m (q_unit a) t (q_val a)))), w') /\ later w w'.
Proof.
  intros Hw Hk (Ka & La & Ua) Lt Ht. pose proof (plain_measured k Hk) as Hp. destruct (plain_parts k Hp) as (P1 & P2 & P3 & P4 & P5 & P6 & P7).
  unfold to. rewrite Ka, P7. destruct (convertible_total k (q_unit a) t w Hw Hk Ua Ht La Lt) as (w1 & R1 & L1). rewrite (wbind_ok _ _ _ _ _ R1). cbv iota.
  destruct (conv_total k (q_val a) (q_unit a) t w1 (era_later _ _ Hw L1) Hk Ua Ht La Lt) as (w2 & R2 & L2). rewrite (wbind_ok _ _ _ _ _ R2), P2. exists w2.
  split; [|exact (later_trans _ _ _ L1 L2)]. exact (make_listed k _ t w2 (era_later _ _ Hw (later_trans _ _ _ L1 L2)) Hp Lt).
Qed.
Lemma to_value k a t w c : era w -> plain_class k = true -> ~ In k contradictory_kinds -> ~ In k rule_kinds -> qof k a -> listed_in kd k t -> unit_name t ->
  fst (to a (Some t) w) = Ok (PQ c) -> c = Qty k t (rescale m (q_unit a) t (q_val a)).
Proof.
  intros Hw Hp Hc Hr (Ka & La & Ua) Lt Ht. destruct (plain_parts k Hp) as (P1 & P2 & P3 & P4 & P5 & P6 & P7).
  unfold to. rewrite Ka, P7. unfold wbind at 1. destruct (convertible_ (q_unit a) t w) as [[[|]|e] w1] eqn:Ec; [| |intros X; discriminate X].
  2:{ rewrite P3. intros X; discriminate X. }
  assert (Hw1 : era w1). { pose proof (era_stays (convertible_ (q_unit a) t) w (stays_run _ (quiet_convertible _ _ _)) Hw) as X. now rewrite Ec in X. }
  rewrite P2. unfold wbind at 1. destruct (conv_opt (q_val a) (q_unit a) t w1) as [[[x|]|e] w2] eqn:Ev; [| |intros X; discriminate X].
  2:{ unfold wbind, construct. rewrite P1, P2, P3, P4. intros X; discriminate X. }
  assert (Ex : x = rescale m (q_unit a) t (q_val a)). { apply (conv_value k (q_val a) (q_unit a) t w1 x Hw1 Ua Ht La Lt Hc Hr). now rewrite Ev. }
  assert (Hw2 : era w2). { pose proof (era_stays (conv_opt (q_val a) (q_unit a) t) w1 (stays_conv_opt _ _ _) Hw1) as X. now rewrite Ev in X. }
  pose proof (make_listed k x t w2 Hw2 Hp Lt) as Y. unfold make in Y. rewrite Y. cbn [fst]. intros [= <-]. now rewrite Ex.
Qed.

(** ** Sums *)
Lemma sum_total k sb a c w : era w -> In k measured_kinds -> qof k a -> qof k c ->
  exists w', sum_qty sb a c w = (Ok (PQ (Qty k (q_unit a) (plus sb (q_val a) (rescale m (q_unit c) (q_unit a) (q_val c))))), w') /\ later w w'.
Proof.
  intros Hw Hk (Ka & La & Ua) (Kc & Lc & Uc). pose proof (plain_measured k Hk) as Hp. unfold sum_qty. rewrite Ka, Kc, seqb_refl.
  destruct (seqb (q_unit a) (q_unit c)) eqn:Eq.
  - apply seqb_eq in Eq. exists w. split; [|apply later_refl]. rewrite <- Eq, rescale_id by apply size_nz. exact (make_listed k _ _ w Hw Hp La).
  - destruct (convertible_total k (q_unit c) (q_unit a) w Hw Hk Uc Ua Lc La) as (w1 & R1 & L1). rewrite (wbind_ok _ _ _ _ _ R1). cbv iota.
    destruct (conv_num_total k (q_val c) (q_unit c) (q_unit a) w1 (era_later _ _ Hw L1) Hk Uc Ua Lc La) as (w2 & R2 & L2). rewrite (wbind_ok _ _ _ _ _ R2).
    exists w2. pose proof (later_trans _ _ _ L1 L2) as L3. split; [|exact L3]. exact (make_listed k _ _ w2 (era_later _ _ Hw L3) Hp La).
Qed.
Lemma sum_value k a c w r : era w -> plain_class k = true -> ~ In k contradictory_kinds -> ~ In k rule_kinds -> qof k a -> qof k c ->
  fst (sum_qty false a c w) = Ok (PQ r) ->
  r = Qty k (q_unit a) (q_val a + rescale m (q_unit c) (q_unit a) (q_val c)) \/ r = Qty k (q_unit c) (q_val c + rescale m (q_unit a) (q_unit c) (q_val a)).
Proof.
  intros Hw Hp Hc Hr (Ka & La & Ua) (Kc & Lc & Uc). unfold sum_qty. rewrite Ka, Kc, seqb_refl. unfold plus.
  destruct (seqb (q_unit a) (q_unit c)) eqn:Eq.
  { apply seqb_eq in Eq. rewrite (make_listed k _ _ w Hw Hp La). cbn [fst]. intros [= <-]. left. now rewrite <- Eq, rescale_id by apply size_nz. }
  unfold wbind at 1. destruct (convertible_ (q_unit c) (q_unit a) w) as [[[|]|e] w1] eqn:E1; [| |intros X; discriminate X];
  assert (Hw1 : era w1) by (pose proof (era_stays (convertible_ (q_unit c) (q_unit a)) w (stays_run _ (quiet_convertible _ _ _)) Hw) as X; now rewrite E1 in X).
  - unfold conv_num, wbind at 1 2. destruct (conv_opt (q_val c) (q_unit c) (q_unit a) w1) as [[[x|]|e] w2] eqn:Ev; [|intros X; discriminate X|intros X; discriminate X].
    assert (Hw2 : era w2) by (pose proof (era_stays (conv_opt (q_val c) (q_unit c) (q_unit a)) w1 (stays_conv_opt _ _ _) Hw1) as X; now rewrite Ev in X).
    cbn [wret]. rewrite (make_listed k _ _ w2 Hw2 Hp La). cbn [fst]. intros [= <-]. left. f_equal. f_equal.
    apply (conv_value k (q_val c) (q_unit c) (q_unit a) w1 x Hw1 Uc Ua Lc La Hc Hr). now rewrite Ev.
  - unfold wbind at 1. destruct (convertible_ (q_unit a) (q_unit c) w1) as [[[|]|e] w2] eqn:E2; [|intros X; discriminate X|intros X; discriminate X].
    assert (Hw2 : era w2) by (pose proof (era_stays (convertible_ (q_unit a) (q_unit c)) w1 (stays_run _ (quiet_convertible _ _ _)) Hw1) as X; now rewrite E2 in X).
    unfold conv_num, wbind at 1 2. destruct (conv_opt (q_val a) (q_unit a) (q_unit c) w2) as [[[x|]|e] w3] eqn:Ev; [|intros X; discriminate X|intros X; discriminate X].
    assert (Hw3 : era w3) by (pose proof (era_stays (conv_opt (q_val a) (q_unit a) (q_unit c)) w2 (stays_conv_opt _ _ _) Hw2) as X; now rewrite Ev in X).
    cbn [wret]. rewrite (make_listed k _ _ w3 Hw3 Hp Lc). cbn [fst]. intros [= <-]. right. f_equal. f_equal.
    apply (conv_value k (q_val a) (q_unit a) (q_unit c) w2 x Hw2 Ua Uc La Lc Hc Hr). now rewrite Ev.
Qed.
(** ** Comparisons *)
Lemma compare_total k o a c w : era w -> In k measured_kinds -> qof k a -> qof k c ->
  exists w', compare_ o a (PQ c) w = (Ok (holds o (q_val a) (rescale m (q_unit c) (q_unit a) (q_val c))), w') /\ later w w'.
Proof.
  intros Hw Hk Qa Qc_. pose proof Qa as (Ka & La & Ua). pose proof Qc_ as (Kc & _ & _). unfold compare_. rewrite Ka, Kc, seqb_refl.
  destruct (to_total k c (q_unit a) w Hw Hk Qc_ La Ua) as (w1 & R1 & L1). rewrite (wbind_ok _ _ _ _ _ R1). exists w1. split; [reflexivity|exact L1].
Qed.
Lemma neg_total k a w : era w -> In k measured_kinds -> qof k a -> neg a w = (Ok (PQ (Qty k (q_unit a) (- q_val a))), w).
Proof.
  intros Hw Hk (Ka & La & Ua). pose proof (plain_measured k Hk) as Hp. destruct (plain_parts k Hp) as (P1 & P2 & P3 & P4 & P5 & P6 & P7).
  unfold neg. rewrite Ka, P5. exact (make_listed k _ _ w Hw Hp La).
Qed.
End M.
End W.
(** ** Arithmetic of the measures *)
Section A.
Context (m : scale) (M0 : forall x, (0 < k_of m x)%Qc).
Local Open Scope Qc_scope.
Lemma rescale_sum f t r v v' : o_of m f = o_of m r -> o_of m t = o_of m r -> k_of m r <> 0 -> k_of m f <> 0 ->
  rescale m f r (v + rescale m t f v') = rescale m f r v + rescale m t r v'.
Proof. intros H1 H2 H3 H4. unfold rescale. rewrite H1, H2. field. auto. Qed.
Lemma rescale_diff f t r v v' : o_of m f = o_of m r -> o_of m t = o_of m r -> k_of m r <> 0 -> k_of m f <> 0 ->
  rescale m f r (v - rescale m t f v') = rescale m f r v - rescale m t r v'.
Proof. intros H1 H2 H3 H4. unfold rescale. rewrite H1, H2. field. auto. Qed.
Lemma rescale_scale f r v x : o_of m f = o_of m r -> k_of m r <> 0 -> rescale m f r (v * x) = rescale m f r v * x.
Proof. intros H1 H3. unfold rescale. rewrite H1. field. auto. Qed.
Lemma Qcinv_pos x : 0 < x -> 0 < / x.
Proof.
  intros H. unfold Qclt in *. cbn in *. rewrite Qred_correct. now apply Qinv_lt_0_compat.
Qed.
Lemma rescale_mono f t v v' : v < v' -> rescale m f t v < rescale m f t v'.
Proof.
  intros H. unfold rescale, Qcdiv. apply Qcmult_lt_compat_r; [apply Qcinv_pos, M0|]. unfold Qcminus. 
  apply Qclt_minus_iff. replace (v' * k_of m f + o_of m f + - o_of m t + - (v * k_of m f + o_of m f + - o_of m t)) with ((v' + - v) * k_of m f) by ring.
  rewrite <- (Qcmult_0_l (k_of m f)). apply Qcmult_lt_compat_r; [apply M0|]. now apply Qclt_minus_iff in H.
Qed.
Lemma holds_lt c x y : x < y -> holds c x y = match c with Lt | Le | Ne => true | _ => false end.
Proof.
  intros L. pose proof (Qclt_not_le _ _ L) as N. destruct c; cbn [holds].
  - destruct (Qclt_le_dec x y) as [_|G]; [reflexivity|contradiction].
  - destruct (Qclt_le_dec y x) as [G|_]; [|reflexivity]. exfalso. apply N. now apply Qclt_le_weak.
  - destruct (Qc_eq_dec x y) as [G|_]; [|reflexivity]. exfalso. exact (Qclt_not_eq _ _ L G).
  - destruct (Qc_eq_dec x y) as [G|_]; [|reflexivity]. exfalso. exact (Qclt_not_eq _ _ L G).
  - destruct (Qclt_le_dec x y) as [_|G]; [reflexivity|contradiction].
  - destruct (Qclt_le_dec y x) as [G|_]; [|reflexivity]. exfalso. apply N. now apply Qclt_le_weak.
Qed.
Lemma holds_gt c x y : y < x -> holds c x y = match c with Gt | Ge | Ne => true | _ => false end.
Proof.
  intros L. pose proof (Qclt_not_le _ _ L) as N. destruct c; cbn [holds].
  - destruct (Qclt_le_dec x y) as [G|_]; [|reflexivity]. exfalso. apply N. now apply Qclt_le_weak.
  - destruct (Qclt_le_dec y x) as [_|G]; [reflexivity|contradiction].
  - destruct (Qc_eq_dec x y) as [G|_]; [|reflexivity]. exfalso. exact (Qclt_not_eq _ _ L (eq_sym G)).
  - destruct (Qc_eq_dec x y) as [G|_]; [|reflexivity]. exfalso. exact (Qclt_not_eq _ _ L (eq_sym G)).
  - destruct (Qclt_le_dec x y) as [G|_]; [|reflexivity]. exfalso. apply N. now apply Qclt_le_weak.
  - destruct (Qclt_le_dec y x) as [_|G]; [reflexivity|contradiction].
Qed.
Lemma holds_eq c x : holds c x x = match c with Le | Ge | Eq => true | _ => false end.
Proof.
  destruct c; cbn [holds]; try (destruct (Qclt_le_dec x x) as [G|_]; [exfalso; exact (Qclt_not_eq _ _ G eq_refl)|reflexivity]);
  (destruct (Qc_eq_dec x x) as [_|G]; [reflexivity|exfalso; exact (G eq_refl)]).
Qed.
Lemma holds_rescale c f t v v' : holds c (rescale m f t v) (rescale m f t v') = holds c v v'.
Proof.
  destruct (Qc_dec v v') as [[L|L]| ->].
  - now rewrite (holds_lt c _ _ L), (holds_lt c _ _ (rescale_mono f t v v' L)).
  - now rewrite (holds_gt c _ _ L), (holds_gt c _ _ (rescale_mono f t v' v L)).
  - now rewrite !holds_eq.
Qed.
End A.
