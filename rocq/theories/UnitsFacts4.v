(** * The laws of quantities, for the kinds of a checked database *)
From Coq Require Import String QArith Qcanon Lia.
From Verif Require Import Py StrTools Network NetworkFacts SearchSpec Conv Converter EngineSpec EngineFacts EngineFacts2 EngineFacts3 EngineFacts4 EngineFacts5 EngineFacts6 EngineFacts7 PropsEngine
  OpsSpec OpsFacts OpsFacts2 OpsFacts3 PropsOps ConsistSpec ConsistFacts Demo Dict Database Shipped
  Operations ShippedSpec ShippedCheck ShippedFacts2 ShippedFacts3 ShippedFacts5 Units UnitsSpec KindFacts UnitsFacts UnitsFacts2 UnitsFacts3.
Local Open Scope N_scope.
Local Opaque all_kinds merge_data.

Lemma sum_kinds_b : forallb (fun k => seqb k (u "Temperature") || smem k proportional_kinds) measured_kinds = true. Proof. vm_compute. reflexivity. Qed.
Lemma sum_kind k : In k measured_kinds -> k <> u "Temperature" -> In k proportional_kinds.
Proof.
  intros H N. pose proof (proj1 (forallb_forall _ _) sum_kinds_b k H) as X. cbn beta in X. apply orb_true_iff in X as [X|X]; [apply seqb_eq in X; contradiction|now apply smem_In].
Qed.
Lemma unescape_other c z : c <> 92 -> c <> 10 -> c <> 13 -> c <> 0 -> unescape (c :: z) = option_map (cons c) (unescape z).
Proof.
  intros X1 X2 X3 X4. cbn [unescape].
  repeat match goal with |- context [match ?p with _ => _ end] => is_var p; destruct p; try congruence; try reflexivity end.
Qed.
Section G.
Context (cs : list ShippedCert.crow) (d : db Qc).
Context (H : check_db cs d = true).
Local Notation g := (db_net d).
Local Notation kd := (merge_data (db_kinds d)).
Context {F : Floats} {P : Pow} {E : Eval}.
Local Open Scope Qc_scope.
Notation qof := (qof d).
Definition calculating_in (s : st Qc) : Prop := session_of d s /\ searches (s_par s) /\ (forall b, fv_of s = Ok b -> (0 < b)%Qc).
Definition during_in (s : st Qc) (w : world) : Prop := exists l, Forall calm l /\ w = do_acts l (world_of s (all_kinds (db_kinds d))).
Lemma during_era s w : tame_eval -> during_in s w -> era d s w.
Proof.
  intros Te (l & L & ->). apply (acts_later Te l _ L). unfold has_user. rewrite world_kinds. destruct (users_listed cs d H) as (l' & ->). intros Y. discriminate Y.
Qed.
(** ** Everything a calculation rests on *)
Definition kit (s : st Qc) (m : scale) : Prop :=
  (forall x, 0 < k_of m x) /\ (forall k f t, In k proportional_kinds -> listed_in kd k f -> listed_in kd k t -> o_of m f = o_of m t)
  /\ exists b, (forall w, era d s w -> fvf_is b (w_st w)) /\
   (forall k s l v w f t uc, session_of d s -> Forall keeps l -> fvf_is b (do_calls l s) -> unit_name f -> unit_name t ->
        listed_in kd k f -> listed_in kd k t -> ~ In k contradictory_kinds -> ~ In k rule_kinds ->
        fst (convert (VNum v) (UStr f) (UStr t) uc (do_calls l s)) = Ok (Some (CVal w)) -> w = rescale m f t v).
Lemma kit_of s : calculating_in s -> exists m, kit s m.
Proof.
  intros (S & Hs & Hb). destruct (pos_fvf d s Hb) as (b & B0 & B1). destruct (gen_measure cs d H b B0) as (m & M0 & M1 & M2). exists m. split; [exact M0|]. split; [exact M2|].
  exists b. split; [exact B1|exact M1].
Qed.
Section K.
Context (Te : tame_eval) (s : st Qc) (C : calculating_in s) (m : scale) (K : kit s m).
Lemma knz x : k_of m x <> 0. Proof. exact (size_nz m (proj1 K) x). Qed.
Lemma k_to k a t w : during_in s w -> In k measured_kinds -> qof k a -> listed_in kd k t -> unit_name t ->
  fst (to a (Some t) w) = Ok (PQ (Qty k t (rescale m (q_unit a) t (q_val a)))).
Proof.
  intros D Hk Qa Lt Ut. destruct C as (S & Hs & Hb). destruct K as (M0 & M2 & b & B & M1).
  destruct (to_total cs d H s S Hs m b B M1 k a t w (during_era s w Te D) Hk Qa Lt Ut) as (w' & R & _). now rewrite R.
Qed.
Lemma k_expressed k a t w x : during_in s w -> In k measured_kinds -> qof k a -> listed_in kd k t -> unit_name t ->
  expressed w a t x <-> x = rescale m (q_unit a) t (q_val a).
Proof.
  intros D Hk Qa Lt Ut. unfold expressed. rewrite (k_to k a t w D Hk Qa Lt Ut), (proj1 Qa). split; [intros X; injection X as X; now subst|intros ->; reflexivity].
Qed.
Lemma k_sum k sb a c w : during_in s w -> In k measured_kinds -> qof k a -> qof k c ->
  fst (sum sb a (PQ c) w) = Ok (PQ (Qty k (q_unit a) (plus sb (q_val a) (rescale m (q_unit c) (q_unit a) (q_val c))))).
Proof.
  intros D Hk Qa Qc_. destruct C as (S & Hs & Hb). destruct K as (M0 & M2 & b & B & M1).
  destruct (sum_total cs d H s S Hs m b B M0 M1 k sb a c w (during_era s w Te D) Hk Qa Qc_) as (w' & R & _). unfold sum. now rewrite R.
Qed.
Lemma k_neg k a w : during_in s w -> In k measured_kinds -> qof k a -> fst (neg a w) = Ok (PQ (Qty k (q_unit a) (- q_val a))).
Proof. intros D Hk Qa. now rewrite (neg_total d s k a w (during_era s w Te D) Hk Qa). Qed.
Lemma k_compare k o a c w : during_in s w -> In k measured_kinds -> qof k a -> qof k c ->
  fst (compare_ o a (PQ c) w) = Ok (holds o (q_val a) (rescale m (q_unit c) (q_unit a) (q_val c))).
Proof.
  intros D Hk Qa Qc_. destruct C as (S & Hs & Hb). destruct K as (M0 & M2 & b & B & M1).
  destruct (compare_total cs d H s S Hs m b B M1 k o a c w (during_era s w Te D) Hk Qa Qc_) as (w' & R & _). now rewrite R.
Qed.
End K.
Lemma qof_sum k a v : qof k a -> qof k (Qty k (q_unit a) v).
Proof. intros (K & L & U). split; [reflexivity|]. split; [exact L|exact U]. Qed.
Lemma qof_unit k t v : listed_in kd k t -> unit_name t -> qof k (Qty k t v).
Proof. intros L U. split; [reflexivity|]. split; [exact L|exact U]. Qed.

(** ** C35, C36 *)
Lemma gen_expressed s k a t : tame_eval -> calculating_in s -> In k measured_kinds -> qof k a -> listed_in kd k t -> unit_name t ->
  exists x, forall w, during_in s w -> expressed w a t x.
Proof.
  intros Te C Hk Qa Lt Ut. destruct (kit_of s C) as (m & K). exists (rescale m (q_unit a) t (q_val a)). intros w D.
  now apply (k_expressed Te s C m K k a t w _ D Hk Qa Lt Ut).
Qed.
Lemma gen_self s k a w : tame_eval -> calculating_in s -> In k measured_kinds -> qof k a -> during_in s w -> expressed w a (q_unit a) (q_val a).
Proof.
  intros Te C Hk Qa D. destruct (kit_of s C) as (m & K). pose proof Qa as (Ka & La & Ua). apply (k_expressed Te s C m K k a _ w _ D Hk Qa La Ua).
  symmetry. apply rescale_id. exact (size_nz m (proj1 K) _).
Qed.
Lemma gen_sum s k sb a c t w1 w2 w x y : tame_eval -> calculating_in s -> In k measured_kinds -> k <> u "Temperature" -> qof k a -> qof k c ->
  listed_in kd k t -> unit_name t -> during_in s w1 -> during_in s w2 -> during_in s w ->
  expressed w1 a t x -> expressed w2 c t y ->
  exists r, fst (sum sb a (PQ c) w) = Ok (PQ r) /\ q_kind r = k /\ q_unit r = q_unit a
    /\ forall w', during_in s w' -> expressed w' r t (plus sb x y).
Proof.
  intros Te C Hk Ht Qa Qc_ Lt Ut D1 D2 D X Y. destruct (kit_of s C) as (m & K).
  apply (k_expressed Te s C m K k a t w1 _ D1 Hk Qa Lt Ut) in X. apply (k_expressed Te s C m K k c t w2 _ D2 Hk Qc_ Lt Ut) in Y. subst x y.
  eexists. split; [exact (k_sum Te s C m K k sb a c w D Hk Qa Qc_)|]. split; [reflexivity|]. split; [reflexivity|]. intros w' D'.
  apply (k_expressed Te s C m K k _ t w' _ D' Hk (qof_sum k a _ Qa) Lt Ut). cbn [q_unit q_val].
  pose proof (sum_kind k Hk Ht) as Hp. destruct K as (M0 & M2 & K). destruct Qa as (Ka & La & Ua). destruct Qc_ as (Kc & Lc & Uc).
  destruct sb; unfold plus; symmetry; [apply rescale_diff|apply rescale_sum]; try exact (size_nz m M0 _); (apply (M2 k _ _ Hp); assumption).
Qed.
Lemma gen_sum_returned s k a c t w1 w2 w w3 r x y z : tame_eval -> calculating_in s -> In k proportional_kinds -> qof k a -> qof k c ->
  listed_in kd k t -> unit_name t -> during_in s w1 -> during_in s w2 -> during_in s w -> during_in s w3 ->
  fst (add a (PQ c) w) = Ok (PQ r) -> expressed w1 a t x -> expressed w2 c t y -> expressed w3 r t z -> z = x + y.
Proof.
  intros Te C Hk Qa Qc_ Lt Ut D1 D2 D D3 R X Y Z. destruct (kit_of s C) as (m & K). destruct K as (M0 & M2 & b & B & M1).
  destruct (proj1 kind_lists k Hk) as (Hc & Hr).
  pose proof C as (S & Hs & _). pose proof (plain_proportional k Hk) as Hp. pose proof Qa as (Ka & La & Ua). pose proof Qc_ as (Kc & Lc & Uc).
  assert (G : forall q w v, qof k q -> during_in s w -> expressed w q t v -> v = rescale m (q_unit q) t (q_val q)).
  { intros q w0 v Qq Dw Xp. unfold expressed in Xp. rewrite (proj1 Qq) in Xp. pose proof (to_value cs d H s S m b B M1 k q t w0 _ (during_era s w0 Te Dw) Hp Hc Hr Qq Lt Ut Xp) as G.
    injection G as G. exact G. }
  rewrite (G _ _ _ Qa D1 X), (G _ _ _ Qc_ D2 Y). unfold add, sum in R.
  destruct (sum_value cs d H s S m b B M0 M1 k a c w r (during_era s w Te D) Hp Hc Hr Qa Qc_ R) as [-> | ->].
  - rewrite (G _ _ _ (qof_sum k a _ Qa) D3 Z). cbn [q_unit q_val]. apply rescale_sum; try exact (size_nz m M0 _); (apply (M2 k _ _ Hk); assumption).
  - rewrite (G _ _ _ (qof_sum k c _ Qc_) D3 Z). cbn [q_unit q_val]. rewrite Qcplus_comm.
    rewrite (Qcplus_comm (rescale m (q_unit a) (q_unit c) (q_val a))), (Qcplus_comm (rescale m (q_unit a) t (q_val a))).
    apply rescale_sum; try exact (size_nz m M0 _); (apply (M2 k _ _ Hk); assumption).
Qed.
Lemma gen_sum_comm s k a c w w' w'' : tame_eval -> calculating_in s -> In k measured_kinds -> k <> u "Temperature" -> qof k a -> qof k c ->
  during_in s w -> during_in s w' -> during_in s w'' ->
  exists r r', fst (add a (PQ c) w) = Ok (PQ r) /\ fst (add c (PQ a) w') = Ok (PQ r') /\ fst (compare_ Eq r (PQ r') w'') = Ok true.
Proof.
  intros Te C Hk Ht Qa Qc_ D D' D''. destruct (kit_of s C) as (m & K).
  eexists. eexists. split; [exact (k_sum Te s C m K k false a c w D Hk Qa Qc_)|]. split; [exact (k_sum Te s C m K k false c a w' D' Hk Qc_ Qa)|].
  rewrite (k_compare Te s C m K k Eq _ _ w'' D'' Hk (qof_sum k a _ Qa) (qof_sum k c _ Qc_)). cbn [q_unit q_val]. f_equal.
  pose proof (sum_kind k Hk Ht) as Hp. destruct K as (M0 & M2 & K). destruct Qa as (Ka & La & Ua). destruct Qc_ as (Kc & Lc & Uc). unfold plus.
  rewrite (rescale_sum m (q_unit c) (q_unit a) (q_unit a)); try exact (size_nz m M0 _); try (apply (M2 k _ _ Hp); assumption).
  rewrite rescale_id by exact (size_nz m M0 _). rewrite Qcplus_comm. apply holds_eq.
Qed.
Lemma gen_sum_assoc s k a c e w1 w2 w3 w4 w5 : tame_eval -> calculating_in s -> In k measured_kinds -> k <> u "Temperature" -> qof k a -> qof k c -> qof k e ->
  during_in s w1 -> during_in s w2 -> during_in s w3 -> during_in s w4 -> during_in s w5 ->
  exists r r' q q', fst (add a (PQ c) w1) = Ok (PQ r) /\ fst (add r (PQ e) w2) = Ok (PQ q)
    /\ fst (add c (PQ e) w3) = Ok (PQ r') /\ fst (add a (PQ r') w4) = Ok (PQ q') /\ q = q' /\ fst (compare_ Eq q (PQ q') w5) = Ok true.
Proof.
  intros Te C Hk Ht Qa Qc_ Qe D1 D2 D3 D4 D5. destruct (kit_of s C) as (m & K).
  eexists. eexists. eexists. eexists. split; [exact (k_sum Te s C m K k false a c w1 D1 Hk Qa Qc_)|].
  split; [exact (k_sum Te s C m K k false _ e w2 D2 Hk (qof_sum k a _ Qa) Qe)|].
  split; [exact (k_sum Te s C m K k false c e w3 D3 Hk Qc_ Qe)|].
  split; [exact (k_sum Te s C m K k false a _ w4 D4 Hk Qa (qof_sum k c _ Qc_))|]. cbn [q_unit q_val].
  assert (X : Qty k (q_unit a) (plus false (plus false (q_val a) (rescale m (q_unit c) (q_unit a) (q_val c))) (rescale m (q_unit e) (q_unit a) (q_val e)))
            = Qty k (q_unit a) (plus false (q_val a) (rescale m (q_unit c) (q_unit a) (plus false (q_val c) (rescale m (q_unit e) (q_unit c) (q_val e)))))).
  { f_equal. unfold plus. pose proof (sum_kind k Hk Ht) as Hp. destruct K as (M0 & M2 & K). destruct Qa as (Ka & La & Ua). destruct Qc_ as (Kc & Lc & Uc).
    destruct Qe as (Ke & Le_ & Ue). rewrite (rescale_sum m (q_unit c) (q_unit e) (q_unit a)); try exact (size_nz m M0 _); try (apply (M2 k _ _ Hp); assumption). ring. }
  split; [exact X|]. rewrite <- X. rewrite (k_compare Te s C m K k Eq _ _ w5 D5 Hk (qof_sum k a _ Qa) (qof_sum k a _ Qa)). cbn [q_unit q_val].
  rewrite rescale_id by exact (size_nz m (proj1 K) _). now rewrite holds_eq.
Qed.
Lemma gen_sub_neg s k a c w1 w2 w3 : tame_eval -> calculating_in s -> In k measured_kinds -> k <> u "Temperature" -> qof k a -> qof k c ->
  during_in s w1 -> during_in s w2 -> during_in s w3 ->
  exists n r, fst (neg c w1) = Ok (PQ n) /\ fst (add a (PQ n) w2) = Ok (PQ r) /\ fst (sub a (PQ c) w3) = Ok (PQ r).
Proof.
  intros Te C Hk Ht Qa Qc_ D1 D2 D3. destruct (kit_of s C) as (m & K). eexists. eexists. split; [exact (k_neg Te s k c w1 D1 Hk Qc_)|].
  split; [exact (k_sum Te s C m K k false a _ w2 D2 Hk Qa (qof_sum k c _ Qc_))|]. unfold sub. rewrite (k_sum Te s C m K k true a c w3 D3 Hk Qa Qc_). do 3 f_equal.
  cbn [q_unit q_val]. unfold plus. pose proof (sum_kind k Hk Ht) as Hp. destruct K as (M0 & M2 & K). destruct Qa as (Ka & La & Ua). destruct Qc_ as (Kc & Lc & Uc).
  unfold rescale. rewrite (M2 k _ _ Hp Lc La). field. exact (size_nz m M0 _).
Qed.
Lemma gen_sub_equal s k a c t w1 w2 w x : tame_eval -> calculating_in s -> In k measured_kinds -> qof k a -> qof k c -> listed_in kd k t -> unit_name t ->
  during_in s w1 -> during_in s w2 -> during_in s w -> expressed w1 a t x -> expressed w2 c t x ->
  fst (sub a (PQ c) w) = Ok (PQ (Qty k (q_unit a) 0)).
Proof.
  intros Te C Hk Qa Qc_ Lt Ut D1 D2 D X Y. destruct (kit_of s C) as (m & K).
  apply (k_expressed Te s C m K k a t w1 _ D1 Hk Qa Lt Ut) in X. apply (k_expressed Te s C m K k c t w2 _ D2 Hk Qc_ Lt Ut) in Y.
  unfold sub. rewrite (k_sum Te s C m K k true a c w D Hk Qa Qc_). do 3 f_equal. unfold plus. destruct K as (M0 & M2 & K).
  assert (Z : rescale m (q_unit c) (q_unit a) (q_val c) = q_val a).
  { rewrite <- (rescale_trans m (q_unit c) t (q_unit a)) by exact (size_nz m M0 _). rewrite <- Y, X, rescale_trans by exact (size_nz m M0 _).
    apply rescale_id. exact (size_nz m M0 _). }
  rewrite Z. ring.
Qed.
Lemma gen_add_sub s k a c w w' : tame_eval -> calculating_in s -> In k measured_kinds -> qof k a -> qof k c -> during_in s w -> during_in s w' ->
  exists r, fst (add a (PQ c) w) = Ok (PQ r) /\ fst (sub r (PQ c) w') = Ok (PQ a).
Proof.
  intros Te C Hk Qa Qc_ D D'. destruct (kit_of s C) as (m & K). eexists. split; [exact (k_sum Te s C m K k false a c w D Hk Qa Qc_)|].
  unfold sub. rewrite (k_sum Te s C m K k true _ c w' D' Hk (qof_sum k a _ Qa) Qc_). do 2 f_equal. cbn [q_unit q_val]. unfold plus. destruct Qa as (Ka & _).
  destruct a as [ka ua va]. cbn [q_kind q_unit q_val] in *. subst ka. f_equal. ring.
Qed.
(** ** C38 *)
Lemma holds_stands o x y : holds o x y = true <-> stands o x y.
Proof.
  destruct o; cbn [holds stands].
  - destruct (Qclt_le_dec x y) as [L|L]; split; intros X; [exact L|reflexivity|discriminate X|exfalso; exact (Qclt_not_le _ _ X L)].
  - destruct (Qclt_le_dec y x) as [L|L]; split; intros X; [discriminate X|exfalso; exact (Qclt_not_le _ _ L X)|exact L|reflexivity].
  - destruct (Qc_eq_dec x y) as [L|L]; split; intros X; [exact L|reflexivity|discriminate X|contradiction].
  - destruct (Qc_eq_dec x y) as [L|L]; split; intros X; [discriminate X|contradiction|exact L|reflexivity].
  - destruct (Qclt_le_dec x y) as [L|L]; split; intros X; [discriminate X|exfalso; exact (Qclt_not_le _ _ L X)|exact L|reflexivity].
  - destruct (Qclt_le_dec y x) as [L|L]; split; intros X; [exact L|reflexivity|discriminate X|exfalso; exact (Qclt_not_le _ _ X L)].
Qed.
Lemma gen_compare s k o a c t w1 w2 w x y : tame_eval -> calculating_in s -> In k measured_kinds -> qof k a -> qof k c -> listed_in kd k t -> unit_name t ->
  during_in s w1 -> during_in s w2 -> during_in s w -> expressed w1 a t x -> expressed w2 c t y ->
  exists r, fst (compare_ o a (PQ c) w) = Ok r /\ (r = true <-> stands o x y).
Proof.
  intros Te C Hk Qa Qc_ Lt Ut D1 D2 D X Y. destruct (kit_of s C) as (m & K).
  apply (k_expressed Te s C m K k a t w1 _ D1 Hk Qa Lt Ut) in X. apply (k_expressed Te s C m K k c t w2 _ D2 Hk Qc_ Lt Ut) in Y. subst x y.
  eexists. split; [exact (k_compare Te s C m K k o a c w D Hk Qa Qc_)|]. rewrite <- holds_stands.
  rewrite <- (rescale_trans m (q_unit c) (q_unit a) t (q_val c)) by exact (size_nz m (proj1 K) _). now rewrite (holds_rescale m (proj1 K)).
Qed.
(** ** C37 *)
Lemma letters_of x : plain_base x -> letters_b x = true.
Proof.
  intros (((S1 & S2) & (B1 & B2 & B3 & B4 & B5)) & Hb & Hc). unfold letters_b. rewrite !andb_true_iff. repeat split.
  - unfold simple_b. rewrite andb_true_iff, !negb_true_iff. split; now apply cmem_false.
  - unfold bare_b. rewrite !andb_true_iff, !negb_true_iff. repeat split.
    + destruct (seqb x (u "Empty")) eqn:Z; [apply seqb_eq in Z; contradiction|reflexivity].
    + now apply cmem_false. + now apply cmem_false.
    + destruct x as [|c r]; [contradiction|]. cbn [hd_error padb]. apply cmem_false. apply (B5 c r). now left.
    + destruct (rev x) as [|c r] eqn:Er; [apply (f_equal (@rev _)) in Er; rewrite rev_involutive in Er; contradiction|]. cbn [hd_error padb]. apply cmem_false.
      apply (B5 c (rev r)). right. apply (f_equal (@rev _)) in Er. rewrite rev_involutive in Er. exact Er.
  - apply forallb_forall. intros c Hin. destruct (Hb c Hin) as [D1 D2]. rewrite !andb_true_iff, !negb_true_iff. repeat split; [exact D1|now apply cmem_false|].
    destruct (c =? 94)%N eqn:Z; [apply N.eqb_eq in Z; subst; contradiction|reflexivity].
Qed.
Lemma gen_mul_div s k a c n w w' y : tame_eval -> calculating_in s -> In k square_kinds -> qof k a -> qof k c -> plain_base (q_unit a) -> plain_base (q_unit c) ->
  ~ In (q_unit a) not_squared -> during_in s w -> during_in s w' -> expressed w c (q_unit a) y ->
  exists r, fst (mul n a (PQ c) w) = Ok (PQ r) /\ q_unit r = (q_unit a ++ u "2")%list /\ q_val r = q_val a * y
    /\ (q_val c <> 0 -> fst (truediv n r (PQ c) w') = Ok (PQ a)).
Proof.
  intros Te C Hk Qa Qc_ Pa Pc Nq D D' Y. destruct (kit_of s C) as (m & K). pose proof (proj2 (proj2 (proj2 kind_lists) k Hk)) as Hm.
  pose proof Qa as (Ka & La & Ua). pose proof Qc_ as (Kc & Lc & Uc).
  apply (k_expressed Te s C m K k c (q_unit a) w _ D Hm Qc_ La Ua) in Y. destruct K as (M0 & M2 & b & B & M1). destruct C as (S & Hs & Hb).
  destruct a as [ka xa va], c as [kc xc vc]. cbn [q_kind q_unit q_val] in *. subst ka kc y.
  destruct (mul_total cs d H s S Hs m b B M0 M1 k xa xc Hk La Lc (letters_of xa Pa) (letters_of xc Pc) Nq n va vc w (during_era s w Te D)) as (k2 & w2 & R & K2 & L).
  rewrite R. eexists. split; [reflexivity|]. split; [reflexivity|]. split; [reflexivity|]. intros Hv.
  destruct (div_total cs d H s S Hs m b B M0 M1 M2 k xa xc Hk La Lc (letters_of xa Pa) (letters_of xc Pc) Nq n k2 va vc w' (during_era s w' Te D') K2 Hv) as (w3 & R3 & _).
  now rewrite R3.
Qed.
(** products with numbers *)
Lemma gen_times s k a n v t w1 w w' x : tame_eval -> calculating_in s -> In k measured_kinds -> k <> u "Temperature" -> qof k a -> listed_in kd k t -> unit_name t ->
  during_in s w1 -> during_in s w -> during_in s w' -> expressed w1 a t x ->
  exists r, fst (mul n a (PN v) w) = Ok (PQ r) /\ q_kind r = k /\ q_unit r = q_unit a /\ q_val r = q_val a * v /\ expressed w' r t (x * v).
Proof.
  intros Te C Hk Ht Qa Lt Ut D1 D D' X. destruct (kit_of s C) as (m & K).
  apply (k_expressed Te s C m K k a t w1 _ D1 Hk Qa Lt Ut) in X. pose proof (plain_measured k Hk) as Hp. destruct (plain_parts k Hp) as (P1 & P2 & P3 & P4 & P5 & P6 & P7).
  pose proof Qa as (Ka & La & Ua).
  assert (R : fst (mul n a (PN v) w) = Ok (PQ (Qty k (q_unit a) (q_val a * v)))).
  { destruct n; cbn [mul]; rewrite Ka, P5, (make_listed d s k _ _ w (during_era s w Te D) Hp La); reflexivity. }
  eexists. split; [exact R|]. split; [reflexivity|]. split; [reflexivity|]. split; [reflexivity|].
  apply (k_expressed Te s C m K k _ t w' _ D' Hk (qof_sum k a _ Qa) Lt Ut). cbn [q_unit q_val]. subst x. destruct K as (M0 & M2 & K). symmetry.
  apply rescale_scale; [|exact (size_nz m M0 _)]. apply (M2 k _ _ (sum_kind k Hk Ht)); assumption.
Qed.
(** ** C40 *)
Lemma first_in_spec x k : (exists A l B, kd = (A ++ (k, l) :: B)%list /\ In x l /\ forall k' l', In (k', l') A -> ~ In x l') -> first_in kd x = Some k.
Proof.
  generalize kd. intros kd0 (A & l & B & -> & I & N). unfold first_in. induction A as [|[k' l'] A IH]; cbn [Datatypes.app find fst snd].
  - apply smem_In in I. now rewrite I.
  - destruct (smem x l') eqn:Z; [apply smem_In in Z; exfalso; exact (N k' l' (or_introl eq_refl) Z)|]. apply IH. intros k0 l0 I0. exact (N k0 l0 (or_intror I0)).
Qed.
Lemma first_in_none x : (forall k l, In (k, l) kd -> ~ In x l) -> first_in kd x = None.
Proof.
  generalize kd. intros kd0 N. unfold first_in. induction kd0 as [|[k l] kd0 IH]; cbn [find fst snd]; [reflexivity|].
  destruct (smem x l) eqn:Z; [apply smem_In in Z; exfalso; exact (N k l (or_introl eq_refl) Z)|]. apply IH. intros k0 l0 I0. exact (N k0 l0 (or_intror I0)).
Qed.
Lemma first_drop dd x k : first_in dd x = Some k -> k <> u "UserUnits" -> first_in (but_users dd) x = Some k.
Proof.
  intros Hf Hk. unfold first_in in *. induction dd as [|[k' l'] dd IH]; cbn [find but_users map] in *; [discriminate Hf|]. fold (but_users dd).
  assert (Nu : no_users (k', l') = if seqb k' (u "UserUnits") then (k', []) else (k', l')) by reflexivity. rewrite Nu. cbn [snd] in Hf.
  destruct (seqb k' (u "UserUnits")) eqn:Ek.
  - cbn [snd]. change (smem x []) with false. cbv iota. apply IH. destruct (smem x l') eqn:Z; [|exact Hf]. cbn [option_map fst] in Hf. injection Hf as Hf. apply seqb_eq in Ek. congruence.
  - cbn [snd]. destruct (smem x l'); [exact Hf|]. apply IH. exact Hf.
Qed.
Lemma first_undrop dd x : (forall l, In (u "UserUnits", l) dd -> ~ In x l) -> first_in dd x = first_in (but_users dd) x.
Proof.
  intros Hn. unfold first_in. induction dd as [|[k' l'] dd IH]; cbn [find but_users map]; [reflexivity|]. fold (but_users dd).
  assert (Nu : no_users (k', l') = if seqb k' (u "UserUnits") then (k', []) else (k', l')) by reflexivity. rewrite Nu.
  assert (IH' := IH (fun l I => Hn l (or_intror I))). destruct (seqb k' (u "UserUnits")) eqn:Ek.
  - apply seqb_eq in Ek. subst k'. cbn [snd]. change (smem x []) with false. destruct (smem x l') eqn:Z; [|exact IH'].
    apply smem_In in Z. exfalso. exact (Hn l' (or_introl eq_refl) Z).
  - cbn [snd]. destruct (smem x l'); [reflexivity|exact IH'].
Qed.
Lemma first_now s w x k : era d s w -> simple x -> first_in kd x = Some k -> k <> u "UserUnits" -> ~ In k late_kinds \/ ~ user_named x w -> first_kind x w = Some k.
Proof.
  intros Hw Hx Hf Hk [Hl|Hu]; [exact (first_front cs d H s x k w Hw Hx Hf Hl)|].
  change (first_in (w_kinds w) x = Some k). rewrite first_undrop by (intros l I1 I2; apply Hu; exists l; auto).
  destruct Hw as (_ & Kd & _). rewrite world_kinds in Kd. rewrite Kd. apply first_drop; [|exact Hk]. now rewrite (ext_first _ _ _ (ext_all (db_kinds d)) Hx).
Qed.
Lemma class_parts k : In k classes -> smem k classes = true /\ is_k k "Unit" = false /\ is_k k "UserUnits" = false /\ is_k k "Date" = false.
Proof.
  intros I. assert (G : forallb (fun k => smem k classes && (negb (is_k k "Unit") && (negb (is_k k "UserUnits") && negb (is_k k "Date")))) classes = true) by (vm_compute; reflexivity).
  pose proof (proj1 (forallb_forall _ _) G k I) as X. cbn beta in X. now rewrite !andb_true_iff, !negb_true_iff in X.
Qed.
Lemma other_not_user : u "otherUnits" <> u "UserUnits" /\ u "Date" <> u "UserUnits". Proof. split; intros X; discriminate X. Qed.
Lemma units_unfold v x named w : units (PN v) (AUnitStr x) named w =
  (if smem (strip x) (uncertain w) then construct (u "Unit") (Some v) (strip x) w
   else match first_kind (strip x) w with Some k => units_kind k (strip x) v named w | None => construct (u "UserUnits") (Some v) (strip x) w end).
Proof. unfold units, wbind, wget. destruct (smem _ _); [reflexivity|]. destruct (first_kind _ _); reflexivity. Qed.
Section U.
Context (Te : tame_eval) (s : st Qc) (C : calculating_in s) (w : world) (D : during_in s w) (x y : str) (v : Qc) (Ey : strip x = y) (Hy : simple y).
Let Hw : era d s w := during_era s w Te D.
Lemma not_uncertain : ~ In y shipped_uncertain -> smem y (uncertain w) = false.
Proof.
  intros N. rewrite (era_uncertain d s (proj1 C) w Hw). destruct (smem y shipped_uncertain) eqn:Z; [apply smem_In in Z; contradiction|reflexivity].
Qed.
Lemma gen_units k : ~ In y shipped_uncertain -> first_in kd y = Some k -> In k classes -> k <> u "Data" \/ ~ user_named y w ->
  units (PN v) (AUnitStr x) false w = (Ok (Qty k y (if seqb k (u "Percentage") then v / Q2Qc 100 else v)), w).
Proof.
  intros Nu Hf Hk Hl. rewrite units_unfold, Ey, (not_uncertain Nu). destruct (class_parts k Hk) as (P1 & P2 & P3 & P4).
  assert (Ku : k <> u "UserUnits") by (intros ->; discriminate P3).
  assert (F1 : first_kind y w = Some k).
  { apply (first_now s w y k Hw Hy Hf Ku). destruct Hl as [Hl|Hl]; [left|now right]. intros I. cbn [late_kinds map In] in I.
    destruct I as [I|[I|[I|[]]]]; [now apply Ku| |now apply Hl]. rewrite <- I in P1. discriminate P1. }
  rewrite F1. pose proof (gen_first_listed cs d H y k Hf) as Ly. destruct (gen_quotable cs d H k y Ly) as (Q1 & Q2). unfold units_kind. rewrite Q1.
  unfold wbind, construct. rewrite P1, P2, P3, P4, (class_listed d s k y w Hw P3 Ly). reflexivity.
Qed.
Lemma gen_units_other : ~ In y shipped_uncertain -> first_in kd y = Some (u "otherUnits") -> ~ user_named y w -> fst (units (PN v) (AUnitStr x) false w) = Err NameError.
Proof.
  intros Nu Hf Hl. rewrite units_unfold, Ey, (not_uncertain Nu), (first_now s w y _ Hw Hy Hf (proj1 other_not_user) (or_intror Hl)).
  pose proof (gen_first_listed cs d H y _ Hf) as Ly. destruct (gen_quotable cs d H _ y Ly) as (Q1 & Q2). unfold units_kind. rewrite Q1. reflexivity.
Qed.
Lemma gen_units_date : ~ In y shipped_uncertain -> first_in kd y = Some (u "Date") -> fst (units (PN v) (AUnitStr x) false w) = Err ValueError.
Proof.
  intros Nu Hf. rewrite units_unfold, Ey, (not_uncertain Nu).
  rewrite (first_now s w y _ Hw Hy Hf (proj2 other_not_user)) by (left; intros I; apply smem_In in I; discriminate I).
  pose proof (gen_first_listed cs d H y _ Hf) as Ly. destruct (gen_quotable cs d H _ y Ly) as (Q1 & Q2). unfold units_kind. rewrite Q1. reflexivity.
Qed.
Lemma gen_units_named k : ~ In y shipped_uncertain -> first_in kd y = Some k -> In k classes -> k <> u "Data" -> fst (units (PN v) (AUnitStr x) true w) = Err TypeError.
Proof.
  intros Nu Hf Hk Hd. rewrite units_unfold, Ey, (not_uncertain Nu). destruct (class_parts k Hk) as (P1 & P2 & P3 & P4).
  assert (Ku : k <> u "UserUnits") by (intros ->; discriminate P3).
  rewrite (first_now s w y k Hw Hy Hf Ku); [reflexivity|left]. intros I. cbn [late_kinds map In] in I.
  destruct I as [I|[I|[I|[]]]]; [now apply Ku| |now apply Hd]. rewrite <- I in P1. discriminate P1.
Qed.
Lemma literal_of z : quotable_name z -> literal z = Some z.
Proof.
  intros (N1 & N2 & N3 & N4 & N5).
  assert (Q : cmem (quote_of z) z = false).
  { unfold quote_of. destruct (cmem 39 z) eqn:Z; [|exact Z]. apply cmem_false. destruct N5 as [N5|N5]; [apply cmem_In in Z; contradiction|exact N5]. }
  unfold literal. rewrite Q. clear Q N5. induction z as [|c z IH]; [reflexivity|].
  assert (IH' : unescape z = Some z) by (apply IH; intros I; [apply N1|apply N2|apply N3|apply N4]; now right).
  assert (U : unescape (c :: z) = option_map (cons c) (unescape z)).
  { assert (X : (c <> 92 /\ c <> 10 /\ c <> 13 /\ c <> 0)%N) by (repeat split; intros ->; [apply N1|apply N2|apply N3|apply N4]; left; reflexivity).
    clear - X. destruct X as (X1 & X2 & X3 & X4). exact (unescape_other c z X1 X2 X3 X4). }
  now rewrite U, IH'.
Qed.
Lemma user_added z w0 : has_user w0 -> user_named z (add_user z w0).
Proof.
  unfold has_user, add_user, user_named. intros Hu. unfold dg, ds. destruct (dget (u "UserUnits") (w_kinds w0)) as [l|] eqn:Ed; [|now contradiction Hu].
  destruct (smem z l) eqn:Z.
  - apply smem_In in Z. exists l. split; [exact (dget_In _ _ _ Ed)|exact Z].
  - cbn [w_kinds]. exists (l ++ [z])%list. split; [|apply in_or_app; right; now left]. clear - Ed. revert Ed. generalize (w_kinds w0) as dd. induction dd as [|[k' l'] dd IH]; cbn [dget dset]; [discriminate|].
    destruct (seqb (u "UserUnits") k') eqn:Ek; [intros _; left; f_equal; now apply seqb_eq in Ek|]. intros Ed. right. now apply IH.
Qed.
Lemma gen_units_new : ~ In y shipped_uncertain -> first_in kd y = None -> quotable_name y -> y = strip y ->
  exists w', units (PN v) (AUnitStr x) false w = (Ok (Qty (u "UserUnits") y v), w') /\ user_named y w'.
Proof.
  intros Nu Hf Hq Hs. rewrite units_unfold, Ey, (not_uncertain Nu). pose proof (literal_of y Hq) as Hl. exists (add_user y w).
  split; [|apply user_added; exact (era_user cs d H s w Hw)].
  destruct (first_none d s y w Hw Hy Hf) as [-> | ->].
  - unfold construct. change (is_k (u "UserUnits") "Unit") with false. change (is_k (u "UserUnits") "UserUnits") with true. cbv iota zeta. now rewrite <- Hs.
  - unfold units_kind. rewrite Hl. unfold wbind, construct. change (is_k (u "UserUnits") "Unit") with false. change (is_k (u "UserUnits") "UserUnits") with true. cbv iota zeta.
    now rewrite <- Hs.
Qed.
Lemma gen_units_uncertain k : In y shipped_uncertain -> first_in kd y = Some k -> y = strip y ->
  units (PN v) (AUnitStr x) false w = (Ok (Qty (u "Unit") y v), w).
Proof.
  intros Nu Hf Hs. rewrite units_unfold, Ey, (era_uncertain d s (proj1 C) w Hw). apply smem_In in Nu. rewrite Nu.
  unfold construct. change (is_k (u "Unit") "Unit") with true. cbv iota. rewrite <- Hs.
  assert (A : smem y (w_all w) = true).
  { destruct Hw as (_ & _ & Ea & _). rewrite Ea. apply smem_In. unfold world_of. cbn [w_all]. destruct (gen_class d k y (gen_first_listed cs d H y k Hf)) as (l & Hl & Il).
    apply in_flat_map. exists (k, l). split; [exact (dget_In _ _ _ Hl)|exact Il]. }
  now rewrite A.
Qed.
End U.
(** ** C39 *)
Lemma class_not s w k z : era d s w -> is_k k "UserUnits" = false -> (exists l, dget k kd = Some l) -> simple z -> ~ listed_in kd k z -> smem z (class_units k w) = false.
Proof.
  intros Hw Hk (l & Hl) Hz Hn. rewrite (class_get d s k w Hw Hk). unfold class_units. rewrite world_kinds.
  destruct (ext_get _ _ k l (ext_all (db_kinds d)) Hl) as (l' & -> & Hg). rewrite (grown_mem _ _ _ Hg Hz). 
  destruct (smem z l) eqn:Z; [|reflexivity]. apply smem_In in Z. exfalso. apply Hn. exists l. auto.
Qed.
Lemma percentage_get : exists l, dget (u "Percentage") kd = Some l.
Proof.
  pose proof (gen_first cs d H "%" (Some "Percentage"%string)) as X. destruct (gen_first_listed cs d H (u "%") (u "Percentage")) as (l & Hl & _); [|now exists l].
  apply X. do 5 right. now left.
Qed.
Section P.
Context (Te : tame_eval) (s : st Qc) (w : world) (D : during_in s w) (x : str) (Hx : listed_in kd (u "Percentage") x).
Let Hw : era d s w := during_era s w Te D.
Local Notation pct := (Qty (u "Percentage") x).
Lemma gen_pct v : make (u "Percentage") v x w = (Ok (PQ (pct (v / Q2Qc 100))), w).
Proof. unfold make, wbind, construct. rewrite (class_listed d s (u "Percentage") x w Hw eq_refl Hx). reflexivity. Qed.
Lemma hundred v : v * Q2Qc 100 / Q2Qc 100 = v.
Proof. field. intros X. discriminate X. Qed.
Lemma gen_pct_to p z : listed_in kd (u "Percentage") z -> z <> [] -> to (pct p) (Some z) w = (Ok (PQ (Qty (u "Percentage") z p)), w).
Proof.
  intros Hz Nz. unfold to. change (kindless (q_kind (pct p))) with true. cbv iota. destruct z as [|c z]; [contradiction|]. unfold wbind at 1, wget.
  rewrite (class_listed d s (u "Percentage") (c :: z) w Hw eq_refl Hz). unfold make, wbind, construct. rewrite (class_listed d s (u "Percentage") (c :: z) w Hw eq_refl Hz).
  cbn [q_val]. change (is_k (u "Percentage") "Percentage") with true. change (is_k (u "Percentage") "Unit") with false. change (is_k (u "Percentage") "UserUnits") with false.
  change (is_k (u "Percentage") "Date") with false. change (smem (u "Percentage") classes) with true. cbv iota. now rewrite hundred.
Qed.
Lemma gen_pct_fraction p z : listed_in kd (u "Dimensionless") z -> ~ listed_in kd (u "Percentage") z -> simple z -> z <> [] ->
  to (pct p) (Some z) w = (Ok (PQ (Qty (u "Dimensionless") z p)), w)
  /\ to (Qty (u "Dimensionless") z p) (Some x) w = (if seqb x [] then (Ok (PN p), w) else (Ok (PQ (pct p)), w)).
Proof.
  intros Hz Nz Sz Ne. split.
  - unfold to. change (kindless (q_kind (pct p))) with true. cbv iota. destruct z as [|c z]; [contradiction|]. unfold wbind at 1, wget.
    rewrite (class_not s w (u "Percentage") (c :: z) Hw eq_refl percentage_get Sz Nz), (class_listed d s (u "Dimensionless") (c :: z) w Hw eq_refl Hz).
    unfold make, wbind, construct. rewrite (class_listed d s (u "Dimensionless") (c :: z) w Hw eq_refl Hz). reflexivity.
  - unfold to. change (kindless (q_kind (Qty (u "Dimensionless") z p))) with true. cbv iota. pose proof (class_listed d s (u "Percentage") x w Hw eq_refl Hx) as Cx. pose proof gen_pct as Gp. revert Cx Gp.
    generalize x. intros x' Cx Gp. destruct x' as [|c x0]; [reflexivity|].
    change (seqb (c :: x0) []) with false. cbv iota. unfold wbind at 1, wget. rewrite Cx, Gp. cbn [q_val]. now rewrite hundred.
Qed.
Lemma gen_pct_neg p : neg (pct p) w = (Ok (PQ (pct (- p))), w).
Proof. unfold neg. cbn [q_kind q_unit q_val]. change (is_k (u "Percentage") "Percentage") with true. cbv iota. rewrite gen_pct. do 4 f_equal. change (Q2Qc (-100)) with (- Q2Qc 100). field. intros X. discriminate X. Qed.
Lemma gen_pct_abs p : abs_ (pct p) w = (Ok (PQ (pct (if Qclt_le_dec p 0 then - p else p))), w).
Proof. unfold abs_. cbn [q_kind q_unit q_val]. change (is_k (u "Percentage") "Percentage") with true. cbv iota. rewrite gen_pct, hundred. reflexivity. Qed.
Lemma gen_pct_times n p v : mul n (pct p) (PN v) w = (Ok (PQ (pct (p * v))), w).
Proof. destruct n; cbn [mul q_kind q_unit q_val]; change (is_k (u "Percentage") "Percentage") with true; cbv iota; now rewrite gen_pct, hundred. Qed.
Lemma gen_pct_plus p v : add (pct p) (PN v) w = (Ok (PQ (pct (p + v))), w) /\ sub (pct p) (PN v) w = (Ok (PQ (pct (p - v))), w).
Proof.
  unfold add, sub, sum. cbn [q_kind q_unit q_val]. change (is_k (u "Percentage") "Percentage") with true. cbv iota. rewrite !gen_pct. unfold plus. now rewrite !hundred.
Qed.
Lemma gen_pct_sum p q : add (pct p) (PQ (pct q)) w = (Ok (PQ (pct ((p + q) / Q2Qc 100))), w) /\ sub (pct p) (PQ (pct q)) w = (Ok (PQ (pct ((p - q) / Q2Qc 100))), w).
Proof.
  unfold add, sub, sum, sum_qty. cbn [q_kind q_unit q_val]. rewrite !seqb_refl. unfold plus. now rewrite !gen_pct.
Qed.
End P.
End G.
