(** * C75: the time that the window shows *)
From Coq Require Import String QArith Qcanon Qround Lqa Lia.
From Verif Require Import Py Units UnitsSpec2 NumFacts Elapsed.
Local Open Scope Qc_scope.
(** specification: what a reader understands, in seconds *)
Definition read_seconds (e : elapsed) : Qc :=
  match e with Milliseconds v => v / Q2Qc 1000 | MinutesSeconds m s => m * Q2Qc 60 + s | HoursMinutes h m => h * Q2Qc 3600 + m * Q2Qc 60 | Seconds v => v end.
(** specification: [x] and [y] differ by at most [e] *)
Definition near (x y e : Qc) : Prop := x - y <= e /\ y - x <= e.
Lemma ten0 : ten 0 = 1. Proof. apply Qc_is_canon. reflexivity. Qed.
Lemma ten2 : ten 2 = Q2Qc 100. Proof. apply Qc_is_canon. reflexivity. Qed.
Lemma mult_this (a b : Qc) : (this (a * b) == this a * this b)%Q. Proof. apply q2_this. Qed.
Lemma div1000 (a : Qc) : a / Q2Qc 1000 = a * Q2Qc (1 # 1000).
Proof. apply Qc_is_canon. unfold Qcdiv. rewrite !mult_this. reflexivity. Qed.
Ltac tq1 := first [rewrite minus_this|rewrite plus_this|rewrite mult_this|rewrite q2_this].
Ltac tqh H := first [rewrite minus_this in H|rewrite plus_this in H|rewrite mult_this in H|rewrite q2_this in H].
Ltac tq := unfold near in *; unfold Qcle, Qclt in *; repeat tq1; repeat match goal with H : (this _ <= _)%Q |- _ => progress (repeat tqh H) | H : (this _ < _)%Q |- _ => progress (repeat tqh H) | H : (_ <= _)%Q |- _ => progress (repeat tqh H) | H : (_ < _)%Q |- _ => progress (repeat tqh H) end.
Lemma near_ms r t : (t * Q2Qc 1000 - r) <= Q2Qc (1 # 2) -> r - t * Q2Qc 1000 <= Q2Qc (1 # 2) -> near (r / Q2Qc 1000) t (Q2Qc (1 # 2000)).
Proof. intros A B. rewrite div1000. tq. split; lra. Qed.
Lemma near_more x y e e' : e <= e' -> near x y e -> near x y e'.
Proof. intros L (A & B). split; eapply Qcle_trans; eassumption. Qed.
(** up to one minute: to half a millisecond below one second, and to half a hundredth above *)
Theorem C75_short_partial : forall a b, b - a <= Q2Qc 60 -> near (read_seconds (calculation_time a b)) (b - a) (Q2Qc (1 # 200)) /\ (b - a < 1 -> near (read_seconds (calculation_time a b)) (b - a) (Q2Qc (1 # 2000))).
Proof.
  intros a b H. unfold calculation_time. cbv zeta. set (t := b - a) in *. destruct (Qclt_le_dec t 1) as [L|L].
  - cbn [read_seconds]. destruct (rounded_error _ _ _ (round_rounded (t * Q2Qc 1000) 0)) as (A & B). rewrite ten0 in A, B. set (r := round_to _ _) in *. clearbody r t.
    assert (X : near (r / Q2Qc 1000) t (Q2Qc (1 # 2000))) by (apply near_ms; [rewrite Qcmult_1_r in A; exact A|rewrite Qcmult_1_r in B; exact B]).
    split; [|intros _; exact X]. apply (near_more _ _ (Q2Qc (1 # 2000))); [vm_compute; discriminate|exact X].
  - destruct (Qclt_le_dec (Q2Qc 60) t) as [L2|L2]; [exfalso; exact (Qcle_not_lt _ _ H L2)|]. destruct (Qclt_le_dec (Q2Qc 3600) t) as [L3|L3].
    { exfalso. apply (Qcle_not_lt _ _ H). eapply Qclt_trans; [|exact L3]. reflexivity. }
    cbn [read_seconds]. destruct (rounded_error _ _ _ (round_rounded t 2)) as (A & B). rewrite ten2 in A, B. set (r := round_to t 2) in *. clearbody r t.
    split; [|intros X; exfalso; exact (Qcle_not_lt _ _ L X)]. tq. split; lra.
Qed.
(** one second and more, up to a minute, is told in seconds; less, in milliseconds *)
Theorem C75_units : forall a b, (b - a < 1 -> exists v, calculation_time a b = Milliseconds v) /\ (1 <= b - a -> b - a <= Q2Qc 60 -> exists v, calculation_time a b = Seconds v).
Proof.
  intros a b. unfold calculation_time. cbv zeta. set (t := b - a). split.
  - intros H. destruct (Qclt_le_dec t 1) as [L|L]; [eexists; reflexivity|]. exfalso. exact (Qcle_not_lt _ _ L H).
  - intros H1 H2. destruct (Qclt_le_dec t 1) as [L|L]; [exfalso; exact (Qcle_not_lt _ _ H1 L)|]. destruct (Qclt_le_dec (Q2Qc 60) t) as [L2|L2]; [exfalso; exact (Qcle_not_lt _ _ H2 L2)|].
    destruct (Qclt_le_dec (Q2Qc 3600) t) as [L3|L3]; [|eexists; reflexivity]. exfalso. apply (Qcle_not_lt _ _ H2). eapply Qclt_trans; [|exact L3]. reflexivity.
Qed.
(** above a minute the time told is wrong by a minute for each minute (less a second): two minutes are '2.0:118.0'; and hours are never told *)
Theorem C75_refuted : forall a b, Q2Qc 60 < b - a ->
  exists m s, calculation_time a b = MinutesSeconds m s /\ 1 <= m /\ b - a + Q2Qc 59 * m - Q2Qc (1 # 2) <= read_seconds (calculation_time a b).
Proof.
  intros a b H. unfold calculation_time. cbv zeta. set (t := b - a) in *. clearbody t. destruct (Qclt_le_dec t 1) as [L|L].
  { exfalso. apply (Qclt_not_le _ _ H). apply Qclt_le_weak. eapply Qclt_trans; [exact L|]. reflexivity. }
  destruct (Qclt_le_dec (Q2Qc 60) t) as [L2|L2]; [|exfalso; exact (Qcle_not_lt _ _ L2 H)].
  change (Q2Qc (inject_Z (Qfloor (t / Q2Qc 60)%Qc))) with (zq (Qfloor (t / Q2Qc 60)%Qc)). set (m := zq _). set (r := round_to (t - m) 0). exists m, r. split; [reflexivity|].
  destruct (rounded_error _ _ _ (round_rounded (t - m) 0)) as (A & B). rewrite ten0 in A, B. fold r in A, B. cbn [read_seconds]. split.
  - assert (G : (1 <= Qfloor (t / Q2Qc 60)%Qc)%Z).
    { pose proof (Qlt_floor (t / Q2Qc 60)%Qc) as F. assert (T : (1 < this (t / Q2Qc 60)%Qc)%Q).
      { replace (t / Q2Qc 60) with (t * Q2Qc (1 # 60)) by (apply Qc_is_canon; unfold Qcdiv; rewrite !mult_this; reflexivity). clear F A B r m. tq. lra. }
      assert (X : (inject_Z 1 < inject_Z (Qfloor (t / Q2Qc 60)%Qc + 1))%Q) by (eapply Qlt_trans; [exact T|exact F]). rewrite <- Zlt_Qlt in X. lia. }
    unfold m. rewrite Zle_Qle in G. unfold Qcle. rewrite zq_this. exact G.
  - clearbody m r. rewrite Qcmult_1_r in A. clear B. tq. lra.
Qed.
Example C75_case : read_seconds (calculation_time 0 (Q2Qc 120)) = Q2Qc 238 /\ Q2Qc 60 < Q2Qc 120 - 0.
Proof. split; [apply Qc_is_canon; vm_compute; reflexivity|reflexivity]. Qed.
Print Assumptions C75_short_partial.
Print Assumptions C75_units.
Print Assumptions C75_refuted.
