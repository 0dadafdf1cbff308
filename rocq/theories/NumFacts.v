(** * Floors and roundings of rationals *)
From Coq Require Import QArith Qcanon Qround Qpower Lia Lqa.
From Verif Require Import Py Conv Units UnitsSpec2.
Local Open Scope Qc_scope.

Lemma q2_this (q : Q) : (this (Q2Qc q) == q)%Q.
Proof. exact (Qred_correct q). Qed.
Lemma zq_this z : (this (zq z) == inject_Z z)%Q.
Proof. apply q2_this. Qed.
Lemma plus_this (a b : Qc) : (this (a + b) == this a + this b)%Q.
Proof. apply q2_this. Qed.
Lemma opp_this (a : Qc) : (this (- a) == - this a)%Q.
Proof. apply q2_this. Qed.
Lemma minus_this (a b : Qc) : (this (a - b) == this a - this b)%Q.
Proof. unfold Qcminus. rewrite plus_this, opp_this. reflexivity. Qed.
Lemma zq_floor_le (q : Qc) : zq (Qfloor q) <= q.
Proof. unfold Qcle. rewrite zq_this. apply Qfloor_le. Qed.
Lemma zq_succ z : zq (z + 1) = zq z + 1.
Proof. apply Qc_is_canon. rewrite plus_this, !zq_this, inject_Z_plus. reflexivity. Qed.
Lemma zq_floor_lt (q : Qc) : q < zq (Qfloor q) + 1.
Proof. rewrite <- zq_succ. unfold Qclt. rewrite zq_this. apply Qlt_floor. Qed.
Lemma neg_pos y : y < 0 -> 0 < - y.
Proof. intros H. apply Qclt_minus_iff in H. now rewrite Qcplus_0_l in H. Qed.
Lemma whole_times q y z : y <> 0 -> zq z <= q -> q < zq z + 1 -> whole (q * y) y z.
Proof.
  intros Hy L U. destruct (Qc_dec y 0) as [[N|N]|N]; [right|left|contradiction].
  - split; [exact N|]. pose proof (neg_pos y N) as N'. split.
    + apply (fun h => Qcmult_le_compat_r _ _ (- y) h (Qclt_le_weak _ _ N')) in L. apply Qcle_minus_iff in L. apply Qcle_minus_iff.
      replace (zq z * y + - (q * y)) with (q * - y + - (zq z * - y)) by ring. exact L.
    + apply (Qcmult_lt_compat_r _ _ (- y) N') in U. apply Qclt_minus_iff in U. apply Qclt_minus_iff.
      replace (q * y + - ((zq z + 1) * y)) with ((zq z + 1) * - y + - (q * - y)) by ring. exact U.
  - split; [exact N|]. split.
    + apply Qcmult_le_compat_r; [exact L|now apply Qclt_le_weak].
    + apply Qcmult_lt_compat_r; assumption.
Qed.
Lemma whole_floor x y : y <> 0 -> whole x y (Qfloor (x / y)%Qc).
Proof.
  intros Hy. replace x with (x / y * y) at 1 by (field; exact Hy). apply whole_times; [exact Hy|apply zq_floor_le|apply zq_floor_lt].
Qed.
Lemma whole_scale x y c z : 0 < c -> whole x y z -> whole (x * c) (y * c) z.
Proof.
  intros Hc [(H1 & H2 & H3)|(H1 & H2 & H3)]; [left|right].
  - split; [rewrite <- (Qcmult_0_l c); now apply Qcmult_lt_compat_r|]. rewrite !Qcmult_assoc. split; [apply Qcmult_le_compat_r; [exact H2|now apply Qclt_le_weak]|now apply Qcmult_lt_compat_r].
  - split; [rewrite <- (Qcmult_0_l c); now apply Qcmult_lt_compat_r|]. rewrite !Qcmult_assoc. split; [apply Qcmult_le_compat_r; [exact H2|now apply Qclt_le_weak]|now apply Qcmult_lt_compat_r].
Qed.
Lemma zq_lt_inv a b : zq a < zq b -> (a < b)%Z.
Proof. unfold Qclt. rewrite !zq_this. unfold inject_Z, Qlt. cbn [Qnum Qden]. lia. Qed.
Lemma zq_lt a b : (a < b)%Z -> zq a < zq b.
Proof. intros L. unfold Qclt. rewrite !zq_this. unfold inject_Z, Qlt. cbn [Qnum Qden]. lia. Qed.
Lemma zq_inj a b : zq a = zq b -> a = b.
Proof.
  intros H. destruct (Z.lt_trichotomy a b) as [L|[L|L]]; [exfalso|exact L|exfalso].
  - assert (X : zq a < zq b) by (now apply zq_lt). rewrite H in X. exact (Qclt_not_eq _ _ X eq_refl).
  - assert (X : zq b < zq a) by (now apply zq_lt). rewrite H in X. exact (Qclt_not_eq _ _ X eq_refl).
Qed.
Lemma mult_lt_cancel a b c : 0 < c -> a * c < b * c -> a < b.
Proof.
  intros Hc H. apply Qcnot_le_lt. intros L. apply (Qclt_not_le _ _ H). apply Qcmult_le_compat_r; [exact L|now apply Qclt_le_weak].
Qed.
(** the whole number is unique *)
Lemma whole_unique x y z z' : whole x y z -> whole x y z' -> z = z'.
Proof.
  intros [(H1 & H2 & H3)|(H1 & H2 & H3)] [(K1 & K2 & K3)|(K1 & K2 & K3)].
  - assert (A : zq z < zq (z' + 1)) by (rewrite zq_succ; exact (mult_lt_cancel _ _ y H1 (Qcle_lt_trans _ _ _ H2 K3))).
    assert (B : zq z' < zq (z + 1)) by (rewrite zq_succ; exact (mult_lt_cancel _ _ y H1 (Qcle_lt_trans _ _ _ K2 H3))).
    apply zq_lt_inv in A, B. lia.
  - exfalso. exact (Qclt_not_le _ _ H1 (Qclt_le_weak _ _ K1)).
  - exfalso. exact (Qclt_not_le _ _ H1 (Qclt_le_weak _ _ K1)).
  - pose proof (neg_pos y H1) as N.
    assert (G : forall a b, (zq b + 1) * y < zq a * y -> (a < b + 1)%Z).
    { intros a b X. apply zq_lt_inv. rewrite zq_succ. apply (mult_lt_cancel _ _ (- y) N). apply Qclt_minus_iff in X. apply Qclt_minus_iff.
      replace ((zq b + 1) * - y + - (zq a * - y)) with (zq a * y + - ((zq b + 1) * y)) by ring. exact X. }
    pose proof (G z z' (Qclt_le_trans _ _ _ K3 H2)). pose proof (G z' z (Qclt_le_trans _ _ _ H3 K2)). lia.
Qed.
Lemma qfloordiv_ok x y : y <> 0 -> qfloordiv x y = Ok (zq (Qfloor (x / y)%Qc)).
Proof. intros Hy. unfold qfloordiv, qdiv. destruct (Qc_eq_dec y 0) as [Z|_]; [contradiction|]. reflexivity. Qed.
Lemma qmod_ok x y : y <> 0 -> qmod x y = Ok (x - y * zq (Qfloor (x / y)%Qc)).
Proof. intros Hy. unfold qmod. rewrite (qfloordiv_ok x y Hy). reflexivity. Qed.
Lemma qdiv_zero x : qdiv x 0 = Err ZeroDivisionError /\ qfloordiv x 0 = Err ZeroDivisionError /\ qmod x 0 = Err ZeroDivisionError.
Proof.
  assert (X : qdiv x 0 = Err ZeroDivisionError) by (unfold qdiv; destruct (Qc_eq_dec 0 0) as [_|N]; [reflexivity|congruence]).
  unfold qmod, qfloordiv. rewrite X. auto.
Qed.

(** ** Rounding *)
Lemma ten_pos n : 0 < ten n.
Proof.
  unfold ten, Qclt. rewrite !q2_this. destruct n as [|p|p]; [reflexivity| |].
  - apply (Qpower_0_lt 10 (Zpos p)). reflexivity.
  - apply (Qpower_0_lt 10 (Zneg p)). reflexivity.
Qed.
Lemma ten_nz n : ten n <> 0. Proof. intros X. pose proof (ten_pos n) as Y. rewrite X in Y. discriminate Y. Qed.
Lemma half_even_spec (x : Qc) : zq (half_even x) - Q2Qc (1 # 2) <= x /\ x <= zq (half_even x) + Q2Qc (1 # 2)
  /\ (x = zq (half_even x) - Q2Qc (1 # 2) \/ x = zq (half_even x) + Q2Qc (1 # 2) -> Z.even (half_even x) = true).
Proof.
  unfold half_even. pose proof (Qfloor_le x) as L. pose proof (Qlt_floor x) as U. set (f := Qfloor x) in *. rewrite inject_Z_plus in U. change (inject_Z 1) with 1%Q in U.
  assert (V : forall z, (this (zq z - Q2Qc (1 # 2)) == inject_Z z - (1 # 2))%Q) by (intros z; rewrite minus_this, zq_this, q2_this; reflexivity).
  assert (W : forall z, (this (zq z + Q2Qc (1 # 2)) == inject_Z z + (1 # 2))%Q) by (intros z; rewrite plus_this, zq_this, q2_this; reflexivity).
  assert (T : forall z, (inject_Z (z + 1) == inject_Z z + 1)%Q) by (intros z; now rewrite inject_Z_plus).
  assert (Ev : Z.even f = false -> Z.even (f + 1) = true).
  { intros X. rewrite Z.even_add, X. reflexivity. }
  destruct (Qcompare (x - inject_Z f) (1 # 2)) eqn:C.
  - apply Qeq_alt in C. destruct (Z.even f) eqn:Ef.
    + split; [|split]; [unfold Qcle; rewrite V; lra|unfold Qcle; rewrite W; lra|intros _; exact Ef].
    + split; [|split]; [unfold Qcle; rewrite V, T; lra|unfold Qcle; rewrite W, T; lra|intros _; now apply Ev].
  - apply Qlt_alt in C. split; [|split]; [unfold Qcle; rewrite V; lra|unfold Qcle; rewrite W; lra|].
    intros [X|X]; exfalso; apply (f_equal this) in X; [pose proof (V f) as Y|pose proof (W f) as Y]; rewrite <- X in Y; lra.
  - apply Qgt_alt in C. split; [|split]; [unfold Qcle; rewrite V, T; lra|unfold Qcle; rewrite W, T; lra|].
    intros [X|X]; exfalso; apply (f_equal this) in X; [pose proof (V (f + 1)%Z) as Y|pose proof (W (f + 1)%Z) as Y]; rewrite <- X, T in Y; lra.
Qed.
Lemma round_rounded x n : rounded x (round_to x n) n.
Proof.
  exists (half_even (x * ten n)). split.
  - unfold round_to. fold (ten n). fold (zq (half_even (x * ten n))). field. exact (ten_nz n).
  - exact (half_even_spec (x * ten n)).
Qed.
(** the rounded number is unique *)
Lemma half_minus_plus (z : Z) : zq (z + 1) - Q2Qc (1 # 2) = zq z + Q2Qc (1 # 2).
Proof. rewrite zq_succ. replace (1 : Qc) with (Q2Qc (1 # 2) + Q2Qc (1 # 2)) at 1 by (apply Qc_is_canon; reflexivity). ring. Qed.
Lemma rounded_between x y r r' n : rounded x r n -> rounded y r' n -> x <= y -> r <= r'.
Proof.
  intros (z & E & L & U & T) (z' & E' & L' & U' & T') H.
  assert (G : (z <= z')%Z).
  { destruct (Z_le_gt_dec z z') as [G|G]; [exact G|exfalso]. apply Z.gt_lt in G.
    assert (Hx : x * ten n <= y * ten n) by (apply Qcmult_le_compat_r; [exact H|apply Qclt_le_weak, ten_pos]).
    assert (Z1 : z = (z' + 1)%Z).
    { assert (X : zq z - Q2Qc (1 # 2) <= zq z' + Q2Qc (1 # 2)) by exact (Qcle_trans _ _ _ L (Qcle_trans _ _ _ Hx U')).
      destruct (Z_le_gt_dec z (z' + 1)) as [Y|Y]; [lia|exfalso]. apply Z.gt_lt in Y. rewrite <- half_minus_plus in X. apply (Qclt_not_le (zq (z' + 1)) (zq z)).
      - now apply zq_lt.
      - apply Qcle_minus_iff in X. apply Qcle_minus_iff. replace (zq (z' + 1) + - zq z) with (zq (z' + 1) - Q2Qc (1 # 2) + - (zq z - Q2Qc (1 # 2))) by ring. exact X. }
    subst z. rewrite half_minus_plus in L, T. assert (X : x * ten n = zq z' + Q2Qc (1 # 2)) by (apply Qcle_antisym; [exact (Qcle_trans _ _ _ Hx U')|exact L]).
    assert (Y : y * ten n = zq z' + Q2Qc (1 # 2)) by (apply Qcle_antisym; [exact U'|rewrite <- X; exact Hx]).
    pose proof (T (or_introl X)) as A. pose proof (T' (or_intror Y)) as B. rewrite Z.even_add, B in A. discriminate A. }
  apply Qcnot_lt_le. intros K. apply (Qcmult_lt_compat_r _ _ (ten n) (ten_pos n)) in K. rewrite E, E' in K. apply zq_lt_inv in K. lia.
Qed.
Lemma rounded_unique x r r' n : rounded x r n -> rounded x r' n -> r = r'.
Proof. intros H H'. apply Qcle_antisym; [exact (rounded_between x x r r' n H H' (Qcle_refl x))|exact (rounded_between x x r' r n H' H (Qcle_refl x))]. Qed.
Lemma rounded_self x r n : rounded x r n -> rounded r r n.
Proof.
  intros (z & E & _). exists z. split; [exact E|]. rewrite E.
  assert (A : zq z - Q2Qc (1 # 2) < zq z) by (apply Qclt_minus_iff; replace (zq z + - (zq z - Q2Qc (1 # 2))) with (Q2Qc (1 # 2)) by ring; reflexivity).
  assert (B : zq z < zq z + Q2Qc (1 # 2)) by (apply Qclt_minus_iff; replace (zq z + Q2Qc (1 # 2) + - zq z) with (Q2Qc (1 # 2)) by ring; reflexivity).
  split; [now apply Qclt_le_weak|]. split; [now apply Qclt_le_weak|]. intros [X|X]; exfalso; [exact (Qclt_not_eq _ _ A (eq_sym X))|exact (Qclt_not_eq _ _ B X)].
Qed.
(** the error is at most half of 10^-n *)
Lemma rounded_error x r n : rounded x r n -> (x - r) * ten n <= Q2Qc (1 # 2) /\ (r - x) * ten n <= Q2Qc (1 # 2).
Proof.
  intros (z & E & L & U & _). split; apply Qcle_minus_iff.
  - replace (Q2Qc (1 # 2) + - ((x - r) * ten n)) with (r * ten n + Q2Qc (1 # 2) + - (x * ten n)) by ring. rewrite E. now apply Qcle_minus_iff in U.
  - replace (Q2Qc (1 # 2) + - ((r - x) * ten n)) with (x * ten n + - (r * ten n - Q2Qc (1 # 2))) by ring. rewrite E. now apply Qcle_minus_iff in L.
Qed.
Lemma rounded_id x n z : x * ten n = zq z -> rounded x x n.
Proof.
  intros E. refine (rounded_self x x n _). exists z. split; [exact E|]. rewrite E.
  assert (A : zq z - Q2Qc (1 # 2) < zq z) by (apply Qclt_minus_iff; replace (zq z + - (zq z - Q2Qc (1 # 2))) with (Q2Qc (1 # 2)) by ring; reflexivity).
  assert (B : zq z < zq z + Q2Qc (1 # 2)) by (apply Qclt_minus_iff; replace (zq z + Q2Qc (1 # 2) + - zq z) with (Q2Qc (1 # 2)) by ring; reflexivity).
  split; [now apply Qclt_le_weak|]. split; [now apply Qclt_le_weak|]. intros [X|X]; exfalso; [exact (Qclt_not_eq _ _ A (eq_sym X))|exact (Qclt_not_eq _ _ B X)].
Qed.
