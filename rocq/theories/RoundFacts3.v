(** * Conversions with offsets, with numbers that round *)
From Coq Require Import String QArith Qcanon Qcabs Lqa FMapPositive.
From Verif Require Import Py StrTools Network SearchSpec NetworkFacts Search SearchFacts SearchFacts2 DescFacts
  Hybrid HybridFacts Conv ConvFacts NetFacts2 Converter EngineSpec EngineFacts EngineFacts2 EngineFacts3 EngineFacts4 EngineFacts5 EngineFacts6
  ConsistSpec ConsistFacts CleanFacts Affine Demo EngineFacts7 EngineFacts8 RegionSpec RegionFacts SymAffine NumPy
  Dict Database FastDb Shipped ShippedSpec ShippedCert ShippedCheck RoundSpec RoundCheck RoundFacts ShippedFacts ShippedFacts2 ShippedFacts3 ShippedFacts4 RoundFacts2.
Local Open Scope Qc_scope.

Lemma plus_this (a b : Qc) : (this (a + b) == this a + this b)%Q. Proof. apply Qred_correct. Qed.
Lemma opp_this (a : Qc) : (this (- a) == - this a)%Q. Proof. apply Qred_correct. Qed.
Ltac q_ineq := unfold Qcle, Qclt in *; repeat (progress rewrite ?minus_this, ?mult_this, ?plus_this, ?opp_this in *); change (this 1) with 1%Q in *; change (this 0) with 0%Q in *.

(** ** What errors grow to *)
Section Grow.
Context (e : Qc) (He : 0 <= e < 1).
Definition grow (n : nat) : Qc := (/ (1 - e)) ^ n.
Lemma g_ge1 : 1 <= / (1 - e).
Proof.
  pose proof (p_pos e He) as P. pose proof (inv_pos _ P) as I. pose proof (p_le e He) as L.
  pose proof (Qcmult_inv_r (1 - e) (pos_nz _ P)) as R. set (j := / (1 - e)) in *. clearbody j.
  rewrite <- R. rewrite <- (Qcmult_1_l j) at 2. apply Qcmult_le_compat_r; [exact L|now apply Qclt_le_weak].
Qed.
Lemma grow_add n m : grow (n + m) = grow n * grow m.
Proof. unfold grow. induction n as [|n IH]; cbn [Nat.add Qcpower]; [now rewrite Qcmult_1_l|]. rewrite IH. ring. Qed.
Lemma grow_ge1 n : 1 <= grow n.
Proof.
  unfold grow. induction n as [|n IH]; cbn [Qcpower]; [apply Qcle_refl|]. rewrite <- (Qcmult_1_l 1).
  apply mult_le; [discriminate|exact g_ge1|discriminate|exact IH].
Qed.
Lemma grow_inv n : (1 - e) ^ n * grow n = 1.
Proof.
  unfold grow. induction n as [|n IH]; cbn [Qcpower]; [reflexivity|].
  replace ((1 - e) * (1 - e) ^ n * (/ (1 - e) * (/ (1 - e)) ^ n)) with (((1 - e) * / (1 - e)) * ((1 - e) ^ n * (/ (1 - e)) ^ n)) by ring.
  rewrite IH, Qcmult_inv_r; [reflexivity|]. apply pos_nz, p_pos, He.
Qed.
Lemma grow_le n m : (n <= m)%nat -> grow n <= grow m.
Proof.
  intros L. replace m with (n + (m - n))%nat by lia. rewrite grow_add. pose proof (grow_ge1 n). pose proof (grow_ge1 (m - n)).
  rewrite <- (Qcmult_1_r (grow n)) at 1. rewrite (Qcmult_comm _ 1), (Qcmult_comm _ (grow (m - n))).
  apply Qcmult_le_compat_r; [assumption|]. apply Qcle_trans with 1; [discriminate|assumption].
Qed.
Lemma grow_factor n : factor e n (grow n).
Proof.
  pose proof (grow_inv n) as I. pose proof (grow_ge1 n) as G. pose proof (power_le e He n) as P. split; [exact (Qcle_trans _ _ _ P G)|].
  rewrite Qcmult_comm, I. apply Qcle_refl.
Qed.
Lemma factor_grow n f : factor e n f -> Qcabs (f - 1) <= grow n - 1.
Proof.
  intros F. pose proof (factor_pos e He n f F) as P. destruct F as [F1 F2]. pose proof (grow_inv n) as I. pose proof (grow_ge1 n) as G. pose proof (power_pos e He n) as Pp.
  assert (L : f <= grow n).
  { replace f with (f * (1 - e) ^ n * grow n) by (rewrite <- Qcmult_assoc, I; ring). rewrite <- (Qcmult_1_l (grow n)) at 2.
    apply Qcmult_le_compat_r; [exact F2|]. apply Qcle_trans with 1; [discriminate|exact G]. }
  assert (I' : (this ((1 - e) ^ n) * this (grow n) == 1)%Q) by (rewrite <- mult_this, I; reflexivity).
  apply Qcabs_Qcle_condition. clear I F2. q_ineq. set (p := this ((1 - e) ^ n)) in *. set (x := this (grow n)) in *. set (y := this f) in *. clearbody p x y.
  split; [|lra]. assert (P0 : (0 <= p)%Q) by lra. assert (P1 : (p <= 1)%Q) by (assert (Z : (0 <= p * (x - 1))%Q) by nra; lra). assert (P2 : (0 <= (1 - p) * (x - 1))%Q) by nra. lra.
Qed.
(** small errors *)
Lemma grow_near n d : Q2Qc (inject_Z (Z.of_nat n)) * e <= d -> d + d <= 1 -> grow n - 1 <= d + d.
Proof.
  intros H1 H2. pose proof (factor_near e He n (grow n) d (grow_factor n) H1 H2) as K. eapply Qcle_trans; [|exact K]. apply Qcle_Qcabs.
Qed.
End Grow.

(** ** One conversion *)
Section One.
Context {V : Type} {A : Arith V} (val : V -> Qc) (e : Qc) (HS : rounding_sums val e) (b : Qc) (Hb : b <> 0) (fv : res V).
Local Notation HR := (rs_rounding val e HS).
Local Notation He := (rd_error val e HR).
Lemma scaled_error n f x a c : factor e n f -> 0 < a -> c = 0 -> Qcabs (x * a * f - (x * a + c)) <= (grow e n - 1) * (a * Qcabs x + 0).
Proof.
  intros F Ha ->. replace (x * a * f - (x * a + 0)) with ((f - 1) * (a * x)) by ring. rewrite Qcabs_Qcmult. rewrite Qcplus_0_r, Qcabs_Qcmult, (Qcabs_pos a) by (now apply Qclt_le_weak).
  apply Qcmult_le_compat_r; [exact (factor_grow e He n f F)|]. rewrite <- (Qcmult_0_l (Qcabs x)). apply Qcmult_le_compat_r; [now apply Qclt_le_weak|apply Qcabs_nonneg].
Qed.
Lemma sum_error f g x q : factor e 1 f -> factor e 1 g -> Qcabs ((x + q * f) * g - (x * 1 + q)) <= (grow e 2 - 1) * (1 * Qcabs x + Qcabs q).
Proof.
  intros F G. replace ((x + q * f) * g - (x * 1 + q)) with ((g - 1) * x + (f * g - 1) * q) by ring.
  pose proof (factor_grow e He 1 g G) as B1. pose proof (factor_grow e He 2 _ (factor_mul e He 1 1 f g F G)) as B2.
  pose proof (grow_le e He 1 2 ltac:(lia)) as B3. eapply Qcle_trans; [apply Qcabs_triangle|]. rewrite !Qcabs_Qcmult.
  replace ((grow e 2 - 1) * (1 * Qcabs x + Qcabs q)) with ((grow e 2 - 1) * Qcabs x + (grow e 2 - 1) * Qcabs q) by ring.
  apply Qcplus_le_compat; (apply Qcmult_le_compat_r; [|apply Qcabs_nonneg]); [|exact B2].
  eapply Qcle_trans; [exact B1|]. unfold Qcminus. apply Qcplus_le_compat; [exact B3|apply Qcle_refl].
Qed.
Lemma spread_plain (c : conv Qc) : forall m, spread c = Some m -> no_fvf c = true.
Proof.
  induction c as [|q|q|q|q|q| | |c1 IH1 c2 IH2|c IH|f]; cbn [spread no_fvf]; intros m H; try discriminate H; try reflexivity.
  - destruct (spread c1) as [[a1 b1]|]; [|discriminate H]. destruct (spread c2) as [[a2 b2]|]; [|discriminate H]. now rewrite (IH1 _ eq_refl), (IH2 _ eq_refl).
  - destruct (straight c); [|discriminate H]. destruct (spread c) as [m'|]; [|discriminate H]. now apply (IH m').
Qed.
Lemma Q2Qc_le p q : (p <= q)%Q -> Q2Qc p <= Q2Qc q.
Proof. intros H. unfold Qcle. rewrite (Qred_correct p), (Qred_correct q). exact H. Qed.
Lemma Q2Qc_abs q : Q2Qc (Qabs.Qabs q) = Qcabs (Q2Qc q).
Proof. apply Qc_is_canon. unfold Qcabs. cbn [this Q2Qc]. rewrite !Qred_correct. reflexivity. Qed.
Lemma positive_pos q : positive q = true -> 0 < Q2Qc q.
Proof. intros H. apply Q2Qc_pos. revert H. unfold positive, Qlt. destruct q as [n d]. cbn [Qnum Qden]. destruct n; [discriminate|reflexivity|discriminate]. Qed.
(** two conversions *)
Lemma then_error g1 g2 x y y' w a1 b1 c1 a2 b2 c2 : 1 <= g1 -> 1 <= g2 -> 0 < a1 -> 0 < a2 -> 0 <= b1 -> 0 <= b2 -> Qcabs c1 <= b1 -> y = x * a1 + c1 ->
  Qcabs (y' - y) <= (g1 - 1) * (a1 * Qcabs x + b1) -> Qcabs (w - (y' * a2 + c2)) <= (g2 - 1) * (a2 * Qcabs y' + b2) ->
  Qcabs (w - (y * a2 + c2)) <= (g1 * g2 - 1) * (a1 * a2 * Qcabs x + (a2 * b1 + b2)).
Proof.
  intros G1 G2 A1 A2 B1 B2 C1 Ey E1 E2. set (m := a1 * Qcabs x + b1) in *.
  assert (Hy : Qcabs y <= m).
  { rewrite Ey. eapply Qcle_trans; [apply Qcabs_triangle|]. rewrite Qcabs_Qcmult, (Qcabs_pos a1) by (now apply Qclt_le_weak). unfold m. rewrite (Qcmult_comm a1).
    apply Qcplus_le_compat; [apply Qcle_refl|exact C1]. }
  assert (Hy' : Qcabs y' <= g1 * m).
  { replace y' with ((y' - y) + y) by ring. eapply Qcle_trans; [apply Qcabs_triangle|]. replace (g1 * m) with ((g1 - 1) * m + m) by ring. now apply Qcplus_le_compat. }
  assert (T : Qcabs (w - (y * a2 + c2)) <= Qcabs (w - (y' * a2 + c2)) + a2 * Qcabs (y' - y)).
  { replace (w - (y * a2 + c2)) with ((w - (y' * a2 + c2)) + a2 * (y' - y)) by ring. eapply Qcle_trans; [apply Qcabs_triangle|].
    rewrite Qcabs_Qcmult, (Qcabs_pos a2) by (now apply Qclt_le_weak). apply Qcle_refl. }
  assert (M0 : 0 <= m) by (eapply Qcle_trans; [apply Qcabs_nonneg|exact Hy]).
  eapply Qcle_trans; [exact T|]. replace (a1 * a2 * Qcabs x + (a2 * b1 + b2)) with (a2 * m + b2) by (unfold m; ring).
  pose proof (Qcabs_nonneg y') as Y0. clear T Ey Hy C1. clearbody m.
  generalize dependent (Qcabs (w - (y' * a2 + c2))). generalize dependent (Qcabs (y' - y)). generalize dependent (Qcabs y'). intros ay H1 H2 d1 H3 d2 H4. clear - G1 G2 A2 B2 M0 H1 H2 H3 H4.
  apply Qcle_trans with ((g2 - 1) * (a2 * (g1 * m) + b2) + a2 * ((g1 - 1) * m)).
  - apply Qcplus_le_compat.
    + eapply Qcle_trans; [exact H4|]. rewrite !(Qcmult_comm (g2 - 1)). apply Qcmult_le_compat_r; [|clear - G2; q_ineq; lra].
      apply Qcplus_le_compat; [|apply Qcle_refl]. rewrite !(Qcmult_comm a2). apply Qcmult_le_compat_r; [exact H1|now apply Qclt_le_weak].
    + rewrite !(Qcmult_comm a2). apply Qcmult_le_compat_r; [exact H3|now apply Qclt_le_weak].
  - assert (K : 0 <= g2 * (g1 - 1) * b2).
    { clear - G1 G2 B2. q_ineq. set (x := this g1) in *. set (y := this g2) in *. set (z := this b2) in *. clearbody x y z. assert (0 <= y * (x - 1))%Q by nra. nra. }
    replace ((g1 * g2 - 1) * (a2 * m + b2)) with ((g2 - 1) * (a2 * (g1 * m) + b2) + a2 * ((g1 - 1) * m) + g2 * (g1 - 1) * b2) by ring.
    rewrite <- (Qcplus_0_r ((g2 - 1) * (a2 * (g1 * m) + b2) + a2 * ((g1 - 1) * m))) at 1. apply Qcplus_le_compat; [apply Qcle_refl|exact K].
Qed.
Lemma spread_eval (c : conv Qc) : forall a m, spread c = Some (a, m) -> 0 < Q2Qc a /\ 0 <= Q2Qc m /\ exists k, Qcabs k <= Q2Qc m /\ (straight c = true -> k = 0)
  /\ (forall x, ceval (Ok b) c x = Ok (x * Q2Qc a + k))
  /\ forall x w, ceval fv (cmap c) x = Ok w -> Qcabs (val w - (val x * Q2Qc a + k)) <= (grow e (cost c) - 1) * (Q2Qc a * Qcabs (val x) + Q2Qc m).
Proof.
  induction c as [|q|q|q|q|q| | |c1 IH1 c2 IH2|c IH|f]; cbn [spread]; intros a m E; try discriminate E.
  - injection E as <- <-. change (Q2Qc 1) with 1. change (Q2Qc 0) with 0. split; [reflexivity|]. split; [discriminate|]. exists 0. split; [discriminate|]. split; [reflexivity|].
    split; [intros x; cbn [ceval]; f_equal; ring|]. intros x w Ew. cbn [cmap ceval] in Ew. injection Ew as <-.
    replace (val x - (val x * 1 + 0)) with 0 by ring. cbn [cost]. replace ((grow e 0 - 1) * (1 * Qcabs (val x) + 0)) with 0 by (unfold grow; cbn [Qcpower]; ring). discriminate.
  - destruct (positive q) eqn:P; [|discriminate E]. injection E as <- <-. change (Q2Qc 0) with 0. pose proof (positive_pos q P) as Pq. split; [exact Pq|]. split; [discriminate|].
    exists 0. split; [discriminate|]. split; [reflexivity|]. split; [intros x; cbn [ceval]; cbn [amul aconst exact_arith]; f_equal; ring|].
    intros x w Ew. cbn [cmap ceval] in Ew. injection Ew as <-. destruct (rd_literal val e HR q) as (f & F & Ef). destruct (rd_mul val e HR x (aconst q)) as (g & G & Eg).
    rewrite Eg, Ef. replace (val x * (Q2Qc q * f) * g) with (val x * Q2Qc q * (f * g)) by ring. apply scaled_error; [exact (factor_mul e He 1 1 f g F G)|exact Pq|reflexivity].
  - destruct (positive q) eqn:P; [|discriminate E]. injection E as <- <-. change (Q2Qc 0) with 0. pose proof (positive_pos q P) as Pq. pose proof (pos_nz _ Pq) as Nq. rewrite Q2Qc_inv.
    pose proof (inv_pos _ Pq) as Iq. split; [exact Iq|]. split; [discriminate|].
    exists 0. split; [discriminate|]. split; [reflexivity|]. split; [intros x; cbn [ceval adiv exact_arith]; cbn [aconst exact_arith]; rewrite qdiv_ok by exact Nq; f_equal; unfold Qcdiv; ring|].
    intros x w Ew. cbn [cmap ceval] in Ew. destruct (rd_literal val e HR q) as (f & F & Ef). pose proof (pos_nz f (factor_pos e He 1 f F)) as Nf.
    destruct (rd_div val e HR x (aconst q)) as (z & g & Ez & G & Eg).
    { rewrite Ef. intros X. apply Qcmult_integral in X. destruct X; contradiction. }
    rewrite Ez in Ew. injection Ew as <-. rewrite Eg, Ef. replace (val x / (Q2Qc q * f) * g) with (val x * / Q2Qc q * (g / f)) by (field; split; assumption).
    cbn [cost]. apply scaled_error; [exact (factor_div e He 1 1 g f G F)|exact Iq|reflexivity].
  - injection E as <- <-. change (Q2Qc 1) with 1. rewrite Q2Qc_abs. split; [reflexivity|]. split; [apply Qcabs_nonneg|]. exists (Q2Qc q). split; [apply Qcle_refl|]. split; [intros X; discriminate X|].
    split; [intros x; cbn [ceval aadd aconst exact_arith]; f_equal; ring|]. intros x w Ew. cbn [cmap ceval] in Ew. injection Ew as <-.
    destruct (rd_literal val e HR q) as (f & F & Ef). destruct (rs_add val e HS x (aconst q)) as (g & G & Eg). rewrite Eg, Ef. cbn [cost]. now apply sum_error.
  - injection E as <- <-. change (Q2Qc 1) with 1. rewrite Q2Qc_abs. split; [reflexivity|]. split; [apply Qcabs_nonneg|]. exists (- Q2Qc q). rewrite Qcabs_opp. split; [apply Qcle_refl|].
    split; [intros X; discriminate X|]. split; [intros x; cbn [ceval asub aconst exact_arith]; f_equal; ring|]. intros x w Ew. cbn [cmap ceval] in Ew. injection Ew as <-.
    destruct (rd_literal val e HR q) as (f & F & Ef). destruct (rs_sub val e HS x (aconst q)) as (g & G & Eg). rewrite Eg, Ef. cbn [cost].
    rewrite <- (Qcabs_opp (Q2Qc q)). replace ((val x - Q2Qc q * f) * g) with ((val x + - Q2Qc q * f) * g) by ring. now apply sum_error.
  - destruct (spread c1) as [[a1 m1]|]; [|discriminate E]. destruct (spread c2) as [[a2 m2]|]; [|discriminate E]. injection E as <- <-.
    destruct (IH1 _ _ eq_refl) as (P1 & M1 & k1 & K1 & Z1 & E1 & V1). destruct (IH2 _ _ eq_refl) as (P2 & M2 & k2 & K2 & Z2 & E2 & V2).
    rewrite !Q2Qc_add, !Q2Qc_mul. split; [now apply mult_pos|].
    assert (N0 : 0 <= Q2Qc a2 * Q2Qc m1) by (rewrite <- (Qcmult_0_r (Q2Qc a2)), !(Qcmult_comm (Q2Qc a2)); apply Qcmult_le_compat_r; [exact M1|now apply Qclt_le_weak]).
    split; [rewrite <- (Qcplus_0_l 0); now apply Qcplus_le_compat|]. exists (k1 * Q2Qc a2 + k2). split; [|split; [|split]].
    + eapply Qcle_trans; [apply Qcabs_triangle|]. rewrite Qcabs_Qcmult, (Qcabs_pos (Q2Qc a2)) by (now apply Qclt_le_weak). apply Qcplus_le_compat; [|exact K2].
      rewrite (Qcmult_comm (Q2Qc a2)). apply Qcmult_le_compat_r; [exact K1|now apply Qclt_le_weak].
    + cbn [straight]. intros X. apply andb_true_iff in X as [X1 X2]. rewrite (Z1 X1), (Z2 X2). ring.
    + intros x. cbn [ceval]. rewrite E1. cbn [rbind]. rewrite E2. f_equal. ring.
    + intros x w Ew. cbn [cmap ceval] in Ew. destruct (ceval fv (cmap c1) x) as [y|] eqn:Ey; [|discriminate Ew]. cbn [rbind] in Ew. cbn [cost]. rewrite grow_add.
      replace (val x * (Q2Qc a1 * Q2Qc a2) + (k1 * Q2Qc a2 + k2)) with ((val x * Q2Qc a1 + k1) * Q2Qc a2 + k2) by ring.
      exact (then_error (grow e (cost c1)) (grow e (cost c2)) (val x) (val x * Q2Qc a1 + k1) (val y) (val w) _ _ k1 _ _ k2 (grow_ge1 e He _) (grow_ge1 e He _) P1 P2 M1 M2 K1 eq_refl (V1 x y Ey) (V2 y w Ew)).
  - destruct (straight c) eqn:St; [|discriminate E]. destruct (spread c) as [[a0 m0]|] eqn:Sp; [|discriminate E]. injection E as <- <-.
    destruct (IH _ _ eq_refl) as (P0 & M0 & k0 & K0 & Z0 & E0 & _). specialize (Z0 eq_refl). subst k0. rewrite Q2Qc_inv. change (Q2Qc 0) with 0. pose proof (pos_nz _ P0) as N0.
    pose proof (inv_pos _ P0) as I0. split; [exact I0|]. split; [discriminate|]. exists 0. split; [discriminate|]. split; [reflexivity|].
    assert (Ex : forall x, ceval (Ok b) (CRev c) x = Ok (x * / Q2Qc a0 + 0)).
    { intros x. cbn [ceval]. rewrite E0. cbn [rbind adiv aconst exact_arith]. change (Q2Qc 1) with 1. rewrite qdiv_ok; [f_equal; field; exact N0|].
      intros X. apply N0. rewrite <- X. ring. }
    split; [exact Ex|]. intros x w Ew.
    destruct (straight_eval val e HR b Hb (Err NoFVFError) (fun y X => match X with end) (CRev c) St) as (k & _ & Ek & Wk).
    assert (Ekk : k = / Q2Qc a0). { pose proof (ok_inj _ _ (eq_trans (eq_sym (Ek 1)) (Ex 1))) as X. rewrite Qcmult_1_l in X. rewrite X. ring. }
    rewrite (any_fvf fv (Err NoFVFError) (CRev c)) in Ew by (cbn [no_fvf]; exact (spread_plain c _ Sp)).
    destruct (Wk x w Ew) as (f & F & ->). rewrite Ekk. apply scaled_error; [exact F|exact I0|reflexivity].
Qed.
(** it never fails *)
Lemma spread_total (c : conv Qc) : forall m, spread c = Some m -> forall x, exists w, ceval fv (cmap c) x = Ok w.
Proof.
  induction c as [|q|q|q|q|q| | |c1 IH1 c2 IH2|c IH|f]; intros m E x; pose proof E as E0; cbn [spread] in E; try discriminate E.
  - exists x. reflexivity.
  - eexists. reflexivity.
  - destruct (positive q) eqn:P; [|discriminate E]. pose proof (pos_nz _ (positive_pos q P)) as Nq. cbn [cmap ceval].
    destruct (rd_literal val e HR q) as (f & F & Ef). pose proof (pos_nz f (factor_pos e He 1 f F)) as Nf.
    destruct (rd_div val e HR x (aconst q)) as (z & g & Ez & _); [|exists z; exact Ez].
    rewrite Ef. intros X. apply Qcmult_integral in X. destruct X; contradiction.
  - eexists. reflexivity.
  - eexists. reflexivity.
  - destruct (spread c1) as [m1|]; [|discriminate E]. destruct m1 as [a1 b1]. destruct (spread c2) as [m2|]; [|discriminate E]. cbn [cmap ceval].
    destruct (IH1 _ eq_refl x) as (y & ->). cbn [rbind]. exact (IH2 _ eq_refl y).
  - assert (St : straight c = true) by (destruct (straight c); [reflexivity|discriminate E]).
    pose proof (spread_plain (CRev c) m E0) as Pl.
    destruct (straight_runs val e HR 1 ltac:(discriminate) (Err NoFVFError) (fun y X => match X with end) [CRev c]
      ltac:(cbn [forallb straight]; now rewrite St) ltac:(cbn [forallb]; now rewrite Pl) x) as (w & Ew).
    exists w. cbn [map run_convs] in Ew. rewrite (any_fvf fv (Err NoFVFError) (CRev c)) by exact Pl.
    destruct (ceval (Err NoFVFError) (cmap (CRev c)) x) as [y|]; [exact Ew|discriminate Ew].
Qed.
End One.

(** ** Chains of conversions between temperatures *)
Definition margin : Qc := Q2Qc warm_margin.
Section Step.
Context (e : Qc) (He : 0 <= e < 1).
(** one step: the error in the unit of reference *)
Lemma step_error n kx ox ky oy a m k x u q : 0 < ky -> 0 < a -> Qcabs ox <= margin -> ky * m <= margin -> (forall v, (v * a + k) * ky + oy = v * kx + ox) ->
  Qcabs (u - (x * a + k)) <= (grow e n - 1) * (a * Qcabs x + m) ->
  let s := Qcabs q + margin + margin in
  Qcabs (u * ky + oy - q) + s <= grow e n * (Qcabs (x * kx + ox - q) + s).
Proof.
  intros Py Pa Ho Hm Hl He1 s. pose proof (grow_ge1 e He n) as G. set (g := grow e n) in *. clearbody g.
  assert (Ek : kx = ky * a). { pose proof (Hl 1) as L1. pose proof (Hl 0) as L0. replace kx with ((1 * kx + ox) - (0 * kx + ox)) by ring. rewrite <- L1, <- L0. ring. }
  assert (Px : 0 < kx) by (rewrite Ek; now apply mult_pos).
  assert (T1 : Qcabs (u * ky + oy - q) <= Qcabs (u - (x * a + k)) * ky + Qcabs (x * kx + ox - q)).
  { replace (u * ky + oy - q) with ((u - (x * a + k)) * ky + (((x * a + k) * ky + oy) - q)) by ring. rewrite Hl. eapply Qcle_trans; [apply Qcabs_triangle|].
    rewrite Qcabs_Qcmult, (Qcabs_pos ky) by (now apply Qclt_le_weak). apply Qcle_refl. }
  assert (T2 : kx * Qcabs x <= Qcabs (x * kx + ox - q) + Qcabs q + margin).
  { rewrite <- (Qcabs_pos kx) at 1 by (now apply Qclt_le_weak). rewrite <- Qcabs_Qcmult. replace (kx * x) with ((x * kx + ox - q) + (q + - ox)) by ring.
    eapply Qcle_trans; [apply Qcabs_triangle|]. rewrite <- Qcplus_assoc. apply Qcplus_le_compat; [apply Qcle_refl|]. eapply Qcle_trans; [apply Qcabs_triangle|]. rewrite Qcabs_opp.
    apply Qcplus_le_compat; [apply Qcle_refl|exact Ho]. }
  set (E := Qcabs (x * kx + ox - q)) in *. clearbody E.
  assert (T3 : Qcabs (u - (x * a + k)) * ky <= (g - 1) * (E + s)).
  { eapply Qcle_trans; [apply Qcmult_le_compat_r; [exact He1|now apply Qclt_le_weak]|].
    replace ((g - 1) * (a * Qcabs x + m) * ky) with ((kx * Qcabs x + ky * m) * (g - 1)) by (rewrite Ek; ring). rewrite (Qcmult_comm (g - 1)).
    apply Qcmult_le_compat_r; [|clear - G; q_ineq; lra]. replace (E + s) with (E + Qcabs q + margin + margin) by (unfold s; ring). now apply Qcplus_le_compat. }
  replace (g * (E + s)) with ((g - 1) * (E + s) + E + s) by ring. apply Qcplus_le_compat; [|apply Qcle_refl].
  eapply Qcle_trans; [exact T1|]. now apply Qcplus_le_compat; [|apply Qcle_refl].
Qed.
End Step.

Section Db.
Context (cs : list crow) (d : db Qc).
Hypothesis H : check_db cs d = true.
Hypothesis H2 : check_shapes cs d = true.
Local Notation g := (db_net d).
Local Notation kd := (merge_data (db_kinds d)).
Local Notation D := (dicts_of (all_kinds (db_kinds d))).
Lemma warm_parts T : tabulate (rows cs g) hempty = Some T -> (N.of_nat (length cs) <= 2700)%N /\ forallb (check_warm T (comps_of T [u "Celsius"])) (n_edges g) = true
  /\ forall x, listed_in kd (u "Temperature") x -> check_degrees T (comps_of T [u "Celsius"]) x = true.
Proof.
  intros HT. destruct (shape_parts cs d H2 T HT) as (L & _ & _ & _ & K). split; [exact L|]. unfold check_temperatures in K. apply andb_true_iff in K as [K1 K2]. split; [exact K1|].
  intros x (l & Hl & Hx). pose proof (proj1 (forallb_forall _ _) K2 _ (dget_In _ kd l Hl)) as G. cbn [fst snd] in G. rewrite seqb_refl in G. cbn [negb orb] in G.
  exact (proj1 (forallb_forall _ _) G x Hx).
Qed.
Lemma margin_origin b T x r : hget x T = Some r -> Qle_bool (Qabs.Qabs (snd (c_size (r_cert r)))) warm_margin = true -> Qcabs (o_of (cscale (size_at T) b) x) <= margin.
Proof.
  intros E Q. unfold cscale. cbn [o_of]. unfold size_at. rewrite E. destruct (c_size (r_cert r)) as [[k0 e0] o0]. cbn [snd] in Q. rewrite <- Q2Qc_abs. apply Q2Qc_le. now apply Qle_bool_iff.
Qed.
Lemma warm_walk {V : Type} {A : Arith V} (val : V -> Qc) e (HS : rounding_sums val e) b T fvfc : b <> 0 -> fvfc = comps_of T [u "standard barrel"] ->
  tabulate (rows cs g) hempty = Some T -> length cs = length (n_edges g) -> forallb (check_entry T (n_next g) fvfc) (n_edges g) = true ->
  let m := cscale (size_at T) b in
  forall fv q p a z l c, walk (registered g) a p z -> convs_along g p l -> ~ follows disagreeing p -> comp_of T (nname a) = Some c -> in_N c (comps_of T [u "Celsius"]) = true ->
  S (length l) = length p /\ forall x w, run_convs fv (map cmap l) x = Ok w ->
  let s := Qcabs q + margin + margin in
  Qcabs (quantity m (nname z) (val w) - q) + s <= grow e (max_cost * length l) * (Qcabs (quantity m (nname a) (val x) - q) + s).
Proof.
  intros Hbn -> HT HL HE m fv q. pose proof (rd_error val e (rs_rounding val e HS)) as He. intros p. induction p as [|x0 p IH]; intros a z l c W Hl Hn Hc Hb; [inversion W|]. destruct p as [|y0 p].
  - destruct l; [|contradiction]. split; [reflexivity|]. intros x w E. cbn [map run_convs] in E. injection E as <-. assert (z = a) as -> by (inversion W as [a0|a0 b0 p0 c0 Hab W']; subst; [reflexivity|inversion W']).
    cbn [length]. rewrite Nat.mul_0_r. unfold grow. cbn [Qcpower]. rewrite Qcmult_1_l. apply Qcle_refl.
  - destruct l as [|k l]; [contradiction|]. destruct Hl as [Hk Hl]. inversion W as [|? b0 ? ? Hab W']; subst. assert (b0 = y0) as -> by (inversion W'; reflexivity).
    cbn [follows] in Hn. pose proof (registered_comp T g cs _ HT HL HE x0 y0 Hab) as [Ec _]. rewrite Hc in Ec.
    destruct (IH y0 z l c W' Hl ltac:(tauto) Ec Hb) as (I1 & I2). split; [cbn [length] in *; lia|]. intros x w E s. cbn [map run_convs] in E.
    destruct (ceval fv (cmap k) x) as [y|] eqn:Ey; [|discriminate E]. cbn [rbind] in E. specialize (I2 y w E). cbn zeta in I2. fold s in I2.
    cbn [length]. rewrite Nat.mul_succ_r, grow_add, <- Qcmult_assoc. eapply Qcle_trans; [exact I2|].
    rewrite !(Qcmult_comm (grow e (max_cost * length l))). apply Qcmult_le_compat_r; [|apply Qcle_trans with 1; [discriminate|apply grow_ge1; exact He]].
    destruct (conversion_entry g x0 y0 k Hk) as (e1 & He1 & Ea & Hin). destruct (warm_parts T HT) as (_ & K2 & _).
    pose proof (proj1 (forallb_forall _ _) K2 e1 He1) as G. unfold check_warm in G. rewrite Ea in G. pose proof Hc as Hc1. unfold comp_of in Hc1.
    destruct (hget (nname x0) T) as [r|] eqn:Er; [|discriminate Hc1]. injection Hc1 as Hc1. rewrite Hc1, Hb in G. cbn [negb orb] in G. apply andb_true_iff in G as [G1 G2].
    pose proof (proj1 (forallb_forall _ _) G2 (y0, k) Hin) as G3. cbn [fst snd] in G3. destruct (spread k) as [[sa sb]|] eqn:Sp; [|discriminate G3].
    destruct (hget (nname y0) T) as [r'|] eqn:Er'; [|discriminate G3]. destruct (spread_eval val e HS b Hbn fv k sa sb Sp) as (Pa & Pm & k0 & Ka & _ & Ek & Wk).
    destruct (c_size (r_cert r')) as [[ky ey] oy] eqn:Es'. rewrite !andb_true_iff in G3. destruct G3 as (((G3 & G4) & G5) & G6). apply Z.eqb_eq in G3. subst ey. apply Nat.leb_le in G6.
    assert (Ky : k_of m (nname y0) = Q2Qc ky) by (unfold m, cscale; cbn [k_of]; unfold size_at; rewrite Er', Es', bpow_0; ring).
    assert (Lin : forall v, (v * Q2Qc sa + k0) * k_of m (nname y0) + o_of m (nname y0) = v * k_of m (nname x0) + o_of m (nname x0)).
    { intros v. destruct (edge_quantity T g cs _ HT HL HE b x0 y0 k v Hbn Hk ltac:(tauto)) as (v' & V1 & V2). rewrite Ek in V1. injection V1 as <-. exact V2. }
    apply Qcle_trans with (grow e (cost k) * (Qcabs (quantity m (nname x0) (val x) - q) + s)).
    + apply (step_error e He (cost k) _ _ _ _ (Q2Qc sa) (Q2Qc sb) k0); try assumption.
      * rewrite Ky. now apply positive_pos.
      * apply (margin_origin b T _ r Er). destruct (c_size (r_cert r)) as [[? ?] ?]. exact G1.
      * rewrite Ky, <- Q2Qc_mul. apply Q2Qc_le. now apply Qle_bool_iff.
      * now apply Wk.
    + apply Qcmult_le_compat_r; [now apply grow_le|]. unfold s. rewrite <- (Qcplus_0_l 0). apply Qcplus_le_compat; [apply Qcabs_nonneg|].
      rewrite <- (Qcplus_0_l 0). apply Qcplus_le_compat; [|discriminate]. rewrite <- (Qcplus_0_l 0). apply Qcplus_le_compat; [apply Qcabs_nonneg|discriminate].
Qed.
Lemma warm_total {V : Type} {A : Arith V} (val : V -> Qc) e (HS : rounding_sums val e) T fvfc :
  tabulate (rows cs g) hempty = Some T -> length cs = length (n_edges g) -> forallb (check_entry T (n_next g) fvfc) (n_edges g) = true ->
  forall fv p a z l c, walk (registered g) a p z -> convs_along g p l -> comp_of T (nname a) = Some c -> in_N c (comps_of T [u "Celsius"]) = true ->
  forall x, exists w, run_convs fv (map cmap l) x = Ok w.
Proof.
  intros HT HL HE fv p. induction p as [|x0 p IH]; intros a z l c W Hl Hc Hb x; [inversion W|]. destruct p as [|y0 p].
  - destruct l; [|contradiction]. exists x. reflexivity.
  - destruct l as [|k l]; [contradiction|]. destruct Hl as [Hk Hl]. inversion W as [|? b0 ? ? Hab W']; subst. assert (b0 = y0) as -> by (inversion W'; reflexivity).
    pose proof (registered_comp T g cs _ HT HL HE x0 y0 Hab) as [Ec _]. rewrite Hc in Ec.
    destruct (conversion_entry g x0 y0 k Hk) as (e1 & He1 & Ea & Hin). destruct (warm_parts T HT) as (_ & K2 & _).
    pose proof (proj1 (forallb_forall _ _) K2 e1 He1) as G. unfold check_warm in G. rewrite Ea in G. pose proof Hc as Hc1. unfold comp_of in Hc1.
    destruct (hget (nname x0) T) as [r|] eqn:Er; [|discriminate Hc1]. injection Hc1 as Hc1. rewrite Hc1, Hb in G. cbn [negb orb] in G. apply andb_true_iff in G as [_ G2].
    pose proof (proj1 (forallb_forall _ _) G2 (y0, k) Hin) as G3. cbn [fst snd] in G3. destruct (spread k) as [m|] eqn:Sp; [|discriminate G3].
    destruct (spread_total val e HS fv k m Sp x) as (y & Ey). cbn [map run_convs]. rewrite Ey. cbn [rbind]. exact (IH y0 z l c W' Hl Ec Hb y).
Qed.
(** between temperatures *)
Lemma gen_degrees (V : Type) (A : Arith V) (val : V -> Qc) e d0 : rounding_sums val e -> Q2Qc 37800 * e <= d0 -> d0 + d0 <= 1 ->
  forall (s : st V) l v w s0 l0 w0 f t uc uc0, numbers_of d s -> Forall keeps_tables l -> session_of d s0 -> Forall keeps l0 -> (forall y, fv_of (do_calls l0 s0) = Ok y -> y <> 0) ->
  listed_in kd (u "Temperature") f -> listed_in kd (u "Temperature") t -> unit_name f -> unit_name t ->
  converted_to v f t uc (do_calls l s) w -> fst (convert (VNum (val v)) (UStr f) (UStr t) uc0 (do_calls l0 s0)) = Ok (Some (CVal w0)) ->
  Qcabs (val w - w0) <= (d0 + d0) * (Qcabs w0 + Q2Qc 1600).
Proof.
  intros HS Hd1 Hd2 s l v w s0 l0 w0 f t uc uc0 S K S0 K0 Hv0 Lf Lt Hf Ht Hw Hw0.
  pose proof (rd_error val e (rs_rounding val e HS)) as He.
  destruct (parts cs d H) as (T & HT & HL & HRo & HE & HK & HG & HW & HO & HN & HP & HD & (HC & HC') & HX & HG' & HV & HU & HM & HZ).
  assert (Kc : ~ In (u "Temperature") contradictory_kinds) by (intros X; apply smem_In in X; discriminate X).
  assert (Kr : ~ In (u "Temperature") rule_kinds) by (intros X; apply smem_In in X; discriminate X).
  assert (Kv : u "Temperature" <> u "Volume") by (intros X; discriminate X).
  destruct (fvf_some (do_calls l0 s0) Hv0) as (b & Hb & Hbs).
  pose proof S as (S1 & S2 & S3 & S4 & S5 & S6). pose proof (table_wf T g cs _ HT HL HE) as Wf.
  assert (Fr : fresh_session s) by (split; [rewrite S1; apply wf_sane; exact (map_wf g Wf)|auto]).
  assert (Ho : ordinary (s_dict s) f) by (rewrite S2; exact (kind_ordinary d HO _ f Lf Kr)).
  assert (Hd : density_case (s_dict s) f t = false) by (rewrite S2; apply (kind_density cs d T HT HL HRo HE HK HN HG' _ f t Lf Lt (proj1 Hf) (proj1 Ht) Kv)).
  set (m := cscale (size_at T) b).
  pose proof (kind_value cs d T HT HL HRo HE HK HG HO HN HG' (u "Temperature") f t s0 l0 (val v) w0 uc0 b S0 K0 Hf Ht Lf Lt Kc Kr Hb Hbs Hw0) as Ew. fold m in Ew.
  pose proof (size_ne T g cs _ HT HL HE b t Hb : k_of m t <> 0) as Nt.
  assert (Q0 : quantity m t w0 = quantity m f (val v)) by (rewrite Ew; now apply rescale_quantity).
  assert (D0 : 0 <= d0 + d0).
  { apply Qcle_trans with (Q2Qc 37800 * e + Q2Qc 37800 * e); [|now apply Qcplus_le_compat]. destruct He as [He _].
    assert (0 <= Q2Qc 37800 * e) by (rewrite <- (Qcmult_0_r (Q2Qc 37800)), !(Qcmult_comm (Q2Qc 37800)); apply Qcmult_le_compat_r; [exact He|discriminate]).
    rewrite <- (Qcplus_0_l 0). now apply Qcplus_le_compat. }
  assert (W0 : 0 <= Qcabs w0 + Q2Qc 1600) by (rewrite <- (Qcplus_0_l 0); apply Qcplus_le_compat; [apply Qcabs_nonneg|discriminate]).
  destruct (comes_from s l f t uc v w Fr S6 K Hf Ht Ho Hd Hw) as (h & Eh & [[-> ->]|Hp]); specialize (Eh v w Hw).
  - cbn [feval] in Eh. injection Eh as ->. assert (Z0 : val w - w0 = 0) by (rewrite Ew, (rescale_id m t) by exact Nt; ring). rewrite Z0.
    rewrite (Qcabs_pos 0) by discriminate. rewrite <- (Qcmult_0_l (Qcabs w0 + Q2Qc 1600)). apply Qcmult_le_compat_r; assumption.
  - rewrite S1 in Hp. destruct (map_path g f t h Hp) as (a & z & p & q & Ea & Ez & Hs & Hq & ->). cbn [feval] in Eh.
    destruct (get_node_spec _ _ _ Ea) as [Na Ea']. destruct (get_node_spec _ _ _ Ez) as [_ Ez'].
    destruct (get_node_entry T g cs HT HL f a Ea) as (ea & ca & _ & _ & _ & Ta). destruct (get_node_entry T g cs HT HL t z Ez) as (ez & cz & Iz & Nz & _ & Tz).
    destruct (warm_parts T HT) as (Ln & Kw & Kd). pose proof (Kd f Lf) as Df. pose proof (Kd t Lt) as Dt. unfold check_degrees in Df, Dt. rewrite Ta in Df. rewrite Tz in Dt. cbn [r_cert] in Df, Dt.
    apply andb_true_iff in Df as [Df _]. apply andb_true_iff in Dt as [Dz Dt]. destruct (c_size cz) as [[kz xz] oz] eqn:Sz. rewrite !andb_true_iff in Dt. destruct Dt as ((Dt1 & Dt2) & Dt3). apply Z.eqb_eq in Dt1. subst xz.
    destruct (warm_walk val e HS b T _ Hb eq_refl HT HL HE (fv_of (do_calls l s)) (quantity m f (val v)) p a z q (c_comp ca) (proj1 Hs) Hq
      (kind_safe cs d T HT HL HE HG _ f t Lf Lt Kc a z p Ea Ez Hs)) as (Q3 & W1).
    { unfold comp_of. rewrite Ea', Ta. reflexivity. }
    { exact Df. }
    specialize (W1 v w Eh). cbn zeta in W1. fold m in W1. rewrite Ea', Ez' in W1. replace (quantity m f (val v) - quantity m f (val v)) with 0 in W1 by ring. rewrite (Qcabs_pos 0) in W1 by discriminate.
    rewrite Qcplus_0_l, <- Q0 in W1.
    assert (Kt : k_of m t = Q2Qc kz) by (unfold m, cscale; cbn [k_of]; unfold size_at; rewrite Tz; cbn [r_cert]; rewrite Sz, bpow_0; ring).
    assert (Ot : Qcabs (o_of m t) <= margin).
    { apply (margin_origin b T t _ Tz). cbn [r_cert]. pose proof (proj1 (forallb_forall _ _) Kw ez Iz) as G. unfold check_warm in G. rewrite Nz, Ez', Tz in G. cbn [r_cert] in G. rewrite Dz in G. cbn [negb orb] in G.
      apply andb_true_iff in G as [G _]. destruct (c_size cz) as [[? ?] ?]. exact G. }
    assert (Pz : 0 < k_of m t) by (rewrite Kt; now apply positive_pos).
    assert (N : (N.of_nat (max_cost * length q) <= 37800)%N).
    { unfold max_cost. pose proof (NoDup_incl_length (proj2 Hs) (walk_nodes_In g a p z Wf Na (proj1 Hs))) as Lp. unfold nodes in Lp. rewrite map_length, <- HL in Lp. lia. }
    assert (Gr : grow e (max_cost * length q) - 1 <= d0 + d0).
    { apply grow_near; [exact He| |exact Hd2]. eapply Qcle_trans; [|exact Hd1]. destruct He as [He0 _]. apply Qcmult_le_compat_r; [|exact He0].
      apply Q2Qc_le. change 37800%Q with (inject_Z 37800). rewrite <- Zle_Qle. lia. }
    set (gr := grow e (max_cost * length q)) in *. clearbody gr. set (s' := Qcabs (quantity m t w0) + margin + margin) in *.
    assert (B1 : Qcabs (val w - w0) * k_of m t <= (gr - 1) * s').
    { assert (Eq : Qcabs (quantity m t (val w) - quantity m t w0) = Qcabs (val w - w0) * k_of m t).
      { rewrite <- (Qcabs_pos (k_of m t)) by (now apply Qclt_le_weak). rewrite <- Qcabs_Qcmult. f_equal. unfold quantity. ring. }
      rewrite Eq in W1. clear - W1. q_ineq. lra. }
    assert (B2 : s' <= (Qcabs w0 + Q2Qc 1600) * k_of m t).
    { assert (B3 : Qcabs (quantity m t w0) <= Qcabs w0 * k_of m t + margin).
      { unfold quantity. eapply Qcle_trans; [apply Qcabs_triangle|]. rewrite Qcabs_Qcmult, (Qcabs_pos (k_of m t)) by (now apply Qclt_le_weak). apply Qcplus_le_compat; [apply Qcle_refl|exact Ot]. }
      assert (B4 : margin + margin + margin <= Q2Qc 1600 * k_of m t).
      { apply Qle_bool_iff in Dt3. rewrite Kt, <- Q2Qc_mul. change (margin + margin + margin) with (Q2Qc (3 * warm_margin)). now apply Q2Qc_le. }
      unfold s'. clear - B3 B4. q_ineq. rewrite ?plus_this in *. lra. }
    assert (S0' : 0 <= s') by (unfold s'; rewrite <- (Qcplus_0_l 0); apply Qcplus_le_compat; [|discriminate]; rewrite <- (Qcplus_0_l 0); apply Qcplus_le_compat; [apply Qcabs_nonneg|discriminate]).
    assert (B5 : Qcabs (val w - w0) * k_of m t <= (d0 + d0) * (Qcabs w0 + Q2Qc 1600) * k_of m t).
    { eapply Qcle_trans; [exact B1|]. apply Qcle_trans with ((d0 + d0) * s'); [now apply Qcmult_le_compat_r|]. rewrite <- Qcmult_assoc, !(Qcmult_comm (d0 + d0)). now apply Qcmult_le_compat_r. }
    exact (Qcmult_lt_0_le_reg_r _ _ _ Pz B5).
Qed.
(** ... and a number is returned *)
Lemma gen_degrees_number (V : Type) (A : Arith V) (val : V -> Qc) e : rounding_sums val e ->
  forall (s : st V) l v f t uc, numbers_of d s -> (p_algo (s_par s) = u "BFS" \/ p_algo (s_par s) = u "lean_BFS") /\ (12 <= p_max_gen (s_par s))%Z ->
  Forall converts l -> listed_in kd (u "Temperature") f -> listed_in kd (u "Temperature") t -> unit_name f -> unit_name t -> exists w, converted_to v f t uc (do_calls l s) w.
Proof.
  intros HR s l v f t uc S Hs Hl Lf Lt Hf Ht.
  assert (Kr : ~ In (u "Temperature") rule_kinds) by (intros X; apply smem_In in X; discriminate X).
  assert (Kv : u "Temperature" <> u "Volume") by (intros X; discriminate X).
  assert (Hw : In (u "Temperature") whole_kinds) by (apply smem_In; vm_compute; reflexivity).
  destruct (parts cs d H) as (T & HT & HL & HRo & HE & HK & HG & HW & HO & HN & HP & HD & (HC & HC') & HX & HG' & HV & HU & HM & HZ).
  pose proof S as (S1 & S2 & S3 & S4 & S5 & S6). pose proof (table_wf T g cs _ HT HL HE) as Wf.
  assert (Fr : fresh_session s) by (split; [rewrite S1; apply wf_sane; exact (map_wf g Wf)|auto]).
  assert (Ho : ordinary (s_dict s) f) by (rewrite S2; exact (kind_ordinary d HO _ f Lf Kr)).
  assert (Hd : density_case (s_dict s) f t = false) by (rewrite S2; apply (kind_density cs d T HT HL HRo HE HK HN HG' _ f t Lf Lt (proj1 Hf) (proj1 Ht) Kv)).
  destruct (whole_comp d T HW _ f t Hw Lf Lt) as (c & Cf & Ct & Rc). unfold converted_to.
  destruct (quick (V:=V) (s_dict s) f t) as [h|] eqn:Eq.
  - rewrite (convert_quick s l v f t uc h Fr S6 (tables_enough l (converts_tables l Hl)) Hf Ht Hd Eq).
    rewrite plain_quick in Eq by exact Ho. destruct (seqb f t); [|discriminate Eq]. injection Eq as <-. exists v. reflexivity.
  - destruct (quiet_session s l Fr S6 (converts_quiet _ _ Hl)) as (St & En & _ & N & Ds). pose proof (do_calls_frame l s Hl) as Hfr.
    assert (Hd2 : density_case (s_dict (do_calls l s)) f t = false) by (rewrite Ds; exact Hd).
    rewrite convert_settled; try assumption.
    rewrite (finish_frame _ _ _ Hfr), (val_frame _ _ _ _ Hfr), (bare_answer_frame _ _ _ _ Hfr).
    assert (Rf : in_regular T (comps_of T [u "standard barrel"]) f) by (exists c; auto).
    assert (Cf' := Cf). assert (Ct' := Ct).
    unfold comp_of in Cf', Ct'. destruct (hget f T) as [r|] eqn:E1; [|discriminate Cf']. destruct (hget t T) as [r'|] eqn:E2; [|discriminate Ct'].
    destruct (same_comp_walk T g cs _ HT HL HRo HE f t r r' E1 E2 ltac:(congruence)) as (p & Hp & Hlen).
    pose proof (row_node T g cs HT HL f r E1) as Gf. pose proof (row_node T g cs HT HL t r' E2) as Gt.
    assert (B : exists h, bare_answer s f t = Ok (Some h) /\ path_function (nmap g) f t h).
    { destruct Hs as [[Ha|Ha] Hg].
      - rewrite <- S1. apply (proj1 (bfs_answer s f t ltac:(rewrite S1; exact (map_wf g Wf)) Ha Eq)).
        exists (e_node (r_entry r)), (e_node (r_entry r')). rewrite S1, !map_get. split; [exact Gf|]. split; [exact Gt|]. exists p. now apply map_walk.
      - rewrite <- S1. apply (lean_answer_in s (in_regular T (comps_of T [u "standard barrel"])) f t (length p)); try assumption.
        + rewrite S1. exact (map_wf g Wf).
        + rewrite S1. exact (map_unique g (table_unique T g cs HT HL)).
        + rewrite S1. intros x y Hxy Rx. apply (map_registered g) in Hxy. exact (regular_closed T g cs _ HT HL HE x y Hxy Rx).
        + rewrite S1. intros x y Hxy Rx. apply (map_registered g) in Hxy. apply (map_registered g). exact (regular_symmetric T g cs _ HT HL HE x y Hxy Rx).
        + unfold current_es. now rewrite S3.
        + apply Hf. + apply Ht. + lia.
        + exists (e_node (r_entry r)), (e_node (r_entry r')), p. rewrite S1, !map_get. split; [exact Gf|]. split; [exact Gt|]. split; [now apply map_walk|reflexivity].
        + lia. }
    destruct B as (h & Eh & Hpf). rewrite Eh. destruct (map_path g f t h Hpf) as (a & z & p' & q & Ea & Ez & Hsp & Hq & ->). cbn [val_result feval].
    destruct (get_node_spec _ _ _ Ea) as [_ Ea'].
    assert (Hca : comp_of T (nname a) = Some c) by (rewrite Ea'; unfold comp_of; rewrite E1; exact Cf').
    destruct (warm_parts T HT) as (_ & _ & Kd). pose proof (Kd f Lf) as Df. unfold check_degrees in Df. rewrite E1 in Df. apply andb_true_iff in Df as [Df _].
    injection Cf' as Cf'. rewrite Cf' in Df.
    destruct (warm_total val e HR T _ HT HL HE (fv_of s) p' a z q c (proj1 Hsp) Hq Hca Df v) as (w & Ew).
    exists w. cbn [val_result]. rewrite Ew. reflexivity.
Qed.
End Db.
