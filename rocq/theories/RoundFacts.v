(** * Arithmetics that round: the facts *)
From Coq Require Import String QArith Qcanon Qcabs Lqa.
From Verif Require Import Py StrTools Network SearchSpec Conv Converter EngineSpec SymAffine NumPy Dict Database Shipped ShippedSpec RoundSpec RoundCheck.
Local Open Scope Qc_scope.

(** ** Inequalities *)
Lemma mult_this (a b : Qc) : (this (a * b) == this a * this b)%Q.
Proof. apply Qred_correct. Qed.
Lemma minus_this (a b : Qc) : (this (a - b) == this a - this b)%Q.
Proof. unfold Qcminus. etransitivity; [apply Qred_correct|]. rewrite (Qred_correct (- this b)). reflexivity. Qed.
Lemma mult_le a b c d : 0 <= a -> a <= b -> 0 <= c -> c <= d -> a * c <= b * d.
Proof. unfold Qcle. rewrite !mult_this. intros. cbn in *. nra. Qed.
Lemma mult_pos a b : 0 < a -> 0 < b -> 0 < a * b.
Proof. unfold Qclt. rewrite !mult_this. intros. cbn in *. nra. Qed.
Lemma inv_pos a : 0 < a -> 0 < / a.
Proof.
  intros H. destruct (Qclt_le_dec 0 (/ a)) as [L|L]; [exact L|exfalso].
  assert (N : a <> 0) by (intros ->; discriminate H).
  assert (E : / a * a = 1) by (now apply Qcmult_inv_l).
  assert (K : / a * a <= 0) by (rewrite <- (Qcmult_0_l a); apply Qcmult_le_compat_r; [exact L|now apply Qclt_le_weak]).
  rewrite E in K. exact (K eq_refl).
Qed.
Lemma pos_nz a : 0 < a -> a <> 0. Proof. intros H ->. discriminate H. Qed.

Section F.
Context (e : Qc) (He : 0 <= e < 1).
Lemma p_pos : 0 < 1 - e.
Proof. destruct He as [_ H]. unfold Qclt in *. rewrite minus_this. cbn in *. lra. Qed.
Lemma p_le : 1 - e <= 1.
Proof. destruct He as [H _]. unfold Qcle in *. rewrite minus_this. cbn in *. lra. Qed.
Lemma power_pos n : 0 < (1 - e) ^ n.
Proof. induction n as [|n IH]; [reflexivity|]. cbn [Qcpower]. apply mult_pos; [exact p_pos|exact IH]. Qed.
Lemma power_add n m : (1 - e) ^ (n + m) = (1 - e) ^ n * (1 - e) ^ m.
Proof. induction n as [|n IH]; cbn [Nat.add Qcpower]; [now rewrite Qcmult_1_l|]. rewrite IH. ring. Qed.
Lemma power_le n : (1 - e) ^ n <= 1.
Proof.
  induction n as [|n IH]; [apply Qcle_refl|]. cbn [Qcpower]. rewrite <- (Qcmult_1_l 1).
  apply mult_le; [apply Qclt_le_weak, p_pos|exact p_le|apply Qclt_le_weak, power_pos|exact IH].
Qed.
Lemma factor_pos n f : factor e n f -> 0 < f.
Proof. intros [H _]. exact (Qclt_le_trans _ _ _ (power_pos n) H). Qed.
Lemma factor_one : factor e 0 1.
Proof. split; cbn [Qcpower]; [apply Qcle_refl|rewrite Qcmult_1_l; apply Qcle_refl]. Qed.
Lemma factor_mul n m f g : factor e n f -> factor e m g -> factor e (n + m) (f * g).
Proof.
  intros F G. pose proof (factor_pos n f F) as Pf. pose proof (factor_pos m g G) as Pg. destruct F as [F1 F2], G as [G1 G2]. split; rewrite power_add.
  - apply mult_le; try assumption; apply Qclt_le_weak, power_pos.
  - replace (f * g * ((1 - e) ^ n * (1 - e) ^ m)) with (f * (1 - e) ^ n * (g * (1 - e) ^ m)) by ring. rewrite <- (Qcmult_1_l 1).
    apply mult_le; try assumption; apply Qclt_le_weak, mult_pos; try assumption; apply power_pos.
Qed.
Lemma factor_inv n f : factor e n f -> factor e n (/ f).
Proof.
  intros F. pose proof (factor_pos n f F) as P. destruct F as [F1 F2]. pose proof (inv_pos f P) as Q. pose proof (pos_nz f P) as N. split.
  - replace ((1 - e) ^ n) with (f * (1 - e) ^ n * / f) by (field; exact N). rewrite <- (Qcmult_1_l (/ f)) at 2.
    apply Qcmult_le_compat_r; [exact F2|now apply Qclt_le_weak].
  - replace 1 with (f * / f) at 2 by (field; exact N). rewrite (Qcmult_comm (/ f)). apply Qcmult_le_compat_r; [exact F1|now apply Qclt_le_weak].
Qed.
Lemma factor_le n m f : (n <= m)%nat -> factor e n f -> factor e m f.
Proof.
  intros L F. pose proof (factor_pos n f F) as P. replace m with (n + (m - n))%nat by lia. replace f with (f * 1) by ring. apply factor_mul; [exact F|].
  split; [apply power_le|]. rewrite Qcmult_1_l. apply power_le.
Qed.
Lemma factor_div n m f g : factor e n f -> factor e m g -> factor e (n + m) (f / g).
Proof. intros F G. apply factor_mul; [exact F|now apply factor_inv]. Qed.
(** Bernoulli *)
Lemma power_ge n : 1 - Q2Qc (inject_Z (Z.of_nat n)) * e <= (1 - e) ^ n.
Proof.
  induction n as [|n IH]; [cbn [Qcpower Z.of_nat]; change (Q2Qc (inject_Z 0)) with 0; rewrite Qcmult_0_l; apply Qcle_refl|].
  cbn [Qcpower]. pose proof (power_pos n) as P. pose proof (power_le n) as L. destruct He as [E0 _]. pose proof p_pos as P1.
  assert (S : Q2Qc (inject_Z (Z.of_nat (S n))) = Q2Qc (inject_Z (Z.of_nat n)) + 1).
  { apply Qc_is_canon. etransitivity; [apply Qred_correct|]. symmetry. etransitivity; [apply Qred_correct|]. rewrite (Qred_correct (inject_Z (Z.of_nat n))).
    cbn [this Q2Qc]. rewrite Nat2Z.inj_succ, <- Z.add_1_r, inject_Z_plus. reflexivity. }
  rewrite S. set (a := Q2Qc (inject_Z (Z.of_nat n))) in *.
  replace ((1 - e) * (1 - e) ^ n) with ((1 - e) ^ n - e * (1 - e) ^ n) by ring.
  apply Qcle_trans with ((1 - e) ^ n - e * 1).
  - replace (1 - (a + 1) * e) with (1 - a * e + - (e * 1)) by ring. unfold Qcminus at 2. apply Qcplus_le_compat; [exact IH|apply Qcle_refl].
  - unfold Qcminus at 1 3. apply Qcplus_le_compat; [apply Qcle_refl|]. apply Qcopp_le_compat. rewrite (Qcmult_comm e 1), (Qcmult_comm e ((1 - e) ^ n)). apply Qcmult_le_compat_r; assumption.
Qed.

Lemma factor_near n f d : factor e n f -> Q2Qc (inject_Z (Z.of_nat n)) * e <= d -> d + d <= 1 -> Qcabs (f - 1) <= d + d.
Proof.
  intros F Hn Hd. pose proof (factor_pos n f F) as P. destruct F as [F1 F2]. pose proof (power_ge n) as B. pose proof (power_le n) as Pl.
  set (p := (1 - e) ^ n) in *. set (a := Q2Qc (inject_Z (Z.of_nat n))) in *.
  assert (Hp : 1 - d <= p).
  { apply Qcle_trans with (1 - a * e); [|exact B]. unfold Qcminus. apply Qcplus_le_compat; [apply Qcle_refl|]. now apply Qcopp_le_compat. }
  clear B Hn. clearbody p a. apply Qcabs_Qcle_condition. unfold Qcle, Qclt in *. rewrite !minus_this in *. rewrite mult_this in F2.
  assert (D : (this (- (d + d)) == - this d - this d)%Q) by (rewrite (Qred_correct (- this (d + d))), (Qred_correct (this d + this d)); ring).
  assert (D2 : (this (d + d) == this d + this d)%Q) by apply Qred_correct. rewrite D, D2 in *. change (this 1) with 1%Q in *. change (this 0) with 0%Q in *.
  set (F := this f) in *. set (X := this d) in *. set (Y := this p) in *. clearbody F X Y.
  assert (X0 : (0 <= X)%Q) by lra. split; [lra|].
  destruct (Qlt_le_dec (X + X) (F - 1)) as [L|L]; [exfalso|exact L].
  assert (K1 : (F * (1 - X) <= F * Y)%Q) by nra. assert (K2 : ((1 + X + X) * (1 - X) < F * (1 - X))%Q) by nra. assert (K3 : (0 <= X * (1 - X - X))%Q) by nra. lra.
Qed.
Lemma part_of n x f d : factor e n f -> Q2Qc (inject_Z (Z.of_nat n)) * e <= d -> d + d <= 1 -> within_part (d + d) (x * f) x.
Proof.
  intros F Hn Hd. unfold within_part. replace (x * f - x) with ((f - 1) * x) by ring. rewrite Qcabs_Qcmult.
  apply Qcmult_le_compat_r; [now apply (factor_near n)|apply Qcabs_nonneg].
Qed.
End F.

(** ** One conversion, a chain of conversions *)
Section Eval.
Context {V : Type} {A : Arith V} (val : V -> Qc) (e : Qc) (HR : rounding val e) (b : Qc) (Hb : b <> 0) (fv : res V) (Hv : forall y, fv = Ok y -> val y = b).
Local Notation He := (rd_error val e HR).
Lemma positive_nz q : positive q = true -> Q2Qc q <> 0.
Proof.
  unfold positive. intros H X. assert (E : (q == 0)%Q). { rewrite <- (Qred_correct q). change (this (Q2Qc q) == 0)%Q. rewrite X. reflexivity. }
  unfold Qeq in E. cbn in E. destruct (Qnum q); [discriminate H|discriminate E|discriminate H].
Qed.
Lemma one_literal : exists f, factor e 1 f /\ val (aconst 1) = f.
Proof. destruct (rd_literal val e HR 1%Q) as (f & F & E). exists f. split; [exact F|]. rewrite E. change (Q2Qc 1) with 1. ring. Qed.
Lemma straight_eval (c : conv Qc) : straight c = true -> exists k, k <> 0 /\ (forall x, ceval (Ok b) c x = Ok (x * k))
  /\ forall x w, ceval fv (cmap c) x = Ok w -> exists f, factor e (cost c) f /\ val w = val x * k * f.
Proof.
  induction c as [|q|q|q|q|q| | |c1 IH1 c2 IH2|c IH|f]; cbn [straight]; intros H; try discriminate H.
  - exists 1. split; [discriminate|]. split; [intros x; cbn [ceval]; now rewrite Qcmult_1_r|]. intros x w E. cbn [cmap ceval] in E. injection E as <-.
    exists 1. split; [apply factor_one|]. ring.
  - exists (Q2Qc q). split; [now apply positive_nz|]. split; [reflexivity|]. intros x w E. cbn [cmap ceval] in E. injection E as <-.
    destruct (rd_literal val e HR q) as (f & F & Ef). destruct (rd_mul val e HR x (aconst q)) as (g & G & Eg).
    exists (f * g). split; [exact (factor_mul e He 1 1 f g F G)|]. rewrite Eg, Ef. ring.
  - pose proof (positive_nz q H) as Nq. exists (/ Q2Qc q). split; [intros X; assert (K : Q2Qc q * / Q2Qc q = 1) by (now apply Qcmult_inv_r); rewrite X, Qcmult_0_r in K; discriminate K|].
    split; [intros x; cbn [ceval adiv exact_arith]; unfold qdiv; cbn [aconst exact_arith]; destruct (Qc_eq_dec (Q2Qc q) 0) as [Z|_]; [contradiction|reflexivity]|].
    intros x w E. cbn [cmap ceval] in E. destruct (rd_literal val e HR q) as (f & F & Ef). pose proof (pos_nz f (factor_pos e He 1 f F)) as Nf.
    destruct (rd_div val e HR x (aconst q)) as (z & g & Ez & G & Eg).
    { rewrite Ef. intros X. apply Qcmult_integral in X. destruct X; contradiction. }
    rewrite Ez in E. injection E as <-. exists (g / f). split; [exact (factor_div e He 1 1 g f G F)|]. rewrite Eg, Ef. field. split; assumption.
  - exists (/ b). split; [intros X; assert (K : b * / b = 1) by (now apply Qcmult_inv_r); rewrite X, Qcmult_0_r in K; discriminate K|].
    split; [intros x; cbn [ceval rbind adiv exact_arith]; unfold qdiv; destruct (Qc_eq_dec b 0) as [Z|_]; [contradiction|reflexivity]|].
    intros x w E. cbn [cmap ceval] in E. destruct fv as [y|]; [|discriminate E]. cbn [rbind] in E. pose proof (Hv y eq_refl) as Ey.
    destruct (rd_div val e HR x y) as (z & g & Ez & G & Eg); [now rewrite Ey|]. rewrite Ez in E. injection E as <-. exists g. split; [exact G|]. rewrite Eg, Ey. reflexivity.
  - exists b. split; [exact Hb|]. split; [reflexivity|].
    intros x w E. cbn [cmap ceval] in E. destruct fv as [y|]; [|discriminate E]. cbn [rbind] in E. injection E as <-.
    destruct (rd_mul val e HR x y) as (g & G & Eg). exists g. split; [exact G|]. rewrite Eg, (Hv y eq_refl). reflexivity.
  - apply andb_true_iff in H as [H1 H2]. destruct (IH1 H1) as (k1 & N1 & E1 & V1). destruct (IH2 H2) as (k2 & N2 & E2 & V2).
    exists (k1 * k2). split; [intros X; apply Qcmult_integral in X; destruct X; contradiction|].
    split; [intros x; cbn [ceval]; rewrite E1; cbn [rbind]; rewrite E2; now rewrite Qcmult_assoc|].
    intros x w E. cbn [cmap ceval] in E. destruct (ceval fv (cmap c1) x) as [y|] eqn:Ey; [|discriminate E]. cbn [rbind] in E.
    destruct (V1 x y Ey) as (f & F & Ef). destruct (V2 y w E) as (g & G & Eg). exists (f * g). split; [exact (factor_mul e He _ _ f g F G)|]. rewrite Eg, Ef. ring.
  - destruct (IH H) as (k & N & E & W). exists (/ k). split; [intros X; assert (K : k * / k = 1) by (now apply Qcmult_inv_r); rewrite X, Qcmult_0_r in K; discriminate K|].
    split.
    { intros x. cbn [ceval]. rewrite E. cbn [rbind adiv exact_arith]. unfold qdiv. cbn [aconst exact_arith]. change (Q2Qc 1) with 1. rewrite Qcmult_1_l.
      destruct (Qc_eq_dec k 0) as [Z|_]; [contradiction|reflexivity]. }
    intros x w Ew. cbn [cmap ceval] in Ew. destruct (ceval fv (cmap c) (aconst 1)) as [y|] eqn:Ey; [|discriminate Ew]. cbn [rbind] in Ew.
    destruct (W _ y Ey) as (f & F & Ef). destruct one_literal as (g & G & Eg). rewrite Eg in Ef.
    pose proof (pos_nz f (factor_pos e He _ f F)) as Nf. pose proof (pos_nz g (factor_pos e He _ g G)) as Ng.
    destruct (rd_div val e HR x y) as (z & h & Ez & Hh & Eh).
    { rewrite Ef. intros X. apply Qcmult_integral in X. destruct X as [X|X]; [|contradiction]. apply Qcmult_integral in X. destruct X; contradiction. }
    rewrite Ez in Ew. injection Ew as <-. exists (h / (g * f)). split.
    + cbn [cost]. change (2 + cost c)%nat with (1 + (1 + cost c))%nat. apply (factor_div e He); [exact Hh|]. exact (factor_mul e He _ _ g f G F).
    + rewrite Eh, Ef. field. repeat split; assumption.
Qed.
Fixpoint total_cost (l : list (conv Qc)) : nat := match l with [] => 0 | c :: t => cost c + total_cost t end.
Lemma straight_run : forall l : list (conv Qc), forallb straight l = true -> exists k, (forall x, run_convs (Ok b) l x = Ok (x * k))
  /\ forall x w, run_convs fv (map cmap l) x = Ok w -> exists f, factor e (total_cost l) f /\ val w = val x * k * f.
Proof.
  induction l as [|c l IH]; intros H.
  - exists 1. split; [intros x; cbn [run_convs]; now rewrite Qcmult_1_r|]. intros x w E. cbn [map run_convs] in E. injection E as <-. exists 1. split; [apply factor_one|ring].
  - cbn [forallb] in H. apply andb_true_iff in H as [H1 H2]. destruct (straight_eval c H1) as (k & _ & E1 & V1). destruct (IH H2) as (k' & E2 & V2).
    exists (k * k'). split; [intros x; cbn [run_convs]; rewrite E1; cbn [rbind]; rewrite E2; now rewrite Qcmult_assoc|].
    intros x w E. cbn [map run_convs] in E. destruct (ceval fv (cmap c) x) as [y|] eqn:Ey; [|discriminate E]. cbn [rbind] in E.
    destruct (V1 x y Ey) as (f & F & Ef). destruct (V2 y w E) as (g & G & Eg). exists (f * g). split; [exact (factor_mul e He _ _ f g F G)|]. rewrite Eg, Ef. ring.
Qed.
(** ... and there is a result *)
Lemma literal_nz q : positive q = true -> val (aconst q) <> 0.
Proof.
  intros H. destruct (rd_literal val e HR q) as (f & F & E). rewrite E. intros X. apply Qcmult_integral in X. destruct X as [X|X].
  - exact (positive_nz q H X).
  - exact (pos_nz f (factor_pos e He 1 f F) X).
Qed.
Lemma straight_total (c : conv Qc) : straight c = true -> no_fvf c = true -> forall x, exists w, ceval fv (cmap c) x = Ok w.
Proof.
  induction c as [|q|q|q|q|q| | |c1 IH1 c2 IH2|c IH|f]; cbn [straight no_fvf]; intros H N x; try discriminate H; try discriminate N; cbn [cmap ceval].
  - now exists x.
  - now exists (amul x (aconst q)).
  - destruct (rd_div val e HR x (aconst q) (literal_nz q H)) as (z & _ & -> & _). now exists z.
  - apply andb_true_iff in H as [H1 H2]. apply andb_true_iff in N as [N1 N2]. destruct (IH1 H1 N1 x) as (y & ->). cbn [rbind]. exact (IH2 H2 N2 y).
  - destruct (IH H N (aconst 1)) as (y & Ey). rewrite Ey. cbn [rbind]. destruct (straight_eval c H) as (k & Nk & _ & W). destruct (W _ y Ey) as (f & F & Ef).
    assert (Ny : val y <> 0).
    { rewrite Ef. destruct one_literal as (g & G & ->). pose proof (pos_nz f (factor_pos e He _ f F)). pose proof (pos_nz g (factor_pos e He _ g G)).
      intros X. apply Qcmult_integral in X. destruct X as [X|X]; [|contradiction]. apply Qcmult_integral in X. destruct X; contradiction. }
    destruct (rd_div val e HR x y Ny) as (z & _ & -> & _). now exists z.
Qed.
Lemma straight_runs : forall l : list (conv Qc), forallb straight l = true -> forallb no_fvf l = true -> forall x, exists w, run_convs fv (map cmap l) x = Ok w.
Proof.
  induction l as [|c l IH]; intros H N x; [now exists x|]. cbn [forallb] in H, N. apply andb_true_iff in H as [H1 H2]. apply andb_true_iff in N as [N1 N2].
  cbn [map run_convs]. destruct (straight_total c H1 N1 x) as (y & ->). cbn [rbind]. exact (IH H2 N2 y).
Qed.
Lemma total_cost_le m : forall l, forallb (fun c => Nat.leb (cost c) m) l = true -> (total_cost l <= m * length l)%nat.
Proof.
  induction l as [|c l IH]; intros H; [cbn; lia|]. cbn [forallb] in H. apply andb_true_iff in H as [H1 H2]. apply Nat.leb_le in H1. specialize (IH H2). cbn [total_cost length]. lia.
Qed.
End Eval.

(** ** Order *)
Section Order.
Context {V : Type} {A : Arith V} (le : V -> V -> Prop) (pos : V -> Prop) (HO : ordered le pos) (fv : res V) (Hv : forall y, fv = Ok y -> pos y).
Lemma positive_lt q : positive q = true -> (0 < q)%Q.
Proof. unfold positive, Qlt. destruct q as [n d]. cbn [Qnum Qden]. destruct n; [discriminate|reflexivity|discriminate]. Qed.
Lemma straight_pos (c : conv Qc) : straight c = true -> forall x z, pos x -> ceval fv (cmap c) x = Ok z -> pos z.
Proof.
  induction c as [|q|q|q|q|q| | |c1 IH1 c2 IH2|c IH|f]; cbn [straight]; intros H x z Hx E; try discriminate H; cbn [cmap ceval] in E.
  - injection E as <-. exact Hx.
  - injection E as <-. apply (or_product le pos HO); [exact Hx|]. now apply (or_literal le pos HO), positive_lt.
  - apply (or_quotient le pos HO) in E; [exact E|exact Hx|]. now apply (or_literal le pos HO), positive_lt.
  - destruct fv as [y|]; [|discriminate E]. cbn [rbind] in E. apply (or_quotient le pos HO) in E; [exact E|exact Hx|now apply Hv].
  - destruct fv as [y|]; [|discriminate E]. cbn [rbind] in E. injection E as <-. apply (or_product le pos HO); [exact Hx|now apply Hv].
  - apply andb_true_iff in H as [H1 H2]. destruct (ceval fv (cmap c1) x) as [y|] eqn:Ey; [|discriminate E]. cbn [rbind] in E.
    exact (IH2 H2 y z (IH1 H1 x y Hx Ey) E).
  - destruct (ceval fv (cmap c) (aconst 1)) as [y|] eqn:Ey; [|discriminate E]. cbn [rbind] in E. apply (or_quotient le pos HO) in E; [exact E|exact Hx|].
    refine (IH H _ y _ Ey). now apply (or_literal le pos HO).
Qed.
Lemma rising_order (c : conv Qc) : rising c = true -> forall x y x' y', le x y -> ceval fv (cmap c) x = Ok x' -> ceval fv (cmap c) y = Ok y' -> le x' y'.
Proof.
  induction c as [|q|q|q|q|q| | |c1 IH1 c2 IH2|c IH|f]; cbn [rising]; intros H x y x' y' L Ex Ey; try discriminate H; cbn [cmap ceval] in Ex, Ey.
  - injection Ex as <-. injection Ey as <-. exact L.
  - injection Ex as <-. injection Ey as <-. apply (or_mul le pos HO); [|exact L]. now apply (or_literal le pos HO), positive_lt.
  - refine (or_div le pos HO _ _ _ _ _ _ L Ex Ey). now apply (or_literal le pos HO), positive_lt.
  - injection Ex as <-. injection Ey as <-. now apply (or_add le pos HO).
  - injection Ex as <-. injection Ey as <-. now apply (or_sub le pos HO).
  - destruct fv as [b|]; [|discriminate Ex]. cbn [rbind] in Ex, Ey. refine (or_div le pos HO _ _ _ _ _ _ L Ex Ey). now apply Hv.
  - destruct fv as [b|]; [|discriminate Ex]. cbn [rbind] in Ex, Ey. injection Ex as <-. injection Ey as <-. apply (or_mul le pos HO); [now apply Hv|exact L].
  - apply andb_true_iff in H as [H1 H2]. destruct (ceval fv (cmap c1) x) as [x1|] eqn:E1; [|discriminate Ex]. destruct (ceval fv (cmap c1) y) as [y1|] eqn:E2; [|discriminate Ey].
    cbn [rbind] in Ex, Ey. exact (IH2 H2 x1 y1 x' y' (IH1 H1 x y x1 y1 L E1 E2) Ex Ey).
  - destruct (ceval fv (cmap c) (aconst 1)) as [b|] eqn:Eb; [|discriminate Ex]. cbn [rbind] in Ex, Ey. refine (or_div le pos HO _ _ _ _ _ _ L Ex Ey).
    refine (straight_pos c H _ b _ Eb). now apply (or_literal le pos HO).
Qed.
Lemma rising_run : forall l : list (conv Qc), forallb rising l = true -> forall x y x' y', le x y -> run_convs fv (map cmap l) x = Ok x' -> run_convs fv (map cmap l) y = Ok y' -> le x' y'.
Proof.
  induction l as [|c l IH]; intros H x y x' y' L Ex Ey; cbn [map run_convs] in Ex, Ey.
  - injection Ex as <-. injection Ey as <-. exact L.
  - cbn [forallb] in H. apply andb_true_iff in H as [H1 H2]. destruct (ceval fv (cmap c) x) as [x1|] eqn:E1; [|discriminate Ex].
    destruct (ceval fv (cmap c) y) as [y1|] eqn:E2; [|discriminate Ey]. cbn [rbind] in Ex, Ey. exact (IH H2 x1 y1 x' y' (rising_order c H1 x y x1 y1 L E1 E2) Ex Ey).
Qed.
End Order.
