(** * The affine map of a conversion, for every formation volume factor

    A conversion is x -> p b^e x + q, b being the formation volume factor. *)
From Coq Require Import String QArith Qcanon Qpower.
From Verif Require Import Py Network SearchSpec NetworkFacts Conv ConvFacts Converter EngineSpec ConsistSpec RegionSpec Affine.
Local Open Scope Q_scope.

Definition saff_then (m1 m2 : Q * Z * Q) : option (Q * Z * Q) :=
  let '(p1, e1, q1) := m1 in let '(p2, e2, q2) := m2 in
  match e2 with
  | Z0 => Some (p2 * p1, e1, p2 * q1 + q2)
  | _ => if Qeq_bool q1 0 then Some (p2 * p1, (e1 + e2)%Z, q2) else None
  end.
Definition saff_rev (m : Q * Z * Q) : option (Q * Z * Q) :=
  let '(p, e, q) := m in
  match e with
  | Z0 => if Qeq_bool (p + q) 0 then None else Some (/ (p + q), 0%Z, 0)
  | _ => if Qeq_bool q 0 then if Qeq_bool p 0 then None else Some (/ p, (- e)%Z, 0) else None
  end.
Fixpoint saff (c : conv Qc) : option (Q * Z * Q) :=
  match c with
  | CId => Some (1, 0%Z, 0)
  | CMul q => Some (q, 0%Z, 0)
  | CDiv q => if Qeq_bool q 0 then None else Some (/ q, 0%Z, 0)
  | CAdd q => Some (1, 0%Z, q)
  | CSub q => Some (1, 0%Z, - q)
  | CInto _ => None
  | CFvfDiv => Some (1, (-1)%Z, 0)
  | CFvfMul => Some (1, 1%Z, 0)
  | CThen c1 c2 => match saff c1, saff c2 with Some m1, Some m2 => saff_then m1 m2 | _, _ => None end
  | CRev c => match saff c with Some m => saff_rev m | None => None end
  | CUser _ => None
  end.
Local Open Scope Qc_scope.
Definition bpow (b : Qc) (e : Z) : Qc := Q2Qc (Qpower b e).
Lemma this_ne (b : Qc) : b <> 0 -> ~ (b == 0)%Q.
Proof. intros H K. apply H. apply Qc_is_canon. exact K. Qed.
Lemma bpow_0 b : bpow b 0 = 1. Proof. reflexivity. Qed.
Lemma bpow_add b e1 e2 : b <> 0 -> bpow b (e1 + e2) = bpow b e1 * bpow b e2.
Proof. intros H. unfold bpow. rewrite <- Q2Qc_mul. apply Q2Qc_eq. apply Qpower_plus. now apply this_ne. Qed.
Lemma bpow_1 b : bpow b 1 = b.
Proof. unfold bpow. cbn. apply Qc_is_canon. cbn. apply Qred_correct. Qed.
Lemma bpow_m1 b : bpow b (-1) = / b.
Proof. unfold bpow. change (Qpower b (-1)) with (/ b)%Q. rewrite Q2Qc_inv. f_equal. apply Qc_is_canon. cbn. apply Qred_correct. Qed.
Lemma bpow_ne b e : b <> 0 -> bpow b e <> 0.
Proof.
  intros H K. assert (E : bpow b e * bpow b (- e) = 1) by (rewrite <- bpow_add by exact H; now rewrite Z.add_opp_diag_r).
  rewrite K in E. rewrite Qcmult_0_l in E. discriminate.
Qed.
Lemma bpow_opp b e : b <> 0 -> bpow b (- e) = / bpow b e.
Proof.
  intros H. assert (E : bpow b e * bpow b (- e) = 1) by (rewrite <- bpow_add by exact H; now rewrite Z.add_opp_diag_r).
  pose proof (bpow_ne b e H) as N. rewrite <- (Qcmult_1_l (bpow b (- e))), <- (Qcmult_inv_l (bpow b e) N), <- Qcmult_assoc, E. ring.
Qed.
Lemma bpow_pos b e : 0 < b -> 0 < bpow b e.
Proof. intros H. unfold bpow, Qclt. cbn. rewrite Qred_correct. apply Qpower_0_lt. exact H. Qed.

(** the value of the map *)
Definition sval (b : Qc) (m : Q * Z * Q) (x : Qc) : Qc := let '(p, e, q) := m in Q2Qc p * bpow b e * x + Q2Qc q.
Lemma Qeq0 q : Qeq_bool q 0 = true -> Q2Qc q = 0.
Proof. intros H. apply Qeq_bool_iff in H. now apply Q2Qc_0. Qed.
Lemma saff_then_sound b m1 m2 m x : b <> 0 -> saff_then m1 m2 = Some m -> sval b m2 (sval b m1 x) = sval b m x.
Proof.
  intros Hb. destruct m1 as [[p1 e1] q1], m2 as [[p2 e2] q2]. unfold saff_then, sval. destruct e2 as [|e|e].
  - intros [= <-]. rewrite bpow_0, Q2Qc_add, !Q2Qc_mul. ring.
  - destruct (Qeq_bool q1 0) eqn:E; [|discriminate]. intros [= <-]. rewrite (Qeq0 _ E), bpow_add, Q2Qc_mul by exact Hb. ring.
  - destruct (Qeq_bool q1 0) eqn:E; [|discriminate]. intros [= <-]. rewrite (Qeq0 _ E), bpow_add, Q2Qc_mul by exact Hb. ring.
Qed.
Lemma saff_rev_sound b m m' x : b <> 0 -> saff_rev m = Some m' -> sval b m 1 <> 0 /\ x / sval b m 1 = sval b m' x.
Proof.
  intros Hb. destruct m as [[p e] q]. unfold saff_rev, sval.
  assert (K : forall z, (match z with Z0 => True | _ => False end) \/ (z <> 0%Z)) by (intros [|?|?]; [now left|right; discriminate..]).
  destruct (K e) as [H0|H0].
  - destruct e; try contradiction. destruct (Qeq_bool (p + q) 0) eqn:E; [discriminate|]. intros [= <-].
    apply Q2Qc_ne in E. rewrite Q2Qc_add in E. rewrite bpow_0, Q2Qc_inv, Q2Qc_add. change (Q2Qc 0) with 0.
    assert (E' : Q2Qc p * 1 * 1 + Q2Qc q <> 0) by (now rewrite !Qcmult_1_r). split; [exact E'|].
    rewrite !Qcmult_1_r. unfold Qcdiv. ring.
  - assert (E : match e with Z0 => if Qeq_bool (p + q) 0 then None else Some ((/ (p + q))%Q, 0%Z, 0%Q)
       | _ => if Qeq_bool q 0 then if Qeq_bool p 0 then None else Some ((/ p)%Q, (- e)%Z, 0%Q) else None end
       = if Qeq_bool q 0 then if Qeq_bool p 0 then None else Some ((/ p)%Q, (- e)%Z, 0%Q) else None) by (destruct e; [contradiction|reflexivity..]).
    rewrite E. clear E. destruct (Qeq_bool q 0) eqn:E; [|discriminate]. destruct (Qeq_bool p 0) eqn:Ep; [discriminate|]. intros [= <-].
    rewrite (Qeq0 _ E). change (Q2Qc 0) with 0. apply Q2Qc_ne in Ep. pose proof (bpow_ne b e Hb) as Hn.
    rewrite bpow_opp, Q2Qc_inv by exact Hb. rewrite Qcplus_0_r, Qcmult_1_r.
    assert (Hm : Q2Qc p * bpow b e <> 0) by (intros K1; apply Qcmult_integral in K1; tauto).
    split; [exact Hm|]. field. split; assumption.
Qed.
Lemma saff_sound b c : b <> 0 -> forall m, saff c = Some m -> forall x, ceval (Ok b) c x = Ok (sval b m x).
Proof.
  intros Hb. induction c as [|q0|q0|q0|q0|q0| | |c1 IH1 c2 IH2|c IH|f]; intros m H x; cbn [saff ceval rbind] in *; try discriminate;
  cbn [aadd asub amul adiv aconst exact_arith] in *.
  - injection H as <-. unfold sval. rewrite bpow_0. change (Q2Qc 1) with 1. change (Q2Qc 0) with 0. f_equal. ring.
  - injection H as <-. unfold sval. rewrite bpow_0. change (Q2Qc 0) with 0. f_equal. ring.
  - destruct (Qeq_bool q0 0) eqn:E; [discriminate|]. injection H as <-. apply Q2Qc_ne in E. rewrite qdiv_ok by exact E.
    unfold sval. rewrite bpow_0, Q2Qc_inv. change (Q2Qc 0) with 0. f_equal. field. exact E.
  - injection H as <-. unfold sval. rewrite bpow_0. change (Q2Qc 1) with 1. f_equal. ring.
  - injection H as <-. unfold sval. rewrite bpow_0, Q2Qc_opp. change (Q2Qc 1) with 1. f_equal. ring.
  - injection H as <-. unfold sval. rewrite bpow_m1. rewrite qdiv_ok by exact Hb. change (Q2Qc 1) with 1. change (Q2Qc 0) with 0. f_equal. field. exact Hb.
  - injection H as <-. unfold sval. rewrite bpow_1. change (Q2Qc 1) with 1. change (Q2Qc 0) with 0. f_equal. ring.
  - destruct (saff c1) as [m1|]; [|discriminate]. destruct (saff c2) as [m2|]; [|discriminate].
    rewrite (IH1 _ eq_refl). cbn [rbind]. rewrite (IH2 _ eq_refl). f_equal. now apply saff_then_sound.
  - destruct (saff c) as [m1|]; [|discriminate]. rewrite (IH _ eq_refl). cbn [rbind]. change (Q2Qc 1) with 1.
    destruct (saff_rev_sound b m1 m x Hb H) as [H1 H2]. rewrite qdiv_ok by exact H1. now rewrite H2.
Qed.
Lemma Q2Qc_pos p : (0 < p)%Q -> 0 < Q2Qc p.
Proof. intros H. unfold Qclt. cbn. now rewrite Qred_correct. Qed.
(** positive slope *)
Definition slope_pos (c : conv Qc) : bool := match saff c with Some (p, _, _) => Qle_bool p 0 | None => true end.
(** a conversion that does not need the formation volume factor gives the same with any *)
Lemma ceval_without e b (c : conv Qc) : forall x y, ceval (Err e) c x = Ok y -> ceval (Ok b) c x = Ok y.
Proof.
  induction c as [|q0|q0|q0|q0|q0| | |c1 IH1 c2 IH2|c IH|f]; intros x y H; cbn [ceval rbind] in *; try exact H; try discriminate.
  - destruct (ceval (Err e) c1 x) as [z|] eqn:E; [|discriminate]. rewrite (IH1 _ _ E). cbn [rbind] in *. now apply IH2.
  - destruct (ceval (Err e) c _) as [z|] eqn:E; [|discriminate]. rewrite (IH _ _ E). exact H.
Qed.
Lemma slope_increasing_b b c : 0 < b -> slope_pos c = false -> increasing (Ok b) c.
Proof.
  intros Hb H x y x' y' Ex Ey Hxy. unfold slope_pos in H. destruct (saff c) as [[[p e] q]|] eqn:E; [|discriminate].
  assert (Hb0 : b <> 0) by (intros ->; now apply Qclt_not_eq in Hb).
  rewrite (saff_sound b c Hb0 _ E) in Ex, Ey. injection Ex as <-. injection Ey as <-.
  assert (Hp : (0 < p)%Q). { apply Qnot_le_lt. intros K. apply Qle_bool_iff in K. congruence. }
  assert (Hk : 0 < Q2Qc p * bpow b e).
  { rewrite <- (Qcmult_0_l (bpow b e)). apply Qcmult_lt_compat_r; [now apply bpow_pos|now apply Q2Qc_pos]. }
  unfold sval. apply Qclt_minus_iff. apply Qclt_minus_iff in Hxy.
  replace (Q2Qc p * bpow b e * y + Q2Qc q + - (Q2Qc p * bpow b e * x + Q2Qc q)) with ((y + - x) * (Q2Qc p * bpow b e)) by ring.
  rewrite <- (Qcmult_0_l (Q2Qc p * bpow b e)). now apply Qcmult_lt_compat_r.
Qed.
Lemma slope_increasing fv c : (forall b, fv = Ok b -> 0 < b) -> slope_pos c = false -> increasing fv c.
Proof.
  intros Hb H. destruct fv as [b|e]; [apply slope_increasing_b; [now apply Hb|exact H]|].
  intros x y x' y' Ex Ey Hxy. apply (ceval_without e 1) in Ex, Ey. exact (slope_increasing_b 1 c eq_refl H x y x' y' Ex Ey Hxy).
Qed.
(** no formation volume factor at all *)
Fixpoint no_fvf (c : conv Qc) : bool :=
  match c with CFvfDiv | CFvfMul | CUser _ => false | CThen c1 c2 => no_fvf c1 && no_fvf c2 | CRev c => no_fvf c | _ => true end.
Lemma no_fvf_any fv fv' c x : no_fvf c = true -> ceval fv c x = ceval fv' c x.
Proof.
  revert x. induction c as [|q0|q0|q0|q0|q0| | |c1 IH1 c2 IH2|c IH|f]; intros x H; cbn [ceval no_fvf] in *; try reflexivity; try discriminate.
  - apply andb_true_iff in H as [H1 H2]. rewrite (IH1 x H1). destruct (ceval fv' c1 x); cbn [rbind]; auto.
  - now rewrite (IH _ H).
Qed.
(** a conversion between two units of known sizes: k b^e per unit, origin o *)
Definition csize := (Q * Z * Q)%type.
Definition cscale (T : str -> csize) (b : Qc) : scale :=
  Scale (fun a => let '(k, e, _) := T a in Q2Qc k * bpow b e) (fun a => let '(_, _, o) := T a in Q2Qc o).
Definition size_ok (c : conv Qc) (sa sb : csize) : bool :=
  let '(ka, ea, oa) := sa in let '(kb, eb, ob) := sb in
  match saff c with
  | Some (p, e, q) => Qeq_bool (p * kb)%Q ka && Z.eqb (e + eb) ea
      && match eb with Z0 => Qeq_bool (q * kb + ob)%Q oa | _ => Qeq_bool q 0 && Qeq_bool ob oa end
  | None => false
  end.
Lemma size_ok_sound T b a a' c x : b <> 0 -> size_ok c (T a) (T a') = true ->
  exists y, ceval (Ok b) c x = Ok y /\ quantity (cscale T b) a' y = quantity (cscale T b) a x.
Proof.
  intros Hb. unfold size_ok, quantity, cscale. cbn [k_of o_of]. destruct (T a) as [[ka ea] oa]. destruct (T a') as [[kb eb] ob].
  destruct (saff c) as [[[p e] q]|] eqn:E; [|discriminate]. rewrite (saff_sound b c Hb _ E). intros H.
  apply andb_true_iff in H as [H H3]. apply andb_true_iff in H as [H1 H2]. apply Z.eqb_eq in H2. apply Qeq_bool_iff in H1. apply Q2Qc_eq in H1.
  rewrite Q2Qc_mul in H1. eexists. split; [reflexivity|]. unfold sval. rewrite <- H1, <- H2, bpow_add by exact Hb.
  destruct eb as [|eb|eb].
  - apply Qeq_bool_iff, Q2Qc_eq in H3. rewrite Q2Qc_add, Q2Qc_mul in H3. rewrite <- H3, bpow_0. ring.
  - apply andb_true_iff in H3 as [H3 H4]. apply Qeq0 in H3. apply Qeq_bool_iff, Q2Qc_eq in H4. rewrite H3, H4. ring.
  - apply andb_true_iff in H3 as [H3 H4]. apply Qeq0 in H3. apply Qeq_bool_iff, Q2Qc_eq in H4. rewrite H3, H4. ring.
Qed.
