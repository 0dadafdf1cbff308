(** * Checking by computation that a network agrees with a scale *)
From Coq Require Import String QArith Qcanon.
From Verif Require Import Py Network SearchSpec NetworkFacts Conv ConvFacts Converter EngineSpec ConsistSpec.
Local Open Scope Qc_scope.

(** ** The affine map of a conversion: x -> p x + q *)
Local Open Scope Q_scope.
Fixpoint affine (fv : option Q) (c : conv Qc) : option (Q * Q) :=
  match c with
  | CId => Some (1, 0)
  | CMul q => Some (q, 0)
  | CDiv q => if Qeq_bool q 0 then None else Some (1 / q, 0)
  | CAdd q => Some (1, q)
  | CSub q => Some (1, - q)
  | CInto _ => None
  | CFvfDiv => match fv with Some b => if Qeq_bool b 0 then None else Some (1 / b, 0) | None => None end
  | CFvfMul => match fv with Some b => Some (b, 0) | None => None end
  | CThen c1 c2 =>
      match affine fv c1, affine fv c2 with
      | Some (p1, q1), Some (p2, q2) => Some (Qred (p2 * p1), Qred (p2 * q1 + q2))
      | _, _ => None
      end
  | CRev c =>
      match affine fv c with
      | Some (p, q) => if Qeq_bool (p + q) 0 then None else Some (Qred (1 / (p + q)), 0)
      | None => None
      end
  | CUser _ => None
  end.
Local Open Scope Qc_scope.

Lemma Q2Qc_eq p q : (p == q)%Q -> Q2Qc p = Q2Qc q.
Proof. intros H. apply Q2Qc_eq_iff, H. Qed.
Lemma Q2Qc_add p q : Q2Qc (p + q) = Q2Qc p + Q2Qc q.
Proof. apply Q2Qc_eq_iff. unfold Q2Qc, this. now rewrite !Qred_correct. Qed.
Lemma Q2Qc_mul p q : Q2Qc (p * q) = Q2Qc p * Q2Qc q.
Proof. apply Q2Qc_eq_iff. unfold Q2Qc, this. now rewrite !Qred_correct. Qed.
Lemma Q2Qc_opp p : Q2Qc (- p) = - Q2Qc p.
Proof. apply Q2Qc_eq_iff. unfold Q2Qc, this. now rewrite !Qred_correct. Qed.
Lemma Q2Qc_inv p : Q2Qc (/ p) = / Q2Qc p.
Proof. apply Q2Qc_eq_iff. unfold Q2Qc, this. now rewrite !Qred_correct. Qed.
Lemma Q2Qc_div p q : Q2Qc (p / q) = Q2Qc p / Q2Qc q.
Proof. unfold Qdiv, Qcdiv. now rewrite Q2Qc_mul, Q2Qc_inv. Qed.
Lemma Q2Qc_red p : Q2Qc (Qred p) = Q2Qc p.
Proof. apply Q2Qc_eq, Qred_correct. Qed.
Lemma Q2Qc_0 p : Q2Qc p = 0 <-> (p == 0)%Q.
Proof.
  split; [intros H|intros H; now rewrite (Q2Qc_eq _ _ H)]. apply (f_equal this) in H. cbn in H.
  rewrite <- (Qred_correct p). rewrite H. reflexivity.
Qed.
Lemma Q2Qc_ne p : Qeq_bool p 0 = false -> Q2Qc p <> 0.
Proof. intros H K. apply Q2Qc_0 in K. apply Qeq_bool_iff in K. congruence. Qed.

Definition fvQ (fv : option Q) : res Qc := match fv with Some b => Ok (Q2Qc b) | None => Err NoFVFError end.
Lemma affine_sound fv c : forall p q, affine fv c = Some (p, q) -> forall x,
  ceval (fvQ fv) c x = Ok (Q2Qc p * x + Q2Qc q).
Proof.
  induction c as [|q0|q0|q0|q0|q0| | |c1 IH1 c2 IH2|c IH|f]; intros p q H x; cbn [affine ceval] in *; try discriminate;
  cbn [aadd asub amul adiv aconst exact_arith] in *.
  - injection H as <- <-. f_equal. change (Q2Qc 0) with 0. ring.
  - injection H as <- <-. f_equal. change (Q2Qc 0) with 0. ring.
  - destruct (Qeq_bool q0 0) eqn:E; [discriminate|]. injection H as <- <-. apply Q2Qc_ne in E. rewrite qdiv_ok by exact E.
    f_equal. rewrite Q2Qc_div. change (Q2Qc 0) with 0. field. exact E.
  - injection H as <- <-. f_equal. ring.
  - injection H as <- <-. f_equal. rewrite Q2Qc_opp. ring.
  - destruct fv as [b|]; [|discriminate]. destruct (Qeq_bool b 0) eqn:E; [discriminate|]. injection H as <- <-. apply Q2Qc_ne in E.
    cbn [fvQ rbind]. rewrite qdiv_ok by exact E. f_equal. rewrite Q2Qc_div. change (Q2Qc 0) with 0. field. exact E.
  - destruct fv as [b|]; [|discriminate]. injection H as <- <-. cbn [fvQ rbind]. f_equal. change (Q2Qc 0) with 0. ring.
  - destruct (affine fv c1) as [[p1 q1]|]; [|discriminate]. destruct (affine fv c2) as [[p2 q2]|]; [|discriminate].
    assert (p = Qred (p2 * p1) /\ q = Qred (p2 * q1 + q2)) as [-> ->] by (split; congruence).
    rewrite (IH1 _ _ eq_refl). cbn [rbind]. rewrite (IH2 _ _ eq_refl). f_equal.
    rewrite !Q2Qc_red, Q2Qc_add, !Q2Qc_mul. ring.
  - destruct (affine fv c) as [[p1 q1]|]; [|discriminate]. destruct (Qeq_bool (p1 + q1) 0) eqn:E; [discriminate|].
    assert (p = Qred (1 / (p1 + q1)) /\ q = 0%Q) as [-> ->] by (split; congruence).
    rewrite (IH _ _ eq_refl). cbn [rbind]. apply Q2Qc_ne in E. rewrite Q2Qc_add in E.
    change (Q2Qc 1) with 1. rewrite Qcmult_1_r.
    rewrite qdiv_ok by exact E. f_equal. rewrite Q2Qc_red, Q2Qc_div, Q2Qc_add. change (Q2Qc 0) with 0. field. exact E.
Qed.

(** ** The check *)
(** a scale given by rational tables *)
Definition qscale (k o : str -> Q) : scale := Scale (fun a => Q2Qc (k a)) (fun a => Q2Qc (o a)).
Section Check.
Context (fv : option Q) (k o : str -> Q).
Definition edge_ok (a b : str) (c : conv Qc) : bool :=
  match affine fv c with
  | Some (p, q) => (Qeq_bool (p * k b) (k a) && Qeq_bool (q * k b + o b) (o a))%Q
  | None => false
  end.
Definition entry_ok (e : entry (conv Qc)) : bool :=
  forallb (fun bc => edge_ok (nname (e_node e)) (nname (fst bc)) (snd bc)) (combine (e_kids e) (e_convs e)).
Definition agree_check (g : net (conv Qc)) : bool := forallb entry_ok (n_edges g).

Lemma index_nth n l i : index_of n l = Some i -> nth_error l i = Some n.
Proof.
  revert i. induction l as [|x l IH]; intros i; cbn [index_of]; [discriminate|].
  destruct (neqb x n) eqn:E; [intros [= <-]; apply neqb_eq in E; now subst|].
  destruct (index_of n l) as [j|]; [|discriminate]. intros [= <-]. cbn. now apply IH.
Qed.
Lemma nth_combine {X Y} (l : list X) (l' : list Y) i x y : nth_error l i = Some x -> nth_error l' i = Some y -> In (x, y) (combine l l').
Proof.
  revert l' i. induction l as [|a l IH]; intros [|b l'] [|i]; cbn; try discriminate.
  - intros [= ->] [= ->]. now left.
  - intros H1 H2. right. eapply IH; eauto.
Qed.
Lemma agree_check_sound g : (forall a, Qeq_bool (k a) 0 = false) -> agree_check g = true -> agrees (fvQ fv) (qscale k o) g.
Proof.
  intros Hk H. split; [intros a; apply Q2Qc_ne, Hk|]. intros a b c x _ Hc.
  unfold conversion in Hc. destruct (lookup g a) as [e|] eqn:El; [|discriminate].
  destruct (index_of b (e_kids e)) as [i|] eqn:Ei; [|discriminate].
  destruct (nth_error (e_convs e) i) as [c'|] eqn:En; [|discriminate]. injection Hc as ->.
  apply lookup_In in El as [He Ea]. apply index_nth in Ei. pose proof (nth_combine _ _ _ _ _ Ei En) as Hin.
  unfold agree_check in H. rewrite forallb_forall in H. specialize (H e He). unfold entry_ok in H.
  rewrite forallb_forall in H. specialize (H _ Hin). cbn [fst snd] in H. rewrite Ea in H.
  unfold edge_ok in H. destruct (affine fv c) as [[p q]|] eqn:Ef; [|discriminate].
  apply andb_true_iff in H as [H1 H2]. apply Qeq_bool_iff in H1, H2. rewrite (affine_sound fv c p q Ef).
  eexists. split; [reflexivity|]. unfold quantity, qscale. cbn [k_of o_of].
  apply Q2Qc_eq in H1, H2. rewrite Q2Qc_mul in H1. rewrite Q2Qc_add, Q2Qc_mul in H2.
  rewrite <- H1, <- H2. ring.
Qed.
End Check.
