(** * The automatic reverse *)
From Coq Require Import String QArith Qcanon Field.
From Verif Require Import Py Network Conv.
Local Open Scope Qc_scope.

Definition Qcdiv_r := Qcdiv.

(** [f] is total on the exact numbers. *)
Definition total_fun (f : Qc -> res Qc) (h : Qc -> Qc) : Prop := forall x, f x = Ok (h x).

Lemma qdiv_ok x y : y <> 0 -> qdiv x y = Ok (x / y).
Proof. intros H. unfold qdiv. now destruct (Qc_eq_dec y 0). Qed.

Lemma aconst_1 : aconst 1 = (1 : Qc).
Proof. apply Qc_is_canon. reflexivity. Qed.

Lemma rev_eval fv f h : total_fun f h -> forall y,
  ceval fv (CRev (CUser f)) y = qdiv y (h 1).
Proof. intros H y. cbn [ceval]. rewrite aconst_1, H. reflexivity. Qed.

Lemma rev_exact_iff fv f h : total_fun f h ->
  ((forall x, rbind (f x) (ceval fv (CRev (CUser f))) = Ok x
           /\ rbind (ceval fv (CRev (CUser f)) x) f = Ok x)
   <-> exists k, k <> 0 /\ forall x, h x = k * x).
Proof.
  intros H. split.
  - intros Hinv. exists (h 1).
    assert (Hne : h 1 <> 0).
    { intros E. destruct (Hinv 1) as [X _]. rewrite H in X. cbn [rbind] in X.
      rewrite (rev_eval fv f h H), E in X. unfold qdiv in X. now destruct (Qc_eq_dec 0 0). }
    split; [exact Hne|]. intros x. destruct (Hinv x) as [X _]. rewrite H in X. cbn [rbind] in X.
    rewrite (rev_eval fv f h H), qdiv_ok in X by exact Hne. injection X as X.
    rewrite <- X at 2. field. exact Hne.
  - intros (k & Hk & Hlin) x.
    assert (E : h 1 = k) by (rewrite Hlin; ring).
    rewrite H. cbn [rbind]. rewrite !(rev_eval fv f h H), E, !qdiv_ok by exact Hk. cbn [rbind].
    rewrite H, !Hlin. split; f_equal; field; exact Hk.
Qed.
