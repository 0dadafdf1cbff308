(** * is_unit: facts *)
From Coq Require Import String QArith Qcanon.
From Verif Require Import Py StrTools Conv Converter Units UnitsSpec UnitsFacts IsUnitSpec.
Local Open Scope N_scope.

Lemma factors_split : forall x l, factors_of x l -> flat_map (csplit c_star) (csplit c_slash x) = l.
Proof.
  intros x l F. induction F as [x N1 N2|x c y l N1 N2 C F IH].
  - rewrite (csplit_no _ _ N1). cbn [flat_map]. rewrite (csplit_no _ _ N2). reflexivity.
  - destruct C as [->| ->].
    + rewrite (csplit_app_sep _ _ _ N1). cbn [flat_map]. rewrite (csplit_no _ _ N2), IH. reflexivity.
    + assert (S : forall a b, ~ In c_slash a -> csplit c_slash (a ++ c_star :: b) = match csplit c_slash b with h :: t => (a ++ c_star :: h) :: t | [] => [] end).
      { clear. intros a b Na. induction a as [|z a IH].
        - cbn [Datatypes.app csplit]. change (c_star =? c_slash) with false. cbv iota. destruct (csplit c_slash b) eqn:E; [now apply csplit_nonnil in E|reflexivity].
        - cbn [Datatypes.app csplit]. destruct (N.eqb_spec z c_slash) as [->|Hz]; [exfalso; apply Na; now left|].
          rewrite IH by (intros I; apply Na; now right). destruct (csplit c_slash b) eqn:E; [now apply csplit_nonnil in E|reflexivity]. }
      rewrite (S x y N1). destruct (csplit c_slash y) as [|h t] eqn:E; [now apply csplit_nonnil in E|].
      cbn [flat_map] in IH |- *. rewrite (csplit_app_sep _ _ _ N2). cbn [Datatypes.app]. now rewrite IH.
Qed.
Lemma factors_total : forall x, exists l, factors_of x l.
Proof.
  intros x. remember (length x) as n eqn:En. assert (L : (length x <= n)%nat) by lia. clear En. revert x L. induction n as [|n IH]; intros x L.
  - destruct x; [|cbn in L; lia]. exists [[]]. constructor; intros [].
  - assert (D : (~ In c_slash x /\ ~ In c_star x) \/ exists a c b, x = a ++ c :: b /\ ~ In c_slash a /\ ~ In c_star a /\ (c = c_slash \/ c = c_star)).
    { clear. induction x as [|z x [[A B]|(a & c & b & -> & A & B & C)]].
      - left. split; intros [].
      - destruct (N.eqb_spec z c_slash) as [->|H1]; [right; exists [], c_slash, x; repeat split; auto; intros []|].
        destruct (N.eqb_spec z c_star) as [->|H2]; [right; exists [], c_star, x; repeat split; auto; intros []|].
        left. split; intros [E|I]; auto.
      - destruct (N.eqb_spec z c_slash) as [->|H1]; [right; exists [], c_slash, (a ++ c :: b); repeat split; auto; intros []|].
        destruct (N.eqb_spec z c_star) as [->|H2]; [right; exists [], c_star, (a ++ c :: b); repeat split; auto; intros []|].
        right. exists (z :: a), c, b. repeat split; auto; intros [E|I]; auto. }
    destruct D as [[A B]|(a & c & b & -> & A & B & C)]; [exists [x]; now constructor|].
    destruct (IH b) as (l & F); [rewrite app_length in L; cbn [length] in L; lia|]. exists (a :: l). now constructor.
Qed.
Lemma factors_sep x l : factors_of x l -> (exists f, l = [f] /\ f = x) \/ (In c_slash x \/ In c_star x).
Proof.
  intros F. destruct F as [x N1 N2|x c y l N1 N2 C F]; [left; exists x; auto|]. right.
  destruct C as [->| ->]; [left|right]; apply in_or_app; right; now left.
Qed.
Lemma known_named y w : existsb (fun kl : str * list str => smem y (snd kl)) (w_kinds w) = true <-> named w y.
Proof.
  rewrite existsb_exists. unfold named. split.
  - intros ([k l] & I & S). exists k, l. cbn [snd] in S. apply smem_In in S. auto.
  - intros (k & l & I & S). exists (k, l). split; [exact I|]. cbn [snd]. now apply smem_In.
Qed.
Lemma is_unit_exact x w : is_unit x (w_kinds w) = true <-> named w (strip x) \/ made_of_names w (strip x).
Proof.
  unfold is_unit. cbv zeta. rewrite orb_true_iff, known_named, andb_true_iff, orb_true_iff, forallb_forall.
  destruct (factors_total (strip x)) as (l & F). rewrite (factors_split _ _ F).
  assert (M : made_of_names w (strip x) <-> forall f, In f l -> named w f).
  { split; [|intros A; exists l; auto]. intros (l' & F' & A). apply factors_split in F'. rewrite (factors_split _ _ F) in F'. now subst l'. }
  rewrite M. split.
  - intros [A|[_ A]]; [now left|]. right. intros f I. now apply known_named, A.
  - intros [A|A]; [now left|]. destruct (factors_sep _ _ F) as [(f & -> & ->)|S]; [left; apply A; now left|]. right.
    split; [unfold cmem; rewrite !existsb_exists; destruct S as [S|S]; [left|right]; eexists; (split; [exact S|apply N.eqb_refl])|].
    intros f I. now apply known_named, A.
Qed.
Lemma factors_app a la b lb c : factors_of a la -> factors_of b lb -> c = c_slash \/ c = c_star -> factors_of (a ++ c :: b) (la ++ lb).
Proof.
  intros Fa Fb Hc. induction Fa as [x N1 N2|x c' y l N1 N2 C F IH]; [now constructor|].
  rewrite <- app_assoc. cbn [Datatypes.app]. constructor; assumption.
Qed.
Lemma made_times a b c w : made_of_names w a -> made_of_names w b -> c = c_slash \/ c = c_star -> made_of_names w (a ++ c :: b).
Proof.
  intros (la & Fa & Na) (lb & Fb & Nb) Hc. exists (la ++ lb)%list. split; [now apply factors_app|].
  intros f I. apply in_app_or in I as [I|I]; auto.
Qed.
