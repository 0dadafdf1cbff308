(** * The recursion of the engine is well founded *)
From Coq Require Import String QArith Qcanon.
From Verif Require Import Py StrTools StrFacts Network SearchSpec NetworkFacts Search SearchFacts SearchFacts2 DescFacts
  Hybrid HybridFacts Conv NetFacts2 Converter EngineSpec EngineFacts EngineFacts2 EngineFacts3 EngineFacts4.
Local Open Scope N_scope.

Section E.
Context {V : Type} {A : Arith V}.
Local Open Scope m_scope.
Implicit Types s : st V.

Definition same {X} (P : par V) (m m' : M V X) : Prop := forall s, s_par s = P -> m s = m' s.
Definition keeps {X} (P : par V) (m : M V X) : Prop := forall s, s_par s = P -> s_par (snd (m s)) = P.
Lemma same_refl {X} P (m : M V X) : same P m m. Proof. intros s _. reflexivity. Qed.
Lemma same_bind {X Y} P (m m' : M V X) (k k' : X -> M V Y) : same P m m' -> keeps P m -> (forall x, same P (k x) (k' x)) ->
  same P (bind m k) (bind m' k').
Proof.
  intros H K Hk s Hs. unfold bind. rewrite <- (H s Hs). specialize (K s Hs). destruct (m s) as [[x|e] s']; [|reflexivity]. now apply Hk.
Qed.
Lemma Rel_keeps {X} P (m : M V X) : holds Rel m -> keeps P m.
Proof. intros H s Hs. destruct (H s) as (Hc & _). unfold same_core, core in Hc. injection Hc. congruence. Qed.

Lemma via_pair_same P cv cv' f t : (forall a b, same P (cv a b) (cv' a b)) -> (forall a b, keeps P (cv a b)) ->
  same P (via_pair cv f t) (via_pair cv' f t).
Proof.
  intros H K. unfold via_pair. apply same_bind; [apply same_refl|intros s Hs; exact Hs|]. intros s.
  destruct (_ && _).
  - apply same_bind; [apply same_refl|intros s' Hs'; exact Hs'|]. intros [c|]; [|apply same_refl].
    apply same_bind; [apply H|apply K|]. intros x. apply same_bind; [apply H|apply K|]. intros y. apply same_refl.
  - destruct (_ && _); [|apply same_refl].
    apply same_bind; [apply same_refl|intros s' Hs'; exact Hs'|]. intros [c|]; [|apply same_refl].
    apply same_bind; [apply H|apply K|]. intros x. apply same_bind; [apply H|apply K|]. intros y. apply same_refl.
Qed.
Lemma ratio_loop_same P cn cn' f t mn : (forall a b, same P (cn a b) (cn' a b)) -> (forall a b, keeps P (cn a b)) ->
  forall cs best short count last, same P (ratio_loop cn f t mn cs best short count last) (ratio_loop cn' f t mn cs best short count last).
Proof.
  intros H K. induction cs as [|[gens child] cs IH]; intros best short count last; cbn [ratio_loop]; [apply same_refl|].
  destruct (match best with Some _ => _ | None => _ end); [apply same_refl|].
  apply same_bind; [apply H|apply K|]. intros x. apply same_bind; [apply H|apply K|]. intros y.
  destruct x as [[c px]|]; [|apply IH]. destruct y as [[c' py]|]; [|apply IH]. destruct (_ <? _)%Z; (destruct (_ =? _)%Z; [apply same_refl|apply IH]).
Qed.
Lemma ratio_children_same P cn cn' f t : (forall a b, same P (cn a b) (cn' a b)) -> (forall a b, keeps P (cn a b)) ->
  same P (ratio_children cn f t) (ratio_children cn' f t).
Proof.
  intros H K. unfold ratio_children. apply same_bind; [apply same_refl|intros s Hs; exact Hs|]. intros s.
  apply same_bind; [apply same_refl|apply Rel_keeps, Rel_only, m_desc_only|]. intros ff.
  apply same_bind; [apply same_refl|apply Rel_keeps, Rel_only, m_desc_only|]. intros ft.
  apply same_bind; [apply same_refl|apply Rel_keeps, total_gens_Rel|]. intros [|[g0 c0] rest]; [apply same_refl|].
  now apply ratio_loop_same.
Qed.
Definition keeps_par {X} (m : M V X) : Prop := forall P, keeps P m.
Lemma via_pair_keeps P cv f t : (forall a b, keeps P (cv a b)) -> keeps P (via_pair (V:=V) cv f t).
Proof.
  intros K s Hs. unfold via_pair. rewrite bind_get. 
  assert (B : forall X Y (m : M V X) (k : X -> M V Y), keeps P m -> (forall x, keeps P (k x)) -> keeps P (bind m k)).
  { intros X Y m k Hm Hk s1 Hs1. unfold bind. specialize (Hm s1 Hs1). destruct (m s1) as [[x|e] s2]; [|exact Hm]. now apply Hk. }
  assert (R : forall X (x : X), keeps P (ret (V:=V) x)) by (intros X x s1 Hs1; exact Hs1).
  destruct (_ && _).
  - unfold bind at 1, lift. destruct (get_pair_child _ _) as [[c|]|e]; [|exact Hs|exact Hs]. revert s Hs. 
    apply B; [apply K|]. intros x. apply B; [apply K|]. intros y. destruct x as [[[]]|], y as [[[]]|]; apply R.
  - destruct (_ && _); [|exact Hs].
    unfold bind at 1, lift. destruct (get_pair_child _ _) as [[c|]|e]; [|exact Hs|exact Hs]. revert s Hs. 
    apply B; [apply K|]. intros x. apply B; [apply K|]. intros y. destruct x as [[[]]|], y as [[[]]|]; apply R.
Qed.
Lemma slow_same P cv cv' cn cn' value f t r uc :
  (forall a b, same P (cv a b) (cv' a b)) -> (forall a b, keeps P (cv a b)) ->
  (forall a b, same P (cn a b) (cn' a b)) -> (forall a b, keeps P (cn a b)) ->
  same P (slow cv cn value f t r uc) (slow cv' cn' value f t r uc).
Proof.
  intros H1 K1 H2 K2. unfold slow. apply same_bind; [apply same_refl|intros s Hs; exact Hs|]. intros _.
  apply same_bind; [apply same_refl|apply Rel_keeps, composite_Rel|]. intros [[k p]|]; [apply same_refl|].
  apply same_bind; [now apply via_pair_same|now apply via_pair_keeps|]. intros [[g p]|]; [apply same_refl|].
  intros s Hs. destruct (one_slash f && one_slash t) eqn:E; [|reflexivity].
  assert (Hr := ratio_children_same P cn cn' f t H2 K2 s Hs). unfold bind. now rewrite Hr.
Qed.

(** the equation of converter.py:459-587, for any function of the same type *)
Definition engine := option V -> str -> str -> option Z -> option bool -> M V (result V).
Definition code_step (F : engine) : engine := fun value f t r0 uc =>
  s <- get ;;
  if visited s f t then ret None else
  let r := rec_limit (s_par s) r0 in
  if (r <? 0)%Z then ret None else
  x <- get_conversion value f t (Some r) uc ;;
  match x with
  | Some _ => ret x
  | None => slow (fun a b => F None a b (Some r) uc) (fun a b => F None a b (Some r) None) value f t r uc
  end.
Lemma converter_step n value f t r0 uc s : converter (S n) value f t r0 uc s = code_step (converter n) value f t r0 uc s.
Proof. rewrite converter_S. unfold code_step. rewrite bind_get. destruct (visited s f t); [reflexivity|]. now destruct (_ <? 0)%Z. Qed.

Lemma rec_limit_decreases (p : par V) r : (0 <= r)%Z -> (rec_limit p (Some r) < r)%Z.
Proof. intros H. unfold rec_limit. destruct (Z.ltb_spec 1 r); [lia|]. destruct (Z.leb_spec r 0); lia. Qed.
Lemma converter_keeps n : forall value f t r0 uc P, keeps P (converter n value f t r0 uc).
Proof.
  induction n as [|n IH]; intros value f t r0 uc P s Hs.
  - cbn [converter]. rewrite bind_get. destruct (visited s f t); [exact Hs|]. destruct (_ <? 0)%Z; exact Hs.
  - rewrite converter_S. destruct (visited s f t); [exact Hs|]. destruct (_ <? 0)%Z; [exact Hs|].
    set (r := rec_limit (s_par s) r0). clearbody r. revert s Hs.
    assert (B : forall X Y (m : M V X) (k : X -> M V Y), keeps P m -> (forall x, keeps P (k x)) -> keeps P (bind m k)).
    { intros X Y m k Hm Hk s1 Hs1. unfold bind. specialize (Hm s1 Hs1). destruct (m s1) as [[x|e] s2]; [|exact Hm]. now apply Hk. }
    assert (R : forall X (x : X), keeps P (ret (V:=V) x)) by (intros X x s1 Hs1; exact Hs1).
    assert (An : forall v h p, keeps P (answer (V:=V) v h p)) by (intros; apply Rel_keeps, answer_Rel).
    assert (Rm : forall k e, keeps P (remember (V:=V) k e)) by (intros k e s1 Hs1; exact Hs1).
    assert (Kp : forall h p, keeps P (keep (V:=V) value f t h p)) by (intros; apply B; [apply Rm|intros; apply An]).
    apply B; [apply Rel_keeps, get_conversion_Rel|]. intros [x|]; [apply R|]. unfold slow.
    apply B; [intros s1 Hs1; exact Hs1|]. intros _. apply B; [apply Rel_keeps, composite_Rel|]. intros [[k p]|]; [apply Kp|].
    apply B; [apply via_pair_keeps; intros; apply IH|]. intros [[g p]|]; [apply Kp|].
    apply B.
    { destruct (_ && _); [|apply R]. unfold ratio_children.
      apply B; [intros s1 Hs1; exact Hs1|]. intros s1. apply B; [apply Rel_keeps, Rel_only, m_desc_only|]. intros ff.
      apply B; [apply Rel_keeps, Rel_only, m_desc_only|]. intros ft. apply B; [apply Rel_keeps, total_gens_Rel|].
      intros [|[g0 c0] rest]; [intros s2 Hs2; exact Hs2|].
      generalize (fold_left gmin (map fst rest) g0), (ksort ((g0, c0) :: rest)), (@None (path V)), 9999%Z, 0%Z, (@FBad V).
      intros mn cs. induction cs as [|[gens child] cs IHc]; intros best short count last; cbn [ratio_loop]; [apply R|].
      destruct (match best with Some _ => _ | None => _ end); [apply R|].
      apply B; [apply IH|]. intros x. apply B; [apply IH|]. intros y.
      destruct x as [[c px]|]; [|apply IHc]. destruct y as [[c' py]|]; [|apply IHc].
      destruct (_ <? _)%Z; (destruct (_ =? _)%Z; [apply R|apply IHc]). }
    intros [[g p]|]; [apply Kp|]. apply B; [apply Rm|]. intros _. apply R.
Qed.
(** any solution of the equation is computed by [converter] as soon as the fuel exceeds the budget *)
Lemma solution_converter (F : engine) : (forall value f t r0 uc s, F value f t r0 uc s = code_step F value f t r0 uc s) ->
  forall n value f t r0 uc s, (rec_limit (s_par s) r0 < Z.of_nat n)%Z -> converter n value f t r0 uc s = F value f t r0 uc s.
Proof.
  intros HF. induction n as [|n IH]; intros value f t r0 uc s Hr.
  - rewrite HF. cbn [converter]. unfold code_step. rewrite !bind_get. destruct (visited s f t); [reflexivity|].
    destruct (Z.ltb_spec (rec_limit (s_par s) r0) 0); [reflexivity|lia].
  - rewrite converter_step, HF. unfold code_step. rewrite !bind_get. destruct (visited s f t); [reflexivity|].
    destruct (Z.ltb_spec (rec_limit (s_par s) r0) 0) as [?|H0]; [reflexivity|].
    set (r := rec_limit (s_par s) r0) in *.
    assert (K : forall uc' a b, same (s_par s) (converter n None a b (Some r) uc') (F None a b (Some r) uc')).
    { intros uc' a b s1 Hs1. apply IH. rewrite Hs1. pose proof (rec_limit_decreases (s_par s) r H0). lia. }
    apply (same_bind (s_par s)); [apply same_refl|apply Rel_keeps, get_conversion_Rel| |reflexivity].
    intros [x|]; [apply same_refl|]. apply slow_same; intros a b; try apply K; apply converter_keeps.
Qed.
(** [converter] with enough fuel is a solution *)
Definition solution : engine := fun value f t r0 uc s => converter (S (Z.to_nat (rec_limit (s_par s) r0))) value f t r0 uc s.
Lemma converter_fuel n m : forall value f t r0 uc s, (rec_limit (s_par s) r0 < Z.of_nat n)%Z -> (rec_limit (s_par s) r0 < Z.of_nat m)%Z ->
  converter n value f t r0 uc s = converter m value f t r0 uc s.
Proof.
  revert m. induction n as [|n IH]; intros m value f t r0 uc s Hn Hm.
  - destruct m as [|m]; [reflexivity|]. rewrite converter_S. cbn [converter]. rewrite bind_get. destruct (visited s f t); [reflexivity|].
    destruct (Z.ltb_spec (rec_limit (s_par s) r0) 0); [reflexivity|lia].
  - destruct m as [|m].
    { rewrite converter_S. cbn [converter]. rewrite bind_get. destruct (visited s f t); [reflexivity|].
      destruct (Z.ltb_spec (rec_limit (s_par s) r0) 0); [reflexivity|lia]. }
    rewrite !converter_step. unfold code_step. rewrite !bind_get. destruct (visited s f t); [reflexivity|].
    destruct (Z.ltb_spec (rec_limit (s_par s) r0) 0) as [?|H0]; [reflexivity|].
    set (r := rec_limit (s_par s) r0) in *.
    assert (K : forall uc' a b, same (s_par s) (converter n None a b (Some r) uc') (converter m None a b (Some r) uc')).
    { intros uc' a b s1 Hs1. apply IH; rewrite Hs1; pose proof (rec_limit_decreases (s_par s) r H0); lia. }
    apply (same_bind (s_par s)); [apply same_refl|apply Rel_keeps, get_conversion_Rel| |reflexivity].
    intros [x|]; [apply same_refl|]. apply slow_same; intros a b; try apply K; apply converter_keeps.
Qed.
Lemma solution_ok value f t r0 uc s : solution value f t r0 uc s = code_step solution value f t r0 uc s.
Proof.
  unfold solution at 1. rewrite converter_step. unfold code_step. rewrite !bind_get. destruct (visited s f t); [reflexivity|].
  destruct (Z.ltb_spec (rec_limit (s_par s) r0) 0) as [?|H0]; [reflexivity|]. set (r := rec_limit (s_par s) r0) in *.
  assert (K : forall uc' a b, same (s_par s) (converter (Z.to_nat r) None a b (Some r) uc') (solution None a b (Some r) uc')).
  { intros uc' a b s1 Hs1. unfold solution. apply converter_fuel; rewrite Hs1; pose proof (rec_limit_decreases (s_par s) r H0); lia. }
  apply (same_bind (s_par s)); [apply same_refl|apply Rel_keeps, get_conversion_Rel| |reflexivity].
  intros [x|]; [apply same_refl|]. apply slow_same; intros a b; try apply K; apply converter_keeps.
Qed.
End E.
