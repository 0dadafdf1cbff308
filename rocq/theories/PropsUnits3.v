(** * Properties of is_unit, valid_unit and the constructors: C62, C63 *)
From Coq Require Import String QArith Qcanon.
From Verif Require Import Py StrTools Network SearchSpec Conv Converter EngineSpec ConsistSpec Demo OpsSpec
  Dict Database Shipped Operations ShippedSpec ShippedCert ShippedCheck ShippedFacts ShippedFacts2 Units UnitsSpec PropsShipped ShippedFacts5 UnitsFacts UnitsFacts4 PropsUnits PropsUnits2
  IsUnitSpec IsUnitFacts IsUnitFacts2.
Local Open Scope N_scope.
Local Opaque all_kinds merge_data.

(** is_unit(x), spaces around x aside: x is a name of the dictionary, or all the factors x is cut into by its signs are *)
Theorem C62_exactly : forall x w, is_unit x (w_kinds w) = true <-> named w (strip x) \/ made_of_names w (strip x).
Proof. exact is_unit_exact. Qed.
(** products and quotients of texts made of names are units *)
Theorem C62_products : forall x c y w, c = c_slash \/ c = c_star -> strip (x ++ c :: y) = (x ++ c :: y)%list -> made_of_names w x -> made_of_names w y ->
  is_unit (x ++ c :: y) (w_kinds w) = true.
Proof. intros x c y w Hc Hs Hx Hy. apply is_unit_exact. rewrite Hs. right. now apply made_times. Qed.

Section P.
Context {F : Floats} {P : Pow} {E : Eval}.
Ltac by_gen L := unfold calculating, during, quantity_of, shipped_session, listed_as, first_listed, unlisted, shipped_net, shipped_dicts, shipped_kinds; exact L.
(** the names listed in the dictionary as it is shipped are units, at all moments, for both functions, with spaces around or not *)
Theorem C62_shipped : forall s w k x, tame_eval -> during s w -> listed_as k (strip x) -> is_unit x (w_kinds w) = true /\ valid_unit (Some x) w = true.
Proof.
  intros s w k x Te D L. split.
  - apply is_unit_exact. left. revert s w k x Te D L. intros s w k x. generalize (strip x). clear x. revert s w k. by_gen (gen_listed_named cert shipped_db shipped_checked).
  - assert (G : valid_unit (Some x) w = true <-> exists k l, In (k, l) (all_kinds (db_kinds shipped_db)) /\ In (strip x) l)
      by (clear L; revert s w x Te D; by_gen (gen_valid cert shipped_db shipped_checked)).
    apply G. destruct (all_listed shipped_db k _ L) as (l & I & Ix). exact (ex_intro _ k (ex_intro _ l (conj I Ix))).
Qed.
(** what is a unit remains one, whatever is calculated *)
Theorem C62_kept : forall s w l x, tame_eval -> during s w -> Forall calm l -> is_unit x (w_kinds w) = true -> is_unit x (w_kinds (do_acts l w)) = true.
Proof.
  intros s w l x Te D L I.
  assert (K : forall y, named w y -> named (do_acts l w) y) by (intros y; clear I x; revert s w l y Te D L; by_gen (gen_kept cert shipped_db shipped_checked)).
  apply is_unit_exact in I as [I|(f & Ff & A)]; apply is_unit_exact; [left; now apply K|right]. exists f. split; [exact Ff|]. intros g Ig. apply K, A, Ig.
Qed.
(** no unit has a space next to a sign (unless the user named it so) *)
Theorem C62_neat : forall s w x, tame_eval -> during s w -> (forall y, user_named y w -> neat y) -> is_unit x (w_kinds w) = true -> neat (strip x).
Proof. by_gen (gen_neat cert shipped_db shipped_checked). Qed.
(** a new name is a unit for is_unit from then on; valid_unit never knows it *)
Theorem C62_refuted_new : forall s w x y v, tame_eval -> calculating s -> during s w -> strip x = y -> simple y -> strip y = y -> ~ In y shipped_uncertain -> unlisted y ->
  quotable_name y -> exists w', units (PN v) (AUnitStr x) false w = (Ok (Qty (u "UserUnits") y v), w') /\ is_unit x (w_kinds w') = true /\ valid_unit (Some x) w' = false.
Proof.
  intros s w x y v Te C D Ey Hy Es Nu Fl Hq. destruct (C40_new_partial s w x y v Te C D Ey Hy Es Nu Fl Hq) as (w' & R & (l & I & Ix)).
  exists w'. split; [exact R|]. split; [apply is_unit_exact; left; rewrite Ey; exact (ex_intro _ (u "UserUnits") (ex_intro _ l (conj I Ix)))|].
  assert (D' : during s w').
  { replace w' with (snd (units (PN v) (AUnitStr x) false w)) by (rewrite R; reflexivity). clear - D. revert D. generalize (AUnitStr x) false. revert s w v. intros s w v a n. revert s w v a n.
    by_gen (gen_new_world shipped_db). }
  clear R Ix I l. rewrite <- Ey in Hy, Fl. revert Te D' Hy Fl. clear. revert s w' x. by_gen (gen_invalid cert shipped_db shipped_checked).
Qed.
(** '/' is a unit; m/s is, m / s is not *)
Theorem C62_refuted : forall s w, tame_eval -> during s w -> (forall y, user_named y w -> neat y) ->
  is_unit (u "/") (w_kinds w) = true /\ is_unit (u "m/s") (w_kinds w) = true /\ is_unit (u "m / s") (w_kinds w) = false.
Proof.
  intros s w Te D U.
  assert (N : forall x k, In (x, Some k) checked_first -> named w (u x)).
  { intros x k I. pose proof (gen_first_listed cert shipped_db shipped_checked _ _ (gen_first cert shipped_db shipped_checked x (Some k) I)) as L.
    revert L. generalize (u k) (u x). clear - Te D. intros k x L. revert s w k x Te D L. by_gen (gen_listed_named cert shipped_db shipped_checked). }
  split; [|split].
  - apply is_unit_exact. right. change (strip (u "/")) with ([] ++ c_slash :: [])%list. exists [[]; []]. split; [constructor; [intros []|intros []|now left|constructor; intros []]|].
    intros f [<-|[<-|[]]]; apply (N "" "Dimensionless")%string; do 20 right; left; reflexivity.
  - apply is_unit_exact. right. change (strip (u "m/s")) with ([109] ++ c_slash :: [115])%list. exists [[109]; [115]].
    split; [constructor; [intros [X|[]]; discriminate X|intros [X|[]]; discriminate X|now left|constructor; intros [X|[]]; discriminate X]|].
    intros f [<-|[<-|[]]]; [apply (N "m" "Length")%string; do 9 right; left; reflexivity|apply (N "s" "Time")%string; do 25 right; left; reflexivity].
  - destruct (is_unit (u "m / s") (w_kinds w)) eqn:I; [|reflexivity]. exfalso. pose proof (C62_neat s w _ Te D U I) as [Z _].
    exact (proj1 (Z c_slash [109] [32; 115] (or_introl eq_refl)) eq_refl).
Qed.

(** ** C63: the constructors *)
(** K(v, x), for a simple name x: the quantity, if x is listed under K; else WrongUnitsError; never a change of the session *)
Theorem C63_class_partial : forall s w k v x, tame_eval -> during s w -> In k classes -> simple x ->
  (listed_as k x -> construct k (Some v) x w = (Ok (Qty k x (if is_k k "Percentage" then v / Q2Qc 100 else v)%Qc), w))
  /\ (~ listed_as k x -> construct k (Some v) x w = (Err WrongUnitsError, w)).
Proof. by_gen (gen_construct cert shipped_db shipped_checked). Qed.
(** without a number: WrongValueError *)
Theorem C63_no_value : forall k x w, In k classes -> construct k None x w = (Err WrongValueError, w).
Proof.
  intros k x w Hk. assert (B : forallb (fun k => negb (is_k k "Unit" || is_k k "UserUnits" || is_k k "Date")) classes = true) by (vm_compute; reflexivity).
  pose proof (proj1 (forallb_forall _ _) B k Hk) as Z. apply negb_true_iff in Z. apply orb_false_iff in Z as [Z Z3]. apply orb_false_iff in Z as [Z1 Z2].
  unfold construct. rewrite Z1, Z2, Z3, (proj2 (smem_In _ _) Hk). reflexivity.
Qed.
(** Unit(v, x) takes the valid names, as they are written, and raises for all others, even if raise_error is off *)
Theorem C63_unit : forall x v w,
  (valid_unit (Some x) w = true -> construct (u "Unit") (Some v) x w = (Ok (Qty (u "Unit") x v), w))
  /\ (valid_unit (Some x) w = false -> construct (u "Unit") (Some v) x w = (Err WrongUnitsError, w)).
Proof. intros x v w. unfold valid_unit, construct. change (is_k (u "Unit") "Unit") with true. cbv iota. split; intros ->; reflexivity. Qed.
(** UserUnits(v, x) takes any text, without the spaces around it, and it is a unit from then on *)
Theorem C63_user : forall s w x v, tame_eval -> during s w ->
  exists w', construct (u "UserUnits") (Some v) x w = (Ok (Qty (u "UserUnits") (strip x) v), w') /\ is_unit x (w_kinds w') = true.
Proof.
  intros s w x v Te D. exists (add_user (strip x) w). split; [reflexivity|].
  assert (Hu : has_user w). { clear - Te D. revert s w Te D. unfold during, shipped_kinds. intros s w Te D. exact (UnitsFacts2.era_user cert shipped_db shipped_checked s w (during_era cert shipped_db shipped_checked s w Te D)). }
  destruct (user_added (strip x) w Hu) as (l & I & Ix). apply is_unit_exact. left. exact (ex_intro _ (u "UserUnits") (ex_intro _ l (conj I Ix))).
Qed.
(** ' m' is a valid unit, but no Length has it *)
Theorem C63_refuted : forall s w v, tame_eval -> during s w ->
  valid_unit (Some (u " m")) w = true /\ is_unit (u " m") (w_kinds w) = true
  /\ construct (u "Unit") (Some v) (u " m") w = (Ok (Qty (u "Unit") (u " m") v), w) /\ construct (u "Length") (Some v) (u " m") w = (Err WrongUnitsError, w).
Proof.
  intros s w v Te D.
  assert (L : listed_as (u "Length") (strip (u " m"))).
  { change (strip (u " m")) with (u "m"). unfold listed_as. refine (gen_first_listed cert shipped_db shipped_checked _ _ (gen_first cert shipped_db shipped_checked "m" (Some "Length"%string) _)). do 9 right; left; reflexivity. }
  destruct (C62_shipped s w _ _ Te D L) as [I V]. split; [exact V|]. split; [exact I|]. split; [apply (proj1 (C63_unit (u " m") v w)), V|].
  refine (proj2 (C63_class_partial s w (u "Length") v (u " m") Te D _ _) _).
  - apply smem_In. vm_compute. reflexivity.
  - split; intros X; apply cmem_In in X; vm_compute in X; discriminate X.
  - intros (l & Hl & Il). revert Hl Il. unfold listed_as. intros Hl Il. pose proof (gen_tight cert shipped_db shipped_checked _ _ _ (dget_In _ _ _ Hl) Il) as T. vm_compute in T. discriminate T.
Qed.

(** ** The hypotheses are met: after UserUnits(1, 'smoot') *)
Lemma units3_example_of s : tame_eval -> calculating s ->
  let w := do_acts [DMake (u "UserUnits") (Some (Q2Qc 1)) (u "smoot")] (world_of s shipped_kinds) in
  during s w /\ (forall y, user_named y w -> neat y) /\ is_unit (u " smoot/s ") (w_kinds w) = true /\ is_unit (u "m / s") (w_kinds w) = false
  /\ valid_unit (Some (u "m")) w = true /\ construct (u "Length") (Some (Q2Qc 3)) (u "m") w = (Ok (Qty (u "Length") (u "m") (Q2Qc 3)), w).
Proof.
  intros Te C. cbv zeta. set (w1 := world_of s shipped_kinds).
  assert (D1 : during s w1) by (exists []; split; [constructor|reflexivity]).
  set (w := do_acts _ w1).
  assert (D : during s w) by (exists [DMake (u "UserUnits") (Some (Q2Qc 1)) (u "smoot")]; split; [constructor; [exact I|constructor]|unfold w, w1; reflexivity]).
  assert (Ew : w = snd (construct (u "UserUnits") (Some (Q2Qc 1)) (u "smoot") w1)) by (unfold w, do_acts; cbn [fold_left do_act]; reflexivity).
  destruct (C63_user s w1 (u "smoot") (Q2Qc 1) Te D1) as (w' & R & Sm). assert (Ew' : w = w') by (rewrite Ew, R; reflexivity). subst w'.
  assert (U : forall y, user_named y w -> neat y).
  { intros y Y. apply tight_neat. clear R Sm.
    assert (G : y = u "smoot" \/ user_named y w1).
    { revert Y. replace w with (add_user (u "smoot") w1) by (rewrite Ew; reflexivity). unfold add_user, user_named, dg, ds. destruct (smem _ _) eqn:Z; [intros Y; right; exact Y|]. cbn [w_kinds].
      intros (l & I & Iy). destruct (dset_in _ _ _ _ _ I) as [I'|I']; [right; exact (ex_intro _ l (conj I' Iy))|]. subst l. apply in_app_or in Iy as [Iy|[Iy|[]]]; [|left; symmetry; exact Iy]. right.
      destruct (dget (u "UserUnits") (w_kinds w1)) as [l|] eqn:G; [|destruct Iy]. exists l. split; [exact (dget_In _ _ _ G)|exact Iy]. }
    destruct G as [->|(l & Il & Iy)]; [vm_compute; reflexivity|]. clear Y.
    assert (K : exists l0, In (u "UserUnits", l0) (all_kinds (db_kinds shipped_db)) /\ In y l0).
    { exists l. split; [|exact Iy]. revert Il. unfold w1, shipped_kinds. rewrite UnitsFacts2.world_kinds. intros Il. exact Il. }
    destruct K as (l0 & I0 & I1). exact (tight_all _ (gen_tight cert shipped_db shipped_checked) _ _ y I0 I1). }
  assert (L : forall x k, In (x, Some k) checked_first -> listed_as (u k) (u x)).
  { intros x k I. unfold listed_as. exact (gen_first_listed cert shipped_db shipped_checked _ _ (gen_first cert shipped_db shipped_checked x (Some k) I)). }
  assert (Lm : listed_as (u "Length") (u "m")) by (apply (L "m" "Length")%string; do 9 right; left; reflexivity).
  split; [exact D|]. split; [exact U|]. split; [|split; [exact (proj2 (proj2 (C62_refuted s w Te D U)))|]].
  - apply is_unit_exact. right. change (strip (u " smoot/s ")) with (u "smoot" ++ c_slash :: u "s")%list. apply made_times; [| |left; reflexivity].
    + exists [u "smoot"]. split; [constructor; intros X; apply cmem_In in X; vm_compute in X; discriminate X|]. intros f [<-|[]].
      apply is_unit_exact in Sm as [Sm|(l & Fl & A)]; [exact Sm|]. change (strip (u "smoot")) with (u "smoot") in Fl. apply factors_split in Fl. vm_compute in Fl. subst l. apply A. left. reflexivity.
    + exists [u "s"]. split; [constructor; intros X; apply cmem_In in X; vm_compute in X; discriminate X|]. intros f [<-|[]].
      assert (Ls : listed_as (u "Time") (u "s")) by (apply (L "s" "Time")%string; do 25 right; left; reflexivity).
      revert Te D Ls. clear. generalize (u "Time") (u "s") w. clear. revert s. intros s k x w Te D Ls. revert s w k x Te D Ls. by_gen (gen_listed_named cert shipped_db shipped_checked).
  - split; [exact (proj2 (C62_shipped s w (u "Length") (u "m") Te D Lm))|]. refine (proj1 (C63_class_partial s w (u "Length") (Q2Qc 3) (u "m") Te D _ _) Lm).
    + apply smem_In. vm_compute. reflexivity.
    + split; intros X; apply cmem_In in X; vm_compute in X; discriminate X.
Qed.
End P.
Example units3_example := units3_example_of (F := PropsOps.tenths) (P := PropsUnits.demo_pow) (E := PropsUnits.demo_eval) PropsShipped.shipped_start PropsUnits.demo_tame PropsUnits.shipped_start_calculating.
Print Assumptions C62_exactly.
Print Assumptions C62_products.
Print Assumptions C62_shipped.
Print Assumptions C62_kept.
Print Assumptions C62_neat.
Print Assumptions C62_refuted_new.
Print Assumptions C62_refuted.
Print Assumptions C63_class_partial.
Print Assumptions C63_no_value.
Print Assumptions C63_unit.
Print Assumptions C63_user.
Print Assumptions C63_refuted.
