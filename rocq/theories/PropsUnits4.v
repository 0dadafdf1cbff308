(** * Properties of quantities: numbers, inverses, the operator @, tuples and truth values (C72), and more of C61

    The vocabulary is that of PropsUnits.v and UnitsSpec2.v. *)
From Coq Require Import String QArith Qcanon Qround Lia.
From Verif Require Import Py StrTools Network SearchSpec Conv Converter EngineSpec ConsistSpec Demo OpsSpec
  Dict Database Shipped Operations ShippedSpec ShippedCert ShippedCheck ShippedFacts ShippedFacts2 Units UnitsSpec UnitsSpec2 NumFacts PropsShipped ShippedFacts5 UnitsFacts UnitsFacts4 UnitsFacts5 UnitsFacts6 UnitsFacts7 UnitsFacts8 IsUnitFacts2 PropsUnits PropsUnits2.
Local Open Scope Qc_scope.
Local Opaque all_kinds merge_data.

Section P.
Context {F : Floats} {P : Pow} {E : Eval}.
(** ** A quantity and a number *)
Lemma numbers : forall s k a v w, tame_eval -> during s w -> In k classes -> q_kind a = k -> listed_as k (q_unit a) ->
  add a (PN v) w = (Ok (PQ (Qty k (q_unit a) (q_val a + v))), w) /\ sub a (PN v) w = (Ok (PQ (Qty k (q_unit a) (q_val a - v))), w)
  /\ rsub a (PN v) w = (Ok (PQ (Qty k (q_unit a) (v - q_val a))), w)
  /\ neg a w = (Ok (PQ (Qty k (q_unit a) (- q_val a))), w) /\ abs_ a w = (Ok (PQ (Qty k (q_unit a) (qabs (q_val a)))), w)
  /\ forall n, mul n a (PN v) w = (Ok (PQ (Qty k (q_unit a) (q_val a * v))), w)
     /\ (v <> 0 -> matmul n a (PN v) w = (Ok (PQ (Qty k (q_unit a) (q_val a / v))), w))
     /\ (v = 0 -> fst (matmul n a (PN v) w) = Err ZeroDivisionError).
Proof. by_calc gen_numbers. Qed.
(** with a number, +, -, and * act on the number of the quantity; the kind, the unit and the session remain *)
Theorem C72_sum : forall s k a v w, tame_eval -> during s w -> In k classes -> q_kind a = k -> listed_as k (q_unit a) ->
  add a (PN v) w = (Ok (PQ (Qty k (q_unit a) (q_val a + v))), w)
  /\ sub a (PN v) w = (Ok (PQ (Qty k (q_unit a) (q_val a - v))), w)
  /\ rsub a (PN v) w = (Ok (PQ (Qty k (q_unit a) (v - q_val a))), w).
Proof. intros s k a v w Te D Hk Ka La. destruct (numbers s k a v w Te D Hk Ka La) as (N1 & N2 & N3 & _). exact (conj N1 (conj N2 N3)). Qed.
Theorem C72_product : forall s k a v n w, tame_eval -> during s w -> In k classes -> q_kind a = k -> listed_as k (q_unit a) ->
  mul n a (PN v) w = (Ok (PQ (Qty k (q_unit a) (q_val a * v))), w)
  /\ (v <> 0 -> matmul n a (PN v) w = (Ok (PQ (Qty k (q_unit a) (q_val a / v))), w))
  /\ (v = 0 -> fst (matmul n a (PN v) w) = Err ZeroDivisionError).
Proof. intros s k a v n w Te D Hk Ka La. destruct (numbers s k a v w Te D Hk Ka La) as (_ & _ & _ & _ & _ & N). exact (N n). Qed.
(** - q and abs(q) *)
Theorem C72_sign : forall s k a w, tame_eval -> during s w -> In k classes -> q_kind a = k -> listed_as k (q_unit a) ->
  neg a w = (Ok (PQ (Qty k (q_unit a) (- q_val a))), w)
  /\ exists v, abs_ a w = (Ok (PQ (Qty k (q_unit a) v)), w) /\ 0 <= v /\ (v = q_val a \/ v = - q_val a).
Proof.
  intros s k a w Te D Hk Ka La. destruct (numbers s k a 0 w Te D Hk Ka La) as (_ & _ & _ & N4 & N5 & _). split; [exact N4|]. exists (qabs (q_val a)). split; [exact N5|].
  unfold qabs. destruct (Qclt_le_dec (q_val a) 0) as [L|L]; (split; [|auto]).
  - apply Qclt_le_weak in L. apply Qcopp_le_compat in L. replace (- 0) with 0 in L by ring. exact L.
  - exact L.
Qed.
(** a tuple of numbers is multiplied number by number *)
Theorem C72_each : forall s k a n vs w, tame_eval -> during s w -> In k classes -> q_kind a = k -> listed_as k (q_unit a) ->
  mul (S n) a (PT (map PN vs)) w = (Ok (PT (map (fun v => PQ (Qty k (q_unit a) (q_val a * v))) vs)), w).
Proof. by_calc gen_each. Qed.

(** ** Inverses *)
(** v / q and v // q, for a unit x of letters: in the unit x-1, a user unit, whatever the kind *)
Theorem C72_inverse_partial : forall s k a v w, tame_eval -> calculating s -> during s w -> In k measured_kinds -> quantity_of k a -> plain_base (q_unit a) ->
  q_unit a <> u "s" -> q_unit a <> u "S" -> q_val a <> 0 ->
  let r := Qty (u "UserUnits") (q_unit a ++ u "-1")%list in
  fst (rdiv qdiv a v w) = Ok (PQ (r (v / q_val a))) /\ fst (rdiv qfloordiv a v w) = Ok (PQ (r (zq (Qfloor (v / q_val a)%Qc)))).
Proof. by_calc gen_rdiv. Qed.
Theorem C72_inverse_zero : forall a v w, q_val a = 0 -> fst (rdiv qdiv a v w) = Err ZeroDivisionError /\ fst (rdiv qfloordiv a v w) = Err ZeroDivisionError.
Proof. intros a v w Z. unfold rdiv, qfloordiv, qdiv. rewrite Z. destruct (Qc_eq_dec 0 0) as [_|N]; [split; reflexivity|contradiction]. Qed.
(** (v / a) * b is v times the number of a's in b, in a ratio of equal units *)
Theorem C72_inverse_product_partial : forall s k a b n v w0 w1 w y, tame_eval -> calculating s -> during s w0 -> during s w1 -> during s w -> In k square_kinds -> quantity_of k a -> quantity_of k b ->
  plain_base (q_unit a) -> plain_base (q_unit b) -> q_unit a <> u "s" -> q_unit a <> u "S" -> q_val a <> 0 -> expressed w1 b (q_unit a) y ->
  exists i r, fst (rdiv qdiv a v w0) = Ok (PQ i) /\ fst (mul n i (PQ b) w) = Ok (PQ r) /\ q_unit r = (q_unit b ++ u "/" ++ q_unit b)%list /\ q_val r = v * y / q_val a.
Proof.
  intros s k a b n v w0 w1 w y Te C D0 D1 D Hk Qa Qb Pa Pb N1 N2 Nv Y. destruct (C72_inverse_partial s k a v w0 Te C D0 (UnitsFacts3.km k Hk) Qa Pa N1 N2 Nv) as (I1 & _).
  assert (X : forall s k a b n v w1 w y, tame_eval -> calculating s -> during s w1 -> during s w -> In k square_kinds -> quantity_of k a -> quantity_of k b ->
    plain_base (q_unit a) -> plain_base (q_unit b) -> q_unit a <> u "s" -> q_unit a <> u "S" -> expressed w1 b (q_unit a) y ->
    exists r, fst (mul n (Qty (u "UserUnits") (q_unit a ++ u "-1")%list v) (PQ b) w) = Ok (PQ r) /\ q_unit r = (q_unit b ++ u "/" ++ q_unit b)%list /\ q_val r = v * y) by by_calc gen_inverse_times.
  destruct (X s k a b n (v / q_val a) w1 w y Te C D1 D Hk Qa Qb Pa Pb N1 N2 Y) as (r & R1 & R2 & R3). exists (Qty (u "UserUnits") (q_unit a ++ u "-1")%list (v / q_val a)), r.
  split; [exact I1|]. split; [exact R1|]. split; [exact R2|]. rewrite R3. field. exact Nv.
Qed.
(** a number over seconds is a frequency, and can be expressed in hertz *)
Theorem C72_frequency : forall s a v w w', tame_eval -> calculating s -> during s w -> during s w' -> q_kind a = u "Time" -> q_unit a = u "s" -> q_val a <> 0 ->
  exists r, fst (rdiv qdiv a v w) = Ok (PQ r) /\ q_kind r = u "Frequency" /\ expressed w' r (u "Hz") (v / q_val a).
Proof.
  intros s a v w w' Te C D D' Ka Ua Nv. assert (X : forall s a v w w', tame_eval -> calculating s -> during s w -> during s w' -> q_kind a = u "Time" -> q_unit a = u "s" -> q_val a <> 0 -> _) by by_calc gen_frequency.
  destruct (X s a v w w' Te C D D' Ka Ua Nv) as (R1 & R2). exists (Qty (u "Frequency") (u "s-1") (v / q_val a)). split; [exact R1|]. split; [reflexivity|exact R2].
Qed.
(** ... but a number over minutes is no frequency: .to returns it unchanged, in its own unit, and nothing is raised, whatever the unit asked for *)
Theorem C72_inverse_refuted : forall s k a v t w w', tame_eval -> calculating s -> during s w -> during s w' -> In k measured_kinds -> quantity_of k a -> plain_base (q_unit a) ->
  q_unit a <> u "s" -> q_unit a <> u "S" -> q_val a <> 0 -> unit_name t -> t <> (q_unit a ++ u "-1")%list ->
  exists r, fst (rdiv qdiv a v w) = Ok (PQ r) /\ q_unit r = (q_unit a ++ u "-1")%list /\ fst (to r (Some t) w') = Ok (PQ r).
Proof.
  intros s k a v t w w' Te C D D' Hk Qa Pa N1 N2 Nv Ut Nt. destruct (C72_inverse_partial s k a v w Te C D Hk Qa Pa N1 N2 Nv) as (I1 & _).
  assert (X : forall s k x v t w, tame_eval -> calculating s -> during s w -> In k measured_kinds -> listed_as k x -> plain_base x -> x <> u "s" -> x <> u "S" ->
    unit_name t -> t <> (x ++ u "-1")%list -> fst (to (Qty (u "UserUnits") (x ++ u "-1")%list v) (Some t) w) = Ok (PQ (Qty (u "UserUnits") (x ++ u "-1")%list v))) by by_calc gen_inverse_stuck.
  exists (Qty (u "UserUnits") (q_unit a ++ u "-1")%list (v / q_val a)). split; [exact I1|]. split; [reflexivity|]. destruct Qa as (Ka & La & Ua). exact (X s k (q_unit a) (v / q_val a) t w' Te C D' Hk La Pa N1 N2 Ut Nt).
Qed.
(** 60 over a minute, asked in hertz, is 60 min-1 *)
Theorem C72_minute_refuted : forall s w w', tame_eval -> calculating s -> during s w -> during s w' ->
  exists r, fst (rdiv qdiv (Qty (u "Time") (u "min") (Q2Qc 1)) (Q2Qc 60) w) = Ok (PQ r) /\ q_unit r = u "min-1" /\ fst (to r (Some (u "Hz")) w') = Ok (PQ r).
Proof.
  intros s w w' Te C D D'. assert (Nm : u "min" <> u "s") by (intros X; discriminate X). assert (NS : u "min" <> u "S") by (intros X; discriminate X).
  assert (Nv : Q2Qc 1 <> 0) by (intros X; discriminate X).
  assert (L : listed_as (u "Time") (u "min")).
  { unfold listed_as. refine (gen_first_listed cert shipped_db shipped_checked _ _ (gen_first cert shipped_db shipped_checked "min" (Some "Time"%string) _)). unfold checked_first. rewrite !in_app_iff. right. right. do 5 right. left. reflexivity. }
  assert (Pm : plain_base (u "min")) by exact (UnitsFacts3.letters_plain (u "min") eq_refl). assert (Ph : plain_base (u "Hz")) by exact (UnitsFacts3.letters_plain (u "Hz") eq_refl).
  apply (C72_inverse_refuted s (u "Time") (Qty (u "Time") (u "min") (Q2Qc 1)) (Q2Qc 60) (u "Hz") w w' Te C D D'); [apply smem_In; vm_compute; reflexivity| |exact Pm|exact Nm|exact NS|exact Nv|exact (proj1 Ph)|intros X; discriminate X].
  split; [reflexivity|]. split; [exact L|exact (proj1 Pm)].
Qed.

(** ** The operator @ *)
(** a @ b: the numbers are divided as they are, the unit is written x/y.  Missing: the units that the dictionary lists under that name *)
Theorem C72_matmul_partial : forall s k k' a b n w, tame_eval -> calculating s -> during s w -> In k measured_kinds -> In k' measured_kinds -> quantity_of k a -> quantity_of k' b ->
  plain_base (q_unit a) -> plain_base (q_unit b) -> (~ In 39%N (q_unit a) /\ ~ In 39%N (q_unit b)) \/ (~ In 34%N (q_unit a) /\ ~ In 34%N (q_unit b)) ->
  unlisted (q_unit a ++ u "/" ++ q_unit b)%list -> q_val b <> 0 ->
  exists r, fst (matmul n a (PQ b) w) = Ok (PQ r) /\ q_unit r = (q_unit a ++ u "/" ++ q_unit b)%list /\ q_val r = q_val a / q_val b.
Proof. by_calc gen_matmul. Qed.

(** ** Tuples *)
Definition with_dimension (k : str) : Prop := k <> u "Dimensionless" /\ k <> u "Percentage".
Lemma with_dimension_b k : with_dimension k -> kindless k = false.
Proof. intros (N1 & N2). unfold kindless, is_k. apply orb_false_iff. split; apply seqb_neq; assumption. Qed.
(** two quantities of different kinds are added to a pair of them; three, to a triple, and so on *)
Theorem C72_pair : forall a b w, q_kind b <> q_kind a -> with_dimension (q_kind a) -> with_dimension (q_kind b) -> add a (PQ b) w = (Ok (PT [PQ a; PQ b]), w).
Proof. intros a b w N Na Nb. exact (sum_pair false a b w N (with_dimension_b _ Na) (with_dimension_b _ Nb)). Qed.
Theorem C72_tuple : forall a l w, (forall q, In q l -> q_kind q <> q_kind a) -> add a (PT (map PQ l)) w = (Ok (PT (map PQ l ++ [PQ a])), w).
Proof. intros a l w N. exact (sum_other false a l w N). Qed.
(** subtracted, they make the same tuples: nothing is subtracted *)
Theorem C72_difference_refuted : forall a b l w, q_kind b <> q_kind a -> with_dimension (q_kind a) -> with_dimension (q_kind b) -> (forall q, In q l -> q_kind q <> q_kind a) ->
  sub a (PQ b) w = (Ok (PT [PQ a; PQ b]), w) /\ sub a (PT (map PQ l)) w = (Ok (PT (map PQ l ++ [PQ a])), w).
Proof. intros a b l w N Na Nb Nl. split; [exact (sum_pair true a b w N (with_dimension_b _ Na) (with_dimension_b _ Nb))|exact (sum_other true a l w Nl)]. Qed.
(** with components of its own kind (and unit), the quantity is added to each of them, and the others lose their units *)
Theorem C72_tuple_refuted : forall s k a l w, tame_eval -> during s w -> In k measured_kinds -> q_kind a = k -> listed_as k (q_unit a) ->
  (forall q, In q l -> q_kind q = k -> q_unit q = q_unit a) -> (exists q, In q l /\ q_kind q = k) ->
  add a (PT (map PQ l)) w = (Ok (PT (map (fun q => if seqb (q_kind q) k then PQ (Qty k (q_unit a) (q_val a + q_val q)) else PN (q_val q)) l)), w)
  /\ sub a (PT (map PQ l)) w = (Ok (PT (map (fun q => if seqb (q_kind q) k then PQ (Qty k (q_unit a) (q_val a - q_val q)) else PN (q_val q)) l)), w).
Proof.
  assert (X : forall s k sb a l w, tame_eval -> during s w -> In k measured_kinds -> q_kind a = k -> listed_as k (q_unit a) ->
    (forall q, In q l -> q_kind q = k -> q_unit q = q_unit a) -> (exists q, In q l /\ q_kind q = k) ->
    sum sb a (PT (map PQ l)) w = (Ok (PT (map (fun q => if seqb (q_kind q) k then PQ (Qty k (q_unit a) (plus sb (q_val a) (q_val q))) else PN (q_val q)) l)), w)) by by_calc gen_tuple.
  intros s k a l w Te D Hk Ka La Ul Ex. exact (conj (X s k false a l w Te D Hk Ka La Ul Ex) (X s k true a l w Te D Hk Ka La Ul Ex)).
Qed.

(** ** Truth values *)
(** bool(q) does not depend on the number: a length 0 is true, a dimensionless 5 is false *)
Theorem C72_truth : forall k x v v', truth (Qty k x v) = truth (Qty k x v').
Proof. reflexivity. Qed.
Theorem C72_truth_refuted : forall x v, truth (Qty (u "Length") x v) = true /\ truth (Qty (u "Dimensionless") x v) = false /\ truth (Qty (u "UserUnits") x v) = false.
Proof. intros x v. repeat split. Qed.

(** ** More of C61: an exponent that is a dimensionless quantity raises the number, not the unit *)
Theorem C61_dimensionless_refuted : forall s k a x n w w' m, tame_eval -> calculating s -> during s w -> during s w' -> In k square_kinds -> quantity_of k a -> plain_base (q_unit a) -> ~ In (q_unit a) not_squared ->
  pow_any (q_val a) (Q2Qc 2) = Ok m ->
  exists r r', fst (pow a (PI 2) w) = Ok (PQ r) /\ q_unit r = (q_unit a ++ u "2")%list
  /\ fst (pow_qty a (Qty (u "Dimensionless") x (Q2Qc 2)) w') = Ok (PQ r') /\ q_unit r' = q_unit a /\ q_val r' = m /\ fst (mul n a (PQ a) w') = Ok (PQ r).
Proof.
  intros s k a x n w w' m Te C D D' Hk Qa Pa Ns M. destruct (C61_square_partial s k a n w w' Te C D D' Hk Qa Pa Ns) as (r & R1 & R2 & R3 & _).
  assert (X : forall s k a b w r, tame_eval -> during s w -> In k measured_kinds -> q_kind a = k -> listed_as k (q_unit a) -> q_kind b = u "Dimensionless" ->
    pow_any (q_val a) (q_val b) = Ok r -> pow_qty a b w = (Ok (PQ (Qty k (q_unit a) r)), w)) by by_calc gen_pow_dimless.
  pose proof (X s k a (Qty (u "Dimensionless") x (Q2Qc 2)) w' m Te D' (UnitsFacts3.km k Hk) (proj1 Qa) (proj1 (proj2 Qa)) eq_refl M) as R'.
  exists r, (Qty k (q_unit a) m). split; [exact R1|]. split; [exact R3|]. split; [rewrite R'; reflexivity|]. split; [reflexivity|]. split; [reflexivity|exact R2].
Qed.

(** ** The hypotheses are met: 6 feet and 3 inches *)
Lemma units4_example_of s : tame_eval -> calculating s -> let a := Qty (u "Length") (u "ft") (Q2Qc 6) in let b := Qty (u "Length") (u "in") (Q2Qc 3) in let c := Qty (u "Weight") (u "kg") (Q2Qc 5) in
  let w := do_acts [DTo a (Some (u "in")); DAdd a (PQ b)] (world_of s shipped_kinds) in
  during s w
  /\ fst (rsub a (PN (Q2Qc 10)) w) = Ok (PQ (Qty (u "Length") (u "ft") (Q2Qc 4)))
  /\ fst (mul 0 a (PN (Q2Qc 2)) w) = Ok (PQ (Qty (u "Length") (u "ft") (Q2Qc 12)))
  /\ fst (rdiv qdiv a (Q2Qc 12) w) = Ok (PQ (Qty (u "UserUnits") (u "ft-1") (Q2Qc 2)))
  /\ (exists i r, fst (rdiv qdiv a (Q2Qc 12) w) = Ok (PQ i) /\ fst (mul 0 i (PQ a) w) = Ok (PQ r) /\ q_val r = Q2Qc 12)
  /\ (exists r, fst (matmul 0 a (PQ b) w) = Ok (PQ r) /\ q_unit r = u "ft/in" /\ q_val r = Q2Qc 2)
  /\ add a (PQ c) w = (Ok (PT [PQ a; PQ c]), w)
  /\ add a (PT [PQ a; PQ c]) w = (Ok (PT [PQ (Qty (u "Length") (u "ft") (Q2Qc 12)); PN (Q2Qc 5)]), w).
Proof.
  intros Te C a b c. cbv zeta. set (w := do_acts _ _).
  assert (D : during s w) by (exists [DTo a (Some (u "in")); DAdd a (PQ b)]; split; [constructor; [exact I|constructor; [exact I|constructor]]|unfold w; reflexivity]).
  assert (L : forall x k, In (x, Some k) [("ft", Some "Length"); ("in", Some "Length")]%string -> listed_as (u k) (u x)).
  { intros x k I0. unfold listed_as. refine (gen_first_listed cert shipped_db shipped_checked _ _ (gen_first cert shipped_db shipped_checked x (Some k) _)). unfold checked_first. rewrite !in_app_iff. right. right.
    destruct I0 as [X|[X|[]]]; injection X as <- <-; [right; right; left|right; right; right; left]; reflexivity. }
  assert (La : listed_as (u "Length") (u "ft")) by (apply (L "ft" "Length")%string; left; reflexivity).
  assert (Lb : listed_as (u "Length") (u "in")) by (apply (L "in" "Length")%string; right; left; reflexivity).
  assert (Pa : plain_base (u "ft")) by exact (UnitsFacts3.letters_plain (u "ft") eq_refl). assert (Pb : plain_base (u "in")) by exact (UnitsFacts3.letters_plain (u "in") eq_refl).
  assert (K1 : In (u "Length") classes) by (apply smem_In; vm_compute; reflexivity).
  assert (K2 : In (u "Length") measured_kinds) by (apply smem_In; vm_compute; reflexivity).
  assert (K3 : In (u "Length") square_kinds) by (apply smem_In; vm_compute; reflexivity).
  assert (Qa : quantity_of (u "Length") a) by (split; [reflexivity|]; split; [exact La|exact (proj1 Pa)]).
  assert (Qb : quantity_of (u "Length") b) by (split; [reflexivity|]; split; [exact Lb|exact (proj1 Pb)]).
  assert (N1 : q_unit a <> u "s") by (intros X; discriminate X). assert (N2 : q_unit a <> u "S") by (intros X; discriminate X).
  assert (Nv : q_val a <> 0) by (intros X; discriminate X). assert (Nb : q_val b <> 0) by (intros X; discriminate X).
  assert (Un : unlisted (u "ft/in")).
  { unfold unlisted. apply IsUnitFacts2.first_none_in. refine (gen_first cert shipped_db shipped_checked "ft/in" None _). unfold checked_first. rewrite !in_app_iff. right. right. right. left. reflexivity. }
  split; [exact D|]. split; [|split; [|split; [|split; [|split; [|split]]]]].
  - destruct (C72_sum s (u "Length") a (Q2Qc 10) w Te D K1 eq_refl La) as (_ & _ & R). rewrite R. cbn [fst]. apply (f_equal (@Ok pv)); apply (f_equal PQ); apply (f_equal (Qty _ _)); apply Qc_is_canon; vm_compute; reflexivity.
  - destruct (C72_product s (u "Length") a (Q2Qc 2) 0%nat w Te D K1 eq_refl La) as (R & _). rewrite R. cbn [fst]. apply (f_equal (@Ok pv)); apply (f_equal PQ); apply (f_equal (Qty _ _)); apply Qc_is_canon; vm_compute; reflexivity.
  - destruct (C72_inverse_partial s (u "Length") a (Q2Qc 12) w Te C D K2 Qa Pa N1 N2 Nv) as (R & _). rewrite R. change (q_unit a ++ u "-1")%list with (u "ft-1"). apply (f_equal (@Ok pv)); apply (f_equal PQ); apply (f_equal (Qty _ _)); apply Qc_is_canon; vm_compute; reflexivity.
  - pose proof (C35_itself s (u "Length") a w Te C K2 Qa D) as X.
    destruct (C72_inverse_product_partial s (u "Length") a a 0%nat (Q2Qc 12) w w w (q_val a) Te C D D D K3 Qa Qa Pa Pa N1 N2 Nv X) as (i & r & R1 & R2 & _ & R3). exists i, r. split; [exact R1|]. split; [exact R2|]. rewrite R3. apply Qc_is_canon. vm_compute. reflexivity.
  - assert (Nq : (~ In 39%N (q_unit a) /\ ~ In 39%N (q_unit b)) \/ (~ In 34%N (q_unit a) /\ ~ In 34%N (q_unit b))).
    { left. split; intros X; apply cmem_In in X; vm_compute in X; discriminate X. }
    destruct (C72_matmul_partial s _ _ a b 0%nat w Te C D K2 K2 Qa Qb Pa Pb Nq Un Nb) as (r & R1 & R2 & R3). exists r. split; [exact R1|]. split; [exact R2|]. rewrite R3. apply Qc_is_canon. vm_compute. reflexivity.
  - apply C72_pair; [intros X; discriminate X| |]; (split; intros X; discriminate X).
  - destruct (C72_tuple_refuted s (u "Length") a [a; c] w Te D K2 eq_refl La) as (R & _).
    + intros q [<-|[<-|[]]] X; [reflexivity|discriminate X].
    + exists a. split; [left; reflexivity|reflexivity].
    + etransitivity; [exact R|]. cbn [map]. change (seqb (q_kind a) (u "Length")) with true. change (seqb (q_kind c) (u "Length")) with false. cbv iota. assert (E12 : (q_val a + q_val a)%Qc = Q2Qc 12) by (apply Qc_is_canon; vm_compute; reflexivity). rewrite E12. reflexivity.
Qed.
End P.
Print Assumptions C72_sum.
Print Assumptions C72_product.
Print Assumptions C72_sign.
Print Assumptions C72_each.
Print Assumptions C72_inverse_partial.
Print Assumptions C72_inverse_zero.
Print Assumptions C72_inverse_product_partial.
Print Assumptions C72_frequency.
Print Assumptions C72_inverse_refuted.
Print Assumptions C72_minute_refuted.
Print Assumptions C72_matmul_partial.
Print Assumptions C72_pair.
Print Assumptions C72_tuple.
Print Assumptions C72_difference_refuted.
Print Assumptions C72_tuple_refuted.
Print Assumptions C72_truth.
Print Assumptions C72_truth_refuted.
Print Assumptions C61_dimensionless_refuted.
Example units4_example := units4_example_of (F := PropsOps.tenths) (P := PropsUnits.demo_pow) (E := PropsUnits.demo_eval) PropsShipped.shipped_start PropsUnits.demo_tame PropsUnits.shipped_start_calculating.
