(** * Properties of quantities: with dimensionless numbers and percentages (C77)

    The vocabulary is that of PropsUnits.v. *)
From Coq Require Import String QArith Qcanon Lia.
From Verif Require Import Py StrTools Network SearchSpec Conv Converter EngineSpec ConsistSpec Demo OpsSpec
  Dict Database Shipped Operations ShippedSpec ShippedCert ShippedCheck ShippedFacts ShippedFacts2 Units UnitsSpec UnitsSpec2 PropsShipped ShippedFacts4 ShippedFacts5 UnitsFacts UnitsFacts2 UnitsFacts3 UnitsFacts4 UnitsFacts8 UnitsFacts10 UnitsFacts11
  PropsUnits PropsUnits2 PropsUnits5.
Local Open Scope Qc_scope.
Local Opaque all_kinds merge_data.
Section P.
Context {F : Floats} {P : Pow} {E : Eval}.
(** a number without dimension: its [.value] is the number itself, or the fraction of a percentage (C39_value) *)
Definition pure (p : qty) : Prop := q_kind p = u "Dimensionless" \/ q_kind p = u "Percentage".
Lemma pure_in p : pure p -> In (q_kind p) pure_kinds.
Proof. intros [E0|E0]; rewrite E0; [left|right; left]; reflexivity. Qed.

(** q * p and p * q are the same quantity: p times q, in the unit of q, and in any other unit *)
Theorem C77_product_partial : forall s k a p n t w1 w w' x, tame_eval -> calculating s -> In k measured_kinds -> k <> u "Temperature" -> quantity_of k a -> pure p -> listed_as k t -> unit_name t ->
  during s w1 -> during s w -> during s w' -> expressed w1 a t x ->
  exists r, fst (mul n a (PQ p) w) = Ok (PQ r) /\ fst (mul n p (PQ a) w) = Ok (PQ r) /\ q_kind r = k /\ q_unit r = q_unit a /\ q_val r = q_val a * q_val p /\ expressed w' r t (x * q_val p).
Proof.
  assert (X : forall s k a p n w, tame_eval -> during s w -> In k measured_kinds -> quantity_of k a -> In (q_kind p) pure_kinds ->
    mul n a (PQ p) w = (Ok (PQ (Qty k (q_unit a) (q_val a * q_val p))), w) /\ mul n p (PQ a) w = (Ok (PQ (Qty k (q_unit a) (q_val a * q_val p))), w)) by by_calc gen_pure_mul.
  intros s k a p n t w1 w w' x Te C Hk Ht Qa Hp Lt Ut D1 D D' Xa. destruct (X s k a p n w Te D Hk Qa (pure_in p Hp)) as (R1 & R2). rewrite R1, R2.
  destruct (C37_multiple_partial s k a n (q_val p) t w1 w w' x Te C Hk Ht Qa Lt Ut D1 D D' Xa) as (r & _ & K & U' & V & Xr).
  exists (Qty k (q_unit a) (q_val a * q_val p)). assert (Er : Qty k (q_unit a) (q_val a * q_val p) = r) by (destruct r as [rk ru rv]; cbn [q_kind q_unit q_val] in *; congruence).
  split; [reflexivity|]. split; [reflexivity|]. split; [reflexivity|]. split; [reflexivity|]. split; [reflexivity|]. rewrite Er. exact Xr.
Qed.
(** q / p *)
Theorem C77_quotient_partial : forall s k a p n t w1 w w' x, tame_eval -> calculating s -> In k measured_kinds -> k <> u "Temperature" -> quantity_of k a -> pure p -> q_val p <> 0 -> listed_as k t -> unit_name t ->
  during s w1 -> during s w -> during s w' -> expressed w1 a t x ->
  exists r, fst (truediv n a (PQ p) w) = Ok (PQ r) /\ q_kind r = k /\ q_unit r = q_unit a /\ q_val r = q_val a / q_val p /\ expressed w' r t (x / q_val p).
Proof.
  assert (X : forall s k a p n w, tame_eval -> during s w -> In k measured_kinds -> quantity_of k a -> In (q_kind p) pure_kinds -> q_val p <> 0 ->
    truediv n a (PQ p) w = (Ok (PQ (Qty k (q_unit a) (q_val a / q_val p))), w)) by by_calc gen_pure_div.
  intros s k a p n t w1 w w' x Te C Hk Ht Qa Hp Nz Lt Ut D1 D D' Xa. rewrite (X s k a p n w Te D Hk Qa (pure_in p Hp) Nz).
  destruct (C37_multiple_partial s k a n (/ q_val p) t w1 w w' x Te C Hk Ht Qa Lt Ut D1 D D' Xa) as (r & _ & K & U' & V & Xr).
  exists (Qty k (q_unit a) (q_val a / q_val p)). assert (Er : Qty k (q_unit a) (q_val a / q_val p) = r) by (destruct r as [rk ru rv]; cbn [q_kind q_unit q_val] in *; unfold Qcdiv; congruence).
  split; [reflexivity|]. split; [reflexivity|]. split; [reflexivity|]. split; [reflexivity|]. rewrite Er. exact Xr.
Qed.
(** q + p and q - p: p counts in the unit of q (temperatures included) *)
Theorem C77_sum_partial : forall s k a p w, tame_eval -> during s w -> In k measured_kinds -> quantity_of k a -> pure p ->
  add a (PQ p) w = (Ok (PQ (Qty k (q_unit a) (q_val a + q_val p))), w) /\ sub a (PQ p) w = (Ok (PQ (Qty k (q_unit a) (q_val a - q_val p))), w).
Proof.
  assert (X : forall s k sb a p w, tame_eval -> during s w -> In k measured_kinds -> quantity_of k a -> In (q_kind p) pure_kinds ->
    sum sb a (PQ p) w = (Ok (PQ (Qty k (q_unit a) (plus sb (q_val a) (q_val p)))), w)) by by_calc gen_pure_sum.
  intros s k a p w Te D Hk Qa Hp. exact (conj (X s k false a p w Te D Hk Qa (pure_in p Hp)) (X s k true a p w Te D Hk Qa (pure_in p Hp))).
Qed.
(** but p + q and p - q raise *)
Theorem C77_sum_refuted : forall s k a p w, tame_eval -> calculating s -> during s w -> In k measured_kinds -> quantity_of k a -> pure p ->
  add p (PQ a) w = (Err WrongUnitsError, w) /\ sub p (PQ a) w = (Err WrongUnitsError, w).
Proof.
  assert (X : forall s k sb a p w, tame_eval -> calculating s -> during s w -> In k measured_kinds -> quantity_of k a -> In (q_kind p) pure_kinds ->
    sum sb p (PQ a) w = (Err WrongUnitsError, w)) by by_calc gen_pure_sum_left.
  intros s k a p w Te C D Hk Qa Hp. exact (conj (X s k false a p w Te C D Hk Qa (pure_in p Hp)) (X s k true a p w Te C D Hk Qa (pure_in p Hp))).
Qed.
(** p ** q, a power with a dimension, is a number of the unit of q: 2 to the power of 3 feet is 8 feet *)
Theorem C77_power_refuted : forall s k a p w r, tame_eval -> during s w -> In k measured_kinds -> quantity_of k a -> pure p -> pow_any (q_val p) (q_val a) = Ok r ->
  pow_qty p a w = (Ok (PQ (Qty k (q_unit a) r)), w).
Proof.
  assert (X : forall s k a p w r, tame_eval -> during s w -> In k measured_kinds -> quantity_of k a -> In (q_kind p) pure_kinds -> pow_any (q_val p) (q_val a) = Ok r ->
    pow_qty p a w = (Ok (PQ (Qty k (q_unit a) r)), w)) by by_calc gen_pure_pow.
  intros s k a p w r Te D Hk Qa Hp R. exact (X s k a p w r Te D Hk Qa (pure_in p Hp) R).
Qed.

(** The hypotheses are met: 10 percent of 6 feet, and 6 feet + 10 percent *)
Lemma units7_example_of (s : st Qc) : tame_eval -> calculating s ->
  let a := Qty (u "Length") (u "ft") (Q2Qc 6) in let p := Qty (u "Percentage") (u "%") (Q2Qc 10 / Q2Qc 100) in let w := do_acts [DAdd a (PQ a)] (world_of s shipped_kinds) in
  during s w /\ make (u "Percentage") (Q2Qc 10) (u "%") w = (Ok (PQ p), w)
  /\ fst (mul 0 p (PQ a) w) = Ok (PQ (Qty (u "Length") (u "ft") (Q2Qc (6 # 10))))
  /\ fst (add a (PQ p) w) = Ok (PQ (Qty (u "Length") (u "ft") (Q2Qc (61 # 10))))
  /\ fst (add p (PQ a) w) = Err WrongUnitsError.
Proof.
  intros Te C a p. cbv zeta. set (w := do_acts _ _).
  assert (D : during s w) by (exists [DAdd a (PQ a)]; split; [constructor; [exact I|constructor]|unfold w; reflexivity]).
  assert (Pa : plain_base (u "ft")) by exact (UnitsFacts3.letters_plain (u "ft") eq_refl).
  assert (La : listed_as (u "Length") (u "ft")) by (apply (more_listed "ft" "Length")%string; left; reflexivity).
  assert (Lp : listed_as (u "Percentage") (u "%")).
  { apply (gen_first_listed cert shipped_db shipped_checked). apply (gen_first cert shipped_db shipped_checked "%" (Some "Percentage"%string)). do 5 right. left. reflexivity. }
  assert (K1 : In (u "Length") measured_kinds) by (apply smem_In; vm_compute; reflexivity).
  assert (Nt : u "Length" <> u "Temperature") by (intros X; discriminate X).
  assert (Qa : quantity_of (u "Length") a) by (split; [reflexivity|]; split; [exact La|exact (proj1 Pa)]).
  assert (Hp : pure p) by (right; reflexivity).
  split; [exact D|]. split; [exact (C39_value s w (u "%") (Q2Qc 10) Te D Lp)|]. split; [|split].
  - destruct (C77_product_partial s (u "Length") a p 0%nat (u "ft") w w w (Q2Qc 6) Te C K1 Nt Qa Hp La (proj1 Pa) D D D (C35_itself s _ a w Te C K1 Qa D)) as (r & _ & R & Rk & Ru & Rv & _).
    rewrite R. apply (f_equal (@Ok pv)). apply (f_equal PQ). destruct r as [rk ru rv]. cbn [q_kind q_unit q_val] in *. subst rk ru rv. apply (f_equal (Qty _ _)). apply Qc_is_canon. vm_compute. reflexivity.
  - rewrite (proj1 (C77_sum_partial s (u "Length") a p w Te D K1 Qa Hp)). cbn [fst]. apply (f_equal (@Ok pv)). apply (f_equal PQ). apply (f_equal (Qty _ _)). apply Qc_is_canon. vm_compute. reflexivity.
  - rewrite (proj1 (C77_sum_refuted s (u "Length") a p w Te C D K1 Qa Hp)). reflexivity.
Qed.
End P.
Print Assumptions C77_product_partial.
Print Assumptions C77_quotient_partial.
Print Assumptions C77_sum_partial.
Print Assumptions C77_sum_refuted.
Print Assumptions C77_power_refuted.
Example units7_example := units7_example_of (F := PropsOps.tenths) (P := PropsUnits.demo_pow) (E := PropsUnits.demo_eval) PropsShipped.shipped_start PropsUnits.demo_tame PropsUnits.shipped_start_calculating.
