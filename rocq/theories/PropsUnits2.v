(** * Properties of quantities: quotients and remainders (C59), rounding (C60), powers (C61), and more of C37

    The vocabulary is that of PropsUnits.v and UnitsSpec2.v. *)
From Coq Require Import String QArith Qcanon Qround Lia.
From Verif Require Import Py StrTools Network SearchSpec Conv Converter EngineSpec ConsistSpec Demo OpsSpec
  Dict Database Shipped Operations ShippedSpec ShippedCert ShippedCheck ShippedFacts ShippedFacts2 Units UnitsSpec UnitsSpec2 NumFacts PropsShipped ShippedFacts5 UnitsFacts UnitsFacts4 UnitsFacts5 UnitsFacts6 UnitsFacts7 PropsUnits.
Local Open Scope Qc_scope.
Local Opaque all_kinds merge_data.

Lemma square_not_b : forallb (fun k => negb (seqb k (u "Temperature")) && negb (seqb k (u "Data"))) square_kinds = true. Proof. vm_compute. reflexivity. Qed.
Lemma square_not k : In k square_kinds -> k <> u "Temperature" /\ k <> u "Data".
Proof. intros Hk. pose proof (proj1 (forallb_forall _ _) square_not_b k Hk) as X. cbn beta in X. rewrite andb_true_iff, !negb_true_iff in X. split; apply seqb_neq; apply X. Qed.
Section P.
Context {F : Floats} {P : Pow} {E : Eval}.
Lemma first_listed_in k x : first_listed k x -> first_in (merge_data (db_kinds shipped_db)) x = Some k.
Proof. unfold first_listed. exact (first_in_spec shipped_db x k). Qed.

(** ** C37: the quotient of two quantities of one kind *)
(** a / b has the unit "x/x", and the value is the ratio of the two amounts, whatever their units (units of letters) *)
Theorem C37_ratio_partial : forall s k a b t n w1 w2 w x y, tame_eval -> calculating s -> In k square_kinds -> quantity_of k a -> quantity_of k b ->
  plain_base (q_unit a) -> plain_base (q_unit b) -> listed_as k t -> unit_name t -> during s w1 -> during s w2 -> during s w ->
  expressed w1 a t x -> expressed w2 b t y -> y <> 0 ->
  exists r, fst (truediv n a (PQ b) w) = Ok (PQ r) /\ q_unit r = (q_unit a ++ u "/" ++ q_unit a)%list /\ q_val r = x / y.
Proof.
  intros s k a b t n w1 w2 w x y Te C Hk Qa Qb Pa Pb Lt Ut D1 D2 D X Y Ny.
  refine (proj1 (_ : _ /\ exists r z, fst (floordiv n a (PQ b) w) = Ok (PQ r) /\ q_unit r = (q_unit a ++ u "/" ++ q_unit a)%list /\ q_val r = zq z /\ whole x y z)).
  revert s k a b t n w1 w2 w x y Te C Hk Qa Qb Pa Pb Lt Ut D1 D2 D X Y Ny. by_calc gen_ratio.
Qed.
(** a quantity divided by a number, when its unit is listed under its kind first *)
Theorem C37_divided_partial : forall s k a n v t w1 w x, tame_eval -> calculating s -> In k measured_kinds -> k <> u "Temperature" -> k <> u "Data" -> quantity_of k a ->
  first_listed k (q_unit a) -> ~ In (q_unit a) shipped_uncertain -> listed_as k t -> unit_name t -> during s w1 -> during s w -> expressed w1 a t x -> v <> 0 ->
  exists r, fst (truediv n a (PN v) w) = Ok (PQ r) /\ q_kind r = k /\ q_unit r = q_unit a /\ forall w', during s w' -> expressed w' r t (x / v).
Proof.
  intros s k a n v t w1 w x Te C Hk Ht Hd Qa Fl. apply first_listed_in in Fl. revert Fl. revert s k a n v t w1 w x Te C Hk Ht Hd Qa. by_calc gen_divided.
Qed.
(** a dimensionless number over a length, a mass, ... raises *)
Theorem C37_refuted_inverse : forall s k a x v n w, tame_eval -> during s w -> In k own_kinds -> quantity_of k a -> q_val a <> 0 ->
  fst (truediv n (Qty (u "Dimensionless") x v) (PQ a) w) = Err WrongUnitsError /\ fst (floordiv n (Qty (u "Dimensionless") x v) (PQ a) w) = Err WrongUnitsError.
Proof. by_calc gen_inverse. Qed.
(** half of some ounces (of volume) is no volume; nor is the remainder *)
Theorem C37_refuted_ounce : forall s w n v v', tame_eval -> calculating s -> during s w -> v' <> 0 ->
  fst (truediv n (Qty (u "Volume") (u "oz") v) (PN v') w) = Ok (PQ (Qty (u "Unit") (u "oz") (v / v')))
  /\ fst (modulo n (Qty (u "Volume") (u "oz") v) (PQ (Qty (u "Volume") (u "oz") v')) w) = Ok (PQ (Qty (u "Unit") (u "oz") (v - v' * zq (Qfloor (v / v')%Qc)))).
Proof. by_calc gen_ounce. Qed.

(** ** C59 *)
(** a % b: what is left of a after taking b away a whole number of times; in the unit of a *)
Theorem C59_remainder_partial : forall s k a b t n w1 w2 w x y, tame_eval -> calculating s -> In k measured_kinds -> k <> u "Temperature" -> k <> u "Data" ->
  quantity_of k a -> quantity_of k b -> first_listed k (q_unit a) -> ~ In (q_unit a) shipped_uncertain -> listed_as k t -> unit_name t ->
  during s w1 -> during s w2 -> during s w -> expressed w1 a t x -> expressed w2 b t y -> y <> 0 ->
  exists r z, fst (modulo n a (PQ b) w) = Ok (PQ r) /\ q_kind r = k /\ q_unit r = q_unit a /\ whole x y z
    /\ forall w', during s w' -> expressed w' r t (x - zq z * y).
Proof.
  intros s k a b t n w1 w2 w x y Te C Hk Ht Hd Qa Qb Fl. apply first_listed_in in Fl. revert Fl. revert s k a b t n w1 w2 w x y Te C Hk Ht Hd Qa Qb. by_calc gen_mod.
Qed.
(** the remainder is smaller than the divisor, and has its sign *)
Theorem C59_smaller_partial : forall s k a b n w w', tame_eval -> calculating s -> In k measured_kinds -> k <> u "Temperature" -> k <> u "Data" ->
  quantity_of k a -> quantity_of k b -> first_listed k (q_unit a) -> ~ In (q_unit a) shipped_uncertain -> q_val b <> 0 -> during s w -> during s w' ->
  exists r, fst (modulo n a (PQ b) w) = Ok (PQ r)
    /\ (0 < q_val b -> fst (compare_ Lt r (PQ b) w') = Ok true /\ 0 <= q_val r)
    /\ (q_val b < 0 -> fst (compare_ Gt r (PQ b) w') = Ok true /\ q_val r <= 0).
Proof.
  intros s k a b n w w' Te C Hk Ht Hd Qa Qb Fl Hu Nz D D'. pose proof Qa as (Ka & La & Ua). pose proof Qb as (Kb & Lb & Ub).
  destruct (C35_expressed s k a (q_unit b) Te C Hk Qa Lb Ub) as (x & X). pose proof (C35_itself s k b w Te C Hk Qb D) as Y.
  destruct (C59_remainder_partial s k a b (q_unit b) n w w w x (q_val b) Te C Hk Ht Hd Qa Qb Fl Hu Lb Ub D D D (X w D) Y Nz) as (r & z & R & Kr & Ur & W & Xr).
  exists r. split; [exact R|]. assert (Qr : quantity_of k r) by (split; [exact Kr|]; rewrite Ur; exact (conj La Ua)).
  pose proof (C35_itself s k b w' Te C Hk Qb D') as Y'. pose proof (Xr w' D') as Xr'.
  (* zero is zero in any unit *)
  destruct (C37_multiple_partial s k r 0%nat 0 (q_unit b) w' w' w' _ Te C Hk Ht Qr Lb Ub D' D' D' Xr') as (r0 & _ & K0 & U0 & V0 & X0).
  rewrite Qcmult_0_r in V0, X0.
  assert (Q0 : quantity_of k r0) by (split; [exact K0|]; rewrite U0, Ur; exact (conj La Ua)).
  assert (Self : forall q, quantity_of k q -> q_unit q = q_unit r -> expressed w' q (q_unit r) (q_val q)).
  { intros q Qq Uq. rewrite <- Uq. exact (C35_itself s k q w' Te C Hk Qq D'). }
  assert (Lr : listed_as k (q_unit r) /\ unit_name (q_unit r)) by (rewrite Ur; exact (conj La Ua)).
  pose proof (fun o => C38_compare_partial s k o r b (q_unit b) w' w' w' _ _ Te C Hk Qr Qb Lb Ub D' D' D' Xr' Y') as G.
  pose proof (fun o => C38_compare_partial s k o r r0 (q_unit b) w' w' w' _ _ Te C Hk Qr Q0 Lb Ub D' D' D' Xr' X0) as G0.
  pose proof (fun o => C38_compare_partial s k o r r0 (q_unit r) w' w' w' _ _ Te C Hk Qr Q0 (proj1 Lr) (proj2 Lr) D' D' D' (Self r Qr eq_refl) (Self r0 Q0 U0)) as G1.
  assert (Z : forall o, stands o (x - zq z * q_val b) 0 -> stands o (q_val r) 0).
  { intros o So. destruct (G0 o) as (b0 & B1 & B2). destruct (G1 o) as (b1 & B3 & B4). rewrite B1 in B3. injection B3 as <-. rewrite V0 in B4. apply B4. apply B2. exact So. }
  split; intros S.
  - destruct W as [(W1 & W2 & W3)|(W1 & _)]; [|exfalso; apply Qclt_le_weak in W1; exact (Qclt_not_le _ _ S W1)]. split.
    + destruct (G Lt) as (q & -> & G2). f_equal. apply G2. cbn [stands]. apply Qclt_minus_iff. apply Qclt_minus_iff in W3.
      replace (q_val b + - (x - zq z * q_val b)) with ((zq z + 1) * q_val b + - x) by ring. exact W3.
    + apply (Z Ge). cbn [stands]. apply Qcle_minus_iff. apply Qcle_minus_iff in W2. replace (x - zq z * q_val b + - 0) with (x + - (zq z * q_val b)) by ring. exact W2.
  - destruct W as [(W1 & _)|(W1 & W2 & W3)]; [exfalso; apply Qclt_le_weak in W1; exact (Qclt_not_le _ _ S W1)|]. split.
    + destruct (G Gt) as (q & -> & G2). f_equal. apply G2. cbn [stands]. apply Qclt_minus_iff. apply Qclt_minus_iff in W3.
      replace (x - zq z * q_val b + - q_val b) with (x + - ((zq z + 1) * q_val b)) by ring. exact W3.
    + apply (Z Le). cbn [stands]. apply Qcle_minus_iff. apply Qcle_minus_iff in W2. replace (0 + - (x - zq z * q_val b)) with (zq z * q_val b + - x) by ring. exact W2.
Qed.
(** a // b: how many times b fits in a (units of letters) *)
Theorem C59_quotient_partial : forall s k a b t n w1 w2 w x y, tame_eval -> calculating s -> In k square_kinds -> quantity_of k a -> quantity_of k b ->
  plain_base (q_unit a) -> plain_base (q_unit b) -> listed_as k t -> unit_name t -> during s w1 -> during s w2 -> during s w ->
  expressed w1 a t x -> expressed w2 b t y -> y <> 0 ->
  exists r z, fst (floordiv n a (PQ b) w) = Ok (PQ r) /\ q_unit r = (q_unit a ++ u "/" ++ q_unit a)%list /\ q_val r = zq z /\ whole x y z.
Proof.
  intros s k a b t n w1 w2 w x y Te C Hk Qa Qb Pa Pb Lt Ut D1 D2 D X Y Ny.
  refine (proj2 (_ : (exists r, fst (truediv n a (PQ b) w) = Ok (PQ r) /\ q_unit r = (q_unit a ++ u "/" ++ q_unit a)%list /\ q_val r = x / y) /\ _)).
  revert s k a b t n w1 w2 w x y Te C Hk Qa Qb Pa Pb Lt Ut D1 D2 D X Y Ny. by_calc gen_ratio.
Qed.
(** (a // b) times b, plus a % b, is a: multiplying by the number of times, the very same quantity *)
Theorem C59_division_partial : forall s k a b n w1 w2 w3 w4, tame_eval -> calculating s -> In k square_kinds -> quantity_of k a -> quantity_of k b ->
  plain_base (q_unit a) -> plain_base (q_unit b) -> first_listed k (q_unit a) -> ~ In (q_unit a) shipped_uncertain -> q_val b <> 0 ->
  during s w1 -> during s w2 -> during s w3 -> during s w4 ->
  exists q r p, fst (floordiv n a (PQ b) w1) = Ok (PQ q) /\ fst (modulo n a (PQ b) w2) = Ok (PQ r)
    /\ fst (mul n b (PN (q_val q)) w3) = Ok (PQ p) /\ fst (add r (PQ p) w4) = Ok (PQ a).
Proof.
  intros s k a b n w1 w2 w3 w4 Te C Hk Qa Qb Pa Pb Fl Hu Nz D1 D2 D3 D4. pose proof Qa as (Ka & La & Ua). pose proof Qb as (Kb & Lb & Ub).
  pose proof (UnitsFacts3.km k Hk) as Hm. destruct (square_not k Hk) as (Ht & Hd).
  destruct (C35_expressed s k a (q_unit b) Te C Hm Qa Lb Ub) as (x & X). pose proof (C35_itself s k b w2 Te C Hm Qb D2) as Y.
  destruct (C59_quotient_partial s k a b (q_unit b) n w1 w2 w1 x (q_val b) Te C Hk Qa Qb Pa Pb Lb Ub D1 D2 D1 (X w1 D1) Y Nz) as (q & z & R1 & _ & Vq & W1).
  destruct (C59_remainder_partial s k a b (q_unit b) n w1 w2 w2 x (q_val b) Te C Hm Ht Hd Qa Qb Fl Hu Lb Ub D1 D2 D2 (X w1 D1) Y Nz) as (r & z' & R2 & Kr & Ur & W2 & Xr).
  pose proof (whole_unique _ _ _ _ W1 W2) as <-.
  destruct (C37_multiple_partial s k b n (q_val q) (q_unit b) w2 w3 w4 (q_val b) Te C Hm Ht Qb Lb Ub D2 D3 D4 Y) as (p & R3 & Kp & Up & Vp & Xp).
  assert (Qr : quantity_of k r) by (split; [exact Kr|]; rewrite Ur; exact (conj La Ua)). assert (Qp : quantity_of k p) by (split; [exact Kp|]; rewrite Up; exact (conj Lb Ub)).
  exists q, r, p. split; [exact R1|]. split; [exact R2|]. split; [exact R3|].
  destruct (C35_sum_partial s k r p (q_unit b) w4 w4 w4 _ _ Te C Hm Ht Qr Qp Lb Ub D4 D4 D4 (Xr w4 D4) Xp) as (e & R4 & Ke & Ue & Xe). rewrite R4. do 2 f_equal.
  pose proof (Xe w4 D4) as Z. replace (x - zq z * q_val b + q_val b * q_val q) with x in Z by (rewrite Vq; ring).
  assert (Qe : quantity_of k e) by (split; [exact Ke|]; rewrite Ue, Ur; exact (conj La Ua)).
  destruct (C38_compare_partial s k Eq e a (q_unit b) w4 w4 w4 x x Te C Hm Qe Qa Lb Ub D4 D4 D4 Z (X w4 D4)) as (e1 & E1 & B1).
  pose proof (C35_itself s k a w4 Te C Hm Qa D4) as Xa. pose proof (C35_itself s k e w4 Te C Hm Qe D4) as Xe'. rewrite Ue, Ur in Xe'.
  destruct (C38_compare_partial s k Eq e a (q_unit a) w4 w4 w4 _ _ Te C Hm Qe Qa La Ua D4 D4 D4 Xe' Xa) as (e2 & E2 & B2).
  rewrite E1 in E2. injection E2 as <-. assert (V : q_val e = q_val a) by (apply B2, B1; reflexivity).
  destruct e as [ke xe ve], a as [ka xa va]. cbn [q_kind q_unit q_val] in *. congruence.
Qed.
(** a zero amount cannot divide, in whatever unit; nor the number 0 *)
Theorem C59_zero_partial : forall s k a b t n w2 w, tame_eval -> calculating s -> In k measured_kinds -> k <> u "Temperature" -> quantity_of k a -> quantity_of k b ->
  listed_as k t -> unit_name t -> during s w2 -> during s w -> expressed w2 b t 0 -> fst (modulo n a (PQ b) w) = Err ZeroDivisionError.
Proof. by_calc gen_zero_mod. Qed.
Theorem C59_zero_quotient_partial : forall s k a b t n w2 w, tame_eval -> calculating s -> In k square_kinds -> quantity_of k a -> quantity_of k b ->
  plain_base (q_unit a) -> plain_base (q_unit b) -> listed_as k t -> unit_name t -> during s w2 -> during s w -> expressed w2 b t 0 ->
  fst (truediv n a (PQ b) w) = Err ZeroDivisionError /\ fst (floordiv n a (PQ b) w) = Err ZeroDivisionError.
Proof. by_calc gen_zero_div. Qed.
Theorem C59_zero_number : forall n a w,
  fst (truediv n a (PN 0) w) = Err ZeroDivisionError /\ fst (floordiv n a (PN 0) w) = Err ZeroDivisionError /\ fst (modulo n a (PN 0) w) = Err ZeroDivisionError.
Proof. exact gen_divided_zero. Qed.
(** q // number depends on the unit: 7 feet are 84 inches, but 7 feet // 2 are 3 feet and 84 inches // 2 are 42 inches *)
Theorem C59_floor_number : forall s k a n v w, tame_eval -> during s w -> In k measured_kinds -> quantity_of k a -> v <> 0 ->
  fst (floordiv n a (PN v) w) = Ok (PQ (Qty k (q_unit a) (zq (Qfloor (q_val a / v)%Qc)))).
Proof. by_calc gen_floor_num. Qed.
Lemma inch_defs : exists ds, In (u "Length", ds) defs /\ In (def "inch" "m" (254 # 10000)) ds /\ In (def "foot" "m" (3048 # 10000)) ds.
Proof. eexists. split; [right; right; left; reflexivity|]. split; [left; reflexivity|right; left; reflexivity]. Qed.
Theorem C59_refuted : forall s w n, tame_eval -> calculating s -> during s w -> let feet v := Qty (u "Length") (u "foot") (Q2Qc v) in let inches v := Qty (u "Length") (u "inch") (Q2Qc v) in
  fst (compare_ Eq (feet 7) (PQ (inches 84)) w) = Ok true
  /\ fst (floordiv n (feet 7) (PN (Q2Qc 2)) w) = Ok (PQ (feet 3)) /\ fst (floordiv n (inches 84) (PN (Q2Qc 2)) w) = Ok (PQ (inches 42))
  /\ fst (compare_ Eq (feet 3) (PQ (inches 42)) w) = Ok false.
Proof.
  intros s w n Te C D. cbv zeta. destruct inch_defs as (ds & D1 & X1 & X2). destruct length_names as (_ & U2 & U3 & _). destruct length_kind as (K1 & K2 & _).
  assert (U1 : unit_name (u "inch")) by (apply unit_check; vm_compute; reflexivity).
  destruct (defs_known _ _ _ D1 X1) as [L1 L3]. destruct (defs_known _ _ _ D1 X2) as [L2 _]. cbn [d_from d_to def] in L1, L2, L3.
  assert (V : forall x p v y, In (Def x (u "m") p 0) ds -> unit_name x -> Q2Qc v * Q2Qc p + Q2Qc 0 = y -> expressed w (Qty (u "Length") x (Q2Qc v)) (u "m") y).
  { intros x p v y Ix Ux <-. exact (shipped_expressed s (u "Length") ds (Def x (u "m") p 0) (Q2Qc v) w Te C D1 Ix K1 Ux U3 D). }
  assert (Qf : forall v, quantity_of (u "Length") (Qty (u "Length") (u "foot") v)) by (intros v; exact (conj eq_refl (conj L2 U2))).
  assert (Qi : forall v, quantity_of (u "Length") (Qty (u "Length") (u "inch") v)) by (intros v; exact (conj eq_refl (conj L1 U1))).
  assert (N2 : Q2Qc 2 <> 0) by (intros Z; discriminate Z).
  pose proof (fun v v' => C38_compare_partial s _ Eq _ _ (u "m") w w w _ _ Te C K1 (Qf (Q2Qc v)) (Qi (Q2Qc v')) L3 U3 D D D
     (V _ _ v _ X2 U2 eq_refl) (V _ _ v' _ X1 U1 eq_refl)) as G. cbn [stands] in G.
  split; [|split; [|split]].
  - destruct (G 7%Q 84%Q) as (r & -> & G1). f_equal. apply G1. apply Qc_is_canon. vm_compute. reflexivity.
  - rewrite (C59_floor_number s (u "Length") _ n (Q2Qc 2) w Te D K1 (Qf (Q2Qc 7)) N2). cbn [q_unit q_val]. do 3 f_equal; apply Qc_is_canon; vm_compute; reflexivity.
  - rewrite (C59_floor_number s (u "Length") _ n (Q2Qc 2) w Te D K1 (Qi (Q2Qc 84)) N2). cbn [q_unit q_val]. do 3 f_equal; apply Qc_is_canon; vm_compute; reflexivity.
  - destruct (G 3%Q 42%Q) as (r & -> & G1). f_equal. destruct r; [|reflexivity]. exfalso. pose proof (proj1 G1 eq_refl) as Z. apply (f_equal this) in Z. vm_compute in Z. discriminate Z.
Qed.

(** ** C60 *)
Lemma round_of : forall s k a n w, tame_eval -> during s w -> In k measured_kinds -> quantity_of k a ->
  fst (round_ a n w) = Ok (PQ (Qty k (q_unit a) (round_to (q_val a) (match n with Some n => n | None => 0%Z end)))).
Proof. by_calc gen_round. Qed.
(** round(q, n) has the kind and the unit of q, and its value rounded: to the
    nearest multiple of 10^-n, the even one when halfway; round(q) is round(q, 0) *)
Theorem C60_round_partial : forall s k a n w, tame_eval -> during s w -> In k measured_kinds -> quantity_of k a ->
  exists r, fst (round_ a (Some n) w) = Ok (PQ r) /\ q_kind r = k /\ q_unit r = q_unit a /\ rounded (q_val a) (q_val r) n.
Proof.
  intros s k a n w Te D Hk Qa. eexists. split; [exact (round_of s k a (Some n) w Te D Hk Qa)|]. split; [reflexivity|]. split; [reflexivity|]. apply round_rounded.
Qed.
Theorem C60_default_partial : forall s k a w w', tame_eval -> during s w -> during s w' -> In k measured_kinds -> quantity_of k a ->
  fst (round_ a None w) = fst (round_ a (Some 0%Z) w').
Proof. intros s k a w w' Te D D' Hk Qa. now rewrite (round_of s k a None w Te D Hk Qa), (round_of s k a (Some 0%Z) w' Te D' Hk Qa). Qed.
(** rounding twice is rounding once; a rounded quantity differs from the quantity by half a unit of the last decimal, at most *)
Theorem C60_again_partial : forall s k a n w w', tame_eval -> during s w -> during s w' -> In k measured_kinds -> quantity_of k a ->
  exists r, fst (round_ a (Some n) w) = Ok (PQ r) /\ fst (round_ r (Some n) w') = Ok (PQ r)
    /\ (q_val a - q_val r) * ten n <= Q2Qc (1 # 2) /\ (q_val r - q_val a) * ten n <= Q2Qc (1 # 2).
Proof.
  intros s k a n w w' Te D D' Hk Qa. destruct (C60_round_partial s k a n w Te D Hk Qa) as (r & R & Kr & Ur & V). exists r. split; [exact R|].
  assert (Qr : quantity_of k r) by (split; [exact Kr|]; rewrite Ur; exact (proj2 Qa)).
  destruct (C60_round_partial s k r n w' Te D' Hk Qr) as (r' & R' & Kr' & Ur' & V'). split; [|exact (rounded_error _ _ _ V)].
  rewrite R'. do 2 f_equal. pose proof (rounded_unique _ _ _ _ V' (rounded_self _ _ _ V)) as Z. destruct r as [kr xr vr], r' as [kr' xr' vr']. cbn [q_kind q_unit q_val] in *. congruence.
Qed.
(** rounding keeps the order (of quantities in one unit) *)
Theorem C60_order_partial : forall s k a b n w w1 w2 w', tame_eval -> calculating s -> during s w -> during s w1 -> during s w2 -> during s w' -> In k measured_kinds ->
  quantity_of k a -> quantity_of k b -> q_unit a = q_unit b -> fst (compare_ Le a (PQ b) w) = Ok true ->
  exists r r', fst (round_ a (Some n) w1) = Ok (PQ r) /\ fst (round_ b (Some n) w2) = Ok (PQ r') /\ fst (compare_ Le r (PQ r') w') = Ok true.
Proof.
  intros s k a b n w w1 w2 w' Te C D D1 D2 D' Hk Qa Qb Ue L. pose proof Qa as (Ka & La & Ua). pose proof Qb as (Kb & Lb & Ub).
  destruct (C60_round_partial s k a n w1 Te D1 Hk Qa) as (r & R & Kr & Ur & V). destruct (C60_round_partial s k b n w2 Te D2 Hk Qb) as (r' & R' & Kr' & Ur' & V').
  exists r, r'. split; [exact R|]. split; [exact R'|].
  assert (Qr : quantity_of k r) by (split; [exact Kr|]; rewrite Ur; exact (conj La Ua)). assert (Qr' : quantity_of k r') by (split; [exact Kr'|]; rewrite Ur'; exact (conj Lb Ub)).
  pose proof (C35_itself s k b w Te C Hk Qb D) as Xb. rewrite <- Ue in Xb. pose proof (C35_itself s k r w' Te C Hk Qr D') as Xr. rewrite Ur in Xr.
  pose proof (C35_itself s k r' w' Te C Hk Qr' D') as Xr'. rewrite Ur', <- Ue in Xr'.
  destruct (C38_compare_partial s k Le a b (q_unit a) w w w _ _ Te C Hk Qa Qb La Ua D D D (C35_itself s k a w Te C Hk Qa D) Xb) as (l & L1 & L2). rewrite L in L1. injection L1 as <-.
  destruct (C38_compare_partial s k Le r r' (q_unit a) w' w' w' _ _ Te C Hk Qr Qr' La Ua D' D' D' Xr Xr') as (l & L1 & L3). rewrite L1. f_equal. apply L3. cbn [stands] in *.
  exact (rounded_between _ _ _ _ n V V' (proj1 L2 eq_refl)).
Qed.
(** q.round(n) is round(q, n), n >= 0, when the unit is listed under the kind first *)
Theorem C60_method_partial : forall s k a n w w', tame_eval -> calculating s -> during s w -> during s w' -> In k measured_kinds -> k <> u "Data" -> quantity_of k a ->
  first_listed k (q_unit a) -> ~ In (q_unit a) shipped_uncertain -> (0 <= n)%Z -> fst (round_method a (Some n) w) = fst (round_ a (Some n) w').
Proof.
  intros s k a n w w' Te C D D' Hk Hd Qa Fl Hu Hn. rewrite (round_of s k a (Some n) w' Te D' Hk Qa). apply first_listed_in in Fl.
  assert (R : round_method a (Some n) w = (Ok (PQ (Qty k (q_unit a) (round_to (q_val a) n))), w)).
  { clear D' w'. revert s k a n w Te C D Hk Hd Qa Fl Hu Hn. by_calc gen_round_method. }
  rewrite R. reflexivity.
Qed.
(** a.equals(b, n): b in the unit of a and a are the same, rounded to n decimals *)
Theorem C60_equals_partial : forall s k a b n w y, tame_eval -> calculating s -> during s w -> In k measured_kinds -> k <> u "Data" -> quantity_of k a -> quantity_of k b ->
  first_listed k (q_unit a) -> ~ In (q_unit a) shipped_uncertain -> (0 <= n)%Z -> expressed w b (q_unit a) y ->
  exists r ra rb, fst (equals a (PQ b) (Some n) w) = Ok r /\ rounded (q_val a) ra n /\ rounded y rb n /\ (r = true <-> ra = rb).
Proof.
  intros s k a b n w y Te C D Hk Hd Qa Qb Fl Hu Hn Y. apply first_listed_in in Fl.
  assert (R : fst (equals a (PQ b) (Some n) w) = Ok (holds Eq (round_to (q_val a) n) (round_to y n))).
  { revert s k a b n w y Te C D Hk Hd Qa Qb Fl Hu Hn Y. by_calc gen_equals. }
  eexists. eexists. eexists. split; [exact R|]. split; [apply round_rounded|]. split; [apply round_rounded|]. exact (holds_stands Eq _ _).
Qed.
(** equal quantities are equal with any precision *)
Theorem C60_equals_equal_partial : forall s k a b n w w', tame_eval -> calculating s -> during s w -> during s w' -> In k measured_kinds -> k <> u "Data" -> quantity_of k a -> quantity_of k b ->
  first_listed k (q_unit a) -> ~ In (q_unit a) shipped_uncertain -> (0 <= n)%Z -> fst (compare_ Eq a (PQ b) w') = Ok true -> fst (equals a (PQ b) (Some n) w) = Ok true.
Proof.
  intros s k a b n w w' Te C D D' Hk Hd Qa Qb Fl Hu Hn Eq_. pose proof Qa as (Ka & La & Ua). destruct (C35_expressed s k b (q_unit a) Te C Hk Qb La Ua) as (y & Y).
  destruct (C38_compare_partial s k Eq a b (q_unit a) w' w' w' _ _ Te C Hk Qa Qb La Ua D' D' D' (C35_itself s k a w' Te C Hk Qa D') (Y w' D')) as (e & E1 & E2). rewrite Eq_ in E1. injection E1 as <-.
  pose proof (proj1 E2 eq_refl) as Z. cbn [stands] in Z. destruct (C60_equals_partial s k a b n w y Te C D Hk Hd Qa Qb Fl Hu Hn (Y w D)) as (r & ra & rb & R & V1 & V2 & B). rewrite R. f_equal.
  apply B. rewrite <- Z in V2. exact (rounded_unique _ _ _ _ V1 V2).
Qed.
(** rounding a percentage divides it by 100: round(50 %, 2) is 0.5 % *)
Theorem C60_refuted_percentage : forall s w x, tame_eval -> during s w -> listed_as (u "Percentage") x ->
  fst (round_ (Qty (u "Percentage") x (Q2Qc (1 # 2))) (Some 2%Z) w) = Ok (PQ (Qty (u "Percentage") x (Q2Qc (1 # 200)))).
Proof.
  intros s w x Te D L. assert (R : forall n, fst (round_ (Qty (u "Percentage") x (Q2Qc (1 # 2))) n w) = Ok (PQ (Qty (u "Percentage") x (round_to (Q2Qc (1 # 2)) (match n with Some n => n | None => 0%Z end) / Q2Qc 100)))).
  { intros n. generalize (Q2Qc (1 # 2)). intros p. revert s w x p n Te D L. by_calc gen_round_pct. }
  rewrite R. do 3 f_equal; apply Qc_is_canon; vm_compute; reflexivity.
Qed.
(** equals() without a precision raises *)
Theorem C60_refuted_default : forall s k a b w, tame_eval -> calculating s -> during s w -> In k measured_kinds -> quantity_of k a -> quantity_of k b ->
  fst (equals a (PQ b) None w) = Err TypeError.
Proof. by_calc gen_equals_none. Qed.
(** equals() is not symmetric: 1 m equals 30 inches (0.762 m) to 0 decimals, 30 inches do not equal 1 m (39.37 inches) *)
Lemma first_known : forall x k, In (x, Some k) checked_first -> first_listed (u k) (u x).
Proof. unfold first_listed; exact (gen_first_known cert shipped_db shipped_checked). Qed.
Lemma known_lengths : first_listed (u "Length") (u "m") /\ first_listed (u "Length") (u "inch") /\ ~ In (u "m") shipped_uncertain /\ ~ In (u "inch") shipped_uncertain.
Proof.
  split; [apply first_known; do 9 right; left; reflexivity|]. split; [apply first_known; do 17 right; left; reflexivity|].
  split; intros I; apply smem_In in I; discriminate I.
Qed.
Lemma rounded_one x r (z : Z) : rounded x r 0 -> zq z - Q2Qc (1 # 2) < x -> x < zq z + Q2Qc (1 # 2) -> r = zq z.
Proof.
  intros R L U. refine (rounded_unique x r (zq z) 0 R _). assert (T : ten 0 = 1) by (apply Qc_is_canon; reflexivity).
  exists z. rewrite T, !Qcmult_1_r. split; [reflexivity|]. split; [now apply Qclt_le_weak|]. split; [now apply Qclt_le_weak|].
  intros [Z|Z]; exfalso; rewrite Z in *; [exact (Qclt_not_eq _ _ L eq_refl)|exact (Qclt_not_eq _ _ U eq_refl)].
Qed.
Theorem C60_refuted_symmetric : forall s w, tame_eval -> calculating s -> during s w ->
  let a := Qty (u "Length") (u "m") (Q2Qc 1) in let b := Qty (u "Length") (u "inch") (Q2Qc 30) in
  fst (equals a (PQ b) (Some 0%Z) w) = Ok true /\ fst (equals b (PQ a) (Some 0%Z) w) = Ok false.
Proof.
  intros s w Te C D. cbv zeta. destruct inch_defs as (ds & D1 & X1 & _). destruct length_names as (_ & _ & U3 & _). destruct length_kind as (K1 & K2 & _).
  assert (Nd : u "Length" <> u "Data") by (intros X; discriminate X). destruct known_lengths as (F1 & F2 & N1 & N2).
  assert (U1 : unit_name (u "inch")) by (apply unit_check; vm_compute; reflexivity).
  destruct (defs_known _ _ _ D1 X1) as [L1 L3]. cbn [d_from d_to def] in L1, L3.
  assert (Qm : forall v, quantity_of (u "Length") (Qty (u "Length") (u "m") v)) by (intros v; exact (conj eq_refl (conj L3 U3))).
  assert (Qi : forall v, quantity_of (u "Length") (Qty (u "Length") (u "inch") v)) by (intros v; exact (conj eq_refl (conj L1 U1))).
  assert (V : forall v y, v * Q2Qc (254 # 10000) + Q2Qc 0 = y -> expressed w (Qty (u "Length") (u "inch") v) (u "m") y).
  { intros v y <-. exact (shipped_expressed s (u "Length") ds (def "inch" "m" (254 # 10000)) v w Te C D1 X1 K1 U1 U3 D). }
  pose proof (C35_itself s _ _ w Te C K1 (Qm (Q2Qc 1)) D) as Xm. cbn [q_unit q_val] in Xm.
  split.
  - destruct (C60_equals_partial s _ _ _ 0 w _ Te C D K1 Nd (Qm (Q2Qc 1)) (Qi (Q2Qc 30)) F1 N1 (Z.le_refl 0) (V (Q2Qc 30) (Q2Qc (762 # 1000)) ltac:(apply Qc_is_canon; reflexivity))) as (r & ra & rb & R & V1 & V2 & B).
    rewrite R. f_equal. apply B. cbn [q_val] in V1. rewrite (rounded_one _ _ 1 V1), (rounded_one _ _ 1 V2); [reflexivity| | | |]; vm_compute; reflexivity.
  - destruct (C35_expressed s _ _ (u "inch") Te C K1 (Qm (Q2Qc 1)) L1 U1) as (y & Y). specialize (Y w D).
    assert (Ey : Q2Qc (10000 # 254) = y).
    { destruct (C38_compare_partial s _ Eq _ _ (u "m") w w w _ _ Te C K1 (Qi (Q2Qc (10000 # 254))) (Qm (Q2Qc 1)) L3 U3 D D D (V (Q2Qc (10000 # 254)) (Q2Qc 1) ltac:(apply Qc_is_canon; reflexivity)) Xm) as (e & E1 & B1).
      destruct (C38_compare_partial s _ Eq _ _ (u "inch") w w w _ _ Te C K1 (Qi (Q2Qc (10000 # 254))) (Qm (Q2Qc 1)) L1 U1 D D D (C35_itself s _ _ w Te C K1 (Qi _) D) Y) as (e' & E2 & B2).
      rewrite E1 in E2. injection E2 as <-. apply B2, B1. reflexivity. }
    destruct (C60_equals_partial s _ _ _ 0 w _ Te C D K1 Nd (Qi (Q2Qc 30)) (Qm (Q2Qc 1)) F2 N2 (Z.le_refl 0) Y) as (r & ra & rb & R & V1 & V2 & B).
    rewrite R. f_equal. destruct r; [|reflexivity]. exfalso. pose proof (proj1 B eq_refl) as Z. rewrite <- Ey in V2. cbn [q_val] in V1.
    rewrite (rounded_one _ _ 30 V1), (rounded_one _ _ 39 V2) in Z; try (vm_compute; reflexivity). apply zq_inj in Z. discriminate Z.
Qed.

(** ** C61 *)
(** the first power of a quantity is the quantity; the second is its product with itself *)
Theorem C61_one_partial : forall s k a w, tame_eval -> calculating s -> during s w -> In k measured_kinds -> k <> u "Data" -> quantity_of k a -> plain_base (q_unit a) ->
  first_listed k (q_unit a) -> ~ In (q_unit a) shipped_uncertain -> fst (pow a (PI 1) w) = Ok (PQ a).
Proof.
  intros s k a w Te C D Hk Hd Qa Pa Fl. apply first_listed_in in Fl. revert Fl. revert s k a w Te C D Hk Hd Qa Pa. by_calc gen_pow_one.
Qed.
Theorem C61_square_partial : forall s k a n w w', tame_eval -> calculating s -> during s w -> during s w' -> In k square_kinds -> quantity_of k a -> plain_base (q_unit a) -> ~ In (q_unit a) not_squared ->
  exists r, fst (pow a (PI 2) w) = Ok (PQ r) /\ fst (mul n a (PQ a) w') = Ok (PQ r) /\ q_unit r = (q_unit a ++ u "2")%list /\ q_val r = q_val a * q_val a.
Proof. by_calc gen_pow_two. Qed.
(** any power, if returned *)
Lemma pow_value : forall s k a n w r, tame_eval -> calculating s -> during s w -> In k measured_kinds -> quantity_of k a -> plain_base (q_unit a) -> n <> 0%Z -> n <> 1%Z ->
  fst (pow a (PI n) w) = Ok (PQ r) -> q_unit r = (q_unit a ++ str_of_Z n)%list /\ pow_int (q_val a) n = Ok (q_val r).
Proof. by_calc gen_pow_value. Qed.
Theorem C61_value_partial : forall s k a n w r, tame_eval -> calculating s -> during s w -> In k measured_kinds -> quantity_of k a -> plain_base (q_unit a) -> (2 <= n)%Z ->
  fst (pow a (PI n) w) = Ok (PQ r) -> q_unit r = (q_unit a ++ str_of_Z n)%list /\ q_val r = Qcpower (q_val a) (Z.to_nat n).
Proof.
  intros s k a n w r Te C D Hk Qa Pa Hn R. destruct (pow_value s k a n w r Te C D Hk Qa Pa ltac:(lia) ltac:(lia) R) as (G1 & G2). split; [exact G1|].
  destruct n as [|n|n]; [lia| |lia]. injection G2 as G2. symmetry. exact G2.
Qed.
(** a negative power is the inverse of the positive one, and raises for zero *)
Theorem C61_inverse_partial : forall s k a p w r, tame_eval -> calculating s -> during s w -> In k measured_kinds -> quantity_of k a -> plain_base (q_unit a) ->
  fst (pow a (PI (Zneg p)) w) = Ok (PQ r) -> q_unit r = (q_unit a ++ str_of_Z (Zneg p))%list /\ q_val a <> 0 /\ q_val r * Qcpower (q_val a) (Pos.to_nat p) = 1.
Proof.
  intros s k a n w r Te C D Hk Qa Pa R. destruct (pow_value s k a (Zneg n) w r Te C D Hk Qa Pa ltac:(discriminate) ltac:(discriminate) R) as (G1 & G2). split; [exact G1|].
  cbn [pow_int] in G2. unfold qdiv in G2. destruct (Qc_eq_dec (Qcpower (q_val a) (Pos.to_nat n)) 0) as [Z|Z]; [discriminate G2|]. injection G2 as <-. split.
  - intros X. apply Z. rewrite X. destruct (Pos.to_nat n) eqn:En; [lia|]. cbn [Qcpower]. ring.
  - field. exact Z.
Qed.
(** the power 0 is no Dimensionless quantity *)
Theorem C61_refuted : forall s k a w, tame_eval -> calculating s -> during s w -> In k measured_kinds -> quantity_of k a -> plain_base (q_unit a) ->
  fst (pow a (PI 0) w) = Ok (PQ (Qty (u "UserUnits") (u "Dimensionless") 1)).
Proof. by_calc gen_pow_zero. Qed.

(** ** The hypotheses are met: 2 m and 30 inches, after a conversion and a sum *)
Lemma units2_example_of s : tame_eval -> calculating s -> let a := Qty (u "Length") (u "m") (Q2Qc 2) in let b := Qty (u "Length") (u "inch") (Q2Qc 30) in
  let w := do_acts [DTo a (Some (u "inch")); DAdd a (PQ b)] (world_of s shipped_kinds) in
  during s w /\ (exists r, fst (truediv 0 a (PQ b) w) = Ok (PQ r) /\ q_unit r = u "m/m" /\ q_val r = Q2Qc (2000 # 762))
  /\ (exists r, fst (floordiv 0 a (PQ b) w) = Ok (PQ r) /\ q_unit r = u "m/m" /\ q_val r = Q2Qc 2)
  /\ (exists r, fst (modulo 0 a (PQ b) w) = Ok (PQ r) /\ expressed w r (u "m") (Q2Qc (476 # 1000)))
  /\ (exists r, fst (truediv 0 a (PN (Q2Qc 4)) w) = Ok (PQ r) /\ expressed w r (u "m") (Q2Qc (1 # 2)))
  /\ (exists r, fst (pow a (PI 2) w) = Ok (PQ r) /\ q_unit r = u "m2" /\ q_val r = Q2Qc 4)
  /\ fst (pow a (PI 1) w) = Ok (PQ a).
Proof.
  intros Te C. cbv zeta. set (a := Qty (u "Length") (u "m") (Q2Qc 2)). set (b := Qty (u "Length") (u "inch") (Q2Qc 30)).
  destruct inch_defs as (ds & D1 & X1 & _). destruct length_names as (_ & _ & U3 & _). destruct length_kind as (K1 & K2 & K3 & _).
  assert (Nd : u "Length" <> u "Data") by (intros X; discriminate X). destruct known_lengths as (F1 & F2 & N1 & N2).
  assert (U1 : unit_name (u "inch")) by (apply unit_check; vm_compute; reflexivity). destruct (defs_known _ _ _ D1 X1) as [L1 L3]. cbn [d_from d_to def] in L1, L3.
  assert (G : forall x, ShippedCheck.letters_b x = true -> plain_base x) by exact UnitsFacts3.letters_plain.
  assert (B1 : plain_base (u "m")) by (apply G; vm_compute; reflexivity). assert (B2 : plain_base (u "inch")) by (apply G; vm_compute; reflexivity).
  assert (Nq : ~ In (u "m") not_squared) by (intros I; apply smem_In in I; discriminate I).
  assert (Qa : quantity_of (u "Length") a) by exact (conj eq_refl (conj L3 U3)). assert (Qb : quantity_of (u "Length") b) by exact (conj eq_refl (conj L1 U1)).
  set (l := [DTo a (Some (u "inch")); DAdd a (PQ b)]). set (w := do_acts l _).
  assert (D : during s w) by (exists l; split; [repeat constructor|reflexivity]).
  pose proof (C35_itself s _ a w Te C K1 Qa D) as Xa. cbn [q_unit q_val a] in Xa.
  assert (Xb : expressed w b (u "m") (Q2Qc (762 # 1000))).
  { replace (Q2Qc (762 # 1000)) with (Q2Qc 30 * Q2Qc (254 # 10000) + Q2Qc 0) by (apply Qc_is_canon; reflexivity).
    exact (shipped_expressed s (u "Length") ds (def "inch" "m" (254 # 10000)) (Q2Qc 30) w Te C D1 X1 K1 U1 U3 D). }
  assert (Nz : Q2Qc (762 # 1000) <> 0) by (intros Z; discriminate Z).
  split; [exact D|]. split; [|split; [|split; [|split; [|split]]]].
  - destruct (C37_ratio_partial s _ a b (u "m") 0%nat w w w _ _ Te C K3 Qa Qb B1 B2 L3 U3 D D D Xa Xb Nz) as (r & R1 & R2 & R3). exists r. split; [exact R1|]. split; [exact R2|].
    rewrite R3. apply Qc_is_canon. vm_compute. reflexivity.
  - destruct (C59_quotient_partial s _ a b (u "m") 0%nat w w w _ _ Te C K3 Qa Qb B1 B2 L3 U3 D D D Xa Xb Nz) as (r & z & R1 & R2 & R3 & R4). exists r. split; [exact R1|]. split; [exact R2|].
    rewrite R3. assert (W : whole (Q2Qc 2) (Q2Qc (762 # 1000)) 2) by (left; split; [reflexivity|split; [vm_compute; discriminate|reflexivity]]).
    rewrite (whole_unique _ _ _ _ R4 W). apply Qc_is_canon. vm_compute. reflexivity.
  - destruct (C59_remainder_partial s _ a b (u "m") 0%nat w w w _ _ Te C K1 K2 Nd Qa Qb F1 N1 L3 U3 D D D Xa Xb Nz) as (r & z & R1 & R2 & R3 & R4 & R5). exists r. split; [exact R1|].
    assert (W : whole (Q2Qc 2) (Q2Qc (762 # 1000)) 2) by (left; split; [reflexivity|split; [vm_compute; discriminate|reflexivity]]).
    pose proof (R5 w D) as Z. rewrite (whole_unique _ _ _ _ R4 W) in Z. replace (Q2Qc (476 # 1000)) with (Q2Qc 2 - zq 2 * Q2Qc (762 # 1000)) by (apply Qc_is_canon; vm_compute; reflexivity). exact Z.
  - destruct (C37_divided_partial s _ a 0%nat (Q2Qc 4) (u "m") w w _ Te C K1 K2 Nd Qa F1 N1 L3 U3 D D Xa ltac:(intros Z; discriminate Z)) as (r & R1 & R2 & R3 & R4). exists r. split; [exact R1|].
    replace (Q2Qc (1 # 2)) with (Q2Qc 2 / Q2Qc 4) by (apply Qc_is_canon; vm_compute; reflexivity). exact (R4 w D).
  - destruct (C61_square_partial s _ a 0%nat w w Te C D D K3 Qa B1 Nq) as (r & R1 & R2 & R3 & R4). exists r. split; [exact R1|]. split; [exact R3|]. rewrite R4. apply Qc_is_canon. vm_compute. reflexivity.
  - exact (C61_one_partial s _ a w Te C D K1 Nd Qa B1 F1 N1).
Qed.
End P.
Print Assumptions C37_ratio_partial.
Print Assumptions C37_divided_partial.
Print Assumptions C37_refuted_inverse.
Print Assumptions C37_refuted_ounce.
Print Assumptions C59_remainder_partial.
Print Assumptions C59_smaller_partial.
Print Assumptions C59_quotient_partial.
Print Assumptions C59_division_partial.
Print Assumptions C59_zero_partial.
Print Assumptions C59_zero_quotient_partial.
Print Assumptions C59_zero_number.
Print Assumptions C59_floor_number.
Print Assumptions C59_refuted.
Print Assumptions C60_round_partial.
Print Assumptions C60_default_partial.
Print Assumptions C60_again_partial.
Print Assumptions C60_order_partial.
Print Assumptions C60_method_partial.
Print Assumptions C60_equals_partial.
Print Assumptions C60_equals_equal_partial.
Print Assumptions C60_refuted_percentage.
Print Assumptions C60_refuted_default.
Print Assumptions C60_refuted_symmetric.
Print Assumptions C61_one_partial.
Print Assumptions C61_square_partial.
Print Assumptions C61_value_partial.
Print Assumptions C61_inverse_partial.
Print Assumptions C61_refuted.
Example units2_example := units2_example_of (F := PropsOps.tenths) (P := PropsUnits.demo_pow) (E := PropsUnits.demo_eval) PropsShipped.shipped_start PropsUnits.demo_tame PropsUnits.shipped_start_calculating.
