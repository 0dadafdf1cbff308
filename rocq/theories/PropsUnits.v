(** * Properties of quantities: C35, C36, C37, C38, C39, C40

    [calculating s]: a session of the shipped database, with BFS or the default
    search.  [during s w]: a moment of it, after any calculations.  The operands
    can be computed, converted and combined at different moments. *)
From Coq Require Import String QArith Qcanon.
From Verif Require Import Py StrTools Network SearchSpec Conv Converter EngineSpec ConsistSpec Demo OpsSpec
  Dict Database Shipped Operations ShippedSpec ShippedCert ShippedCheck ShippedFacts ShippedFacts2 Units UnitsSpec PropsShipped ShippedFacts5 UnitsFacts UnitsFacts4 UnitsFacts5.
Local Open Scope Qc_scope.
Local Opaque all_kinds merge_data.

Ltac by_calc L := unfold calculating, during, quantity_of, shipped_session, listed_as, first_listed, unlisted, shipped_net, shipped_dicts, shipped_kinds;
  exact (L cert shipped_db shipped_checked _ _ _).
Section P.
Context {F : Floats} {P : Pow} {E : Eval}.

(** a quantity of a whole, consistent kind can be expressed in any unit of its kind: always the same number *)
Theorem C35_expressed : forall s k a t, tame_eval -> calculating s -> In k measured_kinds -> quantity_of k a -> listed_as k t -> unit_name t ->
  exists x, forall w, during s w -> expressed w a t x.
Proof. by_calc gen_expressed. Qed.
Theorem C35_itself : forall s k a w, tame_eval -> calculating s -> In k measured_kinds -> quantity_of k a -> during s w -> expressed w a (q_unit a) (q_val a).
Proof. by_calc gen_self. Qed.

Theorem shipped_expressed : forall s k ds x v w, tame_eval -> calculating s -> In (k, ds) defs -> In x ds -> In k measured_kinds -> unit_name (d_from x) -> unit_name (d_to x) ->
  during s w -> expressed w (Qty k (d_from x) v) (d_to x) (v * Q2Qc (d_factor x) + Q2Qc (d_offset x)).
Proof. by_calc gen_expressed_def. Qed.

(** ** C35 *)
(** a sum of two quantities of one kind (not a temperature) is returned in the
    unit of the first, and expressed in any unit it is the sum of the two *)
Theorem C35_sum_partial : forall s k a b t w1 w2 w x y, tame_eval -> calculating s -> In k measured_kinds -> k <> u "Temperature" ->
  quantity_of k a -> quantity_of k b -> listed_as k t -> unit_name t -> during s w1 -> during s w2 -> during s w ->
  expressed w1 a t x -> expressed w2 b t y ->
  exists r, fst (add a (PQ b) w) = Ok (PQ r) /\ q_kind r = k /\ q_unit r = q_unit a /\ forall w', during s w' -> expressed w' r t (x + y).
Proof. intros s k a b. exact ((ltac:(by_calc gen_sum) : forall s k sb a b t w1 w2 w x y, tame_eval -> calculating s -> In k measured_kinds -> k <> u "Temperature" ->
  quantity_of k a -> quantity_of k b -> listed_as k t -> unit_name t -> during s w1 -> during s w2 -> during s w ->
  expressed w1 a t x -> expressed w2 b t y ->
  exists r, fst (sum sb a (PQ b) w) = Ok (PQ r) /\ q_kind r = k /\ q_unit r = q_unit a /\ forall w', during s w' -> expressed w' r t (plus sb x y)) s k false a b). Qed.
(** for every proportional kind: if the sum is returned, it is the right one *)
Theorem C35_returned_partial : forall s k a b t w1 w2 w w3 r x y z, tame_eval -> calculating s -> In k proportional_kinds ->
  quantity_of k a -> quantity_of k b -> listed_as k t -> unit_name t -> during s w1 -> during s w2 -> during s w -> during s w3 ->
  fst (add a (PQ b) w) = Ok (PQ r) -> expressed w1 a t x -> expressed w2 b t y -> expressed w3 r t z -> z = x + y.
Proof. by_calc gen_sum_returned. Qed.
Theorem C35_commutative_partial : forall s k a b w w' w'', tame_eval -> calculating s -> In k measured_kinds -> k <> u "Temperature" ->
  quantity_of k a -> quantity_of k b -> during s w -> during s w' -> during s w'' ->
  exists r r', fst (add a (PQ b) w) = Ok (PQ r) /\ fst (add b (PQ a) w') = Ok (PQ r') /\ fst (compare_ Eq r (PQ r') w'') = Ok true.
Proof. by_calc gen_sum_comm. Qed.
Theorem C35_associative_partial : forall s k a b c w1 w2 w3 w4 w5, tame_eval -> calculating s -> In k measured_kinds -> k <> u "Temperature" ->
  quantity_of k a -> quantity_of k b -> quantity_of k c -> during s w1 -> during s w2 -> during s w3 -> during s w4 -> during s w5 ->
  exists ab bc r r', fst (add a (PQ b) w1) = Ok (PQ ab) /\ fst (add ab (PQ c) w2) = Ok (PQ r)
    /\ fst (add b (PQ c) w3) = Ok (PQ bc) /\ fst (add a (PQ bc) w4) = Ok (PQ r') /\ r = r' /\ fst (compare_ Eq r (PQ r') w5) = Ok true.
Proof. by_calc gen_sum_assoc. Qed.
(** temperatures: 0 Celsius + 32 Fahrenheit is 0 Celsius, 32 Fahrenheit + 0 Celsius is 64 Fahrenheit, and they differ *)
Theorem C35_refuted : forall s w1 w2 w3, tame_eval -> calculating s -> during s w1 -> during s w2 -> during s w3 ->
  fst (add (deg "Celsius" 0) (PQ (deg "Fahrenheit" 32)) w1) = Ok (PQ (deg "Celsius" 0))
  /\ fst (add (deg "Fahrenheit" 32) (PQ (deg "Celsius" 0)) w2) = Ok (PQ (deg "Fahrenheit" 64))
  /\ fst (compare_ Eq (deg "Celsius" 0) (PQ (deg "Fahrenheit" 64)) w3) = Ok false.
Proof.
  assert (X : forall s w1 w2 w3 w4 w5 w6, tame_eval -> calculating s -> during s w1 -> during s w2 -> during s w3 -> during s w4 -> during s w5 -> during s w6 -> _) by by_calc gen_temperature.
  intros s w1 w2 w3 Te C D1 D2 D3. destruct (X s w1 w2 w3 w1 w1 w1 Te C D1 D2 D3 D1 D1 D1) as (Y1 & Y2 & Y3 & _). exact (conj Y1 (conj Y2 Y3)).
Qed.

(** ** C36 *)
Theorem C36_difference_partial : forall s k a b t w1 w2 w x y, tame_eval -> calculating s -> In k measured_kinds -> k <> u "Temperature" ->
  quantity_of k a -> quantity_of k b -> listed_as k t -> unit_name t -> during s w1 -> during s w2 -> during s w ->
  expressed w1 a t x -> expressed w2 b t y ->
  exists r, fst (sub a (PQ b) w) = Ok (PQ r) /\ q_kind r = k /\ q_unit r = q_unit a /\ forall w', during s w' -> expressed w' r t (x - y).
Proof. intros s k a b. exact ((ltac:(by_calc gen_sum) : forall s k sb a b t w1 w2 w x y, tame_eval -> calculating s -> In k measured_kinds -> k <> u "Temperature" ->
  quantity_of k a -> quantity_of k b -> listed_as k t -> unit_name t -> during s w1 -> during s w2 -> during s w ->
  expressed w1 a t x -> expressed w2 b t y ->
  exists r, fst (sum sb a (PQ b) w) = Ok (PQ r) /\ q_kind r = k /\ q_unit r = q_unit a /\ forall w', during s w' -> expressed w' r t (plus sb x y)) s k true a b). Qed.
(** a - b is a + (-b), the very same quantity *)
Theorem C36_negation_partial : forall s k a b w1 w2 w3, tame_eval -> calculating s -> In k measured_kinds -> k <> u "Temperature" ->
  quantity_of k a -> quantity_of k b -> during s w1 -> during s w2 -> during s w3 ->
  exists n r, fst (neg b w1) = Ok (PQ n) /\ fst (add a (PQ n) w2) = Ok (PQ r) /\ fst (sub a (PQ b) w3) = Ok (PQ r).
Proof. by_calc gen_sub_neg. Qed.
(** a - b is zero when a and b are the same amount, even in different units (also temperatures) *)
Theorem C36_zero_partial : forall s k a b t w1 w2 w x, tame_eval -> calculating s -> In k measured_kinds -> quantity_of k a -> quantity_of k b ->
  listed_as k t -> unit_name t -> during s w1 -> during s w2 -> during s w -> expressed w1 a t x -> expressed w2 b t x ->
  fst (sub a (PQ b) w) = Ok (PQ (Qty k (q_unit a) 0)).
Proof. by_calc gen_sub_equal. Qed.
(** (a + b) - b is a (also temperatures) *)
Theorem C36_undo_partial : forall s k a b w w', tame_eval -> calculating s -> In k measured_kinds -> quantity_of k a -> quantity_of k b -> during s w -> during s w' ->
  exists r, fst (add a (PQ b) w) = Ok (PQ r) /\ fst (sub r (PQ b) w') = Ok (PQ a).
Proof. by_calc gen_add_sub. Qed.
(** 0 Celsius - 32 Fahrenheit is 0 Celsius, but 0 Celsius + (- 32 Fahrenheit) is -35.5 Celsius *)
Theorem C36_refuted : forall s w1 w2 w3, tame_eval -> calculating s -> during s w1 -> during s w2 -> during s w3 ->
  fst (sub (deg "Celsius" 0) (PQ (deg "Fahrenheit" 32)) w1) = Ok (PQ (deg "Celsius" 0))
  /\ fst (neg (deg "Fahrenheit" 32) w2) = Ok (PQ (deg "Fahrenheit" (-32)))
  /\ fst (add (deg "Celsius" 0) (PQ (deg "Fahrenheit" (-32))) w3) = Ok (PQ (deg "Celsius" (-320 # 9))).
Proof.
  assert (X : forall s w1 w2 w3 w4 w5 w6, tame_eval -> calculating s -> during s w1 -> during s w2 -> during s w3 -> during s w4 -> during s w5 -> during s w6 -> _) by by_calc gen_temperature.
  intros s w1 w2 w3 Te C D1 D2 D3. destruct (X s w1 w1 w1 w1 w2 w3 Te C D1 D1 D1 D1 D2 D3) as (_ & _ & _ & Y). exact Y.
Qed.

(** ** C37 *)
(** The product has the unit of the first factor, squared, and the value of the
    second is the one expressed in that unit; dividing it again returns the first
    factor, exactly (units of letters, but seconds, rods and yards in capitals). *)
Theorem C37_product_partial : forall s k a b n w w' y, tame_eval -> calculating s -> In k square_kinds -> quantity_of k a -> quantity_of k b ->
  plain_base (q_unit a) -> plain_base (q_unit b) -> ~ In (q_unit a) not_squared -> during s w -> during s w' -> expressed w b (q_unit a) y ->
  exists r, fst (mul n a (PQ b) w) = Ok (PQ r) /\ q_unit r = (q_unit a ++ u "2")%list /\ q_val r = q_val a * y
    /\ (q_val b <> 0 -> fst (truediv n r (PQ b) w') = Ok (PQ a)).
Proof. by_calc gen_mul_div. Qed.
(** multiples of a quantity *)
Theorem C37_multiple_partial : forall s k a n v t w1 w w' x, tame_eval -> calculating s -> In k measured_kinds -> k <> u "Temperature" ->
  quantity_of k a -> listed_as k t -> unit_name t -> during s w1 -> during s w -> during s w' -> expressed w1 a t x ->
  exists r, fst (mul n a (PN v) w) = Ok (PQ r) /\ q_kind r = k /\ q_unit r = q_unit a /\ q_val r = q_val a * v /\ expressed w' r t (x * v).
Proof. by_calc gen_times. Qed.
(** a time in seconds cannot be multiplied by another *)
Theorem C37_refuted : forall s n v v', shipped_session s ->
  fst (mul n (Qty (u "Time") (u "s") v) (PQ (Qty (u "Time") (u "s") v')) (world_of s shipped_kinds)) = Err NameError.
Proof. by_calc gen_s2. Qed.

(** ** C38 *)
(** the comparisons of two quantities are those of the two numbers, in any unit
    of their kind: they do not depend on the units, and are a total order *)
Theorem C38_compare_partial : forall s k o a b t w1 w2 w x y, tame_eval -> calculating s -> In k measured_kinds -> quantity_of k a -> quantity_of k b ->
  listed_as k t -> unit_name t -> during s w1 -> during s w2 -> during s w -> expressed w1 a t x -> expressed w2 b t y ->
  exists r, fst (compare_ o a (PQ b) w) = Ok r /\ (r = true <-> stands o x y).
Proof. by_calc gen_compare. Qed.
(** exactly one of <, ==, >; <= and >= are their negations *)
Theorem C38_total_order_partial : forall s k a b w, tame_eval -> calculating s -> In k measured_kinds -> quantity_of k a -> quantity_of k b -> during s w ->
  exists l e, fst (compare_ Lt a (PQ b) w) = Ok l /\ fst (compare_ Eq a (PQ b) w) = Ok e
    /\ fst (compare_ Gt a (PQ b) w) = Ok (negb l && negb e) /\ (l && e = false)%bool
    /\ fst (compare_ Ge a (PQ b) w) = Ok (negb l) /\ fst (compare_ Le a (PQ b) w) = Ok (l || e)%bool /\ fst (compare_ Ne a (PQ b) w) = Ok (negb e)
    /\ fst (compare_ Gt b (PQ a) w) = Ok l.
Proof.
  intros s k a b w Te C Hk Qa Qb D. pose proof Qa as (Ka & La & Ua). 
  destruct (C35_expressed s k a (q_unit a) Te C Hk Qa La Ua) as (x & X). destruct (C35_expressed s k b (q_unit a) Te C Hk Qb La Ua) as (y & Y).
  pose proof (fun o => C38_compare_partial s k o a b (q_unit a) w w w x y Te C Hk Qa Qb La Ua D D D (X w D) (Y w D)) as G.
  destruct (C38_compare_partial s k Gt b a (q_unit a) w w w y x Te C Hk Qb Qa La Ua D D D (Y w D) (X w D)) as (gt' & G' & E').
  destruct (G Lt) as (l & G1 & E1). destruct (G Eq) as (e & G2 & E2). destruct (G Gt) as (gt & G3 & E3). destruct (G Ge) as (ge & G4 & E4).
  destruct (G Le) as (le & G5 & E5). destruct (G Ne) as (ne & G6 & E6). exists l, e. rewrite G1, G2, G3, G4, G5, G6, G'. cbn [stands] in *.
  assert (T : (x < y -> ~ x = y /\ ~ y < x /\ ~ y <= x /\ x <= y) /\ (x = y -> ~ x < y /\ ~ y < x /\ y <= x /\ x <= y) /\ (y < x -> ~ x < y /\ ~ x = y /\ y <= x /\ ~ x <= y)).
  { split; [|split]; intros Z.
    - split; [exact (Qclt_not_eq _ _ Z)|]. split; [intros N; apply Qclt_le_weak in N; exact (Qclt_not_le _ _ Z N)|]. split; [exact (Qclt_not_le _ _ Z)|now apply Qclt_le_weak].
    - subst y. split; [intros N; exact (Qclt_not_eq _ _ N eq_refl)|]. split; [intros N; exact (Qclt_not_eq _ _ N eq_refl)|]. split; apply Qcle_refl.
    - split; [intros N; apply Qclt_le_weak in N; exact (Qclt_not_le _ _ Z N)|]. split; [intros N; exact (Qclt_not_eq _ _ Z (eq_sym N))|]. split; [now apply Qclt_le_weak|exact (Qclt_not_le _ _ Z)]. }
  destruct T as (T1 & T2 & T3).
  assert (B : forall (r : bool) (Q : Prop), (r = true <-> Q) -> Q -> r = true) by (intros r Q R; apply R).
  assert (B' : forall (r : bool) (Q : Prop), (r = true <-> Q) -> ~ Q -> r = false) by (intros r Q R N; destruct r; [exfalso; apply N, R; reflexivity|reflexivity]).
  destruct (Qc_dec x y) as [[Z|Z]|Z].
  - destruct (T1 Z) as (N1 & N2 & N3 & N4).
    rewrite (B l _ E1 Z), (B' e _ E2 N1), (B' gt _ E3 N2), (B' ge _ E4 N3), (B le _ E5 N4), (B ne _ E6 N1), (B gt' _ E' Z). cbn. auto 10.
  - destruct (T3 Z) as (N1 & N2 & N3 & N4).
    rewrite (B' l _ E1 N1), (B' e _ E2 N2), (B gt _ E3 Z), (B ge _ E4 N3), (B' le _ E5 N4), (B ne _ E6 N2), (B' gt' _ E' N1). cbn. auto 10.
  - destruct (T2 Z) as (N1 & N2 & N3 & N4).
    rewrite (B' l _ E1 N1), (B e _ E2 Z), (B' gt _ E3 N2), (B ge _ E4 N3), (B le _ E5 N4), (B' ne _ E6 (fun n => n Z)), (B' gt' _ E' N1). cbn. auto 10.
Qed.
(** the answer does not change when an operand is converted first *)
Theorem C38_converted_partial : forall s k o a b t w1 w2 w3 a', tame_eval -> calculating s -> In k measured_kinds -> quantity_of k a -> quantity_of k b ->
  listed_as k t -> unit_name t -> during s w1 -> during s w2 -> during s w3 -> fst (to a (Some t) w1) = Ok (PQ a') ->
  exists r, fst (compare_ o a (PQ b) w2) = Ok r /\ fst (compare_ o a' (PQ b) w3) = Ok r /\ fst (compare_ o b (PQ a) w2) = fst (compare_ o b (PQ a') w3).
Proof.
  intros s k o a b t w1 w2 w3 a' Te C Hk Qa Qb Lt Ut D1 D2 D3 R. pose proof Qa as (Ka & La & Ua).
  destruct (C35_expressed s k a t Te C Hk Qa Lt Ut) as (x & X). destruct (C35_expressed s k b t Te C Hk Qb Lt Ut) as (y & Y).
  pose proof (X w1 D1) as X1. unfold expressed in X1. rewrite R in X1. injection X1 as ->.
  assert (Qa' : quantity_of k (Qty (q_kind a) t x)) by (split; [exact Ka|split; [exact Lt|exact Ut]]).
  assert (X' : expressed w3 (Qty (q_kind a) t x) t x).
  { exact (C35_itself s k _ w3 Te C Hk Qa' D3). }
  destruct (C38_compare_partial s k o a b t w1 w2 w2 x y Te C Hk Qa Qb Lt Ut D1 D2 D2 (X w1 D1) (Y w2 D2)) as (r & R1 & E1).
  destruct (C38_compare_partial s k o _ b t w3 w2 w3 x y Te C Hk Qa' Qb Lt Ut D3 D2 D3 X' (Y w2 D2)) as (r' & R2 & E2).
  destruct (C38_compare_partial s k o b a t w2 w1 w2 y x Te C Hk Qb Qa Lt Ut D2 D1 D2 (Y w2 D2) (X w1 D1)) as (q & R3 & E3).
  destruct (C38_compare_partial s k o b _ t w2 w3 w3 y x Te C Hk Qb Qa' Lt Ut D2 D3 D3 (Y w2 D2) X') as (q' & R4 & E4).
  assert (r = r') as <- by (destruct r, r'; try reflexivity; [symmetry; apply E2, E1|apply E1, E2]; reflexivity).
  assert (q = q') as <- by (destruct q, q'; try reflexivity; [symmetry; apply E4, E3|apply E3, E4]; reflexivity).
  exists r. rewrite R3, R4. auto.
Qed.
(** user units are compared as numbers, whatever their units *)
Theorem C38_refuted_user : forall s w o v v', tame_eval -> calculating s -> during s w ->
  fst (compare_ o (Qty (u "UserUnits") (u "smoot") v) (PQ (Qty (u "UserUnits") (u "cubit") v')) w) = Ok (holds o v v').
Proof. by_calc gen_user_compare. Qed.
(** a dimensionless quantity without unit name cannot be compared *)
Theorem C38_refuted_bare : forall o v y v' w, fst (compare_ o (Qty (u "Dimensionless") [] v) (PQ (Qty (u "Dimensionless") y v')) w) = Err AttributeError.
Proof. exact bare_compare. Qed.

(** ** C39 *)
(** x percent is x/100 *)
Theorem C39_value : forall s w x v, tame_eval -> during s w -> listed_as (u "Percentage") x ->
  make (u "Percentage") v x w = (Ok (PQ (Qty (u "Percentage") x (v / Q2Qc 100))), w).
Proof. intros s w x v Te D L. revert s w D x L v. revert Te. by_calc gen_pct. Qed.
(** converting to another percent, to a fraction and back *)
Theorem C39_percent : forall s w x p y, tame_eval -> during s w -> listed_as (u "Percentage") y -> y <> [] ->
  to (Qty (u "Percentage") x p) (Some y) w = (Ok (PQ (Qty (u "Percentage") y p)), w).
Proof. intros s w x p y Te D Ly Ny. revert s w D x p y Ly Ny. revert Te. by_calc gen_pct_to. Qed.
Theorem C39_fraction : forall s w x p y, tame_eval -> during s w -> listed_as (u "Percentage") x -> listed_as (u "Dimensionless") y -> ~ listed_as (u "Percentage") y ->
  simple y -> y <> [] ->
  to (Qty (u "Percentage") x p) (Some y) w = (Ok (PQ (Qty (u "Dimensionless") y p)), w)
  /\ to (Qty (u "Dimensionless") y p) (Some x) w = (if seqb x [] then (Ok (PN p), w) else (Ok (PQ (Qty (u "Percentage") x p)), w)).
Proof. intros s w x p y Te D L Ly Np Sy Ny. revert s w D x L p y Ly Np Sy Ny. revert Te. by_calc gen_pct_fraction. Qed.
(** -p, abs(p), p * n, p + n and p - n are percentages of the expected amount *)
Theorem C39_arithmetic_partial : forall s w x p v n, tame_eval -> during s w -> listed_as (u "Percentage") x -> let pct y := Ok (PQ (Qty (u "Percentage") x y)) in
  neg (Qty (u "Percentage") x p) w = (pct (- p), w)
  /\ abs_ (Qty (u "Percentage") x p) w = (pct (if Qclt_le_dec p 0 then - p else p), w)
  /\ mul n (Qty (u "Percentage") x p) (PN v) w = (pct (p * v), w)
  /\ add (Qty (u "Percentage") x p) (PN v) w = (pct (p + v), w)
  /\ sub (Qty (u "Percentage") x p) (PN v) w = (pct (p - v), w).
Proof.
  intros s w x p v n Te D L. split; [|split; [|split]].
  - revert s w D x L p. revert Te. by_calc gen_pct_neg.
  - revert s w D x L p. revert Te. by_calc gen_pct_abs.
  - revert s w D x L n p v. revert Te. by_calc gen_pct_times.
  - revert s w D x L p v. revert Te. by_calc gen_pct_plus.
Qed.
(** but p + q and p - q are a hundredth of what they should be *)
Theorem C39_refuted : forall s w x p q, tame_eval -> during s w -> listed_as (u "Percentage") x ->
  add (Qty (u "Percentage") x p) (PQ (Qty (u "Percentage") x q)) w = (Ok (PQ (Qty (u "Percentage") x ((p + q) / Q2Qc 100))), w)
  /\ sub (Qty (u "Percentage") x p) (PQ (Qty (u "Percentage") x q)) w = (Ok (PQ (Qty (u "Percentage") x ((p - q) / Q2Qc 100))), w).
Proof. intros s w x p q Te D L. revert s w D x L p q. revert Te. by_calc gen_pct_sum. Qed.

(** ** C40 *)
(** the unit is stripped, and is the one of the first kind that lists it *)
Theorem C40_listed_partial : forall s w x y v k, tame_eval -> calculating s -> during s w -> strip x = y -> simple y -> ~ In y shipped_uncertain ->
  first_listed k y -> In k classes -> k <> u "Data" \/ ~ user_named y w ->
  units (PN v) (AUnitStr x) false w = (Ok (Qty k y (if seqb k (u "Percentage") then v / Q2Qc 100 else v)), w).
Proof.
  intros s w x y v k Te C D Ey Hy Nu Fl Hk Hd.
  assert (Fk : first_in (merge_data (db_kinds shipped_db)) y = Some k). { revert Fl. unfold first_listed. exact (first_in_spec shipped_db y k). }
  clear Fl.
  revert s C w D x y v Ey Hy k Nu Fk Hk Hd. revert Te. by_calc gen_units.
Qed.
(** a new name is a user unit from then on *)
Theorem C40_new_partial : forall s w x y v, tame_eval -> calculating s -> during s w -> strip x = y -> simple y -> strip y = y -> ~ In y shipped_uncertain -> unlisted y ->
  quotable_name y -> exists w', units (PN v) (AUnitStr x) false w = (Ok (Qty (u "UserUnits") y v), w') /\ user_named y w'.
Proof.
  intros s w x y v Te C D Ey Hy Es Nu Fl Hq.
  assert (Fk : first_in (merge_data (db_kinds shipped_db)) y = None). { revert Fl. unfold unlisted. exact (first_in_none shipped_db y). }
  clear Fl.
  symmetry in Es. revert s C w D x y v Ey Hy Nu Fk Hq Es. revert Te. by_calc gen_units_new.
Qed.
(** names of no class, dates, quantities with a name of their own, ounces, numbers without unit; the copy of a percentage *)
Theorem C40_refuted : forall s w v, tame_eval -> calculating s -> during s w ->
  (~ user_named (u "s2") w -> fst (units (PN v) (AUnitStr (u "s2")) false w) = Err NameError)
  /\ fst (units (PN v) (AUnitStr (u "date")) false w) = Err ValueError
  /\ fst (units (PN v) (AUnitStr (u "m")) true w) = Err TypeError
  /\ (listed_as (u "Volume") (u "oz") /\ units (PN v) (AUnitStr (u "oz")) false w = (Ok (Qty (u "Unit") (u "oz") v), w))
  /\ (exists w', units (PN v) ANoUnit false w = (Ok (Qty (u "UserUnits") (u "Dimensionless") v), w'))
  /\ units (PQ (Qty (u "Percentage") (u "%") v)) ANoUnit false w = (Ok (Qty (u "Percentage") (u "%") (v / Q2Qc 100)), w).
Proof. by_calc gen_units_wrong. Qed.
(** a doubled backslash is halved when the user unit is used again *)
Theorem C40_refuted_backslash : forall s w v v', tame_eval -> calculating s -> during s w -> let y := u "a\\b" in ~ user_named y w ->
  exists w', units (PN v) (AUnitStr y) false w = (Ok (Qty (u "UserUnits") y v), w')
    /\ fst (units (PN v') (AUnitStr y) false w') = Ok (Qty (u "UserUnits") (u "a\b") v').
Proof. by_calc gen_backslash. Qed.
(** UserUnits(v, 'bit') changes what units(v', 'bit') is *)
Theorem C40_refuted_data : forall s v v', calculating s ->
  fst (units (PN v') (AUnitStr (u "bit")) false (world_of s shipped_kinds)) = Ok (Qty (u "Data") (u "bit") v')
  /\ fst (units (PN v') (AUnitStr (u "bit")) false (do_act (DMake (u "UserUnits") (Some v) (u "bit")) (world_of s shipped_kinds))) = Ok (Qty (u "UserUnits") (u "bit") v').
Proof. by_calc gen_bit. Qed.

(** ** The hypotheses are met *)
Lemma mile_defs : exists ds, In (u "Length", ds) defs /\ In (def "mile" "m" (1609344 # 1000)) ds /\ In (def "foot" "m" (3048 # 10000)) ds.
Proof. eexists. split; [right; right; left; reflexivity|]. split; [do 6 right; left; reflexivity|right; left; reflexivity]. Qed.
Lemma length_names : unit_name (u "mile") /\ unit_name (u "foot") /\ unit_name (u "m") /\ plain_base (u "mile") /\ plain_base (u "foot").
Proof.
  assert (G : forall x, ShippedCheck.letters_b x = true -> plain_base x) by exact UnitsFacts3.letters_plain.
  split; [|split; [|split; [|split]]]; first [apply G; vm_compute; reflexivity|apply unit_check; vm_compute; reflexivity].
Qed.
Lemma length_kind : In (u "Length") measured_kinds /\ u "Length" <> u "Temperature" /\ In (u "Length") square_kinds /\ ~ In (u "mile") not_squared.
Proof.
  split; [|split; [|split]]; [do 3 right; left; reflexivity|intros X; discriminate X|right; left; reflexivity|intros I; apply smem_In in I; discriminate I].
Qed.
(** 2 miles and 5 feet, after a conversion and a sum *)
Lemma units_example_of s : tame_eval -> calculating s -> let a := Qty (u "Length") (u "mile") (Q2Qc 2) in let b := Qty (u "Length") (u "foot") (Q2Qc 5) in
  let w := do_acts [DTo a (Some (u "m")); DAdd a (PQ b)] (world_of s shipped_kinds) in
  during s w /\ quantity_of (u "Length") a /\ quantity_of (u "Length") b /\ listed_as (u "Length") (u "m")
  /\ expressed w a (u "m") (Q2Qc (3218688 # 1000)) /\ expressed w b (u "m") (Q2Qc (1524 # 1000))
  /\ (exists r, fst (add a (PQ b) w) = Ok (PQ r) /\ q_unit r = u "mile" /\ expressed w r (u "m") (Q2Qc (3220212 # 1000)))
  /\ fst (compare_ Lt b (PQ a) w) = Ok true
  /\ (exists r, fst (mul 0 a (PQ b) w) = Ok (PQ r) /\ q_unit r = u "mile2" /\ fst (truediv 0 r (PQ b) w) = Ok (PQ a)).
Proof.
  intros Te C. cbv zeta. set (a := Qty (u "Length") (u "mile") (Q2Qc 2)). set (b := Qty (u "Length") (u "foot") (Q2Qc 5)).
  destruct mile_defs as (ds & D1 & X1 & X2). destruct length_names as (U1 & U2 & U3 & B1 & B2). destruct length_kind as (K1 & K2 & K3 & K4).
  destruct (defs_known _ _ _ D1 X1) as [L1 L3]. destruct (defs_known _ _ _ D1 X2) as [L2 _]. cbn [d_from d_to def] in L1, L2, L3.
  assert (Qa : quantity_of (u "Length") a) by exact (conj eq_refl (conj L1 U1)). assert (Qb : quantity_of (u "Length") b) by exact (conj eq_refl (conj L2 U2)).
  set (l := [DTo a (Some (u "m")); DAdd a (PQ b)]). set (w := do_acts l _).
  assert (D : during s w) by (exists l; split; [repeat constructor|reflexivity]).
  assert (V : forall x p v y, In (Def x (u "m") p 0) ds -> listed_as (u "Length") x -> unit_name x -> Q2Qc v * Q2Qc p + Q2Qc 0 = Q2Qc y -> expressed w (Qty (u "Length") x (Q2Qc v)) (u "m") (Q2Qc y)).
  { intros x p v y Ix Lx Ux E0. destruct (C35_expressed s (u "Length") (Qty (u "Length") x (Q2Qc v)) (u "m") Te C K1 (conj eq_refl (conj Lx Ux)) L3 U3) as (z & Z).
    rewrite <- E0. exact (shipped_expressed s (u "Length") ds (Def x (u "m") p 0) (Q2Qc v) w Te C D1 Ix K1 Ux U3 D). }
  pose proof (V (u "mile") (1609344 # 1000)%Q 2%Q (3218688 # 1000)%Q X1 L1 U1 ltac:(apply Qc_is_canon; reflexivity)) as Va.
  pose proof (V (u "foot") (3048 # 10000)%Q 5%Q (1524 # 1000)%Q X2 L2 U2 ltac:(apply Qc_is_canon; reflexivity)) as Vb.
  split; [exact D|]. split; [exact Qa|]. split; [exact Qb|]. split; [exact L3|]. split; [exact Va|]. split; [exact Vb|]. split; [|split].
  - destruct (C35_sum_partial s _ a b (u "m") w w w _ _ Te C K1 K2 Qa Qb L3 U3 D D D Va Vb) as (r & R1 & _ & R2 & R3). exists r. split; [exact R1|]. split; [exact R2|].
    replace (Q2Qc (3220212 # 1000)) with (Q2Qc (3218688 # 1000) + Q2Qc (1524 # 1000)) by (apply Qc_is_canon; reflexivity). exact (R3 w D).
  - destruct (C38_compare_partial s _ Lt b a (u "m") w w w _ _ Te C K1 Qb Qa L3 U3 D D D Vb Va) as (r & R & E0). rewrite R. f_equal. apply E0. reflexivity.
  - destruct (C35_expressed s _ b (u "mile") Te C K1 Qb L1 U1) as (y & Y).
    destruct (C37_product_partial s _ a b 0%nat w w y Te C K3 Qa Qb B1 B2 K4 D D (Y w D)) as (r & R1 & R2 & _ & R3). exists r. split; [exact R1|]. split; [exact R2|].
    apply R3. discriminate.
Qed.
End P.
Print Assumptions C35_expressed.
Print Assumptions C35_itself.
Print Assumptions shipped_expressed.
Print Assumptions C35_sum_partial.
Print Assumptions C35_returned_partial.
Print Assumptions C35_commutative_partial.
Print Assumptions C35_associative_partial.
Print Assumptions C35_refuted.
Print Assumptions C36_difference_partial.
Print Assumptions C36_negation_partial.
Print Assumptions C36_zero_partial.
Print Assumptions C36_undo_partial.
Print Assumptions C36_refuted.
Print Assumptions C37_product_partial.
Print Assumptions C37_multiple_partial.
Print Assumptions C37_refuted.
Print Assumptions C38_compare_partial.
Print Assumptions C38_total_order_partial.
Print Assumptions C38_converted_partial.
Print Assumptions C38_refuted_user.
Print Assumptions C38_refuted_bare.
Print Assumptions C39_value.
Print Assumptions C39_percent.
Print Assumptions C39_fraction.
Print Assumptions C39_arithmetic_partial.
Print Assumptions C39_refuted.
Print Assumptions C40_listed_partial.
Print Assumptions C40_new_partial.
Print Assumptions C40_refuted.
Print Assumptions C40_refuted_backslash.
Print Assumptions C40_refuted_data.
(** with the floats of PropsOps.v, and [eval] raising for odd names *)
#[local] Instance demo_pow : Pow (F := PropsOps.tenths) := { pow_flt _ _ := Err TypeError; pow_any _ _ := Err TypeError; significant v _ := v }.
#[local] Instance demo_eval : Eval := fun _ _ => wraise ValueError.
Lemma demo_tame : tame_eval (E := demo_eval).
Proof. intros k x w. exists []. left. reflexivity. Qed.
Lemma shipped_start_positive b : fv_of shipped_start = Ok b -> 0 < b.
Proof. change (Err NoFVFError = Ok b -> 0 < b). discriminate. Qed.
Lemma shipped_start_calculating : calculating shipped_start.
Proof. exact (conj shipped_start_session (conj (proj1 shipped_start_searches) shipped_start_positive)). Qed.
Example units_example := units_example_of (F := PropsOps.tenths) (P := demo_pow) (E := demo_eval) shipped_start demo_tame shipped_start_calculating.
