(** * C80: conversions of temperatures, with numbers that round

    Between degrees the conversions add and subtract: next to the result
    itself, what is lost is a part of the offsets.  A degree converted with
    floats is within one part in 10^11 of the exact answer and of 1600 degrees,
    together. *)
From Coq Require Import String QArith Qcanon Qcabs Qround Qpower Lqa.
From Verif Require Import Py StrTools Network SearchSpec Conv Converter EngineSpec ConsistSpec RegionSpec NumPy Demo
  Dict Database Shipped ShippedSpec ShippedCert ShippedCheck RoundSpec RoundCheck RoundFacts ShippedFacts ShippedFacts2 ShippedFacts3 ShippedFacts4 RoundFacts2 RoundFacts3
  PropsShipped PropsRound.
Local Open Scope Qc_scope.

(** [x] is within the part [r] of [y] and of [o] degrees *)
Definition within_degrees (r o x y : Qc) : Prop := Qcabs (x - y) <= r * (Qcabs y + o).

(** ** The same conversion with exact numbers and with numbers that round *)
Theorem C80_temperatures_partial : forall (V : Type) (A : Arith V) (val : V -> Qc) (e d : Qc), rounding_sums val e -> Q2Qc 37800 * e <= d -> d + d <= 1 ->
  forall (s : st V) l v w s0 l0 w0 f t uc uc0, shipped_numbers s -> Forall keeps_tables l ->
  shipped_session s0 -> Forall keeps l0 -> (forall y, fv_of (do_calls l0 s0) = Ok y -> y <> 0) ->
  listed_as (u "Temperature") f -> listed_as (u "Temperature") t -> unit_name f -> unit_name t ->
  converted_to v f t uc (do_calls l s) w -> fst (convert (VNum (val v)) (UStr f) (UStr t) uc0 (do_calls l0 s0)) = Ok (Some (CVal w0)) ->
  within_degrees (d + d) (Q2Qc 1600) (val w) w0.
Proof. unfold within_degrees. by_round gen_degrees. Qed.
Print Assumptions C80_temperatures_partial.

(** floats *)
Theorem C80_temperatures_floats_partial : forall (V : Type) (A : Arith V) (val : V -> Qc) (e : Qc), rounding_sums val e -> e <= float_error ->
  forall (s : st V) l v w s0 l0 w0 f t uc uc0, shipped_numbers s -> Forall keeps_tables l ->
  shipped_session s0 -> Forall keeps l0 -> (forall y, fv_of (do_calls l0 s0) = Ok y -> y <> 0) ->
  listed_as (u "Temperature") f -> listed_as (u "Temperature") t -> unit_name f -> unit_name t ->
  converted_to v f t uc (do_calls l s) w -> fst (convert (VNum (val v)) (UStr f) (UStr t) uc0 (do_calls l0 s0)) = Ok (Some (CVal w0)) ->
  within_degrees e11 (Q2Qc 1600) (val w) w0.
Proof.
  intros V A val e HR He s l v w s0 l0 w0 f t uc uc0 S K S0 K0 Hv0 Lf Lt Hf Ht Hw Hw0.
  replace e11 with (two_e12 + two_e12) by (apply Qc_is_canon; reflexivity).
  refine (C80_temperatures_partial V A val e two_e12 HR (floats_enough e He) _ s l v w s0 l0 w0 f t uc uc0 S K S0 K0 Hv0 Lf Lt Hf Ht Hw Hw0).
  vm_compute. discriminate.
Qed.
Print Assumptions C80_temperatures_floats_partial.

(** ** A number is returned *)
Theorem C80_temperatures_returned_partial : forall (V : Type) (A : Arith V) (val : V -> Qc) (e : Qc), rounding_sums val e ->
  forall (s : st V) l v f t uc, shipped_numbers s -> (p_algo (s_par s) = u "BFS" \/ p_algo (s_par s) = u "lean_BFS") /\ (12 <= p_max_gen (s_par s))%Z ->
  Forall converts l -> listed_as (u "Temperature") f -> listed_as (u "Temperature") t -> unit_name f -> unit_name t ->
  exists w, converted_to v f t uc (do_calls l s) w.
Proof. by_round gen_degrees_number. Qed.
Print Assumptions C80_temperatures_returned_partial.

(** ** The definitions of the degrees, with floats *)
Lemma start_again : exists s0 : st Qc, shipped_session s0 /\ searches (s_par s0) /\ (forall b, fv_of s0 = Ok b -> b <> 0).
Proof. exact (ex_intro _ shipped_start (conj shipped_start_session (conj (proj1 shipped_start_searches) shipped_start_fvf))). Qed.
Lemma temperature_whole : In (u "Temperature") whole_kinds.
Proof. apply smem_In. vm_compute. reflexivity. Qed.
Theorem C80_degrees_partial : forall (V : Type) (A : Arith V) (val : V -> Qc) (e : Qc), rounding_sums val e -> e <= float_error ->
  forall ds x (s : st V) l v w uc, In (u "Temperature", ds) defs -> In x ds -> shipped_numbers s -> Forall keeps_tables l ->
  unit_name (d_from x) -> unit_name (d_to x) -> converted_to v (d_from x) (d_to x) uc (do_calls l s) w ->
  within_degrees e11 (Q2Qc 1600) (val w) (val v * Q2Qc (d_factor x) + Q2Qc (d_offset x)).
Proof.
  intros V A val e HR He ds x s l v w uc Hk Hx S K Hf Ht Hw. destruct (defs_known _ ds x Hk Hx) as [Lf Lt]. destruct start_again as (s0 & S0 & P0 & V0).
  exact (C80_temperatures_floats_partial V A val e HR He s l v w s0 [] _ _ _ uc None S K S0 (Forall_nil _) V0 Lf Lt Hf Ht Hw
    (C52_definitions_returned_partial _ ds x s0 [] (val v) None Hk Hx temperature_whole S0 P0 (Forall_nil _) V0)).
Qed.
Print Assumptions C80_degrees_partial.

(** ** Examples: numbers rounded to 53 bits *)
Example C80_example_sums : rounding_sums (A:=rounded_arith) (fun x => x) float_error.
Proof. split; [exact C80_example_rounding| |]; intros x y; cbn [aadd asub rounded_arith]; apply rnd_near. Qed.
Lemma degrees_example_of (s : st Qc) : shipped_numbers s -> (p_algo (s_par s) = u "BFS" \/ p_algo (s_par s) = u "lean_BFS") /\ (12 <= p_max_gen (s_par s))%Z ->
  exists w, converted_to (A:=rounded_arith) (Q2Qc 25) (u "Celsius") (u "Kelvin") None s w /\ within_degrees e11 (Q2Qc 1600) w (Q2Qc (29815 # 100)).
Proof.
  intros S Hs. destruct shipped_example_defs as (ds1 & _ & D1 & X1 & _). destruct celsius_names as (N1 & N2 & _).
  destruct (defs_known _ _ _ D1 X1) as [Lf Lt].
  destruct (C80_temperatures_returned_partial Qc rounded_arith (fun x => x) float_error C80_example_sums s [] (Q2Qc 25) (u "Celsius") (u "Kelvin") None S Hs (Forall_nil _)
    Lf Lt N1 N2) as (w & Hw). exists w. split; [exact Hw|].
  pose proof (C80_degrees_partial Qc rounded_arith (fun x => x) float_error C80_example_sums ltac:(vm_compute; discriminate)
    ds1 _ s [] (Q2Qc 25) w None D1 X1 S (Forall_nil _) N1 N2 Hw) as P. cbn [d_factor d_offset] in P.
  replace (Q2Qc (29815 # 100)) with (Q2Qc 25 * Q2Qc 1 + Q2Qc (27315 # 100)) by (apply Qc_is_canon; reflexivity). exact P.
Qed.
Example C80_example_degrees :
  exists w, converted_to (A:=rounded_arith) (Q2Qc 25) (u "Celsius") (u "Kelvin") None rounded_start w /\ within_degrees e11 (Q2Qc 1600) w (Q2Qc (29815 # 100)).
Proof. exact (degrees_example_of rounded_start rounded_start_session rounded_start_searches). Qed.
