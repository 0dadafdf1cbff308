(** * Specification: arithmetics that round

    Python's floats and integers, NumPy's floats: every operation, and every
    literal, is the exact one but for a relative error of at most [e] (2^-53
    for floats, as long as no result leaves the range of the normal numbers:
    the range is not modelled). *)
From Coq Require Import String QArith Qcanon Qcabs.
From Verif Require Import Py StrTools Network Conv Converter EngineSpec NumPy Dict Database Shipped ShippedSpec.
Local Open Scope Qc_scope.

(** a product of n relative errors *)
Definition factor (e : Qc) (n : nat) (f : Qc) : Prop := (1 - e) ^ n <= f /\ f * (1 - e) ^ n <= 1.

Section Spec.
Context {V : Type} {A : Arith V}.
(** [val x] is the number that x stands for *)
Record rounding (val : V -> Qc) (e : Qc) : Prop := {
  rd_error : 0 <= e < 1;
  rd_mul : forall x y, exists f, factor e 1 f /\ val (amul x y) = val x * val y * f;
  rd_div : forall x y, val y <> 0 -> exists z f, adiv x y = Ok z /\ factor e 1 f /\ val z = val x / val y * f;
  rd_literal : forall q, exists f, factor e 1 f /\ val (aconst q) = Q2Qc q * f }.

(** ... sums and differences too *)
Record rounding_sums (val : V -> Qc) (e : Qc) : Prop := {
  rs_rounding : rounding val e;
  rs_add : forall x y, exists f, factor e 1 f /\ val (aadd x y) = (val x + val y) * f;
  rs_sub : forall x y, exists f, factor e 1 f /\ val (asub x y) = (val x - val y) * f }.

(** operations that keep the order: rounding never inverts two numbers.  [pos] are the numbers that keep the order when
    multiplied or divided by *)
Record ordered (le : V -> V -> Prop) (pos : V -> Prop) : Prop := {
  or_literal : forall q, (0 < q)%Q -> pos (aconst q);
  or_product : forall x c, pos x -> pos c -> pos (amul x c);
  or_quotient : forall x c z, pos x -> pos c -> adiv x c = Ok z -> pos z;
  or_mul : forall x y c, pos c -> le x y -> le (amul x c) (amul y c);
  or_div : forall x y c x' y', pos c -> le x y -> adiv x c = Ok x' -> adiv y c = Ok y' -> le x' y';
  or_add : forall x y q, le x y -> le (aadd x (aconst q)) (aadd y (aconst q));
  or_sub : forall x y q, le x y -> le (asub x (aconst q)) (asub y (aconst q)) }.

(** ** Sessions of the shipped database with these numbers *)
Definition shipped_numbers (s : st V) : Prop :=
  s_net s = nmap shipped_net /\ s_dict s = shipped_dicts /\ s_es s = None /\ s_mem s = [] /\ s_prev s = [] /\ par_enough (s_par s).
(** any call but those that register units or conversions *)
Definition keeps_tables (c : call V) : Prop :=
  match c with KSetUnit _ | KSetConversion _ _ _ _ => False | KSetPar p => par_enough p | _ => True end.
(** what [convert] returns for a number *)
Definition converted_to (v : V) (f t : str) (uc : option bool) (s : st V) (w : V) : Prop :=
  fst (convert (VNum v) (UStr f) (UStr t) uc s) = Ok (Some (CVal w)).
End Spec.

(** the kinds without offsets and contradictions, but Capacitance (whose F is also Fahrenheit) *)
Definition straight_kinds : list str := filter (fun k => negb (seqb k (u "Capacitance"))) proportional_kinds.
(** the distance between two numbers is at most the part [r] of the second *)
Definition within_part (r x y : Qc) : Prop := Qcabs (x - y) <= r * Qcabs y.
