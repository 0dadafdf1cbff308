(** * Conversion functions stored on the edges

    database.py stores Python lambdas; every shipped one is a composition of
    the constructors below.  The arithmetic of the values is a parameter:
    theorems over [Arith V] hold for floats, ints, NumPy arrays..., those over
    [Qc] are about exact arithmetic. *)
From Coq Require Import String QArith Qcanon.
From Verif Require Import Py Network.

(** The Python operators applied to values; division may raise. *)
Class Arith (V : Type) := {
  aadd : V -> V -> V;
  asub : V -> V -> V;
  amul : V -> V -> V;
  adiv : V -> V -> res V;
  aconst : Q -> V          (* a numeric literal of the source *)
}.

(** Exact rational arithmetic; dividing by zero raises ZeroDivisionError. *)
(** Python [x / y] in exact arithmetic (a simplification: floats are rounded) *)
Definition qdiv (x y : Qc) : res Qc :=
  if Qc_eq_dec y 0 then Err ZeroDivisionError else Ok (Qcdiv x y).
(** the arithmetic of the theorems about values (a simplification: floats are rounded) *)
Global Instance exact_arith : Arith Qc := {
  aadd := Qcplus; asub := Qcminus; amul := Qcmult; adiv := qdiv; aconst := Q2Qc }.

Section Conv.
Context {V : Type} {A : Arith V}.

Inductive conv :=
| CId                       (* lambda x: x *)
| CMul (q : Q)              (* x * q *)
| CDiv (q : Q)              (* x / q *)
| CAdd (q : Q)              (* x + q *)
| CSub (q : Q)              (* x - q *)
| CInto (q : Q)             (* q / x *)
| CFvfDiv                   (* x / network.get_fvf() *)
| CFvfMul                   (* x * network.get_fvf() *)
| CThen (c1 c2 : conv)      (* c2(c1(x)) *)
| CRev (c : conv)           (* lambda x: x / c(1): network.py:226, custom.py:54, database.py:566 *)
| CUser (f : V -> res V).   (* a function given by the user to set_conversion *)

(** [fv] is what [network.get_fvf()] does at the moment of the call. *)
(** the call of the lambda, database.py:100-590, network.py:127, 143 *)
Fixpoint ceval (fv : res V) (c : conv) (x : V) : res V :=
  match c with
  | CId => Ok x
  | CMul q => Ok (amul x (aconst q))
  | CDiv q => adiv x (aconst q)
  | CAdd q => Ok (aadd x (aconst q))
  | CSub q => Ok (asub x (aconst q))
  | CInto q => adiv (aconst q) x
  | CFvfDiv => rbind fv (fun b => adiv x b)
  | CFvfMul => rbind fv (fun b => Ok (amul x b))
  | CThen c1 c2 => rbind (ceval fv c1 x) (ceval fv c2)
  | CRev c => rbind (ceval fv c (aconst 1)) (fun k => adiv x k)
  | CUser f => f x
  end.

(** network.py:224-228 [Conversion.get_convert] (for a conversion that is not None) *)
Definition get_convert (c : conv) (reverse : bool) : conv := if reverse then CRev c else c.

(** units/custom.py:53-54, 72-79: set_conversion with an optional reverse function *)
Definition api_set_conversion (g : net conv) (a b : str) (f : V -> res V) (r : option (V -> res V)) : res (net conv) :=
  set_conversion g a b (CUser f) (match r with Some h => CUser h | None => CRev (CUser f) end).
End Conv.
Arguments conv V : clear implicits.
