(** * Quantities of arrays: the operators * and / with the laws between the kinds

    [Voltage([1, 2], 'V') * Current([3, 4], 'A')] is a product (ArrMul.v) that is then converted to Watt. *)
From Coq Require Import String QArith Qcanon ZArith.
From Verif Require Import Py StrTools Network Conv Converter NumPy Database Shipped Operations Units ArrQty ArrMul.
Local Open Scope N_scope.

Section ArrLaw.
Context {F : Floats} {V : Type} {A : Arith V} (ediv : V -> V -> V) (cls : str -> list str) (named : str -> res (str * str)) (pw : V -> pnum F -> res V).
Local Instance law_arith : Arith (npv V) := np_arith ediv.
Local Open Scope m_scope.
(** [q.to(x)] of any kind, [x] not empty and without spaces around it: unitless.py:32-49; unit_class.py:127-146, user units (custom.py:30-41)
    included, which .to leaves as they are when there is no conversion *)
Definition ato_any (x : str) (q : aqty V) : M (npv V) (aqty V) :=
  let v := a_val q in
  if kindless_ (a_kind q) then lift (
    if smem x (cls (u "Percentage")) then rbind (nd_bin b_mul v (Num (aconst 100))) (fun v => amakep ediv cls (u "Percentage") v x)
    else if smem x (cls (u "Dimensionless")) then amake cls (u "Dimensionless") v x
    else aunits ediv named v x)
  else
    c <- convertible (a_unit q) x None ;;
    if c then
      v <- aconv ediv WrongValueError v (a_unit q) x ;;
      lift (if is_k (a_kind q) "Unit" then aunits ediv named v x else if is_k (a_kind q) "UserUnits" then Ok (AQ (a_kind q) x v) else amake cls (a_kind q) v x)
    else if is_k (a_kind q) "UserUnits" then ret q else raise WrongUnitsError.
(** [super().__mul__(other).to(x)], energy.py:50 and alike, time.py:31 *)
Definition athen (m : M (npv V) (aqty V)) (x : option str) : M (npv V) (aqty V) := match x with None => m | Some x => q <- m ;; ato_any x q end.
(** [a * b]: unit_class.py:202-224 with the overrides of energy.py:48-52, 73-77, 90-96, 117-121, 145-149 and time.py:28-33 *)
Definition atimes (a b : aqty V) : M (npv V) (aqty V) := athen (amul_qty ediv cls named pw a b) (product_unit (a_kind a) (a_kind b)).
(** [a / b]: unit_class.py:334-353 with the overrides of energy.py:29-35, 54-60, 98-104, 162-166 *)
Definition adivided (a b : aqty V) : M (npv V) (aqty V) := athen (adiv_qty ediv cls named pw (b_div ediv) true a b) (quotient_unit (a_kind a) (a_kind b)).
End ArrLaw.
