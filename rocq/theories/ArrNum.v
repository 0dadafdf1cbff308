(** * Quantities of arrays with numbers: +, -, *, /, //, %, @, **, round; comparisons

    [Length([1, 2, 3], 'm') / 2], [2 / Length([1, 2], 'm')], [Length([1, 2], 'm') ** 2],
    [Length([1.25, 2.5], 'm').round(1)], on the values of ArrQty.v.  What is made of the other kinds' units
    is decided by [named] (ArrMul.v). *)
From Coq Require Import String QArith Qcanon ZArith.
From Verif Require Import Py StrTools Network Conv Converter NumPy Database Shipped Operations Units ArrQty ArrMul.
Local Open Scope N_scope.

Section ArrNum.
Context {F : Floats} {V : Type} {A : Arith V} (ediv : V -> V -> V) (cls : str -> list str) (named : str -> res (str * str)).
Local Instance num_arith : Arith (npv V) := np_arith ediv.

(** a function of one number: what Python does with a number, what NumPy does with an element *)
Record fun1 := Fun1 { on_number : V -> res V; on_element : V -> V }.
(** NumPy: on a number or on an array (model plumbing for unit_class.py:266-276, 545-546, 605-624) *)
Definition nd_each (f : fun1) (v : npv V) : res (npv V) :=
  match v with Num x => rbind (on_number f x) (fun y => Ok (Num y)) | Arr b l => Ok (Arr b (map (on_element f) l)) end.

(** with a number, the kind kept: unit_class.py:190-193 (+), 230-233 ( * ), 320-323 (-), 407-410 (//), 446-449 (@), 477-480 (%) *)
Definition awith (o : binop V) (q : aqty V) (n : V) : res (aqty V) :=
  rbind (nd_bin o (a_val q) (Num n)) (fun v => if is_k (a_kind q) "Percentage" then apercent ediv cls v (a_kind q) (a_unit q) else amake cls (a_kind q) v (a_unit q)).
(** unit_class.py:359-362: over a number; the kind is looked up again *)
Definition aover (q : aqty V) (n : V) : res (aqty V) :=
  rbind (nd_bin (b_div ediv) (a_val q) (Num n)) (fun v => if is_k (a_kind q) "Percentage" then apercent ediv cls v (a_kind q) (a_unit q) else aunits ediv named v (a_unit q)).
(** unit_class.py:368-378, 414-424: a number over a quantity, with [/] or [//] *)
Definition aunder (o : binop V) (n : V) (q : aqty V) : res (aqty V) :=
  rbind (nd_bin o (Num n) (a_val q)) (fun v =>
    if is_k (a_kind q) "Percentage" then rbind (nd_bin b_mul v (Num (aconst 100))) (fun v => aunits ediv named v (a_unit q))
    else aunits ediv named v (if is_k (a_kind q) "Dimensionless" then a_unit q else a_unit q ++ u "-1")).
(** unit_class.py:264-276: to the power of a number; [f] is [fun x => x ** p] *)
Definition apow (f : fun1) (p : pnum F) (q : aqty V) : res (aqty V) :=
  if is_k (a_kind q) "Percentage" then rbind (nd_each f (a_val q)) (fun v => apercent ediv cls v (a_kind q) (a_unit q))
  else rbind (unit_base_power (a_unit q)) (fun b => rbind (nd_each f (a_val q)) (fun v =>
    let n := p_mul (snd b) p in
    aunits ediv named v (if p_eqZ n 0 then u "Dimensionless" else if p_eqZ n 1 then fst b else fst b ++ p_str n))).
(** unit_class.py:605-624 [q.round(n)]; [f] is the rounding of one number *)
Definition around (f : fun1) (q : aqty V) : res (aqty V) := rbind (nd_each f (a_val q)) (fun v => aunits ediv named v (a_unit q)).
(** unit_class.py:545-546 [round(q, n)] *)
Definition around_ (f : fun1) (q : aqty V) : res (aqty V) := rbind (nd_each f (a_val q)) (fun v => amakep ediv cls (a_kind q) v (a_unit q)).

Local Open Scope m_scope.
(** unitless.py:32-46 [q.convert(x).value] of a pure number or a percentage; to the empty name it is the number itself, without attributes *)
Definition aunitless (v : npv V) (x : str) : res (npv V) :=
  if seqb x [] then Err AttributeError
  else if smem x (cls (u "Percentage")) then rbind (nd_bin b_mul v (Num (aconst 100))) (fun v => nd_bin (b_div ediv) v (Num (aconst 100)))
  else if smem x (cls (u "Dimensionless")) then Ok v
  else rbind (named x) (fun kx => if is_k (fst kx) "Percentage" then nd_bin (b_div ediv) v (Num (aconst 100)) else Ok v).
(** unit_class.py:485-537: two quantities of any kinds *)
Definition acmp (op : V -> V -> bool) (a b : aqty V) : M (npv V) truths :=
  if seqb (a_kind a) (a_kind b) then
    if kindless_ (a_kind b) then lift (rbind (aunitless (a_val b) (a_unit a)) (fun v => nd_cmp op (a_val a) v))
    else acompare ediv cls op a b
  else raise TypeError.
(** unit_class.py:486-487 and alike: with a number *)
Definition acmp_num (op : V -> V -> bool) (a : aqty V) (n : V) : res truths := nd_cmp op (a_val a) (Num n).
End ArrNum.
Arguments fun1 V : clear implicits.
