(** * Quantities whose value is a list: [q.values = [1, 2, 3]]

    The setter (unit_class.py:601-603) does not check what it is given: the list stays a list, and the operators of
    unit_class.py are those of Python's lists.  The kinds are those of ArrQty.v, and percentages. *)
From Coq Require Import String QArith Qcanon ZArith.
From Verif Require Import Py StrTools Network Conv Converter NumPy Units ArrQty ArrMul.
Local Open Scope N_scope.

(** a Python object with numbers: a number or an array, a list or a tuple (model plumbing for the attribute [value], unit_class.py:601-603) *)
Inductive pyobj (V : Type) := ONd (v : npv V) | OSeq (tuple : bool) (l : list V).
Arguments ONd {V} v.
Arguments OSeq {V} tuple l.
(** the attributes [kind], [unit] and [value] of a quantity, unit_class.py:96-99 *)
Record lqty (V : Type) := LQ { l_kind : str; l_unit : str; l_val : pyobj V }.
Arguments LQ {V} l_kind l_unit l_val.
Arguments l_kind {V} l.
Arguments l_unit {V} l.
Arguments l_val {V} l.
(** the operators of Python: + joins sequences, * repeats them, the others (-, /, //, %) refuse them *)
Inductive pysym := PAdd | PMul | POther.

Section ListVals.
Context {V : Type} {A : Arith V} (ediv : V -> V -> V) (cls : str -> list str).
(** [int_of x] is the integer that the number is, if its type is int *)
Context (int_of : V -> option Z).
Local Instance list_arith : Arith (npv V) := np_arith ediv.

(** unit_class.py:601-603 [q.values = x] *)
Definition set_values (q : lqty V) (x : pyobj V) : lqty V := LQ (l_kind q) (l_unit q) x.
(** unit_class.py:626-629 [check_value]: a list or a tuple becomes an ndarray *)
Definition checked (x : pyobj V) : npv V := match x with ONd v => v | OSeq _ l => Arr Ndarray l end.
(** Python: [l * n] (model plumbing for unit_class.py:231, 233) *)
Definition repeated (l : list V) (n : Z) : list V := concat (repeat l (Z.to_nat n)).
(** Python and NumPy: an operator on two objects (model plumbing for unit_class.py:161-483).  An array with a list works element by element *)
Definition py_bin (sym : pysym) (o : binop V) (x y : pyobj V) : res (pyobj V) :=
  match x, y with
  | ONd a, ONd b => rbind (nd_bin o a b) (fun v => Ok (ONd v))
  | ONd (Arr k a), OSeq _ l => rbind (nd_bin o (Arr k a) (Arr Ndarray l)) (fun v => Ok (ONd v))
  | OSeq _ l, ONd (Arr k b) => rbind (nd_bin o (Arr k l) (Arr k b)) (fun v => Ok (ONd v))
  | ONd (Num a), OSeq t l => match sym, int_of a with PMul, Some n => Ok (OSeq t (repeated l n)) | _, _ => Err TypeError end
  | OSeq t l, ONd (Num b) => match sym, int_of b with PMul, Some n => Ok (OSeq t (repeated l n)) | _, _ => Err TypeError end
  | OSeq t l, OSeq t' l' => match sym with PAdd => if Bool.eqb t t' then Ok (OSeq t (l ++ l')%list) else Err TypeError | _ => Err TypeError end
  end.
(** [x * 100], unit_class.py:191, 231: an int *)
Definition py_hundred (x : pyobj V) : res (pyobj V) :=
  match x with ONd v => rbind (nd_bin b_mul v (Num (aconst 100))) (fun v => Ok (ONd v)) | OSeq t l => Ok (OSeq t (repeated l 100)) end.
(** [self.kind(value, unit)], geometry.py:20-24 and alike; unitless.py:60 *)
Definition lmake (k : str) (x : pyobj V) (n : str) : res (aqty V) := amakep ediv cls k (checked x) n.
(** unit_class.py:539-543, 560-564 [len(q)], [list(q)] *)
Definition lcount (q : lqty V) : nat := match l_val q with ONd v => alen (AQ (l_kind q) (l_unit q) v) | OSeq _ l => length l end.
(** unit_class.py:560-564 [list(q)] *)
Definition literated (q : lqty V) : list V := match l_val q with ONd v => iterated (AQ (l_kind q) (l_unit q) v) | OSeq _ l => l end.
(** Python: [l[i]] of a list (model plumbing for unit_class.py:556, 558) *)
Definition py_at (l : list V) (i : Z) : res V :=
  if (Z.of_nat (length l) <=? i)%Z then Err IndexError
  else if (i <? 0)%Z then if (i + Z.of_nat (length l) <? 0)%Z then Err IndexError else match nth_error l (Z.to_nat (i + Z.of_nat (length l))) with Some x => Ok x | None => Err IndexError end
  else match nth_error l (Z.to_nat i) with Some x => Ok x | None => Err IndexError end.
(** unit_class.py:548-558 [q[i]] of an int *)
Definition litem (q : lqty V) (i : Z) : res (aqty V) :=
  match l_val q with
  | ONd v => item cls (AQ (l_kind q) (l_unit q) v) i
  | OSeq _ l =>
    if (Z.of_nat (lcount q) <=? i)%Z then Err IndexError
    else rbind (py_at l i) (fun x => if is_k (l_kind q) "Percentage" then amakep ediv cls (l_kind q) (Num (amul x (aconst 100))) (l_unit q) else amake cls (l_kind q) (Num x) (l_unit q))
  end.
(** what [_convert] is given: converter.py:607 makes an ndarray of whatever can be iterated *)
Definition lvin (x : pyobj V) : vin (npv V) := match x with ONd v => vin_of v | OSeq _ l => VIter (Arr Ndarray l) end.
Local Open Scope m_scope.
(** [_convert(v, f, t)], unit_class.py:143, 168 *)
Definition lconv (e : exn) (v : pyobj V) (f t : str) : M (npv V) (npv V) :=
  r <- Converter.convert (lvin v) (UStr f) (UStr t) None ;; match r with Some (CVal w) => ret w | _ => raise e end.
(** unit_class.py:127-146 [q.to(x)], not of a percentage *)
Definition lto (q : lqty V) (x : str) : M (npv V) (aqty V) :=
  c <- convertible (l_unit q) x None ;;
  if c then v <- lconv WrongValueError (l_val q) (l_unit q) x ;; lift (amake cls (l_kind q) v x) else raise WrongUnitsError.
(** unit_class.py:148-149, 158-159 [-q] ([neg]), [abs(q)], not of a percentage: a list has no [__neg__], and [abs] refuses it *)
Definition leach (neg : bool) (op : V -> V) (q : lqty V) : res (aqty V) :=
  match l_val q with ONd v => aeach cls op (AQ (l_kind q) (l_unit q) v) | OSeq _ _ => Err (if neg then AttributeError else TypeError) end.
(** unit_class.py:161-173 (+), 292-305 (-) of two quantities of one kind *)
Definition lsum (sym : pysym) (op : V -> V -> V) (a b : lqty V) : M (npv V) (aqty V) :=
  let o := b_op op in let k := l_kind a in
  if seqb (l_unit a) (l_unit b) then lift (rbind (py_bin sym o (l_val a) (l_val b)) (fun v => lmake k v (l_unit a)))
  else
    c1 <- convertible (l_unit b) (l_unit a) None ;;
    if c1 then v <- lconv TypeError (l_val b) (l_unit b) (l_unit a) ;; lift (rbind (py_bin sym o (l_val a) (ONd v)) (fun v => lmake k v (l_unit a)))
    else
      c2 <- convertible (l_unit a) (l_unit b) None ;;
      if c2 then v <- lconv TypeError (l_val a) (l_unit a) (l_unit b) ;; lift (rbind (py_bin sym o (l_val b) (ONd v)) (fun v => lmake k v (l_unit b)))
      else raise NoConversionFoundError.
(** with a number: unit_class.py:190-193 (+), 230-233 ( * ), 320-323 (-), 407-410 (//), 477-480 (%) *)
Definition lwith (sym : pysym) (o : binop V) (q : lqty V) (n : V) : res (aqty V) :=
  rbind (py_bin sym o (l_val q) (ONd (Num n))) (fun v => if is_k (l_kind q) "Percentage" then rbind (py_hundred v) (fun v => lmake (l_kind q) v (l_unit q)) else lmake (l_kind q) v (l_unit q)).
(** Python and NumPy: a comparison of two objects, the second no list (model plumbing for unit_class.py:485-537).  [ordered] is [None] for
    <, <=, >=, >, which a list and a number do not have; the answer of == and != otherwise *)
Definition py_cmp (ordered : option bool) (op : V -> V -> bool) (x : pyobj V) (y : npv V) : res truths :=
  match x, y with
  | ONd a, _ => nd_cmp op a y
  | OSeq _ l, Arr _ _ => nd_cmp op (Arr Ndarray l) y
  | OSeq _ _, Num _ => match ordered with None => Err TypeError | Some b => Ok (BOne b) end
  end.
(** unit_class.py:485-537: two quantities of one kind, not percentages *)
Definition lcompare (ordered : option bool) (op : V -> V -> bool) (a b : lqty V) : M (npv V) truths :=
  c <- lto b (l_unit a) ;; lift (py_cmp ordered op (l_val a) (a_val c)).
(** unit_class.py:486-487 and alike: with a number *)
Definition lcompare_num (ordered : option bool) (op : V -> V -> bool) (q : lqty V) (n : V) : res truths := py_cmp ordered op (l_val q) (Num n).
End ListVals.
