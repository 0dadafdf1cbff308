(** * Quantities of arrays

    [Length([1, 2, 3], 'm')]: the value of a quantity is a number or an array
    ([npv], NumPy.v), the engine is that of converter.py over these values.
    The kinds are those whose constructor checks the unit against the fixed list
    of the class ([cls]); user units, the bare [Unit] and dates are left out,
    and so are percentages but in [item] (ArrMul.v has all kinds in its operators). *)
From Coq Require Import String QArith Qcanon ZArith.
From Verif Require Import Py StrTools Network Conv Converter NumPy Units.
Local Open Scope N_scope.

(** the attributes [kind], [unit] and [value] of a quantity, unit_class.py:96-99 *)
Record aqty (V : Type) := AQ { a_kind : str; a_unit : str; a_val : npv V }.
Arguments AQ {V} a_kind a_unit a_val.
Arguments a_kind {V} a.
Arguments a_unit {V} a.
Arguments a_val {V} a.
(** the answer of a comparison, unit_class.py:485-537: a bool, or an array of bools *)
Inductive truths := BOne (b : bool) | BArr (l : list bool).

Section ArrQty.
Context {V : Type} {A : Arith V} (ediv : V -> V -> V) (cls : str -> list str).
Local Instance arr_arith : Arith (npv V) := np_arith ediv.
Local Open Scope m_scope.

(** ** NumPy *)
(** NumPy's broadcasting in one dimension (model plumbing for the operators of unit_class.py:161-537): equal lengths, or one of them has one element.  A simplification for
    pandas, whose containers align their indexes *)
Definition nd_map2 {X} (op : V -> V -> X) (l l' : list V) : res (list X) :=
  if Nat.eqb (length l) (length l') then Ok (map (fun p => op (fst p) (snd p)) (combine l l'))
  else match l, l' with
       | _, [y] => Ok (map (fun x => op x y) l)
       | [x], _ => Ok (map (op x) l')
       | _, _ => Err ValueError
       end.
(** NumPy: an operator on numbers and arrays (model plumbing for unit_class.py:161-305) *)
Definition nd_op (op : V -> V -> V) (x y : npv V) : res (npv V) :=
  match x, y with
  | Arr k l, Arr _ l' => rbind (nd_map2 op l l') (fun r => Ok (Arr k r))
  | _, _ => Ok (broadcast op x y)
  end.
(** NumPy: a comparison of numbers and arrays (model plumbing for unit_class.py:485-537) *)
Definition nd_cmp (op : V -> V -> bool) (x y : npv V) : res truths :=
  match x, y with
  | Num a, Num b => Ok (BOne (op a b))
  | Arr _ l, Num b => Ok (BArr (map (fun a => op a b) l))
  | Num a, Arr _ l => Ok (BArr (map (op a) l))
  | Arr _ l, Arr _ l' => rbind (nd_map2 op l l') (fun r => Ok (BArr r))
  end.

(** ** Constructors: unit_class.py:626-653 [check_value], [check_unit] and the [__init__] of the classes *)
(** unit_class.py:626-629: a list or a tuple becomes an ndarray, a number or an array stays *)
Definition check_value (v : pyval V) : npv V := match v with PyNum x => Num x | PyList l | PyTuple l => Arr Ndarray l | PyBox k l => Arr k l end.
(** [self.kind(value, unit)], geometry.py:20-24 and alike *)
Definition amake (k : str) (v : npv V) (x : str) : res (aqty V) := if smem x (cls k) then Ok (AQ k x v) else Err WrongUnitsError.

(** ** Length, items and iteration: unit_class.py:539-564 *)
(** unit_class.py:539-546 [len(value)]; a number has none: TypeError, caught *)
Definition alen (q : aqty V) : nat := match a_val q with Num _ => 1 | Arr _ l => length l end.
(** an ndarray's [value[i]] (unit_class.py:552-555) *)
Definition nd_item (l : list V) (i : Z) : res V :=
  let j := if (i <? 0)%Z then (i + Z.of_nat (length l))%Z else i in
  if (j <? 0)%Z then Err IndexError else match nth_error l (Z.to_nat j) with Some x => Ok x | None => Err IndexError end.
(** unit_class.py:548-558 on an int, unitless.py:60 (a percentage divides what it is given); a Python number cannot be indexed *)
Definition item (q : aqty V) (i : Z) : res (aqty V) :=
  if (Z.of_nat (alen q) <=? i)%Z then Err IndexError
  else match a_val q with
       | Num _ => Err TypeError
       | Arr _ l => rbind (nd_item l i) (fun x => rbind (if is_k (a_kind q) "Percentage" then adiv (amul x (aconst 100)) (aconst 100) else Ok x) (fun x => amake (a_kind q) (Num x) (a_unit q)))
       end.
(** what stands between the brackets: an int, or anything else (a slice, a bool, a NumPy integer, a text) *)
Inductive index := IInt (n : Z) | IOther.
(** unit_class.py:548-558 [q[i]]: [type(item) is int] or IndexError *)
Definition getitem (q : aqty V) (i : index) : res (aqty V) := match i with IInt n => item q n | IOther => Err IndexError end.
(** unit_class.py:560-564 [list(q)]: what the iteration gives *)
Definition iterated (q : aqty V) : list V := match a_val q with Num x => [x] | Arr _ l => l end.

(** ** Operators *)
(** what [_convert] is given, unit_class.py:141-143 and alike: converter.py:607 makes an ndarray of whatever can be iterated *)
Definition vin_of (v : npv V) : vin (npv V) := match v with Num x => VNum (Num x) | Arr _ l => VIter (Arr Ndarray l) end.
(** [_convert(v, f, t)], unit_class.py:143, 168: None is no value (check_value raises WrongValueError, an operator TypeError) *)
Definition aconv (e : exn) (v : npv V) (f t : str) : M (npv V) (npv V) :=
  r <- Converter.convert (vin_of v) (UStr f) (UStr t) None ;; match r with Some (CVal w) => ret w | _ => raise e end.
(** unit_class.py:127-146 [convert], [to] *)
Definition ato (q : aqty V) (x : str) : M (npv V) (aqty V) :=
  c <- convertible (a_unit q) x None ;;
  if c then v <- aconv WrongValueError (a_val q) (a_unit q) x ;; lift (amake (a_kind q) v x) else raise WrongUnitsError.
(** unit_class.py:148-149, 158-159 [-q], [abs(q)] *)
Definition aeach (op : V -> V) (q : aqty V) : res (aqty V) :=
  amake (a_kind q) (match a_val q with Num x => Num (op x) | Arr k l => Arr k (map op l) end) (a_unit q).
(** unit_class.py:161-173 (+), 292-305 (-) of two quantities of one kind *)
Definition asum (op : V -> V -> V) (a b : aqty V) : M (npv V) (aqty V) :=
  if seqb (a_unit a) (a_unit b) then lift (rbind (nd_op op (a_val a) (a_val b)) (fun v => amake (a_kind a) v (a_unit a)))
  else
    c1 <- convertible (a_unit b) (a_unit a) None ;;
    if c1 then v <- aconv TypeError (a_val b) (a_unit b) (a_unit a) ;; lift (rbind (nd_op op (a_val a) v) (fun v => amake (a_kind a) v (a_unit a)))
    else
      c2 <- convertible (a_unit a) (a_unit b) None ;;
      if c2 then v <- aconv TypeError (a_val a) (a_unit a) (a_unit b) ;; lift (rbind (nd_op op (a_val b) v) (fun v => amake (a_kind a) v (a_unit b)))
      else raise NoConversionFoundError.
(** unit_class.py:190-193, 230-233 and alike: with a number or an array [y] *)
Definition ascale (op : V -> V -> V) (q : aqty V) (y : npv V) : res (aqty V) :=
  rbind (nd_op op (a_val q) y) (fun v => amake (a_kind q) v (a_unit q)).
(** unit_class.py:485-537, two quantities of one kind *)
Definition acompare (op : V -> V -> bool) (a b : aqty V) : M (npv V) truths :=
  c <- ato b (a_unit a) ;; lift (nd_cmp op (a_val a) (a_val c)).
End ArrQty.
