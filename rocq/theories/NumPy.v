(** * Arrays of values

    What NumPy and pandas do with the arithmetic of the conversions.  An array is
    the list of its elements (the shape goes along with it); a simplification: no
    rounding or overflow rule of its own, and two arrays of different lengths,
    which the conversions never combine, are cut to the shorter one. *)
From Coq Require Import String QArith Qcanon.
From Verif Require Import Py StrTools Network Conv Converter.
Local Open Scope N_scope.

(** the containers of converter.py:43 *)
Inductive box := Ndarray | Series | DataFrame.
(** converter.py:43-50 [_numeric]: a number or a container of numbers *)
Inductive npv (V : Type) := Num (x : V) | Arr (k : box) (l : list V).
Arguments Num {V} x.
Arguments Arr {V} k l.

Section NumPy.
Context {V : Type} {A : Arith V} (ediv : V -> V -> V).
(** NumPy: a binary operation on the elements of two arrays *)
Fixpoint zip_with (op : V -> V -> V) (l l' : list V) : list V :=
  match l, l' with x :: t, y :: t' => op x y :: zip_with op t t' | _, _ => [] end.
(** NumPy: element by element, a number standing for an array of equal numbers; pandas keeps its containers *)
Definition broadcast (op : V -> V -> V) (x y : npv V) : npv V :=
  match x, y with
  | Num a, Num b => Num (op a b)
  | Arr k l, Num b => Arr k (map (fun a => op a b) l)
  | Num a, Arr k l => Arr k (map (op a) l)
  | Arr k l, Arr _ l' => Arr k (zip_with op l l')
  end.
(** Python [/]: a number raises on zero, an array gets an infinity or a NaN there ([ediv]) *)
Definition np_div (x y : npv V) : res (npv V) :=
  match x, y with
  | Num a, Num b => rbind (adiv a b) (fun c => Ok (Num c))
  | _, _ => Ok (broadcast ediv x y)
  end.
(** the operators of Python on these values *)
Definition np_arith : Arith (npv V) := {|
  aadd := broadcast aadd; asub := broadcast asub; amul := broadcast amul; adiv := np_div; aconst := fun q => Num (aconst q) |}.

(** ** The arguments *)
(** what a user hands over; converter.py:607 *)
Inductive pyval := PyNum (x : V) | PyList (l : list V) | PyTuple (l : list V) | PyBox (k : box) (l : list V).
(** converter.py:607-608: whatever can be iterated becomes an ndarray (the test [type(value) is not np.array]
    is always true: np.array is a function) *)
Definition clean_value (v : pyval) : vin (npv V) :=
  match v with
  | PyNum x => VNum (Num x)
  | PyList l | PyTuple l | PyBox _ l => VIter (Arr Ndarray l)
  end.
(** model plumbing: the elements *)
Definition elements (v : pyval) : list V := match v with PyNum x => [x] | PyList l | PyTuple l | PyBox _ l => l end.
End NumPy.
Arguments pyval V : clear implicits.

(** ** The same network over arrays *)
(** model plumbing: a shipped lambda applied to arrays (the shipped tables, database.py:100-590, have no functions of the user) *)
Fixpoint cmap {V W} (c : conv V) : conv W :=
  match c with
  | CId => CId | CMul q => CMul q | CDiv q => CDiv q | CAdd q => CAdd q | CSub q => CSub q | CInto q => CInto q
  | CFvfDiv => CFvfDiv | CFvfMul => CFvfMul | CThen a b => CThen (cmap a) (cmap b) | CRev a => CRev (cmap a)
  | CUser _ => CId
  end.
(** model plumbing *)
Definition nmap {V W} (g : net (conv V)) : net (conv W) :=
  Net (n_next g) (map (fun e => Entry (e_node e) (e_kids e) (map cmap (e_convs e))) (n_edges g)).
