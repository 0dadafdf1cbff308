(** * Specifications for unit strings, independent of the code's helpers *)
From Coq Require Import String.
From Verif Require Import Py.
Local Open Scope N_scope.

(** ** Tokenising by separators *)
(** [q] occurs at the front of [s]. *)
Definition at_front (q s : str) : Prop := exists t, s = q ++ t.
(** [q] occurs somewhere in [s]. *)
Definition occurs (q s : str) : Prop := exists a b, s = a ++ q ++ b.

(** [tok seps s l]: [l] is the leftmost-longest tokenisation of [s]: texts
    (possibly empty) alternating with separators, where a separator is taken at
    the leftmost position where any occurs, and the longest one there. *)
Inductive tok (seps : list str) : str -> list str -> Prop :=
| tok_end w :
    (forall a b, w = a ++ b -> b <> [] -> forall q, In q seps -> ~ at_front q b) ->
    tok seps w [w]
| tok_sep w p t l :
    (forall a b, w = a ++ b -> b <> [] -> forall q, In q seps -> ~ at_front q (b ++ p ++ t)) ->
    In p seps ->
    (forall q, In q seps -> at_front q (p ++ t) -> (length q <= length p)%nat) ->
    tok seps t l ->
    tok seps (w ++ p ++ t) (w :: p :: l).

(** ** Meaning of a product of powers *)
(** A unit expression denotes the exponent of each name.  [true] = multiplied. *)
Definition factor := (bool * str)%type.
Definition sgn (b : bool) : Z := if b then 1%Z else (-1)%Z.
(** Exponent of the name [n] in a list of signed factors. *)
Fixpoint expo (n : str) (l : list factor) : Z :=
  match l with
  | [] => 0%Z
  | (b, x) :: t => ((if seqb n x then sgn b else 0) + expo n t)%Z
  end.

(** Reading a parenthesis-free unit string ["a*b/c"]: names separated by [*]
    (42) and [/] (47).  [sg] is the sign of the name being read, [cur] its
    characters so far, reversed. *)
Fixpoint read (sg : bool) (cur : str) (s : str) : list factor :=
  match s with
  | [] => [(sg, rev cur)]
  | c :: s' =>
      if c =? 42 then (sg, rev cur) :: read true [] s'
      else if c =? 47 then (sg, rev cur) :: read false [] s'
      else read sg (c :: cur) s'
  end.
Definition factors (s : str) : list factor := read true [] s.

(** A proper unit name: non-empty, not a single blank, and free of operators
    and parentheses. *)
Definition name_char (c : N) : bool :=
  negb (existsb (N.eqb c) [40; 41; 42; 43; 45; 47; 94]).
Definition is_name (n : str) : bool :=
  match n with [] => false | _ => forallb name_char n && negb (seqb n [32]) end.

(** Writing signed factors as a unit string: the first factor carries no
    operator (it must be a multiplied one). *)
Definition op_char (b : bool) : N := if b then 42 else 47.
Fixpoint write_tail (l : list factor) : str :=
  match l with
  | [] => []
  | (b, x) :: t => op_char b :: x ++ write_tail t
  end.
Definition write (l : list factor) : str :=
  match l with
  | [] => []
  | (_, x) :: t => x ++ write_tail t
  end.

(** Grouped expressions: each item is a name or a parenthesised product, with
    the operator before it. *)
Inductive item := IName (n : str) | IGroup (first : str) (rest : list factor).
Definition gexp := list (bool * item).
Definition item_factors (i : item) : list factor :=
  match i with IName n => [(true, n)] | IGroup n r => (true, n) :: r end.
Definition write_item (i : item) : str :=
  match i with IName n => n | IGroup n r => 40 :: write ((true, n) :: r) ++ [41] end.
Fixpoint gwrite_tail (e : gexp) : str :=
  match e with
  | [] => []
  | (b, i) :: t => op_char b :: write_item i ++ gwrite_tail t
  end.
Definition gwrite (e : gexp) : str :=
  match e with
  | [] => []
  | (_, i) :: t => write_item i ++ gwrite_tail t
  end.
(** Exponent of a name in a grouped expression. *)
Fixpoint gexpo (n : str) (e : gexp) : Z :=
  match e with
  | [] => 0%Z
  | (b, i) :: t => (sgn b * expo n (item_factors i) + gexpo n t)%Z
  end.
Definition item_ok (i : item) : bool :=
  match i with
  | IName n => is_name n
  | IGroup n r => is_name n && forallb (fun f => is_name (snd f)) r
  end.
Definition gexp_ok (e : gexp) : bool :=
  match e with [] => false | (b, _) :: _ => b && forallb (fun bi => item_ok (snd bi)) e end.

(** The groups reduce_parentheses treats correctly: a group of several factors
    must be preceded by [/] exactly when the number of divided groups up to and
    including it is odd ([odd] is that parity before the item). *)
Fixpoint placed (odd : bool) (e : gexp) : bool :=
  match e with
  | [] => true
  | (b, IName _) :: t => placed odd t
  | (b, IGroup _ r) :: t =>
      let odd' := if b then odd else negb odd in
      (match r with [] => true | _ => Bool.eqb odd' (negb b) end) && placed odd' t
  end.

(** Number of occurrences of a name, multiplied or divided. *)
Fixpoint times (n : str) (l : list factor) : nat :=
  match l with [] => 0%nat | (_, x) :: t => ((if seqb n x then 1 else 0) + times n t)%nat end.

(** A list of factors that can be written as a unit string. *)
Definition factors_ok (l : list factor) : bool :=
  match l with [] => false | (b, _) :: _ => b && forallb (fun f => is_name (snd f)) l end.
