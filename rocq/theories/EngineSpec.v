(** * Vocabulary of the statements about the engine *)
From Coq Require Import String QArith Qcanon.
From Verif Require Import Py StrTools Network SearchSpec Search Conv Converter.
Local Open Scope N_scope.

(** A simple unit: its name holds neither '/' nor '*'. *)
Definition simple (x : str) : Prop := ~ In c_slash x /\ ~ In c_star x.

(** ** Padding around a unit string *)
Definition over (cs : list chr) (p : str) : Prop := forall c, In c p -> In c cs.
Definition blank := 32. Definition lpar := 40. Definition rpar := 41. Definition apostrophe := 39. Definition dquote := 34.
(** [y] is [x] inside apostrophes, inside blanks, parentheses and double
    quotes, inside blanks, parentheses and apostrophes (any of them, any number). *)
Definition wrapped (x y : str) : Prop := exists p1 p2 p3 q3 q2 q1,
  y = p1 ++ p2 ++ p3 ++ x ++ q3 ++ q2 ++ q1
  /\ over [blank; lpar; rpar; apostrophe] p1 /\ over [blank; lpar; rpar; dquote] p2 /\ over [apostrophe] p3
  /\ over [blank; lpar; rpar; apostrophe] q1 /\ over [blank; lpar; rpar; dquote] q2 /\ over [apostrophe] q3.
(** a non-empty name that neither starts nor ends with a padding character and
    holds no parenthesis (blanks and quotes inside are fine: "day of year");
    "Empty" is the code's mark of a missing argument *)
Definition bare_name (x : str) : Prop :=
  x <> [] /\ x <> u "Empty" /\ ~ In lpar x /\ ~ In rpar x
  /\ forall c r, x = c :: r \/ x = r ++ [c] -> ~ In c [blank; lpar; rpar; apostrophe; dquote].
(** a unit name as a user writes it: simple and without padding *)
Definition unit_name (x : str) : Prop := simple x /\ bare_name x.

Section S.
Context {V : Type} {A : Arith V}.

(** A network as the code keeps it: no node object twice, fresh identities,
    one conversion per listed child.  (Children may be dangling, see C10.) *)
Definition sane_net (g : net (conv V)) : Prop :=
  NoDup (nodes g) /\ (forall n, In n (nodes g) -> nid n < n_next g)
  /\ (forall e, In e (n_edges g) -> length (e_convs e) = length (e_kids e)).

(** [l] is the list of the conversions registered along the path [p]. *)
Fixpoint convs_along (g : net (conv V)) (p : list node) (l : list (conv V)) : Prop :=
  match p, l with
  | a :: (b :: _) as t, c :: l' => conversion g a b = Ok c /\ convs_along g t l'
  | [_], [] => True
  | _, _ => False
  end.

(** [fn] applies, in order, the conversions registered along a real path from
    the unit called [f] to the unit called [t]. *)
Definition path_function (g : net (conv V)) (f t : str) (h : fn V) : Prop :=
  exists a b p l, get_node g f = Ok a /\ get_node g t = Ok b
    /\ simple_path (registered g) a p b /\ convs_along g p l /\ h = FConvs l.

(** [h] and the path [pt] told to the user are those of the same chain of registered conversions *)
Definition path_told (g : net (conv V)) (f t : str) (h : fn V) (pt : path V) : Prop :=
  exists a b p l, get_node g f = Ok a /\ get_node g t = Ok b
    /\ simple_path (registered g) a p b /\ convs_along g p l /\ h = FConvs l /\ pt = map PN p.

(** ** Sessions *)
(** a session that has converted nothing yet *)
Definition fresh_session (s : st V) : Prop := sane_net (s_net s) /\ s_mem s = [] /\ s_prev s = [].
(** the recursion limit allows at least one level (with 0 nothing is ever searched) *)
Definition par_enough (p : par V) : Prop := (1 <= p_max_rec p)%Z /\ (16 <= p_pylimit p)%Z.
Definition call_enough (c : call V) : Prop := match c with KSetPar p => par_enough p | _ => True end.
(** the pairs that go through the density *)
Definition density_case (d : dicts) (f t : str) : bool :=
  negb (smem f (d_uncertain d)) && negb (smem t (d_uncertain d)) &&
  ((smem f (d_volume d) && smem t (d_weight d)) || (smem t (d_volume d) && smem f (d_weight d))).
(** the settings the searches read *)
Definition search_settings (p : par V) := (p_algo p, p_max_gen p, p_parallel p, p_multi p, p_thread p).
(** calls that leave the network and the search settings [q] alone *)
Definition quiet (q : str * Z * bool * bool * bool) (c : call V) : Prop :=
  match c with
  | KSetUnit _ | KSetConversion _ _ _ _ | KSched _ => False
  | KSetPar p => search_settings p = q /\ par_enough p
  | _ => True
  end.
(** calls that only convert (or forget) *)
Definition converts (c : call V) : Prop :=
  match c with KConvert _ _ _ _ | KConvertible _ _ _ | KSimPandas _ _ _ _ | KCleanMemory => True | _ => False end.

(** ** Connections *)
(** both units are registered and a chain of registered conversions leads from one to the other *)
Definition connected (s : st V) f t : Prop := exists a b, get_node (s_net s) f = Ok a /\ get_node (s_net s) t = Ok b
  /\ reachable (registered (s_net s)) a b.
End S.
(** the search algorithms without threads *)
Definition sequential (algo : str) : Prop := algo = u "BFS" \/ algo = u "lean_BFS" \/ algo = u "DFS".
(** a pair of unit names to which none of the special rules applies *)
Definition plain_pair (d : dicts) (f t : str) : Prop :=
  f <> t /\ ~ (In f (d_date d) /\ In t (d_date d)) /\ ~ In (lower f) (d_dimless d)
  /\ ~ (In (lower f) (d_percent d) /\ In (lower t) (d_dimless d)) /\ density_case d f t = false.
