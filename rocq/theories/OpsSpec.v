(** * Vocabulary of the statements about unit names and their powers *)
From Coq Require Import String QArith.
From Verif Require Import Py StrTools Network SearchSpec Search Conv Converter EngineSpec.
Local Open Scope N_scope.

(** A base name: holds no digit, sign, dot or slash (blanks, '*', '^' and
    parentheses are allowed). *)
Definition base_name (b : str) : Prop :=
  forall c, In c b -> isdigit c = false /\ ~ In c (u "-+./").
(** [b] to the [n] as the library writes it: the name alone when [n] is 1,
    otherwise the name followed by the decimal writing of [n] ("m", "m2", "m-1"). *)
Definition powname (b : str) (n : Z) : str := if (n =? 1)%Z then b else b ++ str_of_Z n.
(** [x] is a way to write [b] to the [n] *)
Inductive denotes (b : str) : Z -> str -> Prop :=
| den_plain : denotes b 1 b
| den_power n : denotes b n (b ++ str_of_Z n)
| den_inverse : denotes b (-1) (u "1/" ++ b)
| den_ratio : denotes b 0 (b ++ u "/" ++ b).

(** The spellings of "no unit": nothing, a blank string, parentheses around
    blanks, a unitless name in any case and padded, a ratio x/x. *)
Inductive no_unit (unitless : list str) : option str -> Prop :=
| nu_none : no_unit unitless None
| nu_blank x : (forall c, In c x -> In c (u " ()")) -> no_unit unitless (Some x)
| nu_name x n p q : In n unitless -> lower x = p ++ n ++ q ->
    (forall c, In c (p ++ q) -> In c (u " ()")) ->
    (forall c r, n = c :: r \/ n = r ++ [c] -> ~ In c (u " ()")) ->
    no_unit unitless (Some x)
| nu_ratio x : ~ In 47 x -> no_unit unitless (Some (x ++ u "/" ++ x)).

(** a unit name as a user writes it (EngineSpec.v) that holds no digit, sign,
    dot, slash or '^' *)
Definition plain_base (b : str) : Prop := unit_name b /\ base_name b /\ ~ In 94 b.
(** the converter does not relate different powers of [b] with exponents in [l] *)
Definition powers_apart {V} {A : Arith V} (s : st V) (b : str) (l : list Z) : Prop :=
  forall i j, In i l -> In j l -> i <> j ->
    plain_pair (s_dict s) (powname b i) (powname b j) /\ ~ connected s (powname b i) (powname b j).
