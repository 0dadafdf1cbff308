(** * Vocabulary of the statements about is_unit and valid_unit *)
From Coq Require Import String.
From Verif Require Import Py StrTools Conv Converter Units.

(** specification: a name in the dictionary, at this moment *)
Definition named (w : world) (x : str) : Prop := exists k l, In (k, l) (w_kinds w) /\ In x l.
(** specification: a text cut at its signs '/' and '*' *)
Inductive factors_of : str -> list str -> Prop :=
| one_factor x : ~ In c_slash x -> ~ In c_star x -> factors_of x [x]
| more_factors x c y l : ~ In c_slash x -> ~ In c_star x -> c = c_slash \/ c = c_star -> factors_of y l -> factors_of (x ++ c :: y) (x :: l).
(** specification: a text all whose factors are names *)
Definition made_of_names (w : world) (x : str) : Prop := exists l, factors_of x l /\ forall f, In f l -> named w f.
(** specification: a text without spaces at its ends and next to its signs *)
Definition neat (x : str) : Prop :=
  (forall c a b, c = c_slash \/ c = c_star -> x <> (a ++ 32%N :: c :: b)%list /\ x <> (a ++ c :: 32%N :: b)%list) /\ (forall a, x <> (32%N :: a)%list /\ x <> (a ++ [32%N])%list).
