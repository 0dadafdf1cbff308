(** * Numbers as people write them: the vocabulary of C64 *)
From Coq Require Import String.
From Verif Require Import Py.
Local Open Scope N_scope.

(** specification: one or more of the characters 0 to 9 *)
Definition digits (x : str) : Prop := x <> [] /\ forall c, In c x -> 48 <= c <= 57.
(** specification: nothing, a minus or a plus *)
Definition sign (x : str) : Prop := x = [] \/ x = [45] \/ x = [43].
(** specification: groups of three digits *)
Definition triples (l : list str) : Prop := forall g, In g l -> digits g /\ length g = 3%nat.
(** specification: spaces of any kind (blank, tab, new line, ...) *)
Definition blank (x : str) : Prop := forall c, In c x -> In c wspace.
(** specification: the digits of a whole number, the character [t] before each group of three: 1'234'567 *)
Definition grouped (t : N) (first : str) (groups : list str) : str := first ++ concat (map (fun g => t :: g) groups).
(** specification: the same digits without separators *)
Definition together (first : str) (groups : list str) : str := first ++ concat groups.
(** specification: the number that digits write *)
Definition written (x : str) : Z := fold_left (fun a c => (10 * a + (Z.of_N c - 48))%Z) x 0%Z.
(** specification: the factor of a sign *)
Definition signed (sg : str) : Z := match sg with 45 :: _ => (-1)%Z | _ => 1%Z end.
(** specification: a character that cannot be taken for a part of the number *)
Definition separator (c : N) : Prop :=
  ~ (48 <= c <= 57) /\ ~ In c [40; 41; 43; 45; 101; 106] /\ clower c = c.
