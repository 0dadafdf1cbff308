(** * What a path is (independent of the algorithms) *)
From Coq Require Import List.
Import ListNotations.
From Verif Require Import Py Network.

Section Walk.
Context {V : Type} (edge : V -> V -> Prop).

(** [walk a p b]: [p] is the list of nodes met going from [a] to [b] along edges. *)
Inductive walk : V -> list V -> V -> Prop :=
| walk_one a : walk a [a] a
| walk_cons a b p c : edge a b -> walk b p c -> walk a (a :: p) c.

Definition reachable (a b : V) : Prop := exists p, walk a p b.

(** a path without repeated nodes *)
Definition simple_path (a : V) (p : list V) (b : V) : Prop := walk a p b /\ NoDup p.

(** a path with the least number of steps *)
Definition shortest_path (a : V) (p : list V) (b : V) : Prop :=
  walk a p b /\ forall q, walk a q b -> (length p <= length q)%nat.

(** [b] is met within [n] steps of [a] *)
Definition within (n : nat) (a b : V) : Prop :=
  exists p, walk a p b /\ (length p <= S n)%nat.
End Walk.

(** A registered conversion of the network: node [b] is listed under [a]. *)
Definition registered {C} (g : net C) (a b : node) : Prop :=
  exists ks, children_of g a = Ok ks /\ In b ks.

Section NetSpec.
Context {C : Type}.
Local Open Scope N_scope.
Implicit Types g : net C.
(** the registered nodes, in order of registration *)
Definition nodes g : list node := map e_node (n_edges g).

(** What a network built by registrations satisfies: no node twice, fresh
    identities are fresh, and per node the children are distinct, registered,
    and have exactly one conversion each. *)
Definition wf_entry g (e : entry C) : Prop :=
  NoDup (e_kids e) /\ length (e_convs e) = length (e_kids e)
  /\ (forall k, In k (e_kids e) -> In k (nodes g)).
Definition wf_net g : Prop :=
  NoDup (nodes g) /\ (forall n, In n (nodes g) -> nid n < n_next g)
  /\ (forall e, In e (n_edges g) -> wf_entry g e).

(** Different nodes have different names (true until a unit is declared twice). *)
Definition unique_names g : Prop := NoDup (map nname (nodes g)).

(** The network read by names: a conversion is registered from name a to name b. *)
Definition named_edge g (a b : str) : Prop :=
  exists na nb, registered g na nb /\ nname na = a /\ nname nb = b.
(** every conversion has a reverse *)
Definition symmetric g : Prop := forall a b, registered g a b -> registered g b a.
End NetSpec.

(** ** Which conversion is attached: the first one registered *)
Section Log.
Context {C : Type}.
Local Open Scope N_scope.
Implicit Types g : net C.
Definition log := list (node * node * C).
Fixpoint first_of (l : log) (s d : node) : option C :=
  match l with
  | [] => None
  | (a, b, c) :: t => if neqb a s && neqb b d then Some c else first_of t s d
  end.

(** The registrations one call asks for, in order. *)
Definition asked g (o : op C) : log :=
  match o with
  | OAddEdge s d c => if has_obj g s && has_obj g d then [(s, d, c)] else []
  | OSetConversion a b c rc =>
      (* the nodes the two names denote once both have been (re)declared *)
      let denotes x fresh := match get_node g x with Ok n => n | Err _ => fresh end in
      let na := denotes a (Node (n_next g) a) in
      let nb := denotes b (if seqb a b then na else Node (n_next g + 1) b) in
      [(na, nb, c); (nb, na, rc)]
  | _ => []
  end.
Fixpoint asked_all g (os : list (op C)) : log :=
  match os with [] => [] | o :: t => asked g o ++ asked_all (step_op g o) t end.

End Log.
Arguments log C : clear implicits.
