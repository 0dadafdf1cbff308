(** * Consistent networks (exact arithmetic)

    A scale gives every unit name a size [k] and an origin [o]: the value x of
    a unit called a stands for the quantity x * k a + o a.  A network agrees
    with a scale when every registered conversion keeps the quantity. *)
From Coq Require Import String QArith Qcanon.
From Verif Require Import Py Network SearchSpec Conv Converter.
Local Open Scope Qc_scope.

Record scale := Scale { k_of : str -> Qc; o_of : str -> Qc }.
Definition quantity (m : scale) (a : str) (x : Qc) : Qc := x * k_of m a + o_of m a.

(** the value of unit b that stands for the same quantity as x of unit a *)
Definition rescale (m : scale) (a b : str) (x : Qc) : Qc := (x * k_of m a + o_of m a - o_of m b) / k_of m b.

Definition agrees (fv : res Qc) (m : scale) (g : net (conv Qc)) : Prop :=
  (forall a, k_of m a <> 0) /\
  forall a b c x, registered g a b -> conversion g a b = Ok c ->
    exists y, ceval fv c x = Ok y /\ quantity m (nname b) y = quantity m (nname a) x.

(** units that are not converted by the special rules (dates, dimensionless, percentages) *)
Definition ordinary (d : dicts) (x : str) : Prop :=
  ~ In x (d_date d) /\ ~ In (lower x) (d_dimless d) /\ ~ In (lower x) (d_percent d).
