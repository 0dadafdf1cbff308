(** * Part of a network: a set of unit names that no conversion leaves *)
From Coq Require Import String QArith Qcanon.
From Verif Require Import Py Network SearchSpec Conv Converter ConsistSpec.
Local Open Scope Qc_scope.

Definition closed {C} (g : net C) (R : str -> Prop) : Prop :=
  forall a b, registered g a b -> R (nname a) -> R (nname b).
(** every conversion between units of the region has a reverse *)
Definition symmetric_in {C} (g : net C) (R : str -> Prop) : Prop :=
  forall a b, registered g a b -> R (nname a) -> registered g b a.
(** the conversions of the region keep the quantities of a scale *)
Definition agrees_in (fv : res Qc) (m : scale) (R : str -> Prop) (g : net (conv Qc)) : Prop :=
  (forall a, R a -> k_of m a <> 0) /\ closed g R /\
  forall a b c x, registered g a b -> R (nname a) -> conversion g a b = Ok c ->
    exists y, ceval fv c x = Ok y /\ quantity m (nname b) y = quantity m (nname a) x.
(** the conversions of the region keep the order of the values *)
Definition increasing (fv : res Qc) (c : conv Qc) : Prop :=
  forall x y x' y', ceval fv c x = Ok x' -> ceval fv c y = Ok y' -> x < y -> x' < y'.
Definition increasing_in (fv : res Qc) (R : str -> Prop) (g : net (conv Qc)) : Prop :=
  closed g R /\ forall a b c, registered g a b -> R (nname a) -> conversion g a b = Ok c -> increasing fv c.
