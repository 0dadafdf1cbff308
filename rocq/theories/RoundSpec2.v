(** * Specification: sizes of products and ratios of units *)
From Coq Require Import String QArith Qcanon.
From Verif Require Import Py StrTools Network Conv Converter EngineSpec ConsistSpec CompositeSpec Dict Database Shipped ShippedSpec RoundSpec.
Local Open Scope Qc_scope.

(** the size of x0, times or divided by the size of every further unit *)
Definition measured (size : str -> Qc) (pr : CompositeSpec.factor -> str) (x0 : str) (l : list CompositeSpec.factor) : Qc :=
  fold_left (fun z m => if f_div m then z / size (pr m) else z * size (pr m)) l (size x0).
(** two units of one of the kinds without offsets, all of whose units are connected (Length, Time, Weight, ...) *)
Definition alike (x y : str) : Prop := exists k, In k straight_kinds /\ In k whole_kinds /\ listed_as k x /\ listed_as k y /\ unit_name x /\ unit_name y.
(** [n] parts in 10^11 *)
Definition parts_e11 (n : nat) : Qc := Q2Qc (inject_Z (Z.of_nat n) * (1 # 100000000000)).
