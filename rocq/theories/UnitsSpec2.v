(** * Vocabulary of the statements about quotients, remainders, rounding and powers *)
From Coq Require Import QArith Qcanon.
From Verif Require Import Py.
Local Open Scope Qc_scope.

(** specification: an integer as a number *)
Definition zq (z : Z) : Qc := Q2Qc (inject_Z z).
(** specification: [z] is the whole number of times [y] fits in [x]: x = z y + r, with r between 0 and y (and not y) *)
Definition whole (x y : Qc) (z : Z) : Prop :=
  (0 < y /\ zq z * y <= x /\ x < (zq z + 1) * y) \/ (y < 0 /\ x <= zq z * y /\ (zq z + 1) * y < x).
(** specification: 10^n *)
Definition ten (n : Z) : Qc := Q2Qc (Qpower 10 n).
(** specification: [r] is [x] rounded to [n] decimals: a multiple of 10^-n, the nearest one, the even one when halfway *)
Definition rounded (x r : Qc) (n : Z) : Prop := exists z : Z,
  r * ten n = zq z /\ zq z - Q2Qc (1 # 2) <= x * ten n /\ x * ten n <= zq z + Q2Qc (1 # 2)
  /\ (x * ten n = zq z - Q2Qc (1 # 2) \/ x * ten n = zq z + Q2Qc (1 # 2) -> Z.even z = true).

From Coq Require Import String.
From Verif Require Import StrTools Conv Converter EngineSpec ShippedSpec.
(** specification: the kinds with squares whose names come from the dictionary as it is shipped (not from rates, powers, ... created at startup) *)
Definition own_kinds : list str := map u ["Time"; "Length"; "Area"; "Permeability"; "Mass"; "Energy"; "Inductance"]%string.
