(** * Specification: the laws between kinds (C73)
    What the manual promises of products and quotients of electrical quantities, energies and times. *)
From Coq Require Import String QArith Qcanon.
From Verif Require Import Py.
(** specification: a quantity of the first kind times one of the second is in this unit *)
Definition product_laws : list (string * string * string) :=
  [("Power", "Time", "Wh"); ("Time", "Power", "Wh");
   ("Current", "Resistance", "Volt"); ("Resistance", "Current", "Volt");
   ("Voltage", "Current", "Watt"); ("Voltage", "Capacitance", "Coulomb"); ("Capacitance", "Voltage", "Coulomb")]%string.
(** specification: a quantity of the first kind over one of the second is in this unit *)
Definition quotient_laws : list (string * string * string) :=
  [("Energy", "Time", "Watt"); ("Energy", "Power", "hour");
   ("Power", "Current", "Volt"); ("Power", "Voltage", "Ampere");
   ("Voltage", "Current", "Ohm"); ("Voltage", "Resistance", "Ampere"); ("Charge", "Voltage", "Farad")]%string.
(** specification: the law for two kinds, if there is one *)
Definition law (laws : list (string * string * string)) (k k' : str) (t : str) : Prop :=
  exists x y z, In (x, y, z) laws /\ k = u x /\ k' = u y /\ t = u z.
Definition no_law (laws : list (string * string * string)) (k k' : str) : Prop := forall t, ~ law laws k k' t.
