(** * The constants of unyts.unitary (unitary.py) *)
From Coq Require Import String QArith Qcanon.
From Verif Require Import Py StrTools Network Conv Converter Operations Units.
Local Open Scope N_scope.

(** the right hand sides of unitary.py:13-107: units(1, x), Unit(1, x), another constant *)
Inductive rhs := KUnits (x : string) | KUnit (x : string) | KSame (c : string).
(** unitary.py:13-107, in the order of the file *)
Definition unitary : list (string * rhs) :=
  [("bit", KUnits "b"); ("byte", KUnits "B"); ("millimetre", KUnits "mm"); ("millimeter", KSame "millimetre"); ("centimeter", KUnits "cm");
   ("meter", KUnits "m"); ("kilometre", KUnits "km"); ("kilometer", KSame "kilometre"); ("thou", KUnits "th"); ("tenth", KUnits "te");
   ("inch", KUnits "in"); ("foot", KUnits "ft"); ("feet", KSame "foot"); ("chain", KUnits "ch"); ("yard", KUnits "yd"); ("furlong", KUnits "fur");
   ("mile", KUnits "mi"); ("league", KUnits "lea"); ("acre", KUnits "acre"); ("barrel", KUnits "stb"); ("stb", KSame "barrel");
   ("sm3", KUnits "sm3"); ("litre", KUnits "l"); ("gill", KUnits "gi"); ("pint", KUnits "pt"); ("quart", KUnits "qt"); ("gallonUS", KUnits "galUS");
   ("gallonUK", KUnits "galUK"); ("gram", KUnits "g"); ("kilogram", KUnits "kg"); ("grain", KUnits "gr"); ("pennyweight", KUnits "pwt");
   ("dram", KUnits "dr"); ("pound", KUnits "lb"); ("quarter", KUnits "qrt"); ("ton", KUnits "long ton"); ("ounce", KUnit "oz");
   ("second", KUnits "sec"); ("minute", KUnits "min"); ("hour", KUnits "hour"); ("day", KUnits "day"); ("week", KUnits "week");
   ("month", KUnits "month"); ("year", KUnits "year"); ("celsius", KUnits "deg C"); ("fahrenheit", KUnits "deg F"); ("rankine", KUnits "deg R");
   ("kelvin", KUnits "deg K"); ("pascal", KUnits "Pa"); ("kilopascal", KUnits "kPa"); ("torr", KUnits "mmHg"); ("mmgh", KSame "torr");
   ("psi", KUnits "psia"); ("bar", KUnits "barsa"); ("atmosphere", KUnits "atm"); ("newton", KUnits "N"); ("dyne", KUnits "dyne");
   ("joule", KUnits "J"); ("btu", KUnits "btu"); ("horsepower", KUnits "hp"); ("watt", KUnits "W"); ("volt", KUnits "V"); ("ampere", KUnits "A");
   ("ohm", KUnits "Ω"); ("siemen", KUnits "℧"); ("farad", KUnits "Farad"); ("coulomb", KUnits "Q"); ("henry", KUnits "H"); ("hertz", KUnits "Hz");
   ("rpm", KUnits "RPM")]%string.

Section U.
Context {F : Floats} {P : Pow} {E : Eval}.
(** model plumbing: the names assigned so far, the last one first *)
Definition bound := list (string * qty).
(** Python: reading a global name *)
Fixpoint global (c : string) (l : bound) : res qty :=
  match l with [] => Err NameError | (c', q) :: t => if String.eqb c c' then Ok q else global c t end.
(** one assignment of unitary.py *)
Definition assign (r : rhs) (l : bound) : W qty :=
  match r with
  | KUnits x => units (PN 1%Qc) (AUnitStr (u x)) false
  | KUnit x => construct (u "Unit") (Some 1%Qc) (u x)
  | KSame c => fun w => (global c l, w)
  end.
(** the body of the module, from the top *)
Fixpoint execute (p : list (string * rhs)) (l : bound) : W bound :=
  match p with
  | [] => wret l
  | (c, r) :: p' => wbind (assign r l) (fun q => execute p' ((c, q) :: l))
  end.
(** [import unyts.unitary] *)
Definition import_unitary : W bound := execute unitary [].
End U.
