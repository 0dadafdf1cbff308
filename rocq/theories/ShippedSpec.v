(** * Vocabulary and tables of the statements about the shipped database

    The tables are written by hand from the definitions of the units (the
    International System, the international yard and pound, ...), not from the
    code. *)
From Coq Require Import String QArith Qcanon.
From Verif Require Import Py StrTools Network SearchSpec Conv Converter EngineSpec ConsistSpec RegionSpec Dict Database Shipped.
Local Open Scope N_scope.

(** ** Units and kinds *)
(** the name is listed under the kind in the dictionary ([Data] being the union of bits and bytes) *)
Definition listed_as (k x : str) : Prop := exists l, dget k (merge_data (db_kinds shipped_db)) = Some l /\ In x l.
(** both units are registered and a chain of registered conversions leads from one to the other *)
Definition linked (f t : str) : Prop := exists a b, get_node shipped_net f = Ok a /\ get_node shipped_net t = Ok b
  /\ reachable (registered shipped_net) a b.
(** no path (without repeated units) from f to t goes through a conversion of the list *)
Fixpoint follows (l : list (str * str)) (p : list node) : Prop :=
  match p with
  | a :: (b :: _) as t => In (nname a, nname b) l \/ follows l t
  | _ => False
  end.
Definition never_through (l : list (str * str)) (f t : str) : Prop :=
  forall a b p, get_node shipped_net f = Ok a -> get_node shipped_net t = Ok b ->
    simple_path (registered shipped_net) a p b -> ~ follows l p.

(** ** Sessions of the shipped database *)
Definition shipped_session (s : st Qc) : Prop :=
  s_net s = shipped_net /\ s_dict s = shipped_dicts /\ s_es s = None /\ s_mem s = [] /\ s_prev s = [] /\ par_enough (s_par s).
(** any call but those that register units or conversions *)
Definition keeps (c : call Qc) : Prop :=
  match c with KSetUnit _ | KSetConversion _ _ _ _ => False | KSetPar p => par_enough p | _ => True end.
(** the formation volume factor is [b], or there is none *)
Definition fvf_is (b : Qc) (s : st Qc) : Prop := fv_of s = Ok b \/ exists e, fv_of s = Err e.
(** the default search, or BFS *)
Definition bounded (p : par Qc) : Prop := p_algo p = u "BFS" \/ (p_algo p = u "lean_BFS" /\ (0 <= p_max_gen p)%Z).
(** the same, with at least 12 generations *)
Definition searches (p : par Qc) : Prop := (p_algo p = u "BFS" \/ p_algo p = u "lean_BFS") /\ (12 <= p_max_gen p)%Z.

Definition pairs (l : list (string * string)) : list (str * str) := map (fun p => (u (fst p), u (snd p))) l.
Definition both_ways (l : list (string * string)) : list (str * str) := pairs l ++ pairs (map (fun p => (snd p, fst p)) l).

(** ** What is not as it should be in the shipped tables *)
(** conversions that contradict the others (C32) *)
Definition disagreeing : list (str * str) := both_ways
  [("gallonUS", "USgal"); ("gillUK", "pintUK"); ("standard cubic foot", "standard barrel");
   ("psi gauge", "psi"); ("psi gauge", "bar gauge"); ("bar gauge", "bar"); ("API", "SgO"); ("API", "g/cc")]%string.
(** conversions that reverse the order (C49) *)
Definition decreasing : list (str * str) := both_ways [("API", "SgO"); ("API", "g/cc")]%string.
(** conversions without a reverse *)
Definition one_way : list (str * str) := pairs [("psig/ft", "lb/ft3"); ("barg/m", "kg/m3"); ("weight ounce", "dram")]%string.
(** kinds linked with one another (C33) *)
Definition merged : list (str * str) := both_ways
  [("Temperature", "Capacitance"); ("Volume", "Weight"); ("Area", "Permeability"); ("Density", "PressureGradient");
   ("Mass", "Force"); ("Resistance", "Impedance"); ("Dimensionless", "Percentage")]%string.
(** the kinds with a contradiction *)
Definition contradictory_kinds : list str := map u ["Volume"; "Pressure"; "Density"; "PressureGradient"]%string.
(** the kinds converted by rules of their own (C30) *)
Definition rule_kinds : list str := map u ["Date"; "Dimensionless"; "Percentage"]%string.
(** the kinds all whose units are linked (C53) *)
Definition whole_kinds : list str := map u
  ["Time"; "Temperature"; "Capacitance"; "Length"; "Area"; "Permeability"; "Pressure"; "Mass"; "Velocity"; "Data"; "Energy"; "Power";
   "Voltage"; "Current"; "Resistance"; "Impedance"; "Conductance"; "Charge"; "Inductance"; "Dimensionless"; "Percentage"; "Date"]%string.

(** the kinds whose units measure one quantity from one origin: not the temperatures, and not those of the lists above *)
Definition proportional_kinds : list str := map u
  ["Time"; "Length"; "Area"; "Weight"; "Mass"; "Compressibility"; "Rate"; "Velocity"; "Viscosity"; "Permeability"; "Force"; "Energy"; "Power";
   "Voltage"; "Current"; "Resistance"; "Impedance"; "Conductance"; "Capacitance"; "Charge"; "Inductance"; "Frequency"; "ProductivityIndex";
   "TemperatureGradient"; "Data"]%string.
(** kinds that are whole, and neither contradictory nor with rules of their own *)
Definition measured_kinds : list str := map u
  ["Time"; "Temperature"; "Capacitance"; "Length"; "Area"; "Permeability"; "Mass"; "Velocity"; "Data"; "Energy"; "Power";
   "Voltage"; "Current"; "Resistance"; "Impedance"; "Conductance"; "Charge"; "Inductance"]%string.
(** kinds of which (a * b) / b is a *)
Definition square_kinds : list str := map u
  ["Time"; "Length"; "Area"; "Permeability"; "Mass"; "Velocity"; "Energy"; "Power"; "Voltage"; "Current"; "Resistance"; "Conductance"; "Charge"; "Inductance"]%string.
(** ... but of these units ('s2' has no class; 'RD2' is an area, and areas are converted to permeabilities) *)
Definition not_squared : list str := map u ["s"; "S"; "RD"; "YD"]%string.

(** ** The International System of Units *)
(** prefixes and their powers of ten (K and u are the usual substitutes of k and µ) *)
Definition si_prefixes : list (str * Z) := map (fun p : string * Z => (u (fst p), snd p))
  [("Q", 30); ("R", 27); ("Y", 24); ("Z", 21); ("E", 18); ("P", 15); ("T", 12); ("G", 9); ("M", 6); ("K", 3); ("k", 3); ("h", 2); ("da", 1);
   ("d", -1); ("c", -2); ("m", -3); ("µ", -6); ("u", -6); ("n", -9); ("p", -12); ("f", -15); ("a", -18); ("z", -21); ("y", -24); ("r", -27);
   ("q", -30)]%Z%string.
(** prefixable units: the prefix of m2 is squared, the one of m3 is cubed; the
    package reads the prefixes of the other volumes (ksm3) linearly *)
Definition si_units : list (str * Z) := map (fun p : string * Z => (u (fst p), snd p))
  [("s", 1); ("m", 1); ("m2", 2); ("m²", 2); ("m3", 3); ("m³", 3);
   ("sm3", 1); ("sm³", 1); ("Sm3", 1); ("Sm³", 1); ("stm3", 1); ("stm³", 1); ("STm3", 1); ("STm³", 1); ("rem3", 1); ("rem³", 1); ("l", 1);
   ("Pa", 1); ("bar", 1); ("bara", 1); ("barsa", 1); ("barg", 1); ("g", 1); ("g-mol", 1); ("D", 1); ("Wh", 1); ("Ws", 1); ("W", 1);
   ("V", 1); ("A", 1); ("Ω", 1); ("℧", 1); ("F", 1); ("Q", 1); ("H", 1); ("Hz", 1)]%Z%string.
Definition ten_to (e : Z) : Q := Qpower 10 e.

(** ** Definitions of units: a value x of the first is p x + q of the second *)
Record definition := Def { d_from : str; d_to : str; d_factor : Q; d_offset : Q }.
Definition def (f t : string) (p : Q) : definition := Def (u f) (u t) p 0.
Local Open Scope Q_scope.
Definition defs : list (str * list definition) := map (fun kl : string * list definition => (u (fst kl), snd kl)) [
  ("Time", [def "minute" "s" 60; def "hour" "min" 60; def "day" "hour" 24; def "week" "day" 7; def "day" "s" 86400; def "year" "day" (36525 # 100);
            def "month" "year" (1 # 12)]);
  ("Temperature", [Def (u "Celsius") (u "Kelvin") 1 (27315 # 100); Def (u "Celsius") (u "Fahrenheit") (9 # 5) 32; def "Kelvin" "Rankine" (9 # 5);
            Def (u "Fahrenheit") (u "Rankine") 1 (45967 # 100); Def (u "K") (u "C") 1 (- 27315 # 100); Def (u "R") (u "C") (5 # 9) (- 27315 # 100)]);
  ("Length", [def "inch" "m" (254 # 10000); def "foot" "m" (3048 # 10000); def "yard" "m" (9144 # 10000); def "chain" "m" (201168 # 10000);
            def "rod" "m" (50292 # 10000); def "furlong" "m" (201168 # 1000); def "mile" "m" (1609344 # 1000); def "nautical mile" "m" 1852;
            def "astronomical unit" "m" 149597870700; def "ft" "in" 12; def "mile" "yard" 1760; def "in" "cm" (254 # 100)]);
  ("Area", [def "acre" "m2" (40468564224 # 10000000); def "hectare" "m2" 10000; def "ft2" "m2" (9290304 # 100000000); def "in2" "ft2" (1 # 144);
            def "square mile" "acre" 640; def "square inch" "square centimeter" (64516 # 10000)]);
  ("Weight", [def "lb" "kg" (45359237 # 100000000); def "ounce" "g" (28349523125 # 1000000000); def "stone" "lb" 14; def "short ton" "lb" 2000;
            def "long ton" "lb" 2240; def "metric ton" "kg" 1000; def "dram" "weight ounce" (1 # 16); def "pound" "weight ounce" 16]);
  ("Volume", [def "gallonUS" "quartUS" 4; def "quartUS" "pintUS" 2; def "pintUS" "gillUS" 4; def "cubic yard" "ft3" 27; def "l" "ml" 1000; def "m3" "dm3" 1000]);
  ("Pressure", [def "atm" "Pa" 101325; def "Torr" "atm" (1 # 760); def "absolute bar" "Pa" 100000]);
  ("Energy", [def "calorie" "Joule" (4184 # 1000); def "kWh" "J" 3600000; def "Wh" "Ws" 3600]);
  ("Power", [def "kW" "W" 1000]); ("Force", [def "Newton" "Dyne" 100000]); ("Velocity", [def "mph" "kph" (1609344 # 1000000)]);
  ("Data", [def "byte" "bit" 8; def "KB" "b" 8192]); ("Voltage", [def "V" "mV" 1000]); ("Permeability", [def "D" "mD" 1000])]%string.
Definition definitions : list definition := flat_map snd defs.

(** ** The constants of unyts.unitary *)
(** constant, kind (the headings of unitary.py, and for the electrical ones what they measure) and unit;
    the ounce, which may be a volume or a weight, is a plain Unit *)
Definition constants : list (string * (string * string)) :=
  [("bit", ("Data", "b")); ("byte", ("Data", "B")); ("millimetre", ("Length", "mm")); ("millimeter", ("Length", "mm"));
   ("centimeter", ("Length", "cm")); ("meter", ("Length", "m")); ("kilometre", ("Length", "km")); ("kilometer", ("Length", "km"));
   ("thou", ("Length", "th")); ("tenth", ("Length", "te")); ("inch", ("Length", "in")); ("foot", ("Length", "ft")); ("feet", ("Length", "ft"));
   ("chain", ("Length", "ch")); ("yard", ("Length", "yd")); ("furlong", ("Length", "fur")); ("mile", ("Length", "mi"));
   ("league", ("Length", "lea")); ("acre", ("Area", "acre")); ("barrel", ("Volume", "stb")); ("stb", ("Volume", "stb")); ("sm3", ("Volume", "sm3"));
   ("litre", ("Volume", "l")); ("gill", ("Volume", "gi")); ("pint", ("Volume", "pt")); ("quart", ("Volume", "qt"));
   ("gallonUS", ("Volume", "galUS")); ("gallonUK", ("Volume", "galUK")); ("gram", ("Weight", "g")); ("kilogram", ("Weight", "kg"));
   ("grain", ("Weight", "gr")); ("pennyweight", ("Weight", "pwt")); ("dram", ("Weight", "dr")); ("pound", ("Weight", "lb"));
   ("quarter", ("Weight", "qrt")); ("ton", ("Weight", "long ton")); ("ounce", ("Unit", "oz")); ("second", ("Time", "sec"));
   ("minute", ("Time", "min")); ("hour", ("Time", "hour")); ("day", ("Time", "day")); ("week", ("Time", "week")); ("month", ("Time", "month"));
   ("year", ("Time", "year")); ("celsius", ("Temperature", "deg C")); ("fahrenheit", ("Temperature", "deg F"));
   ("rankine", ("Temperature", "deg R")); ("kelvin", ("Temperature", "deg K")); ("pascal", ("Pressure", "Pa")); ("kilopascal", ("Pressure", "kPa"));
   ("torr", ("Pressure", "mmHg")); ("mmgh", ("Pressure", "mmHg")); ("psi", ("Pressure", "psia")); ("bar", ("Pressure", "barsa"));
   ("atmosphere", ("Pressure", "atm")); ("newton", ("Force", "N")); ("dyne", ("Force", "dyne")); ("joule", ("Energy", "J"));
   ("btu", ("Energy", "btu")); ("horsepower", ("Power", "hp")); ("watt", ("Power", "W")); ("volt", ("Voltage", "V")); ("ampere", ("Current", "A"));
   ("ohm", ("Resistance", "Ω")); ("siemen", ("Conductance", "℧")); ("farad", ("Capacitance", "Farad")); ("coulomb", ("Charge", "Q"));
   ("henry", ("Inductance", "H")); ("hertz", ("Frequency", "Hz")); ("rpm", ("Frequency", "RPM"))]%string.
