(** * The shipped session: database.py:593-829, dictionaries.py:555-566

    The dictionary is a list of (kind, names) in the order of the Python dict;
    [tuple(set(l))] is modelled by [l]: only membership is ever used. *)
From Coq Require Import String QArith Qcanon.
From Verif Require Import Py StrTools Network Conv Converter Dict Database.
Local Open Scope N_scope.

(** dictionaries.py:607: [dictionary], a Python dict *)
Definition kinds := list (str * list str).
(** [dictionary[k]] (for an absent [k], [list(dictionary[k]) if k in dictionary else []]) *)
(** database.py:611-614 *)
Definition dg (k : string) (d : kinds) : list str := match dget (u k) d with Some l => l | None => [] end.
(** database.py:615: [dictionary[k] = l] *)
Definition ds (k : string) (l : list str) (d : kinds) : kinds := dset (u k) l d.
(** database.py:603-604: [del dictionary[k]] *)
Definition dpop (k : string) (d : kinds) : kinds := filter (fun e => negb (seqb (fst e) (u k))) d.
(** [a + sep + b for a in l for b in l'] *)
(** database.py:612 *)
Definition joins (sep : string) (l l' : list str) : list str := flat_map (fun a => map (fun b => a ++ u sep ++ b) l') l.

(** database.py:593-604: the kinds with '_' are never in [db_kinds] *)
Definition merge_data (d : kinds) : kinds :=
  dpop "dataBIT" (dpop "dataBYTE" (ds "Data" (dg "dataBYTE" d ++ dg "dataBIT" d) d)).
(** database.py:609-615 *)
Definition create_Rates (d : kinds) : kinds :=
  ds "Rate" (dg "Rate" d ++ joins "/" (dg "Volume" d) (dg "Time" d) ++ joins "/" (dg "Weight" d) (dg "Time" d)
             ++ joins "/" (dg "Data" d) (dg "Time" d)) d.
(** database.py:618-623 *)
Definition create_VolumeRatio (d : kinds) : kinds := ds "VolumeRatio" (dg "VolumeRatio" d ++ joins "/" (dg "Volume" d) (dg "Volume" d)) d.
(** database.py:626-630 *)
Definition create_Density (d : kinds) : kinds := ds "Density" (dg "Density" d ++ joins "/" (dg "Mass" d) (dg "Volume" d)) d.
(** database.py:633-637 *)
Definition create_Velocity (d : kinds) : kinds := ds "Velocity" (dg "Velocity" d ++ joins "/" (dg "Length" d) (dg "Time" d)) d.
(** database.py:640-648 *)
Definition create_Power (d : kinds) : kinds :=
  ds "Power" (dg "Power" d ++ joins "/" (dg "Energy" d) (dg "Time" d)
    ++ joins "*" (dg "Voltage" d) (dg "Current" d) ++ joins "*" (dg "Current" d) (dg "Voltage" d)
    ++ joins "2*" (dg "Current" d) (dg "Resistance" d)
    ++ map (fun x => x ++ u "2") (joins "*" (dg "Resistance" d) (dg "Current" d))) d.
(** database.py:651-655 *)
Definition create_Frequency (d : kinds) : kinds := ds "Frequency" (dg "Frequency" d ++ map (fun t => u "1/" ++ t) (dg "Time" d)) d.
(** database.py:658-662 *)
Definition create_Conductance (d : kinds) : kinds := ds "Conductance" (dg "Conductance" d ++ map (fun t => u "1/" ++ t) (dg "Resistance" d)) d.
(** database.py:665-677 *)
Definition create_Capacitance_Charge (d : kinds) : kinds :=
  let cap := dg "Capacitance" d ++ joins "/" (dg "Charge" d) (dg "Voltage" d) in
  let cha := dg "Charge" d ++ joins "*" (dg "Capacitance" d) (dg "Voltage" d) ++ joins "*" (dg "Voltage" d) (dg "Capacitance" d) in
  ds "Charge" cha (ds "Capacitance" cap d).
(** database.py:680-700 *)
Definition create_Voltage_Current_Resistance (d : kinds) : kinds :=
  let v := dg "Voltage" d ++ joins "*" (dg "Current" d) (dg "Resistance" d) ++ joins "*" (dg "Resistance" d) (dg "Current" d)
           ++ joins "/" (dg "Power" d) (dg "Current" d) in
  let c := dg "Current" d ++ joins "/" (dg "Voltage" d) (dg "Resistance" d) ++ joins "/" (dg "Power" d) (dg "Voltage" d) in
  let r := dg "Resistance" d ++ joins "/" (dg "Voltage" d) (dg "Current" d) in
  ds "Resistance" r (ds "Current" c (ds "Voltage" v d)).
(** database.py:703-707 *)
Definition create_Pressure (d : kinds) : kinds := ds "Pressure" (dg "Pressure" d ++ joins "/" (dg "Weight" d) (dg "Area" d)) d.
(** database.py:710-717 *)
Definition create_ProductivityIndex (d : kinds) : kinds :=
  ds "ProductivityIndex" (dg "ProductivityIndex" d ++ joins "/" (joins "/" (dg "Volume" d) (dg "Time" d)) (dg "Pressure" d)) d.
(** database.py:720-725 *)
Definition create_PressureGradient (d : kinds) : kinds :=
  ds "PressureGradient" (dg "PressureGradient" d ++ joins "/" (dg "Pressure" d) (dg "Length" d)) d.
(** database.py:728-733 *)
Definition create_TemperatureGradient (d : kinds) : kinds :=
  ds "TemperatureGradient" (dg "TemperatureGradient" d ++ joins "/" (dg "Temperature" d) (dg "Length" d)) d.
(** database.py:736-743 *)
Definition create_Acceleration (d : kinds) : kinds :=
  ds "Acceleration" (dg "Acceleration" d ++ flat_map (fun l => flat_map (fun t1 => map (fun t2 =>
     if seqb t1 t2 then l ++ u "/" ++ t1 ++ u "2" else l ++ u "/" ++ t1 ++ u "/" ++ t2) (dg "Time" d)) (dg "Time" d)) (dg "Length" d)) d.
(** database.py:748-751 *)
Definition swapped (x : str) : list str :=
  if cmem c_slash x then [] else match csplit c_star x with [a; b] => [b ++ u "*" ++ a] | _ => [] end.
(** database.py:748 *)
Definition complete (l : list str) : list str := l ++ flat_map swapped l.
(** database.py:746-751 *)
Definition complete_products (d : kinds) : kinds := map (fun e : str * list str => let (k, l) := e in (k, complete l)) d.
(** database.py:593-605, 803-817, in execution order *)
Definition all_kinds (d : kinds) : kinds :=
  complete_products (create_Voltage_Current_Resistance (create_Capacitance_Charge (create_Conductance (create_Frequency
  (create_Power (create_TemperatureGradient (create_Pressure (create_PressureGradient (create_ProductivityIndex
  (create_Acceleration (create_Velocity (create_Density (create_VolumeRatio (create_Rates (merge_data d))))))))))))))).

(** dictionaries.py:555-566 *)
Definition temperature_factors : list (str * Z) := [(u "Celsius", 9%Z); (u "Fahrenheit", 5%Z); (u "Kelvin", 9%Z); (u "Rankine", 5%Z)].
(** dictionaries.py:557-560 *)
Definition temperature_names (t : str) : list str := t :: names_of t d_Temperature_NAMES.
(** dictionaries.py:555-566 *)
Definition temperature_ratios : list ((str * str) * Q) :=
  flat_map (fun tc1 : str * Z => flat_map (fun t1a => flat_map (fun tc2 : str * Z =>
    map (fun t2a => ((t1a, t2a), (snd tc1 # 1) / (snd tc2 # 1))%Q) (temperature_names (fst tc2))) temperature_factors)
    (temperature_names (fst tc1))) temperature_factors.

(** what converter.py reads (converter.py:14) *)
Definition dicts_of (d : kinds) : dicts :=
  Dicts (dg "Date" d) (dg "Dimensionless" d) (dg "Percentage" d) (dg "Temperature" d) (dg "Volume" d) (dg "Weight" d)
    shipped_uncertain temperature_ratios.

(** ** The database and the session of a first start *)
(** model plumbing: [loaded] never raises (ShippedFacts.v) *)
Definition or_empty (r : res (db Qc)) : db Qc := match r with Ok d => d | Err _ => Db empty_net [] end.
(** database.py:801 *)
Definition shipped_db : db Qc := or_empty loaded.
(** database.py:801, 819: [units_network] after a first start *)
Definition shipped_net : net (conv Qc) := db_net shipped_db.
(** database.py:803-817: [dictionary] after a first start *)
Definition shipped_kinds : kinds := all_kinds (db_kinds shipped_db).
(** what converter.py reads of [dictionary] after a first start *)
Definition shipped_dicts : dicts := dicts_of shipped_kinds.
