(** * The shipped tables: [dictionaries.py] and the explicit conversions of [database.py]

    GENERATED by tools/gen_dict.py, which parses the two source files and
    writes their literals; the computed tuples are written as the same
    computations.  Numeric literals are the exact decimal numbers written in
    the source. *)
From Coq Require Import String QArith.
From Verif Require Import Py Network Conv.
Local Open Scope Q_scope.

(** a value of [dictionary]: a list or tuple of names, or a dict name -> second names *)
Inductive names := NList (l : list str) | NDict (l : list (str * list str)).
(** [len(t) > 1] *)
Definition longer (t : str) : bool := Nat.ltb 1 (List.length t).
(** [dictionary[kind][name]] of a dict *)
Definition names_of (n : str) (d : list (str * list str)) : list str :=
  match dget n d with Some l => l | None => [] end.

(** dictionaries.py:24 *)
Definition shipped_uncertain : list str := [(u "oz"); (u "ounce"); (u "ounces"); (u "OZ"); (u "OUNCE"); (u "OUNCES")].

(** dictionaries.py:29-56 [SI]: the factor of each [lambda X: X * factor]. *)
Definition SI : list (str * (option Q * option Q * option Q)) :=
  [((u "Q"), (Some (1000000000000000000000000000000 # 1), Some (1000000000000000000000000000000000000000000000000000000000000 # 1), Some (1000000000000000000000000000000000000000000000000000000000000000000000000000000000000000000 # 1)));
   ((u "R"), (Some (1000000000000000000000000000 # 1), Some (1000000000000000000000000000000000000000000000000000000 # 1), Some (1000000000000000000000000000000000000000000000000000000000000000000000000000000000 # 1)));
   ((u "Y"), (Some (1000000000000000000000000 # 1), Some (1000000000000000000000000000000000000000000000000 # 1), Some (1000000000000000000000000000000000000000000000000000000000000000000000000 # 1)));
   ((u "Z"), (Some (1000000000000000000000 # 1), Some (1000000000000000000000000000000000000000000 # 1), Some (1000000000000000000000000000000000000000000000000000000000000000 # 1)));
   ((u "E"), (Some (1000000000000000000 # 1), Some (1000000000000000000000000000000000000 # 1), Some (1000000000000000000000000000000000000000000000000000000 # 1)));
   ((u "P"), (Some (1000000000000000 # 1), Some (1000000000000000000000000000000 # 1), Some (1000000000000000000000000000000000000000000000 # 1)));
   ((u "T"), (Some (1000000000000 # 1), Some (1000000000000000000000000 # 1), Some (1000000000000000000000000000000000000 # 1)));
   ((u "G"), (Some (1000000000 # 1), Some (1000000000000000000 # 1), Some (1000000000000000000000000000 # 1)));
   ((u "M"), (Some (1000000 # 1), Some (1000000000000 # 1), Some (1000000000000000000 # 1)));
   ((u "K"), (Some (1000 # 1), Some (1000 # 1), Some (1000 # 1)));
   ((u "k"), (Some (1000 # 1), Some (1000000 # 1), Some (1000000000 # 1)));
   ((u "h"), (Some (100 # 1), Some (10000 # 1), Some (1000000 # 1)));
   ((u "da"), (Some (10 # 1), Some (100 # 1), Some (1000 # 1)));
   ((u "d"), (Some (1 # 10), Some (1 # 100), Some (1 # 1000)));
   ((u "c"), (Some (1 # 100), Some (1 # 10000), Some (1 # 1000000)));
   ((u "m"), (Some (1 # 1000), Some (1 # 1000000), Some (1 # 1000000000)));
   ((u "µ"), (Some (1 # 1000000), Some (1 # 1000000000000), Some (1 # 1000000000000000000)));
   ((u "u"), (Some (1 # 1000000), Some (1 # 1000000000000), Some (1 # 1000000000000000000)));
   ((u "n"), (Some (1 # 1000000000), Some (1 # 1000000000000000000), Some (1 # 1000000000000000000000000000)));
   ((u "p"), (Some (1 # 1000000000000), Some (1 # 1000000000000000000000000), Some (1 # 1000000000000000000000000000000000000)));
   ((u "f"), (Some (1 # 1000000000000000), Some (1 # 1000000000000000000000000000000), Some (1 # 1000000000000000000000000000000000000000000000)));
   ((u "a"), (Some (1 # 1000000000000000000), Some (1 # 1000000000000000000000000000000000000), Some (1 # 1000000000000000000000000000000000000000000000000000000)));
   ((u "z"), (Some (1 # 1000000000000000000000), Some (1 # 1000000000000000000000000000000000000000000), Some (1 # 1000000000000000000000000000000000000000000000000000000000000000)));
   ((u "y"), (Some (1 # 1000000000000000000000000), Some (1 # 1000000000000000000000000000000000000000000000000), Some (1 # 1000000000000000000000000000000000000000000000000000000000000000000000000)));
   ((u "r"), (Some (1 # 1000000000000000000000000000), Some (1 # 1000000000000000000000000000000000000000000000000000000), Some (1 # 1000000000000000000000000000000000000000000000000000000000000000000000000000000000)));
   ((u "q"), (Some (1 # 1000000000000000000000000000000), Some (1 # 1000000000000000000000000000000000000000000000000000000000000), Some (1 # 1000000000000000000000000000000000000000000000000000000000000000000000000000000000000000000)))].

(** dictionaries.py:58-61 [SI_order] *)
Definition SI_order : list (list str) :=
  [[(u "Length"); (u "Pressure"); (u "Weight"); (u "Mass"); (u "Time"); (u "Frequency"); (u "Power"); (u "Voltage"); (u "Current"); (u "Resistance"); (u "Impedance"); (u "Conductance"); (u "Capacitance"); (u "Charge"); (u "Inductance"); (u "Energy"); (u "Permeability")];
   [(u "Area")];
   [(u "Rate"); (u "Volume")]].

(** dictionaries.py:63-73 [DATA]: the factor of each [lambda X: X * factor]. *)
Definition DATA : list (str * (option Q * option Q)) :=
  [((u "Y"), (Some (1000000000000000000000000 # 1), Some (1208925819614629174706176 # 1)));
   ((u "Z"), (Some (1000000000000000000000 # 1), Some (1180591620717411303424 # 1)));
   ((u "E"), (Some (1000000000000000000 # 1), Some (1152921504606846976 # 1)));
   ((u "P"), (Some (1000000000000000 # 1), Some (1125899906842624 # 1)));
   ((u "T"), (Some (1000000000000 # 1), Some (1099511627776 # 1)));
   ((u "G"), (Some (1000000000 # 1), Some (1073741824 # 1)));
   ((u "M"), (Some (1000000 # 1), Some (1048576 # 1)));
   ((u "K"), (Some (1000 # 1), Some (1024 # 1)));
   ((u "k"), (Some (1000 # 1), Some (1024 # 1)))].

(** dictionaries.py:75-75 [DATA_order] *)
Definition DATA_order : list (list str) :=
  [[(u "dataBIT")];
   [(u "dataBYTE")]].

(** dictionaries.py:78-82 [OGF]: the factor of each [lambda X: X * factor]. *)
Definition OGF : list (str * (option Q * option Q * option Q)) :=
  [((u "M"), (None, None, Some (1000 # 1)));
   ((u "MM"), (None, None, Some (1000000 # 1)));
   ((u "B"), (None, None, Some (1000000000 # 1)));
   ((u "T"), (None, None, Some (1000000000000 # 1)))].

(** dictionaries.py:83-83 [OGF_order] *)
Definition OGF_order : list (list str) :=
  [[];
   [];
   [(u "Volume"); (u "Rate")]].

(** dictionaries.py:92-92 *)
Definition d_Time : list str :=
  [].

(** dictionaries.py:93-106 *)
Definition d_Time_NAMES_REVERSE : list (str * list str) :=
  [((u "nanosecond"), [(u "ns")]);
   ((u "millisecond"), [(u "ms")]);
   ((u "second"), [(u "s"); (u "ss"); (u "sec")]);
   ((u "minute"), [(u "min")]);
   ((u "hour"), [(u "h"); (u "hh"); (u "hr"); (u "Wh/W"); (u "Watt hour/Watt")]);
   ((u "day"), [(u "d"); (u "día"); (u "días"); (u "DíA")]);
   ((u "week"), [(u "we"); (u "w"); (u "WE")]);
   ((u "month"), [(u "mo"); (u "mes"); (u "meses")]);
   ((u "year"), [(u "y"); (u "yy"); (u "yyyy"); (u "año")]);
   ((u "lustrum"), []);
   ((u "decade"), []);
   ((u "century"), [(u "centuries")])].

(** dictionaries.py:107-107 *)
Definition d_Time_PLURALwS_UPPER_REVERSE : list str :=
  map fst d_Time_NAMES_REVERSE ++
  [(u "min"); (u "año")].

(** dictionaries.py:108-117 *)
Definition d_Time_UPPER_REVERSE : list str :=
  filter longer (names_of (u "nanosecond") d_Time_NAMES_REVERSE) ++
  filter longer (names_of (u "millisecond") d_Time_NAMES_REVERSE) ++
  filter longer (names_of (u "second") d_Time_NAMES_REVERSE) ++
  [(u "s")] ++
  filter longer (names_of (u "hour") d_Time_NAMES_REVERSE) ++
  filter longer (names_of (u "day") d_Time_NAMES_REVERSE) ++
  filter longer (names_of (u "hour") d_Time_NAMES_REVERSE) ++
  filter longer (names_of (u "month") d_Time_NAMES_REVERSE) ++
  filter longer (names_of (u "year") d_Time_NAMES_REVERSE) ++
  [(u "centuries")].

(** dictionaries.py:118-118 *)
Definition d_Time_SI : list str :=
  [(u "s")].

(** dictionaries.py:121-121 *)
Definition d_Temperature : list str :=
  [(u "C"); (u "K"); (u "F"); (u "R")].

(** dictionaries.py:122-127 *)
Definition d_Temperature_NAMES : list (str * list str) :=
  [((u "Celsius"), [(u "Centigrade"); (u "C"); (u "deg C"); (u "degC"); (u "degrees C")]);
   ((u "Fahrenheit"), [(u "F"); (u "deg F"); (u "degF"); (u "degrees F")]);
   ((u "Rankine"), [(u "R"); (u "deg R"); (u "degR"); (u "degrees R")]);
   ((u "Kelvin"), [(u "K"); (u "deg K"); (u "degK"); (u "degrees K")])].

(** dictionaries.py:128-131 *)
Definition d_Temperature_UPPER_LOWER : list str :=
  map fst d_Temperature_NAMES ++
  filter longer (concat (map snd d_Temperature_NAMES)).

(** dictionaries.py:132-132 *)
Definition d_TemperatureGradient : list str :=
  [].

(** dictionaries.py:135-135 *)
Definition d_Volume : list str :=
  [].

(** dictionaries.py:136-136 *)
Definition d_Volume_SI_UPPER : list str :=
  [(u "m3"); (u "m³")].

(** dictionaries.py:137-137 *)
Definition d_Volume_linearSI : list str :=
  [(u "sm3"); (u "sm³"); (u "Sm3"); (u "Sm³"); (u "stm3"); (u "stm³"); (u "STm3"); (u "STm³"); (u "rem3"); (u "rem³"); (u "l")].

(** dictionaries.py:138-149 *)
Definition d_Volume_UK_NAMES_REVERSE : list (str * list str) :=
  [((u "fluid ounce"), [(u "fl oz"); (u "oz"); (u "ounce"); (u "ozUS")]);
   ((u "gill"), [(u "gi"); (u "gillUS"); (u "giUS"); (u "USgill")]);
   ((u "pint"), [(u "pt"); (u "pintUS"); (u "ptUS"); (u "USpint")]);
   ((u "quart"), [(u "qt"); (u "quartUS"); (u "qtUS"); (u "USquart")]);
   ((u "gallonUS"), [(u "gal"); (u "galUS"); (u "USgal"); (u "USgallon"); (u "gallon"); (u "gallonsUS")]);
   ((u "gallonUK"), [(u "imperial gallon"); (u "galUK"); (u "UKgal"); (u "UKgallon"); (u "gallonsUK")]);
   ((u "fluid ounce UK"), [(u "fl oz UK"); (u "ozUK"); (u "ounceUK")]);
   ((u "gillUK"), [(u "giUK"); (u "UKgill")]);
   ((u "pintUK"), [(u "ptUK"); (u "UKpint")]);
   ((u "quartUK"), [(u "qtUK"); (u "UKquart")])].

(** dictionaries.py:150-176 *)
Definition d_Volume_NAMES_SPACES_REVERSE : list (str * list str) :=
  [((u "litre"), [(u "l"); (u "liter"); (u "litro")]);
   ((u "millilitre"), [(u "ml"); (u "milliliter"); (u "cubic centimeter")]);
   ((u "centilitre"), [(u "cl"); (u "centiliter")]);
   ((u "decilitre"), [(u "dl"); (u "deciliter")]);
   ((u "cubic meter"), [(u "CM"); (u "m3"); (u "m³")]);
   ((u "standard cubic meter"), [(u "scm"); (u "sm3"); (u "stm3"); (u "m3"); (u "Sm3"); (u "sm³")]);
   ((u "cubic centimeter"), [(u "cc"); (u "cm3"); (u "standard cubic centimeter"); (u "cm³")]);
   ((u "standard cubic centimeter"), [(u "scc"); (u "scm3"); (u "scm³")]);
   ((u "reservoir cubic meter"), [(u "rem3"); (u "REm3"); (u "Rem3"); (u "rem³")]);
   ((u "reservoir cubic centimeter"), [(u "recc"); (u "recm3"); (u "recm³")]);
   ((u "cubic thou"), [(u "th3"); (u "th2*th"); (u "th*th2"); (u "th³")]);
   ((u "cubic tenth"), [(u "te3"); (u "te2*te"); (u "te*te2"); (u "te³")]);
   ((u "cubic inch"), [(u "cubic inches"); (u "in3"); (u "in2*in"); (u "in*in2"); (u "in³")]);
   ((u "cubic foot"), [(u "cubic feet"); (u "ft3"); (u "ft³"); (u "cf"); (u "ft2*ft"); (u "ft*ft2"); (u "pie cúbico"); (u "pie cubico"); (u "pc"); (u "pies cúbicos"); (u "pies cubicos")]);
   ((u "cubic yard"), [(u "yd3"); (u "yd³"); (u "yd2*ydyd*yd2")]);
   ((u "cubic chain"), [(u "ch3"); (u "ch³"); (u "ch2*ch"); (u "ch*ch2")]);
   ((u "cubic rod"), [(u "rd3"); (u "rd³"); (u "rd2*rd"); (u "rd*rd2")]);
   ((u "cubic furlong"), [(u "fur3"); (u "fur³"); (u "fur2*fur"); (u "fur*fur2")]);
   ((u "cubic mile"), [(u "mi3"); (u "mi³"); (u "mi2*mi"); (u "mi*mi2")]);
   ((u "cubic league"), [(u "lea3"); (u "lea³"); (u "lea2*lea"); (u "lea*lea2")]);
   ((u "standard cubic foot"), [(u "scf"); (u "cf")]);
   ((u "barrel"), [(u "bbl"); (u "stb"); (u "oil barrel")]);
   ((u "reservoir barrel"), [(u "rb"); (u "reb")]);
   ((u "standard barrel"), [(u "stb"); (u "stbo"); (u "stbw"); (u "stbl"); (u "oil barrel")])].

(** dictionaries.py:177-177 *)
Definition d_Volume_UPPER : list str :=
  [(u "sm3"); (u "sm³"); (u "stm3"); (u "stm³"); (u "rem3"); (u "rem³"); (u "kstm3"); (u "kstm³"); (u "Mstm3"); (u "Mstm³")].

(** dictionaries.py:178-184 *)
Definition d_Volume_PLURALwS_UPPER_LOWER : list str :=
  map fst d_Volume_NAMES_SPACES_REVERSE ++
  map fst d_Volume_UK_NAMES_REVERSE ++
  [(u "fl oz"); (u "oz"); (u "ounce"); (u "gallon"); (u "imperial gallon"); (u "barrel"); (u "gal"); (u "oil barrel"); (u "oil gallon"); (u "USgallon"); (u "UKgallon"); (u "USounce"); (u "UKounce"); (u "cubic centimeter"); (u "standard cubic centimeter"); (u "liter"); (u "milliliter"); (u "centiliter"); (u "deciliter")].

(** dictionaries.py:185-185 *)
Definition d_Volume_OGF : list str :=
  [(u "scf"); (u "cf"); (u "ft3"); (u "ft³"); (u "stb"); (u "bbl"); (u "rb"); (u "reb"); (u "stbo"); (u "stbw"); (u "stbl")].

(** dictionaries.py:187-192 *)
Definition d_Volume_oilgas_UPPER : list str :=
  [(u "sm3"); (u "Sm3"); (u "stm3"); (u "STm3"); (u "m3"); (u "rem3"); (u "REm3"); (u "ksm3"); (u "Msm3"); (u "Gsm3"); (u "sm³"); (u "Sm³"); (u "stm³"); (u "STm³"); (u "m³"); (u "rem³"); (u "REm³"); (u "ksm³"); (u "Msm³"); (u "Gsm³"); (u "scf"); (u "cf"); (u "ft3"); (u "Mscf"); (u "MMscf"); (u "Bscf"); (u "Tscf"); (u "Mcf"); (u "MMcf"); (u "Bcf"); (u "Tcf"); (u "stb"); (u "bbl"); (u "rb"); (u "reb"); (u "Mstb"); (u "MMstb"); (u "Bstb"); (u "Tstb"); (u "Mbbl"); (u "MMbbl"); (u "Mrb"); (u "MMrb")].

(** dictionaries.py:193-199 *)
Definition d_Volume_product_NAMES_REVERSE : list (str * list str) :=
  [((u "m3"), [(u "m³"); (u "m2*m"); (u "m*m2"); (u "m²*m"); (u "m*m²")]);
   ((u "cm3"), [(u "cm³"); (u "cm2*cm"); (u "cm*cm2"); (u "cm²*cm"); (u "cm*cm²")]);
   ((u "yd3"), [(u "yd³"); (u "yd2*yd"); (u "yd*yd2"); (u "yd²*yd"); (u "yd*yd²")]);
   ((u "ft3"), [(u "ft³"); (u "ft2*ft"); (u "ft*ft2"); (u "ft²ft"); (u "ft*ft²")]);
   ((u "in3"), [(u "in³"); (u "in2*in"); (u "in*in2"); (u "in²*in"); (u "in*in²")])].

(** dictionaries.py:202-202 *)
Definition d_Length : list str :=
  [].

(** dictionaries.py:203-206 *)
Definition d_Length_NAMES_REVERSE_UPPER : list (str * list str) :=
  [((u "meter"), [(u "m"); (u "metre"); (u "metro")]);
   ((u "parsec"), []);
   ((u "astronomical unit"), [(u "au")]);
   ((u "light year"), [(u "ly"); (u "lyr")])].

(** dictionaries.py:207-207 *)
Definition d_Length_SI : list str :=
  [(u "m")].

(** dictionaries.py:208-221 *)
Definition d_Length_UK_NAMES_REVERSE : list (str * list str) :=
  [((u "thou"), [(u "th")]);
   ((u "tenth"), [(u "te"); (u "0.1 in"); (u "0.1in"); (u ".1in")]);
   ((u "inch"), [(u "in"); (u """")]);
   ((u "foot"), [(u "feet"); (u "ft"); (u "'")]);
   ((u "yard"), [(u "yd")]);
   ((u "chain"), [(u "ch")]);
   ((u "rod"), [(u "rd")]);
   ((u "furlong"), [(u "fur")]);
   ((u "mile"), [(u "mi")]);
   ((u "league"), [(u "lea")]);
   ((u "nautical mile"), [(u "nmi")]);
   ((u "nautical league"), [(u "nlea")])].

(** dictionaries.py:222-223 *)
Definition d_Length_UK_UPPER : list str :=
  map fst d_Length_UK_NAMES_REVERSE ++
  [(u "feet"); (u "in"); (u "ft"); (u "0.1 in"); (u "0.1in"); (u ".1in")].

(** dictionaries.py:226-226 *)
Definition d_Area : list str :=
  [].

(** dictionaries.py:227-232 *)
Definition d_Area_NAMES_REVERSE_UPPER : list (str * list str) :=
  [((u "square centimeter"), [(u "square centimetre"); (u "sq cm"); (u "sqcm"); (u "cm2"); (u "cm²"); (u "sqcentimeter"); (u "cm*cm"); (u "cm3/cm")]);
   ((u "square meter"), [(u "square metre"); (u "centiare"); (u "sq m"); (u "sqm"); (u "m2"); (u "m²"); (u "sqmeter"); (u "m*m"); (u "m3/m")]);
   ((u "square decameter"), [(u "square decametre"); (u "are"); (u "sq dam"); (u "sqdam"); (u "dam2"); (u "dam²"); (u "sqdecameter"); (u "dam*dam"); (u "dam3/dam")]);
   ((u "square hectometer"), [(u "square hectometre"); (u "hectare"); (u "sq hm"); (u "sqhm"); (u "hm2"); (u "hm²"); (u "sqhectometer"); (u "hm*hm"); (u "hm3/hm")]);
   ((u "square kilometer"), [(u "square kilometre"); (u "sqkm"); (u "sq km"); (u "km2"); (u "km²")])].

(** dictionaries.py:233-233 *)
Definition d_Area_SI : list str :=
  [(u "m2"); (u "m²")].

(** dictionaries.py:234-246 *)
Definition d_Area_UK_NAMES_REVERSE_UPPER : list (str * list str) :=
  [((u "acre"), []);
   ((u "square thou"), [(u "sq th"); (u "sqth"); (u "th2"); (u "th²"); (u "th*th"); (u "th3/th"); (u "th³/th")]);
   ((u "square tenth"), [(u "sq te"); (u "sqte"); (u "te2"); (u "te²"); (u "te*te"); (u "te3/te"); (u "te³/te")]);
   ((u "square inch"), [(u "sq in"); (u "sqin"); (u "in2"); (u "in²"); (u "in*in"); (u "in3/in"); (u "in³/in")]);
   ((u "square foot"), [(u "sq ft"); (u "sqft"); (u "ft2"); (u "ft²"); (u "ft*ft"); (u "ft3/ft"); (u "ft³/ft")]);
   ((u "square yard"), [(u "sq yd"); (u "sqyd"); (u "yd2"); (u "yd²"); (u "yd*yd"); (u "yd3/yd"); (u "yd³/yd")]);
   ((u "square chain"), [(u "sq ch"); (u "sqch"); (u "ch2"); (u "ch²"); (u "ch*ch"); (u "ch3/ch"); (u "ch³/ch")]);
   ((u "square rod"), [(u "sq rd"); (u "sqrd"); (u "rd2"); (u "rd²"); (u "rd*rd"); (u "rd3/rd"); (u "rd³/rd")]);
   ((u "square furlong"), [(u "sq fur"); (u "sqfur"); (u "fur2"); (u "fur²"); (u "fur*fur"); (u "fur3/fur"); (u "fur³/fur")]);
   ((u "square mile"), [(u "sq mi"); (u "mi2"); (u "mi²"); (u "sqmile"); (u "mi*mi"); (u "mi3/mi"); (u "mi³/mi")]);
   ((u "square league"), [(u "sq lea"); (u "sqlea"); (u "lea2"); (u "lea²"); (u "lea*lea"); (u "lea3/lea"); (u "lea³/lea")])].

(** dictionaries.py:249-249 *)
Definition d_Pressure : list str :=
  [].

(** dictionaries.py:250-252 *)
Definition d_Pressure_NAMES_REVERSE : list (str * list str) :=
  [((u "Pascal"), [(u "Pa")])].

(** dictionaries.py:253-266 *)
Definition d_Pressure_NAMES_REVERSE_UPPER_SPACES : list (str * list str) :=
  [((u "absolute psi"), [(u "psia"); (u "lb/in2"); (u "lb/in²"); (u "absolute pound/square inch"); (u "psi absolute"); (u "lpca"); (u "libras/pulgada cuadrada absoluta")]);
   ((u "psi gauge"), [(u "psi"); (u "pound/square inch"); (u "psig"); (u "gauge psi"); (u "lpc"); (u "lpcm"); (u "libras/pulgada cuadrada")]);
   ((u "absolute bar"), [(u "bara"); (u "barsa"); (u "abs bar"); (u "bar absolute")]);
   ((u "bar gauge"), [(u "bar"); (u "barg"); (u "gauge bar"); (u "bars"); (u "barsg")]);
   ((u "atmosphere"), [(u "atm"); (u "atma")]);
   ((u "Pascal"), [(u "Newton/m2"); (u "Newton/m²")]);
   ((u "kPa"), [(u "KPa"); (u "kilopascal"); (u "kpa")]);
   ((u "hPa"), [(u "hectopascal")]);
   ((u "Torr"), [(u "millimeters of mercury")]);
   ((u "millimeters of mercury"), [(u "mmHg")]);
   ((u "kilogram/square centimeter"), [(u "kg/cm2"); (u "Kg/cm2"); (u "kg/cm²"); (u "kg/cm²")])].

(** dictionaries.py:267-267 *)
Definition d_Pressure_SI : list str :=
  [(u "Pa"); (u "bara"); (u "barsa"); (u "bar"); (u "barg")].

(** dictionaries.py:270-270 *)
Definition d_PressureGradient : list str :=
  [(u "psi/ft"); (u "psi/m"); (u "bar/m"); (u "bar/ft")].

(** dictionaries.py:271-276 *)
Definition d_PressureGradient_NAMES_REVERSE : list (str * list str) :=
  [((u "psi/ft"), [(u "psia/ft"); (u "psig/ft")]);
   ((u "psi/m"), [(u "psia/m"); (u "psig/m")]);
   ((u "bar/m"), [(u "bars/m"); (u "barsa/m"); (u "bara/m"); (u "barsg/m"); (u "barg/m")]);
   ((u "bar/ft"), [(u "bars/ft"); (u "barsa/ft"); (u "bara/ft"); (u "barsg/ft"); (u "barg/ft")])].

(** dictionaries.py:279-279 *)
Definition d_Weight : list str :=
  [].

(** dictionaries.py:280-288 *)
Definition d_Weight_NAMES_REVERSE : list (str * list str) :=
  [((u "gram"), [(u "g")]);
   ((u "kilogram"), [(u "kg")]);
   ((u "milligram"), [(u "mg")]);
   ((u "microgram"), [(u "ug"); (u "µg")]);
   ((u "metric ton"), [(u "Tonne")]);
   ((u "g-mol"), [(u "g-moles")]);
   ((u "Kg-mol"), [(u "Kg-moles")])].

(** dictionaries.py:289-303 *)
Definition d_Weight_UK_NAMES_REVERSE : list (str * list str) :=
  [((u "grain"), [(u "gr")]);
   ((u "pennyweight"), [(u "pwt"); (u "dwt")]);
   ((u "dram"), [(u "dr"); (u "dramch")]);
   ((u "ounce"), [(u "oz"); (u "wt oz"); (u "weight ounce")]);
   ((u "pound"), [(u "lb"); (u "#"); (u "libra")]);
   ((u "stone"), [(u "st")]);
   ((u "quarter"), [(u "qr"); (u "qrt")]);
   ((u "short hundredweight"), [(u "US hundredweight"); (u "UScwt"); (u "swtUS")]);
   ((u "long hundredweight"), [(u "UK hundredweight"); (u "UKcwt"); (u "cwt"); (u "swtUK")]);
   ((u "short ton"), [(u "USton"); (u "tonUS")]);
   ((u "long ton"), [(u "t"); (u "UKton"); (u "ton"); (u "tonUK"); (u "Ton")])].

(** dictionaries.py:304-306 *)
Definition d_Weight_PLURALwS_UPPER_LOWER_SPACES : list str :=
  map fst d_Weight_NAMES_REVERSE ++
  map fst d_Weight_UK_NAMES_REVERSE ++
  [(u "Tonne"); (u "ton"); (u "UKton"); (u "USton"); (u "lb"); (u "libra")].

(** dictionaries.py:307-307 *)
Definition d_Weight_SI : list str :=
  [(u "g"); (u "g-mol")].

(** dictionaries.py:310-310 *)
Definition d_Mass : list str :=
  [(u "kilogram mass")].

(** dictionaries.py:311-313 *)
Definition d_Mass_NAMES_REVERSE_UPPER_LOWER : list (str * list str) :=
  [((u "kilogram mass"), [(u "Kgm"); (u "kilogram mass")])].

(** dictionaries.py:316-316 *)
Definition d_Density : list str :=
  [].

(** dictionaries.py:317-317 *)
Definition d_Density_oilgas : list (str * list str) :=
  [].

(** dictionaries.py:318-323 *)
Definition d_Density_NAMES_REVERSE_LOWER_UPPER : list (str * list str) :=
  [((u "API"), [(u "degrees")]);
   ((u "SgG"), [(u "gas gravity"); (u "gas specific gravity"); (u "sgg")]);
   ((u "SgW"), [(u "water gravity"); (u "sgw")]);
   ((u "SgO"), [(u "oil gravity"); (u "sgo")])].

(** dictionaries.py:324-336 *)
Definition d_Density_NAMES_REVERSE_UPPER : list (str * list str) :=
  [((u "g/cm3"), [(u "g/cc"); (u "g/cm³")]);
   ((u "kg/m3"), [(u "Kg/m3"); (u "kg/m³")]);
   ((u "lb/ft3"), []);
   ((u "lb/yd3"), []);
   ((u "psi/ft"), []);
   ((u "kJ/rem3"), [(u "KJ/rem3"); (u "kJ/rem³")]);
   ((u "kJ/sm3"), [(u "KJ/sm3"); (u "kJ/sm³"); (u "KJ/stm3"); (u "kJ/stm³")]);
   ((u "kJ/m3"), [(u "KJ/m3"); (u "kJ/m³")]);
   ((u "lb/stb"), []);
   ((u "psia/ft"), [(u "psi/ft"); (u "psig/ft")]);
   ((u "bara/m"), [(u "bar/m"); (u "barg/m")])].

(** dictionaries.py:339-339 *)
Definition d_Compressibility : list str :=
  [].

(** dictionaries.py:340-344 *)
Definition d_Compressibility_UPPER_NAMES_REVERSE : list (str * list str) :=
  [((u "1/psi"), [(u "1/psia"); (u "µsip"); (u "usip"); (u "1/psig")]);
   ((u "µsip"), [(u "usip")]);
   ((u "1/bar"), [(u "1/bara"); (u "1/barg")])].

(** dictionaries.py:347-347 *)
Definition d_Rate : list str :=
  [].

(** dictionaries.py:360-367 *)
Definition d_Rate_NAMES_REVERSE_UPPER_SPACES : list (str * list str) :=
  [((u "stb/day"), [(u "stbd")]);
   ((u "scf/day"), [(u "scfd"); (u "cf/day")]);
   ((u "sm3/day"), [(u "sm3d"); (u "stm3d"); (u "stm3/day"); (u "sm³/day")]);
   ((u "bbl/day"), [(u "bbld")]);
   ((u "m3/day"), [(u "m3/d"); (u "m³/day")]);
   ((u "ft3/day"), [(u "cf/day")])].

(** dictionaries.py:370-370 *)
Definition d_Velocity : list str :=
  [(u "kilometer per hour"); (u "mile per hour")].

(** dictionaries.py:371-374 *)
Definition d_Velocity_NAMES_REVERSE_UPPER_LOWER : list (str * list str) :=
  [((u "kilometer per hour"), [(u "kilometers per hour"); (u "kph"); (u "KPH"); (u "km/hr")]);
   ((u "mile per hour"), [(u "miles per hour"); (u "mph"); (u "MPH"); (u "mi/hr")])].

(** dictionaries.py:378-378 *)
Definition d_dataBYTE : list str :=
  [].

(** dictionaries.py:379-379 *)
Definition d_dataBYTE_NAMES_REVERSE : list (str * list str) :=
  [((u "byte"), [(u "B"); (u "Byte"); (u "BYTE")])].

(** dictionaries.py:380-380 *)
Definition d_dataBYTE_DATA : list str :=
  [(u "B"); (u "byte")].

(** dictionaries.py:381-381 *)
Definition d_dataBIT : list str :=
  [].

(** dictionaries.py:382-382 *)
Definition d_dataBIT_NAMES_REVERSE : list (str * list str) :=
  [((u "bit"), [(u "b"); (u "Bit"); (u "BIT")])].

(** dictionaries.py:383-383 *)
Definition d_dataBIT_DATA : list str :=
  [(u "b"); (u "bit")].

(** dictionaries.py:386-386 *)
Definition d_Viscosity : list str :=
  [].

(** dictionaries.py:387-391 *)
Definition d_Viscosity_NAMES_REVERSE_UPPER : list (str * list str) :=
  [((u "centipoise"), [(u "cP")]);
   ((u "Poise"), [(u "dyne*s/cm2"); (u "g/cm/s")]);
   ((u "Pa*s"), [(u "N*s/m2"); (u "kg/m/s")])].

(** dictionaries.py:394-394 *)
Definition d_Permeability : list str :=
  [].

(** dictionaries.py:395-398 *)
Definition d_Permeability_NAMES_REVERSE : list (str * list str) :=
  [((u "Darcy"), [(u "D")]);
   ((u "millidarcy"), [(u "mD")])].

(** dictionaries.py:399-399 *)
Definition d_Permeability_UPPER_LOWER : list str :=
  [(u "Darcy"); (u "millidarcy")].

(** dictionaries.py:400-400 *)
Definition d_Permeability_SI : list str :=
  [(u "D")].

(** dictionaries.py:403-403 *)
Definition d_Force : list str :=
  [].

(** dictionaries.py:404-409 *)
Definition d_Force_NAMES_REVERSE_SPACES_RECURSIVE_UPPER : list (str * list str) :=
  [((u "Newton"), [(u "N"); (u "newton"); (u "kg*m/s2")]);
   ((u "kilogram force"), [(u "kgf"); (u "kilopondio")]);
   ((u "kilopondio"), [(u "kp")]);
   ((u "Dyne"), [(u "dyne"); (u "dyn"); (u "g*cm/s2")])].

(** dictionaries.py:412-412 *)
Definition d_Energy : list str :=
  [].

(** dictionaries.py:413-421 *)
Definition d_Energy_NAMES_REVERSE_SPACES_UPPER_LOWER : list (str * list str) :=
  [((u "Joule"), [(u "J"); (u "Watt second"); (u "N*m"); (u "kg*m2/s2"); (u "Joules")]);
   ((u "Kilojoule"), [(u "kJ")]);
   ((u "kilowatt hour"), [(u "kWh"); (u "kW*h"); (u "kilovatio hora")]);
   ((u "British thermal unit"), [(u "BTU"); (u "british thermal unit")]);
   ((u "Watt second"), [(u "Ws"); (u "Watt*second"); (u "W*s")]);
   ((u "Watt hour"), [(u "Wh"); (u "Watt*hour"); (u "W*h")]);
   ((u "gram calorie"), [(u "cal"); (u "calorie"); (u "Calorie")])].

(** dictionaries.py:422-422 *)
Definition d_Energy_SI : list str :=
  [(u "Wh"); (u "Ws")].

(** dictionaries.py:425-425 *)
Definition d_Power : list str :=
  [].

(** dictionaries.py:426-429 *)
Definition d_Power_NAMES_REVERSE_UPPER : list (str * list str) :=
  [((u "Horsepower"), [(u "hp")]);
   ((u "Watt"), [(u "W"); (u "J/s"); (u "VA"); (u "Volt*Ampere"); (u "Watt hour/hour"); (u "V*A"); (u "Wh/h")])].

(** dictionaries.py:430-430 *)
Definition d_Power_SI : list str :=
  [(u "W")].

(** dictionaries.py:433-433 *)
Definition d_Voltage : list str :=
  [].

(** dictionaries.py:434-436 *)
Definition d_Voltage_NAMES_REVERSE_UPPER : list (str * list str) :=
  [((u "Volt"), [(u "V"); (u "Voltio"); (u "Ampere*Ohm"); (u "Watt/Ampere"); (u "A*ohm"); (u "ohm*A"); (u "Ohm*Ampere"); (u "W/A")])].

(** dictionaries.py:437-437 *)
Definition d_Voltage_SI : list str :=
  [(u "V")].

(** dictionaries.py:440-440 *)
Definition d_Current : list str :=
  [].

(** dictionaries.py:441-443 *)
Definition d_Current_NAMES_REVERSE_UPPER : list (str * list str) :=
  [((u "Ampere"), [(u "A"); (u "Watt/Volt"); (u "Volt/Ohm"); (u "W/V"); (u "V/ohm")])].

(** dictionaries.py:444-444 *)
Definition d_Current_SI : list str :=
  [(u "A")].

(** dictionaries.py:447-447 *)
Definition d_Resistance : list str :=
  [].

(** dictionaries.py:448-450 *)
Definition d_Resistance_NAMES_REVERSE_UPPER : list (str * list str) :=
  [((u "Ohm"), [(u "ohm"); (u "Ω"); (u "Volt/Ampere"); (u "V/A"); (u "ohm.m")])].

(** dictionaries.py:451-451 *)
Definition d_Resistance_SI : list str :=
  [(u "Ω")].

(** dictionaries.py:454-454 *)
Definition d_Impedance : list str :=
  [].

(** dictionaries.py:455-457 *)
Definition d_Impedance_NAMES_REVERSE_UPPER : list (str * list str) :=
  [((u "Ohm"), [(u "ohm"); (u "Ω")])].

(** dictionaries.py:458-458 *)
Definition d_Impedance_SI : list str :=
  [(u "Ω")].

(** dictionaries.py:461-461 *)
Definition d_Conductance : list str :=
  [].

(** dictionaries.py:462-464 *)
Definition d_Conductance_NAMES_REVERSE : list (str * list str) :=
  [((u "Siemen"), [(u "G"); (u "℧")])].

(** dictionaries.py:465-465 *)
Definition d_Conductance_SI : list str :=
  [(u "℧")].

(** dictionaries.py:466-466 *)
Definition d_Conductance_UPPER : list str :=
  [(u "Siemen")].

(** dictionaries.py:469-469 *)
Definition d_Capacitance : list str :=
  [].

(** dictionaries.py:470-472 *)
Definition d_Capacitance_NAMES_REVERSE_UPPER : list (str * list str) :=
  [((u "Farad"), [(u "F"); (u "Faradio"); (u "Farads"); (u "farads"); (u "Coulomb/Volt"); (u "Q/V")])].

(** dictionaries.py:473-473 *)
Definition d_Capacitance_SI : list str :=
  [(u "F")].

(** dictionaries.py:476-476 *)
Definition d_Charge : list str :=
  [].

(** dictionaries.py:477-479 *)
Definition d_Charge_NAMES_REVERSE_UPPER : list (str * list str) :=
  [((u "Coulomb"), [(u "Q"); (u "Volt*Farad"); (u "V*F")])].

(** dictionaries.py:480-480 *)
Definition d_Charge_SI : list str :=
  [(u "Q")].

(** dictionaries.py:483-483 *)
Definition d_Inductance : list str :=
  [].

(** dictionaries.py:484-486 *)
Definition d_Inductance_NAMES_REVERSE_UPPER : list (str * list str) :=
  [((u "Henry"), [(u "L"); (u "H")])].

(** dictionaries.py:487-487 *)
Definition d_Inductance_SI : list str :=
  [(u "H")].

(** dictionaries.py:490-490 *)
Definition d_Frequency : list str :=
  [].

(** dictionaries.py:491-494 *)
Definition d_Frequency_NAMES_REVERSE_UPPER : list (str * list str) :=
  [((u "Hertz"), [(u "Hz"); (u "hertz"); (u "1/s"); (u "s-1")]);
   ((u "RPM"), [(u "rpm"); (u "1/min")])].

(** dictionaries.py:495-495 *)
Definition d_Frequency_SI : list str :=
  [(u "Hz")].

(** dictionaries.py:498-498 *)
Definition d_ProductivityIndex : list str :=
  [].

(** dictionaries.py:499-509 *)
Definition d_ProductivityIndex_NAMES_REVERSE_UPPER : list (str * list str) :=
  [((u "stb/day/psi"), [(u "STB/DAY/"); (u "stbd/psi"); (u "stbd/psia"); (u "stb/day/psia"); (u "stb/day-psi"); (u "STB/DAY-PSI"); (u "stb/day-psia"); (u "STB/DAY-PSIA"); (u "stb/d/psi")]);
   ((u "sm3/day/bar"), [(u "SM3/DAY/"); (u "sm3/d/b"); (u "sm3d/bar"); (u "sm3d/bara"); (u "sm3/day/bara"); (u "sm3/day-bar"); (u "SM3/DAY-BAR"); (u "sm3/day-bara"); (u "SM3/DAY-BARA"); (u "sm3/day/barsa")]);
   ((u "sm3/day/kPa"), [(u "sm3d/kPa"); (u "sm3d/kPa"); (u "sm3/day-kPa"); (u "SM3/DAY-KPA"); (u "sm3/d/kPa")])].

(** dictionaries.py:512-512 *)
Definition d_Acceleration : list str :=
  [(u "m/s2"); (u "ft/s2")].

(** dictionaries.py:515-515 *)
Definition d_Dimensionless : list str :=
  [].

(** dictionaries.py:516-517 *)
Definition d_Dimensionless_fractions_NAMES_REVERSE_UPPER : list (str * list str) :=
  [((u "fraction"), [(u "ratio"); (u "dimensionless"); (u "unitless"); (u "None"); (u "")])].

(** dictionaries.py:519-519 *)
Definition d_Percentage : list str :=
  [].

(** dictionaries.py:520-520 *)
Definition d_Percentage_NAMES_REVERSE : list (str * list str) :=
  [((u "percentage"), [(u "%"); (u "perc"); (u "percent"); (u "/100")])].

(** dictionaries.py:523-523 *)
Definition d_Date : list str :=
  [].

(** dictionaries.py:524-524 *)
Definition d_Date_NAMES_REVERSE_UPPER_PLURALwS : list (str * list str) :=
  [((u "date"), [(u "dates"); (u "Date"); (u "Dates")])].

(** dictionaries.py:526-526 *)
Definition d_UserUnits : list str :=
  [].

(** dictionaries.py:529-529 *)
Definition d_otherUnits : list str :=
  [].

(** dictionaries.py:530-533 *)
Definition d_otherUnits_NAMES_REVERSE_UPPER : list (str * list str) :=
  [((u "sec/day"), [(u "sec/d")]);
   ((u "s2"), [(u "s*s")])].

(** dictionaries.py:83-524 [dictionary], keys in insertion order (a key assigned twice keeps its place). *)
Definition raw_dictionary : list (str * names) :=
  [((u "Time"), NList d_Time);
   ((u "Time_NAMES_REVERSE"), NDict d_Time_NAMES_REVERSE);
   ((u "Time_PLURALwS_UPPER_REVERSE"), NList d_Time_PLURALwS_UPPER_REVERSE);
   ((u "Time_UPPER_REVERSE"), NList d_Time_UPPER_REVERSE);
   ((u "Time_SI"), NList d_Time_SI);
   ((u "Temperature"), NList d_Temperature);
   ((u "Temperature_NAMES"), NDict d_Temperature_NAMES);
   ((u "Temperature_UPPER_LOWER"), NList d_Temperature_UPPER_LOWER);
   ((u "TemperatureGradient"), NList d_TemperatureGradient);
   ((u "Volume"), NList d_Volume);
   ((u "Volume_SI_UPPER"), NList d_Volume_SI_UPPER);
   ((u "Volume_linearSI"), NList d_Volume_linearSI);
   ((u "Volume_UK_NAMES_REVERSE"), NDict d_Volume_UK_NAMES_REVERSE);
   ((u "Volume_NAMES_SPACES_REVERSE"), NDict d_Volume_NAMES_SPACES_REVERSE);
   ((u "Volume_UPPER"), NList d_Volume_UPPER);
   ((u "Volume_PLURALwS_UPPER_LOWER"), NList d_Volume_PLURALwS_UPPER_LOWER);
   ((u "Volume_OGF"), NList d_Volume_OGF);
   ((u "Volume_oilgas_UPPER"), NList d_Volume_oilgas_UPPER);
   ((u "Volume_product_NAMES_REVERSE"), NDict d_Volume_product_NAMES_REVERSE);
   ((u "Length"), NList d_Length);
   ((u "Length_NAMES_REVERSE_UPPER"), NDict d_Length_NAMES_REVERSE_UPPER);
   ((u "Length_SI"), NList d_Length_SI);
   ((u "Length_UK_NAMES_REVERSE"), NDict d_Length_UK_NAMES_REVERSE);
   ((u "Length_UK_UPPER"), NList d_Length_UK_UPPER);
   ((u "Area"), NList d_Area);
   ((u "Area_NAMES_REVERSE_UPPER"), NDict d_Area_NAMES_REVERSE_UPPER);
   ((u "Area_SI"), NList d_Area_SI);
   ((u "Area_UK_NAMES_REVERSE_UPPER"), NDict d_Area_UK_NAMES_REVERSE_UPPER);
   ((u "Pressure"), NList d_Pressure);
   ((u "Pressure_NAMES_REVERSE"), NDict d_Pressure_NAMES_REVERSE);
   ((u "Pressure_NAMES_REVERSE_UPPER_SPACES"), NDict d_Pressure_NAMES_REVERSE_UPPER_SPACES);
   ((u "Pressure_SI"), NList d_Pressure_SI);
   ((u "PressureGradient"), NList d_PressureGradient);
   ((u "PressureGradient_NAMES_REVERSE"), NDict d_PressureGradient_NAMES_REVERSE);
   ((u "Weight"), NList d_Weight);
   ((u "Weight_NAMES_REVERSE"), NDict d_Weight_NAMES_REVERSE);
   ((u "Weight_UK_NAMES_REVERSE"), NDict d_Weight_UK_NAMES_REVERSE);
   ((u "Weight_PLURALwS_UPPER_LOWER_SPACES"), NList d_Weight_PLURALwS_UPPER_LOWER_SPACES);
   ((u "Weight_SI"), NList d_Weight_SI);
   ((u "Mass"), NList d_Mass);
   ((u "Mass_NAMES_REVERSE_UPPER_LOWER"), NDict d_Mass_NAMES_REVERSE_UPPER_LOWER);
   ((u "Density"), NList d_Density);
   ((u "Density_oilgas"), NDict d_Density_oilgas);
   ((u "Density_NAMES_REVERSE_LOWER_UPPER"), NDict d_Density_NAMES_REVERSE_LOWER_UPPER);
   ((u "Density_NAMES_REVERSE_UPPER"), NDict d_Density_NAMES_REVERSE_UPPER);
   ((u "Compressibility"), NList d_Compressibility);
   ((u "Compressibility_UPPER_NAMES_REVERSE"), NDict d_Compressibility_UPPER_NAMES_REVERSE);
   ((u "Rate"), NList d_Rate);
   ((u "Rate_NAMES_REVERSE_UPPER_SPACES"), NDict d_Rate_NAMES_REVERSE_UPPER_SPACES);
   ((u "Velocity"), NList d_Velocity);
   ((u "Velocity_NAMES_REVERSE_UPPER_LOWER"), NDict d_Velocity_NAMES_REVERSE_UPPER_LOWER);
   ((u "dataBYTE"), NList d_dataBYTE);
   ((u "dataBYTE_NAMES_REVERSE"), NDict d_dataBYTE_NAMES_REVERSE);
   ((u "dataBYTE_DATA"), NList d_dataBYTE_DATA);
   ((u "dataBIT"), NList d_dataBIT);
   ((u "dataBIT_NAMES_REVERSE"), NDict d_dataBIT_NAMES_REVERSE);
   ((u "dataBIT_DATA"), NList d_dataBIT_DATA);
   ((u "Viscosity"), NList d_Viscosity);
   ((u "Viscosity_NAMES_REVERSE_UPPER"), NDict d_Viscosity_NAMES_REVERSE_UPPER);
   ((u "Permeability"), NList d_Permeability);
   ((u "Permeability_NAMES_REVERSE"), NDict d_Permeability_NAMES_REVERSE);
   ((u "Permeability_UPPER_LOWER"), NList d_Permeability_UPPER_LOWER);
   ((u "Permeability_SI"), NList d_Permeability_SI);
   ((u "Force"), NList d_Force);
   ((u "Force_NAMES_REVERSE_SPACES_RECURSIVE_UPPER"), NDict d_Force_NAMES_REVERSE_SPACES_RECURSIVE_UPPER);
   ((u "Energy"), NList d_Energy);
   ((u "Energy_NAMES_REVERSE_SPACES_UPPER_LOWER"), NDict d_Energy_NAMES_REVERSE_SPACES_UPPER_LOWER);
   ((u "Energy_SI"), NList d_Energy_SI);
   ((u "Power"), NList d_Power);
   ((u "Power_NAMES_REVERSE_UPPER"), NDict d_Power_NAMES_REVERSE_UPPER);
   ((u "Power_SI"), NList d_Power_SI);
   ((u "Voltage"), NList d_Voltage);
   ((u "Voltage_NAMES_REVERSE_UPPER"), NDict d_Voltage_NAMES_REVERSE_UPPER);
   ((u "Voltage_SI"), NList d_Voltage_SI);
   ((u "Current"), NList d_Current);
   ((u "Current_NAMES_REVERSE_UPPER"), NDict d_Current_NAMES_REVERSE_UPPER);
   ((u "Current_SI"), NList d_Current_SI);
   ((u "Resistance"), NList d_Resistance);
   ((u "Resistance_NAMES_REVERSE_UPPER"), NDict d_Resistance_NAMES_REVERSE_UPPER);
   ((u "Resistance_SI"), NList d_Resistance_SI);
   ((u "Impedance"), NList d_Impedance);
   ((u "Impedance_NAMES_REVERSE_UPPER"), NDict d_Impedance_NAMES_REVERSE_UPPER);
   ((u "Impedance_SI"), NList d_Impedance_SI);
   ((u "Conductance"), NList d_Conductance);
   ((u "Conductance_NAMES_REVERSE"), NDict d_Conductance_NAMES_REVERSE);
   ((u "Conductance_SI"), NList d_Conductance_SI);
   ((u "Conductance_UPPER"), NList d_Conductance_UPPER);
   ((u "Capacitance"), NList d_Capacitance);
   ((u "Capacitance_NAMES_REVERSE_UPPER"), NDict d_Capacitance_NAMES_REVERSE_UPPER);
   ((u "Capacitance_SI"), NList d_Capacitance_SI);
   ((u "Charge"), NList d_Charge);
   ((u "Charge_NAMES_REVERSE_UPPER"), NDict d_Charge_NAMES_REVERSE_UPPER);
   ((u "Charge_SI"), NList d_Charge_SI);
   ((u "Inductance"), NList d_Inductance);
   ((u "Inductance_NAMES_REVERSE_UPPER"), NDict d_Inductance_NAMES_REVERSE_UPPER);
   ((u "Inductance_SI"), NList d_Inductance_SI);
   ((u "Frequency"), NList d_Frequency);
   ((u "Frequency_NAMES_REVERSE_UPPER"), NDict d_Frequency_NAMES_REVERSE_UPPER);
   ((u "Frequency_SI"), NList d_Frequency_SI);
   ((u "ProductivityIndex"), NList d_ProductivityIndex);
   ((u "ProductivityIndex_NAMES_REVERSE_UPPER"), NDict d_ProductivityIndex_NAMES_REVERSE_UPPER);
   ((u "Acceleration"), NList d_Acceleration);
   ((u "Dimensionless"), NList d_Dimensionless);
   ((u "Dimensionless_fractions_NAMES_REVERSE_UPPER"), NDict d_Dimensionless_fractions_NAMES_REVERSE_UPPER);
   ((u "Percentage"), NList d_Percentage);
   ((u "Percentage_NAMES_REVERSE"), NDict d_Percentage_NAMES_REVERSE);
   ((u "Date"), NList d_Date);
   ((u "Date_NAMES_REVERSE_UPPER_PLURALwS"), NDict d_Date_NAMES_REVERSE_UPPER_PLURALwS);
   ((u "UserUnits"), NList d_UserUnits);
   ((u "otherUnits"), NList d_otherUnits);
   ((u "otherUnits_NAMES_REVERSE_UPPER"), NDict d_otherUnits_NAMES_REVERSE_UPPER)].

Section Edges.
Context {V : Type}.
(** database.py:359-556: the conversions written one by one in [_load_network], in order. *)
Definition explicit_edges : list (str * str * conv V) :=
  [((u "fraction"), (u "percentage"), CMul (100 # 1));
   ((u "percentage"), (u "fraction"), CDiv (100 # 1));
   ((u "second"), (u "millisecond"), CMul (1000 # 1));
   ((u "minute"), (u "second"), CMul (60 # 1));
   ((u "hour"), (u "minute"), CMul (60 # 1));
   ((u "day"), (u "hour"), CMul (24 # 1));
   ((u "day"), (u "month"), CThen (CDiv (1461 # 4)) (CMul (12 # 1)));
   ((u "week"), (u "day"), CMul (7 # 1));
   ((u "year"), (u "month"), CMul (12 # 1));
   ((u "year"), (u "day"), CThen (CMul (36525 # 1)) (CDiv (100 # 1)));
   ((u "lustrum"), (u "year"), CMul (5 # 1));
   ((u "decade"), (u "year"), CMul (10 # 1));
   ((u "century"), (u "year"), CMul (100 # 1));
   ((u "Celsius"), (u "Kelvin"), CAdd (5463 # 20));
   ((u "Kelvin"), (u "Celsius"), CSub (5463 # 20));
   ((u "Celsius"), (u "Fahrenheit"), CThen (CThen (CMul (9 # 1)) (CDiv (5 # 1))) (CAdd (32 # 1)));
   ((u "Fahrenheit"), (u "Celsius"), CThen (CThen (CSub (32 # 1)) (CMul (5 # 1))) (CDiv (9 # 1)));
   ((u "Fahrenheit"), (u "Rankine"), CAdd (45967 # 100));
   ((u "Rankine"), (u "Fahrenheit"), CSub (45967 # 100));
   ((u "Rankine"), (u "Kelvin"), CThen (CMul (5 # 1)) (CDiv (9 # 1)));
   ((u "Kelvin"), (u "Rankine"), CThen (CMul (9 # 1)) (CDiv (5 # 1)));
   ((u "yard"), (u "meter"), CThen (CMul (9144 # 1)) (CDiv (10000 # 1)));
   ((u "inch"), (u "thou"), CMul (1000 # 1));
   ((u "inch"), (u "tenth"), CMul (10 # 1));
   ((u "foot"), (u "inch"), CMul (12 # 1));
   ((u "yard"), (u "foot"), CMul (3 # 1));
   ((u "chain"), (u "yard"), CMul (22 # 1));
   ((u "furlong"), (u "chain"), CMul (10 # 1));
   ((u "mile"), (u "furlong"), CMul (8 # 1));
   ((u "league"), (u "mile"), CMul (3 # 1));
   ((u "nautical league"), (u "nautical mile"), CMul (3 # 1));
   ((u "nautical mile"), (u "meter"), CMul (1852 # 1));
   ((u "rod"), (u "yard"), CThen (CMul (55 # 1)) (CDiv (10 # 1)));
   ((u "astronomical unit"), (u "meter"), CMul (149597870700 # 1));
   ((u "parsec"), (u "astronomical unit"), CMul (206265 # 1));
   ((u "light year"), (u "meter"), CThen (CThen (CThen (CMul (299792458 # 1)) (CMul (1461 # 4))) (CMul (24 # 1))) (CMul (60 # 1)));
   ((u "mile per hour"), (u "kilometer per hour"), CThen (CThen (CThen (CThen (CThen (CMul (8 # 1)) (CMul (10 # 1))) (CMul (22 # 1))) (CMul (9144 # 1))) (CDiv (10000 # 1))) (CDiv (1000 # 1)));
   ((u "square kilometer"), (u "square meter"), CMul (1000000 # 1));
   ((u "square mile"), (u "acre"), CMul (640 # 1));
   ((u "acre"), (u "square yard"), CMul (4840 # 1));
   ((u "square rod"), (u "square yard"), CThen (CMul (3025 # 1)) (CDiv (100 # 1)));
   ((u "square yard"), (u "square foot"), CMul (9 # 1));
   ((u "square foot"), (u "square inch"), CMul (144 # 1));
   ((u "square foot"), (u "square meter"), CThen (CMul (9290304 # 1)) (CDiv (100000000 # 1)));
   ((u "square inch"), (u "square thou"), CMul (1000000 # 1));
   ((u "square inch"), (u "square tenth"), CMul (100 # 1));
   ((u "square chain"), (u "square yard"), CMul (484 # 1));
   ((u "square furlong"), (u "square chain"), CMul (100 # 1));
   ((u "square mile"), (u "square furlong"), CMul (64 # 1));
   ((u "square league"), (u "square mile"), CMul (9 # 1));
   ((u "Darcy"), (u "µm2"), CMul (9869233 # 10000000));
   ((u "litre"), (u "cubic centimeter"), CMul (1000 # 1));
   ((u "gill"), (u "fluid ounce"), CMul (4 # 1));
   ((u "pint"), (u "gill"), CMul (4 # 1));
   ((u "quart"), (u "pint"), CMul (2 # 1));
   ((u "gallonUS"), (u "fluid ounce"), CMul (128 # 1));
   ((u "gallonUS"), (u "quart"), CMul (4 # 1));
   ((u "gallonUS"), (u "cubic inch"), CMul (231 # 1));
   ((u "gallonUK"), (u "quartUK"), CMul (4 # 1));
   ((u "gallonUK"), (u "fluid ounce UK"), CMul (160 # 1));
   ((u "gallonUK"), (u "litre"), CMul (454609 # 100000));
   ((u "gillUK"), (u "fluid ounce UK"), CMul (4 # 1));
   ((u "pintUK"), (u "gillUK"), CMul (4 # 1));
   ((u "quartUK"), (u "pintUK"), CMul (2 # 1));
   ((u "gallonUK"), (u "liter"), CMul (454609 # 100000));
   ((u "cubic foot"), (u "cubic meter"), CThen (CMul (28316846592 # 1)) (CDiv (1000000000000 # 1)));
   ((u "standard cubic foot"), (u "standard cubic meter"), CThen (CMul (28316846592 # 1)) (CDiv (1000000000000 # 1)));
   ((u "standard barrel"), (u "USgal"), CMul (42 # 1));
   ((u "standard cubic meter"), (u "standard barrel"), CMul (3144907 # 500000));
   ((u "standard barrel"), (u "standard cubic foot"), CMul (701823 # 125000));
   ((u "reservoir cubic meter"), (u "reservoir barrel"), CMul (3144907 # 500000));
   ((u "reservoir cubic meter"), (u "standard cubic meter"), CFvfDiv);
   ((u "cubic inch"), (u "cubic thou"), CMul (1000000000 # 1));
   ((u "cubic inch"), (u "cubic tenth"), CMul (1000 # 1));
   ((u "cubic foot"), (u "cubic inch"), CMul (1728 # 1));
   ((u "cubic yard"), (u "cubic foot"), CMul (27 # 1));
   ((u "cubic chain"), (u "cubic yard"), CMul (10648 # 1));
   ((u "cubic furlong"), (u "cubic chain"), CMul (1000 # 1));
   ((u "cubic mile"), (u "cubic furlong"), CMul (512 # 1));
   ((u "cubic league"), (u "cubic mile"), CMul (27 # 1));
   ((u "psi gauge"), (u "absolute psi"), CAdd (146959 # 10000));
   ((u "absolute psi"), (u "psi gauge"), CSub (146959 # 10000));
   ((u "bar gauge"), (u "absolute bar"), CAdd (4053 # 4000));
   ((u "absolute bar"), (u "bar gauge"), CSub (4053 # 4000));
   ((u "absolute bar"), (u "absolute psi"), CMul (725188688661 # 50000000000));
   ((u "bar gauge"), (u "psi gauge"), CMul (725188688661 # 50000000000));
   ((u "bar"), (u "psi"), CMul (725188688661 # 50000000000));
   ((u "psi"), (u "bar"), CDiv (725188688661 # 50000000000));
   ((u "absolute bar"), (u "Pascal"), CMul (100000 # 1));
   ((u "atmosphere"), (u "Pascal"), CMul (101325 # 1));
   ((u "atmosphere"), (u "Torr"), CMul (760 # 1));
   ((u "absolute bar"), (u "bar"), CId);
   ((u "absolute psi"), (u "psi"), CId);
   ((u "bar gauge"), (u "bar"), CId);
   ((u "psi gauge"), (u "psi"), CId);
   ((u "absolute bar"), (u "kilogram/square centimeter"), CMul (200000 # 196133));
   ((u "grain"), (u "milligrams"), CMul (647989 # 10000));
   ((u "pennyweight"), (u "grain"), CMul (24 # 1));
   ((u "dram"), (u "pound"), CDiv (256 # 1));
   ((u "stone"), (u "pound"), CMul (14 # 1));
   ((u "quarter"), (u "stone"), CMul (2 # 1));
   ((u "weight ounce"), (u "dram"), CMul (16 # 1));
   ((u "pound"), (u "weight ounce"), CMul (16 # 1));
   ((u "long hundredweight"), (u "quarter"), CMul (4 # 1));
   ((u "short hundredweight"), (u "pound"), CMul (100 # 1));
   ((u "short ton"), (u "short hundredweight"), CMul (20 # 1));
   ((u "long ton"), (u "long hundredweight"), CMul (20 # 1));
   ((u "metric ton"), (u "kilogram"), CMul (1000 # 1));
   ((u "kilogram"), (u "gram"), CMul (1000 # 1));
   ((u "pound"), (u "kilogram"), CThen (CMul (45359237 # 1)) (CDiv (100000000 # 1)));
   ((u "kilogram mass"), (u "kilogram force"), CMul (196133 # 20000));
   ((u "kilogram force"), (u "kilogram mass"), CDiv (196133 # 20000));
   ((u "Dyne"), (u "Newton"), CMul (1 # 100000));
   ((u "Newton"), (u "Dyne"), CMul (100000 # 1));
   ((u "Joule"), (u "gram calorie"), CDiv (523 # 125));
   ((u "Kilojoule"), (u "Joule"), CMul (1000 # 1));
   ((u "Kilojoule"), (u "kilowatt hour"), CDiv (3600 # 1));
   ((u "Kilojoule"), (u "British thermal unit"), CDiv (211 # 200));
   ((u "Horsepower"), (u "Watt"), CMul (23303121 # 31250));
   ((u "API"), (u "SgO"), CThen (CAdd (263 # 2)) (CInto (283 # 2)));
   ((u "SgO"), (u "API"), CThen (CInto (283 # 2)) (CSub (263 # 2)));
   ((u "API"), (u "g/cc"), CThen (CAdd (263 # 2)) (CInto (283 # 2)));
   ((u "g/cc"), (u "API"), CThen (CInto (283 # 2)) (CSub (263 # 2)));
   ((u "SgO"), (u "g/cc"), CId);
   ((u "SgW"), (u "g/cc"), CId);
   ((u "SgG"), (u "kg/m3"), CMul (49 # 40));
   ((u "psia/ft"), (u "lb/ft3"), CMul (144 # 1));
   ((u "psi/ft"), (u "lb/ft3"), CMul (144 # 1));
   ((u "psig/ft"), (u "lb/ft3"), CMul (144 # 1));
   ((u "bara/m"), (u "kg/m3"), CThen (CMul (100000 # 1)) (CDiv (196133 # 20000)));
   ((u "bar/m"), (u "kg/m3"), CThen (CMul (100000 # 1)) (CDiv (196133 # 20000)));
   ((u "barg/m"), (u "kg/m3"), CThen (CMul (100000 # 1)) (CDiv (196133 # 20000)));
   ((u "g/cm3"), (u "lb/ft3"), CMul (31213980288072303 # 500000000000000));
   ((u "lb/ft3"), (u "lb/stb"), CMul (701823 # 125000));
   ((u "Pa*s"), (u "Poise"), CMul (10 # 1));
   ((u "byte"), (u "bit"), CMul (8 # 1))].
End Edges.
