(** * Quantities: [unit_class.py], [units/define.py], [units/custom.py],
    [units/unitless.py], [units/time.py], [units/energy.py] and the other classes of [units/]

    A quantity has a class, a unit and a value.  In the code [type(q)] and
    [q.kind] always agree (every [__init__] sets it), so one field is enough;
    the [name] is not modelled (only whether one was given, which matters in
    [units()]).  Values are scalars: exact rationals in place of Python ints and
    floats; arrays, complex numbers and dates are not modelled. *)
From Coq Require Import String QArith Qcanon Qround.
From Verif Require Import Py StrTools Network Conv Converter Dict Database Shipped Operations.
Local Open Scope N_scope.

(** an instance of a class of units/*.py: the slots [kind], [value], [unit] (unit_class.py:80); [name] is not modelled *)
Record qty := Qty { q_kind : str; q_unit : str; q_val : Qc }.

(** an operand or a result: the cases of the [isinstance] tests of unit_class.py:163-197 and alike: a quantity, a number, a tuple, or an object of another type *)
Inductive pv := PQ (q : qty) | PN (v : Qc) | PT (l : list pv) | PX.

(** The state: the one of the converter, [dictionary] (which [UserUnits] extends)
    and [Unit._all_units_str] (computed at import, unit_class.py:79). *)
Record world := World { w_st : st Qc; w_kinds : kinds; w_all : list str }.
(** model plumbing: a Python call that may raise and changes the state *)
Definition W (X : Type) := world -> res X * world.
(** model plumbing: return *)
Definition wret {X} (x : X) : W X := fun w => (Ok x, w).
(** model plumbing: raise *)
Definition wraise {X} (e : exn) : W X := fun w => (Err e, w).
(** model plumbing: a pure computation that may raise *)
Definition wlift {X} (r : res X) : W X := fun w => (r, w).
(** model plumbing: sequencing; an exception keeps the changes made so far *)
Definition wbind {X Y} (m : W X) (k : X -> W Y) : W Y :=
  fun w => match m w with (Ok x, w') => k x w' | (Err e, w') => (Err e, w') end.
(** model plumbing: read the state *)
Definition wget : W world := fun w => (Ok w, w).
(** a function of converter.py or operations.py *)
Definition run {X} (m : M Qc X) : W X := fun w => let (r, s) := m (w_st w) in (r, World s (w_kinds w) (w_all w)).
Declare Scope w_scope.
Delimit Scope w_scope with w.
Notation "x <- m ;; k" := (wbind m (fun x => k)) (at level 61, m at next level, right associativity) : w_scope.
Local Open Scope w_scope.

(** the classes of units/*.py; [Date] takes no number ([datetime64(0)] raises) *)
Definition classes : list str := map u
  ["Time"; "Frequency"; "Temperature"; "TemperatureGradient"; "Length"; "Area"; "Volume"; "Permeability"; "Force"; "Pressure"; "Weight";
   "Compressibility"; "Viscosity"; "Mass"; "Rate"; "Velocity"; "Acceleration"; "Density"; "VolumeRatio"; "ProductivityIndex"; "PressureGradient";
   "Data"; "Energy"; "Power"; "Current"; "Voltage"; "Resistance"; "Conductance"; "Capacitance"; "Charge"; "Inductance"; "Impedance";
   "Dimensionless"; "Percentage"]%string.
(** [q.kind is K] (unit_class.py:154 and alike) *)
Definition is_k (k : str) (n : string) : bool := seqb k (u n).
(** [kind in (Dimensionless, Percentage)], unit_class.py:173 and alike *)
Definition kindless (k : str) : bool := is_k k "Dimensionless" || is_k k "Percentage".
(** [class_units]: the entry of the dictionary when the class was created; only UserUnits changes later *)
(** [class_units] of every class (unit_class.py:78, custom.py:27, unitless.py:21, 53, time.py:19, ...): the entry of the dictionary when the class was created; only UserUnits changes later *)
Definition class_units (k : str) (w : world) : list str := match dget k (w_kinds w) with Some l => l | None => [] end.

(** custom.py:36-39: a new name is added to dictionary['UserUnits'] *)
Definition add_user (x : str) (w : world) : world :=
  if smem x (dg "UserUnits" (w_kinds w)) then w
  else World (w_st w) (ds "UserUnits" (dg "UserUnits" (w_kinds w) ++ [x]) (w_kinds w)) (w_all w).

(** the constructors [K(value, unit)]; [None] stands for a value that is None.
    unit_class.py:82-99 (Unit), custom.py:30-41 (UserUnits), date.py:24-27,
    unitless.py:24-30, 56-62, the [__init__] of the other classes, with
    [check_value] 626-639 and [check_unit] 641-653.  At unit_class.py:92
    [unyts_parameters_.raise_error] is the bound method, always true: line 94 is
    never reached, whatever the setting *)
Definition construct (k : str) (v : option Qc) (x : str) : W qty := fun w =>
  if is_k k "Unit" then
    if smem (strip x) (w_all w)
    then match v with Some v => (Ok (Qty k x v), w) | None => (Err WrongValueError, w) end
    else (Err WrongUnitsError, w)
  else if is_k k "UserUnits" then
    let x := strip x in
    match v with Some v => (Ok (Qty k x v), add_user x w) | None => (Err WrongValueError, add_user x w) end
  else if is_k k "Date" then (Err ValueError, w)
  else if smem k classes then
    match v with
    | None => (Err WrongValueError, w)
    | Some v => if smem x (class_units k w) then (Ok (Qty k x (if is_k k "Percentage" then v / Q2Qc 100 else v)%Qc), w) else (Err WrongUnitsError, w)
    end
  else (Err NameError, w).

(** ** [eval("K(0, 'unit')")], define.py:70-73
    The literal is the unit itself unless it has a backslash, a line break or
    the quote that delimits it.  A doubled backslash stands for one; for
    anything else the result is whatever [odd_eval] says (such a string can
    even run code). *)
(** what [eval] (define.py:71, 73) does with a text that is no plain literal: a parameter of the model, any function *)
Class Eval := odd_eval : str -> str -> W qty.
(** the operator ** of unit_class.py:247-276 and the format of unit_class.py:607: parameters of the model, any functions *)
Class Pow {F : Floats} := {
  pow_flt : Qc -> flt -> res Qc;         (* x ** y for a float y *)
  pow_any : Qc -> Qc -> res Qc;          (* x ** y for a value of another quantity *)
  significant : Qc -> Z -> Qc }.         (* float(f"{v:.{i}g}") *)
(** the text of a Python literal without line breaks, as in define.py:71-73: a doubled backslash is one; any other escape is not modelled *)
Fixpoint unescape (x : str) : option str :=
  match x with
  | 92 :: t => match t with 92 :: t' => option_map (cons 92) (unescape t') | _ => None end
  | 10 :: _ | 13 :: _ | 0 :: _ => None
  | c :: t => option_map (cons c) (unescape t)
  | [] => Some []
  end.
(** define.py:70: double quotes when the unit has a single one *)
Definition quote_of (x : str) : chr := if cmem 39 x then 34 else 39.
(** define.py:70-73: the unit read back from the text passed to eval *)
Definition literal (x : str) : option str := if cmem (quote_of x) x then None else unescape x.

Section Units.
Context {F : Floats} {P : Pow} {E : Eval}.

(** ** [units(value, unit, name)], define.py:30-80 *)
(** the argument [unit] of [units], define.py:30, 54-59 *)
Inductive uarg := ANoUnit | AUnitStr (x : str) | AUnitOther.
(** [uncertain_names], read at define.py:65 *)
Definition uncertain (w : world) : list str := d_uncertain (s_dict (w_st w)).
(** define.py:68-69: the first kind that lists the unit *)
Definition first_kind (x : str) (w : world) : option str := option_map fst (find (fun kl => smem x (snd kl)) (w_kinds w)).
(** 68-78 *)
Definition units_kind (k x : str) (v : Qc) (named : bool) : W qty :=
  if named then wraise TypeError                                    (* eval(..., name): globals must be a dict *)
  else q <- (match literal x with Some y => construct k (Some 0%Qc) y | None => odd_eval k x end) ;;
       wret (Qty (q_kind q) (q_unit q) (if is_k (q_kind q) "Percentage" then v / Q2Qc 100 else v)%Qc).
(** define.py:30-80 *)
Definition units (value : pv) (unit : uarg) (named : bool) : W qty :=
  let '(value, unit) := match unit, value with ANoUnit, PQ q => (PN (q_val q), AUnitStr (q_unit q)) | _, _ => (value, unit) end in
  match (match unit with ANoUnit => Some (u "Dimensionless") | AUnitStr x => Some x | AUnitOther => None end) with
  | None => wraise TypeError
  | Some x =>
      match value with
      | PN v =>
          let x := strip x in
          w <- wget ;;
          if smem x (uncertain w) then construct (u "Unit") (Some v) x
          else match first_kind x w with
               | Some k => units_kind k x v named
               | None => construct (u "UserUnits") (Some v) x
               end
      | _ => wraise TypeError
      end
  end.
(** [units(v, x)] as called at unit_class.py:213 and alike *)
Definition units_of (v : Qc) (x : str) : W pv := q <- units (PN v) (AUnitStr x) false ;; wret (PQ q).
(** [self.kind(v, x)] as called at unit_class.py:166 and alike *)
Definition make (k : str) (v : Qc) (x : str) : W pv := q <- construct k (Some v) x ;; wret (PQ q).

(** ** Conversion *)
(** [_convert(v, f, t)] as called at unit_class.py:141-143 *)
Definition conv_opt (v : Qc) (f t : str) : W (option Qc) :=
  x <- run (convert (VNum v) (UStr f) (UStr t) None) ;;
  match x with Some (CVal v) => wret (Some v) | _ => wret None end.
(** used as a number: None raises *)
(** [_convert(v, f, t)] used as a number, unit_class.py:168 and alike: None raises *)
Definition conv_num (v : Qc) (f t : str) : W Qc :=
  x <- conv_opt v f t ;; match x with Some v => wret v | None => wraise TypeError end.
(** [_convertible(f, t)] as called at unit_class.py:132, 167 and alike *)
Definition convertible_ (f t : str) : W bool := run (convertible f t None).
(** unit_class.py:127-146 and unitless.py:32-49 on a string or None *)
Definition to (a : qty) (x : option str) : W pv :=
  if kindless (q_kind a) then
    match x with
    | None | Some [] => wret (PN (q_val a))
    | Some x =>
        w <- wget ;;
        if smem x (class_units (u "Percentage") w) then make (u "Percentage") (q_val a * Q2Qc 100)%Qc x
        else if smem x (class_units (u "Dimensionless") w) then make (u "Dimensionless") (q_val a) x
        else units_of (q_val a) x
    end
  else
    match x with
    | None => wraise TypeError
    | Some x =>
        c <- convertible_ (q_unit a) x ;;
        if c then
          v <- conv_opt (q_val a) (q_unit a) x ;;
          if is_k (q_kind a) "Unit" then match v with Some v => units_of v x | None => wraise TypeError end
          else q <- construct (q_kind a) v x ;; wret (PQ q)
        else if is_k (q_kind a) "UserUnits" then wret (PQ a) else wraise WrongUnitsError
    end.
(** reading [.value] of a result, unit_class.py:489 and alike *)
Definition as_qty (x : pv) : res qty := match x with PQ q => Ok q | _ => Err AttributeError end.

(** ** Sign, 148-159 and unitless.py:70-74 *)
Definition neg (a : qty) : W pv := make (q_kind a) (if is_k (q_kind a) "Percentage" then q_val a * Q2Qc (-100) else - q_val a)%Qc (q_unit a).
(** Python's [abs] of a number, unit_class.py:159 *)
Definition qabs (v : Qc) : Qc := if Qclt_le_dec v 0 then (- v)%Qc else v.
(** unit_class.py:158-159, unitless.py:73-74 *)
Definition abs_ (a : qty) : W pv := make (q_kind a) (if is_k (q_kind a) "Percentage" then qabs (q_val a) * Q2Qc 100 else qabs (q_val a))%Qc (q_unit a).
(** unit_class.py:151-156 *)
Definition truth (a : qty) : bool := negb (kindless (q_kind a) || is_k (q_kind a) "UserUnits").

(** ** Addition 161-200 and subtraction 292-332 *)
(** [result += each] of a list: iterates *)
(** [result += each] of a list, unit_class.py:188, 320: iterates ([__iter__] 560-564; NumPy installed) *)
Definition spread (x : pv) : res (list pv) :=
  match x with PQ q => Ok [PN (q_val q)] | PT l => Ok l | _ => Err TypeError end.
(** 181-189, 313-321 *)
Fixpoint over_tuple (op : qty -> qty -> W pv) (a : qty) (l : list pv) : W (list pv * bool) :=
  match l with
  | [] => wret ([], false)
  | x :: t =>
      hd <- (match x with
             | PQ q => if seqb (q_kind q) (q_kind a) then r <- op a q ;; wret ([r], true) else r <- wlift (spread x) ;; wret (r, false)
             | _ => r <- wlift (spread x) ;; wret (r, false)
             end) ;;
      tl <- over_tuple op a t ;;
      wret (fst hd ++ fst tl, snd hd || snd tl)
  end%list.
(** 163-180, 295-312: [sub] selects the operator *)
Definition plus (sub : bool) (x y : Qc) : Qc := if sub then (x - y)%Qc else (x + y)%Qc.
(** unit_class.py:163-180 (+), 295-312 (-) *)
Definition sum_qty (sub : bool) (a b : qty) : W pv :=
  let k := q_kind a in
  if seqb (q_kind b) k then
    if seqb (q_unit a) (q_unit b) then make k (plus sub (q_val a) (q_val b)) (q_unit a)
    else
      c1 <- convertible_ (q_unit b) (q_unit a) ;;
      if c1 then v <- conv_num (q_val b) (q_unit b) (q_unit a) ;; make k (plus sub (q_val a) v) (q_unit a)
      else
        c2 <- convertible_ (q_unit a) (q_unit b) ;;
        if c2 then v <- conv_num (q_val a) (q_unit a) (q_unit b) ;; make k (plus sub (q_val b) v) (q_unit b)
        else wraise NoConversionFoundError
  else if kindless k && negb (kindless (q_kind b)) then make k (plus sub (q_val a) (q_val b)) (q_unit b)
  else if is_k k "Percentage" && kindless (q_kind b) then make k (plus sub (q_val a) (q_val b) * Q2Qc 100)%Qc (q_unit a)
  else if kindless (q_kind b) then make k (plus sub (q_val a) (q_val b)) (q_unit a)
  else wret (PT [PQ a; PQ b]).
(** unit_class.py:161-197 (+), 292-329 (-); SimPandas objects are not modelled *)
Definition sum (sub : bool) (a : qty) (b : pv) : W pv :=
  match b with
  | PQ b => sum_qty sub a b
  | PT l => r <- over_tuple (sum_qty sub) a l ;; wret (PT (if snd r then fst r else l ++ [PQ a]))%list
  | PN v => if is_k (q_kind a) "Percentage" then make (q_kind a) (plus sub (q_val a) v * Q2Qc 100)%Qc (q_unit a)
            else make (q_kind a) (plus sub (q_val a) v) (q_unit a)
  | PX => if is_k (q_kind a) "Percentage" then wraise TypeError else wraise NotImplementedError
  end.
(** unit_class.py:161-200 *)
Definition add := sum false.                   (* also __radd__ *)
(** unit_class.py:292-329 *)
Definition sub := sum true.
Definition rsub (a : qty) (b : pv) : W pv :=   (* 331-332: b - a *)
  n <- neg a ;; match n with PQ n => add n b | _ => wraise TypeError end.

(** ** Products and quotients *)
(** Python's // of numbers, unit_class.py:385 and alike *)
Definition qfloordiv (x y : Qc) : res Qc := rbind (qdiv x y) (fun q => Ok (Q2Qc (inject_Z (Qfloor q)))).
(** Python's % of numbers, unit_class.py:457 and alike *)
Definition qmod (x y : Qc) : res Qc := rbind (qfloordiv x y) (fun q => Ok (x - y * q)%Qc).
(** [x ** n] for a whole [n] *)
(** Python's x ** n for a whole n, unit_class.py:221, 276 *)
Definition pow_int (x : Qc) (n : Z) : res Qc :=
  match n with
  | Zneg p => qdiv 1 (Qcpower x (Pos.to_nat p))
  | _ => Ok (Qcpower x (Z.to_nat n))
  end.
(** Python's x ** n for an int or a float n, unit_class.py:221, 276 *)
Definition pow_num (x : Qc) (p : pnum F) : res Qc := match p with PI z => pow_int x z | PF y => pow_flt x y end.
(** [_unit_product(a, b)] as called at unit_class.py:213 and alike *)
Definition product_name (a b : str) : W str := run (unit_product unitless_names (Some a) (Some b)).
(** [_unit_division(a, b)] as called at unit_class.py:345 and alike *)
Definition division_name (a b : str) : W str := run (unit_division unitless_names (Some a) (Some b)).
(** [_convertible(_unit_base_power(b)[0], _unit_base_power(a)[0])] and the factor of the next line *)
(** [_unit_base_power(x)] as called at unit_class.py:220-221 and alike *)
Definition base_of (x : str) : W (str * pnum F) := wlift (unit_base_power x).
(** unit_class.py:220, 256, 349, 395, 466 *)
Definition bases_convertible (b a : str) : W bool := pb <- base_of b ;; pa <- base_of a ;; convertible_ (fst pb) (fst pa).
(** unit_class.py:221, 257, 350, 396, 467 *)
Definition base_factor (b a : str) : W Qc :=
  pb <- base_of b ;; pa <- base_of a ;; f <- conv_num 1%Qc (fst pb) (fst pa) ;; wlift (pow_num f (snd pb)).
(** model plumbing: an operator that never raises *)
Definition ok2 (op : Qc -> Qc -> Qc) (x y : Qc) : res Qc := Ok (op x y).

(** 205-224 *)
Definition mul_qty (a b : qty) : W pv :=
  let k := q_kind a in let x := q_val a in let y := q_val b in
  if kindless k && negb (kindless (q_kind b)) then make (q_kind b) (x * y)%Qc (q_unit b)
  else if is_k k "Percentage" && kindless (q_kind b) then make k (x * y * Q2Qc 100)%Qc (q_unit a)
  else if kindless (q_kind b) then make k (x * y)%Qc (q_unit a)
  else if seqb (q_unit a) (q_unit b) then n <- product_name (q_unit a) (q_unit b) ;; units_of (x * y)%Qc n
  else
    c1 <- convertible_ (q_unit b) (q_unit a) ;;
    if c1 then v <- conv_num y (q_unit b) (q_unit a) ;; n <- product_name (q_unit a) (q_unit b) ;; units_of (x * v)%Qc n
    else
      c2 <- convertible_ (q_unit a) (q_unit b) ;;
      if c2 then v <- conv_num x (q_unit a) (q_unit b) ;; n <- product_name (q_unit b) (q_unit a) ;; units_of (y * v)%Qc n
      else
        c3 <- bases_convertible (q_unit b) (q_unit a) ;;
        if c3 then f <- base_factor (q_unit b) (q_unit a) ;; n <- product_name (q_unit a) (q_unit b) ;; units_of (x * y * f)%Qc n
        else n <- product_name (q_unit a) (q_unit b) ;; units_of (x * y)%Qc n.
(** 337-353 (/), 383-399 (//) *)
Definition div_qty (dv : Qc -> Qc -> res Qc) (a b : qty) : W pv :=
  let k := q_kind a in let x := q_val a in let y := q_val b in
  if kindless k && negb (kindless (q_kind b)) then v <- wlift (dv x y) ;; make (q_kind b) v (u "1/" ++ q_unit b)%list
  else if is_k k "Percentage" && kindless (q_kind b) then v <- wlift (dv x y) ;; make k (v * Q2Qc 100)%Qc (q_unit a)
  else if kindless (q_kind b) then v <- wlift (dv x y) ;; make k v (q_unit a)
  else if seqb (q_unit a) (q_unit b) then v <- wlift (dv x y) ;; n <- division_name (q_unit a) (q_unit b) ;; units_of v n
  else
    c1 <- convertible_ (q_unit b) (q_unit a) ;;
    if c1 then y' <- conv_num y (q_unit b) (q_unit a) ;; v <- wlift (dv x y') ;; n <- division_name (q_unit a) (q_unit b) ;; units_of v n
    else
      c3 <- bases_convertible (q_unit b) (q_unit a) ;;
      if c3 then f <- base_factor (q_unit b) (q_unit a) ;; v <- wlift (dv x (y * f)%Qc) ;; n <- division_name (q_unit a) (q_unit b) ;; units_of v n
      else v <- wlift (dv x y) ;; n <- division_name (q_unit a) (q_unit b) ;; units_of v n.
(** 455-470 *)
Definition mod_qty (a b : qty) : W pv :=
  let k := q_kind a in let x := q_val a in let y := q_val b in
  if kindless k && negb (kindless (q_kind b)) then v <- wlift (qmod x y) ;; make (q_kind b) v (q_unit a)
  else if is_k k "Percentage" && kindless (q_kind b) then v <- wlift (qmod x y) ;; make k (v * Q2Qc 100)%Qc (q_unit a)
  else if kindless (q_kind b) then v <- wlift (qmod x y) ;; make k v (q_unit a)
  else if seqb (q_unit a) (q_unit b) then v <- wlift (qmod x y) ;; units_of v (q_unit a)
  else
    c1 <- convertible_ (q_unit b) (q_unit a) ;;
    if c1 then y' <- conv_num y (q_unit b) (q_unit a) ;; v <- wlift (qmod x y') ;; units_of v (q_unit a)
    else
      c3 <- bases_convertible (q_unit b) (q_unit a) ;;
      if c3 then f <- base_factor (q_unit b) (q_unit a) ;; v <- wlift (qmod x (y * f)%Qc) ;; units_of v (q_unit a)
      else v <- wlift (qmod x y) ;; units_of v (q_unit a).
(** 429-437 (@) *)
Definition matmul_qty (a b : qty) : W pv :=
  let k := q_kind a in let x := q_val a in let y := q_val b in
  v <- wlift (qdiv x y) ;;
  if kindless k && negb (kindless (q_kind b)) then make (q_kind b) v (u "1/" ++ q_unit b)%list
  else if is_k k "Percentage" && kindless (q_kind b) then make k (v * Q2Qc 100)%Qc (q_unit a)
  else if kindless (q_kind b) then make k v (q_unit a)
  else n <- wlift (reduce_units false (q_unit a ++ u "/" ++ q_unit b)%list) ;; units_of v n.
(** 245-260 *)
Definition pow_qty (a b : qty) : W pv :=
  let k := q_kind a in let x := q_val a in let y := q_val b in
  let hat (p q : str) := (p ++ u "^" ++ q)%list in
  if kindless k && negb (kindless (q_kind b)) then v <- wlift (pow_any x y) ;; make (q_kind b) v (q_unit b)
  else if is_k k "Percentage" && kindless (q_kind b) then v <- wlift (pow_any x y) ;; make k (v * Q2Qc 100)%Qc (q_unit a)
  else if kindless (q_kind b) then v <- wlift (pow_any x y) ;; make k v (q_unit a)
  else if seqb (q_unit a) (q_unit b) then v <- wlift (pow_any x y) ;; units_of v (hat (q_unit a) (q_unit b))
  else
    c1 <- convertible_ (q_unit b) (q_unit a) ;;
    if c1 then y' <- conv_num y (q_unit b) (q_unit a) ;; v <- wlift (pow_any x y') ;; units_of v (hat (q_unit a) (q_unit a))
    else
      c3 <- bases_convertible (q_unit b) (q_unit a) ;;
      if c3 then f <- base_factor (q_unit b) (q_unit a) ;; v <- wlift (pow_any x (y * f)%Qc) ;; units_of v (hat (q_unit a) (q_unit b))
      else v <- wlift (pow_any x y) ;; units_of v (hat (q_unit a) (q_unit b)).

(** the operand is a tuple (225-229 and alike): component by component, with
    the operator of the class; a number (230-233 and alike); another object *)
Fixpoint each (op : pv -> W pv) (l : list pv) : W (list pv) :=
  match l with [] => wret [] | x :: t => r <- op x ;; rs <- each op t ;; wret (r :: rs) end.
(** the products of energy.py:48-52, 73-77, 90-96, 117-121, 145-149 and time.py:28-33:
    the unit the result is converted to *)
Definition product_unit (k k' : str) : option str :=
  match find (fun e : string * string * string => let '(x, y, _) := e in is_k k x && is_k k' y)
    [("Power", "Time", "Wh"); ("Time", "Power", "Wh"); ("Current", "Resistance", "Volt"); ("Resistance", "Current", "Volt");
     ("Voltage", "Current", "Watt"); ("Voltage", "Capacitance", "Coulomb"); ("Capacitance", "Voltage", "Coulomb")]%string with
  | Some (_, _, r) => Some (u r) | None => None end.
(** the quotients of energy.py:29-35, 54-60, 98-104, 162-166 *)
Definition quotient_unit (k k' : str) : option str :=
  match find (fun e : string * string * string => let '(x, y, _) := e in is_k k x && is_k k' y)
    [("Energy", "Time", "Watt"); ("Energy", "Power", "hour"); ("Power", "Current", "Volt"); ("Power", "Voltage", "Ampere");
     ("Voltage", "Current", "Ohm"); ("Voltage", "Resistance", "Ampere"); ("Charge", "Voltage", "Farad")]%string with
  | Some (_, _, r) => Some (u r) | None => None end.
(** [super().__mul__(other).to(x)], energy.py:50 and alike, time.py:31 *)
Definition then_to (m : W pv) (x : option str) : W pv :=
  match x with None => m | Some x => r <- m ;; q <- wlift (as_qty r) ;; to q (Some x) end.

(** unit_class.py:202-240 with the overrides of energy.py and time.py:28-33; [n] bounds the depth of nested tuples *)
Fixpoint mul (n : nat) (a : qty) (b : pv) {struct n} : W pv :=     (* [n] bounds the depth of nested tuples *)
  match b with
  | PQ b => then_to (mul_qty a b) (product_unit (q_kind a) (q_kind b))
  | PT l => match n with O => wraise OutOfFuel | S n => r <- each (mul n a) l ;; wret (PT r) end
  | PN v => if is_k (q_kind a) "Percentage" then make (q_kind a) (q_val a * v * Q2Qc 100)%Qc (q_unit a)
            else make (q_kind a) (q_val a * v)%Qc (q_unit a)
  | PX => if is_k (q_kind a) "Percentage" then wraise TypeError else wraise NotImplementedError
  end.
(** unit_class.py:334-366 with the overrides of energy.py *)
Fixpoint truediv (n : nat) (a : qty) (b : pv) {struct n} : W pv :=
  match b with
  | PQ b => then_to (div_qty qdiv a b) (quotient_unit (q_kind a) (q_kind b))
  | PT l => match n with O => wraise OutOfFuel | S n => r <- each (truediv n a) l ;; wret (PT r) end
  | PN v => q <- wlift (qdiv (q_val a) v) ;;
            if is_k (q_kind a) "Percentage" then make (q_kind a) (q * Q2Qc 100)%Qc (q_unit a) else units_of q (q_unit a)
  | PX => if is_k (q_kind a) "Percentage" then wraise TypeError else wraise NotImplementedError
  end.
(** unit_class.py:380-412 *)
Fixpoint floordiv (n : nat) (a : qty) (b : pv) {struct n} : W pv :=
  match b with
  | PQ b => div_qty qfloordiv a b
  | PT l => match n with O => wraise OutOfFuel | S n => r <- each (floordiv n a) l ;; wret (PT r) end
  | PN v => q <- wlift (qfloordiv (q_val a) v) ;;
            if is_k (q_kind a) "Percentage" then make (q_kind a) (q * Q2Qc 100)%Qc (q_unit a) else make (q_kind a) q (q_unit a)
  | PX => if is_k (q_kind a) "Percentage" then wraise TypeError else wraise NotImplementedError
  end.
(** unit_class.py:452-483 *)
Fixpoint modulo (n : nat) (a : qty) (b : pv) {struct n} : W pv :=
  match b with
  | PQ b => mod_qty a b
  | PT l => match n with O => wraise OutOfFuel | S n => r <- each (modulo n a) l ;; wret (PT r) end
  | PN v => q <- wlift (qmod (q_val a) v) ;;
            if is_k (q_kind a) "Percentage" then make (q_kind a) (q * Q2Qc 100)%Qc (q_unit a) else make (q_kind a) q (q_unit a)
  | PX => if is_k (q_kind a) "Percentage" then wraise TypeError else wraise NotImplementedError
  end.
(** 426-450: the components of a tuple are divided with / *)
Definition matmul (n : nat) (a : qty) (b : pv) : W pv :=
  match b with
  | PQ b => matmul_qty a b
  | PT l => r <- each (truediv n a) l ;; wret (PT r)
  | PN v => q <- wlift (qdiv (q_val a) v) ;;
            if is_k (q_kind a) "Percentage" then make (q_kind a) (q * Q2Qc 100)%Qc (q_unit a) else make (q_kind a) q (q_unit a)
  | PX => if is_k (q_kind a) "Percentage" then wraise TypeError else wraise NotImplementedError
  end.
(** 368-378 and 414-424: a number over a quantity *)
Definition rdiv (dv : Qc -> Qc -> res Qc) (a : qty) (v : Qc) : W pv :=
  q <- wlift (dv v (q_val a)) ;;
  if is_k (q_kind a) "Percentage" then units_of (q * Q2Qc 100)%Qc (q_unit a)
  else if is_k (q_kind a) "Dimensionless" then units_of q (q_unit a)
  else units_of q (q_unit a ++ u "-1")%list.
(** 266-276: a quantity to a power that is a number *)
Definition pow (a : qty) (p : pnum F) : W pv :=
  if is_k (q_kind a) "Percentage" then v <- wlift (pow_num (q_val a) p) ;; make (q_kind a) (v * Q2Qc 100)%Qc (q_unit a)
  else
    b <- base_of (q_unit a) ;;
    let n := p_mul (snd b) p in
    v <- wlift (pow_num (q_val a) p) ;;
    units_of v (if p_eqZ n 0 then u "Dimensionless" else if p_eqZ n 1 then fst b else fst b ++ p_str n)%list.

(** ** Comparisons, 485-537 *)
(** the six operators of unit_class.py:485-537 *)
Inductive cmp := Lt | Le | Eq | Ne | Ge | Gt.
(** Python's comparison of numbers, unit_class.py:487 and alike *)
Definition holds (c : cmp) (x y : Qc) : bool :=
  match c with
  | Lt => if Qclt_le_dec x y then true else false
  | Le => if Qclt_le_dec y x then false else true
  | Eq => if Qc_eq_dec x y then true else false
  | Ne => if Qc_eq_dec x y then false else true
  | Ge => if Qclt_le_dec x y then false else true
  | Gt => if Qclt_le_dec y x then true else false
  end.
(** unit_class.py:485-537 *)
Definition compare_ (c : cmp) (a : qty) (b : pv) : W bool :=
  match b with
  | PQ b => if seqb (q_kind a) (q_kind b) then
              r <- to b (Some (q_unit a)) ;; q <- wlift (as_qty r) ;; wret (holds c (q_val a) (q_val q))
            else wraise TypeError
  | PN v => wret (holds c (q_val a) v)
  | _ => match c with Eq => wret false | Ne => wret true | _ => wraise TypeError end
  end.

(** ** Rounding *)
(** Python's [round]: to the nearest multiple of 10^-n, the even one when halfway *)
Definition half_even (x : Qc) : Z :=
  let f := Qfloor x in
  match Qcompare (x - inject_Z f) (1 # 2) with
  | Datatypes.Lt => f
  | Datatypes.Gt => (f + 1)%Z
  | Datatypes.Eq => if Z.even f then f else (f + 1)%Z
  end.
(** Python's [round(x, n)], unit_class.py:546, 616 *)
Definition round_to (x : Qc) (n : Z) : Qc := (Q2Qc (inject_Z (half_even (x * Q2Qc (Qpower 10 n)))) / Q2Qc (Qpower 10 n))%Qc.
(** 545-546 [round(q, n)] *)
Definition round_ (a : qty) (n : option Z) : W pv :=
  make (q_kind a) (round_to (q_val a) (match n with Some n => n | None => 0%Z end)) (q_unit a).
(** 605-624 [q.round(n)] and [q.round(n, value=v)] *)
(** unit_class.py:605-624 with [value=x] *)
Definition round_value (x : Qc) (n : Z) : Qc := if (0 <=? n)%Z then round_to x n else significant x n.
(** unit_class.py:605-624 without [value] *)
Definition round_method (a : qty) (n : option Z) : W pv :=
  match n with None => wraise TypeError | Some n => units_of (round_value (q_val a) n) (q_unit a) end.
(** 566-575 *)
Definition equals (a : qty) (b : pv) (n : option Z) : W bool :=
  _ <- (match n with None => compare_ Eq a b | Some _ => wret true end) ;;
  match b with
  | PQ q => if seqb (q_kind a) (q_kind q) then
              ra <- round_method a n ;; qa <- wlift (as_qty ra) ;;
              c <- to q (Some (q_unit a)) ;; qc <- wlift (as_qty c) ;;
              rb <- round_method qc n ;; compare_ Eq qa rb
            else wraise TypeError
  | PN v => ra <- round_method a n ;; qa <- wlift (as_qty ra) ;;
            match n with None => wraise TypeError | Some n => compare_ Eq qa (PN (round_value v n)) end
  | _ => ra <- round_method a n ;; wraise TypeError
  end.
End Units.

(** unit_class.py:661-665 [valid_unit] *)
Definition valid_unit (x : option str) (w : world) : bool := match x with None => true | Some x => smem (strip x) (w_all w) end.
(** helpers/is_unit.py:15-41 on a string (no kind has '_' in its name) *)
Definition is_unit (x : str) (d : kinds) : bool :=
  let x := strip x in
  let known y := existsb (fun kl : str * list str => smem y (snd kl)) d in
  known x || ((cmem c_slash x || cmem c_star x) && forallb known (flat_map (csplit c_star) (csplit c_slash x))).

(** the world of a session: [shipped_kinds], whose names are all the valid ones *)
(** model plumbing: the world of a session in which dictionary = [d]; [Unit._all_units_str] is computed at import, unit_class.py:79, [_all_units] dictionaries.py:606-607 *)
Definition world_of (s : st Qc) (d : kinds) : world := World s d (flat_map snd d).
