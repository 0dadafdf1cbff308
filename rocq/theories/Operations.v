(** * [operations.py]: products, quotients, powers and sums of unit names *)
From Coq Require Import String QArith.
From Verif Require Import Py StrTools Network Search Conv Converter.
Local Open Scope N_scope.

(** ** [helpers/is_number.py:15-39]: is the string accepted by [complex()]?

    The grammar of CPython's [complex_from_string_inner] on ASCII characters
    (other Unicode digits are not modelled). *)
Fixpoint take_dec (x : str) : bool * str :=      (* digits: (at least one, rest) *)
  match x with
  | c :: t => if is_dec c then (true, snd (take_dec t)) else (false, x)
  | [] => (false, [])
  end.
(** part of CPython's [float()] *)
Definition take_sign (x : str) : str := match x with 43 :: t | 45 :: t => t | _ => x end.
(** part of CPython's [float()] *)
Definition take_exp (x : str) : str :=
  match x with
  | c :: t => if (c =? 101) || (c =? 69) then let '(b, r) := take_dec (take_sign t) in if b then r else x else x
  | [] => x
  end.
(** what [PyOS_string_to_double] leaves of the string, [None] when no number starts there *)
(** part of CPython's [float()] (is_number.py:33) *)
Definition take_float (x : str) : option str :=
  let t := take_sign x in
  let '(b1, r1) := take_dec t in
  let '(b2, r2) := match r1 with 46 :: r => take_dec r | _ => (false, r1) end in
  if b1 || b2 then Some (take_exp r2)
  else if sprefix (u "infinity") (lower t) then Some (skipn 8 t)
  else if sprefix (u "inf") (lower t) || sprefix (u "nan") (lower t) then Some (skipn 3 t)
  else None.
(** part of CPython's [complex()] *)
Definition is_j (c : chr) : bool := (c =? 106) || (c =? 74).
(** part of CPython's [complex()] (is_number.py:33) *)
Definition take_complex (x : str) : option str :=
  match take_float x with
  | Some r =>
      match r with
      | c :: t =>
          if (c =? 43) || (c =? 45) then
            match (match take_float r with Some r' => r' | None => t end) with
            | d :: t' => if is_j d then Some t' else None
            | [] => None
            end
          else if is_j c then Some t else Some r
      | [] => Some []
      end
  | None => match take_sign x with d :: t' => if is_j d then Some t' else None | [] => None end
  end.
(** helpers/is_number.py:15-39 *)
Definition is_number (x : str) : bool :=
  match drop_us false x with
  | None => false
  | Some x =>
      let x := lstrip_chars wspace x in
      match x with
      | 40 :: t =>
          match take_complex (lstrip_chars wspace t) with
          | Some r => match lstrip_chars wspace r with 41 :: r' => match lstrip_chars wspace r' with [] => true | _ => false end | _ => false end
          | None => false
          end
      | _ => match take_complex x with Some r => match lstrip_chars wspace r with [] => true | _ => false end | None => false end
      end
  end.

(** ** Exponents: Python ints, and floats about which nothing is assumed *)
Class Floats := {
  flt : Type;
  f_parse : str -> res flt;          (* float(x) of a string *)
  f_str : flt -> str;                (* str(x) *)
  f_ofZ : Z -> flt;
  f_mul : flt -> flt -> flt; f_add : flt -> flt -> flt; f_sub : flt -> flt -> flt;
  f_abs : flt -> flt;
  f_eqZ : flt -> Z -> bool; f_ltZ : flt -> Z -> bool; f_gtZ : flt -> Z -> bool;
  f_int : flt -> res Z }.            (* int(x) *)
Section Pow.
Context {F : Floats}.
(** operations.py:57, 59: the powers *)
Inductive pnum := PI (z : Z) | PF (x : flt).
(** Python's coercion of an int to a float *)
Definition p_flt (p : pnum) : flt := match p with PI z => f_ofZ z | PF x => x end.
(** Python's arithmetic on ints and floats, operations.py:59, 116, 181, 233 *)
Definition p_op (iop : Z -> Z -> Z) (fop : flt -> flt -> flt) (a b : pnum) : pnum :=
  match a, b with PI x, PI y => PI (iop x y) | _, _ => PF (fop (p_flt a) (p_flt b)) end.
(** Python [a * b] *)
Definition p_mul := p_op Z.mul f_mul.
(** Python [a + b] *)
Definition p_add := p_op Z.add f_add.
(** Python [a - b] *)
Definition p_sub := p_op Z.sub f_sub.
(** Python [str(p)], operations.py:102, 128, 165, 193, 239 *)
Definition p_str (p : pnum) : str := match p with PI z => str_of_Z z | PF x => f_str x end.
(** Python [p == n], operations.py:110, 117-121, 234-236, 286 *)
Definition p_eqZ (p : pnum) (n : Z) : bool := match p with PI z => (z =? n)%Z | PF x => f_eqZ x n end.
(** Python [p < n], operations.py:288 *)
Definition p_ltZ (p : pnum) (n : Z) : bool := match p with PI z => (z <? n)%Z | PF x => f_ltZ x n end.
(** Python [p > n], operations.py:290 *)
Definition p_gtZ (p : pnum) (n : Z) : bool := match p with PI z => (n <? z)%Z | PF x => f_gtZ x n end.
(** Python [int(p)], operations.py:102 *)
Definition p_int (p : pnum) : res Z := match p with PI z => Ok z | PF x => f_int x end.
(** Python [abs(p)], operations.py:289 *)
Definition p_abs (p : pnum) : pnum := match p with PI z => PI (Z.abs z) | PF x => PF (f_abs x) end.

(** operations.py:57, 59: [float(x) if '.' in x else int(x)] *)
Definition number_of (x : str) : res pnum :=
  if cmem c_dot x then rbind (f_parse x) (fun v => Ok (PF v)) else rbind (py_int x) (fun z => Ok (PI z)).

(** operations.py:27-60 [unit_base_power] *)
Definition flip (inv : bool) (p : str) : str :=     (* operations.py:42-46, 51-55 *)
  if inv then match p with [] => [] | 45 :: t => t | _ => 45 :: p end else p.
(** operations.py:35-55 *)
Fixpoint ubp_loop (x : str) (bas pw oth : str) (inv : bool) : str * str :=
  match x with
  | [] => (bas, flip inv pw)
  | c :: t =>
      if isdigit c then ubp_loop t bas (pw ++ oth ++ [c]) [] inv
      else if (c =? c_minus) || (c =? c_plus) || (c =? c_dot) then ubp_loop t bas pw (oth ++ [c]) inv
      else ubp_loop t (bas ++ oth ++ [c]) (flip inv pw) [] (if c =? c_slash then negb inv else inv)
  end.
(** operations.py:27-60 *)
Definition unit_base_power (x : str) : res (str * pnum) :=
  match split2 c_slash x with
  | Some (n, b) =>
      if is_number n then rbind (number_of n) (fun v => Ok (b, p_mul (p_mul (PI 1) (PI (-1))) v))
      else let '(b, p) := ubp_loop x [] [] [] false in
           match p with [] => Ok (b, PI 1) | _ => rbind (number_of p) (fun v => Ok (b, v)) end
  | None =>
      let '(b, p) := ubp_loop x [] [] [] false in
      match p with [] => Ok (b, PI 1) | _ => rbind (number_of p) (fun v => Ok (b, v)) end
  end.
Definition unit_base (x : str) : res str := rbind (unit_base_power x) (fun r => Ok (fst r)).   (* operations.py:63-64 *)

(** ** The arguments: [None], blanks and parentheses are dimensionless *)
(** the literal of operations.py:69 *)
Definition dimensionless : str := u "dimensionless".
(** the literal of operations.py:73 *)
Definition sp_par : list chr := [c_space; c_lpar; c_rpar].
Definition or_dimless (x : option str) : str :=     (* operations.py:68-76, 143-151 *)
  match x with
  | None => dimensionless
  | Some x => match strip_chars sp_par x with [] => dimensionless | _ => x end
  end.
Definition norm (x : option str) : str :=           (* operations.py:78-83, 153-158: x/x *)
  let x := or_dimless x in
  match split2 c_slash x with Some (a, b) => if seqb a b then dimensionless else x | None => x end.

(** dictionaries.py:515-520, 567-574 [unitless_names], without its [None] (which
    no string equals) *)
Definition unitless_names : list str :=
  map u ["fraction"; "ratio"; "dimensionless"; "unitless"; "None"; ""; "percentage"; "%"; "perc"; "percent"; "/100"]%string.

Section Ops.
Context {V : Type} {A : Arith V}.
(** the unitless names: [unitless_names] above in the theorems *)
Context (unitless : list str).
Local Open Scope m_scope.
(** operations.py:85, 87, 160, 162, 259, 261, 282 *)
Definition is_unitless (x : str) : bool := smem (strip_chars sp_par (lower x)) unitless.

(** operations.py:124-127, 130-137, 207-214: parentheses around a name with '+', '-' or '^' *)
Definition wrap (x : str) : str :=
  if cmem c_plus x || cmem c_minus x || cmem c_hat x then [c_lpar] ++ x ++ [c_rpar] else x.
(** operations.py:116-128, 181-193: a base to a power *)
Definition spell (b : str) (p : pnum) : str :=
  if p_eqZ p (-1) then b ++ u "-1"
  else if p_eqZ p 1 then b
  else if p_eqZ p 0 then b ++ u "/" ++ b
  else wrap b ++ p_str p.
(** operations.py:94-98 *)
Definition has_op (x : str) : bool := cmem c_star x || cmem c_slash x || cmem c_plus x || cmem c_minus x.

(** operations.py:197: [unit_base(b) in map(unit_base, l)] *)
Fixpoint base_in (b : str) (l : list str) : res bool :=
  match l with [] => Ok false | x :: t => rbind (unit_base x) (fun y => if seqb b y then Ok true else base_in b t) end.
(** operations.py:203, 205 *)
Definition strip_star := strip_chars [c_star].
(** operations.py:198-205: the loop over the factors; [inl r] is the return of line 201 *)
Fixpoint div_factors (rec : str -> str -> M V str) (a b : str) (l : list str) (res_ : str) : M V (str + str) :=
  match l with
  | [] => ret (inr res_)
  | x :: t =>
      if seqb b x then ret (inl (sjoin [c_star] (filter (fun y => negb (seqb y b)) (csplit c_star a))))
      else
        bb <- lift (unit_base b) ;;
        bx <- lift (unit_base x) ;;
        if seqb bb bx then
          q <- rec x b ;;
          div_factors rec a b t (strip_star (res_ ++ [c_star] ++ strip_star q))
        else div_factors rec a b t (strip_star (res_ ++ [c_star] ++ x))
  end.

(** operations.py:67-139 [unit_product] and 142-216 [unit_division], mutually
    recursive; [n] bounds the nesting *)
Fixpoint unit_op (n : nat) (div : bool) (o1 o2 : option str) {struct n} : M V str :=
  let a := norm o1 in let b := norm o2 in
  match n with
  | O => raise OutOfFuel
  | S n' =>
      if is_unitless b then ret a
      else if is_unitless a then
        if div then p <- lift (unit_base_power (u "1/" ++ b)) ;; ret (fst p ++ p_str (snd p))
        else ret b
      else if negb div && seqb a b then
        p <- lift (unit_base_power a) ;;
        if has_op (fst p) then ret ([c_lpar] ++ a ++ [c_rpar] ++ u "2")
        else z <- lift (p_int (snd p)) ;; ret (fst p ++ str_of_Z (z * 2))
      else
        cv <- (if seqb a b then ret false else convertible a b None) ;;
        if cv then unit_op n' div (Some a) (Some a)
        else
          p1 <- lift (unit_base_power a) ;;
          p2 <- lift (unit_base_power b) ;;
          let '(b1, n1) := p1 in let '(b2, n2) := p2 in
          if p_eqZ n1 (-1) && negb (p_eqZ n2 (-1)) then
            (if div then unit_op n' false (Some b1) (Some b) else unit_op n' true (Some b) (Some b1))
          else if negb (p_eqZ n1 (-1)) && p_eqZ n2 (-1) then
            unit_op n' (negb div) (Some a) (Some b2)
          else
            cb <- convertible b1 b2 None ;;
            if cb then lift (reduce_units false (spell b1 (if div then p_sub n1 n2 else p_add n1 n2)))
            else if div && negb (cmem c_plus a || cmem c_minus a || cmem c_hat a)
                        && negb (cmem c_plus b || cmem c_minus b || cmem c_hat b) && cmem c_star a then
              bb <- lift (unit_base b) ;;
              i <- lift (base_in bb (csplit c_star a)) ;;
              if i then
                r <- div_factors (fun x y => unit_op n' true (Some x) (Some y)) a b (csplit c_star a) [] ;;
                match r with inl r => ret r | inr r => lift (reduce_units false r) end
              else lift (reduce_units false (wrap a ++ u "/" ++ wrap b))
            else lift (reduce_units false (wrap a ++ (if div then u "/" else u "*") ++ wrap b))
  end.
(** the nesting needed (proved sufficient in OpsFacts.v) *)
(** model plumbing: a bound on the depth of operations.py:105, 111, 113, 170, 176, 178, 203 *)
Definition op_fuel (o1 o2 : option str) : nat := (length (norm o1) + length (norm o2) + 3)%nat.
(** operations.py:67-139 *)
Definition unit_product (a b : option str) : M V str := unit_op (op_fuel a b) false a b.
(** operations.py:142-216 *)
Definition unit_division (a b : option str) : M V str := unit_op (op_fuel a b) true a b.

(** operations.py:219-250 [unit_power] *)
Inductive parg := ANone | ANum (p : pnum) | AStr (x : str) | AOther.
(** operations.py:219-250 *)
Definition unit_power (o : option str) (power : parg) : res str :=
  let x := or_dimless o in
  let power := match power with
               | ANone => ANum (PI 1)
               | AStr y => match strip_chars sp_par y with [] => ANum (PI 1) | _ => AStr y end
               | p => p end in
  rbind (unit_base_power x) (fun r => let '(b1, n1) := r in
  match power with
  | ANum p =>
      let n := p_mul n1 p in
      if p_eqZ n 0 then Ok dimensionless else if p_eqZ n 1 then Ok b1 else Ok (b1 ++ p_str n)
  | AStr y =>
      rbind (unit_base_power y) (fun r => let '(b2, n2) := r in
      let n := p_mul n1 n2 in
      if p_eqZ n 0 then Ok dimensionless
      else if p_eqZ n 1 then Ok (b1 ++ [c_hat] ++ b2)
      else Ok (b1 ++ [c_hat] ++ p_str n ++ b2))
  | _ => Err TypeError
  end).

(** operations.py:253-272 [unit_addition] (blank strings are not replaced here) *)
Definition unit_addition (o1 o2 : option str) : M V str :=
  let a := match o1 with None => dimensionless | Some x => x end in
  let b := match o2 with None => dimensionless | Some x => x end in
  if is_unitless b then ret a
  else if is_unitless a then ret b
  else
    c1 <- convertible b a None ;;
    if c1 then ret a
    else c2 <- convertible a b None ;;
      if c2 then ret b else ret (a ++ [c_plus] ++ b).

(** operations.py:275-300 [unit_inverse] *)
Definition unit_inverse (o : option str) : res str :=
  let x := or_dimless o in
  if is_unitless x then Ok x
  else
    rbind (unit_base_power x) (fun r => let '(b, p) := r in
    if p_eqZ p (-1) then Ok b
    else if p_ltZ p (-1) then Ok (b ++ p_str (p_abs p))
    else if p_gtZ p 1 then Ok (b ++ p_str (p_mul (PI (-1)) p))
    else match csplit c_slash x with
         | [_] => Ok (b ++ u "-1")
         | [y; z] => Ok (z ++ [c_slash] ++ y)
         | [y; z; w] => Ok (w ++ [c_star] ++ z ++ [c_slash] ++ y)
         | l => Ok (sjoin [c_slash] (rev l))
         end).
End Ops.
End Pow.
Arguments pnum F : clear implicits.
Arguments parg F : clear implicits.
