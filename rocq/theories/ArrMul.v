(** * Products, quotients and remainders of quantities of arrays

    [Length([1, 2, 3], 'm') * Length(2, 'ft')], [Length([1, 2], 'm') / Time([3, 4], 's')]:
    unit_class.py:202-240 ( * ), 334-366 (/), 380-412 (//), 452-483 (%), on the values of ArrQty.v. *)
From Coq Require Import String QArith Qcanon ZArith.
From Verif Require Import Py StrTools Network Conv Converter NumPy Database Shipped Operations Units ArrQty.
Local Open Scope N_scope.

Section ArrMul.
Context {F : Floats} {V : Type} {A : Arith V} (ediv : V -> V -> V) (cls : str -> list str).
(** define.py:60-80 [units(0, x)]: the kind and the unit of what is made, or what is raised.  A parameter: which kind that
    is depends on the dictionary (Units.v has it in full), never on the number *)
Context (named : str -> res (str * str)).
(** Python's x ** n for an int or a float n, unit_class.py:221 *)
Context (pw : V -> pnum F -> res V).
Local Instance mul_arith : Arith (npv V) := np_arith ediv.
Local Open Scope m_scope.

(** an operator: what Python does with two numbers, what NumPy does with two elements *)
Record binop := Bin { on_numbers : V -> V -> res V; on_elements : V -> V -> V }.
(** model plumbing: the operators of unit_class.py:213, 345 *)
Definition b_mul : binop := Bin (fun x y => Ok (amul x y)) amul.
Definition b_div : binop := Bin adiv ediv.
(** NumPy: an operator on numbers and arrays (model plumbing for unit_class.py:202-483) *)
Definition nd_bin (o : binop) (x y : npv V) : res (npv V) :=
  match x, y with
  | Num a, Num b => rbind (on_numbers o a b) (fun c => Ok (Num c))
  | _, _ => nd_op (on_elements o) x y
  end.
(** define.py:30-80 [units(v, x)]; 73-76: a percentage is divided by a hundred *)
Definition aunits (v : npv V) (x : str) : res (aqty V) :=
  rbind (named x) (fun kx => if is_k (fst kx) "Percentage" then rbind (nd_bin b_div v (Num (aconst 100))) (fun v => Ok (AQ (fst kx) (snd kx) v)) else Ok (AQ (fst kx) (snd kx) v)).
(** [_unit_product(a, b)], [_unit_division(a, b)], unit_class.py:213, 345 *)
Definition aname (div : bool) (a b : str) : M (npv V) str :=
  if div then unit_division unitless_names (Some a) (Some b) else unit_product unitless_names (Some a) (Some b).
(** unit_class.py:220, 349, 395, 466 *)
Definition abases_convertible (b a : str) : M (npv V) bool :=
  pb <- lift (unit_base_power b) ;; pa <- lift (unit_base_power a) ;; convertible (fst pb) (fst pa) None.
(** unit_class.py:221, 350, 396, 467 *)
Definition abase_factor (b a : str) : M (npv V) V :=
  pb <- lift (unit_base_power b) ;; pa <- lift (unit_base_power a) ;;
  f <- aconv ediv TypeError (Num (aconst 1)) (fst pb) (fst pa) ;;
  match f with Num f => lift (pw f (snd pb)) | Arr _ _ => raise TypeError end.
(** unit_class.py:164, 174, 206, 338 and alike: [kind in (Dimensionless, Percentage)] *)
Definition kindless_ (k : str) : bool := is_k k "Dimensionless" || is_k k "Percentage".
(** [self.kind(value, unit)]: unitless.py:60: a percentage divides what it is given by a hundred *)
Definition amakep (k : str) (v : npv V) (x : str) : res (aqty V) :=
  if is_k k "Percentage" then rbind (nd_bin b_div v (Num (aconst 100))) (fun v => amake cls k v x) else amake cls k v x.
(** unit_class.py:176, 208-209, 340-341 and alike: a percentage and a pure number or a percentage *)
Definition apercent (v : npv V) (k x : str) : res (aqty V) := rbind (nd_bin b_mul v (Num (aconst 100))) (fun v => amakep k v x).
(** model plumbing: an operator that never fails *)
Definition b_op (op : V -> V -> V) : binop := Bin (fun x y => Ok (op x y)) op.

(** unit_class.py:148-149, 158-159 [-q], [abs(q)]; unitless.py:70-74 of percentages ([x * -100] is taken as [(-x) * 100]) *)
Definition aeachp (op : V -> V) (q : aqty V) : res (aqty V) :=
  let v := match a_val q with Num x => Num (op x) | Arr k l => Arr k (map op l) end in
  if is_k (a_kind q) "Percentage" then apercent v (a_kind q) (a_unit q) else amake cls (a_kind q) v (a_unit q).

(** a sum with a pure number takes the pure number's kind, unit_class.py:173-174: no unit of another kind is one of that *)
(** unit_class.py:161-179 (+), 292-311 (-) of two quantities.  Two other kinds: a pair, no quantity (an exception stands for it) *)
Definition aplus (op : V -> V -> V) (a b : aqty V) : M (npv V) (aqty V) :=
  let x := a_val a in let y := a_val b in let o := b_op op in
  if seqb (a_kind a) (a_kind b) then
    if seqb (a_unit a) (a_unit b) then lift (rbind (nd_bin o x y) (fun v => amakep (a_kind a) v (a_unit a)))
    else
      c1 <- convertible (a_unit b) (a_unit a) None ;;
      if c1 then y' <- aconv ediv TypeError y (a_unit b) (a_unit a) ;; lift (rbind (nd_bin o x y') (fun v => amakep (a_kind a) v (a_unit a)))
      else
        c2 <- convertible (a_unit a) (a_unit b) None ;;
        if c2 then x' <- aconv ediv TypeError x (a_unit a) (a_unit b) ;; lift (rbind (nd_bin o y x') (fun v => amakep (a_kind a) v (a_unit b)))
        else raise NoConversionFoundError
  else if kindless_ (a_kind a) && negb (kindless_ (a_kind b)) then lift (rbind (nd_bin o x y) (fun v => amakep (a_kind a) v (a_unit b)))
  else if is_k (a_kind a) "Percentage" && kindless_ (a_kind b) then lift (rbind (nd_bin o x y) (fun v => apercent v (a_kind a) (a_unit a)))
  else if kindless_ (a_kind b) then lift (rbind (nd_bin o x y) (fun v => amakep (a_kind a) v (a_unit a)))
  else raise TypeError.

(** unit_class.py:202-224 *)
Definition amul_qty (a b : aqty V) : M (npv V) (aqty V) :=
  let x := a_val a in let y := a_val b in
  if kindless_ (a_kind a) && negb (kindless_ (a_kind b)) then lift (rbind (nd_bin b_mul x y) (fun v => amakep (a_kind b) v (a_unit b)))
  else if is_k (a_kind a) "Percentage" && kindless_ (a_kind b) then lift (rbind (nd_bin b_mul x y) (fun v => apercent v (a_kind a) (a_unit a)))
  else if kindless_ (a_kind b) then lift (rbind (nd_bin b_mul x y) (fun v => amakep (a_kind a) v (a_unit a)))
  else if seqb (a_unit a) (a_unit b) then v <- lift (nd_bin b_mul x y) ;; n <- aname false (a_unit a) (a_unit b) ;; lift (aunits v n)
  else
    c1 <- convertible (a_unit b) (a_unit a) None ;;
    if c1 then y' <- aconv ediv TypeError y (a_unit b) (a_unit a) ;; v <- lift (nd_bin b_mul x y') ;; n <- aname false (a_unit a) (a_unit b) ;; lift (aunits v n)
    else
      c2 <- convertible (a_unit a) (a_unit b) None ;;
      if c2 then x' <- aconv ediv TypeError x (a_unit a) (a_unit b) ;; v <- lift (nd_bin b_mul y x') ;; n <- aname false (a_unit b) (a_unit a) ;; lift (aunits v n)
      else
        c3 <- abases_convertible (a_unit b) (a_unit a) ;;
        if c3 then f <- abase_factor (a_unit b) (a_unit a) ;; v <- lift (nd_bin b_mul x y) ;; v <- lift (nd_bin b_mul v (Num f)) ;;
          n <- aname false (a_unit a) (a_unit b) ;; lift (aunits v n)
        else v <- lift (nd_bin b_mul x y) ;; n <- aname false (a_unit a) (a_unit b) ;; lift (aunits v n).
(** unit_class.py:334-353 (/), 380-399 (//), 452-470 (%): [quot] tells whether the units are divided *)
Definition adiv_qty (o : binop) (quot : bool) (a b : aqty V) : M (npv V) (aqty V) :=
  let x := a_val a in let y := a_val b in
  let name := if quot then aname true (a_unit a) (a_unit b) else ret (a_unit a) in
  if kindless_ (a_kind a) && negb (kindless_ (a_kind b))
  then lift (rbind (nd_bin o x y) (fun v => amakep (a_kind b) v (if quot then u "1/" ++ a_unit b else a_unit a)))
  else if is_k (a_kind a) "Percentage" && kindless_ (a_kind b) then lift (rbind (nd_bin o x y) (fun v => apercent v (a_kind a) (a_unit a)))
  else if kindless_ (a_kind b) then lift (rbind (nd_bin o x y) (fun v => amakep (a_kind a) v (a_unit a)))
  else if seqb (a_unit a) (a_unit b) then v <- lift (nd_bin o x y) ;; n <- name ;; lift (aunits v n)
  else
    c1 <- convertible (a_unit b) (a_unit a) None ;;
    if c1 then y' <- aconv ediv TypeError y (a_unit b) (a_unit a) ;; v <- lift (nd_bin o x y') ;; n <- name ;; lift (aunits v n)
    else
      c3 <- abases_convertible (a_unit b) (a_unit a) ;;
      if c3 then f <- abase_factor (a_unit b) (a_unit a) ;; y' <- lift (nd_bin b_mul y (Num f)) ;; v <- lift (nd_bin o x y') ;; n <- name ;; lift (aunits v n)
      else v <- lift (nd_bin o x y) ;; n <- name ;; lift (aunits v n).
End ArrMul.
Arguments binop V : clear implicits.
