(** * Quantities as Python objects

    What a program that keeps quantities and arrays under names sees: which
    operation makes a new object, which quantities share one array, what an
    assignment to [q.units], [q.values] or [q.values[n]] changes.  Quantities are
    those of ArrQty.v; an array is a place in the memory. *)
From Coq Require Import String QArith Qcanon ZArith.
From Verif Require Import Py StrTools Network Conv Converter NumPy Database Shipped Operations Units ArrQty ArrMul ArrNum ArrLaw.
Local Open Scope N_scope.

Section Objects.
Context {F : Floats} {V : Type} {A : Arith V} (ediv : V -> V -> V) (cls : str -> list str) (named : str -> res (str * str)) (pw : V -> pnum F -> res V).
Local Instance obj_arith : Arith (npv V) := np_arith ediv.

(** the attribute [value]: a number, or a reference to an array *)
Inductive slot := SNum (x : V) | SBuf (p : nat).
(** unit_class.py:80, 96-99: the attributes of a quantity; [name] is left out *)
Record obj := Obj { o_kind : str; o_unit : str; o_val : slot }.
(** the quantities and the arrays made so far, and the converter's state *)
Record heap := Heap { h_obj : list obj; h_buf : list (box * list V); h_eng : st (npv V) }.

(** model plumbing: what a reference stands for *)
Definition deref (h : heap) (s : slot) : option (npv V) :=
  match s with SNum x => Some (Num x) | SBuf p => match nth_error (h_buf h) p with Some (b, l) => Some (Arr b l) | None => None end end.
(** the i-th quantity as [ArrQty.v] has it: unit_class.py:580-599, all the ways to read its unit and its value *)
Definition look (h : heap) (i : nat) : option (aqty V) :=
  match nth_error (h_obj h) i with Some o => match deref h (o_val o) with Some v => Some (AQ (o_kind o) (o_unit o) v) | None => None end | None => None end.
(** unit_class.py:101-102 [q()], 594-595 [get_value], 597-599 [values] *)
Definition get_value (h : heap) (i : nat) : option (npv V) := match look h i with Some q => Some (a_val q) | None => None end.
(** unit_class.py:580-584 [get_unit], [get_units], 586-588 [units] *)
Definition get_unit (h : heap) (i : nat) : option str := match look h i with Some q => Some (a_unit q) | None => None end.
(** [a.values is b.values] for two arrays *)
Definition same_array (h : heap) (i j : nat) : bool :=
  match nth_error (h_obj h) i, nth_error (h_obj h) j with
  | Some (Obj _ _ (SBuf p)), Some (Obj _ _ (SBuf p')) => Nat.eqb p p'
  | _, _ => false
  end.

(** what a constructor is given: unit_class.py:626-639 [check_value] *)
Inductive input := INum (x : V) | IList (l : list V) | IArr (p : nat) | IObj (i : nat).
(** the operations on one quantity: [q.to(x)], [q * n] and alike, [q / n], [n / q] and alike, [q ** n], [q.round(n)], [round(q, n)],
    [-q] and alike, [q[n]] *)
Inductive unary := UTo (x : str) | UWith (o : binop V) (y : V) | UOver (y : V) | UUnder (o : binop V) (y : V) | UPow (f : fun1 V) (p : pnum F)
| URound (f : fun1 V) | URound_ (f : fun1 V) | UEach (op : V -> V) | UItem (n : index).
(** ... and on two: + and -, *, /, and // % *)
Inductive binary := BSum (op : V -> V -> V) | BMul | BOver | BDiv (o : binop V) (quot : bool).
(** the commands of a program *)
Inductive cmd :=
| NewArr (b : box) (l : list V)          (* np.array(l), pd.Series(l) *)
| Make (k : str) (a : input) (x : str)   (* Length(a, x) *)
| Un (f : unary) (i : nat)
| Bi (f : binary) (i j : nat)
| Cmp (op : V -> V -> bool) (i j : nat) (* a < b and alike *)
| SetUnits (i : nat) (x : str)           (* q.units = x *)
| SetValues (i : nat) (a : input)        (* q.values = a; q.values = other.values *)
| Write (i : nat) (n : Z) (v : V)        (* q.values[n] = v *)
| WriteArr (p : nat) (n : Z) (v : V).    (* array[n] = v *)

(** model plumbing: a value in a new place of the memory *)
Definition store (v : npv V) (h : heap) : slot * heap :=
  match v with Num x => (SNum x, h) | Arr b l => (SBuf (length (h_buf h)), Heap (h_obj h) (h_buf h ++ [(b, l)])%list (h_eng h)) end.
(** model plumbing: a new object *)
Definition new_obj (o : obj) (h : heap) : res (option nat) * heap := (Ok (Some (length (h_obj h))), Heap (h_obj h ++ [o])%list (h_buf h) (h_eng h)).
(** model plumbing: a new object with a new array *)
Definition new_qty (q : aqty V) (h : heap) : res (option nat) * heap := let '(s, h) := store (a_val q) h in new_obj (Obj (a_kind q) (a_unit q) s) h.
(** model plumbing: the engine runs, what it returns becomes an object *)
Definition computed (m : M (npv V) (aqty V)) (h : heap) : res (option nat) * heap :=
  let '(r, e) := m (h_eng h) in let h := Heap (h_obj h) (h_buf h) e in match r with Ok q => new_qty q h | Err x => (Err x, h) end.
(** model plumbing: the place in a list changed *)
Fixpoint upd {X} (l : list X) (n : nat) (f : X -> X) : list X :=
  match l, n with x :: l, O => f x :: l | x :: l, Datatypes.S n => x :: upd l n f | [], _ => [] end.
(** unit_class.py:626-639 [check_value]: a list becomes a new array, an array stays the same object, a quantity gives its own *)
Definition given (a : input) (h : heap) : res slot * heap :=
  match a with
  | INum x => (Ok (SNum x), h)
  | IList l => let '(s, h) := store (Arr Ndarray l) h in (Ok s, h)
  | IArr p => (match nth_error (h_buf h) p with Some _ => Ok (SBuf p) | None => Err NameError end, h)
  | IObj i => (match nth_error (h_obj h) i with Some o => Ok (o_val o) | None => Err NameError end, h)
  end.
(** unitless.py:60: a percentage's value is what is given over a hundred, a new array *)
Definition percent (v : npv V) : res (npv V) := nd_bin (b_div ediv) v (Num (aconst 100)).
(** geometry.py:20-24 and alike, unitless.py:24-30, 56-62: the constructors of the kinds *)
Definition make (k : str) (a : input) (x : str) (h : heap) : res (option nat) * heap :=
  match given a h with
  | (Ok s, h1) =>
    if negb (smem x (cls k)) then (Err WrongUnitsError, h)
    else if is_k k "Percentage" then
      match deref h1 s with
      | Some v => match percent v with Ok w => new_qty (AQ k x w) h | Err e => (Err e, h) end
      | None => (Err NameError, h)
      end
    else new_obj (Obj k x s) h1
  | (Err e, _) => (Err e, h)
  end.
(** unitless.py:32-48 [Dimensionless.convert], which Percentage inherits: the array goes on as it is, but into a percentage.
    To the empty name it returns the value itself: no quantity *)
Definition unitless_to (o : obj) (v : npv V) (x : str) (h : heap) : res (option nat) * heap :=
  if seqb x [] then (Ok None, h)
  else if smem x (cls (u "Percentage")) then
    match percent (broadcast amul v (Num (aconst 100))) with Ok w => new_qty (AQ (u "Percentage") x w) h | Err e => (Err e, h) end
  else if smem x (cls (u "Dimensionless")) then new_obj (Obj (u "Dimensionless") x (o_val o)) h
  else match named x with
       | Ok (k, y) => if is_k k "Percentage" then match percent v with Ok w => new_qty (AQ k y w) h | Err e => (Err e, h) end else new_obj (Obj k y (o_val o)) h
       | Err e => (Err e, h)
       end.
(** the operations of ArrQty.v, ArrMul.v and ArrNum.v *)
Definition un_val (f : unary) (q : aqty V) : M (npv V) (aqty V) :=
  match f with
  | UTo x => ato ediv cls q x
  | UWith o y => lift (awith ediv cls o q y)
  | UOver y => lift (aover ediv cls named q y)
  | UUnder o y => lift (aunder ediv named o y q)
  | UPow f p => lift (apow ediv cls named f p q)
  | URound f => lift (around ediv named f q)
  | URound_ f => lift (around_ ediv cls f q)
  | UEach op => lift (aeachp ediv cls op q)
  | UItem n => lift (getitem cls q n)
  end.
(** the operations of ArrMul.v and ArrLaw.v *)
Definition bi_val (f : binary) (a b : aqty V) : M (npv V) (aqty V) :=
  match f with
  | BSum op => aplus ediv cls op a b
  | BMul => atimes ediv cls named pw a b
  | BOver => adivided ediv cls named pw a b
  | BDiv o quot => adiv_qty ediv cls named pw o quot a b
  end.
(** the kinds whose [convert] is that of unitless.py *)
Definition unitless (k : str) : bool := is_k k "Dimensionless" || is_k k "Percentage".
(** NumPy: an element assigned, negative places count from the end *)
Definition nd_set (l : list V) (i : Z) (v : V) : res (list V) :=
  let j := if (i <? 0)%Z then (i + Z.of_nat (length l))%Z else i in
  if (j <? 0)%Z || (Z.of_nat (length l) <=? j)%Z then Err IndexError else Ok (upd l (Z.to_nat j) (fun _ => v)).
(** NumPy: [array[n] = v]; a simplification: the array holds the numbers as they are, whatever its dtype *)
Definition write (p : nat) (n : Z) (v : V) (h : heap) : res (option nat) * heap :=
  match nth_error (h_buf h) p with
  | Some (b, l) => match nd_set l n v with Ok l' => (Ok None, Heap (h_obj h) (upd (h_buf h) p (fun _ => (b, l'))) (h_eng h)) | Err e => (Err e, h) end
  | None => (Err NameError, h)
  end.

(** one command: what it returns (the object that it makes) and the memory after it *)
Definition step (c : cmd) (h : heap) : res (option nat) * heap :=
  match c with
  | NewArr b l => (Ok None, snd (store (Arr b l) h))
  | Make k a x => make k a x h
  | Un f i =>
    match nth_error (h_obj h) i, look h i with
    | Some o, Some q =>
      match f with
      | UTo x => if unitless (o_kind o) then unitless_to o (a_val q) x h else computed (un_val f q) h
      | _ => computed (un_val f q) h
      end
    | _, _ => (Err NameError, h)
    end
  | Bi f i j => match look h i, look h j with Some a, Some b => computed (bi_val f a b) h | _, _ => (Err NameError, h) end
  | Cmp op i j =>
    match look h i, look h j with
    | Some a, Some b => let '(r, e) := acmp ediv cls named op a b (h_eng h) in (rbind r (fun _ => Ok None), Heap (h_obj h) (h_buf h) e)
    | _, _ => (Err NameError, h)
    end
  (* unit_class.py:590-592: no check *)
  | SetUnits i x =>
    if Nat.ltb i (length (h_obj h)) then (Ok None, Heap (upd (h_obj h) i (fun o => Obj (o_kind o) x (o_val o))) (h_buf h) (h_eng h)) else (Err NameError, h)
  (* unit_class.py:601-603: no check; a list (which would stay a list) is left out *)
  | SetValues i a =>
    match a with
    | IList _ => (Err TypeError, h)
    | _ => match given a h with
           | (Ok s, _) => if Nat.ltb i (length (h_obj h)) then (Ok None, Heap (upd (h_obj h) i (fun o => Obj (o_kind o) (o_unit o) s)) (h_buf h) (h_eng h)) else (Err NameError, h)
           | (Err e, _) => (Err e, h)
           end
    end
  | Write i n v => match nth_error (h_obj h) i with Some (Obj _ _ (SBuf p)) => write p n v h | Some _ => (Err TypeError, h) | None => (Err NameError, h) end
  | WriteArr p n v => write p n v h
  end.
(** a program *)
Definition run (cs : list cmd) (h : heap) : heap := fold_left (fun h c => snd (step c h)) cs h.
(** before the first command *)
Definition no_objects (s : st (npv V)) : heap := Heap [] [] s.

(** unit_class.py:104-111, unitless.py:64-68 [str(q)], [repr(q)]; [show] is Python's [str] of a number or an array *)
Definition text (show : npv V -> str) (q : aqty V) : str :=
  if is_k (a_kind q) "Percentage" then show (broadcast amul (a_val q) (Num (aconst 100))) ++ u "_" ++ a_unit q
  else match strip (a_unit q) with [] => show (a_val q) | _ => show (a_val q) ++ u "_" ++ a_unit q end.
(** unit_class.py:104-105, unitless.py:64-65 [repr(q)] *)
Definition repr (show : npv V -> str) (q : aqty V) : str :=
  (if is_k (a_kind q) "Percentage" then show (broadcast amul (a_val q) (Num (aconst 100))) else show (a_val q)) ++ u "_" ++ a_unit q.
End Objects.
Arguments slot V : clear implicits.
Arguments obj V : clear implicits.
Arguments heap V : clear implicits.
Arguments input V : clear implicits.
Arguments unary F V : clear implicits.
Arguments binary V : clear implicits.
Arguments cmd F V : clear implicits.
