(** * Dates (units/date.py)
    [datetime64] and [timedelta64] are NumPy's: a count of a unit, the proleptic Gregorian calendar without leap seconds.
    NaT and the multiples of units ('25s') are not modelled: no name of a Time is spelled like that. *)
From Coq Require Import String ZArith List Lia.
From Verif Require Import Py.
Import ListNotations.
Local Open Scope Z_scope.

(** NumPy's units of dates (date.py:17, the arguments of [datetime64] and [timedelta64]) *)
Inductive tunit := UY | UM | UW | UD | Uh | Um | Us | Ums | Uus | Uns | Ups | Ufs | Uas.
(** their codes, as given to [timedelta64] in date.py:31 and 35; anything else is a TypeError *)
Definition tcode (x : str) : option tunit :=
  let is s := seqb x (u s) in
  if is "Y"%string then Some UY else if is "M"%string then Some UM else if is "W"%string then Some UW else if is "D"%string then Some UD
  else if is "h"%string then Some Uh else if is "m"%string then Some Um else if is "s"%string then Some Us else if is "ms"%string then Some Ums
  else if is "us"%string then Some Uus else if seqb x [956%N; 115%N] then Some Uus (* 'μs' *)
  else if is "ns"%string then Some Uns else if is "ps"%string then Some Ups
  else if is "fs"%string then Some Ufs else if is "as"%string then Some Uas else None.
(** date.py:31: the attoseconds of a unit of NumPy; years and months have none *)
Definition atto (t : tunit) : option Z :=
  match t with
  | UY | UM => None
  | UW => Some (604800 * 10 ^ 18) | UD => Some (86400 * 10 ^ 18) | Uh => Some (3600 * 10 ^ 18) | Um => Some (60 * 10 ^ 18) | Us => Some (10 ^ 18)
  | Ums => Some (10 ^ 15) | Uus => Some (10 ^ 12) | Uns => Some (10 ^ 9) | Ups => Some (10 ^ 6) | Ufs => Some (10 ^ 3) | Uas => Some 1
  end.

(** NumPy's calendar (date.py:38-44): the days from 1970-01-01 to a date, counting years from the first of March *)
Definition day_number (c : Z * Z * Z) : Z :=
  let '(y, m, d) := c in
  let y' := if m <=? 2 then y - 1 else y in
  let m' := if m <=? 2 then m + 9 else m - 3 in
  365 * y' + y' / 4 - y' / 100 + y' / 400 + (153 * m' + 2) / 5 + (d - 1) - 719468.
(** NumPy's calendar (date.py:38-44): and the date of a day *)
Definition civil (z : Z) : Z * Z * Z :=
  let z := z + 719468 in
  let era := z / 146097 in
  let doe := z mod 146097 in
  let c := Z.min 3 (doe / 36524) in
  let r := doe - 36524 * c in
  let q := r / 1461 in
  let r := r - 1461 * q in
  let a := Z.min 3 (r / 365) in
  let doy := r - 365 * a in
  let m' := (5 * doy + 2) / 153 in
  let d := doy - (153 * m' + 2) / 5 + 1 in
  let m := if m' <? 10 then m' + 3 else m' - 9 in
  let y := 400 * era + 100 * c + 4 * q + a in
  (if m <=? 2 then y + 1 else y, m, d).

(** a [datetime64] (date.py:24): a count of a unit *)
Record dt := Dt { dt_unit : tunit; dt_count : Z }.
(** the moment of a [datetime64], in attoseconds from 1970-01-01 (NumPy) *)
Definition moment (t : dt) : Z :=
  match dt_unit t with
  | UY => day_number (1970 + dt_count t, 1, 1) * (86400 * 10 ^ 18)
  | UM => day_number (1970 + dt_count t / 12, 1 + dt_count t mod 12, 1) * (86400 * 10 ^ 18)
  | v => match atto v with Some a => dt_count t * a | None => 0 end
  end.
(** an object of the class Date (date.py:20-27): its value and its name.  Its slot [unit] is never filled *)
Record date_obj := Date { d_value : dt; d_name : str }.
(** the right operand of a sum (date.py:29-35): a Time, with its value (a whole number or not) and its unit, another
    quantity, or something else *)
Inductive pnum := PInt (z : Z) | PFloat.
(** the right operand, date.py:29-35 *)
Inductive operand := OTime (v : pnum) (x : str) | ODate (d : date_obj) | OUnit | OOther.

Section NumPy.
(** what NumPy does with a count that is not within 64 bits: wrap or raise, depending on its version *)
Context (over : Z -> res Z).
(** a count within 64 bits; the least one is NaT *)
Definition fits (z : Z) : bool := (- 2 ^ 63 <? z) && (z <? 2 ^ 63).
(** NumPy's count of a date.py:24 value, in 64 bits *)
Definition int64 (z : Z) : res Z := if fits z then Ok z else over z.
(** the finer of two units, in which NumPy adds (date.py:31) *)
Definition rank (t : tunit) : Z :=
  match t with UY => 0 | UM => 1 | UW => 2 | UD => 3 | Uh => 4 | Um => 5 | Us => 6 | Ums => 7 | Uus => 8 | Uns => 9 | Ups => 10 | Ufs => 11 | Uas => 12 end.
(** the finer of two units (NumPy), date.py:31 *)
Definition finer (a b : tunit) : tunit := if rank a <? rank b then b else a.
(** the value of a [timedelta64] of [n] [t] in attoseconds, or months for the two calendar units (NumPy) *)
Definition td := (tunit * Z)%type.
(** [timedelta64(v, x)], date.py:31: an unknown code is a TypeError, a number that is not whole a ValueError, a number
    that needs more than 64 bits an OverflowError (a ValueError here) *)
Definition timedelta (v : pnum) (x : str) : res td :=
  match tcode x with
  | None => Err TypeError
  | Some t => match v with PFloat => Err ValueError | PInt z => if fits z then Ok (t, z) else Err ValueError end
  end.
(** [a + b] of a [datetime64] and a [timedelta64] ([sub]: [a - b]), date.py:31, 35.  Years and months can only be added
    to dates counted in them (a TypeError otherwise) *)
Definition add_td (sub : bool) (a : dt) (b : td) : res dt :=
  let sgn z := if sub then - z else z in
  match fst b with
  | UY => match dt_unit a with UY => rbind (int64 (dt_count a + sgn (snd b))) (fun n => Ok (Dt UY n))
                             | UM => rbind (int64 (dt_count a + sgn (12 * snd b))) (fun n => Ok (Dt UM n)) | _ => Err TypeError end
  | UM => match dt_unit a with UY => rbind (int64 (12 * dt_count a + sgn (snd b))) (fun n => Ok (Dt UM n))
                             | UM => rbind (int64 (dt_count a + sgn (snd b))) (fun n => Ok (Dt UM n)) | _ => Err TypeError end
  | t =>
      let v := finer (dt_unit a) t in
      match atto v, atto t with
      | Some av, Some at_ =>
          rbind (int64 (moment a / av)) (fun x =>
          rbind (int64 (snd b * at_ / av)) (fun y =>
          rbind (int64 (x + sgn y)) (fun n => Ok (Dt v n))))
      | _, _ => Err TypeError
      end
  end.
(** [Date(value, units, name)] of a [datetime64], date.py:23-27 *)
Definition new_date (v : dt) (name : option str) : date_obj := Date v (match name with None => u "date" | Some n => n end).
(** date.py:29-31 [__add__] and 33-35 [__sub__]; [None]: Python's None, returned for everything that is not a Time *)
Definition date_add (sub : bool) (d : date_obj) (o : operand) : res (option date_obj) :=
  match o with
  | OTime v x => rbind (timedelta v x) (fun t => rbind (add_td sub (d_value d) t) (fun n => Ok (Some (new_date n None))))
  | _ => Ok None
  end.
(** [self.value.astype(object)], date.py:38, 41, 44: a [date] or [datetime] of the years 1 to 9999 counted in
    microseconds or coarser, otherwise a whole number, which has no year *)
Definition as_object (t : dt) : option (Z * Z * Z) :=
  let c := civil (moment t / (86400 * 10 ^ 18)) in
  if (rank (dt_unit t) <=? 8) && (1 <=? fst (fst c)) && (fst (fst c) <=? 9999) then Some c else None.
(** date.py:37-38 *)
Definition year (d : date_obj) : res Z := match as_object (d_value d) with Some (y, _, _) => Ok y | None => Err AttributeError end.
(** date.py:40-41 *)
Definition month (d : date_obj) : res Z := match as_object (d_value d) with Some (_, m, _) => Ok m | None => Err AttributeError end.
(** date.py:43-44 *)
Definition day (d : date_obj) : res Z := match as_object (d_value d) with Some (_, _, c) => Ok c | None => Err AttributeError end.
(** [self.unit] of a Date: the slot that date.py:23-27 does not fill *)
Definition unit_of_date (d : date_obj) : res str := Err AttributeError.
(** unit_class.py:485-537: the six comparisons of two dates, each of which asks for [self.unit] before it converts *)
Definition compare_dates (a b : date_obj) : res bool := rbind (unit_of_date a) (fun _ => Ok true).
(** unit_class.py:104-105, 107-111: the texts of a date, which ask for [self.unit] *)
Definition repr_date (a : date_obj) : res str := rbind (unit_of_date a) (fun _ => Ok []).
End NumPy.
(** [Date('2024-02-29')], date.py:23-27: a calendar date, counted in days *)
Definition date_of (c : Z * Z * Z) : date_obj := new_date (Dt UD (day_number c)) None.
