(** * [helpers/caster.py]: reading a number from a text *)
From Coq Require Import String.
From Verif Require Import Py StrTools Operations.
Local Open Scope N_scope.

(** ** String methods with a separator of any length (built-ins) *)
(** Python [s.split(sep)] for a non-empty [sep]: [skip] characters of a separator are still to be
    passed, [cur] is the present piece, reversed *)
Fixpoint split_go (sep : str) (skip : nat) (cur s : str) : list str :=
  match s with
  | [] => [rev cur]
  | c :: t => match skip with
              | S k => split_go sep k cur t
              | O => if sprefix sep s then rev cur :: split_go sep (length sep - 1) [] t else split_go sep O (c :: cur) t
              end
  end.
(** Python [s.split(sep)]: the empty separator raises ValueError *)
Definition py_split (sep s : str) : res (list str) :=
  match sep with [] => Err ValueError | _ => Ok (split_go sep O [] s) end.
(** Python [s.replace(a, b)]: an empty [a] is found around every character *)
Definition py_replace (a b s : str) : str :=
  match a with [] => b ++ concat (map (fun c => c :: b) s) | _ => sjoin b (split_go a O [] s) end.
(** Python [s.count(a)] *)
Definition py_count (a s : str) : nat :=
  match a with [] => S (length s) | _ => (length (split_go a O [] s) - 1)%nat end.
(** Python [s[-1]] for a string known not to be empty *)
Definition last_chr (s : str) : chr := last s 0.
(** Python [s.isdigit()] *)
Definition all_digit (s : str) : bool := match s with [] => false | _ => forallb isdigit s end.

Section Caster.
Context {F : Floats}.

(** what [caster] returns: an int, a float, or the complex number [complex(x)] of the text [x] (caster.py:33-44) *)
Inductive cnum := CI (z : Z) | CF (v : flt) | CC (x : str).

(** caster.py:15-44 [caster]; the argument may be [None] (what [cleaner] returns at its end): [int(None)] raises TypeError *)
Definition caster (x : option str) : res cnum :=
  match x with
  | None => Err TypeError
  | Some x =>
      match py_int x with
      | Ok z => Ok (CI z)
      | Err ValueError =>
          match f_parse x with
          | Ok v => Ok (CF v)
          | Err ValueError => if is_number x then Ok (CC x) else Err ValueError
          | Err e => Err e
          end
      | Err e => Err e
      end
  end.

(** caster.py:114-133 [check] *)
Fixpoint all_three (l : list str) : bool := match l with [] => true | p :: t => Nat.eqb (length p) 3 && all_three t end.
(** caster.py:114-133: [Ok tt] is [True] *)
Definition check (ds : str) (ts : option str) (x : str) : res unit :=
  rbind (py_split ds x) (fun parts =>
  if (2 <? length parts)%nat then Err ValueError
  else
    rbind (match ts with
           | None => Ok tt
           | Some ts => rbind (py_split ts (hd [] parts)) (fun l => if all_three (tl l) then Ok tt else Err ValueError)
           end) (fun _ =>
    if cmem 101 x then
      let e := last (csplit 101 x) [] in
      if cmem 106 x then
        if (1 <? ccount 106 x)%nat || negb (last_chr x =? 106) then Err ValueError
        else if all_digit (removelast e) then Ok tt else Err ValueError
      else if all_digit e then Ok tt else Err ValueError
    else Ok tt)).

(** caster.py:89-141 [validate]: [Ok true] is [True], [Ok false] is [None] *)
Definition validate (ds : str) (ts : option str) (x : str) : res bool :=
  let done := rbind (check ds ts x) (fun _ => Ok true) in
  if cmem 106 x then
    let y := strip_chars [c_plus; c_minus] x in
    let at_sign c := rbind (check ds ts (nth 0 (csplit c y) [])) (fun _ => rbind (check ds ts (nth 1 (csplit c y) [])) (fun _ => Ok true)) in
    if cmem c_plus y then at_sign c_plus
    else if cmem c_minus y then at_sign c_minus
    else Ok false
  else done.

(** caster.py:146-163: parentheses mean negative *)
Definition par_negative (x : str) : res str :=
  if cmem c_lpar x then
    if negb (cmem c_rpar x) then Err ValueError
    else if cmem 106 x then Ok x
    else if Nat.eqb (ccount c_lpar x) 1 && Nat.eqb (ccount c_rpar x) 1 && (hd 0 x =? c_lpar) && (last_chr x =? c_rpar) then
      if cmem c_minus x then Err ValueError
      else Ok (c_minus :: py_replace [c_rpar] [] (py_replace [c_lpar] [] x))
    else Ok x
  else if cmem c_rpar x then Err ValueError
  else Ok x.

(** the literal of caster.py:47, 166, 172, 182 *)
Definition auto : str := u "auto".
(** caster.py:173: apostrophe, grave accent, acute accent, space *)
Definition auto_ts : list str := [[39]; [96]; [180]; [32]].
(** caster.py:183 *)
Definition auto_ds : list str := [[44]; [112]; [46]].
(** caster.py:172-179: the separator found (or given) and the text without it *)
Definition thousands (ts x : str) (s : str) : option str * str :=
  if seqb (strip ts) auto then
    match find (fun t => ssub t x) auto_ts with
    | Some t => (Some t, py_replace t [] s)
    | None => (None, s)
    end
  else (Some ts, py_replace ts [] s).
(** caster.py:182-193: the decimal sign and the text with a dot in its place; the loop leaves its last value when none is found *)
Definition decimals (ds x : str) (s : str) : res (str * str) :=
  if seqb (strip ds) auto then
    match find (fun d => ssub d s) auto_ds with
    | Some d => if (1 <? py_count d s)%nat && negb (cmem 106 s) then Err ValueError else Ok (d, py_replace d [c_dot] s)
    | None => Ok ([46], s)
    end
  else if (1 <? py_count ds x)%nat then Err ValueError
  else Ok (ds, py_replace ds [c_dot] s).

(** caster.py:75-196 [cleaner] *)
Definition cleaner (ds ts : str) (par_neg : bool) (x : str) : res (option str) :=
  let x := lower (strip x) in
  rbind (if par_neg then par_negative x else Ok x) (fun s =>
  if (smem ts [auto; [46]] && smem ds [auto; [44]]) && (cmem 44 s && cmem 46 s) then
    rbind (validate [44] (Some [46]) x) (fun b =>
    Ok (Some (if b then py_replace [44] [46] (py_replace [46] [] s) else s)))
  else
    let '(t, s) := thousands ts x s in
    rbind (decimals ds x s) (fun r => let '(d, s) := r in
    rbind (validate d t x) (fun b => Ok (if b then Some s else None)))).

(** what the user passes: a text, a number of type int, float or complex, something else (caster.py:198, 213, 216) *)
Inductive narg := NText (x : str) | NNumber (v : cnum) | NOther.
(** caster.py:47-217 [to_number] *)
Definition to_number (a : narg) (ds ts : str) (par_neg : bool) : res cnum :=
  match a with
  | NText x =>
      rbind (cleaner ds ts par_neg x) (fun x =>
      rbind (caster x) (fun v =>
      match x, v with
      | Some x, CF w =>
          if cmem 69 (upper x) && negb (cmem c_dot x) then
            rbind (f_int w) (fun z => Ok (if f_eqZ w z then CI z else v))
          else Ok v
      | _, _ => Ok v
      end))
  | NNumber v => Ok v
  | NOther => Err TypeError
  end.
End Caster.
