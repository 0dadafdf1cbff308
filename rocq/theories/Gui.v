(** * [gui.py]: the window

    The engine behind the window ([convert], with its state [W]) and the two functions of the package [stringthings]
    ([is_numeric], [get_number], not part of the repository) are parameters: the theorems hold for all of them, with the
    conditions they state.  Time is not modelled: a pending timer may fire at any moment. *)
From Coq Require Import String.
From Verif Require Import Py StrTools Caster.

(** what a variable of the program holds: a text, a number, [None], or another object of which only [str(x)] matters
    (the function that [convert] returns for the value [None]) *)
Inductive gv {num : Type} := GT (x : str) | GN (n : num) | GNone | GObj (x : str).
Arguments gv : clear implicits.

(** the packages around the window (model plumbing) *)
Record kit {num W : Type} := Kit {
  is_numeric : gv num -> bool;             (* stringthings.is_numeric *)
  get_number : str -> res num;             (* stringthings.get_number *)
  show : num -> str;                       (* str(number) *)
  convert : gv num -> gv num -> gv num -> option bool -> W -> res (gv num) * W;   (* unyts.convert: value, from_unit, to_unit, use_cache *)
  print_path_ : W -> bool;                 (* unyts_parameters_.print_path_ *)
  last_path : W -> str;                    (* unyts_parameters_.last_path_str *)
  set_print_path : bool -> W -> W;         (* parameters.py:156-167 *)
  set_last_path : str -> W -> W }.
Arguments kit : clear implicits.

(** gui.py:33-103: what the window shows and keeps *)
Record win {W : Type} := Win {
  from_unit : str; from_value : str; to_unit : str; to_value : str;     (* the four boxes, gui.py:47-65 *)
  again : bool;                                                         (* repeat search, gui.py:72-76 *)
  path_str : str; red : bool;                                           (* gui.py:100-103 and the colour *)
  first_char : nat; msg_len : nat; msg_dir : bool;                      (* gui.py:87-92 *)
  marquee : option nat;                                                 (* gui.py:94: the identifier of a timer *)
  pending : list nat; next_id : nat;                                    (* tkinter: the timers that have not fired *)
  engine : W }.
Arguments win : clear implicits.
Arguments Win {W}.

Section Gui.
Context {num W : Type} (K : kit num W).
Notation gv := (gv num).
Notation win := (win W).

(** model plumbing: updates of one field *)
Definition set_boxes (g : win) (fu fv tu tv : str) : win :=
  Win fu fv tu tv (again g) (path_str g) (red g) (first_char g) (msg_len g) (msg_dir g) (marquee g) (pending g) (next_id g) (engine g).
(** model plumbing *)
Definition set_from (g : win) (fu fv : str) : win := set_boxes g fu fv (to_unit g) (to_value g).
(** model plumbing *)
Definition set_to (g : win) (tu tv : str) : win := set_boxes g (from_unit g) (from_value g) tu tv.
(** model plumbing *)
Definition set_again (g : win) (b : bool) : win :=
  Win (from_unit g) (from_value g) (to_unit g) (to_value g) b (path_str g) (red g) (first_char g) (msg_len g) (msg_dir g) (marquee g) (pending g) (next_id g) (engine g).
(** model plumbing *)
Definition set_path (g : win) (x : str) (r : bool) : win :=
  Win (from_unit g) (from_value g) (to_unit g) (to_value g) (again g) x r (first_char g) (msg_len g) (msg_dir g) (marquee g) (pending g) (next_id g) (engine g).
(** model plumbing *)
Definition set_scroll (g : win) (f l : nat) (d : bool) : win :=
  Win (from_unit g) (from_value g) (to_unit g) (to_value g) (again g) (path_str g) (red g) f l d (marquee g) (pending g) (next_id g) (engine g).
(** model plumbing *)
Definition set_timers (g : win) (m : option nat) (p : list nat) (n : nat) : win :=
  Win (from_unit g) (from_value g) (to_unit g) (to_value g) (again g) (path_str g) (red g) (first_char g) (msg_len g) (msg_dir g) m p n (engine g).
(** model plumbing *)
Definition set_engine (g : win) (w : W) : win :=
  Win (from_unit g) (from_value g) (to_unit g) (to_value g) (again g) (path_str g) (red g) (first_char g) (msg_len g) (msg_dir g) (marquee g) (pending g) (next_id g) w.

(** tkinter [after]: a new timer, which becomes [self._path_marquee] (gui.py:292, 308) *)
Definition after (g : win) : win := set_timers g (Some (next_id g)) (next_id g :: pending g) (S (next_id g)).
(** tkinter [after_cancel(self._path_marquee)]; a timer that has already fired is ignored *)
Definition after_cancel (g : win) : win :=
  match marquee g with None => g | Some i => set_timers g (marquee g) (filter (fun j => negb (Nat.eqb j i)) (pending g)) (next_id g) end.

(** the text tkinter stores for [StringVar.set(x)] *)
Definition text_of (x : gv) : str := match x with GT x => x | GN n => show K n | GNone => u "None" | GObj x => x end.

(** gui.py:93 *)
Definition max_len : nat := 53.
(** gui.py:294-310 [_display_path]: the empty text is no error *)
Definition display_path (g : win) (error : str) : win :=
  match error with
  | _ :: _ => set_path (after_cancel g) error true
  | [] =>
      let last := last_path K (engine g) in
      if negb (seqb last []) && print_path_ K (engine g) then
        if (length last <? max_len)%nat then set_path g last false
        else after (set_path (set_scroll g (first_char g) (length last) (msg_dir g)) (firstn max_len last) false)
      else set_path g [] false
  end.

(** gui.py:271-292 [_partial_msg], called by the timer [i] *)
Definition partial_msg (g : win) (i : nat) : win :=
  let g := set_timers g (marquee g) (filter (fun j => negb (Nat.eqb j i)) (pending g)) (next_id g) in
  let last := last_path K (engine g) in
  if (length last <? max_len)%nat then
    let g := after_cancel g in set_path g last (red g)
  else
    let lc := (first_char g + max_len)%nat in
    let g := set_path g (firstn max_len (skipn (first_char g) last)) (red g) in
    after (if msg_dir g then
             if (lc <? msg_len g)%nat then set_scroll g (S (first_char g)) (msg_len g) true
             else set_scroll g (first_char g) (msg_len g) false
           else
             if (0 <? first_char g)%nat then set_scroll g (Nat.pred (first_char g)) (msg_len g) false
             else set_scroll g (first_char g) (msg_len g) true).

(** gui.py:130-146 [_get_from] and 148-164 [_get_to], the same lines on the other two boxes: from the texts of the value
    box and of the unit box, [(unit, value)].  The message "wrong number format" of lines 142 and 160 is overwritten by
    [None] three lines below, and not kept here. *)
Definition get_side (vbox ubox : str) : res (gv * gv) :=
  let value := py_replace (u "wrong number format") [] (py_replace (u "no conversion found!") [] (strip vbox)) in
  let unit := strip ubox in
  let isn x := is_numeric K (GT x) in
  if seqb value [] && negb (seqb unit []) && negb (isn unit) then Ok (GT unit, GT value)
  else if seqb unit [] && negb (seqb value []) && negb (isn value) then Ok (GT value, GT unit)
  else if isn value && negb (isn unit) then rbind (get_number K value) (fun n => Ok (GT unit, GN n))
  else if negb (isn value) && isn unit then rbind (get_number K unit) (fun n => Ok (GT value, GN n))
  else if negb (isn value) && negb (isn unit) then Ok (GNone, GNone)
  else Ok (GT unit, GT value).

(** gui.py:130-146 ([from]), 148-164: the reading of the two boxes of a side *)
Definition read_side (from : bool) (g : win) : res (gv * gv) :=
  if from then get_side (from_value g) (from_unit g) else get_side (to_value g) (to_unit g).
(** gui.py:144-145 ([from]), 162-163: the writing of the unit and the value of a side *)
Definition write_side (from : bool) (g : win) (p : gv * gv) : win :=
  if from then set_from g (text_of (fst p)) (text_of (snd p)) else set_to g (text_of (fst p)) (text_of (snd p)).
(** gui.py:180-206 ([fwd]) and 222-248, the conversion of the side [a] for the unit of the side [b] *)
Definition do_convert (fwd : bool) (g : win) (a b : gv * gv) : win :=
  let g := write_side (negb fwd) g (fst b, GT []) in
  match convert K (snd a) (fst a) (fst b) (if again g then Some false else None) (engine g) with
  | (Ok r, w) => set_again (display_path (write_side (negb fwd) (set_engine g w) (fst b, r)) []) false
  | (Err NoConversionFoundError, w) => display_path (set_engine g w) (u "no conversion found!")
  | (Err NoFVFError, w) => set_again (display_path (set_engine g w) (u "Please set FVF constant from Options menu.")) true
  | (Err _, w) => set_again (display_path (set_engine g w) (u "Unknown error.")) true
  end.
(** gui.py:171 and 213: both sides are [None] *)
Definition all_none (a b : gv * gv) : bool :=
  match a, b with (GNone, GNone), (GNone, GNone) => true | _, _ => false end.
(** Python [x == ""], gui.py:178, 220 *)
Definition is_blank (x : gv) : bool := match x with GT [] => true | _ => false end.
(** gui.py:166-206 [_calculate] ([fwd]) and 208-248 [_rcalculate], which are the same lines with the two sides
    exchanged.  [Err OutOfFuel]: the two functions called one another too often.  The time displayed (gui.py:250-269) is
    not modelled. *)
Fixpoint calculate (fuel : nat) (fwd : bool) (g : win) : res unit * win :=
  match fuel with
  | O => (Err OutOfFuel, g)
  | S fuel =>
      let g := display_path g (u " ") in
      match read_side fwd g with
      | Err e => (Err e, g)
      | Ok a =>
          let g := write_side fwd g a in
          match read_side (negb fwd) g with
          | Err e => (Err e, g)
          | Ok b =>
              let g := write_side (negb fwd) g b in
              if all_none a b then (Ok tt, set_boxes g [] [] [] [])
              else if is_blank (snd a) && is_numeric K (snd b) then calculate fuel (negb fwd) g
              else (Ok tt, do_convert fwd g a b)
          end
      end
  end.

(** gui.py:332-339: the menu entry "Show conversion path" *)
Definition menu_print_path (g : win) : win :=
  let g := set_engine g (set_print_path K (negb (print_path_ K (engine g))) (engine g)) in
  if print_path_ K (engine g) then display_path g [] else display_path g (u " ").

(** what can happen to the window: the user edits a box, ticks "repeat search", asks for a conversion (button or Return
    key), a timer fires, the path is shown or hidden, a menu entry leaves a message ([load_memory] through network.py:95
    and gui.py:497-515, the dialogs of gui.py:397-482, which display it), or displays an error (gui.py:426, 472, 508,
    512, 526; [EError c x]: the text [c :: x], never empty) *)
Inductive event :=
| EEdit (fu fv tu tv : str) | EAgain (b : bool) | ECalculate | ERcalculate | EFire (i : nat) | EPath | EMessage (x : str) | EMemory (x : str) | EError (c : chr) (x : str).
(** gui.py: the window after an event; an exception in a callback is printed by tkinter and leaves the window as it is *)
Definition happens (g : win) (e : event) : win :=
  match e with
  | EEdit fu fv tu tv => set_boxes g fu fv tu tv
  | EAgain b => set_again g b
  | ECalculate => snd (calculate 2 true g)
  | ERcalculate => snd (calculate 2 false g)
  | EFire i => if existsb (Nat.eqb i) (pending g) then partial_msg g i else g
  | EPath => menu_print_path g
  | EMessage x => display_path (set_engine g (set_last_path K x (engine g))) []
  | EMemory x => set_engine g (set_last_path K x (engine g))
  | EError c x => display_path g (c :: x)
  end.
End Gui.
