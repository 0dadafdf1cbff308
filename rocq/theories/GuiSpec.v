(** * The window: the vocabulary of C65 and C66 *)
From Coq Require Import String.
From Verif Require Import Py Gui.

(** specification: what is expected of the two functions of [stringthings] and of the settings *)
Record sane {num W : Type} (K : kit num W) : Prop := {
  empty_no_number : is_numeric K (GT []) = false;
  none_no_number : is_numeric K GNone = false;
  number_numeric : forall n, is_numeric K (GN n) = true;
  numeric_read : forall x, is_numeric K (GT x) = true -> exists n, get_number K x = Ok n;
  numeric_text : forall x n, is_numeric K (GT x) = true -> get_number K x = Ok n -> is_numeric K (GT (show K n)) = true /\ get_number K (show K n) = Ok n;
  numeric_strip : forall x, is_numeric K (GT (strip x)) = is_numeric K (GT x);
  shown_tight : forall n, strip (show K n) = show K n;
  numeric_plain : forall x, is_numeric K (GT x) = true -> ssub (u "no conversion found!") x = false /\ ssub (u "wrong number format") x = false;
  convert_keeps : forall v a b uc w, print_path_ K (snd (convert K v a b uc w)) = print_path_ K w;
  set_path_get : forall b w, print_path_ K (set_print_path K b w) = b;
  set_last_keeps : forall x w, print_path_ K (set_last_path K x w) = print_path_ K w;
  set_last_get : forall x w, last_path K (set_last_path K x w) = x;
  set_path_last : forall b w, last_path K (set_print_path K b w) = last_path K w }.

(** specification: the text holds none of the two messages the window removes from its value boxes *)
Definition plain_text (x : str) : Prop := ssub (u "no conversion found!") x = false /\ ssub (u "wrong number format") x = false.

Section GuiSpec.
Context {num W : Type} (K : kit num W).
(** specification: two boxes hold the number [n] and the unit [x], each in its box or in the other's *)
Definition typed (vbox ubox : str) (n : num) (x : str) : Prop :=
  exists a, is_numeric K (GT a) = true /\ get_number K a = Ok n /\ is_numeric K (GT x) = false /\ plain_text a /\ plain_text x /\
    (strip vbox = a /\ strip ubox = x \/ strip vbox = x /\ strip ubox = a).
(** specification: two boxes hold only the unit [x] *)
Definition only_unit (vbox ubox : str) (x : str) : Prop :=
  x <> [] /\ is_numeric K (GT x) = false /\ plain_text x /\ (strip vbox = [] /\ strip ubox = x \/ strip vbox = x /\ strip ubox = []).
(** specification: the boxes of a side *)
Definition unit_box (from : bool) (g : win W) : str := if from then from_unit g else to_unit g.
(** specification *)
Definition value_box (from : bool) (g : win W) : str := if from then from_value g else to_value g.
(** specification: what a box shows for the answer of [convert] *)
Definition answer (r : res (gv num)) : str := match r with Ok x => text_of K x | Err _ => [] end.
(** specification: the message for an exception *)
Definition message (e : exn) : str :=
  match e with NoConversionFoundError => u "no conversion found!" | NoFVFError => u "Please set FVF constant from Options menu." | _ => u "Unknown error." end.
(** specification: the text under the boxes for the answer of [convert]: the conversion path, if it is to be shown, or the message *)
Definition shown (r : res (gv num) * W) : str :=
  match fst r with Ok _ => if print_path_ K (snd r) then firstn 53 (last_path K (snd r)) else [] | Err e => message e end.
(** specification *)
Definition failed (r : res (gv num) * W) : bool := match fst r with Ok _ => false | Err _ => true end.
(** specification: the window after a series of events *)
Definition after_all (g : win W) (l : list event) : win W := fold_left (happens K) l g.
(** specification: events that leave no message of 53 characters or more *)
Definition short_message (e : event) : Prop := match e with EMessage x => (length x < 53)%nat | _ => True end.
(** specification: a window as it opens: no timer *)
Definition opened (g : win W) : Prop := pending g = [] /\ marquee g = None.
(** specification: [n] times: the timer of the moving text fires *)
Fixpoint ticks (n : nat) (g : win W) : win W :=
  match n with O => g | S n => match marquee g with Some i => ticks n (happens K g (EFire i)) | None => g end end.
End GuiSpec.
