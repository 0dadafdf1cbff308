(** * The window with the converter behind it *)
From Coq Require Import String QArith Qcanon.
From Verif Require Import Py StrTools Network Conv Converter PathText Gui.
Local Open Scope N_scope.

Section GuiEngine.
Context (isn : gv Qc -> bool) (gn : str -> res Qc) (sh : Qc -> str) (tup : str).   (* stringthings, str(number), str(tuple) *)
(** gui.py:183-185: the value; a text (the value box is empty) is no number (converter.py:609-610; NumPy, which turns the
    text into an array on which the conversions fail later, is not modelled here) *)
Definition gui_value (v : gv Qc) : vin Qc := match v with GN q => VNum q | GNone => VNone | GT _ | GObj _ => VOther end.
(** gui.py:183-185: the units *)
Definition gui_unit (v : gv Qc) : uin := match v with GT x => UStr x | GNone => UNone | GN _ | GObj _ => UOther end.
(** the state behind the window: the converter, [unyts_parameters_.print_path_] and [last_path_str] (parameters.py:47, 50) *)
Definition behind : Type := (st Qc * (bool * str))%type.
(** converter.py:775-825, with line 821 *)
Definition gui_convert (v a b : gv Qc) (uc : option bool) (w : behind) : res (gv Qc) * behind :=
  let '(s, (pp, last)) := w in
  match Converter.convert (gui_value v) (gui_unit a) (gui_unit b) uc s with
  | (Ok (Some (CVal q)), s') => (Ok (GN q), (s', (pp, print_path sh tup (s_last s'))))
  | (Ok (Some (CFn _)), s') => (Ok (GObj (u "function")), (s', (pp, print_path sh tup (s_last s'))))
  | (Ok None, s') => (Ok GNone, (s', (pp, last)))
  | (Err e, s') => (Err e, (s', (pp, last)))
  end.
(** gui.py: the window and the package *)
Definition engine_kit : kit Qc behind :=
  {| is_numeric := isn; get_number := gn; show := sh; Gui.convert := gui_convert;
     print_path_ := fun w => fst (snd w); last_path := fun w => snd (snd w);
     set_print_path := fun b w => (fst w, (b, snd (snd w))); set_last_path := fun x w => (fst w, (fst (snd w), x)) |}.
End GuiEngine.
