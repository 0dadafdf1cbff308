(** * The memory of searches and the window: opening and closing it (gui.py) *)
From Coq Require Import String.
From Verif Require Import Py Json Params Startup.
Local Open Scope p_scope.
Section Window.
Variable mc : machine.
Variable L : library.
(** gui.py:324-327, when the window opens: the memory [m] of the network is completed from the file, or the files are deleted.
    Simplified: the rest of [start_gui] (widgets, menus: Gui.v, Dialogs.v) *)
Definition open_window (m : l_mem L) : P (l_mem L) :=
  p <- pget ;; if p_memory p then load L None m else delete_cache ;;; pret m.
(** gui.py:318-323, when it is closed (the menu, or the window's button, 618) *)
Definition close_window (m : l_mem L) : P unit :=
  c <- on KCache ;; if c then save L None m else pret tt.
(** gui.py:484-495 [export_memory]: the dialog's answer, [None] when it is cancelled; errors are caught *)
Definition export_memory (answer : option str) (m : l_mem L) : P unit :=
  match answer with Some p => if seqb p [] then pret tt else ptry (save L (Some p) m) (pret tt) | None => pret tt end.
(** gui.py:497-515 [load_memory_file]; errors are caught *)
Definition import_memory (answer : option str) (m : l_mem L) : P (l_mem L) :=
  match answer with
  | Some p => if seqb p [] then pret m else d <- pdisk ;; if is_file d p then ptry (load L (Some p) m) (pret m) else pret m
  | None => pret m end.
(** gui.py:517-528 [set_cache_folder] *)
Definition set_cache_folder (answer : option str) : P unit :=
  match answer with
  | Some p => if seqb p [] then pret tt else if m_isdir mc p then set_user_folder mc (Some p) else pret tt
  | None => pret tt end.
(** a process of its own for the window: __main__.py, then the window is closed when the memory is [m];
    the disk afterwards *)
Definition window_session (m : l_mem L) (d : files) : files :=
  match new_start mc L d with
  | (Ok t, w) => match open_window (t_mem t) w with (Ok _, w') => w_disk (snd (close_window m w')) | (Err _, w') => w_disk w' end
  | (Err _, w) => w_disk w
  end.
End Window.
