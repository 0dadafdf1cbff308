(** * Vocabulary of the properties of the start: C50, C58 *)
From Coq Require Import String.
From Verif Require Import Py Json Params ParamsSpec Startup.
Local Open Scope N_scope.

(** what a user does in a session: calls that change the settings, delete the cache, save the memory of searches *)
Inductive act (L : library) := Call (c : pact) | Save (m : l_mem L).
Arguments Call {L}. Arguments Save {L}.
Definition run_act (mc : machine) (L : library) (w : world) (a : act L) : world :=
  match a with Call c => snd (pcall mc c w) | Save m => snd (save L None m w) end.
(** a session: a new process, [import unyts], and what follows if it did not raise *)
Definition session (mc : machine) (L : library) (acts : list (act L)) (d : files) : res (tables L) * world :=
  match new_start mc L d with (Ok t, w) => (Ok t, fold_left (run_act mc L) acts w) | r => r end.
(** the process ends, or dies after [n] elementary steps on the disk *)
Definition disk_left (mc : machine) (L : library) (s : list (act L) * option nat) (d : files) : files :=
  let w := snd (session mc L (fst s) d) in match snd s with None => w_disk w | Some n => run (firstn n (w_log w)) d end.
Definition history (mc : machine) (L : library) (l : list (list (act L) * option nat)) (d : files) : files := fold_left (fun d s => disk_left mc L s d) l d.
Definition given_act (mc : machine) {L} (a : act L) : Prop := match a with Call c => given mc c | Save _ => True end.
Definition given_session (mc : machine) {L} (s : list (act L) * option nat) : Prop := Forall (given_act mc) (fst s).

(** the tables that the code builds, with the memory [m] *)
Definition built_tables (L : library) (x : l_net L) (m : l_mem L) : tables L := Tables (create L (base L)) (temp0 L) (names0 L) x m.
(** the package and its data can be used: the network can be built, the dictionary written *)
Definition sane (mc : machine) (L : library) (x : l_net L) : Prop :=
  cloudpickle L = true /\ network L (base L) = Ok x /\ writable (create L (base L)) /\ (exists l, create L (base L) = JObj l) /\ m_isdir mc (u "/") = true /\ Forall plain_char (m_dir mc).
(** a new installation: no files, or only the parameters.ini that comes with the package *)
Definition shipped_ini : str := u "{""print_path"": true, ""cache"": true, ""reload"": true, ""raise_error"": true, ""verbose"": false, ""verbose_details"": 0, ""reduce_parentheses"": true, ""show_version"": true, ""density"": 0.997, ""max_recursion"": 12, ""algorithm"": ""lean_BFS"", ""max_generations"": 30, ""fvf"": 1.0, ""parallel"": true, ""config_files_folder"": null}".
Definition new_installation (mc : machine) (d : files) : Prop :=
  (d (ini_path mc) = None \/ d (ini_path mc) = Some shipped_ini) /\ d (bak_path mc) = None /\ forall f n, In n cache_names -> d (f ++ n) = None.

(** C50: one of these three files is there and cannot be read *)
Definition unreadable (mc : machine) (L : library) (d : files) : Prop :=
  (exists y, d (ini_path mc) = Some y /\ jload y = Err ValueError) \/ (exists y, d (bak_path mc) = Some y /\ jload y = Err ValueError)
  \/ exists f y e, d (f ++ u "units_network.cache") = Some y /\ undump (c_net L) y = Err e.
