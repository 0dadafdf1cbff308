(** * Vocabulary of the properties of the settings: C41 to C45, C54 to C57 *)
From Coq Require Import String.
From Verif Require Import Py Json Params.
Local Open Scope N_scope.

(** the calls a user can make *)
Inductive pact :=
| CPrintPath (a : sarg) | CCache (a : sarg) | CRaiseError (a : sarg) | CVerbose (a : sarg) | CReloadNext (a : sarg) | CReload
| CRecursion (a : larg) | CGenerations (a : larg)
| CSetAlgorithm (a : option str) | CMethodAlgorithm (a : option str) | CSetParallel (a : parg)
| CUserFolder (path : option str) | CSetDensity (conv : jval -> str -> res (option jval)) (a : darg) (units : str)
| CSetFvf (float_of : str -> option str) (a : farg) | CSave | CDeleteCache.
Definition ignore {X} (m : P X) : P unit := pbind m (fun _ => pret tt).
Definition pcall (mc : machine) (c : pact) : P unit :=
  match c with
  | CPrintPath a => print_path mc a | CCache a => cache mc a | CRaiseError a => raise_error mc a | CVerbose a => verbose mc a
  | CReloadNext a => reload_next_time mc a | CReload => reload mc
  | CRecursion a => ignore (recursion_limit mc a) | CGenerations a => ignore (generations_limit mc a)
  | CSetAlgorithm a => set_algorithm mc a | CMethodAlgorithm a => method_set_algorithm mc a | CSetParallel a => set_parallel mc a
  | CUserFolder p => set_user_folder mc p | CSetDensity conv a x => set_density mc conv a x | CSetFvf fl a => set_fvf fl a | CSave => save_params mc
  | CDeleteCache => delete_cache
  end.
(** the state after any calls; those that raise keep what they had done *)
Definition pcalls (mc : machine) (l : list pact) (w : world) : world := fold_left (fun w c => snd (pcall mc c w)) l w.

(** the value of a setting; all the rest of the state *)
Definition setting (w : world) (k : key) : jval := p_set (w_par w) k.
Definition other_settings_same (ks : list key) (w w' : world) : Prop := forall k, ~ In k ks -> setting w' k = setting w k.
Definition session_same (w w' : world) : Prop :=
  p_memory (w_par w') = p_memory (w_par w) /\ p_thread (w_par w') = p_thread (w_par w) /\ p_multi (w_par w') = p_multi (w_par w) /\ p_net_fvf (w_par w') = p_net_fvf (w_par w).
(** the settings can be written: no object that JSON does not know *)
Definition savable (mc : machine) (f : settings) : Prop := forall k, writable (saved mc f k).
(** both files hold the settings of the moment, and no other file has changed *)
Definition kept_on_disk (mc : machine) (w w' : world) : Prop :=
  exists t, jwrite (saved_object mc (p_set (w_par w'))) = (t, true) /\ w_disk w' (ini_path mc) = Some t /\ w_disk w' (bak_path mc) = Some t
    /\ forall p, p <> ini_path mc -> p <> bak_path mc -> w_disk w' p = w_disk w p.

(** C42: white space around the word, in capitals or not *)
Definition blank (x : str) : Prop := forall c, In c x -> In c wspace.
Definition off_word (x : str) : Prop := exists a y b, x = a ++ y ++ b /\ blank a /\ blank b /\ In (lower y) [u "off"; u "no"; u "not"; u ""].
Definition turns (old : bool) (a : sarg) (new : bool) : Prop :=
  match a with
  | SNone => new = negb old
  | SStr x => new = false <-> off_word x
  | SInt z => new = true <-> z <> 0%Z
  | SBool b => new = b
  | SObject r => r = Ok new
  end.

(** C43, C44: a new session, on the disk that is left *)
Definition blank_world (d : files) : world := World (Params (fun _ => JNull) false false false false JNull) d [].
Definition next_session (mc : machine) (d : files) : res unit * world := init mc (blank_world d).
(** the folder that was set is still there *)
Definition folder_there (mc : machine) (f : settings) : Prop := exists x, f KFolder = JStr x /\ (x = m_dir mc \/ m_isdir mc x = true).
(** the disk when the process dies after [n] of the elementary steps of [m] *)
Definition crash {X} (m : P X) (n : nat) (w : world) : files := run (firstn n (skipn (length (w_log w)) (w_log (snd (m w))))) (w_disk w).

(** C45: the file [p] is in the folder [f] (itself, not a folder below) *)
Definition inside (f p : str) : Prop := exists n, ~ In 47 n /\ (p = f ++ u "/" ++ n \/ (ends_with 47 f = true /\ p = f ++ n)).

(** the arguments of the calls are values that JSON knows *)
Definition given (mc : machine) (c : pact) : Prop :=
  match c with
  | CSetDensity conv (DNumber v) units => writable v /\ forall v', conv v units = Ok (Some v') -> writable v'
  | CSetDensity _ (DQuantity (Ok v)) _ => writable v
  | CSetFvf _ a => writable (fvf_object a)
  | CUserFolder (Some x) => Forall plain_char x
  | _ => True
  end.
