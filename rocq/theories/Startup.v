(** * [import unyts]: the tables, built or read from the cache

    The tables are parameters of the model: what [_load_dictionary], [_load_network] and the
    [_create_…] functions give is the subject of [Dict] and [Database]; here only when they are
    called, with which dictionary, and what is written to and read from the files of the cache.
    [pickle] and [cloudpickle] are a pair of functions with two laws: what was written whole is
    read back, what was cut short raises (and there is something to write). *)
From Coq Require Import String.
From Verif Require Import Py Json JsonFacts Params ParamsSpec.
Local Open Scope N_scope.

(** pickle / cloudpickle (database.py:793, 827, dictionaries.py:576-603, network.py:66-95): functions with the laws stated here *)
Record codec (X : Type) := Codec {
  dump : X -> str; undump : str -> res X;
  undump_dump : forall x, undump (dump x) = Ok x;
  dump_some : forall x, dump x <> [];
  undump_cut : forall x p, cut (dump x) p -> exists e, undump p = Err e }.
Arguments dump {X}. Arguments undump {X}. Arguments undump_dump {X}. Arguments dump_some {X}. Arguments undump_cut {X}.

(** the temperature ratios, the names for "no unit", the network, the memory of searches *)
Record library := Library {
  l_temp : Type; l_names : Type; l_net : Type; l_mem : Type;
  c_temp : codec l_temp; c_names : codec l_names; c_net : codec (l_net * l_mem); c_mem : codec l_mem;
  base : jval; temp0 : l_temp; names0 : l_names;          (* dictionaries.py [_load_dictionary] *)
  network : jval -> res l_net;                            (* database.py [_load_network], of the dictionary *)
  create : jval -> jval;                                  (* database.py:803-817 *)
  no_memory : l_mem; update : l_mem -> l_mem -> l_mem;    (* dict.update: old, new *)
  cloudpickle : bool }.
(** what a session has after the import: the globals of dictionaries.py and database.py, and the memory of the network *)
Record tables (L : library) := Tables { t_dict : jval; t_temp : l_temp L; t_names : l_names L; t_net : l_net L; t_mem : l_mem L }.
Arguments Tables {L}. Arguments t_dict {L}. Arguments t_temp {L}. Arguments t_names {L}. Arguments t_net {L}. Arguments t_mem {L}.

Section Start.
Variable mc : machine.
Variable L : library.
Local Open Scope p_scope.

(** network.py:66-95: a file name *)
Definition f_mem : str := Eval vm_compute in u "search_memory.cache".
(** database.py:787: a file name *)
Definition f_net : str := Eval vm_compute in u "units_network.cache".
(** database.py:788: a file name *)
Definition f_dict : str := Eval vm_compute in u "units_dictionary.cache".
(** database.py:789: a file name *)
Definition f_temp : str := Eval vm_compute in u "temperature_ratio_conversions.cache".
(** database.py:790: a file name *)
Definition f_names : str := Eval vm_compute in u "unitless_names.cache".
(** [isfile(unyts_parameters_.get_user_folder() + name)] *)
(** [isfile(unyts_parameters_.get_user_folder() + name)], database.py:787-790, dictionaries.py:585-590 *)
Definition there (name : str) : P bool := f <- folder ;; d <- pdisk ;; pret (is_file d (f ++ name)).
(** [with open(… + name, 'wb') as f: pickle_dump(x, f)] *)
(** [with open(folder + name, 'wb') as f: dump(x, f)], database.py:826-827, dictionaries.py:576-580 *)
Definition pickle_to {X} (c : codec X) (name : str) (x : X) : P unit := f <- folder ;; pops (write_ops (f ++ name) (dump c x)).
(** [with open(folder + name, 'rb') as f: load(f)], database.py:792-793, dictionaries.py:594-597 *)
Definition unpickle {X} (c : codec X) (name : str) : P X :=
  f <- folder ;; d <- pdisk ;; match d (f ++ name) with Some x => plift (undump c x) | None => praise FileError end.
(** [try: ... except: ...], database.py:791-799, dictionaries.py:591-600 *)
Definition ptry {X} (m : P X) (h : P X) : P X := fun w => match m w with (Ok x, w') => (Ok x, w') | (Err _, w') => h w' end.
(** [unyts_parameters_.x_] used as a condition, database.py:786, 823 *)
Definition on (k : key) : P bool := p <- pget ;; pret (truth (p_set p k)).
(** [a and b]: [b] is looked at only if [a] is true *)
(** Python's [a and b]: [b] is looked at only if [a] is true, database.py:786-790 *)
Definition pand (a b : P bool) : P bool := x <- a ;; if x then b else pret false.
(** Python's [not], database.py:786 *)
Definition pnot (a : P bool) : P bool := x <- a ;; pret (negb x).

(** dictionaries.py:576-582, the end of [_load_dictionary] *)
Definition load_dictionary : P (jval * l_temp L * l_names L) :=
  c <- on KCache ;;
  (if c then pickle_to (c_temp L) f_temp (temp0 L) ;;; pickle_to (c_names L) f_names (names0 L) else pret tt) ;;;
  pret (base L, temp0 L, names0 L).
(** dictionaries.py:585-603 *)
Definition start_dictionary : P (jval * l_temp L * l_names L) :=
  c <- pand (pnot (on KReload)) (pand (there f_dict) (pand (there f_net) (pand (there f_temp) (there f_names)))) ;;
  if c
  then ptry (f <- folder ;; d <- read_file (f ++ f_dict) ;; t <- unpickle (c_temp L) f_temp ;; n <- unpickle (c_names L) f_names ;; pret (d, t, n))
            (pmod (set_key KReload (JBool true)) ;;; load_dictionary)
  else load_dictionary.

(** network.py:49-59, 76-95: the memory of a new network *)
Definition new_memory : P (l_mem L) :=
  c <- on KCache ;; p <- pget ;;
  if c && p_memory p
  then b <- there f_mem ;; if b && cloudpickle L then ptry (unpickle (c_mem L) f_mem) (pret (no_memory L)) else pret (no_memory L)
  else pret (no_memory L).
(** database.py:90-: the memory of [UDigraph()] (line 92) and the network, by parameter *)
Definition load_network (d : jval) : P (l_net L * l_mem L) := m <- new_memory ;; n <- plift (network L d) ;; pret (n, m).

(** database.py:754-762 [_rebuild_units]: the network it builds is a local name, [_clean_network] (781) finds no global one *)
Definition rebuild_units (d : jval) : P (tables L) := load_dictionary ;;; load_network d ;;; praise NameError.

(** database.py:785-829.  The settings of the first branch were read from a file, [save_params] cannot fail there (the machine
    has no full disk); the cleaning of the network (781-782, 819) is part of [network] *)
Definition start_network (s : jval * l_temp L * l_names L) : P (tables L) :=
  let '(d, t, n) := s in
  c <- pand (pnot (on KReload)) (pand (there f_net) (pand (if cloudpickle L then there f_dict else pret true) (pand (there f_temp) (there f_names)))) ;;
  if c
  then ptry ((if cloudpickle L then x <- unpickle (c_net L) f_net ;; pmod (set_key KReload (JBool false)) ;;; save_params mc ;;; pret (Tables d t n (fst x) (snd x))
              else praise NameError))
            (rebuild_units d)
  else
    x <- load_network d ;;
    let full := create L d in
    pmod (set_key KReload (JBool false)) ;;; save_params mc ;;;
    c <- on KCache ;;
    (if c then (if cloudpickle L then pickle_to (c_net L) f_net x else pret tt) ;;;
               f <- folder ;; dump_to (f ++ f_dict) full
     else pret tt) ;;;
    pret (Tables full t n (fst x) (snd x)).

(** __init__.py:27-30 *)
Definition show_version : P unit :=
  v <- on KVersion ;; if v then pmod (set_key KVersion (JBool false)) ;;; save_params mc else pret tt.
(** the rest of the import, dictionaries.py:585-603, database.py:785-829, __init__.py:27-30 *)
Definition boot : P (tables L) := s <- start_dictionary ;; x <- start_network s ;; show_version ;;; pret x.
(** [import unyts] in a new process: parameters.py:325, then the rest *)
Definition import_unyts : P (tables L) := init mc ;;; boot.

(** network.py:66-74 [save_memory]: [save(path)] of __init__.py:35-43; [m] is the memory of the moment *)
Definition save (path : option str) (m : l_mem L) : P unit :=
  if cloudpickle L then match path with None => pickle_to (c_mem L) f_mem m | Some p => pops (write_ops p (dump (c_mem L) m)) end else pret tt.
(** network.py:76-95 [load_memory]: [load(path)] of __init__.py:46-54; the file that is looked for is always the one of the user folder *)
Definition load (path : option str) (m : l_mem L) : P (l_mem L) :=
  f <- folder ;; b <- there f_mem ;;
  if b then ptry (if cloudpickle L
                  then d <- pdisk ;; match d (match path with None => f ++ f_mem | Some p => p end) with
                                     | Some y => n <- plift (undump (c_mem L) y) ;; pret (update L m n)
                                     | None => praise FileError end
                  else praise NameError) (pret m)
  else pret m.
End Start.

(** a new Python process, on a disk *)
Definition new_start (mc : machine) (L : library) (d : files) : res (tables L) * world := import_unyts mc L (blank_world d).
