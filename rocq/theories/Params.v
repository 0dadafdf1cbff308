(** * [parameters.py]: the settings and the files that keep them

    The attributes that are saved are a function from [key] to Python values
    ([jval]: [load_params] takes whatever the file says).  The disk is a map from
    paths to contents; every write is a list of elementary operations (create the
    file empty, append one character), so that a crash can be placed between any two. *)
From Coq Require Import String.
From Verif Require Import Py Json.
Local Open Scope N_scope.

(** ** The disk *)
(** model plumbing: the disk, contents by path (text and binary files alike) *)
Definition files := str -> option str.
(** model plumbing: the elementary effects of [open(path, 'w')], [f.write] (parameters.py:151-154) and [os.remove] (database.py:51) *)
Inductive dop := Create (path : str) | Append (path : str) (c : chr) | Remove (path : str).
(** model plumbing: change one file *)
Definition upd (d : files) (path : str) (x : option str) : files := fun p => if seqb p path then x else d p.
(** model plumbing: the effect of one elementary operation *)
Definition dstep (d : files) (o : dop) : files :=
  match o with
  | Create p => upd d p (Some [])
  | Append p c => upd d p (match d p with Some x => Some (x ++ [c]) | None => Some [c] end)
  | Remove p => upd d p None
  end.
(** model plumbing: a sequence of operations *)
Definition run (l : list dop) (d : files) : files := fold_left dstep l d.

(** what does not change: the folder of the package (parameters.py:21-23, it ends with '/'), the
    folders of the machine, whether [threading] can be imported, [sys.getrecursionlimit()] *)
Record machine := Machine { m_dir : str; m_isdir : str -> bool; m_threads : bool; m_limit : Z }.
Section Params.
Variable mc : machine.
(** parameters.py:21-22 *)
Definition ini_path : str := m_dir mc ++ u "parameters.ini".
(** parameters.py:22 *)
Definition bak_path : str := m_dir mc ++ u "parameters.backup".

(** ** The settings: the keys of parameters.py:136-150, in that order *)
Inductive key := KPrint | KCache | KReload | KRaise | KVerbose | KDetails | KRedpar | KVersion | KDensity | KMaxRec | KAlgo | KMaxGen | KFvf | KParallel | KFolder.
(** the keys of parameters.py:136-150, in that order *)
Definition keys : list key := [KPrint; KCache; KReload; KRaise; KVerbose; KDetails; KRedpar; KVersion; KDensity; KMaxRec; KAlgo; KMaxGen; KFvf; KParallel; KFolder].
(** the names of parameters.py:136-150 *)
Definition kname (k : key) : str :=
  match k with
  | KPrint => u "print_path" | KCache => u "cache" | KReload => u "reload" | KRaise => u "raise_error" | KVerbose => u "verbose"
  | KDetails => u "verbose_details" | KRedpar => u "reduce_parentheses" | KVersion => u "show_version" | KDensity => u "density"
  | KMaxRec => u "max_recursion" | KAlgo => u "algorithm" | KMaxGen => u "max_generations" | KFvf => u "fvf" | KParallel => u "parallel"
  | KFolder => u "config_files_folder"
  end.
(** model plumbing: the same attribute *)
Definition key_eqb (a b : key) : bool := seqb (kname a) (kname b).
(** the attributes of parameters.py:34-46 that are saved *)
Definition settings := key -> jval.
(** assignment to an attribute, parameters.py:158 and alike *)
Definition with_key (k : key) (v : jval) (f : settings) : settings := fun k' => if key_eqb k' k then v else f k'.

(** [unyts_parameters_]; [p_net_fvf] is [units_network.fvf] (network.py:54), kept here with the rest *)
Record params := Params { p_set : settings; p_memory : bool; p_thread : bool; p_multi : bool; p_warned : bool; p_net_fvf : jval }.
(** assignment to an attribute, parameters.py:158 and alike *)
Definition set_key (k : key) (v : jval) (p : params) : params :=
  Params (with_key k v (p_set p)) (p_memory p) (p_thread p) (p_multi p) (p_warned p) (p_net_fvf p).

(** ** Programs: they keep the settings, the disk and the list of what they did to it when they raise *)
(** model plumbing: settings, disk, and the operations done so far *)
Record world := World { w_par : params; w_disk : files; w_log : list dop }.
(** model plumbing: a Python call that may raise and keeps what it did before *)
Definition P (X : Type) := world -> res X * world.
(** model plumbing: return *)
Definition pret {X} (x : X) : P X := fun w => (Ok x, w).
(** model plumbing: raise *)
Definition praise {X} (e : exn) : P X := fun w => (Err e, w).
(** model plumbing: sequencing *)
Definition pbind {X Y} (m : P X) (k : X -> P Y) : P Y := fun w => match m w with (Ok x, w') => k x w' | (Err e, w') => (Err e, w') end.
(** model plumbing: a pure computation that may raise *)
Definition plift {X} (r : res X) : P X := fun w => (r, w).
(** model plumbing: read [unyts_parameters_] *)
Definition pget : P params := fun w => (Ok (w_par w), w).
(** model plumbing: look at the disk *)
Definition pdisk : P files := fun w => (Ok (w_disk w), w).
(** model plumbing: change [unyts_parameters_] *)
Definition pmod (h : params -> params) : P unit := fun w => (Ok tt, World (h (w_par w)) (w_disk w) (w_log w)).
(** model plumbing: operate on the disk *)
Definition pops (l : list dop) : P unit := fun w => (Ok tt, World (w_par w) (run l (w_disk w)) (w_log w ++ l)).
End Params.
Declare Scope p_scope.
Notation "x <- m ;; k" := (pbind m (fun x => k)) (at level 61, m at next level, right associativity) : p_scope.
Notation "m ;;; k" := (pbind m (fun _ => k)) (at level 61, right associativity) : p_scope.

Section Params2.
Variable mc : machine.
Local Open Scope p_scope.

(** [with open(path, 'w') as f: json_dump(v, f)]: what was written before an exception stays *)
(** [open(path, 'w')] empties the file, then the characters arrive one by one (parameters.py:151-154) *)
Definition write_ops (path : str) (x : str) : list dop := Create path :: map (Append path) x.
(** [with open(path, 'w') as f: json_dump(v, f)], parameters.py:95-96, 151-154: what was written before an exception stays *)
Definition dump_to (path : str) (v : jval) : P unit :=
  let (x, complete) := jwrite v in
  pops (write_ops path x) ;;; if complete then pret tt else praise TypeError.

(** parameters.py:135-154 [save_params] *)
Definition folder_none (v : jval) : jval := match v with JStr x => if seqb x (m_dir mc) then JNull else v | _ => v end.   (* 150 *)
(** parameters.py:136-150: the values *)
Definition saved (f : settings) (k : key) : jval := match k with KFolder => folder_none (f KFolder) | _ => f k end.
(** parameters.py:136-150: the dict *)
Definition saved_object (f : settings) : jval := JObj (map (fun k => (kname k, saved f k)) keys).
(** parameters.py:135-154 *)
Definition save_params : P unit :=
  p <- pget ;;
  dump_to (ini_path mc) (saved_object (p_set p)) ;;;
  dump_to (bak_path mc) (saved_object (p_set p)).

(** Python truth values *)
Definition zero_text (t : str) : bool :=
  forallb (fun c => cmem c (u "0.+-")) ((fix upto s := match s with [] => [] | c :: r => if (c =? 101) || (c =? 69) then [] else c :: upto r end) t).
(** Python's [bool(v)], parameters.py:49, 115, 158 and alike *)
Definition truth (v : jval) : bool :=
  match v with
  | JNull => false | JBool b => b | JInt z => negb (z =? 0)%Z | JFlt t => negb (zero_text t)
  | JStr s => negb (seqb s []) | JArr l => match l with [] => false | _ => true end | JObj l => match l with [] => false | _ => true end
  | JOther => true
  end.

(** [params[k] if k in params else default], for what [json_load] may return *)
(** [params[k] if k in params else default], parameters.py:97-113, for what [json_load] may return *)
Definition lookup (k : str) (o : jval) : res (option jval) :=
  match o with
  | JObj l => Ok (oget k l)
  | JArr l => if existsb (fun x => match x with JStr s => seqb s k | _ => false end) l then Err TypeError else Ok None
  | JStr s => if ssub k s then Err TypeError else Ok None
  | _ => Err TypeError
  end.
(** the defaults of parameters.py:97-110 and of 119-130 *)
Definition default (k : key) : jval :=
  match k with
  | KPrint => JBool false | KCache => JBool true | KReload => JBool false | KRaise => JBool true | KVerbose => JBool false | KDetails => JInt 0
  | KRedpar => JBool true | KVersion => JBool true | KDensity => JFlt (u "1.0") | KMaxRec => JInt 12 | KAlgo => JStr (u "BFS") | KMaxGen => JInt 25
  | KFvf => JFlt (u "1.0") | KParallel => JBool true | KFolder => JNull
  end.
(** [isdir(x)]: integers are file descriptors, taken not to be folders (simplification) *)
(** [isdir(x)], parameters.py:112: integers are file descriptors, taken not to be folders (simplification) *)
Definition is_dir (v : jval) : res bool :=
  match v with JStr x => Ok (m_isdir mc x) | JInt _ | JBool _ => Ok false | _ => Err TypeError end.
(** parameters.py:97-113 for the keys [ks]; the folder is 111-113, [old] being the present one *)
Definition read_key (o : jval) (old : jval) (k : key) : res jval :=
  rbind (lookup (kname k) o) (fun r =>
    match k with
    | KFolder => match r with
                 | None | Some JNull => Ok (JStr (m_dir mc))
                 | Some v => rbind (is_dir v) (fun b => Ok (if b then v else old))
                 end
    | _ => Ok (match r with Some v => v | None => default k end)
    end).
(** parameters.py:97-113 and 119-133: the assignments in order; those before an exception stay *)
Fixpoint read_keys (ks : list key) (o : jval) : P unit :=
  match ks with
  | [] => pret tt
  | k :: t => p <- pget ;; v <- plift (read_key o (p_set p KFolder) k) ;; pmod (set_key k v) ;;; read_keys t o
  end.
(** [json_load(f)] of an open file, parameters.py:77-78, 116-117 *)
Definition read_file (path : str) : P jval := d <- pdisk ;; match d path with Some x => plift (jload x) | None => praise FileError end.

(** parameters.py:80-94 *)
Definition first_object : jval :=
  JObj [(kname KPrint, JBool false); (kname KCache, JBool true); (kname KReload, JBool true); (kname KRaise, JBool true); (kname KVerbose, JBool false);
        (kname KDetails, JInt 0); (kname KRedpar, JBool true); (kname KVersion, JBool false); (kname KDensity, JFlt (u "1.0")); (kname KMaxRec, JInt 12);
        (kname KAlgo, JStr (u "lean_BFS")); (kname KMaxGen, JInt 25); (kname KFvf, JFlt (u "1.0")); (kname KParallel, JBool true); (kname KFolder, JNull)].
(** parameters.py:75-133 [load_params] *)
Definition is_file (d : files) (path : str) : bool := match d path with Some _ => true | None => false end.
(** 119-133: all but reload and show_version *)
Definition restored_keys : list key := [KPrint; KCache; KRaise; KVerbose; KDetails; KRedpar; KDensity; KMaxRec; KAlgo; KMaxGen; KFvf; KParallel; KFolder].
(** parameters.py:75-133; logging is not modelled *)
Definition load_params : P unit :=
  d <- pdisk ;;
  o <- (if is_file d (ini_path mc) then read_file (ini_path mc) else dump_to (ini_path mc) first_object ;;; pret first_object) ;;
  read_keys keys o ;;;
  p <- pget ;; d <- pdisk ;;
  if truth (p_set p KVersion) && is_file d (bak_path mc)
  then o' <- read_file (bak_path mc) ;; read_keys restored_keys o'
  else pret tt.
(** parameters.py:33-55 [__init__] (with reload=None, as in line 325); 57-73: multiprocessing is never available *)
Definition initial : params :=
  Params (fun k => match k with KVersion => JBool true | KReload => JNull | KParallel => JNull | KFolder => JStr (m_dir mc) | KAlgo => JStr (u "lean_BFS") | _ => default k end)
    false false false false JNull.
(** parameters.py:33-55 with 57-73 (threading may be missing, multiprocessing_available is always False) *)
Definition init : P unit :=
  pmod (fun _ => initial) ;;;
  load_params ;;;
  pmod (fun p => Params (with_key KParallel (if m_threads mc then p_set p KParallel else JBool false) (p_set p))
                   (negb (truth (p_set p KReload))) (m_threads mc) false false JNull).

(** ** The switches: parameters.py:156-228 *)
(** the argument of a switch, by the tests of parameters.py:157-165; [SObject r]: another object, whose [bool(x)] gives [r] *)
Inductive sarg := SNone | SStr (x : str) | SInt (z : Z) | SBool (b : bool) | SObject (bool_of : res bool).
(** parameters.py:24 *)
Definition off_switches : list str := [u "off"; u "no"; u "not"; []].
(** the if-elif of parameters.py:157-165, the same in 170-178, 183-191, 202-210, 215-223 *)
Definition switch_value (old : jval) (a : sarg) : res bool :=
  match a with
  | SNone => Ok (negb (truth old))
  | SStr x => Ok (negb (smem (strip (lower x)) off_switches))
  | SInt z => Ok (negb (z =? 0)%Z)
  | SBool b => Ok b
  | SObject r => r
  end.
(** parameters.py:156-167 for the attribute [k] *)
Definition switch (k : key) (a : sarg) : P unit :=
  p <- pget ;; b <- plift (switch_value (p_set p k) a) ;; pmod (set_key k (JBool b)) ;;; save_params.
(** parameters.py:156-167, 328-329 *)
Definition print_path := switch KPrint.
(** parameters.py:169-180, 340-341 *)
Definition cache := switch KCache.
(** parameters.py:182-193, 332-333 *)
Definition raise_error := switch KRaise.
(** parameters.py:214-228 *)
Definition reload_next_time := switch KReload.
(** 195-212: the type of True is not int *)
Definition verbose (a : sarg) : P unit :=
  match a with
  | SInt z => pmod (set_key KDetails (JInt z)) ;;; switch KVerbose (SBool (negb (z <=? 0)%Z))
  | _ => switch KVerbose a
  end.
(** 401-404 [reload] *)
Definition reload : P unit := pmod (set_key KReload (JBool true)) ;;; save_params.

(** ** The limits: parameters.py:230-256 *)
(** the argument of a limit, by the tests of parameters.py:231-240 *)
Inductive larg := LNone | LStr (x : str) | LBool (b : bool) | LInt (z : Z) | LOther.
(** the shape parameters.py:230-242 and 244-256 share *)
Definition limit (k : key) (maximum default : Z) (cap : Z -> Z) (a : larg) : P jval :=
  let store z := pmod (set_key k (JInt z)) ;;; save_params ;;; pret (JInt z) in
  match a with
  | LNone => p <- pget ;; pret (p_set p k)
  | LStr x => if seqb (lower x) (u "max") then store maximum else praise ValueError
  | LBool false => store maximum
  | LBool true => store default
  | LInt z => store (cap z)
  | LOther => praise ValueError
  end.
(** parameters.py:230-242, 343-344 *)
Definition recursion_limit : larg -> P jval := limit KMaxRec (m_limit mc - 15) 12 (fun z => Z.min z (m_limit mc - 15)).
(** parameters.py:244-256 *)
Definition generations_limit : larg -> P jval := limit KMaxGen 25 25 (fun z => z).

(** ** The algorithm: parameters.py:258-281, 407-414; the argument is a string or another object *)
Definition algorithms : list str := [u "BFS"; u "lean_BFS"; u "DFS"; u "hybrid_BFS"].
Definition store_algorithm (x : str) : P unit :=     (* 271-278 *)
  pmod (fun p => Params (with_key KAlgo (JStr x) (p_set p)) (p_memory p) (p_thread p) (p_multi p) true (p_net_fvf p)) ;;; save_params.
(** model plumbing: a value equals a string, parameters.py:266 *)
Definition is_str (v : jval) (x : str) : bool := match v with JStr y => seqb y x | _ => false end.
(** parameters.py:261-278, the method *)
Definition method_set_algorithm (a : option str) : P unit :=
  match a with
  | Some x =>
      if smem x algorithms then
        p <- pget ;;
        if seqb x (u "hybrid_BFS") && negb (p_thread p)
        then if is_str (p_set p KAlgo) (u "hybrid_BFS") then store_algorithm (u "lean_BFS") else pret tt
        else store_algorithm x
      else pret tt
  | None => pret tt
  end.
(** parameters.py:407-410, the function *)
Definition set_algorithm (a : option str) : P unit :=
  match a with Some x => if smem x algorithms then method_set_algorithm a else praise ValueError | None => praise ValueError end.

(** ** Parallel: parameters.py:283-308; it is not saved *)
(** the argument of [set_parallel], by the tests of parameters.py:284-306 *)
Inductive parg := ParNone | ParBool (b : bool) | ParStr (x : str) | ParOther.
(** parameters.py:285-287 and alike: the three attributes *)
Definition set_par3 (par : bool) (th mp : bool) : P unit :=
  pmod (fun p => Params (with_key KParallel (JBool par) (p_set p)) (p_memory p) th mp (p_warned p) (p_net_fvf p)).
(** parameters.py:283-308, 417-418 *)
Definition set_parallel (a : parg) : P unit :=
  match a with
  | ParNone => set_par3 true (m_threads mc) false
  | ParBool b => set_par3 b (m_threads mc) false
  | ParStr x =>
      match strip x with
      | [] => praise ValueError
      | _ => match strip (lower x) with
             | c :: _ => if c =? 116 then set_par3 true true false                            (* 't' *)
                         else if cmem c (u "mp") then set_par3 true false true else set_par3 false (m_threads mc) false
             | [] => praise IndexError
             end
      end
  | ParOther => praise ValueError
  end.

(** ** The user folder: parameters.py:313-322 *)
Definition ends_with (c : chr) (x : str) : bool := match rev x with d :: _ => d =? c | [] => false end.
(** parameters.py:313-319 *)
Definition set_user_folder (path : option str) : P unit :=
  match path with
  | None => pmod (set_key KFolder (JStr (m_dir mc)))
  | Some x =>
      if m_isdir mc x
      then pmod (set_key KFolder (JStr (if negb (ends_with 47 x) && negb (ends_with 92 x) then x ++ [] else u "/")))
      else pret tt
  end.
(** parameters.py:321-322 *)
Definition get_user_folder : P jval := p <- pget ;; pret (p_set p KFolder).

(** ** The density: parameters.py:347-398.  [DQuantity r]: a Density and what its [to('g/cm3').value] gives;
    [conv]: what [convert(density, units, 'g/cm3')] gives *)
(** the argument of [set_density], by the tests of parameters.py:349-365 *)
Inductive darg := DNone | DNumber (v : jval) | DQuantity (r : res jval) | DOther.
(** [isinstance(density, (int, float))], parameters.py:363; True and False are ints *)
Definition is_num (v : jval) : bool := match v with JBool _ | JInt _ | JFlt _ => true | _ => false end.
(** parameters.py:368 *)
Definition gcc : list str := [u "g/cc"; u "g/cm3"; u "g/cm³"].
(** parameters.py:347-379; the prompt (349-362) is [Dialogs.prompt_density], and stands here as the exception [InputPrompt] *)
Definition set_density (conv : jval -> str -> res (option jval)) (a : darg) (units : str) : P unit :=
  let store v := pmod (set_key KDensity v) ;;; save_params in
  match a with
  | DNone => praise InputPrompt
  | DNumber v =>
      if is_num v then
        if smem (lower units) gcc then store v
        else match conv v units with
             | Ok (Some v') => store v'
             | Ok None | Err NoConversionFoundError => praise ValueError
             | Err e => praise e
             end
      else praise ValueError
  | DQuantity r => v <- plift r ;; store v
  | DOther => praise ValueError
  end.
(** 394-398: the value given to Density(…, 'g/cc') *)
Definition get_density : P jval := p <- pget ;; match p_set p KDensity with JNull => praise ValueError | v => pret v end.

(** ** The formation volume factor: database.py:54-87, network.py:161-170; [float_of]: Python's [float(x)] of a string *)
(** the argument of [set_fvf], database.py:54, network.py:161-170 *)
Inductive farg := FvNone | FvStr (x : str) | FvInt (z : Z) | FvFlt (t : str) | FvOther (v : jval).
(** the object assigned at database.py:77 *)
Definition fvf_object (a : farg) : jval :=
  match a with FvNone => JNull | FvStr x => JStr x | FvInt z => JInt z | FvFlt t => JFlt t | FvOther v => v end.
(** network.py:161-170 *)
Definition net_set_fvf (float_of : str -> option str) (a : farg) (p : params) : params :=
  let keep v := Params (p_set p) (p_memory p) (p_thread p) (p_multi p) (p_warned p) v in
  match a with
  | FvStr x => match float_of x with Some t => keep (JFlt t) | None => p end
  | FvInt z => keep (JInt z)
  | FvFlt t => keep (JFlt t)
  | _ => p
  end.
(** database.py:54-78; the prompt (68-75) is [Dialogs.prompt_fvf], and stands here as the exception [InputPrompt] *)
Definition set_fvf (float_of : str -> option str) (a : farg) : P unit :=
  match a with
  | FvNone => praise InputPrompt
  | _ => pmod (net_set_fvf float_of a) ;;; pmod (set_key KFvf (fvf_object a))
  end.
(** 81-87: the number that is rounded and printed; [unyts_parameters_] has no attribute [fvf] *)
Definition get_fvf : P jval := p <- pget ;; match p_net_fvf p with JNull => praise AttributeError | v => pret v end.

(** 46-51 [delete_cache] *)
Definition cache_names : list str := [u "search_memory.cache"; u "units_network.cache"; u "units_dictionary.cache"; u "temperature_ratio_conversions.cache"; u "unitless_names.cache"].
(** [get_user_folder() + name] needs a string, database.py:49 *)
Definition folder : P str := v <- get_user_folder ;; match v with JStr x => pret x | _ => praise TypeError end.
(** database.py:47-51 *)
Fixpoint delete_each (l : list str) : P unit :=
  match l with
  | [] => pret tt
  | n :: t => f <- folder ;; d <- pdisk ;; (if is_file d (f ++ n) then pops [Remove (f ++ n)] else pret tt) ;;; delete_each t
  end.
(** database.py:46-51 *)
Definition delete_cache : P unit := delete_each cache_names.
End Params2.
