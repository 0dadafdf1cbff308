(** * The shipped database: [database.py]

    [_load_network] is a sequence of loops whose bodies call
    [network.add_node], [network.add_edge] and [dictionary[kind].append].  The
    loops are written here as the list of those statements, in execution
    order, and the statements are then executed on the network of [Network.v].
    [tuple(set(l))] is modelled by [l] itself: only membership matters, the
    order of a Python set is not modelled. *)
From Coq Require Import String QArith.
From Verif Require Import Py StrTools Network Conv Dict.
Local Open Scope N_scope.

(** the literal of database.py:95 *)
Definition c_under : chr := 95.
(** [unit_kind.split('_')[0]], database.py:101 *)
Fixpoint before (c : chr) (s : str) : str :=
  match s with [] => [] | x :: t => if x =? c then [] else x :: before c t end.
(** database.py:101: [unit_kind.split('_')[0]] *)
Definition base_kind (k : str) : str := before c_under k.
(** [s.replace(' ', rep)] for a one character [rep], database.py:114 *)
Definition respace (rep : chr) (s : str) : str := map (fun x => if x =? 32 then rep else x) s.
(** database.py:112: [' ' in s] *)
Definition spaced (s : str) : bool := cmem 32 s.

(** the names of a kind, and its entries (none for a list or tuple), database.py:96, 102 *)
Definition first_names (v : names) : list str := match v with NList l => l | NDict d => map fst d end.
(** database.py:99-102 *)
Definition entries (v : names) : list (str * list str) :=
  match v with NList l => map (fun n => (n, [])) l | NDict d => d end.

Section Load.
Context {V : Type}.

(** database.py:97-354: the three statements of the loops *)
Inductive stmt :=
| SNode (n : str)                       (* network.add_node(UNode(n)) *)
| SEdge (a b : str) (c : conv V)        (* network.add_edge(Conversion(network.get_node(a), network.get_node(b), c)) *)
| SKind (k n : str).                    (* dictionary[k].append(n) *)

(** two names for one unit, database.py:238-244 *)
Definition both (k a b : str) : list stmt := [SNode a; SNode b; SEdge a b CId; SEdge b a CId; SKind k b].

(** database.py:98-108 *)
Definition do_names (k : str) (d : list (str * list str)) : list stmt :=
  flat_map (fun e : str * list str => let (n, l) := e in
    SNode n :: SKind k n :: flat_map (fun s => [SNode s; SEdge s n CId; SEdge n s CId; SKind k s]) l) d.

(** database.py:109-149: the first edge of a name with blanks is registered
    twice in the same direction; lines 123-135 and 137-149 are the same loop *)
Definition do_spaces (k : str) (v : names) : list stmt :=
  flat_map (fun rep => flat_map (fun e : str * list str => let (n, l) := e in
    (if spaced n then [SNode n; SNode (respace rep n); SKind k n; SKind k (respace rep n);
        SEdge n (respace rep n) CId; SEdge n (respace rep n) CId] else [])
    ++ flat_map (fun s => if spaced s then
        [SNode s; SNode (respace rep s); SEdge (respace rep s) s CId; SEdge s (respace rep s) CId;
         SKind k s; SKind k (respace rep s)] else []) l) (entries v)) [45; 95].

(** database.py:151-234: the prefixes of a table, [get] choosing the factor *)
Definition do_prefix {R} (get : R -> option Q) (table : list (str * R)) (k : str) (v : names) : list stmt :=
  flat_map (fun n => SNode n :: SKind k n :: flat_map (fun pr : str * R => let (p, r) := pr in
    match get r with
    | Some q => [SNode (p ++ n); SEdge (p ++ n) n (CMul q); SEdge n (p ++ n) (get_convert (CMul q) true); SKind k (p ++ n)]
    | None => [] (* never selected: only OGF has empty cells and only its third column is used *)
    end) table) (first_names v).
(** the index [2] of database.py:182, 230 *)
Definition third_of (r : option Q * option Q * option Q) : option Q := snd r.
(** the index [1] of database.py:170, 218 *)
Definition second_of (r : option Q * option Q * option Q) : option Q := snd (fst r).
(** the index [0] of database.py:158, 194 *)
Definition first_of3 (r : option Q * option Q * option Q) : option Q := fst (fst r).
(** database.py:151, 163, 175, 187, 199, 211, 223: [unit_kind.split('_')[0] in SI_order[i]] *)
Definition in_order (order : list (list str)) (i : nat) (k : str) : bool := smem k (nth i order []).

(** database.py:235-300 *)
Definition do_plural (key k : str) (v : names) : list stmt :=
  flat_map (fun n => both k n (n ++ u "s")) (first_names v)
  ++ (if ssub (u "_UPPER") key then flat_map (fun n => both k n (upper n ++ u "S")) (first_names v) else [])
  ++ (if ssub (u "_LOWER") key then flat_map (fun n => both k n (lower n ++ u "s")) (first_names v) else []).
(** database.py:301-354: [_UPPER] and [_LOWER], of the names and, in a dict, of the second names *)
Definition do_case (f : str -> str) (k : str) (v : names) : list stmt :=
  flat_map (fun e : str * list str => let (n, l) := e in both k n (f n) ++ flat_map (fun s => both k s (f s)) l) (entries v).

(** database.py:94-356: one kind.  Lines 95-97 read a kind without '_' before
    anything is appended to it (see [plain_kinds_first]). *)
Definition do_kind (kv : str * names) : list stmt :=
  let (key, v) := kv in
  let k := base_kind key in
  let has s := ssub (u s) key in
  (if cmem c_under key then [] else map SNode (first_names v))
  ++ (if has "_NAMES"%string then do_names k (entries v) else [])
  ++ (if has "_SPACES"%string then do_spaces k v else [])
  ++ (if has "_SI"%string && in_order SI_order 0 k then do_prefix first_of3 SI k v
      else if has "_SI"%string && in_order SI_order 1 k then do_prefix second_of SI k v
      else if has "_SI"%string && in_order SI_order 2 k then do_prefix third_of SI k v
      else if has "_linearSI"%string && in_order SI_order 2 k then do_prefix first_of3 SI k v
      else [])
  ++ (if has "_DATA"%string && in_order DATA_order 0 k then do_prefix fst DATA k v else [])
  ++ (if has "_DATA"%string && in_order DATA_order 1 k then do_prefix snd DATA k v else [])
  ++ (if has "_OGF"%string && in_order OGF_order 2 k then do_prefix third_of OGF k v else [])
  ++ (if has "_PLURALwS"%string then do_plural key k v else [])
  ++ (if has "_UPPER"%string then do_case upper k v else [])
  ++ (if has "_LOWER"%string then do_case lower k v else []).

(** database.py:94-556; the explicit conversions of lines 358-556 are [explicit_edges] in Dict.v *)
Definition load_stmts : list stmt :=
  flat_map do_kind raw_dictionary ++ map (fun e : str * str * conv V => let '(a, b, c) := e in SEdge a b c) explicit_edges.

(** the network under construction, and the kinds (database.py:92; [dictionary]) *)
Record db := Db { db_net : net (conv V); db_kinds : list (str * list str) }.
(** database.py:104: [add_edge(Conversion(get_node(a), get_node(b), c))] *)
Definition add_named_edge (g : net (conv V)) (a b : str) (c : conv V) : res (net (conv V)) :=
  rbind (get_node g a) (fun na => rbind (get_node g b) (fun nb => add_edge g na nb c)).
(** database.py:97-108: one statement *)
Definition exec (d : db) (s : stmt) : res db :=
  match s with
  | SNode n => rbind (add_new (db_net d) n) (fun g => Ok (Db g (db_kinds d)))
  | SEdge a b c => rbind (add_named_edge (db_net d) a b c) (fun g => Ok (Db g (db_kinds d)))
  | SKind k n => match dget k (db_kinds d) with
                 | Some l => Ok (Db (db_net d) (dset k (l ++ [n]) (db_kinds d)))
                 | None => Err KeyError
                 end
  end.
(** model plumbing: the statements in order *)
Fixpoint exec_all (l : list stmt) (d : db) : res db :=
  match l with [] => Ok d | s :: t => rbind (exec d s) (exec_all t) end.

(** database.py:558-570: every conversion of a name of a [_REVERSE] kind is
    registered backwards, dividing by what it makes of 1 (the children of the
    name itself do not change meanwhile) *)
Fixpoint reverse_edges (a : node) (l : list (node * conv V)) (g : net (conv V)) : res (net (conv V)) :=
  match l with
  | [] => Ok g
  | (b, c) :: t => if neqb a b then reverse_edges a t g
                   else rbind (add_edge g b a (get_convert c true)) (reverse_edges a t)
  end.
(** database.py:565-570 *)
Definition reverse_name (g : net (conv V)) (n : str) : res (net (conv V)) :=
  rbind (get_node g n) (fun a =>
    match lookup g a with
    | Some e => reverse_edges a (combine (e_kids e) (e_convs e)) g
    | None => Err KeyError
    end).
(** database.py:564 *)
Fixpoint reverse_names (l : list str) (g : net (conv V)) : res (net (conv V)) :=
  match l with [] => Ok g | n :: t => rbind (reverse_name g n) (reverse_names t) end.
(** database.py:558-564 *)
Definition reversed_names : list str :=
  flat_map (fun kv : str * names => let (key, v) := kv in if ssub (u "_REVERSE") key then first_names v else []) raw_dictionary.

(** the kinds without '_' as [dictionaries.py] leaves them (dictionaries.py:86-554) *)
Definition initial_kinds : list (str * list str) :=
  flat_map (fun kv : str * names => let (key, v) := kv in if cmem c_under key then [] else [(key, first_names v)]) raw_dictionary.

(** database.py:90-606 [_load_network] and 819 [_clean_network] (lines 572-591
    do nothing: no kind is called [_FROMvolume], see [no_FROMvolume]) *)
Definition loaded : res db :=
  rbind (exec_all load_stmts (Db empty_net initial_kinds)) (fun d =>
  rbind (reverse_names reversed_names (db_net d)) (fun g => Ok (Db (clean_network g) (db_kinds d)))).
(** no kind is called [_FROMvolume] *)
Lemma no_FROMvolume : forallb (fun kv : str * names => negb (ssub (u "_FROMvolume") (fst kv))) raw_dictionary = true.
Proof. vm_compute. reflexivity. Qed.
(** no kind K comes after a kind K_...: its names are read before anything is appended to it *)
(** model plumbing: the check behind [plain_kinds_first] *)
Fixpoint plain_first (seen : list str) (l : list (str * names)) : bool :=
  match l with
  | [] => true
  | (key, _) :: t => (cmem c_under key || negb (smem key seen)) && plain_first (base_kind key :: seen) t
  end.
Lemma plain_kinds_first : plain_first [] raw_dictionary = true.
Proof. vm_compute. reflexivity. Qed.
End Load.
Arguments db V : clear implicits.
Arguments stmt V : clear implicits.
