(** * [converter.py]: the conversion engine

    The network, the search memory and the parameters are one state; every
    function is a computation that keeps the state it has produced when it
    raises.  Python closures are the values of [fn]: they are applied with the
    formation volume factor of the moment of the call, as the lambdas do. *)
From Coq Require Import String QArith Qcanon.
From Verif Require Import Py StrTools Network Search Hybrid Conv.
Local Open Scope N_scope.

Section Converter.
Context {V : Type} {A : Arith V}.

(** Items of a conversion path (only used for its length and for printing). *)
(** converter.py:256-328: what the lists [conversion_path] hold *)
Inductive pstep := PN (n : node) | PS (s : str) | PV (v : V) | PTuple.
(** converter.py:218: [conversion_path] *)
Definition path := list pstep.

(** The functions that [converter.py] builds. *)
Inductive fn :=
| FConvs (l : list (conv V))     (* converter.py:147-149 [_lambda_conversion] *)
| FId                            (* lambda x: x *)
| FMul100 | FDiv100              (* converter.py:275, 277 *)
| FTemp (num den : V)            (* converter.py:297: x * num / den *)
| FInv                           (* converter.py:316: 1 / x *)
| FFactor (k : V)                (* converter.py:528: x * conversion_factor; 678: x * this_units_density *)
| FComp (f g : fn)               (* converter.py:443, 544, 561: g(f(x)) *)
| FBad.                          (* a closure over None or over a tuple: raises TypeError when applied *)

(** converter.py:152-170 [_lambda_loop] *)
Fixpoint run_convs (fv : res V) (l : list (conv V)) (x : V) : res V :=
  match l with [] => Ok x | c :: t => rbind (ceval fv c x) (run_convs fv t) end.

(** the call of the function, converter.py:250, 549, 566, 578 *)
Fixpoint feval (fv : res V) (f : fn) (x : V) : res V :=
  match f with
  | FConvs l => run_convs fv l x
  | FId => Ok x
  | FMul100 => Ok (amul x (aconst 100))
  | FDiv100 => adiv x (aconst 100)
  | FTemp num den => adiv (amul x num) den
  | FInv => adiv (aconst 1) x
  | FFactor k => Ok (amul x k)
  | FComp f g => rbind (feval fv f x) (feval fv g)
  | FBad => Err TypeError
  end.

(** ** State *)
(** The attributes of [unyts_parameters_] read here (parameters.py:33-55);
    [p_pylimit] is [sys.getrecursionlimit()]. *)
Record par := Par {
  p_max_rec : Z; p_max_gen : Z; p_algo : str; p_cache : bool; p_raise : bool;
  p_density : option V; p_redpar : bool;
  p_parallel : bool; p_multi : bool; p_thread : bool; p_pylimit : Z }.

(** The parts of dictionaries.py read here (converter.py:14). *)
Record dicts := Dicts {
  d_date : list str; d_dimless : list str; d_percent : list str; d_temp : list str;
  d_volume : list str; d_weight : list str; d_uncertain : list str;
  d_tratio : list ((str * str) * Q) }.

(** [memory]: (from, to) -> (None, None) or (function, path), network.py:55 *)
Definition memo := list ((str * str) * option (fn * path)).

(** network.py:47-59, parameters.py:33-55: the module-level objects; the answers of the user and the scheduler are inputs *)
Record st := St {
  s_net : net (conv V);            (* units_network.edges *)
  s_es : option estr;              (* units_network._edges_str *)
  s_prev : list (str * str);       (* units_network.previous *)
  s_mem : memo;                    (* units_network.memory *)
  s_fvf : option V;                (* units_network.fvf *)
  s_ask_fvf : res V;               (* what the user answers when asked for the FVF (or NoFVFError) *)
  s_ask_density : res V;           (* what the user answers when asked for a density *)
  s_par : par;
  s_dict : dicts;
  s_sched : list agent;            (* how the threads of hybrid_BFS are scheduled *)
  s_last : path                    (* what last_path_str prints *)
}.
(** model plumbing: assignment to network.py:63 [_edges_str] *)
Definition set_es s e := St (s_net s) e (s_prev s) (s_mem s) (s_fvf s) (s_ask_fvf s) (s_ask_density s) (s_par s) (s_dict s) (s_sched s) (s_last s).
(** model plumbing: assignment to converter.py:490, 806 [previous] *)
Definition set_prev s p := St (s_net s) (s_es s) p (s_mem s) (s_fvf s) (s_ask_fvf s) (s_ask_density s) (s_par s) (s_dict s) (s_sched s) (s_last s).
(** model plumbing: assignment to [memory] *)
Definition set_mem s m := St (s_net s) (s_es s) (s_prev s) m (s_fvf s) (s_ask_fvf s) (s_ask_density s) (s_par s) (s_dict s) (s_sched s) (s_last s).
(** model plumbing: assignment to converter.py:821 [last_path_str] *)
Definition set_last s p := St (s_net s) (s_es s) (s_prev s) (s_mem s) (s_fvf s) (s_ask_fvf s) (s_ask_density s) (s_par s) (s_dict s) (s_sched s) p.
(** model plumbing: assignment to [edges] *)
Definition set_net s g := St g (s_es s) (s_prev s) (s_mem s) (s_fvf s) (s_ask_fvf s) (s_ask_density s) (s_par s) (s_dict s) (s_sched s) (s_last s).
(** model plumbing: assignment to [fvf] *)
Definition set_fvf_ s f := St (s_net s) (s_es s) (s_prev s) (s_mem s) f (s_ask_fvf s) (s_ask_density s) (s_par s) (s_dict s) (s_sched s) (s_last s).
(** model plumbing: the scheduler's next choices *)
Definition set_sched s l := St (s_net s) (s_es s) (s_prev s) (s_mem s) (s_fvf s) (s_ask_fvf s) (s_ask_density s) (s_par s) (s_dict s) l (s_last s).
(** model plumbing: assignment to the attributes of [unyts_parameters_] *)
Definition set_par s p := St (s_net s) (s_es s) (s_prev s) (s_mem s) (s_fvf s) (s_ask_fvf s) (s_ask_density s) p (s_dict s) (s_sched s) (s_last s).

(** ** The monad *)
(** model plumbing: a computation over the state, which may raise *)
Definition M (X : Type) := st -> res X * st.
(** model plumbing: [return x] *)
Definition ret {X} (x : X) : M X := fun s => (Ok x, s).
(** model plumbing: [raise e] *)
Definition raise {X} (e : exn) : M X := fun s => (Err e, s).
(** model plumbing: one statement after another; the state survives an exception *)
Definition bind {X Y} (m : M X) (k : X -> M Y) : M Y :=
  fun s => match m s with (Ok x, s') => k x s' | (Err e, s') => (Err e, s') end.
(** model plumbing: a computation that does not touch the state *)
Definition lift {X} (r : res X) : M X := fun s => (r, s).
(** model plumbing: reading the module-level objects *)
Definition get : M st := fun s => (Ok s, s).
(** model plumbing: an assignment *)
Definition modify (h : st -> st) : M unit := fun s => (Ok tt, h s).
End Converter.
Declare Scope m_scope.
Notation "x <- m ;; k" := (bind m (fun x => k)) (at level 61, m at next level, right associativity) : m_scope.
Notation "m ;;; k" := (bind m (fun _ => k)) (at level 61, right associativity) : m_scope.
Arguments fn V : clear implicits.
Arguments pstep V : clear implicits.
Arguments path V : clear implicits.
Arguments st V : clear implicits.
Arguments par V : clear implicits.
Arguments memo V : clear implicits.
Arguments M V X : clear implicits.

Section Converter2.
Context {V : Type} {A : Arith V}.
Local Open Scope m_scope.

(** network.py:172-198 [get_fvf]: the stored value, else the answer of the
    user (the answer is kept by the code: the model keeps asking the same
    question and gets the same answer), or NoFVFError with a GUI. *)
Definition fv_of (s : st V) : res V :=
  match s_fvf s with Some v => Ok v | None => s_ask_fvf s end.

(** ** The memory dict *)
(** Python [==] on two pairs of names *)
Definition keqb (a b : str * str) : bool := seqb (fst a) (fst b) && seqb (snd a) (snd b).
(** converter.py:247-248: [memory[k] if k in memory] *)
Fixpoint mget (k : str * str) (m : memo V) : option (option (fn V * path V)) :=
  match m with [] => None | (k', v) :: t => if keqb k k' then Some v else mget k t end.
(** Python [memory[k] = v] *)
Fixpoint mset (k : str * str) (v : option (fn V * path V)) (m : memo V) : memo V :=
  match m with
  | [] => [(k, v)]
  | (k', v') :: t => if keqb k k' then (k', v) :: t else (k', v') :: mset k v t
  end.
(** converter.py:324, 528, 545, 562, 574, 582 *)
Definition remember (k : str * str) (v : option (fn V * path V)) : M V unit :=
  modify (fun s => set_mem s (mset k v (s_mem s))).

(** What the engine returns: a value, or a function when the value is [None]. *)
(** converter.py:218-235, 449: the first component *)
Inductive cval := CVal (v : V) | CFn (f : fn V).
(** converter.py:218-235: [(conversion, conversion_path)] or [(None, None)] *)
Definition result := option (cval * path V).

(** [f] if value is None else [f(value)] *)
(** converter.py:249-250, 325-328 *)
Definition app (value : option V) (f : fn V) : M V cval :=
  fun s => match value with
           | None => (Ok (CFn f), s)
           | Some v => (rbind (feval (fv_of s) f v) (fun w => Ok (CVal w)), s)
           end.
(** converter.py:249-250 and the quick conversions 254-318 *)
Definition answer (value : option V) (f : fn V) (p : path V) : M V result :=
  c <- app value f ;; ret (Some (c, p)).

(** ** Parameters *)
(** converter.py:206-215 [_get_recursion_limit] *)
Definition rec_limit (p : par V) (r : option Z) : Z :=
  match r with
  | None => Z.min (p_pylimit p - 15) (p_max_rec p)
  | Some r => if (1 <? r)%Z then (Z.min (p_pylimit p - 15) r - 1)%Z
              else if (r <=? 0)%Z then (-1)%Z else (r - 1)%Z
  end.

(** ** Descendants with the cached string view (network.py:61-64) *)
Definition current_es (s : st V) : estr :=
  match s_es s with Some e => e | None => edges_str (s_net s) end.
(** does [_get_descendants] read [get_edges_str]?  (it is read inside the loop on generations) *)
(** converter.py:369-372: decides whether network.py:61-64 is called *)
Fixpoint desc_touch (f : nat) (hasn : str -> bool) (unit : str) (gen : Z) (combos : bool) : bool :=
  (0 <? gen)%Z &&
  (hasn unit ||
   (combos && match combo_parts unit, f with
              | Some (a, b), S f' => desc_touch f' hasn a gen true || desc_touch f' hasn b gen true
              | _, _ => false end)).
(** network.py:61-64: the cached value is filled on the first reading *)
Definition touch_es (b : bool) : M V unit :=
  modify (fun s => if b then set_es s (Some (current_es s)) else s).
(** converter.py:363-389 *)
Definition m_desc (unit : str) (gen : Z) (combos : bool) : M V (list str) :=
  s <- get ;;
  touch_es (desc_touch 3 (has_node (s_net s)) unit gen combos) ;;;
  ret (get_descendants (has_node (s_net s)) (current_es s) unit gen combos).

(** ** The searches (converter.py:697-744 [_search_network]) *)
Definition hybrid_outcome (s : st V) (lo bo : res (option (list node))) : res (option (list node)) :=
  match pick_runner (p_parallel (s_par s)) (p_multi (s_par s)) (p_thread (s_par s)) with
  | Err e => Err e
  | Ok RThread => match h_result lo bo (s_sched s) with
                  | Some (Value r) => Ok r
                  | Some Empty => Err TypeError
                  | None => Err OutOfFuel   (* not finished under this schedule *)
                  end
  | Ok RSerial => match serial_result lo bo with Some r => Ok r | None => Err OutOfFuel end
  end.
(** converter.py:697-744 *)
Definition search_network (f t : str) : M V (option (list node)) :=
  s <- get ;;
  let g := s_net s in let algo := p_algo (s_par s) in let mg := p_max_gen (s_par s) in
  if has_node g f && has_node g t then
    a <- lift (get_node g f) ;;
    b <- lift (get_node g t) ;;
    if seqb algo (u "BFS") then lift (BFS g a b)
    else if seqb algo (u "lean_BFS") then
      touch_es (0 <=? mg)%Z ;;; lift (lean_BFS g (current_es s) a b mg)
    else if seqb algo (u "DFS") then
      touch_es ((0 <? mg)%Z && match children_of g a with
                               | Ok ks => existsb (fun k => negb (neqb k a)) ks
                               | Err _ => false end) ;;;
      lift (DFS g (current_es s) a b mg)
    else if seqb algo (u "hybrid_BFS") then
      touch_es (0 <=? mg)%Z ;;;
      lift (hybrid_outcome s (lean_BFS g (current_es s) a b mg) (BFS g a b))
    else raise NotImplementedError
  else ret None.

(** converter.py:74-131 [_apply_conversion] on a path of nodes: line 129 at every step *)
Fixpoint apply_path (g : net (conv V)) (fv : res V) (v : V) (p : list node) : res V :=
  match p with
  | a :: (b :: _) as t => rbind (conversion g a b) (fun c => rbind (ceval fv c v) (fun w => apply_path g fv w t))
  | _ => Ok v
  end.
(** converter.py:147-148: the list of conversions of [_lambda_conversion] *)
Fixpoint path_convs (g : net (conv V)) (p : list node) : res (list (conv V)) :=
  match p with
  | a :: (b :: _) as t => rbind (conversion g a b) (fun c => rbind (path_convs g t) (fun l => Ok (c :: l)))
  | _ => Ok []
  end.

(** [get_node(x) if has_node(x) else x], converter.py:256, 263-264 *)
Definition node_or_str (g : net (conv V)) (x : str) : pstep V :=
  match get_node g x with Ok n => PN n | Err _ => PS x end.

(** the literal 1 of converter.py:289, 510, 769 *)
Definition qone : V := aconst 1.
(** the literal of converter.py:303, 308 *)
Definition par_chars : list chr := [c_space; c_lpar; c_rpar].
(** converter.py:274, 276, 280, 302, 307 *)
Definition is_dimless (d : dicts) (x : str) : bool := smem (lower x) (d_dimless d).
(** converter.py:274, 276 *)
Definition is_percent (d : dicts) (x : str) : bool := smem (lower x) (d_percent d).
(** a ratio of two equal units (converter.py:302-303, 307-308) *)
Definition same_ratio (x : str) : bool :=
  match split2 c_slash (lower x) with
  | Some (a, b) => seqb (strip_chars par_chars a) (strip_chars par_chars b)
  | None => false
  end.
(** converter.py:288 *)
Definition tratio_get (k : str * str) (d : dicts) : option Q :=
  match find (fun e => keqb k (fst e)) (d_tratio d) with Some (_, q) => Some q | None => None end.

(** converter.py:320-330: the search in the network, and what is remembered *)
Definition from_network (value : option V) (f t : str) : M V result :=
  s <- get ;;
  p <- search_network f t ;;
  match p with
  | Some p =>
      l <- lift (path_convs (s_net s) p) ;;
      remember (f, t) (Some (FConvs l, map PN p)) ;;;
      match value with
      | None => ret (Some (CFn (FConvs l), map PN p))
      | Some v => w <- lift (apply_path (s_net s) (fv_of s) v p) ;; ret (Some (CVal w, map PN p))
      end
  | None => ret None
  end.

(** converter.py:218-330 [_get_conversion].  [rec] is the recursive call of
    line 289 (its arguments have no '/', so it cannot recurse again). *)
Definition get_conversion_ (rec : option V -> str -> str -> option Z -> option bool -> M V result)
    (value : option V) (f t : str) (r0 : option Z) (uc : option bool) : M V result :=
  s <- get ;;
  let r := rec_limit (s_par s) r0 in
  if (r <? 0)%Z then ret None else
  let use := match uc with Some b => b | None => p_cache (s_par s) end in
  match (if use then mget (f, t) (s_mem s) else None) with
  | Some None => ret None
  | Some (Some (g, p)) => answer value g p
  | None =>
  let d := s_dict s in
  if seqb f t then answer value FId [node_or_str (s_net s) f]
  else if smem f (d_date d) && smem t (d_date d) then
    answer value FId [node_or_str (s_net s) f; node_or_str (s_net s) t]
  else if is_dimless d f && is_percent d t then answer value FMul100 [PS (u "*"); PV (aconst 100)]
  else if is_percent d f && is_dimless d t then answer value FDiv100 [PS (u "/"); PV (aconst 100)]
  else if is_dimless d f && negb (cmem c_slash t) then answer value FId []
  else match split2 c_slash f, split2 c_slash t with
  | Some (t1, d1), Some (t2, d2) =>
    if smem t1 (d_temp d) && smem t2 (d_temp d) then
      match tratio_get (t1, t2) d with
      | None => raise KeyError
      | Some num =>
          den <- rec (Some qone) d1 d2 (Some r) (Some use) ;;
          match den with
          | Some (CVal dv, dp) =>
              answer value (FTemp (aconst num) dv) (PS (u "*") :: PV (aconst num) :: PS (u "/") :: PV qone :: dp)
          | Some (CFn _, _) => raise TypeError   (* unreachable: the value is 1 *)
          | None => if p_raise (s_par s) then raise NoConversionFoundError else ret None
          end
      end
    else if is_dimless d f && same_ratio t then answer value FId []
    else if is_dimless d t && same_ratio f then answer value FId []
    else if seqb (strip t1) (strip d2) && seqb (strip d1) (strip t2) then answer value FInv [PS (u "1/")]
    else from_network value f t
  | _, _ =>
    if is_dimless d f && same_ratio t then answer value FId []
    else if is_dimless d t && same_ratio f then answer value FId []
    else from_network value f t
  end
  end.

(** converter.py:289: the recursive call *)
Definition get_conversion0 := get_conversion_ (fun _ _ _ _ _ => raise OutOfFuel).
(** converter.py:218-330 *)
Definition get_conversion := get_conversion_ get_conversion0.

(** ** Composite units (converter.py:492-532) *)
(** tokens with "the previous token is '/'" *)
(** converter.py:515: [split_from[f - 1] == '/'] *)
Fixpoint marks (after_slash : bool) (l : list str) : list (str * bool) :=
  match l with [] => [] | x :: t => (x, after_slash) :: marks (seqb x s_slash) t end.
(** converter.py:503, 508: [x in '*/'] *)
Definition is_op (x : str) : bool := ssub x [c_star; c_slash].

(** converter.py:505-521, the loop on the target factors; [i] is the index of the first of [ts] *)
Fixpoint match_one (r : Z) (uc : option bool) (have : bool) (x : str) (xs : bool)
    (i : nat) (ts : list (str * bool)) (used : list nat) : M V (option (V * path V * nat)) :=
  match ts with
  | [] => ret None
  | (y, ys) :: ts' =>
      if existsb (Nat.eqb i) used then match_one r uc have x xs (S i) ts' used
      else if is_op y then match_one r uc have x xs (S i) ts' used
      else
        c <- get_conversion (Some qone) x y (Some r) uc ;;
        match c with
        | None => match_one r uc have x xs (S i) ts' used
        | Some (CFn _, _) => raise TypeError   (* unreachable: the value is 1 *)
        | Some (CVal k, p) =>
            let p := if have then PV qone :: p else p in
            if xs || ys
            then k' <- lift (adiv qone k) ;; ret (Some (k', PS (u "/") :: p, i))
            else ret (Some (k, p, i))
        end
  end.
(** converter.py:501-524, the loop on the source factors: [None] when one of them has no match *)
Fixpoint match_all (r : Z) (uc : option bool) (fs ts : list (str * bool)) (used : list nat)
    (ks : list V) (ps : path V) (have : bool) : M V (option (list V * path V)) :=
  match fs with
  | [] => ret (Some (ks, ps))
  | (x, xs) :: fs' =>
      if is_op x then match_all r uc fs' ts used ks ps have
      else
        m <- match_one r uc have x xs 0 ts used ;;
        match m with
        | None => ret None
        | Some (k, p, i) => match_all r uc fs' ts (used ++ [i]) (ks ++ [k]) (ps ++ p) true
        end
  end.
(** converter.py:495-527 *)
Definition composite (f t : str) (r : Z) (uc : option bool) : M V (option (V * path V)) :=
  sf <- lift (split_unit f) ;;
  sto <- lift (split_unit t) ;;
  m <- match_all r uc (marks false sf) (marks false sto) [] [] [] false ;;
  match m with
  | Some (k :: ks, p) => ret (Some (fold_left amul ks k, p))
  | _ => ret None
  end.

(** ** Pair children (converter.py:173-203 [_get_pair_child]) *)
Definition is_pair (x : str) : bool := cmem c_slash x || cmem c_star x.
(** [sorted(l, key=len)[0]] *)
(** converter.py:192, 199 *)
Fixpoint shortest (x : str) (l : list str) : str :=
  match l with
  | [] => x
  | y :: t => if (length y <? length x)%nat then shortest y t else shortest x t
  end.
(** converter.py:188-192 *)
Definition first_pair (ks : list node) : option str :=
  match filter is_pair (map nname ks) with [] => None | x :: t => Some (shortest x t) end.
(** converter.py:195-200 *)
Fixpoint grand_pair (g : net (conv V)) (ks : list node) : res (option str) :=
  match ks with
  | [] => Ok None
  | k :: t => rbind (children_of g k) (fun gks =>
      match first_pair gks with Some x => Ok (Some x) | None => grand_pair g t end)
  end.
(** converter.py:173-203 *)
Definition get_pair_child (g : net (conv V)) (x : str) : res (option str) :=
  rbind (get_node g x) (fun n =>
  rbind (children_of g n) (fun ks =>
  match first_pair ks with Some y => Ok (Some y) | None => grand_pair g ks end)).

(** ** Ratios through the descendants (converter.py:392-448) *)
(** converter.py:333-360 [generations_until_common] with 25 generations; [None] is infinity *)
Fixpoint guc_loop (n : nat) (gen : Z) (a b : str) : M V (option Z) :=
  match n with
  | O => ret None
  | S n' =>
      da <- m_desc a gen true ;;
      db <- m_desc b gen true ;;
      match sinter da db with [] => guc_loop n' (gen + 1) a b | _ => ret (Some gen) end
  end.
(** converter.py:333-360 *)
Definition generations_until_common := guc_loop 25 1.
(** converter.py:426: the sum of two numbers of generations *)
Definition gadd (a b : option Z) : option Z :=
  match a, b with Some x, Some y => Some (x + y)%Z | _, _ => None end.
(** converter.py:435: comparison of numbers of generations *)
Definition glt (a b : option Z) : bool :=
  match a, b with Some x, Some y => (x <? y)%Z | Some _, None => true | None, _ => false end.
(** converter.py:428 *)
Definition gmin (a b : option Z) := if glt b a then b else a.
(** code point order on strings *)
(** Python [<] on strings, converter.py:429 *)
Fixpoint sltb (a b : str) : bool :=
  match a, b with
  | [], _ :: _ => true
  | _, [] => false
  | x :: a', y :: b' => (x <? y) || ((x =? y) && sltb a' b')
  end.
(** Python [<] on pairs, converter.py:429 *)
Definition klt (a b : option Z * str) : bool :=
  glt (fst a) (fst b) || (negb (glt (fst b) (fst a)) && sltb (snd a) (snd b)).
(** Python [sorted], converter.py:429 *)
Fixpoint kinsert (x : option Z * str) (l : list (option Z * str)) :=
  match l with [] => [x] | y :: t => if klt y x then y :: kinsert x t else x :: y :: t end.
(** Python [sorted], converter.py:429 *)
Definition ksort (l : list (option Z * str)) := fold_right kinsert [] l.

(** converter.py:426-427 *)
Fixpoint total_gens (f t : str) (l : list str) : M V (list (option Z * str)) :=
  match l with
  | [] => ret []
  | x :: l' =>
      a <- generations_until_common f x ;;
      b <- generations_until_common x t ;;
      rest <- total_gens f t l' ;;
      ret ((gadd a b, x) :: rest)
  end.

(** converter.py:437-438, 443: what a closure over these variables calls *)
Definition fn_or_bad (x : result) : fn V :=
  match x with Some (CFn f, _) => f | _ => FBad end.
(** converter.py:440 *)
Definition not_inv (x : pstep V) : bool := match x with PS s => negb (seqb s (u "1/")) | _ => true end.

Section Ratio.
(** the recursive calls to [_converter(None, ...)] *)
Context (conv : str -> str -> M V result).
(** converter.py:431-448; [best] is [conversion_path], [last] the pair of functions the
    closure [conversion] refers to (the variables of the loop: the last ones
    assigned, whichever iteration created the closure) *)
Fixpoint ratio_loop (f t : str) (mn : option Z) (cs : list (option Z * str)) (best : option (path V))
    (short : Z) (count : Z) (last : fn V) : M V (option (fn V * path V)) :=
  let finish := match best with Some p => Some (last, p) | None => None end in
  match cs with
  | [] => ret finish
  | (gens, child) :: cs' =>
      if match best with Some _ => glt mn gens | None => false end then ret finish
      else
        x <- conv f child ;;
        y <- conv child t ;;
        let last := FComp (fn_or_bad x) (fn_or_bad y) in
        match x, y with
        | Some (_, px), Some (_, py) =>
            let len := Z.of_nat (length (filter not_inv (px ++ py))) in
            let '(best, short) := if (len <? short)%Z then (Some (px ++ py), len) else (best, short) in
            if (count =? 12)%Z
            then ret (match best with Some p => Some (last, p) | None => None end)
            else ratio_loop f t mn cs' best short (count + 1) last
        | _, _ => ratio_loop f t mn cs' best short (count + 1) last
        end
  end.
(** converter.py:392-448 *)
Definition ratio_children (f t : str) : M V (option (fn V * path V)) :=
  s <- get ;;
  ff <- m_desc f (p_max_gen (s_par s)) true ;;
  ft <- m_desc t (p_max_gen (s_par s)) true ;;
  gens <- total_gens f t (Search.sdedup (sinter ff ft)) ;;
  match gens with
  | [] => raise ValueError     (* converter.py:428: min() of an empty sequence *)
  | (g0, _) :: rest =>
      ratio_loop f t (fold_left gmin (map fst rest) g0) (ksort gens) None 9999 0 FBad
  end.
End Ratio.

(** ** converter.py:451-583 [_converter]; [n] bounds the nesting of the calls *)
(** converter.py:472 *)
Definition visited (s : st V) (f t : str) : bool := existsb (keqb (f, t)) (s_prev s).
(** converter.py:569 *)
Definition one_slash (x : str) : bool := match split2 c_slash x with Some _ => true | None => false end.

(** converter.py:534-566: one-to-pair and pair-to-one; [conv] is [_converter(None, ...)] *)
Definition via_pair (conv : str -> str -> M V result) (f t : str) : M V (option (fn V * path V)) :=
  s <- get ;;
  if is_pair t && negb (is_pair f) then
    c <- lift (get_pair_child (s_net s) f) ;;
    match c with
    | None => ret None
    | Some c =>
        x <- conv f c ;;
        y <- conv c t ;;
        match x, y with
        | Some (CFn b, px), Some (CFn p, py) => ret (Some (FComp b p, px ++ py))
        | _, _ => ret None
        end
    end
  else if is_pair f && negb (is_pair t) then
    c <- lift (get_pair_child (s_net s) t) ;;
    match c with
    | None => ret None
    | Some c =>
        x <- conv c t ;;
        y <- conv f c ;;
        match x, y with
        | Some (CFn b, px), Some (CFn p, py) => ret (Some (FComp p b, py ++ px))
        | _, _ => ret None
        end
    end
  else ret None.

(** converter.py:528-532, 545-549, 562-566, 574-578 *)
Definition keep (value : option V) (f t : str) (g : fn V) (p : path V) : M V result :=
  remember (f, t) (Some (g, p)) ;;; answer value g p.

(** converter.py:490-583, once [_get_conversion] has failed; [cv] and [cn] are the recursive
    calls with and without the caller's [use_cache] *)
Definition slow (cv cn : str -> str -> M V result) (value : option V) (f t : str) (r : Z) (uc : option bool) : M V result :=
  modify (fun s => set_prev s (s_prev s ++ [(f, t)])) ;;;
  m <- composite f t r uc ;;
  match m with
  | Some (k, p) => keep value f t (FFactor k) p
  | None =>
      m <- via_pair cv f t ;;
      match m with
      | Some (g, p) => keep value f t g p
      | None =>
          m <- (if one_slash f && one_slash t then ratio_children cn f t else ret None) ;;
          match m with
          | Some (g, p) => keep value f t g p
          | None => remember (f, t) None ;;; ret None
          end
      end
  end.

(** converter.py:451-488 *)
Fixpoint converter (n : nat) (value : option V) (f t : str) (r0 : option Z) (uc : option bool) : M V result :=
  s <- get ;;
  if visited s f t then ret None else
  let r := rec_limit (s_par s) r0 in
  if (r <? 0)%Z then ret None else
  match n with
  | O => raise OutOfFuel
  | S n' =>
      x <- get_conversion value f t (Some r) uc ;;
      match x with
      | Some _ => ret x
      | None => slow (fun a b => converter n' None a b (Some r) uc)
                     (fun a b => converter n' None a b (Some r) None) value f t r uc
      end
  end.

(** the top call: [recursion=None] (proved sufficient in EngineFacts10.v), converter.py:769, 813 *)
Definition top_fuel (s : st V) : nat := S (Z.to_nat (rec_limit (s_par s) None)).
(** converter.py:769, 813: [_converter] with [recursion=None] *)
Definition converter_top (value : option V) (f t : str) (uc : option bool) : M V result :=
  fun s => converter (top_fuel s) value f t None uc s.

(** ** Density (converter.py:657-694, parameters.py:382-391) *)
(** parameters.py:382-391 *)
Definition get_density : M V V :=
  s <- get ;;
  match p_density (s_par s) with
  | Some d => ret d
  | None =>
      d <- lift (s_ask_density s) ;;
      modify (fun s => let p := s_par s in
        set_par s (Par (p_max_rec p) (p_max_gen p) (p_algo p) (p_cache p) (p_raise p) (Some d)
                       (p_redpar p) (p_parallel p) (p_multi p) (p_thread p) (p_pylimit p))) ;;;
      ret d
  end.
(** converter.py:673-694 *)
Definition density_conversion (value : option V) (f t : str) (uc : option bool) : M V result :=
  s <- get ;;
  let d := s_dict s in
  if negb (smem f (d_uncertain d)) && negb (smem t (d_uncertain d)) then
    if smem f (d_volume d) && smem t (d_weight d) then
      rho <- get_density ;;
      x <- converter_top (Some rho) (u "g/cm3") (t ++ u "/" ++ f) uc ;;
      match x with
      | Some (CVal k, _) => answer value (FFactor k) [PS (u "*"); PV k]
      | _ => answer value FBad [PS (u "*"); PTuple]           (* x * None *)
      end
    else if smem t (d_volume d) && smem f (d_weight d) then
      rho <- get_density ;;
      _ <- converter_top (Some rho) (u "g/cm3") (f ++ u "/" ++ t) uc ;;
      answer value FBad [PS (u "/"); PTuple]                   (* converter.py:689: x / a tuple *)
    else ret None
  else ret None.

(** ** The public functions *)
(** converter.py:805-825 [convert] after [_clean_input] *)
Definition convert_clean (value : option V) (f t : str) (uc : option bool) : M V (option cval) :=
  modify (fun s => set_prev s []) ;;;
  x <- density_conversion value f t uc ;;
  y <- (match x with Some _ => ret x | None => converter_top value f t uc end) ;;
  match y with
  | Some (c, p) => modify (fun s => set_last s p) ;;; ret (Some c)
  | None => s <- get ;; if p_raise (s_par s) then raise NoConversionFoundError else ret None
  end.

(** The arguments a user can pass (converter.py:603-640). *)
Inductive vin :=
| VNone | VNum (v : V)        (* int, float, complex *)
| VIter (v : V)               (* what has __iter__ (list, tuple, ndarray, Series, DataFrame, even a text): becomes np.array(value) *)
| VUnit (v : V) (un : str)    (* a Unit instance *)
| VOther.                     (* anything else: not a number, not iterable *)
(** converter.py:613-640: the arguments [from_unit] and [to_unit] *)
Inductive uin := UStr (s : str) | UNone | UNan | UUnit (s : str) | UEmpty | UOther.

(** the literal of converter.py:618 *)
Definition q1 : str := [39].   (* apostrophe *)
(** the literal of converter.py:618 *)
Definition q2 : str := [34].   (* double quote *)
(** converter.py:618-621, 631-634 *)
Definition clean_str (x : str) : str :=
  if seqb x q1 || seqb x q2 then strip_chars [c_lpar; c_space; c_rpar] x
  else strip_chars [39] (strip_chars [c_lpar; c_space; 34; c_rpar] (strip_chars [c_lpar; c_space; 39; c_rpar] x)).
(** converter.py:613-627, 631-640 *)
Definition clean_unit (x : uin) : res str :=
  match x with
  | UStr x => Ok (clean_str x)
  | UUnit x => Ok (clean_str x)
  | UNone | UNan => Ok (u "None")
  | UEmpty | UOther => Err TypeError
  end.
(** converter.py:604, 629 *)
Definition is_empty (x : uin) : bool :=
  match x with UEmpty => true | UStr s => seqb s (u "Empty") | _ => false end.
(** converter.py:615-616, 629: a Unit has been replaced by its unit string before the second test *)
Definition bare (x : uin) : uin := match x with UUnit s => UStr s | _ => x end.
(** converter.py:586-646 [_clean_input] with NumPy installed *)
Definition clean_input (redpar : bool) (value : vin) (f t : uin) : res (option V * str * str) :=
  let '(f, t) := match value with VUnit _ un => if is_empty t then (UStr un, f) else (f, t) | _ => (f, t) end in
  match (match value with
         | VNone => Ok None
         | VNum v | VIter v | VUnit v _ => Ok (Some v)
         | VOther => Err ValueError end) with
  | Err e => Err e
  | Ok v =>
      rbind (clean_unit f) (fun f =>
      if is_empty (bare t) then Err TypeError else
      rbind (clean_unit t) (fun t =>
      if redpar then
        rbind (reduce_parentheses f) (fun f => rbind (reduce_parentheses t) (fun t => Ok (v, f, t)))
      else Ok (v, f, t)))
  end.

(** converter.py:775-825 [convert] *)
Definition convert (value : vin) (f t : uin) (uc : option bool) : M V (option cval) :=
  s <- get ;;
  x <- lift (clean_input (p_redpar (s_par s)) value f t) ;;
  let '(v, f, t) := x in convert_clean v f t uc.

(** converter.py:747-772 [convertible] on two strings (or the unit of a Unit) *)
Definition convertible (f t : str) (uc : option bool) : M V bool :=
  fun s => match converter_top (Some qone) f t uc s with
           | (Ok (Some _), s') => (Ok true, s')
           | (Ok None, s') => (Ok false, s')
           | (Err NoConversionFoundError, s') => (Ok false, s')
           | (Err e, s') => (Err e, s')
           end.

(** converter.py:828-862 [convert_for_SimPandas]: the value, converted or not *)
Definition convert_for_SimPandas (v : V) (f t : str) (uc : option bool) : M V V :=
  ok <- convertible f t None ;;
  if ok then
    x <- converter_top (Some v) f t uc ;;
    match x with Some (CVal w, _) => ret w | _ => ret v end
  else ret v.

(** ** The other public operations on the state *)
(** units/custom.py:44-47 *)
Definition api_set_unit (name : str) : M V unit :=
  s <- get ;; g <- lift (set_unit (s_net s) name) ;; modify (fun s => set_net s g).
(** units/custom.py:50-79 *)
Definition set_conversion_api (a b : str) (f : V -> res V) (r : option (V -> res V)) : M V unit :=
  s <- get ;; g <- lift (api_set_conversion (s_net s) a b f r) ;; modify (fun s => set_net s g).
(** database.py:54-78 + network.py:161-170 on a number (any number is stored) *)
Definition api_set_fvf (v : V) : M V unit := modify (fun s => set_fvf_ s (Some v)).
(** network.py:97-101 [clean_memory] *)
Definition api_clean_memory : M V unit := modify (fun s => set_mem s []).
(** any of the setters of parameters.py; what each may store is in Params.v *)
(** parameters.py:156-325 *)
Definition api_set_par (p : par V) : M V unit := modify (fun s => set_par s p).

(** Histories of public calls; a call that raises keeps what it did. *)
(** model plumbing: the public calls with their arguments *)
Inductive call :=
| KConvert (value : vin) (f t : uin) (uc : option bool)
| KConvertible (f t : str) (uc : option bool)
| KSimPandas (v : V) (f t : str) (uc : option bool)
| KSetUnit (name : str)
| KSetConversion (a b : str) (f : V -> res V) (r : option (V -> res V))
| KSetFvf (v : V)
| KCleanMemory
| KSetPar (p : par V)
| KSched (l : list agent).    (* the environment: how the next threads are scheduled *)
(** model plumbing: one call, exceptions caught by the user *)
Definition do_call (c : call) (s : st V) : st V :=
  match c with
  | KConvert v f t uc => snd (convert v f t uc s)
  | KConvertible f t uc => snd (convertible f t uc s)
  | KSimPandas v f t uc => snd (convert_for_SimPandas v f t uc s)
  | KSetUnit a => snd (api_set_unit a s)
  | KSetConversion a b f r => snd (set_conversion_api a b f r s)
  | KSetFvf v => snd (api_set_fvf v s)
  | KCleanMemory => snd (api_clean_memory s)
  | KSetPar p => snd (api_set_par p s)
  | KSched l => set_sched s l
  end.
(** model plumbing: a history of calls *)
Definition do_calls (cs : list call) (s : st V) : st V := fold_left (fun s c => do_call c s) cs s.
End Converter2.
Arguments cval V : clear implicits.
Arguments result V : clear implicits.
Arguments vin V : clear implicits.
Arguments call V : clear implicits.
