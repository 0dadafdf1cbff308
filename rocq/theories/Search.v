(** * The search algorithms: [searches.py], and [_get_descendants] *)
From Coq Require Import String.
From Verif Require Import Py StrTools Network.

(** ** BFS and DFS over an arbitrary graph
    [V] is the type of nodes, [eqb] Python's identity test on nodes,
    [children] the method [graph.children_of]. *)
Section Generic.
Context {V : Type} (eqb : V -> V -> bool).
(** searches.py:61, 88, 98, 105: [x in list_of_nodes] *)
Definition vmem (x : V) (l : list V) : bool := existsb (eqb x) l.

(** Python [==] on two lists of nodes *)
Fixpoint peqb (p q : list V) : bool :=
  match p, q with
  | [], [] => true
  | x :: p', y :: q' => eqb x y && peqb p' q'
  | _, _ => false
  end.
(** searches.py:48: [conv_path in visited] *)
Definition pmem (p : list V) (l : list (list V)) : bool := existsb (peqb p) l.

Section BFS.
Context (children : V -> res (list V)) (fin : V).

(** The loop state of searches.py:45: [path_queue] and [visited]. *)
Record bst := Bst { b_queue : list (list V); b_visited : list (list V) }.
(** model plumbing: the while loop of searches.py:45 goes on or the function returns *)
Inductive outcome := More (s : bst) | Done (r : res (option (list V))).

(** searches.py:45-62, one turn of the [while] loop.  A path is never empty
    (the loop would raise IndexError on [conv_path[-1]]). *)
Definition bfs_step (s : bst) : outcome :=
  match b_queue s with
  | [] => Done (Ok None)                       (* loop ends; function returns None *)
  | p :: q =>
      if pmem p (b_visited s) then More (Bst q (b_visited s))
      else
        match rev p with
        | [] => Done (Err IndexError)
        | last :: _ =>
            if eqb last fin then Done (Ok (Some p))
            else match children last with
                 | Err e => Done (Err e)
                 | Ok ks =>
                     More (Bst (q ++ map (fun k => p ++ [k])
                                         (filter (fun k => negb (vmem k p)) ks))
                               (b_visited s ++ [p]))
                 end
        end
  end.

(** [run d] performs up to 2^d turns of the loop: fuel that stays executable
    although the number of turns can be exponential. *)
Fixpoint bfs_run (d : nat) (s : bst) : outcome :=
  match d with
  | O => bfs_step s
  | S d' => match bfs_run d' s with More s' => bfs_run d' s' | r => r end
  end.

(** searches.py:42-44 *)
Definition bfs_init (start : V) : bst := Bst [[start]] [].
(** searches.py:25-62 [BFS] with [2^d] turns of fuel. *)
Definition bfs (d : nat) (start : V) : res (option (list V)) :=
  match bfs_run d (bfs_init start) with Done r => r | More _ => Err OutOfFuel end.
End BFS.

Section DFS.
Context (children : V -> res (list V)) (fin : V).
(** [keep child] is [end.get_name() in _get_descendants(child.get_name(), branch_depht)] *)
Context (keep : V -> bool).

(** searches.py:84-101 [dfs_]: returns the path and the shared [visited] set.
    [f] bounds the recursion depth (Python's own limit is not modelled). *)
Fixpoint dfs_ (f : nat) (v : V) (visited : list V) (pq : list V) : res (list V * list V) :=
  match f with
  | O => Err OutOfFuel
  | S f' =>
      match children v with
      | Err e => Err e
      | Ok ks =>
          (fix loop (ks : list V) (visited : list V) : res (list V * list V) :=
             match ks with
             | [] => Ok (pq, visited)
             | c :: t =>
                 if vmem c visited then loop t visited
                 else if negb (keep c) then loop t visited
                 else if eqb c fin then Ok (pq ++ [c], visited)
                 else match dfs_ f' c visited [c] with
                      | Err e => Err e
                      | Ok (tp, visited') =>
                          if vmem fin tp then Ok (pq ++ tp, visited')
                          else loop t visited'
                      end
             end) ks (v :: visited)
      end
  end.

(** searches.py:102-106 *)
Definition dfs (f : nat) (start : V) : res (option (list V)) :=
  match dfs_ f start [] [start] with
  | Err e => Err e
  | Ok (pq, _) => Ok (if vmem fin pq then Some pq else None)
  end.
End DFS.
End Generic.
Arguments bst V : clear implicits.
Arguments outcome V : clear implicits.

(** Fuel sufficient for a graph with [n] expandable nodes and out-degree at
    most [deg] (see SearchFacts.v): 2^fuel > (deg+1)^(n+1). *)
Definition bfs_fuel (n deg : nat) : nat := (S n * S (Nat.log2 (S deg)) + 1)%nat.

Section Descendants.
(** Sets of names are lists without a fixed order; only membership matters. *)
(** Python [set.union], converter.py:372, 389, searches.py:152 *)
Definition sunion (a b : list str) : list str :=
  a ++ filter (fun x => negb (smem x a)) b.
(** Python [set.intersection], searches.py:149 *)
Definition sinter (a b : list str) : list str := filter (fun x => smem x b) a.
(** Python [set(l)], converter.py:372 *)
Fixpoint sdedup (l : list str) : list str :=
  match l with
  | [] => []
  | x :: t => x :: filter (fun y => negb (seqb x y)) (sdedup t)
  end.

(** converter.py:372, one generation: names below the current ones *)
Definition gen_step (es : estr) (children : list str) : list str :=
  sunion children
    (sdedup (flat_map (fun kv => if smem (fst kv) children then snd kv else []) es)).
(** converter.py:370-373: the loop on the generations *)
Fixpoint gen_iter (es : estr) (g : nat) (children : list str) : list str :=
  match g with O => children | S g' => gen_iter es g' (gen_step es children) end.

(** converter.py:375-378: the first of '/', '*' that splits [unit] in two *)
Definition split2 (c : N) (unit : str) : option (str * str) :=
  match csplit c unit with [a; b] => Some (a, b) | _ => None end.
(** converter.py:375-380 *)
Definition combo_parts (unit : str) : option (str * str) :=
  match split2 c_slash unit with
  | Some p => Some p
  | None => split2 c_star unit
  end.

(** converter.py:363-389 [_get_descendants]; [hasn] is [units_network.has_node],
    [es] is [units_network.get_edges_str()].  [f] bounds the nesting of
    combinations: 3 always suffices (a part has lost one separator). *)
Fixpoint descendants (f : nat) (hasn : str -> bool) (es : estr)
    (unit : str) (generations : Z) (combos : bool) : list str :=
  if (generations =? 0)%Z then [unit]
  else
    let children := if hasn unit then gen_iter es (Z.to_nat generations) [unit] else [] in
    let split :=
      if combos then
        match combo_parts unit with
        | Some (num, den) =>
            match f with
            | O => []
            | S f' =>
                let cn := sunion [num] (descendants f' hasn es num generations true) in
                let cd := sunion [den] (descendants f' hasn es den generations true) in
                filter (fun x => negb (seqb x unit))
                  (flat_map (fun n => map (fun d => n ++ c_slash :: d) cd) cn)
            end
        | None => []
        end
      else [] in
    sunion [unit] (sunion children split).

(** converter.py:363 with enough nesting fuel *)
Definition get_descendants := descendants 3.
End Descendants.

Section OnNet.
Context {C : Type}.
Implicit Types g : net C.

(** model plumbing: the largest number of children, for the fuel *)
Definition max_deg (kids : list (list node)) : nat :=
  fold_right (fun l m => Nat.max (length l) m) O kids.

(** model plumbing: fuel proved sufficient in SearchFacts.v *)
Definition net_fuel (es : list (entry C)) : nat :=
  bfs_fuel (length es) (max_deg (map e_kids es)).

(** searches.py:25-62 [BFS] on the units network *)
Definition BFS g (start fin : node) : res (option (list node)) :=
  bfs neqb (children_of g) fin (net_fuel (n_edges g)) start.

(** searches.py:109-119 [SlimUDigraph.children_of] *)
Definition slim_children (es : list (entry C)) (n : node) : res (list node) :=
  match find (fun e => neqb n (e_node e)) es with Some e => Ok (e_kids e) | None => Ok [] end.

(** searches.py:143 *)
Definition generations_list (max : Z) : list Z :=
  filter (fun k => k <? max)%Z [0; 1; 2; 3; 4; 5; 7; 10; 13; 16; 20; 25; 30; 40; 50]%Z ++ [max].

(** searches.py:145-151: returns the selection and the generations reached *)
Fixpoint lean_loop (hasn : str -> bool) (es : estr) (s e : str) (gl : list Z)
    (sel : list str) (gen : Z) : list str * Z :=
  match gl with
  | [] => (sel, gen)
  | g0 :: t =>
      let gen := (g0 + 1)%Z in
      let sel := sinter (get_descendants hasn es s gen true) (get_descendants hasn es e gen true) in
      match sel with
      | [] => lean_loop hasn es s e t sel gen
      | _ => (sel, gen)
      end
  end.

(** searches.py:144-153: the entries kept in the slim graph.  [es] is the
    (possibly stale) string view of the edges that [_get_descendants] reads. *)
Definition lean_edges g (es : estr) (start fin : node) (max : Z) : list (entry C) :=
  let hasn := has_node g in
  let '(sel, gen) := lean_loop hasn es (nname start) (nname fin) (generations_list max) [] 0 in
  let sel := sunion sel (flat_map (fun x => get_descendants hasn es x gen false) sel) in
  filter (fun e => smem (nname (e_node e)) sel) (n_edges g).

(** searches.py:122-158 [lean_BFS] *)
Definition lean_BFS g (es : estr) (start fin : node) (max : Z) : res (option (list node)) :=
  match lean_edges g es start fin max with
  | [] => Ok None
  | sel => bfs neqb (slim_children sel) fin (net_fuel sel) start
  end.

(** searches.py:65-106 [DFS] *)
Definition DFS g (es : estr) (start fin : node) (depth : Z) : res (option (list node)) :=
  dfs neqb (children_of g) fin
      (fun c => smem (nname fin) (get_descendants (has_node g) es (nname c) depth true))
      (S (length (n_edges g))) start.
End OnNet.
