(** * Properties C10–C17: the network and the searches *)
From Coq Require Import String QArith Qcanon.
From Verif Require Import Py StrTools Network SearchSpec NetworkFacts Search SearchFacts SearchFacts2
  DescFacts Hybrid HybridFacts Conv ConvFacts NetFacts2.
Local Open Scope N_scope.

(** ** C10: after any sequence of registrations, from the empty network *)
Theorem C10_no_dangling_or_ambiguous_edge : forall (C : Type) (ops : list (op C)) a ks,
  children_of (run_ops empty_net ops) a = Ok ks ->
  NoDup ks /\
  forall b, In b ks ->
    has_obj (run_ops empty_net ops) b = true /\
    exists c, conversion (run_ops empty_net ops) a b = Ok c
           /\ first_of (asked_all empty_net ops) a b = Some c.
Proof. exact @registrations_sound. Qed.
Print Assumptions C10_no_dangling_or_ambiguous_edge.

(** the converse: whatever was first asked for two registered units is attached *)
Theorem C10_first_registration_wins : forall (C : Type) (ops : list (op C)) a b c,
  first_of (asked_all empty_net ops) a b = Some c ->
  conversion (run_ops empty_net ops) a b = Ok c.
Proof. exact @registrations_complete. Qed.
Print Assumptions C10_first_registration_wins.

(** set_conversion and set_unit never raise on a network built by registrations *)
Theorem C10_set_conversion_total : forall (C : Type) (ops : list (op C)) a b c rc,
  exists g, set_conversion (run_ops empty_net ops) a b c rc = Ok g.
Proof. exact @set_conversion_total. Qed.
Print Assumptions C10_set_conversion_total.

(** The clean-up run at import breaks it: a unit that has no outgoing
    conversion is dropped although it is still listed as a destination. *)
Theorem C10_clean_network_refuted : exists (ops : list (op nat)) a b,
  let g := clean_network (run_ops empty_net ops) in
  registered g a b /\ has_obj g b = false /\ BFS g a (Node 7 (u "zz")) = Err KeyError.
Proof. exact clean_network_dangling. Qed.
Print Assumptions C10_clean_network_refuted.

Definition ex_ops : list (op nat) :=
  [OSetConversion (u "a") (u "b") 1%nat 2%nat; OSetConversion (u "a") (u "c") 3%nat 4%nat;
   OSetConversion (u "a") (u "b") 5%nat 6%nat; OSetUnit (u "d")].
Definition ex_net := run_ops empty_net ex_ops.
Example C10_example :
  children_of ex_net (Node 0 (u "a")) = Ok [Node 1 (u "b"); Node 3 (u "c")]
  /\ conversion ex_net (Node 0 (u "a")) (Node 1 (u "b")) = Ok 1%nat.
Proof. split; vm_compute; reflexivity. Qed.

(** ** C11: the automatic reverse is exact exactly for proportional conversions *)
Theorem C11_auto_reverse_exact_iff_proportional :
  forall (fv : res Qc) (f : Qc -> res Qc) (h : Qc -> Qc), (forall x, f x = Ok (h x)) ->
  ((forall x, rbind (f x) (ceval fv (CRev (CUser f))) = Ok x
           /\ rbind (ceval fv (CRev (CUser f)) x) f = Ok x)
   <-> exists k, k <> 0%Qc /\ forall x, h x = (k * x)%Qc).
Proof. exact rev_exact_iff. Qed.
Print Assumptions C11_auto_reverse_exact_iff_proportional.

(** what set_conversion registers when no reverse is given *)
Theorem C11_set_conversion_registers_both : forall (ops : list (op (conv Qc))) a b f g,
  a <> b ->
  has_node (run_ops empty_net ops) a = false -> has_node (run_ops empty_net ops) b = false ->
  api_set_conversion (run_ops empty_net ops) a b f None = Ok g ->
  exists na nb, get_node g a = Ok na /\ get_node g b = Ok nb
    /\ conversion g na nb = Ok (CUser f) /\ conversion g nb na = Ok (CRev (CUser f)).
Proof. exact api_set_conversion_both. Qed.
Print Assumptions C11_set_conversion_registers_both.

Example C11_example : forall x, rbind (Ok (Q2Qc (254 # 100) * x)%Qc)
   (ceval (Err NoFVFError) (CRev (CUser (fun x => Ok (Q2Qc (254 # 100) * x)%Qc)))) = Ok x.
Proof.
  apply (proj2 (rev_exact_iff (Err NoFVFError) _ (fun x => (Q2Qc (254 # 100) * x)%Qc) (fun x => eq_refl))).
  exists (Q2Qc (254 # 100)). split; [easy|reflexivity].
Qed.

(** ** C12, C13: BFS *)
Theorem C12_BFS_returns_real_paths : forall (C : Type) (g : net C) s e p,
  BFS g s e = Ok (Some p) -> simple_path (registered g) s p e.
Proof. exact @BFS_sound. Qed.
Print Assumptions C12_BFS_returns_real_paths.

Theorem C13_BFS_complete_and_shortest : forall (C : Type) (g : net C) s e,
  wf_net g -> In s (nodes g) ->
  (forall p, shortest_path (registered g) s p e ->
     exists q, BFS g s e = Ok (Some q) /\ shortest_path (registered g) s q e)
  /\ (~ reachable (registered g) s e -> BFS g s e = Ok None).
Proof. exact @BFS_complete. Qed.
Print Assumptions C13_BFS_complete_and_shortest.

(** termination: with the fuel used, never out of fuel, on any network at all *)
Theorem C13_BFS_terminates : forall (C : Type) (g : net C) s e, BFS g s e <> Err OutOfFuel.
Proof. exact @BFS_terminates. Qed.
Print Assumptions C13_BFS_terminates.

Example C13_example :
  wf_net ex_net /\ BFS ex_net (Node 1 (u "b")) (Node 3 (u "c"))
    = Ok (Some [Node 1 (u "b"); Node 0 (u "a"); Node 3 (u "c")]).
Proof. split; [apply wf_run, wf_empty|vm_compute; reflexivity]. Qed.

(** ** C14: DFS *)
Theorem C14_DFS_returns_real_paths : forall (C : Type) (g : net C) es s e depth p,
  DFS g es s e depth = Ok (Some p) -> simple_path (registered g) s p e.
Proof. exact @DFS_sound. Qed.
Print Assumptions C14_DFS_returns_real_paths.

Theorem C14_DFS_terminates : forall (C : Type) (g : net C) es s e depth,
  wf_net g -> In s (nodes g) -> exists r, DFS g es s e depth = Ok r.
Proof. exact @DFS_total. Qed.
Print Assumptions C14_DFS_terminates.

Theorem C14_DFS_complete_within_depth : forall (C : Type) (g : net C) s e depth,
  wf_net g -> unique_names g -> In s (nodes g) -> In e (nodes g) -> (0 <= depth)%Z ->
  (forall c, reachable (registered g) s c -> combo_parts (nname c) = None) ->
  (forall c, reachable (registered g) s c -> reachable (registered g) c e ->
             within (registered g) (Z.to_nat depth) c e) ->
  DFS g (edges_str g) s e depth = Ok None -> ~ reachable (registered g) s e.
Proof. exact @DFS_complete. Qed.
Print Assumptions C14_DFS_complete_within_depth.

Definition ex_net2 : net nat :=
  run_ops empty_net [ONewNode (u "a"); ONewNode (u "b"); ONewNode (u "c"); ONewNode (u "d");
    OAddEdge (Node 0 (u "a")) (Node 1 (u "b")) 1%nat; OAddEdge (Node 1 (u "b")) (Node 0 (u "a")) 1%nat;
    OAddEdge (Node 1 (u "b")) (Node 2 (u "c")) 1%nat; OAddEdge (Node 2 (u "c")) (Node 1 (u "b")) 1%nat].
Example C14_example :
  unique_names ex_net2 /\
  DFS ex_net2 (edges_str ex_net2) (Node 0 (u "a")) (Node 2 (u "c")) 25
    = Ok (Some [Node 0 (u "a"); Node 1 (u "b"); Node 2 (u "c")]).
Proof.
  split; [|vm_compute; reflexivity]. unfold unique_names. vm_compute.
  repeat (constructor; [cbn; intuition discriminate|]). constructor.
Qed.

(** ** C15: descendants *)
Theorem C15_descendants_exact : forall (C : Type) (g : net C) un gen combos x,
  wf_net g -> unique_names g -> (0 <= gen)%Z -> (combos = false \/ combo_parts un = None) ->
  (In x (get_descendants (has_node g) (edges_str g) un gen combos) <->
   within (named_edge g) (Z.to_nat gen) un x).
Proof. exact @get_descendants_exact. Qed.
Print Assumptions C15_descendants_exact.

(** for a unit with exactly one '/' (or one '*'): also every ratio of descendants of its parts *)
Theorem C15_descendants_of_a_pair : forall (C : Type) (g : net C) un a b gen x,
  wf_net g -> unique_names g -> (0 < gen)%Z -> combo_parts un = Some (a, b) ->
  combo_parts a = None -> combo_parts b = None ->
  (In x (get_descendants (has_node g) (edges_str g) un gen true) <->
   within (named_edge g) (Z.to_nat gen) un x \/
   exists n d, within (named_edge g) (Z.to_nat gen) a n /\ within (named_edge g) (Z.to_nat gen) b d
     /\ x = n ++ u "/" ++ d).
Proof. exact @get_descendants_pair. Qed.
Print Assumptions C15_descendants_of_a_pair.

(** nesting fuel 3 is enough: more changes nothing *)
Theorem C15_nesting_bound : forall hasn es un gen combos f,
  descendants (3 + f) hasn es un gen combos = descendants 3 hasn es un gen combos.
Proof. exact descendants_fuel. Qed.
Print Assumptions C15_nesting_bound.

(** After a unit has been declared twice the string view is that of the ghost:
    the descendants miss registered conversions. *)
Theorem C15_redeclared_unit_refuted : exists (ops : list (op nat)) x,
  let g := run_ops empty_net ops in
  within (named_edge g) 1 (u "a") x /\
  ~ In x (get_descendants (has_node g) (edges_str g) (u "a") 1 true).
Proof. exact redeclared_descendants. Qed.
Print Assumptions C15_redeclared_unit_refuted.

Example C15_example :
  get_descendants (has_node ex_net2) (edges_str ex_net2) (u "a") 1 true = [u "a"; u "b"] /\
  get_descendants (has_node ex_net2) (edges_str ex_net2) (u "a/d") 1 true
   = [u "a/d"; u "b/d"].
Proof. split; vm_compute; reflexivity. Qed.

(** ** C16: lean_BFS *)
Theorem C16_lean_BFS_returns_real_paths : forall (C : Type) (g : net C) es s e m p,
  NoDup (nodes g) -> lean_BFS g es s e m = Ok (Some p) -> simple_path (registered g) s p e.
Proof. exact @lean_sound. Qed.
Print Assumptions C16_lean_BFS_returns_real_paths.

Theorem C16_lean_BFS_terminates : forall (C : Type) (g : net C) es s e m,
  NoDup (nodes g) -> exists r, lean_BFS g es s e m = Ok r.
Proof. exact @lean_total. Qed.
Print Assumptions C16_lean_BFS_terminates.

Theorem C16_lean_BFS_complete_and_shortest : forall (C : Type) (g : net C) s e m p,
  wf_net g -> unique_names g -> symmetric g -> In s (nodes g) -> In e (nodes g) -> (0 <= m)%Z ->
  combo_parts (nname s) = None -> combo_parts (nname e) = None ->
  shortest_path (registered g) s p e -> (Z.of_nat (length p) <= 2 * (m + 1) + 1)%Z ->
  exists q, lean_BFS g (edges_str g) s e m = Ok (Some q) /\ shortest_path (registered g) s q e.
Proof. exact @lean_complete. Qed.
Print Assumptions C16_lean_BFS_complete_and_shortest.

(** with one-way conversions lean_BFS can miss a path that BFS finds *)
Theorem C16_one_way_refuted : exists (ops : list (op nat)) s e p,
  let g := run_ops empty_net ops in
  unique_names g /\ BFS g s e = Ok (Some p) /\ lean_BFS g (edges_str g) s e 25 = Ok None.
Proof. exact lean_one_way. Qed.
Print Assumptions C16_one_way_refuted.

Example C16_example :
  symmetric ex_net2 /\ lean_BFS ex_net2 (edges_str ex_net2) (Node 0 (u "a")) (Node 2 (u "c")) 25
    = Ok (Some [Node 0 (u "a"); Node 1 (u "b"); Node 2 (u "c")]).
Proof. split; [apply symmetric_check; vm_compute; reflexivity|vm_compute; reflexivity]. Qed.

(** ** C17: every schedule of the hybrid search *)
Theorem C17_hybrid_every_schedule : forall (C : Type) (g : net C) es s e m sched r,
  NoDup (nodes g) ->
  h_result (lean_BFS g es s e m) (BFS g s e) sched = Some r ->
  (exists p, r = Value (Some p) /\ simple_path (registered g) s p e /\
     (lean_BFS g es s e m = Ok (Some p) \/ BFS g s e = Ok (Some p)))
  \/ (r = Value None /\ lean_BFS g es s e m = Ok None /\ BFS g s e = Ok None).
Proof. exact @hybrid_real. Qed.
Print Assumptions C17_hybrid_every_schedule.

(** it returns, on every schedule that lets the workers end and the main thread move *)
Theorem C17_hybrid_returns : forall (C : Type) (g : net C) es s e m sched1 sched2,
  wf_net g -> In s (nodes g) ->
  let lo := lean_BFS g es s e m in let bo := BFS g s e in
  h_wl (h_run lo bo sched1) = Ended -> h_wb (h_run lo bo sched1) = Ended ->
  (8 <= length (filter is_main sched2))%nat ->
  exists r, h_result lo bo (sched1 ++ sched2) = Some r.
Proof. exact @hybrid_returns. Qed.
Print Assumptions C17_hybrid_returns.

(** but if a search raises and the other finds nothing, no schedule ever returns *)
Theorem C17_hybrid_hangs : forall (P : Type) (lo bo : res (option P)) sched,
  ~ will_return lo bo -> h_result lo bo sched = None.
Proof. exact @hybrid_hang. Qed.
Print Assumptions C17_hybrid_hangs.

Theorem C17_serial : forall (P : Type) (lo bo : res (option P)),
  match serial_result lo bo with
  | Some (Some p) => lo = Ok (Some p) \/ bo = Ok (Some p)
  | Some None => lo = Ok None /\ bo = Ok None
  | None => ~ will_return lo bo
  end.
Proof. exact @serial_spec. Qed.
Print Assumptions C17_serial.

(** two schedules can return different paths of one network *)
Example C17_example :
  let lo := lean_BFS ex_net2 (edges_str ex_net2) (Node 0 (u "a")) (Node 2 (u "c")) 25 in
  let bo := BFS ex_net2 (Node 0 (u "a")) (Node 2 (u "c")) in
  h_result lo bo ([Main; Main; BfsWorker] ++ repeat Main 8)
    = Some (Value (Some [Node 0 (u "a"); Node 1 (u "b"); Node 2 (u "c")])).
Proof. vm_compute; reflexivity. Qed.
