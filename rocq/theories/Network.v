(** * The units network: [network.py]

    A [UNode] has no [__eq__]/[__hash__], so nodes are compared by object
    identity and two nodes with one name can coexist.  A node is modelled by
    the pair (identity, name); the network owns the counter of fresh
    identities.  [C] is the type of conversion functions stored on edges. *)
From Coq Require Import String.
From Verif Require Import Py.
Local Open Scope N_scope.

(** network.py:28-38 [UNode]; [nid] stands for Python's [id()]. *)
Record node := Node { nid : N; nname : str }.
(** Python's [is], and [==] on UNodes (network.py:28-38 defines no [__eq__]) *)
Definition neqb (a b : node) : bool := (nid a =? nid b) && seqb (nname a) (nname b).

Section Net.
Context {C : Type}.

(** One item of [UDigraph.edges]: node -> (children, conversions), network.py:107. *)
Record entry := Entry { e_node : node; e_kids : list node; e_convs : list C }.

(** network.py:41-59 [UDigraph]: the part that is the graph itself.  The
    other attributes ([_edges_str], [previous], [memory], [fvf]) are in
    [Converter.v].  [n_next] is the source of fresh object identities. *)
Record net := Net { n_next : N; n_edges : list entry }.

(** network.py:49-50 *)
Definition empty_net : net := Net 0 [].

(** [node in self.edges] *)
(** network.py:104, 113 *)
Definition has_obj (g : net) (n : node) : bool :=
  existsb (fun e => neqb n (e_node e)) (n_edges g).

(** network.py:103-107 [add_node] (of a node object) *)
Definition add_node (g : net) (n : node) : res net :=
  if has_obj g n then Err ValueError
  else Ok (Net (N.max (n_next g) (nid n + 1)) (n_edges g ++ [Entry n [] []])).

(** [add_node(UNode(name))]: what set_unit, set_conversion and _load_network do *)
(** database.py:98, units/custom.py:46, 74-75 *)
Definition add_new (g : net) (name : str) : res net :=
  add_node g (Node (n_next g) name).

(** network.py:119-120: [self.edges[node]] *)
Definition lookup (g : net) (n : node) : option entry :=
  find (fun e => neqb n (e_node e)) (n_edges g).

(** network.py:115: [dest not in self.edges[src][0]] *)
Definition nmem (n : node) (l : list node) : bool := existsb (neqb n) l.

(** network.py:109-117 [add_edge] (the [reverse] argument is unused there) *)
Definition add_edge (g : net) (src dst : node) (c : C) : res net :=
  if negb (has_obj g src && has_obj g dst) then Err ValueError
  else Ok (Net (n_next g)
     (map (fun e =>
        if neqb src (e_node e) then
          if nmem dst (e_kids e) then e
          else Entry (e_node e) (e_kids e ++ [dst]) (e_convs e ++ [c])
        else e) (n_edges g))).

(** network.py:119-120 [children_of] *)
Definition children_of (g : net) (n : node) : res (list node) :=
  match lookup g n with Some e => Ok (e_kids e) | None => Err KeyError end.

(** network.py:122-126 [has_node] on a name *)
Definition has_node (g : net) (name : str) : bool :=
  existsb (fun e => seqb name (nname (e_node e))) (n_edges g).

(** network.py:128-133 [get_node] *)
Definition get_node (g : net) (name : str) : res node :=
  match find (fun e => seqb (nname (e_node e)) name) (n_edges g) with
  | Some e => Ok (e_node e)
  | None => Err NameError
  end.

(** [l.index(x)] *)
(** network.py:150 *)
Fixpoint index_of (n : node) (l : list node) : option nat :=
  match l with
  | [] => None
  | x :: t => if neqb x n then Some O else option_map S (index_of n t)
  end.

(** network.py:145-150 [conversion] on two nodes: [self.edges[src]] is a
    KeyError when absent, [.index] a ValueError, [[...][i]] an IndexError. *)
Definition conversion (g : net) (src dst : node) : res C :=
  match lookup g src with
  | None => Err KeyError
  | Some e =>
      match index_of dst (e_kids e) with
      | None => Err ValueError
      | Some i => match nth_error (e_convs e) i with
                  | Some c => Ok c
                  | None => Err IndexError
                  end
      end
  end.

(** Python dict update [d[k] = v]: keeps the position of an existing key. *)
Fixpoint dset {A} (k : str) (v : A) (d : list (str * A)) : list (str * A) :=
  match d with
  | [] => [(k, v)]
  | (k', v') :: t => if seqb k k' then (k', v) :: t else (k', v') :: dset k v t
  end.
(** Python [d[k] if k in d] (see [dset]) *)
Fixpoint dget {A} (k : str) (d : list (str * A)) : option A :=
  match d with
  | [] => None
  | (k', v') :: t => if seqb k k' then Some v' else dget k t
  end.

(** network.py:61-64: the dict comprehension of [get_edges_str] (the caching
    in [_edges_str] is in [Converter.v]).  Later nodes with a name already
    seen overwrite the earlier ones. *)
Definition estr := list (str * list str).
(** network.py:63 *)
Definition edges_str (g : net) : estr :=
  fold_left (fun d e => dset (nname (e_node e)) (map nname (e_kids e)) d) (n_edges g) [].

(** units/custom.py:44-47 [set_unit] *)
Definition set_unit (g : net) (name : str) : res net := add_new g name.

(** units/custom.py:50-79 [set_conversion] on two strings and two functions
    (the default reverse function is built by the caller of the model, see
    [CRev] in Conv.v).  *)
Definition set_conversion (g : net) (a b : str) (c rc : C) : res net :=
  rbind (add_new g a) (fun g1 =>
  rbind (add_new g1 b) (fun g2 =>
  rbind (get_node g2 a) (fun na =>
  rbind (get_node g2 b) (fun nb =>
  rbind (add_edge g2 na nb c) (fun g3 =>
  add_edge g3 nb na rc))))).

(** database.py:781-782 [_clean_network] *)
Definition clean_network (g : net) : net :=
  Net (n_next g)
    (filter (fun e => match e_kids e, e_convs e with [], [] => false | _, _ => true end) (n_edges g)).

(** Histories: any sequence of registrations, with any arguments. *)
(** model plumbing: the calls of network.py:103-117 and units/custom.py:44-79 with their arguments *)
Inductive op :=
| OAddNode (n : node)              (* add_node of an arbitrary node object *)
| ONewNode (name : str)            (* add_node(UNode(name)) *)
| OAddEdge (src dst : node) (c : C)
| OSetUnit (name : str)
| OSetConversion (a b : str) (c rc : C).

(** model plumbing: one call *)
Definition run_op (g : net) (o : op) : res net :=
  match o with
  | OAddNode n => add_node g n
  | ONewNode name => add_new g name
  | OAddEdge s d c => add_edge g s d c
  | OSetUnit name => set_unit g name
  | OSetConversion a b c rc => set_conversion g a b c rc
  end.
(** A call that raises leaves the network as it was (proved for set_conversion:
    it never raises after its first update). *)
(** model plumbing: one call, exceptions caught by the user *)
Definition step_op (g : net) (o : op) : net :=
  match run_op g o with Ok g' => g' | Err _ => g end.
(** model plumbing: a sequence of calls *)
Definition run_ops (g : net) (os : list op) : net := fold_left step_op os g.
End Net.
Arguments net C : clear implicits.
Arguments entry C : clear implicits.
Arguments op C : clear implicits.
