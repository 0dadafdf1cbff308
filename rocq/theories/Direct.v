(** * The network used directly: UDigraph.convert, list_nodes, str; Conversion objects *)
From Coq Require Import String QArith.
From Verif Require Import Py StrTools Network Conv.
Local Open Scope N_scope.

Section Direct.
Context {V : Type} {A : Arith V}.

(** network.py:139-142, 146-149: what [src] and [dest] may be: a name or a node (other types have no unit of that name:
    [get_node] raises NameError; not modelled) *)
Inductive endpoint := ByName (x : str) | ByNode (n : node).
(** network.py:139-142, 146-149 *)
Definition resolve (g : net (conv V)) (x : endpoint) : res node := match x with ByName x => get_node g x | ByNode n => Ok n end.
(** network.py:145-150 [conversion] *)
Definition direct (g : net (conv V)) (src dst : endpoint) : res (conv V) :=
  rbind (resolve g src) (fun a => rbind (resolve g dst) (fun b => conversion g a b)).
(** network.py:138-143 [convert]; [fv] is what get_fvf does at that moment *)
Definition net_convert (fv : res V) (g : net (conv V)) (v : V) (src dst : endpoint) : res V :=
  rbind (direct g src dst) (fun c => ceval fv c v).
(** network.py:135-136 [list_nodes] (the order of the set is not modelled) *)
Definition list_nodes (g : net (conv V)) : list str := nodup (list_eq_dec N.eq_dec) (map (fun e => nname (e_node e)) (n_edges g)).
(** network.py:152-159 [__str__]: the loop over [self.edges[src]] meets the list of children, which has no [get_name] *)
Definition net_str (g : net (conv V)) : res str := match n_edges g with [] => Ok [] | _ => Err AttributeError end.

(** network.py:201-210: the fields of a [Conversion] *)
Record conversion_object := Conversion { c_src : node; c_dest : node; c_conv : option (conv V); c_rev : bool; c_alias : bool }.
(** network.py:218-219 [convert]: None is not callable *)
Definition co_convert (fv : res V) (c : conversion_object) (v : V) : res V :=
  match c_conv c with Some k => ceval fv k v | None => Err TypeError end.
(** network.py:221-222 [reverse] *)
Definition co_reverse (fv : res V) (c : conversion_object) (v : V) : res V :=
  rbind (co_convert fv c (aconst 1)) (fun k => adiv v k).
(** network.py:224-228 [get_convert] *)
Definition co_get_convert (c : conversion_object) : option (conv V) :=
  match c_conv c with Some k => Some (get_convert k (c_rev c)) | None => None end.
(** network.py:230-231 [__str__] *)
Definition co_str (c : conversion_object) : str := nname (c_src c) ++ u "->" ++ nname (c_dest c).
End Direct.
Arguments conversion_object V : clear implicits.
