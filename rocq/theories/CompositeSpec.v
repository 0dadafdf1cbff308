(** * Products and ratios of units *)
From Coq Require Import String QArith.
From Verif Require Import Py StrTools Network Conv Converter EngineSpec ConsistSpec.
Local Open Scope N_scope.

(** One more factor of a composite unit: multiplied or divided, its unit in the
    source and in the target. *)
Record factor := Factor { f_div : bool; f_from : str; f_to : str }.
Definition sign (m : factor) : str := if f_div m then u "/" else u "*".
(** "x0/x1*x2": the first unit, then the factors in order *)
Definition source (x0 : str) (l : list factor) : str := x0 ++ flat_map (fun m => sign m ++ f_from m) l.
Definition target (y0 : str) (l : list factor) : str := y0 ++ flat_map (fun m => sign m ++ f_to m) l.

Section S.
Context {V : Type} {A : Arith V}.
(** no special rule applies to the two strings as a whole, and the network
    does not know both of them as units *)
Definition no_shortcut (s : st V) (f t : str) : Prop :=
  f <> t /\ ordinary (s_dict s) f /\ ordinary (s_dict s) t
  /\ (has_node (s_net s) f = false \/ has_node (s_net s) t = false)
  /\ forall n1 d1 n2 d2, f = n1 ++ u "/" ++ d1 -> t = n2 ++ u "/" ++ d2 ->
       ~ (In n1 (d_temp (s_dict s)) /\ In n2 (d_temp (s_dict s)))     (* temperature gradients *)
       /\ ~ (strip n1 = strip d2 /\ strip d1 = strip n2).             (* a unit and its reciprocal *)
(** [k] is what one unit [x] is worth in unit [y] *)
Definition worth (s : st V) (x y : str) (k : V) : Prop :=
  exists uc, fst (convert (VNum (aconst 1%Q)) (UStr x) (UStr y) uc s) = Ok (Some (CVal k)).
Definition factor_worth (s : st V) (m : factor) (k : V) : Prop :=
  unit_name (f_from m) /\ unit_name (f_to m) /\ density_case (s_dict s) (f_from m) (f_to m) = false /\
  if f_div m then exists k', worth s (f_from m) (f_to m) k' /\ adiv (aconst 1%Q) k' = Ok k
  else worth s (f_from m) (f_to m) k.
End S.
