(** * Specification: element by element *)
From Coq Require Import String QArith Qcanon.
From Verif Require Import Py StrTools Network Conv Converter EngineSpec NumPy.
Local Open Scope N_scope.

Section Spec.
Context {V : Type} {A : Arith V} (ediv : V -> V -> V).
(** division of arrays is division of numbers wherever that one does not raise *)
Definition division_agrees : Prop := forall x y z, adiv x y = Ok z -> ediv x y = z.

(** a function on numbers and arrays that works on the elements: numbers to numbers; an array to an array of
    the same length and container, each element being what the number alone gives (if that does not raise);
    and no exception when no element raises one *)
Record elementwise (F : npv V -> res (npv V)) : Prop := {
  ew_num : forall x w, F (Num x) = Ok w -> exists y, w = Num y;
  ew_arr : forall k l w, F (Arr k l) = Ok w -> exists l', w = Arr k l' /\ Forall2 (fun x y => forall z, F (Num x) = Ok (Num z) -> z = y) l l';
  ew_ok : forall k l, l <> [] -> (forall x, In x l -> exists y, F (Num x) = Ok (Num y)) -> exists w, F (Arr k l) = Ok w }.

(** a number among these values *)
Definition is_num (v : npv V) : Prop := exists x, v = Num x.
(** what a function stored on an edge does, whatever the formation volume factor (a number) is *)
Definition numeric_fvf (fv : res (npv V)) : Prop := forall b, fv = Ok b -> is_num b.
Definition elementwise_conv (c : conv (npv V)) : Prop :=
  forall fv, numeric_fvf fv -> elementwise (@ceval (npv V) (np_arith ediv) fv c).

(** a session that starts: nothing is remembered, the registered conversions work element by element, and the
    formation volume factor and the density are numbers *)
Definition numeric_session (s : st (npv V)) : Prop :=
  (forall e, In e (n_edges (s_net s)) -> Forall elementwise_conv (e_convs e)) /\ s_mem s = []
  /\ (forall v, s_fvf s = Some v -> is_num v) /\ numeric_fvf (s_ask_fvf s)
  /\ (forall v, p_density (s_par s) = Some v -> is_num v) /\ (forall v, s_ask_density s = Ok v -> is_num v).
(** the calls of a session: any conversion of any value; the functions given to set_conversion work element by
    element, and the numbers set are numbers *)
Definition numeric_call (c : call (npv V)) : Prop :=
  match c with
  | KSetConversion _ _ f r => elementwise f /\ match r with Some h => elementwise h | None => True end
  | KSetFvf v => is_num v
  | KSetPar p => forall v, p_density p = Some v -> is_num v
  | _ => True
  end.
End Spec.
