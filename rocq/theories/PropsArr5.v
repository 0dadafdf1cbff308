(** * C79, C73: products and quotients of quantities of arrays, with the laws between the kinds

    (a * b)[i] is a[i] * b[i] and (a / b)[i] is a[i] / b[i] for any two kinds: those whose product is converted
    (a voltage times a current, to Watt) included. *)
From Coq Require Import String QArith Qcanon ZArith Lia.
From Verif Require Import Py StrTools Network Conv Converter EngineSpec Demo NumPy NumPySpec EngineInv NumPyFacts Database Shipped Operations Units UnitsSpec UnitsSpec3 PropsUnits5 ArrQty ArrQtyFacts ArrMul ArrMulFacts ArrNum ArrLaw ArrLawFacts
  PropsOps PropsNumPy PropsArr PropsArr2 PropsArr3.
Local Open Scope N_scope.

Section C79d.
Context (F : Floats) (V : Type) (A : Arith V) (ediv : V -> V -> V) (cls : str -> list str) (named : str -> res (str * str)) (pw : V -> pnum F -> res V).
Local Instance npD : Arith (npv V) := np_arith ediv.
Notation calls := (@do_calls (npv V) (np_arith ediv)).
Notation times := (atimes ediv cls named pw).
Notation divided := (adivided ediv cls named pw).
Notation plain_product := (amul_qty ediv cls named pw).
Notation plain_quotient := (adiv_qty ediv cls named pw (b_div ediv) true).
Notation number_quantity := (number_quantity V cls).
Notation of_length := (of_length V A cls).
Notation stands_at := (stands_at V A cls).
Notation one_of_length := (one_of_length V A cls).
Notation element_wise := (element_wise V A cls).

Theorem C79_times : division_agrees ediv -> forall s cs n a b, numeric_session ediv s -> Forall numeric_call cs -> of_length n a -> of_length n b -> one_of_length n a b ->
  (forall i ea eb, (i < n)%nat -> stands_at a i ea -> stands_at b i eb -> exists r, fst (times ea eb (calls cs s)) = Ok r) ->
  exists r, fst (times a b (calls cs s)) = Ok r /\ element_wise n (fun ea eb => fst (times ea eb (calls cs s))) a b r.
Proof.
  intros Hd s cs n a b Hs Hc Ha Hb Hab Hok. pose proof (session_inv ediv Hd s cs Hs Hc) as Is.
  exact (by_element V A cls n (fun ea eb => fst (times ea eb (calls cs s))) a b (some_pos V A cls n a b Hab) Ha Hb Hab (times_elem ediv cls named pw Hd (a_kind a) (a_unit a) (a_kind b) (a_unit b) (calls cs s) Is) Hok).
Qed.
Theorem C79_divided : division_agrees ediv -> forall s cs n a b, numeric_session ediv s -> Forall numeric_call cs -> of_length n a -> of_length n b -> one_of_length n a b ->
  (forall i ea eb, (i < n)%nat -> stands_at a i ea -> stands_at b i eb -> exists r, fst (divided ea eb (calls cs s)) = Ok r) ->
  exists r, fst (divided a b (calls cs s)) = Ok r /\ element_wise n (fun ea eb => fst (divided ea eb (calls cs s))) a b r.
Proof.
  intros Hd s cs n a b Hs Hc Ha Hb Hab Hok. pose proof (session_inv ediv Hd s cs Hs Hc) as Is.
  exact (by_element V A cls n (fun ea eb => fst (divided ea eb (calls cs s))) a b (some_pos V A cls n a b Hab) Ha Hb Hab (divided_elem ediv cls named pw Hd (a_kind a) (a_unit a) (a_kind b) (a_unit b) (calls cs s) Is) Hok).
Qed.

(** specification: [r] is [p] in the unit [t], its numbers converted; or [p] is in a user's unit that cannot be converted to [t], and [r] is [p] *)
Definition in_unit (s : st (npv V)) (p : aqty V) (t : str) (r : aqty V) : Prop :=
  let '(c, s2) := convertible (a_unit p) t None s in
  c = Ok true /\ a_unit r = t /\ a_kind r = a_kind p /\ fst (Converter.convert (vin_of (a_val p)) (UStr (a_unit p)) (UStr t) None s2) = Ok (Some (CVal (a_val r)))
  \/ c = Ok false /\ a_kind p = u "UserUnits" /\ r = p.
(** specification: a quantity that .to() converts by the network *)
Definition with_units (p : aqty V) : Prop := a_kind p <> u "Dimensionless" /\ a_kind p <> u "Percentage" /\ a_kind p <> u "Unit".
Lemma to_law x p s r s' : with_units p -> ato_any ediv cls named x p s = (Ok r, s') -> in_unit s p x r.
Proof.
  destruct p as [k t v]. intros (N1 & N2 & N3) E. apply seqb_neq in N1, N2, N3. unfold ato_any, kindless_, is_k, in_unit in *. cbn [a_kind a_unit a_val] in *. rewrite N1, N2, N3 in E. cbn [orb] in E. unfold bind, law_arith, npD in *.
  destruct (convertible t x None s) as [[c|e] s1]; [|discriminate E]. destruct c.
  - left. split; [reflexivity|]. unfold aconv, bind in E. destruct (Converter.convert (vin_of v) (UStr t) (UStr x) None s1) as [[[[w|h]|]|e] s2]; cbn [ret raise] in E; try discriminate E.
    unfold lift, amake in E. cbn [fst]. destruct (seqb k (u "UserUnits")); [|destruct (smem x (cls k)); [|discriminate E]]; injection E as <- _; repeat split; reflexivity.
  - right. split; [reflexivity|]. destruct (seqb k (u "UserUnits")) eqn:Eu; [|discriminate E]. apply seqb_eq in Eu. injection E as <- _. split; [exact Eu|reflexivity].
Qed.
Lemma then_law (m : M (npv V) (aqty V)) t s r : fst (athen ediv cls named m (Some t) s) = Ok r -> exists p s', m s = (Ok p, s') /\ (with_units p -> in_unit s' p t r).
Proof.
  unfold athen, bind, law_arith. destruct (m s) as [[p|e] s1]; intros E; [|discriminate E]. exists p, s1. split; [reflexivity|]. intros W. destruct (ato_any ediv cls named t p s1) as [r' s2] eqn:E2. cbn [fst] in E. subst r'. exact (to_law t p s1 r s2 W E2).
Qed.
(** when there is a law, the product is the plain one in the unit of the law; without a law it is the plain one *)
Theorem C79_law_product : forall k k' t a b s r, law product_laws k k' t -> a_kind a = k -> a_kind b = k' -> fst (times a b s) = Ok r ->
  exists p s', plain_product a b s = (Ok p, s') /\ (with_units p -> in_unit s' p t r).
Proof. intros k k' t a b s r L Ka Kb E. unfold atimes in E. rewrite Ka, Kb, (proj2 (product_law k k' t) L) in E. exact (then_law _ t s r E). Qed.
Theorem C79_law_quotient : forall k k' t a b s r, law quotient_laws k k' t -> a_kind a = k -> a_kind b = k' -> fst (divided a b s) = Ok r ->
  exists p s', plain_quotient a b s = (Ok p, s') /\ (with_units p -> in_unit s' p t r).
Proof. intros k k' t a b s r L Ka Kb E. unfold adivided in E. rewrite Ka, Kb, (proj2 (quotient_law k k' t) L) in E. exact (then_law _ t s r E). Qed.
Theorem C79_no_law : forall a b, (no_law product_laws (a_kind a) (a_kind b) -> times a b = plain_product a b) /\ (no_law quotient_laws (a_kind a) (a_kind b) -> divided a b = plain_quotient a b).
Proof. intros a b. split; intros N; unfold atimes, adivided; [rewrite (no_product _ _ N)|rewrite (no_quotient _ _ N)]; reflexivity. Qed.
End C79d.
Print Assumptions C79_times.
Print Assumptions C79_divided.
Print Assumptions C79_law_product.
Print Assumptions C79_law_quotient.
Print Assumptions C79_no_law.

(** ** Example: Energy([2, 6], 'm') / Time([1, 2], 's') where 'm/s' is the Power 'km', and a Watt half a 'km' *)
Definition law_cls (k : str) : list str := map u ["m"; "s"; "km"; "Watt"]%string.
Definition law_named (x : str) : res (str * str) := if seqb x (u "m/s") then Ok (u "Power", u "km") else Ok (u "UserUnits", x).
Definition law_double (v : npv Qc) : res (npv Qc) := Ok (broadcast Qcmult v (Num (Q2Qc 2))).
Definition law_calls : list (call (npv Qc)) := [KSetConversion (u "km") (u "Watt") law_double None].
Definition law_s : st (npv Qc) := @do_calls (npv Qc) (np_arith qediv) law_calls demo_arr.
Definition law_e : aqty Qc := AQ (u "Energy") (u "m") (Arr Ndarray [Q2Qc 2; Q2Qc 6]).
Definition law_t : aqty Qc := AQ (u "Time") (u "s") (Arr Ndarray [Q2Qc 1; Q2Qc 2]).
Lemma law_calls_ok : Forall numeric_call law_calls.
Proof.
  constructor; [|constructor]. split; [|exact I]. unfold law_double. constructor.
  - intros x w E. injection E as <-. eexists. reflexivity.
  - intros k l w E. injection E as <-. exists (map (fun a => (a * Q2Qc 2)%Qc) l). split; [reflexivity|]. induction l as [|x l IH]; cbn [map]; constructor; [|exact IH].
    intros z E. injection E as <-. reflexivity.
  - intros k l _ _. eexists. reflexivity.
Qed.
Lemma law_lengths : of_length Qc _ law_cls 2 law_e /\ of_length Qc _ law_cls 2 law_t /\ one_of_length Qc _ law_cls 2 law_e law_t.
Proof.
  assert (He : some_array Qc _ law_cls law_e) by (split; [vm_compute; tauto|split; [discriminate|eexists; eexists; split; [reflexivity|discriminate]]]).
  assert (Ht : some_array Qc _ law_cls law_t) by (split; [vm_compute; tauto|split; [discriminate|eexists; eexists; split; [reflexivity|discriminate]]]).
  split; [left; split; [exact He|left; reflexivity]|]. split; [left; split; [exact Ht|left; reflexivity]|]. left. split; [exact He|reflexivity].
Qed.
Example C79_law_example :
  law quotient_laws (a_kind law_e) (a_kind law_t) (u "Watt")
  /\ fst (adivided qediv law_cls law_named demo_pw law_e law_t law_s) = Ok (AQ (u "Power") (u "Watt") (Arr Ndarray [Q2Qc 4; Q2Qc 6]))
  /\ fst (atimes qediv law_cls law_named demo_pw law_t law_e law_s) = Ok (AQ (u "UserUnits") (u "s*m") (Arr Ndarray [Q2Qc 2; Q2Qc 12])).
Proof.
  split; [exists "Energy"%string, "Time"%string, "Watt"%string; split; [vm_compute; tauto|repeat split]|]. split; apply same_q_eq; vm_compute; reflexivity.
Qed.
