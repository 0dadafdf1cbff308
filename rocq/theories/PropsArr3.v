(** * C79: quantities of arrays with numbers, their powers, their rounding

    (a / 2)[i] is a[i] / 2, and so for the other operators with a number on either
    side, for ** and for the two ways to round: if each element has a result, the
    array has one, element by element.  On single numbers the operators are those
    of Units.v, where the kind comes from the dictionary. *)
From Coq Require Import String QArith Qcanon ZArith Lia.
From Verif Require Import Py StrTools Network Conv Converter EngineSpec Demo NumPy NumPySpec EngineInv NumPyFacts Database Shipped Operations Units ArrQty ArrQtyFacts ArrMul ArrMulFacts ArrNum PropsOps PropsNumPy PropsArr PropsArr2.
Local Open Scope N_scope.

Section C79n.
Context (F : Floats) (V : Type) (A : Arith V) (ediv : V -> V -> V) (cls : str -> list str) (named : str -> res (str * str)).
Notation item := (item cls).
Notation some_array := (some_array V A cls).
Notation hundred_back := (hundred_back V A).

(** specification: [r] is made element by element: as long as [q], its elements what [m] makes of the elements of [q], all
    with its kind and its unit *)
Definition item_wise (m : aqty V -> res (aqty V)) (q r : aqty V) : Prop :=
  alen r = alen q /\ forall i e, item q i = Ok e ->
    (exists n z, place (alen q) i = Some n /\ nth_error (iterated r) n = Some z /\ m e = Ok (AQ (a_kind r) (a_unit r) (Num z)))
    /\ (In (a_unit r) (cls (a_kind r)) -> (a_kind r = u "Percentage" -> hundred_back) -> item r i = m e).

Lemma by_item (m : aqty V -> res (aqty V)) q : some_array q -> elem1 (fun v => m (AQ (a_kind q) (a_unit q) v)) ->
  (forall i e, item q i = Ok e -> exists r, m e = Ok r) -> exists r, m q = Ok r /\ item_wise m q r.
Proof.
  destruct q as [k x v]. intros (Hx & Hk & b & l & Hv & Hl) He Hok. cbn [a_val a_unit a_kind] in *. subst v. destruct l as [|z0 l0]; [now elim Hl|]. set (l := z0 :: l0) in *.
  assert (At : forall i, (i < length l)%nat -> nth_error l i = Some (nth i l z0)) by (intros i Hi; now apply nth_error_nth').
  assert (Pk : forall i, (i < length l)%nat -> pick l i = i) by (intros i Hi; unfold pick; destruct (Nat.eqb_spec (length l) 1); lia).
  destruct (He (length l) (Arr b l) (fun i => nth i l z0)) as (k' & t & v & h & E & Sh & Ah & Hi).
  { unfold l. cbn [length]. lia. }
  { split; [left; reflexivity|]. intros i Hi. rewrite (Pk i Hi). now apply At. }
  { intros i Hi. apply (Hok (Z.of_nat i)). apply item_any; [exact Hx|exact Hk|now apply At]. }
  destruct v as [z|b' l']; [unfold l in Ah; cbn [wd length] in Ah; lia|]. cbn [wd] in Ah. destruct Sh as [_ Sh].
  assert (Ph : forall i, (i < length l)%nat -> nth_error l' i = Some (h i)).
  { intros i Li. specialize (Sh i Li). unfold pick in Sh. destruct (Nat.eqb_spec (length l') 1); [replace i with O in * by lia|]; exact Sh. }
  exists (AQ k' t (Arr b' l')). split; [exact E|]. split; [exact Ah|]. intros i e Hie. unfold alen. cbn [a_val a_kind a_unit iterated].
  rewrite place_any in Hie by assumption. destruct (place (length l) i) as [n|] eqn:Ep; [|discriminate Hie]. destruct (nth_error l n) as [y|] eqn:En; [|discriminate Hie]. injection Hie as <-.
  assert (Ln : (n < length l)%nat) by (apply nth_error_Some; rewrite En; discriminate). rewrite (At n Ln) in En. injection En as <-.
  split; [exists n, (h n); split; [reflexivity|]; split; [now apply Ph|now apply Hi]|]. intros Ht Hp. rewrite place_any by assumption. rewrite Ah, Ep, (Ph n Ln). symmetry. now apply Hi.
Qed.
(** NumPy computes with each element what Python computes *)
Definition same_function (f : fun1 V) : Prop := forall x y, on_number f x = Ok y -> on_element f x = y.
Lemma elem_each (f : fun1 V) (m : npv V -> res (aqty V)) : same_function f -> elem1 m -> elem1 (fun v => rbind (nd_each f v) m).
Proof.
  intros Hf Hm. assert (E : forall v, nd_each f v = nd_bin (Bin (fun x _ => on_number f x) (fun x _ => on_element f x)) v (Num (aconst 0))) by (intros [x|b l]; reflexivity).
  pose proof (elem_by (Bin (fun x _ => on_number f x) (fun x _ => on_element f x)) (aconst 0) m) as P. cbv beta in P.
  intros n v g Hn Sv Hok. rewrite E. destruct (P (fun x y z H => Hf x z H) Hm n v g Hn Sv) as (k & t & v' & h & P1 & P2 & P3 & P4); [intros i Hi; rewrite <- E; now apply Hok|].
  exists k, t, v', h. split; [exact P1|]. split; [exact P2|]. split; [exact P3|]. intros i Hi. rewrite E. now apply P4.
Qed.
Lemma elem_under (o : binop V) (x : V) (m : npv V -> res (aqty V)) : agrees o -> elem1 m -> elem1 (fun v => rbind (nd_bin o (Num x) v) m).
Proof.
  intros Ho Hm n v f Hn Sv Hok. destruct (elem_bin o m Ho Hm n (Num x) v (fun _ => x) f Hn (sees_const n x) Sv Hok) as (k & t & v' & h & E & S' & Ar & Hi).
  exists k, t, v', h. split; [exact E|]. split; [exact S'|]. split; [exact Ar|exact Hi].
Qed.
Lemma elem_err (e : exn) : elem1 (fun _ : npv V => Err e).
Proof. intros n v f Hn _ Hok. destruct (Hok O Hn) as (r & Hr). discriminate Hr. Qed.

(** q + n, q - n, q * n, q // n, q % n, q @ n: for every operator that NumPy computes element by element *)
Theorem C79_with_number : division_agrees ediv -> forall (o : binop V), (forall x y z, on_numbers o x y = Ok z -> on_elements o x y = z) -> forall q n, some_array q ->
  (forall i e, item q i = Ok e -> exists r, awith ediv cls o e n = Ok r) -> exists r, awith ediv cls o q n = Ok r /\ item_wise (fun e => awith ediv cls o e n) q r.
Proof.
  intros Hd o Ho q n Hq. apply (by_item (fun e => awith ediv cls o e n) q Hq). unfold awith. cbn [a_kind a_unit a_val]. apply (elem_by o); [exact Ho|].
  destruct (is_k (a_kind q) "Percentage"); [now apply elem_percent|apply elem_make].
Qed.
(** q / n *)
Theorem C79_over_number : division_agrees ediv -> forall q n, some_array q ->
  (forall i e, item q i = Ok e -> exists r, aover ediv cls named e n = Ok r) -> exists r, aover ediv cls named q n = Ok r /\ item_wise (fun e => aover ediv cls named e n) q r.
Proof.
  intros Hd q n Hq. apply (by_item (fun e => aover ediv cls named e n) q Hq). unfold aover. cbn [a_kind a_unit a_val]. apply (elem_by (b_div ediv)); [now apply agrees_div|].
  destruct (is_k (a_kind q) "Percentage"); [now apply elem_percent|now apply elem_units].
Qed.
(** n / q, n // q *)
Theorem C79_number_over : division_agrees ediv -> forall (o : binop V), (forall x y z, on_numbers o x y = Ok z -> on_elements o x y = z) -> forall q n, some_array q ->
  (forall i e, item q i = Ok e -> exists r, aunder ediv named o n e = Ok r) -> exists r, aunder ediv named o n q = Ok r /\ item_wise (aunder ediv named o n) q r.
Proof.
  intros Hd o Ho q n Hq. apply (by_item (aunder ediv named o n) q Hq). unfold aunder. cbn [a_kind a_unit a_val]. apply (elem_under o); [exact Ho|].
  destruct (is_k (a_kind q) "Percentage"); [|now apply elem_units]. apply (elem_by b_mul); [apply agrees_mul|now apply elem_units].
Qed.
(** q ** p: [f] is the power of one number *)
Theorem C79_power : division_agrees ediv -> forall f p, same_function f -> forall q, some_array q ->
  (forall i e, item q i = Ok e -> exists r, apow ediv cls named f p e = Ok r) -> exists r, apow ediv cls named f p q = Ok r /\ item_wise (apow ediv cls named f p) q r.
Proof.
  intros Hd f p Hf q Hq. apply (by_item (apow ediv cls named f p) q Hq). unfold apow. cbn [a_kind a_unit a_val]. destruct (is_k (a_kind q) "Percentage").
  - apply elem_each; [exact Hf|now apply elem_percent].
  - destruct (unit_base_power (a_unit q)) as [b|e]; cbn [rbind]; [|apply elem_err]. apply elem_each; [exact Hf|now apply elem_units].
Qed.
(** q.round(n) and round(q, n) *)
Theorem C79_round : division_agrees ediv -> forall f, same_function f -> forall q, some_array q ->
  ((forall i e, item q i = Ok e -> exists r, around ediv named f e = Ok r) -> exists r, around ediv named f q = Ok r /\ item_wise (around ediv named f) q r)
  /\ ((forall i e, item q i = Ok e -> exists r, around_ ediv cls f e = Ok r) -> exists r, around_ ediv cls f q = Ok r /\ item_wise (around_ ediv cls f) q r).
Proof.
  intros Hd f Hf q Hq. split; [apply (by_item (around ediv named f) q Hq)|apply (by_item (around_ ediv cls f) q Hq)]; unfold around, around_; cbn [a_kind a_unit a_val];
    (apply elem_each; [exact Hf|]); [now apply elem_units|now apply elem_makep].
Qed.
End C79n.
Print Assumptions C79_with_number.
Print Assumptions C79_over_number.
Print Assumptions C79_number_over.
Print Assumptions C79_power.
Print Assumptions C79_round.

(** ** On single numbers they are the operations of Units.v *)
Section Single.
Context {F : Floats} {P : Pow} {E : Eval} (ediv : Qc -> Qc -> Qc).
Notation units_in w := (fun k => class_units k w).
(** the kind and the unit that units() gives at a moment *)
Definition named_in (w : world) (x : str) : res (str * str) :=
  match fst (units_of 0%Qc x w) with Ok (PQ q) => Ok (q_kind q, q_unit q) | Ok _ => Err TypeError | Err e => Err e end.

Lemma hundred : forall v, qdiv v (Q2Qc 100) = Ok (v / Q2Qc 100)%Qc.
Proof. intros v. unfold qdiv. destruct (Qc_eq_dec (Q2Qc 100) 0) as [Z|_]; [discriminate Z|reflexivity]. Qed.
Definition inner (v : Qc) (y : str) (w : world) : W qty :=
  if smem y (uncertain w) then construct (u "Unit") (Some v) y else match first_kind y w with Some k => units_kind k y v false | None => construct (u "UserUnits") (Some v) y end.
Lemma units_inner v x w : fst (units_of v x w) = match fst (inner v (strip x) w w) with Ok q => Ok (PQ q) | Err e => Err e end.
Proof.
  change (units_of v x w) with (wbind (fun w => inner v (strip x) w w) (fun q => wret (PQ q)) w). unfold wbind, wret. destruct (inner v (strip x) w w) as [[q|e] w']; reflexivity.
Qed.
(** the number plays no part in which kind and unit are found *)
Lemma inner_same v y w : fst (inner v y w w) = match fst (inner 0%Qc y w w) with
  | Ok q => Ok (Qty (q_kind q) (q_unit q) (if is_k (q_kind q) "Percentage" then v / Q2Qc 100 else v)%Qc) | Err e => Err e end.
Proof.
  unfold inner. destruct (smem y (uncertain w)).
  - unfold construct. change (is_k (u "Unit") "Unit") with true. cbv iota. destruct (smem (strip y) (w_all w)); reflexivity.
  - destruct (first_kind y w) as [k|]; [|reflexivity]. unfold units_kind, wbind, wret.
    destruct (match literal y with Some y' => construct k (Some 0%Qc) y' | None => odd_eval k y end w) as [[q|e] w']; reflexivity.
Qed.
(** units() gives every number the same kind and unit *)
Lemma units_same v x w : same_outcome (fst (units_of v x w)) (aunits ediv (named_in w) (Num v) x).
Proof.
  unfold aunits, named_in. rewrite !units_inner, (inner_same v). destruct (fst (inner 0%Qc (strip x) w w)) as [q|e]; [|reflexivity]. cbn [rbind fst snd same_outcome].
  destruct (is_k (q_kind q) "Percentage"); [|reflexivity].
  change (nd_bin (b_div ediv) (Num v) (Num (aconst 100))) with (rbind (qdiv v (Q2Qc 100)) (fun c => Ok (Num c))). rewrite hundred. reflexivity.
Qed.
(** [f] is the function of Units.v *)
Definition is_function (f : fun1 Qc) (g : Qc -> res Qc) : Prop := forall x, on_number f x = g x.

(** q + n, q - n, q * n *)
Theorem C79_single_with : forall minus fuel a n w, checked_kind (q_kind a) ->
  same_outcome (fst (sum minus a (PN n) w)) (awith ediv (units_in w) (b_op (plus minus)) (as_array a) n)
  /\ same_outcome (fst (mul (S fuel) a (PN n) w)) (awith ediv (units_in w) b_mul (as_array a) n).
Proof.
  intros minus fuel [k x v] n w Hk. cbn [q_kind] in Hk. unfold sum, mul, awith, as_array. cbn [a_kind a_unit a_val q_kind q_unit q_val].
  cbn [nd_bin b_op b_mul on_numbers rbind]. pose proof (make_same ediv k) as M. pose proof (percent_same ediv k) as Pc. unfold amakep in M.
  destruct (is_k k "Percentage") eqn:Ep; (split; [|]); [exact (Pc _ x w Hk)|exact (Pc _ x w Hk)|exact (M _ x w Hk)|exact (M _ x w Hk)].
Qed.
(** q / n, q // n, q % n, q @ n *)
Theorem C79_single_over : forall fuel a n w, checked_kind (q_kind a) ->
  same_outcome (fst (truediv (S fuel) a (PN n) w)) (aover ediv (units_in w) (named_in w) (as_array a) n)
  /\ (forall e, same_outcome (fst (floordiv (S fuel) a (PN n) w)) (awith ediv (units_in w) (Bin qfloordiv e) (as_array a) n))
  /\ (forall e, same_outcome (fst (modulo (S fuel) a (PN n) w)) (awith ediv (units_in w) (Bin qmod e) (as_array a) n))
  /\ same_outcome (fst (matmul fuel a (PN n) w)) (awith ediv (units_in w) (b_div ediv) (as_array a) n).
Proof.
  intros fuel [k x v] n w Hk. cbn [q_kind] in Hk. pose proof (make_same ediv k) as M. pose proof (percent_same ediv k) as Pc. unfold amakep in M.
  assert (G : forall o, match on_numbers o v n with
    | Ok q => same_outcome (fst ((if is_k k "Percentage" then make k (q * Q2Qc 100)%Qc x else make k q x) w)) (awith ediv (units_in w) o (as_array (Qty k x v)) n)
    | Err e => awith ediv (units_in w) o (as_array (Qty k x v)) n = Err e end).
  { intros o. unfold awith, as_array. cbn [a_kind a_unit a_val q_kind q_unit q_val nd_bin]. destruct (on_numbers o v n) as [q|e]; cbn [rbind]; [|reflexivity].
    destruct (is_k k "Percentage"); [exact (Pc _ x w Hk)|exact (M _ x w Hk)]. }
  assert (G' : forall o (m : Qc -> Qc -> res Qc), on_numbers o = m ->
    same_outcome (fst (wbind (wlift (m v n)) (fun q => if is_k k "Percentage" then make k (q * Q2Qc 100)%Qc x else make k q x) w)) (awith ediv (units_in w) o (as_array (Qty k x v)) n)).
  { intros o m <-. specialize (G o). unfold wbind, wlift. destruct (on_numbers o v n) as [q|e]; exact G. }
  split; [|split; [intros e; exact (G' (Bin qfloordiv e) _ eq_refl)|split; [intros e; exact (G' (Bin qmod e) _ eq_refl)|exact (G' (b_div ediv) _ eq_refl)]]].
  unfold truediv, aover, as_array, wbind, wlift. cbn [a_kind a_unit a_val q_kind q_unit q_val]. change (nd_bin (b_div ediv) (Num v) (Num n)) with (rbind (qdiv v n) (fun c => Ok (Num c))).
  destruct (qdiv v n) as [q|e]; cbn [rbind]; [|reflexivity]. destruct (is_k k "Percentage"); [exact (Pc _ x w Hk)|apply units_same].
Qed.
(** n / q, n // q *)
Theorem C79_single_under : forall dv e a n w, same_outcome (fst (rdiv dv a n w)) (aunder ediv (named_in w) (Bin dv e) n (as_array a)).
Proof.
  intros dv e [k x v] n w. unfold rdiv, aunder, as_array, wbind, wlift. cbn [a_kind a_unit a_val q_kind q_unit q_val nd_bin on_numbers]. destruct (dv n v) as [q|x0]; cbn [rbind]; [|reflexivity].
  destruct (is_k k "Percentage"); [apply units_same|]. destruct (is_k k "Dimensionless"); apply units_same.
Qed.
(** q ** p *)
Theorem C79_single_power : forall f p a w, checked_kind (q_kind a) -> is_function f (fun x => pow_num x p) -> same_outcome (fst (pow a p w)) (apow ediv (units_in w) (named_in w) f p (as_array a)).
Proof.
  intros f p [k x v] w Hk Hf. cbn [q_kind] in Hk. unfold pow, apow, as_array, wbind, wlift, base_of. cbn [a_kind a_unit a_val q_kind q_unit q_val nd_each]. rewrite (Hf v).
  destruct (is_k k "Percentage").
  - destruct (pow_num v p) as [y|e]; cbn [rbind]; [exact (percent_same ediv k _ x w Hk)|reflexivity].
  - unfold wlift. destruct (unit_base_power x) as [b|e]; cbn [rbind]; [|reflexivity]. destruct (pow_num v p) as [y|e]; cbn [rbind]; [|reflexivity]. apply units_same.
Qed.
(** q.round(n) and round(q, n) *)
Theorem C79_single_round : forall f n a w, checked_kind (q_kind a) ->
  (is_function f (fun x => Ok (round_value x n)) -> same_outcome (fst (round_method a (Some n) w)) (around ediv (named_in w) f (as_array a)))
  /\ (is_function f (fun x => Ok (round_to x n)) -> same_outcome (fst (round_ a (Some n) w)) (around_ ediv (units_in w) f (as_array a))).
Proof.
  intros f n [k x v] w Hk. cbn [q_kind] in Hk. unfold round_method, round_, around, around_, as_array. cbn [a_kind a_unit a_val q_kind q_unit q_val nd_each].
  split; intros Hf; rewrite (Hf v); cbn [rbind]; [apply units_same|exact (make_same ediv k _ x w Hk)].
Qed.
End Single.
Print Assumptions C79_single_with.
Print Assumptions C79_single_over.
Print Assumptions C79_single_under.
Print Assumptions C79_single_power.
Print Assumptions C79_single_round.

(** ** Examples: with Length([2, 3], 'km') *)
Definition demo_known (x : str) : res (str * str) :=
  if smem x [u "m2"; u "km2"] then Ok (u "Area", x) else if smem x [u "m"; u "km"] then Ok (u "Length", x) else Ok (u "UserUnits", x).
Definition demo_square : fun1 Qc := Fun1 (fun x => Ok (x * x)%Qc) (fun x => (x * x)%Qc).
Definition demo_round : fun1 Qc := Fun1 (fun x => Ok (round_to x 0)) (fun x => round_to x 0).
Definition demo_halves : aqty Qc := AQ (u "Length") (u "km") (Arr Ndarray [Q2Qc (5 # 2); Q2Qc (13 # 5)]).
Example C79_numbers_example :
  awith qediv demo_cls (b_op Qcplus) demo_km (Q2Qc 10) = Ok (AQ (u "Length") (u "km") (Arr Ndarray [Q2Qc 12; Q2Qc 13]))
  /\ aover qediv demo_cls demo_known demo_km (Q2Qc 2) = Ok (AQ (u "Length") (u "km") (Arr Ndarray [Q2Qc 1; Q2Qc (3 # 2)]))
  /\ aunder qediv demo_known (b_div qediv) (Q2Qc 6) demo_km = Ok (AQ (u "UserUnits") (u "km-1") (Arr Ndarray [Q2Qc 3; Q2Qc 2]))
  /\ apow qediv demo_cls demo_known demo_square (PI 2 : pnum tenths) demo_km = Ok (AQ (u "Area") (u "km2") (Arr Ndarray [Q2Qc 4; Q2Qc 9]))
  /\ around qediv demo_known demo_round demo_halves = Ok (AQ (u "Length") (u "km") (Arr Ndarray [Q2Qc 2; Q2Qc 3])).
Proof. repeat split; apply same_q_eq; vm_compute; reflexivity. Qed.
Example C79_numbers_hypotheses : some_array Qc _ demo_cls demo_km /\ same_function Qc demo_square /\ same_function Qc demo_round.
Proof. split; [exact (array_some _ (proj1 demo_quantity))|]. split; intros x y E; injection E as <-; reflexivity. Qed.
