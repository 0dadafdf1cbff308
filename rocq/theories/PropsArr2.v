(** * C79: sums, products, quotients and remainders of quantities of arrays

    (a * b)[i] is a[i] * b[i], and so for +, -, /, // and %, for any two kinds,
    unitless ones and percentages included: where every pair of elements has a
    product, the arrays have one, element by element, with the kind and the unit
    that each pair gives.  A number, or an array of a single element, stands for
    all the places. *)
From Coq Require Import String QArith Qcanon ZArith Lia.
From Verif Require Import Py StrTools Network Conv Converter EngineSpec Demo NumPy NumPySpec EngineInv NumPyFacts Database Shipped Operations Units ArrQty ArrQtyFacts ArrMul ArrMulFacts ArrNum PropsOps PropsNumPy PropsArr.
Local Open Scope N_scope.

Section C79b.
Context (F : Floats) (V : Type) (A : Arith V) (ediv : V -> V -> V) (cls : str -> list str) (named : str -> res (str * str)) (pw : V -> pnum F -> res V).
Notation calls := (@do_calls (npv V) (np_arith ediv)).
Notation item := (item cls).
Notation product := (amul_qty ediv cls named pw).
Notation quotient := (adiv_qty ediv cls named pw).
Notation number_quantity := (number_quantity V cls).

(** specification: times 100 and over 100 is nothing, as in exact arithmetic (asked of percentages only) *)
Definition hundred_back : Prop := forall x : V, adiv (amul x (aconst 100)) (aconst 100) = Ok x.
(** specification: a quantity that the constructors make, whose value is an array that is not empty *)
Definition some_array (q : aqty V) : Prop := In (a_unit q) (cls (a_kind q)) /\ (a_kind q = u "Percentage" -> hundred_back) /\ exists b l, a_val q = Arr b l /\ l <> [].
(** specification: an array of n elements, or of one, or a number *)
Definition of_length (n : nat) (q : aqty V) : Prop := some_array q /\ (alen q = n \/ alen q = 1%nat) \/ number_quantity q.
(** specification: [e] stands at the place [i] of [q]: its item (the only one of an array of one element), or the number itself *)
Definition stands_at (q : aqty V) (i : nat) (e : aqty V) : Prop :=
  some_array q /\ item q (if Nat.eqb (alen q) 1 then 0%Z else Z.of_nat i) = Ok e \/ number_quantity q /\ e = q.
(** specification: [r] is made element by element: as long as the arrays, its i-th element what [m] makes of the i-th
    elements, all with its kind and its unit *)
Definition element_wise (n : nat) (m : aqty V -> aqty V -> res (aqty V)) (a b r : aqty V) : Prop :=
  alen r = n /\ forall i ea eb, stands_at a i ea -> stands_at b i eb -> (i < n)%nat ->
    (exists z, nth_error (iterated r) i = Some z /\ m ea eb = Ok (AQ (a_kind r) (a_unit r) (Num z)))
    /\ (In (a_unit r) (cls (a_kind r)) -> (a_kind r = u "Percentage" -> hundred_back) -> item r (Z.of_nat i) = m ea eb).
(** specification: at least one of the two has n elements *)
Definition one_of_length (n : nat) (a b : aqty V) : Prop := some_array a /\ alen a = n \/ some_array b /\ alen b = n.

Lemma quantity_kinds q : some_array q -> number_quantity q -> False.
Proof. intros (_ & _ & b & l & E & _) (_ & x & E'). rewrite E in E'. discriminate E'. Qed.
Lemma item_any k x b l i y : In x (cls k) -> (k = u "Percentage" -> hundred_back) -> nth_error l i = Some y -> item (AQ k x (Arr b l)) (Z.of_nat i) = Ok (AQ k x (Num y)).
Proof.
  intros Hx Hk E0. apply smem_In in Hx. assert (L : (i < length l)%nat) by (apply nth_error_Some; rewrite E0; discriminate). unfold ArrQty.item, alen, nd_item, is_k. cbn [a_val a_kind a_unit].
  destruct (Z.leb_spec (Z.of_nat (length l)) (Z.of_nat i)); [lia|]. cbv zeta. destruct (Z.ltb_spec (Z.of_nat i) 0); [lia|]. destruct (Z.ltb_spec (Z.of_nat i) 0); [lia|]. rewrite Nat2Z.id, E0. cbn [rbind].
  destruct (seqb k (u "Percentage")) eqn:Ek; [apply seqb_eq in Ek; rewrite (Hk Ek)|]; cbn [rbind]; unfold amake; now rewrite Hx.
Qed.
Lemma stands_sees n q : (0 < n)%nat -> of_length n q -> exists f, sees n (a_val q) f /\ (some_array q -> alen q = wd (a_val q)) /\ (wd (a_val q) = n \/ wd (a_val q) <= 1)%nat
  /\ forall i e, (i < n)%nat -> stands_at q i e <-> e = AQ (a_kind q) (a_unit q) (Num (f i)).
Proof.
  destruct q as [k x v]. intros Hn [[Hq L]|Hq].
  - pose proof Hq as (Ix & Hk & b & l & Hv & Hl). cbn [a_val a_unit a_kind] in *. subst v. unfold alen in *. cbn [a_val wd] in *. destruct l as [|z0 l0]; [now elim Hl|]. set (l := z0 :: l0) in *.
    assert (At : forall i, (i < n)%nat -> nth_error l (pick l i) = Some (nth (pick l i) l z0)).
    { intros i Hi. apply nth_error_nth'. unfold pick. destruct (Nat.eqb_spec (length l) 1); lia. }
    exists (fun i => nth (pick l i) l z0). split; [split; [lia|exact At]|]. split; [reflexivity|]. split; [lia|].
    intros i e Hi. specialize (At i Hi). assert (E1 : item (AQ k x (Arr b l)) (if Nat.eqb (length l) 1 then 0%Z else Z.of_nat i) = Ok (AQ k x (Num (nth (pick l i) l z0)))).
    { replace (if Nat.eqb (length l) 1 then 0%Z else Z.of_nat i) with (Z.of_nat (pick l i)) by (unfold pick; now destruct (Nat.eqb (length l) 1)). now apply item_any. }
    unfold stands_at, alen. cbn [a_val].
    split; [intros [[_ E]|[H _]]|intros ->].
    * rewrite E1 in E. injection E as <-. reflexivity.
    * destruct (quantity_kinds _ Hq H).
    * left. split; [exact Hq|exact E1].
  - pose proof Hq as (Ix & z & Hv). cbn [a_val a_unit a_kind] in *. subst v. exists (fun _ => z). split; [apply sees_const|]. split; [intros X; destruct (quantity_kinds _ X Hq)|]. split; [cbn [wd]; lia|].
    intros i e Hi. split; [intros [[H _]|[_ E]]; [destruct (quantity_kinds _ H Hq)|exact E]|intros ->; right; split; [exact Hq|reflexivity]].
Qed.
Lemma by_element n (m : aqty V -> aqty V -> res (aqty V)) a b : (0 < n)%nat -> of_length n a -> of_length n b -> one_of_length n a b ->
  elem2 (fun va vb => m (AQ (a_kind a) (a_unit a) va) (AQ (a_kind b) (a_unit b) vb)) ->
  (forall i ea eb, (i < n)%nat -> stands_at a i ea -> stands_at b i eb -> exists r, m ea eb = Ok r) ->
  exists r, m a b = Ok r /\ element_wise n m a b r.
Proof.
  intros Hn Ha Hb Hab He Hok. destruct (stands_sees n a Hn Ha) as (f & Sf & Af & Wf & Rf), (stands_sees n b Hn Hb) as (g & Sg & Ag & Wg & Rg).
  destruct (He n (a_val a) (a_val b) f g Hn Sf Sg) as (k & t & v & h & E & Sh & Ah & Hi).
  { intros i Li. apply (Hok i); [exact Li|now apply Rf|now apply Rg]. }
  assert (Wn : wd v = n) by (rewrite Ah; destruct Hab as [[H L]|[H L]]; [rewrite (Af H) in L|rewrite (Ag H) in L]; lia).
  destruct v as [z|bb l]; [cbn [wd] in Wn; lia|]. cbn [wd] in Wn. destruct Sh as [_ P].
  assert (Pn : forall i, (i < n)%nat -> nth_error l i = Some (h i)).
  { intros i Li. specialize (P i Li). unfold pick in P. destruct (Nat.eqb_spec (length l) 1); [replace i with O by lia; replace i with O in P by lia|]; exact P. }
  exists (AQ k t (Arr bb l)). split; [destruct a, b; exact E|]. split; [exact Wn|]. intros i ea eb Ea Eb Li. apply (Rf i ea Li) in Ea. apply (Rg i eb Li) in Eb. subst ea eb. cbn [a_kind a_unit iterated a_val].
  split; [exists (h i); split; [exact (Pn i Li)|exact (Hi i Li)]|]. intros Ht Hk. rewrite (item_any k t bb l i (h i) Ht Hk (Pn i Li)). symmetry. exact (Hi i Li).
Qed.
Lemma some_pos n a b : one_of_length n a b -> (0 < n)%nat.
Proof. intros [[(_ & _ & c & l & E & Hl) L]|[(_ & _ & c & l & E & Hl) L]]; unfold alen in L; rewrite E in L; destruct l; [contradiction|cbn [length] in L; lia|contradiction|cbn [length] in L; lia]. Qed.

(** ** Sums and differences *)
Theorem C79_total : division_agrees ediv -> forall op s cs n a b, numeric_session ediv s -> Forall numeric_call cs -> of_length n a -> of_length n b -> one_of_length n a b ->
  (forall i ea eb, (i < n)%nat -> stands_at a i ea -> stands_at b i eb -> exists r, fst (aplus ediv cls op ea eb (calls cs s)) = Ok r) ->
  exists r, fst (aplus ediv cls op a b (calls cs s)) = Ok r /\ element_wise n (fun ea eb => fst (aplus ediv cls op ea eb (calls cs s))) a b r.
Proof.
  intros Hd op s cs n a b Hs Hc Ha Hb Hab Hok. pose proof (session_inv ediv Hd s cs Hs Hc) as Is.
  exact (by_element n (fun ea eb => fst (aplus ediv cls op ea eb (calls cs s))) a b (some_pos n a b Hab) Ha Hb Hab (sum_elem ediv cls Hd op (a_kind a) (a_unit a) (a_kind b) (a_unit b) (calls cs s) Is) Hok).
Qed.
(** of one kind that is no percentage, they are the sums of ArrQty.v *)
Theorem C79_total_sum : forall op a b s, a_kind a = a_kind b -> a_kind a <> u "Percentage" -> fst (aplus ediv cls op a b s) = fst (asum ediv cls op a b s).
Proof.
  intros op a b s Ek Nk. apply seqb_neq in Nk. unfold aplus, asum, amakep, is_k. rewrite <- Ek, seqb_refl, Nk.
  assert (B : forall x y : npv V, nd_bin (b_op op) x y = nd_op op x y) by (intros [x|c l] [y|c' l']; reflexivity).
  destruct (seqb (a_unit a) (a_unit b)); [now rewrite B|]. unfold bind. destruct (convertible (a_unit b) (a_unit a) None s) as [[c1|e] s1]; [|reflexivity]. destruct c1.
  - destruct (aconv ediv TypeError (a_val b) (a_unit b) (a_unit a) s1) as [[v|e] s2]; [|reflexivity]. unfold lift. cbn [fst]. now rewrite B.
  - destruct (convertible (a_unit a) (a_unit b) None s1) as [[c2|e] s2]; [|reflexivity]. destruct c2; [|reflexivity].
    destruct (aconv ediv TypeError (a_val a) (a_unit a) (a_unit b) s2) as [[v|e] s3]; [|reflexivity]. unfold lift. cbn [fst]. now rewrite B.
Qed.
(** ** With a number, negated, without its sign: percentages too *)
Lemma place_any k x b l i : In x (cls k) -> (k = u "Percentage" -> hundred_back) ->
  item (AQ k x (Arr b l)) i = match place (length l) i with Some n => match nth_error l n with Some v => Ok (AQ k x (Num v)) | None => Err IndexError end | None => Err IndexError end.
Proof.
  intros Hx Hk. apply smem_In in Hx. unfold ArrQty.item, place, alen, nd_item, is_k. cbn [a_val a_kind a_unit].
  destruct (Z.of_nat (length l) <=? i)%Z; [reflexivity|]. cbv zeta. destruct (_ <? 0)%Z; [reflexivity|].
  destruct (nth_error l _) as [y|]; [|reflexivity]. cbn [rbind]. destruct (seqb k (u "Percentage")) eqn:Ek; [apply seqb_eq in Ek; rewrite (Hk Ek)|]; cbn [rbind]; unfold amake; now rewrite Hx.
Qed.
(** what a percentage makes of a value given times a hundred *)
Lemma percent_back : division_agrees ediv -> hundred_back -> forall x v, In x (cls (u "Percentage")) -> apercent ediv cls v (u "Percentage") x = Ok (AQ (u "Percentage") x v).
Proof.
  intros Hd Hh x v Hx. apply smem_In in Hx. unfold apercent, amakep. change (is_k (u "Percentage") "Percentage") with true. cbv iota. destruct v as [y|b l].
  - unfold nd_bin at 1. cbn [on_numbers b_mul rbind]. unfold nd_bin, b_div. cbn [on_numbers]. rewrite Hh. cbn [rbind]. unfold amake. now rewrite Hx.
  - unfold nd_bin, nd_op. cbn [rbind]. unfold broadcast, b_mul, b_div. cbn [on_elements rbind]. unfold amake. rewrite Hx, map_map.
    rewrite (map_ext _ (fun z => z)); [now rewrite map_id|]. intros z. exact (Hd _ _ _ (Hh z)).
Qed.
(** each element changed by [op] *)
Definition each_changed (op : V -> V) (q r : aqty V) : Prop :=
  alen r = alen q /\ forall i y, item q i = Ok (AQ (a_kind q) (a_unit q) (Num y)) -> item r i = Ok (AQ (a_kind q) (a_unit q) (Num (op y))).
Lemma each_ok : forall op k x b l, In x (cls k) -> (k = u "Percentage" -> hundred_back) -> each_changed op (AQ k x (Arr b l)) (AQ k x (Arr b (map op l))).
Proof.
  intros op k x b l Hx Hk. split; [unfold alen; cbn [a_val]; apply map_length|]. intros i y. cbn [a_kind a_unit]. rewrite !place_any by assumption. rewrite map_length.
  destruct (place (length l) i) as [n|]; [|discriminate]. rewrite nth_error_map. destruct (nth_error l n) as [v|]; [|discriminate]. intros E. injection E as ->. reflexivity.
Qed.
Theorem C79_scaled : division_agrees ediv -> forall op q n, some_array q -> exists r, awith ediv cls (b_op op) q n = Ok r /\ each_changed (fun y => op y n) q r.
Proof.
  intros Hd op [k x v] n (Hx & Hk & b & l & Hv & Hl). cbn [a_val a_unit a_kind] in *. subst v. exists (AQ k x (Arr b (map (fun y => op y n) l))). split; [|now apply each_ok].
  unfold awith, nd_bin, nd_op, broadcast. cbn [a_val a_kind a_unit rbind b_op on_elements]. unfold is_k. destruct (seqb k (u "Percentage")) eqn:Ek.
  - apply seqb_eq in Ek. subst k. exact (percent_back Hd (Hk eq_refl) x _ Hx).
  - unfold amake. apply smem_In in Hx. now rewrite Hx.
Qed.
Theorem C79_changed : division_agrees ediv -> forall op q, some_array q -> exists r, aeachp ediv cls op q = Ok r /\ each_changed op q r.
Proof.
  intros Hd op [k x v] (Hx & Hk & b & l & Hv & Hl). cbn [a_val a_unit a_kind] in *. subst v. exists (AQ k x (Arr b (map op l))). split; [|now apply each_ok].
  unfold aeachp. cbv zeta. cbn [a_val a_kind a_unit]. unfold is_k. destruct (seqb k (u "Percentage")) eqn:Ek.
  - apply seqb_eq in Ek. subst k. exact (percent_back Hd (Hk eq_refl) x _ Hx).
  - unfold amake. apply smem_In in Hx. now rewrite Hx.
Qed.
(** ** Products *)
Theorem C79_product : division_agrees ediv -> forall s cs n a b, numeric_session ediv s -> Forall numeric_call cs -> of_length n a -> of_length n b -> one_of_length n a b ->
  (forall i ea eb, (i < n)%nat -> stands_at a i ea -> stands_at b i eb -> exists r, fst (product ea eb (calls cs s)) = Ok r) ->
  exists r, fst (product a b (calls cs s)) = Ok r /\ element_wise n (fun ea eb => fst (product ea eb (calls cs s))) a b r.
Proof.
  intros Hd s cs n a b Hs Hc Ha Hb Hab Hok. pose proof (session_inv ediv Hd s cs Hs Hc) as Is.
  exact (by_element n (fun ea eb => fst (product ea eb (calls cs s))) a b (some_pos n a b Hab) Ha Hb Hab (mul_elem ediv cls named pw Hd (a_kind a) (a_unit a) (a_kind b) (a_unit b) (calls cs s) Is) Hok).
Qed.
(** ** Quotients and remainders: for every operator on numbers that NumPy computes element by element *)
Theorem C79_quotient : division_agrees ediv -> forall (o : binop V), (forall x y z, on_numbers o x y = Ok z -> on_elements o x y = z) ->
  forall quot s cs n a b, numeric_session ediv s -> Forall numeric_call cs -> of_length n a -> of_length n b -> one_of_length n a b ->
  (forall i ea eb, (i < n)%nat -> stands_at a i ea -> stands_at b i eb -> exists r, fst (quotient o quot ea eb (calls cs s)) = Ok r) ->
  exists r, fst (quotient o quot a b (calls cs s)) = Ok r /\ element_wise n (fun ea eb => fst (quotient o quot ea eb (calls cs s))) a b r.
Proof.
  intros Hd o Ho quot s cs n a b Hs Hc Ha Hb Hab Hok. pose proof (session_inv ediv Hd s cs Hs Hc) as Is.
  exact (by_element n (fun ea eb => fst (quotient o quot ea eb (calls cs s))) a b (some_pos n a b Hab) Ha Hb Hab (div_elem ediv cls named pw Hd o quot (a_kind a) (a_unit a) (a_kind b) (a_unit b) (calls cs s) Ho Is) Hok).
Qed.
(** the division of numbers is one of them *)
Theorem C79_division : division_agrees ediv -> forall s cs n a b, numeric_session ediv s -> Forall numeric_call cs -> of_length n a -> of_length n b -> one_of_length n a b ->
  (forall i ea eb, (i < n)%nat -> stands_at a i ea -> stands_at b i eb -> exists r, fst (quotient (b_div ediv) true ea eb (calls cs s)) = Ok r) ->
  exists r, fst (quotient (b_div ediv) true a b (calls cs s)) = Ok r /\ element_wise n (fun ea eb => fst (quotient (b_div ediv) true ea eb (calls cs s))) a b r.
Proof. intros Hd. exact (C79_quotient Hd (b_div ediv) Hd true). Qed.
(** arrays of other lengths have no product *)
Theorem C79_product_lengths : forall a b s, some_array a -> some_array b -> a_kind a <> u "Dimensionless" -> a_kind b <> u "Dimensionless" -> a_kind a <> u "Percentage" -> a_kind b <> u "Percentage" -> a_unit a = a_unit b ->
  alen a <> alen b -> alen a <> 1%nat -> alen b <> 1%nat -> product a b s = (Err ValueError, s).
Proof.
  intros [k x va] [k' y vb] s (Ix & Hk & ba & l & Ha & Hl) (Iy & Hk' & bb & l' & Hb & Hl') Na Nb Pa Pb Eu N N1 N2. cbn [a_val a_unit a_kind] in *. subst va vb y. unfold alen in *. cbn [a_val] in *.
  apply seqb_neq in Na, Nb, Pa, Pb. unfold ArrMul.amul_qty, kindless_, is_k. cbn [a_unit a_val a_kind]. rewrite Na, Nb, Pa, Pb, seqb_refl. cbn [andb]. unfold bind, lift, nd_bin, nd_op, nd_map2.
  destruct (Nat.eqb_spec (length l) (length l')) as [Z|_]; [contradiction|]. cbn [broadcast b_mul on_elements].
  destruct l as [|p [|p' l]]; [contradiction|now elim N1|]. destruct l' as [|q [|q' l']]; [contradiction|now elim N2|]. reflexivity.
Qed.
End C79b.
Print Assumptions C79_total.
Print Assumptions C79_total_sum.
Print Assumptions C79_scaled.
Print Assumptions C79_changed.
Print Assumptions C79_product.
Print Assumptions C79_quotient.
Print Assumptions C79_division.
Print Assumptions C79_product_lengths.

(** ** On single numbers they are the operations of Units.v (those that do not need the engine) *)
Section Single.
Context {F : Floats} {P : Pow} {E : Eval} (ediv : Qc -> Qc -> Qc) (named : str -> res (str * str)) (pw : Qc -> pnum F -> res Qc).
(** specification: the same quantity *)
Definition as_array (q : qty) : aqty Qc := AQ (q_kind q) (q_unit q) (Num (q_val q)).
(** specification: the same outcome, a quantity (two quantities in a tuple are none) *)
Definition same_outcome (r : res pv) (r' : res (aqty Qc)) : Prop :=
  match r with Ok (PQ q) => r' = Ok (as_array q) | Ok _ => r' = Err TypeError | Err e => r' = Err e end.
(** specification: a kind whose constructor checks the unit against its class *)
Definition checked_kind (k : str) : Prop := In k classes /\ k <> u "Unit" /\ k <> u "UserUnits" /\ k <> u "Date".
(** specification: a pure number, percentages included *)
Definition unitless_qty (q : qty) : Prop := q_kind q = u "Dimensionless" \/ q_kind q = u "Percentage".
Notation units_in w := (fun k => class_units k w).

Lemma kindless_qty q : kindless (q_kind q) = true <-> unitless_qty q.
Proof. unfold kindless, is_k, unitless_qty. rewrite Bool.orb_true_iff. rewrite !seqb_eq. tauto. Qed.
Lemma make_same k v x w : checked_kind k -> same_outcome (fst (make k v x w)) (amakep ediv (units_in w) k (Num v) x).
Proof.
  intros (I0 & N1 & N2 & N3). apply smem_In in I0. apply seqb_neq in N1, N2, N3. unfold make, wbind, construct, amakep, is_k. rewrite N1, N2, N3, I0. unfold amake.
  destruct (seqb k (u "Percentage")).
  - change (nd_bin (b_div ediv) (Num v) (Num (aconst 100))) with (rbind (qdiv v (Q2Qc 100)) (fun c => Ok (Num c))). assert (D : qdiv v (Q2Qc 100) = Ok (v / Q2Qc 100)%Qc) by (unfold qdiv; destruct (Qc_eq_dec (Q2Qc 100) 0) as [Z|_]; [discriminate Z|reflexivity]).
    rewrite D. cbn [rbind]. destruct (smem x (class_units k w)); reflexivity.
  - cbn [rbind]. destruct (smem x (class_units k w)); reflexivity.
Qed.
Lemma percent_same k v x w : checked_kind k -> same_outcome (fst (make k (v * Q2Qc 100)%Qc x w)) (apercent ediv (units_in w) (Num v) k x).
Proof. intros Hk. exact (make_same k _ x w Hk). Qed.

(** + and -: of one unit of a kind, or of two kinds *)
Theorem C79_number_sum : forall minus a b w s, checked_kind (q_kind a) -> checked_kind (q_kind b) -> (q_kind a = q_kind b -> q_unit a = q_unit b) ->
  same_outcome (fst (sum_qty minus a b w)) (fst (aplus ediv (units_in w) (plus minus) (as_array a) (as_array b) s)).
Proof.
  intros minus [k x v] [k' y v'] w s Hk Hk' Hu. cbn [q_kind q_unit q_val] in *. unfold aplus, sum_qty, as_array. cbn [q_kind q_unit q_val a_kind a_unit a_val]. rewrite (seqb_sym k' k).
  destruct (seqb k k') eqn:Ek.
  - apply seqb_eq in Ek. rewrite (Hu Ek), seqb_refl. exact (make_same k _ y w Hk).
  - change (kindless_ k) with (kindless k). change (kindless_ k') with (kindless k').
    destruct (kindless k && negb (kindless k')); [exact (make_same k _ y w Hk)|]. destruct (is_k k "Percentage" && kindless k'); [exact (percent_same k _ x w Hk)|].
    destruct (kindless k'); [exact (make_same k _ x w Hk)|reflexivity].
Qed.
(** products with a pure number *)
Theorem C79_number_product : forall a b w s, checked_kind (q_kind a) -> checked_kind (q_kind b) -> unitless_qty a \/ unitless_qty b ->
  same_outcome (fst (mul_qty a b w)) (fst (amul_qty ediv (units_in w) named pw (as_array a) (as_array b) s)).
Proof.
  intros [k x v] [k' y v'] w s Hk Hk' Hu. rewrite <- !kindless_qty in Hu. cbn [q_kind q_unit q_val] in *. unfold amul_qty, mul_qty, as_array. cbn [q_kind q_unit q_val a_kind a_unit a_val].
  change (kindless_ k) with (kindless k). change (kindless_ k') with (kindless k').
  destruct (kindless k) eqn:Ek, (kindless k') eqn:Ek'; cbn [andb negb].
  - rewrite Bool.andb_true_r. destruct (is_k k "Percentage"); [exact (percent_same k _ x w Hk)|exact (make_same k _ x w Hk)].
  - exact (make_same k' _ y w Hk').
  - rewrite Bool.andb_true_r. destruct (is_k k "Percentage"); [exact (percent_same k _ x w Hk)|exact (make_same k _ x w Hk)].
  - destruct Hu as [Z|Z]; discriminate Z.
Qed.
(** quotients by a pure number, and of a pure number *)
Theorem C79_number_quotient : forall a b w s, checked_kind (q_kind a) -> checked_kind (q_kind b) -> unitless_qty a \/ unitless_qty b ->
  same_outcome (fst (div_qty qdiv a b w)) (fst (adiv_qty ediv (units_in w) named pw (b_div ediv) true (as_array a) (as_array b) s)).
Proof.
  intros [k x v] [k' y v'] w s Hk Hk' Hu. rewrite <- !kindless_qty in Hu. cbn [q_kind q_unit q_val] in *. unfold adiv_qty, div_qty, as_array. cbn [q_kind q_unit q_val a_kind a_unit a_val].
  change (kindless_ k) with (kindless k). change (kindless_ k') with (kindless k').
  change (nd_bin (b_div ediv) (Num v) (Num v')) with (rbind (qdiv v v') (fun c => Ok (Num c))). unfold wbind at 1 2 3, wlift, lift.
  destruct (qdiv v v') as [q|e] eqn:Eq.
  2:{ destruct (kindless k), (kindless k'); cbn [andb negb]; try rewrite Bool.andb_true_r; try destruct (is_k k "Percentage"); try reflexivity; destruct Hu as [Z|Z]; discriminate Z. }
  cbn [rbind]. destruct (kindless k) eqn:Ek, (kindless k') eqn:Ek'; cbn [andb negb].
  - rewrite Bool.andb_true_r. destruct (is_k k "Percentage"); [exact (percent_same k _ x w Hk)|exact (make_same k _ x w Hk)].
  - exact (make_same k' _ _ w Hk').
  - rewrite Bool.andb_true_r. destruct (is_k k "Percentage"); [exact (percent_same k _ x w Hk)|exact (make_same k _ x w Hk)].
  - destruct Hu as [Z|Z]; discriminate Z.
Qed.
End Single.
Print Assumptions C79_number_sum.
Print Assumptions C79_number_product.
Print Assumptions C79_number_quotient.

(** ** Examples: Length([2, 3], 'km') * Length([5, 1000], 'm'), and by Length(4, 'm') *)
Definition demo_named (x : str) : res (str * str) := if smem x [u "m2"; u "km2"] then Ok (u "Area", x) else Ok (u "Dimensionless", u "Dimensionless").
Definition demo_pw (x : Qc) (p : pnum tenths) : res Qc := Ok x.
Definition demo_four : aqty Qc := AQ (u "Length") (u "m") (Num (Q2Qc 4)).
Lemma array_some q : array_quantity Qc demo_cls q -> some_array Qc _ demo_cls q.
Proof. intros (I0 & N & H). split; [exact I0|]. split; [intros E; contradiction|exact H]. Qed.
Lemma demo_lengths : of_length Qc _ demo_cls 2 demo_km /\ of_length Qc _ demo_cls 2 demo_m /\ of_length Qc _ demo_cls 2 demo_four.
Proof.
  destruct demo_quantity as [H H']. split; [left; split; [exact (array_some _ H)|left; reflexivity]|]. split; [left; split; [exact (array_some _ H')|left; reflexivity]|]. right. split; [vm_compute; tauto|]. eexists. reflexivity.
Qed.
Example C79_product_example :
  fst (amul_qty qediv demo_cls demo_named demo_pw demo_m demo_km demo_arr) = Ok (AQ (u "Area") (u "m2") (Arr Ndarray [Q2Qc 10000; Q2Qc 3000000]))
  /\ fst (amul_qty qediv demo_cls demo_named demo_pw demo_m demo_four demo_arr) = Ok (AQ (u "Area") (u "m2") (Arr Ndarray [Q2Qc 20; Q2Qc 4000]))
  /\ fst (adiv_qty qediv demo_cls demo_named demo_pw (b_div qediv) true demo_km demo_four demo_arr) = Ok (AQ (u "Dimensionless") (u "Dimensionless") (Arr Ndarray [Q2Qc 500; Q2Qc 750])).
Proof. split; [|split]; apply same_q_eq; vm_compute; reflexivity. Qed.
