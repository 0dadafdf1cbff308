(** * C79: quantities of arrays

    [q[i]] is the quantity of the i-th element; the operations on quantities of
    arrays are those on the elements.  The engine is in any state of a session
    over arrays ([numeric_session], [numeric_call]: NumPySpec.v). *)
From Coq Require Import String QArith Qcanon ZArith Lia.
From Verif Require Import Py StrTools Network Conv Converter EngineSpec Demo NumPy NumPySpec EngineInv NumPyFacts Units ArrQty ArrQtyFacts PropsNumPy.
Local Open Scope N_scope.

Section C79.
Context (V : Type) (A : Arith V) (ediv : V -> V -> V) (cls : str -> list str).
Notation calls := (@do_calls (npv V) (np_arith ediv)).
Notation item := (item cls).
Notation ato := (ato ediv cls).
Notation asum := (asum ediv cls).
Notation acompare := (acompare ediv cls).

(** specification: a quantity that the constructors make, whose value is an array that is not empty *)
Definition array_quantity (q : aqty V) : Prop :=
  In (a_unit q) (cls (a_kind q)) /\ a_kind q <> u "Percentage" /\ exists b l, a_val q = Arr b l /\ l <> [].
(** specification: ... a number *)
Definition number_quantity (q : aqty V) : Prop := In (a_unit q) (cls (a_kind q)) /\ exists x, a_val q = Num x.

(** the place that an index means in an array of n elements *)
Definition place (n : nat) (i : Z) : option nat :=
  if (Z.of_nat n <=? i)%Z then None else let j := if (i <? 0)%Z then (i + Z.of_nat n)%Z else i in if (j <? 0)%Z then None else Some (Z.to_nat j).
Lemma item_place k x b l i : In x (cls k) -> k <> u "Percentage" ->
  item (AQ k x (Arr b l)) i = match place (length l) i with Some n => match nth_error l n with Some v => Ok (AQ k x (Num v)) | None => Err IndexError end | None => Err IndexError end.
Proof.
  intros Hx Hk. apply smem_In in Hx. apply seqb_neq in Hk. unfold ArrQty.item, place, alen, nd_item, is_k. cbn [a_val a_kind a_unit].
  rewrite Hk. destruct (Z.of_nat (length l) <=? i)%Z; [reflexivity|]. cbv zeta. destruct (_ <? 0)%Z; [reflexivity|].
  destruct (nth_error l _); [|reflexivity]. cbn [rbind]. unfold amake. now rewrite Hx.
Qed.
Lemma item_some k x b l i e : In x (cls k) -> k <> u "Percentage" -> item (AQ k x (Arr b l)) i = Ok e ->
  exists n v, place (length l) i = Some n /\ nth_error l n = Some v /\ e = AQ k x (Num v).
Proof.
  intros Hx Hk. rewrite item_place by assumption. destruct (place (length l) i) as [n|]; [|discriminate]. destruct (nth_error l n) as [v|] eqn:E0; [|discriminate].
  intros E1. injection E1 as <-. exists n, v. auto.
Qed.
Lemma place_of n i : (i < n)%nat -> place n (Z.of_nat i) = Some i.
Proof.
  intros L. unfold place. destruct (Z.leb_spec (Z.of_nat n) (Z.of_nat i)); [lia|]. cbv zeta. destruct (Z.ltb_spec (Z.of_nat i) 0); [lia|]. destruct (Z.ltb_spec (Z.of_nat i) 0); [lia|]. now rewrite Nat2Z.id.
Qed.
Lemma place_back n i : (i < n)%nat -> place n (Z.of_nat i - Z.of_nat n) = Some i.
Proof.
  intros L. unfold place. destruct (Z.leb_spec (Z.of_nat n) (Z.of_nat i - Z.of_nat n)); [lia|]. cbv zeta. destruct (Z.ltb_spec (Z.of_nat i - Z.of_nat n) 0); [|lia].
  destruct (Z.ltb_spec (Z.of_nat i - Z.of_nat n + Z.of_nat n) 0); [lia|]. f_equal. lia.
Qed.
Lemma place_none n i : (i < - Z.of_nat n \/ Z.of_nat n <= i)%Z -> place n i = None.
Proof.
  intros L. unfold place. destruct (Z.leb_spec (Z.of_nat n) i); [reflexivity|]. cbv zeta. destruct (Z.ltb_spec i 0); [|lia]. destruct (Z.ltb_spec (i + Z.of_nat n) 0); [reflexivity|lia].
Qed.

(** ** Length and items *)
(** a list given to a constructor: as many items, each the quantity of its element; counted from either end; no others *)
Theorem C79_items : forall k x l q, k <> u "Percentage" -> amake cls k (check_value (PyList l)) x = Ok q ->
  alen q = length l
  /\ (forall i v, nth_error l i = Some v -> item q (Z.of_nat i) = amake cls k (Num v) x /\ item q (Z.of_nat i - Z.of_nat (length l)) = amake cls k (Num v) x)
  /\ (forall i, (i < - Z.of_nat (length l) \/ Z.of_nat (length l) <= i)%Z -> item q i = Err IndexError).
Proof.
  intros k x l q Hk Hq. unfold amake in *. destruct (smem x (cls k)) eqn:Sx; [|discriminate Hq]. injection Hq as <-. cbn [check_value]. pose proof (proj1 (smem_In x (cls k)) Sx) as Ix.
  split; [reflexivity|]. split.
  - intros i v E0. assert (L : (i < length l)%nat) by (apply nth_error_Some; rewrite E0; discriminate). split; rewrite item_place by assumption.
    + rewrite place_of, E0 by exact L. reflexivity.
    + rewrite place_back, E0 by exact L. reflexivity.
  - intros i L. rewrite item_place by assumption. now rewrite place_none.
Qed.
(** a number has the length 1, and no item; iterating over a quantity gives numbers, the unit is lost *)
Theorem C79_number_refuted : forall q i, number_quantity q -> alen q = 1%nat /\ item q i = Err (if (1 <=? i)%Z then IndexError else TypeError).
Proof. intros [k x v] i (_ & y & Hv). cbn [a_val] in Hv. subst v. split; [reflexivity|]. unfold ArrQty.item, alen. cbn [a_val]. change (Z.of_nat 1) with 1%Z. now destruct (1 <=? i)%Z. Qed.

(** q[n] of an int is that; a slice, a bool or a NumPy integer is refused *)
Theorem C79_getitem : forall q, (forall n, getitem cls q (IInt n) = item q n) /\ getitem cls q IOther = Err IndexError.
Proof. intros q. split; reflexivity. Qed.
(** ** Conversions *)
Theorem C79_converted : division_agrees ediv -> forall s cs q t, numeric_session ediv s -> Forall numeric_call cs -> array_quantity q ->
  (forall i e, item q i = Ok e -> exists r, fst (ato e t (calls cs s)) = Ok r) ->
  exists r, fst (ato q t (calls cs s)) = Ok r /\ alen r = alen q /\ a_kind r = a_kind q /\ a_unit r = t
    /\ forall i e, item q i = Ok e -> item r i = fst (ato e t (calls cs s)).
Proof.
  intros Hd s cs [k x v] t Hs Hc (Ix & Hk & b & l & Hv & Hl) Hok. cbn [a_val a_unit a_kind] in *. subst v. pose proof (session_inv ediv Hd s cs Hs Hc) as Is.
  destruct (ato_array ediv cls Hd (calls cs s) k x t b l Is Hl) as (l' & R & Fa & St).
  { intros y I0. apply In_nth_error in I0 as (i & E0). assert (L : (i < length l)%nat) by (apply nth_error_Some; rewrite E0; discriminate).
    apply (Hok (Z.of_nat i)). rewrite item_place, place_of, E0 by assumption. reflexivity. }
  exists (AQ k t (Arr Ndarray l')). pose proof (Forall2_len _ _ _ Fa) as Ll. split; [exact R|]. split; [exact (eq_sym Ll)|]. split; [reflexivity|]. split; [reflexivity|].
  intros i e He. destruct (item_some k x b l i e Ix Hk He) as (n & y & P0 & E0 & ->). rewrite item_place by (assumption || apply smem_In, St). rewrite <- Ll, P0.
  destruct (Forall2_nth _ _ _ Fa n y E0) as (z & -> & Hz). exact (eq_sym Hz).
Qed.

(** ** Sums and differences of arrays of one length: (a + b)[i] is a[i] + b[i] *)
Theorem C79_sum : division_agrees ediv -> forall s cs op a b, numeric_session ediv s -> Forall numeric_call cs -> array_quantity a -> array_quantity b -> a_kind a = a_kind b -> alen a = alen b ->
  (forall i ea eb, item a i = Ok ea -> item b i = Ok eb -> exists r, fst (asum op ea eb (calls cs s)) = Ok r) ->
  exists r, fst (asum op a b (calls cs s)) = Ok r /\ alen r = alen a
    /\ forall i ea eb, item a i = Ok ea -> item b i = Ok eb -> item r i = fst (asum op ea eb (calls cs s)).
Proof.
  intros Hd s cs op [k x va] [k' y vb] Hs Hc (Ix & Hk & ba & l & Ha & Hl) (Iy & Hk' & bb & l' & Hb & Hl') Ek El Hok. cbn [a_val a_unit a_kind] in *. subst va vb k'. unfold alen in El. cbn [a_val] in El.
  pose proof (session_inv ediv Hd s cs Hs Hc) as Is.
  destruct (asum_arrays ediv cls Hd op k x y ba bb l l' (calls cs s) Is Hl El) as (t & b' & lr & R & St & Ll & Hn).
  { intros i p q E0 E1. assert (L : (i < length l)%nat) by (apply nth_error_Some; rewrite E0; discriminate). assert (L' : (i < length l')%nat) by (rewrite <- El; exact L).
    apply (Hok (Z.of_nat i)); rewrite item_place by assumption; [rewrite place_of, E0 by exact L|rewrite place_of, E1 by exact L']; reflexivity. }
  exists (AQ k t (Arr b' lr)). split; [exact R|]. split; [exact Ll|]. intros i ea eb Hea Heb.
  destruct (item_some k x ba l i ea Ix Hk Hea) as (n & p & P0 & E0 & ->). destruct (item_some k y bb l' i eb Iy Hk Heb) as (n' & q & P1 & E1 & ->).
  assert (n' = n) by (rewrite <- El in P1; congruence). subst n'. destruct (Hn n p q E0 E1) as (z & Ez & Hz).
  rewrite item_place by (assumption || apply smem_In, St). rewrite Ll, P0, Ez. exact (eq_sym Hz).
Qed.
(** with a number on the right: (a + b)[i] is a[i] + b *)
Theorem C79_sum_number : division_agrees ediv -> forall s cs op a b, numeric_session ediv s -> Forall numeric_call cs -> array_quantity a -> number_quantity b -> a_kind a = a_kind b ->
  (forall i ea, item a i = Ok ea -> exists r, fst (asum op ea b (calls cs s)) = Ok r) ->
  exists r, fst (asum op a b (calls cs s)) = Ok r /\ alen r = alen a /\ forall i ea, item a i = Ok ea -> item r i = fst (asum op ea b (calls cs s)).
Proof.
  intros Hd s cs op [k x va] [k' y vb] Hs Hc (Ix & Hk & ba & l & Ha & Hl) (Iy & q & Hb) Ek Hok. cbn [a_val a_unit a_kind] in *. subst va vb k'.
  pose proof (session_inv ediv Hd s cs Hs Hc) as Is.
  destruct (asum_array_num ediv cls Hd op k x y ba l q (calls cs s) Is Hl) as (t & b' & lr & R & St & Fa).
  { intros p I0. apply In_nth_error in I0 as (i & E0). assert (L : (i < length l)%nat) by (apply nth_error_Some; rewrite E0; discriminate).
    apply (Hok (Z.of_nat i)). rewrite item_place, place_of, E0 by assumption. reflexivity. }
  pose proof (Forall2_len _ _ _ Fa) as Ll. exists (AQ k t (Arr b' lr)). split; [exact R|]. split; [exact (eq_sym Ll)|]. intros i ea Hea.
  destruct (item_some k x ba l i ea Ix Hk Hea) as (n & p & P0 & E0 & ->). destruct (Forall2_nth _ _ _ Fa n p E0) as (z & Ez & Hz).
  rewrite item_place by (assumption || apply smem_In, St). rewrite <- Ll, P0, Ez. exact (eq_sym Hz).
Qed.
(** an array of a single element is added to each: (a + b)[i] is a[i] + b[0], or a[0] + b[i] *)
Theorem C79_single : division_agrees ediv -> forall s cs op a b, numeric_session ediv s -> Forall numeric_call cs -> array_quantity a -> array_quantity b -> a_kind a = a_kind b ->
  (forall i j ea eb, item a i = Ok ea -> item b j = Ok eb -> exists r, fst (asum op ea eb (calls cs s)) = Ok r) ->
  (alen b = 1%nat -> exists r, fst (asum op a b (calls cs s)) = Ok r /\ alen r = alen a
    /\ forall i ea eb, item a i = Ok ea -> item b 0 = Ok eb -> item r i = fst (asum op ea eb (calls cs s)))
  /\ (alen a = 1%nat -> exists r, fst (asum op a b (calls cs s)) = Ok r /\ alen r = alen b
    /\ forall i ea eb, item a 0 = Ok ea -> item b i = Ok eb -> item r i = fst (asum op ea eb (calls cs s))).
Proof.
  intros Hd s cs op [k x va] [k' y vb] Hs Hc (Ix & Hk & ba & l & Ha & Hl) (Iy & Hk' & bb & l' & Hb & Hl') Ek Hok. cbn [a_val a_unit a_kind] in *. subst va vb k'. unfold alen. cbn [a_val].
  pose proof (session_inv ediv Hd s cs Hs Hc) as Is.
  assert (All : forall p q, In p l -> In q l' -> exists r, fst (asum op (AQ k x (Num p)) (AQ k y (Num q)) (calls cs s)) = Ok r).
  { intros p q I0 I1. apply In_nth_error in I0 as (i & E0). apply In_nth_error in I1 as (j & E1). assert (L : (i < length l)%nat) by (apply nth_error_Some; rewrite E0; discriminate). assert (L' : (j < length l')%nat) by (apply nth_error_Some; rewrite E1; discriminate).
    apply (Hok (Z.of_nat i) (Z.of_nat j)); rewrite item_place by assumption; [rewrite place_of, E0 by exact L|rewrite place_of, E1 by exact L']; reflexivity. }
  assert (Pos : (1 <= length l /\ 1 <= length l')%nat) by (destruct l; [contradiction|]; destruct l'; [contradiction|]; cbn [length]; lia).
  split; intros L1.
  - destruct (asum_single ediv cls Hd op k x y ba bb l l' (calls cs s) Is Hl Hl' (or_intror L1) All) as (t & b' & lr & R & St & Ll & Hn).
    exists (AQ k t (Arr b' lr)). split; [exact R|]. assert (Le : length lr = length l) by lia. split; [exact Le|]. intros i ea eb Hea Heb.
    destruct (item_some k x ba l i ea Ix Hk Hea) as (n & p & P0 & E0 & ->). destruct (item_some k y bb l' 0 eb Iy Hk' Heb) as (n' & q & P1 & E1 & ->).
    rewrite L1 in P1. injection P1 as <-. assert (Ln : (n < length l)%nat) by (apply nth_error_Some; rewrite E0; discriminate).
    destruct (Hn n p q) as (z & Ez & Hz); [lia| | |].
    + unfold pick. destruct (Nat.eqb_spec (length l) 1); [replace O with n by lia|]; exact E0.
    + unfold pick. rewrite L1. exact E1.
    + rewrite item_place by (assumption || apply smem_In, St). rewrite Le, P0, Ez. exact (eq_sym Hz).
  - destruct (asum_single ediv cls Hd op k x y ba bb l l' (calls cs s) Is Hl Hl' (or_introl L1) All) as (t & b' & lr & R & St & Ll & Hn).
    exists (AQ k t (Arr b' lr)). split; [exact R|]. assert (Le : length lr = length l') by lia. split; [exact Le|]. intros i ea eb Hea Heb.
    destruct (item_some k x ba l 0 ea Ix Hk Hea) as (n' & p & P0 & E0 & ->). destruct (item_some k y bb l' i eb Iy Hk' Heb) as (n & q & P1 & E1 & ->).
    rewrite L1 in P0. injection P0 as <-. assert (Ln : (n < length l')%nat) by (apply nth_error_Some; rewrite E1; discriminate).
    destruct (Hn n p q) as (z & Ez & Hz); [lia| | |].
    + unfold pick. rewrite L1. exact E0.
    + unfold pick. destruct (Nat.eqb_spec (length l') 1); [replace O with n by lia|]; exact E1.
    + rewrite item_place by (assumption || apply smem_In, St). rewrite Le, P1, Ez. exact (eq_sym Hz).
Qed.
(** arrays of other lengths cannot be added *)
Theorem C79_lengths : forall op a b s, array_quantity a -> array_quantity b -> a_kind a = a_kind b -> a_unit a = a_unit b -> alen a <> alen b -> alen a <> 1%nat -> alen b <> 1%nat ->
  asum op a b s = (Err ValueError, s).
Proof.
  intros op [k x va] [k' y vb] s (Ix & Hk & ba & l & Ha & Hl) (Iy & Hk' & bb & l' & Hb & Hl') Ek Eu N N1 N2. cbn [a_val a_unit a_kind] in *. subst va vb k' y. unfold alen in *. cbn [a_val] in *.
  unfold ArrQty.asum. cbn [a_unit a_val a_kind]. rewrite seqb_refl. unfold lift, nd_op, nd_map2. destruct (Nat.eqb_spec (length l) (length l')) as [Z|_]; [contradiction|].
  destruct l as [|p [|p' l]]; [contradiction|now elim N1|]. destruct l' as [|q [|q' l']]; [contradiction|now elim N2|]. reflexivity.
Qed.

(** ** Multiples: (q * n)[i] is q[i] * n; -q and abs(q) too *)
Theorem C79_multiple : forall op q n i e, array_quantity q -> item q i = Ok e ->
  exists r, ascale cls op q (Num n) = Ok r /\ alen r = alen q /\ item r i = ascale cls op e (Num n)
    /\ (forall y, a_val e = Num y -> item r i = Ok (AQ (a_kind q) (a_unit q) (Num (op y n)))).
Proof.
  intros op [k x v] n i e (Ix & Hk & b & l & Hv & Hl) He. cbn [a_val a_unit a_kind] in *. subst v. destruct (item_some k x b l i e Ix Hk He) as (m & p & P0 & E0 & ->).
  pose proof (proj2 (smem_In x (cls k)) Ix) as Sx. unfold ascale, nd_op, broadcast, rbind, amake. cbn [a_val a_unit a_kind]. rewrite Sx. eexists. split; [reflexivity|]. split; [unfold alen; cbn [a_val]; apply map_length|].
  rewrite item_place by assumption. rewrite map_length, P0, nth_error_map, E0. split; [reflexivity|].
  intros y Ey. cbn [a_val] in Ey. injection Ey as ->. reflexivity.
Qed.
Theorem C79_each : forall op q i e, array_quantity q -> item q i = Ok e ->
  exists r, aeach cls op q = Ok r /\ alen r = alen q /\ item r i = aeach cls op e
    /\ (forall y, a_val e = Num y -> item r i = Ok (AQ (a_kind q) (a_unit q) (Num (op y)))).
Proof.
  intros op [k x v] i e (Ix & Hk & b & l & Hv & Hl) He. cbn [a_val a_unit a_kind] in *. subst v. destruct (item_some k x b l i e Ix Hk He) as (m & p & P0 & E0 & ->).
  pose proof (proj2 (smem_In x (cls k)) Ix) as Sx. unfold aeach, amake. cbn [a_val a_unit a_kind]. rewrite Sx. eexists. split; [reflexivity|]. split; [unfold alen; cbn [a_val]; apply map_length|].
  rewrite item_place by assumption. rewrite map_length, P0, nth_error_map, E0. split; [reflexivity|].
  intros y Ey. cbn [a_val] in Ey. injection Ey as ->. reflexivity.
Qed.

(** ** Comparisons: (a < b)[i] is a[i] < b[i] *)
Theorem C79_compared : division_agrees ediv -> forall s cs op a b, numeric_session ediv s -> Forall numeric_call cs -> array_quantity a -> array_quantity b -> a_kind a = a_kind b -> alen a = alen b ->
  (forall i ea eb, item a i = Ok ea -> item b i = Ok eb -> exists r, fst (acompare op ea eb (calls cs s)) = Ok r) ->
  exists l, fst (acompare op a b (calls cs s)) = Ok (BArr l) /\ length l = alen a
    /\ forall i ea eb, item a (Z.of_nat i) = Ok ea -> item b (Z.of_nat i) = Ok eb -> exists t, nth_error l i = Some t /\ fst (acompare op ea eb (calls cs s)) = Ok (BOne t).
Proof.
  intros Hd s cs op [k x va] [k' y vb] Hs Hc (Ix & Hk & ba & l & Ha & Hl) (Iy & Hk' & bb & l' & Hb & Hl') Ek El Hok. cbn [a_val a_unit a_kind] in *. subst va vb k'. unfold alen in El. cbn [a_val] in El.
  pose proof (session_inv ediv Hd s cs Hs Hc) as Is.
  destruct (acompare_arrays ediv cls Hd op k x y ba bb l l' (calls cs s) Is Hl El) as (lr & R & Ll & Hn).
  { intros i p q E0 E1. assert (L : (i < length l)%nat) by (apply nth_error_Some; rewrite E0; discriminate). assert (L' : (i < length l')%nat) by (rewrite <- El; exact L).
    apply (Hok (Z.of_nat i)); rewrite item_place by assumption; [rewrite place_of, E0 by exact L|rewrite place_of, E1 by exact L']; reflexivity. }
  exists lr. split; [exact R|]. split; [exact Ll|]. intros i ea eb Hea Heb.
  destruct (item_some k x ba l _ ea Ix Hk Hea) as (n & p & P0 & E0 & ->). destruct (item_some k y bb l' _ eb Iy Hk Heb) as (n' & q & P1 & E1 & ->).
  assert (n' = n) by (rewrite <- El in P1; congruence). subst n'. assert (n = i).
  { assert (L : (n < length l)%nat) by (apply nth_error_Some; rewrite E0; discriminate). assert (Li : (i < length l)%nat) by (destruct (Nat.lt_ge_cases i (length l)) as [Y|Y]; [exact Y|exfalso; rewrite place_none in P0 by lia; discriminate P0]).
    rewrite place_of in P0 by exact Li. congruence. }
  subst n. exact (Hn i p q E0 E1).
Qed.
(** iterating over a quantity gives numbers: the unit is lost *)
Theorem C79_iterated_refuted : forall q, array_quantity q -> forall i v, nth_error (iterated q) i = Some v <-> item q (Z.of_nat i) = amake cls (a_kind q) (Num v) (a_unit q).
Proof.
  intros [k x v0] (Ix & Hk & b & l & Hv & Hl) i v. cbn [a_val a_unit a_kind] in *. subst v0. unfold iterated. cbn [a_val]. rewrite item_place by assumption. pose proof (proj2 (smem_In x (cls k)) Ix) as Sx. unfold amake. rewrite Sx.
  destruct (Nat.lt_ge_cases i (length l)) as [L|L].
  - rewrite place_of by exact L. destruct (nth_error l i) as [w|]; split; intros E0; try discriminate E0; injection E0 as ->; reflexivity.
  - rewrite place_none by lia. rewrite (proj2 (nth_error_None l i) L). split; intros E0; discriminate E0.
Qed.
End C79.
Print Assumptions C79_items.
Print Assumptions C79_number_refuted.
Print Assumptions C79_getitem.
Print Assumptions C79_converted.
Print Assumptions C79_sum.
Print Assumptions C79_sum_number.
Print Assumptions C79_single.
Print Assumptions C79_lengths.
Print Assumptions C79_multiple.
Print Assumptions C79_each.
Print Assumptions C79_compared.
Print Assumptions C79_iterated_refuted.

(** ** Examples: Length([2, 3], 'km') and Length([5, 6], 'm') *)
Definition demo_cls (k : str) : list str := [u "m"; u "km"].
Definition demo_km : aqty Qc := AQ (u "Length") (u "km") (Arr Ndarray [Q2Qc 2; Q2Qc 3]).
Definition demo_m : aqty Qc := AQ (u "Length") (u "m") (Arr Ndarray [Q2Qc 5; Q2Qc 1000]).
Lemma demo_quantity : array_quantity Qc demo_cls demo_km /\ array_quantity Qc demo_cls demo_m.
Proof.
  split; (split; [vm_compute; tauto|]; split; [vm_compute; discriminate|]; eexists; eexists; split; [reflexivity|discriminate]).
Qed.
(** example: the same answer *)
Definition same_q (a b : aqty Qc) : bool := seqb (a_kind a) (a_kind b) && seqb (a_unit a) (a_unit b) && same_np (a_val a) (a_val b).
Lemma same_q_eq (r : res (aqty Qc)) b : match r with Ok a => same_q a b | _ => false end = true -> r = Ok b.
Proof.
  destruct r as [[k x v]|]; intros E; [|discriminate E]. destruct b as [k' x' v']. unfold same_q in E. cbn [a_kind a_unit a_val] in E.
  apply andb_true_iff in E. destruct E as [E E2]. apply andb_true_iff in E. destruct E as [E0 E1]. apply seqb_eq in E0, E1. apply same_np_eq in E2. subst. reflexivity.
Qed.
Example C79_example :
  fst (ArrQty.ato qediv demo_cls demo_km (u "m") demo_arr) = Ok (AQ (u "Length") (u "m") (Arr Ndarray [Q2Qc 2000; Q2Qc 3000]))
  /\ fst (ArrQty.asum qediv demo_cls Qcplus demo_m demo_km demo_arr) = Ok (AQ (u "Length") (u "m") (Arr Ndarray [Q2Qc 2005; Q2Qc 4000]))
  /\ ArrQty.item demo_cls demo_km (-1) = Ok (AQ (u "Length") (u "km") (Num (Q2Qc 3)))
  /\ ArrQty.item demo_cls demo_km 2 = Err IndexError.
Proof. split; [|split; [|split]]; [apply same_q_eq; vm_compute; reflexivity..|vm_compute; reflexivity]. Qed.
