(** * C83: values assigned

    [q.values = [1, 2, 3]] makes q what [Length([1, 2, 3], q.units)] is?  For its items, its length, iterating,
    converting, comparing with arrays, and sums with arrays or in other units: yes.  The sum of two such quantities of
    one unit joins the lists, two times it repeats the list, and other operators and signs raise. *)
From Coq Require Import String QArith Qcanon ZArith Lia.
From Verif Require Import Py StrTools Network Conv Converter EngineSpec Demo NumPy NumPySpec EngineInv NumPyFacts Database Shipped Operations Units ArrQty ArrQtyFacts ArrMul ArrNum ListVals PropsOps PropsNumPy PropsArr.
Local Open Scope N_scope.

Section C83.
Context (V : Type) (A : Arith V) (ediv : V -> V -> V) (cls : str -> list str) (int_of : V -> option Z).
Local Instance npE : Arith (npv V) := np_arith ediv.
Ltac np := unfold list_arith, arr_arith, npE, npA', NumPyFacts.npA in *.
Notation calls := (@do_calls (npv V) (np_arith ediv)).
Notation ninv := (inv is_num (elementwise_conv ediv)).
Notation lsum := (lsum ediv cls int_of).
Notation lwith := (lwith ediv cls int_of).

(** specification: what the constructor of the kind makes of the list (or tuple) and the unit *)
Definition built (q : lqty V) (l : list V) (b : aqty V) : Prop := amake cls (l_kind q) (check_value (PyList l)) (l_unit q) = Ok b /\ l_kind q <> u "Percentage".
(** specification: a quantity that a constructor has made *)
Definition as_made (c : aqty V) : lqty V := LQ (a_kind c) (a_unit c) (ONd (a_val c)).
Lemma built_is q l b : built q l b -> b = AQ (l_kind q) (l_unit q) (Arr Ndarray l) /\ smem (l_unit q) (cls (l_kind q)) = true /\ is_k (l_kind q) "Percentage" = false.
Proof.
  intros [E N]. unfold amake in E. destruct (smem (l_unit q) (cls (l_kind q))) eqn:S; [|discriminate E]. injection E as <-. split; [reflexivity|]. split; [reflexivity|]. unfold is_k. now apply seqb_neq.
Qed.
Theorem C83_items : forall q t l b, built q l b -> let g := set_values q (OSeq t l) in
  lcount g = alen b /\ literated g = iterated b /\ forall i, litem ediv cls g i = item cls b i.
Proof.
  intros [k x v] t l b H g. destruct (built_is _ _ _ H) as (-> & S & N). subst g. cbn [l_kind l_unit] in *. split; [reflexivity|]. split; [reflexivity|]. intros i.
  unfold litem, ArrQty.item, set_values, lcount, alen. cbn [l_val l_kind l_unit a_val a_kind a_unit]. rewrite N. unfold py_at, nd_item. destruct (Z.leb_spec (Z.of_nat (length l)) i) as [L|L]; [reflexivity|]. cbv zeta.
  destruct (Z.ltb_spec i 0) as [L0|L0].
  - destruct (i + Z.of_nat (length l) <? 0)%Z; [reflexivity|]. destruct (nth_error l _); reflexivity.
  - destruct (Z.ltb_spec i 0); [lia|]. destruct (nth_error l _); reflexivity.
Qed.
Lemma lconv_seq e t l f y s : lconv ediv e (OSeq t l) f y s = aconv ediv e (Arr Ndarray l) f y s.
Proof. reflexivity. Qed.
Theorem C83_converted : forall q t l b x s, built q l b -> lto ediv cls (set_values q (OSeq t l)) x s = ato ediv cls b x s.
Proof. intros [k y v] t l b x s H. destruct (built_is _ _ _ H) as (-> & _). reflexivity. Qed.

(** ** Sums *)
(** an array stays an array when it is converted *)
Lemma aconv_arr e k l f y s w s' : division_agrees ediv -> ninv s -> aconv ediv e (Arr k l) f y s = (Ok w, s') -> exists l', w = Arr Ndarray l'.
Proof.
  np. intros Hd Is E. unfold aconv, bind, vin_of in E. np. destruct (Converter.convert (VIter (Arr Ndarray l)) (UStr f) (UStr y) None s) as [[[[w'|h]|]|e'] s1] eqn:E0; cbn [ret raise] in E; try discriminate E.
  injection E as <- _. pose proof (convert_shape ediv Hd (UStr f) (UStr y) None s Is) as X. np. destruct X as [(h & s2 & Hw & Hv)|(r & s2 & Hr & Hv)].
  - specialize (Hv (Arr Ndarray l)). change (Converter.convert (VNum (Arr Ndarray l)) (UStr f) (UStr y) None s) with (Converter.convert (VIter (Arr Ndarray l)) (UStr f) (UStr y) None s) in Hv. np. rewrite E0 in Hv.
    destruct (feval (fv_of s2) h (Arr Ndarray l)) as [w0|e0] eqn:F0; [|discriminate Hv]. injection Hv as -> _. destruct (ew_arr _ Hw Ndarray l w0 F0) as (l' & -> & _). exists l'. reflexivity.
  - specialize (Hv (Arr Ndarray l)). change (Converter.convert (VNum (Arr Ndarray l)) (UStr f) (UStr y) None s) with (Converter.convert (VIter (Arr Ndarray l)) (UStr f) (UStr y) None s) in Hv. np. rewrite E0 in Hv. injection Hv as Hv _.
    exfalso. exact (Hr _ (eq_sym Hv)).
Qed.
Lemma seq_arr sym op t l l' : py_bin int_of sym (b_op op) (OSeq t l) (ONd (Arr Ndarray l')) = rbind (nd_op op (Arr Ndarray l) (Arr Ndarray l')) (fun v => Ok (ONd v)).
Proof. reflexivity. Qed.
Lemma nd_arr sym op (v : npv V) l' : py_bin int_of sym (b_op op) (ONd v) (ONd (Arr Ndarray l')) = rbind (nd_op op v (Arr Ndarray l')) (fun v => Ok (ONd v)).
Proof. destruct v; reflexivity. Qed.
Lemma made (r : res (npv V)) k x : is_k k "Percentage" = false -> rbind (rbind r (fun v => Ok (ONd v))) (fun v => lmake ediv cls k v x) = rbind r (fun v => amake cls k v x).
Proof. intros N. destruct r; [|reflexivity]. cbn [rbind]. unfold lmake, amakep. now rewrite N. Qed.
(** specification: a value that is an array, a list or a tuple *)
Definition sequence (v : pyobj V) (l : list V) : Prop := v = ONd (Arr Ndarray l) \/ exists t, v = OSeq t l.
Lemma sums sym op k x y v v' l l' s : division_agrees ediv -> ninv s -> is_k k "Percentage" = false -> sequence v l -> sequence v' l' ->
  (x = y -> v = ONd (Arr Ndarray l) \/ v' = ONd (Arr Ndarray l')) ->
  lsum sym op (LQ k x v) (LQ k y v') s = asum ediv cls op (AQ k x (Arr Ndarray l)) (AQ k y (Arr Ndarray l')) s.
Proof.
  intros Hd Is N Hv Hv' Hu. unfold ListVals.lsum, asum. cbn [l_kind l_unit l_val a_kind a_unit a_val]. cbv zeta. np.
  assert (C : forall e z z' w m, sequence w m -> forall s', lconv ediv e w z z' s' = aconv ediv e (Arr Ndarray m) z z' s') by (intros e z z' w m [->|(t & ->)] s'; reflexivity).
  destruct (seqb x y) eqn:Ex.
  - apply seqb_eq in Ex. specialize (Hu Ex). f_equal. destruct Hu as [->| ->].
    + destruct Hv' as [->|(t & ->)]; cbn [py_bin]; exact (made _ k x N).
    + destruct Hv as [->|(t & ->)]; [rewrite nd_arr|rewrite seq_arr]; apply made, N.
  - unfold bind. pose proof (convertible_keeps ediv s y x None Is) as I1. np. destruct (convertible y x None s) as [[c1|e] s1]; [|reflexivity]. cbn [snd] in I1. destruct c1.
    + rewrite (C _ _ _ _ _ Hv'). destruct (aconv ediv TypeError (Arr Ndarray l') y x s1) as [[w|e] s2] eqn:E; [|reflexivity]. destruct (aconv_arr TypeError Ndarray l' y x s1 w s2 Hd I1 E) as (lw & ->).
      f_equal. unfold lift. f_equal. destruct Hv as [->|(t & ->)]; [rewrite nd_arr|rewrite seq_arr]; apply made, N.
    + pose proof (convertible_keeps ediv s1 x y None I1) as I2. np. destruct (convertible x y None s1) as [[c2|e] s2]; [|reflexivity]. cbn [snd] in I2. destruct c2; [|reflexivity].
      rewrite (C _ _ _ _ _ Hv). destruct (aconv ediv TypeError (Arr Ndarray l) x y s2) as [[w|e] s3] eqn:E; [|reflexivity]. destruct (aconv_arr TypeError Ndarray l x y s2 w s3 Hd I2 E) as (lw & ->).
      f_equal. unfold lift. f_equal. destruct Hv' as [->|(t & ->)]; [rewrite nd_arr|rewrite seq_arr]; apply made, N.
Qed.
(** with a quantity made of a list, on either side *)
Theorem C83_sum : division_agrees ediv -> forall s cs sym op q t l b c lc, numeric_session ediv s -> Forall numeric_call cs -> built q l b -> a_kind c = l_kind q -> a_val c = Arr Ndarray lc ->
  lsum sym op (set_values q (OSeq t l)) (as_made c) (calls cs s) = asum ediv cls op b c (calls cs s)
  /\ lsum sym op (as_made c) (set_values q (OSeq t l)) (calls cs s) = asum ediv cls op c b (calls cs s).
Proof.
  intros Hd s cs sym op [k x v] t l b [k' y w] lc Hs Hc H Ek Ev. destruct (built_is _ _ _ H) as (-> & _ & N). cbn [l_kind l_unit a_kind a_val] in *. subst k' w. pose proof (session_inv ediv Hd s cs Hs Hc) as Is.
  unfold set_values, as_made. cbn [l_kind l_unit a_kind a_unit a_val]. split; apply sums; try assumption.
  - right. exists t. reflexivity.
  - left. reflexivity.
  - intros _. right. reflexivity.
  - left. reflexivity.
  - right. exists t. reflexivity.
  - intros _. left. reflexivity.
Qed.
(** two of them, in different units *)
Theorem C83_sum_units : division_agrees ediv -> forall s cs sym op q t l b q' t' l' b', numeric_session ediv s -> Forall numeric_call cs -> built q l b -> built q' l' b' -> l_kind q' = l_kind q -> l_unit q' <> l_unit q ->
  lsum sym op (set_values q (OSeq t l)) (set_values q' (OSeq t' l')) (calls cs s) = asum ediv cls op b b' (calls cs s).
Proof.
  intros Hd s cs sym op [k x v] t l b [k' y w] t' l' b' Hs Hc H H' Ek Nu. destruct (built_is _ _ _ H) as (-> & _ & N). destruct (built_is _ _ _ H') as (-> & _ & _). cbn [l_kind l_unit] in *. subst k'. pose proof (session_inv ediv Hd s cs Hs Hc) as Is.
  unfold set_values. cbn [l_kind l_unit]. apply sums; try assumption; [right; exists t; reflexivity|right; exists t'; reflexivity|]. intros E. now destruct Nu.
Qed.
(** in one unit: the sum has the items of the first and then those of the second *)
Theorem C83_joined_refuted : forall op q t l b q' l' b' s, built q l b -> built q' l' b' -> l_kind q' = l_kind q -> l_unit q' = l_unit q ->
  exists r, lsum PAdd op (set_values q (OSeq t l)) (set_values q' (OSeq t l')) s = (Ok r, s) /\ alen r = (alen b + alen b')%nat /\ iterated r = (iterated b ++ iterated b')%list
    /\ forall sym, sym <> PAdd -> lsum sym op (set_values q (OSeq t l)) (set_values q' (OSeq t l')) s = (Err TypeError, s).
Proof.
  intros op [k x v] t l b [k' y w] l' b' s H H' Ek Eu. destruct (built_is _ _ _ H) as (-> & S & N). destruct (built_is _ _ _ H') as (-> & _ & _). cbn [l_kind l_unit] in *. subst k' y.
  exists (AQ k x (Arr Ndarray (l ++ l')%list)). unfold ListVals.lsum, set_values. cbn [l_kind l_unit l_val]. cbv zeta. rewrite seqb_refl. split; [|split; [|split; [reflexivity|]]].
  - unfold py_bin. rewrite eqb_reflx. cbn [rbind]. unfold lmake, amakep, amake, checked, lift. now rewrite N, S.
  - unfold alen. cbn [a_val]. apply app_length.
  - intros sym Ns. destruct sym; [contradiction|reflexivity|reflexivity].
Qed.
(** ** Numbers and signs *)
(** two times it is twice as long; a number that is no int, another operator and a sign raise *)
Theorem C83_repeated_refuted : forall o q t l b n z, built q l b -> int_of n = Some z -> (0 <= z)%Z ->
  exists r, lwith PMul o (set_values q (OSeq t l)) n = Ok r /\ alen r = (Z.to_nat z * alen b)%nat /\ (forall i, (i < Z.to_nat z * length l)%nat -> nth_error (iterated r) i = nth_error (iterated b) (Nat.modulo i (length l))).
Proof.
  intros o [k x v] t l b n z H Hz Pz. destruct (built_is _ _ _ H) as (-> & S & N). cbn [l_kind l_unit] in *. exists (AQ k x (Arr Ndarray (repeated l z))). unfold ListVals.lwith, set_values. cbn [l_kind l_unit l_val py_bin]. rewrite Hz. cbn [rbind]. rewrite N.
  unfold lmake, amakep, amake, checked. rewrite N, S. split; [reflexivity|]. unfold alen, iterated, repeated. cbn [a_val]. clear. induction (Z.to_nat z) as [|m [IH1 IH2]].
  - split; [reflexivity|]. intros i Hi. exfalso. cbn in Hi. lia.
  - cbn [repeat concat]. split; [rewrite app_length, IH1; reflexivity|]. intros i Hi. destruct (Nat.lt_ge_cases i (length l)) as [L|L].
    + rewrite nth_error_app1 by exact L. now rewrite Nat.mod_small by exact L.
    + rewrite nth_error_app2 by exact L. rewrite IH2 by (cbn in Hi; lia). f_equal. destruct (length l) as [|p] eqn:Ep; [cbn in Hi; lia|].
      replace i with ((i - Datatypes.S p) + 1 * Datatypes.S p)%nat at 2 by lia. rewrite Nat.mod_add by discriminate. reflexivity.
Qed.
Theorem C83_numbers_refuted : forall (q : lqty V) t (l : list V), 
  (forall sym o n, sym <> PMul \/ int_of n = None -> lwith sym o (set_values q (OSeq t l)) n = Err TypeError)
  /\ (forall op, leach cls true op (set_values q (OSeq t l)) = Err AttributeError) /\ (forall op, leach cls false op (set_values q (OSeq t l)) = Err TypeError).
Proof.
  intros [k x v] t l. split; [|split; reflexivity]. intros sym o n H. unfold ListVals.lwith, set_values. cbn [l_kind l_unit l_val py_bin]. destruct sym; try reflexivity. destruct H as [H|H]; [contradiction|]. now rewrite H.
Qed.
(** ** Comparisons *)
Theorem C83_compared : division_agrees ediv -> forall s cs ordered op q t l b c lc, numeric_session ediv s -> Forall numeric_call cs -> built q l b -> a_kind c = l_kind q -> a_val c = Arr Ndarray lc ->
  lcompare ediv cls ordered op (set_values q (OSeq t l)) (as_made c) (calls cs s) = acompare ediv cls op b c (calls cs s)
  /\ lcompare ediv cls ordered op (as_made c) (set_values q (OSeq t l)) (calls cs s) = acompare ediv cls op c b (calls cs s).
Proof.
  intros Hd s cs ordered op [k x v] t l b [k' y w] lc Hs Hc H Ek Ev. destruct (built_is _ _ _ H) as (-> & _ & N). cbn [l_kind l_unit a_kind a_val] in *. subst k' w. pose proof (session_inv ediv Hd s cs Hs Hc) as Is.
  split; unfold lcompare, acompare, set_values, as_made; cbn [l_kind l_unit l_val a_kind a_unit a_val]; np.
  - unfold bind, lto, ato. cbn [l_kind l_unit l_val a_kind a_unit a_val]. unfold bind. pose proof (convertible_keeps ediv (calls cs s) y x None Is) as I1. np. destruct (convertible y x None (calls cs s)) as [[c1|e] s1]; [|reflexivity]. cbn [snd] in I1. destruct c1; [|reflexivity].
    change (lconv ediv WrongValueError (ONd (Arr Ndarray lc)) y x s1) with (aconv ediv WrongValueError (Arr Ndarray lc) y x s1).
    destruct (aconv ediv WrongValueError (Arr Ndarray lc) y x s1) as [[w|e] s2] eqn:E; [|reflexivity]. destruct (aconv_arr WrongValueError Ndarray lc y x s1 w s2 Hd I1 E) as (lw & ->).
    unfold lift, amake. destruct (smem x (cls k)); reflexivity.
  - reflexivity.
Qed.
(** with a number: <, <=, >=, > raise, == is False and != is True as a whole *)
Theorem C83_compared_number_refuted : forall op (q : lqty V) t (l : list V) (n : V), 
  lcompare_num None op (set_values q (OSeq t l)) n = Err TypeError /\ forall d, lcompare_num (Some d) op (set_values q (OSeq t l)) n = Ok (BOne d).
Proof. intros op q t l n. split; reflexivity. Qed.
(** an array assigned is the array: nothing differs *)
Theorem C83_array : forall (q : lqty V) (v : npv V), let g := set_values q (ONd v) in let b := AQ (l_kind q) (l_unit q) v in l_kind q <> u "Percentage" ->
  lcount g = alen b /\ literated g = iterated b /\ (forall i, litem ediv cls g i = item cls b i) /\ (forall x s, lto ediv cls g x s = ato ediv cls b x s)
  /\ (forall neg op, leach cls neg op g = aeach cls op b) /\ (forall ordered op n, lcompare_num ordered op g n = nd_cmp op v (Num n)).
Proof. intros [k x w] v g b N. repeat split. Qed.
(** ... and with a number *)
Theorem C83_array_number : forall (q : lqty V) (v : npv V) sym (o : binop V) (n : V),
  lwith sym o (set_values q (ONd v)) n = ArrNum.awith ediv cls o (AQ (l_kind q) (l_unit q) v) n.
Proof.
  intros [k x w] v sym o n. unfold ListVals.lwith, ArrNum.awith, set_values, lmake, checked, py_hundred, apercent. cbn [l_kind l_unit l_val a_kind a_unit a_val py_bin].
  destruct v as [a|c a]; (destruct (nd_bin o _ (Num n)) as [y|e]; cbn [rbind]; [|reflexivity]); destruct (is_k k "Percentage") eqn:K.
  all: first [destruct (nd_bin b_mul y (Num (aconst 100))) as [z|e]; reflexivity | unfold amakep; rewrite K; reflexivity].
Qed.
End C83.
Print Assumptions C83_items.
Print Assumptions C83_converted.
Print Assumptions C83_sum.
Print Assumptions C83_sum_units.
Print Assumptions C83_joined_refuted.
Print Assumptions C83_repeated_refuted.
Print Assumptions C83_numbers_refuted.
Print Assumptions C83_compared.
Print Assumptions C83_compared_number_refuted.
Print Assumptions C83_array.
Print Assumptions C83_array_number.

(** ** Example: q = Length(0, 'm'); q.values = [2, 3]; p = Length(0, 'km'); p.values = (5, 7) *)
Definition list_q : lqty Qc := LQ (u "Length") (u "m") (ONd (Num (Q2Qc 0))).
Definition list_p : lqty Qc := LQ (u "Length") (u "km") (ONd (Num (Q2Qc 0))).
Definition list_2 : list Qc := [Q2Qc 2; Q2Qc 3].
Definition list_5 : list Qc := [Q2Qc 5; Q2Qc 7].
Definition int_qc (x : Qc) : option Z := match Qden x with xH => Some (Qnum x) | _ => None end.
Lemma list_built : built Qc demo_cls list_q list_2 (AQ (u "Length") (u "m") (Arr Ndarray list_2)) /\ built Qc demo_cls list_p list_5 (AQ (u "Length") (u "km") (Arr Ndarray list_5)).
Proof. split; (split; [vm_compute; reflexivity|vm_compute; discriminate]). Qed.
Example C83_example :
  fst (ListVals.lsum qediv demo_cls int_qc PAdd Qcplus (set_values list_q (OSeq false list_2)) (set_values list_p (OSeq true list_5)) demo_arr) = Ok (AQ (u "Length") (u "m") (Arr Ndarray [Q2Qc 5002; Q2Qc 7003]))
  /\ fst (ListVals.lsum qediv demo_cls int_qc PAdd Qcplus (set_values list_q (OSeq false list_2)) (set_values list_q (OSeq false list_5)) demo_arr) = Ok (AQ (u "Length") (u "m") (Arr Ndarray [Q2Qc 2; Q2Qc 3; Q2Qc 5; Q2Qc 7]))
  /\ ListVals.lwith qediv demo_cls int_qc PMul b_mul (set_values list_q (OSeq false list_2)) (Q2Qc 2) = Ok (AQ (u "Length") (u "m") (Arr Ndarray [Q2Qc 2; Q2Qc 3; Q2Qc 2; Q2Qc 3]))
  /\ ListVals.lwith qediv demo_cls int_qc PMul b_mul (set_values list_q (OSeq false list_2)) (Q2Qc (5 # 2)) = Err TypeError.
Proof. repeat split; try reflexivity; apply same_q_eq; vm_compute; reflexivity. Qed.
