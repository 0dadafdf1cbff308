(** * Quantities of arrays: the facts *)
From Coq Require Import String QArith Qcanon ZArith Lia.
From Verif Require Import Py StrTools Network Conv Converter EngineSpec EngineFacts EngineFacts7 EngineInv NumPy NumPySpec NumPyFacts Units ArrQty.
Local Open Scope N_scope.

Section F.
Context {V : Type} {A : Arith V} (ediv : V -> V -> V) (cls : str -> list str).
Hypothesis Hd : division_agrees ediv.
Local Instance npA' : Arith (npv V) := np_arith ediv.
Ltac np := unfold arr_arith, npA', NumPyFacts.npA in *.
Notation ato := (ato ediv cls).
Notation asum := (asum ediv cls).
Notation item := (item cls).
Notation ninv := (inv is_num (elementwise_conv ediv)).

Lemma item_nth k x bx (l : list V) i : smem x (cls k) = true -> is_k k "Percentage" = false -> (0 <= i)%Z ->
  item (AQ k x (Arr bx l)) i = match nth_error l (Z.to_nat i) with Some v => Ok (AQ k x (Num v)) | None => Err IndexError end.
Proof.
  intros Hx Hk Hi. unfold ArrQty.item, alen. cbn [a_val a_kind a_unit]. rewrite Hk. destruct (Z.leb_spec (Z.of_nat (length l)) i) as [L|L].
  - rewrite (proj2 (nth_error_None l (Z.to_nat i))); [reflexivity|lia].
  - unfold nd_item. destruct (Z.ltb_spec i 0) as [N|N]; [lia|]. destruct (Z.ltb_spec i 0); [lia|]. destruct (nth_error l (Z.to_nat i)) as [v|]; [|reflexivity].
    cbn [rbind]. unfold amake. rewrite Hx. reflexivity.
Qed.
Lemma item_back k x bx (l : list V) i : (0 < i)%Z -> (i <= Z.of_nat (length l))%Z ->
  item (AQ k x (Arr bx l)) (- i) = item (AQ k x (Arr bx l)) (Z.of_nat (length l) - i).
Proof.
  intros H0 H1. unfold ArrQty.item, alen. cbn [a_val a_kind a_unit]. destruct (Z.leb_spec (Z.of_nat (length l)) (- i)) as [L|L]; [lia|].
  destruct (Z.leb_spec (Z.of_nat (length l)) (Z.of_nat (length l) - i)) as [L'|L']; [lia|].
  assert (E : nd_item l (- i) = nd_item l (Z.of_nat (length l) - i)).
  { unfold nd_item. destruct (Z.ltb_spec (- i) 0); [|lia]. destruct (Z.ltb_spec (Z.of_nat (length l) - i) 0); [lia|].
    replace (- i + Z.of_nat (length l))%Z with (Z.of_nat (length l) - i)%Z by lia. reflexivity. }
  rewrite E. reflexivity.
Qed.
Lemma convert_num s f t uc x w : ninv s -> fst (Converter.convert (VNum (Num x)) f t uc s) = Ok (Some (CVal w)) -> exists y, w = Num y.
Proof.
  np. intros Is H. pose proof (convert_shape ediv Hd f t uc s Is) as X. np. destruct X as [(h & s' & Hw & Hv)|(r & s' & Hr & Hv)].
  - specialize (Hv (Num x)). destruct (feval (fv_of s') h (Num x)) as [w0|e] eqn:E0; rewrite Hv in H; cbn [fst] in H; [|discriminate H]. injection H as <-.
    destruct (ew_num _ Hw x w0 E0) as (y & ->). exists y. reflexivity.
  - rewrite Hv in H. cbn [fst] in H. exfalso. exact (Hr _ H).
Qed.
Lemma convertible_keeps s f t uc : ninv s -> ninv (snd (convertible f t uc s)).
Proof. intros Is. exact (convertible_inv is_num (elementwise_conv ediv) (is_const ediv) (n_mul ediv) (n_div ediv) (n_ceval ediv) f t uc s Is). Qed.
(** [_convert] of an array *)
Lemma aconv_array e s f t bx l : ninv s -> l <> [] -> (forall x, In x l -> exists w, fst (aconv ediv e (Num x) f t s) = Ok w) ->
  exists l', fst (aconv ediv e (Arr bx l) f t s) = Ok (Arr Ndarray l') /\ Forall2 (fun x y => fst (aconv ediv e (Num x) f t s) = Ok (Num y)) l l'.
Proof.
  np. intros Is Hl Hx.
  assert (Hx' : forall x, In x l -> exists y, fst (Converter.convert (VNum (Num x)) (UStr f) (UStr t) None s) = Ok (Some (CVal (Num y)))).
  { intros x I. destruct (Hx x I) as (w & Hw). unfold aconv, bind, vin_of in Hw. destruct (Converter.convert (VNum (Num x)) (UStr f) (UStr t) None s) as [[[[y|h]|]|e'] s1] eqn:E0; cbn [ret raise fst] in Hw; try discriminate Hw.
    pose proof (convert_num s (UStr f) (UStr t) None x y Is) as X; np. destruct X as (z & ->); [rewrite E0; reflexivity|]. exists z. reflexivity. }
  pose proof (array_convert ediv Hd s (UStr f) (UStr t) None Ndarray l Is Hl Hx') as X. np. destruct X as (l' & R & Fa & _). exists l'. split.
  - unfold aconv, bind, vin_of. change (Converter.convert (VIter (Arr Ndarray l)) (UStr f) (UStr t) None s) with (Converter.convert (VNum (Arr Ndarray l)) (UStr f) (UStr t) None s).
    destruct (Converter.convert (VNum (Arr Ndarray l)) (UStr f) (UStr t) None s) as [r s1]. cbn [fst] in R. subst r. reflexivity.
  - clear -Fa. induction Fa as [|x y l l' Hy _ IH]; constructor; [|exact IH]. unfold aconv, bind, vin_of. destruct (Converter.convert (VNum (Num x)) (UStr f) (UStr t) None s) as [r s1]. cbn [fst] in Hy. subst r. reflexivity.
Qed.

Lemma Forall2_nth {X Y} (R : X -> Y -> Prop) l l' : Forall2 R l l' -> forall i x, nth_error l i = Some x -> exists y, nth_error l' i = Some y /\ R x y.
Proof.
  intros Fa. induction Fa as [|x0 y0 l l' H0 _ IH]; intros i x E0; [destruct i; discriminate E0|]. destruct i as [|i]; cbn [nth_error] in E0 |- *.
  - injection E0 as <-. exists y0. split; [reflexivity|exact H0].
  - exact (IH i x E0).
Qed.
Lemma Forall2_len {X Y} (R : X -> Y -> Prop) l l' : Forall2 R l l' -> length l = length l'.
Proof. intros Fa. induction Fa as [|x0 y0 l l' _ _ IH]; [reflexivity|]. cbn [length]. now f_equal. Qed.
Lemma nth_combine {X Y} (l : list X) (l' : list Y) : forall i x y, nth_error l i = Some x -> nth_error l' i = Some y -> nth_error (combine l l') i = Some (x, y).
Proof.
  revert l'. induction l as [|x0 l IH]; intros l' i x y E0 E1; [destruct i; discriminate E0|]. destruct l' as [|y0 l']; [destruct i; discriminate E1|].
  destruct i as [|i]; cbn [nth_error combine] in *; [injection E0 as <-; injection E1 as <-; reflexivity|exact (IH l' i x y E0 E1)].
Qed.
Lemma nth_same {X Y} (l : list X) (l' : list Y) i x : length l = length l' -> nth_error l i = Some x -> exists y, nth_error l' i = Some y.
Proof.
  intros El E0. destruct (nth_error l' i) as [y|] eqn:E1; [exists y; reflexivity|]. apply nth_error_None in E1. exfalso.
  assert (N : nth_error l i <> None) by (rewrite E0; discriminate). apply nth_error_Some in N. lia.
Qed.
Lemma zip_same {X} (op : V -> V -> X) (l l' : list V) : length l = length l' -> nd_map2 op l l' = Ok (map (fun p => op (fst p) (snd p)) (combine l l')).
Proof. intros El. unfold nd_map2. rewrite El, Nat.eqb_refl. reflexivity. Qed.
Lemma zip_nth {X} (op : V -> V -> X) (l l' : list V) i x y : nth_error l i = Some x -> nth_error l' i = Some y ->
  nth_error (map (fun p => op (fst p) (snd p)) (combine l l')) i = Some (op x y).
Proof. intros E0 E1. rewrite nth_error_map, (nth_combine l l' i x y E0 E1). reflexivity. Qed.

(** ** [to] *)
Lemma ato_array s k f t bx l : ninv s -> l <> [] -> (forall x, In x l -> exists r, fst (ato (AQ k f (Num x)) t s) = Ok r) ->
  exists l', fst (ato (AQ k f (Arr bx l)) t s) = Ok (AQ k t (Arr Ndarray l')) /\ Forall2 (fun x y => fst (ato (AQ k f (Num x)) t s) = Ok (AQ k t (Num y))) l l' /\ smem t (cls k) = true.
Proof.
  np. intros Is Hl Hx. unfold ArrQty.ato, bind in *. cbn [a_unit a_val a_kind] in *. np. pose proof (convertible_keeps s f t None Is) as I1. np.
  destruct (convertible f t None s) as [[[|]|e] s1]; cbn [snd] in I1.
  - assert (Hx' : forall x, In x l -> exists w, fst (aconv ediv WrongValueError (Num x) f t s1) = Ok w).
    { intros x I0. destruct (Hx x I0) as (r & Hr). destruct (aconv ediv WrongValueError (Num x) f t s1) as [[w|e] s2]; [exists w; reflexivity|discriminate Hr]. }
    assert (Hs : smem t (cls k) = true).
    { destruct l as [|x l]; [contradiction|]. destruct (Hx x (or_introl eq_refl)) as (r & Hr). destruct (aconv ediv WrongValueError (Num x) f t s1) as [[w|e] s2]; [|discriminate Hr].
      unfold lift, amake in Hr. cbn [fst] in Hr. destruct (smem t (cls k)); [reflexivity|discriminate Hr]. }
    destruct (aconv_array WrongValueError s1 f t bx l I1 Hl Hx') as (l' & R & Fa). exists l'. split; [|split; [|exact Hs]].
    + destruct (aconv ediv WrongValueError (Arr bx l) f t s1) as [r s2]. cbn [fst] in R. subst r. unfold lift, amake. rewrite Hs. reflexivity.
    + clear -Fa Hs. induction Fa as [|x y l l' Hy _ IH]; constructor; [|exact IH]. destruct (aconv ediv WrongValueError (Num x) f t s1) as [r s2]. cbn [fst] in Hy. subst r. unfold lift, amake. rewrite Hs. reflexivity.
  - destruct l as [|x l]; [contradiction|]. destruct (Hx x (or_introl eq_refl)) as (r & Hr). discriminate Hr.
  - destruct l as [|x l]; [contradiction|]. destruct (Hx x (or_introl eq_refl)) as (r & Hr). discriminate Hr.
Qed.

(** ** Sums *)
Inductive mode := Same | First | Second | Fails (e : exn).
Definition in_mode (op : V -> V -> V) (m : mode) (s : st (npv V)) (k x y : str) (va vb : npv V) : res (aqty V) * st (npv V) :=
  match m with
  | Same => (rbind (nd_op op va vb) (fun v => amake cls k v x), s)
  | First => bind (aconv ediv TypeError vb y x) (fun v => lift (rbind (nd_op op va v) (fun v => amake cls k v x))) s
  | Second => bind (aconv ediv TypeError va x y) (fun v => lift (rbind (nd_op op vb v) (fun v => amake cls k v y))) s
  | Fails e => (Err e, s)
  end.
Lemma asum_mode op x y s : ninv s -> exists m s1, ninv s1 /\ forall k va vb, asum op (AQ k x va) (AQ k y vb) s = in_mode op m s1 k x y va vb.
Proof.
  intros Is. unfold ArrQty.asum. cbn [a_unit a_val a_kind]. destruct (seqb x y); [exists Same, s; split; [exact Is|reflexivity]|].
  pose proof (convertible_keeps s y x None Is) as I1. np. destruct (convertible y x None s) as [[[|]|e] s1] eqn:E1; cbn [snd] in I1.
  - exists First, s1. split; [exact I1|]. intros k va vb. unfold bind at 1. np. rewrite E1. reflexivity.
  - pose proof (convertible_keeps s1 x y None I1) as I2. np. destruct (convertible x y None s1) as [[[|]|e] s2] eqn:E2; cbn [snd] in I2.
    + exists Second, s2. split; [exact I2|]. intros k va vb. unfold bind at 1. rewrite E1. unfold bind at 1. rewrite E2. reflexivity.
    + exists (Fails NoConversionFoundError), s2. split; [exact I2|]. intros k va vb. unfold bind at 1. rewrite E1. unfold bind at 1. rewrite E2. reflexivity.
    + exists (Fails e), s2. split; [exact I2|]. intros k va vb. unfold bind at 1. rewrite E1. unfold bind at 1. rewrite E2. reflexivity.
  - exists (Fails e), s1. split; [exact I1|]. intros k va vb. unfold bind at 1. rewrite E1. reflexivity.
Qed.

Lemma map_ok {X} (l : list X) : l <> [] -> exists i x, nth_error l i = Some x.
Proof. destruct l as [|x l]; [contradiction|]. intros _. exists O, x. reflexivity. Qed.
(** two arrays of one length *)
Lemma asum_arrays op k x y bx by' (l l' : list V) s : ninv s -> l <> [] -> length l = length l' ->
  (forall i p q, nth_error l i = Some p -> nth_error l' i = Some q -> exists r, fst (asum op (AQ k x (Num p)) (AQ k y (Num q)) s) = Ok r) ->
  exists t b' lr, fst (asum op (AQ k x (Arr bx l)) (AQ k y (Arr by' l')) s) = Ok (AQ k t (Arr b' lr)) /\ smem t (cls k) = true /\ length lr = length l
    /\ forall i p q, nth_error l i = Some p -> nth_error l' i = Some q -> exists z, nth_error lr i = Some z /\ fst (asum op (AQ k x (Num p)) (AQ k y (Num q)) s) = Ok (AQ k t (Num z)).
Proof.
  intros Is Hl El Hok. destruct (asum_mode op x y s Is) as (m & s1 & I1 & Hm). rewrite Hm.
  assert (Hok' : forall i p q, nth_error l i = Some p -> nth_error l' i = Some q -> exists r, fst (in_mode op m s1 k x y (Num p) (Num q)) = Ok r).
  { intros i p q E0 E1. destruct (Hok i p q E0 E1) as (r & Hr). rewrite Hm in Hr. exists r. exact Hr. }
  assert (G : exists t b' lr, fst (in_mode op m s1 k x y (Arr bx l) (Arr by' l')) = Ok (AQ k t (Arr b' lr)) /\ smem t (cls k) = true /\ length lr = length l
    /\ forall i p q, nth_error l i = Some p -> nth_error l' i = Some q -> exists z, nth_error lr i = Some z /\ fst (in_mode op m s1 k x y (Num p) (Num q)) = Ok (AQ k t (Num z))).
  2: { destruct G as (t & b' & lr & G1 & G2 & G3 & G4). exists t, b', lr. split; [exact G1|]. split; [exact G2|]. split; [exact G3|]. intros i p q E0 E1. rewrite Hm. exact (G4 i p q E0 E1). }
  clear Hm Hok. destruct (map_ok l Hl) as (i0 & p0 & E0). destruct (nth_same l l' i0 p0 El E0) as (q0 & E0'). destruct (Hok' i0 p0 q0 E0 E0') as (r0 & Hr0).
  assert (Hl' : l' <> []) by (intros ->; destruct i0; discriminate E0').
  destruct m as [| | |e]; cbn [in_mode] in *.
  - unfold nd_op, broadcast, rbind, amake in Hr0 |- *. cbn [fst] in Hr0. destruct (smem x (cls k)) eqn:Sx; [|discriminate Hr0].
    rewrite (zip_same op l l' El). cbn [fst]. exists x, bx, (map (fun p => op (fst p) (snd p)) (combine l l')). split; [reflexivity|]. split; [exact Sx|].
    split; [rewrite map_length, combine_length; lia|]. intros i p q E1 E2. exists (op p q). split; [exact (zip_nth op l l' i p q E1 E2)|reflexivity].
  - unfold bind in *. np.
    assert (Hx : forall q, In q l' -> exists w, fst (aconv ediv TypeError (Num q) y x s1) = Ok w).
    { intros q I0. apply In_nth_error in I0 as (i & E1). destruct (nth_same l' l i q (eq_sym El) E1) as (p & E2). destruct (Hok' i p q E2 E1) as (r & Hr).
      destruct (aconv ediv TypeError (Num q) y x s1) as [[w|e] s2]; [exists w; reflexivity|discriminate Hr]. }
    assert (Sx : smem x (cls k) = true).
    { destruct (aconv ediv TypeError (Num q0) y x s1) as [[w|e] s2]; [|discriminate Hr0]. unfold lift, rbind, amake in Hr0. cbn [fst] in Hr0.
      destruct (nd_op op (Num p0) w); [|discriminate Hr0]. destruct (smem x (cls k)); [reflexivity|discriminate Hr0]. }
    destruct (aconv_array TypeError s1 y x by' l' I1 Hl' Hx) as (l2 & R & Fa). np. pose proof (Forall2_len _ _ _ Fa) as L2.
    destruct (aconv ediv TypeError (Arr by' l') y x s1) as [r s2]. cbn [fst] in R. subst r. unfold lift at 1. cbn [nd_op].
    rewrite (zip_same op l l2) by congruence. cbn [rbind fst]. unfold amake at 1. rewrite Sx.
    exists x, bx, (map (fun p => op (fst p) (snd p)) (combine l l2)). split; [reflexivity|]. split; [exact Sx|].
    split; [rewrite map_length, combine_length; lia|]. intros i p q E1 E2. destruct (Forall2_nth _ _ _ Fa i q E2) as (q' & E3 & Hq').
    exists (op p q'). split; [exact (zip_nth op l l2 i p q' E1 E3)|]. destruct (aconv ediv TypeError (Num q) y x s1) as [r s3]. cbn [fst] in Hq'. subst r.
    unfold lift, nd_op, broadcast, rbind, amake. rewrite Sx. reflexivity.
  - unfold bind in *. np.
    assert (Hx : forall p, In p l -> exists w, fst (aconv ediv TypeError (Num p) x y s1) = Ok w).
    { intros p I0. apply In_nth_error in I0 as (i & E1). destruct (nth_same l l' i p El E1) as (q & E2). destruct (Hok' i p q E1 E2) as (r & Hr).
      destruct (aconv ediv TypeError (Num p) x y s1) as [[w|e] s2]; [exists w; reflexivity|discriminate Hr]. }
    assert (Sy : smem y (cls k) = true).
    { destruct (aconv ediv TypeError (Num p0) x y s1) as [[w|e] s2]; [|discriminate Hr0]. unfold lift, rbind, amake in Hr0. cbn [fst] in Hr0.
      destruct (nd_op op (Num q0) w); [|discriminate Hr0]. destruct (smem y (cls k)); [reflexivity|discriminate Hr0]. }
    destruct (aconv_array TypeError s1 x y bx l I1 Hl Hx) as (l2 & R & Fa). np. pose proof (Forall2_len _ _ _ Fa) as L2.
    destruct (aconv ediv TypeError (Arr bx l) x y s1) as [r s2]. cbn [fst] in R. subst r. unfold lift at 1. cbn [nd_op].
    rewrite (zip_same op l' l2) by congruence. cbn [rbind fst]. unfold amake at 1. rewrite Sy.
    exists y, by', (map (fun p => op (fst p) (snd p)) (combine l' l2)). split; [reflexivity|]. split; [exact Sy|].
    split; [rewrite map_length, combine_length; lia|]. intros i p q E1 E2. destruct (Forall2_nth _ _ _ Fa i p E1) as (p' & E3 & Hp').
    exists (op q p'). split; [exact (zip_nth op l' l2 i q p' E2 E3)|]. destruct (aconv ediv TypeError (Num p) x y s1) as [r s3]. cbn [fst] in Hp'. subst r.
    unfold lift, nd_op, broadcast, rbind, amake. rewrite Sy. reflexivity.
  - discriminate Hr0.
Qed.

(** broadcasting of an array of one element *)
Definition pick {X} (l : list X) (i : nat) : nat := if Nat.eqb (length l) 1 then O else i.
Lemma pick_in {X} (l : list X) i : (length l = 1 \/ i < length l)%nat -> l <> [] -> exists p, nth_error l (pick l i) = Some p.
Proof.
  intros H Hl. assert (L : (pick l i < length l)%nat) by (unfold pick; destruct (Nat.eqb_spec (length l) 1); destruct l; cbn [length] in *; try contradiction; lia).
  apply nth_error_Some in L. destruct (nth_error l (pick l i)) as [p|]; [exists p; reflexivity|contradiction].
Qed.
Lemma nd_pick {X} (op : V -> V -> X) l l' : l <> [] -> l' <> [] -> (length l = 1 \/ length l' = 1)%nat ->
  exists lr, nd_map2 op l l' = Ok lr /\ length lr = Nat.max (length l) (length l')
    /\ forall i p q, (i < length lr)%nat -> nth_error l (pick l i) = Some p -> nth_error l' (pick l' i) = Some q -> nth_error lr i = Some (op p q).
Proof.
  intros Hl Hl' H1. unfold nd_map2. destruct (Nat.eqb_spec (length l) (length l')) as [El|El].
  - eexists. split; [reflexivity|]. split; [rewrite map_length, combine_length; lia|]. intros i p q Hi E0 E1. rewrite map_length, combine_length in Hi.
    assert (i = O) by lia. subst i. unfold pick in *. replace (length l) with 1%nat in * by lia. replace (length l') with 1%nat in * by lia. cbn [Nat.eqb] in *. exact (zip_nth op l l' 0 p q E0 E1).
  - destruct l' as [|y [|y' l']]; [contradiction| |].
    + destruct l as [|x [|x' l]]; [contradiction|now elim El|]. eexists. split; [reflexivity|]. split; [rewrite map_length; cbn [length]; lia|].
      intros i p q Hi E0 E1. cbn [pick length Nat.eqb nth_error] in E1. injection E1 as <-. unfold pick in E0. cbn [length Nat.eqb] in E0. rewrite nth_error_map, E0. reflexivity.
    + destruct l as [|x [|x' l]]; [contradiction| |exfalso; cbn [length] in H1; lia]. eexists. split; [reflexivity|]. split; [rewrite map_length; cbn [length]; lia|].
      intros i p q Hi E0 E1. cbn [pick length Nat.eqb nth_error] in E0. injection E0 as <-. unfold pick in E1. cbn [length Nat.eqb] in E1. rewrite nth_error_map, E1. reflexivity.
Qed.
Lemma pick_len {X Y} (l : list X) (l' : list Y) i : length l = length l' -> pick l i = pick l' i.
Proof. intros El. unfold pick. now rewrite El. Qed.
Lemma asum_single op k x y bx by' (l l' : list V) s : ninv s -> l <> [] -> l' <> [] -> (length l = 1 \/ length l' = 1)%nat ->
  (forall p q, In p l -> In q l' -> exists r, fst (asum op (AQ k x (Num p)) (AQ k y (Num q)) s) = Ok r) ->
  exists t b' lr, fst (asum op (AQ k x (Arr bx l)) (AQ k y (Arr by' l')) s) = Ok (AQ k t (Arr b' lr)) /\ smem t (cls k) = true /\ length lr = Nat.max (length l) (length l')
    /\ forall i p q, (i < length lr)%nat -> nth_error l (pick l i) = Some p -> nth_error l' (pick l' i) = Some q -> exists z, nth_error lr i = Some z /\ fst (asum op (AQ k x (Num p)) (AQ k y (Num q)) s) = Ok (AQ k t (Num z)).
Proof.
  intros Is Hl Hl' H1 Hok. destruct (asum_mode op x y s Is) as (m & s1 & I1 & Hm). rewrite Hm.
  assert (Hok' : forall p q, In p l -> In q l' -> exists r, fst (in_mode op m s1 k x y (Num p) (Num q)) = Ok r).
  { intros p q E0 E1. destruct (Hok p q E0 E1) as (r & Hr). rewrite Hm in Hr. exists r. exact Hr. }
  assert (G : exists t b' lr, fst (in_mode op m s1 k x y (Arr bx l) (Arr by' l')) = Ok (AQ k t (Arr b' lr)) /\ smem t (cls k) = true /\ length lr = Nat.max (length l) (length l')
    /\ forall i p q, (i < length lr)%nat -> nth_error l (pick l i) = Some p -> nth_error l' (pick l' i) = Some q -> exists z, nth_error lr i = Some z /\ fst (in_mode op m s1 k x y (Num p) (Num q)) = Ok (AQ k t (Num z))).
  2: { destruct G as (t & b' & lr & G1 & G2 & G3 & G4). exists t, b', lr. split; [exact G1|]. split; [exact G2|]. split; [exact G3|]. intros i p q Hi E0 E1. rewrite Hm. exact (G4 i p q Hi E0 E1). }
  clear Hm Hok. assert (Ip : exists p, In p l) by (destruct l as [|p l0]; [contradiction|exists p; left; reflexivity]). assert (Iq : exists q, In q l') by (destruct l' as [|q l0]; [contradiction|exists q; left; reflexivity]).
  destruct Ip as (p0 & Ip), Iq as (q0 & Iq). destruct (Hok' p0 q0 Ip Iq) as (r0 & Hr0).
  destruct m as [| | |e]; cbn [in_mode] in *.
  - unfold nd_op, broadcast, rbind, amake in Hr0 |- *. cbn [fst] in Hr0. destruct (smem x (cls k)) eqn:Sx; [|discriminate Hr0].
    destruct (nd_pick op l l' Hl Hl' H1) as (lr & -> & Ll & Hn). cbn [fst]. exists x, bx, lr. split; [reflexivity|]. split; [exact Sx|]. split; [exact Ll|].
    intros i p q Hi E1 E2. exists (op p q). split; [exact (Hn i p q Hi E1 E2)|reflexivity].
  - unfold bind in *. np.
    assert (Hx : forall q, In q l' -> exists w, fst (aconv ediv TypeError (Num q) y x s1) = Ok w).
    { intros q I0. destruct (Hok' p0 q Ip I0) as (r & Hr). destruct (aconv ediv TypeError (Num q) y x s1) as [[w|e] s2]; [exists w; reflexivity|discriminate Hr]. }
    assert (Sx : smem x (cls k) = true).
    { destruct (aconv ediv TypeError (Num q0) y x s1) as [[w|e] s2]; [|discriminate Hr0]. unfold lift, rbind, amake in Hr0. cbn [fst] in Hr0.
      destruct (nd_op op (Num p0) w); [|discriminate Hr0]. destruct (smem x (cls k)); [reflexivity|discriminate Hr0]. }
    destruct (aconv_array TypeError s1 y x by' l' I1 Hl' Hx) as (l2 & R & Fa). np. pose proof (Forall2_len _ _ _ Fa) as L2.
    destruct (aconv ediv TypeError (Arr by' l') y x s1) as [r s2]. cbn [fst] in R. subst r. unfold lift at 1. cbn [nd_op].
    assert (Hl2 : l2 <> []) by (intros ->; destruct l'; [contradiction|discriminate L2]).
    destruct (nd_pick op l l2 Hl Hl2) as (lr & -> & Ll & Hn); [rewrite <- L2; exact H1|]. cbn [rbind fst]. unfold amake at 1. rewrite Sx.
    exists x, bx, lr. split; [reflexivity|]. split; [exact Sx|]. split; [rewrite L2; exact Ll|].
    intros i p q Hi E1 E2. destruct (Forall2_nth _ _ _ Fa _ q E2) as (q' & E3 & Hq').
    exists (op p q'). split; [apply Hn; [exact Hi|exact E1|rewrite <- (pick_len l' l2 i L2); exact E3]|]. destruct (aconv ediv TypeError (Num q) y x s1) as [r s3]. cbn [fst] in Hq'. subst r.
    unfold lift, nd_op, broadcast, rbind, amake. rewrite Sx. reflexivity.
  - unfold bind in *. np.
    assert (Hx : forall p, In p l -> exists w, fst (aconv ediv TypeError (Num p) x y s1) = Ok w).
    { intros p I0. destruct (Hok' p q0 I0 Iq) as (r & Hr). destruct (aconv ediv TypeError (Num p) x y s1) as [[w|e] s2]; [exists w; reflexivity|discriminate Hr]. }
    assert (Sy : smem y (cls k) = true).
    { destruct (aconv ediv TypeError (Num p0) x y s1) as [[w|e] s2]; [|discriminate Hr0]. unfold lift, rbind, amake in Hr0. cbn [fst] in Hr0.
      destruct (nd_op op (Num q0) w); [|discriminate Hr0]. destruct (smem y (cls k)); [reflexivity|discriminate Hr0]. }
    destruct (aconv_array TypeError s1 x y bx l I1 Hl Hx) as (l2 & R & Fa). np. pose proof (Forall2_len _ _ _ Fa) as L2.
    destruct (aconv ediv TypeError (Arr bx l) x y s1) as [r s2]. cbn [fst] in R. subst r. unfold lift at 1. cbn [nd_op].
    assert (Hl2 : l2 <> []) by (intros ->; destruct l; [contradiction|discriminate L2]).
    destruct (nd_pick op l' l2 Hl' Hl2) as (lr & -> & Ll & Hn); [rewrite <- L2; tauto|]. cbn [rbind fst]. unfold amake at 1. rewrite Sy.
    exists y, by', lr. split; [reflexivity|]. split; [exact Sy|]. split; [rewrite L2, Nat.max_comm; exact Ll|].
    intros i p q Hi E1 E2. destruct (Forall2_nth _ _ _ Fa _ p E1) as (p' & E3 & Hp').
    exists (op q p'). split; [apply Hn; [exact Hi|exact E2|rewrite <- (pick_len l l2 i L2); exact E3]|]. destruct (aconv ediv TypeError (Num p) x y s1) as [r s3]. cbn [fst] in Hp'. subst r.
    unfold lift, nd_op, broadcast, rbind, amake. rewrite Sy. reflexivity.
  - discriminate Hr0.
Qed.

(** an array and a number *)
Lemma asum_array_num op k x y bx (l : list V) q s : ninv s -> l <> [] ->
  (forall p, In p l -> exists r, fst (asum op (AQ k x (Num p)) (AQ k y (Num q)) s) = Ok r) ->
  exists t b' lr, fst (asum op (AQ k x (Arr bx l)) (AQ k y (Num q)) s) = Ok (AQ k t (Arr b' lr)) /\ smem t (cls k) = true
    /\ Forall2 (fun p z => fst (asum op (AQ k x (Num p)) (AQ k y (Num q)) s) = Ok (AQ k t (Num z))) l lr.
Proof.
  intros Is Hl Hok. destruct (asum_mode op x y s Is) as (m & s1 & I1 & Hm). rewrite Hm.
  assert (Hok' : forall p, In p l -> exists r, fst (in_mode op m s1 k x y (Num p) (Num q)) = Ok r).
  { intros p I0. destruct (Hok p I0) as (r & Hr). rewrite Hm in Hr. exists r. exact Hr. }
  assert (G : exists t b' lr, fst (in_mode op m s1 k x y (Arr bx l) (Num q)) = Ok (AQ k t (Arr b' lr)) /\ smem t (cls k) = true
    /\ Forall2 (fun p z => fst (in_mode op m s1 k x y (Num p) (Num q)) = Ok (AQ k t (Num z))) l lr).
  2: { destruct G as (t & b' & lr & G1 & G2 & G3). exists t, b', lr. split; [exact G1|]. split; [exact G2|]. clear -G3 Hm. induction G3 as [|p z l lr Hz _ IH]; constructor; [rewrite Hm; exact Hz|exact IH]. }
  clear Hm Hok. assert (Hr0 : exists p0, In p0 l) by (destruct l as [|p l]; [contradiction|exists p; left; reflexivity]). destruct Hr0 as (p0 & I0). destruct (Hok' p0 I0) as (r0 & Hr0).
  destruct m as [| | |e]; cbn [in_mode] in *.
  - unfold nd_op, broadcast, rbind, amake in Hr0 |- *. cbn [fst] in Hr0. destruct (smem x (cls k)) eqn:Sx; [|discriminate Hr0]. cbn [fst].
    exists x, bx, (map (fun p => op p q) l). split; [reflexivity|]. split; [exact Sx|]. rewrite ?Sx. clear. induction l as [|p l IH]; cbn [map]; constructor; [reflexivity|exact IH].
  - unfold bind in *. np.
    destruct (aconv ediv TypeError (Num q) y x s1) as [[w|e] s2] eqn:Ew; [|discriminate Hr0]. 
    assert (Nw : exists q', w = Num q').
    { unfold aconv, bind, vin_of in Ew. np. destruct (Converter.convert (VNum (Num q)) (UStr y) (UStr x) None s1) as [[[[w'|h]|]|e'] s3] eqn:E0; cbn [ret raise] in Ew; try discriminate Ew.
      injection Ew as <- _. pose proof (convert_num s1 (UStr y) (UStr x) None q w' I1) as X. np. rewrite E0 in X. exact (X eq_refl). }
    destruct Nw as (q' & ->). unfold lift, nd_op, broadcast, rbind, amake in Hr0 |- *. cbn [fst] in Hr0 |- *. destruct (smem x (cls k)) eqn:Sx; [|discriminate Hr0].
    exists x, bx, (map (fun p => op p q') l). split; [reflexivity|]. split; [exact Sx|]. clear. induction l as [|p l IH]; cbn [map]; constructor; [reflexivity|exact IH].
  - unfold bind in *. np.
    assert (Hx : forall p, In p l -> exists w, fst (aconv ediv TypeError (Num p) x y s1) = Ok w).
    { intros p I2. destruct (Hok' p I2) as (r & Hr). destruct (aconv ediv TypeError (Num p) x y s1) as [[w|e] s2]; [exists w; reflexivity|discriminate Hr]. }
    assert (Sy : smem y (cls k) = true).
    { destruct (aconv ediv TypeError (Num p0) x y s1) as [[w|e] s2]; [|discriminate Hr0]. unfold lift, rbind, amake in Hr0. cbn [fst] in Hr0.
      destruct (nd_op op (Num q) w); [|discriminate Hr0]. destruct (smem y (cls k)); [reflexivity|discriminate Hr0]. }
    destruct (aconv_array TypeError s1 x y bx l I1 Hl Hx) as (l2 & R & Fa). np.
    destruct (aconv ediv TypeError (Arr bx l) x y s1) as [r s2]. cbn [fst] in R. subst r. unfold lift at 1, nd_op at 1, broadcast, rbind at 1, amake at 1. rewrite Sy. cbn [fst].
    exists y, Ndarray, (map (op q) l2). split; [reflexivity|]. split; [exact Sy|]. clear -Fa Sy. induction Fa as [|p z l l2 Hz _ IH]; cbn [map]; constructor; [|exact IH].
    destruct (aconv ediv TypeError (Num p) x y s1) as [r s3]. cbn [fst] in Hz. subst r. unfold lift, nd_op, broadcast, rbind, amake. rewrite Sy. reflexivity.
  - discriminate Hr0.
Qed.
(** comparisons *)
Lemma acompare_arrays op k x y bx by' (l l' : list V) s : ninv s -> l <> [] -> length l = length l' ->
  (forall i p q, nth_error l i = Some p -> nth_error l' i = Some q -> exists r, fst (acompare ediv cls op (AQ k x (Num p)) (AQ k y (Num q)) s) = Ok r) ->
  exists lr, fst (acompare ediv cls op (AQ k x (Arr bx l)) (AQ k y (Arr by' l')) s) = Ok (BArr lr) /\ length lr = length l
    /\ forall i p q, nth_error l i = Some p -> nth_error l' i = Some q -> exists b, nth_error lr i = Some b /\ fst (acompare ediv cls op (AQ k x (Num p)) (AQ k y (Num q)) s) = Ok (BOne b).
Proof.
  intros Is Hl El Hok. assert (Hl' : l' <> []) by (intros ->; destruct l; [contradiction|discriminate El]).
  assert (Hx : forall q, In q l' -> exists r, fst (ato (AQ k y (Num q)) x s) = Ok r).
  { intros q I0. apply In_nth_error in I0 as (i & E1). destruct (nth_same l' l i q (eq_sym El) E1) as (p & E2). destruct (Hok i p q E2 E1) as (r & Hr).
    unfold acompare, bind in Hr. cbn [a_unit a_val] in Hr. destruct (ato (AQ k y (Num q)) x s) as [[w|e] s2]; [exists w; reflexivity|discriminate Hr]. }
  destruct (ato_array s k y x by' l' Is Hl' Hx) as (l2 & R & Fa & _). pose proof (Forall2_len _ _ _ Fa) as L2.
  exists (map (fun p => op (fst p) (snd p)) (combine l l2)). split; [|split].
  - unfold acompare, bind. cbn [a_unit a_val]. destruct (ato (AQ k y (Arr by' l')) x s) as [r s2]. cbn [fst] in R. subst r. unfold lift. cbn [a_val nd_cmp fst]. rewrite (zip_same op l l2) by congruence. reflexivity.
  - rewrite map_length, combine_length. lia.
  - intros i p q E1 E2. destruct (Forall2_nth _ _ _ Fa i q E2) as (q' & E3 & Hq'). exists (op p q'). split; [exact (zip_nth op l l2 i p q' E1 E3)|].
    unfold acompare, bind. cbn [a_unit a_val]. destruct (ato (AQ k y (Num q)) x s) as [r s2]. cbn [fst] in Hq'. subst r. reflexivity.
Qed.
End F.
