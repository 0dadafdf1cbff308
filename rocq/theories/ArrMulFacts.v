(** * Products and quotients of quantities of arrays: the facts *)
From Coq Require Import String QArith Qcanon ZArith Lia.
From Verif Require Import Py StrTools Network Conv Converter EngineSpec EngineFacts EngineFacts7 EngineInv NumPy NumPySpec NumPyFacts Database Shipped Operations Units ArrQty ArrQtyFacts ArrMul.
Local Open Scope N_scope.

Section F.
Context {F : Floats} {V : Type} {A : Arith V} (ediv : V -> V -> V) (cls : str -> list str) (named : str -> res (str * str)) (pw : V -> pnum F -> res V).
Hypothesis Hd : division_agrees ediv.
Local Instance npM : Arith (npv V) := np_arith ediv.
Ltac np := unfold arr_arith, mul_arith, npM, npA', NumPyFacts.npA in *.
Notation ninv := (inv is_num (elementwise_conv ediv)).
Notation aconv := (aconv ediv).
Notation amul_qty := (amul_qty ediv cls named pw).
Notation adiv_qty := (adiv_qty ediv cls named pw).

(** [v] is a number, the same [n] times, an array of [n] elements: its i-th is [f i], or one of a single element that is recycled *)
Definition sees (n : nat) (v : npv V) (f : nat -> V) : Prop :=
  match v with Num x => forall i, (i < n)%nat -> f i = x | Arr _ l => (length l = n \/ length l = 1)%nat /\ forall i, (i < n)%nat -> nth_error l (pick l i) = Some (f i) end.
(** a number, or how many elements *)
Definition wd (v : npv V) : nat := match v with Num _ => O | Arr _ l => length l end.
(** what works element by element *)
Definition elem1 (m : npv V -> res (aqty V)) : Prop := forall n v f, (0 < n)%nat -> sees n v f -> (forall i, (i < n)%nat -> exists r, m (Num (f i)) = Ok r) ->
  exists k t v' h, m v = Ok (AQ k t v') /\ sees n v' h /\ wd v' = wd v /\ forall i, (i < n)%nat -> m (Num (f i)) = Ok (AQ k t (Num (h i))).
Definition elem2 (m : npv V -> npv V -> res (aqty V)) : Prop := forall n va vb f g, (0 < n)%nat -> sees n va f -> sees n vb g -> (forall i, (i < n)%nat -> exists r, m (Num (f i)) (Num (g i)) = Ok r) ->
  exists k t v' h, m va vb = Ok (AQ k t v') /\ sees n v' h /\ wd v' = Nat.max (wd va) (wd vb) /\ forall i, (i < n)%nat -> m (Num (f i)) (Num (g i)) = Ok (AQ k t (Num (h i))).

(** ** Operators *)
Definition agrees (o : binop V) : Prop := forall x y z, on_numbers o x y = Ok z -> on_elements o x y = z.
Lemma agrees_mul : agrees b_mul.
Proof. intros x y z E. injection E as <-. reflexivity. Qed.
Lemma agrees_div : agrees (b_div ediv).
Proof. exact Hd. Qed.
Lemma map_sees n b l f (op : V -> V) : sees n (Arr b l) f -> sees n (Arr b (map op l)) (fun i => op (f i)).
Proof. intros [L H]. split; [now rewrite map_length|]. intros i Hi. now rewrite <- (pick_len l (map op l) i (eq_sym (map_length op l))), nth_error_map, (H i Hi). Qed.
(** an operator on two values *)
Lemma bin_sees (o : binop V) n (va vb : npv V) (f g : nat -> V) : agrees o -> (0 < n)%nat -> sees n va f -> sees n vb g -> (forall i, (i < n)%nat -> exists z, on_numbers o (f i) (g i) = Ok z) ->
  exists v h, nd_bin o va vb = Ok v /\ sees n v h /\ wd v = Nat.max (wd va) (wd vb) /\ forall i, (i < n)%nat -> on_numbers o (f i) (g i) = Ok (h i).
Proof.
  intros Ho Hn Sa Sb Hz. set (h := fun i => on_elements o (f i) (g i)).
  assert (Hh : forall i, (i < n)%nat -> on_numbers o (f i) (g i) = Ok (h i)).
  { intros i Hi. destruct (Hz i Hi) as (z & Ez). unfold h. now rewrite (Ho _ _ _ Ez). }
  destruct va as [x|bx l], vb as [y|b' l']; cbn [nd_bin nd_op broadcast].
  - pose proof (Hh O Hn) as E0. rewrite (Sa O Hn), (Sb O Hn) in E0. rewrite E0. exists (Num (h O)), h. split; [reflexivity|]. split; [|split; [reflexivity|exact Hh]].
    intros i Hi. unfold h. now rewrite (Sa i Hi), (Sb i Hi), (Sa O Hn), (Sb O Hn).
  - exists (Arr b' (map (on_elements o x) l')), h. split; [reflexivity|]. split; [|split; [cbn [wd]; now rewrite map_length|exact Hh]]. destruct (map_sees n b' l' g (on_elements o x) Sb) as [L P].
    split; [exact L|]. intros i Hi. rewrite (P i Hi). unfold h. now rewrite (Sa i Hi).
  - exists (Arr bx (map (fun a => on_elements o a y) l)), h. split; [reflexivity|]. split; [|split; [cbn [wd]; rewrite map_length; symmetry; apply Nat.max_0_r|exact Hh]]. destruct (map_sees n bx l f (fun a => on_elements o a y) Sa) as [L P].
    split; [exact L|]. intros i Hi. rewrite (P i Hi). unfold h. now rewrite (Sb i Hi).
  - destruct Sa as [La Pa], Sb as [Lb Pb].
    assert (G : exists lr, nd_map2 (on_elements o) l l' = Ok lr /\ length lr = Nat.max (length l) (length l') /\ forall i, (i < n)%nat -> nth_error lr (pick lr i) = Some (h i)).
    { destruct (Nat.eq_dec (length l) (length l')) as [El|Nl].
      - rewrite (zip_same (on_elements o) l l' El). eexists. split; [reflexivity|]. split; [rewrite map_length, combine_length; lia|]. intros i Hi.
        assert (Ep : pick (map (fun p => on_elements o (fst p) (snd p)) (combine l l')) i = pick l i) by (apply pick_len; rewrite map_length, combine_length; lia).
        rewrite Ep. apply zip_nth; [exact (Pa i Hi)|]. rewrite (pick_len l l' i El). exact (Pb i Hi).
      - assert (Nl1 : l <> []) by (intros ->; cbn [length] in La; lia). assert (Nl2 : l' <> []) by (intros ->; cbn [length] in Lb; lia).
        destruct (nd_pick (on_elements o) l l' Nl1 Nl2) as (lr & E & Ll & Hp); [lia|]. exists lr. split; [exact E|]. split; [exact Ll|]. assert (Ln : length lr = n) by lia. intros i Hi.
        assert (Ep : pick lr i = i) by (unfold pick; destruct (Nat.eqb_spec (length lr) 1); lia). rewrite Ep. apply Hp; [lia|exact (Pa i Hi)|exact (Pb i Hi)]. }
    destruct G as (lr & -> & Ll & Hp). cbn [rbind]. exists (Arr bx lr), h. split; [reflexivity|]. split; [|split; [exact Ll|exact Hh]]. split; [lia|exact Hp].
Qed.
Lemma bin_num (o : binop V) (x y : V) : nd_bin o (Num x) (Num y) = rbind (on_numbers o x y) (fun c => Ok (Num c)).
Proof. reflexivity. Qed.
(** ... and what is done with the result *)
Lemma elem_bin (o : binop V) (m : npv V -> res (aqty V)) : agrees o -> elem1 m -> elem2 (fun va vb => rbind (nd_bin o va vb) m).
Proof.
  intros Ho Hm n va vb f g Hn Sa Sb Hok.
  assert (Hz : forall i, (i < n)%nat -> exists z, on_numbers o (f i) (g i) = Ok z).
  { intros i Hi. destruct (Hok i Hi) as (r & Hr). rewrite bin_num in Hr. destruct (on_numbers o (f i) (g i)) as [z|]; [exists z; reflexivity|discriminate Hr]. }
  destruct (bin_sees o n va vb f g Ho Hn Sa Sb Hz) as (v & h & Ev & Sv & Av & Hh). rewrite Ev. cbn [rbind].
  destruct (Hm n v h Hn Sv) as (k & t & v' & h' & Em & Sm & Am & Hi').
  { intros i Hi. destruct (Hok i Hi) as (r & Hr). rewrite bin_num, (Hh i Hi) in Hr. cbn [rbind] in Hr. exists r. exact Hr. }
  exists k, t, v', h'. split; [exact Em|]. split; [exact Sm|]. split; [now rewrite Am, Av|]. intros i Hi. rewrite bin_num, (Hh i Hi). cbn [rbind]. exact (Hi' i Hi).
Qed.
Lemma sees_const n x : sees n (Num x) (fun _ => x).
Proof. intros i _. reflexivity. Qed.
(** by a fixed number *)
Lemma elem_by (o : binop V) (x : V) (m : npv V -> res (aqty V)) : agrees o -> elem1 m -> elem1 (fun v => rbind (nd_bin o v (Num x)) m).
Proof.
  intros Ho Hm n v f Hn Sv Hok. destruct (elem_bin o m Ho Hm n v (Num x) f (fun _ => x) Hn Sv (sees_const n x) Hok) as (k & t & v' & h & E & S' & Ar & Hi).
  exists k, t, v', h. split; [exact E|]. split; [exact S'|]. split; [|exact Hi]. rewrite Ar. apply Nat.max_0_r.
Qed.
Lemma elem_second (o : binop V) (x : V) (m : npv V -> npv V -> res (aqty V)) : agrees o -> elem2 m -> elem2 (fun va vb => rbind (nd_bin o vb (Num x)) (m va)).
Proof.
  intros Ho Hm n va vb f g Hn Sa Sb Hok.
  assert (Hz : forall i, (i < n)%nat -> exists z, on_numbers o (g i) x = Ok z).
  { intros i Hi. destruct (Hok i Hi) as (r & Hr). rewrite bin_num in Hr. destruct (on_numbers o (g i) x) as [z|]; [exists z; reflexivity|discriminate Hr]. }
  destruct (bin_sees o n vb (Num x) g (fun _ => x) Ho Hn Sb (sees_const n x) Hz) as (v & h & Ev & Sv & Av & Hh). cbn [wd] in Av. rewrite Nat.max_0_r in Av. rewrite Ev. cbn [rbind].
  destruct (Hm n va v f h Hn Sa Sv) as (k & t & v' & h' & Em & Sm & Am & Hi').
  { intros i Hi. destruct (Hok i Hi) as (r & Hr). rewrite bin_num, (Hh i Hi) in Hr. cbn [rbind] in Hr. exists r. exact Hr. }
  exists k, t, v', h'. split; [exact Em|]. split; [exact Sm|]. split; [now rewrite Am, Av|]. intros i Hi. rewrite bin_num, (Hh i Hi). cbn [rbind]. exact (Hi' i Hi).
Qed.
Lemma elem_swap (m : npv V -> npv V -> res (aqty V)) : elem2 m -> elem2 (fun va vb => m vb va).
Proof.
  intros Hm n va vb f g Hn Sa Sb Hok. destruct (Hm n vb va g f Hn Sb Sa Hok) as (k & t & v' & h & E & S' & Ar & Hi). exists k, t, v', h. split; [exact E|]. split; [exact S'|].
  split; [rewrite Ar; apply Nat.max_comm|exact Hi].
Qed.
(** ** Constructors *)
Lemma elem_make (k x : str) : elem1 (fun v => amake cls k v x).
Proof.
  intros n v f Hn Sv Hok. destruct (Hok O Hn) as (r & Hr). unfold amake in *. destruct (smem x (cls k)); [|discriminate Hr]. exists k, x, v, f. split; [reflexivity|]. split; [exact Sv|]. split; reflexivity.
Qed.
Lemma elem_ok (k x : str) : elem1 (fun v => Ok (AQ k x v)).
Proof. intros n v f Hn Sv _. exists k, x, v, f. split; [reflexivity|]. split; [exact Sv|]. split; reflexivity. Qed.
Lemma elem_units (x : str) : elem1 (fun v => aunits ediv named v x).
Proof.
  unfold aunits. destruct (named x) as [[k y]|e]; cbn [rbind fst snd].
  - destruct (is_k k "Percentage"); [|apply elem_ok]. apply elem_by; [exact agrees_div|apply elem_ok].
  - intros n v f Hn _ Hok. destruct (Hok O Hn) as (r & Hr). discriminate Hr.
Qed.
Lemma elem_makep (k x : str) : elem1 (fun v => amakep ediv cls k v x).
Proof. unfold amakep. destruct (is_k k "Percentage"); [|apply elem_make]. apply elem_by; [exact agrees_div|apply elem_make]. Qed.
Lemma elem_percent (k x : str) : elem1 (fun v => apercent ediv cls v k x).
Proof. unfold apercent. apply elem_by; [exact agrees_mul|apply elem_makep]. Qed.
Lemma agrees_op op : agrees (b_op op).
Proof. intros x y z E. injection E as <-. reflexivity. Qed.
Lemma elem_fails {X} (e : exn) (s : X) : elem2 (fun _ _ : npv V => fst (Err e, s)).
Proof. intros n va vb f g Hn _ _ Hok. destruct (Hok O Hn) as (r & Hr). discriminate Hr. Qed.
(** ** Commands that do not look at the numbers *)
Lemma elem_bind {X} (c : M (npv V) X) (K : X -> npv V -> npv V -> M (npv V) (aqty V)) (s : st (npv V)) :
  (forall x s2, c s = (Ok x, s2) -> elem2 (fun va vb => fst (K x va vb s2))) -> elem2 (fun va vb => fst (bind c (fun x => K x va vb) s)).
Proof.
  intros H. unfold bind. destruct (c s) as [[x|e] s2]; [exact (H x s2 eq_refl)|]. intros n va vb f g Hn _ _ Hok. destruct (Hok O Hn) as (r & Hr). discriminate Hr.
Qed.
Lemma elem_name (c : M (npv V) str) s : elem1 (fun v => fst (bind c (fun n => lift (aunits ediv named v n)) s)).
Proof.
  unfold bind. destruct (c s) as [[x|e] s2]; [exact (elem_units x)|]. intros n v f Hn _ Hok. destruct (Hok O Hn) as (r & Hr). discriminate Hr.
Qed.
Lemma elem_lift (o : binop V) (K : npv V -> M (npv V) (aqty V)) s : agrees o -> elem1 (fun v => fst (K v s)) -> elem2 (fun va vb => fst (bind (lift (nd_bin o va vb)) K s)).
Proof.
  intros Ho Hk n va vb f g Hn Sa Sb Hok. pose proof (elem_bin o _ Ho Hk n va vb f g Hn Sa Sb) as P.
  assert (E : forall a b, fst (bind (lift (nd_bin o a b)) K s) = rbind (nd_bin o a b) (fun v => fst (K v s))) by (intros a b; unfold bind, lift; destruct (nd_bin o a b); reflexivity).
  rewrite E. destruct P as (k & t & v' & h & P1 & P2 & P3 & P4); [intros i Hi; rewrite <- E; exact (Hok i Hi)|]. exists k, t, v', h. split; [exact P1|]. split; [exact P2|]. split; [exact P3|].
  intros i Hi. rewrite E. exact (P4 i Hi).
Qed.
(** ** Conversions *)
Lemma aconv_sees e x y s n v f : ninv s -> (0 < n)%nat -> sees n v f -> (forall i, (i < n)%nat -> exists r, fst (aconv e (Num (f i)) x y s) = Ok r) ->
  exists v' h s2, aconv e v x y s = (Ok v', s2) /\ sees n v' h /\ wd v' = wd v /\ forall i, (i < n)%nat -> aconv e (Num (f i)) x y s = (Ok (Num (h i)), s2).
Proof.
  np. intros Is Hn Sv Hok.
  assert (Hnum : forall z, (exists r, fst (aconv e (Num z) x y s) = Ok r) -> exists w, fst (Converter.convert (VNum (Num z)) (UStr x) (UStr y) None s) = Ok (Some (CVal (Num w)))
     /\ aconv e (Num z) x y s = (Ok (Num w), snd (Converter.convert (VNum (Num z)) (UStr x) (UStr y) None s))).
  { intros z (r & Hr). unfold ArrQty.aconv, bind, vin_of in *. np. destruct (Converter.convert (VNum (Num z)) (UStr x) (UStr y) None s) as [[[[w|h]|]|e'] s1] eqn:E0; cbn [ret raise fst] in Hr; try discriminate Hr.
    pose proof (convert_num ediv Hd s (UStr x) (UStr y) None z w Is) as X; np. destruct X as (w' & ->); [rewrite E0; reflexivity|]. exists w'. split; reflexivity. }
  destruct v as [z|b l].
  - pose proof (Hok O Hn) as H0. rewrite (Sv O Hn) in H0. destruct (Hnum z H0) as (w & _ & Ew). exists (Num w), (fun _ => w). eexists. split; [exact Ew|]. split; [apply sees_const|]. split; [reflexivity|].
    intros i Hi. rewrite (Sv i Hi). exact Ew.
  - destruct Sv as [L P]. assert (Hl : l <> []) by (intros ->; cbn [length] in L; lia).
    assert (Each : forall z, In z l -> exists i, (i < n)%nat /\ f i = z).
    { intros z I0. apply In_nth_error in I0 as (i & E0). assert (Li : (i < length l)%nat) by (apply nth_error_Some; rewrite E0; discriminate).
      assert (Lin : (i < n)%nat) by lia. exists i. split; [exact Lin|]. assert (Ep : pick l i = i) by (unfold pick; destruct (Nat.eqb_spec (length l) 1); lia).
      specialize (P i Lin). rewrite Ep, E0 in P. congruence. }
    assert (Hx : forall z, In z l -> exists w, fst (Converter.convert (VNum (Num z)) (UStr x) (UStr y) None s) = Ok (Some (CVal (Num w)))).
    { intros z I0. destruct (Each z I0) as (i & Li & <-). destruct (Hnum _ (Hok i Li)) as (w & Ew & _). exists w. exact Ew. }
    pose proof (array_convert ediv Hd s (UStr x) (UStr y) None Ndarray l Is Hl Hx) as X. np. destruct X as (l' & R & Fa & St).
    pose proof (Forall2_len _ _ _ Fa) as Ll. exists (Arr Ndarray l'), (fun i => nth (pick l i) l' (f O)), (snd (Converter.convert (VNum (Arr Ndarray l)) (UStr x) (UStr y) None s)).
    split; [|split; [|split; [exact (eq_sym Ll)|]]].
    + unfold ArrQty.aconv, bind, vin_of. np. change (Converter.convert (VIter (Arr Ndarray l)) (UStr x) (UStr y) None s) with (Converter.convert (VNum (Arr Ndarray l)) (UStr x) (UStr y) None s).
      destruct (Converter.convert (VNum (Arr Ndarray l)) (UStr x) (UStr y) None s) as [r s1]. cbn [fst] in R. subst r. reflexivity.
    + split; [lia|]. intros i Hi. rewrite <- (pick_len l l' i Ll). apply nth_error_nth'. rewrite <- Ll. apply nth_error_Some. rewrite (P i Hi). discriminate.
    + intros i Hi. destruct (Hnum _ (Hok i Hi)) as (w & Ew & Ea). rewrite Ea. destruct (Forall2_nth _ _ _ Fa (pick l i) (f i) (P i Hi)) as (w' & En & Ew'). rewrite Ew in Ew'. injection Ew' as <-.
      rewrite (nth_error_nth l' (pick l i) (f O) En). apply (f_equal2 pair); [reflexivity|]. symmetry. exact (St (f i) (nth_error_In l _ (P i Hi))).
Qed.
Lemma elem_conv e x y (K : npv V -> npv V -> M (npv V) (aqty V)) s : ninv s -> (forall s2, elem2 (fun va v => fst (K va v s2))) ->
  elem2 (fun va vb => fst (bind (aconv e vb x y) (fun v => K va v) s)).
Proof.
  intros Is Hk n va vb f g Hn Sa Sb Hok.
  destruct (aconv_sees e x y s n vb g Is Hn Sb) as (v & h & s2 & Ev & Sv & Av & Hi).
  { intros i Hi. destruct (Hok i Hi) as (r & Hr). unfold bind in Hr. destruct (aconv e (Num (g i)) x y s) as [[w|e'] s1]; [exists w; reflexivity|discriminate Hr]. }
  unfold bind in *. rewrite Ev. destruct (Hk s2 n va v f h Hn Sa Sv) as (k & t & v' & h' & P1 & P2 & P3 & P4).
  { intros i Hi'. destruct (Hok i Hi') as (r & Hr). rewrite (Hi i Hi') in Hr. exists r. exact Hr. }
  exists k, t, v', h'. split; [exact P1|]. split; [exact P2|]. split; [now rewrite P3, Av|]. intros i Hi'. rewrite (Hi i Hi'). exact (P4 i Hi').
Qed.
Lemma elem_pure (m : npv V -> npv V -> res (aqty V)) : elem2 m -> forall s, elem2 (fun va vb => fst (@lift (npv V) (aqty V) (m va vb) s)).
Proof. intros H s. exact H. Qed.

(** ** The products *)
Lemma mul_elem k x k' y s : ninv s -> elem2 (fun va vb => fst (amul_qty (AQ k x va) (AQ k' y vb) s)).
Proof.
  intros Is. unfold ArrMul.amul_qty. cbn [a_kind a_unit a_val]. np.
  destruct (kindless_ k && negb (kindless_ k')). { apply (elem_bin b_mul); [exact agrees_mul|apply elem_makep]. }
  destruct (is_k k "Percentage" && kindless_ k'). { apply (elem_bin b_mul); [exact agrees_mul|apply elem_percent]. }
  destruct (kindless_ k'). { apply (elem_bin b_mul); [exact agrees_mul|apply elem_makep]. }
  destruct (seqb x y). { apply elem_lift; [exact agrees_mul|apply elem_name]. }
  apply elem_bind. intros c1 s1 E1. pose proof (convertible_keeps ediv s y x None Is) as I1. np. rewrite E1 in I1. cbn [snd] in I1. destruct c1.
  { apply (elem_conv TypeError y x (fun va v => bind (lift (nd_bin b_mul va v)) _) s1 I1). intros s2. apply elem_lift; [exact agrees_mul|apply elem_name]. }
  apply elem_bind. intros c2 s2 E2. pose proof (convertible_keeps ediv s1 x y None I1) as I2. np. rewrite E2 in I2. cbn [snd] in I2. destruct c2.
  { refine (elem_swap _ (elem_conv TypeError x y (fun va v => bind (lift (nd_bin b_mul va v)) _) s2 I2 _)). intros s3. apply elem_lift; [exact agrees_mul|apply elem_name]. }
  apply elem_bind. intros c3 s3 _. destruct c3.
  - apply elem_bind. intros f s4 _. apply elem_lift; [exact agrees_mul|].
    assert (E : forall v, fst (bind (lift (nd_bin b_mul v (Num f))) (fun v => bind (aname ediv false x y) (fun n => lift (aunits ediv named v n))) s4)
      = rbind (nd_bin b_mul v (Num f)) (fun v => fst (bind (aname ediv false x y) (fun n => lift (aunits ediv named v n)) s4))).
    { intros v. unfold bind at 1, lift at 1. destruct (nd_bin b_mul v (Num f)); reflexivity. }
    intros n v g Hn Sv Hok. np. rewrite E. destruct (elem_by b_mul f _ agrees_mul (elem_name (aname ediv false x y) s4) n v g Hn Sv) as (k0 & t & v' & h & P1 & P2 & P3 & P4).
    { intros i Hi. rewrite <- E. exact (Hok i Hi). }
    exists k0, t, v', h. split; [exact P1|]. split; [exact P2|]. split; [exact P3|]. intros i Hi. rewrite E. exact (P4 i Hi).
  - apply elem_lift; [exact agrees_mul|apply elem_name].
Qed.
Lemma div_elem o quot k x k' y s : agrees o -> ninv s -> elem2 (fun va vb => fst (adiv_qty o quot (AQ k x va) (AQ k' y vb) s)).
Proof.
  intros Ho Is. unfold ArrMul.adiv_qty. cbn [a_kind a_unit a_val]. np.
  destruct (kindless_ k && negb (kindless_ k')). { apply (elem_bin o); [exact Ho|apply elem_makep]. }
  destruct (is_k k "Percentage" && kindless_ k'). { apply (elem_bin o); [exact Ho|apply elem_percent]. }
  destruct (kindless_ k'). { apply (elem_bin o); [exact Ho|apply elem_makep]. }
  destruct (seqb x y). { apply elem_lift; [exact Ho|apply elem_name]. }
  apply elem_bind. intros c1 s1 E1. pose proof (convertible_keeps ediv s y x None Is) as I1. np. rewrite E1 in I1. cbn [snd] in I1. destruct c1.
  { apply (elem_conv TypeError y x (fun va v => bind (lift (nd_bin o va v)) _) s1 I1). intros s2. apply elem_lift; [exact Ho|apply elem_name]. }
  apply elem_bind. intros c3 s3 _. destruct c3.
  - apply elem_bind. intros f s4 _. set (nm := if quot then aname ediv true x y else ret x).
    set (m := fun va y' : npv V => fst (bind (lift (nd_bin o va y')) (fun v => bind nm (fun n => lift (aunits ediv named v n))) s4)).
    assert (Hm : elem2 m) by (unfold m; apply elem_lift; [exact Ho|apply elem_name]).
    assert (E : forall va vb, fst (bind (lift (nd_bin b_mul vb (Num f))) (fun y' => bind (lift (nd_bin o va y')) (fun v => bind nm (fun n => lift (aunits ediv named v n)))) s4) = rbind (nd_bin b_mul vb (Num f)) (m va)).
    { intros va vb. unfold m, bind at 1, lift at 1. destruct (nd_bin b_mul vb (Num f)); reflexivity. }
    clearbody m. intros n va vb f0 g Hn Sa Sb Hok.
    destruct (elem_second b_mul f m agrees_mul Hm n va vb f0 g Hn Sa Sb) as (k0 & t & v' & h & P1 & P2 & P3 & P4).
    { intros i Hi. rewrite <- E. exact (Hok i Hi). }
    exists k0, t, v', h. split; [rewrite E; exact P1|]. split; [exact P2|]. split; [exact P3|]. intros i Hi. rewrite E. exact (P4 i Hi).
  - apply elem_lift; [exact Ho|apply elem_name].
Qed.
(** ** Sums *)
Lemma sum_elem op k x k' y s : ninv s -> elem2 (fun va vb => fst (aplus ediv cls op (AQ k x va) (AQ k' y vb) s)).
Proof.
  intros Is. unfold aplus. cbn [a_kind a_unit a_val]. np. pose proof (agrees_op op) as Ho. destruct (seqb k k').
  - destruct (seqb x y). { apply (elem_bin (b_op op)); [exact Ho|apply elem_makep]. }
    apply elem_bind. intros c1 s1 E1. pose proof (convertible_keeps ediv s y x None Is) as I1. np. rewrite E1 in I1. cbn [snd] in I1. destruct c1.
    { apply (elem_conv TypeError y x (fun va v => lift (rbind (nd_bin (b_op op) va v) _)) s1 I1). intros s2. apply (elem_bin (b_op op)); [exact Ho|apply elem_makep]. }
    apply elem_bind. intros c2 s2 E2. pose proof (convertible_keeps ediv s1 x y None I1) as I2. np. rewrite E2 in I2. cbn [snd] in I2. destruct c2; [|apply elem_fails].
    refine (elem_swap _ (elem_conv TypeError x y (fun va v => lift (rbind (nd_bin (b_op op) va v) _)) s2 I2 _)). intros s3. apply (elem_bin (b_op op)); [exact Ho|apply elem_makep].
  - destruct (kindless_ k && negb (kindless_ k')). { apply (elem_bin (b_op op)); [exact Ho|apply elem_makep]. }
    destruct (is_k k "Percentage" && kindless_ k'). { apply (elem_bin (b_op op)); [exact Ho|apply elem_percent]. }
    destruct (kindless_ k'). { apply (elem_bin (b_op op)); [exact Ho|apply elem_makep]. }
    apply elem_fails.
Qed.
End F.
