(** * The operators with the laws between the kinds: the facts *)
From Coq Require Import String QArith Qcanon ZArith Lia.
From Verif Require Import Py StrTools Network Conv Converter EngineSpec EngineFacts EngineFacts7 EngineInv NumPy NumPySpec NumPyFacts Database Shipped Operations Units ArrQty ArrQtyFacts ArrMul ArrMulFacts ArrLaw.
Local Open Scope N_scope.

Section F.
Context {F : Floats} {V : Type} {A : Arith V} (ediv : V -> V -> V) (cls : str -> list str) (named : str -> res (str * str)) (pw : V -> pnum F -> res V).
Hypothesis Hd : division_agrees ediv.
Local Instance npL : Arith (npv V) := np_arith ediv.
Ltac np := unfold law_arith, arr_arith, mul_arith, npL, npM, npA', NumPyFacts.npA in *.
Notation ninv := (inv is_num (elementwise_conv ediv)).
Notation aconv := (aconv ediv).

(** ** The engine stays one that works element by element *)
Definition safe {X} (m : M (npv V) X) : Prop := forall s, ninv s -> ninv (snd (m s)).
Lemma safe_pure {X} (m : M (npv V) X) : (forall s, snd (m s) = s) -> safe m.
Proof. intros H s Is. now rewrite H. Qed.
Lemma safe_ret {X} (x : X) : safe (ret x). Proof. now apply safe_pure. Qed.
Lemma safe_raise {X} e : safe (raise (X:=X) e). Proof. now apply safe_pure. Qed.
Lemma safe_lift {X} (r : res X) : safe (lift r). Proof. apply safe_pure. now destruct r. Qed.
Lemma safe_bind {X Y} (m : M (npv V) X) (k : X -> M (npv V) Y) : safe m -> (forall x, safe (k x)) -> safe (bind m k).
Proof. intros Hm Hk s Is. specialize (Hm s Is). unfold bind. destruct (m s) as [[x|e] s1]; [exact (Hk x s1 Hm)|exact Hm]. Qed.
Lemma safe_convertible f t uc : safe (convertible f t uc).
Proof. intros s Is. exact (convertible_keeps ediv s f t uc Is). Qed.
Lemma safe_convert v f t uc : safe (Converter.convert v f t uc).
Proof. intros s Is. exact (convert_any is_num (elementwise_conv ediv) (is_const ediv) (n_mul ediv) (n_div ediv) (n_ceval ediv) v f t uc s Is). Qed.
Lemma safe_aconv e v f t : safe (aconv e v f t).
Proof. unfold ArrQty.aconv. apply safe_bind; [apply safe_convert|]. intros [[w|h]|]; try apply safe_raise. apply safe_ret. Qed.
Ltac safe := repeat first [apply safe_ret | apply safe_lift | apply safe_raise | apply safe_convertible | apply safe_aconv
  | apply safe_bind; [|intros ?]
  | match goal with |- safe (if ?b then _ else _) => destruct b end
  | match goal with |- safe (let '(_, _) := ?p in _) => destruct p end
  | match goal with |- safe (match ?p with Num _ => _ | Arr _ _ => _ end) => destruct p end
  | match goal with |- safe (match ?p with inl _ => _ | inr _ => _ end) => destruct p end ].
Lemma safe_factors (rec : str -> str -> M (npv V) str) a b : (forall x y, safe (rec x y)) -> forall l r, safe (div_factors rec a b l r).
Proof. intros Hr. induction l as [|x l IH]; intros r; cbn [div_factors]; safe; auto. Qed.
Lemma safe_op ul : forall n div o1 o2, safe (unit_op (V:=npv V) ul n div o1 o2).
Proof. induction n as [|n IH]; intros div o1 o2; cbn [unit_op]; safe; auto. apply safe_factors. intros x0 y. apply IH. Qed.
Lemma safe_name div a b : safe (aname ediv div a b).
Proof. unfold aname. destruct div; unfold unit_division, unit_product; apply safe_op. Qed.
Lemma safe_bases b a : safe (abases_convertible ediv b a). Proof. unfold abases_convertible. safe. Qed.
Lemma safe_factor b a : safe (abase_factor ediv pw b a). Proof. unfold abase_factor. safe. Qed.
Lemma safe_mul a b : safe (amul_qty ediv cls named pw a b).
Proof. unfold ArrMul.amul_qty. np. cbv zeta. safe; first [apply safe_name|apply safe_bases|apply safe_factor]. Qed.
Lemma safe_div o quot a b : safe (adiv_qty ediv cls named pw o quot a b).
Proof. unfold ArrMul.adiv_qty. np. cbv zeta. safe; first [apply safe_name|apply safe_bases|apply safe_factor]. Qed.

(** ** Element by element, with what the engine remembers after it: the same for every element as for the array *)
Definition elem2m (m : npv V -> npv V -> M (npv V) (aqty V)) (s : st (npv V)) : Prop :=
  forall n va vb f g, (0 < n)%nat -> sees n va f -> sees n vb g -> (forall i, (i < n)%nat -> exists r, fst (m (Num (f i)) (Num (g i)) s) = Ok r) ->
  exists k t v' h s', m va vb s = (Ok (AQ k t v'), s') /\ sees n v' h /\ wd v' = Nat.max (wd va) (wd vb) /\ forall i, (i < n)%nat -> m (Num (f i)) (Num (g i)) s = (Ok (AQ k t (Num (h i))), s').
Definition elem1m (m : npv V -> M (npv V) (aqty V)) (s : st (npv V)) : Prop :=
  forall n v f, (0 < n)%nat -> sees n v f -> (forall i, (i < n)%nat -> exists r, fst (m (Num (f i)) s) = Ok r) ->
  exists k t v' h s', m v s = (Ok (AQ k t v'), s') /\ sees n v' h /\ wd v' = wd v /\ forall i, (i < n)%nat -> m (Num (f i)) s = (Ok (AQ k t (Num (h i))), s').
Lemma em_pure (m : npv V -> npv V -> res (aqty V)) s : elem2 m -> elem2m (fun va vb => lift (m va vb)) s.
Proof.
  intros Hm n va vb f g Hn Sa Sb Hok. destruct (Hm n va vb f g Hn Sa Sb Hok) as (k & t & v' & h & E & S' & W & P). exists k, t, v', h, s. unfold lift. rewrite E. split; [reflexivity|]. split; [exact S'|]. split; [exact W|].
  intros i Hi. now rewrite (P i Hi).
Qed.
Lemma em_pure1 (m : npv V -> res (aqty V)) s : elem1 m -> elem1m (fun v => lift (m v)) s.
Proof.
  intros Hm n v f Hn Sv Hok. destruct (Hm n v f Hn Sv Hok) as (k & t & v' & h & E & S' & W & P). exists k, t, v', h, s. unfold lift. rewrite E. split; [reflexivity|]. split; [exact S'|]. split; [exact W|].
  intros i Hi. now rewrite (P i Hi).
Qed.
Lemma em_raise e s : elem2m (fun _ _ => raise e) s.
Proof. intros n va vb f g Hn _ _ Hok. destruct (Hok O Hn) as (r & Hr). discriminate Hr. Qed.
Lemma em_bind {X} (c : M (npv V) X) (K : X -> npv V -> npv V -> M (npv V) (aqty V)) s :
  (forall x s2, c s = (Ok x, s2) -> elem2m (K x) s2) -> elem2m (fun va vb => bind c (fun x => K x va vb)) s.
Proof.
  intros H. unfold elem2m, bind. destruct (c s) as [[x|e] s2]; [exact (H x s2 eq_refl)|]. intros n va vb f g Hn _ _ Hok. destruct (Hok O Hn) as (r & Hr). discriminate Hr.
Qed.
Lemma em_bind1 {X} (c : M (npv V) X) (K : X -> npv V -> M (npv V) (aqty V)) s :
  (forall x s2, c s = (Ok x, s2) -> elem1m (K x) s2) -> elem1m (fun v => bind c (fun x => K x v)) s.
Proof.
  intros H. unfold elem1m, bind. destruct (c s) as [[x|e] s2]; [exact (H x s2 eq_refl)|]. intros n v f Hn _ Hok. destruct (Hok O Hn) as (r & Hr). discriminate Hr.
Qed.
Lemma em_name (c : M (npv V) str) s : elem1m (fun v => bind c (fun n => lift (aunits ediv named v n))) s.
Proof. apply em_bind1. intros x s2 _. apply em_pure1. apply (elem_units ediv named Hd). Qed.
Lemma em_lift (o : binop V) (K : npv V -> M (npv V) (aqty V)) s : agrees o -> elem1m K s -> elem2m (fun va vb => bind (lift (nd_bin o va vb)) K) s.
Proof.
  intros Ho Hk n va vb f g Hn Sa Sb Hok.
  assert (E : forall a b, bind (lift (nd_bin o a b)) K s = match nd_bin o a b with Ok v => K v s | Err e => (Err e, s) end) by (intros a b; unfold bind, lift; destruct (nd_bin o a b); reflexivity).
  destruct (bin_sees o n va vb f g Ho Hn Sa Sb) as (v & h & Ev & Sv & Wv & Hh).
  { intros i Hi. destruct (Hok i Hi) as (r & Hr). rewrite E, bin_num in Hr. destruct (on_numbers o (f i) (g i)) as [z|]; [exists z; reflexivity|discriminate Hr]. }
  assert (Ei : forall i, (i < n)%nat -> bind (lift (nd_bin o (Num (f i)) (Num (g i)))) K s = K (Num (h i)) s) by (intros i Hi; rewrite E, bin_num, (Hh i Hi); reflexivity).
  destruct (Hk n v h Hn Sv) as (k & t & v' & h' & s' & E' & S' & W' & P').
  { intros i Hi. destruct (Hok i Hi) as (r & Hr). rewrite (Ei i Hi) in Hr. exists r. exact Hr. }
  exists k, t, v', h', s'. rewrite E, Ev. split; [exact E'|]. split; [exact S'|]. split; [now rewrite W'|]. intros i Hi. rewrite (Ei i Hi). exact (P' i Hi).
Qed.
Lemma em_lift1 (o : binop V) (x : V) (K : npv V -> M (npv V) (aqty V)) s : agrees o -> elem1m K s -> elem1m (fun v => bind (lift (nd_bin o v (Num x))) K) s.
Proof.
  intros Ho Hk n v f Hn Sv Hok. destruct (em_lift o K s Ho Hk n v (Num x) f (fun _ => x) Hn Sv (sees_const n x) Hok) as (k & t & v' & h & s' & E & S' & W & P).
  exists k, t, v', h, s'. split; [exact E|]. split; [exact S'|]. split; [|exact P]. rewrite W. apply Nat.max_0_r.
Qed.
Lemma em_second (o : binop V) (x : V) (m : npv V -> npv V -> M (npv V) (aqty V)) s : agrees o -> elem2m m s -> elem2m (fun va vb => bind (lift (nd_bin o vb (Num x))) (m va)) s.
Proof.
  intros Ho Hm n va vb f g Hn Sa Sb Hok.
  assert (E : forall a b, bind (lift (nd_bin o b (Num x))) (m a) s = match nd_bin o b (Num x) with Ok v => m a v s | Err e => (Err e, s) end) by (intros a b; unfold bind, lift; destruct (nd_bin o b (Num x)); reflexivity).
  destruct (bin_sees o n vb (Num x) g (fun _ => x) Ho Hn Sb (sees_const n x)) as (v & h & Ev & Sv & Wv & Hh).
  { intros i Hi. destruct (Hok i Hi) as (r & Hr). rewrite E, bin_num in Hr. destruct (on_numbers o (g i) x) as [z|]; [exists z; reflexivity|discriminate Hr]. }
  cbn [wd] in Wv. rewrite Nat.max_0_r in Wv.
  assert (Ei : forall a i, (i < n)%nat -> bind (lift (nd_bin o (Num (g i)) (Num x))) (m a) s = m a (Num (h i)) s) by (intros a i Hi; rewrite E, bin_num, (Hh i Hi); reflexivity).
  destruct (Hm n va v f h Hn Sa Sv) as (k & t & v' & h' & s' & E' & S' & W' & P').
  { intros i Hi. destruct (Hok i Hi) as (r & Hr). rewrite (Ei _ i Hi) in Hr. exists r. exact Hr. }
  exists k, t, v', h', s'. rewrite E, Ev. split; [exact E'|]. split; [exact S'|]. split; [now rewrite W', Wv|]. intros i Hi. rewrite (Ei _ i Hi). exact (P' i Hi).
Qed.
Lemma em_swap (m : npv V -> npv V -> M (npv V) (aqty V)) s : elem2m m s -> elem2m (fun va vb => m vb va) s.
Proof.
  intros Hm n va vb f g Hn Sa Sb Hok. destruct (Hm n vb va g f Hn Sb Sa Hok) as (k & t & v' & h & s' & E & S' & W & P). exists k, t, v', h, s'. split; [exact E|]. split; [exact S'|]. split; [|exact P]. rewrite W. apply Nat.max_comm.
Qed.
Lemma em_conv e x y (K : npv V -> npv V -> M (npv V) (aqty V)) s : ninv s -> (forall s2, ninv s2 -> elem2m K s2) -> elem2m (fun va vb => bind (aconv e vb x y) (fun v => K va v)) s.
Proof.
  intros Is Hk n va vb f g Hn Sa Sb Hok.
  destruct (aconv_sees ediv Hd e x y s n vb g Is Hn Sb) as (v & h & s2 & Ev & Sv & Av & Hi).
  { intros i Hi. destruct (Hok i Hi) as (r & Hr). unfold bind in Hr. np. destruct (aconv e (Num (g i)) x y s) as [[w|e'] s1]; [exists w; reflexivity|discriminate Hr]. }
  pose proof (safe_aconv e vb x y s Is) as I2. np. unfold bind in *. rewrite Ev in I2 |- *. cbn [snd] in I2. destruct (Hk s2 I2 n va v f h Hn Sa Sv) as (k & t & v' & h' & s' & P1 & P2 & P3 & P4).
  { intros i Hi'. destruct (Hok i Hi') as (r & Hr). rewrite (Hi i Hi') in Hr. exists r. exact Hr. }
  exists k, t, v', h', s'. split; [exact P1|]. split; [exact P2|]. split; [now rewrite P3, Av|]. intros i Hi'. rewrite (Hi i Hi'). exact (P4 i Hi').
Qed.
Lemma em_conv1 e x y (K : npv V -> M (npv V) (aqty V)) s : ninv s -> (forall s2, ninv s2 -> elem1m K s2) -> elem1m (fun v => bind (aconv e v x y) K) s.
Proof.
  intros Is Hk n v f Hn Sv Hok.
  destruct (aconv_sees ediv Hd e x y s n v f Is Hn Sv) as (w & h & s2 & Ev & Sw & Aw & Hi).
  { intros i Hi. destruct (Hok i Hi) as (r & Hr). unfold bind in Hr. np. destruct (aconv e (Num (f i)) x y s) as [[w|e'] s1]; [exists w; reflexivity|discriminate Hr]. }
  pose proof (safe_aconv e v x y s Is) as I2. np. unfold bind in *. rewrite Ev in I2 |- *. cbn [snd] in I2. destruct (Hk s2 I2 n w h Hn Sw) as (k & t & v' & h' & s' & P1 & P2 & P3 & P4).
  { intros i Hi'. destruct (Hok i Hi') as (r & Hr). rewrite (Hi i Hi') in Hr. exists r. exact Hr. }
  exists k, t, v', h', s'. split; [exact P1|]. split; [exact P2|]. split; [now rewrite P3, Aw|]. intros i Hi'. rewrite (Hi i Hi'). exact (P4 i Hi').
Qed.
(** ** The products and the quotients of any kinds *)
Ltac next E Is I1 := apply em_bind; let c := fresh "c" in intros c ? E; pose proof (safe_convertible _ _ _ _ Is) as I1; np; rewrite E in I1; cbn [snd] in I1.
Lemma mul_em k x k' y s : ninv s -> elem2m (fun va vb => amul_qty ediv cls named pw (AQ k x va) (AQ k' y vb)) s.
Proof.
  intros Is. unfold ArrMul.amul_qty. cbn [a_kind a_unit a_val]. np.
  destruct (kindless_ k && negb (kindless_ k')). { apply em_pure, (elem_bin b_mul); [exact agrees_mul|apply (elem_makep ediv cls Hd)]. }
  destruct (is_k k "Percentage" && kindless_ k'). { apply em_pure, (elem_bin b_mul); [exact agrees_mul|apply (elem_percent ediv cls Hd)]. }
  destruct (kindless_ k'). { apply em_pure, (elem_bin b_mul); [exact agrees_mul|apply (elem_makep ediv cls Hd)]. }
  destruct (seqb x y). { apply em_lift; [exact agrees_mul|apply em_name]. }
  apply em_bind. intros c1 s1 E1. pose proof (safe_convertible y x None s Is) as I1. np. rewrite E1 in I1. cbn [snd] in I1. destruct c1.
  { apply (em_conv TypeError y x (fun va v => bind (lift (nd_bin b_mul va v)) _) s1 I1). intros s2 _. apply em_lift; [exact agrees_mul|apply em_name]. }
  apply em_bind. intros c2 s2 E2. pose proof (safe_convertible x y None s1 I1) as I2. np. rewrite E2 in I2. cbn [snd] in I2. destruct c2.
  { refine (em_swap _ s2 (em_conv TypeError x y (fun va v => bind (lift (nd_bin b_mul va v)) _) s2 I2 _)). intros s3 _. apply em_lift; [exact agrees_mul|apply em_name]. }
  apply em_bind. intros c3 s3 _. destruct c3.
  - apply em_bind. intros f s4 _. apply em_lift; [exact agrees_mul|]. apply em_lift1; [exact agrees_mul|apply em_name].
  - apply em_lift; [exact agrees_mul|apply em_name].
Qed.
Lemma div_em o quot k x k' y s : agrees o -> ninv s -> elem2m (fun va vb => adiv_qty ediv cls named pw o quot (AQ k x va) (AQ k' y vb)) s.
Proof.
  intros Ho Is. unfold ArrMul.adiv_qty. cbn [a_kind a_unit a_val]. np.
  destruct (kindless_ k && negb (kindless_ k')). { apply em_pure, (elem_bin o); [exact Ho|apply (elem_makep ediv cls Hd)]. }
  destruct (is_k k "Percentage" && kindless_ k'). { apply em_pure, (elem_bin o); [exact Ho|apply (elem_percent ediv cls Hd)]. }
  destruct (kindless_ k'). { apply em_pure, (elem_bin o); [exact Ho|apply (elem_makep ediv cls Hd)]. }
  destruct (seqb x y). { apply em_lift; [exact Ho|apply em_name]. }
  apply em_bind. intros c1 s1 E1. pose proof (safe_convertible y x None s Is) as I1. np. rewrite E1 in I1. cbn [snd] in I1. destruct c1.
  { apply (em_conv TypeError y x (fun va v => bind (lift (nd_bin o va v)) _) s1 I1). intros s2 _. apply em_lift; [exact Ho|apply em_name]. }
  apply em_bind. intros c3 s3 _. destruct c3.
  - apply em_bind. intros f s4 _. apply (em_second b_mul f (fun va y' => bind (lift (nd_bin o va y')) _)); [exact agrees_mul|]. apply em_lift; [exact Ho|apply em_name].
  - apply em_lift; [exact Ho|apply em_name].
Qed.
(** ** ... then converted *)
Lemma to_any_em x k t s : ninv s -> elem1m (fun v => ato_any ediv cls named x (AQ k t v)) s.
Proof.
  intros Is. unfold ato_any. cbn [a_kind a_unit a_val]. np. destruct (kindless_ k).
  - apply em_pure1. destruct (smem x (cls (u "Percentage"))). { apply (elem_by b_mul); [exact agrees_mul|apply (elem_makep ediv cls Hd)]. } destruct (smem x (cls (u "Dimensionless"))); [apply elem_make|apply (elem_units ediv named Hd)].
  - apply em_bind1. intros c s1 E1. pose proof (safe_convertible t x None s Is) as I1. np. rewrite E1 in I1. cbn [snd] in I1. destruct c.
    + apply em_conv1; [exact I1|]. intros s2 _. apply em_pure1. destruct (is_k k "Unit"); [apply (elem_units ediv named Hd)|]. destruct (is_k k "UserUnits"); [apply elem_ok|apply elem_make].
    + destruct (is_k k "UserUnits"); [apply (em_pure1 (fun v => Ok (AQ k t v))), elem_ok|]. intros n v f Hn _ Hok. destruct (Hok O Hn) as (r & Hr). discriminate Hr.
Qed.
Lemma em_then (m : npv V -> npv V -> M (npv V) (aqty V)) x s : ninv s -> (forall va vb, safe (m va vb)) -> elem2m m s -> elem2m (fun va vb => athen ediv cls named (m va vb) x) s.
Proof.
  intros Is Sm Hm. destruct x as [x|]; [|exact Hm]. unfold athen. intros n va vb f g Hn Sa Sb Hok.
  destruct (Hm n va vb f g Hn Sa Sb) as (k & t & v & h & s1 & E & Sv & W & P).
  { intros i Hi. destruct (Hok i Hi) as (r & Hr). unfold bind in Hr. destruct (m (Num (f i)) (Num (g i)) s) as [[q|e] s1]; [exists q; reflexivity|discriminate Hr]. }
  pose proof (Sm va vb s Is) as I1. unfold bind in *. rewrite E in I1 |- *. cbn [snd] in I1.
  destruct (to_any_em x k t s1 I1 n v h Hn Sv) as (k' & t' & v' & h' & s' & E' & S' & W' & P').
  { intros i Hi. destruct (Hok i Hi) as (r & Hr). rewrite (P i Hi) in Hr. exists r. exact Hr. }
  exists k', t', v', h', s'. split; [exact E'|]. split; [exact S'|]. split; [now rewrite W'|]. intros i Hi. rewrite (P i Hi). exact (P' i Hi).
Qed.
Lemma em_out (m : npv V -> npv V -> M (npv V) (aqty V)) s : elem2m m s -> elem2 (fun va vb => fst (m va vb s)).
Proof.
  intros Hm n va vb f g Hn Sa Sb Hok. destruct (Hm n va vb f g Hn Sa Sb Hok) as (k & t & v & h & s1 & E & Sv & W & P). exists k, t, v, h. split; [now rewrite E|]. split; [exact Sv|]. split; [exact W|]. intros i Hi. now rewrite (P i Hi).
Qed.
Lemma times_elem k x k' y s : ninv s -> elem2 (fun va vb => fst (atimes ediv cls named pw (AQ k x va) (AQ k' y vb) s)).
Proof. intros Is. apply em_out. unfold atimes. cbn [a_kind]. apply em_then; [exact Is|intros; apply safe_mul|now apply mul_em]. Qed.
Lemma divided_elem k x k' y s : ninv s -> elem2 (fun va vb => fst (adivided ediv cls named pw (AQ k x va) (AQ k' y vb) s)).
Proof. intros Is. apply em_out. unfold adivided. cbn [a_kind]. apply em_then; [exact Is|intros; apply safe_div|apply div_em; [exact (agrees_div ediv Hd)|exact Is]]. Qed.
End F.
