(** * C79: comparisons of quantities of arrays, of any kinds

    (a < b)[i] is a[i] < b[i], for quantities of one kind, pure numbers and
    percentages included, with arrays of one length or of one element and single
    quantities; and with a number.  Two kinds are not compared. *)
From Coq Require Import String QArith Qcanon ZArith Lia.
From Verif Require Import Py StrTools Network Conv Converter EngineSpec Demo NumPy NumPySpec EngineInv NumPyFacts Database Shipped Operations Units ArrQty ArrQtyFacts ArrMul ArrMulFacts ArrNum PropsOps PropsNumPy PropsArr PropsArr2 PropsArr3.
Local Open Scope N_scope.

Section C79c.
Context (F : Floats) (V : Type) (A : Arith V) (ediv : V -> V -> V) (cls : str -> list str) (named : str -> res (str * str)).
Notation calls := (@do_calls (npv V) (np_arith ediv)).
Notation cmp := (acmp ediv cls named).
Notation some_array := (some_array V A cls).
Notation of_length := (of_length V A cls).
Notation one_of_length := (one_of_length V A cls).
Notation stands_at := (stands_at V A cls).
Notation item := (item cls).

(** as elem2, for answers *)
Definition elem_t (m : npv V -> npv V -> res truths) : Prop := forall n va vb f g, (0 < n)%nat -> sees n va f -> sees n vb g -> Nat.max (wd va) (wd vb) = n ->
  (forall i, (i < n)%nat -> exists r, m (Num (f i)) (Num (g i)) = Ok r) ->
  exists l, m va vb = Ok (BArr l) /\ length l = n /\ forall i, (i < n)%nat -> exists t, nth_error l i = Some t /\ m (Num (f i)) (Num (g i)) = Ok (BOne t).
(** as elem1, for values *)
Definition elem_v (m : npv V -> res (npv V)) : Prop := forall n v f, (0 < n)%nat -> sees n v f -> (forall i, (i < n)%nat -> exists w, m (Num (f i)) = Ok w) ->
  exists v' h, m v = Ok v' /\ sees n v' h /\ wd v' = wd v /\ forall i, (i < n)%nat -> m (Num (f i)) = Ok (Num (h i)).

Lemma elem_cmp (op : V -> V -> bool) : elem_t (nd_cmp op).
Proof.
  intros n va vb f g Hn Sa Sb W _. destruct va as [x|bx l], vb as [y|b' l']; cbn [nd_cmp wd] in *.
  - cbn in W. lia.
  - cbn in W. exists (map (op x) l'). split; [reflexivity|]. split; [now rewrite map_length|]. intros i Hi. destruct Sb as [L P]. specialize (P i Hi). rewrite (Sa i Hi). exists (op x (g i)). split; [|reflexivity].
    rewrite nth_error_map. unfold pick in P. destruct (Nat.eqb_spec (length l') 1); [replace i with O in * by lia|]; rewrite P; reflexivity.
  - rewrite Nat.max_0_r in W. exists (map (fun a => op a y) l). split; [reflexivity|]. split; [now rewrite map_length|]. intros i Hi. destruct Sa as [L P]. specialize (P i Hi). rewrite (Sb i Hi). exists (op (f i) y). split; [|reflexivity].
    rewrite nth_error_map. unfold pick in P. destruct (Nat.eqb_spec (length l) 1); [replace i with O in * by lia|]; rewrite P; reflexivity.
  - destruct Sa as [La Pa], Sb as [Lb Pb]. destruct (Nat.eq_dec (length l) (length l')) as [El|Nl].
    + rewrite (zip_same op l l' El). cbn [rbind]. eexists. split; [reflexivity|]. split; [rewrite map_length, combine_length; lia|]. intros i Hi. exists (op (f i) (g i)). split; [|reflexivity].
      assert (Ep : pick l i = i) by (unfold pick; destruct (Nat.eqb_spec (length l) 1); lia). apply zip_nth; [rewrite <- Ep at 1; exact (Pa i Hi)|]. rewrite <- Ep at 1. rewrite (pick_len l l' i El). exact (Pb i Hi).
    + assert (Nl1 : l <> []) by (intros ->; cbn [length] in La; lia). assert (Nl2 : l' <> []) by (intros ->; cbn [length] in Lb; lia).
      destruct (nd_pick op l l' Nl1 Nl2) as (lr & E & Ll & Hp); [lia|]. rewrite E. cbn [rbind]. exists lr. split; [reflexivity|]. split; [lia|]. intros i Hi. exists (op (f i) (g i)). split; [|reflexivity].
      apply Hp; [lia|exact (Pa i Hi)|exact (Pb i Hi)].
Qed.
Lemma elem_then (m : npv V -> res (npv V)) (t : npv V -> npv V -> res truths) : elem_v m -> elem_t t -> elem_t (fun va vb => rbind (m vb) (t va)).
Proof.
  intros Hm Ht n va vb f g Hn Sa Sb W Hok. destruct (Hm n vb g Hn Sb) as (v' & h & E & Sv & Wv & Hi).
  { intros i Li. destruct (Hok i Li) as (r & Hr). destruct (m (Num (g i))) as [w|]; [exists w; reflexivity|discriminate Hr]. }
  rewrite E. cbn [rbind]. destruct (Ht n va v' f h Hn Sa Sv) as (l & P1 & P2 & P3).
  { now rewrite Wv. }
  { intros i Li. destruct (Hok i Li) as (r & Hr). rewrite (Hi i Li) in Hr. exists r. exact Hr. }
  exists l. split; [exact P1|]. split; [exact P2|]. intros i Li. destruct (P3 i Li) as (t0 & Q1 & Q2). exists t0. split; [exact Q1|]. rewrite (Hi i Li). exact Q2.
Qed.
Lemma elem_v_by (o : binop V) (x : V) : agrees o -> elem_v (fun v => nd_bin o v (Num x)).
Proof.
  intros Ho n v f Hn Sv Hok. destruct (bin_sees o n v (Num x) f (fun _ => x) Ho Hn Sv (sees_const n x)) as (v' & h & E & S' & Wv & Hi).
  { intros i Li. destruct (Hok i Li) as (w & Hw). rewrite bin_num in Hw. destruct (on_numbers o (f i) x) as [z|]; [exists z; reflexivity|discriminate Hw]. }
  exists v', h. split; [exact E|]. split; [exact S'|]. split; [rewrite Wv; apply Nat.max_0_r|]. intros i Li. rewrite bin_num, (Hi i Li). reflexivity.
Qed.
Lemma elem_v_ok : elem_v (fun v => Ok v).
Proof. intros n v f Hn Sv _. exists v, f. split; [reflexivity|]. split; [exact Sv|]. split; reflexivity. Qed.
Lemma elem_v_err e : elem_v (fun _ => Err e).
Proof. intros n v f Hn _ Hok. destruct (Hok O Hn) as (w & Hw). discriminate Hw. Qed.
Lemma elem_v_then (m m' : npv V -> res (npv V)) : elem_v m -> elem_v m' -> elem_v (fun v => rbind (m v) m').
Proof.
  intros Hm Hm' n v f Hn Sv Hok. destruct (Hm n v f Hn Sv) as (v1 & h1 & E1 & S1 & W1 & H1).
  { intros i Li. destruct (Hok i Li) as (w & Hw). destruct (m (Num (f i))) as [w'|]; [exists w'; reflexivity|discriminate Hw]. }
  rewrite E1. cbn [rbind]. destruct (Hm' n v1 h1 Hn S1) as (v2 & h2 & E2 & S2 & W2 & H2).
  { intros i Li. destruct (Hok i Li) as (w & Hw). rewrite (H1 i Li) in Hw. exists w. exact Hw. }
  exists v2, h2. split; [exact E2|]. split; [exact S2|]. split; [now rewrite W2|]. intros i Li. rewrite (H1 i Li). exact (H2 i Li).
Qed.
Lemma elem_unitless (x : str) : division_agrees ediv -> elem_v (fun v => aunitless ediv cls named v x).
Proof.
  intros Hd. pose proof (elem_v_by b_mul (aconst 100) agrees_mul) as M. pose proof (elem_v_by (b_div ediv) (aconst 100) (agrees_div ediv Hd)) as D.
  unfold aunitless. destruct (seqb x []); [apply elem_v_err|]. destruct (smem x (cls (u "Percentage"))); [exact (elem_v_then _ _ M D)|]. destruct (smem x (cls (u "Dimensionless"))); [apply elem_v_ok|].
  destruct (named x) as [kx|e]; cbn [rbind]; [|apply elem_v_err]. destruct (is_k (fst kx) "Percentage"); [exact D|apply elem_v_ok].
Qed.
Lemma elem_acmp op k x k' y (s : st (npv V)) : division_agrees ediv -> inv is_num (elementwise_conv ediv) s -> elem_t (fun va vb => fst (cmp op (AQ k x va) (AQ k' y vb) s)).
Proof.
  intros Hd Is. unfold acmp. cbn [a_kind a_unit a_val]. destruct (seqb k k').
  2:{ intros n va vb f g Hn _ _ _ Hok. destruct (Hok O Hn) as (r & Hr). discriminate Hr. }
  destruct (kindless_ k'). { exact (elem_then _ _ (elem_unitless x Hd) (elem_cmp op)). }
  unfold acompare, ato. cbn [a_kind a_unit a_val].
  intros n va vb f g Hn Sa Sb W Hok. unfold bind in *. pose proof (convertible_keeps ediv s y x None Is) as I1. unfold arr_arith, NumPyFacts.npA in *.
  destruct (convertible y x None s) as [[c|e] s1] eqn:Ec. 2:{ destruct (Hok O Hn) as (r & Hr). discriminate Hr. }
  cbn [snd] in I1. destruct c. 2:{ destruct (Hok O Hn) as (r & Hr). discriminate Hr. }
  destruct (aconv_sees ediv Hd WrongValueError y x s1 n vb g I1 Hn Sb) as (v & h & s2 & Ev & Sv & Wv & Hi).
  { intros i Li. destruct (Hok i Li) as (r & Hr). unfold arr_arith, NumPyFacts.npA in *. destruct (aconv ediv WrongValueError (Num (g i)) y x s1) as [[w|e] s2]; [exists w; reflexivity|discriminate Hr]. }
  unfold arr_arith, NumPyFacts.npA in *. rewrite Ev. unfold amake in *.
  destruct (smem x (cls k')) eqn:Sx.
  2:{ destruct (Hok O Hn) as (r & Hr). rewrite (Hi O Hn) in Hr. discriminate Hr. }
  unfold lift. cbn [fst a_val]. destruct (elem_cmp op n va v f h Hn Sa Sv) as (l & P1 & P2 & P3); [now rewrite Wv|intros i Li; eexists; reflexivity|].
  exists l. split; [exact P1|]. split; [exact P2|]. intros i Li. destruct (P3 i Li) as (t & Q1 & Q2). exists t. split; [exact Q1|]. rewrite (Hi i Li). exact Q2.
Qed.
(** a < b, a <= b, a == b and alike *)
Theorem C79_truths : division_agrees ediv -> forall op s cs n a b, numeric_session ediv s -> Forall numeric_call cs -> of_length n a -> of_length n b -> one_of_length n a b ->
  (forall i ea eb, (i < n)%nat -> stands_at a i ea -> stands_at b i eb -> exists r, fst (cmp op ea eb (calls cs s)) = Ok r) ->
  exists l, fst (cmp op a b (calls cs s)) = Ok (BArr l) /\ length l = n
    /\ forall i ea eb, (i < n)%nat -> stands_at a i ea -> stands_at b i eb -> exists t, nth_error l i = Some t /\ fst (cmp op ea eb (calls cs s)) = Ok (BOne t).
Proof.
  intros Hd op s cs n a b Hs Hc Ha Hb Hab Hok. pose proof (session_inv ediv Hd s cs Hs Hc) as Is. pose proof (some_pos V A cls n a b Hab) as Hn.
  destruct (stands_sees V A cls n a Hn Ha) as (f & Sf & Af & Wf & Rf), (stands_sees V A cls n b Hn Hb) as (g & Sg & Ag & Wg & Rg).
  destruct (elem_acmp op (a_kind a) (a_unit a) (a_kind b) (a_unit b) (calls cs s) Hd Is n (a_val a) (a_val b) f g Hn Sf Sg) as (l & E & Ll & P).
  { destruct Hab as [[H L]|[H L]]; [rewrite (Af H) in L|rewrite (Ag H) in L]; lia. }
  { intros i Li. apply (Hok i); [exact Li|now apply Rf|now apply Rg]. }
  exists l. split; [destruct a, b; exact E|]. split; [exact Ll|]. intros i ea eb Li Ea Eb. apply (Rf i ea Li) in Ea. apply (Rg i eb Li) in Eb. subst ea eb. exact (P i Li).
Qed.
(** a < n *)
Theorem C79_truths_number : forall op a n, some_array a -> exists l, acmp_num op a n = Ok (BArr l) /\ length l = alen a
  /\ forall i ea, item a (Z.of_nat i) = Ok ea -> exists t, nth_error l i = Some t /\ acmp_num op ea n = Ok (BOne t).
Proof.
  intros op [k x v] n (Hx & Hk & b & l & Hv & Hl). cbn [a_val a_unit a_kind] in *. subst v. unfold acmp_num. cbn [a_val nd_cmp]. eexists. split; [reflexivity|]. split; [unfold alen; cbn [a_val]; apply map_length|].
  intros i ea Hi. rewrite (place_any V A cls k x b l) in Hi by assumption. destruct (Nat.lt_ge_cases i (length l)) as [L|L].
  - rewrite place_of in Hi by exact L. destruct (nth_error l i) as [y|] eqn:En; [|discriminate Hi]. injection Hi as <-. exists (op y n). rewrite nth_error_map, En. split; reflexivity.
  - rewrite place_none in Hi by lia. discriminate Hi.
Qed.
(** two kinds *)
Theorem C79_kinds_apart : forall op a b s, a_kind a <> a_kind b -> cmp op a b s = (Err TypeError, s).
Proof. intros op a b s N. apply seqb_neq in N. unfold acmp. rewrite N. reflexivity. Qed.
(** of a kind that is not unitless they are the comparisons of ArrQty.v *)
Theorem C79_truths_kind : forall op a b s, a_kind a = a_kind b -> a_kind a <> u "Dimensionless" -> a_kind a <> u "Percentage" -> cmp op a b s = acompare ediv cls op a b s.
Proof. intros op a b s E N1 N2. apply seqb_neq in N1, N2. unfold acmp, kindless_, is_k. rewrite <- E, seqb_refl, N1, N2. reflexivity. Qed.
End C79c.
Print Assumptions C79_truths.
Print Assumptions C79_truths_number.
Print Assumptions C79_kinds_apart.
Print Assumptions C79_truths_kind.

(** ** On single pure numbers and percentages they are the comparisons of Units.v *)
Theorem C79_single_truths : forall (F : Floats) (P : Pow) (E : Eval) ediv c a b w s, unitless_qty a -> q_kind a = q_kind b ->
  fst (acmp ediv (fun k => class_units k w) (named_in w) (holds c) (as_array a) (as_array b) s) = match fst (compare_ c a (PQ b) w) with Ok t => Ok (BOne t) | Err e => Err e end.
Proof.
  intros F P E ediv c [k x v] [k' y v'] w s Hu Ek. cbn [q_kind] in Ek. subst k'. apply kindless_qty in Hu. cbn [q_kind] in Hu.
  assert (R : forall m : W pv, fst (wbind m (fun r => wbind (wlift (as_qty r)) (fun q => wret (holds c v (q_val q)))) w)
     = match fst (m w) with Ok r => rbind (as_qty r) (fun q => Ok (holds c v (q_val q))) | Err e => Err e end).
  { intros m. unfold wbind, wlift, wret. destruct (m w) as [[r|e] w']; [|reflexivity]. cbn [fst]. destruct (as_qty r); reflexivity. }
  unfold compare_, acmp, as_array. cbn [q_kind q_unit q_val a_kind a_unit a_val]. rewrite seqb_refl, R. clear R. change (kindless_ k) with (kindless k). rewrite Hu. unfold to. cbn [q_kind q_unit q_val]. rewrite Hu. unfold lift. cbn [fst].
  destruct x as [|x0 x1]; [reflexivity|]. set (x := x0 :: x1) in *. unfold aunitless. replace (seqb x []) with false by reflexivity. unfold wbind at 1, wget.
  destruct (smem x (class_units (u "Percentage") w)) eqn:Ep.
  - unfold make, wbind, construct, wret. change (is_k (u "Percentage") "Unit") with false. change (is_k (u "Percentage") "UserUnits") with false. change (is_k (u "Percentage") "Date") with false.
    change (smem (u "Percentage") classes) with true. cbv iota. rewrite Ep. cbn [fst rbind as_qty q_val]. change (is_k (u "Percentage") "Percentage") with true. cbv iota.
    change (nd_bin b_mul (Num v') (Num (aconst 100))) with (Ok (Num (v' * Q2Qc 100)%Qc)). cbn [rbind].
    change (nd_bin (b_div ediv) (Num (v' * Q2Qc 100)%Qc) (Num (aconst 100))) with (rbind (qdiv (v' * Q2Qc 100)%Qc (Q2Qc 100)) (fun c => Ok (Num c))). rewrite hundred. reflexivity.
  - destruct (smem x (class_units (u "Dimensionless") w)) eqn:Ed.
    + unfold make, wbind, construct, wret. change (is_k (u "Dimensionless") "Unit") with false. change (is_k (u "Dimensionless") "UserUnits") with false. change (is_k (u "Dimensionless") "Date") with false.
      change (smem (u "Dimensionless") classes) with true. cbv iota. rewrite Ed. cbn [fst rbind as_qty q_val]. reflexivity.
    + unfold named_in. rewrite !units_inner, (inner_same v'). destruct (fst (inner 0%Qc (strip x) w w)) as [q|e]; [|reflexivity]. cbn [rbind fst snd as_qty q_val].
      destruct (is_k (q_kind q) "Percentage"); [|reflexivity].
      change (nd_bin (b_div ediv) (Num v') (Num (aconst 100))) with (rbind (qdiv v' (Q2Qc 100)) (fun c => Ok (Num c))). rewrite hundred. reflexivity.
Qed.
Print Assumptions C79_single_truths.

(** ** Example: Length([2, 3], 'km') < Length([5, 1000], 'm'), and < 3; Percentage([10, 60], '%') < Percentage([50], '%') *)
Definition demo_less : Qc -> Qc -> bool := holds Lt.
Definition demo_pct (k : str) : list str := if seqb k (u "Percentage") then [u "%"] else [].
Example C79_truths_example :
  fst (acmp qediv demo_cls demo_known demo_less demo_m demo_km demo_arr) = Ok (BArr [true; true])
  /\ acmp_num demo_less demo_km (Q2Qc 3) = Ok (BArr [true; false])
  /\ fst (acmp qediv demo_pct demo_known demo_less (AQ (u "Percentage") (u "%") (Arr Ndarray [Q2Qc (1 # 10); Q2Qc (6 # 10)])) (AQ (u "Percentage") (u "%") (Arr Ndarray [Q2Qc (1 # 2)])) demo_arr) = Ok (BArr [true; false]).
Proof. repeat split; vm_compute; reflexivity. Qed.
