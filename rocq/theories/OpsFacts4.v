(** * The nesting of products and quotients is bounded by the lengths of the names *)
From Coq Require Import String Lia ZArith QArith.
From Verif Require Import Py StrTools Network Search Conv Converter OpsSpec Operations OpsFacts OpsFacts2.
Local Open Scope N_scope.

(** ** No '*' in a number *)
Definition eats (x r : str) : Prop := exists p, x = p ++ r /\ ~ In c_star p.
Lemma eats_refl x : eats x x. Proof. exists []. split; [reflexivity|intros []]. Qed.
Lemma eats_trans x y z : eats x y -> eats y z -> eats x z.
Proof. intros (p & -> & Hp) (q & -> & Hq). exists (p ++ q). split; [now rewrite app_assoc|]. rewrite in_app_iff. tauto. Qed.
Lemma eats_cons c x r : c <> c_star -> eats x r -> eats (c :: x) r.
Proof. intros Hc (p & -> & Hp). exists (c :: p). split; [reflexivity|]. intros [H|H]; congruence || auto. Qed.
Lemma eats_nil x : eats x [] -> ~ In c_star x.
Proof. intros (p & E & H). rewrite app_nil_r in E. now subst. Qed.
Lemma dec_nostar c : is_dec c = true -> c <> c_star.
Proof. intros H ->. discriminate. Qed.
Lemma eats_dec x : eats x (snd (take_dec x)).
Proof.
  induction x as [|c x IH]; [apply eats_refl|]. cbn [take_dec]. destruct (is_dec c) eqn:E; [|apply eats_refl].
  cbn [snd]. apply eats_cons; [now apply dec_nostar|exact IH].
Qed.
Lemma eats_sign x : eats x (take_sign x).
Proof.
  destruct x as [|c x]; [apply eats_refl|]. unfold take_sign.
  destruct (N.eq_dec c 43) as [->|H1]; [apply eats_cons; [discriminate|apply eats_refl]|].
  destruct (N.eq_dec c 45) as [->|H2]; [apply eats_cons; [discriminate|apply eats_refl]|].
  destruct c as [|p]; [apply eats_refl|]. do 6 (destruct p as [p|p|]; try apply eats_refl); congruence.
Qed.
Lemma eats_exp x : eats x (take_exp x).
Proof.
  destruct x as [|c x]; [apply eats_refl|]. cbn [take_exp]. destruct ((c =? 101) || (c =? 69)) eqn:E; [|apply eats_refl].
  pose proof (eats_dec (take_sign x)) as D. destruct (take_dec (take_sign x)) as [[|] r]; [|apply eats_refl]. cbn [snd] in D.
  apply eats_cons; [intros ->; discriminate|]. exact (eats_trans _ _ _ (eats_sign x) D).
Qed.
Lemma lower_chars : forall c, clower c = c_star -> c = c_star.
Proof.
  intros c. unfold clower, c_star.
  repeat match goal with |- context [if ?b then _ else _] => let E := fresh in destruct b eqn:E end;
    rewrite ?andb_true_iff, ?N.leb_le, ?N.eqb_eq in *; lia.
Qed.
Lemma eats_word w x : sprefix w (lower x) = true -> ~ In c_star w -> eats x (skipn (length w) x).
Proof.
  intros H Hw. exists (firstn (length w) x). split; [now rewrite firstn_skipn|]. intros Hi. apply Hw.
  apply sprefix_spec in H as (t & E).
  assert (firstn (length w) (lower x) = w) as Ew.
  { rewrite E, firstn_app, Nat.sub_diag, firstn_all. cbn [firstn]. apply app_nil_r. }
  unfold lower in Ew. rewrite firstn_map in Ew. rewrite <- Ew. apply in_map_iff. exists c_star. split; [reflexivity|exact Hi].
Qed.
Lemma eats_float x r : take_float x = Some r -> eats x r.
Proof.
  unfold take_float. intros H. pose proof (eats_sign x) as S. pose proof (eats_dec (take_sign x)) as D1.
  destruct (take_dec (take_sign x)) as [b1 r1]. cbn [snd] in D1.
  assert (eats r1 (snd (match r1 with 46 :: r => take_dec r | _ => (false, r1) end))) as D2.
  { destruct r1 as [|c r1]; [apply eats_refl|]. destruct (N.eq_dec c 46) as [->|Hc].
    - apply eats_cons; [discriminate|apply eats_dec].
    - destruct c as [|p]; [apply eats_refl|]. do 6 (destruct p as [p|p|]; try apply eats_refl); congruence. }
  destruct (match r1 with 46 :: r => take_dec r | _ => (false, r1) end) as [b2 r2]. cbn [snd] in D2.
  destruct (b1 || b2).
  { injection H as <-. exact (eats_trans _ _ _ S (eats_trans _ _ _ D1 (eats_trans _ _ _ D2 (eats_exp r2)))). }
  destruct (sprefix (u "infinity") (lower (take_sign x))) eqn:E1.
  { injection H as <-. apply (eats_trans _ _ _ S). apply (eats_word (u "infinity")); [exact E1|]. intros Hi. repeat destruct Hi as [Hi|Hi]; discriminate || exact Hi. }
  destruct (sprefix (u "inf") (lower (take_sign x))) eqn:E2.
  { injection H as <-. apply (eats_trans _ _ _ S). apply (eats_word (u "inf")); [exact E2|]. intros Hi. repeat destruct Hi as [Hi|Hi]; discriminate || exact Hi. }
  destruct (sprefix (u "nan") (lower (take_sign x))) eqn:E3; [|discriminate].
  injection H as <-. apply (eats_trans _ _ _ S). apply (eats_word (u "nan")); [exact E3|]. intros Hi. repeat destruct Hi as [Hi|Hi]; discriminate || exact Hi.
Qed.
Lemma j_nostar c : is_j c = true -> c <> c_star. Proof. intros H ->. discriminate. Qed.
Lemma eats_complex x r : take_complex x = Some r -> eats x r.
Proof.
  unfold take_complex. destruct (take_float x) as [r1|] eqn:E.
  - pose proof (eats_float _ _ E) as H1. destruct r1 as [|c t]; [intros H; injection H as <-; exact H1|].
    destruct ((c =? 43) || (c =? 45)) eqn:Ec.
    + assert (eats (c :: t) (match take_float (c :: t) with Some r' => r' | None => t end)) as H2.
      { destruct (take_float (c :: t)) eqn:E2; [now apply eats_float|]. apply eats_cons; [intros ->; discriminate|apply eats_refl]. }
      destruct (match take_float (c :: t) with Some r' => r' | None => t end) as [|d t']; [discriminate|].
      destruct (is_j d) eqn:Ej; [|discriminate]. intros H. injection H as <-. apply (eats_trans _ _ _ H1), (eats_trans _ _ _ H2).
      apply eats_cons; [now apply j_nostar|apply eats_refl].
    + destruct (is_j c) eqn:Ej; intros H; injection H as <-; [|exact H1].
      apply (eats_trans _ _ _ H1). apply eats_cons; [now apply j_nostar|apply eats_refl].
  - pose proof (eats_sign x) as S. destruct (take_sign x) as [|d t]; [discriminate|]. destruct (is_j d) eqn:Ej; [|discriminate].
    intros H. injection H as <-. apply (eats_trans _ _ _ S). apply eats_cons; [now apply j_nostar|apply eats_refl].
Qed.
Lemma eats_space x : eats x (lstrip_chars wspace x).
Proof.
  destruct (lstrip_parts wspace x) as (p & E & H & _). exists p. split; [exact E|]. intros Hi. apply H in Hi.
  repeat destruct Hi as [Hi|Hi]; discriminate || exact Hi.
Qed.
Lemma drop_us_star b x y : drop_us b x = Some y -> In c_star x -> In c_star y.
Proof.
  revert b y; induction x as [|c x IH]; intros b y H Hi; [destruct Hi|]. cbn [drop_us] in H.
  destruct (N.eqb_spec c 95) as [->|Hc].
  - destruct Hi as [Hi|Hi]; [discriminate|]. destruct (b && _); [|discriminate]. exact (IH _ _ H Hi).
  - destruct (drop_us (is_dec c) x) as [y'|] eqn:E; [|discriminate]. injection H as <-.
    destruct Hi as [->|Hi]; [now left|right; exact (IH _ _ E Hi)].
Qed.
Lemma number_nostar x : is_number x = true -> ~ In c_star x.
Proof.
  unfold is_number. destruct (drop_us false x) as [y|] eqn:E; [|discriminate]. intros H Hx.
  apply (drop_us_star _ _ _ E) in Hx. revert Hx. apply eats_nil. apply (eats_trans _ _ _ (eats_space y)).
  set (z := lstrip_chars wspace y) in *. clearbody z. clear E y.
  assert (match take_complex z with Some r => match lstrip_chars wspace r with [] => true | _ => false end | None => false end = true -> eats z []) as Main.
  { destruct (take_complex z) as [r|] eqn:E; [|discriminate]. intros H1. apply (eats_trans _ _ _ (eats_complex _ _ E)), (eats_trans _ _ _ (eats_space r)).
    destruct (lstrip_chars wspace r); [apply eats_refl|discriminate]. }
  destruct z as [|c t]; [exact (Main H)|]. destruct (N.eq_dec c 40) as [->|Hc].
  - destruct (take_complex (lstrip_chars wspace t)) as [r|] eqn:E; [|discriminate].
    apply eats_cons; [discriminate|]. apply (eats_trans _ _ _ (eats_space t)), (eats_trans _ _ _ (eats_complex _ _ E)), (eats_trans _ _ _ (eats_space r)).
    destruct (lstrip_chars wspace r) as [|d r']; [discriminate|]. destruct (N.eq_dec d 41) as [->|Hd].
    + apply eats_cons; [discriminate|]. apply (eats_trans _ _ _ (eats_space r')). destruct (lstrip_chars wspace r'); [apply eats_refl|discriminate].
    + exfalso. destruct d as [|p]; [discriminate|]. do 6 (destruct p as [p|p|]; try discriminate); congruence.
  - apply Main. destruct c as [|p]; [exact H|]. do 6 (destruct p as [p|p|]; try exact H); congruence.
Qed.

Section F.
Context {F : Floats}.
Lemma flip_nil inv : flip inv [] = []. Proof. now destruct inv. Qed.
Lemma ubp_len x : forall bas pw oth inv,
  (length (fst (ubp_loop x bas pw oth inv)) <= length bas + length oth + length x)%nat
  /\ (pw = [] -> snd (ubp_loop x bas pw oth inv) <> [] -> (length (fst (ubp_loop x bas pw oth inv)) < length bas + length oth + length x)%nat).
Proof.
  induction x as [|c x IH]; intros bas pw oth inv.
  - cbn [ubp_loop fst snd length]. split; [lia|]. intros ->. now rewrite flip_nil.
  - cbn [ubp_loop]. destruct (isdigit c).
    { destruct (IH bas (pw ++ oth ++ [c]) [] inv) as (H & _). cbn [length] in *. split; lia. }
    destruct ((c =? c_minus) || (c =? c_plus) || (c =? c_dot)).
    { destruct (IH bas pw (oth ++ [c]) inv) as (H1 & H2). rewrite app_length in *. cbn [length] in *. split; [lia|]. intros Hp Hs. specialize (H2 Hp Hs). lia. }
    destruct (IH (bas ++ oth ++ [c]) (flip inv pw) [] (if c =? c_slash then negb inv else inv)) as (H1 & H2).
    rewrite !app_length in *. cbn [length] in *. split; [lia|]. intros -> Hs. specialize (H2 (flip_nil inv) Hs). lia.
Qed.
Lemma ubp_shorter a b p : unit_base_power a = Ok (b, p) -> p_eqZ p (-1) = true -> (length b < length a)%nat.
Proof.
  unfold unit_base_power. intros H Hp.
  assert ((let '(b0, p0) := ubp_loop a [] [] [] false in match p0 with [] => Ok (b0, PI 1) | _ => rbind (number_of p0) (fun v => Ok (b0, v)) end) = Ok (b, p) ->
          (length b < length a)%nat) as Main.
  { clear H. pose proof (ubp_len a [] [] [] false) as (_ & L). destruct (ubp_loop a [] [] [] false) as [b0 p0]. cbn [fst snd length] in L.
    intros H. destruct p0 as [|d p0].
    - injection H as <- <-. discriminate.
    - specialize (L eq_refl ltac:(discriminate)). destruct (number_of (d :: p0)) as [v|e]; [|discriminate]. cbn [rbind] in H. injection H as <- _. lia. }
  destruct (split2 c_slash a) as [[n b0]|] eqn:E; [|exact (Main H)].
  destruct (is_number n); [|exact (Main H)]. apply split2_spec in E as (E & _).
  destruct (number_of n) as [v|e]; [|discriminate]. cbn [rbind] in H. injection H as <- _. rewrite E, !app_length. cbn [length]. lia.
Qed.
Lemma base_nostar x b : unit_base x = Ok b -> ~ In c_star x -> ~ In c_star b.
Proof.
  unfold unit_base. destruct (unit_base_power x) as [[b0 p]|] eqn:E; [|discriminate]. cbn [rbind fst]. intros H Hx. injection H as <-.
  revert E. unfold unit_base_power.
  assert (forall y bas pw oth inv, ~ In c_star bas -> ~ In c_star oth -> ~ In c_star y -> ~ In c_star (fst (ubp_loop y bas pw oth inv))) as L.
  { induction y as [|c y IH]; intros bas pw oth inv H1 H2 H3; [exact H1|]. cbn [ubp_loop].
    assert (~ In c_star [c]) as Hc by (intros [H|[]]; apply H3; now left).
    assert (~ In c_star y) as Hy by (intros H; apply H3; now right).
    destruct (isdigit c); [apply IH; try assumption; intros []|].
    destruct ((c =? c_minus) || (c =? c_plus) || (c =? c_dot)); [apply IH; try assumption; rewrite in_app_iff; tauto|].
    apply IH; [rewrite !in_app_iff; tauto|intros []|exact Hy]. }
  specialize (L x [] [] [] false (fun z => z) (fun z => z) Hx).
  assert ((let '(b1, p0) := ubp_loop x [] [] [] false in match p0 with [] => Ok (b1, PI 1) | _ => rbind (number_of p0) (fun v => Ok (b1, v)) end) = Ok (b0, p) -> ~ In c_star b0) as Main.
  { destruct (ubp_loop x [] [] [] false) as [b1 p0]. cbn [fst] in L. destruct p0 as [|d p0].
    - intros H. injection H as <- _. exact L.
    - destruct (number_of (d :: p0)) as [v|e]; [|discriminate]. cbn [rbind]. intros H. injection H as <- _. exact L. }
  destruct (split2 c_slash x) as [[n b1]|] eqn:E; [|exact Main]. destruct (is_number n); [|exact Main].
  apply split2_spec in E as (E & _). destruct (number_of n) as [v|e]; [|discriminate]. cbn [rbind]. intros H. injection H as <- _.
  intros Hi. apply Hx. rewrite E, !in_app_iff. tauto.
Qed.
Lemma ubp_loop_star y : forall bas pw oth inv, In c_star bas \/ In c_star y -> In c_star (fst (ubp_loop y bas pw oth inv)).
Proof.
  induction y as [|c y IH]; intros bas pw oth inv H; [destruct H as [H|[]]; exact H|]. cbn [ubp_loop].
  destruct (isdigit c) eqn:Ed.
  { apply IH. destruct H as [H|[->|H]]; [now left|discriminate|now right]. }
  destruct ((c =? c_minus) || (c =? c_plus) || (c =? c_dot)) eqn:Es.
  { apply IH. destruct H as [H|[->|H]]; [now left|discriminate|now right]. }
  apply IH. destruct H as [H|[->|H]]; [left; apply in_app_iff; now left| |now right]. left. rewrite !in_app_iff. right. right. now left.
Qed.
Lemma base_star x b : unit_base x = Ok b -> In c_star x -> In c_star b.
Proof.
  unfold unit_base, unit_base_power. intros H Hx.
  assert (rbind (let '(b1, p) := ubp_loop x [] [] [] false in match p with [] => Ok (b1, PI 1) | _ => rbind (number_of p) (fun v => Ok (b1, v)) end) (fun r => Ok (fst r)) = Ok b -> In c_star b) as Main.
  { pose proof (ubp_loop_star x [] [] [] false (or_intror Hx)) as L. destruct (ubp_loop x [] [] [] false) as [b1 p0]. cbn [fst] in L.
    destruct p0 as [|d p0]; [intros H1; injection H1 as <-; exact L|]. destruct (number_of (d :: p0)); [|discriminate]. cbn [rbind fst]. intros H1. injection H1 as <-. exact L. }
  destruct (split2 c_slash x) as [[n b1]|] eqn:E; [|exact (Main H)]. destruct (is_number n) eqn:En; [|exact (Main H)].
  apply split2_spec in E as (E & _). apply number_nostar in En. destruct (number_of n); [|discriminate]. cbn [rbind fst] in H. injection H as <-.
  rewrite E, !in_app_iff in Hx. destruct Hx as [Hx|[[Hx|[]]|Hx]]; [contradiction|discriminate|exact Hx].
Qed.

(** ** Enough fuel is enough *)
Context {V : Type} {A : Arith V}.
Notation op := (unit_op (V:=V) unitless_names).
Definition mu (o1 o2 : option str) : nat :=
  if is_unitless unitless_names (norm o1) || is_unitless unitless_names (norm o2) then 0%nat else (length (norm o1) + length (norm o2))%nat.
Lemma norm_cases x : norm (Some x) = x \/ norm (Some x) = dimensionless.
Proof.
  unfold norm, or_dimless. destruct (strip_chars sp_par x) eqn:E; [now right|].
  destruct (split2 c_slash x) as [[a b]|]; [|now left]. destruct (seqb a b); [now right|now left].
Qed.
Lemma mu_le (x y : str) k : (length x + length y <= k)%nat -> (mu (Some x) (Some y) <= k)%nat.
Proof.
  intros H. unfold mu. destruct (norm_cases x) as [->| ->]; [|rewrite dimensionless_unitless; cbn [orb]; lia].
  destruct (norm_cases y) as [->| ->]; [|rewrite dimensionless_unitless, orb_true_r; lia].
  destruct (_ || _); lia.
Qed.
Lemma norm_fix o : norm (Some (norm o)) = norm o.
Proof.
  destruct o as [x|]; [|reflexivity]. destruct (norm_cases x) as [E|E]; rewrite E; [exact E|reflexivity].
Qed.
Lemma bind_ext {X Y} (m : M V X) (k1 k2 : X -> M V Y) s : (forall x s', k1 x s' = k2 x s') -> bind m k1 s = bind m k2 s.
Proof. intros H. unfold bind. destruct (m s) as [[x|e] s']; [apply H|reflexivity]. Qed.
Lemma div_factors_ext (f g : str -> str -> M V str) a b : forall l r s, (forall x s', In x l -> f x b s' = g x b s') ->
  div_factors f a b l r s = div_factors g a b l r s.
Proof.
  induction l as [|x l IH]; intros r s H; [reflexivity|]. cbn [div_factors]. destruct (seqb b x); [reflexivity|].
  apply bind_ext. intros bb s1. apply bind_ext. intros bx s2. destruct (seqb bb bx).
  - unfold bind. rewrite H by now left. destruct (g x b s2) as [[q|e] s3]; [|reflexivity]. apply IH. intros; apply H; now right.
  - apply IH. intros; apply H; now right.
Qed.
Lemma part_shorter a x : In c_star a -> In x (csplit c_star a) -> (length x < length a)%nat.
Proof.
  intros Ha Hx. pose proof (csplit_length c_star a) as L.
  assert (forall l, In x l -> (length x + (length l - 1) <= length (sjoin [c_star] l))%nat) as J.
  { induction l as [|y [|z l] IH]; intros Hi; [destruct Hi| |].
    - destruct Hi as [->|[]]. cbn [sjoin length]. lia.
    - change (sjoin [c_star] (y :: z :: l)) with (y ++ [c_star] ++ sjoin [c_star] (z :: l)). rewrite !app_length. cbn [length]. destruct Hi as [->|Hi].
      + assert (forall l' : list str, l' <> [] -> (length l' - 1 <= length (sjoin [c_star] l'))%nat) as K.
        { induction l' as [|w [|w2 l'] IH']; intros Hl; [congruence|cbn [length]; lia|]. change (sjoin [c_star] (w :: w2 :: l')) with (w ++ [c_star] ++ sjoin [c_star] (w2 :: l')). rewrite !app_length.
          specialize (IH' ltac:(discriminate)). cbn [length] in IH' |- *. lia. }
        specialize (K (z :: l) ltac:(discriminate)). cbn [length] in K |- *. lia.
      + specialize (IH Hi). cbn [length] in IH |- *. lia. }
  specialize (J _ Hx). rewrite csplit_join in J.
  assert (1 <= ccount c_star a)%nat as C; [|lia].
  clear -Ha. induction a as [|c a IH]; [destruct Ha|]. cbn [ccount]. destruct Ha as [->|Ha]; [rewrite N.eqb_refl; lia|]. specialize (IH Ha). lia.
Qed.
Lemma bind_lift {X Y} (r : res X) (k : X -> M V Y) s : bind (lift r) k s = match r with Ok x => k x s | Err e => (Err e, s) end.
Proof. unfold bind, lift. now destruct r. Qed.
Lemma bind_ret {X Y} (x : X) (k : X -> M V Y) s : bind (ret x) k s = k x s.
Proof. reflexivity. Qed.
Lemma base_in_star bb l : In c_star bb -> (forall x, In x l -> ~ In c_star x) -> base_in bb l <> Ok true.
Proof.
  intros Hb Hl. induction l as [|x l IH]; [discriminate|]. cbn [base_in]. destruct (unit_base x) as [y|e] eqn:E; [|discriminate]. cbn [rbind].
  destruct (seqb_spec bb y) as [->|_]; [exfalso; apply (base_nostar x y E); [apply Hl; now left|exact Hb]|].
  apply IH. intros z Hz. apply Hl. now right.
Qed.
Lemma op_same n n' div a s : norm (Some a) = a -> op (S n) div (Some a) (Some a) s = op (S n') div (Some a) (Some a) s.
Proof.
  intros Ha. cbn [unit_op]. rewrite Ha. destruct (is_unitless unitless_names a); [reflexivity|]. rewrite seqb_refl.
  destruct div; cbn [negb andb]; [|reflexivity].
  rewrite !bind_ret. cbv beta iota. rewrite !bind_lift. destruct (unit_base_power a) as [[b1 n1]|e] eqn:E; [|reflexivity].
  rewrite !bind_lift. cbv beta iota. rewrite andb_negb_r, andb_comm, andb_negb_r.
  apply bind_ext. intros [|] s1; [reflexivity|].
  match goal with |- (if ?c then _ else _) _ = _ => destruct c eqn:Ec end; [|reflexivity].
  apply andb_true_iff in Ec as (_ & Hstar). apply cmem_In in Hstar.
  rewrite !bind_lift. destruct (unit_base a) as [bb|e] eqn:Eb; [|reflexivity].
  rewrite !bind_lift. destruct (base_in bb (csplit c_star a)) as [[|]|e] eqn:Ei; [exfalso|reflexivity|reflexivity].
  revert Ei. apply base_in_star; [exact (base_star a bb Eb Hstar)|]. intros x Hx. exact (csplit_nosep c_star a x Hx).
Qed.
Theorem op_fuel_irrelevant : forall k n n' div o1 o2 s, (mu o1 o2 <= k)%nat -> (k < n)%nat -> (k < n')%nat ->
  op n div o1 o2 s = op n' div o1 o2 s.
Proof.
  induction k as [k IH] using (well_founded_induction lt_wf). intros n n' div o1 o2 s Hk Hn Hn'.
  destruct n as [|n]; [lia|]. destruct n' as [|n']; [lia|]. cbn [unit_op]. unfold mu in Hk.
  pose proof (norm_fix o1) as Na. pose proof (norm_fix o2) as Nb. set (a := norm o1) in *. set (b := norm o2) in *. clearbody a b.
  destruct (is_unitless unitless_names b) eqn:Ub; [reflexivity|]. destruct (is_unitless unitless_names a) eqn:Ua; [reflexivity|]. cbn [orb] in Hk.
  assert (1 <= length a)%nat as La by (destruct a; [discriminate|cbn [length]; lia]).
  assert (1 <= length b)%nat as Lb by (destruct b; [discriminate|cbn [length]; lia]).
  destruct (negb div && seqb a b); [reflexivity|]. apply bind_ext. intros [|] s1.
  { destruct n as [|n]; [lia|]. destruct n' as [|n']; [lia|]. now apply op_same. }
  rewrite !bind_lift. destruct (unit_base_power a) as [[b1 n1]|e] eqn:E1; [|reflexivity].
  rewrite !bind_lift. destruct (unit_base_power b) as [[b2 n2]|e] eqn:E2; [|reflexivity].
  destruct (p_eqZ n1 (-1) && negb (p_eqZ n2 (-1))) eqn:C1.
  { apply andb_true_iff in C1 as (C1 & _). pose proof (ubp_shorter a b1 n1 E1 C1) as L.
    destruct div; apply (IH (length b1 + length b)%nat); try lia; apply mu_le; lia. }
  destruct (negb (p_eqZ n1 (-1)) && p_eqZ n2 (-1)) eqn:C2.
  { apply andb_true_iff in C2 as (_ & C2). pose proof (ubp_shorter b b2 n2 E2 C2) as L.
    apply (IH (length a + length b2)%nat); try lia; apply mu_le; lia. }
  apply bind_ext. intros [|] s2; [reflexivity|].
  match goal with |- (if ?c then _ else _) _ = _ => destruct c eqn:Ec end; [|reflexivity].
  apply andb_true_iff in Ec as (_ & Hstar). apply cmem_In in Hstar.
  apply bind_ext. intros bb s3. apply bind_ext. intros [|] s4; [|reflexivity].
  unfold bind. rewrite (div_factors_ext (fun x y => op n true (Some x) (Some y)) (fun x y => op n' true (Some x) (Some y)) a b); [reflexivity|].
  intros x s5 Hx. pose proof (part_shorter a x Hstar Hx) as L. apply (IH (length x + length b)%nat); try lia; apply mu_le; lia.
Qed.
(** the nesting given to [unit_product] and [unit_division] is enough: more changes nothing *)
Theorem unit_op_enough n div o1 o2 s : (op_fuel o1 o2 <= n)%nat -> op n div o1 o2 s = op (op_fuel o1 o2) div o1 o2 s.
Proof.
  intros H. apply (op_fuel_irrelevant (mu o1 o2)); [lia| |]; unfold mu, op_fuel in *; destruct (_ || _); lia.
Qed.
End F.
