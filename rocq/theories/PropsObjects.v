(** * C82: quantities in a program

    Operations make new quantities and never change old ones; which quantities
    share an array; what an assignment changes; the text of a quantity. *)
From Coq Require Import String QArith Qcanon ZArith Lia.
From Verif Require Import Py StrTools Network Conv Converter NumPy NumPySpec Demo Database Shipped Operations Units ArrQty ArrQtyFacts ArrMul ArrNum ArrLaw Objects ObjectsFacts PropsOps PropsNumPy PropsArr PropsArr2.
Local Open Scope N_scope.

Section C82.
Context (F : Floats) (V : Type) (A : Arith V) (ediv : V -> V -> V) (cls : str -> list str) (named : str -> res (str * str)) (pw : V -> pnum F -> res V).
Notation heap := (heap V).
Notation step := (step ediv cls named pw).
Notation run := (run ediv cls named pw).

(** specification: the memory after some program *)
Definition reached (h : heap) : Prop := exists s cs, h = run cs (no_objects s).
(** specification: the commands that assign: q.units = x, q.values = v, q.values[n] = v, array[n] = v *)
Definition assigns (c : cmd F V) : Prop := match c with SetUnits _ _ | SetValues _ _ | Write _ _ _ | WriteArr _ _ _ => True | _ => False end.
Lemma not_assigns c : ~ assigns c -> changes c = false.
Proof. destruct c; cbn; tauto. Qed.
Lemma reached_wf h : reached h -> wf h.
Proof. intros (s & cs & ->). apply run_wf, wf_none. Qed.

(** ** No operation, whether it succeeds or raises, changes a quantity that there is *)
Theorem C82_operands : forall c h i q, ~ assigns c -> look h i = Some q -> look (snd (step c h)) i = Some q.
Proof. intros c h i q Hc. apply grows_look, step_grows, not_assigns, Hc. Qed.
Theorem C82_history : forall cs h i q, Forall (fun c => ~ assigns c) cs -> look h i = Some q -> look (run cs h) i = Some q.
Proof. intros cs. induction cs as [|c cs IH]; intros h i q Hc Hq; [exact Hq|]. inversion Hc as [|? ? H1 H2]; subst. cbn [Objects.run fold_left]. apply (IH _ i q H2), C82_operands; assumption. Qed.

(** ** Operators and conversions make a new quantity, with an array of its own *)
(** specification: [j] names a quantity that there was not, [q], which shares its array with no other *)
Definition new_quantity (h h' : heap) (j : nat) (q : aqty V) : Prop := look h j = None /\ look h' j = Some q /\ forall i, i <> j -> same_array h' i j = false.
Lemma fresh_new h h' q : reached h -> fresh h h' (length (h_obj h)) q -> new_quantity h h' (length (h_obj h)) q.
Proof.
  intros R (_ & _ & _ & Lk & W). split; [unfold look; now rewrite nth_past|]. split; [exact Lk|]. now apply W, reached_wf.
Qed.
(** specification: what is written with one quantity, [un_op q]... *)
Inductive written1 : unary F V -> (aqty V -> M (npv V) (aqty V)) -> Prop :=
  | w_to x : written1 (UTo x) (fun q => ato ediv cls q x)                                       (* q.to(x) *)
  | w_with o y : written1 (UWith o y) (fun q => lift (awith ediv cls o q y))                    (* q + n, q - n, q * n, q // n, q % n, q @ n *)
  | w_over y : written1 (UOver y) (fun q => lift (aover ediv cls named q y))                    (* q / n *)
  | w_under o y : written1 (UUnder o y) (fun q => lift (aunder ediv named o y q))               (* n / q, n // q *)
  | w_pow f p : written1 (UPow f p) (fun q => lift (apow ediv cls named f p q))                 (* q ** p *)
  | w_round f : written1 (URound f) (fun q => lift (around ediv named f q))                     (* q.round(n) *)
  | w_round_ f : written1 (URound_ f) (fun q => lift (around_ ediv cls f q))                    (* round(q, n) *)
  | w_each op : written1 (UEach op) (fun q => lift (aeachp ediv cls op q))                      (* -q, abs(q) *)
  | w_item n : written1 (UItem n) (fun q => lift (getitem cls q n)).                            (* q[n] *)
(** ... and with two *)
Inductive written2 : binary V -> (aqty V -> aqty V -> M (npv V) (aqty V)) -> Prop :=
  | w_sum op : written2 (BSum op) (aplus ediv cls op)                                           (* a + b, a - b *)
  | w_times : written2 BMul (atimes ediv cls named pw)                                          (* a * b *)
  | w_divided : written2 BOver (adivided ediv cls named pw)                                     (* a / b *)
  | w_div o quot : written2 (BDiv o quot) (adiv_qty ediv cls named pw o quot).                  (* a // b, a @ b, a % b *)
Theorem C82_unary : forall h f m i q, reached h -> written1 f m -> look h i = Some q -> a_kind q <> u "Dimensionless" -> a_kind q <> u "Percentage" ->
  match fst (m q (h_eng h)) with
  | Ok r => exists j h', step (Un f i) h = (Ok (Some j), h') /\ new_quantity h h' j r
  | Err e => fst (step (Un f i) h) = Err e
  end.
Proof.
  intros h f m i q R Hm Hq N1 N2. assert (Eo : exists o, nth_error (h_obj h) i = Some o /\ o_kind o = a_kind q).
  { unfold look in Hq. destruct (nth_error (h_obj h) i) as [o|]; [|discriminate Hq]. exists o. split; [reflexivity|]. destruct (deref h (o_val o)); [|discriminate Hq]. injection Hq as <-. reflexivity. }
  destruct Eo as (o & Eo & Ek). apply seqb_neq in N1, N2.
  assert (G : match fst (m q (h_eng h)) with Ok r => exists j h', computed (m q) h = (Ok (Some j), h') /\ new_quantity h h' j r | Err e => fst (computed (m q) h) = Err e end).
  { destruct (computed_cases (m q) h) as [(r & e & h' & Em & -> & Fr)|(x & e & Em & ->)]; rewrite Em; cbn [fst]; [|reflexivity]. exists (length (h_obj h)), h'. split; [reflexivity|]. now apply fresh_new. }
  assert (E : step (Un f i) h = computed (m q) h) by (cbn [Objects.step]; rewrite Eo, Hq; unfold unitless, is_k; rewrite Ek, N1, N2; cbn [orb]; destruct Hm; reflexivity).
  rewrite E. exact G.
Qed.
Theorem C82_binary : forall h f m i j a b, reached h -> written2 f m -> look h i = Some a -> look h j = Some b ->
  match fst (m a b (h_eng h)) with
  | Ok r => exists n h', step (Bi f i j) h = (Ok (Some n), h') /\ new_quantity h h' n r
  | Err e => fst (step (Bi f i j) h) = Err e
  end.
Proof.
  intros h f m i j a b R Hm Ha Hb. assert (E : step (Bi f i j) h = computed (m a b) h) by (cbn [Objects.step]; rewrite Ha, Hb; destruct Hm; reflexivity). rewrite E.
  destruct (computed_cases (m a b) h) as [(r & e & h' & Em & -> & Fr)|(x & e & Em & ->)]; rewrite Em; cbn [fst]; [|reflexivity]. exists (length (h_obj h)), h'. split; [reflexivity|]. now apply fresh_new.
Qed.
(** every operation is one of these *)
Theorem C82_written : (forall f, exists m, written1 f m) /\ (forall f, exists m, written2 f m).
Proof. split; intros []; eexists; constructor. Qed.
(** "a part of an array is a quantity": q[1:3] raises *)
Theorem C82_slice_refuted : forall h i q, look h i = Some q -> fst (step (Un (UItem IOther) i) h) = Err IndexError.
Proof.
  intros h i q Hq. cbn [Objects.step]. rewrite Hq. unfold look in Hq. destruct (nth_error (h_obj h) i) as [o|]; [|discriminate Hq]. reflexivity.
Qed.
(** a list given to a constructor: an array of its own *)
Theorem C82_list : forall h k l x, reached h -> In x (cls k) -> k <> u "Percentage" ->
  exists j h', step (Make k (IList l) x) h = (Ok (Some j), h') /\ new_quantity h h' j (AQ k x (Arr Ndarray l)).
Proof.
  intros h k l x R Hx Hk. destruct (new_qty_fresh (AQ k x (Arr Ndarray l)) h) as (h' & E & Fr). exists (length (h_obj h)), h'. split; [|now apply fresh_new].
  rewrite <- E. cbn [Objects.step]. unfold make. cbn [given store]. apply smem_In in Hx. apply seqb_neq in Hk. unfold is_k. rewrite Hx, Hk. reflexivity.
Qed.

(** a unit that is not one of the kind's: an error, and nothing is made *)
Theorem C82_wrong_unit : forall h k a x, ~ In x (cls k) -> exists e, step (Make k a x) h = (Err e, h).
Proof.
  intros h k a x Hx. assert (Sx : smem x (cls k) = false) by (destruct (smem x (cls k)) eqn:E; [apply smem_In in E; contradiction|reflexivity]).
  cbn [Objects.step]. unfold make. destruct (given a h) as [[s|e] h1]; [|exists e; reflexivity]. rewrite Sx. exists WrongUnitsError. reflexivity.
Qed.
(** ** A quantity given to a constructor: the number goes over as it is, whatever its unit, and the array is shared *)
Theorem C82_copied : forall h k i q x, look h i = Some q -> In x (cls k) -> k <> u "Percentage" ->
  exists j h', step (Make k (IObj i) x) h = (Ok (Some j), h') /\ look h j = None /\ look h' j = Some (AQ k x (a_val q))
    /\ same_array h' i j = match a_val q with Arr _ _ => true | Num _ => false end.
Proof.
  intros h k i q x Hq Hx Hk. unfold look in Hq. destruct (nth_error (h_obj h) i) as [o|] eqn:Eo; [|discriminate Hq]. destruct (deref h (o_val o)) as [v|] eqn:Ev; [|discriminate Hq]. injection Hq as <-.
  cbn [Objects.step]. unfold make. cbn [given]. rewrite Eo. apply smem_In in Hx. apply seqb_neq in Hk. unfold is_k. rewrite Hx, Hk. cbn [negb]. unfold new_obj. eexists. eexists. split; [reflexivity|].
  split; [unfold look; now rewrite nth_past|]. cbn [a_val]. split.
  - unfold look. cbn [h_obj]. rewrite nth_new. cbn [o_val o_kind o_unit]. unfold deref in *. cbn [h_buf]. now rewrite Ev.
  - unfold same_array. cbn [h_obj]. rewrite nth_new, (nth_keep _ _ _ _ Eo). destruct o as [k0 x0 [y|p]]; cbn [o_val deref] in Ev.
    + injection Ev as <-. reflexivity.
    + destruct (nth_error (h_buf h) p) as [[b l]|]; [|discriminate Ev]. injection Ev as <-. apply Nat.eqb_refl.
Qed.
(** these and the conversions of unitless quantities are the only ones that share, and a user's array given twice *)
(** specification: q.values is the p-th array *)
Definition holds_array (h : heap) (i p : nat) : Prop := exists k x, nth_error (h_obj h) i = Some (Obj k x (SBuf p)).
Theorem C82_sharing : forall h c j h' i, reached h -> step c h = (Ok (Some j), h') -> i <> j -> same_array h' i j = true ->
  (exists k p x, c = Make k (IArr p) x /\ holds_array h i p)
  \/ exists o, same_array h i o = true
    /\ ((exists k x, c = Make k (IObj o) x) \/ exists x q, c = Un (UTo x) o /\ look h o = Some q /\ (a_kind q = u "Dimensionless" \/ a_kind q = u "Percentage")).
Proof.
  intros h c j h' i R. pose proof (reached_wf h R) as W.
  assert (Fresh : forall q, new_qty q h = (Ok (Some j), h') -> i <> j -> same_array h' i j = true -> False).
  { intros q E Ni Sm. destruct (new_qty_fresh q h) as (h2 & E2 & _ & _ & _ & _ & H). rewrite E2 in E. injection E as <- <-. destruct (H W) as [_ H']. rewrite (H' i Ni) in Sm. discriminate Sm. }
  assert (Comp : forall m, computed m h = (Ok (Some j), h') -> i <> j -> same_array h' i j = true -> False).
  { intros m E Ni Sm. destruct (computed_cases m h) as [(q & e & h2 & _ & E2 & Fr)|(x & e & _ & E2)]; rewrite E2 in E; [|discriminate E]. injection E as <- <-. destruct Fr as (_ & _ & _ & _ & H). destruct (H W) as [_ H']. rewrite (H' i Ni) in Sm. discriminate Sm. }
  assert (Obj' : forall k x s (h1 : heap), h_obj h1 = h_obj h -> new_obj (Obj k x s) h1 = (Ok (Some j), h') -> i <> j -> same_array h' i j = true ->
    exists p k0 x0, s = SBuf p /\ nth_error (h_obj h) i = Some (Obj k0 x0 (SBuf p))).
  { intros k x s h1 Eh E Ni Sm. unfold new_obj in E. injection E as <- <-. rewrite Eh in *. unfold same_array in Sm. cbn [h_obj] in Sm. rewrite nth_new in Sm.
    destruct (nth_error (h_obj h ++ _)%list i) as [[k0 x0 [y|p]]|] eqn:Ei; try discriminate Sm. destruct s as [y|p']; [discriminate Sm|]. apply Nat.eqb_eq in Sm. subst p'.
    exists p, k0, x0. split; [reflexivity|]. destruct (Nat.lt_ge_cases i (length (h_obj h))) as [L|L]; [now rewrite nth_error_app1 in Ei|].
    rewrite nth_error_app2 in Ei by exact L. destruct (i - length (h_obj h))%nat as [|m] eqn:Em; [lia|]. destruct m; discriminate Ei. }
  destruct c as [b l|k a x|f n|f n m|op n m|n x|n a|n z v|p z v]; cbn [Objects.step]; intros E Ni Sm.
  - discriminate E.
  - unfold make in E. destruct (given a h) as [[s|e] h1] eqn:Eg; [|discriminate E]. destruct (negb (smem x (cls k))); [discriminate E|]. destruct (is_k k "Percentage").
    + destruct (deref h1 s) as [v|]; [|discriminate E]. destruct (percent ediv v) as [w|e]; [|discriminate E]. destruct (Fresh _ E Ni Sm).
    + destruct a as [y|l|p|o]; cbn [given] in Eg.
      * injection Eg as <- <-. destruct (Obj' _ _ _ h eq_refl E Ni Sm) as (p & _ & _ & X & _). discriminate X.
      * injection Eg as <- <-. destruct (Obj' _ _ _ _ (eq_refl : h_obj (snd (store (Arr Ndarray l) h)) = h_obj h) E Ni Sm) as (p & k0 & x0 & X & Ei). injection X as <-. specialize (W _ (nth_error_In _ _ Ei)). cbn in W. lia.
      * destruct (nth_error (h_buf h) p) as [bl|]; [|discriminate Eg]. injection Eg as <- <-. destruct (Obj' _ _ _ h eq_refl E Ni Sm) as (p' & k0 & x0 & X & Ei). injection X as <-. left. exists k, p, x. split; [reflexivity|]. exists k0, x0. exact Ei.
      * destruct (nth_error (h_obj h) o) as [ob|] eqn:Eo; [|discriminate Eg]. injection Eg as <- <-. destruct (Obj' _ _ _ h eq_refl E Ni Sm) as (p & k0 & x0 & X & Ei).
        right. exists o. split; [|left; exists k, x; reflexivity]. unfold same_array. rewrite Ei, Eo. destruct ob as [k1 x1 v1]. cbn [o_val] in X. rewrite X. apply Nat.eqb_refl.
  - destruct (nth_error (h_obj h) n) as [o|] eqn:Eo; [|discriminate E]. destruct (look h n) as [q|] eqn:Eq; [|discriminate E].
    destruct f as [x|o1 y|y|o1 y|f1 p1|f1|f1|op|z]; try (destruct (Comp _ E Ni Sm)). destruct (unitless (o_kind o)) eqn:Eu; [|destruct (Comp _ E Ni Sm)].
    assert (Kq : a_kind q = o_kind o /\ (a_kind q = u "Dimensionless" \/ a_kind q = u "Percentage")).
    { unfold look in Eq. rewrite Eo in Eq. destruct (deref h (o_val o)); [|discriminate Eq]. injection Eq as <-. cbn [a_kind]. split; [reflexivity|]. unfold unitless, is_k in Eu. apply orb_true_iff in Eu. destruct Eu as [Eu|Eu]; apply seqb_eq in Eu; auto. }
    assert (Sh : forall k0 y, new_obj (Obj k0 y (o_val o)) h = (Ok (Some j), h') -> same_array h i n = true).
    { intros k0 y E'. destruct (Obj' _ _ _ h eq_refl E' Ni Sm) as (p & k1 & x1 & X & Ei). unfold same_array. rewrite Ei, Eo. destruct o as [k2 x2 v2]. cbn [o_val] in X. rewrite X. apply Nat.eqb_refl. }
    right. exists n. split; [|right; exists x, q; split; [reflexivity|]; split; [exact Eq|apply Kq]].
    unfold unitless_to in E. destruct (seqb x []); [discriminate E|]. destruct (smem x (cls (u "Percentage"))).
    { destruct (percent ediv _) as [w|e]; [destruct (Fresh _ E Ni Sm)|discriminate E]. }
    destruct (smem x (cls (u "Dimensionless"))); [exact (Sh _ _ E)|]. destruct (named x) as [[k0 y]|e]; [|discriminate E]. destruct (is_k k0 "Percentage"); [|exact (Sh _ _ E)].
    destruct (percent ediv _) as [w|e]; [destruct (Fresh _ E Ni Sm)|discriminate E].
  - destruct (look h n) as [a|]; [|discriminate E]. destruct (look h m) as [b|]; [|discriminate E]. destruct (Comp _ E Ni Sm).
  - destruct (look h n) as [a|]; [|discriminate E]. destruct (look h m) as [b|]; [|discriminate E]. destruct (acmp ediv cls named op a b (h_eng h)) as [[r|x] e]; discriminate E.
  - destruct (Nat.ltb n (length (h_obj h))); discriminate E.
  - destruct a; try discriminate E; destruct (given _ h) as [[s|e] h1]; try discriminate E; destruct (Nat.ltb n (length (h_obj h))); discriminate E.
  - destruct (nth_error (h_obj h) n) as [[k0 x0 [y|p]]|]; try discriminate E. unfold write in E. destruct (nth_error (h_buf h) p) as [[b l]|]; [|discriminate E]. destruct (nd_set l z v); discriminate E.
  - unfold write in E. destruct (nth_error (h_buf h) p) as [[b l]|]; [|discriminate E]. destruct (nd_set l z v); discriminate E.
Qed.
(** what shares an array goes on sharing it, and no command but an assignment of values makes old quantities share *)
Theorem C82_sharing_kept : forall h c i j q r, look h i = Some q -> look h j = Some r -> (forall n a, c <> SetValues n a) -> same_array (snd (step c h)) i j = same_array h i j.
Proof.
  intros h c i j q r Hi Hj Hc. destruct (changes c) eqn:Ec; [|exact (grows_same _ _ i j q r (step_grows ediv cls named pw c h Ec) Hi Hj)].
  assert (Wr : forall p n v, same_array (snd (write p n v h)) i j = same_array h i j).
  { intros p n v. unfold write. destruct (nth_error (h_buf h) p) as [[b l]|]; [|reflexivity]. destruct (nd_set l n v); reflexivity. }
  destruct c as [b l|k a x|f n|f n m|op n m|n x|n a|n z v|p z v]; try discriminate Ec; cbn [Objects.step].
  - destruct (Nat.ltb n (length (h_obj h))); [|reflexivity]. cbn [snd]. unfold same_array. cbn [h_obj]. rewrite !upd_nth.
    destruct (Nat.eqb i n), (Nat.eqb j n); try reflexivity; destruct (nth_error (h_obj h) i) as [[? ? [?|?]]|], (nth_error (h_obj h) j) as [[? ? [?|?]]|]; reflexivity.
  - now elim (Hc n a).
  - destruct (nth_error (h_obj h) n) as [[k0 x0 [y|p]]|]; try reflexivity. apply Wr.
  - apply Wr.
Qed.

(** ** Assignments *)
(** q.values[n] = v changes the n-th element of q and of the quantities that share its array, and nothing else *)
Lemma nd_set_ok (l : list V) m n v : (m < length l)%nat -> n = Z.of_nat m \/ n = (Z.of_nat m - Z.of_nat (length l))%Z ->
  exists l', nd_set l n v = Ok l' /\ length l' = length l /\ forall i, nth_error l' i = if Nat.eqb i m then Some v else nth_error l i.
Proof.
  intros L Hn. exists (upd l m (fun _ => v)). split; [|split; [apply upd_length|]].
  - unfold nd_set. cbv zeta. set (z := if (n <? 0)%Z then (n + Z.of_nat (length l))%Z else n). assert (Ez : z = Z.of_nat m) by (unfold z; destruct (Z.ltb_spec n 0); lia).
    rewrite Ez. destruct (Z.ltb_spec (Z.of_nat m) 0); [lia|]. destruct (Z.leb_spec (Z.of_nat (length l)) (Z.of_nat m)); [lia|]. cbn [orb]. now rewrite Nat2Z.id.
  - intros i. rewrite upd_nth. destruct (Nat.eqb_spec i m) as [->|]; [|reflexivity]. destruct (nth_error l m) eqn:E; [reflexivity|]. apply nth_error_None in E. lia.
Qed.
Theorem C82_element : forall h i k x b l m n v, reached h -> look h i = Some (AQ k x (Arr b l)) -> (m < length l)%nat -> n = Z.of_nat m \/ n = (Z.of_nat m - Z.of_nat (length l))%Z ->
  exists h' l', step (Write i n v) h = (Ok None, h') /\ length l' = length l /\ (forall e, nth_error l' e = if Nat.eqb e m then Some v else nth_error l e)
    /\ forall j q, look h j = Some q -> look h' j = Some (if same_array h i j then AQ (a_kind q) (a_unit q) (Arr b l') else q).
Proof.
  intros h i k x b l m n v R Hq Lm Hn. destruct (nd_set_ok l m n v Lm Hn) as (l' & El & Ll & Hl). unfold look in Hq. destruct (nth_error (h_obj h) i) as [[k0 x0 s]|] eqn:Eo; [|discriminate Hq]. cbn [o_val o_kind o_unit] in Hq.
  destruct s as [y|p]; [discriminate Hq|]. cbn [deref] in Hq. destruct (nth_error (h_buf h) p) as [[b0 l0]|] eqn:Ep; [|discriminate Hq]. injection Hq as <- <- <- <-.
  eexists. exists l'. cbn [Objects.step]. rewrite Eo. unfold write. rewrite Ep, El. split; [reflexivity|]. split; [exact Ll|]. split; [exact Hl|].
  intros j q Hj. unfold look, same_array in *. cbn [h_obj]. rewrite Eo. destruct (nth_error (h_obj h) j) as [[k1 x1 s1]|] eqn:Ej; [|discriminate Hj]. cbn [o_val o_kind o_unit] in *. destruct s1 as [y|p1]; cbn [deref] in *.
  - injection Hj as <-. reflexivity.
  - cbn [h_buf]. rewrite upd_nth, (Nat.eqb_sym p1 p). destruct (Nat.eqb_spec p p1) as [<-|Np].
    + rewrite Ep in *. cbn [option_map]. injection Hj as <-. reflexivity.
    + destruct (nth_error (h_buf h) p1) as [[b1 l1]|]; [|discriminate Hj]. exact Hj.
Qed.
(** beyond the array, or of a number: an error, and nothing changes *)
Theorem C82_element_refused : forall h i k x n v, reached h ->
  (forall b l, look h i = Some (AQ k x (Arr b l)) -> (n < - Z.of_nat (length l) \/ Z.of_nat (length l) <= n)%Z -> step (Write i n v) h = (Err IndexError, h))
  /\ (forall y, look h i = Some (AQ k x (Num y)) -> step (Write i n v) h = (Err TypeError, h)).
Proof.
  intros h i k x n v R. split; [intros b l Hq Hn|intros y Hq]; unfold look in Hq; (destruct (nth_error (h_obj h) i) as [[k0 x0 s]|] eqn:Eo; [|discriminate Hq]); cbn [o_val o_kind o_unit] in Hq; destruct s as [z|p]; cbn [deref] in Hq.
  - discriminate Hq.
  - destruct (nth_error (h_buf h) p) as [[b0 l0]|] eqn:Ep; [|discriminate Hq]. injection Hq as <- <- <- <-. cbn [Objects.step]. rewrite Eo. unfold write. rewrite Ep.
    unfold nd_set. cbv zeta. set (z := if (n <? 0)%Z then (n + Z.of_nat (length l0))%Z else n). assert (Hz : (z < 0 \/ Z.of_nat (length l0) <= z)%Z) by (unfold z; destruct (Z.ltb_spec n 0); lia).
    destruct (Z.ltb_spec z 0); [reflexivity|]. destruct (Z.leb_spec (Z.of_nat (length l0)) z); [reflexivity|]. lia.
  - cbn [Objects.step]. rewrite Eo. reflexivity.
  - destruct (nth_error (h_buf h) p) as [[b0 l0]|]; discriminate Hq.
Qed.
(** q.units = x changes the unit and nothing else: the number stays, any text is taken *)
Theorem C82_units : forall h i q x, look h i = Some q ->
  exists h', step (SetUnits i x) h = (Ok None, h') /\ look h' i = Some (AQ (a_kind q) x (a_val q)) /\ forall j, j <> i -> look h' j = look h j.
Proof.
  intros h i q x Hq. unfold look in Hq. destruct (nth_error (h_obj h) i) as [o|] eqn:Eo; [|discriminate Hq]. destruct (deref h (o_val o)) as [v|] eqn:Ev; [|discriminate Hq]. injection Hq as <-.
  cbn [Objects.step]. assert (L : (i < length (h_obj h))%nat) by (apply nth_error_Some; rewrite Eo; discriminate). apply Nat.ltb_lt in L. rewrite L. eexists. split; [reflexivity|]. split.
  - unfold look. cbn [h_obj]. rewrite upd_nth, Nat.eqb_refl, Eo. cbn [option_map o_val o_kind o_unit a_kind a_val]. unfold deref in *. cbn [h_buf]. now rewrite Ev.
  - intros j Nj. unfold look. cbn [h_obj]. rewrite upd_nth. apply Nat.eqb_neq in Nj. rewrite Nj. reflexivity.
Qed.
(** with a unit that is not one of its kind, no operation on it works until it is assigned again *)
Theorem C82_units_wrong : forall q b s, ~ In (a_unit q) (cls (a_kind q)) -> a_kind q <> u "Dimensionless" -> a_kind q <> u "Percentage" ->
  (forall op, fst (un_val ediv cls named (UEach op) q s) = Err WrongUnitsError)
  /\ (forall op y, fst (un_val ediv cls named (UWith (b_op op) y) q s) = Err WrongUnitsError)
  /\ (forall op, a_kind b = a_kind q -> a_unit b = a_unit q -> alen b = alen q -> fst (bi_val ediv cls named pw (BSum op) q b s) = Err WrongUnitsError).
Proof.
  intros [k x v] b s Hx Hk Np. cbn [a_unit a_kind] in *. assert (Sx : smem x (cls k) = false) by (destruct (smem x (cls k)) eqn:E; [apply smem_In in E; contradiction|reflexivity]).
  apply seqb_neq in Np. split; [|split]; intros op.
  - cbn [un_val]. unfold lift, aeachp, amake. cbv zeta. cbn [a_unit a_kind a_val fst]. unfold is_k. rewrite Np. now rewrite Sx.
  - intros y. cbn [un_val]. unfold lift, awith, amake. cbn [a_unit a_kind a_val fst]. unfold is_k. destruct v as [z|c l]; cbn [nd_bin nd_op broadcast rbind b_op on_numbers]; rewrite Np; now rewrite Sx.
  - intros Ek Eu El. cbn [bi_val]. rewrite C79_total_sum by (cbn [a_kind]; first [now rewrite Ek|now apply seqb_neq]). unfold asum. rewrite Eu. cbn [a_unit a_kind a_val]. rewrite seqb_refl. unfold lift, amake, alen in *. cbn [fst a_val] in *. destruct v as [z|c l], (a_val b) as [z'|c' l']; cbn [nd_op broadcast rbind]; try (now rewrite Sx).
    unfold nd_map2. rewrite El, Nat.eqb_refl. cbn [rbind]. now rewrite Sx.
Qed.
(** q.values = other.values: its kind and unit stay, the array is the other's from then on *)
Theorem C82_values : forall h i q o r, look h i = Some q -> look h o = Some r ->
  exists h', step (SetValues i (IObj o)) h = (Ok None, h') /\ look h' i = Some (AQ (a_kind q) (a_unit q) (a_val r)) /\ (forall j, j <> i -> look h' j = look h j)
    /\ (same_array h' i o = match a_val r with Arr _ _ => true | Num _ => false end).
Proof.
  intros h i q o r Hq Hr. unfold look in Hq, Hr. destruct (nth_error (h_obj h) i) as [oi|] eqn:Ei; [|discriminate Hq]. destruct (deref h (o_val oi)) as [v|] eqn:Ev; [|discriminate Hq]. injection Hq as <-.
  destruct (nth_error (h_obj h) o) as [oo|] eqn:Eo; [|discriminate Hr]. destruct (deref h (o_val oo)) as [w|] eqn:Ew; [|discriminate Hr]. injection Hr as <-. cbn [a_val a_kind a_unit].
  cbn [Objects.step given]. rewrite Eo. assert (L : (i < length (h_obj h))%nat) by (apply nth_error_Some; rewrite Ei; discriminate). apply Nat.ltb_lt in L. rewrite L. eexists. split; [reflexivity|]. split; [|split].
  - unfold look. cbn [h_obj]. rewrite upd_nth, Nat.eqb_refl, Ei. cbn [option_map o_val o_kind o_unit]. unfold deref in *. cbn [h_buf]. now rewrite Ew.
  - intros j Nj. unfold look. cbn [h_obj]. rewrite upd_nth. apply Nat.eqb_neq in Nj. rewrite Nj. reflexivity.
  - unfold same_array. cbn [h_obj]. rewrite !upd_nth, Nat.eqb_refl, Ei. cbn [option_map].
    assert (S' : match w with Arr _ _ => exists p, o_val oo = SBuf p | Num _ => exists z, o_val oo = SNum z end).
    { destruct (o_val oo) as [z|p]; cbn [deref] in Ew; [injection Ew as <-; exists z; reflexivity|]. destruct (nth_error (h_buf h) p) as [[b l]|]; [|discriminate Ew]. injection Ew as <-. exists p. reflexivity. }
    destruct w as [z|b l]; destruct S' as (p & Ep); rewrite Ep; [reflexivity|].
    destruct (Nat.eqb o i); rewrite Eo; cbn [option_map]; [|destruct oo as [ko xo vo]; cbn [o_val] in Ep; subst vo]; apply Nat.eqb_refl.
Qed.

(** ** The text *)
(** when the text of a value has no underscore, the text of a quantity tells the value's text and the unit *)
Theorem C82_text : forall show q q', (forall v, ~ In 95 (show v)) -> a_kind q <> u "Percentage" -> a_kind q' <> u "Percentage" -> strip (a_unit q) <> [] -> strip (a_unit q') <> [] ->
  text show q = text show q' <-> show (a_val q) = show (a_val q') /\ a_unit q = a_unit q'.
Proof.
  intros show q q' Hs Hk Hk' Hu Hu'. apply seqb_neq in Hk, Hk'. unfold text, is_k. rewrite Hk, Hk'. destruct (strip (a_unit q)) as [|? ?]; [now elim Hu|]. destruct (strip (a_unit q')) as [|? ?]; [now elim Hu'|].
  split; [|intros [-> ->]; reflexivity]. generalize (Hs (a_val q)) (Hs (a_val q')). generalize (show (a_val q)) (show (a_val q')). intros a. change (u "_") with [95].
  induction a as [|x a IH]; intros [|y a'] Ha Ha' E; cbn [Datatypes.app] in E.
  - injection E as E. split; [reflexivity|exact E].
  - injection E as E0 _. elim Ha'. left. symmetry. exact E0.
  - injection E as E0 _. elim Ha. left. exact E0.
  - injection E as E0 E. subst y. destruct (IH a') as [E1 E2]; [intros H; apply Ha; right; exact H|intros H; apply Ha'; right; exact H|exact E|]. subst a'. split; [reflexivity|exact E2].
Qed.
(** [repr] is [str], but without a unit *)
Theorem C82_repr : forall show q, strip (a_unit q) <> [] \/ a_kind q = u "Percentage" -> repr show q = text show q.
Proof.
  intros show q H. unfold repr, text, is_k. destruct (seqb (a_kind q) (u "Percentage")) eqn:E; [reflexivity|]. destruct H as [H|H]; [|rewrite H, seqb_refl in E; discriminate E].
  destruct (strip (a_unit q)); [now elim H|reflexivity].
Qed.
End C82.
Print Assumptions C82_operands.
Print Assumptions C82_history.
Print Assumptions C82_unary.
Print Assumptions C82_binary.
Print Assumptions C82_written.
Print Assumptions C82_slice_refuted.
Print Assumptions C82_list.
Print Assumptions C82_wrong_unit.
Print Assumptions C82_copied.
Print Assumptions C82_sharing.
Print Assumptions C82_sharing_kept.
Print Assumptions C82_element.
Print Assumptions C82_element_refused.
Print Assumptions C82_units.
Print Assumptions C82_units_wrong.
Print Assumptions C82_values.
Print Assumptions C82_text.
Print Assumptions C82_repr.

(** a percentage's text shows the number that it was made of *)
Theorem C82_percentage : forall (F : Floats) (ediv : Qc -> Qc -> Qc) cls (named : str -> res (str * str)) (pw : Qc -> pnum F -> res Qc) show h a v x,
  division_agrees ediv -> In x (cls (u "Percentage")) -> (a = INum v \/ exists l, a = IList l) ->
  exists j h' q, step ediv cls named pw (Make (u "Percentage") a x) h = (Ok (Some j), h') /\ look h j = None /\ look h' j = Some q
    /\ text show q = show (match a with IList l => Arr Ndarray l | _ => Num v end) ++ u "_" ++ x.
Proof.
  intros F ediv cls named pw show h a v x Hd Hx Ha. apply smem_In in Hx. assert (N100 : Q2Qc 100 <> 0%Qc) by (intros E; discriminate E).
  assert (Hdiv : forall y : Qc, adiv y (aconst 100) = Ok (y / Q2Qc 100)%Qc).
  { intros y. cbn [adiv exact_arith aconst]. unfold qdiv. destruct (Qc_eq_dec (Q2Qc 100) 0%Qc) as [E|_]; [elim (N100 E)|]. reflexivity. }
  assert (He : forall y : Qc, amul (ediv y (aconst 100)) (aconst 100) = y).
  { intros y. rewrite (Hd y (aconst 100) _ (Hdiv y)). cbn [amul exact_arith aconst]. change (y / Q2Qc 100 * Q2Qc 100 = y)%Qc. field. exact N100. }
  assert (Ht : forall w, text show (AQ (u "Percentage") x w) = show (broadcast amul w (Num (aconst 100))) ++ u "_" ++ x) by reflexivity.
  destruct Ha as [->|(l & ->)]; cbn [step]; unfold make; cbn [given store]; rewrite Hx; cbn [negb]; change (is_k (u "Percentage") "Percentage") with true; cbv iota.
  - cbn [deref]. unfold percent, nd_bin, b_div. cbn [on_numbers]. rewrite (Hdiv v). cbn [rbind].
    destruct (new_qty_fresh (AQ (u "Percentage") x (Num (v / Q2Qc 100)%Qc)) h) as (h' & E & _ & _ & _ & Lk & _). rewrite E. do 3 eexists. split; [reflexivity|]. split; [unfold look; now rewrite nth_past|]. split; [exact Lk|].
    rewrite Ht. cbn [broadcast]. specialize (He v). rewrite (Hd _ _ _ (Hdiv v)) in He. now rewrite He.
  - cbn [deref h_buf]. rewrite nth_new. unfold percent, nd_bin, b_div. cbn [nd_op on_elements broadcast].
    destruct (new_qty_fresh (AQ (u "Percentage") x (Arr Ndarray (map (fun a => ediv a (aconst 100)) l))) h) as (h' & E & _ & _ & _ & Lk & _). rewrite E. do 3 eexists. split; [reflexivity|]. split; [unfold look; now rewrite nth_past|]. split; [exact Lk|].
    rewrite Ht. cbn [broadcast]. rewrite map_map. f_equal. f_equal. f_equal. rewrite <- (map_id l) at 2. apply map_ext. exact He.
Qed.
Print Assumptions C82_percentage.

(** ... and its items are the percentages of the elements *)
Theorem C82_percentage_items : forall (F : Floats) (ediv : Qc -> Qc -> Qc) cls (named : str -> res (str * str)) (pw : Qc -> pnum F -> res Qc) h l x n v,
  division_agrees ediv -> In x (cls (u "Percentage")) -> nth_error l n = Some v ->
  exists j h' q, step ediv cls named pw (Make (u "Percentage") (IList l) x) h = (Ok (Some j), h') /\ look h' j = Some q
    /\ exists m h2 e, step ediv cls named pw (Un (UItem (IInt (Z.of_nat n))) j) h' = (Ok (Some m), h2) /\ look h2 m = Some e
    /\ exists k h3, step ediv cls named pw (Make (u "Percentage") (INum v) x) h = (Ok (Some k), h3) /\ look h3 k = Some e.
Proof.
  intros F ediv cls named pw h l x n v Hd Hx Hn. pose proof Hx as Sx. apply smem_In in Sx. assert (N100 : Q2Qc 100 <> 0%Qc) by (intros E; discriminate E).
  assert (Hdiv : forall y : Qc, adiv y (aconst 100) = Ok (y / Q2Qc 100)%Qc).
  { intros y. cbn [adiv exact_arith aconst]. unfold qdiv. destruct (Qc_eq_dec (Q2Qc 100) 0%Qc) as [E|_]; [elim (N100 E)|]. reflexivity. }
  set (l' := map (fun a => ediv a (aconst 100)) l). set (q := AQ (u "Percentage") x (Arr Ndarray l')). set (e := AQ (u "Percentage") x (Num (v / Q2Qc 100)%Qc)).
  assert (M1 : exists j h', step ediv cls named pw (Make (u "Percentage") (IList l) x) h = (Ok (Some j), h') /\ look h' j = Some q).
  { cbn [step]. unfold make. cbn [given store]. rewrite Sx. cbn [negb]. change (is_k (u "Percentage") "Percentage") with true. cbv iota. cbn [deref h_buf]. rewrite nth_new. unfold percent, nd_bin, b_div. cbn [nd_op on_elements broadcast].
    fold l' q. destruct (new_qty_fresh q h) as (h' & E & _ & _ & _ & Lk & _). exists (length (h_obj h)), h'. split; [exact E|exact Lk]. }
  destruct M1 as (j & h' & E1 & L1). exists j, h', q. split; [exact E1|]. split; [exact L1|].
  assert (It : item cls q (Z.of_nat n) = Ok e).
  { assert (Ln : (n < length l')%nat) by (unfold l'; rewrite map_length; apply nth_error_Some; rewrite Hn; discriminate).
    unfold item, alen, nd_item. cbn [a_val a_kind a_unit q]. destruct (Z.leb_spec (Z.of_nat (length l')) (Z.of_nat n)); [lia|]. cbv zeta. destruct (Z.ltb_spec (Z.of_nat n) 0); [lia|]. destruct (Z.ltb_spec (Z.of_nat n) 0); [lia|].
    rewrite Nat2Z.id. unfold l'. rewrite nth_error_map, Hn. cbn [option_map rbind]. change (is_k (u "Percentage") "Percentage") with true. cbv iota. rewrite (Hd v _ _ (Hdiv v)).
    rewrite Hdiv. cbn [rbind]. unfold amake. rewrite Sx. unfold e. do 3 f_equal. cbn [amul exact_arith aconst]. change (v / Q2Qc 100 * Q2Qc 100 / Q2Qc 100 = v / Q2Qc 100)%Qc. field. exact N100. }
  assert (M2 : exists m h2, step ediv cls named pw (Un (UItem (IInt (Z.of_nat n))) j) h' = (Ok (Some m), h2) /\ look h2 m = Some e).
  { cbn [step]. rewrite L1. unfold look in L1. destruct (nth_error (h_obj h') j) as [o|]; [|discriminate L1]. clear L1.
    assert (C : un_val ediv cls named (UItem (IInt (Z.of_nat n))) q (h_eng h') = (Ok e, h_eng h')) by (cbn [un_val getitem]; rewrite It; reflexivity).
    destruct (computed_cases (un_val ediv cls named (UItem (IInt (Z.of_nat n))) q) h') as [(q' & e' & h2 & Em & E2 & _ & _ & _ & Lk & _)|(z & e' & Em & _)]; rewrite C in Em; [|discriminate Em].
    injection Em as Eq _. subst q'. exists (length (h_obj h')), h2. split; [exact E2|exact Lk]. }
  destruct M2 as (m & h2 & E2 & L2). exists m, h2, e. split; [exact E2|]. split; [exact L2|].
  cbn [step]. unfold make. cbn [given]. rewrite Sx. cbn [negb]. change (is_k (u "Percentage") "Percentage") with true. cbv iota. cbn [deref]. unfold percent, nd_bin, b_div. cbn [on_numbers]. rewrite (Hdiv v). cbn [rbind].
  fold e. destruct (new_qty_fresh e h) as (h3 & E3 & _ & _ & _ & Lk & _). exists (length (h_obj h)), h3. split; [exact E3|exact Lk].
Qed.
Print Assumptions C82_percentage_items.
(** ** Refuted *)
(** example: Length([2, 3], 'km') *)
Definition demo_made : heap Qc := run qediv demo_cls demo_named demo_pw [Make (u "Length") (IList [Q2Qc 2; Q2Qc 3]) (u "km")] (no_objects demo_arr).
(** example: the quantity that stands there *)
Definition stands (h : heap Qc) (i : nat) (q : aqty Qc) : bool := match look h i with Some a => same_q a q | None => false end.
Lemma stands_look h i q : stands h i q = true -> look h i = Some q.
Proof. unfold stands. destruct (look h i) as [a|]; intros E; [|discriminate E]. f_equal. pose proof (same_q_eq (Ok a) q E) as X. injection X as X. exact X. Qed.
(** "a copy is a quantity of its own": b = Length(a, 'm'); b.values[0] = 9 changes a too *)
Theorem C82_copy_refuted : exists (cs : list (cmd tenths Qc)) h, h = run qediv demo_cls demo_named demo_pw cs demo_made /\ cs = [Make (u "Length") (IObj 0) (u "m"); Write 1 0 (Q2Qc 9)]
  /\ look demo_made 0 = Some demo_km /\ look h 0 = Some (AQ (u "Length") (u "km") (Arr Ndarray [Q2Qc 9; Q2Qc 3])) /\ look h 1 = Some (AQ (u "Length") (u "m") (Arr Ndarray [Q2Qc 9; Q2Qc 3])).
Proof. eexists. eexists. split; [reflexivity|]. split; [reflexivity|]. split; [|split]; apply stands_look; vm_compute; reflexivity. Qed.
Print Assumptions C82_copy_refuted.
(** "assigning the units converts": a.units = 'm' makes two kilometers two meters *)
Theorem C82_units_refuted : exists h, h = run qediv demo_cls demo_named demo_pw [SetUnits 0 (u "m"); Un (UTo (u "km")) 0] demo_made
  /\ look h 0 = Some (AQ (u "Length") (u "m") (Arr Ndarray [Q2Qc 2; Q2Qc 3])) /\ look h 1 = Some (AQ (u "Length") (u "km") (Arr Ndarray [Q2Qc (2 # 1000); Q2Qc (3 # 1000)])).
Proof. eexists. split; [reflexivity|]. split; apply stands_look; vm_compute; reflexivity. Qed.
Print Assumptions C82_units_refuted.
(** "a converted quantity is a quantity of its own": not the unitless ones: Dimensionless([2, 3], 'm').to('km') (of demo_cls' units) shares the array *)
Theorem C82_unitless_refuted : forall (F : Floats) (V : Type) (A : Arith V) ediv cls (named : str -> res (str * str)) (pw : V -> pnum F -> res V) h i x b l y,
  look h i = Some (AQ (u "Dimensionless") x (Arr b l)) -> In y (cls (u "Dimensionless")) -> ~ In y (cls (u "Percentage")) -> y <> [] ->
  exists j h', step ediv cls named pw (Un (UTo y) i) h = (Ok (Some j), h') /\ look h' j = Some (AQ (u "Dimensionless") y (Arr b l)) /\ same_array h' i j = true.
Proof.
  intros F V A ediv cls named pw h i x b l y Hq Iy Ny N0. pose proof Hq as Hq'. unfold look in Hq'. destruct (nth_error (h_obj h) i) as [[k x0 s]|] eqn:Eo; [|discriminate Hq']. cbn [o_val o_kind o_unit] in Hq'.
  destruct s as [z|p]; [discriminate Hq'|]. destruct (deref h (SBuf p)) as [v|] eqn:Ev; [|discriminate Hq']. injection Hq' as -> -> ->.
  cbn [step]. rewrite Eo, Hq. change (unitless (o_kind (Obj (u "Dimensionless") x (SBuf p)))) with true. cbv iota. unfold unitless_to. apply smem_In in Iy. rewrite Iy.
  assert (Sy : smem y (cls (u "Percentage")) = false) by (destruct (smem y (cls (u "Percentage"))) eqn:E; [apply smem_In in E; contradiction|reflexivity]). rewrite Sy.
  apply seqb_neq in N0. rewrite N0. unfold new_obj. do 2 eexists. split; [reflexivity|]. split.
  - unfold look. cbn [h_obj]. rewrite nth_new. cbn [o_val o_kind o_unit]. unfold deref in *. cbn [h_buf]. now rewrite Ev.
  - unfold same_array. cbn [h_obj]. rewrite nth_new, (nth_keep _ _ _ _ Eo). apply Nat.eqb_refl.
Qed.
Print Assumptions C82_unitless_refuted.

(** ** Examples *)
Lemma demo_made_reached : reached tenths Qc _ qediv demo_cls demo_named demo_pw demo_made.
Proof. exists demo_arr. eexists. reflexivity. Qed.
(** a, b = Length([2, 3], 'km'), a.to('m'): b.values[1] = 7 leaves a as it is *)
Example C82_example : exists h, h = run qediv demo_cls demo_named demo_pw [Un (UTo (u "m")) 0; Write 1 (-1) (Q2Qc 7)] demo_made
  /\ look h 0 = Some demo_km /\ look h 1 = Some (AQ (u "Length") (u "m") (Arr Ndarray [Q2Qc 2000; Q2Qc 7])) /\ same_array h 0 1 = false.
Proof. eexists. split; [reflexivity|]. split; [|split]; [apply stands_look; vm_compute; reflexivity..|vm_compute; reflexivity]. Qed.
