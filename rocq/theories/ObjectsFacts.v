(** * Quantities as objects: the facts *)
From Coq Require Import String QArith Qcanon ZArith Lia.
From Verif Require Import Py StrTools Network Conv Converter NumPy Database Shipped Operations Units ArrQty ArrMul ArrNum Objects.
Local Open Scope N_scope.

Section Lists.
Lemma upd_length {X} (l : list X) n f : length (upd l n f) = length l.
Proof. revert n. induction l as [|x l IH]; intros [|n]; cbn; try reflexivity. now rewrite IH. Qed.
Lemma upd_nth {X} (l : list X) n f i : nth_error (upd l n f) i = if Nat.eqb i n then option_map f (nth_error l i) else nth_error l i.
Proof.
  revert n i. induction l as [|x l IH]; intros [|n] [|i]; try reflexivity; cbn [upd nth_error Nat.eqb].
  - now destruct (Nat.eqb i n).
  - exact (IH n i).
Qed.
Lemma nth_keep {X} (l l' : list X) i x : nth_error l i = Some x -> nth_error (l ++ l')%list i = Some x.
Proof. intros E. rewrite nth_error_app1; [exact E|]. apply nth_error_Some. rewrite E. discriminate. Qed.
Lemma nth_new {X} (l : list X) x : nth_error (l ++ [x])%list (length l) = Some x.
Proof. rewrite nth_error_app2 by lia. now rewrite Nat.sub_diag. Qed.
Lemma nth_past {X} (l : list X) : nth_error l (length l) = None.
Proof. apply nth_error_None. lia. Qed.
End Lists.

Section F.
Context {F : Floats} {V : Type} {A : Arith V} (ediv : V -> V -> V) (cls : str -> list str) (named : str -> res (str * str)) (pw : V -> pnum F -> res V).
Local Instance objF : Arith (npv V) := np_arith ediv.
Notation heap := (heap V).
Notation step := (step ediv cls named pw).
Notation run := (run ediv cls named pw).

Definition grows (h h' : heap) : Prop := (exists o, h_obj h' = (h_obj h ++ o)%list) /\ exists b, h_buf h' = (h_buf h ++ b)%list.
Lemma grows_refl h : grows h h.
Proof. split; exists []; now rewrite app_nil_r. Qed.
Lemma grows_trans a b c : grows a b -> grows b c -> grows a c.
Proof. intros [[o E] [p P]] [[o' E'] [p' P']]. split; [exists (o ++ o')%list|exists (p ++ p')%list]; rewrite ?E', ?P', ?E, ?P; now rewrite app_assoc. Qed.
Lemma grows_engine h e : grows h (Heap (h_obj h) (h_buf h) e).
Proof. split; exists []; now rewrite app_nil_r. Qed.
Lemma grows_deref h h' s v : grows h h' -> deref h s = Some v -> deref h' s = Some v.
Proof.
  intros [_ [b E]] H. destruct s as [x|p]; [exact H|]. unfold deref in *. destruct (nth_error (h_buf h) p) as [[c l]|] eqn:E0; [|discriminate H].
  now rewrite E, (nth_keep _ b p _ E0).
Qed.
Lemma grows_look h h' i q : grows h h' -> look h i = Some q -> look h' i = Some q.
Proof.
  intros G H. pose proof G as [[o E] _]. unfold look in *. destruct (nth_error (h_obj h) i) as [x|] eqn:E0; [|discriminate H].
  rewrite E, (nth_keep _ o i _ E0). destruct (deref h (o_val x)) as [v|] eqn:E1; [|discriminate H]. now rewrite (grows_deref _ _ _ _ G E1).
Qed.
Lemma grows_same h h' i j q r : grows h h' -> look h i = Some q -> look h j = Some r -> same_array h' i j = same_array h i j.
Proof.
  intros [[o E] _] Hi Hj. unfold look, same_array in *. destruct (nth_error (h_obj h) i) as [x|] eqn:E0; [|discriminate Hi]. destruct (nth_error (h_obj h) j) as [y|] eqn:E1; [|discriminate Hj].
  now rewrite E, (nth_keep _ o i _ E0), (nth_keep _ o j _ E1).
Qed.
(** every reference stands for an array *)
Definition wf (h : heap) : Prop := forall o, In o (h_obj h) -> match o_val o with SNum _ => True | SBuf p => (p < length (h_buf h))%nat end.
Lemma wf_deref h o : wf h -> In o (h_obj h) -> exists v, deref h (o_val o) = Some v.
Proof.
  intros W I0. specialize (W o I0). unfold deref. destruct (o_val o) as [x|p]; [exists (Num x); reflexivity|].
  destruct (nth_error (h_buf h) p) as [[b l]|] eqn:E; [exists (Arr b l); reflexivity|]. apply nth_error_None in E. lia.
Qed.
Lemma wf_look h i o : wf h -> nth_error (h_obj h) i = Some o -> exists v, look h i = Some (AQ (o_kind o) (o_unit o) v) /\ deref h (o_val o) = Some v.
Proof. intros W E. unfold look. rewrite E. destruct (wf_deref h o W (nth_error_In _ _ E)) as (v & ->). exists v. split; reflexivity. Qed.
Lemma store_spec v (h : heap) s h' : store v h = (s, h') -> grows h h' /\ h_obj h' = h_obj h /\ h_eng h' = h_eng h /\ deref h' s = Some v
  /\ match s with SNum _ => h' = h | SBuf p => p = length (h_buf h) /\ length (h_buf h') = Datatypes.S p end.
Proof.
  destruct v as [x|b l]; intros E; injection E as <- <-.
  - split; [apply grows_refl|]. repeat (split; [reflexivity|]). reflexivity.
  - split; [split; [exists []; cbn; now rewrite app_nil_r|eexists; reflexivity]|]. split; [reflexivity|]. split; [reflexivity|]. split; [unfold deref; cbn [h_buf]; now rewrite nth_new|].
    split; [reflexivity|]. cbn [h_buf]. rewrite app_length. cbn. lia.
Qed.
(** the object that a command makes *)
Definition fresh (h h' : heap) (j : nat) (q : aqty V) : Prop :=
  grows h h' /\ j = length (h_obj h) /\ length (h_obj h') = Datatypes.S j /\ look h' j = Some q /\ (wf h -> wf h' /\ forall i, i <> j -> same_array h' i j = false).
Lemma new_qty_fresh q (h : heap) : exists h', new_qty q h = (Ok (Some (length (h_obj h))), h') /\ fresh h h' (length (h_obj h)) q.
Proof.
  unfold new_qty. destruct (store (a_val q) h) as [s h1] eqn:E. destruct (store_spec _ _ _ _ E) as (G & Eo & _ & Ed & Es). unfold new_obj. rewrite Eo. eexists. split; [reflexivity|].
  split; [eapply grows_trans; [exact G|]; split; [rewrite Eo; eexists; reflexivity|exists []; cbn; now rewrite app_nil_r]|]. split; [reflexivity|]. split; [cbn [h_obj]; rewrite app_length; cbn; lia|].
  split; [unfold look; cbn [h_obj]; rewrite nth_new; cbn [o_val]; unfold deref in *; cbn [h_buf]; rewrite Ed; destruct q; reflexivity|].
  intros W. split.
  - intros o I0. cbn [h_obj] in I0. cbn [h_buf]. pose proof G as [_ [b Eb]]. apply in_app_or in I0 as [I0|[<-|[]]].
    + specialize (W o I0). destruct (o_val o) as [x|p]; [exact I|]. rewrite Eb, app_length. lia.
    + cbn [o_val]. destruct s as [x|p]; [exact I|]. lia.
  - intros i Ni. unfold same_array. cbn [h_obj]. rewrite nth_new. destruct (nth_error (h_obj h ++ _)%list i) as [[k x s0]|] eqn:Ei; [|reflexivity]. destruct s0 as [y|p]; [reflexivity|].
    destruct s as [y|p']; [reflexivity|]. destruct Es as [-> _]. apply Nat.eqb_neq. intros ->.
    destruct (Nat.lt_ge_cases i (length (h_obj h))) as [L|L].
    + rewrite nth_error_app1 in Ei by exact L. specialize (W _ (nth_error_In _ _ Ei)). cbn in W. lia.
    + rewrite nth_error_app2 in Ei by exact L. destruct (i - length (h_obj h))%nat as [|m] eqn:Em; [lia|]. destruct m; discriminate Ei.
Qed.
(** ... with the array of another *)
Lemma new_obj_grows (o : obj V) (h : heap) : grows h (snd (new_obj o h)).
Proof. split; [eexists; reflexivity|exists []; cbn; now rewrite app_nil_r]. Qed.
Lemma new_obj_wf (o : obj V) (h : heap) : wf h -> (exists v, deref h (o_val o) = Some v) -> wf (snd (new_obj o h)).
Proof.
  intros W (v & Ev) x I0. cbn [snd new_obj h_obj h_buf] in *. apply in_app_or in I0 as [I0|[<-|[]]]; [exact (W x I0)|]. unfold deref in Ev. destruct (o_val o) as [y|p]; [exact I|].
  apply nth_error_Some. destruct (nth_error (h_buf h) p); [discriminate|discriminate Ev].
Qed.
Lemma computed_cases m (h : heap) : (exists q e h', m (h_eng h) = (Ok q, e) /\ computed m h = (Ok (Some (length (h_obj h))), h') /\ fresh h h' (length (h_obj h)) q)
  \/ (exists x e, m (h_eng h) = (Err x, e) /\ computed m h = (Err x, Heap (h_obj h) (h_buf h) e)).
Proof.
  unfold computed. destruct (m (h_eng h)) as [[q|x] e]; [left|right; exists x, e; split; reflexivity]. destruct (new_qty_fresh q (Heap (h_obj h) (h_buf h) e)) as (h' & E & G & J & Ln & Lk & Wf).
  exists q, e, h'. split; [reflexivity|]. split; [exact E|]. split; [eapply grows_trans; [apply grows_engine|exact G]|]. split; [exact J|]. split; [exact Ln|]. split; [exact Lk|]. exact Wf.
Qed.
Lemma computed_grows m (h : heap) : grows h (snd (computed m h)) /\ (wf h -> wf (snd (computed m h))).
Proof.
  destruct (computed_cases m h) as [(q & e & h' & _ & -> & G & _ & _ & _ & W)|(x & e & _ & ->)]; cbn [snd]; [split; [exact G|intros H; now apply W]|]. split; [apply grows_engine|intros H; exact H].
Qed.
Lemma new_qty_grows q (h : heap) : grows h (snd (new_qty q h)) /\ (wf h -> wf (snd (new_qty q h))).
Proof. destruct (new_qty_fresh q h) as (h' & -> & G & _ & _ & _ & W). split; [exact G|intros H; now apply W]. Qed.
Lemma given_grows a (h : heap) : grows h (snd (given a h)) /\ (wf h -> wf (snd (given a h)) /\ forall s, fst (given a h) = Ok s -> exists v, deref (snd (given a h)) s = Some v).
Proof.
  destruct a as [x|l|p|i]; cbn [given].
  - split; [apply grows_refl|]. intros W. split; [exact W|]. intros s E. injection E as <-. eexists. reflexivity.
  - destruct (store (Arr Ndarray l) h) as [s h1] eqn:E. destruct (store_spec _ _ _ _ E) as (G & Eo & _ & Ed & _). split; [exact G|]. intros W. split.
    + intros o I0. cbn [snd] in *. rewrite Eo in I0. specialize (W o I0). destruct (o_val o); [exact I|]. destruct G as [_ [b ->]]. rewrite app_length. lia.
    + intros s' E'. cbn [fst snd] in *. injection E' as <-. eexists. exact Ed.
  - split; [apply grows_refl|]. intros W. split; [exact W|]. intros s E. cbn [fst snd] in *. destruct (nth_error (h_buf h) p) as [[b l]|] eqn:E0; [|discriminate E]. injection E as <-. exists (Arr b l). unfold deref. now rewrite E0.
  - split; [apply grows_refl|]. intros W. split; [exact W|]. intros s E. cbn [fst snd] in *. destruct (nth_error (h_obj h) i) as [o|] eqn:E0; [|discriminate E]. injection E as <-. exact (wf_deref h o W (nth_error_In _ _ E0)).
Qed.
Lemma make_grows k a x (h : heap) : grows h (snd (make ediv cls k a x h)) /\ (wf h -> wf (snd (make ediv cls k a x h))).
Proof.
  unfold make. destruct (given_grows a h) as [G W]. destruct (given a h) as [[s|e] h1]; cbn [fst snd] in *; [|split; [apply grows_refl|auto]].
  destruct (negb (smem x (cls k))); [split; [apply grows_refl|auto]|]. destruct (is_k k "Percentage").
  - destruct (deref h1 s) as [v|]; [|split; [apply grows_refl|auto]]. destruct (percent ediv v) as [w|e]; [apply new_qty_grows|split; [apply grows_refl|auto]].
  - split; [eapply grows_trans; [exact G|apply new_obj_grows]|]. intros H. destruct (W H) as [W1 Hs]. apply new_obj_wf; [exact W1|exact (Hs s eq_refl)].
Qed.
Lemma unitless_grows o v x (h : heap) : In o (h_obj h) -> grows h (snd (unitless_to ediv cls named o v x h)) /\ (wf h -> wf (snd (unitless_to ediv cls named o v x h))).
Proof.
  intros I0. unfold unitless_to. destruct (seqb x []); [split; [apply grows_refl|auto]|]. destruct (smem x (cls (u "Percentage"))).
  { destruct (percent ediv _) as [w|e]; [apply new_qty_grows|split; [apply grows_refl|auto]]. }
  destruct (smem x (cls (u "Dimensionless"))). { split; [apply new_obj_grows|]. intros W. apply new_obj_wf; [exact W|]. exact (wf_deref h o W I0). }
  destruct (named x) as [[k y]|e]; [|split; [apply grows_refl|auto]]. destruct (is_k k "Percentage").
  - destruct (percent ediv v) as [w|e]; [apply new_qty_grows|split; [apply grows_refl|auto]].
  - split; [apply new_obj_grows|]. intros W. apply new_obj_wf; [exact W|]. exact (wf_deref h o W I0).
Qed.
(** the commands that change what there is *)
Definition changes (c : cmd F V) : bool := match c with SetUnits _ _ | SetValues _ _ | Write _ _ _ | WriteArr _ _ _ => true | _ => false end.
Lemma step_grows c h : changes c = false -> grows h (snd (step c h)).
Proof.
  destruct c as [b l|k a x|f i|f i j|op i j|i x|i a|i n v|p n v]; intros Hc; try discriminate Hc; cbn [Objects.step].
  - split; [exists []|eexists]; cbn; [now rewrite app_nil_r|reflexivity].
  - apply make_grows.
  - destruct (nth_error (h_obj h) i) as [o|] eqn:Eo; [|apply grows_refl]. destruct (look h i) as [q|]; [|apply grows_refl].
    assert (G : forall m, grows h (snd (computed m h))) by (intros m; apply computed_grows).
    destruct f; try apply G. destruct (unitless (o_kind o)); [apply unitless_grows; exact (nth_error_In _ _ Eo)|apply G].
  - destruct (look h i) as [a|]; [|apply grows_refl]. destruct (look h j) as [b|]; [|apply grows_refl]. apply computed_grows.
  - destruct (look h i) as [a|]; [|apply grows_refl]. destruct (look h j) as [b|]; [|apply grows_refl]. destruct (acmp ediv cls named op a b (h_eng h)) as [r e]. apply grows_engine.
Qed.
Lemma wf_upd_obj (h : heap) i (f : obj V -> obj V) : wf h -> (forall o, In o (h_obj h) -> match o_val (f o) with SNum _ => True | SBuf p => (p < length (h_buf h))%nat end) ->
  wf (Heap (upd (h_obj h) i f) (h_buf h) (h_eng h)).
Proof.
  intros W Hf o I0. cbn [h_obj h_buf] in *. apply In_nth_error in I0 as (n & E). rewrite upd_nth in E. destruct (Nat.eqb n i).
  - destruct (nth_error (h_obj h) n) as [o'|] eqn:E0; [|discriminate E]. injection E as <-. exact (Hf o' (nth_error_In _ _ E0)).
  - exact (W o (nth_error_In _ _ E)).
Qed.
Lemma write_wf p n v (h : heap) : wf h -> wf (snd (write p n v h)).
Proof.
  intros W. unfold write. destruct (nth_error (h_buf h) p) as [[b l]|]; [|exact W]. destruct (nd_set l n v) as [l'|e]; [|exact W]. intros o I0. cbn [snd h_obj h_buf] in *. rewrite upd_length. exact (W o I0).
Qed.
Lemma step_wf c h : wf h -> wf (snd (step c h)).
Proof.
  intros W. destruct c as [b l|k a x|f i|f i j|op i j|i x|i a|i n v|p n v]; cbn [Objects.step].
  - intros o I0. cbn [snd store h_obj h_buf] in *. specialize (W o I0). destruct (o_val o); [exact I|]. rewrite app_length. lia.
  - now apply make_grows.
  - destruct (nth_error (h_obj h) i) as [o|] eqn:Eo; [|exact W]. destruct (look h i) as [q|]; [|exact W].
    assert (G : forall m, wf (snd (computed m h))) by (intros m; now apply computed_grows).
    destruct f; try apply G. destruct (unitless (o_kind o)); [apply unitless_grows; [exact (nth_error_In _ _ Eo)|exact W]|apply G].
  - destruct (look h i) as [a|]; [|exact W]. destruct (look h j) as [b|]; [|exact W]. now apply computed_grows.
  - destruct (look h i) as [a|]; [|exact W]. destruct (look h j) as [b|]; [|exact W]. destruct (acmp ediv cls named op a b (h_eng h)) as [r e]. exact W.
  - destruct (Nat.ltb i (length (h_obj h))); [|exact W]. apply wf_upd_obj; [exact W|]. intros o I0. exact (W o I0).
  - pose proof (given_grows a h) as [_ Wg]. destruct (Wg W) as [_ Hs]. assert (Hb : (forall z, a <> IList z) -> snd (given a h) = h) by (intros Na; destruct a as [x|l|p|j]; try reflexivity; elim (Na l eq_refl)).
    destruct a as [x|l|p|j]; try exact W; destruct (given _ h) as [[s|e] h1] eqn:E; try exact W; (destruct (Nat.ltb i (length (h_obj h))); [|exact W]); cbn [snd fst] in *;
      (destruct (Hs s eq_refl) as (v & Ev)); (assert (Eh : h1 = h) by (apply Hb; intros z X; discriminate X)); subst h1; apply wf_upd_obj; try exact W; intros o I0; cbn [o_val]; unfold deref in Ev;
      (destruct s as [y|p']; [exact I|]); apply nth_error_Some; (destruct (nth_error (h_buf h) p'); [discriminate|discriminate Ev]).
  - destruct (nth_error (h_obj h) i) as [[k x [y|p]]|]; try exact W. now apply write_wf.
  - now apply write_wf.
Qed.
Lemma run_wf cs h : wf h -> wf (run cs h).
Proof. revert h. induction cs as [|c cs IH]; intros h W; [exact W|]. apply IH, step_wf, W. Qed.
Lemma wf_none s : wf (no_objects s).
Proof. intros o []. Qed.
End F.
