(** * Invariants of the engine: [_converter] and the public calls *)
From Coq Require Import String QArith.
From Verif Require Import Py StrTools Network SearchSpec NetworkFacts Search SearchFacts SearchFacts2 DescFacts
  Hybrid HybridFacts Conv NetFacts2 Converter EngineSpec EngineFacts EngineFacts2.
Local Open Scope N_scope.

Section E.
Context {V : Type} {A : Arith V}.
Local Open Scope m_scope.
Implicit Types s : st V.
Implicit Types g : net (conv V).
Ltac hr := first [apply Rel_refl | apply Rel_trans].

(** ** Pair children are pairs *)
Lemma shortest_In x l : In (shortest x l) (x :: l).
Proof.
  revert x. induction l as [|y l IH]; intros x; [now left|]. cbn [shortest].
  destruct (length y <? length x)%nat; [right; apply IH|destruct (IH x) as [H|H]; [now left|right; now right]].
Qed.
Lemma first_pair_pair ks c : first_pair ks = Some c -> is_pair c = true.
Proof.
  unfold first_pair. destruct (filter is_pair (map nname ks)) as [|x l] eqn:E; [easy|]. intros [= <-].
  pose proof (shortest_In x l) as H. rewrite <- E in H. now apply filter_In in H.
Qed.
Lemma grand_pair_pair g ks c : grand_pair g ks = Ok (Some c) -> is_pair c = true.
Proof.
  induction ks as [|k ks IH]; [easy|]. cbn [grand_pair]. destruct (children_of g k) as [gks|]; cbn [rbind]; [|easy].
  destruct (first_pair gks) as [x|] eqn:E; [|exact IH]. intros [= <-]. now apply first_pair_pair in E.
Qed.
Lemma get_pair_child_pair g x c : get_pair_child g x = Ok (Some c) -> is_pair c = true.
Proof.
  unfold get_pair_child. destruct (get_node g x) as [n|]; cbn [rbind]; [|easy].
  destruct (children_of g n) as [ks|]; cbn [rbind]; [|easy]. destruct (first_pair ks) as [y|] eqn:E.
  - intros [= <-]. now apply first_pair_pair in E.
  - apply grand_pair_pair.
Qed.

(** ** The other strategies, given well behaved recursive calls *)
Definition nonsimple f t := ~ (simple f /\ simple t).
Lemma lift_bind_Rel {X Y} (r : res X) (k : X -> M V Y) : (forall x, r = Ok x -> holds Rel (k x)) -> holds Rel (bind (lift r) k).
Proof. intros H s. unfold bind, lift. destruct r as [x|e]; [now apply H|apply Rel_refl]. Qed.
Lemma via_pair_Rel cv f t : (forall a b, nonsimple a b -> holds Rel (cv a b)) -> holds Rel (via_pair (V:=V) cv f t).
Proof.
  intros H. unfold via_pair. apply h_bind; [hr|apply h_get; hr|]. intros s.
  assert (Hp : forall x, is_pair x = true -> ~ simple x) by (intros x Hx K; apply simple_pair in K; congruence).
  destruct (_ && _); [|destruct (_ && _); [|apply h_ret; hr]]; apply lift_bind_Rel; intros [c|] Hc; try (apply h_ret; hr);
  apply get_pair_child_pair, Hp in Hc.
  - apply h_bind; [hr|apply H; intros []; contradiction|]. intros x. apply h_bind; [hr|apply H; intros []; contradiction|].
    intros y. destruct x as [[[v|b] px]|], y as [[[w|p] py]|]; apply h_ret; hr.
  - apply h_bind; [hr|apply H; intros []; contradiction|]. intros x. apply h_bind; [hr|apply H; intros []; contradiction|].
    intros y. destruct x as [[[v|b] px]|], y as [[[w|p] py]|]; apply h_ret; hr.
Qed.
Lemma guc_Rel n : forall gen a b, holds Rel (guc_loop (V:=V) n gen a b).
Proof.
  induction n as [|n IH]; intros gen a b; cbn [guc_loop]; [apply h_ret; hr|].
  apply h_bind; [hr|apply Rel_only, m_desc_only|]. intros da. apply h_bind; [hr|apply Rel_only, m_desc_only|]. intros db.
  destruct (sinter da db); [apply IH|apply h_ret; hr].
Qed.
Lemma total_gens_Rel f t l : holds Rel (total_gens (V:=V) f t l).
Proof.
  induction l as [|x l IH]; cbn [total_gens]; [apply h_ret; hr|].
  apply h_bind; [hr|apply guc_Rel|]. intros a. apply h_bind; [hr|apply guc_Rel|]. intros b.
  apply h_bind; [hr|apply IH|]. intros r. apply h_ret; hr.
Qed.
Lemma ratio_loop_Rel cn f t mn cs : ~ simple f -> ~ simple t -> (forall a b, nonsimple a b -> holds Rel (cn a b)) ->
  forall best short count last, holds Rel (ratio_loop (V:=V) cn f t mn cs best short count last).
Proof.
  intros Hf Ht H. induction cs as [|[gens child] cs IH]; intros best short count last; cbn [ratio_loop]; [apply h_ret; hr|].
  destruct (match best with Some _ => glt mn gens | None => false end); [apply h_ret; hr|].
  apply h_bind; [hr|apply H; intros []; contradiction|]. intros x. apply h_bind; [hr|apply H; intros []; contradiction|]. intros y.
  destruct x as [[cx px]|], y as [[cy py]|]; try apply IH.
  destruct (_ <? short)%Z; destruct (count =? 12)%Z; try apply IH; apply h_ret; hr.
Qed.
Lemma ratio_children_Rel cn f t : ~ simple f -> ~ simple t -> (forall a b, nonsimple a b -> holds Rel (cn a b)) ->
  holds Rel (ratio_children (V:=V) cn f t).
Proof.
  intros Hf Ht H. unfold ratio_children. apply h_bind; [hr|apply h_get; hr|]. intros s.
  apply h_bind; [hr|apply Rel_only, m_desc_only|]. intros ff. apply h_bind; [hr|apply Rel_only, m_desc_only|]. intros ft.
  apply h_bind; [hr|apply total_gens_Rel|]. intros [|[g0 x0] rest]; [apply h_raise; hr|]. now apply ratio_loop_Rel.
Qed.
Lemma push_prev_Rel f t : nonsimple f t -> holds Rel (modify (fun s => set_prev s (s_prev s ++ [(f, t)]))).
Proof.
  intros Hns. apply h_modify. intros s. split; [reflexivity|]. split; [|split; [intros _ a b e _ _ K; now left|auto]].
  intros _ a b Ha Hb K. left. unfold visited in *. cbn [s_prev set_prev] in K. rewrite existsb_app in K. apply orb_true_iff in K as [K|K]; [exact K|].
  cbn [existsb] in K. rewrite orb_false_r in K. apply keqb_eq in K. injection K as -> ->. exfalso. now apply Hns.
Qed.
Lemma keep_Rel value f t h p : nonsimple f t -> holds Rel (keep value f t h p).
Proof.
  intros H. unfold keep. apply h_bind; [hr| |intros _; apply answer_Rel]. intros s. apply remember_Rel.
  intros Hf Ht. exfalso. now apply H.
Qed.
Lemma slow_Rel_nonsimple cv cn value f t r uc : nonsimple f t ->
  (forall a b, nonsimple a b -> holds Rel (cv a b)) -> (forall a b, nonsimple a b -> holds Rel (cn a b)) ->
  holds Rel (slow cv cn value f t r uc).
Proof.
  intros Hns Hv Hn. unfold slow. apply h_bind; [hr|now apply push_prev_Rel|]. intros _.
  apply h_bind; [hr|apply composite_Rel|]. intros [[k p]|]; [now apply keep_Rel|].
  apply h_bind; [hr|now apply via_pair_Rel|]. intros [[h p]|]; [now apply keep_Rel|].
  apply h_bind; [hr| |].
  - destruct (one_slash f) eqn:Ef; [|apply h_ret; hr]. destruct (one_slash t) eqn:Et; [|apply h_ret; hr]. cbn [andb].
    apply ratio_children_Rel; [intros K; apply simple_one_slash in K; congruence|intros K; apply simple_one_slash in K; congruence|exact Hn].
  - intros [[h p]|]; [now apply keep_Rel|]. apply h_bind; [hr| |intros _; apply h_ret; hr].
    intros s. apply remember_Rel. intros Hf Ht. exfalso. now apply Hns.
Qed.

(** ** [_converter] on simple units *)
Lemma from_network_none f t s s1 : from_network None f t s = (Ok None, s1) ->
  only_es s s1 /\ search_value s f t = Ok None.
Proof.
  unfold from_network. rewrite bind_get. unfold bind at 1. pose proof (search_only f t s) as Ho. unfold search_value.
  destruct (search_network f t s) as [[[p|]|e] s2]; cbn [fst snd] in *.
  - unfold bind, lift. destruct (path_convs (s_net s) p) as [l|]; [|easy]. unfold remember, modify, ret. easy.
  - intros [= <-]. auto.
  - easy.
Qed.
Lemma from_network_none' f t s : search_value s f t = Ok None -> exists s1, from_network None f t s = (Ok None, s1).
Proof.
  unfold from_network. rewrite bind_get. unfold bind at 1. unfold search_value.
  destruct (search_network f t s) as [[[p|]|e] s2]; cbn [fst snd]; try discriminate. intros _. eexists; reflexivity.
Qed.
(** why [_get_conversion] fails on simple units *)
Definition gc_fails s uc f t : Prop :=
  memo_of s uc f t = Some None \/
  (memo_of s uc f t = None /\ quick (V:=V) (s_dict s) f t = None /\ search_value s f t = Ok None).
Lemma gc_none f t r uc s s1 : simple f -> simple t -> (0 <= rec_limit (s_par s) r)%Z ->
  get_conversion None f t r uc s = (Ok None, s1) -> only_es s s1 /\ gc_fails s uc f t.
Proof.
  intros Hf Ht Hr H. unfold get_conversion in H. destruct (gc_simple get_conversion0 f t r uc s Hf Ht Hr) as (qp & E).
  rewrite E in H. clear E. unfold gc_fails. destruct (memo_of s uc f t) as [[[h p]|]|]; [easy|injection H as <-; split; [apply only_es_refl|now left]|].
  destruct (quick (s_dict s) f t); [easy|]. apply from_network_none in H as [H1 H2]. auto.
Qed.
Lemma gc_none' f t r uc s : simple f -> simple t -> gc_fails s uc f t ->
  exists s1, get_conversion None f t r uc s = (Ok None, s1).
Proof.
  intros Hf Ht H. destruct (Z_lt_le_dec (rec_limit (s_par s) r) 0) as [Hr|Hr].
  { exists s. unfold get_conversion, get_conversion_. rewrite bind_get. apply Z.ltb_lt in Hr. now rewrite Hr. }
  unfold get_conversion. destruct (gc_simple get_conversion0 f t r uc s Hf Ht Hr) as (qp & E). rewrite E.
  destruct H as [->|(-> & -> & H)]; [eauto|]. now apply from_network_none'.
Qed.
Lemma gc_fails_core s s' uc f t : same_core s s' -> s_mem s' = s_mem s -> gc_fails s uc f t -> gc_fails s' uc f t.
Proof.
  intros H Hm. pose proof (search_core f t _ _ H) as HS. apply core_fields in H as (_ & _ & _ & _ & H5 & H6 & _).
  unfold gc_fails, memo_of, use_of. now rewrite H5, H6, Hm, HS.
Qed.
Lemma gc_low f t r uc s : (rec_limit (s_par s) r < 0)%Z -> get_conversion None f t r uc s = (Ok None, s).
Proof. intros Hr. unfold get_conversion, get_conversion_. rewrite bind_get. apply Z.ltb_lt in Hr. now rewrite Hr. Qed.

(** the composite strategy repeats the failed search and fails too *)
Lemma composite_simple f t r uc s : simple f -> simple t ->
  ((rec_limit (s_par s) (Some r) < 0)%Z \/ gc_fails s uc f t) ->
  exists s1, composite f t r uc s = (Ok None, s1) /\ only_es s s1.
Proof.
  intros Hf Ht H. unfold composite, lift. rewrite !split_unit_simple by assumption. unfold bind at 1 2 3.
  destruct f as [|a f]; [eexists; split; [reflexivity|apply only_es_refl]|].
  assert (Ho : is_op (a :: f) = false) by (apply is_op_simple; [assumption|discriminate]).
  cbn [marks match_all]. rewrite Ho. destruct t as [|b t]; [eexists; split; [reflexivity|apply only_es_refl]|].
  assert (Hot : is_op (b :: t) = false) by (apply is_op_simple; [assumption|discriminate]).
  cbn [marks match_one existsb]. rewrite Hot. unfold bind. rewrite get_conversion_erase.
  assert (K : exists s1, get_conversion None (a :: f) (b :: t) (Some r) uc s = (Ok None, s1) /\ only_es s s1).
  { destruct H as [H|H]; [exists s; split; [now apply gc_low|apply only_es_refl]|].
    destruct (Z_lt_le_dec (rec_limit (s_par s) (Some r)) 0) as [Hr|Hr]; [exists s; split; [now apply gc_low|apply only_es_refl]|].
    destruct (gc_none' _ _ (Some r) uc s Hf Ht H) as (s1 & E). exists s1. split; [exact E|]. exact (proj1 (gc_none _ _ _ _ _ _ Hf Ht Hr E)). }
  destruct K as (s1 & E & Ho1). rewrite E. exists s1. split; [reflexivity|exact Ho1].
Qed.

Lemma slow_simple cv cn f t r uc s : simple f -> simple t ->
  ((rec_limit (s_par s) (Some r) < 0)%Z \/ gc_fails s uc f t) ->
  exists s1, slow cv cn None f t r uc s = (Ok None, s1) /\ same_core s s1
    /\ s_prev s1 = s_prev s ++ [(f, t)] /\ s_mem s1 = mset (f, t) None (s_mem s).
Proof.
  intros Hf Ht H. unfold slow. rewrite (bind_ok _ _ s tt (set_prev s (s_prev s ++ [(f, t)])) eq_refl).
  set (s0 := set_prev s _).
  assert (H0 : (rec_limit (s_par s0) (Some r) < 0)%Z \/ gc_fails s0 uc f t).
  { destruct H as [H|H]; [now left|right]. eapply gc_fails_core; [| |exact H]; reflexivity. }
  destruct (composite_simple f t r uc s0 Hf Ht H0) as (s1 & E & Hc1 & Hm1 & Hp1). rewrite (bind_ok _ _ _ _ _ E).
  assert (Ev : via_pair cv f t s1 = (Ok None, s1)).
  { unfold via_pair. rewrite bind_get. apply simple_pair in Hf. apply simple_pair in Ht. now rewrite Hf, Ht. }
  rewrite (bind_ok _ _ _ _ _ Ev). rewrite (simple_one_slash f Hf). cbn [andb].
  unfold bind, ret, remember, modify. eexists. split; [reflexivity|]. split; [|cbn [s_prev s_mem set_mem]; rewrite Hp1, Hm1; auto].
  exact Hc1.
Qed.
End E.
