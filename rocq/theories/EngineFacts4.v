(** * Invariants of the engine over histories of public calls *)
From Coq Require Import String QArith.
From Verif Require Import Py StrTools Network SearchSpec NetworkFacts Search SearchFacts SearchFacts2 DescFacts
  Hybrid HybridFacts Conv NetFacts2 Converter EngineSpec EngineFacts EngineFacts2 EngineFacts3.
Local Open Scope N_scope.

(** ** The network only grows *)
Section G.
Context {C : Type}.
Implicit Types g : net C.
Definition grows g g' : Prop :=
  (forall x n, get_node g x = Ok n -> get_node g' x = Ok n)
  /\ (forall a b, registered g a b -> registered g' a b)
  /\ (forall a b c, conversion g a b = Ok c -> conversion g' a b = Ok c).
Lemma grows_refl g : grows g g. Proof. repeat split; auto. Qed.
Lemma grows_trans g1 g2 g3 : grows g1 g2 -> grows g2 g3 -> grows g1 g3.
Proof. intros (A1 & A2 & A3) (B1 & B2 & B3). repeat split; auto. Qed.
Lemma find_app_some {X} (p : X -> bool) l1 l2 x : find p l1 = Some x -> find p (l1 ++ l2) = Some x.
Proof. induction l1 as [|y l1 IH]; [easy|]. cbn. now destruct (p y). Qed.
Lemma grows_add_node g n g' : add_node g n = Ok g' -> grows g g'.
Proof.
  unfold add_node. destruct (has_obj g n); [easy|]. intros [= <-]. split; [|split].
  - intros x m. unfold get_node. cbn [n_edges]. destruct (find _ (n_edges g)) as [e|] eqn:E; [|easy].
    now rewrite (find_app_some _ _ _ _ E).
  - intros a b (ks & H & Hb). exists ks. split; [|exact Hb]. revert H. unfold children_of, lookup. cbn [n_edges].
    destruct (find _ (n_edges g)) as [e|] eqn:E; [|easy]. now rewrite (find_app_some _ _ _ _ E).
  - intros a b c. unfold conversion, lookup. cbn [n_edges].
    destruct (find _ (n_edges g)) as [e|] eqn:E; [|easy]. now rewrite (find_app_some _ _ _ _ E).
Qed.
Lemma lookup_add_edge g s d c g' a e : add_edge g s d c = Ok g' -> lookup g a = Some e ->
  exists e', lookup g' a = Some e' /\ e_node e' = e_node e
    /\ (e' = e \/ (a = s /\ ~ In d (e_kids e) /\ e_kids e' = e_kids e ++ [d] /\ e_convs e' = e_convs e ++ [c])).
Proof.
  unfold add_edge. destruct (negb _); [easy|]. intros [= <-]. unfold lookup. cbn [n_edges].
  induction (n_edges g) as [|x l IH]; [easy|]. cbn [find map].
  destruct (neqb a (e_node x)) eqn:E.
  - intros [= <-]. destruct (neqb s (e_node x)) eqn:E2.
    + destruct (nmem d (e_kids x)) eqn:E3; cbn [e_node]; rewrite E; eexists; (split; [reflexivity|]).
      * auto.
      * split; [reflexivity|]. right. apply neqb_eq in E, E2. apply nmem_false in E3. cbn. repeat split; congruence.
    + rewrite E. eexists. split; [reflexivity|]. auto.
  - intros H. destruct (neqb s (e_node x)); [destruct (nmem d (e_kids x)); cbn [e_node]|]; rewrite E; auto.
Qed.
Lemma grows_add_edge g s d c g' : add_edge g s d c = Ok g' -> grows g g'.
Proof.
  intros H. split; [|split].
  - intros x n Hn. now rewrite (get_node_add_edge g s d c g' x H).
  - intros a b (ks & Hk & Hb). unfold registered, children_of in *. destruct (lookup g a) as [e|] eqn:E; [|easy].
    injection Hk as <-. destruct (lookup_add_edge _ _ _ _ _ _ _ H E) as (e' & -> & _ & [->|(_ & _ & Ek & _)]);
    eexists; (split; [reflexivity|]); [exact Hb|]. rewrite Ek. apply in_or_app. now left.
  - intros a b c0. unfold conversion. destruct (lookup g a) as [e|] eqn:E; [|easy].
    destruct (lookup_add_edge _ _ _ _ _ _ _ H E) as (e' & -> & _ & [->|(_ & _ & Ek & Ec)]); [auto|].
    rewrite Ek, Ec. destruct (index_of b (e_kids e)) as [i|] eqn:Ei; [|easy]. rewrite (index_app_l _ _ _ _ Ei).
    destruct (nth_error (e_convs e) i) as [c1|] eqn:En; [|easy]. intros [= <-].
    rewrite nth_error_app1; [now rewrite En|]. apply nth_error_Some. now rewrite En.
Qed.
Lemma grows_set_conversion g a b c rc g' : set_conversion g a b c rc = Ok g' -> grows g g'.
Proof.
  unfold set_conversion. destruct (add_new g a) as [g1|] eqn:E1; cbn [rbind]; [|easy].
  destruct (add_new g1 b) as [g2|] eqn:E2; cbn [rbind]; [|easy]. destruct (get_node g2 a) as [na|]; cbn [rbind]; [|easy].
  destruct (get_node g2 b) as [nb|]; cbn [rbind]; [|easy]. destruct (add_edge g2 na nb c) as [g3|] eqn:E3; cbn [rbind]; [|easy].
  intros E4. eapply grows_trans; [eapply grows_add_node; exact E1|]. eapply grows_trans; [eapply grows_add_node; exact E2|].
  eapply grows_trans; [eapply grows_add_edge; exact E3|]. eapply grows_add_edge; exact E4.
Qed.
End G.

Section E.
Context {V : Type} {A : Arith V}.
Local Open Scope m_scope.
Implicit Types s : st V.
Implicit Types g : net (conv V).
Ltac hr := first [apply Rel_refl | apply Rel_trans].

Lemma sane_add_node g n g' : sane_net g -> add_node g n = Ok g' -> sane_net g'.
Proof.
  intros (ND & ID & WE) H. pose proof (nodes_add_node _ _ _ H) as EN.
  unfold add_node in H. destruct (has_obj g n) eqn:Ho; [easy|]. injection H as <-.
  assert (Hni : ~ In n (nodes g)) by (rewrite <- has_obj_In; congruence).
  split; [|split].
  - rewrite EN. now apply NoDup_snoc.
  - intros m. rewrite EN, in_app_iff. cbn. intros [Hm|[<-|[]]]; [specialize (ID _ Hm)|]; lia.
  - intros e. cbn. rewrite in_app_iff. cbn. intros [He|[<-|[]]]; [now apply WE|reflexivity].
Qed.
Lemma sane_add_edge g a d c g' : sane_net g -> add_edge g a d c = Ok g' -> sane_net g'.
Proof.
  intros (ND & ID & WE) H. pose proof (nodes_add_edge _ _ _ _ _ H) as EN.
  unfold add_edge in H. destruct (has_obj g a && has_obj g d) eqn:Ho; cbn [negb] in H; [|easy]. injection H as <-.
  unfold sane_net. rewrite EN. split; [exact ND|]. split; [exact ID|].
  intros e. cbn [n_edges]. rewrite in_map_iff. intros (e0 & <- & He0).
  destruct (neqb a (e_node e0)); [|now apply WE]. destruct (nmem d (e_kids e0)); [now apply WE|].
  cbn. rewrite !app_length, (WE _ He0). reflexivity.
Qed.
Lemma sane_set_conversion g a b c rc g' : sane_net g -> set_conversion g a b c rc = Ok g' -> sane_net g'.
Proof.
  intros S. unfold set_conversion. destruct (add_new g a) as [g1|] eqn:E1; cbn [rbind]; [|easy].
  destruct (add_new g1 b) as [g2|] eqn:E2; cbn [rbind]; [|easy]. destruct (get_node g2 a) as [na|]; cbn [rbind]; [|easy].
  destruct (get_node g2 b) as [nb|]; cbn [rbind]; [|easy]. destruct (add_edge g2 na nb c) as [g3|] eqn:E3; cbn [rbind]; [|easy].
  intros E4. eapply sane_add_edge; [|exact E4]. eapply sane_add_edge; [|exact E3].
  eapply sane_add_node; [|exact E2]. eapply sane_add_node; [|exact E1]. exact S.
Qed.

(** ** [_converter] *)
Lemma rec_limit_next (p : par V) r0 : (1 <= rec_limit p r0)%Z -> (0 <= rec_limit p (Some (rec_limit p r0)))%Z.
Proof.
  unfold rec_limit. destruct r0 as [r|].
  - destruct (Z.ltb_spec 1 r); [|destruct (Z.leb_spec r 0); lia]. intros H1.
    destruct (Z.ltb_spec 1 (Z.min (p_pylimit p - 15) r - 1)); [lia|]. destruct (Z.leb_spec (Z.min (p_pylimit p - 15) r - 1) 0); lia.
  - intros H1. destruct (Z.ltb_spec 1 (Z.min (p_pylimit p - 15) (p_max_rec p))); [lia|].
    destruct (Z.leb_spec (Z.min (p_pylimit p - 15) (p_max_rec p)) 0); lia.
Qed.
Lemma gc_fails_new s uc f t : gc_fails s uc f t -> mget (f, t) (s_mem s) = Some None \/ new_ok s f t None.
Proof.
  intros [H|(H & Hq & Hs)].
  - left. unfold memo_of in H. now destruct (use_of s uc).
  - right. intros _. auto.
Qed.
Lemma set_neg_Rel f t s s' : (mget (f, t) (s_mem s) = Some None \/ new_ok s f t None) ->
  same_core s s' -> s_prev s' = s_prev s ++ [(f, t)] -> s_mem s' = mset (f, t) None (s_mem s) -> Rel s s'.
Proof.
  intros H Hc Hp Hm. split; [exact Hc|]. split; [|split].
  - intros _ a b _ _ K. unfold visited in *. rewrite Hp, existsb_app in K. apply orb_true_iff in K as [K|K]; [now left|].
    cbn [existsb] in K. rewrite orb_false_r in K. apply keqb_eq in K. injection K as -> ->. now right.
  - intros _ a b e _ _. rewrite Hm, mget_mset. destruct (keqb (a, b) (f, t)) eqn:E; [|now left].
    apply keqb_eq in E. injection E as -> ->. intros [= <-]. exact H.
  - intros k. rewrite Hm, mget_mset. now destruct (keqb k (f, t)).
Qed.
Lemma converter_state n value f t r0 uc s : snd (converter n value f t r0 uc s) = snd (converter n None f t r0 uc s).
Proof. destruct value as [v|]; [|reflexivity]. now rewrite converter_erase, applied_snd. Qed.
Lemma nonsimple_dec f t : (simple f /\ simple t) \/ nonsimple f t.
Proof. unfold nonsimple. destruct (simple_dec f), (simple_dec t); tauto. Qed.

(** the shape of the call on two simple units *)
Lemma converter_simple n f t r0 uc s : simple f -> simple t -> visited s f t = false ->
  (0 <= rec_limit (s_par s) r0)%Z ->
  (exists x s1, get_conversion None f t (Some (rec_limit (s_par s) r0)) uc s = (Ok (Some x), s1)
     /\ converter (S n) None f t r0 uc s = (Ok (Some x), s1))
  \/ (exists e s1, get_conversion None f t (Some (rec_limit (s_par s) r0)) uc s = (Err e, s1)
     /\ converter (S n) None f t r0 uc s = (Err e, s1))
  \/ (exists s1, converter (S n) None f t r0 uc s = (Ok None, s1)
     /\ ((rec_limit (s_par s) (Some (rec_limit (s_par s) r0)) < 0)%Z \/ gc_fails s uc f t)
     /\ same_core s s1 /\ s_prev s1 = s_prev s ++ [(f, t)] /\ s_mem s1 = mset (f, t) None (s_mem s)).
Proof.
  intros Hf Ht Hv Hr. rewrite converter_S, Hv. destruct (Z.ltb_spec (rec_limit (s_par s) r0) 0) as [?|_]; [lia|].
  set (r := rec_limit (s_par s) r0) in *. unfold bind.
  destruct (get_conversion None f t (Some r) uc s) as [[[x|]|e] s1] eqn:E.
  - left. eexists _, _. split; reflexivity.
  - right. right.
    assert (K : only_es s s1 /\ ((rec_limit (s_par s) (Some r) < 0)%Z \/ gc_fails s uc f t)).
    { destruct (Z_lt_le_dec (rec_limit (s_par s) (Some r)) 0) as [Hl|Hl].
      - rewrite gc_low in E by exact Hl. injection E as <-. split; [apply only_es_refl|now left].
      - destruct (gc_none _ _ _ _ _ _ Hf Ht Hl E) as [H1 H2]. auto. }
    destruct K as ((Hc & Hm & Hp) & K).
    assert (K1 : (rec_limit (s_par s1) (Some r) < 0)%Z \/ gc_fails s1 uc f t).
    { destruct K as [K|K]; [left|right].
      - apply core_fields in Hc as (_ & _ & _ & _ & H5 & _). now rewrite H5.
      - eapply gc_fails_core; eauto. }
    destruct (slow_simple (fun a b => converter n None a b (Some r) uc) (fun a b => converter n None a b (Some r) None)
                f t r uc s1 Hf Ht K1) as (s2 & E2 & Hc2 & Hp2 & Hm2).
    exists s2. split; [exact E2|]. split; [exact K|]. split; [eapply same_core_trans; eauto|]. rewrite Hp2, Hm2, Hm, Hp. auto.
  - right. left. eexists _, _. split; reflexivity.
Qed.

Lemma converter_Rel n : forall value f t r0 uc s,
  (simple f -> simple t -> enough s -> (1 <= rec_limit (s_par s) r0)%Z) ->
  Rel s (snd (converter n value f t r0 uc s)).
Proof.
  induction n as [|n IH]; intros value f t r0 uc s Hlim; rewrite converter_state.
  { cbn [converter]. rewrite bind_get. destruct (visited s f t); [apply Rel_refl|]. destruct (_ <? 0)%Z; apply Rel_refl. }
  destruct (visited s f t) eqn:Hv; [rewrite converter_S, Hv; apply Rel_refl|].
  destruct (Z.ltb_spec (rec_limit (s_par s) r0) 0) as [Hr|Hr].
  { rewrite converter_S, Hv. apply Z.ltb_lt in Hr. rewrite Hr. apply Rel_refl. }
  destruct (nonsimple_dec f t) as [[Hf Ht]|Hns].
  - destruct (converter_simple n f t r0 uc s Hf Ht Hv Hr) as [(x & s1 & E & ->)|[(e & s1 & E & ->)|(s1 & -> & K & Hc & Hp & Hm)]]; cbn [snd].
    + pose proof (get_conversion_Rel None f t (Some (rec_limit (s_par s) r0)) uc s) as HR. now rewrite E in HR.
    + pose proof (get_conversion_Rel None f t (Some (rec_limit (s_par s) r0)) uc s) as HR. now rewrite E in HR.
    + eapply set_neg_Rel; eauto. destruct K as [K|K]; [|now apply gc_fails_new in K].
      right. intros En. specialize (Hlim Hf Ht En). apply rec_limit_next in Hlim. lia.
  - rewrite converter_S, Hv. destruct (_ <? 0)%Z; [apply Rel_refl|]. revert s Hlim Hv Hr. intros s _ _ _.
    refine (h_bind Rel Rel_trans _ _ (get_conversion_Rel _ _ _ _ _) _ s).
    intros [x|]; [apply h_ret; hr|]. apply slow_Rel_nonsimple; [exact Hns| |];
    intros a b Hab s'; apply IH; intros Ha Hb; exfalso; now apply Hab.
Qed.
Lemma converter_top_Rel value f t uc : holds Rel (converter_top (V:=V) value f t uc).
Proof. intros s. apply converter_Rel. auto. Qed.

(** ** The invariant of the memory *)
(** what the memory holds for simple units comes from the network *)
Definition mem_real s : Prop := forall f t h p, simple f -> simple t ->
  mget (f, t) (s_mem s) = Some (Some (h, p)) -> f <> t /\ path_told (s_net s) f t h p.
Lemma told_function g f t h p : path_told g f t h p -> path_function g f t h.
Proof. intros (a & b & q & l & H1 & H2 & H3 & H4 & H5 & _). exists a, b, q, l. auto. Qed.
(** nothing is remembered for the pairs with a special rule *)
Definition no_self s : Prop := forall f t, simple f -> simple t -> quick (V:=V) (s_dict s) f t <> None -> mget (f, t) (s_mem s) = None.
Definition good s : Prop := sane_net (s_net s) /\ mem_real s.
Lemma quick_ne (d : dicts) f t : quick (V:=V) d f t = None -> f <> t.
Proof. intros H ->. unfold quick in H. now rewrite seqb_refl in H. Qed.
Lemma new_ok_path s f t h p : NoDup (nodes (s_net s)) -> new_ok s f t (Some (h, p)) -> f <> t /\ path_told (s_net s) f t h p.
Proof.
  intros ND (Hq & q & l & Hs & Hl & -> & ->). split; [now apply quick_ne in Hq|].
  destruct (search_real f t s q ND Hs) as (a & b & Ha & Hb & Hw). exists a, b, q, l.
  split; [exact Ha|]. split; [exact Hb|]. split; [exact Hw|]. split; [|split; reflexivity].
  apply path_convs_along; [eapply simple_path_nonnil; exact Hw|exact Hl].
Qed.
Lemma Rel_good s s' : good s -> Rel s s' -> good s'.
Proof.
  intros [S M] (Hc & _ & Hm & _). specialize (Hm (proj1 S)). apply core_fields in Hc as (N1 & _). unfold good, mem_real. rewrite N1. split; [exact S|].
  intros f t h p Hf Ht H. destruct (Hm _ _ _ Hf Ht H) as [K|K]; [eauto|]. apply new_ok_path in K; [exact K|apply S].
Qed.
Lemma path_told_grows g g' f t h pt : grows g g' -> path_told g f t h pt -> path_told g' f t h pt.
Proof.
  intros (G1 & G2 & G3) (a & b & p & l & Ha & Hb & [Hw Hn] & Hc & -> & ->). exists a, b, p, l.
  split; [now apply G1|]. split; [now apply G1|].
  assert (Hs : simple_path (registered g') a p b) by (split; [apply (walk_mono (registered g)); [intros x y _; apply G2|exact Hw]|exact Hn]).
  split; [exact Hs|]. split; [|split; reflexivity].
  revert l Hc. clear - G3. induction p as [|x p IH]; intros l Hc; [exact Hc|].
  destruct p as [|y p]; [exact Hc|]. destruct l as [|c l]; [easy|]. destruct Hc as [H1 H2]. split; [now apply G3|now apply IH].
Qed.
Lemma good_net s g' : good s -> sane_net g' -> grows (s_net s) g' -> good (set_net s g').
Proof.
  intros [S M] S' G. split; [exact S'|]. intros f t h p Hf Ht H. destruct (M _ _ _ _ Hf Ht H) as [H1 H2].
  split; [exact H1|]. eapply path_told_grows; eauto.
Qed.
(** good depends only on the network and the memory *)
Lemma good_fields s s' : s_net s' = s_net s -> s_mem s' = s_mem s -> good s -> good s'.
Proof. unfold good, mem_real. now intros -> ->. Qed.
Lemma good_prev s p : good s -> good (set_prev s p). Proof. now apply good_fields. Qed.
Lemma good_last s p : good s -> good (set_last s p). Proof. now apply good_fields. Qed.
Lemma good_par s p : good s -> good (set_par s p). Proof. now apply good_fields. Qed.

(** ** What a public conversion may change *)
Definition no_density (p : par V) : par V :=
  Par (p_max_rec p) (p_max_gen p) (p_algo p) (p_cache p) (p_raise p) None
      (p_redpar p) (p_parallel p) (p_multi p) (p_thread p) (p_pylimit p).
Definition frame s := (s_net s, s_fvf s, s_ask_fvf s, s_ask_density s, no_density (s_par s), s_dict s, s_sched s, current_es s).
Definition density_step s s' : Prop :=
  p_density (s_par s') = p_density (s_par s)
  \/ (p_density (s_par s) = None /\ exists d, s_ask_density s = Ok d /\ p_density (s_par s') = Some d).
Definition Pub s s' : Prop :=
  frame s' = frame s /\ density_step s s'
  /\ (NoDup (nodes (s_net s)) -> mem_step s s' /\ prev_step s s')
  /\ (forall k, mget k (s_mem s) <> None -> mget k (s_mem s') <> None).
Lemma frame_fields s s' : frame s' = frame s ->
  s_net s' = s_net s /\ s_fvf s' = s_fvf s /\ s_ask_fvf s' = s_ask_fvf s /\ s_ask_density s' = s_ask_density s
  /\ no_density (s_par s') = no_density (s_par s) /\ s_dict s' = s_dict s /\ s_sched s' = s_sched s
  /\ current_es s' = current_es s.
Proof. unfold frame. intros E. injection E as -> -> -> -> H1 H2 H3 H4 H5 H6 H7 H8 H9 H10 -> -> ->. unfold no_density. repeat split. congruence. Qed.
Lemma no_density_fields (p p' : par V) : no_density p' = no_density p ->
  p_max_rec p' = p_max_rec p /\ p_max_gen p' = p_max_gen p /\ p_algo p' = p_algo p /\ p_cache p' = p_cache p
  /\ p_raise p' = p_raise p /\ p_redpar p' = p_redpar p /\ p_parallel p' = p_parallel p /\ p_multi p' = p_multi p
  /\ p_thread p' = p_thread p /\ p_pylimit p' = p_pylimit p.
Proof. unfold no_density. intros E. injection E as -> -> -> -> -> -> -> -> -> ->. repeat split. Qed.
Lemma search_frame f t s s' : frame s' = frame s -> search_value s' f t = search_value s f t.
Proof.
  intros H. apply frame_fields in H as (H1 & _ & _ & _ & H5 & _ & H7 & H9).
  apply no_density_fields in H5 as (_ & P2 & P3 & _ & _ & _ & P7 & P8 & P9 & _).
  unfold search_value, search_network, bind, get, lift, ret, raise, touch_es, modify. rewrite H1, H9, P2, P3.
  destruct (_ && _); [|reflexivity].
  destruct (get_node (s_net s) f) as [a|]; [|reflexivity]. destruct (get_node (s_net s) t) as [b|]; [|reflexivity].
  repeat match goal with |- context [if seqb ?a ?b then _ else _] => destruct (seqb a b) end; try reflexivity.
  cbn [fst]. unfold hybrid_outcome. now rewrite P7, P8, P9, H7.
Qed.
Lemma enough_frame s s' : frame s' = frame s -> enough s' <-> enough s.
Proof.
  intros H. apply frame_fields in H as (_ & _ & _ & _ & H5 & _). apply no_density_fields in H5 as (P1 & P).
  destruct P as (_ & _ & _ & _ & _ & _ & _ & _ & P10). unfold enough, rec_limit. rewrite P1, P10. reflexivity.
Qed.
Lemma new_ok_frame s s' f t e : frame s' = frame s -> new_ok s' f t e -> new_ok s f t e.
Proof.
  intros H. pose proof (search_frame f t _ _ H) as HS. pose proof (enough_frame _ _ H) as HE.
  apply frame_fields in H as (H1 & _ & _ & _ & _ & H6 & _). unfold new_ok. rewrite H1, H6, HS. destruct e as [[h p]|]; [auto|]. intros K En. apply K, HE, En.
Qed.
Lemma Pub_refl s : Pub s s.
Proof. split; [reflexivity|]. split; [now left|]. split; [intros _; split; [intros f t e _ _ H; now left|intros f t _ _ H; now left]|auto]. Qed.
Lemma Pub_trans a b c : Pub a b -> Pub b c -> Pub a c.
Proof.
  intros (H1 & H2 & H3 & H4) (K1 & K2 & K3 & K4). split; [congruence|]. split.
  { pose proof (frame_fields _ _ H1) as (_ & _ & _ & D & _). unfold density_step in *. rewrite D in K2.
    destruct H2 as [H2|(H2 & d & H2')], K2 as [K2|(K2 & d' & K2' & K2'')].
    - left. congruence.
    - right. rewrite H2 in K2. split; [exact K2|]. eauto.
    - right. split; [exact H2|]. exists d. rewrite K2. exact H2'.
    - destruct H2' as (_ & E). congruence. }
  split; [|auto]. pose proof (frame_fields _ _ H1) as (N1 & _). rewrite N1 in K3. intros ND.
  destruct (H3 ND) as [H3a H3b]. destruct (K3 ND) as [K3a K3b]. split.
  - intros f t e Hf Ht H. destruct (K3a _ _ _ Hf Ht H) as [K|K]; [now apply H3a|]. right. eapply new_ok_frame; eauto.
  - intros f t Hf Ht H. destruct (K3b _ _ Hf Ht H) as [K|[K|K]]; [now apply H3b|right; now apply H3a|].
    right. right. eapply new_ok_frame; eauto.
Qed.
Lemma same_core_frame s s' : same_core s s' -> frame s' = frame s.
Proof. intros H. apply core_fields in H as (E1 & E2 & E3 & E4 & E5 & E6 & E7 & _ & E9). unfold frame. congruence. Qed.
Lemma Rel_Pub s s' : Rel s s' -> Pub s s'.
Proof.
  intros (Hc & Hp & Hm & Hk). split; [now apply same_core_frame|]. split; [|auto]. left.
  apply core_fields in Hc as (_ & _ & _ & _ & E5 & _). now rewrite E5.
Qed.
Ltac hp := first [apply Pub_refl | apply Pub_trans].
Lemma Pub_mem_id s s' : frame s' = frame s -> density_step s s' -> s_mem s' = s_mem s ->
  (s_prev s' = s_prev s \/ s_prev s' = []) -> Pub s s'.
Proof.
  intros H D M P. split; [exact H|]. split; [exact D|]. unfold mem_step, prev_step, visited. rewrite M.
  split; [intros _; split; [auto|]|auto]. intros f t _ _ K. destruct P as [P|P]; rewrite P in K; [now left|discriminate].
Qed.
Lemma get_density_Pub : holds Pub get_density.
Proof.
  unfold get_density. apply h_get_bind. intros s. destruct (p_density (s_par s)) as [d|] eqn:E; [apply Pub_refl|].
  unfold bind, lift. destruct (s_ask_density s) as [d|e] eqn:Ea; [|apply Pub_refl]. unfold modify, ret. cbn [snd].
  apply Pub_mem_id; [reflexivity| |reflexivity|now left]. right. split; [exact E|]. eauto.
Qed.
Lemma answer_Pub value h p : holds Pub (answer value h p).
Proof. intros s. rewrite answer_state. apply Pub_refl. Qed.
Lemma converter_top_Pub value f t uc : holds Pub (converter_top value f t uc).
Proof. intros s. apply Rel_Pub, converter_top_Rel. Qed.
Lemma density_Pub value f t uc : holds Pub (density_conversion value f t uc).
Proof.
  unfold density_conversion. apply h_bind; [hp|apply h_get; hp|]. intros s0.
  destruct (_ && _); [|apply h_ret; hp]. destruct (_ && _); [|destruct (_ && _); [|apply h_ret; hp]].
    - apply h_bind; [hp|apply get_density_Pub|]. intros rho. apply h_bind; [hp|apply converter_top_Pub|].
      intros [[[k|h] p]|]; apply answer_Pub.
    - apply h_bind; [hp|apply get_density_Pub|]. intros rho. apply h_bind; [hp|apply converter_top_Pub|].
      intros x; apply answer_Pub.
Qed.
Lemma prev_Pub : holds Pub (modify (fun s => set_prev s [])).
Proof. intros s. apply Pub_mem_id; [reflexivity|now left|reflexivity|now right]. Qed.
Lemma last_Pub p : holds Pub (modify (fun s => set_last s p)).
Proof. intros s. apply Pub_mem_id; [reflexivity|now left|reflexivity|now left]. Qed.
Lemma convert_clean_Pub value f t uc : holds Pub (convert_clean (V:=V) value f t uc).
Proof.
  unfold convert_clean. apply h_bind; [hp|apply prev_Pub|]. intros _. apply h_bind; [hp|apply density_Pub|]. intros x.
  apply h_bind; [hp|destruct x; [apply h_ret; hp|apply converter_top_Pub]|]. intros [[c p]|].
  - apply h_bind; [hp|apply last_Pub|]. intros _. apply h_ret; hp.
  - apply h_get_bind. intros s. destruct (p_raise (s_par s)); apply Pub_refl.
Qed.
Lemma convert_Pub value f t uc : holds Pub (convert (V:=V) value f t uc).
Proof.
  unfold convert. apply h_get_bind. intros s. unfold bind, lift. destruct (clean_input _ _ _ _) as [[[v a] b]|]; [|apply Pub_refl].
  apply convert_clean_Pub.
Qed.
Lemma convertible_Pub f t uc : holds Pub (convertible (V:=V) f t uc).
Proof.
  intros s. unfold convertible. pose proof (converter_top_Pub (Some qone) f t uc s) as H.
  destruct (converter_top (Some qone) f t uc s) as [[[x|]|e] s']; [exact H|exact H|]. destruct e; exact H.
Qed.
Lemma simpandas_Pub v f t uc : holds Pub (convert_for_SimPandas (V:=V) v f t uc).
Proof.
  unfold convert_for_SimPandas. apply h_bind; [hp|apply convertible_Pub|]. intros [|]; [|apply h_ret; hp].
  apply h_bind; [hp|apply converter_top_Pub|]. intros [[[w|h] p]|]; apply h_ret; hp.
Qed.
Lemma Pub_good s s' : good s -> Pub s s' -> good s'.
Proof.
  intros [S M] (Hc & _ & Hm & _). destruct (Hm (proj1 S)) as [Hm' _]. clear Hm. rename Hm' into Hm. apply frame_fields in Hc as (N1 & _). unfold good, mem_real.
  rewrite N1. split; [exact S|].
  intros f t h p Hf Ht H. destruct (Hm _ _ _ Hf Ht H) as [K|K]; [eauto|]. apply new_ok_path in K; [exact K|apply S].
Qed.
Lemma Pub_no_self s s' : good s -> enough s -> no_self s -> Pub s s' -> no_self s'.
Proof.
  intros [S M] En N (Hc & _ & Hm & _). destruct (Hm (proj1 S)) as [Hm' _]. intros f t Hf Ht Hq.
  apply frame_fields in Hc as (_ & _ & _ & _ & _ & D & _). rewrite D in Hq.
  destruct (mget (f, t) (s_mem s')) as [e|] eqn:E; [|reflexivity].
  destruct (Hm' _ _ _ Hf Ht E) as [K|K]; [rewrite N in K by assumption; discriminate|].
  destruct e as [[h p]|]; [destruct K as [K' _]|destruct (K En) as [K' _]]; contradiction.
Qed.

(** ** Histories *)
Lemma set_unit_good s name g : good s -> set_unit (s_net s) name = Ok g -> good (set_net s g).
Proof.
  intros G E. apply good_net; [exact G| |].
  - eapply sane_add_node; [exact (proj1 G)|exact E].
  - eapply grows_add_node; exact E.
Qed.
Lemma do_call_good c s : good s -> good (do_call c s).
Proof.
  intros G. destruct c as [value f t uc|f t uc|v f t uc|name|a b h r|v| |p|l]; cbn [do_call].
  - eapply Pub_good; [exact G|apply convert_Pub].
  - eapply Pub_good; [exact G|apply convertible_Pub].
  - eapply Pub_good; [exact G|apply simpandas_Pub].
  - unfold api_set_unit. rewrite bind_get. unfold bind, lift. destruct (set_unit (s_net s) name) as [g|] eqn:E; [|exact G].
    now apply (set_unit_good s name).
  - unfold set_conversion_api. rewrite bind_get. unfold bind, lift. destruct (api_set_conversion _ _ _ _ _) as [g|] eqn:E; [|exact G].
    unfold api_set_conversion in E. apply good_net; [exact G| |].
    + eapply sane_set_conversion; [exact (proj1 G)|exact E].
    + eapply grows_set_conversion; exact E.
  - eapply good_fields; [| |exact G]; reflexivity.
  - destruct G as [S _]. split; [exact S|]. intros f t h p _ _ H. discriminate H.
  - now apply good_par.
  - eapply good_fields; [| |exact G]; reflexivity.
Qed.
Lemma do_calls_good cs : forall s, good s -> good (do_calls cs s).
Proof. induction cs as [|c cs IH]; intros s G; [exact G|]. apply IH, do_call_good, G. Qed.

Lemma enough_par s : enough s <-> par_enough (s_par s).
Proof. unfold enough, par_enough, rec_limit. lia. Qed.
Lemma do_call_no_self c s : good s -> enough s -> no_self s -> call_enough c -> enough (do_call c s) /\ no_self (do_call c s).
Proof.
  intros G En N Hc.
  assert (K : forall s', Pub s s' -> enough s' /\ no_self s').
  { intros s' HP. split; [apply (enough_frame s s'); [apply HP|exact En]|]. eapply Pub_no_self; eauto. }
  destruct c as [value f t uc|f t uc|v f t uc|name|a b h r|v| |p|l]; cbn [do_call].
  - apply K, convert_Pub.
  - apply K, convertible_Pub.
  - apply K, simpandas_Pub.
  - unfold api_set_unit. rewrite bind_get. unfold bind, lift. destruct (set_unit (s_net s) name) as [g|] eqn:E; auto.
  - unfold set_conversion_api. rewrite bind_get. unfold bind, lift. destruct (api_set_conversion _ _ _ _ _) as [g|] eqn:E; auto.
  - auto.
  - split; [exact En|]. intros f t Hf Ht Hq. reflexivity.
  - split; [|exact N]. apply enough_par. exact Hc.
  - auto.
Qed.
Lemma do_calls_no_self cs : forall s, good s -> enough s -> no_self s -> Forall call_enough cs ->
  enough (do_calls cs s) /\ no_self (do_calls cs s).
Proof.
  induction cs as [|c cs IH]; intros s G En N Hc; [auto|]. inversion Hc as [|? ? H1 H2]; subst.
  destruct (do_call_no_self c s G En N H1) as [En' N']. apply (IH (do_call c s)); auto. now apply do_call_good.
Qed.
End E.
