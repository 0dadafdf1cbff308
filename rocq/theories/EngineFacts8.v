(** * A conversion just registered is the one used *)
From Coq Require Import String QArith Qcanon.
From Verif Require Import Py StrTools Network SearchSpec NetworkFacts Search SearchFacts SearchFacts2 DescFacts
  Hybrid HybridFacts Conv NetFacts2 Converter EngineSpec EngineFacts EngineFacts2 EngineFacts3 EngineFacts4 EngineFacts5 EngineFacts6
  ConsistSpec ConsistFacts CleanFacts Affine EngineFacts7.
Local Open Scope N_scope.

Lemma NoDup_app_intro {X} (l1 l2 : list X) : NoDup l1 -> NoDup l2 -> (forall x, In x l1 -> In x l2 -> False) -> NoDup (l1 ++ l2).
Proof.
  intros H1 H2 H. induction H1 as [|x l1 Hx H1 IH]; [exact H2|]. cbn. constructor.
  - rewrite in_app_iff. intros [K|K]; [contradiction|]. apply (H x); [now left|exact K].
  - apply IH. intros y Hy. apply H. now right.
Qed.
Section N.
Context {C : Type}.
Implicit Types g : net C.
Lemma conv_at_nodes g x y c : wf_net g -> conv_at g x y = Some c -> In x (nodes g) /\ In y (nodes g).
Proof.
  intros W E. destruct (conv_at_In g x y c W E) as (e & L & Hy). apply lookup_In in L as [He <-].
  split; [now apply in_map|]. destruct W as (_ & _ & W). now apply (W e He).
Qed.
Lemma fresh_pair g x y : wf_net g -> has_node g (nname x) = false \/ has_node g (nname y) = false -> conv_at g x y = None.
Proof.
  intros W H. destruct (conv_at g x y) as [c|] eqn:E; [|reflexivity]. apply conv_at_nodes in E as [Hx Hy]; [|exact W].
  assert (K : forall n, In n (nodes g) -> has_node g (nname n) = true) by (intros n Hn; apply has_node_spec; eauto).
  destruct H as [H|H]; rewrite K in H by assumption; discriminate.
Qed.
Lemma set_conversion_both g a b c rc : wf_net g -> a <> b -> has_node g a = false \/ has_node g b = false ->
  exists g' na nb, set_conversion g a b c rc = Ok g' /\ wf_net g' /\ get_node g' a = Ok na /\ get_node g' b = Ok nb
    /\ conversion g' na nb = Ok c /\ conversion g' nb na = Ok rc.
Proof.
  intros W Hab Hn.
  destruct (wf_set_conversion g a b c rc W) as (g1 & g2 & na & nb & g3 & g4 & E1 & E2 & E3 & E4 & E5 & E6 & E7 & W2 & W3 & W4).
  exists g4, na, nb. split; [exact E7|]. split; [exact W4|].
  rewrite !(get_node_add_edge _ _ _ _ _ _ E6), !(get_node_add_edge _ _ _ _ _ _ E5).
  split; [exact E3|]. split; [exact E4|].
  assert (Hna : nname na = a) by (now apply get_node_spec in E3).
  assert (Hnb : nname nb = b) by (now apply get_node_spec in E4).
  destruct (add_new_ok g a W) as (g1' & E1' & W1 & _). rewrite E1 in E1'. injection E1' as <-.
  unfold add_new in E1, E2.
  assert (Hold : forall x y, has_node g (nname x) = false \/ has_node g (nname y) = false -> conv_at g2 x y = None).
  { intros x y Hx. rewrite (conv_at_add_node _ _ _ x y W1 E2), (conv_at_add_node _ _ _ x y W E1). now apply fresh_pair. }
  split; apply conv_at_ok; rewrite (conv_at_add_edge _ _ _ _ _ _ _ W3 E6), (conv_at_add_edge _ _ _ _ _ _ _ W2 E5).
  - rewrite Hold by (rewrite Hna, Hnb; exact Hn). now rewrite !neqb_refl.
  - rewrite Hold by (rewrite Hna, Hnb; tauto). destruct (neqb na nb) eqn:E; [apply neqb_eq in E; congruence|].
    cbn [andb]. now rewrite !neqb_refl.
Qed.
Lemma conversion_registered g x y c : conversion g x y = Ok c -> registered g x y.
Proof.
  unfold conversion, registered, children_of. destruct (lookup g x) as [e|]; [|discriminate].
  destruct (index_of y (e_kids e)) as [i|] eqn:Ei; [|discriminate]. intros _. exists (e_kids e). split; [reflexivity|].
  apply Affine.index_nth in Ei. eapply nth_error_In; exact Ei.
Qed.
Lemma BFS_direct g x y c : wf_net g -> In x (nodes g) -> x <> y -> conversion g x y = Ok c -> BFS g x y = Ok (Some [x; y]).
Proof.
  intros W Hx Hn Hc. destruct (BFS_total g x y W Hx) as (r & Er). pose proof (BFS_correct g x y) as X. rewrite Er in *.
  assert (Wk : walk (registered g) x [x; y] y) by (apply (walk_cons _ x y [y] y); [now apply (conversion_registered g x y c)|constructor]).
  destruct r as [p|]; [|exfalso; apply X; exists [x; y]; exact Wk]. destruct X as [_ [Hp Hs]]. specialize (Hs _ Wk).
  f_equal. f_equal. destruct Hp as [x|x z q y Hxz Hw]; [contradiction|]. cbn in Hs. destruct Hw as [z|z z' q' y Hz Hw']; [reflexivity|].
  destruct (walk_hd _ _ _ _ Hw') as (t & ->). cbn in Hs. lia.
Qed.
Lemma registered_conv g x y : wf_net g -> registered g x y <-> conv_at g x y <> None.
Proof.
  intros W. split.
  - intros (ks & Hk & Hy). unfold conv_at, conversion, children_of in *. destruct (lookup g x) as [e|] eqn:L; [|discriminate]. injection Hk as <-.
    destruct (index_of y (e_kids e)) as [i|] eqn:Ei; [|now apply index_None in Ei].
    apply lookup_In in L as [He _]. destruct W as (_ & _ & W). destruct (W e He) as (_ & Hl & _). pose proof (index_bound _ _ _ Ei) as Hi.
    rewrite <- Hl in Hi. apply nth_error_Some in Hi. now destruct (nth_error (e_convs e) i).
  - intros H. destruct (conv_at g x y) as [c|] eqn:E; [|easy]. apply conv_at_ok in E. now apply (conversion_registered g x y c).
Qed.
(** two new units: the network stays symmetric and without repeated names *)
Lemma set_conversion_new g a b c rc g' : wf_net g -> a <> b -> has_node g a = false -> has_node g b = false ->
  set_conversion g a b c rc = Ok g' -> (symmetric g -> symmetric g') /\ (unique_names g -> unique_names g').
Proof.
  intros W Hab Hna Hnb H.
  destruct (wf_set_conversion g a b c rc W) as (g1 & g2 & na & nb & g3 & g4 & E1 & E2 & E3 & E4 & E5 & E6 & E7 & W2 & W3 & W4).
  rewrite E7 in H. injection H as <-.
  destruct (add_new_ok g a W) as (g1' & E1' & W1 & N1). rewrite E1 in E1'. injection E1' as <-.
  destruct (add_new_ok g1 b W1) as (g2' & E2' & _ & N2). rewrite E2 in E2'. injection E2' as <-.
  split.
  - intros Sy x y. rewrite !registered_conv by exact W4. unfold add_new in E1, E2.
    rewrite !(conv_at_add_edge _ _ _ _ _ _ _ W3 E6), !(conv_at_add_edge _ _ _ _ _ _ _ W2 E5).
    rewrite !(conv_at_add_node _ _ _ _ _ W1 E2), !(conv_at_add_node _ _ _ _ _ W E1).
    specialize (Sy x y). rewrite !registered_conv in Sy by exact W.
    destruct (conv_at g x y), (conv_at g y x); try easy; [exfalso; apply Sy; easy|].
    destruct (neqb na x), (neqb nb y), (neqb na y), (neqb nb x); cbn [andb]; easy.
  - intros U. unfold unique_names in *. rewrite (nodes_add_edge _ _ _ _ _ E6), (nodes_add_edge _ _ _ _ _ E5), N2, N1, !map_app. cbn [map nname].
    assert (K : forall x, has_node g x = false -> ~ In x (map nname (nodes g))).
    { intros x Hx (n & <- & Hn)%in_map_iff. assert (has_node g (nname n) = true) by (apply has_node_spec; eauto). congruence. }
    apply NoDup_app_intro; [apply NoDup_app_intro; [exact U|repeat constructor; easy|]|repeat constructor; easy|].
    + intros x Hx [<-|[]]. now apply (K a).
    + intros x Hx [<-|[]]. apply in_app_iff in Hx as [Hx|[Hx|[]]]; [now apply (K b)|congruence].
Qed.
Lemma lean_direct g x y c m : wf_net g -> unique_names g -> symmetric g -> In x (nodes g) -> In y (nodes g) -> x <> y -> (0 <= m)%Z ->
  combo_parts (nname x) = None -> combo_parts (nname y) = None -> conversion g x y = Ok c ->
  lean_BFS g (edges_str g) x y m = Ok (Some [x; y]).
Proof.
  intros W U Sy Hx Hy Hn Hm Cx Cy Hc.
  assert (Wk : walk (registered g) x [x; y] y) by (apply (walk_cons _ x y [y] y); [now apply (conversion_registered g x y c)|constructor]).
  assert (K : forall p, walk (registered g) x p y -> (length p <= 2)%nat -> p = [x; y]).
  { intros p Hp Hs. destruct Hp as [x|x z q y Hxz Hw]; [contradiction|]. cbn in Hs. destruct Hw as [z|z z' q' y Hz Hw']; [reflexivity|].
    destruct (walk_hd _ _ _ _ Hw') as (t & ->). cbn in Hs. lia. }
  assert (Sh : shortest_path (registered g) x [x; y] y).
  { split; [exact Wk|]. intros q Hq. destruct (Nat.le_gt_cases (length q) 2) as [Hl|Hl]; [rewrite (K q Hq Hl); apply Nat.le_refl|cbn; lia]. }
  destruct (lean_complete g x y m [x; y] W U Sy Hx Hy Hm Cx Cy Sh) as (q & Eq & Hq & Hq2); [change (length [x; y]) with 2%nat; lia|].
  rewrite Eq, (K q Hq); [reflexivity|]. apply (Hq2 _ Wk).
Qed.
End N.

Section E.
Context {V : Type} {A : Arith V}.
Local Open Scope m_scope.
Implicit Types s : st V.
Implicit Types g : net (conv V).
Lemma set_conversion_used s v a b f r uc : wf_net (s_net s) -> enough s -> p_algo (s_par s) = u "BFS" ->
  unit_name a -> unit_name b -> plain_pair (s_dict s) a b ->
  has_node (s_net s) a = false \/ has_node (s_net s) b = false ->
  uc = Some false \/ mget (a, b) (s_mem s) = None ->
  fst (convert (VNum v) (UStr a) (UStr b) uc (do_call (KSetConversion a b f r) s)) = 
  finish_result s (rbind (f v) (fun w => Ok (Some (CVal w)))).
Proof.
  intros W En Ha Hua Hub Hp Hn Hm. unfold do_call, set_conversion_api. rewrite bind_get. unfold bind, lift.
  set (rc := match r with Some h => CUser h | None => CRev (CUser f) end).
  destruct (set_conversion_both (s_net s) a b (CUser f) rc W (proj1 Hp) Hn) as (g' & na & nb & E & W' & Ga & Gb & Cab & Cba).
  unfold api_set_conversion. fold rc. rewrite E. cbn [modify snd].
  assert (En' : enough (set_net s g')) by exact En.
  rewrite convert_value by (assumption || apply Hp).
  assert (Es : simple_answer (set_net s g') uc a b = Ok (Some (FConvs [CUser f]))).
  { unfold simple_answer. assert (Em : memo_of (set_net s g') uc a b = None).
    { unfold memo_of. destruct Hm as [->|Hm]; [reflexivity|]. change (s_mem (set_net s g')) with (s_mem s). rewrite Hm. now destruct (use_of _ uc). }
    rewrite Em. change (s_dict (set_net s g')) with (s_dict s). rewrite plain_quick; [|exact Hp|apply Hub].
    rewrite search_BFS by exact Ha. change (s_net (set_net s g')) with g'. rewrite Ga, Gb.
    destruct (get_node_spec _ _ _ Ga) as [Ia Na]. destruct (get_node_spec _ _ _ Gb) as [_ Nb].
    rewrite (BFS_direct g' na nb (CUser f) W' Ia); [|intros ->; apply (proj1 Hp); congruence|exact Cab].
    cbn [path_convs]. now rewrite Cab. }
  rewrite Es. cbn [val_result feval run_convs ceval]. destruct (f v); reflexivity.
Qed.
Lemma set_conversion_used_back s v a b f r uc : wf_net (s_net s) -> enough s -> p_algo (s_par s) = u "BFS" ->
  unit_name a -> unit_name b -> plain_pair (s_dict s) b a ->
  has_node (s_net s) a = false \/ has_node (s_net s) b = false ->
  uc = Some false \/ mget (b, a) (s_mem s) = None ->
  fst (convert (VNum v) (UStr b) (UStr a) uc (do_call (KSetConversion a b f r) s)) = 
  finish_result s (rbind (ceval (fv_of s) (match r with Some h => CUser h | None => CRev (CUser f) end) v) (fun w => Ok (Some (CVal w)))).
Proof.
  intros W En Ha Hua Hub Hp Hn Hm. unfold do_call, set_conversion_api. rewrite bind_get. unfold bind, lift.
  set (rc := match r with Some h => CUser h | None => CRev (CUser f) end).
  destruct (set_conversion_both (s_net s) a b (CUser f) rc W (fun H => proj1 Hp (eq_sym H)) Hn) as (g' & na & nb & E & W' & Ga & Gb & Cab & Cba).
  unfold api_set_conversion. fold rc. rewrite E. cbn [modify snd].
  assert (En' : enough (set_net s g')) by exact En.
  rewrite convert_value by (assumption || apply Hp).
  assert (Es : simple_answer (set_net s g') uc b a = Ok (Some (FConvs [rc]))).
  { unfold simple_answer. assert (Em : memo_of (set_net s g') uc b a = None).
    { unfold memo_of. destruct Hm as [->|Hm]; [reflexivity|]. change (s_mem (set_net s g')) with (s_mem s). rewrite Hm. now destruct (use_of _ uc). }
    rewrite Em. change (s_dict (set_net s g')) with (s_dict s). rewrite plain_quick; [|exact Hp|apply Hua].
    rewrite search_BFS by exact Ha. change (s_net (set_net s g')) with g'. rewrite Ga, Gb.
    destruct (get_node_spec _ _ _ Ga) as [_ Na]. destruct (get_node_spec _ _ _ Gb) as [Ib Nb].
    rewrite (BFS_direct g' nb na rc W' Ib); [|intros ->; apply (proj1 Hp); congruence|exact Cba].
    cbn [path_convs]. now rewrite Cba. }
  rewrite Es. cbn [val_result feval run_convs]. change (fv_of (set_net s g')) with (fv_of s). destruct (ceval (fv_of s) rc v); reflexivity.
Qed.
Lemma set_conversion_used_lean s v a b f r uc : wf_net (s_net s) -> unique_names (s_net s) -> symmetric (s_net s) ->
  enough s -> p_algo (s_par s) = u "lean_BFS" -> (0 <= p_max_gen (s_par s))%Z -> s_es s = None ->
  unit_name a -> unit_name b -> plain_pair (s_dict s) a b ->
  has_node (s_net s) a = false -> has_node (s_net s) b = false ->
  uc = Some false \/ mget (a, b) (s_mem s) = None ->
  fst (convert (VNum v) (UStr a) (UStr b) uc (do_call (KSetConversion a b f r) s)) =
  finish_result s (rbind (f v) (fun w => Ok (Some (CVal w)))).
Proof.
  intros W U Sy En Ha Hg He Hua Hub Hp Hna Hnb Hm. unfold do_call, set_conversion_api. rewrite bind_get. unfold bind, lift.
  set (rc := match r with Some h => CUser h | None => CRev (CUser f) end).
  destruct (set_conversion_both (s_net s) a b (CUser f) rc W (proj1 Hp) (or_introl Hna)) as (g' & na & nb & E & W' & Ga & Gb & Cab & Cba).
  destruct (set_conversion_new _ _ _ _ _ _ W (proj1 Hp) Hna Hnb E) as [Sy' U'].
  unfold api_set_conversion. fold rc. rewrite E. cbn [modify snd].
  assert (En' : enough (set_net s g')) by exact En.
  rewrite convert_value by (assumption || apply Hp).
  assert (Es : simple_answer (set_net s g') uc a b = Ok (Some (FConvs [CUser f]))).
  { unfold simple_answer. assert (Em : memo_of (set_net s g') uc a b = None).
    { unfold memo_of. destruct Hm as [->|Hm]; [reflexivity|]. change (s_mem (set_net s g')) with (s_mem s). rewrite Hm. now destruct (use_of _ uc). }
    rewrite Em. change (s_dict (set_net s g')) with (s_dict s). rewrite plain_quick; [|exact Hp|apply Hub].
    change (p_algo (s_par s)) with (p_algo (s_par (set_net s g'))) in Ha.
    rewrite search_seq by (rewrite Ha; unfold sequential; auto). change (s_net (set_net s g')) with g'. rewrite Ga, Gb, Ha.
    change (seqb (u "lean_BFS") (u "BFS")) with false. change (seqb (u "lean_BFS") (u "lean_BFS")) with true. cbv iota.
    assert (Ec : current_es (set_net s g') = edges_str g').
    { unfold current_es. change (s_es (set_net s g')) with (s_es s). now rewrite He. }
    rewrite Ec. destruct (get_node_spec _ _ _ Ga) as [Ia Na]. destruct (get_node_spec _ _ _ Gb) as [Ib Nb].
    rewrite (lean_direct g' na nb (CUser f)); try assumption; auto.
    - cbn [path_convs]. now rewrite Cab.
    - intros ->. apply (proj1 Hp). congruence.
    - rewrite Na. apply simple_combo, Hua.
    - rewrite Nb. apply simple_combo, Hub. }
  rewrite Es. cbn [val_result feval run_convs ceval]. destruct (f v); reflexivity.
Qed.
Lemma finish_some s (r : res V) : finish_result s (rbind r (fun w => Ok (Some (CVal w)))) = rbind r (fun w => Ok (Some (CVal w))).
Proof. now destruct r. Qed.
End E.
