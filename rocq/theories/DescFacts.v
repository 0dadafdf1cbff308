(** * Descendants and lean_BFS on the network *)
From Coq Require Import String.
From Verif Require Import Py StrTools Network NetworkFacts Search SearchSpec SearchFacts SearchFacts2.

(** ** Sets of names *)
Lemma sunion_In x a b : In x (sunion a b) <-> In x a \/ In x b.
Proof.
  unfold sunion. rewrite in_app_iff, filter_In, negb_true_iff, smem_false. split; [tauto|].
  intros [H|H]; [now left|]. destruct (in_dec str_eq_dec x a); auto.
Qed.
Lemma sinter_In x a b : In x (sinter a b) <-> In x a /\ In x b.
Proof. unfold sinter. now rewrite filter_In, smem_In. Qed.
Lemma sdedup_In x l : In x (sdedup l) <-> In x l.
Proof.
  induction l as [|y l IH]; [easy|]. cbn [sdedup In]. rewrite filter_In, negb_true_iff, seqb_neq, IH.
  split; [tauto|]. intros [->|H]; [now left|]. destruct (str_eq_dec y x); auto.
Qed.

(** the edges of the string view *)
Definition es_edge (es : estr) (a b : str) : Prop := exists v, In (a, v) es /\ In b v.

Lemma gen_step_In es ch x : In x (gen_step es ch) <-> In x ch \/ exists k, In k ch /\ es_edge es k x.
Proof.
  unfold gen_step. rewrite sunion_In, sdedup_In, in_flat_map. split.
  - intros [H|((k & v) & Hin & Hx)]; [now left|]. cbn in Hx. destruct (smem k ch) eqn:E; [|easy].
    apply smem_In in E. right. exists k. split; [exact E|]. exists v. auto.
  - intros [H|(k & Hk & v & Hin & Hx)]; [now left|]. right. exists (k, v). split; [exact Hin|].
    cbn. now rewrite (proj2 (smem_In k ch) Hk).
Qed.

Lemma gen_iter_In es g : forall ch x,
  In x (gen_iter es g ch) <-> exists y, In y ch /\ within (es_edge es) g y x.
Proof.
  induction g as [|g IH]; intros ch x; cbn [gen_iter].
  - split.
    + intros H. exists x. split; [exact H|]. exists [x]. split; [constructor|cbn; lia].
    + intros (y & Hy & p & Hw & Hl). destruct Hw as [a|a b p c Hab Hw]; [exact Hy|].
      apply walk_hd in Hw as (t & ->). cbn in Hl. lia.
  - rewrite IH. split.
    + intros (y & Hy & p & Hw & Hl). apply gen_step_In in Hy as [Hy|(k & Hk & He)].
      * exists y. split; [exact Hy|]. exists p. split; [exact Hw|lia].
      * exists k. split; [exact Hk|]. exists (k :: p). split; [econstructor; eassumption|cbn; lia].
    + intros (y & Hy & p & Hw & Hl). destruct Hw as [a|a b p c Hab Hw].
      * exists a. split; [apply gen_step_In; now left|]. exists [a]. split; [constructor|cbn; lia].
      * exists b. split; [apply gen_step_In; right; eauto|]. exists p. split; [exact Hw|cbn in Hl; lia].
Qed.

(** The string view lists, for each name, the children of the last node of that name. *)
Lemma dset_In {A} k (v : A) d k' v' :
  NoDup (map fst d) ->
  (In (k', v') (dset k v d) <-> (k' = k /\ v' = v) \/ (k' <> k /\ In (k', v') d)).
Proof.
  induction d as [|(k0, v0) d IH]; cbn [dset map fst]; intros ND.
  - cbn. split; [intros [[= <- <-]|[]]; auto|intros [[-> ->]|[_ []]]; auto].
  - inversion ND as [|? ? Hni ND']; subst. destruct (seqb k k0) eqn:E.
    + apply seqb_eq in E. subst k0. cbn. split.
      * intros [[= <- <-]|H]; [auto|]. right. split; [|now right]. intros ->.
        apply Hni. apply in_map_iff. exists (k, v'). auto.
      * intros [[-> ->]|[Hne [[= -> ->]|H]]]; auto. now destruct Hne.
    + apply seqb_neq in E. cbn. rewrite IH by exact ND'. split.
      * intros [[= -> ->]|[?|[? ?]]]; auto.
      * intros [[-> ->]|[Hne [[= -> ->]|H]]]; auto.
Qed.
Lemma dset_keys {A} k (v : A) d x : In x (map fst (dset k v d)) <-> x = k \/ In x (map fst d).
Proof.
  induction d as [|(k0, v0) d IH]; cbn [dset map fst].
  - cbn. intuition.
  - destruct (seqb k k0) eqn:E; cbn.
    + apply seqb_eq in E. subst. intuition.
    + rewrite IH. intuition.
Qed.
Lemma dset_NoDup {A} k (v : A) d : NoDup (map fst d) -> NoDup (map fst (dset k v d)).
Proof.
  induction d as [|(k0, v0) d IH]; cbn [dset map fst]; intros ND; [repeat constructor; easy|].
  inversion ND as [|? ? Hni ND']; subst. destruct (seqb k k0) eqn:E; cbn; [now constructor|].
  apply seqb_neq in E. constructor; [|now apply IH]. rewrite dset_keys. intros [->|?]; easy.
Qed.

Section OnNet.
Context {C : Type}.
Notation net := (net C).
Implicit Types g : net.

Lemma edges_str_In g : unique_names g -> forall a v,
  In (a, v) (edges_str g) <-> exists e, In e (n_edges g) /\ nname (e_node e) = a /\ v = map nname (e_kids e).
Proof.
  unfold unique_names, nodes, edges_str. rewrite map_map.
  intros U a v.
  assert (G : forall l d, NoDup (map fst d) -> NoDup (map (fun e : entry C => nname (e_node e)) l) ->
     (forall e, In e l -> ~ In (nname (e_node e)) (map fst d)) ->
     (In (a, v) (fold_left (fun d e => dset (nname (e_node e)) (map nname (e_kids e)) d) l d) <->
      In (a, v) d \/ exists e, In e l /\ nname (e_node e) = a /\ v = map nname (e_kids e))).
  { induction l as [|e l IH]; intros d Nd Nl Hdis; cbn [fold_left].
    - split; [auto|]. intros [?|(e & [] & _)]; auto.
    - cbn [map] in Nl. inversion Nl as [|? ? Hni Nl']; subst. rewrite IH; [|now apply dset_NoDup|exact Nl'|].
      + rewrite dset_In by exact Nd. split.
        * intros [[[-> ->]|[Hne H]]|(e' & He' & H1 & H2)]; [right; exists e; cbn; auto|now left|].
          right. exists e'. cbn. auto.
        * intros [H|(e' & [<-|He'] & H1 & H2)].
          -- left. right. split; [|exact H]. intros ->. apply (Hdis e (or_introl eq_refl)).
             apply in_map_iff. eexists. split; [|exact H]. reflexivity.
          -- left. left. auto.
          -- right. eauto.
      + intros e' He'. rewrite dset_keys. intros [E|H].
        * apply Hni. rewrite <- E. apply in_map_iff. eauto.
        * apply (Hdis e' (or_intror He') H). }
  rewrite G; [|constructor|exact U|easy]. cbn. intuition.
Qed.

Lemma es_edge_named g : wf_net g -> unique_names g -> forall a b, es_edge (edges_str g) a b <-> named_edge g a b.
Proof.
  intros W U a b. pose proof W as (ND & ID & WE). unfold es_edge, named_edge, registered. split.
  - intros (v & Hv & Hb). apply edges_str_In in Hv as (e & He & <- & ->); [|exact U].
    apply in_map_iff in Hb as (nb & <- & Hb). exists (e_node e), nb. split; [|auto].
    exists (e_kids e). split; [|exact Hb]. unfold children_of.
    now rewrite (lookup_unique g (e_node e) e ND He eq_refl).
  - intros (na & nb & (ks & Hk & Hin) & <- & <-). unfold children_of in Hk.
    destruct (lookup g na) as [e|] eqn:L; [|easy]. injection Hk as <-. apply lookup_In in L as [He <-].
    exists (map nname (e_kids e)). split; [apply edges_str_In; [exact U|eauto]|]. now apply in_map.
Qed.

(** ** C15 *)
Lemma within_refl {V} (e : V -> V -> Prop) n a : within e n a a.
Proof. exists [a]. split; [constructor|cbn; lia]. Qed.
Lemma within_iff {V} (e1 e2 : V -> V -> Prop) n a b :
  (forall x y, e1 x y <-> e2 x y) -> within e1 n a b -> within e2 n a b.
Proof.
  intros H (p & Hw & Hl). exists p. split; [|exact Hl]. eapply walk_mono; [|exact Hw]. intros; now apply H.
Qed.

Lemma descendants_children f hasn es un gen combos x : (0 <= gen)%Z ->
  (combos = false \/ combo_parts un = None) ->
  (forall b, es_edge es un b -> hasn un = true) ->
  In x (descendants f hasn es un gen combos) <-> within (es_edge es) (Z.to_nat gen) un x.
Proof.
  intros Hg Hc Hh.
  assert (Hspl : forall l, (if combos then match combo_parts un with Some (a, b) => l a b | None => [] end else []) = @nil str).
  { intros l. destruct Hc as [->| ->]; [reflexivity|]. now destruct combos. }
  destruct f; cbn [descendants];
  (destruct (Z.eqb_spec gen 0) as [->|Hne];
   [ change (Z.to_nat 0) with 0%nat; split;
     [ intros [<-|[]]; apply within_refl
     | intros (p & Hw & Hl); destruct Hw as [a|a b p c Hab Hw]; [now left|];
       apply walk_hd in Hw as (t & ->); cbn in Hl; lia ]
   | rewrite Hspl, !sunion_In;
     destruct (hasn un) eqn:Eh;
     [ rewrite gen_iter_In; split;
       [ intros [[<-|[]]|[(y & [<-|[]] & H)|[]]]; [apply within_refl|exact H]
       | intros H; right; left; exists un; split; [now left|exact H] ]
     | split;
       [ intros [[<-|[]]|[[]|[]]]; apply within_refl
       | intros (p & Hw & Hl); destruct Hw as [a|a b p c Hab Hw]; [now left; left|];
         specialize (Hh _ Hab); congruence ] ] ]).
Qed.

Lemma named_edge_has g a b : wf_net g -> named_edge g a b -> has_node g a = true /\ has_node g b = true.
Proof.
  intros (ND & ID & WE) (na & nb & (ks & Hk & Hin) & <- & <-). unfold children_of in Hk.
  destruct (lookup g na) as [e|] eqn:L; [|easy]. injection Hk as <-. apply lookup_In in L as [He <-].
  split; apply has_node_spec.
  - exists (e_node e). split; [now apply in_map|reflexivity].
  - exists nb. split; [|reflexivity]. destruct (WE _ He) as (_ & _ & D). now apply D.
Qed.

Theorem get_descendants_exact g un gen combos x :
  wf_net g -> unique_names g -> (0 <= gen)%Z -> (combos = false \/ combo_parts un = None) ->
  In x (get_descendants (has_node g) (edges_str g) un gen combos) <->
  within (named_edge g) (Z.to_nat gen) un x.
Proof.
  intros W U Hg Hc. unfold get_descendants. rewrite descendants_children; [|exact Hg|exact Hc|].
  - split; apply within_iff; intros a b; [apply es_edge_named|symmetry; apply es_edge_named]; assumption.
  - intros b Hb. apply es_edge_named in Hb; [|assumption..]. now apply named_edge_has in Hb.
Qed.

(** ** Names and nodes *)
Lemma registered_nodes g a b : wf_net g -> registered g a b -> In a (nodes g) /\ In b (nodes g).
Proof.
  intros (ND & ID & WE) (ks & Hk & Hin). unfold children_of in Hk.
  destruct (lookup g a) as [e|] eqn:L; [|easy]. injection Hk as <-. apply lookup_In in L as [He <-].
  split; [now apply in_map|]. destruct (WE _ He) as (_ & _ & D). now apply D.
Qed.
Lemma unique_name_node g a b : unique_names g -> In a (nodes g) -> In b (nodes g) -> nname a = nname b -> a = b.
Proof.
  unfold unique_names. induction (nodes g) as [|x l IH]; [easy|]. cbn [map]. intros ND.
  inversion ND as [|? ? Hni ND']; subst. intros [->|Ha] [->|Hb] E; [reflexivity| | |now apply IH].
  - exfalso. apply Hni. rewrite E. now apply in_map.
  - exfalso. apply Hni. rewrite <- E. now apply in_map.
Qed.
Lemma walk_names g a p b : walk (registered g) a p b -> walk (named_edge g) (nname a) (map nname p) (nname b).
Proof.
  induction 1 as [a|a b p c Hab Hw IH]; [constructor|]. cbn. econstructor; [|exact IH].
  exists a, b. auto.
Qed.
Lemma walk_nodes g a q y : wf_net g -> unique_names g -> In a (nodes g) -> walk (named_edge g) (nname a) q y ->
  exists p b, walk (registered g) a p b /\ q = map nname p /\ y = nname b /\ In b (nodes g).
Proof.
  intros W U Ha H. remember (nname a) as x eqn:E. revert a Ha E.
  induction H as [x|x z p y Hxz Hw IH]; intros a Ha ->.
  - exists [a], a. split; [constructor|auto].
  - destruct Hxz as (na & nb & He & E1 & E2).
    pose proof (registered_nodes _ _ _ W He) as [Hna Hnb].
    assert (na = a) by (eapply unique_name_node; eassumption). subst na.
    destruct (IH nb Hnb (eq_sym E2)) as (p' & b & Hp & -> & -> & Hb).
    exists (a :: p'), b. split; [econstructor; eassumption|auto].
Qed.
Lemma within_names g n a b : wf_net g -> unique_names g -> In a (nodes g) -> In b (nodes g) ->
  within (named_edge g) n (nname a) (nname b) <-> within (registered g) n a b.
Proof.
  intros W U Ha Hb. split.
  - intros (q & Hq & Hl). destruct (walk_nodes _ _ _ _ W U Ha Hq) as (p & b' & Hp & -> & E & Hb').
    assert (b' = b) by (eapply unique_name_node; eauto). subst b'. exists p. rewrite map_length in Hl. auto.
  - intros (p & Hp & Hl). exists (map nname p). split; [now apply walk_names|now rewrite map_length].
Qed.
Lemma walk_nodes_In g a p b : wf_net g -> In a (nodes g) -> walk (registered g) a p b -> incl p (nodes g).
Proof.
  intros W Ha H. induction H as [a|a b p c Hab Hw IH].
  - intros x [<-|[]]. exact Ha.
  - intros x [<-|Hx]; [exact Ha|]. apply IH; [|exact Hx]. now apply registered_nodes in Hab.
Qed.

(** ** BFS, DFS and lean_BFS on the network *)
Lemma max_deg_ge (l : list (list node)) x : In x l -> (length x <= max_deg l)%nat.
Proof. unfold max_deg. induction l as [|y l IH]; [easy|]. cbn [fold_right]. intros [->|H]; [lia|]. specialize (IH H). lia. Qed.

Lemma children_of_deg g v ks : children_of g v = Ok ks ->
  In v (nodes g) /\ (length ks <= max_deg (map e_kids (n_edges g)))%nat.
Proof.
  unfold children_of. destruct (lookup g v) as [e|] eqn:L; [|easy]. intros [= <-].
  apply lookup_In in L as [He <-]. split; [now apply in_map|]. apply max_deg_ge. now apply in_map.
Qed.

Theorem BFS_correct g s e :
  match BFS g s e with
  | Ok (Some p) => simple_path (registered g) s p e /\ shortest_path (registered g) s p e
  | Ok None => ~ reachable (registered g) s e
  | Err x => x = KeyError /\ exists n, reachable (registered g) s n /\ ~ In n (nodes g)
  end.
Proof.
  pose proof (bfs_correct neqb neqb_eq (children_of g) e s (nodes g) (max_deg (map e_kids (n_edges g)))
    (fun v k ks H => proj1 (children_of_deg g v (k :: ks) H))
    (fun v ks H => proj2 (children_of_deg g v ks H))
    (length (n_edges g)) _ ltac:(unfold nodes; now rewrite map_length) (le_n _)) as H.
  unfold BFS, net_fuel. change (edge_of (children_of g)) with (registered g) in H.
  destruct (bfs _ _ _ _ _) as [[p|]|x]; try exact H.
  destruct H as (n & Hr & Hn). unfold children_of in Hn.
  destruct (lookup g n) eqn:L; [easy|]. injection Hn as <-. split; [reflexivity|]. exists n. split; [exact Hr|].
  now apply lookup_None.
Qed.

Lemma reach_nodes g s n : wf_net g -> In s (nodes g) -> reachable (registered g) s n -> In n (nodes g).
Proof.
  intros W Hs (p & Hp). pose proof (walk_nodes_In _ _ _ _ W Hs Hp) as Hi.
  apply walk_last in Hp as (t & ->). apply Hi, in_or_app. right. now left.
Qed.

Theorem BFS_total g s e : wf_net g -> In s (nodes g) -> exists r, BFS g s e = Ok r.
Proof.
  intros W Hs. pose proof (BFS_correct g s e) as H. destruct (BFS g s e) as [r|x]; [eauto|].
  destruct H as (_ & n & Hr & Hn). exfalso. apply Hn. eapply reach_nodes; eassumption.
Qed.

Theorem DFS_sound g es s e depth p : DFS g es s e depth = Ok (Some p) -> simple_path (registered g) s p e.
Proof. unfold DFS. intros H. exact (dfs_sound neqb neqb_eq (children_of g) e _ _ s p H). Qed.

Theorem DFS_total g es s e depth : wf_net g -> In s (nodes g) -> exists r, DFS g es s e depth = Ok r.
Proof.
  intros W Hs. destruct (DFS g es s e depth) as [r|x] eqn:E; [eauto|exfalso]. unfold DFS in E.
  set (keep := fun c => smem _ _) in E.
  assert (Hx : x <> OutOfFuel).
  { intros ->. revert E. apply (dfs_no_fuel neqb neqb_eq (children_of g) e keep (nodes g)).
    - intros v ks H. now apply children_of_deg in H.
    - intros v. unfold children_of. now destruct (lookup g v).
    - unfold nodes. rewrite map_length. lia. }
  unfold dfs in E. destruct (dfs_ _ _ _ _ _ _ _ _) as [[pq vis]|x'] eqn:Ed; [easy|]. injection E as ->.
  destruct (dfs_err neqb (children_of g) e keep _ _ _ _ _ Ed Hx) as (n & Hr & Hn).
  unfold children_of in Hn. destruct (lookup g n) eqn:L; [easy|]. apply lookup_None in L.
  apply L. eapply reach_nodes; eassumption.
Qed.

Theorem DFS_complete g s e depth : wf_net g -> unique_names g -> In s (nodes g) -> In e (nodes g) ->
  (0 <= depth)%Z ->
  (forall c, reachable (registered g) s c -> combo_parts (nname c) = None) ->
  (forall c, reachable (registered g) s c -> reachable (registered g) c e -> within (registered g) (Z.to_nat depth) c e) ->
  DFS g (edges_str g) s e depth = Ok None -> ~ reachable (registered g) s e.
Proof.
  intros W U Hs He Hd Hsimple Hdiam H. unfold DFS in H.
  eapply (dfs_complete neqb neqb_eq (children_of g) e); [|exact H].
  change (edge_of (children_of g)) with (registered g).
  intros c Hc Hr. apply smem_In. apply get_descendants_exact; auto.
  apply within_names; auto. exact (reach_nodes _ _ _ W Hs Hc).
Qed.

(** lean_BFS *)
Lemma slim_sub g sel n ks : NoDup (nodes g) -> incl sel (n_edges g) -> slim_children sel n = Ok ks ->
  ks = [] \/ (children_of g n = Ok ks /\ exists e, In e sel /\ e_node e = n /\ e_kids e = ks).
Proof.
  intros ND Hi. unfold slim_children.
  destruct (find _ sel) as [e|] eqn:F; intros [= <-]; [right|now left].
  apply find_some in F as [He E]. apply neqb_eq in E. split; [|exists e; auto].
  unfold children_of. now rewrite (lookup_unique g n e ND (Hi _ He) (eq_sym E)).
Qed.

Lemma slim_bfs g sel s e : NoDup (nodes g) -> incl sel (n_edges g) ->
  match bfs neqb (slim_children sel) e (net_fuel sel) s with
  | Ok (Some p) => simple_path (edge_of (slim_children sel)) s p e /\ shortest_path (edge_of (slim_children sel)) s p e
  | Ok None => ~ reachable (edge_of (slim_children sel)) s e
  | Err x => False
  end.
Proof.
  intros W Hi.
  pose proof (bfs_correct neqb neqb_eq (slim_children sel) e s (map e_node sel) (max_deg (map e_kids sel))) as H.
  assert (Hdeg : forall v ks, slim_children sel v = Ok ks -> (ks = [] \/ In v (map e_node sel)) /\ (length ks <= max_deg (map e_kids sel))%nat).
  { intros v ks. unfold slim_children. destruct (find _ sel) as [x|] eqn:F; intros [= <-].
    - apply find_some in F as [He E]. apply neqb_eq in E. subst v. split; [right; now apply in_map|].
      apply max_deg_ge. now apply in_map.
    - split; [now left|cbn; lia]. }
  specialize (H ltac:(intros v k ks Hk; apply Hdeg in Hk as [[?|?] _]; easy)
                ltac:(intros v ks Hk; now apply Hdeg in Hk)
                (length sel) _ ltac:(now rewrite map_length) (le_n _)).
  unfold net_fuel. destruct (bfs _ _ _ _ _) as [[p|]|x]; try exact H.
  destruct H as (n & _ & Hn). unfold slim_children in Hn. now destruct (find _ sel).
Qed.

Lemma slim_edge_sub g sel a b : NoDup (nodes g) -> incl sel (n_edges g) ->
  edge_of (slim_children sel) a b -> registered g a b.
Proof.
  intros W Hi (ks & Hk & Hin). destruct (slim_sub _ _ _ _ W Hi Hk) as [->|[H _]]; [easy|].
  exists ks. auto.
Qed.
Lemma slim_edge_in g sel a b : NoDup (nodes g) -> incl sel (n_edges g) -> registered g a b ->
  In a (map e_node sel) -> edge_of (slim_children sel) a b.
Proof.
  intros W Hi (ks & Hk & Hin) Ha. exists ks. split; [|exact Hin].
  unfold slim_children. destruct (find _ sel) as [x|] eqn:F.
  - apply find_some in F as [He E]. apply neqb_eq in E. unfold children_of in Hk.
    rewrite (lookup_unique g a x W (Hi _ He) (eq_sym E)) in Hk. exact Hk.
  - apply in_map_iff in Ha as (x & <- & Hx). pose proof (find_none _ _ F x Hx) as E. cbn in E.
    now rewrite neqb_refl in E.
Qed.

Lemma lean_edges_incl g es s e m : incl (lean_edges g es s e m) (n_edges g).
Proof.
  unfold lean_edges. destruct (lean_loop _ _ _ _ _ _ _) as [sel gen]. intros x Hx. now apply filter_In in Hx.
Qed.

Theorem lean_sound g es s e m p : NoDup (nodes g) -> lean_BFS g es s e m = Ok (Some p) -> simple_path (registered g) s p e.
Proof.
  intros W. unfold lean_BFS. pose proof (lean_edges_incl g es s e m) as Hi.
  destruct (lean_edges g es s e m) as [|x sel] eqn:E; [easy|]. intros H.
  pose proof (slim_bfs g (x :: sel) s e W Hi) as B. rewrite H in B. destruct B as ((Hw & ND) & _).
  split; [|exact ND]. eapply walk_mono; [|exact Hw]. intros a b _. now apply slim_edge_sub.
Qed.
Theorem lean_total g es s e m : NoDup (nodes g) -> exists r, lean_BFS g es s e m = Ok r.
Proof.
  intros W. unfold lean_BFS. pose proof (lean_edges_incl g es s e m) as Hi.
  destruct (lean_edges g es s e m) as [|x sel] eqn:E; [eauto|].
  pose proof (slim_bfs g (x :: sel) s e W Hi) as B. destruct (bfs _ _ _ _ _) as [r|]; [eauto|easy].
Qed.

(** Walking back in a symmetric network *)
Lemma walk_rev g a p b : symmetric g -> walk (registered g) a p b -> walk (registered g) b (rev p) a.
Proof.
  intros S. induction 1 as [a|a b p c Hab Hw IH]; [constructor|]. cbn. eapply walk_snoc; [exact IH|now apply S].
Qed.
Lemma within_sym g n a b : symmetric g -> within (registered g) n a b -> within (registered g) n b a.
Proof. intros S (p & Hp & Hl). exists (rev p). split; [now apply walk_rev|now rewrite rev_length]. Qed.

(** The loop stops at the first generation count with a common unit. *)
Lemma lean_loop_spec hasn es s e gl : forall sel0 gen0,
  let '(sel, gen) := lean_loop hasn es s e gl sel0 gen0 in
  (gl = [] /\ sel = sel0 /\ gen = gen0) \/
  (exists k0, In k0 gl /\ gen = (k0 + 1)%Z /\
     sel = sinter (get_descendants hasn es s gen true) (get_descendants hasn es e gen true) /\
     (sel = [] -> forall k1, In k1 gl ->
        sinter (get_descendants hasn es s (k1 + 1) true) (get_descendants hasn es e (k1 + 1) true) = [])).
Proof.
  induction gl as [|k0 gl IH]; intros sel0 gen0; cbn [lean_loop]; [now left|].
  destruct (sinter (get_descendants hasn es s (k0 + 1) true) (get_descendants hasn es e (k0 + 1) true)) as [|x sel] eqn:E.
  - specialize (IH [] (k0 + 1)%Z). destruct (lean_loop _ _ _ _ _ _ _) as [sel gen]. right.
    destruct IH as [(-> & -> & ->)|(k1 & Hin & -> & -> & Hall)].
    + exists k0. split; [now left|]. split; [reflexivity|]. split; [now rewrite E|].
      intros _ k1 [<-|[]]. exact E.
    + exists k1. split; [now right|]. split; [reflexivity|]. split; [reflexivity|].
      intros Hs k2 [<-|Hg2]; [exact E|now apply Hall].
  - right. exists k0. split; [now left|]. split; [reflexivity|]. split; [now rewrite E|]. easy.
Qed.

Lemma generations_nonneg m k0 : (0 <= m)%Z -> In k0 (generations_list m) -> (0 <= k0 <= m)%Z.
Proof.
  intros Hm. unfold generations_list. rewrite in_app_iff. intros [H|[<-|[]]]; [|lia].
  apply filter_In in H as [Hin Hlt]. apply Z.ltb_lt in Hlt. split; [|lia].
  cbn in Hin. repeat destruct Hin as [<-|Hin]; lia.
Qed.

Lemma walk_cut {V} (ed : V -> V -> Prop) n : forall a p b, walk ed a p b -> (n < length p)%nat ->
  exists p1 x p2, p = p1 ++ x :: p2 /\ length p1 = n /\ walk ed a (p1 ++ [x]) x /\ walk ed x (x :: p2) b.
Proof.
  intros a p b Hw Hn.
  destruct (nth_error p n) as [x|] eqn:E; [|apply nth_error_None in E; lia].
  apply nth_error_split in E as (p1 & p2 & -> & <-). exists p1, x, p2.
  split; [reflexivity|]. split; [reflexivity|]. now apply walk_split in Hw.
Qed.

(** Completeness and optimality of lean_BFS: the path can be walked back, and it
    is short or what the end reaches reaches the end. *)
Theorem lean_complete_gen g s e m p :
  wf_net g -> unique_names g -> In s (nodes g) -> In e (nodes g) -> (0 <= m)%Z ->
  combo_parts (nname s) = None -> combo_parts (nname e) = None ->
  shortest_path (registered g) s p e -> (Z.of_nat (length p) <= 2 * (m + 1) + 1)%Z ->
  walk (registered g) e (rev p) s ->
  (length p <= 3)%nat \/ (forall n y, within (registered g) n e y -> within (registered g) n y e) ->
  exists q, lean_BFS g (edges_str g) s e m = Ok (Some q) /\ shortest_path (registered g) s q e.
Proof.
  intros W U Hs He Hm Cs Ce (Hp & Hmin) Hlen Hback Hsym.
  set (hasn := has_node g). set (es := edges_str g).
  assert (Mem : forall a gen x, In a (nodes g) -> combo_parts (nname a) = None -> (0 <= gen)%Z -> In x (nodes g) ->
     In (nname x) (get_descendants hasn es (nname a) gen true) <-> within (registered g) (Z.to_nat gen) a x).
  { intros a gen x Ha Hc Hg Hx. unfold hasn, es. rewrite get_descendants_exact; auto. now apply within_names. }
  (* the middle of the shortest path is common to both sides when it is short enough *)
  assert (Hpne : (1 <= length p)%nat) by (apply walk_hd in Hp as (t & ->); cbn; lia).
  set (L := (length p - 1)%nat). set (mid := (L / 2)%nat).
  pose proof (Nat.div_mod L 2 ltac:(lia)) as DM. pose proof (Nat.mod_upper_bound L 2 ltac:(lia)) as MU. fold mid in DM. clearbody mid.
  destruct (walk_cut _ mid s p e Hp ltac:(unfold L in *; lia)) as (p1 & x & p2 & Ep & Hl1 & Hw1 & Hw2).
  assert (Hlp : (length p = length p1 + 1 + length p2)%nat) by (rewrite Ep, app_length; cbn; lia).
  assert (Bk12 : walk (registered g) e (rev (x :: p2)) x /\ walk (registered g) x (x :: rev p1) s).
  { rewrite Ep in Hback. rewrite rev_app_distr in Hback. cbn [rev] in *. rewrite <- app_assoc in Hback. cbn [Datatypes.app] in Hback.
    now apply walk_split in Hback. }
  destruct Bk12 as [Bk2 Bk1].
  assert (Hxn : In x (nodes g)).
  { apply (walk_nodes_In _ _ _ _ W Hs Hp). rewrite Ep. apply in_or_app. right. now left. }
  assert (Hmid : forall gen, (0 <= gen)%Z -> (Z.of_nat L <= 2 * gen)%Z ->
     In (nname x) (sinter (get_descendants hasn es (nname s) gen true) (get_descendants hasn es (nname e) gen true))).
  { intros gen Hg HL. apply sinter_In. split; apply Mem; auto.
    - exists (p1 ++ [x]). split; [exact Hw1|]. rewrite app_length; cbn. unfold L in *. lia.
    - exists (rev (x :: p2)). split; [exact Bk2|]. rewrite rev_length; cbn. unfold L in *. lia. }
  pose proof (lean_loop_spec hasn es (nname s) (nname e) (generations_list m) [] 0) as Hloop.
  unfold lean_BFS, lean_edges. fold hasn. fold es.
  destruct (lean_loop hasn es (nname s) (nname e) (generations_list m) [] 0) as [sel gen] eqn:EL.
  destruct Hloop as [(Hnil & _)|(k0 & Hg0 & -> & Esel & Hempty)].
  { unfold generations_list in Hnil. now apply app_eq_nil in Hnil as [_ ?]. }
  pose proof (generations_nonneg m k0 Hm Hg0) as Hg0n.
  assert (Hne : exists y, In y sel).
  { destruct sel as [|y sel'] eqn:Es; [exfalso|exists y; now left].
    specialize (Hempty eq_refl m).
    assert (Hin : In m (generations_list m)) by (unfold generations_list; apply in_or_app; right; now left).
    specialize (Hempty Hin). pose proof (Hmid (m + 1)%Z ltac:(lia) ltac:(unfold L; lia)) as X. now rewrite Hempty in X. }
  destruct Hne as (y & Hy). pose proof Hy as Hy'. rewrite Esel in Hy'. apply sinter_In in Hy' as [Hy1 Hy2].
  (* the common unit y bounds the distance *)
  assert (HLg : (Z.of_nat L <= 2 * (k0 + 1))%Z).
  { destruct Hsym as [Hsym|Hsym]; [unfold L; lia|].
    unfold hasn, es in Hy1, Hy2. apply get_descendants_exact in Hy1; [|auto; lia..]. apply get_descendants_exact in Hy2; [|auto; lia..].
    destruct Hy1 as (q1 & Hq1 & Hl1'). destruct (walk_nodes _ _ _ _ W U Hs Hq1) as (r1 & b1 & Hr1 & -> & -> & Hb1).
    assert (Hy2' : within (registered g) (Z.to_nat (k0 + 1)) e b1) by (apply within_names; auto).
    apply Hsym in Hy2'. destruct Hy2' as (r2 & Hr2 & Hl2).
    rewrite map_length in Hl1'.
    destruct (walk_hd _ _ _ _ Hr2) as (t2 & ->). cbn in Hl2.
    pose proof (Hmin _ (walk_app _ _ _ _ _ _ Hr1 Hr2)) as X. rewrite app_length in X. unfold L. lia. }
  assert (Hxsel : In (nname x) sel) by (rewrite Esel; apply Hmid; lia).
  set (sel' := sunion sel (flat_map (fun z => get_descendants hasn es z (k0 + 1) false) sel)).
  set (sl := filter (fun en => smem (nname (e_node en)) sel') (n_edges g)).
  assert (Hall : forall z, In z p -> In z (map e_node sl)).
  { intros z Hz. pose proof (walk_nodes_In _ _ _ _ W Hs Hp z Hz) as Hzn.
    apply in_map_iff in Hzn as (en & <- & Hen). apply in_map. apply filter_In. split; [exact Hen|].
    apply smem_In. unfold sel'. apply sunion_In. right. apply in_flat_map. exists (nname x). split; [exact Hxsel|].
    unfold hasn, es. apply get_descendants_exact; [exact W|exact U|lia|now left|].
    apply within_names; [exact W|exact U|exact Hxn|now apply in_map|].
    rewrite Ep in Hz. apply in_app_iff in Hz as [Hz|[Hz|Hz]].
    - (* before the middle: walk back *)
      apply in_rev in Hz. apply in_split in Hz as (l1 & l2 & E1). rewrite E1 in Bk1.
      change (x :: l1 ++ e_node en :: l2) with ((x :: l1) ++ e_node en :: l2) in Bk1.
      apply walk_split in Bk1 as [Bk1 _]. eexists. split; [exact Bk1|]. rewrite app_length. cbn [length].
      apply (f_equal (@length _)) in E1. rewrite rev_length, app_length in E1. cbn in E1. unfold L in *. lia.
    - rewrite <- Hz. apply within_refl.
    - apply in_split in Hz as (l1 & l2 & E2). rewrite E2 in Hw2.
      change (x :: l1 ++ e_node en :: l2) with ((x :: l1) ++ e_node en :: l2) in Hw2.
      apply walk_split in Hw2 as [Hw2 _]. eexists. split; [exact Hw2|]. rewrite app_length. cbn [length].
      rewrite E2, app_length in Hlp. cbn in Hlp. unfold L in *. lia. }
  assert (Hsub : incl sl (n_edges g)) by (intros z Hz; now apply filter_In in Hz).
  pose proof (slim_bfs g sl s e (proj1 W) Hsub) as B.
  assert (Hpslim : walk (edge_of (slim_children sl)) s p e).
  { eapply walk_mono; [|exact Hp]. intros a b Ha Hab. eapply slim_edge_in; eauto using (proj1 W). }
  destruct sl as [|e0 sl'] eqn:Esl.
  { apply walk_hd in Hp as (t & Et). specialize (Hall s). rewrite Et in Hall. now specialize (Hall (or_introl eq_refl)). }
  rewrite <- Esl in *. destruct (bfs _ _ _ _ _) as [[q|]|]; [|exfalso; apply B; now exists p|easy].
  destruct B as (_ & Hq & Hqmin). exists q. split; [reflexivity|].
  assert (Hqg : walk (registered g) s q e).
  { eapply walk_mono; [|exact Hq]. intros a b _. apply slim_edge_sub; [exact (proj1 W)|exact Hsub]. }
  split; [exact Hqg|]. intros r Hr. specialize (Hqmin _ Hpslim). specialize (Hmin _ Hr). lia.
Qed.
(** on symmetric networks *)
Theorem lean_complete g s e m p :
  wf_net g -> unique_names g -> symmetric g -> In s (nodes g) -> In e (nodes g) -> (0 <= m)%Z ->
  combo_parts (nname s) = None -> combo_parts (nname e) = None ->
  shortest_path (registered g) s p e -> (Z.of_nat (length p) <= 2 * (m + 1) + 1)%Z ->
  exists q, lean_BFS g (edges_str g) s e m = Ok (Some q) /\ shortest_path (registered g) s q e.
Proof.
  intros W U S Hs He Hm Cs Ce Hp Hl. apply (lean_complete_gen g s e m p); try assumption.
  - apply walk_rev; [exact S|apply Hp].
  - right. intros n y. now apply within_sym.
Qed.
End OnNet.
