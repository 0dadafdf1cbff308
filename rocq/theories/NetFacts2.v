(** * Network-level lemmas behind PropsNet.v *)
From Coq Require Import String QArith Qcanon.
From Verif Require Import Py StrTools Network SearchSpec NetworkFacts Search SearchFacts SearchFacts2
  DescFacts Hybrid HybridFacts Conv ConvFacts.
Local Open Scope N_scope.

Section G.
Context {C : Type}.
Implicit Types g : net C.

Lemma conv_at_ok g a b c : conv_at g a b = Some c <-> conversion g a b = Ok c.
Proof. unfold conv_at. destruct (conversion g a b); split; congruence. Qed.

Lemma conv_at_empty a b : conv_at (@empty_net C) a b = None.
Proof. reflexivity. Qed.

Lemma registrations_complete (ops : list (op C)) a b c :
  first_of (asked_all empty_net ops) a b = Some c -> conversion (run_ops empty_net ops) a b = Ok c.
Proof.
  intros H. apply conv_at_ok. rewrite conv_at_run by apply wf_empty. now rewrite conv_at_empty.
Qed.

Lemma registrations_sound (ops : list (op C)) a ks :
  children_of (run_ops empty_net ops) a = Ok ks ->
  NoDup ks /\ forall b, In b ks -> has_obj (run_ops empty_net ops) b = true /\
    exists c, conversion (run_ops empty_net ops) a b = Ok c
           /\ first_of (asked_all empty_net ops) a b = Some c.
Proof.
  pose proof (wf_run ops empty_net wf_empty) as W. intros H.
  pose proof (children_conv _ _ W _ H) as Hc.
  unfold children_of in H. destruct (lookup _ a) as [e|] eqn:L; [|easy]. injection H as <-.
  apply lookup_In in L as [He _]. destruct W as (_ & _ & WE). destruct (WE _ He) as (A & B & D).
  split; [exact A|]. intros b Hb. split; [apply has_obj_In; now apply D|].
  destruct (proj1 (Hc b) Hb) as (c & E). exists c. split; [now apply conv_at_ok|].
  rewrite conv_at_run in E by apply wf_empty. now rewrite conv_at_empty in E.
Qed.

Lemma set_conversion_total (ops : list (op C)) a b c rc :
  exists g, set_conversion (run_ops empty_net ops) a b c rc = Ok g.
Proof.
  destruct (wf_set_conversion _ a b c rc (wf_run ops empty_net wf_empty))
    as (g1 & g2 & na & nb & g3 & g4 & _ & _ & _ & _ & _ & _ & E & _). eauto.
Qed.

Lemma BFS_sound g s e p : BFS g s e = Ok (Some p) -> simple_path (registered g) s p e.
Proof. intros H. pose proof (BFS_correct g s e) as X. rewrite H in X. apply X. Qed.

Lemma BFS_complete g s e : wf_net g -> In s (nodes g) ->
  (forall p, shortest_path (registered g) s p e ->
     exists q, BFS g s e = Ok (Some q) /\ shortest_path (registered g) s q e)
  /\ (~ reachable (registered g) s e -> BFS g s e = Ok None).
Proof.
  intros W Hs. destruct (BFS_total g s e W Hs) as (r & E). pose proof (BFS_correct g s e) as X.
  rewrite E in *. split.
  - intros p (Hp & _). destruct r as [q|]; [|exfalso; apply X; now exists p]. exists q. split; [easy|apply X].
  - intros Hn. destruct r as [q|]; [|reflexivity]. exfalso. apply Hn. exists q. apply X.
Qed.

Lemma BFS_terminates g s e : BFS g s e <> Err OutOfFuel.
Proof.
  pose proof (BFS_correct g s e) as X. intros E. rewrite E in X. destruct X as [[=] _].
Qed.

(** ** nesting of combinations *)
Lemma split2_spec c s a b : split2 c s = Some (a, b) -> s = a ++ c :: b /\ ~ In c a /\ ~ In c b.
Proof.
  unfold split2. destruct (csplit c s) as [|x [|y [|z t]]] eqn:E; try easy. intros [= <- <-].
  split; [rewrite <- (csplit_join c s), E; reflexivity|].
  split; apply (csplit_nosep c s); rewrite E; cbn; auto.
Qed.
Lemma split2_no c s : ~ In c s -> split2 c s = None.
Proof. intros H. unfold split2. now rewrite (csplit_no c s H). Qed.

Fixpoint nest (n : nat) (s : str) : Prop :=
  match n with
  | O => combo_parts s = None
  | S n' => forall a b, combo_parts s = Some (a, b) -> nest n' a /\ nest n' b
  end.
Lemma nest_none s : ~ In c_slash s -> ~ In c_star s -> combo_parts s = None.
Proof. intros H1 H2. unfold combo_parts. now rewrite !split2_no. Qed.

Lemma nest_2 s : nest 2 s.
Proof.
  cbn. intros a b H.
  assert (G : (~ In c_slash a /\ ~ In c_slash b) \/ (~ In c_star a /\ ~ In c_star b)).
  { unfold combo_parts in H. destruct (split2 c_slash s) as [[x y]|] eqn:E1.
    - injection H as -> ->. apply split2_spec in E1. tauto.
    - apply split2_spec in H. tauto. }
  assert (K : forall x, ~ In c_slash x \/ ~ In c_star x -> forall y z, combo_parts x = Some (y, z) ->
     combo_parts y = None /\ combo_parts z = None).
  { intros x Hx y z Hyz. unfold combo_parts in Hyz.
    destruct (split2 c_slash x) as [[y' z']|] eqn:E1.
    - injection Hyz as -> ->. apply split2_spec in E1 as (-> & Ha & Hb).
      destruct Hx as [Hx|Hx]; [exfalso; apply Hx, in_or_app; right; now left|].
      split; apply nest_none; try assumption; intros X; apply Hx, in_or_app; [now left|right; now right].
    - apply split2_spec in Hyz as (-> & Ha & Hb).
      destruct Hx as [Hx|Hx]; [|exfalso; apply Hx, in_or_app; right; now left].
      split; apply nest_none; try assumption; intros X; apply Hx, in_or_app; [now left|right; now right]. }
  split; intros y z; apply K; tauto.
Qed.

Lemma descendants_nest n : forall f f' hasn es un gen combos, nest n un -> (n <= f)%nat -> (n <= f')%nat ->
  descendants f hasn es un gen combos = descendants f' hasn es un gen combos.
Proof.
  induction n as [|n IH]; intros f f' hasn es un gen combos Hn Hf Hf'.
  - cbn in Hn. destruct f, f'; cbn [descendants]; rewrite Hn; reflexivity.
  - destruct f as [|f]; [lia|]. destruct f' as [|f']; [lia|]. cbn [descendants].
    destruct (gen =? 0)%Z; [reflexivity|]. destruct combos; [|reflexivity].
    destruct (combo_parts un) as [[a b]|] eqn:E; [|reflexivity].
    destruct (Hn a b E) as [Ha Hb].
    rewrite (IH f f' hasn es a gen true Ha) by lia. rewrite (IH f f' hasn es b gen true Hb) by lia. reflexivity.
Qed.
Lemma descendants_fuel hasn es un gen combos f :
  descendants (3 + f) hasn es un gen combos = descendants 3 hasn es un gen combos.
Proof. apply (descendants_nest 2); [apply nest_2|lia|lia]. Qed.

Lemma get_descendants_pair g un a b gen x :
  wf_net g -> unique_names g -> (0 < gen)%Z -> combo_parts un = Some (a, b) ->
  combo_parts a = None -> combo_parts b = None ->
  (In x (get_descendants (has_node g) (edges_str g) un gen true) <->
   within (named_edge g) (Z.to_nat gen) un x \/
   exists n d, within (named_edge g) (Z.to_nat gen) a n /\ within (named_edge g) (Z.to_nat gen) b d
     /\ x = n ++ u "/" ++ d).
Proof.
  intros W U Hg Hc Ha Hb.
  assert (Hpart : forall y z, combo_parts y = None ->
     In z (sunion [y] (descendants 2 (has_node g) (edges_str g) y gen true)) <-> within (named_edge g) (Z.to_nat gen) y z).
  { intros y z Hy. rewrite sunion_In. rewrite (descendants_nest 0 2 3 _ _ y) by (try exact Hy; lia).
    fold (get_descendants (has_node g) (edges_str g) y gen true).
    change (descendants 3 (has_node g) (edges_str g) y gen true) with (get_descendants (has_node g) (edges_str g) y gen true).
    rewrite get_descendants_exact; [|assumption|assumption|lia|now right].
    split; [intros [[<-|[]]|H]; [apply within_refl|exact H]|now right]. }
  assert (Hun : In x (get_descendants (has_node g) (edges_str g) un gen false) <-> within (named_edge g) (Z.to_nat gen) un x).
  { apply get_descendants_exact; [assumption|assumption|lia|now left]. }
  assert (Hone : forall combos, get_descendants (has_node g) (edges_str g) un gen combos =
    sunion [un] (sunion (if has_node g un then gen_iter (edges_str g) (Z.to_nat gen) [un] else [])
      (if combos then
         filter (fun x => negb (seqb x un))
           (flat_map (fun n => map (fun d => n ++ c_slash :: d)
                (sunion [b] (descendants 2 (has_node g) (edges_str g) b gen true)))
              (sunion [a] (descendants 2 (has_node g) (edges_str g) a gen true)))
       else []))).
  { intros combos. change (@get_descendants) with (descendants 3). change (descendants 3) with (descendants (S 2)). generalize 2%nat. intros k.
    cbn [descendants].
    destruct (Z.eqb_spec gen 0) as [->|_]; [lia|]. rewrite Hc. reflexivity. }
  rewrite <- Hun, !Hone.
  rewrite !sunion_In, filter_In, in_flat_map, negb_true_iff, seqb_neq.
  change (In x []) with False.
  split.
  - intros [H|[H|((n & Hn & Hx) & Hne)]]; [left; now left|left; right; now left|].
    right. apply in_map_iff in Hx as (d & <- & Hd). exists n, d.
    rewrite <- !Hpart by assumption. auto.
  - intros [[H|[H|[]]]|(n & d & Hn & Hd & ->)]; [now left|right; now left|].
    destruct (str_eq_dec (n ++ u "/" ++ d) un) as [<-|Hne]; [left; now left|].
    right. right. split; [|exact Hne]. exists n. split; [now apply Hpart|].
    apply in_map_iff. exists d. split; [reflexivity|now apply Hpart].
Qed.

(** checking symmetry by computation *)
Definition sym_b g : bool :=
  forallb (fun e => forallb (fun k => match children_of g k with
                                      | Ok ks => nmem (e_node e) ks | Err _ => false end) (e_kids e)) (n_edges g).
Lemma symmetric_check g : sym_b g = true -> symmetric g.
Proof.
  unfold sym_b. rewrite forallb_forall. intros H a b (ks & Hk & Hin). unfold children_of in Hk.
  destruct (lookup g a) as [e|] eqn:L; [|easy]. injection Hk as <-. apply lookup_In in L as [He <-].
  specialize (H e He). rewrite forallb_forall in H. specialize (H b Hin).
  destruct (children_of g b) as [ks|] eqn:E; [|easy]. exists ks. split; [exact E|now apply nmem_In].
Qed.

(** ** the hybrid search *)
Lemma hybrid_real g es s e m sched r :
  NoDup (nodes g) ->
  h_result (lean_BFS g es s e m) (BFS g s e) sched = Some r ->
  (exists p, r = Value (Some p) /\ simple_path (registered g) s p e /\
     (lean_BFS g es s e m = Ok (Some p) \/ BFS g s e = Ok (Some p)))
  \/ (r = Value None /\ lean_BFS g es s e m = Ok None /\ BFS g s e = Ok None).
Proof.
  intros W H. apply hybrid_safe in H as [(p & -> & H)|H]; [left|now right].
  exists p. split; [reflexivity|]. split; [|exact H].
  destruct H as [H|H]; [eapply lean_sound; eassumption|now apply BFS_sound].
Qed.
Lemma hybrid_returns g es s e m sched1 sched2 :
  wf_net g -> In s (nodes g) ->
  let lo := lean_BFS g es s e m in let bo := BFS g s e in
  h_wl (h_run lo bo sched1) = Ended -> h_wb (h_run lo bo sched1) = Ended ->
  (8 <= length (filter is_main sched2))%nat ->
  exists r, h_result lo bo (sched1 ++ sched2) = Some r.
Proof.
  intros W Hs lo bo E1 E2 Hn. apply hybrid_live; try assumption.
  unfold will_return. destruct (lean_total g es s e m (proj1 W)) as (r1 & H1). destruct (BFS_total g s e W Hs) as (r2 & H2).
  unfold lo, bo. rewrite H1, H2. destruct r1 as [p|]; [left; eauto|]. destruct r2 as [p|]; [right; left; eauto|]. auto.
Qed.
End G.

(** ** Witnesses *)
Lemma clean_network_dangling : exists (ops : list (op nat)) a b,
  let g := clean_network (run_ops empty_net ops) in
  registered g a b /\ has_obj g b = false /\ BFS g a (Node 7 (u "zz")) = Err KeyError.
Proof.
  exists [ONewNode (u "a"); ONewNode (u "b"); OAddEdge (Node 0 (u "a")) (Node 1 (u "b")) 0%nat],
    (Node 0 (u "a")), (Node 1 (u "b")).
  split; [exists [Node 1 (u "b")]; split; [vm_compute; reflexivity|now left]|].
  split; vm_compute; reflexivity.
Qed.

Lemma redeclared_descendants : exists (ops : list (op nat)) x,
  let g := run_ops empty_net ops in
  within (named_edge g) 1 (u "a") x /\
  ~ In x (get_descendants (has_node g) (edges_str g) (u "a") 1 true).
Proof.
  exists [OSetConversion (u "a") (u "b") 1%nat 2%nat; OSetUnit (u "a")], (u "b").
  split.
  - exists [u "a"; u "b"]. split; [|cbn; lia]. econstructor; [|constructor].
    exists (Node 0 (u "a")), (Node 1 (u "b")). split; [|auto].
    exists [Node 1 (u "b")]. split; [vm_compute; reflexivity|now left].
  - apply smem_false. vm_compute. reflexivity.
Qed.

Lemma lean_one_way : exists (ops : list (op nat)) s e p,
  let g := run_ops empty_net ops in
  unique_names g /\ BFS g s e = Ok (Some p) /\ lean_BFS g (edges_str g) s e 25 = Ok None.
Proof.
  exists [ONewNode (u "a"); ONewNode (u "b"); OAddEdge (Node 0 (u "a")) (Node 1 (u "b")) 0%nat],
    (Node 0 (u "a")), (Node 1 (u "b")), [Node 0 (u "a"); Node 1 (u "b")].
  split; [|split; vm_compute; reflexivity].
  unfold unique_names. vm_compute. repeat (constructor; [cbn; intuition discriminate|]). constructor.
Qed.

Lemma get_node_add_edge {C} (g : net C) s d c g' name : add_edge g s d c = Ok g' -> get_node g' name = get_node g name.
Proof.
  unfold add_edge. destruct (negb _); [easy|]. intros [= <-]. unfold get_node. cbn [n_edges].
  induction (n_edges g) as [|e l IH]; [reflexivity|]. cbn [map find].
  set (e' := if neqb s (e_node e) then _ else _).
  assert (E : e_node e' = e_node e) by (unfold e'; destruct (neqb s (e_node e)); [destruct (nmem d (e_kids e))|]; reflexivity).
  rewrite E. destruct (seqb (nname (e_node e)) name); [now rewrite E|exact IH].
Qed.

Lemma api_set_conversion_both (ops : list (op (conv Qc))) a b f g :
  a <> b ->
  has_node (run_ops empty_net ops) a = false -> has_node (run_ops empty_net ops) b = false ->
  api_set_conversion (run_ops empty_net ops) a b f None = Ok g ->
  exists na nb, get_node g a = Ok na /\ get_node g b = Ok nb
    /\ conversion g na nb = Ok (CUser f) /\ conversion g nb na = Ok (CRev (CUser f)).
Proof.
  set (g0 := run_ops empty_net ops). assert (W : wf_net g0) by (apply wf_run, wf_empty). clearbody g0.
  intros Hab Ha Hb H. unfold api_set_conversion in H.
  destruct (wf_set_conversion g0 a b (CUser f) (CRev (CUser f)) W)
    as (g1 & g2 & na & nb & g3 & g4 & E1 & E2 & E3 & E4 & E5 & E6 & E7 & W2 & W3 & W4).
  rewrite E7 in H. injection H as <-. exists na, nb.
  rewrite !(get_node_add_edge _ _ _ _ _ _ E6), !(get_node_add_edge _ _ _ _ _ _ E5).
  split; [exact E3|]. split; [exact E4|].
  assert (Hna : nname na = a) by (now apply get_node_spec in E3).
  assert (Hnb : nname nb = b) by (now apply get_node_spec in E4).
  destruct (add_new_ok g0 a W) as (g1' & E1' & W1 & _). rewrite E1 in E1'. injection E1' as <-.
  unfold add_new in E1, E2.
  assert (Hold : forall x y, has_node g0 (nname x) = false -> conv_at g2 x y = None).
  { intros x y Hx. rewrite (conv_at_add_node _ _ _ x y W1 E2), (conv_at_add_node _ _ _ x y W E1).
    unfold conv_at, conversion. destruct (lookup g0 x) as [e|] eqn:L; [|reflexivity].
    apply lookup_In in L as [He <-].
    assert (has_node g0 (nname (e_node e)) = true) by (apply has_node_spec; exists (e_node e); split; [now apply in_map|reflexivity]).
    congruence. }
  split; apply conv_at_ok; rewrite (conv_at_add_edge _ _ _ _ _ _ _ W3 E6), (conv_at_add_edge _ _ _ _ _ _ _ W2 E5).
  - rewrite Hold by congruence. now rewrite !neqb_refl.
  - rewrite Hold by congruence. rewrite !neqb_refl.
    assert (X : neqb na nb = false) by (apply neqb_neq; intros ->; congruence). now rewrite X.
Qed.
