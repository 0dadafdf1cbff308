(** * Facts about the network *)
From Coq Require Import String.
From Verif Require Import Py Network SearchSpec.
Local Open Scope N_scope.

Lemma neqb_eq a b : neqb a b = true <-> a = b.
Proof.
  destruct a as [i x], b as [j y]; unfold neqb; cbn [nid nname].
  rewrite andb_true_iff, N.eqb_eq, seqb_eq. split; [intros [-> ->]|intros [=]]; auto.
Qed.
Lemma neqb_refl a : neqb a a = true.
Proof. now apply neqb_eq. Qed.
Lemma neqb_neq a b : neqb a b = false <-> a <> b.
Proof. rewrite <- neqb_eq. destruct (neqb a b); split; congruence. Qed.
Lemma node_dec (a b : node) : {a = b} + {a <> b}.
Proof. destruct (neqb a b) eqn:E; [left; now apply neqb_eq | right; now apply neqb_neq]. Qed.
Lemma nmem_In n l : nmem n l = true <-> In n l.
Proof.
  unfold nmem. rewrite existsb_exists. split.
  - intros (x & Hx & E). apply neqb_eq in E. now subst.
  - intros H. exists n. split; [exact H|apply neqb_refl].
Qed.
Lemma nmem_false n l : nmem n l = false <-> ~ In n l.
Proof. rewrite <- nmem_In. destruct (nmem n l); split; congruence. Qed.

Section Facts.
Context {C : Type}.
Notation net := (net C).
Implicit Types g : net.


Lemma has_obj_In g n : has_obj g n = true <-> In n (nodes g).
Proof.
  unfold has_obj, nodes. rewrite existsb_exists, in_map_iff. split.
  - intros (e & He & E). apply neqb_eq in E. now exists e.
  - intros (e & <- & He). exists e. split; [exact He|apply neqb_refl].
Qed.

Lemma lookup_In g n e : lookup g n = Some e -> In e (n_edges g) /\ e_node e = n.
Proof.
  unfold lookup. intros H. apply find_some in H as [Hin E]. apply neqb_eq in E. now subst.
Qed.
Lemma lookup_None g n : lookup g n = None <-> ~ In n (nodes g).
Proof.
  unfold lookup, nodes. split.
  - intros H (e & <- & He)%in_map_iff.
    pose proof (find_none _ _ H e He) as E. cbn in E. now rewrite neqb_refl in E.
  - intros H. destruct (find _ _) as [e|] eqn:E; [|reflexivity].
    apply find_some in E as [Hin E]. apply neqb_eq in E. subst n.
    exfalso. apply H. now apply in_map.
Qed.
Lemma lookup_unique g n e :
  NoDup (nodes g) -> In e (n_edges g) -> e_node e = n -> lookup g n = Some e.
Proof.
  unfold nodes, lookup. induction (n_edges g) as [|x l IH]; [easy|].
  cbn [map]. intros ND [->|Hin] En; cbn [find].
  - now rewrite En, neqb_refl.
  - inversion ND as [|? ? Hni ND']; subst.
    destruct (neqb (e_node e) (e_node x)) eqn:E.
    + apply neqb_eq in E. exfalso. apply Hni. rewrite <- E. now apply in_map.
    + now apply IH.
Qed.

Lemma wf_empty : wf_net (@empty_net C).
Proof. repeat split; cbn; try constructor; easy. Qed.

Lemma nodes_add_node g n g' : add_node g n = Ok g' -> nodes g' = nodes g ++ [n].
Proof.
  unfold add_node. destruct (has_obj g n); [easy|]. intros [= <-].
  unfold nodes; cbn. now rewrite map_app.
Qed.

Lemma wf_add_node g n g' : wf_net g -> add_node g n = Ok g' -> wf_net g'.
Proof.
  intros (ND & ID & WE) H. pose proof (nodes_add_node _ _ _ H) as EN.
  unfold add_node in H. destruct (has_obj g n) eqn:Ho; [easy|]. injection H as <-.
  assert (Hni : ~ In n (nodes g)) by (rewrite <- has_obj_In; congruence).
  split; [|split].
  - rewrite EN.
    assert (A : forall l : list node, NoDup l -> ~ In n l -> NoDup (l ++ [n])).
    { induction l as [|a l IHl]; cbn; intros N1 N2; [constructor; [easy|constructor]|].
      inversion N1; subst. constructor.
      - rewrite in_app_iff; cbn. intros [?|[->|[]]]; [easy|]. apply N2; now left.
      - apply IHl; [easy|]. intros ?; apply N2; now right. }
    now apply A.
  - intros m. rewrite EN, in_app_iff. cbn. intros [Hm|[<-|[]]]; [specialize (ID _ Hm)|]; lia.
  - intros e. cbn. rewrite in_app_iff. cbn. intros [He|[<-|[]]].
    + destruct (WE _ He) as (A & B & D). split; [exact A|split; [exact B|]].
      intros k Hk. rewrite EN, in_app_iff. left. now apply D.
    + repeat split; cbn; try constructor; easy.
Qed.

Lemma add_new_ok g name : wf_net g -> exists g', add_new g name = Ok g' /\ wf_net g'
   /\ nodes g' = nodes g ++ [Node (n_next g) name].
Proof.
  intros W. unfold add_new.
  destruct (add_node g (Node (n_next g) name)) as [g'|e] eqn:E.
  - exists g'. split; [reflexivity|]. split; [eapply wf_add_node; eassumption|].
    now apply nodes_add_node in E.
  - exfalso. unfold add_node in E. destruct (has_obj g _) eqn:Ho; [|easy].
    apply has_obj_In in Ho. destruct W as (_ & ID & _). specialize (ID _ Ho). cbn in ID. lia.
Qed.

Lemma nodes_add_edge g s d c g' : add_edge g s d c = Ok g' -> nodes g' = nodes g.
Proof.
  unfold add_edge. destruct (negb _); [easy|]. intros [= <-].
  unfold nodes; cbn. rewrite map_map. apply map_ext. intros e.
  destruct (neqb s (e_node e)); [|reflexivity]. now destruct (nmem d (e_kids e)).
Qed.

Lemma NoDup_snoc {A} (l : list A) x : NoDup l -> ~ In x l -> NoDup (l ++ [x]).
Proof.
  induction l as [|a l IHl]; cbn; intros N1 N2; [constructor; [easy|constructor]|].
  inversion N1; subst. constructor.
  - rewrite in_app_iff; cbn. intros [?|[->|[]]]; [easy|]. apply N2; now left.
  - apply IHl; [easy|]. intros ?; apply N2; now right.
Qed.

Lemma wf_add_edge g s d c g' : wf_net g -> add_edge g s d c = Ok g' -> wf_net g'.
Proof.
  intros (ND & ID & WE) H. pose proof (nodes_add_edge _ _ _ _ _ H) as EN.
  unfold add_edge in H. destruct (has_obj g s && has_obj g d) eqn:Ho; cbn [negb] in H; [|easy].
  injection H as <-. apply andb_true_iff in Ho as [Hs Hd]. apply has_obj_In in Hs, Hd.
  split; [|split].
  - now rewrite EN.
  - rewrite EN. exact ID.
  - intros e. cbn [n_edges]. rewrite in_map_iff. intros (e0 & <- & He0).
    destruct (WE _ He0) as (A & B & D). unfold wf_entry. rewrite EN.
    destruct (neqb s (e_node e0)); [|now repeat split].
    destruct (nmem d (e_kids e0)) eqn:M; [now repeat split|].
    cbn [e_kids e_convs]. apply nmem_false in M. repeat split.
    + now apply NoDup_snoc.
    + rewrite !app_length, B. reflexivity.
    + intros k. rewrite in_app_iff. cbn. intros [Hk|[<-|[]]]; [now apply D|exact Hd].
Qed.

Lemma get_node_spec g name n :
  get_node g name = Ok n -> In n (nodes g) /\ nname n = name.
Proof.
  unfold get_node. destruct (find _ _) as [e|] eqn:E; [|easy]. intros [= <-].
  apply find_some in E as [Hin E]. apply seqb_eq in E. split; [now apply in_map|exact E].
Qed.
Lemma get_node_ok g name : (exists n, In n (nodes g) /\ nname n = name) <-> exists n, get_node g name = Ok n.
Proof.
  split.
  - intros (n & (e & <- & He)%in_map_iff & E). unfold get_node.
    destruct (find _ _) as [e'|] eqn:F; [eauto|].
    pose proof (find_none _ _ F e He) as X. cbn in X. rewrite E, seqb_refl in X. easy.
  - intros (n & H). apply get_node_spec in H. eauto.
Qed.
Lemma has_node_spec g name : has_node g name = true <-> exists n, In n (nodes g) /\ nname n = name.
Proof.
  unfold has_node. rewrite existsb_exists. split.
  - intros (e & He & E). apply seqb_eq in E. exists (e_node e). split; [now apply in_map|easy].
  - intros (n & (e & <- & He)%in_map_iff & E). exists e. split; [exact He|]. now apply seqb_eq.
Qed.

Lemma add_edge_ok g s d c : In s (nodes g) -> In d (nodes g) -> exists g', add_edge g s d c = Ok g'.
Proof.
  intros Hs Hd. unfold add_edge. rewrite (proj2 (has_obj_In g s) Hs), (proj2 (has_obj_In g d) Hd).
  cbn. eauto.
Qed.

Lemma wf_set_conversion g a b c rc : wf_net g ->
  exists g1 g2 na nb g3 g', add_new g a = Ok g1 /\ add_new g1 b = Ok g2
   /\ get_node g2 a = Ok na /\ get_node g2 b = Ok nb
   /\ add_edge g2 na nb c = Ok g3 /\ add_edge g3 nb na rc = Ok g'
   /\ set_conversion g a b c rc = Ok g' /\ wf_net g2 /\ wf_net g3 /\ wf_net g'.
Proof.
  intros W. destruct (add_new_ok g a W) as (g1 & E1 & W1 & N1).
  destruct (add_new_ok g1 b W1) as (g2 & E2 & W2 & N2).
  assert (Ha : exists n, get_node g2 a = Ok n).
  { apply get_node_ok. exists (Node (n_next g) a). rewrite N2, N1, !in_app_iff. cbn. auto. }
  assert (Hb : exists n, get_node g2 b = Ok n).
  { apply get_node_ok. exists (Node (n_next g1) b). rewrite N2, in_app_iff. cbn. auto. }
  destruct Ha as (na & Ha), Hb as (nb & Hb).
  pose proof (proj1 (get_node_spec _ _ _ Ha)) as Ia. pose proof (proj1 (get_node_spec _ _ _ Hb)) as Ib.
  destruct (add_edge_ok g2 na nb c Ia Ib) as (g3 & E3).
  pose proof (nodes_add_edge _ _ _ _ _ E3) as N3.
  destruct (add_edge_ok g3 nb na rc) as (g' & E4); [now rewrite N3..|].
  exists g1, g2, na, nb, g3, g'. repeat (split; [assumption|]).
  pose proof (wf_add_edge _ _ _ _ _ W2 E3) as W3.
  pose proof (wf_add_edge _ _ _ _ _ W3 E4) as W4.
  split; [|split; [|split]]; try assumption.
  unfold set_conversion. now rewrite E1; cbn; rewrite E2; cbn; rewrite Ha; cbn; rewrite Hb; cbn; rewrite E3; cbn.
Qed.

Lemma wf_step g o : wf_net g -> wf_net (step_op g o).
Proof.
  intros W. unfold step_op. destruct (run_op g o) as [g'|] eqn:E; [|exact W].
  destruct o; cbn in E.
  - eapply wf_add_node; eassumption.
  - eapply wf_add_node; eassumption.
  - eapply wf_add_edge; eassumption.
  - eapply wf_add_node; eassumption.
  - destruct (wf_set_conversion g a b c rc W) as (g1 & g2 & na & nb & g3 & g4 & _ & _ & _ & _ & _ & _ & E' & _ & _ & W').
    rewrite E' in E. now injection E as <-.
Qed.
Lemma wf_run os : forall g, wf_net g -> wf_net (run_ops g os).
Proof. induction os as [|o os IH]; intros g W; [exact W|]. apply IH, wf_step, W. Qed.

Definition conv_at g s d : option C :=
  match conversion g s d with Ok c => Some c | Err _ => None end.

Lemma first_of_app (l1 l2 : log C) s d :
  first_of (l1 ++ l2) s d = match first_of l1 s d with Some c => Some c | None => first_of l2 s d end.
Proof.
  induction l1 as [|[[a b] c] t IH]; [reflexivity|]. cbn [app first_of].
  now destruct (neqb a s && neqb b d).
Qed.

Lemma find_map_edges (f : entry C -> entry C) n l :
  (forall e, e_node (f e) = e_node e) ->
  find (fun e => neqb n (e_node e)) (map f l) = option_map f (find (fun e => neqb n (e_node e)) l).
Proof.
  intros Hf. induction l as [|e l IH]; [reflexivity|]. cbn [map find]. rewrite Hf.
  now destruct (neqb n (e_node e)).
Qed.

Lemma index_app_l d l x i : index_of d l = Some i -> index_of d (l ++ [x]) = Some i.
Proof.
  revert i. induction l as [|a l IH]; intros i; [easy|]. cbn [index_of app].
  destruct (neqb a d); [auto|]. destruct (index_of d l) as [j|]; [|easy].
  intros [= <-]. now rewrite (IH j eq_refl).
Qed.
Lemma index_None d l : index_of d l = None <-> ~ In d l.
Proof.
  induction l as [|a l IH]; [easy|]. cbn [index_of In]. destruct (neqb a d) eqn:E.
  - apply neqb_eq in E. split; [easy|]. intros H; exfalso; apply H; now left.
  - apply neqb_neq in E. destruct (index_of d l); cbn.
    + split; [easy|]. intros H. exfalso. apply H. right.
      destruct (in_dec node_dec d l) as [I|I]; [exact I|]. apply IH in I. easy.
    + split; [|easy]. intros _ [?|?]; [easy|]. now apply IH.
Qed.
Lemma index_app_r d l x : ~ In d l ->
  index_of d (l ++ [x]) = if neqb x d then Some (length l) else None.
Proof.
  induction l as [|a l IH]; cbn [app index_of In length]; intros H.
  - now destruct (neqb x d).
  - destruct (neqb a d) eqn:E; [apply neqb_eq in E; exfalso; apply H; now left|].
    rewrite IH by (intros ?; apply H; now right). now destruct (neqb x d).
Qed.
Lemma index_bound d l i : index_of d l = Some i -> (i < length l)%nat.
Proof.
  revert i. induction l as [|a l IH]; intros i; [easy|]. cbn [index_of length].
  destruct (neqb a d); [intros [= <-]; lia|]. destruct (index_of d l) as [j|]; [|easy].
  intros [= <-]. specialize (IH _ eq_refl). lia.
Qed.

Lemma conv_at_In g s d c : wf_net g -> conv_at g s d = Some c ->
  exists e, lookup g s = Some e /\ In d (e_kids e).
Proof.
  intros W. unfold conv_at, conversion. destruct (lookup g s) as [e|]; [|easy].
  destruct (index_of d (e_kids e)) as [i|] eqn:E; [|easy]. intros _. exists e. split; [easy|].
  destruct (in_dec node_dec d (e_kids e)) as [I|I]; [easy|]. apply index_None in I. congruence.
Qed.

Lemma conv_at_add_node g n g' s d : wf_net g -> add_node g n = Ok g' -> conv_at g' s d = conv_at g s d.
Proof.
  intros W. unfold add_node. destruct (has_obj g n) eqn:Ho; [easy|]. intros [= <-].
  unfold conv_at, conversion, lookup. cbn [n_edges].
  destruct (find (fun e => neqb s (e_node e)) (n_edges g)) as [e|] eqn:F.
  - assert (H : forall l (x : entry C), find (fun e => neqb s (e_node e)) l = Some e ->
               find (fun e => neqb s (e_node e)) (l ++ [x]) = Some e).
    { induction l as [|y l IHl]; [easy|]. intros x. cbn [find app]. destruct (neqb s (e_node y)); auto. }
    now rewrite (H _ _ F).
  - assert (H : forall l (x : entry C), find (fun e => neqb s (e_node e)) l = None ->
               find (fun e => neqb s (e_node e)) (l ++ [x]) = if neqb s (e_node x) then Some x else None).
    { induction l as [|y l IHl]; intros x; [reflexivity|]. cbn [find app]. destruct (neqb s (e_node y)); [easy|]. apply IHl. }
    rewrite (H _ _ F). cbn [e_node]. now destruct (neqb s n).
Qed.

Lemma conv_at_add_edge g s d c g' s' d' : wf_net g -> add_edge g s d c = Ok g' ->
  conv_at g' s' d' = match conv_at g s' d' with
                     | Some x => Some x
                     | None => if neqb s s' && neqb d d' then Some c else None
                     end.
Proof.
  intros W. unfold add_edge. destruct (has_obj g s && has_obj g d) eqn:Ho; cbn [negb]; [|easy].
  intros [= <-]. apply andb_true_iff in Ho as [Hs Hd]. apply has_obj_In in Hs.
  unfold conv_at, conversion, lookup. cbn [n_edges].
  rewrite find_map_edges.
  2:{ intros e. destruct (neqb s (e_node e)); [|reflexivity]. now destruct (nmem d (e_kids e)). }
  fold (lookup g s').
  destruct (lookup g s') as [e|] eqn:L; cbn [option_map].
  - pose proof L as L'. apply lookup_In in L' as [Hin En].
    destruct W as (ND & ID & WE). destruct (WE _ Hin) as (A & B & D). rewrite En.
    destruct (neqb s s') eqn:Es; cbn [andb].
    2:{ destruct (index_of d' (e_kids e)); [|reflexivity]. now destruct (nth_error (e_convs e) n). }
    destruct (nmem d (e_kids e)) eqn:M.
    + destruct (index_of d' (e_kids e)) as [i|] eqn:I.
      * destruct (nth_error (e_convs e) i) eqn:Nth; [reflexivity|].
        apply nth_error_None in Nth. apply index_bound in I. lia.
      * apply index_None in I. destruct (neqb d d') eqn:Ed; [|reflexivity].
        apply neqb_eq in Ed. subst. apply nmem_In in M. easy.
    + cbn [e_kids e_convs]. destruct (index_of d' (e_kids e)) as [i|] eqn:I.
      * rewrite (index_app_l _ _ _ _ I). pose proof (index_bound _ _ _ I) as Bi.
        rewrite nth_error_app1 by lia.
        destruct (nth_error (e_convs e) i) eqn:Nth; [reflexivity|].
        apply nth_error_None in Nth. lia.
      * apply index_None in I. rewrite (index_app_r _ _ _ I). destruct (neqb d d') eqn:Ed; [|reflexivity].
        rewrite nth_error_app2 by lia. rewrite B, Nat.sub_diag. reflexivity.
  - destruct (neqb s s') eqn:Es; cbn [andb]; [|reflexivity]. apply neqb_eq in Es. subst s'.
    apply lookup_None in L. easy.
Qed.

Lemma get_node_add g n g' name : add_node g n = Ok g' ->
  get_node g' name = match get_node g name with Ok m => Ok m
                     | Err _ => if seqb (nname n) name then Ok n else Err NameError end.
Proof.
  unfold add_node. destruct (has_obj g n); [easy|]. intros [= <-]. unfold get_node. cbn [n_edges].
  induction (n_edges g) as [|e l IH]; cbn [find app e_node].
  - now destruct (seqb (nname n) name).
  - destruct (seqb (nname (e_node e)) name); [reflexivity|exact IH].
Qed.

Lemma n_next_add_new g name g' : add_new g name = Ok g' -> n_next g' = n_next g + 1.
Proof.
  unfold add_new, add_node. destruct (has_obj _ _); [easy|]. intros [= <-]. cbn [n_next nid]. lia.
Qed.

Lemma conv_at_step g o s d : wf_net g ->
  conv_at (step_op g o) s d = match conv_at g s d with Some x => Some x | None => first_of (asked g o) s d end.
Proof.
  intros W.
  assert (Hnil : match conv_at g s d with Some x => Some x | None => None end = conv_at g s d)
    by (now destruct (conv_at g s d)).
  unfold step_op. destruct o as [n|name|a b c|name|a b c rc]; cbn [run_op asked first_of].
  - rewrite Hnil. destruct (add_node g n) as [g'|] eqn:E; [|reflexivity]. eapply conv_at_add_node; eassumption.
  - rewrite Hnil. unfold add_new. destruct (add_node g _) as [g'|] eqn:E; [|reflexivity]. eapply conv_at_add_node; eassumption.
  - destruct (add_edge g a b c) as [g'|] eqn:E.
    + rewrite (conv_at_add_edge _ _ _ _ _ s d W E).
      unfold add_edge in E. destruct (has_obj g a && has_obj g b); cbn in E; [|easy]. reflexivity.
    + unfold add_edge in E. destruct (has_obj g a && has_obj g b); cbn in E; [easy|]. cbn [first_of]; now rewrite Hnil.
  - rewrite Hnil. unfold set_unit, add_new. destruct (add_node g _) as [g'|] eqn:E; [|reflexivity]. eapply conv_at_add_node; eassumption.
  - destruct (wf_set_conversion g a b c rc W) as
      (g1 & g2 & na & nb & g3 & g4 & E1 & E2 & E3 & E4 & E5 & E6 & E7 & W2 & W3 & W4).
    rewrite E7. rewrite (conv_at_add_edge _ _ _ _ _ s d W3 E6), (conv_at_add_edge _ _ _ _ _ s d W2 E5).
    destruct (add_new_ok g a W) as (g1' & E1' & W1 & _). rewrite E1 in E1'. injection E1' as <-.
    unfold add_new in E1, E2.
    rewrite (conv_at_add_node _ _ _ s d W1 E2), (conv_at_add_node _ _ _ s d W E1).
    rewrite (get_node_add _ _ _ a E2), (get_node_add _ _ _ a E1) in E3.
    rewrite (get_node_add _ _ _ b E2), (get_node_add _ _ _ b E1) in E4.
    rewrite (n_next_add_new g a g1 E1) in E3, E4 || idtac. cbn [nname] in E3, E4.
    assert (Ea : na = match get_node g a with Ok n => n | Err _ => Node (n_next g) a end).
    { destruct (get_node g a); [now injection E3|].
      rewrite seqb_refl in E3. now injection E3. }
    assert (Eb : nb = match get_node g b with Ok n => n | Err _ => if seqb a b then na else Node (n_next g + 1) b end).
    { destruct (get_node g b) as [y|] eqn:Gb; [now injection E4|].
      destruct (seqb a b) eqn:Eab.
      - apply seqb_eq in Eab. subst b. rewrite Gb in Ea. injection E4 as <-. symmetry. exact Ea.
      - rewrite seqb_refl in E4. now injection E4. }
    rewrite <- Ea. rewrite <- Eb.
    destruct (conv_at g s d); [reflexivity|].
    destruct (neqb na s && neqb nb d); reflexivity.
Qed.

Lemma conv_at_run os : forall g s d, wf_net g ->
  conv_at (run_ops g os) s d = match conv_at g s d with Some x => Some x | None => first_of (asked_all g os) s d end.
Proof.
  induction os as [|o os IH]; intros g s d W; cbn [run_ops fold_left asked_all].
  - cbn. now destruct (conv_at g s d).
  - change (fold_left step_op os (step_op g o)) with (run_ops (step_op g o) os).
    rewrite IH by (now apply wf_step). rewrite conv_at_step by exact W. rewrite first_of_app.
    now destruct (conv_at g s d).
Qed.

Lemma children_conv g s : wf_net g -> forall ks, children_of g s = Ok ks ->
  forall d, In d ks <-> exists c, conv_at g s d = Some c.
Proof.
  intros (ND & ID & WE) ks Hk d. unfold children_of in Hk. unfold conv_at, conversion.
  destruct (lookup g s) as [e|] eqn:L; [|easy]. injection Hk as <-.
  apply lookup_In in L as [Hin _]. destruct (WE _ Hin) as (A & B & D). split.
  - intros Hd. destruct (index_of d (e_kids e)) as [i|] eqn:I; [|now apply index_None in I].
    pose proof (index_bound _ _ _ I). destruct (nth_error (e_convs e) i) eqn:Nth; [eauto|].
    apply nth_error_None in Nth. lia.
  - intros (c & Hc). destruct (in_dec node_dec d (e_kids e)) as [X|X]; [exact X|].
    apply index_None in X. now rewrite X in Hc.
Qed.
End Facts.
