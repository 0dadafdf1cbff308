(** * A faster execution of the loader, proved to give the same network

    Model plumbing: nothing here stands for code of /repo.  Only used to compute the
    shipped network of [Database] (database.py:90-829): names are looked up in a hash
    table instead of by scanning the nodes, and the last theorem says the result is the same. *)
From Coq Require Import String QArith FMapPositive.
From Verif Require Import Py StrTools Network SearchSpec NetworkFacts Conv NetFacts2 Dict Database.
Local Open Scope N_scope.

(** ** Hash tables on names *)
Definition hash (s : str) : positive := N.succ_pos (fold_left (fun h c => (h * 2 + c) mod 4096) s 0).
Definition htab A := PositiveMap.t (list (str * A)).
Definition hget {A} (k : str) (m : htab A) : option A :=
  match PositiveMap.find (hash k) m with Some l => dget k l | None => None end.
Definition hset {A} (k : str) (v : A) (m : htab A) : htab A :=
  PositiveMap.add (hash k) (dset k v (match PositiveMap.find (hash k) m with Some l => l | None => [] end)) m.
Definition hempty {A} : htab A := PositiveMap.empty _.
Lemma dget_dset {A} k k' (v : A) d : dget k (dset k' v d) = if seqb k k' then Some v else dget k d.
Proof.
  induction d as [|[x y] d IH]; cbn [dset dget].
  - destruct (seqb k k') eqn:E; reflexivity.
  - destruct (seqb k' x) eqn:E1; cbn [dget].
    + apply seqb_eq in E1. subst x. destruct (seqb k k'); reflexivity.
    + rewrite IH. destruct (seqb k x) eqn:E2; [|reflexivity]. apply seqb_eq in E2. subst x.
      destruct (seqb k k') eqn:E3; [|reflexivity]. apply seqb_eq in E3. subst k'. rewrite seqb_refl in E1. discriminate.
Qed.
Lemma hget_hset {A} k k' (v : A) m : hget k (hset k' v m) = if seqb k k' then Some v else hget k m.
Proof.
  unfold hget, hset. destruct (Pos.eq_dec (hash k) (hash k')) as [E|E].
  - rewrite <- E, PositiveMap.gss, dget_dset. destruct (PositiveMap.find (hash k) m); [reflexivity|].
    destruct (seqb k k'); reflexivity.
  - rewrite PositiveMap.gso by exact E. destruct (seqb k k') eqn:Es; [|reflexivity]. apply seqb_eq in Es. subst k'. congruence.
Qed.
Lemma hget_empty {A} k : hget k (@hempty A) = None.
Proof. unfold hget, hempty. now rewrite PositiveMap.gempty. Qed.

Section Fast.
Context {V : Type}.
Notation conv := (conv V).
(** identity of the first node, and its edges, latest first *)
Definition cell := (N * list (node * conv))%type.
Record fast := Fast { f_next : N; f_names : list str; f_tab : htab cell; f_kinds : list (str * list str) }.
Definition fast_node (f : fast) (n : str) : fast :=
  match hget n (f_tab f) with
  | Some _ => Fast (f_next f + 1) (f_names f) (f_tab f) (f_kinds f)
  | None => Fast (f_next f + 1) (n :: f_names f) (hset n (f_next f, []) (f_tab f)) (f_kinds f)
  end.
Definition fast_edge (f : fast) (a b : str) (c : conv) : option fast :=
  match hget a (f_tab f), hget b (f_tab f) with
  | Some (i, l), Some (j, _) =>
      if existsb (fun x => neqb (Node j b) (fst x)) l then Some f
      else Some (Fast (f_next f) (f_names f) (hset a (i, (Node j b, c) :: l) (f_tab f)) (f_kinds f))
  | _, _ => None
  end.
Definition fast_exec (f : fast) (s : stmt V) : option fast :=
  match s with
  | SNode n => Some (fast_node f n)
  | SEdge a b c => fast_edge f a b c
  | SKind k n => match dget k (f_kinds f) with
                 | Some l => Some (Fast (f_next f) (f_names f) (f_tab f) (dset k (n :: l) (f_kinds f)))
                 | None => None
                 end
  end.
Fixpoint fast_all (l : list (stmt V)) (f : fast) : option fast :=
  match l with [] => Some f | s :: t => match fast_exec f s with Some f' => fast_all t f' | None => None end end.
Fixpoint fast_rev (i : N) (a : str) (l : list (node * conv)) (f : fast) : option fast :=
  match l with
  | [] => Some f
  | (b, c) :: t =>
      if neqb (Node i a) b then fast_rev i a t f
      else match hget (nname b) (f_tab f) with
           | Some (j, _) => if j =? nid b then
               match fast_edge f (nname b) a (get_convert c true) with Some f' => fast_rev i a t f' | None => None end
               else None
           | None => None
           end
  end.
Definition fast_rev_name (f : fast) (n : str) : option fast :=
  match hget n (f_tab f) with Some (i, l) => fast_rev i n (rev l) f | None => None end.
Fixpoint fast_revs (l : list str) (f : fast) : option fast :=
  match l with [] => Some f | n :: t => match fast_rev_name f n with Some f' => fast_revs t f' | None => None end end.

(** the result *)
Definition ent (f : fast) (n : str) : entry conv :=
  match hget n (f_tab f) with
  | Some (i, l) => Entry (Node i n) (map fst (rev l)) (map snd (rev l))
  | None => Entry (Node 0 n) [] []
  end.
Definition ents (f : fast) : list (entry conv) := map (ent f) (rev (f_names f)).
Definition kinds_of (f : fast) : list (str * list str) := map (fun kl : str * list str => let (k, l) := kl in (k, rev l)) (f_kinds f).

(** ** Names that occur again *)
Definition ename (e : entry conv) : str := nname (e_node e).
Fixpoint firsts (seen : list str) (l : list (entry conv)) : list (entry conv) :=
  match l with
  | [] => []
  | e :: t => if smem (ename e) seen then firsts seen t else e :: firsts (ename e :: seen) t
  end.
Fixpoint seconds (seen : list str) (l : list (entry conv)) : list (entry conv) :=
  match l with
  | [] => []
  | e :: t => if smem (ename e) seen then e :: seconds seen t else seconds (ename e :: seen) t
  end.
Definition vacant (e : entry conv) : Prop := e_kids e = [] /\ e_convs e = [].
Lemma firsts_map h : (forall e, e_node (h e) = e_node e) -> forall l seen, firsts seen (map h l) = map h (firsts seen l).
Proof.
  intros H. induction l as [|e t IH]; intros seen; [reflexivity|]. cbn [map firsts]. unfold ename. rewrite H. fold (ename e).
  destruct (smem (ename e) seen); [apply IH|]. cbn [map]. f_equal. apply IH.
Qed.
Lemma seconds_map h : (forall e, e_node (h e) = e_node e) -> forall l seen, seconds seen (map h l) = map h (seconds seen l).
Proof.
  intros H. induction l as [|e t IH]; intros seen; [reflexivity|]. cbn [map seconds]. unfold ename. rewrite H. fold (ename e).
  destruct (smem (ename e) seen); [cbn [map]; f_equal|]; apply IH.
Qed.
Lemma seconds_incl l : forall seen, incl (seconds seen l) l.
Proof.
  induction l as [|e t IH]; intros seen; cbn [seconds]; [apply incl_refl|].
  destruct (smem (ename e) seen); [|apply incl_tl, IH]. intros x [-> |H]; [now left|right; eapply IH; exact H].
Qed.
Definition named (n : str) (e : entry conv) : bool := seqb (nname (e_node e)) n.
Lemma find_firsts n l : forall seen, smem n seen = false -> find (named n) (firsts seen l) = find (named n) l.
Proof.
  induction l as [|e t IH]; intros seen H; [reflexivity|]. cbn [firsts find]. destruct (named n e) eqn:E.
  - pose proof E as E'. apply seqb_eq in E'. fold (ename e) in E'. rewrite E', H. cbn [find]. now rewrite E.
  - destruct (smem (ename e) seen); [now apply IH|]. cbn [find]. rewrite E. apply IH. unfold smem in *. cbn [existsb]. rewrite H, orb_false_r.
    destruct (seqb n (ename e)) eqn:K; [|reflexivity]. apply seqb_eq in K. subst n. unfold named, ename in E. rewrite seqb_refl in E. discriminate.
Qed.
Lemma filter_firsts p l : (forall e, vacant e -> p e = false) -> forall seen, Forall vacant (seconds seen l) -> filter p (firsts seen l) = filter p l.
Proof.
  intros Hp. induction l as [|e t IH]; intros seen H; [reflexivity|]. cbn [firsts seconds filter] in *.
  destruct (smem (ename e) seen).
  - inversion H as [|? ? H1 H2]; subst. rewrite (Hp e H1). now apply IH.
  - cbn [filter]. rewrite IH by exact H. reflexivity.
Qed.
Lemma firsts_app l e : forall seen, firsts seen (l ++ [e]) =
  firsts seen l ++ (if smem (ename e) (seen ++ map ename l) then [] else [e]).
Proof.
  induction l as [|x t IH]; intros seen; cbn [app firsts map].
  - rewrite app_nil_r. destruct (smem (ename e) seen); reflexivity.
  - assert (K : smem (ename e) (seen ++ ename x :: map ename t) = smem (ename e) ((ename x :: seen) ++ map ename t)).
    { apply eq_iff_eq_true. unfold smem. rewrite !existsb_exists. split; intros (y & Hy & E); exists y; (split; [|exact E]);
      rewrite in_app_iff in *; cbn in *; tauto. }
    destruct (smem (ename x) seen) eqn:Es.
    + rewrite IH. f_equal. assert (K2 : smem (ename e) (seen ++ map ename t) = smem (ename e) (seen ++ ename x :: map ename t)); [|now rewrite K2].
      apply eq_iff_eq_true. unfold smem in *. rewrite !existsb_exists. split; intros (y & Hy & E).
      * exists y. split; [|exact E]. rewrite in_app_iff in *. cbn. tauto.
      * apply in_app_iff in Hy as [Hy|[Hy|Hy]].
        -- exists y. rewrite in_app_iff. tauto.
        -- subst y. apply existsb_exists in Es as (z & Hz & Ez). apply seqb_eq in Ez. subst z. exists (ename x). rewrite in_app_iff. tauto.
        -- exists y. rewrite in_app_iff. tauto.
    + rewrite K, IH. reflexivity.
Qed.
Lemma seconds_app l e : forall seen, Forall vacant (seconds seen l) -> vacant e -> Forall vacant (seconds seen (l ++ [e])).
Proof.
  induction l as [|x t IH]; intros seen H He; cbn [app seconds] in *.
  - destruct (smem (ename e) seen); repeat constructor; apply He.
  - destruct (smem (ename x) seen); [inversion H; subst; constructor; auto|auto].
Qed.
(** an entry that occurs among the firsts does not occur among the seconds *)
Lemma firsts_incl l : forall seen, incl (firsts seen l) l.
Proof.
  induction l as [|e t IH]; intros seen; cbn [firsts]; [apply incl_refl|].
  destruct (smem (ename e) seen); [apply incl_tl, IH|]. intros x [-> |H]; [now left|right; eapply IH; exact H].
Qed.
Lemma first_not_second l : NoDup (map e_node l) -> forall seen a b, In a (firsts seen l) -> In b (seconds seen l) -> e_node a <> e_node b.
Proof.
  induction l as [|e t IH]; intros H seen a b Ha Hb; [easy|]. cbn [map] in H. inversion H as [|? ? H1 H2]; subst. cbn [firsts seconds] in Ha, Hb.
  assert (I : forall x s, In x (firsts s t) \/ In x (seconds s t) -> e_node x <> e_node e).
  { intros x s Hx K. apply H1. rewrite <- K. apply in_map. destruct Hx as [Hx|Hx]; [eapply firsts_incl|eapply seconds_incl]; exact Hx. }
  destruct (smem (ename e) seen).
  - destruct Hb as [<- |Hb]; [apply (I a seen); auto|]. exact (IH H2 seen a b Ha Hb).
  - destruct Ha as [<- |Ha]; [|exact (IH H2 _ a b Ha Hb)]. intros K. symmetry in K. revert K. apply (I b (ename e :: seen)). auto.
Qed.

(** ** The invariant *)
Record same (g : net conv) (f : fast) : Prop := {
  sm_wf : wf_net g;
  sm_next : n_next g = f_next f;
  sm_nodup : NoDup (f_names f);
  sm_in : forall n, In n (f_names f) <-> hget n (f_tab f) <> None;
  sm_first : firsts [] (n_edges g) = ents f;
  sm_second : Forall vacant (seconds [] (n_edges g)) }.

Lemma find_ents f n : (forall n, In n (f_names f) <-> hget n (f_tab f) <> None) ->
  find (named n) (ents f) = match hget n (f_tab f) with Some _ => Some (ent f n) | None => None end.
Proof.
  intros H. unfold ents. assert (K : forall l, find (named n) (map (ent f) l) = if smem n l then Some (ent f n) else None).
  { induction l as [|x l IH]; [reflexivity|]. cbn [map find smem existsb].
    assert (E : named n (ent f x) = seqb n x).
    { unfold named, ent. replace (nname (e_node match hget x (f_tab f) with Some (i, l) => _ | None => _ end)) with x
        by (destruct (hget x (f_tab f)) as [[? ?]|]; reflexivity).
      apply eq_iff_eq_true. rewrite !seqb_eq. split; auto. }
    rewrite E. destruct (seqb n x) eqn:En; [apply seqb_eq in En; now subst|]. exact IH. }
  rewrite K. specialize (H n). rewrite (in_rev (f_names f)), <- smem_In in H.
  destruct (smem n (rev (f_names f))); destruct (hget n (f_tab f)); try reflexivity; destruct H as [H1 H2].
  - exfalso. now apply H1.
  - discriminate H2. easy.
Qed.
Lemma same_get g f n : same g f -> get_node g n = match hget n (f_tab f) with Some (i, _) => Ok (Node i n) | None => Err NameError end.
Proof.
  intros S. unfold get_node. change (fun e => seqb (nname (e_node e)) n) with (named n).
  rewrite <- (find_firsts n (n_edges g) [] eq_refl), (sm_first _ _ S), find_ents by apply S.
  unfold ent. destruct (hget n (f_tab f)) as [[i l]|]; reflexivity.
Qed.
Lemma same_node_in g f n : same g f -> smem n (map ename (n_edges g)) = match hget n (f_tab f) with Some _ => true | None => false end.
Proof.
  intros S. pose proof (same_get g f n S) as H. destruct (hget n (f_tab f)) as [[i l]|].
  - apply get_node_spec in H as [H1 H2]. apply smem_In, in_map_iff. unfold nodes in H1. apply in_map_iff in H1 as (e & H1 & He). exists e. unfold ename. rewrite H1. auto.
  - apply not_true_is_false. intros K. apply smem_In, in_map_iff in K as (e & K1 & K2).
    destruct (proj1 (get_node_ok g n)) as (x & Hx); [|congruence]. exists (e_node e). split; [apply in_map, K2|exact K1].
Qed.

Lemma same_node g f n : same g f -> exists g', add_new g n = Ok g' /\ same g' (fast_node f n).
Proof.
  intros S. destruct (add_new_ok g n (sm_wf _ _ S)) as (g' & E & W & _). exists g'. split; [exact E|].
  pose proof (n_next_add_new g n g' E) as Hn. pose proof (same_node_in g f n S) as Hm.
  assert (Eg : n_edges g' = n_edges g ++ [Entry (Node (n_next g) n) [] []]).
  { unfold add_new, add_node in E. destruct (has_obj g _); [discriminate|]. injection E as <-. reflexivity. }
  assert (F : firsts [] (n_edges g') = ents f ++ (if match hget n (f_tab f) with Some _ => true | None => false end then [] else [Entry (Node (f_next f) n) [] []])).
  { rewrite Eg, firsts_app, (sm_first _ _ S). f_equal. cbn [Datatypes.app]. unfold ename at 1. cbn [e_node nname].
    rewrite Hm, (sm_next _ _ S). reflexivity. }
  assert (Hs : Forall vacant (seconds [] (n_edges g'))).
  { rewrite Eg. apply seconds_app; [apply S|split; reflexivity]. }
  unfold fast_node. destruct (hget n (f_tab f)) as [c|] eqn:Eh.
  - split; cbn [f_next f_names f_tab]; try apply S; try assumption.
    + now rewrite Hn, (sm_next _ _ S).
    + rewrite F, app_nil_r. reflexivity.
  - assert (Hi : ~ In n (f_names f)) by (rewrite (sm_in _ _ S), Eh; auto).
    split; cbn [f_next f_names f_tab]; try assumption.
    + now rewrite Hn, (sm_next _ _ S).
    + constructor; [exact Hi|apply S].
    + intros x. rewrite hget_hset. cbn [In]. destruct (seqb x n) eqn:Ex.
      * apply seqb_eq in Ex. subst x. split; [discriminate|auto].
      * rewrite <- (sm_in _ _ S x). split; [|auto]. intros [<- |H]; [rewrite seqb_refl in Ex; discriminate|exact H].
    + rewrite F. unfold ents. cbn [f_names rev]. rewrite map_app. cbn [map]. f_equal.
      * apply map_ext_in. intros x Hx. unfold ent. cbn [f_tab]. rewrite hget_hset. destruct (seqb x n) eqn:Ex; [|reflexivity].
        apply seqb_eq in Ex. subst x. exfalso. apply Hi. now apply in_rev.
      * unfold ent. cbn [f_tab]. rewrite hget_hset, seqb_refl. reflexivity.
Qed.

Lemma same_add_edge g f a b c i j l x f' : same g f -> hget a (f_tab f) = Some (i, l) -> hget b (f_tab f) = Some (j, x) ->
  fast_edge f a b c = Some f' -> exists g', add_edge g (Node i a) (Node j b) c = Ok g' /\ same g' f'.
Proof.
  intros S Ha Hb E. unfold fast_edge in E. rewrite Ha, Hb in E.
  pose proof (same_get g f a S) as Ga. pose proof (same_get g f b S) as Gb. rewrite Ha in Ga. rewrite Hb in Gb.
  apply get_node_spec in Ga as [Ia _]. apply get_node_spec in Gb as [Ib _].
  destruct (add_edge_ok g (Node i a) (Node j b) c Ia Ib) as (g' & Eg). exists g'. split; [exact Eg|].
  pose proof (wf_add_edge _ _ _ _ _ (sm_wf _ _ S) Eg) as W. unfold add_edge in Eg.
  rewrite (proj2 (has_obj_In g _) Ia), (proj2 (has_obj_In g _) Ib) in Eg. cbn [andb negb] in Eg. injection Eg as <-.
  set (h := fun e : entry conv => if neqb (Node i a) (e_node e) then _ else _) in *.
  assert (Hh : forall e, e_node (h e) = e_node e).
  { intros e. unfold h. destruct (neqb _ _); [|reflexivity]. destruct (nmem _ _); reflexivity. }
  set (f2 := if existsb (fun x => neqb (Node j b) (fst x)) l then f
             else Fast (f_next f) (f_names f) (hset a (i, (Node j b, c) :: l) (f_tab f)) (f_kinds f)).
  assert (f' = f2) as -> by (unfold f2; destruct (existsb _ l); congruence).
  assert (Hent : forall n, ent f2 n = h (ent f n)).
  { intros n. unfold h, f2, ent. destruct (hget n (f_tab f)) as [[i' l']|] eqn:En; cbn [e_node e_kids e_convs].
    - destruct (neqb (Node i a) (Node i' n)) eqn:Eq.
      + apply neqb_eq in Eq. injection Eq as E1 E2. subst i' n. assert (l' = l) as -> by congruence. unfold nmem.
        assert (Ek : existsb (neqb (Node j b)) (map fst (rev l)) = existsb (fun x => neqb (Node j b) (fst x)) l).
        { apply eq_iff_eq_true. rewrite !existsb_exists. split; intros (y & H1 & H2).
          - apply in_map_iff in H1 as (z & <- & Hz). exists z. split; [now apply in_rev|exact H2].
          - exists (fst y). split; [apply in_map; now apply -> in_rev|exact H2]. }
        rewrite Ek. destruct (existsb _ l); cbn [f_tab]; [now rewrite En|].
        rewrite hget_hset, seqb_refl. cbn [rev]. now rewrite !map_app.
      + destruct (existsb _ l); cbn [f_tab]; [now rewrite En|]. rewrite hget_hset. destruct (seqb n a) eqn:Es; [|now rewrite En].
        apply seqb_eq in Es. subst n. rewrite Ha in En. injection En as <- <-. rewrite neqb_refl in Eq. discriminate.
    - assert (Na : seqb n a = false) by (destruct (seqb n a) eqn:Es; [apply seqb_eq in Es; congruence|reflexivity]).
      assert (Nn : neqb (Node i a) (Node 0 n) = false).
      { apply neqb_neq. intros K. injection K as _ <-. rewrite seqb_refl in Na. discriminate. }
      rewrite Nn. destruct (existsb _ l); cbn [f_tab]; [now rewrite En|]. rewrite hget_hset, Na, En. reflexivity. }
  assert (Hnm : f_names f2 = f_names f /\ f_next f2 = f_next f) by (unfold f2; destruct (existsb _ l); auto).
  destruct Hnm as [Hnm Hnx]. split.
  - exact W.
  - cbn [n_next]. rewrite Hnx. apply S.
  - rewrite Hnm. apply S.
  - rewrite Hnm. intros n. rewrite (sm_in _ _ S n). unfold f2. destruct (existsb _ l); cbn [f_tab]; [reflexivity|].
    rewrite hget_hset. destruct (seqb n a) eqn:Es; [|reflexivity]. apply seqb_eq in Es. subst n. rewrite Ha. split; discriminate.
  - cbn [n_edges]. rewrite firsts_map by exact Hh. rewrite (sm_first _ _ S). unfold ents. rewrite Hnm, map_map. apply map_ext. intros n. symmetry. apply Hent.
  - cbn [n_edges]. rewrite seconds_map by exact Hh. apply Forall_map. pose proof (sm_second _ _ S) as Hs. rewrite Forall_forall in *.
    intros e He. specialize (Hs e He). unfold h. destruct (neqb (Node i a) (e_node e)) eqn:Eq; [|exact Hs]. exfalso.
    apply neqb_eq in Eq. assert (Hf : In (ent f a) (firsts [] (n_edges g))).
    { rewrite (sm_first _ _ S). unfold ents. apply in_map. apply -> in_rev. apply (sm_in _ _ S). now rewrite Ha. }
    revert Eq. change (Node i a) with (e_node (Entry (Node i a) (map fst (rev l)) (map snd (rev l)))).
    assert (Ee : ent f a = Entry (Node i a) (map fst (rev l)) (map snd (rev l))) by (unfold ent; now rewrite Ha).
    rewrite <- Ee. apply (first_not_second (n_edges g) (proj1 (sm_wf _ _ S)) [] _ _ Hf He).
Qed.
Lemma fast_edge_some f a b c f' : fast_edge f a b c = Some f' -> exists i j l x, hget a (f_tab f) = Some (i, l) /\ hget b (f_tab f) = Some (j, x).
Proof.
  unfold fast_edge. destruct (hget a (f_tab f)) as [[i l]|]; [|discriminate]. destruct (hget b (f_tab f)) as [[j x]|]; [|discriminate].
  intros _. exists i, j, l, x. auto.
Qed.
Lemma fast_edge_kinds f a b c f' : fast_edge f a b c = Some f' -> f_kinds f' = f_kinds f.
Proof.
  unfold fast_edge. destruct (hget a (f_tab f)) as [[i l]|]; [|discriminate]. destruct (hget b (f_tab f)) as [[j x]|]; [|discriminate].
  destruct (existsb _ l); intros [= <-]; reflexivity.
Qed.
Lemma dget_rev k (d : list (str * list str)) : dget k (map (fun kl : str * list str => let (k, l) := kl in (k, rev l)) d) = option_map (@rev str) (dget k d).
Proof. induction d as [|[x l] d IH]; [reflexivity|]. cbn [map dget]. destruct (seqb k x); [reflexivity|exact IH]. Qed.
Lemma dset_rev k (v : list str) d : map (fun kl : str * list str => let (k, l) := kl in (k, rev l)) (dset k v d)
  = dset k (rev v) (map (fun kl : str * list str => let (k, l) := kl in (k, rev l)) d).
Proof. induction d as [|[x l] d IH]; [reflexivity|]. cbn [map dset]. destruct (seqb k x); cbn [map]; [reflexivity|now rewrite IH]. Qed.

Lemma fast_exec_sound d f s f' : same (db_net d) f -> db_kinds d = kinds_of f -> fast_exec f s = Some f' ->
  exists d', exec d s = Ok d' /\ same (db_net d') f' /\ db_kinds d' = kinds_of f'.
Proof.
  intros S K E. destruct s as [n|a b c|k n]; cbn [fast_exec exec] in *.
  - injection E as <-. destruct (same_node _ _ n S) as (g' & Eg & S'). rewrite Eg. cbn [rbind]. eexists. split; [reflexivity|].
    split; [exact S'|]. cbn [db_kinds]. rewrite K. unfold fast_node, kinds_of. destruct (hget n (f_tab f)); reflexivity.
  - destruct (fast_edge_some _ _ _ _ _ E) as (i & j & l & x & Ha & Hb).
    destruct (same_add_edge _ _ _ _ _ _ _ _ _ _ S Ha Hb E) as (g' & Eg & S').
    unfold add_named_edge. rewrite (same_get _ _ _ S), Ha. cbn [rbind]. rewrite (same_get _ _ _ S), Hb. cbn [rbind]. rewrite Eg. cbn [rbind].
    eexists. split; [reflexivity|]. split; [exact S'|]. cbn [db_kinds]. rewrite K. unfold kinds_of. now rewrite (fast_edge_kinds _ _ _ _ _ E).
  - destruct (dget k (f_kinds f)) as [l|] eqn:El; [|discriminate]. injection E as <-.
    rewrite K. unfold kinds_of. rewrite dget_rev, El. cbn [option_map]. eexists. split; [reflexivity|]. cbn [db_net db_kinds f_kinds].
    split; [destruct S; split; assumption|]. rewrite dset_rev. reflexivity.
Qed.
Lemma fast_all_sound l : forall d f f', same (db_net d) f -> db_kinds d = kinds_of f -> fast_all l f = Some f' ->
  exists d', exec_all l d = Ok d' /\ same (db_net d') f' /\ db_kinds d' = kinds_of f'.
Proof.
  induction l as [|s t IH]; intros d f f' S K E; cbn [fast_all exec_all] in *.
  - injection E as <-. exists d. auto.
  - destruct (fast_exec f s) as [f1|] eqn:E1; [|discriminate]. destruct (fast_exec_sound d f s f1 S K E1) as (d1 & -> & S1 & K1).
    cbn [rbind]. exact (IH d1 f1 f' S1 K1 E).
Qed.
Lemma fast_rev_sound i a l : forall g f f' x, same g f -> hget a (f_tab f) = Some (i, x) -> fast_rev i a l f = Some f' ->
  exists g', reverse_edges (Node i a) l g = Ok g' /\ same g' f' /\ f_kinds f' = f_kinds f.
Proof.
  induction l as [|[b c] t IH]; intros g f f' x S Ha E; cbn [fast_rev reverse_edges] in *.
  - injection E as <-. exists g. auto.
  - destruct (neqb (Node i a) b) eqn:Eb; [exact (IH g f f' x S Ha E)|].
    destruct (hget (nname b) (f_tab f)) as [[j y]|] eqn:Hb; [|discriminate]. destruct (j =? nid b) eqn:Ej; [|discriminate]. apply N.eqb_eq in Ej. subst j.
    destruct (fast_edge f (nname b) a (get_convert c true)) as [f1|] eqn:E1; [|discriminate].
    destruct (same_add_edge _ _ _ _ _ _ _ _ _ _ S Hb Ha E1) as (g1 & Eg & S1).
    assert (Bn : Node (nid b) (nname b) = b) by (destruct b; reflexivity). rewrite Bn in Eg. rewrite Eg. cbn [rbind].
    assert (Ha1 : exists x', hget a (f_tab f1) = Some (i, x')).
    { unfold fast_edge in E1. rewrite Hb, Ha in E1. destruct (existsb _ y); injection E1 as <-; [eauto|]. cbn [f_tab]. rewrite hget_hset.
      destruct (seqb a (nname b)) eqn:Es; [|eauto]. apply seqb_eq in Es. rewrite Es in Ha. rewrite Hb in Ha. injection Ha as <- _. eauto. }
    destruct Ha1 as (x' & Ha1). destruct (IH g1 f1 f' x' S1 Ha1 E) as (g' & H1 & H2 & H3). exists g'. rewrite H3. split; [exact H1|]. split; [exact H2|].
    exact (fast_edge_kinds _ _ _ _ _ E1).
Qed.
Lemma firsts_lookup l seen e : NoDup (map e_node l) -> In e (firsts seen l) -> find (fun x => neqb (e_node e) (e_node x)) l = Some e.
Proof.
  intros H He. apply firsts_incl in He. revert H He. clear seen. induction l as [|x l IH]; intros H He; [easy|]. cbn [find map] in *.
  inversion H as [|? ? H1 H2]; subst. destruct He as [<- |He]; [now rewrite neqb_refl|].
  destruct (neqb (e_node e) (e_node x)) eqn:E; [|now apply IH]. exfalso. apply neqb_eq in E. apply H1. rewrite <- E. now apply in_map.
Qed.
Lemma combine_split {X Y} (l : list (X * Y)) : combine (map fst l) (map snd l) = l.
Proof. induction l as [|[x y] l IH]; cbn; [reflexivity|now rewrite IH]. Qed.
Lemma fast_rev_name_sound g f n f' : same g f -> fast_rev_name f n = Some f' ->
  exists g', reverse_name g n = Ok g' /\ same g' f' /\ f_kinds f' = f_kinds f.
Proof.
  intros S E. unfold fast_rev_name in E. destruct (hget n (f_tab f)) as [[i l]|] eqn:Hn; [|discriminate].
  unfold reverse_name. rewrite (same_get _ _ _ S), Hn. cbn [rbind].
  assert (Ee : ent f n = Entry (Node i n) (map fst (rev l)) (map snd (rev l))) by (unfold ent; now rewrite Hn).
  assert (Hf : In (ent f n) (firsts [] (n_edges g))).
  { rewrite (sm_first _ _ S). unfold ents. apply in_map. apply -> in_rev. apply (sm_in _ _ S). now rewrite Hn. }
  apply (firsts_lookup _ _ _ (proj1 (sm_wf _ _ S))) in Hf. rewrite Ee in Hf. cbn [e_node] in Hf. unfold lookup. rewrite Hf. cbn [e_kids e_convs].
  rewrite combine_split. exact (fast_rev_sound i n (rev l) g f f' l S Hn E).
Qed.
Lemma fast_revs_sound l : forall g f f', same g f -> fast_revs l f = Some f' ->
  exists g', reverse_names l g = Ok g' /\ same g' f' /\ f_kinds f' = f_kinds f.
Proof.
  induction l as [|n t IH]; intros g f f' S E; cbn [fast_revs reverse_names] in *.
  - injection E as <-. exists g. auto.
  - destruct (fast_rev_name f n) as [f1|] eqn:E1; [|discriminate]. destruct (fast_rev_name_sound g f n f1 S E1) as (g1 & -> & S1 & K1). cbn [rbind].
    destruct (IH g1 f1 f' S1 E) as (g' & H1 & H2 & H3). exists g'. rewrite H3. auto.
Qed.

Definition fast_start : fast := Fast 0 [] hempty (map (fun kl : str * list str => let (k, l) := kl in (k, rev l)) initial_kinds).
Definition occupied (e : entry conv) : bool := match e_kids e, e_convs e with [], [] => false | _, _ => true end.
Definition fast_loaded : option (db V) :=
  match fast_all load_stmts fast_start with
  | Some f => match fast_revs reversed_names f with
              | Some f' => Some (Db (Net (f_next f') (filter occupied (ents f'))) (kinds_of f'))
              | None => None
              end
  | None => None
  end.
Lemma same_start : same empty_net fast_start.
Proof.
  split.
  - apply wf_empty.
  - reflexivity.
  - constructor.
  - intros n. cbn [fast_start f_names f_tab]. rewrite hget_empty. cbn. tauto.
  - reflexivity.
  - constructor.
Qed.
Theorem fast_loaded_sound d : fast_loaded = Some d -> @loaded V = Ok d.
Proof.
  unfold fast_loaded, loaded. destruct (fast_all load_stmts fast_start) as [f|] eqn:E1; [|discriminate].
  destruct (fast_revs reversed_names f) as [f'|] eqn:E2; [|discriminate]. intros [= <-].
  destruct (fast_all_sound load_stmts (Db empty_net initial_kinds) fast_start f same_start) as (d1 & -> & S1 & K1); [|exact E1|].
  { cbn [db_kinds]. unfold kinds_of. cbn [fast_start f_kinds]. rewrite map_map. rewrite <- (map_id initial_kinds) at 1. apply map_ext. intros [k l]. now rewrite rev_involutive. }
  cbn [rbind]. destruct (fast_revs_sound reversed_names (db_net d1) f f' S1 E2) as (g & -> & S2 & K2). cbn [rbind]. f_equal.
  unfold clean_network. rewrite K1. unfold kinds_of. rewrite K2. f_equal. rewrite (sm_next _ _ S2). f_equal.
  change (fun e => match e_kids e, e_convs e with [], [] => false | _, _ => true end) with occupied.
  rewrite <- (sm_first _ _ S2). symmetry. apply filter_firsts; [|apply S2]. intros e [H1 H2]. unfold occupied. now rewrite H1, H2.
Qed.
End Fast.
