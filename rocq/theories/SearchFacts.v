(** * Correctness of BFS and DFS on arbitrary graphs *)
From Coq Require Import String Sorting.Sorted.
From Verif Require Import Py Network Search SearchSpec.

Section WalkFacts.
Context {V : Type} (edge : V -> V -> Prop).
Notation walk := (walk edge).

Lemma walk_hd a p b : walk a p b -> exists t, p = a :: t.
Proof. intros H; inversion H; subst; eauto. Qed.
Lemma walk_snoc a p b c : walk a p b -> edge b c -> walk a (p ++ [c]) c.
Proof.
  induction 1 as [a|a b p d Hab Hw IH]; intros He; cbn.
  - econstructor; [exact He|constructor].
  - econstructor; [exact Hab|now apply IH].
Qed.
Lemma walk_last a p b : walk a p b -> exists t, p = t ++ [b].
Proof.
  induction 1 as [a|a b p d Hab Hw (t & ->)]; [now exists []|]. exists (a :: t). reflexivity.
Qed.
Lemma walk_app a p b q c : walk a p b -> walk b (b :: q) c -> walk a (p ++ q) c.
Proof.
  induction 1 as [a|a b' p d Hab Hw IH]; intros H; [exact H|]. cbn. econstructor; [exact Hab|now apply IH].
Qed.
(** prefixes and suffixes of walks *)
Lemma walk_split a p1 x p2 b : walk a (p1 ++ x :: p2) b -> walk a (p1 ++ [x]) x /\ walk x (x :: p2) b.
Proof.
  revert a. induction p1 as [|y p1 IH]; intros a H; cbn in *.
  - inversion H; subst; split; try constructor; assumption.
  - inversion H as [|? z ? ? He Hw]; subst.
    + now destruct p1.
    + destruct (IH _ Hw) as [H1 H2]. split; [econstructor; eassumption|exact H2].
Qed.
Lemma walk_prefix a p c b : p <> [] -> walk a (p ++ [c]) b -> b = c /\ exists x, walk a p x /\ edge x c.
Proof.
  revert a. induction p as [|y p IH]; intros a Hne H; [easy|]. cbn in H.
  destruct p as [|z p].
  - cbn in H. inversion H as [|? w ? ? He Hw]; subst. inversion Hw as [|? ? ? ? ? Hw']; subst.
    + split; [easy|]. exists y. split; [constructor|easy].
    + inversion Hw'.
  - inversion H as [|? w ? ? He Hw]; subst.
    destruct (IH w ltac:(easy) Hw) as (-> & x & H1 & H2). split; [easy|]. exists x. split; [|easy].
    econstructor; eassumption.
Qed.
Lemma walk_det_last a p b c : walk a p b -> walk a p c -> b = c.
Proof.
  intros H1 H2. apply walk_last in H1 as (t1 & E1). apply walk_last in H2 as (t2 & E2).
  rewrite E1 in E2. now apply app_inj_tail in E2 as [_ ->].
Qed.

(** Any walk can be shortened to a simple one. *)
Lemma walk_simple (dec : forall x y : V, {x = y} + {x <> y}) a p b :
  walk a p b -> exists q, walk a q b /\ NoDup q /\ (length q <= length p)%nat /\ incl q p.
Proof.
  induction 1 as [a|a b p c Hab Hw (q & Hq & ND & Hl & Hi)].
  - exists [a]. split; [constructor|]. split; [constructor; [easy|constructor]|]. split; [reflexivity|apply incl_refl].
  - destruct (in_dec dec a q) as [Hin|Hni].
    + apply in_split in Hin as (q1 & q2 & ->). exists (a :: q2).
      apply walk_split in Hq as [_ Hq]. split; [exact Hq|]. split.
      * apply NoDup_remove_2 in ND as X. apply NoDup_remove_1 in ND.
        assert (ND2 : NoDup q2).
        { clear - ND. induction q1 as [|z q1 IH]; [exact ND|]. inversion ND; auto. }
        constructor; [intros ?; apply X; apply in_or_app; now right|exact ND2].
      * split; [cbn; rewrite app_length in Hl; cbn in Hl; lia|].
        intros x [->|Hx]; [now left|]. right. apply Hi. apply in_or_app. right. now right.
    + exists (a :: q). split; [econstructor; eassumption|]. split; [now constructor|].
      split; [cbn; lia|]. intros x [->|Hx]; [now left|right; now apply Hi].
Qed.
End WalkFacts.

Lemma walk_mono {V} (e1 e2 : V -> V -> Prop) a p b :
  (forall x y, In x p -> e1 x y -> e2 x y) -> walk e1 a p b -> walk e2 a p b.
Proof.
  intros H Hw. revert H. induction Hw as [a|a b p c Hab Hw IH]; intros H; [constructor|].
  econstructor; [apply H; [now left|exact Hab]|]. apply IH. intros x y Hx. apply H. now right.
Qed.

Section BFSFacts.
Context {V : Type} (eqb : V -> V -> bool).
Hypothesis eqb_eq : forall a b, eqb a b = true <-> a = b.
Context (children : V -> res (list V)) (fin : V).
Notation vmem := (vmem eqb).
Notation pmem := (pmem eqb).
Notation step := (bfs_step eqb children fin).
Notation run := (bfs_run eqb children fin).

Definition edge_of (a b : V) : Prop := exists ks, children a = Ok ks /\ In b ks.
Notation walk := (walk edge_of).

Lemma Vdec (x y : V) : {x = y} + {x <> y}.
Proof. destruct (eqb x y) eqn:E; [left; now apply eqb_eq|right; intros H; apply eqb_eq in H; congruence]. Qed.
Lemma eqb_neq a b : eqb a b = false <-> a <> b.
Proof. rewrite <- eqb_eq. destruct (eqb a b); split; congruence. Qed.
Lemma vmem_In x l : vmem x l = true <-> In x l.
Proof.
  unfold Search.vmem. rewrite existsb_exists. split.
  - intros (y & Hy & E). apply eqb_eq in E. now subst.
  - intros H. exists x. split; [exact H|now apply eqb_eq].
Qed.
Lemma vmem_false x l : vmem x l = false <-> ~ In x l.
Proof. rewrite <- vmem_In. destruct (vmem x l); split; congruence. Qed.
Lemma peqb_eq p : forall q, peqb eqb p q = true <-> p = q.
Proof.
  induction p as [|x p IH]; intros [|y q]; cbn; try (split; congruence).
  rewrite andb_true_iff, eqb_eq, IH. split; [intros [-> ->]|intros [=]]; auto.
Qed.
Lemma pmem_In p l : pmem p l = true <-> In p l.
Proof.
  unfold Search.pmem. rewrite existsb_exists. split.
  - intros (y & Hy & E). apply peqb_eq in E. now subst.
  - intros H. exists p. split; [exact H|now apply peqb_eq].
Qed.

Variable start : V.

Definition good (p : list V) : Prop := exists x, walk start p x /\ NoDup p.

Record Inv (s : bst V) : Prop := {
  I_queue : forall p, In p (b_queue s) -> good p;
  I_vis : forall p, In p (b_visited s) -> exists x ks,
      walk start p x /\ x <> fin /\ children x = Ok ks
      /\ forall k, In k ks -> ~ In k p -> In (p ++ [k]) (b_queue s) \/ In (p ++ [k]) (b_visited s);
  I_start : In [start] (b_queue s) \/ In [start] (b_visited s);
  I_sorted : StronglySorted le (map (@length V) (b_queue s));
  I_bound : forall p q, In p (b_queue s) -> In q (b_queue s) -> (length q <= S (length p))%nat
}.

Lemma inv_init : Inv (bfs_init start).
Proof.
  constructor; cbn.
  - intros p [<-|[]]. exists start. split; [constructor|constructor; [easy|constructor]].
  - easy.
  - auto.
  - repeat constructor.
  - intros p q [<-|[]] [<-|[]]. cbn; lia.
Qed.

Lemma sorted_app_const l n : StronglySorted le l -> Forall (fun x => x <= n)%nat l ->
  forall m, Forall (eq n) m -> StronglySorted le (l ++ m).
Proof.
  intros Hs Hl m Hm. induction Hs as [|a l Hs IH Ha]; cbn.
  - induction Hm as [|? ? <- Hm IHm]; constructor; [exact IHm|].
    eapply Forall_impl; [|exact Hm]. cbn. intros; lia.
  - inversion Hl; subst. constructor; [now apply IH|]. apply Forall_app. split; [exact Ha|].
    eapply Forall_impl; [|exact Hm]. cbn. intros; lia.
Qed.

Lemma inv_step s s' : Inv s -> step s = More s' -> Inv s'.
Proof.
  intros [IQ IV IS ISo IB] H. unfold bfs_step in H.
  destruct (b_queue s) as [|p q] eqn:Eq; [easy|].
  destruct (pmem p (b_visited s)) eqn:Ep.
  { injection H as <-. apply pmem_In in Ep. constructor; cbn.
    - intros; apply IQ; now right.
    - intros p' Hp'. destruct (IV _ Hp') as (x & ks & Hw & Hne & Hc & Hk). exists x, ks.
      repeat (split; [assumption|]). intros k Hin Hni. destruct (Hk _ Hin Hni) as [[<-|?]|?]; auto.
    - destruct IS as [[<-|?]|?]; auto.
    - cbn in ISo. now apply StronglySorted_inv in ISo.
    - intros; apply IB; now right. }
  destruct (rev p) as [|last rp] eqn:Er; [easy|].
  assert (Hp : p = rev rp ++ [last]).
  { rewrite <- (rev_involutive p), Er. reflexivity. }
  destruct (eqb last fin) eqn:El; [easy|].
  destruct (children last) as [ks|] eqn:Ec; [|easy]. injection H as <-.
  destruct (IQ p (or_introl eq_refl)) as (x & Hw & ND).
  assert (x = last).
  { destruct (walk_last _ _ _ _ Hw) as (t & E). rewrite Hp in E. now apply app_inj_tail in E as [_ ->]. }
  subst x. apply eqb_neq in El.
  assert (Hnew : forall r, In r (map (fun k => p ++ [k]) (filter (fun k => negb (vmem k p)) ks)) <->
             exists k, r = p ++ [k] /\ In k ks /\ ~ In k p).
  { intros r. rewrite in_map_iff. split.
    - intros (k & <- & Hk). apply filter_In in Hk as [Hk Hn]. apply negb_true_iff, vmem_false in Hn. eauto.
    - intros (k & -> & Hk & Hn). exists k. split; [easy|]. apply filter_In. split; [easy|].
      now apply negb_true_iff, vmem_false. }
  cbn in ISo. apply StronglySorted_inv in ISo as [ISo IHd].
  assert (Hqb : forall r, In r q -> (length p <= length r <= S (length p))%nat).
  { intros r Hr. split.
    - rewrite Forall_forall in IHd. apply IHd. now apply in_map.
    - apply IB; [now left|now right]. }
  constructor; cbn.
  - intros r. rewrite in_app_iff, Hnew. intros [Hr|(k & -> & Hk & Hn)]; [apply IQ; now right|].
    exists k. split.
    + eapply walk_snoc; [exact Hw|]. exists ks. auto.
    + apply NoDup_rev in ND. rewrite <- (rev_involutive (p ++ [k])). apply NoDup_rev.
      rewrite rev_app_distr. cbn. constructor; [|exact ND]. now rewrite <- in_rev.
  - intros r. rewrite in_app_iff. cbn. intros [Hr|[<-|[]]].
    + destruct (IV _ Hr) as (x & ks' & Hw' & Hne & Hc & Hk). exists x, ks'.
      repeat (split; [assumption|]). intros k Hin Hni. rewrite !in_app_iff. cbn.
      destruct (Hk _ Hin Hni) as [[<-|?]|?]; auto.
    + exists last, ks. repeat (split; [assumption|]). intros k Hin Hni. left.
      apply in_or_app. right. apply Hnew. eauto.
  - rewrite !in_app_iff. cbn. destruct IS as [[<-|?]|?]; auto.
  - rewrite map_app. apply (sorted_app_const _ (S (length p))).
    + exact ISo.
    + rewrite Forall_forall. intros n (r & <- & Hr)%in_map_iff. now apply Hqb.
    + rewrite Forall_forall. intros n (r & <- & Hr)%in_map_iff. apply Hnew in Hr as (k & -> & _).
      rewrite app_length; cbn; lia.
  - intros r1 r2. rewrite !in_app_iff, !Hnew.
    intros [H1|(k1 & -> & _)] [H2|(k2 & -> & _)]; rewrite ?app_length; cbn; try lia.
    + pose proof (Hqb _ H1). pose proof (Hqb _ H2). lia.
    + specialize (Hqb _ H1). lia.
    + specialize (Hqb _ H2). lia.
Qed.

Lemma inv_run d : forall s s', Inv s -> run d s = More s' -> Inv s'.
Proof.
  induction d as [|d IH]; intros s s' HI H; cbn in H; [eapply inv_step; eassumption|].
  destruct (run d s) as [s1|r] eqn:E; [|easy]. eapply IH; [|exact H]. eapply IH; eassumption.
Qed.
(** A final outcome comes from one last turn of the loop in a good state. *)
Lemma run_done d : forall s r, Inv s -> run d s = Done r -> exists s', Inv s' /\ step s' = Done r.
Proof.
  induction d as [|d IH]; intros s r HI H; cbn in H; [eauto|].
  destruct (run d s) as [s1|r1] eqn:E.
  - eapply IH; [|exact H]. eapply inv_run; eassumption.
  - injection H as <-. eapply IH; eassumption.
Qed.

(** Every simple walk from the start has been visited, or one of its prefixes waits. *)
Lemma coverage s p x : Inv s -> walk start p x -> NoDup p ->
  In p (b_visited s) \/ exists p1 p2, p = p1 ++ p2 /\ In p1 (b_queue s).
Proof.
  intros HI. revert x. induction p as [|k p IH] using rev_ind; intros x Hw ND; [inversion Hw|].
  destruct p as [|a p'].
  - cbn in *. destruct (walk_hd _ _ _ _ Hw) as (t & [= -> <-]).
    destruct (I_start _ HI); [|now left]. right. exists [start], []. auto.
  - set (p := a :: p') in *.
    apply walk_prefix in Hw as (-> & y & Hw & ks & Hk & Hin); [|easy].
    assert (ND' : NoDup p /\ ~ In k p).
    { pose proof (NoDup_remove_1 _ _ _ ND) as N1. pose proof (NoDup_remove_2 _ _ _ ND) as N2.
      rewrite app_nil_r in N1, N2. now split. }
    destruct ND' as [ND1 Hni].
    destruct (IH _ Hw ND1) as [Hv|(p1 & p2 & E & Hq)].
    + destruct (I_vis _ HI _ Hv) as (x & ks' & Hw' & Hne & Hc & Hkk).
      assert (x = y) by (eapply walk_det_last; eassumption). subst x.
      rewrite Hc in Hk. injection Hk as ->.
      destruct (Hkk _ Hin Hni) as [?|?]; [|now left]. right. exists (p ++ [k]), []. rewrite app_nil_r. auto.
    + right. exists p1, (p2 ++ [k]). rewrite E, app_assoc. auto.
Qed.

Lemma step_some s p : Inv s -> step s = Done (Ok (Some p)) ->
  walk start p fin /\ NoDup p /\ forall q, walk start q fin -> (length p <= length q)%nat.
Proof.
  intros HI H. pose proof HI as [IQ IV IS ISo IB]. unfold bfs_step in H.
  destruct (b_queue s) as [|p0 q0] eqn:Eq; [easy|].
  destruct (pmem p0 (b_visited s)) eqn:Ep; [easy|].
  destruct (rev p0) as [|last rp] eqn:Er; [easy|].
  assert (Hp : p0 = rev rp ++ [last]) by (rewrite <- (rev_involutive p0), Er; reflexivity).
  destruct (eqb last fin) eqn:El; [|destruct (children last); easy]. injection H as <-.
  apply eqb_eq in El. subst last.
  destruct (IQ p0 (or_introl eq_refl)) as (x & Hw & ND).
  assert (x = fin).
  { destruct (walk_last _ _ _ _ Hw) as (t & E). rewrite Hp in E. now apply app_inj_tail in E as [_ ->]. }
  subst x. split; [exact Hw|]. split; [exact ND|]. intros w Hq.
  destruct (walk_simple _ Vdec _ _ _ Hq) as (q' & Hq' & NDq & Hlen & _).
  enough (length p0 <= length q')%nat by lia.
  destruct (coverage s q' fin HI Hq' NDq) as [Hv|(p1 & p2 & E & Hin)].
  - destruct (IV _ Hv) as (x & ks & Hwx & Hne & _). exfalso. apply Hne. eapply walk_det_last; eassumption.
  - rewrite E, app_length. enough (length p0 <= length p1)%nat by lia.
    rewrite Eq in Hin. destruct Hin as [->|Hin]; [lia|].
    cbn in ISo. apply StronglySorted_inv in ISo as [_ IHd]. rewrite Forall_forall in IHd.
    apply IHd. now apply in_map.
Qed.

Lemma step_none s : Inv s -> step s = Done (Ok None) -> ~ reachable edge_of start fin.
Proof.
  intros HI H (w & Hq). unfold bfs_step in H.
  destruct (b_queue s) as [|p0 q0] eqn:Eq.
  - destruct (walk_simple _ Vdec _ _ _ Hq) as (q' & Hq' & NDq & _).
    destruct (coverage s q' fin HI Hq' NDq) as [Hv|(p1 & p2 & E & Hin)].
    + destruct (I_vis _ HI _ Hv) as (x & ks & Hwx & Hne & _). apply Hne. eapply walk_det_last; eassumption.
    + now rewrite Eq in Hin.
  - destruct (pmem p0 (b_visited s)); [easy|]. destruct (rev p0); [easy|].
    destruct (eqb v fin); [easy|]. now destruct (children v).
Qed.

Lemma step_err s e : Inv s -> step s = Done (Err e) ->
  exists x, reachable edge_of start x /\ children x = Err e.
Proof.
  intros [IQ IV IS ISo IB] H. unfold bfs_step in H.
  destruct (b_queue s) as [|p0 q0] eqn:Eq; [easy|].
  destruct (IQ p0 (or_introl eq_refl)) as (x & Hw & ND).
  destruct (pmem p0 (b_visited s)) eqn:Ep; [easy|].
  destruct (rev p0) as [|last rp] eqn:Er.
  { assert (p0 = []) by (rewrite <- (rev_involutive p0), Er; reflexivity). subst. inversion Hw. }
  assert (Hp : p0 = rev rp ++ [last]) by (rewrite <- (rev_involutive p0), Er; reflexivity).
  destruct (eqb last fin) eqn:El; [easy|]. destruct (children last) as [|e'] eqn:Ec; [easy|]. injection H as ->.
  exists last. split; [|exact Ec]. exists p0.
  destruct (walk_last _ _ _ _ Hw) as (t & E). rewrite Hp in E. apply app_inj_tail in E as [_ ->].
  exact Hw.
Qed.

(** ** Termination *)
Context (U : list V) (D : nat).
Hypothesis HU : forall v k ks, children v = Ok (k :: ks) -> In v U.
Hypothesis HD : forall v ks, children v = Ok ks -> (length ks <= D)%nat.

Fixpoint wt (m : nat) : nat := match m with O => 1 | S m' => S (D * wt m') end.
Lemma wt_pos m : (1 <= wt m)%nat. Proof. destruct m; cbn; lia. Qed.
Lemma wt_pow m : (wt m <= (S D) ^ m)%nat.
Proof.
  induction m as [|m IH]; [cbn; lia|].
  change (wt (S m)) with (S (D * wt m)). rewrite Nat.pow_succ_r'.
  assert (1 <= S D ^ m)%nat by (pose proof (wt_pos m); lia). nia.
Qed.
Definition pw (p : list V) : nat := wt (S (length U) - length p).
Fixpoint tot (q : list (list V)) : nat := match q with [] => O | p :: t => pw p + tot t end.
Lemma tot_app a b : tot (a ++ b) = (tot a + tot b)%nat.
Proof. induction a as [|x a IH]; cbn; [reflexivity|lia]. Qed.

Definition InvU (s : bst V) : Prop := forall p x, In p (b_queue s) -> p = removelast p ++ [x] -> incl (removelast p) U.

Lemma length_filter {A} (f : A -> bool) l : (length (filter f l) <= length l)%nat.
Proof. induction l as [|x l IH]; cbn; [lia|]. destruct (f x); cbn; lia. Qed.

Lemma step_measure s s' : Inv s -> InvU s -> step s = More s' ->
  (tot (b_queue s') + 1 <= tot (b_queue s))%nat /\ InvU s'.
Proof.
  intros [IQ IV IS ISo IB] HIU H. unfold bfs_step in H. unfold InvU in *.
  destruct (b_queue s) as [|p q] eqn:Eq; [easy|].
  destruct (pmem p (b_visited s)) eqn:Ep.
  { injection H as <-. cbn [b_queue tot]. pose proof (wt_pos (S (length U) - length p)). unfold pw. split; [lia|].
    intros p' x Hp'. apply HIU. now right. }
  destruct (rev p) as [|last rp] eqn:Er; [easy|].
  assert (Hp : p = rev rp ++ [last]) by (rewrite <- (rev_involutive p), Er; reflexivity).
  destruct (eqb last fin) eqn:El; [easy|].
  destruct (children last) as [ks|] eqn:Ec; [|easy]. injection H as <-. cbn [b_queue].
  destruct (IQ p (or_introl eq_refl)) as (y & Hw & ND).
  set (new := filter (fun k => negb (vmem k p)) ks).
  assert (Hr : removelast p = rev rp) by (rewrite Hp; apply removelast_last).
  assert (HpU : ks <> [] -> incl p U).
  { intros Hks. rewrite Hp. apply incl_app.
    - rewrite <- Hr. apply (HIU p last); [now left|]. now rewrite Hr.
    - intros z [<-|[]]. destruct ks as [|k ks]; [easy|]. eapply HU; exact Ec. }
  split.
  - rewrite tot_app. cbn [tot].
    assert (Hlen : new <> [] -> (length p <= length U)%nat).
    { intros Hn. apply (NoDup_incl_length ND). apply HpU. intros ->. now apply Hn. }
    assert (Ht : forall l : list V, tot (map (fun k => p ++ [k]) l) = (length l * wt (length U - length p))%nat).
    { induction l as [|k l IHl]; [reflexivity|]. cbn [map tot length]. rewrite IHl.
      unfold pw. rewrite app_length. cbn [length].
      replace (S (length U) - (length p + 1))%nat with (length U - length p)%nat by lia. lia. }
    rewrite Ht. unfold pw.
    destruct new as [|k0 new0] eqn:En.
    + cbn [length]. pose proof (wt_pos (S (length U) - length p)). lia.
    + rewrite <- En in *. specialize (Hlen ltac:(rewrite En; easy)).
      replace (S (length U) - length p)%nat with (S (length U - length p)) by lia. cbn [wt].
      pose proof (length_filter (fun k => negb (vmem k p)) ks) as Hf. fold new in Hf.
      specialize (HD _ _ Ec). nia.
  - intros p' x. cbn. rewrite in_app_iff. intros [Hq|Hq]; [apply HIU; now right|].
    apply in_map_iff in Hq as (k & <- & Hk). intros _. rewrite removelast_last.
    apply HpU. intros ->. now apply in_nil in Hk.
Qed.

Lemma run_measure d : forall s s', Inv s -> InvU s -> run d s = More s' ->
  (tot (b_queue s') + 2 ^ d <= tot (b_queue s))%nat /\ InvU s'.
Proof.
  induction d as [|d IH]; intros s s' HI HIU H; cbn [bfs_run] in H.
  - cbn. now apply step_measure.
  - destruct (run d s) as [s1|r] eqn:E; [|easy].
    destruct (IH _ _ HI HIU E) as [H1 HIU1].
    destruct (IH _ _ (inv_run _ _ _ HI E) HIU1 H) as [H2 HIU2]. split; [|exact HIU2].
    cbn. lia.
Qed.

Lemma run_terminates d : (wt (length U) < 2 ^ d)%nat -> exists r, run d (bfs_init start) = Done r.
Proof.
  intros Hd. destruct (run d (bfs_init start)) as [s'|r] eqn:E; [exfalso|eauto].
  apply run_measure in E as [Hm _]; [| |].
  - cbn [bfs_init b_queue tot] in Hm. unfold pw in Hm. cbn [length] in Hm.
    replace (S (length U) - 1)%nat with (length U) in Hm by lia. lia.
  - apply inv_init.
  - intros p x [<-|[]] _. easy.
Qed.

Lemma fuel_enough n deg : (length U <= n)%nat -> (D <= deg)%nat -> (wt (length U) < 2 ^ bfs_fuel n deg)%nat.
Proof.
  intros Hn Hdeg. unfold bfs_fuel.
  pose proof (wt_pow (length U)) as H1.
  assert (H2 : (S D ^ length U <= (S deg) ^ length U)%nat) by (apply Nat.pow_le_mono_l; lia).
  assert (H3 : (S deg ^ length U <= (2 ^ S (Nat.log2 (S deg))) ^ length U)%nat).
  { apply Nat.pow_le_mono_l. destruct (Nat.log2_spec (S deg) ltac:(lia)) as [_ X]. lia. }
  rewrite <- Nat.pow_mul_r in H3.
  assert (H4 : (2 ^ (S (Nat.log2 (S deg)) * length U) <= 2 ^ (S n * S (Nat.log2 (S deg))))%nat).
  { apply Nat.pow_le_mono_r; nia. }
  rewrite Nat.pow_add_r. change (2 ^ 1)%nat with 2%nat.
  assert (1 <= 2 ^ (S n * S (Nat.log2 (S deg))))%nat by (apply Nat.neq_0_lt_0, Nat.pow_nonzero; lia).
  lia.
Qed.

Theorem bfs_correct n deg : (length U <= n)%nat -> (D <= deg)%nat ->
  match bfs eqb children fin (bfs_fuel n deg) start with
  | Ok (Some p) => simple_path edge_of start p fin /\ shortest_path edge_of start p fin
  | Ok None => ~ reachable edge_of start fin
  | Err e => exists x, reachable edge_of start x /\ children x = Err e
  end.
Proof.
  intros Hn Hd. unfold bfs.
  destruct (run_terminates _ (fuel_enough n deg Hn Hd)) as (r & E). rewrite E.
  destruct (run_done _ _ _ inv_init E) as (s' & HI & Hs).
  destruct r as [[p|]|e].
  - destruct (step_some _ _ HI Hs) as (A & B & C). repeat split; assumption.
  - eapply step_none; eassumption.
  - eapply step_err; eassumption.
Qed.
End BFSFacts.
