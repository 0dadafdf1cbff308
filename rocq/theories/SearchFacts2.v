(** * DFS on arbitrary graphs *)
From Coq Require Import String.
From Verif Require Import Py Network Search SearchSpec SearchFacts.

Section DFSFacts.
Context {V : Type} (eqb : V -> V -> bool).
Hypothesis eqb_eq : forall a b, eqb a b = true <-> a = b.
Context (children : V -> res (list V)) (fin : V) (keep : V -> bool).
Notation vmem := (vmem eqb).
Notation edge_of := (edge_of children).
Notation walk := (walk edge_of).
Notation dfs_ := (dfs_ eqb children fin keep).

(** the inner [for] loop of [dfs_], named *)
Definition dloop (f' : nat) (pq : list V) : list V -> list V -> res (list V * list V) :=
  fix loop (ks visited : list V) : res (list V * list V) :=
  match ks with
  | [] => Ok (pq, visited)
  | c :: t =>
      if vmem c visited then loop t visited
      else if negb (keep c) then loop t visited
      else if eqb c fin then Ok (pq ++ [c], visited)
      else match dfs_ f' c visited [c] with
           | Err e => Err e
           | Ok (tp, visited') =>
               if vmem fin tp then Ok (pq ++ tp, visited')
               else loop t visited'
           end
  end.
Lemma dfs_unfold f v visited pq : dfs_ (S f) v visited pq =
  match children v with Err e => Err e | Ok ks => dloop f pq ks (v :: visited) end.
Proof. reflexivity. Qed.

Let vIn := vmem_In eqb eqb_eq.
Let vOut := vmem_false eqb eqb_eq.

(** What a call returns. *)
Definition found (v : V) (vis t : list V) : Prop :=
  walk v (v :: t) fin /\ NoDup t /\ forall x, In x t -> x <> v /\ ~ In x vis.
Definition closed (vis vis' : list V) : Prop :=
  forall x, In x vis' -> ~ In x vis -> forall c, edge_of x c -> keep c = true -> In c vis'.

Definition post (v : V) (vis pq r vis' : list V) : Prop :=
  incl (v :: vis) vis' /\
  ((exists t, r = pq ++ t /\ t <> [] /\ found v vis t)
   \/ (r = pq /\ closed vis vis' /\ (~ In fin vis -> v <> fin -> ~ In fin vis'))).

Lemma dfs_post f : forall v vis pq r vis', dfs_ f v vis pq = Ok (r, vis') -> post v vis pq r vis'.
Proof.
  induction f as [|f IH]; intros v vis pq r vis' H; [easy|]. rewrite dfs_unfold in H.
  destruct (children v) as [ks|] eqn:Ec; [|easy].
  (* loop invariant *)
  assert (L : forall done todo vis1, ks = done ++ todo -> incl (v :: vis) vis1 -> closed (v :: vis) vis1 ->
     (forall c, In c done -> keep c = true -> In c vis1) ->
     (~ In fin vis -> v <> fin -> ~ In fin vis1) ->
     dloop f pq todo vis1 = Ok (r, vis') -> post v vis pq r vis').
  { intros done todo. revert done. induction todo as [|c todo IHl]; intros done vis1 E Hi Hc Hd Hf HL; cbn in HL.
    - injection HL as <- <-. split; [exact Hi|]. right. split; [reflexivity|]. split; [|exact Hf].
      rewrite app_nil_r in E. subst done. intros x Hx Hn c Hxc Hk.
      destruct (Vdec eqb eqb_eq x v) as [->|Hne].
      + destruct Hxc as (ks' & E' & Hin). rewrite Ec in E'. injection E' as <-. auto.
      + apply (Hc x Hx); [|exact Hxc|exact Hk]. intros [->|?]; auto.
    - assert (E' : ks = (done ++ [c]) ++ todo) by (rewrite <- app_assoc; exact E).
      destruct (vmem c vis1) eqn:Ev.
      { apply vIn in Ev. apply (IHl _ _ E' Hi Hc); try assumption.
        intros c'. rewrite in_app_iff. cbn. intros [?|[<-|[]]]; auto. }
      apply vOut in Ev.
      destruct (keep c) eqn:Ek; cbn [negb] in HL.
      2:{ apply (IHl _ _ E' Hi Hc); try assumption.
        intros c'. rewrite in_app_iff. cbn. intros [?|[<-|[]]]; [auto|congruence]. }
      assert (Evc : edge_of v c).
      { exists ks. split; [exact Ec|]. rewrite E. apply in_or_app. right. now left. }
      assert (Hcn : c <> v /\ ~ In c vis).
      { split; [intros ->|intros X]; apply Ev, Hi; [now left|now right]. }
      destruct (eqb c fin) eqn:Ef.
      + apply eqb_eq in Ef. subst c. injection HL as <- <-. split; [exact Hi|]. left. exists [fin].
        split; [reflexivity|]. split; [easy|]. split; [|split].
        * econstructor; [exact Evc|constructor].
        * constructor; [easy|constructor].
        * intros x [<-|[]]. exact Hcn.
      + destruct (dfs_ f c vis1 [c]) as [[tp vis2]|] eqn:Ed; [|easy].
        apply IH in Ed as (Hi2 & [(t & -> & Hne & Hw & ND & Hdis)|(-> & Hcl & Hfi)]).
        * assert (Hfin : In fin ([c] ++ t)).
          { destruct (walk_last _ _ _ _ Hw) as (l & El). change (In fin (c :: t)). rewrite El. apply in_or_app. right. now left. }
          rewrite (proj2 (vIn fin ([c] ++ t)) Hfin) in HL. injection HL as <- <-.
          split; [intros x Hx; apply Hi2; right; now apply Hi|]. left. exists (c :: t).
          split; [reflexivity|]. split; [easy|]. split; [|split].
          -- econstructor; [exact Evc|exact Hw].
          -- constructor; [|exact ND]. intros X. now destruct (Hdis _ X).
          -- intros x [<-|Hx]; [exact Hcn|]. destruct (Hdis _ Hx) as [H1 H2].
             split; [intros ->|intros X]; apply H2, Hi; [now left|now right].
        * assert (Hnf : vmem fin [c] = false).
          { apply vOut. intros [->|[]]. apply (eqb_neq eqb eqb_eq) in Ef. easy. }
          rewrite Hnf in HL.
          apply (IHl (done ++ [c]) vis2 E'); try assumption.
          -- intros x Hx. apply Hi2. right. now apply Hi.
          -- intros x Hx Hn c' Hxc Hk. destruct (in_dec (Vdec eqb eqb_eq) x vis1) as [X|X].
             ++ apply Hi2. right. apply (Hc x X Hn c' Hxc Hk).
             ++ apply (Hcl x Hx X c' Hxc Hk).
          -- intros c'. rewrite in_app_iff. cbn. intros [Hin|[<-|[]]] Hk; apply Hi2; [right; auto|now left].
          -- intros Hf1 Hf2. apply Hfi; [now apply Hf|]. now apply (eqb_neq eqb eqb_eq). }
  refine (L [] ks (v :: vis) eq_refl (incl_refl _) _ _ _ H).
  - intros x Hx Hn. now apply Hn in Hx.
  - intros c [].
  - intros Hf1 Hf2 [->|?]; easy.
Qed.

(** Every path DFS returns is real, whatever the pruning. *)
Theorem dfs_sound f start p : dfs eqb children fin keep f start = Ok (Some p) ->
  simple_path edge_of start p fin.
Proof.
  unfold dfs. destruct (dfs_ f start [] [start]) as [[pq vis]|] eqn:E; [|easy].
  destruct (vmem fin pq) eqn:Ev; [|easy]. intros [= <-].
  apply dfs_post in E as (_ & [(t & -> & Hne & Hw & ND & Hdis)|(-> & _)]).
  - split; [exact Hw|]. cbn. constructor; [|exact ND]. intros X. now destruct (Hdis _ X).
  - apply vIn in Ev as [->|[]]. split; [constructor|]. constructor; [easy|constructor].
Qed.

(** DFS finds a path when there is one, provided the pruning never drops a
    node from which the target can be reached. *)
Theorem dfs_complete f start :
  (forall c, reachable edge_of start c -> reachable edge_of c fin -> keep c = true) ->
  dfs eqb children fin keep f start = Ok None -> ~ reachable edge_of start fin.
Proof.
  intros Hkeep. unfold dfs. destruct (dfs_ f start [] [start]) as [[pq vis]|] eqn:E; [|easy].
  destruct (vmem fin pq) eqn:Ev; [easy|]. intros _ (w & Hw).
  apply dfs_post in E as (Hi & [(t & -> & Hne & Hf & _)|(-> & Hcl & Hfi)]).
  - apply vOut in Ev. apply Ev. change ([start] ++ t) with (start :: t). destruct (walk_last _ _ _ _ Hf) as (l & El).
    rewrite El. apply in_or_app. right. now left.
  - apply vOut in Ev. apply Hfi; [easy|intros ->; apply Ev; now left|].
    assert (G : forall a p, walk a p fin -> reachable edge_of start a -> In a vis -> In fin vis).
    { intros a p Hp. induction Hp as [a|a b p c Hab Hp IH]; intros Hr Hin; [exact Hin|].
      apply IH; [exact Hkeep|exact Hfi|exact Ev|exact Hw| |].
      - destruct Hr as (q & Hq). exists (q ++ [b]). eapply walk_snoc; eassumption.
      - apply (Hcl a Hin ltac:(easy) b Hab). apply Hkeep.
        + destruct Hr as (q & Hq). exists (q ++ [b]). eapply walk_snoc; eassumption.
        + eexists; eassumption. }
    apply (G start w Hw); [exists [start]; constructor|]. apply Hi. now left.
Qed.

(** Fuel: the recursion is never deeper than the number of nodes. *)
Context (U : list V).
Hypothesis HU : forall v ks, children v = Ok ks -> In v U.
Hypothesis Hof : forall v, children v <> Err OutOfFuel.

Lemma dfs_fuel f : forall v vis pq, NoDup vis -> incl vis U -> ~ In v vis ->
  (length U + 1 <= f + length vis)%nat ->
  match dfs_ f v vis pq with
  | Ok (_, vis') => NoDup vis' /\ incl vis' U /\ (length vis <= length vis')%nat
  | Err e => e <> OutOfFuel
  end.
Proof.
  induction f as [|f IH]; intros v vis pq ND Hi Hni Hf.
  - pose proof (NoDup_incl_length ND Hi). lia.
  - rewrite dfs_unfold. destruct (children v) as [ks|e] eqn:Ec.
    2:{ intros ->. now apply (Hof v). }
    assert (L : forall ks vis1, NoDup vis1 -> incl vis1 U -> (length vis + 1 <= length vis1)%nat ->
       match dloop f pq ks vis1 with
       | Ok (_, vis') => NoDup vis' /\ incl vis' U /\ (length vis <= length vis')%nat
       | Err e => e <> OutOfFuel end).
    { clear Ec ks. induction ks as [|c ks IHl]; intros vis1 ND1 Hi1 Hl1; cbn.
      - repeat split; try assumption; lia.
      - destruct (vmem c vis1) eqn:Ev; [now apply IHl|]. apply vOut in Ev.
        destruct (negb (keep c)); [now apply IHl|].
        destruct (eqb c fin); [repeat split; try assumption; lia|].
        specialize (IH c vis1 [c] ND1 Hi1 Ev ltac:(lia)).
        destruct (dfs_ f c vis1 [c]) as [[tp vis2]|e]; [|exact IH].
        destruct IH as (ND2 & Hi2 & Hl2).
        destruct (vmem fin tp); [repeat split; try assumption; lia|].
        apply IHl; try assumption. lia. }
    apply L.
    + now constructor.
    + intros x [<-|Hx]; [eapply HU; exact Ec|now apply Hi].
    + cbn; lia.
Qed.

Theorem dfs_no_fuel f start : (length U < f)%nat -> dfs eqb children fin keep f start <> Err OutOfFuel.
Proof.
  intros Hf. unfold dfs.
  pose proof (dfs_fuel f start [] [start] ltac:(constructor) ltac:(easy) ltac:(easy) ltac:(cbn; lia)) as H.
  destruct (dfs_ f start [] [start]) as [[pq vis]|e]; [easy|]. intros [= ->]. easy.
Qed.

Lemma dfs_err f : forall v vis pq e, dfs_ f v vis pq = Err e -> e <> OutOfFuel ->
  exists x, reachable edge_of v x /\ children x = Err e.
Proof.
  induction f as [|f IH]; intros v vis pq e H Hne; [cbn in H; congruence|].
  rewrite dfs_unfold in H. destruct (children v) as [ks|e'] eqn:Ec.
  2:{ injection H as ->. exists v. split; [exists [v]; constructor|exact Ec]. }
  assert (L : forall ks' vis1, incl ks' ks -> dloop f pq ks' vis1 = Err e ->
     exists x, reachable edge_of v x /\ children x = Err e).
  { induction ks' as [|c ks' IHl]; intros vis1 Hi HL; cbn in HL; [easy|].
    assert (Hi' : incl ks' ks) by (intros x Hx; apply Hi; now right).
    destruct (vmem c vis1); [now apply (IHl vis1)|].
    destruct (negb (keep c)); [now apply (IHl vis1)|].
    destruct (eqb c fin); [easy|].
    destruct (dfs_ f c vis1 [c]) as [[tp vis2]|e2] eqn:Ed.
    - destruct (vmem fin tp); [easy|]. now apply (IHl vis2).
    - injection HL as ->. destruct (IH _ _ _ _ Ed Hne) as (x & (p & Hp) & Hx).
      exists x. split; [|exact Hx]. exists (v :: p). econstructor; [|exact Hp].
      exists ks. split; [exact Ec|]. apply Hi. now left. }
  eapply L; [apply incl_refl|exact H].
Qed.
End DFSFacts.
