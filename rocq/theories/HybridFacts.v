(** * Every interleaving of the hybrid search *)
From Coq Require Import String.
From Verif Require Import Py Network Search Hybrid.

Section HF.
Context {P : Type} (lean_out bfs_out : res (option P)).
Notation hstate := (@hstate P).
Notation step := (h_step lean_out bfs_out).

(** Each cell is empty, or holds what its search returned and its worker has ended. *)
Definition cell_ok (out : res (option P)) (w : worker) (c : cell) : Prop :=
  match c with
  | Empty => w = Ended -> exists e, out = Err e
  | Value r => out = Ok r
  end.

Definition pc_ok (s : hstate) : Prop :=
  match h_pc s with
  | StartLean => h_wl s = NotStarted /\ h_wb s = NotStarted
  | StartBfs => h_wl s <> NotStarted /\ h_wb s = NotStarted
  | p =>
    h_wl s <> NotStarted /\ h_wb s <> NotStarted /\
    match p with
    | LeanNotNone => exists r, lean_out = Ok r /\ h_lean s = Value r
    | ReturnLean => exists p, lean_out = Ok (Some p) /\ h_lean s = Value (Some p)
    | BfsNotNone => exists r, bfs_out = Ok r /\ h_bfs s = Value r
    | ReturnBfs => exists p, bfs_out = Ok (Some p) /\ h_bfs s = Value (Some p)
    | LeanIsNone => bfs_out = Ok None /\ h_bfs s = Value None
    | Returned (Value (Some p)) => lean_out = Ok (Some p) \/ bfs_out = Ok (Some p)
    | Returned (Value None) => lean_out = Ok None /\ bfs_out = Ok None
    | Returned Empty => False
    | _ => True
    end
  end.
Definition HInv (s : hstate) : Prop :=
  cell_ok lean_out (h_wl s) (h_lean s) /\ cell_ok bfs_out (h_wb s) (h_bfs s)
  /\ pc_ok s
  /\ (h_wl s <> Ended -> h_lean s = Empty) /\ (h_wb s <> Ended -> h_bfs s = Empty).

Lemma hinv_init : HInv h_init.
Proof. repeat split; cbn; try easy. Qed.

Lemma hinv_step s a : HInv s -> HInv (step s a).
Proof.
  destruct s as [p l b wl wb]. unfold HInv, pc_ok. cbn [h_pc h_lean h_bfs h_wl h_wb].
  intros (Hl & Hb & Hp & El & Eb).
  destruct a; cbn [h_step h_pc h_lean h_bfs h_wl h_wb].
  - (* main *)
    destruct p; cbn [main_step h_pc h_lean h_bfs h_wl h_wb].
    + destruct Hp as [-> ->]. rewrite (El ltac:(easy)) in *. cbn in *. repeat split; easy.
    + destruct Hp as [H1 ->]. rewrite (Eb ltac:(easy)) in *. cbn in *. repeat split; try easy.
    + destruct Hp as (H1 & H2 & _). destruct l as [|r]; cbn in *; repeat split; try assumption; try exact I. eauto.
    + destruct Hp as (H1 & H2 & r & Hr & ->). destruct r as [p|]; cbn in *; repeat split; try assumption; try exact I. eauto.
    + destruct Hp as (H1 & H2 & p & Hr & ->). cbn in *; repeat split; try assumption; try exact I. now left.
    + destruct Hp as (H1 & H2 & _). destruct b as [|r]; cbn in *; repeat split; try assumption; try exact I. eauto.
    + destruct Hp as (H1 & H2 & r & Hr & ->). destruct r as [p|]; cbn in *; repeat split; try assumption; try exact I. eauto.
    + destruct Hp as (H1 & H2 & p & Hr & ->). cbn in *; repeat split; try assumption; try exact I. now right.
    + destruct Hp as (H1 & H2 & _). destruct b as [|[p|]]; cbn in *; repeat split; try assumption; try exact I.
    + destruct Hp as (H1 & H2 & Hr & ->). destruct l as [|[p|]]; cbn in *; repeat split; try assumption; try exact I.
    + exact (conj Hl (conj Hb (conj Hp (conj El Eb)))).
  - destruct wl; cbn [h_pc h_lean h_bfs h_wl h_wb]; [exact (conj Hl (conj Hb (conj Hp (conj El Eb))))| |exact (conj Hl (conj Hb (conj Hp (conj El Eb))))].
    rewrite (El ltac:(easy)) in *.
    split; [|split; [exact Hb|split; [|split; [easy|exact Eb]]]].
    + unfold finish. destruct lean_out; cbn; [reflexivity|eauto].
    + destruct p; try easy.
      * destruct Hp as (_ & H2 & r & _ & X). easy.
      * destruct Hp as (_ & H2 & r & _ & X). easy.
  - destruct wb; cbn [h_pc h_lean h_bfs h_wl h_wb]; [exact (conj Hl (conj Hb (conj Hp (conj El Eb))))| |exact (conj Hl (conj Hb (conj Hp (conj El Eb))))].
    rewrite (Eb ltac:(easy)) in *.
    split; [exact Hl|split; [|split; [|split; [exact El|easy]]]].
    + unfold finish. destruct bfs_out; cbn; [reflexivity|eauto].
    + destruct p; try easy.
      * destruct Hp as (_ & H2 & r & _ & X). easy.
      * destruct Hp as (_ & H2 & r & _ & X). easy.
Qed.

Lemma hinv_run sched : HInv (h_run lean_out bfs_out sched).
Proof.
  unfold h_run. assert (G : forall l s, HInv s -> HInv (fold_left step l s)).
  { induction l as [|a l IH]; intros s H; [exact H|]. apply IH, hinv_step, H. }
  apply G, hinv_init.
Qed.

(** Safety for every schedule. *)
Theorem hybrid_safe sched r : h_result lean_out bfs_out sched = Some r ->
  (exists p, r = Value (Some p) /\ (lean_out = Ok (Some p) \/ bfs_out = Ok (Some p)))
  \/ (r = Value None /\ lean_out = Ok None /\ bfs_out = Ok None).
Proof.
  unfold h_result. pose proof (hinv_run sched) as (_ & _ & Hp & _). unfold pc_ok in Hp.
  destruct (h_pc (h_run lean_out bfs_out sched)) as [| | | | | | | | | |c]; try easy. intros [= <-].
  destruct Hp as (_ & _ & Hp). destruct c as [|[p|]]; [easy|left; eauto|right; auto].
Qed.

(** Progress: once both workers have ended, eight moves of the main thread are
    enough to return, provided the searches found something or both returned. *)
Definition will_return : Prop :=
  (exists p, lean_out = Ok (Some p)) \/ (exists p, bfs_out = Ok (Some p))
  \/ (lean_out = Ok None /\ bfs_out = Ok None).

Fixpoint mains (n : nat) (s : hstate) : hstate :=
  match n with O => s | S n' => mains n' (main_step s) end.

Lemma live_cells s : HInv s -> h_wl s = Ended -> h_wb s = Ended -> will_return ->
  exists r, h_pc (mains 8 s) = Returned r.
Proof.
  destruct s as [p l b wl wb]. intros (Hl & Hb & Hp & _ & _) E1 E2 W. cbn in *. subst wl wb.
  unfold pc_ok in Hp; cbn in Hp.
  assert (L : (exists e, lean_out = Err e /\ l = Empty) \/ (exists r, lean_out = Ok r /\ l = Value r)).
  { destruct l as [|r]; cbn in Hl; [destruct (Hl eq_refl) as (e & He); left; eauto|right; eauto]. }
  assert (B : (exists e, bfs_out = Err e /\ b = Empty) \/ (exists r, bfs_out = Ok r /\ b = Value r)).
  { destruct b as [|r]; cbn in Hb; [destruct (Hb eq_refl) as (e & He); left; eauto|right; eauto]. }
  unfold will_return in W.
  destruct L as [(e & EL & ->)|([q|] & EL & ->)], B as [(e' & EB & ->)|([q'|] & EB & ->)];
    rewrite EL, EB in *;
    try (exfalso; destruct W as [(x & [=])|[(x & [=])|[[=] [=]]]]; fail);
    destruct p; cbn; eauto; cbn in Hp; try (now destruct Hp);
    try (destruct Hp as (_ & _ & Hp); try (destruct Hp as (? & ? & ?)); easy).
Qed.

Lemma step_ended (s : hstate) a : h_wl s = Ended -> h_wb s = Ended -> HInv s -> step s a = s \/ step s a = main_step s.
Proof.
  intros E1 E2 _. destruct a; cbn; rewrite ?E1, ?E2; auto.
Qed.
Lemma main_step_workers (s : hstate) : h_pc s <> StartLean -> h_pc s <> StartBfs -> h_wl (main_step s) = h_wl s /\ h_wb (main_step s) = h_wb s.
Proof. destruct s as [p l b wl wb]. destruct p; cbn; easy. Qed.

(** number of moves of an agent in a schedule *)
Definition is_main (a : agent) : bool := match a with Main => true | _ => false end.

Lemma run_ended sched : forall s, HInv s -> h_wl s = Ended -> h_wb s = Ended ->
  fold_left step sched s = mains (length (filter is_main sched)) s.
Proof.
  induction sched as [|a sched IH]; intros s HI E1 E2; [reflexivity|]. cbn [fold_left filter].
  destruct a; cbn [is_main].
  - assert (Hw : h_wl (main_step s) = h_wl s /\ h_wb (main_step s) = h_wb s).
    { destruct HI as (_ & _ & Hp & _); unfold pc_ok in Hp.
      apply main_step_workers; intros X; rewrite X in Hp; destruct Hp; congruence. }
    destruct Hw as [W1 W2]. cbn [length mains].
    apply (IH (main_step s)); [now apply (hinv_step s Main)|congruence|congruence].
  - replace (step s LeanWorker) with s by (cbn; now rewrite E1). now apply IH.
  - replace (step s BfsWorker) with s by (cbn; now rewrite E2). now apply IH.
Qed.

Lemma mains_plus n m (s : hstate) : mains (n + m) s = mains m (mains n s).
Proof. revert s. induction n as [|n IH]; intros s; [reflexivity|apply IH]. Qed.
Lemma mains_returned n (s : hstate) r : h_pc s = Returned r -> h_pc (mains n s) = Returned r.
Proof.
  revert s. induction n as [|n IH]; intros s H; [exact H|]. cbn. apply IH.
  destruct s as [p l b wl wb]. cbn in *. now subst.
Qed.

Theorem hybrid_live sched1 sched2 :
  h_wl (h_run lean_out bfs_out sched1) = Ended -> h_wb (h_run lean_out bfs_out sched1) = Ended ->
  (8 <= length (filter is_main sched2))%nat -> will_return ->
  exists r, h_result lean_out bfs_out (sched1 ++ sched2) = Some r.
Proof.
  intros E1 E2 Hn W. unfold h_result, h_run. rewrite fold_left_app.
  change (fold_left step sched1 h_init) with (h_run lean_out bfs_out sched1).
  rewrite run_ended; [|apply hinv_run|exact E1|exact E2].
  destruct (live_cells _ (hinv_run sched1) E1 E2 W) as (r & Hr).
  replace (length (filter is_main sched2)) with (8 + (length (filter is_main sched2) - 8))%nat by lia.
  rewrite mains_plus. rewrite (mains_returned _ _ r Hr). eauto.
Qed.

(** If a search raised and the other found nothing, no schedule ever returns. *)
Theorem hybrid_hang sched : ~ will_return -> h_result lean_out bfs_out sched = None.
Proof.
  intros W. destruct (h_result lean_out bfs_out sched) as [r|] eqn:E; [exfalso|reflexivity].
  apply W. unfold will_return. destruct (hybrid_safe _ _ E) as [(p & _ & [H|H])|(_ & H1 & H2)]; eauto.
Qed.

Theorem serial_spec :
  match serial_result lean_out bfs_out with
  | Some (Some p) => lean_out = Ok (Some p) \/ bfs_out = Ok (Some p)
  | Some None => lean_out = Ok None /\ bfs_out = Ok None
  | None => ~ will_return
  end.
Proof.
  unfold serial_result, serial_cells, will_return, finish.
  destruct lean_out as [[p|]|e]; destruct bfs_out as [[q|]|e']; cbn; auto;
    intros [(x & [=])|[(x & [=])|[[=] [=]]]].
Qed.
End HF.
