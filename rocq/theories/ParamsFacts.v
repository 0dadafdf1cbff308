(** * Facts about [Params]: what saving does, what loading reads *)
From Coq Require Import String.
From Verif Require Import Py Json JsonFacts JsonFacts2 Params ParamsSpec.
Local Open Scope N_scope.

Lemma str_dec (a b : str) : {a = b} + {a <> b}.
Proof. apply list_eq_dec, N.eq_dec. Qed.
Lemma paths_differ mc : ini_path mc <> bak_path mc.
Proof. unfold ini_path, bak_path. intros E. apply app_inv_head in E. vm_compute in E. discriminate E. Qed.

(** ** The disk *)
Lemma upd_same d p x : upd d p x p = x.
Proof. unfold upd. now rewrite seqb_refl. Qed.
Lemma upd_other d p x q : q <> p -> upd d p x q = d q.
Proof. intros H. unfold upd. destruct (seqb q p) eqn:E; [apply seqb_eq in E; easy|reflexivity]. Qed.
Lemma run_app a b d : run (a ++ b) d = run b (run a d).
Proof. apply fold_left_app. Qed.
Lemma run_appends p x : forall d y, d p = Some y -> run (map (Append p) x) d p = Some (y ++ x) /\ forall q, q <> p -> run (map (Append p) x) d q = d q.
Proof.
  induction x as [|c x IH]; intros d y E.
  - rewrite app_nil_r. now split.
  - change (run (map (Append p) (c :: x)) d) with (run (map (Append p) x) (dstep d (Append p c))).
    destruct (IH (dstep d (Append p c)) (y ++ [c])) as [A B].
    + cbn [dstep]. rewrite E. apply upd_same.
    + split; [rewrite A; now rewrite <- app_assoc|]. intros q Hq. rewrite (B q Hq). cbn [dstep]. now apply upd_other.
Qed.
Lemma run_write p x d : run (write_ops p x) d p = Some x /\ forall q, q <> p -> run (write_ops p x) d q = d q.
Proof.
  change (run (write_ops p x) d) with (run (map (Append p) x) (upd d p (Some []))).
  destruct (run_appends p x (upd d p (Some [])) [] (upd_same _ _ _)) as [A B]. split; [exact A|].
  intros q Hq. rewrite (B q Hq). now apply upd_other.
Qed.
Lemma write_len p x : length (write_ops p x) = Datatypes.S (length x).
Proof. cbn. now rewrite map_length. Qed.
Lemma firstn_write p x n : (0 < n)%nat -> firstn n (write_ops p x) = write_ops p (firstn (n - 1) x).
Proof.
  intros H. destruct n as [|n]; [lia|]. unfold write_ops. cbn [firstn]. f_equal.
  replace (Datatypes.S n - 1)%nat with n by lia. now rewrite firstn_map.
Qed.

(** ** Saving *)
Lemma keys_all k : In k keys.
Proof. destruct k; cbn; tauto. Qed.
Lemma keys_NoDup : NoDup keys.
Proof. unfold keys. repeat constructor; cbn [In]; intuition discriminate. Qed.
Lemma key_eqb_refl k : key_eqb k k = true.
Proof. apply seqb_refl. Qed.
Lemma kname_inj a b : kname a = kname b -> a = b.
Proof. intros E. apply (proj2 (seqb_eq _ _)) in E. destruct a, b; try reflexivity; vm_compute in E; discriminate E. Qed.
Lemma key_eqb_eq a b : key_eqb a b = true <-> a = b.
Proof. unfold key_eqb. rewrite seqb_eq. split; [apply kname_inj|now intros ->]. Qed.
Lemma with_key_same k v f : with_key k v f k = v.
Proof. unfold with_key. now rewrite key_eqb_refl. Qed.
Lemma with_key_other k v f k' : k' <> k -> with_key k v f k' = f k'.
Proof. intros H. unfold with_key. destruct (key_eqb k' k) eqn:E; [apply key_eqb_eq in E; easy|reflexivity]. Qed.

Lemma plain_check x : forallb (fun c => (c <? 1114112) && negb (is_high c)) x = true -> Forall plain_char x.
Proof.
  intros H. rewrite forallb_forall in H. apply Forall_forall. intros c Hc. apply H in Hc. apply andb_prop in Hc. destruct Hc as [A B].
  split; [now apply N.ltb_lt|now destruct (is_high c)].
Qed.
Lemma kname_plain k : Forall plain_char (kname k).
Proof. apply plain_check. destruct k; reflexivity. Qed.
Lemma saved_names mc f : map fst (match saved_object mc f with JObj l => l | _ => [] end) = map kname keys.
Proof. reflexivity. Qed.
Lemma names_NoDup : NoDup (map kname keys).
Proof.
  assert (forall l, NoDup l -> NoDup (map kname l)) as H.
  - induction l as [|k l IH]; intros H; [constructor|]. inversion H; subst. cbn [map]. constructor; [|now apply IH].
    intros Hi. apply in_map_iff in Hi. destruct Hi as (k' & E & Hk'). apply kname_inj in E. subst. contradiction.
  - apply H, keys_NoDup.
Qed.
Lemma savable_writable mc f : savable mc f <-> writable (saved_object mc f).
Proof.
  unfold saved_object. rewrite writable_obj. split.
  - intros H. split; [exact names_NoDup|]. apply Forall_forall. intros e He. apply in_map_iff in He. destruct He as (k & <- & _).
    split; [apply kname_plain|apply H].
  - intros [_ H] k. rewrite Forall_forall in H. apply (H (kname k, saved mc f k)).
    apply in_map_iff. exists k. split; [reflexivity|apply keys_all].
Qed.
Definition stxt (mc : machine) (f : settings) : str := txt (saved_object mc f).
Lemma save_effect mc w : savable mc (p_set (w_par w)) ->
  save_params mc w = (Ok tt, World (w_par w)
    (run (write_ops (bak_path mc) (stxt mc (p_set (w_par w)))) (run (write_ops (ini_path mc) (stxt mc (p_set (w_par w)))) (w_disk w)))
    ((w_log w ++ write_ops (ini_path mc) (stxt mc (p_set (w_par w)))) ++ write_ops (bak_path mc) (stxt mc (p_set (w_par w))))).
Proof.
  intros H. apply savable_writable, jwrite_txt in H. unfold save_params, dump_to, pbind, pget. cbn [fst snd].
  rewrite H. reflexivity.
Qed.
Lemma save_par mc w : w_par (snd (save_params mc w)) = w_par w.
Proof.
  unfold save_params, dump_to, pbind, pget. destruct (jwrite (saved_object mc (p_set (w_par w)))) as [x [|]]; reflexivity.
Qed.
Lemma kept_trans mc w w1 w2 : w_par w1 = w_par w1 -> (forall p, w_disk w1 p = w_disk w p) -> kept_on_disk mc w1 w2 -> kept_on_disk mc w w2.
Proof.
  intros _ H (t & A & B & C & D). exists t. split; [exact A|]. split; [exact B|]. split; [exact C|].
  intros p H1 H2. rewrite (D p H1 H2). apply H.
Qed.
Lemma save_kept mc w : savable mc (p_set (w_par w)) -> fst (save_params mc w) = Ok tt /\ kept_on_disk mc w (snd (save_params mc w)).
Proof.
  intros H. rewrite save_effect by exact H. cbn [fst snd]. split; [reflexivity|].
  exists (stxt mc (p_set (w_par w))). cbn [w_par w_disk].
  destruct (run_write (ini_path mc) (stxt mc (p_set (w_par w))) (w_disk w)) as [A B].
  match goal with |- context [run (write_ops (bak_path mc) ?x) ?d] => destruct (run_write (bak_path mc) x d) as [C D] end.
  split; [apply jwrite_txt, savable_writable, H|]. split; [rewrite D by apply paths_differ; exact A|]. split; [exact C|].
  intros p H1 H2. rewrite (D p H2). now apply B.
Qed.

(** ** Loading *)
Lemma oget_saved mc f k : oget (kname k) (map (fun k => (kname k, saved mc f k)) keys) = Some (saved mc f k).
Proof. destruct k; reflexivity. Qed.
Lemma lookup_saved mc f k : lookup (kname k) (saved_object mc f) = Ok (Some (saved mc f k)).
Proof. unfold saved_object, lookup. now rewrite oget_saved. Qed.

(** what a file of settings gives, when nothing in it is refused *)
Lemma read_keys_all mc o g : forall ks w, NoDup ks ->
  (forall k, In k ks -> k <> KFolder -> read_key mc o (p_set (w_par w) KFolder) k = Ok (g k)) ->
  (In KFolder ks -> read_key mc o (p_set (w_par w) KFolder) KFolder = Ok (g KFolder)) ->
  exists p, read_keys mc ks o w = (Ok tt, World p (w_disk w) (w_log w))
    /\ (forall k, p_set p k = if existsb (key_eqb k) ks then g k else p_set (w_par w) k)
    /\ p_memory p = p_memory (w_par w) /\ p_thread p = p_thread (w_par w) /\ p_multi p = p_multi (w_par w) /\ p_warned p = p_warned (w_par w) /\ p_net_fvf p = p_net_fvf (w_par w).
Proof.
  induction ks as [|k ks IH]; intros w N H HF.
  - exists (w_par w). destruct w. cbn. auto 10.
  - inversion N as [|? ? Hk N']; subst.
    assert (read_key mc o (p_set (w_par w) KFolder) k = Ok (g k)) as Ek.
    { destruct (key_eqb k KFolder) eqn:E; [apply key_eqb_eq in E; subst k; apply HF; now left|].
      apply H; [now left|]. intros ->. now rewrite key_eqb_refl in E. }
    cbn [read_keys]. unfold pbind at 1 2, pget, plift. rewrite Ek. unfold pbind, pmod. cbn [fst snd].
    set (w1 := World (set_key k (g k) (w_par w)) (w_disk w) (w_log w)).
    assert (forall k', p_set (w_par w1) k' = if key_eqb k' k then g k else p_set (w_par w) k') as S1.
    { intros k'. unfold w1. cbn [w_par set_key p_set]. reflexivity. }
    destruct (IH w1 N') as (p & E & S & M).
    + intros k' Hi Hf. destruct (key_eqb k KFolder) eqn:EF.
      * specialize (H k' (or_intror Hi) Hf).
        assert (forall a b, k' <> KFolder -> read_key mc o a k' = read_key mc o b k') as Ind.
        { intros a b Hn. destruct k'; try reflexivity. contradiction. }
        rewrite (Ind _ (p_set (w_par w) KFolder) Hf). exact H.
      * rewrite S1. destruct (key_eqb KFolder k) eqn:EF'; [apply key_eqb_eq in EF'; subst k; now rewrite key_eqb_refl in EF|]. apply H; [now right|exact Hf].
    + intros Hi. rewrite S1. destruct (key_eqb KFolder k) eqn:EF; [apply key_eqb_eq in EF; subst k; contradiction|]. apply HF. now right.
    + exists p. split; [exact E|]. split; [|exact M].
      intros k'. rewrite S, S1. cbn [existsb]. destruct (existsb (key_eqb k') ks) eqn:EX; [now rewrite Bool.orb_true_r|].
      rewrite Bool.orb_false_r. destruct (key_eqb k' k) eqn:EK; [apply key_eqb_eq in EK; now subst|reflexivity].
Qed.

Lemma read_saved mc f old k : (k <> KFolder \/ folder_there mc f) -> read_key mc (saved_object mc f) old k = Ok (f k).
Proof.
  intros H. unfold read_key. rewrite lookup_saved. cbn [rbind]. destruct k; try reflexivity. destruct H as [H|H]; [contradiction|].
  destruct H as (x & E & H). cbn [saved]. rewrite E. unfold folder_none. destruct (seqb x (m_dir mc)) eqn:S.
  - apply seqb_eq in S. now subst.
  - destruct H as [->|H]; [now rewrite seqb_refl in S|]. cbn [is_dir rbind]. now rewrite H.
Qed.
Lemma read_saved_file mc f d p : savable mc f -> d p = Some (stxt mc f) -> forall w, w_disk w = d -> read_file p w = (Ok (saved_object mc f), w).
Proof.
  intros S E w W. unfold read_file, pbind, pdisk. rewrite W, E. unfold plift, stxt. now rewrite jload_txt by (apply savable_writable, S).
Qed.
(** the settings of the session that follows: [f] in the file, [g] in its copy *)
Definition merged (f g : settings) (k : key) : jval := if truth (f KVersion) then (if existsb (key_eqb k) restored_keys then g k else f k) else f k.
Lemma load_saved mc f g d w : savable mc f -> folder_there mc f -> d (ini_path mc) = Some (stxt mc f) ->
  (truth (f KVersion) = true -> d (bak_path mc) = None /\ g = f \/ d (bak_path mc) = Some (stxt mc g) /\ savable mc g /\ folder_there mc g) ->
  w_disk w = d ->
  exists p, load_params mc w = (Ok tt, World p d (w_log w)) /\ (forall k, p_set p k = merged f g k)
    /\ p_memory p = p_memory (w_par w) /\ p_thread p = p_thread (w_par w) /\ p_multi p = p_multi (w_par w) /\ p_warned p = p_warned (w_par w) /\ p_net_fvf p = p_net_fvf (w_par w).
Proof.
  intros S F I B W. subst d. unfold load_params. unfold pbind at 1, pdisk at 1. unfold is_file at 1. rewrite I.
  unfold pbind at 1. rewrite (read_saved_file mc f _ _ S I w eq_refl). unfold pbind at 1.
  destruct (read_keys_all mc (saved_object mc f) f keys w keys_NoDup) as (p & E & P1 & M).
  { intros k _ Hk. apply read_saved. now left. }
  { intros _. apply read_saved. now right. }
  rewrite E. unfold pbind at 1 2, pget, pdisk. cbn [w_par w_disk].
  assert (forall k, p_set p k = f k) as P2.
  { intros k. rewrite P1. now replace (existsb (key_eqb k) keys) with true by (destruct k; reflexivity). }
  rewrite P2. unfold merged. destruct (truth (f KVersion)) eqn:T.
  - destruct (B eq_refl) as [(Ib & ->)|(Ib & Sg & Fg)]; unfold is_file; rewrite Ib; cbn [andb].
    { exists p. split; [reflexivity|]. split; [|exact M]. intros k. rewrite P2. now destruct (existsb (key_eqb k) restored_keys). }
    unfold pbind at 1. rewrite (read_saved_file mc g (w_disk w) _ Sg Ib (World p (w_disk w) (w_log w)) eq_refl).
    destruct (read_keys_all mc (saved_object mc g) g restored_keys (World p (w_disk w) (w_log w))) as (p' & E' & P1' & M').
    { unfold restored_keys. repeat constructor; cbn [In]; intuition discriminate. }
    { intros k _ Hk. apply read_saved. now left. }
    { intros _. apply read_saved. now right. }
    exists p'. rewrite E'. split; [reflexivity|]. cbn [w_par] in *. split; [intros k; rewrite P1', P2; reflexivity|].
    destruct M as (M1 & M2 & M3 & M4 & M5). destruct M' as (N1 & N2 & N3 & N4 & N5).
    repeat split; congruence.
  - cbn [andb]. exists p. auto.
Qed.
Definition parallel_at_start (mc : machine) (v : jval) : jval := if m_threads mc then v else JBool false.
Definition starts_with (mc : machine) (f : settings) (w : world) : Prop :=
  (forall k, setting w k = match k with KParallel => parallel_at_start mc (f KParallel) | _ => f k end)
  /\ p_memory (w_par w) = negb (truth (f KReload)) /\ p_thread (w_par w) = m_threads mc /\ p_multi (w_par w) = false /\ p_net_fvf (w_par w) = JNull.
Lemma next_saved mc f g d : savable mc f -> folder_there mc f -> d (ini_path mc) = Some (stxt mc f) ->
  (truth (f KVersion) = true -> d (bak_path mc) = None /\ g = f \/ d (bak_path mc) = Some (stxt mc g) /\ savable mc g /\ folder_there mc g) ->
  exists w, next_session mc d = (Ok tt, w) /\ starts_with mc (merged f g) w /\ w_disk w = d /\ w_log w = [].
Proof.
  intros S F I B. unfold next_session, init, pbind at 1, pmod at 1. cbn [blank_world w_par w_disk w_log]. unfold pbind at 1.
  destruct (load_saved mc f g d (World (initial mc) d []) S F I B eq_refl) as (p & E & P & M1 & M2 & M3 & M4 & M5).
  rewrite E. unfold pmod. cbn [w_par w_disk w_log].
  eexists. split; [reflexivity|]. unfold starts_with, setting. cbn [w_par p_set p_memory p_thread p_multi p_net_fvf].
  split; [|split; reflexivity]. split; [|rewrite P; auto].
  intros k. destruct k; rewrite ?with_key_same, ?with_key_other by discriminate; rewrite ?P; reflexivity.
Qed.
