(** * Any history of sessions, ended or killed, leaves a disk that is never wrong *)
From Coq Require Import String.
From Verif Require Import Py Json JsonFacts JsonFacts2 Params ParamsSpec ParamsFacts SwitchFacts ParamsFacts2 Startup StartSpec StartFacts StartFacts2.
Local Open Scope N_scope.

(** ** Paths of different folders *)
Lemma app_last_cases {X} (f g a b : list X) : f ++ a = g ++ b -> (exists k, a = k ++ b) \/ (exists k, b = k ++ a).
Proof.
  revert g. induction f as [|c f IH]; intros g E.
  - left. exists g. exact E.
  - destruct g as [|e g]; [right; exists (c :: f); symmetry; exact E|]. injection E as _ E. now apply (IH g).
Qed.
Definition not_suffix (a b : str) : bool := negb (seqb (skipn (length b - length a) b) a).
Lemma suffix_free a b : not_suffix a b = true -> forall k, b <> k ++ a.
Proof.
  intros H k ->. unfold not_suffix in H. rewrite app_length in H. replace (length k + length a - length a)%nat with (length k) in H by lia.
  rewrite skipn_app, skipn_all, Nat.sub_diag in H. cbn [skipn Datatypes.app] in H. now rewrite seqb_refl in H.
Qed.
Lemma suffix_check : forallb (fun a => forallb (fun b => seqb a b || not_suffix a b) cache_names) cache_names = true.
Proof. vm_compute. reflexivity. Qed.
Lemma names_apart a b : In a cache_names -> In b cache_names -> a <> b -> forall f g : str, f ++ a <> g ++ b.
Proof.
  intros Ha Hb Ne f g E.
  assert (forall c e, In c cache_names -> In e cache_names -> c <> e -> not_suffix c e = true) as N.
  { intros c e Hc He K. pose proof suffix_check as Q. rewrite forallb_forall in Q. specialize (Q c Hc). rewrite forallb_forall in Q. specialize (Q e He).
    destruct (seqb c e) eqn:Se; [apply seqb_eq in Se; contradiction|exact Q]. }
  assert (not_suffix a b = true) as N1 by auto. assert (not_suffix b a = true) as N2 by auto.
  destruct (app_last_cases _ _ _ _ E) as [(k & K)|(k & K)]; [exact (suffix_free _ _ N2 k K)|exact (suffix_free _ _ N1 k K)].
Qed.
Lemma same_name f g a : seqb (f ++ a) (g ++ a) = seqb f g.
Proof.
  destruct (seqb f g) eqn:E; [apply seqb_eq in E; subst; apply seqb_refl|]. apply seqb_neq in E. apply seqb_neq. intros K. apply app_inv_tail in K. contradiction.
Qed.
Lemma seqb_names a b f g : In a cache_names -> In b cache_names -> seqb (f ++ a) (g ++ b) = seqb f g && seqb a b.
Proof.
  intros Ha Hb. destruct (seqb a b) eqn:E.
  - apply seqb_eq in E. subst. rewrite same_name. now rewrite Bool.andb_true_r.
  - rewrite Bool.andb_false_r. apply seqb_neq. apply names_apart; [exact Ha|exact Hb|now apply seqb_neq].
Qed.

Section History.
Variable mc : machine.
Variable L : library.
Variable x : l_net L.
Hypothesis CP : cloudpickle L = true.
Hypothesis NET : network L (base L) = Ok x.
Hypothesis FULL : writable (create L (base L)).
Hypothesis OBJ : ~ is_number (create L (base L)).
Hypothesis ROOT : m_isdir mc (u "/") = true.
Hypothesis HOME : Forall plain_char (m_dir mc).

(** ** Disks that are never wrong: [b] allows files that were cut short *)
Definition whole (b : bool) (right : str -> Prop) (o : option str) : Prop :=
  match o with None => True | Some y => right y \/ (b = true /\ exists z, right z /\ cut z y) end.
Definition usable (f : settings) : Prop := savable mc f /\ folder_there mc f.
Definition is_settings (y : str) : Prop := exists f, usable f /\ y = stxt mc f.
Definition is_net (y : str) : Prop := exists m, y = dump (c_net L) (x, m).
Definition is_dict (y : str) : Prop := y = txt (create L (base L)).
Definition is_temp (y : str) : Prop := y = dump (c_temp L) (temp0 L).
Definition is_names (y : str) : Prop := y = dump (c_names L) (names0 L).
Definition tidy_folder (b : bool) (d : files) (F : str) : Prop :=
  whole b is_net (d (F ++ f_net)) /\ whole b is_dict (d (F ++ f_dict)) /\ whole b is_temp (d (F ++ f_temp)) /\ whole b is_names (d (F ++ f_names))
  /\ (d (F ++ f_temp) = None \/ d (F ++ f_names) = None -> d (F ++ f_net) = None \/ d (F ++ f_dict) = None).
Definition tidy (b : bool) (d : files) : Prop :=
  whole b is_settings (d (ini_path mc)) /\ whole b is_settings (d (bak_path mc)) /\ forall F, tidy_folder b d F.
Lemma whole_weak b r o : whole false r o -> whole b r o.
Proof. destruct o as [y|]; [|auto]. intros [H|[H _]]; [now left|discriminate H]. Qed.
Lemma tidy_weak b d : tidy false d -> tidy b d.
Proof.
  intros (A & B & C). split; [now apply whole_weak|]. split; [now apply whole_weak|]. intros F. destruct (C F) as (C1 & C2 & C3 & C4 & C5).
  split; [now apply whole_weak|]. split; [now apply whole_weak|]. split; [now apply whole_weak|]. split; [now apply whole_weak|]. exact C5.
Qed.

(** one file of a disk replaced *)
Definition put (d : files) (p : str) (o : option str) : files := fun q => if seqb q p then o else d q.
Lemma tidy_ext b d d' : (forall q, d q = d' q) -> tidy b d -> tidy b d'.
Proof. intros H (A & B & C). unfold tidy, tidy_folder in *. rewrite <- !H. split; [exact A|]. split; [exact B|]. intros F. rewrite <- !H. apply C. Qed.
Lemma put_at d p o : put d p o p = o. Proof. unfold put. now rewrite seqb_refl. Qed.
Lemma put_cache d F n o F' n' : In n cache_names -> In n' cache_names -> put d (F ++ n) o (F' ++ n') = if seqb F' F && seqb n' n then o else d (F' ++ n').
Proof. intros H H'. unfold put. now rewrite seqb_names. Qed.
Lemma put_cache_ini d F n o : In n cache_names -> put d (F ++ n) o (ini_path mc) = d (ini_path mc).
Proof. intros H. unfold put. now rewrite ini_cache. Qed.
Lemma put_cache_bak d F n o : In n cache_names -> put d (F ++ n) o (bak_path mc) = d (bak_path mc).
Proof. intros H. unfold put. now rewrite bak_cache. Qed.
Lemma put_ini b d o : whole b is_settings o -> tidy b d -> tidy b (put d (ini_path mc) o).
Proof.
  intros H (A & B & C). split; [rewrite put_at; exact H|]. split; [unfold put; rewrite c_bak_ini; exact B|].
  intros F. unfold tidy_folder, put. rewrite c_net_ini, c_dict_ini, c_temp_ini, c_names_ini. exact (C F).
Qed.
Lemma put_bak b d o : whole b is_settings o -> tidy b d -> tidy b (put d (bak_path mc) o).
Proof.
  intros H (A & B & C). split; [unfold put; rewrite ini_bak; exact A|]. split; [rewrite put_at; exact H|].
  intros F. unfold tidy_folder, put. rewrite c_net_bak, c_dict_bak, c_temp_bak, c_names_bak. exact (C F).
Qed.
Ltac cached := rewrite ?put_cache by (first [apply in_net|apply in_dict|apply in_temp|apply in_names|apply in_mem]).
Lemma put_file b d F n o : In n cache_names -> tidy b d -> tidy_folder b (put d (F ++ n) o) F -> tidy b (put d (F ++ n) o).
Proof.
  intros H (A & B & C) K. split; [rewrite put_cache_ini by exact H; exact A|]. split; [rewrite put_cache_bak by exact H; exact B|].
  intros F'. destruct (seqb F' F) eqn:E; [apply seqb_eq in E; now subst|].
  unfold tidy_folder. rewrite !put_cache by (first [exact H|apply in_net|apply in_dict|apply in_temp|apply in_names]). rewrite E. exact (C F').
Qed.
Lemma put_mem b d F o : tidy b d -> tidy b (put d (F ++ f_mem) o).
Proof.
  intros T. apply put_file; [apply in_mem|exact T|]. unfold tidy_folder. cached. rewrite seqb_refl, ne_net_mem, ne_dict_mem, ne_temp_mem, ne_names_mem. exact (proj2 (proj2 T) F).
Qed.
Lemma put_temp b d F y : whole b is_temp (Some y) -> tidy b d -> tidy b (put d (F ++ f_temp) (Some y)).
Proof.
  intros H T. apply put_file; [apply in_temp|exact T|]. unfold tidy_folder. cached. rewrite seqb_refl, ne_net_temp, ne_dict_temp, ne_temp_temp, ne_names_temp. cbn [andb].
  destruct T as (_ & _ & C). destruct (C F) as (C1 & C2 & C3 & C4 & C5).
  split; [exact C1|]. split; [exact C2|]. split; [exact H|]. split; [exact C4|]. intros [K|K]; [discriminate K|auto].
Qed.
Lemma put_names b d F y : whole b is_names (Some y) -> tidy b d -> tidy b (put d (F ++ f_names) (Some y)).
Proof.
  intros H T. apply put_file; [apply in_names|exact T|]. unfold tidy_folder. cached. rewrite seqb_refl, ne_net_names, ne_dict_names, ne_temp_names, ne_names_names. cbn [andb].
  destruct T as (_ & _ & C). destruct (C F) as (C1 & C2 & C3 & C4 & C5).
  split; [exact C1|]. split; [exact C2|]. split; [exact C3|]. split; [exact H|]. intros [K|K]; [auto|discriminate K].
Qed.
Lemma put_net b d F o : whole b is_net o -> d (F ++ f_temp) <> None -> d (F ++ f_names) <> None -> tidy b d -> tidy b (put d (F ++ f_net) o).
Proof.
  intros H N1 N2 T. apply put_file; [apply in_net|exact T|]. unfold tidy_folder. cached. rewrite seqb_refl, ne_net_net, ne_dict_net, ne_temp_net, ne_names_net. cbn [andb].
  destruct T as (_ & _ & C). destruct (C F) as (C1 & C2 & C3 & C4 & C5).
  split; [exact H|]. split; [exact C2|]. split; [exact C3|]. split; [exact C4|]. intros [K|K]; contradiction.
Qed.
Lemma put_dict b d F o : whole b is_dict o -> d (F ++ f_temp) <> None -> d (F ++ f_names) <> None -> tidy b d -> tidy b (put d (F ++ f_dict) o).
Proof.
  intros H N1 N2 T. apply put_file; [apply in_dict|exact T|]. unfold tidy_folder. cached. rewrite seqb_refl, ne_net_dict, ne_dict_dict, ne_temp_dict, ne_names_dict. cbn [andb].
  destruct T as (_ & _ & C). destruct (C F) as (C1 & C2 & C3 & C4 & C5).
  split; [exact C1|]. split; [exact H|]. split; [exact C3|]. split; [exact C4|]. intros [K|K]; contradiction.
Qed.

(** ** From one world to another, through disks that are never wrong *)
Definition grows (w w' : world) : Prop :=
  tidy true (w_disk w) -> exists ops, w_log w' = w_log w ++ ops /\ w_disk w' = run ops (w_disk w)
    /\ (forall n, tidy true (run (firstn n ops) (w_disk w))) /\ (tidy false (w_disk w) -> tidy false (w_disk w')).
Lemma grows_end w w' : grows w w' -> tidy true (w_disk w) -> tidy true (w_disk w').
Proof. intros G T. destruct (G T) as (ops & _ & -> & H & _). specialize (H (length ops)). now rewrite firstn_all in H. Qed.
Lemma grows_same w w' : w_disk w' = w_disk w -> w_log w' = w_log w -> grows w w'.
Proof.
  intros D Lg T. exists []. rewrite app_nil_r. split; [exact Lg|]. split; [exact D|]. split; [intros n; rewrite firstn_nil; exact T|now rewrite D].
Qed.
Lemma grows_trans a b c : grows a b -> grows b c -> grows a c.
Proof.
  intros G H T. destruct (G T) as (o1 & L1 & D1 & P1 & F1). destruct (H (grows_end _ _ G T)) as (o2 & L2 & D2 & P2 & F2).
  exists (o1 ++ o2). split; [rewrite L2, L1; symmetry; apply app_assoc|]. split; [rewrite run_app, <- D1; exact D2|]. split; [|auto].
  intros n. rewrite firstn_app, run_app. destruct (Nat.le_gt_cases (length o1) n) as [K|K].
  - rewrite (firstn_all2 o1) by exact K. rewrite <- D1. apply P2.
  - replace (n - length o1)%nat with 0%nat by lia. apply P1.
Qed.
Lemma grows_wrote w p y : (forall z, z = y \/ cut y z -> tidy true (w_disk w) -> tidy true (put (w_disk w) p (Some z))) -> (tidy false (w_disk w) -> tidy false (put (w_disk w) p (Some y))) ->
  grows w (wrote w p y).
Proof.
  intros H H0 T. exists (write_ops p y). split; [reflexivity|]. split; [reflexivity|].
  assert (forall z q, run (write_ops p z) (w_disk w) q = put (w_disk w) p (Some z) q) as R.
  { intros z q. destruct (run_write p z (w_disk w)) as [A B]. unfold put. destruct (seqb q p) eqn:E; [apply seqb_eq in E; now subst|apply B; now apply seqb_neq]. }
  split.
  - intros [|n]; [exact T|]. rewrite firstn_write by lia. replace (Datatypes.S n - 1)%nat with n by lia.
    apply (tidy_ext true (put (w_disk w) p (Some (firstn n y)))); [intros q; symmetry; apply R|]. apply H; [|exact T].
    destruct (Nat.le_gt_cases (length y) n) as [K|K]; [left; now apply firstn_all2|right]. exists (skipn n y). split; [|symmetry; apply firstn_skipn].
    intros E. apply (f_equal (@length _)) in E. rewrite skipn_length in E. cbn [length] in E. lia.
  - intros T0. apply (tidy_ext false (put (w_disk w) p (Some y))); [intros q; symmetry; apply R|]. now apply H0.
Qed.
Definition dropped (w : world) (p : str) : world := if is_file (w_disk w) p then World (w_par w) (run [Remove p] (w_disk w)) (w_log w ++ [Remove p]) else w.
Lemma dropped_disk w p q : w_disk (dropped w p) q = put (w_disk w) p None q.
Proof.
  unfold dropped, put, is_file. destruct (w_disk w p) as [y|] eqn:E.
  - cbn [w_disk run fold_left dstep]. destruct (seqb q p) eqn:K; [apply seqb_eq in K; subst; apply upd_same|apply upd_other; now apply seqb_neq].
  - destruct (seqb q p) eqn:K; [apply seqb_eq in K; now subst|reflexivity].
Qed.
Lemma dropped_par w p : w_par (dropped w p) = w_par w.
Proof. unfold dropped. destruct (is_file (w_disk w) p); reflexivity. Qed.
Lemma grows_dropped w p : (forall b, tidy b (w_disk w) -> tidy b (put (w_disk w) p None)) -> grows w (dropped w p).
Proof.
  intros H T. exists (if is_file (w_disk w) p then [Remove p] else []). unfold dropped at 1 2. destruct (is_file (w_disk w) p) eqn:E.
  - split; [reflexivity|]. split; [reflexivity|]. assert (forall b, tidy b (w_disk w) -> tidy b (run [Remove p] (w_disk w))) as K.
    { intros b Tb. apply (tidy_ext b (put (w_disk w) p None)); [|now apply H]. intros q. rewrite <- dropped_disk. unfold dropped. now rewrite E. }
    split; [|intros T0; unfold dropped; rewrite E; now apply K].
    intros [|n]; [exact T|]. cbn [firstn]. rewrite firstn_nil. now apply K.
  - split; [now rewrite app_nil_r|]. split; [reflexivity|]. split; [intros n; rewrite firstn_nil; exact T|]. unfold dropped. now rewrite E.
Qed.

(** ** The steps of a start *)
Lemma grows_settled w : usable (p_set (w_par w)) -> grows w (settled mc w).
Proof.
  intros U. unfold settled. set (t := stxt mc (p_set (w_par w))). assert (is_settings t) as I by (exists (p_set (w_par w)); auto).
  assert (forall z, z = t \/ cut t z -> whole true is_settings (Some z)) as Wz by (intros z [->|K]; [now left|right; eauto]).
  assert (whole false is_settings (Some t)) as W0 by now left.
  eapply grows_trans; apply grows_wrote.
  - intros z Hz. apply put_ini, Wz, Hz.
  - apply put_ini, W0.
  - intros z Hz. apply put_bak, Wz, Hz.
  - apply put_bak, W0.
Qed.
Lemma grows_two w F : grows w (two_files L F w).
Proof.
  unfold two_files. destruct (truth (setting w KCache)); [|now apply grows_same].
  eapply grows_trans; apply grows_wrote; intros.
  - apply put_temp; [|assumption]. destruct H as [->|H]; [left; reflexivity|right; split; [reflexivity|]; eexists; split; [reflexivity|exact H]].
  - apply put_temp; [|assumption]. left. reflexivity.
  - apply put_names; [|assumption]. destruct H as [->|H]; [left; reflexivity|right; split; [reflexivity|]; eexists; split; [reflexivity|exact H]].
  - apply put_names; [|assumption]. left. reflexivity.
Qed.
Lemma usable_set w k b : usable (p_set (w_par w)) -> k <> KFolder -> usable (p_set (w_par (setp w k (JBool b)))).
Proof.
  intros [S (F & E & H)] K. split; [now apply setp_savable|]. exists F. split; [|exact H]. rewrite set_other by (intros E'; now apply K). exact E.
Qed.
Lemma grows_setp w k v : grows w (setp w k v). Proof. now apply grows_same. Qed.
Lemma two_there w F : truth (setting w KCache) = true -> w_disk (two_files L F w) (F ++ f_temp) <> None /\ w_disk (two_files L F w) (F ++ f_names) <> None.
Proof. intros C. rewrite !(two_disk L F w _ C). paths. split; discriminate. Qed.
Lemma grows_stored w F m : usable (p_set (w_par w)) ->
  (truth (setting w KCache) = true -> w_disk w (F ++ f_temp) <> None /\ w_disk w (F ++ f_names) <> None) -> grows w (stored mc L F w (base L) (x, m)).
Proof.
  intros U Th. unfold stored. set (w1 := settled mc (setp w KReload (JBool false))).
  assert (grows w w1) as G1 by (eapply grows_trans; [apply grows_setp|apply grows_settled, usable_set; [exact U|discriminate]]).
  destruct (truth (setting w KCache)) eqn:C; [|exact G1]. destruct (Th eq_refl) as [T1 T2].
  assert (w_disk w1 (F ++ f_temp) <> None /\ w_disk w1 (F ++ f_names) <> None) as [S1 S2].
  { unfold w1. rewrite !settled_disk. paths. rewrite setp_disk. auto. }
  eapply grows_trans; [exact G1|]. eapply grows_trans; apply grows_wrote; intros.
  - apply put_net; try assumption. destruct H as [->|H]; [left; eexists; reflexivity|right; split; [reflexivity|]; eexists; split; [eexists; reflexivity|exact H]].
  - apply put_net; try assumption. left. eexists. reflexivity.
  - apply put_dict; [| | |assumption].
    + destruct H as [->|H]; [left; reflexivity|right; split; [reflexivity|]; eexists; split; [reflexivity|exact H]].
    + rewrite wrote_disk. paths. exact S1.
    + rewrite wrote_disk. paths. exact S2.
  - apply put_dict; [left; reflexivity| | |assumption]; rewrite wrote_disk; paths; assumption.
Qed.
Lemma grows_shown w : usable (p_set (w_par w)) -> grows w (shown mc w).
Proof.
  intros U. unfold shown. destruct (truth (setting w KVersion)); [|now apply grows_same].
  eapply grows_trans; [apply grows_setp|apply grows_settled, usable_set; [exact U|discriminate]].
Qed.
Lemma shown_usable w : usable (p_set (w_par w)) -> usable (p_set (w_par (shown mc w))).
Proof. intros U. unfold shown. destruct (truth (setting w KVersion)); [|exact U]. apply (usable_set w KVersion false U). discriminate. Qed.

(** ** What the files give *)
Lemma boot_tidy w F : in_folder F w -> usable (p_set (w_par w)) -> tidy true (w_disk w) ->
  exists r w', boot mc L w = (r, w') /\ grows w w' /\ usable (p_set (w_par w')) /\ ((exists m, r = Ok (built_tables L x m)) \/ (exists e, r = Err e) /\ exists f y e, w_disk w (f ++ f_net) = Some y /\ undump (c_net L) y = Err e).
Proof.
  intros H U T. destruct U as [S Th]. assert (usable (p_set (w_par w))) as U by (split; assumption).
  destruct T as (_ & _ & C). destruct (C F) as (C1 & C2 & C3 & C4 & C5).
  destruct (files_cached F w) eqn:Fc.
  - (* the files are there *)
    assert (exists a b c e, w_disk w (F ++ f_dict) = Some a /\ w_disk w (F ++ f_net) = Some e /\ w_disk w (F ++ f_temp) = Some b /\ w_disk w (F ++ f_names) = Some c) as (a & b & c & e & Fd & Fn & Ft & Fs).
    { unfold files_cached, all_files, isf, is_file in Fc. destruct (negb (truth (setting w KReload))); [|discriminate Fc].
      destruct (w_disk w (F ++ f_dict)); [|discriminate Fc]. destruct (w_disk w (F ++ f_net)); [|discriminate Fc].
      destruct (w_disk w (F ++ f_temp)); [|discriminate Fc]. destruct (w_disk w (F ++ f_names)); [|discriminate Fc]. eexists _, _, _, _. auto. }
    rewrite Fd in C2. rewrite Fn in C1. rewrite Ft in C3. rewrite Fs in C4.
    destruct (reads_three L F w) as [[[D t] n]|er] eqn:R3.
    + assert (D = create L (base L) /\ t = temp0 L /\ n = names0 L) as (-> & -> & ->).
      { unfold reads_three, reads_dict, reads_temp, reads_names in R3. rewrite Fd, Ft, Fs in R3.
        destruct (jload a) as [D'|] eqn:Ja; [|discriminate R3]. cbn [rbind] in R3. destruct (undump (c_temp L) b) as [t'|] eqn:Ub; [|discriminate R3]. cbn [rbind] in R3.
        destruct (undump (c_names L) c) as [n'|] eqn:Uc; [|discriminate R3]. cbn [rbind] in R3. injection R3 as -> -> ->.
        split; [|split].
        - destruct C2 as [->|(_ & z & -> & K)]; [rewrite (jload_txt _ FULL) in Ja; now injection Ja|]. exfalso.
          rewrite (jload_cut _ _ FULL OBJ K) in Ja. discriminate Ja.
        - destruct C3 as [->|(_ & z & -> & K)]; [rewrite undump_dump in Ub; now injection Ub|]. destruct (undump_cut (c_temp L) _ _ K) as (er & E). congruence.
        - destruct C4 as [->|(_ & z & -> & K)]; [rewrite undump_dump in Uc; now injection Uc|]. destruct (undump_cut (c_names L) _ _ K) as (er & E). congruence. }
      destruct (reads_net L F w) as [[x' m]|er] eqn:Rn.
      * assert (x' = x) as ->.
        { unfold reads_net in Rn. rewrite Fn in Rn. destruct C1 as [(m' & ->)|(_ & z & (m' & ->) & K)]; [rewrite undump_dump in Rn; now injection Rn|].
          destruct (undump_cut (c_net L) _ _ K) as (er & E). congruence. }
        rewrite (cached_at mc L F w _ _ _ _ _ H CP Fc R3 Rn S). eexists. eexists. split; [reflexivity|].
        set (w1 := setp w KReload (JBool false)). assert (usable (p_set (w_par w1))) as U1 by (apply usable_set; [exact U|discriminate]).
        split; [eapply grows_trans; [apply (grows_setp w KReload (JBool false))|]; eapply grows_trans; [apply grows_settled, U1|apply grows_shown, U1]|].
        split; [apply shown_usable, U1|]. left. exists m. reflexivity.
      * destruct (broken_at mc L F w _ _ _ er H CP Fc R3 Rn) as (er' & ->). eexists. eexists. split; [reflexivity|].
        split; [apply grows_two|]. split; [rewrite two_par; exact U|]. right. split; [eauto|].
        unfold reads_net in Rn. rewrite Fn in Rn. exists F, e, er. split; [exact Fn|exact Rn].
    + rewrite (damaged_at mc L F w x er H CP Fc R3 S NET FULL).
      set (w1 := setp w KReload (JBool true)). set (w2 := two_files L F w1).
      assert (usable (p_set (w_par w1))) as U1 by (apply usable_set; [exact U|discriminate]).
      assert (usable (p_set (w_par w2))) as U2 by (unfold w2; rewrite two_par; exact U1).
      eexists. eexists. split; [reflexivity|].
      set (m := memory_of L F w2). clearbody m.
      assert (usable (p_set (w_par (stored mc L F w2 (base L) (x, m))))) as U3 by (rewrite stored_par; apply (usable_set w2 KReload false U2); discriminate).
      split; [|split; [apply shown_usable, U3|left; exists m; reflexivity]].
      eapply grows_trans; [apply (grows_setp w KReload (JBool true))|]. eapply grows_trans; [apply (grows_two w1 F)|]. fold w2.
      eapply grows_trans; [|apply grows_shown, U3]. apply grows_stored; [exact U2|]. intros Cc. apply two_there. unfold setting in *. unfold w2 in Cc. rewrite two_par in Cc. exact Cc.
  - (* they are not, or [reload] *)
    assert (files_cached F (two_files L F w) = false) as N2.
    { unfold files_cached, all_files, isf, is_file in *. unfold setting in *. rewrite two_par. destruct (negb (truth (p_set (w_par w) KReload))); [|reflexivity]. cbn [andb] in *.
      unfold two_files. destruct (truth (setting w KCache)); [|exact Fc]. rewrite !wrote_disk. paths.
      destruct (w_disk w (F ++ f_dict)); [|reflexivity]. destruct (w_disk w (F ++ f_net)); [|reflexivity]. cbn [andb] in *.
      destruct (w_disk w (F ++ f_temp)); [|destruct C5 as [K|K]; [now left|discriminate K|discriminate K]].
      destruct (w_disk w (F ++ f_names)); [|destruct C5 as [K|K]; [now right|discriminate K|discriminate K]]. discriminate Fc. }
    rewrite (scratch_at mc L F w x H CP Fc N2 S NET FULL). set (w2 := two_files L F w). set (m := memory_of L F w2). clearbody m.
    assert (usable (p_set (w_par w2))) as U2 by (unfold w2; rewrite two_par; exact U).
    assert (usable (p_set (w_par (stored mc L F w2 (base L) (x, m))))) as U3 by (rewrite stored_par; apply (usable_set w2 KReload false U2); discriminate).
    eexists. eexists. split; [reflexivity|]. split; [|split; [apply shown_usable, U3|left; exists m; reflexivity]].
    eapply grows_trans; [apply (grows_two w F)|]. fold w2. eapply grows_trans; [|apply grows_shown, U3]. apply grows_stored; [exact U2|].
    intros Cc. apply two_there. unfold setting in *. unfold w2 in Cc. rewrite two_par in Cc. exact Cc.
Qed.

(** ** The settings *)
Lemma usable_ext f g : (forall k, k <> KParallel -> f k = g k) -> (exists b, f KParallel = JBool b) \/ f KParallel = g KParallel -> usable g -> usable f.
Proof.
  intros E P [S (F & EF & HF)]. split.
  - intros k. specialize (S k). destruct k; cbn [saved] in *; rewrite ?E by discriminate; try exact S. destruct P as [(b & ->)|P]; [exact I|rewrite P; exact S].
  - exists F. split; [rewrite E by discriminate; exact EF|exact HF].
Qed.
Lemma starts_usable f w : starts_with mc f w -> usable f -> usable (p_set (w_par w)).
Proof.
  intros [S _] U. apply (usable_ext _ f); [|unfold setting in S; rewrite (S KParallel); unfold parallel_at_start; destruct (m_threads mc); [right; reflexivity|left; eauto]|exact U].
  intros k K. unfold setting in S. rewrite S. destruct k; try reflexivity. contradiction.
Qed.
Lemma merged_usable f g : usable f -> usable g -> usable (merged f g).
Proof.
  intros [S (F & EF & HF)] [S' (F' & EF' & HF')]. split.
  - intros k. specialize (S k). specialize (S' k). unfold merged. destruct (truth (f KVersion)); [|destruct k; exact S].
    destruct k; cbn [saved existsb key_eqb restored_keys orb] in *; first [exact S|exact S'].
  - unfold merged, folder_there. destruct (truth (f KVersion)); [exists F'|exists F]; auto.
Qed.
Lemma open_tidy d : tidy true d ->
  exists r w, next_session mc d = (r, w) /\ grows (blank_world d) w /\ (forall q, q <> ini_path mc -> w_disk w q = d q)
    /\ ((r = Ok tt /\ usable (p_set (w_par w))) \/ (exists e, r = Err e) /\ unreadable mc L d).
Proof.
  intros T. destruct T as (A & B & C). assert (tidy true d) as T by (split; [exact A|split; [exact B|exact C]]).
  destruct (d (ini_path mc)) as [y|] eqn:I.
  - assert (forall e w, next_session mc d = (Err e, w) -> w_disk w = d -> w_log w = [] -> unreadable mc L d ->
      exists r w, next_session mc d = (r, w) /\ grows (blank_world d) w /\ (forall q, q <> ini_path mc -> w_disk w q = d q) /\ ((r = Ok tt /\ usable (p_set (w_par w))) \/ (exists e, r = Err e) /\ unreadable mc L d)) as Bad.
    { intros e w E D Lg N. exists (Err e), w. split; [exact E|]. split; [apply grows_same; [exact D|exact Lg]|]. split; [intros q _; now rewrite D|]. right. eauto. }
    assert (forall f g, usable f -> usable g -> y = stxt mc f -> (truth (f KVersion) = true -> d (bak_path mc) = None /\ g = f \/ d (bak_path mc) = Some (stxt mc g)) ->
      exists r w, next_session mc d = (r, w) /\ grows (blank_world d) w /\ (forall q, q <> ini_path mc -> w_disk w q = d q) /\ ((r = Ok tt /\ usable (p_set (w_par w))) \/ (exists e, r = Err e) /\ unreadable mc L d)) as Good.
    { intros f g Uf Ug -> V. destruct (next_saved mc f g d (proj1 Uf) (proj2 Uf) I) as (w & E & St & D & Lg).
      - intros K. destruct (V K) as [K'|K']; [now left|right]. split; [exact K'|]. exact Ug.
      - exists (Ok tt), w. split; [exact E|]. split; [apply grows_same; [exact D|exact Lg]|]. split; [intros q _; now rewrite D|]. left. split; [reflexivity|].
        apply (starts_usable _ _ St). now apply merged_usable. }
    destruct A as [(f & Uf & ->)|(_ & z & (f & Uf & ->) & K)].
    + destruct (truth (f KVersion)) eqn:V.
      * destruct (d (bak_path mc)) as [y'|] eqn:Bk.
        { destruct B as [(g & Ug & ->)|(_ & z & (g & Ug & ->) & K)].
          - apply (Good f g Uf Ug eq_refl). auto.
          - destruct (next_broken_copy_log mc f g d y' (proj1 Uf) (proj2 Uf) V I (proj1 Ug) K Bk) as (w & E & D & Lg). apply (Bad _ _ E D Lg).
            right. left. exists y'. split; [exact Bk|]. exact (jload_cut _ _ (proj1 (savable_writable mc g) (proj1 Ug)) (fun H => H) K). }
        { apply (Good f f Uf Uf eq_refl). auto. }
      * apply (Good f f Uf Uf eq_refl). intros K. rewrite K in V. discriminate V.
    + destruct (next_broken_log mc f d y (proj1 Uf) K I) as (w & E & D & Lg). apply (Bad _ _ E D Lg).
      left. exists y. split; [exact I|]. exact (jload_cut _ _ (proj1 (savable_writable mc f) (proj1 Uf)) (fun H => H) K).
  - destruct (first_start_full mc d I) as (w & E & St & _ & Do & Lg & Dw). exists (Ok tt), w. split; [exact E|].
    assert (usable (first_settings mc)) as U1 by (split; [apply first_savable|apply first_there]).
    split; [|split; [exact Do|left; split; [reflexivity|exact (starts_usable _ _ St U1)]]].
    set (t := stxt mc (first_settings mc)) in *. assert (is_settings t) as It by (exists (first_settings mc); auto).
    assert (grows (blank_world d) (wrote (blank_world d) (ini_path mc) t)) as G.
    { apply grows_wrote; cbn [blank_world w_disk].
      - intros z Hz. apply put_ini. destruct Hz as [->|K]; [now left|right; eauto].
      - apply put_ini. now left. }
    eapply grows_trans; [exact G|]. apply grows_same; [exact Dw|exact Lg].
Qed.

(** ** The calls of a user *)
Definition no_disk (w w' : world) : Prop := w_disk w' = w_disk w /\ w_log w' = w_log w.
Definition quiet_or_saved (w w' : world) : Prop := no_disk w w' \/ exists w1, no_disk w w1 /\ w' = snd (save_params mc w1).
Lemma quiet w : quiet_or_saved w w. Proof. left. split; reflexivity. Qed.
Lemma saved_after w w1 : no_disk w w1 -> quiet_or_saved w (snd (save_params mc w1)). Proof. intros H. right. eauto. Qed.
Lemma saved_then {X} (r : X) w w1 : no_disk w w1 -> quiet_or_saved w (snd (pbind (save_params mc) (fun _ => pret r) w1)).
Proof. intros H. right. exists w1. split; [exact H|]. unfold pbind. destruct (save_params mc w1) as [[[]|e] w']; reflexivity. Qed.
Lemma switch_quiet k a w : quiet_or_saved w (snd (switch mc k a w)).
Proof.
  unfold switch, pbind at 1 2, pget, plift. destruct (switch_value (p_set (w_par w) k) a) as [b|e]; [|apply quiet].
  unfold pbind, pmod. apply saved_after. split; reflexivity.
Qed.
Lemma ignore_world {X} (m : P X) w : snd (ignore m w) = snd (m w).
Proof. unfold ignore, pbind. now destruct (m w) as [[v|e] w']. Qed.
Lemma limit_quiet k mx df cap a w : quiet_or_saved w (snd (limit mc k mx df cap a w)).
Proof.
  assert (forall v, quiet_or_saved w (snd (pbind (pmod (set_key k (JInt v))) (fun _ => pbind (save_params mc) (fun _ => pret (JInt v))) w))) as H.
  { intros v. unfold pbind at 1, pmod. apply saved_then. split; reflexivity. }
  destruct a as [|y|[|]|z|]; cbn [limit]; try apply quiet; try apply H.
  destruct (seqb (lower y) (u "max")); [apply H|apply quiet].
Qed.
Lemma store_quiet y w : quiet_or_saved w (snd (store_algorithm mc y w)).
Proof. unfold store_algorithm, pbind, pmod. apply saved_after. split; reflexivity. Qed.
Lemma method_quiet a w : quiet_or_saved w (snd (method_set_algorithm mc a w)).
Proof.
  destruct a as [y|]; [|apply quiet]. unfold method_set_algorithm. destruct (smem y algorithms); [|apply quiet].
  unfold pbind at 1, pget. destruct (seqb y (u "hybrid_BFS") && negb (p_thread (w_par w))); [|apply store_quiet].
  destruct (is_str (p_set (w_par w) KAlgo) (u "hybrid_BFS")); [apply store_quiet|]. left. split; reflexivity.
Qed.
Lemma pcall_quiet c w : c <> CDeleteCache -> quiet_or_saved w (snd (pcall mc c w)).
Proof.
  intros N. destruct c; cbn [pcall]; try (apply switch_quiet).
  - destruct a; cbn [verbose]; try apply switch_quiet. unfold pbind, pmod.
    match goal with |- context [switch mc KVerbose ?b ?w1] => destruct (switch_quiet KVerbose b w1) as [H|(w2 & H & E)] end.
    + left. exact H.
    + right. exists w2. split; [exact H|exact E].
  - unfold reload, pbind, pmod. apply saved_after. split; reflexivity.
  - rewrite ignore_world. unfold recursion_limit. refine (limit_quiet KMaxRec _ _ _ a w).
  - rewrite ignore_world. unfold generations_limit. refine (limit_quiet KMaxGen _ _ _ a w).
  - destruct a as [y|]; [|apply quiet]. cbn [set_algorithm]. destruct (smem y algorithms); [apply method_quiet|apply quiet].
  - apply method_quiet.
  - assert (forall b t m, quiet_or_saved w (snd (set_par3 b t m w))) as H by (intros; left; split; reflexivity).
    destruct a as [|b|y|]; cbn [set_parallel]; try apply H; [|apply quiet].
    destruct (strip y); [apply quiet|]. destruct (strip (lower y)) as [|e r]; [apply quiet|].
    destruct (e =? 116); [apply H|]. destruct (cmem e (u "mp")); apply H.
  - destruct path as [y|]; cbn [set_user_folder]; [destruct (m_isdir mc y)|]; left; split; reflexivity.
  - unfold set_density. destruct a as [|v|r|]; try apply quiet.
    + destruct (is_num v); [|apply quiet]. destruct (smem (lower units) gcc).
      * unfold pbind, pmod. apply saved_after. split; reflexivity.
      * destruct (conv v units) as [[v'|]|e]; [|apply quiet|destruct e; apply quiet]. unfold pbind, pmod. apply saved_after. split; reflexivity.
    + unfold pbind at 1, plift. destruct r as [v|e]; [|apply quiet]. unfold pbind, pmod. apply saved_after. split; reflexivity.
  - unfold set_fvf. destruct a; left; split; reflexivity.
  - apply saved_after. split; reflexivity.
  - now elim N.
Qed.
Lemma delete_steps F l : forall w, in_folder F w -> delete_each l w = (Ok tt, fold_left (fun w n => dropped w (F ++ n)) l w).
Proof.
  induction l as [|n l IH]; intros w H; [reflexivity|]. cbn [delete_each fold_left]. rewrite (pbind_ok _ _ _ _ _ (folder_at F w H)).
  unfold pbind at 1, pdisk. rewrite <- IH by (unfold in_folder, setting; rewrite dropped_par; exact H).
  unfold pbind, dropped. destruct (is_file (w_disk w) (F ++ n)); reflexivity.
Qed.
Lemma grows_delete F w : in_folder F w -> grows w (snd (delete_cache w)) /\ w_par (snd (delete_cache w)) = w_par w.
Proof.
  intros H. unfold delete_cache. rewrite (delete_steps F cache_names w H). cbn [snd].
  change cache_names with [f_mem; f_net; f_dict; f_temp; f_names]. cbn [fold_left].
  set (w1 := dropped w (F ++ f_mem)). set (w2 := dropped w1 (F ++ f_net)). set (w3 := dropped w2 (F ++ f_dict)). set (w4 := dropped w3 (F ++ f_temp)).
  assert (w_disk w2 (F ++ f_net) = None) as N2 by (unfold w2; rewrite dropped_disk; apply put_at).
  assert (w_disk w3 (F ++ f_net) = None) as N3 by (unfold w3; rewrite dropped_disk; unfold put; rewrite seqb_app_head, ne_net_dict; exact N2).
  assert (w_disk w4 (F ++ f_net) = None) as N4 by (unfold w4; rewrite dropped_disk; unfold put; rewrite seqb_app_head, ne_net_temp; exact N3).
  split; [|rewrite !dropped_par; unfold w4; rewrite dropped_par; unfold w3; rewrite dropped_par; unfold w2; rewrite dropped_par; apply dropped_par].
  assert (forall w0 n, In n [f_net; f_dict; f_temp; f_names] -> (n = f_temp \/ n = f_names -> w_disk w0 (F ++ f_net) = None) -> grows w0 (dropped w0 (F ++ n))) as G.
  { intros w0 n Hn K. apply grows_dropped. intros b T. assert (In n cache_names) as Hc by (cbn [In] in Hn; intuition (subst; first [apply in_net|apply in_dict|apply in_temp|apply in_names])).
    apply put_file; [exact Hc|exact T|]. destruct T as (_ & _ & C). destruct (C F) as (C1 & C2 & C3 & C4 & C5). unfold tidy_folder.
    rewrite !put_cache by (first [exact Hc|apply in_net|apply in_dict|apply in_temp|apply in_names]). rewrite seqb_refl. cbn [andb].
    cbn [In] in Hn. destruct Hn as [<-|[<-|[<-|[<-|[]]]]]; paths.
    - split; [exact I|]. split; [exact C2|]. split; [exact C3|]. split; [exact C4|]. now left.
    - split; [exact C1|]. split; [exact I|]. split; [exact C3|]. split; [exact C4|]. now right.
    - split; [exact C1|]. split; [exact C2|]. split; [exact I|]. split; [exact C4|]. left. apply K. now left.
    - split; [exact C1|]. split; [exact C2|]. split; [exact C3|]. split; [exact I|]. left. apply K. now right. }
  eapply grows_trans; [apply (grows_dropped w (F ++ f_mem)); intros b T; now apply put_mem|]. fold w1.
  eapply grows_trans; [apply (G w1 f_net); [cbn; tauto|intros [K|K]; discriminate K]|]. fold w2.
  eapply grows_trans; [apply (G w2 f_dict); [cbn; tauto|intros [K|K]; discriminate K]|]. fold w3.
  eapply grows_trans; [apply (G w3 f_temp); [cbn; tauto|auto]|]. fold w4.
  apply (G w4 f_names); [cbn; tauto|auto].
Qed.
Lemma call_usable c w : given mc c -> usable (p_set (w_par w)) -> usable (p_set (w_par (snd (pcall mc c w)))).
Proof. intros G [S F]. exact (calls_savable mc [c] w (Forall_cons c G (Forall_nil _)) ROOT HOME S F). Qed.
Lemma usable_folder w : usable (p_set (w_par w)) -> exists F, in_folder F w.
Proof. intros [_ (F & E & _)]. exists F. exact E. Qed.
Lemma act_grows a w : given_act mc a -> usable (p_set (w_par w)) -> grows w (run_act mc L w a) /\ usable (p_set (w_par (run_act mc L w a))).
Proof.
  intros G U. destruct (usable_folder w U) as (F & H). destruct a as [c|m]; cbn [run_act given_act] in *.
  - split; [|now apply call_usable]. pose proof (call_usable c w G U) as U'.
    assert (c = CDeleteCache \/ c <> CDeleteCache) as [->|N] by (destruct c; first [now left|right; discriminate]).
    + cbn [pcall]. exact (proj1 (grows_delete F w H)).
    + destruct (pcall_quiet c w N) as [[D Lg]|(w1 & [D Lg] & E)]; [now apply grows_same|]. rewrite E in *. rewrite save_par in U'.
      rewrite (save_settled mc w1 (proj1 U')). cbn [snd]. eapply grows_trans; [apply (grows_same w w1 D Lg)|]. now apply grows_settled.
  - unfold save. rewrite CP. rewrite (pickle_at F (c_mem L) f_mem m w H). cbn [snd wrote w_par]. split; [|exact U].
    apply grows_wrote; intros; now apply put_mem.
Qed.
Lemma acts_grow l : forall w, Forall (given_act mc) l -> usable (p_set (w_par w)) -> grows w (fold_left (run_act mc L) l w).
Proof.
  induction l as [|a l IH]; intros w G U; [now apply grows_same|]. inversion G; subst. cbn [fold_left].
  destruct (act_grows a w H1 U) as [A B]. eapply grows_trans; [exact A|]. now apply IH.
Qed.

(** ** Histories *)
Lemma start_tidy d : tidy true d ->
  exists r w, new_start mc L d = (r, w) /\ grows (blank_world d) w
    /\ ((exists m, r = Ok (built_tables L x m)) /\ usable (p_set (w_par w)) \/ (exists e, r = Err e) /\ unreadable mc L d).
Proof.
  intros T. destruct (open_tidy d T) as (r & w & E & G & Do & [(-> & U)|((e & ->) & N)]).
  - destruct (usable_folder w U) as (F & H). destruct (boot_tidy w F H U (grows_end _ _ G T)) as (r & w' & E' & G' & U' & Hr).
    exists r, w'. split; [unfold new_start, import_unyts; rewrite <- E'; exact (pbind_ok (init mc) (fun _ => boot mc L) _ tt w E)|].
    split; [eapply grows_trans; eassumption|]. destruct Hr as [Hr|(Hr & N)]; [left; auto|right]. split; [exact Hr|]. right. right.
    destruct N as (f & y & e & N1 & N2). exists f, y, e. split; [|exact N2]. rewrite <- Do; [exact N1|]. apply seqb_neq. exact (c_net_ini mc f).
  - exists (Err e), w. split; [exact (pbind_err (init mc) (fun _ => boot mc L) _ e w E)|]. split; [exact G|]. right. eauto.
Qed.
Lemma session_grows l d : tidy true d -> Forall (given_act mc) l -> grows (blank_world d) (snd (session mc L l d)).
Proof.
  intros T G. unfold session. destruct (start_tidy d T) as (r & w & -> & Gr & [((m & ->) & U)|((e & ->) & _)]); [|exact Gr].
  cbn [snd]. eapply grows_trans; [exact Gr|]. now apply acts_grow.
Qed.
Lemma left_tidy s d : tidy true d -> given_session mc s -> tidy true (disk_left mc L s d) /\ (snd s = None -> tidy false d -> tidy false (disk_left mc L s d)).
Proof.
  intros T G. destruct s as [l o]. unfold disk_left. cbn [fst snd]. pose proof (session_grows l d T G) as K. destruct (K T) as (ops & Lg & D & P & F).
  cbn [blank_world w_log w_disk Datatypes.app] in *. destruct o as [n|].
  - split; [rewrite Lg; apply P|discriminate].
  - split; [exact (grows_end _ _ K T)|auto].
Qed.
Lemma history_tidy l : forall d, tidy true d -> Forall (given_session mc) l ->
  tidy true (history mc L l d) /\ (Forall (fun s => snd s = None) l -> tidy false d -> tidy false (history mc L l d)).
Proof.
  induction l as [|s l IH]; intros d T G; [auto|]. inversion G; subst. destruct (left_tidy s d T H1) as [A B]. destruct (IH _ A H2) as [A' B'].
  split; [exact A'|]. intros N T0. inversion N; subst. cbn [history fold_left]. apply B'; [assumption|]. now apply B.
Qed.
End History.
