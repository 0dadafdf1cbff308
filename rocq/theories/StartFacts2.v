(** * Facts about whole starts: the disks that follow one another *)
From Coq Require Import String.
From Verif Require Import Py Json JsonFacts JsonFacts2 Params ParamsSpec ParamsFacts ParamsFacts2 Startup StartSpec StartFacts.
Local Open Scope N_scope.

(** the files are different *)
Lemma ne_net_net : seqb f_net f_net = true. Proof. vm_compute. reflexivity. Qed.
Lemma ne_net_dict : seqb f_net f_dict = false. Proof. vm_compute. reflexivity. Qed.
Lemma ne_net_temp : seqb f_net f_temp = false. Proof. vm_compute. reflexivity. Qed.
Lemma ne_net_names : seqb f_net f_names = false. Proof. vm_compute. reflexivity. Qed.
Lemma ne_net_mem : seqb f_net f_mem = false. Proof. vm_compute. reflexivity. Qed.
Lemma ne_dict_net : seqb f_dict f_net = false. Proof. vm_compute. reflexivity. Qed.
Lemma ne_dict_dict : seqb f_dict f_dict = true. Proof. vm_compute. reflexivity. Qed.
Lemma ne_dict_temp : seqb f_dict f_temp = false. Proof. vm_compute. reflexivity. Qed.
Lemma ne_dict_names : seqb f_dict f_names = false. Proof. vm_compute. reflexivity. Qed.
Lemma ne_dict_mem : seqb f_dict f_mem = false. Proof. vm_compute. reflexivity. Qed.
Lemma ne_temp_net : seqb f_temp f_net = false. Proof. vm_compute. reflexivity. Qed.
Lemma ne_temp_dict : seqb f_temp f_dict = false. Proof. vm_compute. reflexivity. Qed.
Lemma ne_temp_temp : seqb f_temp f_temp = true. Proof. vm_compute. reflexivity. Qed.
Lemma ne_temp_names : seqb f_temp f_names = false. Proof. vm_compute. reflexivity. Qed.
Lemma ne_temp_mem : seqb f_temp f_mem = false. Proof. vm_compute. reflexivity. Qed.
Lemma ne_names_net : seqb f_names f_net = false. Proof. vm_compute. reflexivity. Qed.
Lemma ne_names_dict : seqb f_names f_dict = false. Proof. vm_compute. reflexivity. Qed.
Lemma ne_names_temp : seqb f_names f_temp = false. Proof. vm_compute. reflexivity. Qed.
Lemma ne_names_names : seqb f_names f_names = true. Proof. vm_compute. reflexivity. Qed.
Lemma ne_names_mem : seqb f_names f_mem = false. Proof. vm_compute. reflexivity. Qed.
Lemma ne_mem_net : seqb f_mem f_net = false. Proof. vm_compute. reflexivity. Qed.
Lemma ne_mem_dict : seqb f_mem f_dict = false. Proof. vm_compute. reflexivity. Qed.
Lemma ne_mem_temp : seqb f_mem f_temp = false. Proof. vm_compute. reflexivity. Qed.
Lemma ne_mem_names : seqb f_mem f_names = false. Proof. vm_compute. reflexivity. Qed.
Lemma ne_mem_mem : seqb f_mem f_mem = true. Proof. vm_compute. reflexivity. Qed.
Lemma c_net_ini mc F : seqb (F ++ f_net) (ini_path mc) = false. Proof. apply cache_ini, in_net. Qed.
Lemma c_ini_net mc F : seqb (ini_path mc) (F ++ f_net) = false. Proof. apply ini_cache, in_net. Qed.
Lemma c_net_bak mc F : seqb (F ++ f_net) (bak_path mc) = false. Proof. apply cache_bak, in_net. Qed.
Lemma c_bak_net mc F : seqb (bak_path mc) (F ++ f_net) = false. Proof. apply bak_cache, in_net. Qed.
Lemma c_dict_ini mc F : seqb (F ++ f_dict) (ini_path mc) = false. Proof. apply cache_ini, in_dict. Qed.
Lemma c_ini_dict mc F : seqb (ini_path mc) (F ++ f_dict) = false. Proof. apply ini_cache, in_dict. Qed.
Lemma c_dict_bak mc F : seqb (F ++ f_dict) (bak_path mc) = false. Proof. apply cache_bak, in_dict. Qed.
Lemma c_bak_dict mc F : seqb (bak_path mc) (F ++ f_dict) = false. Proof. apply bak_cache, in_dict. Qed.
Lemma c_temp_ini mc F : seqb (F ++ f_temp) (ini_path mc) = false. Proof. apply cache_ini, in_temp. Qed.
Lemma c_ini_temp mc F : seqb (ini_path mc) (F ++ f_temp) = false. Proof. apply ini_cache, in_temp. Qed.
Lemma c_temp_bak mc F : seqb (F ++ f_temp) (bak_path mc) = false. Proof. apply cache_bak, in_temp. Qed.
Lemma c_bak_temp mc F : seqb (bak_path mc) (F ++ f_temp) = false. Proof. apply bak_cache, in_temp. Qed.
Lemma c_names_ini mc F : seqb (F ++ f_names) (ini_path mc) = false. Proof. apply cache_ini, in_names. Qed.
Lemma c_ini_names mc F : seqb (ini_path mc) (F ++ f_names) = false. Proof. apply ini_cache, in_names. Qed.
Lemma c_names_bak mc F : seqb (F ++ f_names) (bak_path mc) = false. Proof. apply cache_bak, in_names. Qed.
Lemma c_bak_names mc F : seqb (bak_path mc) (F ++ f_names) = false. Proof. apply bak_cache, in_names. Qed.
Lemma c_mem_ini mc F : seqb (F ++ f_mem) (ini_path mc) = false. Proof. apply cache_ini, in_mem. Qed.
Lemma c_ini_mem mc F : seqb (ini_path mc) (F ++ f_mem) = false. Proof. apply ini_cache, in_mem. Qed.
Lemma c_mem_bak mc F : seqb (F ++ f_mem) (bak_path mc) = false. Proof. apply cache_bak, in_mem. Qed.
Lemma c_bak_mem mc F : seqb (bak_path mc) (F ++ f_mem) = false. Proof. apply bak_cache, in_mem. Qed.
Lemma c_bak_ini mc : seqb (bak_path mc) (ini_path mc) = false. Proof. rewrite seqb_sym. apply ini_bak. Qed.
Global Opaque f_net f_dict f_temp f_names f_mem ini_path bak_path.
Create HintDb paths.
#[export] Hint Rewrite ne_net_net ne_net_dict ne_net_temp ne_net_names ne_net_mem ne_dict_net ne_dict_dict ne_dict_temp ne_dict_names ne_dict_mem ne_temp_net ne_temp_dict ne_temp_temp ne_temp_names ne_temp_mem ne_names_net ne_names_dict ne_names_temp ne_names_names ne_names_mem ne_mem_net ne_mem_dict ne_mem_temp ne_mem_names ne_mem_mem c_net_ini c_ini_net c_net_bak c_bak_net c_dict_ini c_ini_dict c_dict_bak c_bak_dict c_temp_ini c_ini_temp c_temp_bak c_bak_temp c_names_ini c_ini_names c_names_bak c_bak_names c_mem_ini c_ini_mem c_mem_bak c_bak_mem ini_bak c_bak_ini seqb_app_head seqb_refl : paths.
Ltac paths := autorewrite with paths; cbv iota.

Lemma set_same w k v : p_set (w_par (setp w k v)) k = v. Proof. apply with_key_same. Qed.
Lemma set_other w k v k' : k' <> k -> p_set (w_par (setp w k v)) k' = setting w k'. Proof. apply with_key_other. Qed.
Section Disks.
Variable mc : machine.
Variable L : library.
Variable F : str.
Hypothesis CP : cloudpickle L = true.
Variable x : l_net L.
Hypothesis NET : network L (base L) = Ok x.
Hypothesis FULL : writable (create L (base L)).
Hypothesis DIR : F = m_dir mc \/ m_isdir mc F = true.

(** the settings [f] are in the file, the version is not shown any more *)
Definition set_up (f : settings) (d : files) : Prop :=
  savable mc f /\ f KFolder = JStr F /\ truth (f KVersion) = false /\ truth (f KCache) = true /\ d (ini_path mc) = Some (stxt mc f).
Lemma opens f d : set_up f d -> exists w, next_session mc d = (Ok tt, w) /\ w_disk w = d /\ w_log w = [] /\ in_folder F w /\ savable mc (p_set (w_par w))
  /\ setting w KReload = f KReload /\ truth (setting w KCache) = true /\ truth (setting w KVersion) = false /\ p_memory (w_par w) = negb (truth (f KReload)).
Proof.
  intros (S & HF & V & C & I). assert (folder_there mc f) as T by (exists F; auto).
  destruct (next_saved mc f f d S T I) as (w & E & (St & M & _) & D & Lg); [intros K; congruence|].
  assert (forall k, merged f f k = f k) as Mk by (intros k; unfold merged; rewrite V; reflexivity).
  exists w. split; [exact E|]. split; [exact D|]. split; [exact Lg|].
  split; [unfold in_folder; rewrite St, Mk; exact HF|]. split.
  - intros k. specialize (S k). assert (p_set (w_par w) k = match k with KParallel => parallel_at_start mc (f KParallel) | _ => f k end) as Ek by (fold (setting w k); rewrite St; destruct k; rewrite Mk; reflexivity).
    destruct k; cbn [saved] in *; rewrite Ek; try exact S. unfold parallel_at_start. destruct (m_threads mc); [exact S|exact Logic.I].
  - rewrite !St, !Mk. split; [reflexivity|]. split; [exact C|]. split; [exact V|]. rewrite M, Mk. reflexivity.
Qed.
Lemma import_opens f d w : next_session mc d = (Ok tt, w) -> set_up f d -> new_start mc L d = boot mc L w.
Proof. intros E _. exact (pbind_ok (init mc) (fun _ => boot mc L) _ tt w E). Qed.

(** the cache as it should be *)
Definition net_file (m : l_mem L) (d : files) : Prop := d (F ++ f_net) = Some (dump (c_net L) (x, m)).
Definition dict_file (d : files) : Prop := d (F ++ f_dict) = Some (txt (create L (base L))).
Definition temp_file (d : files) : Prop := d (F ++ f_temp) = Some (dump (c_temp L) (temp0 L)).
Definition names_file (d : files) : Prop := d (F ++ f_names) = Some (dump (c_names L) (names0 L)).
Definition ready (m : l_mem L) (d : files) : Prop :=
  exists f, set_up f d /\ truth (f KReload) = false /\ net_file m d /\ dict_file d /\ temp_file d /\ names_file d.
Lemma not_shown w : truth (setting w KVersion) = false -> shown mc w = w.
Proof. intros V. unfold shown. now rewrite V. Qed.


Lemma ready_start m d : ready m d -> exists w, new_start mc L d = (Ok (built_tables L x m), w) /\ ready m (w_disk w).
Proof.
  intros (f & Sf & Rl & Fn & Fd & Ft & Fs). destruct (opens f d Sf) as (w & E & D & Lg & H & S & K1 & K2 & K3 & K4).
  rewrite (import_opens f d w E Sf). subst d.
  assert (reads_three L F w = Ok (create L (base L), temp0 L, names0 L)) as R3.
  { unfold reads_three, reads_dict, reads_temp, reads_names. rewrite Fd, Ft, Fs, (jload_txt _ FULL). cbn [rbind]. rewrite !undump_dump. reflexivity. }
  assert (reads_net L F w = Ok (x, m)) as Rn by (unfold reads_net; rewrite Fn; apply undump_dump).
  assert (files_cached F w = true) as Fc by (unfold files_cached, all_files, isf, is_file; rewrite K1, Rl, Fd, Fn, Ft, Fs; reflexivity).
  rewrite (cached_at mc L F w _ _ _ _ _ H CP Fc R3 Rn S).
  rewrite not_shown by (unfold settled, setting; cbn [wrote w_par]; fold (setting (setp w KReload (JBool false)) KVersion); rewrite setp_other by discriminate; exact K3).
  eexists. split; [reflexivity|]. exists (p_set (w_par (setp w KReload (JBool false)))).
  unfold ready, set_up, net_file, dict_file, temp_file, names_file. rewrite !settled_disk. paths.
  split; [|split; [rewrite set_same; reflexivity|auto]].
  split; [apply setp_savable; [exact S|discriminate]|].
  split; [unfold in_folder in H; rewrite <- H; apply (setp_other w KReload); discriminate|].
  split; [rewrite set_other by discriminate; exact K3|].
  split; [rewrite set_other by discriminate; exact K2|]. reflexivity.
Qed.

(** everything is built: what is on the disk afterwards *)
Definition memory_file (d : files) : l_mem L := match d (F ++ f_mem) with Some y => match undump (c_mem L) y with Ok m => m | Err _ => no_memory L end | None => no_memory L end.
Lemma memory_cases w : truth (setting w KCache) = true -> memory_of L F w = if p_memory (w_par w) then memory_file (w_disk w) else no_memory L.
Proof.
  intros C. unfold memory_of, memory_file. rewrite C, CP. cbn [andb]. destruct (p_memory (w_par w)); [|reflexivity]. rewrite Bool.andb_true_r.
  unfold isf, is_file. destruct (w_disk w (F ++ f_mem)); reflexivity.
Qed.
Lemma two_disk w q : truth (setting w KCache) = true ->
  w_disk (two_files L F w) q = if seqb q (F ++ f_names) then Some (dump (c_names L) (names0 L)) else if seqb q (F ++ f_temp) then Some (dump (c_temp L) (temp0 L)) else w_disk w q.
Proof. intros C. unfold two_files. now rewrite C, !wrote_disk. Qed.
Lemma stored_ready w m : in_folder F w -> savable mc (p_set (w_par w)) -> truth (setting w KCache) = true -> truth (setting w KVersion) = false ->
  ready m (w_disk (shown mc (stored mc L F (two_files L F w) (base L) (x, m)))).
Proof.
  intros H S C V. assert (forall k, setting (two_files L F w) k = setting w k) as K by (intros k; unfold setting; now rewrite two_par).
  rewrite not_shown by (unfold setting; rewrite stored_par, two_par; rewrite <- V; f_equal; apply (set_other w KReload); discriminate).
  unfold stored. rewrite K, C. set (w2 := setp (two_files L F w) KReload (JBool false)).
  exists (p_set (w_par w2)). unfold set_up, net_file, dict_file, temp_file, names_file.
  rewrite !wrote_disk, !settled_disk, !seqb_app_head. paths.
  unfold w2. rewrite !setp_disk, !(two_disk w _ C), !seqb_app_head.
 paths.
 paths.
  assert (forall k, k <> KReload -> p_set (w_par (setp (two_files L F w) KReload (JBool false))) k = setting w k) as Ks by (intros k Hk; rewrite <- K; apply (setp_other _ KReload _ k Hk)).
  split; [|split; [rewrite set_same; reflexivity|auto]].
  split; [apply setp_savable; [rewrite two_par; exact S|discriminate]|].
  split; [rewrite Ks by discriminate; exact H|]. split; [rewrite Ks by discriminate; exact V|]. split; [rewrite Ks by discriminate; exact C|]. reflexivity.
Qed.
(** [reload], or a large file missing *)
Lemma scratch_start f d : set_up f d -> (truth (f KReload) = true \/ d (F ++ f_dict) = None \/ d (F ++ f_net) = None) ->
  exists m w, new_start mc L d = (Ok (built_tables L x m), w) /\ ready m (w_disk w) /\ m = if truth (f KReload) then no_memory L else memory_file d.
Proof.
  intros Sf Hm. destruct (opens f d Sf) as (w & E & D & Lg & H & S & K1 & K2 & K3 & K4). rewrite (import_opens f d w E Sf). subst d.
  assert (files_cached F w = false) as N1.
  { unfold files_cached, all_files, isf, is_file. rewrite K1. destruct Hm as [->|[-> | ->]]; [reflexivity|apply Bool.andb_false_r|]. rewrite Bool.andb_false_r. apply Bool.andb_false_r. }
  assert (files_cached F (two_files L F w) = false) as N2.
  { unfold files_cached, all_files, isf, is_file, setting. rewrite two_par. fold (setting w KReload). rewrite K1, !(two_disk w _ K2), !seqb_app_head.
 paths.
    destruct Hm as [->|[-> | ->]]; [reflexivity|apply Bool.andb_false_r|]. rewrite Bool.andb_false_r. apply Bool.andb_false_r. }
  rewrite (scratch_at mc L F w x H CP N1 N2 S NET FULL). eexists. eexists. split; [reflexivity|]. split; [now apply stored_ready|].
  rewrite memory_cases by (unfold setting; rewrite two_par; exact K2). rewrite two_par, K4. destruct (truth (f KReload)); [reflexivity|]. cbn [negb].
  unfold memory_file. rewrite (two_disk w _ K2), !seqb_app_head. reflexivity.
Qed.
(** a small file that cannot be read *)
Lemma damaged_start f d : set_up f d -> truth (f KReload) = false -> (exists a b c e, d (F ++ f_dict) = Some a /\ d (F ++ f_net) = Some e /\ d (F ++ f_temp) = Some b /\ d (F ++ f_names) = Some c
    /\ forall s, rbind (jload a) (fun d => rbind (undump (c_temp L) b) (fun t => rbind (undump (c_names L) c) (fun n => Ok (d, t, n)))) <> Ok s) ->
  exists m w, new_start mc L d = (Ok (built_tables L x m), w) /\ ready m (w_disk w).
Proof.
  intros Sf Rl (a & b & c & e & Fd & Fn & Ft & Fs & Bad). destruct (opens f d Sf) as (w & E & D & Lg & H & S & K1 & K2 & K3 & K4). rewrite (import_opens f d w E Sf). subst d.
  assert (files_cached F w = true) as Fc by (unfold files_cached, all_files, isf, is_file; rewrite K1, Rl, Fd, Fn, Ft, Fs; reflexivity).
  assert (exists er, reads_three L F w = Err er) as (er & R3).
  { unfold reads_three, reads_dict, reads_temp, reads_names. rewrite Fd, Ft, Fs.
    destruct (rbind (jload a) (fun d => rbind (undump (c_temp L) b) (fun t => rbind (undump (c_names L) c) (fun n => Ok (d, t, n))))) as [s|er] eqn:Er; [exfalso; now apply (Bad s)|]. eauto. }
  rewrite (damaged_at mc L F w x er H CP Fc R3 S NET FULL).
  eexists. eexists. split; [reflexivity|]. apply stored_ready.
  - unfold in_folder. rewrite setp_other by discriminate. exact H.
  - apply setp_savable; [exact S|discriminate].
  - rewrite setp_other by discriminate. exact K2.
  - rewrite setp_other by discriminate. exact K3.
Qed.
(** the network cannot be read *)
Definition doomed (d : files) : Prop :=
  exists f a b c e, set_up f d /\ truth (f KReload) = false /\ d (F ++ f_dict) = Some a /\ d (F ++ f_net) = Some e /\ d (F ++ f_temp) = Some b /\ d (F ++ f_names) = Some c
    /\ (exists D t n, jload a = Ok D /\ undump (c_temp L) b = Ok t /\ undump (c_names L) c = Ok n) /\ exists er, undump (c_net L) e = Err er.
Lemma doomed_start d : doomed d -> exists er w, new_start mc L d = (Err er, w) /\ doomed (w_disk w).
Proof.
  intros (f & a & b & c & e & Sf & Rl & Fd & Fn & Ft & Fs & (D0 & t & n & Ra & Rb & Rc) & (er & Re)).
  destruct (opens f d Sf) as (w & E & D & Lg & H & S & K1 & K2 & K3 & K4). rewrite (import_opens f d w E Sf). subst d.
  assert (files_cached F w = true) as Fc by (unfold files_cached, all_files, isf, is_file; rewrite K1, Rl, Fd, Fn, Ft, Fs; reflexivity).
  assert (reads_three L F w = Ok (D0, t, n)) as R3 by (unfold reads_three, reads_dict, reads_temp, reads_names; rewrite Fd, Ft, Fs, Ra; cbn [rbind]; rewrite Rb; cbn [rbind]; rewrite Rc; reflexivity).
  assert (reads_net L F w = Err er) as Rn by (unfold reads_net; rewrite Fn; exact Re).
  destruct (broken_at mc L F w _ _ _ er H CP Fc R3 Rn) as (er' & ->). exists er', (two_files L F w). split; [reflexivity|].
  exists f, a, (dump (c_temp L) (temp0 L)), (dump (c_names L) (names0 L)), e. rewrite !(two_disk w _ K2). unfold set_up in *. rewrite !(two_disk w _ K2), !seqb_app_head.
  rewrite (ini_cache mc F f_names in_names), (ini_cache mc F f_temp in_temp).
 paths.
 paths.
  split; [exact Sf|]. split; [exact Rl|]. split; [exact Fd|]. split; [exact Fn|]. split; [reflexivity|]. split; [reflexivity|].
  split; [exists D0, (temp0 L), (names0 L); rewrite !undump_dump; auto|eauto].
Qed.
End Disks.

(** ** A list of writes, interrupted *)
Definition all_ops (ws : list (str * str)) : list dop := flat_map (fun e => write_ops (fst e) (snd e)) ws.
Lemma interrupted ws : forall n, exists i, firstn n (all_ops ws) = all_ops (firstn i ws) \/
  exists p y z, nth_error ws i = Some (p, y) /\ cut y z /\ firstn n (all_ops ws) = all_ops (firstn i ws) ++ write_ops p z.
Proof.
  induction ws as [|[p y] ws IH]; intros n.
  - exists 0%nat. left. now rewrite firstn_nil.
  - cbn [all_ops flat_map fst snd]. fold (all_ops ws). rewrite firstn_app, write_len. destruct n as [|n].
    + exists 0%nat. left. reflexivity.
    + destruct (Nat.le_gt_cases (length y) n) as [G|G].
      * rewrite firstn_all2 by (rewrite write_len; lia). replace (Datatypes.S n - Datatypes.S (length y))%nat with (n - length y)%nat by lia.
        destruct (IH (n - length y)%nat) as (i & [E|(p' & y' & z & Hn & Hc & E)]); exists (Datatypes.S i); [left|right].
        { rewrite E. reflexivity. }
        { exists p', y', z. split; [exact Hn|]. split; [exact Hc|]. rewrite E. cbn [firstn all_ops flat_map fst snd]. now rewrite app_assoc. }
      * exists 0%nat. right. exists p, y, (firstn n y). split; [reflexivity|]. split.
        { exists (skipn n y). split; [|symmetry; apply firstn_skipn]. intros K. apply (f_equal (@length _)) in K. rewrite skipn_length in K. cbn [length] in K. lia. }
        rewrite firstn_write by lia. replace (Datatypes.S n - Datatypes.S (length y))%nat with 0%nat by lia. replace (Datatypes.S n - 1)%nat with n by lia.
        cbn [firstn all_ops flat_map]. now rewrite app_nil_r.
Qed.
(** the disk after writes: the last one counts *)
Fixpoint overlay (ws : list (str * str)) (d : files) : files := match ws with [] => d | (p, y) :: t => overlay t (fun q => if seqb q p then Some y else d q) end.
Lemma overlay_ext ws : forall d d', (forall q, d q = d' q) -> forall q, overlay ws d q = overlay ws d' q.
Proof. induction ws as [|[p y] ws IH]; intros d d' H q; [apply H|]. cbn [overlay]. apply IH. intros r. now rewrite H. Qed.
Lemma run_all ws : forall d q, run (all_ops ws) d q = overlay ws d q.
Proof.
  induction ws as [|[p y] ws IH]; intros d q; [reflexivity|]. cbn [all_ops flat_map fst snd]. fold (all_ops ws). rewrite run_app, IH. cbn [overlay]. apply overlay_ext.
  intros r. destruct (run_write p y d) as [A B]. destruct (seqb r p) eqn:E; [apply seqb_eq in E; now subst|apply B; now apply seqb_neq].
Qed.
