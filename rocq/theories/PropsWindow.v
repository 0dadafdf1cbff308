(** * C74: the window and the memory of searches *)
From Coq Require Import String.
From Verif Require Import Py Json JsonFacts JsonFacts2 Params ParamsSpec ParamsFacts SwitchFacts ParamsFacts2 PropsParams Startup StartSpec StartFacts StartFacts2 StartFacts3 StartFacts4 PropsStart Window.
Local Open Scope N_scope.

Section W.
Variable mc : machine.
Variable L : library.
Variable F : str.
Hypothesis CP : cloudpickle L = true.
Variable x : l_net L.
Hypothesis NET : network L (base L) = Ok x.
Hypothesis FULL : writable (create L (base L)).
Hypothesis DIR : F = m_dir mc \/ m_isdir mc F = true.
(** the disk between two processes: the settings, the memory [m], and the rest of the cache, whole or without the network *)
Definition resting (m : l_mem L) (d : files) : Prop :=
  exists f, set_up mc F f d /\ truth (f KReload) = false /\ d (F ++ f_mem) = Some (dump (c_mem L) m)
    /\ ((exists m0, net_file L F x m0 d /\ dict_file L F d /\ temp_file L F d /\ names_file L F d) \/ d (F ++ f_net) = None).
Lemma wakes m d : resting m d ->
  exists m0 w, new_start mc L d = (Ok (built_tables L x m0), w) /\ ready mc L F x m0 (w_disk w) /\ in_folder F w /\ truth (setting w KCache) = true
    /\ p_memory (w_par w) = true /\ w_disk w (F ++ f_mem) = Some (dump (c_mem L) m).
Proof.
  intros (f & Sf & Rl & Fm & [(m0 & Fn & Fd & Ft & Fs)|Fn]).
  - assert (Rd : ready mc L F x m0 d) by (exists f; auto 7). exists m0.
    destruct (opens mc F DIR f d Sf) as (w & E & D & Lg & H & S & K1 & K2 & K3 & K4). pose proof (import_opens mc L F f d w E Sf) as Im.
    destruct (ready_start mc L F CP x FULL DIR m0 d Rd) as (wf & Ef & Rf). exists wf. split; [exact Ef|]. split; [exact Rf|].
    assert (R3 : reads_three L F w = Ok (create L (base L), temp0 L, names0 L)).
    { unfold reads_three, reads_dict, reads_temp, reads_names. rewrite D, Fd, Ft, Fs, (jload_txt _ FULL). cbn [rbind]. rewrite !undump_dump. reflexivity. }
    assert (Rn : reads_net L F w = Ok (x, m0)) by (unfold reads_net; rewrite D, Fn; apply undump_dump).
    assert (Fc : files_cached F w = true) by (unfold files_cached, all_files, isf, is_file; rewrite K1, Rl, D, Fd, Fn, Ft, Fs; reflexivity).
    rewrite (cached_at mc L F w _ _ _ _ _ H CP Fc R3 Rn S) in Im.
    rewrite (not_shown mc) in Im by (unfold settled, setting; cbn [wrote w_par]; fold (setting (setp w KReload (JBool false)) KVersion); rewrite setp_other by discriminate; exact K3).
    rewrite Ef in Im. injection Im as ->. set (w1 := setp w KReload (JBool false)).
    change (in_folder F w1 /\ truth (setting w1 KCache) = true /\ p_memory (w_par w) = true /\ w_disk (settled mc w1) (F ++ f_mem) = Some (dump (c_mem L) m)).
    split; [unfold in_folder, w1; rewrite setp_other by discriminate; exact H|]. split; [unfold w1; rewrite setp_other by discriminate; exact K2|].
    split; [rewrite K4, Rl; reflexivity|]. rewrite settled_disk. paths. unfold w1. rewrite setp_disk, D. exact Fm.
  - destruct (opens mc F DIR f d Sf) as (w & E & D & Lg & H & S & K1 & K2 & K3 & K4). pose proof (import_opens mc L F f d w E Sf) as Im.
    destruct (scratch_start mc L F CP x NET FULL DIR f d Sf) as (m0 & wf & Ef & Rf & _); [right; right; exact Fn|].
    assert (N1 : files_cached F w = false) by (unfold files_cached, all_files, isf, is_file; rewrite D, Fn, Bool.andb_false_r; apply Bool.andb_false_r).
    assert (N2 : files_cached F (two_files L F w) = false).
    { unfold files_cached, all_files, isf, is_file, setting. rewrite !(two_disk L F w _ K2), !seqb_app_head. paths. rewrite D, Fn, Bool.andb_false_r. apply Bool.andb_false_r. }
    rewrite (scratch_at mc L F w x H CP N1 N2 S NET FULL) in Im. rewrite Ef in Im. injection Im as E1 E2.
    exists m0, wf. split; [exact Ef|]. split; [exact Rf|]. rewrite E2. clear Ef Rf E2.
    set (w2 := stored _ _ _ _ _ _).
    assert (P2 : w_par w2 = set_key KReload (JBool false) (w_par w)) by (unfold w2; rewrite stored_par, two_par; reflexivity).
    assert (Kk : forall k, k <> KReload -> setting w2 k = setting w k) by (intros k Hk; unfold setting; rewrite P2; apply (setp_other w KReload (JBool false) k Hk)).
    rewrite (not_shown mc) by (rewrite Kk by discriminate; exact K3).
    split; [unfold in_folder; rewrite Kk by discriminate; exact H|]. split; [rewrite Kk by discriminate; exact K2|].
    split; [rewrite P2; cbn [set_key p_memory]; rewrite K4, Rl; reflexivity|].
    unfold w2, stored. assert (Kt : setting (two_files L F w) KCache = setting w KCache) by (unfold setting; rewrite two_par; reflexivity). rewrite Kt, K2.
    rewrite !wrote_disk, settled_disk. paths. rewrite setp_disk, (two_disk L F w _ K2). paths. rewrite D. exact Fm.
Qed.
Lemma opens_window m m0 w : in_folder F w -> p_memory (w_par w) = true -> w_disk w (F ++ f_mem) = Some (dump (c_mem L) m) ->
  open_window L m0 w = (Ok (update L m0 m), w).
Proof.
  intros H M Fm. unfold open_window, pbind at 1, pget. rewrite M. unfold load. rewrite (pbind_ok _ _ _ _ _ (folder_at F w H)), (pbind_ok _ _ _ _ _ (there_at F w f_mem H)).
  assert (isf F w f_mem = true) as -> by (unfold isf, is_file; rewrite Fm; reflexivity). rewrite CP. unfold ptry, pbind at 1, pdisk. rewrite Fm. unfold pbind, plift. rewrite undump_dump. reflexivity.
Qed.
Lemma closes_window m w : in_folder F w -> truth (setting w KCache) = true -> close_window L m w = (Ok tt, wrote w (F ++ f_mem) (dump (c_mem L) m)).
Proof. intros H C. unfold close_window. rewrite (pbind_ok _ _ _ _ _ (on_at KCache w)), C. unfold save. rewrite CP. exact (pickle_at F (c_mem L) f_mem m w H). Qed.
Lemma rests m0 m w : ready mc L F x m0 (w_disk w) -> resting m (w_disk (wrote w (F ++ f_mem) (dump (c_mem L) m))).
Proof.
  intros (f & (S1 & S2 & S3 & S4 & S5) & Rl & Fn & Fd & Ft & Fs). exists f. unfold set_up, net_file, dict_file, temp_file, names_file in *. rewrite !wrote_disk. paths.
  split; [auto|]. split; [exact Rl|]. split; [reflexivity|]. left. exists m0. auto.
Qed.
Lemma session_rests m' m d : resting m' d -> resting m (window_session mc L m d).
Proof.
  intros R. destruct (wakes m' d R) as (m0 & w & E & Rd & H & C & M & Fm). unfold window_session. rewrite E. cbn [t_mem built_tables].
  rewrite (opens_window m' m0 w H M Fm), (closes_window m w H C). exact (rests m0 m w Rd).
Qed.
Lemma sessions_rest l : forall m' d m, resting m' d -> resting m (fold_left (fun d m => window_session mc L m d) (l ++ [m])%list d).
Proof.
  induction l as [|a l IH]; intros m' d m R; cbn [Datatypes.app fold_left]; [exact (session_rests m' m d R)|]. apply (IH a). exact (session_rests m' a d R).
Qed.
End W.

Section T.
Variable mc : machine.
Variable L : library.
Lemma boot_memory w : p_memory (w_par (snd (boot mc L w))) = p_memory (w_par w).
Proof.
  set (K := fun X (m : P X) => forall w, p_memory (w_par (snd (m w))) = p_memory (w_par w)).
  assert (Kb : forall X Y (m : P X) (k : X -> P Y), K X m -> (forall x, K Y (k x)) -> K Y (pbind m k)).
  { intros X Y m k Hm Hk w0. unfold pbind. specialize (Hm w0). destruct (m w0) as [[v|e] w1]; [cbn [snd] in Hm; rewrite <- Hm; apply Hk|exact Hm]. }
  assert (Kr : forall X (v : X), K X (pret v)) by (intros X v w0; reflexivity).
  assert (Kx : forall X e, K X (praise e)) by (intros X e w0; reflexivity).
  assert (Kl : forall X (r : res X), K X (plift r)) by (intros X r w0; unfold plift; reflexivity).
  assert (Kg : K _ pget) by (intros w0; reflexivity). assert (Kd : K _ pdisk) by (intros w0; reflexivity).
  assert (Ko : forall l, K _ (pops l)) by (intros l w0; reflexivity).
  assert (Ks : forall k v, K _ (pmod (set_key k v))) by (intros k v w0; reflexivity).
  assert (Kt : forall X (m h : P X), K X m -> K X h -> K X (ptry m h)).
  { intros X m h Hm Hh w0. unfold ptry. specialize (Hm w0). destruct (m w0) as [[v|e] w1]; [exact Hm|]. cbn [snd] in Hm. rewrite <- Hm. apply Hh. }
  assert (Kn : forall k, K _ (on k)) by (intros k; unfold on; apply Kb; [exact Kg|intros p; apply Kr]).
  assert (Kf : K _ folder) by (unfold folder, get_user_folder; apply Kb; [apply Kb; [exact Kg|intros p; apply Kr]|intros v; destruct v; first [apply Kr|apply Kx]]).
  assert (Kh : forall n, K _ (there n)) by (intros n; unfold there; apply Kb; [exact Kf|intros f; apply Kb; [exact Kd|intros dd; apply Kr]]).
  assert (Ka : forall a b, K _ a -> K _ b -> K _ (pand a b)) by (intros a b Ha Hb; unfold pand; apply Kb; [exact Ha|intros [|]; [exact Hb|apply Kr]]).
  assert (Kno : forall a, K _ a -> K _ (pnot a)) by (intros a Ha; unfold pnot; apply Kb; [exact Ha|intros v; apply Kr]).
  assert (Kp : forall X (c : codec X) n v, K _ (pickle_to c n v)) by (intros X c n v; unfold pickle_to; apply Kb; [exact Kf|intros f; apply Ko]).
  assert (Ku : forall X (c : codec X) n, K _ (unpickle c n)) by (intros X c n; unfold unpickle; apply Kb; [exact Kf|intros f; apply Kb; [exact Kd|intros dd; destruct (dd (f ++ n)); first [apply Kl|apply Kx]]]).
  assert (Kdj : forall p v, K _ (dump_to p v)).
  { intros p v. unfold dump_to. destruct (jwrite v) as [o [|]]; (apply Kb; [apply Ko|intros _; first [apply Kr|apply Kx]]). }
  assert (Kv : K _ (save_params mc)) by (intros w0; rewrite save_par; reflexivity).
  assert (Krf : forall p, K _ (read_file p)) by (intros p; unfold read_file; apply Kb; [exact Kd|intros dd; destruct (dd p); first [apply Kl|apply Kx]]).
  assert (Kld : K _ (load_dictionary L)).
  { unfold load_dictionary. apply Kb; [apply Kn|]. intros c. apply Kb; [destruct c; [apply Kb; [apply Kp|intros _; apply Kp]|apply Kr]|intros _; apply Kr]. }
  assert (Kln : forall d, K _ (load_network L d)).
  { intros d. unfold load_network. apply Kb; [|intros m; apply Kb; [apply Kl|intros n; apply Kr]].
    unfold new_memory. apply Kb; [apply Kn|]. intros c. apply Kb; [exact Kg|]. intros p. destruct (c && p_memory p); [|apply Kr]. apply Kb; [apply Kh|]. intros b. destruct (b && cloudpickle L); [apply Kt; [apply Ku|apply Kr]|apply Kr]. }
  assert (Ksd : K _ (start_dictionary L)).
  { unfold start_dictionary. apply Kb; [apply Ka; [apply Kno, Kn|apply Ka; [apply Kh|apply Ka; [apply Kh|apply Ka; apply Kh]]]|]. intros [|]; [|exact Kld].
    apply Kt; [apply Kb; [exact Kf|intros f; apply Kb; [apply Krf|intros d; apply Kb; [apply Ku|intros t; apply Kb; [apply Ku|intros n; apply Kr]]]]|apply Kb; [apply Ks|intros _; exact Kld]]. }
  assert (Ksn : forall s, K _ (start_network mc L s)).
  { intros [[d t] n]. unfold start_network. apply Kb; [apply Ka; [apply Kno, Kn|apply Ka; [apply Kh|apply Ka; [destruct (cloudpickle L); [apply Kh|apply Kr]|apply Ka; apply Kh]]]|]. intros [|].
    - apply Kt.
      + destruct (cloudpickle L); [|apply Kx]. apply Kb; [apply Ku|intros y; apply Kb; [apply Ks|intros _; apply Kb; [exact Kv|intros _; apply Kr]]].
      + unfold rebuild_units. apply Kb; [exact Kld|intros _; apply Kb; [apply Kln|intros _; apply Kx]].
    - apply Kb; [apply Kln|]. intros y. cbv zeta. apply Kb; [apply Ks|]. intros _. apply Kb; [exact Kv|]. intros _. apply Kb; [apply Kn|]. intros c. apply Kb; [|intros _; apply Kr].
      destruct c; [|apply Kr]. apply Kb; [destruct (cloudpickle L); [apply Kp|apply Kr]|]. intros _. apply Kb; [exact Kf|]. intros f. apply Kdj. }
  apply (Kb _ _ (start_dictionary L)); [exact Ksd|]. intros s. apply Kb; [apply Ksn|]. intros y. apply Kb; [|intros _; apply Kr].
  unfold show_version. apply Kb; [apply Kn|]. intros c. destruct c; [|apply Kr]. apply Kb; [apply Ks|intros _; exact Kv].
Qed.
(** the first session of a new installation: the window deletes the files that the start has just written *)
Lemma first_window x d : sane mc L x -> new_installation mc d ->
  exists w w', new_start mc L d = (Ok (built_tables L x (no_memory L)), w) /\ open_window L (no_memory L) w = (Ok (no_memory L), w')
    /\ (forall n, In n cache_names -> n <> f_mem -> w_disk w (m_dir mc ++ n) <> None) /\ (forall n, In n cache_names -> w_disk w' (m_dir mc ++ n) = None)
    /\ (forall m, resting mc L (m_dir mc) x m (w_disk (snd (close_window L m w')))).
Proof.
  intros S N. pose proof S as (CP & NET & FULL & OBJ & ROOT & PL). destruct (new_opens mc d N) as (w0 & E0 & _ & _ & M0 & _).
  destruct (first_session mc L x S d N) as (w & E & W & O & Rl & Fr). set (F := m_dir mc) in *.
  assert (M : p_memory (w_par w) = false).
  { pose proof (pbind_ok (init mc) (fun _ => boot mc L) (blank_world d) tt w0 E0) as B. change (new_start mc L d = boot mc L w0) in B. rewrite B in E. pose proof (boot_memory w0) as Y. rewrite E in Y. cbn [snd] in Y. rewrite Y. exact M0. }
  pose proof W as ((H & U & C) & V & (Fn & Fd & Ft & Fs)).
  destruct (C57_exact w F H) as (w' & De & Pw & Di). exists w, w'. split; [exact E|].
  split; [unfold open_window, pbind at 1, pget; rewrite M; rewrite (pbind_ok _ _ _ _ _ De); reflexivity|].
  assert (Gone : forall n, In n cache_names -> w_disk w' (F ++ n) = None) by (intros n Hn; apply (Di (F ++ n)); exists n; split; [exact Hn|reflexivity]).
  split; [|split; [exact Gone|]].
  - intros n Hn Nn. unfold net_file, dict_file, temp_file, names_file in *. change (In n [f_mem; f_net; f_dict; f_temp; f_names]) in Hn.
    destruct Hn as [<-|[<-|[<-|[<-|[<-|[]]]]]]; [contradiction|rewrite Fn|rewrite Fd|rewrite Ft|rewrite Fs]; intros Z; discriminate Z.
  - intros m. assert (H' : in_folder F w') by (unfold in_folder, setting; rewrite Pw; exact H). assert (C' : truth (setting w' KCache) = true) by (unfold setting; rewrite Pw; exact C).
    rewrite (closes_window L F CP m w' H' C'). cbn [snd]. exists (p_set (w_par w)).
    destruct (working_set_up mc L x F (no_memory L) w W O) as (S1 & S2 & S3 & S4 & S5).
    split; [|split; [exact Rl|split; [rewrite wrote_disk, seqb_refl; reflexivity|right; rewrite wrote_disk; paths; apply Gone; apply in_net]]].
    split; [exact S1|]. split; [exact S2|]. split; [exact S3|]. split; [exact S4|]. rewrite wrote_disk. paths. rewrite <- S5. apply (Di (ini_path mc)).
    intros n Hn X. assert (Y : seqb (F ++ n) (ini_path mc) = false) by exact (cache_ini mc F n Hn). rewrite <- X, seqb_refl in Y. discriminate Y.
Qed.
(** from a new installation on, any number of times: the window is opened in a process of its own, used, and closed when the memory of searches is
    the next of [l ++ [m]]; the next window starts with the tables of the code and everything that was in [m] *)
Theorem C74_kept : forall x d l m, sane mc L x -> new_installation mc d ->
  exists m0 w w', new_start mc L (fold_left (fun d m => window_session mc L m d) (l ++ [m])%list d) = (Ok (built_tables L x m0), w)
    /\ open_window L m0 w = (Ok (update L m0 m), w').
Proof.
  intros x d l m S N. pose proof S as (CP & NET & FULL & _). destruct (first_window x d S N) as (w0 & w1 & E0 & E1 & _ & _ & R).
  assert (R0 : forall m, resting mc L (m_dir mc) x m (window_session mc L m d)).
  { intros m1. unfold window_session. rewrite E0. cbn [t_mem built_tables]. rewrite E1. apply R. }
  assert (Rl : resting mc L (m_dir mc) x m (fold_left (fun d m => window_session mc L m d) (l ++ [m])%list d)).
  { destruct l as [|a l]; cbn [Datatypes.app fold_left]; [apply R0|]. exact (sessions_rest mc L (m_dir mc) CP x NET FULL (or_introl eq_refl) l a _ m (R0 a)). }
  destruct (wakes mc L (m_dir mc) CP x NET FULL (or_introl eq_refl) m _ Rl) as (m0 & w & E & _ & H & _ & M & Fm). exists m0, w, w. split; [exact E|].
  exact (opens_window L (m_dir mc) CP m m0 w H M Fm).
Qed.
(** but the first window deletes the cache that the start of its process has written *)
Theorem C74_refuted : forall x d, sane mc L x -> new_installation mc d ->
  exists w w', new_start mc L d = (Ok (built_tables L x (no_memory L)), w) /\ open_window L (no_memory L) w = (Ok (no_memory L), w')
    /\ forall n, In n [u "units_network.cache"; u "units_dictionary.cache"; u "temperature_ratio_conversions.cache"; u "unitless_names.cache"] ->
       w_disk w (m_dir mc ++ n) <> None /\ w_disk w' (m_dir mc ++ n) = None.
Proof.
  intros x d S N. destruct (first_window x d S N) as (w & w' & E & E' & A & B & _). exists w, w'. split; [exact E|]. split; [exact E'|].
  intros n Hn. assert (Hc : In n cache_names) by (right; exact Hn). split; [apply A; [exact Hc|]|exact (B n Hc)].
  intros ->. destruct Hn as [X|[X|[X|[X|[]]]]]; discriminate X.
Qed.
(** a window opened while the cache is off, and closed, leaves the disk as it is *)
Theorem C74_off : forall w m, truth (setting w KCache) = false -> close_window L m w = (Ok tt, w).
Proof. intros w m C. unfold close_window. rewrite (pbind_ok _ _ _ _ _ (on_at KCache w)), C. reflexivity. Qed.
(** cancelled dialogs change nothing; a folder that is not there is refused *)
Theorem C74_cancelled : forall w m a, a = None \/ a = Some [] ->
  export_memory L a m w = (Ok tt, w) /\ import_memory L a m w = (Ok m, w) /\ set_cache_folder mc a w = (Ok tt, w).
Proof. intros w m a [->| ->]; auto. Qed.
Theorem C74_no_folder : forall w p, m_isdir mc p = false -> set_cache_folder mc (Some p) w = (Ok tt, w).
Proof. intros w p H. unfold set_cache_folder. rewrite H. destruct (seqb p []); reflexivity. Qed.
(** what was exported is imported, by the same window or a later one of the same user folder, if there is a search_memory.cache there *)
Theorem C74_exported_partial : forall w w1 f p m m' y, cloudpickle L = true -> p <> [] -> snd (export_memory L (Some p) m' w) = w1 ->
  forall w2, setting w2 KFolder = JStr f -> w_disk w2 p = w_disk w1 p -> w_disk w2 (f ++ u "search_memory.cache") = Some y -> import_memory L (Some p) m w2 = (Ok (update L m m'), w2).
Proof.
  intros w w1 f p m m' y CP Np E w2 H D Y. assert (Ep : seqb p [] = false) by (apply seqb_neq; exact Np).
  assert (Dp : w_disk w1 p = Some (dump (c_mem L) m')).
  { rewrite <- E. unfold export_memory. rewrite Ep. unfold ptry, save. rewrite CP. unfold pops. cbn [snd].
    change (w_disk (wrote w p (dump (c_mem L) m')) p = Some (dump (c_mem L) m')). rewrite wrote_disk, seqb_refl. reflexivity. }
  unfold import_memory. rewrite Ep. unfold pbind at 1, pdisk. unfold is_file. rewrite D, Dp. unfold ptry at 1. unfold load.
  rewrite (pbind_ok _ _ _ _ _ (folder_at f w2 H)), (pbind_ok _ _ _ _ _ (there_at f w2 f_mem H)).
  assert (isf f w2 f_mem = true) as -> by (unfold isf, is_file; change f_mem with (u "search_memory.cache"); rewrite Y; reflexivity).
  rewrite CP. unfold ptry, pbind at 1, pdisk. rewrite D, Dp. unfold pbind, plift. rewrite undump_dump. reflexivity.
Qed.
(** ... and if there is none, the file is not read, in silence *)
Theorem C74_import_refuted : forall w f p m, setting w KFolder = JStr f -> w_disk w (f ++ u "search_memory.cache") = None -> import_memory L (Some p) m w = (Ok m, w).
Proof.
  intros w f p m H Y. unfold import_memory. destruct (seqb p []); [reflexivity|]. unfold pbind at 1, pdisk. destruct (is_file (w_disk w) p); [|reflexivity]. unfold ptry at 1. unfold load.
  rewrite (pbind_ok _ _ _ _ _ (folder_at f w H)), (pbind_ok _ _ _ _ _ (there_at f w f_mem H)).
  assert (isf f w f_mem = false) as -> by (unfold isf, is_file; change f_mem with (u "search_memory.cache"); rewrite Y; reflexivity). reflexivity.
Qed.
End T.
Print Assumptions C74_kept.
Print Assumptions C74_refuted.
Print Assumptions C74_off.
Print Assumptions C74_cancelled.
Print Assumptions C74_no_folder.
Print Assumptions C74_exported_partial.
Print Assumptions C74_import_refuted.
(** *** The hypotheses are met: two windows of a new installation; the memory of the second is there when the third opens *)
Example C74_case : exists m0 w w',
  new_start demo demo_library (window_session demo demo_library (u "path b") (window_session demo demo_library (u "path a") demo_disk)) = (Ok (built_tables demo_library (u "the network") m0), w)
  /\ open_window demo_library m0 w = (Ok (u "path b" ++ m0), w').
Proof. exact (C74_kept demo demo_library (u "the network") demo_disk [u "path a"] (u "path b") demo_sane demo_new). Qed.
Example C74_exported_case : exists w y, setting w KFolder = JStr (u "/p/") /\ w_disk w (u "/p/" ++ u "search_memory.cache") = Some y.
Proof. exists (World (w_par demo_first) (fun _ => Some []) []), []. split; [vm_compute; reflexivity|reflexivity]. Qed.
