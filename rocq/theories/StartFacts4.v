(** * The first session of a new installation, in detail *)
From Coq Require Import String.
From Verif Require Import Py Json JsonFacts JsonFacts2 Params ParamsSpec ParamsFacts SwitchFacts ParamsFacts2 Startup StartSpec StartFacts StartFacts2 StartFacts3.
Local Open Scope N_scope.

Lemma tidy_readable mc L x d : tidy mc L x false d -> ~ unreadable mc L d.
Proof.
  intros (A & B & C) [(y & E & J)|[(y & E & J)|(f & y & e & E & J)]].
  - rewrite E in A. destruct A as [(g & U & ->)|[N _]]; [|discriminate N]. unfold stxt in J. rewrite (jload_txt _ (proj1 (savable_writable mc g) (proj1 U))) in J. discriminate J.
  - rewrite E in B. destruct B as [(g & U & ->)|[N _]]; [|discriminate N]. unfold stxt in J. rewrite (jload_txt _ (proj1 (savable_writable mc g) (proj1 U))) in J. discriminate J.
  - destruct (C f) as (K & _). change (d (f ++ f_net) = Some y) in E. rewrite E in K. destruct K as [(m & ->)|[N _]]; [|discriminate N]. rewrite undump_dump in J. discriminate J.
Qed.
(** the file that comes with the package *)
Definition shipped_settings (mc : machine) : settings := fun k =>
  match k with
  | KPrint | KCache | KReload | KRaise | KRedpar | KVersion | KParallel => JBool true
  | KVerbose => JBool false | KDetails => JInt 0 | KDensity => JFlt (u "0.997") | KMaxRec => JInt 12 | KAlgo => JStr (u "lean_BFS") | KMaxGen => JInt 30
  | KFvf => JFlt (u "1.0") | KFolder => JStr (m_dir mc)
  end.
Definition plain_machine : machine := Machine [] (fun _ => false) true 0.
Lemma shipped_object mc : saved_object mc (shipped_settings mc) = saved_object plain_machine (shipped_settings plain_machine).
Proof. unfold saved_object, keys. cbn [map saved shipped_settings]. unfold folder_none. rewrite !seqb_refl. reflexivity. Qed.
Lemma shipped_text mc : stxt mc (shipped_settings mc) = shipped_ini.
Proof. unfold stxt. rewrite shipped_object. vm_compute. reflexivity. Qed.
Lemma shipped_usable mc : usable mc (shipped_settings mc).
Proof.
  split; [|exists (m_dir mc); split; [reflexivity|now left]].
  assert (float_text (u "1.0")) as F1.
  { left. exists [], [49], [46; 48], []. split; [reflexivity|]. split; [now left|].
    split; [right; exists 49, []; split; [reflexivity|]; split; [reflexivity|]; split; [discriminate|reflexivity]|].
    split; [right; exists 48, []; split; reflexivity|]. split; [now left|]. left. discriminate. }
  assert (float_text (u "0.997")) as F2.
  { left. exists [], [48], [46; 57; 57; 55], []. split; [reflexivity|]. split; [now left|]. split; [now left|].
    split; [right; exists 57, [57; 55]; split; reflexivity|]. split; [now left|]. left. discriminate. }
  assert (Forall plain_char (u "lean_BFS")) as A by (apply plain_check; reflexivity).
  intros k. destruct k; cbn [saved shipped_settings writable]; try exact I; try assumption.
  unfold folder_none. rewrite seqb_refl. exact I.
Qed.

Section First.
Variable mc : machine.
Variable L : library.
Variable x : l_net L.
Hypothesis SANE : sane mc L x.
Let CP : cloudpickle L = true := proj1 SANE.
Let NET : network L (base L) = Ok x := proj1 (proj2 SANE).
Let FULL : writable (create L (base L)) := proj1 (proj2 (proj2 SANE)).
Lemma sane_object : ~ is_number (create L (base L)).
Proof. pose proof SANE as (_ & _ & _ & (l & E) & _). rewrite E. intros H. exact H. Qed.
Lemma new_tidy d : new_installation mc d -> tidy mc L x false d.
Proof.
  intros (I & B & C). split; [|split].
  - destruct I as [-> | ->]; [exact Logic.I|]. left. exists (shipped_settings mc). split; [apply shipped_usable|]. symmetry. apply shipped_text.
  - rewrite B. exact Logic.I.
  - intros F. unfold tidy_folder. rewrite !C by (first [apply in_net|apply in_dict|apply in_temp|apply in_names]). repeat split. now left.
Qed.
(** a session on its folder [F], with the cache *)
Definition at_work (F : str) (w : world) : Prop :=
  in_folder F w /\ usable mc (p_set (w_par w)) /\ truth (setting w KCache) = true.
Lemma new_opens d : new_installation mc d -> exists w, next_session mc d = (Ok tt, w) /\ at_work (m_dir mc) w /\ truth (setting w KReload) = true /\ p_memory (w_par w) = false
  /\ forall f n, In n cache_names -> w_disk w (f ++ n) = None.
Proof.
  intros (I & B & C). destruct I as [I|I].
  - destruct (first_start mc d I) as (w & E & St & _ & Do & _). exists w. split; [exact E|].
    assert (usable mc (first_settings mc)) as U by (split; [apply first_savable|apply first_there]).
    pose proof (starts_usable mc _ _ St U) as Uw. destruct St as (S & M & _).
    split; [split; [unfold in_folder; rewrite S; reflexivity|split; [exact Uw|rewrite S; reflexivity]]|].
    split; [rewrite S; reflexivity|]. split; [rewrite M; reflexivity|]. intros f n Hn. rewrite Do; [now apply C|]. apply seqb_neq. now apply cache_ini.
  - pose proof (shipped_usable mc) as U. rewrite <- (shipped_text mc) in I.
    destruct (next_saved mc _ (shipped_settings mc) d (proj1 U) (proj2 U) I) as (w & E & St & D & _); [auto|]. exists w. split; [exact E|].
    pose proof (starts_usable mc _ _ St (merged_usable mc _ _ U U)) as Uw. destruct St as (S & M & _).
    split; [split; [unfold in_folder; rewrite S; reflexivity|split; [exact Uw|rewrite S; reflexivity]]|].
    split; [rewrite S; reflexivity|]. split; [rewrite M; reflexivity|]. intros f n Hn. rewrite D. now apply C.
Qed.
(** the disk of a session that works: settings and cache as they should be *)
Definition cache_whole (F : str) (m : l_mem L) (d : files) : Prop := net_file L F x m d /\ dict_file L F d /\ temp_file L F d /\ names_file L F d.
Definition working (F : str) (m : l_mem L) (w : world) : Prop :=
  at_work F w /\ truth (setting w KVersion) = false /\ cache_whole F m (w_disk w).
Definition on_disk (w : world) : Prop := w_disk w (ini_path mc) = Some (stxt mc (p_set (w_par w))).
Lemma at_work_set F w k b : at_work F w -> k <> KFolder -> (k = KCache -> b = true) -> at_work F (setp w k (JBool b)).
Proof.
  intros (H & U & C) Hk Hc. split; [unfold in_folder; rewrite setp_other by (intros E; now apply Hk); exact H|]. split; [now apply usable_set|].
  destruct (key_eqb k KCache) eqn:E; [apply key_eqb_eq in E; subst; rewrite setp_same, Hc by reflexivity; reflexivity|].
  rewrite setp_other by (intros K; rewrite <- K, key_eqb_refl in E; discriminate E). exact C.
Qed.
Lemma settled_whole F m w : cache_whole F m (w_disk w) -> cache_whole F m (w_disk (settled mc w)).
Proof. intros (A & B & C & D). unfold cache_whole, net_file, dict_file, temp_file, names_file in *. rewrite !settled_disk. paths. auto. Qed.
Lemma settled_on_disk w : on_disk (settled mc w).
Proof. unfold on_disk. rewrite settled_disk. rewrite ini_bak, seqb_refl. reflexivity. Qed.
Lemma shown_working F m w : at_work F w -> on_disk w -> cache_whole F m (w_disk w) -> working F m (shown mc w) /\ on_disk (shown mc w) /\ setting (shown mc w) KReload = setting w KReload.
Proof.
  intros H O C. unfold shown. destruct (truth (setting w KVersion)) eqn:V; [|split; [split; [exact H|split; [exact V|exact C]]|auto]].
  split; [|split; [apply settled_on_disk|apply (setp_other w KVersion (JBool false)); discriminate]].
  split; [exact (at_work_set F w KVersion false H ltac:(discriminate) ltac:(discriminate))|]. split; [change (setting (settled mc (setp w KVersion (JBool false))) KVersion) with (setting (setp w KVersion (JBool false)) KVersion); rewrite setp_same; reflexivity|].
  apply settled_whole. exact C.
Qed.
(** everything is built *)
Lemma first_boot F w : at_work F w -> truth (setting w KReload) = true -> p_memory (w_par w) = false ->
  exists w', boot mc L w = (Ok (built_tables L x (no_memory L)), w') /\ working F (no_memory L) w' /\ on_disk w' /\ truth (setting w' KReload) = false
    /\ forall F' n, In n cache_names -> F' <> F -> w_disk w' (F' ++ n) = w_disk w (F' ++ n).
Proof.
  intros (H & U & C) Rl M. assert (files_cached F w = false) as N1 by (unfold files_cached; rewrite Rl; reflexivity).
  assert (files_cached F (two_files L F w) = false) as N2 by (unfold files_cached, setting; rewrite two_par; fold (setting w KReload); rewrite Rl; reflexivity).
  rewrite (scratch_at mc L F w x H CP N1 N2 (proj1 U) NET FULL).
  assert (memory_of L F (two_files L F w) = no_memory L) as -> by (unfold memory_of; rewrite two_par, M, Bool.andb_false_r; reflexivity).
  set (w2 := two_files L F w). eexists. split; [reflexivity|].
  assert (forall k, setting w2 k = setting w k) as K by (intros k; unfold setting, w2; now rewrite two_par).
  assert (at_work F w2) as H2 by (split; [unfold in_folder; rewrite K; exact H|split; [unfold w2; rewrite two_par; exact U|rewrite K; exact C]]).
  set (w3 := stored mc L F w2 (base L) (x, no_memory L)).
  assert (w_par w3 = w_par (setp w2 KReload (JBool false))) as P3 by (unfold w3; rewrite stored_par; reflexivity).
  assert (at_work F w3) as H3.
  { pose proof (at_work_set F w2 KReload false H2 ltac:(discriminate) ltac:(discriminate)) as Q. unfold at_work, in_folder, setting in *. rewrite P3. exact Q. }
  assert (on_disk w3) as O3.
  { unfold on_disk. rewrite P3. unfold w3, stored. rewrite K, C. rewrite !wrote_disk. paths. rewrite settled_disk. paths. reflexivity. }
  assert (cache_whole F (no_memory L) (w_disk w3)) as C3.
  { unfold cache_whole, net_file, dict_file, temp_file, names_file, w3, stored. rewrite K, C. rewrite !wrote_disk, !settled_disk. paths. rewrite !setp_disk. unfold w2. rewrite !(two_disk L F w _ C). paths. auto. }
  destruct (shown_working F (no_memory L) w3 H3 O3 C3) as (A & B & D). split; [exact A|]. split; [exact B|]. split; [rewrite D; unfold setting; rewrite P3; rewrite set_same; reflexivity|].
  intros F' n Hn Ne. apply seqb_neq in Ne. assert (w_disk w3 (F' ++ n) = w_disk w (F' ++ n)) as E3.
  { unfold w3, stored. rewrite K, C. rewrite !wrote_disk, settled_disk. rewrite (cache_ini mc F' n Hn), (cache_bak mc F' n Hn), !seqb_names by (first [exact Hn|apply in_net|apply in_dict]).
    rewrite Ne. cbn [andb]. rewrite setp_disk. unfold w2. rewrite (two_disk L F w _ C), !seqb_names by (first [exact Hn|apply in_temp|apply in_names]). rewrite Ne. reflexivity. }
  unfold shown. destruct (truth (setting w3 KVersion)); [|exact E3]. rewrite settled_disk, (cache_ini mc F' n Hn), (cache_bak mc F' n Hn). exact E3.
Qed.
Lemma first_session d : new_installation mc d ->
  exists w, new_start mc L d = (Ok (built_tables L x (no_memory L)), w) /\ working (m_dir mc) (no_memory L) w /\ on_disk w /\ truth (setting w KReload) = false
    /\ forall F' n, In n cache_names -> F' <> m_dir mc -> w_disk w (F' ++ n) = None.
Proof.
  intros N. destruct (new_opens d N) as (w & E & H & Rl & M & Z). destruct (first_boot (m_dir mc) w H Rl M) as (w' & E' & K1 & K2 & K3 & K4).
  exists w'. split; [rewrite <- E'; exact (pbind_ok (init mc) (fun _ => boot mc L) _ tt w E)|]. split; [exact K1|]. split; [exact K2|]. split; [exact K3|].
  intros F' n Hn Ne. rewrite K4 by assumption. now apply Z.
Qed.
(** the next session *)
Lemma working_set_up F m w : working F m w -> on_disk w -> set_up mc F (p_set (w_par w)) (w_disk w).
Proof. intros ((H & U & C) & V & _) O. split; [exact (proj1 U)|]. split; [exact H|]. split; [exact V|]. split; [exact C|exact O]. Qed.
Lemma working_there F m w : working F m w -> F = m_dir mc \/ m_isdir mc F = true.
Proof. intros ((H & (_ & (F' & E & T)) & _) & _). unfold in_folder, setting in H. rewrite H in E. injection E as <-. exact T. Qed.
Lemma working_ready F m w : working F m w -> on_disk w -> truth (setting w KReload) = false -> ready mc L F x m (w_disk w).
Proof. intros W O Rl. exists (p_set (w_par w)). split; [exact (working_set_up F m w W O)|]. split; [exact Rl|]. exact (proj2 (proj2 W)). Qed.
End First.
