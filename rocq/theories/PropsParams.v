(** * C41 to C45, C54 to C57: the settings, their files, the crash of a save *)
From Coq Require Import String.
From Verif Require Import Py Json JsonFacts JsonFacts2 Params ParamsSpec ParamsFacts SwitchFacts ParamsFacts2.
Local Open Scope N_scope.

(** a machine for the examples: the package is in /p/, the folders are /, /p/ and /d; 1000 nested calls *)
Definition demo : machine := Machine (u "/p/") (fun x => smem x [u "/"; u "/p/"; u "/d"; u "/d/"]) true 1000.
Definition demo_first : world := snd (next_session demo (fun _ => None)).

Lemma set_savable mc f k v : savable mc f -> k <> KFolder -> writable v -> savable mc (with_key k v f).
Proof.
  intros S Hk Hv k'. destruct (key_eqb k' k) eqn:E.
  - apply key_eqb_eq in E. subst k'. destruct k; cbn [saved]; rewrite ?with_key_same; try exact Hv. contradiction.
  - assert (k' <> k) as N by (intros ->; now rewrite key_eqb_refl in E).
    specialize (S k'). destruct k'; cbn [saved] in *; rewrite with_key_other by exact N; exact S.
Qed.
(** ** C41: the search algorithm *)
Definition legal (w : world) : Prop := exists x, setting w KAlgo = JStr x /\ In x [u "BFS"; u "lean_BFS"; u "DFS"; u "hybrid_BFS"].
Theorem C41_always_legal : forall mc calls w, legal w -> legal (pcalls mc calls w).
Proof.
  intros mc l w H. unfold legal, setting in *.
  apply (pcalls_keep mc (fun f => exists x, f KAlgo = JStr x /\ In x algorithms) (fun _ => True)); [|now induction l; constructor|exact H].
  intros f f' c _ (x & E & Hx) S. destruct (S KAlgo) as [->|(y & Ey & Hy)]; eauto.
Qed.
Print Assumptions C41_always_legal.
(** an unknown name, or an object that is not a string, is refused and nothing changes *)
Theorem C41_refused : forall mc x w, ~ In x [u "BFS"; u "lean_BFS"; u "DFS"; u "hybrid_BFS"] ->
  set_algorithm mc (Some x) w = (Err ValueError, w) /\ set_algorithm mc None w = (Err ValueError, w)
  /\ method_set_algorithm mc (Some x) w = (Ok tt, w) /\ method_set_algorithm mc None w = (Ok tt, w).
Proof.
  intros mc x w H. unfold set_algorithm, method_set_algorithm.
  assert (smem x algorithms = false) as -> by (apply smem_false; exact H). auto.
Qed.
Print Assumptions C41_refused.
(** a known one is taken and kept for the next session ([hybrid_BFS] needs threads) *)
Theorem C41_taken : forall mc x w, In x [u "BFS"; u "lean_BFS"; u "DFS"; u "hybrid_BFS"] -> savable mc (p_set (w_par w)) ->
  (x = u "hybrid_BFS" -> p_thread (w_par w) = true) ->
  exists w', set_algorithm mc (Some x) w = (Ok tt, w') /\ setting w' KAlgo = JStr x
    /\ other_settings_same [KAlgo] w w' /\ session_same w w' /\ kept_on_disk mc w w'.
Proof.
  intros mc x w Hx S Ht. unfold set_algorithm, method_set_algorithm.
  assert (smem x algorithms = true) as -> by (apply smem_In; exact Hx). unfold pbind, pget.
  replace (seqb x (u "hybrid_BFS") && negb (p_thread (w_par w))) with false.
  2: { destruct (seqb x (u "hybrid_BFS")) eqn:E; [|reflexivity]. apply seqb_eq in E. now rewrite (Ht E). }
  unfold store_algorithm, pbind, pmod.
  match goal with |- context [save_params mc ?a] => set (w1 := a) end.
  assert (savable mc (p_set (w_par w1))) as S1.
  { unfold w1. cbn [w_par p_set]. apply set_savable; [exact S|discriminate|]. cbn [writable].
    apply plain_check. cbn [In] in Hx. intuition (subst x; reflexivity). }
  destruct (save_kept mc w1 S1) as [A B]. pose proof (save_par mc w1) as Pw. destruct (save_params mc w1) as [r w2]. cbn [fst snd] in *. subst r.
  exists w2. split; [reflexivity|]. unfold setting, other_settings_same, session_same. unfold setting. rewrite Pw. unfold w1. cbn [w_par p_set p_memory p_thread p_multi p_net_fvf].
  split; [apply with_key_same|]. split; [intros k Hk; apply with_key_other; intros ->; apply Hk; now left|]. split; [auto|].
  eapply kept_trans; [reflexivity| |exact B]. reflexivity.
Qed.
Print Assumptions C41_taken.
Example C41_case : legal demo_first /\ savable demo (p_set (w_par demo_first)) /\ p_thread (w_par demo_first) = true.
Proof.
  destruct (first_start demo (fun _ => None) eq_refl) as (w & E & (S & _ & T & _) & _). unfold demo_first. rewrite E. cbn [snd].
  split; [exists (u "lean_BFS"); split; [exact (S KAlgo)|cbn; tauto]|]. split; [|exact T].
  intros k. replace (saved demo (p_set (w_par w)) k) with (saved demo (first_settings demo) k); [apply first_savable|].
  destruct k; cbn [saved]; f_equal; symmetry; apply S.
Qed.
(** the names of a file are not checked: a session can start with an algorithm that does not exist *)
Definition ini_bfs : str := u "{""algorithm"": ""bfs""}".
Theorem C41_file_refuted : forall mc d, d (ini_path mc) = Some ini_bfs -> d (bak_path mc) = None ->
  fst (next_session mc d) = Ok tt /\ setting (snd (next_session mc d)) KAlgo = JStr (u "bfs") /\ ~ legal (snd (next_session mc d)).
Proof.
  intros mc d I B.
  assert (exists w, next_session mc d = (Ok tt, w) /\ setting w KAlgo = JStr (u "bfs")) as (w & E & S).
  { unfold next_session, init, pbind at 1, pmod at 1. cbn [blank_world w_par w_disk w_log]. unfold pbind at 1.
    unfold load_params, pbind at 1, pdisk at 1. cbn [w_disk]. unfold is_file at 1. rewrite I. unfold pbind at 1, read_file, pbind at 1, pdisk at 1. cbn [w_disk].
    rewrite I. unfold plift at 1. change (jload ini_bfs) with (@Ok jval (JObj [(u "algorithm", JStr (u "bfs"))])). unfold pbind at 1.
    set (o := JObj _).
    set (g := fun k => match k with KAlgo => JStr (u "bfs") | KFolder => JStr (m_dir mc) | _ => default k end).
    destruct (read_keys_all mc o g keys (World (initial mc) d []) keys_NoDup) as (p & E & P1 & M).
    { intros k _ Hk. destruct k; try reflexivity. }
    { intros _. reflexivity. }
    rewrite E. unfold pbind at 1 2, pget, pdisk. cbn [w_par w_disk].
    rewrite P1. change (existsb (key_eqb KVersion) keys) with true. cbn [g default truth]. unfold is_file. rewrite B. cbn [andb].
    unfold pret, pmod. cbn [w_par w_disk w_log]. eexists. split; [reflexivity|]. unfold setting. cbn [w_par p_set].
    rewrite with_key_other by discriminate. rewrite P1. reflexivity. }
  rewrite E. cbn [fst snd]. split; [reflexivity|]. split; [exact S|].
  intros (x & Ex & Hx). rewrite S in Ex. injection Ex as <-. cbn [In] in Hx. intuition discriminate.
Qed.
Print Assumptions C41_file_refuted.

(** ** C42: the switches *)
Lemma off_word_spec x : smem (strip (lower x)) off_switches = true <-> off_word x.
Proof.
  rewrite smem_In. unfold off_word. apply (strip_word off_switches).
  intros y Hy c r E. unfold off_switches in Hy. cbn [In] in Hy.
  assert (forall d, In d (u "ofnt") -> ~ In d wspace) as H.
  { intros d Hd. apply cmem_false. vm_compute in Hd. repeat (destruct Hd as [<-|Hd]; [reflexivity|]). destruct Hd. }
  apply H. assert (In c y) as Hc by (destruct E as [->|E]; [now left|rewrite E; apply in_app_iff; right; now left]).
  destruct Hy as [<-|[<-|[<-|[<-|[]]]]]; vm_compute in Hc |- *; tauto.
Qed.
Lemma switch_value_turns old a b : switch_value old a = Ok b -> turns (truth old) a b.
Proof.
  destruct a as [|x|z|b'|r]; cbn [switch_value turns]; intros E; try exact E; apply (f_equal (fun r => match r with Ok x => x | Err _ => false end)) in E; cbv beta iota in E; subst b.
  - reflexivity.
  - rewrite <- off_word_spec. fold (smem (strip (lower x)) off_switches). destruct (smem (strip (lower x)) off_switches); cbn [negb]; split; intros H; first [reflexivity|discriminate H].
  - destruct (Z.eqb_spec z 0); cbn [negb]; split; intros H; first [reflexivity|discriminate H|assumption|contradiction].
  - reflexivity.
Qed.
Lemma set_and_save mc w k v : savable mc (p_set (w_par w)) -> k <> KFolder -> writable v ->
  exists w', pbind (pmod (set_key k v)) (fun _ => save_params mc) w = (Ok tt, w') /\ setting w' k = v /\ other_settings_same [k] w w' /\ session_same w w' /\ kept_on_disk mc w w'.
Proof.
  intros S Hk Hv. unfold pbind, pmod.
  match goal with |- context [save_params mc ?a] => set (w1 := a) end.
  assert (savable mc (p_set (w_par w1))) as S1 by (apply set_savable; assumption).
  destruct (save_kept mc w1 S1) as [A B]. pose proof (save_par mc w1) as Pw. destruct (save_params mc w1) as [r w2]. cbn [fst snd] in *. subst r.
  exists w2. split; [reflexivity|]. unfold setting, other_settings_same, session_same. unfold setting. rewrite Pw. unfold w1. cbn [w_par set_key p_set p_memory p_thread p_multi p_net_fvf].
  split; [apply with_key_same|]. split; [intros k' Hk'; apply with_key_other; intros ->; apply Hk'; now left|]. split; [auto|].
  eapply kept_trans; [reflexivity| |exact B]. reflexivity.
Qed.
Definition switch_of (mc : machine) (k : key) : option (sarg -> P unit) :=
  match k with
  | KPrint => Some (print_path mc) | KCache => Some (cache mc) | KRaise => Some (raise_error mc) | KReload => Some (reload_next_time mc)
  | _ => None
  end.
Theorem C42_switch : forall mc k call a w, switch_of mc k = Some call -> savable mc (p_set (w_par w)) ->
  (forall e, a <> SObject (Err e)) ->
  exists b w', call a w = (Ok tt, w') /\ setting w' k = JBool b /\ turns (truth (setting w k)) a b
    /\ other_settings_same [k] w w' /\ session_same w w' /\ kept_on_disk mc w w'.
Proof.
  intros mc k call a w Hc S Ha.
  assert (call = switch mc k /\ k <> KFolder) as [-> Hk] by (destruct k; try discriminate Hc; injection Hc as <-; split; try reflexivity; discriminate).
  destruct (switch_value (p_set (w_par w) k) a) as [b|e] eqn:E.
  - destruct (set_and_save mc w k (JBool b) S Hk I) as (w' & E' & R). exists b, w'.
    destruct R as (R1 & R2 & R3 & R4). repeat (split; try assumption).
    + unfold switch, pbind at 1 2, pget, plift. rewrite E. exact E'.
    + apply switch_value_turns, E.
  - exfalso. destruct a; cbn [switch_value] in E; try discriminate E. now apply (Ha e); f_equal.
Qed.
Print Assumptions C42_switch.
(** an object whose truth value cannot be taken: nothing happens *)
Theorem C42_switch_error : forall mc k call e w, switch_of mc k = Some call -> call (SObject (Err e)) w = (Err e, w).
Proof. intros mc k call e w Hc. destruct k; try discriminate Hc; injection Hc as <-; reflexivity. Qed.
Print Assumptions C42_switch_error.
(** [verbose] does the same, with two settings, when its argument is not an integer or is not negative *)
Theorem C42_verbose_partial : forall mc a w, savable mc (p_set (w_par w)) -> (forall e, a <> SObject (Err e)) ->
  (forall z, a = SInt z -> (0 <= z)%Z) ->
  exists b w', verbose mc a w = (Ok tt, w') /\ setting w' KVerbose = JBool b /\ turns (truth (setting w KVerbose)) a b
    /\ setting w' KDetails = match a with SInt z => JInt z | _ => setting w KDetails end
    /\ other_settings_same [KVerbose; KDetails] w w' /\ session_same w w' /\ kept_on_disk mc w w'.
Proof.
  intros mc a w S Ha Hz.
  assert (forall a0 w0, savable mc (p_set (w_par w0)) -> (forall e, a0 <> SObject (Err e)) -> exists b w', switch mc KVerbose a0 w0 = (Ok tt, w') /\ setting w' KVerbose = JBool b /\ turns (truth (setting w0 KVerbose)) a0 b /\ other_settings_same [KVerbose] w0 w' /\ session_same w0 w' /\ kept_on_disk mc w0 w') as G.
  { intros a0 w0 S0 H0. destruct (switch_value (p_set (w_par w0) KVerbose) a0) as [b|e] eqn:E.
    - destruct (set_and_save mc w0 KVerbose (JBool b) S0 ltac:(discriminate) I) as (w' & E' & R1 & R2 & R3 & R4). exists b, w'.
      repeat (split; try assumption).
      + unfold switch, pbind at 1 2, pget, plift. rewrite E. exact E'.
      + apply switch_value_turns, E.
    - exfalso. destruct a0; cbn [switch_value] in E; try discriminate E. now apply (H0 e); f_equal. }
  destruct (match a with SInt z => Some z | _ => None end) as [z|] eqn:Ea.
  - destruct a; try discriminate Ea. injection Ea as ->. specialize (Hz z eq_refl). cbn [verbose].
    unfold pbind at 1, pmod. set (w1 := World _ _ _).
    destruct (G (SBool (negb (z <=? 0)%Z)) w1) as (b & w' & E & B & T & O & Sm & K).
    + apply set_savable; [exact S|discriminate|exact I].
    + discriminate.
    + exists b, w'. split; [exact E|]. split; [exact B|]. split.
      { cbn [turns] in T |- *. subst b. destruct (Z.leb_spec z 0); cbn; split; intros; try lia; try congruence. }
      split; [rewrite O by (cbn [In]; intuition discriminate); apply with_key_same|]. split.
      { intros k Hk. cbn [In] in Hk. rewrite O by (cbn [In]; intuition). apply with_key_other. intuition. }
      split; [exact Sm|]. eapply kept_trans; [reflexivity| |exact K]. reflexivity.
  - assert (verbose mc a = switch mc KVerbose a) as -> by (destruct a; try reflexivity; discriminate Ea).
    destruct (G a w S Ha) as (b & w' & E & B & T & O & Sm & K). exists b, w'. repeat (split; try assumption).
    + rewrite O by (cbn [In]; intuition discriminate). destruct a; try reflexivity. discriminate Ea.
    + intros k Hk. cbn [In] in Hk. apply O. cbn [In]. intuition.
Qed.
Print Assumptions C42_verbose_partial.
(** a negative integer is true, yet turns [verbose] off *)
Theorem C42_verbose_refuted : forall mc z w, savable mc (p_set (w_par w)) -> (z < 0)%Z ->
  exists w', verbose mc (SInt z) w = (Ok tt, w') /\ setting w' KVerbose = JBool false /\ setting w' KDetails = JInt z
    /\ ~ turns (truth (setting w KVerbose)) (SInt z) false.
Proof.
  intros mc z w S Hz. cbn [verbose]. unfold pbind at 1, pmod. set (w1 := World _ _ _).
  destruct (set_and_save mc w1 KVerbose (JBool false)) as (w' & E & B & O & _).
  - apply set_savable; [exact S|discriminate|exact I].
  - discriminate.
  - exact I.
  - exists w'. replace (z <=? 0)%Z with true by (symmetry; apply Z.leb_le; lia). split; [exact E|]. split; [exact B|].
    split; [rewrite O by (cbn [In]; intuition discriminate); apply with_key_same|]. cbn [turns]. intros [_ H]. assert (false = true) by (apply H; lia). discriminate.
Qed.
Print Assumptions C42_verbose_refuted.
Example C42_case : savable demo (p_set (w_par demo_first)) /\ off_word (u "  OFF ") /\ ~ off_word (u "on")
  /\ setting (snd (print_path demo (SStr (u " No")) demo_first)) KPrint = JBool false /\ setting (snd (print_path demo (SStr (u "x")) demo_first)) KPrint = JBool true.
Proof.
  split; [apply C41_case|]. rewrite <- !off_word_spec.
  split; [reflexivity|]. split; [vm_compute; discriminate|].
  split; unfold print_path, switch, pbind at 1 2, pget, plift; cbn [switch_value]; unfold setting, pbind, pmod; rewrite save_par; cbn [w_par set_key p_set]; rewrite with_key_same; reflexivity.
Qed.

(** ** C43: what is saved is read back *)
Theorem C43_read_back : forall mc w, savable mc (p_set (w_par w)) -> folder_there mc (p_set (w_par w)) ->
  exists w1 w2, save_params mc w = (Ok tt, w1) /\ next_session mc (w_disk w1) = (Ok tt, w2)
    /\ (forall k, k <> KParallel \/ m_threads mc = true -> setting w2 k = setting w k) /\ w_disk w2 = w_disk w1.
Proof.
  intros mc w S F. destruct (save_kept mc w S) as [A (t & J & I & B & _)]. pose proof (save_par mc w) as Pw.
  destruct (save_params mc w) as [r w1]. cbn [fst snd] in *. subst r. exists w1.
  rewrite Pw in J. assert (t = stxt mc (p_set (w_par w))) as ->.
  { rewrite (jwrite_txt _ (proj1 (savable_writable _ _) S)) in J. unfold stxt. congruence. }
  destruct (next_saved mc (p_set (w_par w)) (p_set (w_par w)) (w_disk w1) S F I) as (w2 & E & (St & _) & D & _); [auto|].
  exists w2. split; [reflexivity|]. split; [exact E|]. split; [|exact D].
  intros k Hk. rewrite St. unfold merged, parallel_at_start.
  destruct k; try (destruct (truth (p_set (w_par w) KVersion)); reflexivity).
  destruct Hk as [Hk|Hk]; [contradiction|]. rewrite Hk. destruct (truth (p_set (w_par w) KVersion)); reflexivity.
Qed.
Print Assumptions C43_read_back.
(** from the first session on, whatever is called *)
Theorem C43_any_history : forall mc d calls, d (ini_path mc) = None -> m_isdir mc (u "/") = true -> Forall plain_char (m_dir mc) -> Forall (given mc) calls ->
  let w := pcalls mc calls (snd (next_session mc d)) in
  exists w1 w2, save_params mc w = (Ok tt, w1) /\ next_session mc (w_disk w1) = (Ok tt, w2)
    /\ (forall k, k <> KParallel \/ m_threads mc = true -> setting w2 k = setting w k) /\ w_disk w2 = w_disk w1.
Proof.
  intros mc d calls N R M G w. destruct (first_start mc d N) as (w0 & E & (S & _) & _).
  assert (savable mc (p_set (w_par w)) /\ folder_there mc (p_set (w_par w))) as [A B]; [|now apply C43_read_back].
  unfold w. rewrite E. cbn [snd]. apply calls_savable; auto.
  - intros k. pose proof (first_savable mc k) as H. pose proof (S k) as Sk. unfold setting in Sk.
    destruct k; cbn [saved] in *; rewrite Sk; try exact H. unfold parallel_at_start. destruct (m_threads mc); exact I.
  - exists (m_dir mc). split; [exact (S KFolder)|now left].
Qed.
Print Assumptions C43_any_history.
(** the hypotheses of C43 and of C44 are met: these calls, in the first session of the machine *)
Definition demo_calls : list pact :=
  [CPrintPath SNone; CSetDensity (fun _ _ => Err ValueError) (DNumber (JFlt (u "0.25"))) (u "g/CC"); CUserFolder (Some (u "/d")); CRecursion (LInt 5000); CVerbose (SInt 2);
   CSetAlgorithm (Some (u "BFS")); CSetFvf (fun _ => None) (FvInt 3); CSetAlgorithm (Some (u "bfs"))].
Lemma quarter : float_text (u "0.25").
Proof.
  left. exists [], [48], [46; 50; 53], []. split; [reflexivity|]. split; [now left|]. split; [now left|].
  split; [right; exists 50, [53]; split; reflexivity|]. split; [now left|]. left. discriminate.
Qed.
Example C43_case : Forall (given demo) demo_calls /\ m_isdir demo (u "/") = true /\ Forall plain_char (m_dir demo)
  /\ setting (pcalls demo demo_calls demo_first) KDensity = JFlt (u "0.25") /\ setting (pcalls demo demo_calls demo_first) KFolder = JStr (u "/d")
  /\ setting (pcalls demo demo_calls demo_first) KMaxRec = JInt 985 /\ setting (pcalls demo demo_calls demo_first) KAlgo = JStr (u "BFS") /\ setting (pcalls demo demo_calls demo_first) KPrint = JBool true.
Proof.
  split.
  { unfold demo_calls. repeat (apply Forall_cons; [first [exact I | split; [exact quarter|intros v E; discriminate E] | apply plain_check; reflexivity]|]). apply Forall_nil. }
  split; [reflexivity|]. split; [apply plain_check; reflexivity|].
  repeat split; vm_compute; reflexivity.
Qed.

(** ** C44: dying while the settings are saved *)
(** the settings that the files of the disk hold *)
Definition disk_holds (mc : machine) (d : files) (f : settings) : Prop :=
  savable mc f /\ folder_there mc f /\ exists t, jwrite (saved_object mc f) = (t, true) /\ d (ini_path mc) = Some t /\ d (bak_path mc) = Some t.
Definition same_settings (mc : machine) (w : world) (f : settings) : Prop := forall k, k <> KParallel \/ m_threads mc = true -> setting w k = f k.
Lemma holds_stxt mc d f : disk_holds mc d f -> savable mc f /\ folder_there mc f /\ d (ini_path mc) = Some (stxt mc f) /\ d (bak_path mc) = Some (stxt mc f).
Proof.
  intros (S & F & t & J & I & B). rewrite (jwrite_txt _ (proj1 (savable_writable _ _) S)) in J. unfold stxt. injection J as <-. auto.
Qed.
Lemma starts_same mc f w : starts_with mc f w -> same_settings mc w f.
Proof.
  intros [S _] k Hk. rewrite S. destruct k; try reflexivity. destruct Hk as [Hk|Hk]; [contradiction|]. unfold parallel_at_start. now rewrite Hk.
Qed.
(** before the first step the old settings are there; once parameters.ini is complete, and if the version is no longer shown (it is shown
    once, in the first session), the new ones, wherever in the copy the process dies.  What is missing: the next theorem *)
Theorem C44_ends_partial : forall mc old w n, disk_holds mc (w_disk w) old -> savable mc (p_set (w_par w)) -> folder_there mc (p_set (w_par w)) ->
  (n = 0%nat -> exists w', next_session mc (crash (save_params mc) n w) = (Ok tt, w') /\ same_settings mc w' old)
  /\ ((length (fst (jwrite (saved_object mc (p_set (w_par w))))) < n)%nat -> truth (setting w KVersion) = false ->
      exists w', next_session mc (crash (save_params mc) n w) = (Ok tt, w') /\ same_settings mc w' (setting w)).
Proof.
  intros mc old w n H S F. apply holds_stxt in H. destruct H as (So & Fo & I & B). split.
  - intros ->. change (crash (save_params mc) 0 w) with (w_disk w).
    destruct (next_saved mc old old (w_disk w) So Fo I) as (w' & E & St & _); [auto|]. exists w'. split; [exact E|].
    apply starts_same in St. intros k Hk. rewrite (St k Hk). unfold merged. destruct (truth (old KVersion)), (existsb (key_eqb k) restored_keys); reflexivity.
  - rewrite (jwrite_txt _ (proj1 (savable_writable _ _) S)). cbn [fst]. fold (stxt mc (p_set (w_par w))). intros Hn V.
    destruct (crash_late mc n w S Hn) as (A & _).
    destruct (next_saved mc (p_set (w_par w)) (p_set (w_par w)) _ S F A) as (w' & E & St & _); [unfold setting in V; intros K; congruence|].
    exists w'. split; [exact E|]. apply starts_same in St. intros k Hk. rewrite (St k Hk). unfold merged. unfold setting in *. now rewrite V.
Qed.
Print Assumptions C44_ends_partial.
(** at every step in between, the next session does not start, and neither does any later one *)
Fixpoint starts_again (mc : machine) (n : nat) (d : files) : res unit :=
  match n with O => fst (next_session mc d) | S n' => starts_again mc n' (w_disk (snd (next_session mc d))) end.
Lemma never_starts mc d e : (exists w, next_session mc d = (Err e, w) /\ w_disk w = d) -> forall n, starts_again mc n d = Err e.
Proof. intros (w & E & D) n. induction n as [|n IH]; cbn [starts_again]; rewrite E; cbn [fst snd]; [reflexivity|]. now rewrite D. Qed.
Theorem C44_refuted : forall mc w n, savable mc (p_set (w_par w)) ->
  (0 < n <= length (fst (jwrite (saved_object mc (p_set (w_par w))))))%nat ->
  forall later, starts_again mc later (crash (save_params mc) n w) = Err ValueError.
Proof.
  intros mc w n S Hn. rewrite (jwrite_txt _ (proj1 (savable_writable _ _) S)) in Hn. cbn [fst] in Hn. apply never_starts.
  destruct (crash_early mc n w S Hn) as (x & C & E & _). exact (next_broken mc _ _ x S C E).
Qed.
Print Assumptions C44_refuted.
(** while the version is still to be shown, dying inside the copy does it as well *)
Theorem C44_copy_refuted : forall mc w n, savable mc (p_set (w_par w)) -> folder_there mc (p_set (w_par w)) -> truth (setting w KVersion) = true ->
  (length (fst (jwrite (saved_object mc (p_set (w_par w))))) + 1 < n < 2 * length (fst (jwrite (saved_object mc (p_set (w_par w))))) + 2)%nat ->
  forall later, starts_again mc later (crash (save_params mc) n w) = Err ValueError.
Proof.
  intros mc w n S F V Hn. rewrite (jwrite_txt _ (proj1 (savable_writable _ _) S)) in Hn. cbn [fst] in Hn. apply never_starts.
  destruct (crash_late mc n w S ltac:(unfold stxt; lia)) as (A & _ & _ & D & _). destruct (D Hn) as (x & C & B).
  exact (next_broken_copy mc _ _ _ x S F V A S C B).
Qed.
Print Assumptions C44_copy_refuted.
(** and between the two files, the next session has two of the new settings and the rest of the old *)
Theorem C44_mixed_refuted : forall mc old w, disk_holds mc (w_disk w) old -> savable mc (p_set (w_par w)) -> folder_there mc (p_set (w_par w)) ->
  truth (setting w KVersion) = true ->
  exists w', next_session mc (crash (save_params mc) (length (fst (jwrite (saved_object mc (p_set (w_par w))))) + 1) w) = (Ok tt, w')
    /\ same_settings mc w' (fun k => match k with KReload | KVersion => setting w k | _ => old k end).
Proof.
  intros mc old w H S F V. apply holds_stxt in H. destruct H as (So & Fo & I & B).
  rewrite (jwrite_txt _ (proj1 (savable_writable _ _) S)). cbn [fst]. fold (stxt mc (p_set (w_par w))).
  destruct (crash_late mc (length (stxt mc (p_set (w_par w))) + 1) w S ltac:(lia)) as (A & _ & C & _). specialize (C eq_refl). rewrite B in C.
  destruct (next_saved mc (p_set (w_par w)) old _ S F A) as (w' & E & St & _); [auto|].
  exists w'. split; [exact E|]. apply starts_same in St. intros k Hk. rewrite (St k Hk). unfold merged. unfold setting in V |- *. rewrite V. destruct k; reflexivity.
Qed.
Print Assumptions C44_mixed_refuted.
(** the very first start can die too: while parameters.ini is created *)
Theorem C44_first_start_refuted : forall mc d n, d (ini_path mc) = None -> (0 < n <= length (fst (jwrite first_object)))%nat ->
  forall later, starts_again mc later (crash (init mc) n (blank_world d)) = Err ValueError.
Proof.
  intros mc d n N Hn. rewrite (jwrite_txt _ first_object_writable) in Hn. cbn [fst] in Hn. rewrite <- (first_saved mc) in Hn. fold (stxt mc (first_settings mc)) in Hn.
  apply never_starts. destruct (first_start mc d N) as (w & E & _ & _ & _ & L). unfold next_session in E.
  unfold crash. rewrite E. cbn [snd w_log blank_world length skipn w_disk]. rewrite L, firstn_write by lia.
  destruct (run_write (ini_path mc) (firstn (n - 1) (stxt mc (first_settings mc))) d) as [A _].
  refine (next_broken mc (first_settings mc) _ _ (first_savable mc) _ A).
  exists (skipn (n - 1) (stxt mc (first_settings mc))). split; [|symmetry; apply firstn_skipn].
  intros K. apply (f_equal (@length _)) in K. rewrite skipn_length in K. cbn [length] in K. lia.
Qed.
Print Assumptions C44_first_start_refuted.
Example C44_case : let w := snd (save_params demo (pcalls demo demo_calls demo_first)) in
  disk_holds demo (w_disk w) (setting w) /\ savable demo (p_set (w_par (pcalls demo [CCache SNone] w))) /\ folder_there demo (p_set (w_par (pcalls demo [CCache SNone] w)))
  /\ truth (setting w KVersion) = false /\ (100 < length (fst (jwrite (saved_object demo (setting w)))))%nat.
Proof.
  destruct C43_case as (G & R & M & _).
  assert (savable demo (p_set (w_par (pcalls demo demo_calls demo_first))) /\ folder_there demo (p_set (w_par (pcalls demo demo_calls demo_first)))) as [A B].
  { apply calls_savable; auto; [apply C41_case|]. exists (m_dir demo). split; [vm_compute; reflexivity|now left]. }
  set (w0 := pcalls demo demo_calls demo_first) in *. destruct (save_kept demo w0 A) as [_ (t & J & I & Bk & _)]. pose proof (save_par demo w0) as Pw.
  cbv zeta. split; [|split; [|split; [|split]]].
  - unfold disk_holds. unfold setting. rewrite Pw in *. split; [exact A|]. split; [exact B|]. exists t. auto.
  - assert (Forall (given demo) [CCache SNone]) as G2 by (apply Forall_cons; [exact Logic.I|apply Forall_nil]).
    refine (proj1 (calls_savable demo _ _ G2 R M _ _)); rewrite Pw; assumption.
  - assert (Forall (given demo) [CCache SNone]) as G2 by (apply Forall_cons; [exact Logic.I|apply Forall_nil]).
    refine (proj2 (calls_savable demo _ _ G2 R M _ _)); rewrite Pw; assumption.
  - vm_compute. reflexivity.
  - apply Nat.ltb_lt. vm_compute. reflexivity.
Qed.

(** ** C45: the user folder *)
(** a folder that is not there changes nothing; no folder at all gives the one of the package *)
Theorem C45_other_cases : forall mc x w,
  (m_isdir mc x = false -> set_user_folder mc (Some x) w = (Ok tt, w))
  /\ setting (snd (set_user_folder mc None w)) KFolder = JStr (m_dir mc).
Proof.
  intros mc x w. split.
  - intros E. cbn [set_user_folder]. now rewrite E.
  - apply with_key_same.
Qed.
Print Assumptions C45_other_cases.
Lemma slash_last x : ends_with 47 x = true <-> exists y, x = y ++ [47].
Proof.
  unfold ends_with. split.
  - intros H. destruct (rev x) as [|d r] eqn:E; [discriminate|]. apply N.eqb_eq in H. subst d. exists (rev r).
    rewrite <- (rev_involutive x), E. reflexivity.
  - intros (y & ->). rewrite rev_app_distr. reflexivity.
Qed.
(** every folder but the root is missed: the files of the cache go elsewhere (path + name without a separator, or the root of the disk),
    and [delete_cache] does not find the ones that are there *)
Theorem C45_refuted : forall mc x w n, m_isdir mc x = true -> x <> u "/" -> In n cache_names ->
  exists f, setting (snd (set_user_folder mc (Some x) w)) KFolder = JStr f /\ ~ inside x (f ++ n)
    /\ forall p, inside x p -> w_disk (snd (delete_cache (snd (set_user_folder mc (Some x) w)))) p = w_disk w p.
Proof.
  intros mc x w n D Hx Hn. set (f := if negb (ends_with 47 x) && negb (ends_with 92 x) then x else u "/").
  assert (forall m, In m cache_names -> ~ In 47 m /\ m <> []) as Nm.
  { intros m Hm. split; [|intros ->; vm_compute in Hm; intuition discriminate].
    apply cmem_false. unfold cache_names in Hm. cbn [In] in Hm. intuition (subst m; reflexivity). }
  assert (forall m, In m cache_names -> ~ inside x (f ++ m)) as Out.
  { intros m Hm (q & Hq & E). destruct (Nm m Hm) as [Sm Em]. unfold f in E. destruct (ends_with 47 x) eqn:S1; cbn [negb andb] in E.
    - apply slash_last in S1. destruct S1 as (y & ->). destruct y as [|c y]; [now apply Hx|].
      assert (In 47 m) as K; [|contradiction].
      destruct E as [E|[_ E]]; injection E as _ E; rewrite E; apply in_app_iff; left; apply in_app_iff; right; now left.
    - destruct E as [E|[E _]]; [|discriminate E]. destruct (ends_with 92 x) eqn:S2; cbn [negb] in E.
      + destruct x as [|c y]; [discriminate S2|]. injection E as _ E. apply Sm. rewrite E. apply in_app_iff. right. now left.
      + apply app_inv_head in E. apply Sm. rewrite E. now left. }
  exists f. assert (snd (set_user_folder mc (Some x) w) = World (set_key KFolder (JStr f) (w_par w)) (w_disk w) (w_log w)) as ->.
  { cbn [set_user_folder]. rewrite D, app_nil_r. reflexivity. }
  split; [apply with_key_same|]. split; [now apply Out|].
  intros p Hp. set (w1 := World _ _ _).
  assert (forall l w0, incl l cache_names -> setting w0 KFolder = JStr f -> w_disk (snd (delete_each l w0)) p = w_disk w0 p) as G.
  { induction l as [|m l IH]; intros w0 Hl F0; [reflexivity|]. cbn [delete_each].
    unfold pbind at 1, folder, get_user_folder, pbind at 1, pbind at 1, pget, pret at 1. unfold setting in F0. rewrite F0. unfold pret at 1.
    unfold pbind at 1, pdisk, pbind at 1.
    assert (incl l cache_names) as Hl' by (intros a Ha; apply Hl; now right).
    destruct (is_file (w_disk w0) (f ++ m)).
    - unfold pops. rewrite IH; [|exact Hl'|exact F0]. cbn [w_disk run fold_left dstep]. apply upd_other. intros ->. apply (Out m); [apply Hl; now left|exact Hp].
    - unfold pret. rewrite IH; [reflexivity|exact Hl'|exact F0]. }
  apply (G cache_names w1); [apply incl_refl|apply with_key_same].
Qed.
Print Assumptions C45_refuted.
Example C45_case : m_isdir demo (u "/d") = true /\ setting (snd (set_user_folder demo (Some (u "/d")) demo_first)) KFolder = JStr (u "/d")
  /\ setting (snd (set_user_folder demo (Some (u "/d/")) demo_first)) KFolder = JStr (u "/") /\ inside (u "/d") (u "/d/search_memory.cache").
Proof.
  split; [reflexivity|]. split; [reflexivity|]. split; [reflexivity|]. exists (u "search_memory.cache"). split; [apply cmem_false; reflexivity|now left].
Qed.

(** ** C54: the formation volume factor *)
(** a number, or a string that is one, is the factor of the network from then on, and it is not kept for the next session *)
Theorem C54_set_partial : forall float_of a w, (exists z, a = FvInt z) \/ (exists t, a = FvFlt t) \/ (exists x t, a = FvStr x /\ float_of x = Some t) ->
  exists w' v, set_fvf float_of a w = (Ok tt, w') /\ get_fvf w' = (Ok v, w') /\ w_disk w' = w_disk w /\ other_settings_same [KFvf] w w'
    /\ match a with FvInt z => v = JInt z | FvFlt t => v = JFlt t | FvStr x => exists t, float_of x = Some t /\ v = JFlt t | _ => False end.
Proof.
  intros fl a w H. unfold set_fvf, get_fvf, net_set_fvf.
  destruct H as [(z & ->)|[(t & ->)|(x & t & -> & E)]]; [| |rewrite E]; unfold pbind, pmod, pget; cbn [w_par p_set set_key p_net_fvf];
  (eexists; eexists; split; [reflexivity|]; split; [reflexivity|]; split; [reflexivity|]; split;
   [intros k Hk; unfold setting; cbn [w_par set_key p_set]; apply with_key_other; intros ->; apply Hk; now left|eauto]).
Qed.
Print Assumptions C54_set_partial.
(** zero and negative factors are taken; a word is taken by the settings but not by the network; and a saved factor is not in use in the next session,
    where [get_fvf] raises *)
Theorem C54_refuted :
  (forall float_of z w, (z <= 0)%Z -> exists w', set_fvf float_of (FvInt z) w = (Ok tt, w') /\ get_fvf w' = (Ok (JInt z), w'))
  /\ (forall float_of x w, float_of x = None -> exists w', set_fvf float_of (FvStr x) w = (Ok tt, w') /\ setting w' KFvf = JStr x /\ p_net_fvf (w_par w') = p_net_fvf (w_par w))
  /\ (forall mc d w, next_session mc d = (Ok tt, w) -> get_fvf w = (Err AttributeError, w)).
Proof.
  split; [|split].
  - intros fl z w H. eexists. split; reflexivity.
  - intros fl x w H. unfold set_fvf, net_set_fvf. rewrite H. eexists. split; [reflexivity|]. split; [apply with_key_same|reflexivity].
  - intros mc d w H. unfold next_session, init, pbind in H. unfold get_fvf, pbind, pget.
    destruct (pmod (fun _ => initial mc) (blank_world d)) as [[]w1]; [|discriminate H].
    destruct (load_params mc w1) as [[] w2]; [|discriminate H]. injection H as <-. reflexivity.
Qed.
Print Assumptions C54_refuted.
(** so what [set_fvf] is given is lost: a session, [set_fvf(2)], any saving call, and the next session has 2 in its settings and no factor in use *)
Theorem C54_saved_not_used_refuted : forall mc d float_of, d (ini_path mc) = None -> m_isdir mc (u "/") = true -> Forall plain_char (m_dir mc) ->
  exists w1 w2, pcalls mc [CSetFvf float_of (FvInt 2); CSave] (snd (next_session mc d)) = w1 /\ next_session mc (w_disk w1) = (Ok tt, w2)
    /\ setting w2 KFvf = JInt 2 /\ get_fvf w2 = (Err AttributeError, w2).
Proof.
  intros mc d fl N R M.
  destruct (C43_any_history mc d [CSetFvf fl (FvInt 2)] N R M) as (w1 & w2 & E1 & E2 & S & _).
  { apply Forall_cons; [exact I|apply Forall_nil]. }
  set (w0 := snd (next_session mc d)) in *. exists w1, w2. split.
  - unfold pcalls in E1 |- *. cbn [fold_left pcall] in *. rewrite E1. reflexivity.
  - split; [exact E2|]. split; [|apply (proj2 (proj2 C54_refuted) mc (w_disk w1) w2 E2)].
    rewrite S by (left; discriminate). reflexivity.
Qed.
Print Assumptions C54_saved_not_used_refuted.

(** ** C55: the density *)
Definition number (v : jval) : Prop := (exists z, v = JInt z) \/ (exists b, v = JBool b) \/ (exists t, v = JFlt t).
Lemma is_num_number v : is_num v = true <-> number v.
Proof.
  unfold number. split.
  - intros H. destruct v; try discriminate H; eauto.
  - intros [(z & ->)|[(b & ->)|(t & ->)]]; reflexivity.
Qed.
Theorem C55_taken : forall mc conv v units w, savable mc (p_set (w_par w)) -> number v -> writable v ->
  (forall v', conv v units = Ok (Some v') -> writable v') ->
  let in_gcc := In (lower units) [u "g/cc"; u "g/cm3"; u "g/cm³"] in
  (in_gcc -> exists w', set_density mc conv (DNumber v) units w = (Ok tt, w') /\ get_density w' = (Ok v, w') /\ other_settings_same [KDensity] w w' /\ session_same w w' /\ kept_on_disk mc w w')
  /\ (~ in_gcc -> forall v', conv v units = Ok (Some v') -> v' <> JNull ->
       exists w', set_density mc conv (DNumber v) units w = (Ok tt, w') /\ get_density w' = (Ok v', w') /\ other_settings_same [KDensity] w w' /\ session_same w w' /\ kept_on_disk mc w w').
Proof.
  intros mc conv v units w S Hv Wv Wc in_gcc.
  assert (forall x, x <> JNull -> writable x -> exists w', pbind (pmod (set_key KDensity x)) (fun _ => save_params mc) w = (Ok tt, w') /\ get_density w' = (Ok x, w') /\ other_settings_same [KDensity] w w' /\ session_same w w' /\ kept_on_disk mc w w') as G.
  { intros x Nx Wx. destruct (set_and_save mc w KDensity x S ltac:(discriminate) Wx) as (w' & E & A & B & C & K).
    exists w'. split; [exact E|]. split; [|auto]. unfold get_density, pbind, pget. unfold setting in A. rewrite A. destruct x; try reflexivity. contradiction. }
  assert (is_num v = true) as Nv by (apply is_num_number, Hv).
  unfold set_density. rewrite Nv. split.
  - intros Hy. assert (smem (lower units) gcc = true) as -> by (apply smem_In; exact Hy).
    apply G; [intros ->; discriminate Nv|exact Wv].
  - intros Ng v' Ec Nv'. assert (smem (lower units) gcc = false) as ->.
    { apply smem_false. exact Ng. }
    rewrite Ec. apply G; [exact Nv'|now apply Wc].
Qed.
Print Assumptions C55_taken.
(** anything else is refused, and nothing changes *)
Theorem C55_refused : forall mc conv units w,
  (forall v, ~ number v -> set_density mc conv (DNumber v) units w = (Err ValueError, w)) /\ set_density mc conv DOther units w = (Err ValueError, w)
  /\ (forall v, number v -> ~ In (lower units) [u "g/cc"; u "g/cm3"; u "g/cm³"] -> conv v units = Ok None \/ conv v units = Err NoConversionFoundError ->
        set_density mc conv (DNumber v) units w = (Err ValueError, w)).
Proof.
  intros mc conv units w. split; [|split; [reflexivity|]].
  - intros v H. unfold set_density. destruct (is_num v) eqn:E; [apply is_num_number in E; contradiction|reflexivity].
  - intros v Hv Hu Hc. unfold set_density. rewrite (proj2 (is_num_number v) Hv).
    assert (smem (lower units) gcc = false) as -> by (apply smem_false; exact Hu). destruct Hc as [->| ->]; reflexivity.
Qed.
Print Assumptions C55_refused.
(** a density of zero is taken; a quantity that JSON cannot write (a Density of an array) is taken, raises, and no later session starts *)
Lemma other_cut mc f : savable mc f -> exists x, jwrite (saved_object mc (with_key KDensity JOther f)) = (x, false) /\ cut (stxt mc (with_key KDensity JNull f)) x.
Proof.
  intros S. pose proof (jwrite_matches (saved_object mc (with_key KDensity JOther f))) as M.
  assert (patch (saved_object mc (with_key KDensity JOther f)) = saved_object mc (with_key KDensity JNull f)) as P.
  { unfold saved_object. cbn [patch]. f_equal. rewrite map_map. apply map_ext. intros k. cbn [fst snd]. f_equal.
    destruct (key_eqb k KDensity) eqn:E; [apply key_eqb_eq in E; subst k; reflexivity|].
    assert (k <> KDensity) as N by (intros ->; now rewrite key_eqb_refl in E).
    replace (saved mc (with_key KDensity JOther f) k) with (saved mc f k) by (destruct k; cbn [saved]; rewrite with_key_other by exact N; reflexivity).
    replace (saved mc (with_key KDensity JNull f) k) with (saved mc f k) by (destruct k; cbn [saved]; rewrite with_key_other by exact N; reflexivity).
    apply patch_complete. rewrite (jwrite_txt _ (S k)). reflexivity. }
  rewrite P in M. unfold matches in M. destruct (jwrite (saved_object mc (with_key KDensity JOther f))) as [x [|]] eqn:J; cbn [fst snd] in M.
  - exfalso. pose proof (patch_complete (saved_object mc (with_key KDensity JOther f))) as C. rewrite J in C. specialize (C eq_refl). rewrite P in C.
    unfold saved_object, keys in C. cbn [map saved] in C. injection C as C. discriminate C.
  - exists x. split; [reflexivity|exact M].
Qed.
Theorem C55_refuted :
  (forall mc conv w, savable mc (p_set (w_par w)) -> exists w', set_density mc conv (DNumber (JInt 0)) (u "g/cc") w = (Ok tt, w') /\ get_density w' = (Ok (JInt 0), w'))
  /\ (forall mc conv units w, savable mc (p_set (w_par w)) ->
        exists w', set_density mc conv (DQuantity (Ok JOther)) units w = (Err TypeError, w') /\ get_density w' = (Ok JOther, w')
          /\ forall later, starts_again mc later (w_disk w') = Err ValueError).
Proof.
  split.
  - intros mc conv w S. destruct (set_and_save mc w KDensity (JInt 0) S ltac:(discriminate) I) as (w' & E & A & _). exists w'. split; [exact E|].
    unfold get_density, pbind, pget. unfold setting in A. rewrite A. reflexivity.
  - intros mc conv units w S. destruct (other_cut mc (p_set (w_par w)) S) as (x & J & C).
    unfold set_density, pbind at 1, plift, pbind at 1, pmod. unfold save_params, pbind at 1, pget. cbn [w_par set_key p_set].
    unfold pbind at 1, dump_to at 1. rewrite J. unfold pbind at 1, pops, praise. cbn [w_par w_disk w_log].
    eexists. split; [reflexivity|]. split; [reflexivity|]. cbn [w_disk].
    apply never_starts. destruct (run_write (ini_path mc) x (w_disk w)) as [A _].
    refine (next_broken mc (with_key KDensity JNull (p_set (w_par w))) _ x _ C A). apply set_savable; [exact S|discriminate|exact I].
Qed.
Print Assumptions C55_refuted.
Example C55_case : savable demo (p_set (w_par demo_first)) /\ number (JFlt (u "0.25")) /\ writable (JFlt (u "0.25")).
Proof. split; [apply C41_case|]. split; [right; right; eauto|exact quarter]. Qed.

(** ** C56: the limits *)
(** whatever is called, the search may never be told to nest deeper than Python allows (15 calls are kept apart, if Python allows at least 27) *)
Theorem C56_recursion_bounded : forall mc calls w, (27 <= m_limit mc)%Z ->
  (exists z, setting w KMaxRec = JInt z /\ (z <= m_limit mc - 15)%Z) -> exists z, setting (pcalls mc calls w) KMaxRec = JInt z /\ (z <= m_limit mc - 15)%Z.
Proof.
  intros mc l w L H. unfold setting in *.
  apply (pcalls_keep mc (fun f => exists z, f KMaxRec = JInt z /\ (z <= m_limit mc - 15)%Z) (fun _ => True)); [|now induction l; constructor|exact H].
  intros f f' c _ (x & E & Hx) S. destruct (S KMaxRec) as [->|(y & Ey & Hy)]; [eauto|]. exists y. split; [exact Ey|lia].
Qed.
Print Assumptions C56_recursion_bounded.
Theorem C56_set : forall mc z w, savable mc (p_set (w_par w)) ->
  (exists w', recursion_limit mc (LInt z) w = (Ok (JInt (Z.min z (m_limit mc - 15))), w') /\ setting w' KMaxRec = JInt (Z.min z (m_limit mc - 15)) /\ other_settings_same [KMaxRec] w w' /\ session_same w w' /\ kept_on_disk mc w w')
  /\ (exists w', generations_limit mc (LInt z) w = (Ok (JInt z), w') /\ setting w' KMaxGen = JInt z /\ other_settings_same [KMaxGen] w w' /\ session_same w w' /\ kept_on_disk mc w w')
  /\ recursion_limit mc LNone w = (Ok (setting w KMaxRec), w) /\ generations_limit mc LNone w = (Ok (setting w KMaxGen), w)
  /\ recursion_limit mc LOther w = (Err ValueError, w) /\ generations_limit mc LOther w = (Err ValueError, w).
Proof.
  intros mc z w S.
  assert (forall k v, k <> KFolder -> writable v -> exists w', pbind (pmod (set_key k v)) (fun _ => pbind (save_params mc) (fun _ => pret v)) w = (Ok v, w') /\ setting w' k = v /\ other_settings_same [k] w w' /\ session_same w w' /\ kept_on_disk mc w w') as G.
  { intros k v Hk Hv. destruct (set_and_save mc w k v S Hk Hv) as (w' & E & R). exists w'. split; [|exact R].
    unfold pbind in E |- *. destruct (pmod (set_key k v) w) as [[[]|e] w1]; [|discriminate E]. rewrite E. reflexivity. }
  split; [exact (G KMaxRec (JInt (Z.min z (m_limit mc - 15))) ltac:(discriminate) I)|].
  split; [exact (G KMaxGen (JInt z) ltac:(discriminate) I)|]. repeat split; reflexivity.
Qed.
Print Assumptions C56_set.
(** no lower bound: a negative number is taken; and [recursion_limit(True)] sets 12 even when Python allows fewer *)
Theorem C56_refuted : (forall mc w, savable mc (p_set (w_par w)) -> (0 <= m_limit mc)%Z -> exists w', recursion_limit mc (LInt (-16)) w = (Ok (JInt (-16)), w') /\ setting w' KMaxRec = JInt (-16))
  /\ (forall mc w, savable mc (p_set (w_par w)) -> (m_limit mc < 27)%Z -> exists w', recursion_limit mc (LBool true) w = (Ok (JInt 12), w') /\ setting w' KMaxRec = JInt 12 /\ (12 > m_limit mc - 15)%Z).
Proof.
  split.
  - intros mc w S L. destruct (C56_set mc (-16) w S) as [(w' & E & A & _) _]. exists w'.
    replace (Z.min (-16) (m_limit mc - 15)) with (-16)%Z in * by lia. auto.
  - intros mc w S L. destruct (set_and_save mc w KMaxRec (JInt 12) S ltac:(discriminate) I) as (w' & E & A & _). exists w'. split; [|split; [exact A|lia]].
    unfold recursion_limit, limit, pbind in E |- *. destruct (pmod (set_key KMaxRec (JInt 12)) w) as [[[]|e] w1]; [|discriminate E]. rewrite E. reflexivity.
Qed.
Print Assumptions C56_refuted.
Example C56_case : (27 <= m_limit demo)%Z /\ setting demo_first KMaxRec = JInt 12.
Proof. split; [vm_compute; discriminate|vm_compute; reflexivity]. Qed.

(** ** C57: [delete_cache] removes the five files of the cache, and nothing else *)
Theorem C57_exact : forall w f, setting w KFolder = JStr f ->
  exists w', delete_cache w = (Ok tt, w') /\ w_par w' = w_par w
    /\ forall p, ((exists n, In n [u "search_memory.cache"; u "units_network.cache"; u "units_dictionary.cache"; u "temperature_ratio_conversions.cache"; u "unitless_names.cache"] /\ p = f ++ n) -> w_disk w' p = None)
         /\ ((forall n, In n [u "search_memory.cache"; u "units_network.cache"; u "units_dictionary.cache"; u "temperature_ratio_conversions.cache"; u "unitless_names.cache"] -> p <> f ++ n) -> w_disk w' p = w_disk w p).
Proof.
  intros w f F. fold cache_names. unfold delete_cache.
  assert (forall l w0, setting w0 KFolder = JStr f -> exists w', delete_each l w0 = (Ok tt, w') /\ w_par w' = w_par w0
    /\ forall p, ((exists n, In n l /\ p = f ++ n) \/ w_disk w0 p = None -> w_disk w' p = None) /\ ((forall n, In n l -> p <> f ++ n) -> w_disk w' p = w_disk w0 p)) as G.
  { induction l as [|m l IH]; intros w0 F0.
    - exists w0. split; [reflexivity|]. split; [reflexivity|]. intros p. split; [|reflexivity]. intros [(n & [] & _)|H]; exact H.
    - cbn [delete_each]. unfold pbind at 1, folder, get_user_folder, pbind at 1, pbind at 1, pget, pret at 1. unfold setting in F0. rewrite F0. unfold pret at 1.
      unfold pbind at 1, pdisk, pbind at 1. unfold is_file. destruct (w_disk w0 (f ++ m)) as [x|] eqn:E.
      + unfold pops. destruct (IH (World (w_par w0) (run [Remove (f ++ m)] (w_disk w0)) (w_log w0 ++ [Remove (f ++ m)])) F0) as (w' & E' & Pw & H).
        exists w'. split; [exact E'|]. split; [exact Pw|]. intros p. destruct (H p) as [H1 H2]. cbn [w_disk run fold_left dstep] in H1, H2. split.
        * intros Hp. apply H1. destruct (str_dec p (f ++ m)) as [->|Ne]; [right; apply upd_same|].
          destruct Hp as [(n & [<-|Hn] & ->)|Hp]; [contradiction|left; eauto|right; rewrite upd_other by exact Ne; exact Hp].
        * intros Hp. rewrite H2; [apply upd_other, Hp; now left|]. intros n Hn. apply Hp. now right.
      + unfold pret. destruct (IH w0 F0) as (w' & E' & Pw & H). exists w'. split; [exact E'|]. split; [exact Pw|].
        intros p. destruct (H p) as [H1 H2]. split.
        * intros Hp. apply H1. destruct Hp as [(n & [<-|Hn] & ->)|Hp]; [now right|left; eauto|now right].
        * intros Hp. apply H2. intros n Hn. apply Hp. now right. }
  destruct (G cache_names w F) as (w' & E & Pw & H). exists w'. split; [exact E|]. split; [exact Pw|].
  intros p. destruct (H p) as [H1 H2]. split; [intros K; apply H1; now left|exact H2].
Qed.
Print Assumptions C57_exact.
Example C57_case : setting demo_first KFolder = JStr (u "/p/").
Proof. vm_compute. reflexivity. Qed.
