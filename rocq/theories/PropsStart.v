(** * C50, C58: the start of a session, its cache, the memory of searches *)
From Coq Require Import String.
From Verif Require Import Py Json JsonFacts JsonFacts2 Params ParamsSpec ParamsFacts SwitchFacts ParamsFacts2 PropsParams Startup StartSpec StartFacts StartFacts2 StartFacts3 StartFacts4.
Local Open Scope N_scope.

(** ** A package for the examples: the tables are texts, written with a mark before each character and a mark at the end *)
Definition mark (t : str) : str := flat_map (fun c => [1; c]) t ++ [0].
Fixpoint unmark (y : str) : res str :=
  match y with
  | [c] => if c =? 0 then Ok [] else Err ValueError
  | c :: e :: t => if c =? 1 then match unmark t with Ok s => Ok (e :: s) | Err x => Err x end else Err ValueError
  | [] => Err ValueError
  end.
Lemma unmark_mark t : unmark (mark t) = Ok t.
Proof. induction t as [|c t IH]; [reflexivity|]. change (mark (c :: t)) with (1 :: c :: mark t). cbn [unmark]. rewrite IH. reflexivity. Qed.
Lemma mark_some t : mark t <> [].
Proof. unfold mark. destruct (flat_map (fun c => [1; c]) t); discriminate. Qed.
Lemma unmark_cut t : forall p, cut (mark t) p -> exists e, unmark p = Err e.
Proof.
  induction t as [|c t IH]; intros p K.
  - apply cut_cons in K. destruct K as [->|(p' & -> & K)]; [exists ValueError; reflexivity|]. now apply cut_nil in K.
  - change (mark (c :: t)) with (1 :: c :: mark t) in K. apply cut_cons in K. destruct K as [->|(p' & -> & K)]; [exists ValueError; reflexivity|].
    apply cut_cons in K. destruct K as [->|(p'' & -> & K)]; [exists ValueError; reflexivity|]. destruct (IH p'' K) as (e & E). exists e. cbn [unmark]. rewrite E. reflexivity.
Qed.
Definition text_codec : codec str := Codec str mark unmark unmark_mark mark_some unmark_cut.
(** a pair of texts: the second one without its marks, after the first *)
Definition mark2 (e : str * str) : str := mark (flat_map (fun c => [1; c]) (fst e) ++ [0] ++ snd e).
Fixpoint split2 (y : str) : res (str * str) :=
  match y with
  | c :: t => if c =? 0 then Ok ([], t) else match t with e :: t' => match split2 t' with Ok (a, b) => Ok (e :: a, b) | Err x => Err x end | [] => Err ValueError end
  | [] => Err ValueError
  end.
Lemma split2_ok a b : split2 (flat_map (fun c => [1; c]) a ++ [0] ++ b) = Ok (a, b).
Proof. induction a as [|c a IH]; [reflexivity|]. cbn [flat_map Datatypes.app split2]. change (1 =? 0) with false. cbv iota. cbn [Datatypes.app] in IH. rewrite IH. reflexivity. Qed.
Definition unmark2 (y : str) : res (str * str) := rbind (unmark y) split2.
Lemma unmark2_mark2 e : unmark2 (mark2 e) = Ok e.
Proof. destruct e as [a b]. unfold unmark2, mark2. rewrite unmark_mark. cbn [rbind fst snd]. apply split2_ok. Qed.
Lemma unmark2_cut e : forall p, cut (mark2 e) p -> exists er, unmark2 p = Err er.
Proof. intros p K. destruct (unmark_cut _ _ K) as (er & E). exists er. unfold unmark2. rewrite E. reflexivity. Qed.
Definition pair_codec : codec (str * str) := Codec (str * str) mark2 unmark2 unmark2_mark2 (fun e => mark_some _) unmark2_cut.
Definition demo_library : library :=
  Library str str str str text_codec text_codec pair_codec text_codec (JObj []) (u "temperatures") (u "names") (fun _ => Ok (u "the network"))
    (fun d => match d with JObj l => JObj ((u "Rate", JStr (u "m3/day")) :: l) | _ => d end) [] (fun old new => new ++ old) true.
Lemma demo_sane : sane demo demo_library (u "the network").
Proof.
  split; [reflexivity|]. split; [reflexivity|]. split; [|split; [eexists; reflexivity|split; [reflexivity|apply plain_check; reflexivity]]].
  apply writable_obj. split; [constructor; [intros []|constructor]|]. constructor; [|constructor]. split; apply plain_check; reflexivity.
Qed.
Definition demo_disk : files := fun q => if seqb q (ini_path demo) then Some shipped_ini else None.
Lemma demo_new : new_installation demo demo_disk.
Proof.
  split; [right; unfold demo_disk; rewrite seqb_refl; reflexivity|]. split; [unfold demo_disk; rewrite c_bak_ini; reflexivity|].
  intros f n H. unfold demo_disk. now rewrite (cache_ini demo f n H).
Qed.

(** ** C50: every session starts with the same tables *)
(** any sessions that end, from a new installation on: whatever settings are changed, files of the cache deleted, folders chosen,
    memories saved, the next session starts, with the tables that the code builds *)
Theorem C50_history : forall mc L x d l, sane mc L x -> new_installation mc d -> Forall (given_session mc) l -> Forall (fun s => snd s = None) l ->
  exists m, fst (new_start mc L (history mc L l d)) = Ok (built_tables L x m).
Proof.
  intros mc L x d l S N G E. pose proof S as (CP & NET & FULL & _ & ROOT & HOME). pose proof (sane_object mc L x S) as OBJ.
  pose proof (new_tidy mc L x d N) as T. destruct (history_tidy mc L x CP NET FULL OBJ ROOT HOME l d (tidy_weak mc L x true d T) G) as [A B].
  destruct (start_tidy mc L x CP NET FULL OBJ _ A) as (r & w & Es & _ & [((m & ->) & _)|(_ & U)]).
  - exists m. now rewrite Es.
  - exfalso. exact (tidy_readable mc L x _ (B E T) U).
Qed.
Print Assumptions C50_history.
(** and if processes died, at any elementary step of any of their writes and deletions: a session that starts has those tables *)
Theorem C50_never_wrong : forall mc L x d l t, sane mc L x -> new_installation mc d -> Forall (given_session mc) l ->
  fst (new_start mc L (history mc L l d)) = Ok t -> exists m, t = built_tables L x m.
Proof.
  intros mc L x d l t S N G E. pose proof S as (CP & NET & FULL & _ & ROOT & HOME). pose proof (sane_object mc L x S) as OBJ.
  pose proof (new_tidy mc L x d N) as T. destruct (history_tidy mc L x CP NET FULL OBJ ROOT HOME l d (tidy_weak mc L x true d T) G) as [A _].
  destruct (start_tidy mc L x CP NET FULL OBJ _ A) as (r & w & Es & _ & [((m & ->) & _)|((e & ->) & U)]); rewrite Es in E; cbn [fst] in E.
  - exists m. now injection E as <-.
  - discriminate E.
Qed.
Print Assumptions C50_never_wrong.
(** it does not start only if parameters.ini, its copy or units_network.cache was cut: the other three files are repaired *)
Theorem C50_repaired : forall mc L x d l e, sane mc L x -> new_installation mc d -> Forall (given_session mc) l ->
  fst (new_start mc L (history mc L l d)) = Err e -> unreadable mc L (history mc L l d).
Proof.
  intros mc L x d l e S N G E. pose proof S as (CP & NET & FULL & _ & ROOT & HOME). pose proof (sane_object mc L x S) as OBJ.
  pose proof (new_tidy mc L x d N) as T. destruct (history_tidy mc L x CP NET FULL OBJ ROOT HOME l d (tidy_weak mc L x true d T) G) as [A _].
  destruct (start_tidy mc L x CP NET FULL OBJ _ A) as (r & w & Es & _ & [((m & ->) & _)|((e' & ->) & U)]); rewrite Es in E; cbn [fst] in E; [discriminate E|exact U].
Qed.
Print Assumptions C50_repaired.
(** the first start has an empty memory *)
Theorem C50_first : forall mc L x d, sane mc L x -> new_installation mc d -> fst (new_start mc L d) = Ok (built_tables L x (no_memory L)).
Proof. intros mc L x d S N. destruct (first_session mc L x S d N) as (w & -> & _). reflexivity. Qed.
Print Assumptions C50_first.
Definition demo_history : list (list (act demo_library) * option nat) :=
  [([Call (CUserFolder (Some (u "/d"))); Call (CPrintPath SNone); Save (u "a path" : l_mem demo_library)], None); ([Call CReload], None); ([Call CDeleteCache; Call (CCache (SStr (u "off")))], None); ([Call CReload], Some 100%nat)].
Example C50_case : sane demo demo_library (u "the network") /\ new_installation demo demo_disk /\ Forall (given_session demo) demo_history.
Proof.
  split; [exact demo_sane|]. split; [exact demo_new|].
  repeat (apply Forall_cons; [repeat (first [apply Forall_nil|apply Forall_cons; [first [exact I|apply plain_check; reflexivity]|]])|]). apply Forall_nil.
Qed.

(** ** C50, where it fails *)
(** [reload()], and the process dies while units_network.cache is being written: no later session ever starts *)
Lemma run_log_two L F w : exists ops, w_log (two_files L F w) = w_log w ++ ops /\ w_disk (two_files L F w) = run ops (w_disk w).
Proof.
  unfold two_files. destruct (truth (setting w KCache)); [|exists []; now rewrite app_nil_r].
  eexists. split; [unfold wrote; cbn [w_log]; rewrite <- app_assoc; reflexivity|]. rewrite run_app. reflexivity.
Qed.
Lemma run_log_settled mc w : exists ops, w_log (settled mc w) = w_log w ++ ops /\ w_disk (settled mc w) = run ops (w_disk w).
Proof. unfold settled. eexists. split; [unfold wrote; cbn [w_log]; rewrite <- app_assoc; reflexivity|]. rewrite run_app. reflexivity. Qed.
Theorem C50_killed_refuted : forall mc L x d, sane mc L x -> new_installation mc d ->
  exists n, forall later, Forall (fun s => snd s = None) later ->
    exists e, fst (new_start mc L (history mc L later (history mc L [([Call CReload], None); ([], Some n)] d))) = Err e.
Proof.
  intros mc L x d S N. pose proof S as (CP & NET & FULL & _). destruct (first_session mc L x S d N) as (w & E & W & O & Rl & _). set (F := m_dir mc) in *.
  pose proof W as ((H & U & C) & V & (Wn & Wd & Wt & Ws)).
  (* reload *)
  set (w1 := settled mc (setp w KReload (JBool true))).
  assert (snd (reload mc w) = w1) as Er.
  { unfold reload, pbind, pmod. fold (setp w KReload (JBool true)). rewrite save_settled by (apply setp_savable; [exact (proj1 U)|discriminate]). reflexivity. }
  assert (disk_left mc L ([Call CReload], None) d = w_disk w1) as D1.
  { unfold disk_left, session. cbn [fst snd]. rewrite E. cbn [snd fold_left run_act pcall]. now rewrite Er. }
  assert (at_work mc F w1) as A1 by exact (at_work_set mc F w KReload true (proj1 W) ltac:(discriminate) ltac:(discriminate)).
  assert (working mc L x F (no_memory L) w1) as W1.
  { split; [exact A1|]. split; [change (setting w1 KVersion) with (setting (setp w KReload (JBool true)) KVersion); rewrite setp_other by discriminate; exact V|].
    apply settled_whole. split; [exact Wn|]. split; [exact Wd|]. split; assumption. }
  assert (on_disk mc w1) as O1 by apply settled_on_disk.
  pose proof (working_set_up mc L x F _ w1 W1 O1) as Su. pose proof (working_there mc L x F _ w1 W1) as Dir.
  (* the next start *)
  destruct (opens mc F Dir _ _ Su) as (w2 & E2 & Dk & Lg & H2 & S2 & K1 & K2 & K3 & K4).
  assert (truth (setting w2 KReload) = true) as Rl2 by (rewrite K1; change (p_set (w_par w1) KReload) with (setting (setp w KReload (JBool true)) KReload); rewrite setp_same; reflexivity).
  assert (files_cached F w2 = false) as N1 by (unfold files_cached; rewrite Rl2; reflexivity).
  assert (files_cached F (two_files L F w2) = false) as N2 by (unfold files_cached, setting; rewrite two_par; fold (setting w2 KReload); rewrite Rl2; reflexivity).
  pose proof (scratch_at mc L F w2 x H2 CP N1 N2 S2 NET FULL) as Sc. rewrite <- (import_opens mc L F _ _ w2 E2 Su) in Sc.
  set (m := memory_of L F (two_files L F w2)) in Sc. clearbody m.
  set (w3 := setp (two_files L F w2) KReload (JBool false)) in *. set (w4 := settled mc w3).
  assert (forall k, setting (two_files L F w2) k = setting w2 k) as K2w by (intros k; unfold setting; now rewrite two_par).
  assert (stored mc L F (two_files L F w2) (base L) (x, m) = wrote (wrote w4 (F ++ f_net) (dump (c_net L) (x, m))) (F ++ f_dict) (txt (create L (base L)))) as Es.
  { unfold stored. rewrite K2w, K2. reflexivity. }
  rewrite not_shown in Sc by (unfold setting; rewrite stored_par, two_par; rewrite <- K3; f_equal; apply (set_other w2 KReload); discriminate).
  rewrite Es in Sc.
  destruct (run_log_two L F w2) as (o1 & L1 & R1). destruct (run_log_settled mc w3) as (o2 & L2 & R2).
  assert (w_log w4 = o1 ++ o2) as L4 by (unfold w4; rewrite L2; unfold w3; cbn [setp w_log]; rewrite L1, Lg; reflexivity).
  assert (w_disk w4 = run (o1 ++ o2) (w_disk w1)) as D4 by (unfold w4; rewrite R2; unfold w3; rewrite setp_disk, R1, run_app, Dk; reflexivity).
  exists (Datatypes.S (length (o1 ++ o2))).
  set (dd := disk_left mc L ([], Some (Datatypes.S (length (o1 ++ o2)))) (w_disk w1)).
  assert (forall q, dd q = if seqb q (F ++ f_net) then Some [] else w_disk w4 q) as Dd.
  { intros q. unfold dd, disk_left, session. cbn [fst snd]. rewrite Sc. cbn [snd fold_left]. unfold wrote at 1 2. cbn [w_log]. rewrite L4.
    rewrite <- app_assoc, firstn_app. rewrite firstn_all2 by lia.
    replace (Datatypes.S (length (o1 ++ o2)) - length (o1 ++ o2))%nat with 1%nat by lia. cbn [write_ops Datatypes.app firstn].
    rewrite run_app, <- D4. cbn [run fold_left dstep]. destruct (seqb q (F ++ f_net)) eqn:Q; [apply seqb_eq in Q; subst; apply upd_same|apply upd_other; now apply seqb_neq]. }
  assert (doomed mc L F dd) as Dm.
  { exists (p_set (w_par w3)), (txt (create L (base L))), (dump (c_temp L) (temp0 L)), (dump (c_names L) (names0 L)), []. unfold set_up. rewrite !Dd. paths. unfold w4. rewrite !settled_disk. paths. unfold w3. rewrite !setp_disk, !(two_disk L F w2 _ K2). paths.
    split; [|split; [rewrite set_same; reflexivity|split; [rewrite Dk; exact (proj1 (proj2 (proj2 (proj2 W1))))|split; [reflexivity|split; [reflexivity|split; [reflexivity|split]]]]]].
    - split; [apply setp_savable; [rewrite two_par; exact S2|discriminate]|]. split; [rewrite set_other by discriminate; rewrite K2w; exact H2|].
      split; [rewrite set_other by discriminate; rewrite K2w; exact K3|]. split; [rewrite set_other by discriminate; rewrite K2w; exact K2|reflexivity].
    - exists (create L (base L)), (temp0 L), (names0 L). rewrite (jload_txt _ FULL), !undump_dump. auto.
    - apply (undump_cut (c_net L) (x, m)). exists (dump (c_net L) (x, m)). split; [apply dump_some|reflexivity]. }
  change (history mc L [([Call CReload], None); ([], Some (Datatypes.S (length (o1 ++ o2))))] d) with (disk_left mc L ([], Some (Datatypes.S (length (o1 ++ o2)))) (disk_left mc L ([Call CReload], None) d)).
  rewrite D1. fold dd. clearbody dd.
  assert (forall later d0, doomed mc L F d0 -> Forall (fun s => snd s = None) later -> doomed mc L F (history mc L later d0)) as Keep.
  { induction later as [|[acts o] later IH]; intros d0 K Q; [exact K|]. inversion Q; subst. cbn [snd] in *. subst o. cbn [history fold_left]. apply IH; [|assumption].
    destruct (doomed_start mc L F CP Dir d0 K) as (e & w' & Ed & K'). unfold disk_left, session. cbn [fst snd]. rewrite Ed. exact K'. }
  intros later Q. destruct (doomed_start mc L F CP Dir _ (Keep later dd Dm Q)) as (e & w' & Ed & _). exists e. rewrite Ed. reflexivity.
Qed.
Print Assumptions C50_killed_refuted.
Example C50_killed_case : sane demo demo_library (u "the network") /\ new_installation demo demo_disk.
Proof. exact (conj demo_sane demo_new). Qed.

(** unitless_names.cache (or temperature_ratio_conversions.cache) is deleted, the rest of the cache is there: the session starts with the
    network of the cache and with a dictionary that was not completed: all that [_create_Rates] and the others add is missing *)
Theorem C50_missing_refuted : forall mc L x d n, sane mc L x -> new_installation mc d -> n = u "unitless_names.cache" \/ n = u "temperature_ratio_conversions.cache" ->
  let d1 := disk_left mc L ([], None) d in
  fst (new_start mc L (fun q => if seqb q (m_dir mc ++ n) then None else d1 q)) = Ok (Tables (base L) (temp0 L) (names0 L) x (no_memory L)).
Proof.
  intros mc L x d n S N Hn d1. assert (n = f_names \/ n = f_temp) as Hf by exact Hn. clear Hn. pose proof S as (CP & _).
  destruct (first_session mc L x S d N) as (w & E & W & O & Rl & _). set (F := m_dir mc) in *.
  assert (d1 = w_disk w) as -> by (unfold d1, disk_left, session; cbn [fst snd]; rewrite E; reflexivity).
  pose proof (working_set_up mc L x F _ w W O) as Su. pose proof (working_there mc L x F _ w W) as Dir. destruct W as (_ & _ & (Wn & Wd & Wt & Ws)).
  set (d2 := fun q => if seqb q (F ++ n) then None else w_disk w q).
  assert (In n cache_names) as Hc by (destruct Hf as [-> | ->]; [apply in_names|apply in_temp]).
  assert (set_up mc F (p_set (w_par w)) d2) as Su2 by (unfold set_up, d2 in *; rewrite (ini_cache mc F n Hc); exact Su).
  destruct (opens mc F Dir _ _ Su2) as (w2 & E2 & Dk & Lg & H2 & S2 & K1 & K2 & K3 & K4).
  rewrite (import_opens mc L F _ _ w2 E2 Su2). unfold net_file, dict_file, temp_file, names_file in *.
  assert (forall a, w_disk w2 (F ++ a) = if seqb a n then None else w_disk w (F ++ a)) as Da by (intros a; rewrite Dk; unfold d2; now rewrite seqb_app_head).
  rewrite (mixed_at mc L F w2 x (no_memory L)); [reflexivity|exact H2|exact CP|rewrite K1; exact Rl|exact K2| | | | |exact S2].
  - unfold isf, is_file. rewrite Da. destruct Hf as [-> | ->]; paths; rewrite Wd; reflexivity.
  - unfold isf, is_file. rewrite Da. destruct Hf as [-> | ->]; paths; rewrite Wn; reflexivity.
  - unfold isf, is_file. rewrite !Da. destruct Hf as [-> | ->]; paths; [rewrite Wt|]; reflexivity.
  - unfold reads_net. rewrite Da. destruct Hf as [-> | ->]; paths; rewrite Wn; apply undump_dump.
Qed.
Print Assumptions C50_missing_refuted.
Example C50_missing_case : base demo_library <> create demo_library (base demo_library).
Proof. discriminate. Qed.
(** without [cloudpickle], on a cache that was written with it: no session starts *)
Definition without_cloudpickle (L : library) : library :=
  Library (l_temp L) (l_names L) (l_net L) (l_mem L) (c_temp L) (c_names L) (c_net L) (c_mem L) (base L) (temp0 L) (names0 L) (network L) (create L) (no_memory L) (update L) false.
Theorem C50_no_cloudpickle_refuted : forall mc L x d, sane mc L x -> new_installation mc d ->
  exists e, fst (new_start mc (without_cloudpickle L) (disk_left mc L ([], None) d)) = Err e.
Proof.
  intros mc L x d S N. pose proof S as (_ & _ & FULL & _). destruct (first_session mc L x S d N) as (w & E & W & O & Rl & _). set (F := m_dir mc) in *.
  assert (disk_left mc L ([], None) d = w_disk w) as -> by (unfold disk_left, session; cbn [fst snd]; rewrite E; reflexivity).
  pose proof (working_set_up mc L x F _ w W O) as Su. pose proof (working_there mc L x F _ w W) as Dir. destruct W as (_ & _ & (Wn & Wd & Wt & Ws)).
  unfold net_file, dict_file, temp_file, names_file in *.
  destruct (opens mc F Dir _ _ Su) as (w2 & E2 & Dk & Lg & H2 & S2 & K1 & K2 & K3 & K4).
  rewrite (import_opens mc (without_cloudpickle L) F _ _ w2 E2 Su).
  destruct (no_cloudpickle_at mc (without_cloudpickle L) F w2 H2 eq_refl) as (e & w' & ->).
  - rewrite K1. fold (setting w KReload). rewrite Rl. reflexivity.
  - unfold isf, is_file. rewrite Dk, Wn. reflexivity.
  - unfold isf, is_file. rewrite Dk, Wt. reflexivity.
  - unfold isf, is_file. rewrite Dk, Ws. reflexivity.
  - unfold reads_dict. rewrite Dk, Wd, (jload_txt _ FULL). discriminate.
  - intros e. unfold reads_temp. rewrite Dk, Wt. cbn [without_cloudpickle c_temp]. rewrite undump_dump. discriminate.
  - intros e. unfold reads_names. rewrite Dk, Ws. cbn [without_cloudpickle c_names]. rewrite undump_dump. discriminate.
  - exists e. reflexivity.
Qed.
Print Assumptions C50_no_cloudpickle_refuted.

(** ** C58: the memory of searches that [save] saves *)
(** [load()] in a later session adds what was saved to the memory of that session *)
Lemma saved_session mc L x d m' : sane mc L x -> new_installation mc d ->
  exists w, disk_left mc L ([Save m'], None) d = w_disk w /\ ready mc L (m_dir mc) x (no_memory L) (w_disk w) /\ w_disk w (m_dir mc ++ f_mem) = Some (dump (c_mem L) m')
    /\ (m_dir mc = m_dir mc \/ m_isdir mc (m_dir mc) = true).
Proof.
  intros S N. pose proof S as (CP & _). destruct (first_session mc L x S d N) as (w & E & W & O & Rl & _). set (F := m_dir mc) in *.
  pose proof (proj1 (proj1 W)) as H. exists (wrote w (F ++ f_mem) (dump (c_mem L) m')).
  split; [unfold disk_left, session; cbn [fst snd]; rewrite E; cbn [snd fold_left run_act]; unfold save; rewrite CP, (pickle_at F (c_mem L) f_mem m' w H); reflexivity|].
  split; [|split; [rewrite wrote_disk, seqb_refl; reflexivity|now left]].
  destruct (working_ready mc L x F _ w W O Rl) as (f & Su & Rf & Rn & Rd & Rt & Rs). exists f. unfold set_up, net_file, dict_file, temp_file, names_file in *.
  rewrite !wrote_disk. paths. rewrite Rn, Rd, Rt, Rs. split; [exact Su|]. split; [exact Rf|]. auto.
Qed.
Theorem C58_load_partial : forall mc L x d m', sane mc L x -> new_installation mc d ->
  exists t w, new_start mc L (disk_left mc L ([Save m'], None) d) = (Ok t, w) /\ exists w', load L None (t_mem t) w = (Ok (update L (t_mem t) m'), w').
Proof.
  intros mc L x d m' S N. pose proof S as (CP & NET & FULL & _). destruct (saved_session mc L x d m' S N) as (w1 & D & Rd & Mm & Dir). rewrite D.
  set (F := m_dir mc) in *. pose proof Rd as (f & Su & _).
  destruct (opens mc F Dir _ _ Su) as (w2 & E2 & Dk & Lg & H2 & S2 & K1 & K2 & K3 & K4).
  pose proof (import_opens mc L F _ _ w2 E2 Su) as Im.
  destruct Rd as (f' & Su' & Rf & Rn & Rdd & Rt & Rs). unfold net_file, dict_file, temp_file, names_file in *.
  assert (reads_three L F w2 = Ok (create L (base L), temp0 L, names0 L)) as R3.
  { unfold reads_three, reads_dict, reads_temp, reads_names. rewrite Dk, Rdd, Rt, Rs, (jload_txt _ FULL). cbn [rbind]. rewrite !undump_dump. reflexivity. }
  assert (reads_net L F w2 = Ok (x, no_memory L)) as Rnn by (unfold reads_net; rewrite Dk, Rn; apply undump_dump).
  assert (truth (setting w2 KReload) = false) as Rl2.
  { destruct (opens mc F Dir _ _ Su') as (w2' & E2' & _ & _ & _ & _ & K1' & _). assert (w2' = w2) as -> by congruence. rewrite K1'. exact Rf. }
  assert (files_cached F w2 = true) as Fc by (unfold files_cached, all_files, isf, is_file; rewrite Rl2, Dk, Rdd, Rn, Rt, Rs; reflexivity).
  rewrite (cached_at mc L F w2 _ _ _ _ _ H2 CP Fc R3 Rnn S2) in Im. eexists. eexists. split; [exact Im|]. cbn [t_mem].
  set (w3 := shown mc (settled mc (setp w2 KReload (JBool false)))).
  assert (w3 = settled mc (setp w2 KReload (JBool false))) as E3.
  { unfold w3. apply not_shown. change (setting (settled mc (setp w2 KReload (JBool false))) KVersion) with (setting (setp w2 KReload (JBool false)) KVersion). rewrite setp_other by discriminate. exact K3. }
  assert (in_folder F w3) as H3 by (rewrite E3; unfold in_folder; rewrite <- H2; apply (setp_other w2 KReload); discriminate).
  assert (w_disk w3 (F ++ f_mem) = Some (dump (c_mem L) m')) as M3 by (rewrite E3, settled_disk; paths; rewrite setp_disk, Dk; exact Mm).
  exists w3. unfold load. rewrite (pbind_ok _ _ _ _ _ (folder_at F w3 H3)), (pbind_ok _ _ _ _ _ (there_at F w3 f_mem H3)).
  unfold isf, is_file. rewrite M3, CP. unfold ptry, pbind at 1, pdisk. rewrite M3. unfold pbind, plift. rewrite undump_dump. reflexivity.
Qed.
Print Assumptions C58_load_partial.
(** but "it will be loaded next time unyts is started" is false: the next session starts with the memory that was pickled with the network *)
Theorem C58_refuted : forall mc L x d m', sane mc L x -> new_installation mc d ->
  exists t, fst (new_start mc L (disk_left mc L ([Save m'], None) d)) = Ok t /\ t_mem t = no_memory L.
Proof.
  intros mc L x d m' S N. pose proof S as (CP & NET & FULL & _). destruct (saved_session mc L x d m' S N) as (w1 & D & Rd & _ & Dir). rewrite D.
  destruct (ready_start mc L (m_dir mc) CP x FULL Dir _ _ Rd) as (w & -> & _). eexists. split; reflexivity.
Qed.
Print Assumptions C58_refuted.
Example C58_case : sane demo demo_library (u "the network") /\ new_installation demo demo_disk /\ (u "a path" : l_mem demo_library) <> no_memory demo_library.
Proof. split; [exact demo_sane|]. split; [exact demo_new|discriminate]. Qed.
(** [load(path)] looks for the file of the user folder: if that one is not there, the file of [path] is not read, and no error is raised *)
Theorem C58_path_refuted : forall L w f p m m', setting w KFolder = JStr f -> w_disk w (f ++ u "search_memory.cache") = None -> cloudpickle L = true ->
  exists w', save L (Some p) m' w = (Ok tt, w') /\ (p <> f ++ u "search_memory.cache" -> load L (Some p) m w' = (Ok m, w')).
Proof.
  intros L w f p m m' H N C. unfold save. rewrite C. unfold pops. eexists. split; [reflexivity|]. intros Np.
  set (w1 := World (w_par w) (run (write_ops p (dump (c_mem L) m')) (w_disk w)) (w_log w ++ write_ops p (dump (c_mem L) m'))).
  change w1 with (wrote w p (dump (c_mem L) m')). clear w1. set (w1 := wrote w p (dump (c_mem L) m')).
  assert (in_folder f w1) as H1 by exact H. unfold load. rewrite (pbind_ok _ _ _ _ _ (folder_at f w1 H1)), (pbind_ok _ _ _ _ _ (there_at f w1 f_mem H1)).
  assert (isf f w1 f_mem = false) as ->; [|reflexivity]. unfold isf, is_file, w1. rewrite wrote_disk. change f_mem with (u "search_memory.cache") at 1 2.
  assert (seqb (f ++ u "search_memory.cache") p = false) as -> by (apply seqb_neq; intros K; now apply Np). rewrite N. reflexivity.
Qed.
Print Assumptions C58_path_refuted.
(** if it is there, what was saved to [path] is read *)
Theorem C58_path_partial : forall L w f p m m' y, setting w KFolder = JStr f -> w_disk w (f ++ u "search_memory.cache") = Some y -> cloudpickle L = true ->
  exists w', save L (Some p) m' w = (Ok tt, w') /\ load L (Some p) m w' = (Ok (update L m m'), w').
Proof.
  intros L w f p m m' y H N C. unfold save. rewrite C. unfold pops. eexists. split; [reflexivity|].
  set (w1 := World (w_par w) (run (write_ops p (dump (c_mem L) m')) (w_disk w)) (w_log w ++ write_ops p (dump (c_mem L) m'))).
  change w1 with (wrote w p (dump (c_mem L) m')). clear w1. set (w1 := wrote w p (dump (c_mem L) m')).
  assert (in_folder f w1) as H1 by exact H. unfold load. rewrite (pbind_ok _ _ _ _ _ (folder_at f w1 H1)), (pbind_ok _ _ _ _ _ (there_at f w1 f_mem H1)).
  assert (isf f w1 f_mem = true) as ->.
  { unfold isf, is_file, w1. rewrite wrote_disk. change f_mem with (u "search_memory.cache") at 1 2. destruct (seqb (f ++ u "search_memory.cache") p); [reflexivity|]. rewrite N. reflexivity. }
  rewrite C. unfold ptry, pbind at 1, pdisk. unfold w1 at 1. rewrite wrote_disk, seqb_refl. unfold pbind, plift. rewrite undump_dump. reflexivity.
Qed.
Print Assumptions C58_path_partial.
(** a session whose folder has no network yet (the user folder was changed, say) does load it *)
Theorem C58_new_folder_partial : forall mc L x d p m', sane mc L x -> new_installation mc d ->
  m_isdir mc p = true -> ends_with 47 p = false -> ends_with 92 p = false -> Forall plain_char p -> p <> m_dir mc ->
  fst (new_start mc L (disk_left mc L ([Call (CUserFolder (Some p)); Call CSave; Save m'], None) d)) = Ok (built_tables L x m').
Proof.
  intros mc L x d p m' S N Dp E1 E2 Pl Ne. pose proof S as (CP & NET & FULL & _). destruct (first_session mc L x S d N) as (w & E & W & O & Rl & Fr).
  pose proof W as ((H & U & C) & V & _).
  set (w1 := setp w KFolder (JStr p)).
  assert (snd (pcall mc (CUserFolder (Some p)) w) = w1) as P1 by (cbn [pcall set_user_folder]; rewrite Dp, E1, E2; unfold pmod; cbn [negb andb snd]; rewrite ?app_nil_r; reflexivity).
  assert (usable mc (p_set (w_par w1))) as U1.
  { split; [|exists p; split; [apply set_same|now right]]. intros k. pose proof (proj1 U k) as Sk. destruct (key_eqb k KFolder) eqn:Q.
    - apply key_eqb_eq in Q. subst k. cbn [saved]. unfold w1. rewrite set_same. unfold folder_none. destruct (seqb p (m_dir mc)); [exact I|exact Pl].
    - assert (k <> KFolder) as Nk by (intros ->; now rewrite key_eqb_refl in Q). destruct k; cbn [saved] in *; unfold w1; rewrite set_other by exact Nk; first [exact Sk|contradiction]. }
  set (w2 := settled mc w1). assert (snd (save_params mc w1) = w2) as P2 by (rewrite (save_settled mc w1 (proj1 U1)); reflexivity).
  assert (in_folder p w2) as H2 by apply (set_same w KFolder (JStr p)).
  set (w3 := wrote w2 (p ++ f_mem) (dump (c_mem L) m')).
  assert (disk_left mc L ([Call (CUserFolder (Some p)); Call CSave; Save m'], None) d = w_disk w3) as ->.
  { unfold disk_left, session. cbn [fst snd]. rewrite E. cbn [snd fold_left run_act]. rewrite P1. cbn [pcall]. rewrite P2. unfold save. rewrite CP, (pickle_at p (c_mem L) f_mem m' w2 H2). reflexivity. }
  assert (set_up mc p (p_set (w_par w1)) (w_disk w3)) as Su.
  { split; [exact (proj1 U1)|]. split; [apply set_same|]. split; [unfold w1; rewrite set_other by discriminate; exact V|]. split; [unfold w1; rewrite set_other by discriminate; exact C|].
    unfold w3, w2. rewrite wrote_disk, settled_disk. paths. reflexivity. }
  assert (forall n, In n cache_names -> n <> f_mem -> w_disk w3 (p ++ n) = None) as None3.
  { intros n Hn Nn. unfold w3, w2. rewrite wrote_disk, settled_disk, seqb_app_head, (cache_ini mc p n Hn), (cache_bak mc p n Hn).
    assert (seqb n f_mem = false) as -> by now apply seqb_neq. apply Fr; assumption. }
  destruct (scratch_start mc L p CP x NET FULL (or_intror Dp) _ _ Su) as (m & w4 & -> & _ & ->).
  { right. right. apply None3; [apply in_net|]. apply seqb_neq. exact ne_net_mem. }
  cbn [fst]. do 2 f_equal. unfold w1. rewrite set_other by discriminate. rewrite Rl. unfold memory_file, w3. rewrite wrote_disk, seqb_refl, undump_dump. reflexivity.
Qed.
Print Assumptions C58_new_folder_partial.
Example C58_new_folder_case : m_isdir demo (u "/d") = true /\ ends_with 47 (u "/d") = false /\ ends_with 92 (u "/d") = false /\ Forall plain_char (u "/d") /\ u "/d" <> m_dir demo.
Proof. split; [reflexivity|]. split; [reflexivity|]. split; [reflexivity|]. split; [apply plain_check; reflexivity|discriminate]. Qed.
