(** * Facts about [Startup] *)
From Coq Require Import String.
From Verif Require Import Py Json JsonFacts JsonFacts2 Params ParamsSpec ParamsFacts ParamsFacts2 Startup StartSpec.
Local Open Scope N_scope.

(** ** Programs, step by step *)
Lemma pbind_ok {X Y} (m : P X) (k : X -> P Y) w x w' : m w = (Ok x, w') -> pbind m k w = k x w'.
Proof. intros E. unfold pbind. now rewrite E. Qed.
Lemma pbind_err {X Y} (m : P X) (k : X -> P Y) w e w' : m w = (Err e, w') -> pbind m k w = (Err e, w').
Proof. intros E. unfold pbind. now rewrite E. Qed.
Lemma ptry_ok {X} (m h : P X) w x w' : m w = (Ok x, w') -> ptry m h w = (Ok x, w').
Proof. intros E. unfold ptry. now rewrite E. Qed.
Lemma ptry_err {X} (m h : P X) w e w' : m w = (Err e, w') -> ptry m h w = h w'.
Proof. intros E. unfold ptry. now rewrite E. Qed.

Definition wrote (w : world) (p x : str) : world := World (w_par w) (run (write_ops p x) (w_disk w)) (w_log w ++ write_ops p x).
Definition setp (w : world) (k : key) (v : jval) : world := World (set_key k v (w_par w)) (w_disk w) (w_log w).
Lemma wrote_disk w p x q : w_disk (wrote w p x) q = if seqb q p then Some x else w_disk w q.
Proof.
  unfold wrote. cbn [w_disk]. destruct (run_write p x (w_disk w)) as [A B]. destruct (seqb q p) eqn:E.
  - apply seqb_eq in E. now subst.
  - apply B. now apply seqb_neq.
Qed.
Lemma wrote_par w p x : w_par (wrote w p x) = w_par w. Proof. reflexivity. Qed.
Lemma setp_disk w k v : w_disk (setp w k v) = w_disk w. Proof. reflexivity. Qed.
Definition settled (mc : machine) (w : world) : world :=
  wrote (wrote w (ini_path mc) (stxt mc (p_set (w_par w)))) (bak_path mc) (stxt mc (p_set (w_par w))).
Lemma save_settled mc w : savable mc (p_set (w_par w)) -> save_params mc w = (Ok tt, settled mc w).
Proof. intros H. rewrite save_effect by exact H. reflexivity. Qed.

(** ** Paths *)
Lemma seqb_app_head f a b : seqb (f ++ a) (f ++ b) = seqb a b.
Proof.
  destruct (seqb a b) eqn:E; [apply seqb_eq in E; subst; apply seqb_refl|]. apply seqb_neq in E. apply seqb_neq. intros K. apply app_inv_head in K. contradiction.
Qed.
Lemma seqb_last f a g b : match rev a, rev b with c :: _, d :: _ => c <> d | _, _ => False end -> seqb (f ++ a) (g ++ b) = false.
Proof.
  intros H. apply seqb_neq. intros E. apply (f_equal (@rev _)) in E. rewrite !rev_app_distr in E.
  destruct (rev a) as [|c r]; [destruct H|]. destruct (rev b) as [|d s]; [destruct H|]. cbn [Datatypes.app] in E. injection E as E _. contradiction.
Qed.
Lemma cache_ini mc f n : In n cache_names -> seqb (f ++ n) (ini_path mc) = false.
Proof.
  intros H. apply seqb_last. unfold cache_names in H. cbn [In] in H.
  destruct H as [<-|[<-|[<-|[<-|[<-|[]]]]]]; vm_compute; discriminate.
Qed.
Lemma cache_bak mc f n : In n cache_names -> seqb (f ++ n) (bak_path mc) = false.
Proof.
  intros H. apply seqb_last. unfold cache_names in H. cbn [In] in H.
  destruct H as [<-|[<-|[<-|[<-|[<-|[]]]]]]; vm_compute; discriminate.
Qed.
Lemma ini_bak mc : seqb (ini_path mc) (bak_path mc) = false.
Proof. apply seqb_neq, paths_differ. Qed.
Lemma ini_cache mc f n : In n cache_names -> seqb (ini_path mc) (f ++ n) = false.
Proof. intros H. rewrite seqb_sym. now apply cache_ini. Qed.
Lemma bak_cache mc f n : In n cache_names -> seqb (bak_path mc) (f ++ n) = false.
Proof. intros H. rewrite seqb_sym. now apply cache_bak. Qed.
Lemma in_mem : In f_mem cache_names. Proof. cbn; tauto. Qed.
Lemma in_net : In f_net cache_names. Proof. cbn; tauto. Qed.
Lemma in_dict : In f_dict cache_names. Proof. cbn; tauto. Qed.
Lemma in_temp : In f_temp cache_names. Proof. cbn; tauto. Qed.
Lemma in_names : In f_names cache_names. Proof. cbn; tauto. Qed.
Lemma settled_disk mc w q : w_disk (settled mc w) q = if seqb q (bak_path mc) then Some (stxt mc (p_set (w_par w))) else if seqb q (ini_path mc) then Some (stxt mc (p_set (w_par w))) else w_disk w q.
Proof. unfold settled. now rewrite !wrote_disk. Qed.

Section Start.
Variable mc : machine.
Variable L : library.
Variable F : str.
Definition in_folder (w : world) : Prop := setting w KFolder = JStr F.
Lemma folder_at w : in_folder w -> folder w = (Ok F, w).
Proof. intros H. unfold folder, get_user_folder, pbind, pget, pret. unfold in_folder, setting in H. now rewrite H. Qed.
Definition isf (w : world) (n : str) : bool := is_file (w_disk w) (F ++ n).
Lemma there_at w n : in_folder w -> there n w = (Ok (isf w n), w).
Proof. intros H. unfold there. rewrite (pbind_ok _ _ _ _ _ (folder_at w H)). reflexivity. Qed.
Lemma on_at k w : on k w = (Ok (truth (setting w k)), w).
Proof. reflexivity. Qed.
Lemma pickle_at {X} (c : codec X) n x w : in_folder w -> pickle_to c n x w = (Ok tt, wrote w (F ++ n) (dump c x)).
Proof. intros H. unfold pickle_to. rewrite (pbind_ok _ _ _ _ _ (folder_at w H)). reflexivity. Qed.
Lemma unpickle_at {X} (c : codec X) n w : in_folder w -> unpickle c n w = (match w_disk w (F ++ n) with Some x => undump c x | None => Err FileError end, w).
Proof. intros H. unfold unpickle. rewrite (pbind_ok _ _ _ _ _ (folder_at w H)). unfold pbind, pdisk. destruct (w_disk w (F ++ n)); reflexivity. Qed.
Lemma pand_at a b w x : a w = (Ok x, w) -> (x = true -> exists y, b w = (Ok y, w)) -> pand a b w = (Ok (x && match b w with (Ok y, _) => y | _ => false end), w).
Proof.
  intros Ha Hb. unfold pand. rewrite (pbind_ok _ _ _ _ _ Ha). destruct x; [|reflexivity]. destruct (Hb eq_refl) as (y & ->). reflexivity.
Qed.
Lemma pand_true a b w y : a w = (Ok true, w) -> b w = (Ok y, w) -> pand a b w = (Ok y, w).
Proof. intros Ha Hb. unfold pand. rewrite (pbind_ok _ _ _ _ _ Ha). exact Hb. Qed.
Lemma pand_false a b w : a w = (Ok false, w) -> pand a b w = (Ok false, w).
Proof. intros Ha. unfold pand. now rewrite (pbind_ok _ _ _ _ _ Ha). Qed.
Lemma pand_bool a b w x y : a w = (Ok x, w) -> b w = (Ok y, w) -> pand a b w = (Ok (x && y), w).
Proof. intros Ha Hb. destruct x; [now apply pand_true|now apply pand_false]. Qed.
Lemma pnot_on k w : pnot (on k) w = (Ok (negb (truth (setting w k))), w).
Proof. reflexivity. Qed.

(** the four files *)
Definition all_files (w : world) : bool := isf w f_dict && (isf w f_net && (isf w f_temp && isf w f_names)).
Definition files_cached (w : world) : bool := negb (truth (setting w KReload)) && all_files w.
Lemma cond1 w : in_folder w -> pand (pnot (on KReload)) (pand (there f_dict) (pand (there f_net) (pand (there f_temp) (there f_names)))) w = (Ok (files_cached w), w).
Proof. intros H. unfold files_cached, all_files. repeat (apply pand_bool); first [apply pnot_on|now apply there_at]. Qed.
Lemma cond2 w : in_folder w -> cloudpickle L = true ->
  pand (pnot (on KReload)) (pand (there f_net) (pand (if cloudpickle L then there f_dict else pret true) (pand (there f_temp) (there f_names)))) w = (Ok (files_cached w), w).
Proof.
  intros H ->. replace (files_cached w) with (negb (truth (setting w KReload)) && (isf w f_net && (isf w f_dict && (isf w f_temp && isf w f_names)))).
  - repeat (apply pand_bool); first [apply pnot_on|now apply there_at].
  - unfold files_cached, all_files. destruct (isf w f_net), (isf w f_dict); rewrite ?Bool.andb_false_r; reflexivity.
Qed.

(** ** Building *)
Definition two_files (w : world) : world :=
  if truth (setting w KCache) then wrote (wrote w (F ++ f_temp) (dump (c_temp L) (temp0 L))) (F ++ f_names) (dump (c_names L) (names0 L)) else w.
Lemma load_dictionary_at w : in_folder w -> load_dictionary L w = (Ok (base L, temp0 L, names0 L), two_files w).
Proof.
  intros H. unfold load_dictionary. rewrite (pbind_ok _ _ _ _ _ (on_at KCache w)). unfold two_files. destruct (truth (setting w KCache)); [|reflexivity].
  erewrite pbind_ok; [reflexivity|]. erewrite pbind_ok; [|now apply pickle_at]. now rewrite pickle_at.
Qed.
Definition memory_of (w : world) : l_mem L :=
  if truth (setting w KCache) && p_memory (w_par w) then
    if isf w f_mem && cloudpickle L then match w_disk w (F ++ f_mem) with Some x => match undump (c_mem L) x with Ok m => m | Err _ => no_memory L end | None => no_memory L end else no_memory L
  else no_memory L.
Lemma new_memory_at w : in_folder w -> new_memory L w = (Ok (memory_of w), w).
Proof.
  intros H. unfold new_memory, memory_of. rewrite (pbind_ok _ _ _ _ _ (on_at KCache w)). unfold pbind at 1, pget.
  destruct (truth (setting w KCache) && p_memory (w_par w)); [|reflexivity]. rewrite (pbind_ok _ _ _ _ _ (there_at w f_mem H)).
  destruct (isf w f_mem && cloudpickle L); [|reflexivity]. unfold ptry. rewrite (unpickle_at (c_mem L) f_mem w H).
  destruct (w_disk w (F ++ f_mem)) as [x|]; [|reflexivity]. destruct (undump (c_mem L) x); reflexivity.
Qed.
Lemma load_network_at w d : in_folder w -> load_network L d w = match network L d with Ok n => (Ok (n, memory_of w), w) | Err e => (Err e, w) end.
Proof.
  intros H. unfold load_network. rewrite (pbind_ok _ _ _ _ _ (new_memory_at w H)). unfold pbind, plift. destruct (network L d); reflexivity.
Qed.

(** what the files hold after everything was built from the dictionary [d] *)
Definition stored (w : world) (d : jval) (x : l_net L * l_mem L) : world :=
  let w1 := settled mc (setp w KReload (JBool false)) in
  if truth (setting w KCache) then wrote (wrote w1 (F ++ f_net) (dump (c_net L) x)) (F ++ f_dict) (txt (create L d)) else w1.
Definition shown (w : world) : world := if truth (setting w KVersion) then settled mc (setp w KVersion (JBool false)) else w.
Lemma setp_same w k v : setting (setp w k v) k = v. Proof. apply with_key_same. Qed.
Lemma setp_other w k v k' : k' <> k -> setting (setp w k v) k' = setting w k'. Proof. apply with_key_other. Qed.
Lemma show_at w : savable mc (p_set (w_par w)) -> show_version mc w = (Ok tt, shown w).
Proof.
  intros S. unfold show_version, shown. rewrite (pbind_ok _ _ _ _ _ (on_at KVersion w)). destruct (truth (setting w KVersion)); [|reflexivity].
  unfold pbind, pmod. fold (setp w KVersion (JBool false)). apply save_settled. apply (fun H => H) in S. intros k. specialize (S k). destruct k; try exact S. exact I.
Qed.
Lemma setp_savable w k b : savable mc (p_set (w_par w)) -> k <> KFolder -> savable mc (p_set (w_par (setp w k (JBool b)))).
Proof.
  intros S Hk k'. specialize (S k'). unfold setp. cbn [w_par set_key p_set]. destruct (key_eqb k' k) eqn:E.
  - apply key_eqb_eq in E. subst k'. destruct k; cbn [saved]; rewrite ?with_key_same; try exact I.
  - assert (k' <> k) by (intros ->; now rewrite key_eqb_refl in E). destruct k'; cbn [saved] in *; rewrite with_key_other by assumption; exact S.
Qed.
Lemma build_at w d t n x : in_folder w -> cloudpickle L = true -> files_cached w = false -> savable mc (p_set (w_par w)) ->
  network L d = Ok x -> writable (create L d) ->
  start_network mc L (d, t, n) w = (Ok (Tables (create L d) t n x (memory_of w)), stored w d (x, memory_of w)).
Proof.
  intros H C N S E W. unfold start_network. rewrite (pbind_ok _ _ _ _ _ (cond2 w H C)), N.
  erewrite pbind_ok; [|rewrite load_network_at by exact H; rewrite E; reflexivity]. cbv zeta.
  rewrite (pbind_ok (pmod (set_key KReload (JBool false))) _ w tt (setp w KReload (JBool false)) eq_refl).
  erewrite pbind_ok; [|apply save_settled, setp_savable; [exact S|discriminate]].
  set (w1 := settled mc (setp w KReload (JBool false))).
  rewrite (pbind_ok _ _ _ _ _ (on_at KCache w1)).
  assert (setting w1 KCache = setting w KCache) as -> by (unfold w1, settled, setting; cbn [wrote w_par]; apply (setp_other w KReload); discriminate).
  unfold stored. fold w1. destruct (truth (setting w KCache)); [|reflexivity].
  assert (in_folder w1) as H1 by (unfold in_folder, w1, settled, setting; cbn [wrote w_par]; unfold in_folder in H; rewrite <- H; apply (setp_other w KReload); discriminate).
  rewrite C. erewrite pbind_ok; [reflexivity|]. erewrite pbind_ok; [|now apply pickle_at].
  erewrite pbind_ok; [|apply folder_at; exact H1]. unfold dump_to. rewrite (jwrite_txt _ W). reflexivity.
Qed.

(** ** The three ways a session starts *)
Lemma two_par w : w_par (two_files w) = w_par w.
Proof. unfold two_files. destruct (truth (setting w KCache)); reflexivity. Qed.
Lemma stored_par w d x : w_par (stored w d x) = set_key KReload (JBool false) (w_par w).
Proof. unfold stored. destruct (truth (setting w KCache)); reflexivity. Qed.
Lemma stored_savable w d x : savable mc (p_set (w_par w)) -> savable mc (p_set (w_par (stored w d x))).
Proof. intros S. rewrite stored_par. apply (setp_savable w KReload false S). discriminate. Qed.
Notation built := (built_tables L).
(** one of the files is missing, or [reload]: everything is built *)
Lemma scratch_at w x : in_folder w -> cloudpickle L = true -> files_cached w = false -> files_cached (two_files w) = false -> savable mc (p_set (w_par w)) ->
  network L (base L) = Ok x -> writable (create L (base L)) ->
  boot mc L w = (Ok (built x (memory_of (two_files w))), shown (stored (two_files w) (base L) (x, memory_of (two_files w)))).
Proof.
  intros H C N N2 S E W. unfold boot.
  erewrite pbind_ok; [|unfold start_dictionary; erewrite pbind_ok; [|apply cond1, H]; rewrite N; apply load_dictionary_at, H].
  assert (in_folder (two_files w)) as H2 by (unfold in_folder, setting; rewrite two_par; exact H).
  assert (savable mc (p_set (w_par (two_files w)))) as S2 by (rewrite two_par; exact S).
  erewrite pbind_ok; [|apply build_at; eassumption].
  erewrite pbind_ok; [|apply show_at, stored_savable, S2]. reflexivity.
Qed.
(** the files are there but one of the three small ones cannot be read: everything is built *)
Definition reads_dict (w : world) : res jval := match w_disk w (F ++ f_dict) with Some x => jload x | None => Err FileError end.
Definition reads_temp (w : world) : res (l_temp L) := match w_disk w (F ++ f_temp) with Some x => undump (c_temp L) x | None => Err FileError end.
Definition reads_names (w : world) : res (l_names L) := match w_disk w (F ++ f_names) with Some x => undump (c_names L) x | None => Err FileError end.
Definition reads_net (w : world) : res (l_net L * l_mem L) := match w_disk w (F ++ f_net) with Some x => undump (c_net L) x | None => Err FileError end.
Definition reads_three (w : world) : res (jval * l_temp L * l_names L) :=
  rbind (reads_dict w) (fun d => rbind (reads_temp w) (fun t => rbind (reads_names w) (fun n => Ok (d, t, n)))).
Lemma read_three_at w : in_folder w ->
  pbind folder (fun f => pbind (read_file (f ++ f_dict)) (fun d => pbind (unpickle (c_temp L) f_temp) (fun t => pbind (unpickle (c_names L) f_names) (fun n => pret (d, t, n))))) w = (reads_three w, w).
Proof.
  intros H. erewrite pbind_ok; [|apply folder_at, H]. unfold reads_three, reads_dict, reads_temp, reads_names.
  unfold pbind at 1, read_file, pbind at 1, pdisk. destruct (w_disk w (F ++ f_dict)) as [x|]; [|reflexivity]. unfold plift. destruct (jload x) as [d|e]; [|reflexivity]. cbn [rbind].
  unfold pbind at 1. rewrite (unpickle_at (c_temp L) f_temp w H). destruct (match w_disk w (F ++ f_temp) with Some y => undump (c_temp L) y | None => Err FileError end); [|reflexivity]. cbn [rbind].
  unfold pbind at 1. rewrite (unpickle_at (c_names L) f_names w H). destruct (match w_disk w (F ++ f_names) with Some y => undump (c_names L) y | None => Err FileError end); reflexivity.
Qed.
Lemma damaged_at w x e : in_folder w -> cloudpickle L = true -> files_cached w = true -> reads_three w = Err e -> savable mc (p_set (w_par w)) ->
  network L (base L) = Ok x -> writable (create L (base L)) ->
  boot mc L w = (Ok (built x (memory_of (two_files (setp w KReload (JBool true))))), shown (stored (two_files (setp w KReload (JBool true))) (base L) (x, memory_of (two_files (setp w KReload (JBool true)))))).
Proof.
  intros H C N R S E W. unfold boot. set (w1 := setp w KReload (JBool true)).
  assert (in_folder w1) as H1 by (unfold in_folder; rewrite <- H; apply setp_other; discriminate).
  erewrite pbind_ok.
  2: { unfold start_dictionary. erewrite pbind_ok; [|apply cond1, H]. rewrite N. erewrite ptry_err; [|rewrite read_three_at, R by exact H; reflexivity].
       rewrite (pbind_ok (pmod (set_key KReload (JBool true))) _ w tt w1 eq_refl). apply load_dictionary_at, H1. }
  assert (in_folder (two_files w1)) as H2 by (unfold in_folder, setting; rewrite two_par; exact H1).
  assert (savable mc (p_set (w_par (two_files w1)))) as S2 by (rewrite two_par; apply setp_savable; [exact S|discriminate]).
  assert (files_cached (two_files w1) = false) as N2 by (unfold files_cached, setting; rewrite two_par; unfold w1; fold (setting (setp w KReload (JBool true)) KReload); rewrite setp_same; reflexivity).
  erewrite pbind_ok; [|apply build_at; eassumption].
  erewrite pbind_ok; [|apply show_at, stored_savable, S2]. reflexivity.
Qed.
(** all can be read *)
Lemma cached_at w d t n x m : in_folder w -> cloudpickle L = true -> files_cached w = true -> reads_three w = Ok (d, t, n) -> reads_net w = Ok (x, m) -> savable mc (p_set (w_par w)) ->
  boot mc L w = (Ok (Tables d t n x m), shown (settled mc (setp w KReload (JBool false)))).
Proof.
  intros H C N R Rn S. unfold boot.
  erewrite pbind_ok; [|unfold start_dictionary; erewrite pbind_ok; [|apply cond1, H]; rewrite N; apply ptry_ok; rewrite read_three_at, R by exact H; reflexivity].
  erewrite pbind_ok.
  2: { unfold start_network. erewrite pbind_ok; [|apply cond2; assumption]. rewrite N. apply ptry_ok. rewrite C.
       erewrite pbind_ok; [|rewrite unpickle_at by exact H; fold (reads_net w); rewrite Rn; reflexivity].
       rewrite (pbind_ok (pmod (set_key KReload (JBool false))) _ w tt (setp w KReload (JBool false)) eq_refl).
       erewrite pbind_ok; [|apply save_settled, setp_savable; [exact S|discriminate]]. reflexivity. }
  erewrite pbind_ok; [|apply show_at; apply (setp_savable w KReload false S); discriminate]. reflexivity.
Qed.
(** the network cannot be read: the session does not start; what it leaves on the disk *)
Lemma broken_at w d t n e : in_folder w -> cloudpickle L = true -> files_cached w = true -> reads_three w = Ok (d, t, n) -> reads_net w = Err e ->
  exists e', boot mc L w = (Err e', two_files w).
Proof.
  intros H C N R Rn. unfold boot.
  erewrite pbind_ok; [|unfold start_dictionary; erewrite pbind_ok; [|apply cond1, H]; rewrite N; apply ptry_ok; rewrite read_three_at, R by exact H; reflexivity].
  assert (exists e', start_network mc L (d, t, n) w = (Err e', two_files w)) as (e' & E).
  { unfold start_network. erewrite pbind_ok; [|apply cond2; assumption]. rewrite N. erewrite ptry_err.
    2: { rewrite C. apply pbind_err. rewrite unpickle_at by exact H. fold (reads_net w). now rewrite Rn. }
    unfold rebuild_units. erewrite pbind_ok; [|apply load_dictionary_at, H].
    assert (in_folder (two_files w)) as H2 by (unfold in_folder, setting; rewrite two_par; exact H).
    unfold pbind at 1. rewrite load_network_at by exact H2. destruct (network L d); eexists; reflexivity. }
  exists e'. now apply pbind_err.
Qed.
(** a small file is missing, the large ones are there: [_load_dictionary] writes it, and then the network is read from the cache *)
Lemma mixed_at w x m : in_folder w -> cloudpickle L = true -> truth (setting w KReload) = false -> truth (setting w KCache) = true ->
  isf w f_dict = true -> isf w f_net = true -> isf w f_temp && isf w f_names = false -> reads_net w = Ok (x, m) -> savable mc (p_set (w_par w)) ->
  boot mc L w = (Ok (Tables (base L) (temp0 L) (names0 L) x m), shown (settled mc (setp (two_files w) KReload (JBool false)))).
Proof.
  intros H C Nr Cc Nd Nn Ns Rn S. unfold boot.
  assert (files_cached w = false) as N by (unfold files_cached, all_files; rewrite Nd, Nn, Ns; apply Bool.andb_false_r).
  erewrite pbind_ok; [|unfold start_dictionary; erewrite pbind_ok; [|apply cond1, H]; rewrite N; apply load_dictionary_at, H].
  set (w2 := two_files w).
  assert (in_folder w2) as H2 by (unfold in_folder, setting, w2; rewrite two_par; exact H).
  assert (savable mc (p_set (w_par w2))) as S2 by (unfold w2; rewrite two_par; exact S).
  assert (forall n, w_disk w2 (F ++ n) = if seqb n f_names then Some (dump (c_names L) (names0 L)) else if seqb n f_temp then Some (dump (c_temp L) (temp0 L)) else w_disk w (F ++ n)) as D2.
  { intros n. unfold w2, two_files. rewrite Cc, !wrote_disk, !seqb_app_head. reflexivity. }
  assert (files_cached w2 = true) as N2.
  { unfold files_cached, all_files, isf, is_file, setting. unfold w2 at 1. rewrite two_par. fold (setting w KReload). rewrite Nr, !D2.
    change (seqb f_dict f_names) with false. change (seqb f_dict f_temp) with false. change (seqb f_net f_names) with false. change (seqb f_net f_temp) with false.
    change (seqb f_temp f_names) with false. change (seqb f_temp f_temp) with true. change (seqb f_names f_names) with true. cbv iota.
    unfold isf, is_file in Nd, Nn. destruct (w_disk w (F ++ f_dict)); [|discriminate Nd]. destruct (w_disk w (F ++ f_net)); [|discriminate Nn]. reflexivity. }
  assert (reads_net w2 = Ok (x, m)) as Rn2.
  { unfold reads_net. rewrite D2. change (seqb f_net f_names) with false. change (seqb f_net f_temp) with false. exact Rn. }
  erewrite pbind_ok.
  2: { unfold start_network. erewrite pbind_ok; [|apply cond2; assumption]. rewrite N2. apply ptry_ok. rewrite C.
       erewrite pbind_ok; [|rewrite unpickle_at by exact H2; fold (reads_net w2); rewrite Rn2; reflexivity].
       rewrite (pbind_ok (pmod (set_key KReload (JBool false))) _ w2 tt (setp w2 KReload (JBool false)) eq_refl).
       erewrite pbind_ok; [|apply save_settled, setp_savable; [exact S2|discriminate]]. reflexivity. }
  erewrite pbind_ok; [|apply show_at; apply (setp_savable w2 KReload false S2); discriminate]. reflexivity.
Qed.
(** without [cloudpickle], files of a cache stop the start *)
Lemma no_cloudpickle_at w : in_folder w -> cloudpickle L = false -> negb (truth (setting w KReload)) = true -> isf w f_net = true -> isf w f_temp = true -> isf w f_names = true ->
  reads_dict w <> Err ValueError -> (forall e, reads_temp w <> Err e) -> (forall e, reads_names w <> Err e) ->
  exists e' w', boot mc L w = (Err e', w').
Proof.
  intros H C Nr N1 N2 N3 Rd Rt Rn. unfold boot.
  assert (exists s w1, start_dictionary L w = (Ok s, w1) /\ in_folder w1 /\ setting w1 KReload = setting w KReload /\ isf w1 f_net = true /\ isf w1 f_temp = true /\ isf w1 f_names = true) as (s & w1 & E & H1 & K1 & M1 & M2 & M3).
  { unfold start_dictionary. erewrite pbind_ok; [|apply cond1, H]. unfold files_cached, all_files. rewrite Nr, N1, N2, N3. destruct (isf w f_dict) eqn:Nd; cbn [andb].
    - unfold reads_three in *. assert (exists d t n, reads_three w = Ok (d, t, n)) as (d & t & n & R).
      { unfold reads_three. unfold isf, is_file in Nd. unfold reads_dict in *. destruct (w_disk w (F ++ f_dict)) as [y|]; [|discriminate Nd].
        destruct (jload y) as [d|e] eqn:J; [|exfalso; apply Rd; now rewrite (jload_error y e J)]. cbn [rbind].
        destruct (reads_temp w) as [t|e]; [|exfalso; now apply (Rt e)]. cbn [rbind]. destruct (reads_names w) as [n|e]; [|exfalso; now apply (Rn e)]. cbn [rbind]. eauto. }
      exists (d, t, n), w. split; [apply ptry_ok; rewrite read_three_at, R by exact H; reflexivity|]. auto.
    - rewrite load_dictionary_at by exact H. eexists. eexists. split; [reflexivity|]. unfold in_folder, setting. rewrite two_par. split; [exact H|]. split; [reflexivity|].
      unfold two_files. destruct (truth (setting w KCache)); [|auto].
      assert (forall n p x w0, isf w0 n = true -> isf (wrote w0 p x) n = true) as Keep.
      { intros n p x w0 Hn. unfold isf, is_file in *. rewrite wrote_disk. destruct (seqb (F ++ n) p); [reflexivity|exact Hn]. }
      auto. }
  rewrite (pbind_ok _ _ _ _ _ E).
  assert (exists e' w', start_network mc L s w1 = (Err e', w')) as (e' & w' & E').
  { destruct s as [[d t] n]. unfold start_network. erewrite pbind_ok.
    2: { rewrite C. apply (pand_true _ _ _ true); [rewrite pnot_on, K1, Nr; reflexivity|].
         apply (pand_true _ _ _ true); [rewrite there_at, M1 by exact H1; reflexivity|]. apply (pand_true _ _ _ true); [reflexivity|].
         apply (pand_true _ _ _ true); [rewrite there_at, M2 by exact H1; reflexivity|]. rewrite there_at, M3 by exact H1. reflexivity. }
    cbv iota. erewrite ptry_err; [|rewrite C; reflexivity].
    unfold rebuild_units. erewrite pbind_ok; [|apply load_dictionary_at, H1].
    assert (in_folder (two_files w1)) as H2 by (unfold in_folder, setting; rewrite two_par; exact H1).
    unfold pbind at 1. rewrite load_network_at by exact H2. destruct (network L d); eexists; eexists; reflexivity. }
  exists e', w'. now apply pbind_err.
Qed.
End Start.
