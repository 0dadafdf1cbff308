(** * What each call can assign, and what the crash of a save leaves *)
From Coq Require Import String.
From Verif Require Import Py Json JsonFacts JsonFacts2 Params ParamsSpec ParamsFacts SwitchFacts.
Local Open Scope N_scope.

(** ** The values a call can give to a setting *)
Definition assignable (mc : machine) (c : pact) (k : key) (v : jval) : Prop :=
  match k with
  | KPrint | KCache | KRaise | KReload | KVerbose | KParallel => exists b, v = JBool b
  | KDetails => exists z, v = JInt z
  | KMaxRec => exists z, v = JInt z /\ (z <= Z.max 12 (m_limit mc - 15))%Z
  | KMaxGen => exists z, v = JInt z
  | KAlgo => exists x, v = JStr x /\ In x algorithms
  | KDensity => match c with
                | CSetDensity conv (DNumber n) units => (is_num n = true /\ v = n) \/ conv n units = Ok (Some v)
                | CSetDensity _ (DQuantity r) _ => r = Ok v
                | _ => False
                end
  | KFvf => match c with CSetFvf _ a => v = fvf_object a /\ a <> FvNone | _ => False end
  | KFolder => match c with
               | CUserFolder None => v = JStr (m_dir mc)
               | CUserFolder (Some x) => m_isdir mc x = true /\ v = JStr (if negb (ends_with 47 x) && negb (ends_with 92 x) then x else u "/")
               | _ => False
               end
  | KRedpar | KVersion => False
  end.
Definition step_of (mc : machine) (c : pact) (f f' : settings) : Prop := forall k, f' k = f k \/ assignable mc c k (f' k).
Lemma step_refl mc c f : step_of mc c f f. Proof. intros k. now left. Qed.
Lemma step_set mc c f k v : assignable mc c k v -> step_of mc c f (with_key k v f).
Proof.
  intros H k'. destruct (key_eqb k' k) eqn:E; [apply key_eqb_eq in E; subst; right; now rewrite with_key_same|].
  left. apply with_key_other. intros ->. now rewrite key_eqb_refl in E.
Qed.
Lemma step_set2 mc c f k v k2 v2 : assignable mc c k v -> assignable mc c k2 v2 -> step_of mc c f (with_key k2 v2 (with_key k v f)).
Proof.
  intros H H2 k'. destruct (key_eqb k' k2) eqn:E; [apply key_eqb_eq in E; subst; right; now rewrite with_key_same|].
  rewrite with_key_other by (intros ->; now rewrite key_eqb_refl in E). now apply step_set.
Qed.
Lemma save_then {X} mc w (r : X) : w_par (snd (pbind (save_params mc) (fun _ => pret r) w)) = w_par w.
Proof. unfold pbind. pose proof (save_par mc w) as H. destruct (save_params mc w) as [[[]|e] w']; exact H. Qed.

Lemma switch_step mc k a c w : In k [KPrint; KCache; KRaise; KReload; KVerbose] ->
  step_of mc c (p_set (w_par w)) (p_set (w_par (snd (switch mc k a w)))).
Proof.
  intros Hk. unfold switch, pbind at 1 2, pget, plift. destruct (switch_value (p_set (w_par w) k) a) as [b|e]; [|apply step_refl].
  unfold pbind, pmod. rewrite save_par. cbn [w_par set_key p_set]. apply step_set.
  cbn [In] in Hk. intuition (subst k; now exists b).
Qed.
Lemma store_step mc k v c w {X} (r : X) : assignable mc c k v ->
  step_of mc c (p_set (w_par w)) (p_set (w_par (snd (pbind (pmod (set_key k v)) (fun _ => pbind (save_params mc) (fun _ => pret r)) w)))).
Proof. intros H. unfold pbind at 1, pmod. rewrite save_then. cbn [w_par set_key p_set]. now apply step_set. Qed.
Lemma ignore_par {X} (m : P X) w : w_par (snd (ignore m w)) = w_par (snd (m w)).
Proof. unfold ignore, pbind. now destruct (m w) as [[x|e] w']. Qed.
Lemma limit_step mc k mx df cap a c w : assignable mc c k (JInt mx) -> assignable mc c k (JInt df) -> (forall z, assignable mc c k (JInt (cap z))) ->
  step_of mc c (p_set (w_par w)) (p_set (w_par (snd (limit mc k mx df cap a w)))).
Proof.
  intros H1 H2 H3. destruct a as [|x|[|]|z|]; cbn [limit]; try apply step_refl; try (apply store_step; auto).
  destruct (seqb (lower x) (u "max")); [now apply store_step|apply step_refl].
Qed.
Lemma algorithm_step mc x c w : In x algorithms -> step_of mc c (p_set (w_par w)) (p_set (w_par (snd (store_algorithm mc x w)))).
Proof. intros H. unfold store_algorithm, pbind, pmod. rewrite save_par. cbn [w_par p_set]. apply step_set. cbn [assignable]. eauto. Qed.
Lemma method_step mc a c w : step_of mc c (p_set (w_par w)) (p_set (w_par (snd (method_set_algorithm mc a w)))).
Proof.
  destruct a as [x|]; [|apply step_refl]. unfold method_set_algorithm. destruct (smem x algorithms) eqn:M; [|apply step_refl].
  apply smem_In in M. unfold pbind at 1, pget. destruct (seqb x (u "hybrid_BFS") && negb (p_thread (w_par w))); [|now apply algorithm_step].
  destruct (is_str (p_set (w_par w) KAlgo) (u "hybrid_BFS")); [|apply step_refl]. apply algorithm_step. cbn. tauto.
Qed.
Lemma delete_each_par l : forall w, w_par (snd (delete_each l w)) = w_par w.
Proof.
  induction l as [|n l IH]; intros w; [reflexivity|]. cbn [delete_each]. unfold pbind at 1, folder at 1, get_user_folder, pbind at 1, pbind at 1, pget, pret at 1.
  destruct (p_set (w_par w) KFolder); try reflexivity. unfold pret, pbind at 1, pdisk, pbind at 1.
  destruct (is_file (w_disk w) (s ++ n)); unfold pops; rewrite IH; reflexivity.
Qed.
Lemma pcall_step mc c w : step_of mc c (p_set (w_par w)) (p_set (w_par (snd (pcall mc c w)))).
Proof.
  destruct c; cbn [pcall].
  - apply switch_step. cbn; tauto.
  - apply switch_step. cbn; tauto.
  - apply switch_step. cbn; tauto.
  - destruct a; cbn [verbose]; try (apply switch_step; cbn; tauto).
    unfold pbind, pmod. unfold switch, pbind, pget, plift, pmod. cbn [switch_value]. rewrite save_par. cbn [w_par set_key p_set].
    apply step_set2; cbn [assignable]; eauto.
  - apply switch_step. cbn; tauto.
  - unfold reload, pbind, pmod. rewrite save_par. cbn [w_par set_key p_set]. apply step_set. cbn. eauto.
  - rewrite ignore_par. unfold recursion_limit. refine (limit_step mc KMaxRec _ _ _ a _ w _ _ _); cbn [assignable].
    + exists (m_limit mc - 15)%Z. split; [reflexivity|lia].
    + exists 12%Z. split; [reflexivity|lia].
    + intros z. exists (Z.min z (m_limit mc - 15))%Z. split; [reflexivity|lia].
  - rewrite ignore_par. unfold generations_limit. refine (limit_step mc KMaxGen _ _ _ a _ w _ _ _); cbn [assignable]; eauto.
  - destruct a as [x|]; [|apply step_refl]. cbn [set_algorithm]. destruct (smem x algorithms); [apply method_step|apply step_refl].
  - apply method_step.
  - assert (forall b t m, step_of mc (CSetParallel a) (p_set (w_par w)) (p_set (w_par (snd (set_par3 b t m w))))) as H.
    { intros b t m. unfold set_par3, pmod. cbn [snd w_par p_set]. apply step_set. cbn. eauto. }
    destruct a as [|b|x|]; cbn [set_parallel]; try apply H; [|apply step_refl].
    destruct (strip x); [apply step_refl|]. destruct (strip (lower x)) as [|d r]; [apply step_refl|].
    destruct (d =? 116); [apply H|]. destruct (cmem d (u "mp")); apply H.
  - destruct path as [x|]; cbn [set_user_folder].
    + destruct (m_isdir mc x) eqn:E; [|apply step_refl]. unfold pmod. cbn [snd w_par set_key p_set]. apply step_set. cbn. rewrite app_nil_r. auto.
    + unfold pmod. cbn [snd w_par set_key p_set]. now apply step_set.
  - unfold set_density. destruct a as [|v|r|]; try apply step_refl.
    + destruct (is_num v) eqn:Nv; [|apply step_refl]. destruct (smem (lower units) gcc).
      * unfold pbind, pmod. rewrite save_par. cbn [w_par set_key p_set]. apply step_set. cbn. auto.
      * destruct (conv v units) as [[v'|]|e] eqn:Ec; [|apply step_refl|destruct e; apply step_refl].
        unfold pbind, pmod. rewrite save_par. cbn [w_par set_key p_set]. apply step_set. cbn. auto.
    + unfold pbind at 1, plift. destruct r as [v|e]; [|apply step_refl].
      unfold pbind, pmod. rewrite save_par. cbn [w_par set_key p_set]. apply step_set. cbn. auto.
  - assert (forall f, p_set (net_set_fvf float_of a f) = p_set f) as Hn.
    { intros f. unfold net_set_fvf. destruct a as [|x| | |]; try reflexivity. destruct (float_of x); reflexivity. }
    unfold set_fvf. destruct a as [|x|z|t|v]; try apply step_refl; unfold pbind, pmod; cbn [snd w_par set_key p_set]; rewrite Hn; apply step_set; cbn; split; try reflexivity; discriminate.
  - rewrite save_par. apply step_refl.
  - unfold delete_cache. rewrite delete_each_par. apply step_refl.
Qed.
(** a property of the settings that every call keeps *)
Lemma pcalls_keep mc (I : settings -> Prop) (A : pact -> Prop) :
  (forall f f' c, A c -> I f -> step_of mc c f f' -> I f') ->
  forall l w, Forall A l -> I (p_set (w_par w)) -> I (p_set (w_par (pcalls mc l w))).
Proof.
  intros H l. induction l as [|c l IH]; intros w HA Hw; [exact Hw|]. inversion HA; subst. cbn [pcalls fold_left]. apply IH; [assumption|].
  eapply H; [eassumption|exact Hw|apply pcall_step].
Qed.

(** ** Dying while the settings are being saved *)
Lemma crash_save mc n w : savable mc (p_set (w_par w)) ->
  crash (save_params mc) n w = run (firstn n (write_ops (ini_path mc) (stxt mc (p_set (w_par w))) ++ write_ops (bak_path mc) (stxt mc (p_set (w_par w))))) (w_disk w).
Proof.
  intros H. unfold crash. rewrite save_effect by exact H. cbn [snd w_log]. rewrite <- app_assoc.
  rewrite skipn_app, skipn_all, Nat.sub_diag. reflexivity.
Qed.
Lemma stxt_long mc f : savable mc f -> (0 < length (stxt mc f))%nat.
Proof.
  intros H. apply savable_writable in H. unfold stxt. destruct (txt_headed _ H) as (c & t & -> & _). cbn [length]. lia.
Qed.
(** before the first file is complete *)
Lemma crash_early mc n w : savable mc (p_set (w_par w)) -> (0 < n <= length (stxt mc (p_set (w_par w))))%nat ->
  exists x, cut (stxt mc (p_set (w_par w))) x /\ crash (save_params mc) n w (ini_path mc) = Some x
    /\ forall p, p <> ini_path mc -> crash (save_params mc) n w p = w_disk w p.
Proof.
  intros H Hn. rewrite crash_save by exact H. set (T := stxt mc (p_set (w_par w))) in *. clearbody T.
  rewrite firstn_app. replace (n - length (write_ops (ini_path mc) T))%nat with 0%nat by (rewrite write_len; lia).
  cbn [firstn]. rewrite app_nil_r, firstn_write by lia.
  destruct (run_write (ini_path mc) (firstn (n - 1) T) (w_disk w)) as [A B].
  exists (firstn (n - 1) T). split; [|split; [exact A|exact B]].
  exists (skipn (n - 1) T). split; [|symmetry; apply firstn_skipn].
  intros E. apply (f_equal (@length _)) in E. rewrite skipn_length in E. cbn [length] in E. lia.
Qed.
(** after it *)
Lemma crash_late mc n w : savable mc (p_set (w_par w)) -> (length (stxt mc (p_set (w_par w))) < n)%nat ->
  crash (save_params mc) n w (ini_path mc) = Some (stxt mc (p_set (w_par w)))
  /\ (forall p, p <> ini_path mc -> p <> bak_path mc -> crash (save_params mc) n w p = w_disk w p)
  /\ ((n = length (stxt mc (p_set (w_par w))) + 1)%nat -> crash (save_params mc) n w (bak_path mc) = w_disk w (bak_path mc))
  /\ ((length (stxt mc (p_set (w_par w))) + 1 < n < 2 * length (stxt mc (p_set (w_par w))) + 2)%nat ->
        exists x, cut (stxt mc (p_set (w_par w))) x /\ crash (save_params mc) n w (bak_path mc) = Some x)
  /\ ((2 * length (stxt mc (p_set (w_par w))) + 2 <= n)%nat -> crash (save_params mc) n w (bak_path mc) = Some (stxt mc (p_set (w_par w)))).
Proof.
  intros H Hn. rewrite crash_save by exact H. set (T := stxt mc (p_set (w_par w))) in *. clearbody T.
  rewrite firstn_app, (firstn_all2 (write_ops (ini_path mc) T)) by (rewrite write_len; lia).
  rewrite write_len. rewrite run_app.
  destruct (run_write (ini_path mc) T (w_disk w)) as [A B]. set (d := run (write_ops (ini_path mc) T) (w_disk w)) in *.
  destruct (Nat.eq_dec n (length T + 1)) as [En|En].
  - replace (n - Datatypes.S (length T))%nat with 0%nat by lia. cbn [firstn].
    split; [exact A|]. split; [intros p H1 _; now apply B|]. split; [intros _; apply B; intros E; symmetry in E; now apply paths_differ in E|].
    split; intros; lia.
  - rewrite firstn_write by lia. set (x := firstn (n - Datatypes.S (length T) - 1) T).
    destruct (run_write (bak_path mc) x d) as [C D].
    split; [rewrite D by apply paths_differ; exact A|].
    split; [intros p H1 H2; rewrite D by exact H2; now apply B|]. split; [intros; lia|]. split.
    + intros Hb. exists x. split; [|exact C]. exists (skipn (n - Datatypes.S (length T) - 1) T). split; [|unfold x; symmetry; apply firstn_skipn].
      intros E. apply (f_equal (@length _)) in E. rewrite skipn_length in E. cbn [length] in E. lia.
    + intros Hb. rewrite C. unfold x. now rewrite firstn_all2 by lia.
Qed.
(** a file cut short stops the next start, and changes nothing *)
Lemma next_broken_object_log mc o d x : writable o -> ~ is_number o -> cut (txt o) x -> d (ini_path mc) = Some x ->
  exists w, next_session mc d = (Err ValueError, w) /\ w_disk w = d /\ w_log w = [].
Proof.
  intros S N C E. unfold next_session, init, pbind at 1, pmod at 1. cbn [blank_world w_par w_disk w_log]. unfold pbind at 1.
  unfold load_params, pbind at 1, pdisk at 1. cbn [w_disk]. unfold is_file. rewrite E. unfold pbind at 1, read_file, pbind at 1, pdisk. cbn [w_disk].
  rewrite E. unfold plift. rewrite (jload_cut o x); [eexists; split; [reflexivity|split; reflexivity]|exact S|exact N|exact C].
Qed.
Lemma next_broken_log mc f d x : savable mc f -> cut (stxt mc f) x -> d (ini_path mc) = Some x ->
  exists w, next_session mc d = (Err ValueError, w) /\ w_disk w = d /\ w_log w = [].
Proof. intros S. apply next_broken_object_log; [apply savable_writable, S|intros []]. Qed.
Lemma next_broken_copy_log mc f g d x : savable mc f -> folder_there mc f -> truth (f KVersion) = true -> d (ini_path mc) = Some (stxt mc f) ->
  savable mc g -> cut (stxt mc g) x -> d (bak_path mc) = Some x ->
  exists w, next_session mc d = (Err ValueError, w) /\ w_disk w = d /\ w_log w = [].
Proof.
  intros S F T I Sg C Eb. unfold next_session, init, pbind at 1, pmod at 1. cbn [blank_world w_par w_disk w_log]. unfold pbind at 1.
  set (w := World (initial mc) d []).
  unfold load_params, pbind at 1, pdisk at 1. cbn [w_disk w]. unfold is_file at 1. rewrite I. unfold pbind at 1.
  rewrite (read_saved_file mc f d _ S I w eq_refl). unfold pbind at 1.
  destruct (read_keys_all mc (saved_object mc f) f keys w keys_NoDup) as (p & E & P1 & M).
  { intros k _ Hk. apply read_saved. now left. }
  { intros _. apply read_saved. now right. }
  rewrite E. unfold pbind at 1 2, pget, pdisk. cbn [w_par w_disk w].
  rewrite P1. change (existsb (key_eqb KVersion) keys) with true. cbn [andb]. rewrite T. unfold is_file. rewrite Eb. cbn [andb].
  unfold pbind at 1, read_file, pbind at 1, pdisk. cbn [w_disk]. rewrite Eb. unfold plift.
  rewrite (jload_cut (saved_object mc g) x); [eexists; split; [reflexivity|split; reflexivity]|apply savable_writable, Sg|intros []|exact C].
Qed.
Lemma next_broken_object mc o d x : writable o -> ~ is_number o -> cut (txt o) x -> d (ini_path mc) = Some x ->
  exists w, next_session mc d = (Err ValueError, w) /\ w_disk w = d.
Proof. intros A B C D. destruct (next_broken_object_log mc o d x A B C D) as (w & E & F & _). eauto. Qed.
Lemma next_broken mc f d x : savable mc f -> cut (stxt mc f) x -> d (ini_path mc) = Some x ->
  exists w, next_session mc d = (Err ValueError, w) /\ w_disk w = d.
Proof. intros A B C. destruct (next_broken_log mc f d x A B C) as (w & E & F & _). eauto. Qed.
Lemma next_broken_copy mc f g d x : savable mc f -> folder_there mc f -> truth (f KVersion) = true -> d (ini_path mc) = Some (stxt mc f) ->
  savable mc g -> cut (stxt mc g) x -> d (bak_path mc) = Some x ->
  exists w, next_session mc d = (Err ValueError, w) /\ w_disk w = d.
Proof. intros A B C D G H K. destruct (next_broken_copy_log mc f g d x A B C D G H K) as (w & E & F & _). eauto. Qed.
(** nothing is on disk yet *)
Lemma first_object_writable : writable first_object.
Proof.
  unfold first_object. rewrite writable_obj. split.
  - change (map fst _) with (map kname keys) at 1. exact names_NoDup.
  - assert (float_text (u "1.0")) as F.
    { left. exists [], [49], [46; 48], []. split; [reflexivity|]. split; [now left|].
      split; [right; exists 49, []; split; [reflexivity|]; split; [reflexivity|]; split; [discriminate|reflexivity]|].
      split; [right; exists 48, []; split; reflexivity|]. split; [now left|]. left. discriminate. }
    assert (Forall plain_char (u "lean_BFS")) as A by (apply plain_check; reflexivity).
    repeat (apply Forall_cons; [split; [apply kname_plain|first [exact I | exact F | exact A]]|]). apply Forall_nil.
Qed.
Definition first_settings (mc : machine) : settings := fun k =>
  match k with
  | KReload => JBool true | KVersion => JBool false | KAlgo => JStr (u "lean_BFS") | KFolder => JStr (m_dir mc) | _ => default k
  end.
Lemma first_saved mc : saved_object mc (first_settings mc) = first_object.
Proof. unfold saved_object, keys. cbn [map saved first_settings]. unfold folder_none. rewrite seqb_refl. reflexivity. Qed.
Lemma first_savable mc : savable mc (first_settings mc).
Proof. apply savable_writable. rewrite first_saved. exact first_object_writable. Qed.
Lemma first_there mc : folder_there mc (first_settings mc).
Proof. exists (m_dir mc). split; [reflexivity|now left]. Qed.
Lemma first_start_full mc d : d (ini_path mc) = None ->
  exists w, next_session mc d = (Ok tt, w) /\ starts_with mc (first_settings mc) w
    /\ w_disk w (ini_path mc) = Some (stxt mc (first_settings mc)) /\ (forall p, p <> ini_path mc -> w_disk w p = d p)
    /\ w_log w = write_ops (ini_path mc) (stxt mc (first_settings mc)) /\ w_disk w = run (write_ops (ini_path mc) (stxt mc (first_settings mc))) d.
Proof.
  intros N. unfold next_session, init, pbind at 1, pmod at 1. cbn [blank_world w_par w_disk w_log]. unfold pbind at 1.
  unfold load_params, pbind at 1, pdisk at 1. cbn [w_disk]. unfold is_file at 1. rewrite N. unfold pbind at 1.
  unfold dump_to. rewrite (jwrite_txt _ first_object_writable). unfold pbind at 1 2, pops. cbn [w_par w_disk w_log].
  unfold pret at 1 2. unfold pbind at 1.
  set (T := txt first_object). destruct (run_write (ini_path mc) T d) as [A B].
  set (w := World (initial mc) (run (write_ops (ini_path mc) T) d) ([] ++ write_ops (ini_path mc) T)).
  destruct (read_keys_all mc first_object (first_settings mc) keys w keys_NoDup) as (p & E & P1 & M).
  { intros k _ Hk. destruct k; try reflexivity. }
  { intros _. reflexivity. }
  rewrite E. unfold pbind at 1 2, pget, pdisk. cbn [w_par w_disk w].
  assert (forall k, p_set p k = first_settings mc k) as P2.
  { intros k. rewrite P1. now replace (existsb (key_eqb k) keys) with true by (destruct k; reflexivity). }
  rewrite P2. cbn [first_settings truth andb]. unfold pret, pmod. cbn [w_par w_disk w_log].
  eexists. split; [reflexivity|]. split; [|split].
  - unfold starts_with, setting. cbn [w_par p_set p_memory p_thread p_multi p_net_fvf]. split; [|rewrite P2; auto].
    intros k. destruct k; rewrite ?with_key_same, ?with_key_other by discriminate; rewrite ?P2; reflexivity.
  - cbn [w_disk]. unfold stxt. rewrite first_saved. exact A.
  - split; [intros q Hq; cbn [w_disk]; now apply B|]. cbn [w_log w_disk]. unfold stxt. rewrite first_saved. split; reflexivity.
Qed.
Lemma first_start mc d : d (ini_path mc) = None ->
  exists w, next_session mc d = (Ok tt, w) /\ starts_with mc (first_settings mc) w
    /\ w_disk w (ini_path mc) = Some (stxt mc (first_settings mc)) /\ (forall p, p <> ini_path mc -> w_disk w p = d p)
    /\ w_log w = write_ops (ini_path mc) (stxt mc (first_settings mc)).
Proof. intros N. destruct (first_start_full mc d N) as (w & A & B & C & D & E & _). exists w. auto. Qed.

(** ** The settings can always be written *)
Lemma calls_savable mc calls w : Forall (given mc) calls -> m_isdir mc (u "/") = true -> Forall plain_char (m_dir mc) ->
  savable mc (p_set (w_par w)) -> folder_there mc (p_set (w_par w)) ->
  savable mc (p_set (w_par (pcalls mc calls w))) /\ folder_there mc (p_set (w_par (pcalls mc calls w))).
Proof.
  intros G R M S F.
  apply (pcalls_keep mc (fun f => savable mc f /\ folder_there mc f) (given mc)); [|exact G|split; assumption].
  clear S F w calls G. intros f f' c Gc [S F] St.
  assert (forall k, k <> KFolder -> writable (f' k)) as W.
  { intros k Hk. specialize (S k). destruct (St k) as [->|A]; [destruct k; try exact S; contradiction|].
    destruct k; cbn [assignable] in A; try (destruct A as [b ->]; exact I); try contradiction.
    - destruct c; try contradiction. destruct a as [|v|r|]; try contradiction.
      + destruct Gc as [G1 G2]. destruct A as [[_ ->]|A]; auto.
      + subst r. exact Gc.
    - destruct A as (z & -> & _). exact I.
    - destruct A as (x & -> & Hx). apply plain_check. unfold algorithms in Hx. cbn [In] in Hx. intuition (subst x; reflexivity).
    - destruct c; try contradiction. destruct A as [-> _]. exact Gc. }
  assert (exists x, f' KFolder = JStr x /\ (x = m_dir mc \/ m_isdir mc x = true) /\ (x = m_dir mc \/ Forall plain_char x)) as (x & Ex & Hx & Px).
  { destruct (St KFolder) as [->|A].
    - destruct F as (x & Ex & Hx). exists x. split; [exact Ex|]. split; [exact Hx|].
      specialize (S KFolder). cbn [saved] in S. rewrite Ex in S. unfold folder_none in S. destruct (seqb x (m_dir mc)) eqn:E; [left; now apply seqb_eq|right; exact S].
    - cbn [assignable] in A. destruct c; try contradiction. destruct path as [x|].
      + destruct A as [D ->]. eexists. split; [reflexivity|]. destruct (negb (ends_with 47 x) && negb (ends_with 92 x)).
        * split; [now right|]. right. exact Gc.
        * split; [now right|]. right. apply plain_check. reflexivity.
      + exists (m_dir mc). auto. }
  split; [|exists x; auto].
  intros k. destruct (key_eqb k KFolder) eqn:E.
  - apply key_eqb_eq in E. subst k. cbn [saved]. rewrite Ex. unfold folder_none. destruct (seqb x (m_dir mc)); [exact I|].
    destruct Px as [->|Px]; [exact M|exact Px].
  - assert (k <> KFolder) as N by (intros ->; now rewrite key_eqb_refl in E). specialize (W k N). destruct k; try exact W. contradiction.
Qed.
