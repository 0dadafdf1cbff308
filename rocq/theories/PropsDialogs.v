(** * C67: the dialogs and the menus of the window; C68: the prompts of the keyboard *)
From Coq Require Import String.
From Verif Require Import Py Json JsonFacts JsonFacts2 Params ParamsSpec ParamsFacts SwitchFacts ParamsFacts2 PropsParams Dialogs DialogSpec DialogFacts.
Local Open Scope N_scope.

Definition plain : str -> str := fun y => y.
Definition density_text (y : str) : str := u "density units " ++ y ++ u " are not valid.".
Lemma two_words_fun x n y n' y' : two_words x n y -> two_words x n' y' -> n = n' /\ y = y'.
Proof. intros A B. apply words_two in A, B. rewrite A in B. now injection B as -> ->. Qed.
Lemma one_two x n y : one_word x -> two_words x n y -> False.
Proof.
  intros (a & m & b & Ha & Hb & Hm & ->) B. apply words_two in B. rewrite (words_one a m b Ha Hb Hm) in B. discriminate B.
Qed.
Lemma one_word_words x : one_word x -> exists n, words x = [n].
Proof. intros (a & m & b & Ha & Hb & Hm & ->). exists m. now apply words_one. Qed.
Lemma one_word_nonempty x : one_word x -> x <> [].
Proof. intros H ->. destruct (one_word_words [] H) as (n & E). discriminate E. Qed.
Lemma two_words_nonempty x n y : two_words x n y -> x <> [].
Proof. intros H ->. apply words_two in H. discriminate H. Qed.
(** the shapes of an unacceptable answer *)
Lemma bad_shape gn conv al a : unacceptable gn conv al a ->
  exists c x', a = Some (c :: x') /\
   ((exists n, words (c :: x') = [n] /\ (forall v, gn (c :: x') = Ok v -> gt_zero v = false))
    \/ (exists n y, words (c :: x') = [n; y] /\
          ((forall v, gn n = Ok v -> gt_zero v = false)
           \/ exists v, gn n = Ok v /\ gt_zero v = true /\ (conv v (al y) = Ok None \/ exists e, conv v (al y) = Err e)))
    \/ ((forall n, words (c :: x') <> [n]) /\ (forall n y, words (c :: x') <> [n; y]))).
Proof.
  intros (x & -> & Hx & N). destruct x as [|c x]; [contradiction|]. exists c, x. split; [reflexivity|].
  destruct (words (c :: x)) as [|n [|y [|z l]]] eqn:Ew.
  - right. right. split; intros; discriminate.
  - left. exists n. split; [reflexivity|]. intros v Ev. destruct (gt_zero v) eqn:G; [|reflexivity]. exfalso.
    apply (N v None v). split; [exact G|]. left. split; [exact (words_one_inv _ _ Ew)|]. now split.
  - right. left. exists n, y. split; [reflexivity|]. destruct (gn n) as [v|e] eqn:Ev; [|left; intros v E; discriminate E].
    destruct (gt_zero v) eqn:G; [|left; intros v' E; injection E as <-; exact G].
    right. exists v. split; [reflexivity|]. split; [exact G|]. destruct (conv v (al y)) as [[d|]|e] eqn:Ec; [exfalso|now left|right; now exists e].
    apply (N v (Some (al y)) d). split; [exact G|]. right. exists n, y. split; [exact (words_two_inv _ _ _ Ew)|]. now split.
  - right. right. split; intros; discriminate.
Qed.
Lemma wrong_unit_words gn conv al x n y y' : words x = [n; y] -> wrong_unit gn conv al (Some x) y' -> exists v, gn n = Ok v /\ gt_zero v = true /\ y' = al y /\ conv v (al y) = Err NoConversionFoundError.
Proof.
  intros E (x' & n' & y0 & v & Ex & T & -> & Ev & G & C). injection Ex as <-. apply words_two in T. rewrite E in T. injection T as <- <-. now exists v.
Qed.
Lemma wrong_unit_one gn conv al x y : (forall n y, words x <> [n; y]) -> ~ wrong_unit gn conv al (Some x) y.
Proof. intros N (x' & n' & y0 & v & Ex & T & _). injection Ex as <-. apply words_two in T. exact (N _ _ T). Qed.

Section Density.
Context (mc : machine) (gn : str -> res jval) (show : jval -> str) (same : jval -> jval -> bool)
  (conv : jval -> jval -> str -> res (option jval)).
Notation loop := (loop_density mc gn show same conv).
Notation net w := (p_net_fvf (w_par w)).
Notation bad w := (unacceptable gn (conv (net w)) plain).
Lemma step_bad a unit errs rest w : bad w a ->
  exists unit' errs', loop unit errs (a :: rest) w = loop unit' (errs ++ errs') rest w
    /\ (forall e, In e errs' <-> exists y, wrong_unit gn (conv (net w)) plain a y /\ e = density_text y)
    /\ ((forall x n y, a = Some x -> ~ two_words x n y) -> unit' = unit).
Proof.
  intros B. destruct (bad_shape _ _ _ _ B) as (c & x & -> & D). clear B. cbn [loop_density].
  destruct D as [(n & Ew & D)|[(n & y & Ew & D)|(D1 & D2)]].
  - rewrite Ew. exists unit, []. rewrite app_nil_r. split; [|split; [|reflexivity]].
    + destruct (gn (c :: x)) as [v|e]; [|reflexivity]. now rewrite (D v eq_refl).
    + intros e. split; [intros []|]. intros (y & W & _). exfalso. revert W. apply wrong_unit_one. intros n' y' E'. rewrite Ew in E'. discriminate E'.
  - rewrite Ew. destruct D as [D|(v & Ev & G & D)].
    + exists (Some y), []. rewrite app_nil_r. split; [|split].
      * destruct (gn n) as [v|e]; [|reflexivity]. now rewrite (D v eq_refl).
      * intros e. split; [intros []|]. intros (y' & W & _). destruct (wrong_unit_words _ _ _ _ _ _ _ Ew W) as (v & Ev & G & _).
        rewrite (D v Ev) in G. discriminate G.
      * intros N. destruct (N _ n y eq_refl). now apply words_two_inv.
    + rewrite Ev, G. unfold pbind, pget. unfold plain in D.
      assert (N : forall P : Prop, (forall x0 n0 y0, Some (c :: x) = Some x0 -> ~ two_words x0 n0 y0) -> P).
      { intros P N. destruct (N _ n y eq_refl). now apply words_two_inv. }
      destruct D as [D|(e & D)].
      * rewrite D. exists (Some y), []. rewrite app_nil_r. split; [reflexivity|]. split; [|now apply N].
        intros e. split; [intros []|]. intros (y' & W & _). destruct (wrong_unit_words _ _ _ _ _ _ _ Ew W) as (v' & Ev' & _ & _ & C).
        rewrite Ev in Ev'. injection Ev' as <-. unfold plain in C. rewrite D in C. discriminate C.
      * assert (W : forall e', (exists y', wrong_unit gn (conv (net w)) plain (Some (c :: x)) y' /\ e' = density_text y') <-> (e = NoConversionFoundError /\ e' = density_text y)).
        { intros e'. split.
          - intros (y' & W & E). destruct (wrong_unit_words _ _ _ _ _ _ _ Ew W) as (v' & Ev' & _ & Ey & C). rewrite Ev in Ev'. injection Ev' as <-.
            unfold plain in C, Ey. rewrite D in C. injection C as ->. subst y'. now split.
          - intros [-> ->]. exists y. split; [|reflexivity]. exists (c :: x), n, y, v. split; [reflexivity|]. split; [now apply words_two_inv|].
            split; [reflexivity|]. now split. }
        destruct (match e with NoConversionFoundError => true | _ => false end) eqn:Ee.
        -- destruct e; try discriminate Ee. rewrite D. exists (Some y), [density_text y]. split; [reflexivity|]. split; [|now apply N].
           intros e'. rewrite W. cbn [In]. split; [intros [<-|[]]; now split|intros [_ ->]; now left].
        -- exists (Some y), []. rewrite app_nil_r. split; [rewrite D; destruct e; try discriminate Ee; reflexivity|]. split; [|now apply N].
           intros e'. rewrite W. split; [intros []|]. intros [-> _]. discriminate Ee.
  - exists unit, []. rewrite app_nil_r. split; [|split; [|reflexivity]].
    + destruct (words (c :: x)) as [|n [|y [|z l]]]; [reflexivity|now destruct (D1 n)|now destruct (D2 n y)|reflexivity].
    + intros e. split; [intros []|]. intros (y & W & _). exfalso. exact (wrong_unit_one _ _ _ _ _ D2 W).
Qed.
Lemma loop_bad l : forall unit errs rest w, Forall (bad w) l ->
  exists unit' errs', loop unit errs (l ++ rest) w = loop unit' (errs ++ errs') rest w
    /\ (forall e, In e errs' <-> exists a y, In a l /\ wrong_unit gn (conv (net w)) plain a y /\ e = density_text y)
    /\ ((forall x n y, In (Some x) l -> ~ two_words x n y) -> unit' = unit).
Proof.
  induction l as [|a l IH]; intros unit errs rest w H.
  - exists unit, []. rewrite app_nil_r. split; [reflexivity|]. split; [|reflexivity]. intros e. split; [intros []|intros (a & y & [] & _)].
  - inversion H as [|? ? Ha Hl]; subst. cbn [Datatypes.app]. destruct (step_bad a unit errs (l ++ rest) w Ha) as (u1 & e1 & E1 & I1 & U1).
    destruct (IH u1 (errs ++ e1) rest w Hl) as (u2 & e2 & E2 & I2 & U2). exists u2, (e1 ++ e2). split; [now rewrite E1, E2, app_assoc|]. split.
    + intros e. rewrite in_app_iff, I1, I2. split.
      * intros [(y & W & ->)|(b & y & Hb & W & ->)]; [exists a, y; split; [now left|now split]|exists b, y; split; [now right|now split]].
      * intros (b & y & [<-|Hb] & W & ->); [left; now exists y|right; now exists b, y].
    + intros N. rewrite U2, U1; [reflexivity| |].
      * intros x n y -> . apply N. now left.
      * intros x n y Hx. apply N. now right.
Qed.
Notation dialog := (density_dialog mc gn show same conv).
(** an answer that is no positive number, alone or with a unit it can be converted from, is asked again, whatever the
    number of times; nothing changes meanwhile *)
Theorem C67_density_asks_again : forall l w, Forall (bad w) l ->
  exists errs, dialog l w = (Ok (Dialog errs None), w) /\ forall e, In e errs <-> exists a y, In a l /\ wrong_unit gn (conv (net w)) plain a y /\ e = density_text y.
Proof.
  intros l w H. unfold density_dialog. destruct (loop_bad l None [] [] w H) as (u' & errs & E & I & _). rewrite app_nil_r in E. exists errs.
  split; [exact E|exact I].
Qed.
Lemma accepted_density x v unit d unit0 errs rest w : accepted gn (conv (net w)) plain x v unit d ->
  exists unit', loop unit0 errs (Some x :: rest) w = end_density mc show same v unit' errs d w /\ (forall y, unit = Some y -> unit' = Some y) /\ (unit = None -> unit' = unit0 /\ d = v).
Proof.
  intros (G & [(O1 & Ev & -> & ->)|(n & y & T & Ev & -> & Ec)]).
  - destruct (one_word_words x O1) as (n & Ew). pose proof (one_word_nonempty x O1). destruct x as [|c x]; [contradiction|].
    cbn [loop_density]. rewrite Ew, Ev, G. exists unit0. split; [reflexivity|]. split; [intros y E; discriminate E|now split].
  - pose proof (words_two _ _ _ T) as Ew. pose proof (two_words_nonempty _ _ _ T). destruct x as [|c x]; [contradiction|].
    cbn [loop_density]. rewrite Ew, Ev, G. unfold pbind at 1, pget. unfold plain in Ec. rewrite Ec.
    exists (Some y). split; [reflexivity|]. split; [now intros y' E|intros E; discriminate E].
Qed.
Lemma end_density_saves ui unit errs d w : savable mc (p_set (w_par w)) -> writable d ->
  exists w', end_density mc show same ui unit errs d w = (Ok (Dialog errs (Some (last_message show same (u "density") (u "g/cm³") ui unit d))), w')
    /\ setting w' KDensity = d /\ other_settings_same [KDensity] w w' /\ session_same w w' /\ kept_on_disk mc w w'.
Proof.
  intros S Wd. destruct (set_and_save mc w KDensity d S ltac:(discriminate) Wd) as (w' & E & R). exists w'. split; [|exact R].
  unfold end_density. unfold pbind in E |- *. destruct (pmod (set_key KDensity d) w) as [[[]|e] w1]; [|discriminate E].
  destruct (save_params mc w1) as [[[]|e] w2]; [|discriminate E]. injection E as ->. reflexivity.
Qed.
(** the first acceptable answer, after any others, is the density from then on and in the next sessions, and the message
    says so *)
Theorem C67_density : forall l x v unit d rest w, Forall (bad w) l -> accepted gn (conv (net w)) plain x v unit d ->
  savable mc (p_set (w_par w)) -> writable d -> same v v = true ->
  exists errs m w', dialog (l ++ Some x :: rest) w = (Ok (Dialog errs (Some (Ok m))), w')
    /\ setting w' KDensity = d /\ other_settings_same [KDensity] w w' /\ session_same w w' /\ kept_on_disk mc w w'
    /\ says show same (u "density") (u "g/cm³") v unit d m
    /\ forall e, In e errs <-> exists a y, In a l /\ wrong_unit gn (conv (net w)) plain a y /\ e = density_text y.
Proof.
  intros l x v unit d rest w Hl Ha S Wd Sv. pose proof (proj1 Ha) as G. unfold density_dialog. destruct (loop_bad l None [] (Some x :: rest) w Hl) as (u1 & errs & E & I & _).
  destruct (accepted_density x v unit d u1 errs rest w Ha) as (u2 & E2 & U & U').
  destruct (end_density_saves v u2 errs d w S Wd) as (w' & E3 & R1 & R2 & R3 & R4).
  assert (Eq : equals_input same v d = same v d) by (destruct v; try discriminate G; reflexivity).
  assert (Tx : text_input show v = show v) by (destruct v; try discriminate G; reflexivity).
  assert (M : exists m, last_message show same (u "density") (u "g/cm³") v u2 d = Ok m /\ says show same (u "density") (u "g/cm³") v unit d m).
  { unfold last_message, says. rewrite Eq, Tx. destruct (same v d) eqn:Es.
    - eexists. split; [reflexivity|]. split; [reflexivity|intros N; discriminate N].
    - destruct unit as [y|].
      + rewrite (U y eq_refl). eexists. split; [reflexivity|]. split; [intros N; discriminate N|]. intros _ y' Ey. injection Ey as <-. reflexivity.
      + destruct (U' eq_refl) as [_ ->]. rewrite Sv in Es. discriminate Es. }
  destruct M as (m & M1 & M2). exists errs, m, w'. split; [|split; [exact R1|split; [exact R2|split; [exact R3|split; [exact R4|split; [exact M2|exact I]]]]]].
  cbn [Datatypes.app] in E, E2. exact (eq_trans E (eq_trans E2 (eq_trans E3 (f_equal (fun r => (Ok (Dialog errs (Some r)), w')) M1)))).
Qed.
(** [a dialog that is cancelled changes nothing] false: the density becomes False, here and in the next sessions, and the
    program raises UnboundLocalError *)
Theorem C67_cancel_refuted : forall w, savable mc (p_set (w_par w)) -> forall a, a = None \/ a = Some [] ->
  exists w', dialog [a] w = (Ok (Dialog [] (Some (Err NameError))), w') /\ setting w' KDensity = JBool false /\ kept_on_disk mc w w'.
Proof.
  intros w S a Ha. assert (E : exists ui, (ui = JNull \/ ui = JStr []) /\ dialog [a] w = end_density mc show same ui None [] (JBool false) w).
  { destruct Ha as [-> | ->]; [exists JNull|exists (JStr [])]; (split; [auto|reflexivity]). }
  destruct E as (ui & Hui & E). destruct (end_density_saves ui None [] (JBool false) w S I) as (w' & E3 & R1 & _ & _ & R4). exists w'.
  split; [|split; [exact R1|exact R4]]. refine (eq_trans E (eq_trans E3 _)). destruct Hui as [-> | ->]; reflexivity.
Qed.
End Density.
Print Assumptions C67_density_asks_again.
Print Assumptions C67_density.
Print Assumptions C67_cancel_refuted.

Lemma with_key_twice k a b f k' : with_key k a (with_key k b f) k' = with_key k a f k'.
Proof. unfold with_key. now destruct (key_eqb k' k). Qed.
(** the messages of the two dialogs *)
Lemma good_message show same name in_unit v unit unit2 d : gt_zero v = true -> same v v = true -> (forall y, unit = Some y -> unit2 = Some y) -> (unit = None -> d = v) ->
  exists m, last_message show same name in_unit v unit2 d = Ok m /\ says show same name in_unit v unit d m.
Proof.
  intros G Sv U U'. assert (Eq : equals_input same v d = same v d) by (destruct v; try discriminate G; reflexivity).
  assert (Tx : text_input show v = show v) by (destruct v; try discriminate G; reflexivity).
  unfold last_message, says. rewrite Eq, Tx. destruct (same v d) eqn:Es.
  - eexists. split; [reflexivity|]. split; [reflexivity|intros N; discriminate N].
  - destruct unit as [y|].
    + rewrite (U y eq_refl). eexists. split; [reflexivity|]. split; [intros N; discriminate N|]. intros _ y' Ey. injection Ey as <-. reflexivity.
    + rewrite (U' eq_refl), Sv in Es. discriminate Es.
Qed.

Section Fvf.
Context (mc : machine) (float_of : str -> option str) (gn : str -> res jval) (show : jval -> str) (same : jval -> jval -> bool)
  (conv : jval -> jval -> str -> res (option jval)).
Notation loop := (loop_fvf mc float_of gn show same conv).
(** an answer is converted with a factor of one *)
Notation bad := (unacceptable gn (conv (JInt 1)) fvf_unit).
(** the worlds a dialog goes through: only the factor changes *)
Definition but_fvf (w w' : world) : Prop :=
  other_settings_same [KFvf] w w' /\ w_disk w' = w_disk w /\ p_memory (w_par w') = p_memory (w_par w) /\ p_thread (w_par w') = p_thread (w_par w) /\ p_multi (w_par w') = p_multi (w_par w)
  /\ (savable mc (p_set (w_par w)) -> savable mc (p_set (w_par w'))).
Lemma but_refl w : but_fvf w w.
Proof. split; [intros k _; reflexivity|]. split; [reflexivity|auto]. Qed.
Lemma but_trans a b c : but_fvf a b -> but_fvf b c -> but_fvf a c.
Proof.
  intros (A1 & A2 & A3 & A4 & A5 & A6) (B1 & B2 & B3 & B4 & B5 & B6). split; [intros k Hk; now rewrite (B1 k Hk), (A1 k Hk)|].
  split; [exact (eq_trans B2 A2)|]. split; [exact (eq_trans B3 A3)|]. split; [exact (eq_trans B4 A4)|]. split; [exact (eq_trans B5 A5)|auto].
Qed.
(** setting the factor: network.py:161-170 and the setting *)
Definition put (v : jval) (w : world) : world := World (set_key KFvf v (net_set_fvf float_of (farg_of v) (w_par w))) (w_disk w) (w_log w).
Lemma net_set_par a p : p_set (net_set_fvf float_of a p) = p_set p /\ p_memory (net_set_fvf float_of a p) = p_memory p /\ p_thread (net_set_fvf float_of a p) = p_thread p /\ p_multi (net_set_fvf float_of a p) = p_multi p.
Proof. destruct a as [|x|z|t|v]; cbn [net_set_fvf]; auto. destruct (float_of x); auto. Qed.
Lemma put_but v w : writable v -> but_fvf w (put v w) /\ setting (put v w) KFvf = v.
Proof.
  intros Wv. destruct (net_set_par (farg_of v) (w_par w)) as (A & B & C & D).
  split; [|apply with_key_same]. split; [|cbn [put w_disk w_par set_key p_memory p_thread p_multi p_set]; split; [reflexivity|]; split; [exact B|]; split; [exact C|]; split; [exact D|]].
  2: { rewrite A. intros S. apply set_savable; [exact S|discriminate|exact Wv]. }
  intros k Hk. unfold setting, put. cbn [w_par set_key p_set]. rewrite with_key_other, A; [reflexivity|]. intros ->. apply Hk. now left.
Qed.
Lemma put_net v w : (exists z, v = JInt z) \/ (exists t, v = JFlt t) -> p_net_fvf (w_par (put v w)) = v.
Proof. intros [(z & ->)|(t & ->)]; reflexivity. Qed.
Lemma put_known w b : fvf_known w b -> unchanged w (put b (put (JInt 1) w)).
Proof.
  intros (A & B & C). split; [|split; [|reflexivity]].
  - intros k _. unfold setting, put. cbn [w_par set_key p_set]. rewrite (proj1 (net_set_par _ _)). cbn [set_key p_set farg_of net_set_fvf].
    rewrite with_key_twice. unfold with_key. destruct (key_eqb k KFvf) eqn:E; [|reflexivity]. apply key_eqb_eq in E. subst k. exact (eq_sym A).
  - destruct C as [(z & ->)|(t & ->)]; (split; [reflexivity|]; split; [reflexivity|]; split; [reflexivity|]; exact (eq_sym B)).
Qed.
Lemma step_fvf a prev unit errs rest w : bad a ->
  exists unit' errs' w', loop prev unit errs (a :: rest) w = loop prev unit' (errs ++ errs') rest w'
    /\ (forall e, In e errs' <-> exists y, wrong_unit gn (conv (JInt 1)) fvf_unit a y /\ e = fvf_error)
    /\ (w' = w \/ (w' = put prev (put (JInt 1) w)) \/ (w' = put (JInt 1) w /\ broken gn (conv (JInt 1)) fvf_unit a)).
Proof.
  intros B. destruct (bad_shape _ _ _ _ B) as (c & x & -> & D). clear B. cbn [loop_fvf].
  destruct D as [(n & Ew & D)|[(n & y & Ew & D)|(D1 & D2)]].
  - rewrite Ew. exists unit, [], w. rewrite app_nil_r. split; [|split; [|now left]].
    + destruct (gn (c :: x)) as [v|e]; [|reflexivity]. now rewrite (D v eq_refl).
    + intros e. split; [intros []|]. intros (y & W & _). exfalso. revert W. apply wrong_unit_one. intros n' y' E'. rewrite Ew in E'. discriminate E'.
  - rewrite Ew. destruct D as [D|(v & Ev & G & D)].
    + exists (Some (fvf_unit y)), [], w. rewrite app_nil_r. split; [|split; [|now left]].
      * destruct (gn n) as [v|e]; [|reflexivity]. now rewrite (D v eq_refl).
      * intros e. split; [intros []|]. intros (y' & W & _). destruct (wrong_unit_words _ _ _ _ _ _ _ Ew W) as (v & Ev & G & _).
        rewrite (D v Ev) in G. discriminate G.
    + rewrite Ev, G. unfold pbind, pget, pmod. cbn [w_par w_disk w_log p_net_fvf set_key net_set_fvf]. fold (fvf_unit y).
      destruct D as [D|(e & D)].
      * rewrite D. exists (Some (fvf_unit y)), [], (put (JInt 1) w). rewrite app_nil_r. split; [reflexivity|]. split.
        -- intros e. split; [intros []|]. intros (y' & W & _). destruct (wrong_unit_words _ _ _ _ _ _ _ Ew W) as (v' & Ev' & _ & _ & C).
           rewrite Ev in Ev'. injection Ev' as <-. rewrite D in C. discriminate C.
        -- right. right. split; [reflexivity|]. exists (c :: x), n, y, v. split; [reflexivity|]. split; [now apply words_two_inv|].
           split; [exact Ev|]. split; [exact G|]. now left.
      * assert (W : forall e', (exists y', wrong_unit gn (conv (JInt 1)) fvf_unit (Some (c :: x)) y' /\ e' = fvf_error) <-> (e = NoConversionFoundError /\ e' = fvf_error)).
        { intros e'. split.
          - intros (y' & W & E). destruct (wrong_unit_words _ _ _ _ _ _ _ Ew W) as (v' & Ev' & _ & Ey & C). rewrite Ev in Ev'. injection Ev' as <-.
            rewrite D in C. injection C as ->. now split.
          - intros [-> ->]. exists (fvf_unit y). split; [|reflexivity]. exists (c :: x), n, y, v. split; [reflexivity|]. split; [now apply words_two_inv|].
            split; [reflexivity|]. now split. }
        destruct (match e with NoConversionFoundError => true | _ => false end) eqn:Ee.
        -- destruct e; try discriminate Ee. rewrite D. exists (Some (fvf_unit y)), [fvf_error], (put prev (put (JInt 1) w)). split; [reflexivity|].
           split; [|right; now left].
           intros e'. rewrite W. cbn [In]. split; [intros [<-|[]]; now split|intros [_ ->]; now left].
        -- exists (Some (fvf_unit y)), [], (put (JInt 1) w). rewrite app_nil_r. split; [rewrite D; destruct e; try discriminate Ee; reflexivity|]. split.
           ++ intros e'. rewrite W. split; [intros []|]. intros [-> _]. discriminate Ee.
           ++ right. right. split; [reflexivity|]. exists (c :: x), n, y, v. split; [reflexivity|]. split; [now apply words_two_inv|].
              split; [exact Ev|]. split; [exact G|]. right. exists e. split; [intros ->; discriminate Ee|exact D].
  - exists unit, [], w. rewrite app_nil_r. split; [|split; [|now left]].
    + destruct (words (c :: x)) as [|n [|y [|z l]]]; [reflexivity|now destruct (D1 n)|now destruct (D2 n y)|reflexivity].
    + intros e. split; [intros []|]. intros (y & W & _). exfalso. exact (wrong_unit_one _ _ _ _ _ D2 W).
Qed.
Lemma loop_fvf_bad l : forall prev unit errs rest w, Forall bad l -> writable prev ->
  exists unit' errs' w', loop prev unit errs (l ++ rest) w = loop prev unit' (errs ++ errs') rest w'
    /\ (forall e, In e errs' <-> exists a y, In a l /\ wrong_unit gn (conv (JInt 1)) fvf_unit a y /\ e = fvf_error)
    /\ but_fvf w w' /\ ((forall a, In a l -> ~ broken gn (conv (JInt 1)) fvf_unit a) -> fvf_known w prev -> unchanged w w' /\ fvf_known w' prev).
Proof.
  induction l as [|a l IH]; intros prev unit errs rest w H Wp.
  - exists unit, [], w. rewrite app_nil_r. split; [reflexivity|]. split; [intros e; split; [intros []|intros (a & y & [] & _)]|].
    split; [apply but_refl|]. intros _ K. split; [|exact K]. split; [intros k _; reflexivity|]. split; [repeat split|reflexivity].
  - inversion H as [|? ? Ha Hl]; subst. cbn [Datatypes.app]. destruct (step_fvf a prev unit errs (l ++ rest) w Ha) as (u1 & e1 & w1 & E1 & I1 & U1).
    destruct (IH prev u1 (errs ++ e1) rest w1 Hl Wp) as (u2 & e2 & w2 & E2 & I2 & B2 & U2). exists u2, (e1 ++ e2), w2. split; [now rewrite E1, E2, app_assoc|].
    assert (B1 : but_fvf w w1).
    { destruct U1 as [-> |[-> |[-> _]]]; [apply but_refl| |exact (proj1 (put_but (JInt 1) w I))]. eapply but_trans; [exact (proj1 (put_but (JInt 1) w I))|exact (proj1 (put_but prev _ Wp))]. }
    split; [|split].
    + intros e. rewrite in_app_iff, I1, I2. split.
      * intros [(y & W & ->)|(b & y & Hb & W & ->)]; [exists a, y; split; [now left|now split]|exists b, y; split; [now right|now split]].
      * intros (b & y & [<-|Hb] & W & ->); [left; now exists y|right; now exists b, y].
    + exact (but_trans _ _ _ B1 B2).
    + intros N K.
      assert (U : unchanged w w1 /\ fvf_known w1 prev).
      { destruct U1 as [-> |[-> |[-> Br]]].
        - split; [|exact K]. split; [intros k _; reflexivity|]. split; [repeat split|reflexivity].
        - split; [now apply put_known|]. split; [exact (proj2 (put_but prev _ Wp))|]. split; [apply put_net, K|apply K].
        - destruct (N a (or_introl eq_refl) Br). }
      destruct U as [Ua Ka]. destruct (U2 (fun b Hb => N b (or_intror Hb)) Ka) as [Ub Kb]. split; [|exact Kb].
      destruct Ua as (A1 & (A2 & A3 & A4 & A5) & A6), Ub as (C1 & (C2 & C3 & C4 & C5) & C6).
      split; [intros k Hk; exact (eq_trans (C1 k Hk) (A1 k Hk))|]. split; [|exact (eq_trans C6 A6)].
      split; [exact (eq_trans C2 A2)|]. split; [exact (eq_trans C3 A3)|]. split; [exact (eq_trans C4 A4)|exact (eq_trans C5 A5)].
Qed.
Notation dialog := (fvf_dialog mc float_of gn show same conv).
(** the factor is known, and no answer makes the converter fail otherwise than by finding no conversion: the dialog asks
    again and nothing changes *)
Theorem C67_fvf_asks_again_partial : forall l w b, Forall bad l -> fvf_known w b -> writable b -> (forall a, In a l -> ~ broken gn (conv (JInt 1)) fvf_unit a) ->
  exists errs w', dialog l w = (Ok (Dialog errs None), w') /\ unchanged w w'
    /\ forall e, In e errs <-> exists a y, In a l /\ wrong_unit gn (conv (JInt 1)) fvf_unit a y /\ e = fvf_error.
Proof.
  intros l w b H K K' N. unfold fvf_dialog, pbind, pget. assert (Eb : p_set (w_par w) KFvf = b) by apply K. rewrite Eb.
  destruct (loop_fvf_bad l b None [] [] w H K') as (u' & errs & w' & E & I & _ & U). rewrite app_nil_r in E. exists errs, w'.
  split; [exact E|]. split; [apply U; assumption|exact I].
Qed.
Lemma end_fvf_saves ui unit errs d w : savable mc (p_set (w_par w)) -> writable d ->
  exists w', end_fvf mc float_of show same ui unit errs d w = (Ok (Dialog errs (Some (last_message show same (u "FVF") (u "vol/vol") ui unit d))), w')
    /\ setting w' KFvf = d /\ other_settings_same [KFvf] w w' /\ p_net_fvf (w_par w') = p_net_fvf (net_set_fvf float_of (farg_of d) (w_par w))
    /\ p_memory (w_par w') = p_memory (w_par w) /\ p_thread (w_par w') = p_thread (w_par w) /\ p_multi (w_par w') = p_multi (w_par w) /\ kept_on_disk mc w w'.
Proof.
  intros S Wd. set (w1 := World (net_set_fvf float_of (farg_of d) (w_par w)) (w_disk w) (w_log w)).
  destruct (net_set_par (farg_of d) (w_par w)) as (N1 & N2 & N3 & N4).
  assert (S1 : savable mc (p_set (w_par w1))) by (unfold w1; cbn [w_par]; now rewrite N1).
  destruct (set_and_save mc w1 KFvf d S1 ltac:(discriminate) Wd) as (w' & E & R1 & R2 & (Q1 & Q2 & Q3 & Q4) & R3). exists w'. split.
  - unfold end_fvf. unfold pbind at 1, pmod at 1. change (World (net_set_fvf float_of (farg_of d) (w_par w)) (w_disk w) (w_log w)) with w1.
    unfold pbind in E |- *. destruct (pmod (set_key KFvf d) w1) as [[[]|e] w2]; [|discriminate E].
    destruct (save_params mc w2) as [[[]|e] w3]; [|discriminate E]. injection E as ->. reflexivity.
  - split; [exact R1|]. split; [intros k Hk; rewrite (R2 k Hk); unfold setting, w1; cbn [w_par]; now rewrite N1|].
    split; [exact Q4|]. split; [exact (eq_trans Q1 N2)|]. split; [exact (eq_trans Q2 N3)|]. split; [exact (eq_trans Q3 N4)|exact R3].
Qed.
Lemma accepted_fvf x v unit d prev unit0 errs rest w : accepted gn (conv (JInt 1)) fvf_unit x v unit d ->
  exists unit' w', loop prev unit0 errs (Some x :: rest) w = end_fvf mc float_of show same v unit' errs d w' /\ but_fvf w w'
    /\ (forall y, unit = Some y -> unit' = Some y) /\ (unit = None -> d = v).
Proof.
  intros (G & [(O1 & Ev & -> & ->)|(n & y & T & Ev & -> & Ec)]).
  - destruct (one_word_words x O1) as (n & Ew). pose proof (one_word_nonempty x O1). destruct x as [|c x]; [contradiction|].
    cbn [loop_fvf]. rewrite Ew, Ev, G. exists unit0, w. split; [reflexivity|]. split; [apply but_refl|]. split; [intros y E; discriminate E|reflexivity].
  - pose proof (words_two _ _ _ T) as Ew. pose proof (two_words_nonempty _ _ _ T). destruct x as [|c x]; [contradiction|].
    cbn [loop_fvf]. rewrite Ew, Ev, G. unfold pbind at 1 2 3, pget, pmod. cbn [w_par w_disk w_log p_net_fvf set_key net_set_fvf]. fold (fvf_unit y). rewrite Ec.
    exists (Some (fvf_unit y)), (put (JInt 1) w). split; [reflexivity|]. split; [exact (proj1 (put_but (JInt 1) w I))|]. split; [now intros y' E|intros E; discriminate E].
Qed.
(** the first acceptable answer, after any others, is the factor of the network and of the settings, saved *)
Theorem C67_fvf : forall l x v unit d rest w, Forall bad l -> accepted gn (conv (JInt 1)) fvf_unit x v unit d ->
  savable mc (p_set (w_par w)) -> writable d -> (exists z, d = JInt z) \/ (exists t, d = JFlt t) -> same v v = true ->
  exists errs m w', dialog (l ++ Some x :: rest) w = (Ok (Dialog errs (Some (Ok m))), w')
    /\ setting w' KFvf = d /\ p_net_fvf (w_par w') = d /\ other_settings_same [KFvf] w w' /\ kept_on_disk mc w w'
    /\ p_memory (w_par w') = p_memory (w_par w) /\ p_thread (w_par w') = p_thread (w_par w) /\ p_multi (w_par w') = p_multi (w_par w)
    /\ says show same (u "FVF") (u "vol/vol") v unit d m.
Proof.
  intros l x v unit d rest w Hl Ha S Wd Nd Sv. unfold fvf_dialog, pbind, pget.
  destruct (loop_fvf_bad l (p_set (w_par w) KFvf) None [] (Some x :: rest) w Hl (S KFvf)) as (u1 & errs & w1 & E & _ & B1 & _).
  destruct (accepted_fvf x v unit d (p_set (w_par w) KFvf) u1 errs rest w1 Ha) as (u2 & w2 & E2 & B2 & U & U').
  pose proof (but_trans _ _ _ B1 B2) as (A1 & A2 & A3 & A4 & A5 & A6).
  destruct (good_message show same (u "FVF") (u "vol/vol") v unit u2 d (proj1 Ha) Sv U U') as (m & M1 & M2).
  destruct (end_fvf_saves v u2 errs d w2 (A6 S) Wd) as (w' & E3 & R1 & R2 & R3 & R4 & R5 & R6 & R7). exists errs, m, w'.
  split; [exact (eq_trans E (eq_trans E2 (eq_trans E3 (f_equal (fun r => (Ok (Dialog errs (Some r)), w')) M1))))|].
  split; [exact R1|]. split; [rewrite R3; destruct Nd as [(z & ->)|(t & ->)]; reflexivity|].
  split; [intros k Hk; exact (eq_trans (R2 k Hk) (A1 k Hk))|]. split.
  - destruct R7 as (t & T1 & T2 & T3 & T4). exists t. split; [exact T1|]. split; [exact T2|]. split; [exact T3|]. intros p H1 H2. rewrite (T4 p H1 H2), A2. reflexivity.
  - split; [exact (eq_trans R4 A3)|]. split; [exact (eq_trans R5 A4)|]. split; [exact (eq_trans R6 A5)|exact M2].
Qed.
(** [a refused answer leaves the factor as it was] false: when the converter finds no conversion without raising
    (raise_error off), or raises anything else, the factor of the network is 1 from then on *)
Theorem C67_fvf_left_refuted : forall a w, broken gn (conv (JInt 1)) fvf_unit a ->
  exists w', dialog [a] w = (Ok (Dialog [] None), w') /\ setting w' KFvf = JInt 1 /\ p_net_fvf (w_par w') = JInt 1.
Proof.
  intros a w (x & n & y & v & -> & T & Ev & G & D). unfold fvf_dialog, pbind at 1, pget.
  pose proof (words_two _ _ _ T) as Ew. pose proof (two_words_nonempty _ _ _ T). destruct x as [|c x]; [contradiction|].
  cbn [loop_fvf]. rewrite Ew, Ev, G. unfold pbind, pget, pmod. cbn [w_par w_disk w_log p_net_fvf set_key net_set_fvf]. fold (fvf_unit y).
  exists (put (JInt 1) w). split; [|split; [apply with_key_same|reflexivity]].
  destruct D as [D|(e & Ne & D)]; rewrite D; [reflexivity|]. destruct e; try reflexivity. now destruct Ne.
Qed.
(** cancelling sets the setting to False and saves it, and leaves the factor of the network as it was; after that a unit
    that is not known makes the factor of the network 1 *)
Theorem C67_fvf_cancel_refuted : forall w a, a = None \/ a = Some [] -> savable mc (p_set (w_par w)) ->
  exists w', dialog [a] w = (Ok (Dialog [] (Some (Err NameError))), w') /\ setting w' KFvf = JBool false /\ p_net_fvf (w_par w') = p_net_fvf (w_par w) /\ kept_on_disk mc w w'
    /\ forall b y, wrong_unit gn (conv (JInt 1)) fvf_unit b y -> exists w'', dialog [b] w' = (Ok (Dialog [fvf_error] None), w'') /\ p_net_fvf (w_par w'') = JInt 1.
Proof.
  intros w a Ha S. assert (E : exists ui, (ui = JNull \/ ui = JStr []) /\ dialog [a] w = end_fvf mc float_of show same ui None [] (JBool false) w).
  { destruct Ha as [-> | ->]; [exists JNull|exists (JStr [])]; (split; [auto|reflexivity]). }
  destruct E as (ui & Hui & E). destruct (end_fvf_saves ui None [] (JBool false) w S I) as (w' & E3 & R1 & _ & R3 & _ & _ & _ & R7). exists w'.
  split; [refine (eq_trans E (eq_trans E3 _)); destruct Hui as [-> | ->]; reflexivity|]. split; [exact R1|]. split; [exact R3|]. split; [exact R7|].
  intros b y (x & n & y0 & v & -> & T & -> & Ev & G & D). unfold fvf_dialog, pbind at 1, pget.
  pose proof (words_two _ _ _ T) as Ew. pose proof (two_words_nonempty _ _ _ T). destruct x as [|c x]; [contradiction|].
  cbn [loop_fvf]. rewrite Ew, Ev, G. unfold pbind, pget, pmod. cbn [w_par w_disk w_log p_net_fvf set_key net_set_fvf]. fold (fvf_unit y0). rewrite D.
  unfold setting in R1. rewrite R1. eexists. split; reflexivity.
Qed.
End Fvf.
Print Assumptions C67_fvf_asks_again_partial.
Print Assumptions C67_fvf.
Print Assumptions C67_fvf_left_refuted.
Print Assumptions C67_fvf_cancel_refuted.

(** ** The menus *)
Lemma is_str_iff v x : is_str v x = true <-> v = JStr x.
Proof.
  destruct v; cbn [is_str]; try (split; intros E; discriminate E). rewrite seqb_eq. split; [now intros ->|intros E; now injection E].
Qed.
Section Menus.
Context (mc : machine) (Ht : m_threads mc = true).
Definition menus_ok (s : marks * world) : Prop :=
  marks_right (fst s) (snd s) /\ savable mc (p_set (w_par (snd s))) /\ p_thread (w_par (snd s)) = true.
Lemma kept_savable w w' k v : savable mc (p_set (w_par w)) -> setting w' k = v -> writable v -> k <> KFolder -> other_settings_same [k] w w' -> savable mc (p_set (w_par w')).
Proof.
  intros S E Wv Nk O k'. destruct (key_eqb k' k) eqn:Ek.
  - apply key_eqb_eq in Ek. subst k'. unfold setting in E. destruct k; try contradiction; cbn [saved]; rewrite E; exact Wv.
  - assert (N : k' <> k) by (intros ->; unfold key_eqb in Ek; rewrite seqb_refl in Ek; discriminate Ek).
    specialize (O k' ltac:(intros [<-|[]]; now apply N)). unfold setting in O. specialize (S k'). destruct k'; cbn [saved] in *; rewrite ?O; exact S.
Qed.
Lemma choose_ok x b l d h k w : In x [u "BFS"; u "lean_BFS"; u "DFS"; u "hybrid_BFS"] -> savable mc (p_set (w_par w)) -> p_thread (w_par w) = true ->
  exists w', choose mc x b l d h k w = (Ok (mark_algorithm k b l d h (k_again k)), w') /\ setting w' KAlgo = JStr x /\ other_settings_same [KAlgo] w w' /\ session_same w w'.
Proof.
  intros Hx S T. destruct (C41_taken mc x w Hx S (fun _ => T)) as (w' & E & A & B & C & _). exists w'. split; [|now split].
  unfold set_algorithm in E. assert (smem x algorithms = true) as M by (apply smem_In; exact Hx). rewrite M in E.
  unfold choose, pbind. rewrite E. reflexivity.
Qed.
Lemma switch_ok k w : savable mc (p_set (w_par w)) -> k <> KFolder ->
  exists w', switch mc k SNone w = (Ok tt, w') /\ setting w' k = JBool (negb (truth (setting w k))) /\ other_settings_same [k] w w' /\ session_same w w'.
Proof.
  intros S N. destruct (set_and_save mc w k (JBool (negb (truth (setting w k)))) S N I) as (w' & E & A & B & C & _). exists w'. split; [exact E|now split].
Qed.
Lemma algo_exact w x : setting w KAlgo = JStr x -> forall y, setting w KAlgo = JStr y <-> x = y.
Proof. intros -> y. split; [intros E; now injection E|now intros ->]. Qed.
Lemma click_algorithm s e x b l d h : menus_ok s -> In x [u "BFS"; u "lean_BFS"; u "DFS"; u "hybrid_BFS"] ->
  (forall k, command mc e k = choose mc x b l d h k) ->
  (exists B, forall k, turn e k = mark_algorithm k (fst (fst (B k))) (snd (fst (B k))) (fst (snd (B k))) (snd (snd (B k))) (k_again k)) ->
  (forall k p, select e k p = mark_algorithm k (k_bfs k) (k_lean k) (k_dfs k) (k_hybrid k) (k_again k || negb (is_str (p_set p KAlgo) x))) ->
  (b = true <-> x = u "BFS") -> (l = true <-> x = u "lean_BFS") -> (d = true <-> x = u "DFS") -> (h = true <-> x = u "hybrid_BFS") ->
  menus_ok (click mc s e) /\ setting (snd (click mc s e)) KAlgo = JStr x
  /\ (setting (snd s) KAlgo <> JStr x -> k_again (fst (click mc s e)) = true).
Proof.
  intros ((M1 & M2 & M3 & M4 & M5 & M6 & M7 & M8 & M9 & M10) & S & T) Hx Hc (B & Hturn) Hs Hb Hl Hd Hh. destruct s as [k w]. cbn [fst snd] in *.
  unfold click. cbn [fst snd]. rewrite Hc, Hs, Hturn.
  set (k1 := mark_algorithm (mark_algorithm k _ _ _ _ _) _ _ _ _ _).
  destruct (choose_ok x b l d h k1 w Hx S T) as (w' & E & A & O & (Q1 & Q2 & Q3 & Q4)). rewrite E. cbn [fst snd]. split; [|split; [exact A|]].
  - split; [|split].
    + cbn [fst snd]. unfold marks_right. unfold k1. cbn [mark_algorithm k_bfs k_lean k_dfs k_hybrid k_threads k_processes k_off k_auto k_print k_verbose k_cache].
      rewrite !(algo_exact _ _ A). rewrite !(fun k H => O k H) by (intros [N|[]]; discriminate N). tauto.
    + cbn [snd]. apply (kept_savable w w' KAlgo (JStr x) S A); [|discriminate|exact O]. cbn [writable].
      cbn [In] in Hx. destruct Hx as [<-|[<-|[<-|[<-|[]]]]]; repeat constructor; vm_compute; auto.
    + exact (eq_trans Q2 T).
  - intros N. unfold k1. cbn [mark_algorithm k_again]. replace (is_str (p_set (w_par w) KAlgo) x) with false; [apply orb_true_r|].
    symmetry. apply not_true_iff_false. intros E'. apply N. now apply is_str_iff.
Qed.
Lemma click_parallel s e a (K : marks -> marks) par th : menus_ok s ->
  (forall k w, command mc e k w = (Ok (K k), snd (set_par3 par th false w))) ->
  (forall k p, select e k p = k) -> th = true -> writable (JBool par) ->
  (forall k, K (turn e k) = mark_parallel k (fst (fst (a k))) false (snd (fst (a k))) (snd (a k)) /\ snd (fst (a k)) = negb par /\ (fst (fst (a k)) || snd (a k)) = par) ->
  menus_ok (click mc s e) /\ setting (snd (click mc s e)) KParallel = JBool par.
Proof.
  intros ((M1 & M2 & M3 & M4 & M5 & M6 & M7 & M8 & M9 & M10) & S & T) Hc Hs Hth _ HK. destruct s as [k w]. cbn [fst snd] in *.
  unfold click. cbn [fst snd]. rewrite Hs, Hc. destruct (HK k) as (EK & E1 & E2). rewrite EK. cbn [fst snd].
  set (w' := snd (set_par3 par th false w)).
  assert (O : other_settings_same [KParallel] w w').
  { intros k' Hk. unfold setting, w', set_par3, pmod. cbn [snd w_par p_set]. apply with_key_other. intros ->. apply Hk. now left. }
  assert (P : setting w' KParallel = JBool par) by (apply with_key_same).
  split; [|exact P]. split; [|split].
  - cbn [fst snd]. unfold marks_right. cbn [mark_parallel k_bfs k_lean k_dfs k_hybrid k_threads k_processes k_off k_auto k_print k_verbose k_cache].
    rewrite P. rewrite !(fun k H => O k H) by (intros [N|[]]; discriminate N). cbn [truth].
    repeat (split; [first [exact M1|exact M2|exact M3|exact M4|exact M5|exact M6|exact M7|exact E1|exact E2]|]). reflexivity.
  - exact (kept_savable w w' KParallel (JBool par) S P I ltac:(discriminate) O).
  - exact Hth.
Qed.
Lemma click_switch s e k0 m : menus_ok s -> k0 <> KFolder ->
  (forall k, command mc e k = pbind (switch mc k0 SNone) (fun _ => pret k)) -> (forall k p, select e k p = k) ->
  (forall k w w', marks_right k w -> setting w' k0 = JBool (negb (truth (setting w k0))) -> other_settings_same [k0] w w' -> marks_right (turn e k) w') ->
  m = negb (truth (setting (snd s) k0)) ->
  menus_ok (click mc s e) /\ setting (snd (click mc s e)) k0 = JBool m.
Proof.
  intros (M & S & T) N Hc Hs Hm ->. destruct s as [k w]. cbn [fst snd] in *. unfold click. cbn [fst snd]. rewrite Hs, Hc.
  destruct (switch_ok k0 w S N) as (w' & E & A & O & (Q1 & Q2 & Q3 & Q4)). unfold pbind. rewrite E. cbn [pret fst snd]. split; [|exact A].
  split; [exact (Hm k w w' M A O)|]. split; [exact (kept_savable w w' k0 _ S A I N O)|exact (eq_trans Q2 T)].
Qed.
(** what is set after a click on an entry *)
Definition meant (e : entry) (w : world) : key * jval :=
  match e with
  | ABfs => (KAlgo, JStr (u "BFS")) | ALean => (KAlgo, JStr (u "lean_BFS")) | ADfs => (KAlgo, JStr (u "DFS")) | AHybrid => (KAlgo, JStr (u "hybrid_BFS"))
  | PThreads | PAuto => (KParallel, JBool true) | POff => (KParallel, JBool false)
  | SPath => (KPrint, JBool (negb (truth (setting w KPrint)))) | SVerbose => (KVerbose, JBool (negb (truth (setting w KVerbose))))
  | SCache => (KCache, JBool (negb (truth (setting w KCache))))
  end.
Ltac algo e x := let H := fresh in
  intros H; destruct (click_algorithm _ e x (seqb x (u "BFS")) (seqb x (u "lean_BFS")) (seqb x (u "DFS")) (seqb x (u "hybrid_BFS")) H) as (A & B & C);
  [cbn [In]; tauto|reflexivity| |reflexivity|apply seqb_eq|apply seqb_eq|apply seqb_eq|apply seqb_eq|split; [exact A|exact B]].
Lemma click_ok s e : menus_ok s -> menus_ok (click mc s e) /\ setting (snd (click mc s e)) (fst (meant e (snd s))) = snd (meant e (snd s)).
Proof.
  destruct e; cbn [meant fst snd].
  - algo ABfs (u "BFS"). exists (fun k => ((negb (k_bfs k), k_lean k), (k_dfs k, k_hybrid k))). reflexivity.
  - algo ALean (u "lean_BFS"). exists (fun k => ((k_bfs k, negb (k_lean k)), (k_dfs k, k_hybrid k))). reflexivity.
  - algo ADfs (u "DFS"). exists (fun k => ((k_bfs k, k_lean k), (negb (k_dfs k), k_hybrid k))). reflexivity.
  - algo AHybrid (u "hybrid_BFS"). exists (fun k => ((k_bfs k, k_lean k), (k_dfs k, negb (k_hybrid k)))). reflexivity.
  - intros H. apply (click_parallel s PThreads (fun _ => ((true, false), false)) (fun k => mark_parallel k true false false false) true true H); try reflexivity.
    intros k. repeat split.
  - intros H. apply (click_parallel s POff (fun _ => ((false, true), false)) (fun k => mark_parallel k false false true false) false (m_threads mc) H); try reflexivity; [exact Ht|].
    intros k. repeat split.
  - intros H. apply (click_parallel s PAuto (fun _ => ((m_threads mc, negb (m_threads mc) && negb false), true))
       (fun k => mark_parallel k (m_threads mc) false (negb (m_threads mc) && negb false) true) true (m_threads mc) H); try reflexivity; [exact Ht|].
    intros k. rewrite Ht. repeat split.
  - intros H. apply (click_switch s SPath KPrint); try reflexivity; [exact H|discriminate|].
    intros k w w' (M1 & M2 & M3 & M4 & M5 & M6 & M7 & M8 & M9 & M10) A O. unfold marks_right.
    cbn [turn mark_switch k_bfs k_lean k_dfs k_hybrid k_threads k_processes k_off k_auto k_print k_verbose k_cache].
    rewrite A, !(fun k H => O k H) by (intros [N|[]]; discriminate N). rewrite M5. tauto.
  - intros H. apply (click_switch s SVerbose KVerbose); try reflexivity; [exact H|discriminate|].
    intros k w w' (M1 & M2 & M3 & M4 & M5 & M6 & M7 & M8 & M9 & M10) A O. unfold marks_right.
    cbn [turn mark_switch k_bfs k_lean k_dfs k_hybrid k_threads k_processes k_off k_auto k_print k_verbose k_cache].
    rewrite A, !(fun k H => O k H) by (intros [N|[]]; discriminate N). rewrite M6. tauto.
  - intros H. apply (click_switch s SCache KCache); try reflexivity; [exact H|discriminate|].
    intros k w w' (M1 & M2 & M3 & M4 & M5 & M6 & M7 & M8 & M9 & M10) A O. unfold marks_right.
    cbn [turn mark_switch k_bfs k_lean k_dfs k_hybrid k_threads k_processes k_off k_auto k_print k_verbose k_cache].
    rewrite A, !(fun k H => O k H) by (intros [N|[]]; discriminate N). rewrite M7. tauto.
Qed.
Lemma clicks_ok l : forall s, menus_ok s -> menus_ok (fold_left (click mc) l s).
Proof. induction l as [|e l IH]; intros s H; [exact H|]. cbn [fold_left]. apply IH. now apply click_ok. Qed.
Lemma start_ok w k : savable mc (p_set (w_par w)) -> p_multi (w_par w) = false -> start_menus w = (Ok k, w) -> menus_ok (k, w).
Proof.
  intros S Mm E. unfold start_menus, pbind, pget in E. destruct (p_thread (w_par w)) eqn:T; [|discriminate E]. injection E as <-.
  split; [|split; [exact S|exact T]]. cbn [fst snd]. unfold marks_right, setting. rewrite Mm.
  cbn [k_bfs k_lean k_dfs k_hybrid k_threads k_processes k_off k_auto k_print k_verbose k_cache].
  rewrite !is_str_iff. repeat (split; [reflexivity|]). rewrite !andb_true_r. split; [now destruct (truth _)|now rewrite andb_false_r].
Qed.
(** whatever is clicked, in any order, the marks of the menus say what is set, and a click sets what its entry says *)
Theorem C67_marks : forall w k l, savable mc (p_set (w_par w)) -> p_multi (w_par w) = false -> start_menus w = (Ok k, w) ->
  marks_right (fst (fold_left (click mc) l (k, w))) (snd (fold_left (click mc) l (k, w)))
  /\ forall e, setting (snd (click mc (fold_left (click mc) l (k, w)) e)) (fst (meant e (snd (fold_left (click mc) l (k, w))))) = snd (meant e (snd (fold_left (click mc) l (k, w)))).
Proof.
  intros w k l S Mm E. pose proof (clicks_ok l (k, w) (start_ok w k S Mm E)) as H. split; [apply H|]. intros e. now apply click_ok.
Qed.
(** another algorithm is used at once: the next conversion is searched again *)
Theorem C67_search_again : forall w k l e, savable mc (p_set (w_par w)) -> p_multi (w_par w) = false -> start_menus w = (Ok k, w) ->
  In e [ABfs; ALean; ADfs; AHybrid] ->
  let s := fold_left (click mc) l (k, w) in setting (snd (click mc s e)) KAlgo <> setting (snd s) KAlgo -> k_again (fst (click mc s e)) = true.
Proof.
  intros w k l e S Mm E He s. pose proof (clicks_ok l (k, w) (start_ok w k S Mm E)) as H. fold s in H.
  cbn [In] in He. destruct He as [<-|[<-|[<-|[<-|[]]]]].
  - destruct (click_algorithm s ABfs (u "BFS") true false false false H) as (A & B & C); [cbn [In]; tauto|reflexivity| |reflexivity|..]; try (split; [reflexivity|reflexivity]) || (split; intros N; discriminate N).
    + exists (fun k => ((negb (k_bfs k), k_lean k), (k_dfs k, k_hybrid k))). reflexivity.
    + rewrite B. intros N. apply C. congruence.
  - destruct (click_algorithm s ALean (u "lean_BFS") false true false false H) as (A & B & C); [cbn [In]; tauto|reflexivity| |reflexivity|..]; try (split; [reflexivity|reflexivity]) || (split; intros N; discriminate N).
    + exists (fun k => ((k_bfs k, negb (k_lean k)), (k_dfs k, k_hybrid k))). reflexivity.
    + rewrite B. intros N. apply C. congruence.
  - destruct (click_algorithm s ADfs (u "DFS") false false true false H) as (A & B & C); [cbn [In]; tauto|reflexivity| |reflexivity|..]; try (split; [reflexivity|reflexivity]) || (split; intros N; discriminate N).
    + exists (fun k => ((k_bfs k, k_lean k), (negb (k_dfs k), k_hybrid k))). reflexivity.
    + rewrite B. intros N. apply C. congruence.
  - destruct (click_algorithm s AHybrid (u "hybrid_BFS") false false false true H) as (A & B & C); [cbn [In]; tauto|reflexivity| |reflexivity|..]; try (split; [reflexivity|reflexivity]) || (split; intros N; discriminate N).
    + exists (fun k => ((k_bfs k, k_lean k), (k_dfs k, negb (k_hybrid k)))). reflexivity.
    + rewrite B. intros N. apply C. congruence.
Qed.
End Menus.
(** [the window always opens] false: after [set_parallel('m')], or where there are no threads, it raises AttributeError *)
Theorem C67_window_refuted : forall mc w, fst (start_menus (snd (set_parallel mc (ParStr (u "m")) w))) = Err AttributeError.
Proof. intros mc w. reflexivity. Qed.
Print Assumptions C67_marks.
Print Assumptions C67_search_again.
Print Assumptions C67_window_refuted.

(** ** Examples: a reader of whole numbers, a converter that knows kg/m3 *)
Definition ex_gn (x : str) : res jval := if seqb x (u "2") then Ok (JInt 2) else if seqb x (u "0") then Ok (JInt 0) else Err ValueError.
Definition ex_conv (b v : jval) (y : str) : res (option jval) :=
  match v with
  | JInt 2 => if seqb y (u "kg/m3") then Ok (Some (JFlt (u "0.002"))) else if seqb y (u "sm3/sm3") then Ok (Some (JInt 2))
              else if seqb y (u "((") then Err ValueError else Err NoConversionFoundError
  | _ => Err TypeError
  end.
Definition ex_show (v : jval) : str := match v with JInt 2 => u "2" | JFlt t => t | _ => [] end.
Definition ex_same (a b : jval) : bool := match a, b with JInt x, JInt y => (x =? y)%Z | _, _ => false end.
(** refused answers of each sort, then one that is accepted *)
Example C67_density_example :
  let answers := [Some (u "zero"); Some (u " 0 "); Some (u "2 pints"); Some (u "2 kg / m3"); Some (u "2  kg/m3")] in
  exists w', density_dialog demo ex_gn ex_show ex_same ex_conv answers demo_first
    = (Ok (Dialog [u "density units pints are not valid."] (Some (Ok (u "density 2 kg/m3 converted to 0.002 g/cm³")))), w') /\ setting w' KDensity = JFlt (u "0.002").
Proof. eexists. split; [vm_compute; reflexivity|reflexivity]. Qed.
Example C67_accepted_example :
  accepted ex_gn (ex_conv JNull) plain (u "2  kg/m3") (JInt 2) (Some (u "kg/m3")) (JFlt (u "0.002"))
  /\ wrong_unit ex_gn (ex_conv JNull) plain (Some (u "2 pints")) (u "pints")
  /\ broken ex_gn (ex_conv (JInt 1)) fvf_unit (Some (u "2 ((")).
Proof.
  split; [split; [reflexivity|]; right; exists (u "2"), (u "kg/m3"); split; [apply words_two_inv; reflexivity|repeat split]|].
  split.
  - exists (u "2 pints"), (u "2"), (u "pints"), (JInt 2). split; [reflexivity|]. split; [apply words_two_inv; reflexivity|]. repeat split.
  - exists (u "2 (("), (u "2"), (u "(("), (JInt 2). split; [reflexivity|]. split; [apply words_two_inv; reflexivity|]. split; [reflexivity|].
    split; [reflexivity|]. right. exists ValueError. split; [discriminate|reflexivity].
Qed.
Example C67_fvf_example :
  exists w', fvf_dialog demo (fun _ => None) ex_gn ex_show ex_same ex_conv [Some (u "2 bbl"); Some (u "2 Vol/vol")] demo_first
    = (Ok (Dialog [fvf_error] (Some (Ok (u "FVF set as 2 vol/vol.")))), w') /\ setting w' KFvf = JInt 2 /\ p_net_fvf (w_par w') = JInt 2.
Proof. eexists. split; [vm_compute; reflexivity|split; reflexivity]. Qed.
Example C67_marks_example : exists k, start_menus demo_first = (Ok k, demo_first) /\ k_lean k = true
  /\ k_hybrid (fst (fold_left (click demo) [SPath; AHybrid; POff] (k, demo_first))) = true /\ k_off (fst (fold_left (click demo) [SPath; AHybrid; POff] (k, demo_first))) = true.
Proof. eexists. split; [vm_compute; reflexivity|]. split; [reflexivity|]. split; vm_compute; reflexivity. Qed.
