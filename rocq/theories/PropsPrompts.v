(** * C68: the prompts of the keyboard *)
From Coq Require Import String.
From Verif Require Import Py StrFacts EngineSpec CleanFacts CasterFacts Json JsonFacts JsonFacts2 Params ParamsSpec ParamsFacts SwitchFacts ParamsFacts2 PropsParams Dialogs DialogSpec.
Local Open Scope N_scope.

Section Prompts.
Context (mc : machine) (float_of : str -> option str).
(** an answer that is no positive number ([float] does not read it, or it is not greater than zero) *)
Definition no_factor (a : str) : Prop := float_of a = None \/ exists t, float_of a = Some t /\ le_zero (JFlt t) = true.
(** an answer that is one *)
Definition factor (a t : str) : Prop := float_of a = Some t /\ le_zero (JFlt t) = false.
Lemma no_factor_none a : no_factor a -> valid_fvf float_of a = None.
Proof. unfold valid_fvf. intros [->|(t & -> & L)]; [reflexivity|now rewrite L]. Qed.
Lemma factor_some a t : factor a t -> valid_fvf float_of a = Some t.
Proof. unfold valid_fvf. intros [-> L]. now rewrite L. Qed.
(** set_fvf() asks until a positive number is answered, and takes it; nothing changes while it waits *)
Theorem C68_fvf : forall bad w, Forall no_factor bad ->
  prompt_fvf float_of bad w = (Err InputPrompt, w)
  /\ forall a t rest, factor a t -> exists w', prompt_fvf float_of (bad ++ a :: rest) w = (Ok rest, w')
       /\ setting w' KFvf = JFlt t /\ get_fvf w' = (Ok (JFlt t), w') /\ other_settings_same [KFvf] w w' /\ w_disk w' = w_disk w.
Proof.
  intros bad w H. split.
  - induction H as [|a l Ha Hl IH]; [reflexivity|]. cbn [prompt_fvf]. now rewrite (no_factor_none a Ha).
  - intros a t rest Ha. destruct (C54_set_partial float_of (FvFlt t) w) as (w' & v & E & G & D & O & Ev); [eauto|]. subst v.
    exists w'. split; [|split; [|split; [exact G|split; [exact O|exact D]]]].
    + induction H as [|b l Hb Hl IH]; cbn [Datatypes.app prompt_fvf].
      * rewrite (factor_some a t Ha). unfold pbind at 1. rewrite E. reflexivity.
      * now rewrite (no_factor_none b Hb).
    + unfold set_fvf in E. injection E as <-. unfold setting. cbn [w_par set_key p_set]. apply with_key_same.
Qed.
(** a conversion that needs the factor asks for it in the same way, once: later ones use the number answered; when the
    window is open nothing is asked *)
Theorem C68_needed_fvf : forall bad w, Forall no_factor bad -> p_net_fvf (w_par w) = JNull ->
  network_get_fvf float_of true bad w = (Err NoFVFError, w) /\ network_get_fvf float_of false bad w = (Err InputPrompt, w)
  /\ forall a t rest, factor a t -> exists w', network_get_fvf float_of false (bad ++ a :: rest) w = (Ok (JFlt t, rest), w')
       /\ other_settings_same [] w w' /\ w_disk w' = w_disk w /\ forall gui l, network_get_fvf float_of gui l w' = (Ok (JFlt t, l), w').
Proof.
  intros bad w H N. unfold network_get_fvf, pbind, pget. rewrite N. split; [reflexivity|]. split.
  - induction H as [|a l Ha Hl IH]; [reflexivity|]. cbn [network_prompt]. now rewrite (no_factor_none a Ha).
  - intros a t rest Ha. exists (World (net_set_fvf float_of (FvFlt t) (w_par w)) (w_disk w) (w_log w)).
    split; [|split; [|split; [|intros gui l; reflexivity]]].
    + induction H as [|b l Hb Hl IH]; cbn [Datatypes.app network_prompt].
      * rewrite (factor_some a t Ha). reflexivity.
      * now rewrite (no_factor_none b Hb).
    + intros k _. reflexivity.
    + reflexivity.
Qed.
Theorem C68_known_fvf : forall v, v <> JNull -> forall gui l w, p_net_fvf (w_par w) = v -> network_get_fvf float_of gui l w = (Ok (v, l), w).
Proof. intros v N gui l w E. unfold network_get_fvf, pbind, pget. rewrite E. destruct v; try reflexivity. contradiction. Qed.

(** [_get_density]: asked when it is not set, until a number is answered; any number *)
Theorem C68_needed_density : forall bad w, Forall (fun a => float_of a = None) bad -> setting w KDensity = JNull ->
  needed_density float_of bad w = (Err InputPrompt, w)
  /\ forall a t rest, float_of a = Some t -> exists w', needed_density float_of (bad ++ a :: rest) w = (Ok (JFlt t, rest), w')
       /\ setting w' KDensity = JFlt t /\ other_settings_same [KDensity] w w' /\ session_same w w' /\ w_disk w' = w_disk w
       /\ forall l, needed_density float_of l w' = (Ok (JFlt t, l), w').
Proof.
  intros bad w H N. unfold setting in N. unfold needed_density, pbind, pget. rewrite N. split.
  - induction H as [|a l Ha Hl IH]; [reflexivity|]. cbn [ask_density]. now rewrite Ha.
  - intros a t rest Ha. exists (World (set_key KDensity (JFlt t) (w_par w)) (w_disk w) (w_log w)). split; [|split; [apply with_key_same|]].
    + induction H as [|b l Hb Hl IH]; cbn [Datatypes.app ask_density].
      * rewrite Ha. reflexivity.
      * now rewrite Hb.
    + split; [intros k Hk; apply with_key_other; intros ->; apply Hk; now left|]. split; [repeat split|]. split; [reflexivity|].
      intros l. cbn [w_par set_key p_set]. rewrite with_key_same. reflexivity.
Qed.
Theorem C68_known_density : forall v, v <> JNull -> forall l w, setting w KDensity = v -> needed_density float_of l w = (Ok (v, l), w).
Proof. intros v N l w E. unfold setting in E. unfold needed_density, pbind, pget. rewrite E. destruct v; try reflexivity. contradiction. Qed.

(** ** set_density() *)
Notation prompt := (prompt_density mc float_of).
(** neither a number nor two things with one comma between them *)
Definition no_density (a : str) : Prop := (~ In 44 a /\ float_of a = None) \/ exists x y z, a = x ++ 44 :: y ++ 44 :: z.
(** a number; a number, a comma and a unit, perhaps in parentheses *)
Definition density_answer (units a n x : str) : Prop :=
  (~ In 44 a /\ n = a /\ x = units)
  \/ exists p s q, a = p ++ n ++ 44 :: s ++ x ++ q /\ over (u "()") p /\ over (u " ()") s /\ over (u " ()") q
       /\ n <> [] /\ ~ In 44 n /\ edge_free (u " ()") x /\ ~ In 44 x /\ forall c r, n = c :: r -> ~ In c (u "()").
Lemma no_comma cs l : over cs l -> ~ In 44 cs -> ~ In 44 l.
Proof. intros H N I. exact (N (H _ I)). Qed.
Lemma csplit_length a : length (csplit 44 a) = S (ccount 44 a).
Proof.
  induction a as [|c a IH]; [reflexivity|]. cbn [csplit ccount]. destruct (c =? 44); [cbn [length]; now rewrite IH|].
  destruct (csplit 44 a) as [|w ws]; [discriminate IH|]. exact IH.
Qed.
Lemma ccount_app c a b : ccount c (a ++ b) = (ccount c a + ccount c b)%nat.
Proof. induction a as [|x a IH]; [reflexivity|]. cbn [Datatypes.app ccount]. now rewrite IH, Nat.add_assoc. Qed.
Lemma cmem44 a : In 44 a -> cmem 44 a = true.
Proof. apply cmem_In. Qed.
Lemma cmem44n a : ~ In 44 a -> cmem 44 a = false.
Proof. intros H. destruct (cmem 44 a) eqn:E; [|reflexivity]. destruct H. now apply cmem_In. Qed.
Lemma prompt_bad conv units rest w : forall bad, Forall no_density bad -> prompt conv units (bad ++ rest) w = prompt conv units rest w.
Proof.
  intros bad H. induction H as [|a l Ha Hl IH]; [reflexivity|]. cbn [Datatypes.app prompt_density]. destruct Ha as [[N F]|(x & y & z & ->)].
  - rewrite (cmem44n a N), F. exact IH.
  - assert (M : cmem 44 (x ++ 44 :: y ++ 44 :: z) = true) by (apply cmem44, in_app_iff; right; now left). rewrite M.
    assert (L : Nat.eqb (length (csplit 44 (x ++ 44 :: y ++ 44 :: z))) 2 = false).
    { rewrite csplit_length, ccount_app. cbn [ccount]. rewrite ccount_app. cbn [ccount]. rewrite N.eqb_refl. apply Nat.eqb_neq. lia. }
    rewrite L. exact IH.
Qed.
Lemma prompt_answer conv units a n x t rest w : density_answer units a n x -> float_of n = Some t ->
  prompt conv units (a :: rest) w = pbind (set_density mc conv (DNumber (JFlt t)) x) (fun _ => pret rest) w.
Proof.
  intros [(N & -> & ->)|(p & s & q & -> & Hp & Hs & Hq & Nn & Cn & Ex & Cx & Hn)] F; cbn [prompt_density].
  - now rewrite (cmem44n a N), F.
  - assert (Cp : ~ In 44 p) by (apply (no_comma (u "()") p Hp); vm_compute; intuition discriminate).
    assert (Cs : ~ In 44 s) by (apply (no_comma (u " ()") s Hs); vm_compute; intuition discriminate).
    assert (Cq : ~ In 44 q) by (apply (no_comma (u " ()") q Hq); vm_compute; intuition discriminate).
    assert (M : cmem 44 (p ++ n ++ 44 :: s ++ x ++ q) = true) by (apply cmem44; rewrite !in_app_iff; right; right; now left). rewrite M.
    assert (L : Nat.eqb (length (csplit 44 (p ++ n ++ 44 :: s ++ x ++ q))) 2 = true).
    { pose proof (csplit_groups 44 [s ++ x ++ q] (p ++ n)) as Q. cbn [map concat] in Q. rewrite app_nil_r, <- app_assoc in Q. cbn [Datatypes.app] in Q.
      rewrite Q; [reflexivity| |].
      - rewrite in_app_iff. tauto.
      - intros g [<-|[]]. rewrite !in_app_iff. tauto. }
    rewrite L. cbn [andb].
    assert (E : exists q', over (u " ()") q' /\ strip_chars (u "()") (p ++ n ++ 44 :: s ++ x ++ q) = n ++ 44 :: s ++ x ++ q').
    { exists (rev (lstrip_chars (u "()") (rev q))). split.
      - intros c Hc. apply in_rev in Hc.
        assert (R : over (u " ()") (lstrip_chars (u "()") (rev q))).
        { apply lstrip_suffix; [intros ? []|]. intros d Hd. apply Hq. now apply in_rev. }
        now apply R.
      - pose proof (strip_core (u "()") p (n ++ 44 :: s ++ x) q) as Q. rewrite (lstrip_all _ p Hp) in Q. cbn [Datatypes.app] in Q.
        rewrite <- !app_assoc in Q. cbn [Datatypes.app] in Q. rewrite <- !app_assoc in Q. apply Q. split.
        + destruct n; [contradiction|discriminate].
        + intros c r [Er|Er].
          * destruct n as [|c0 n]; [contradiction|]. cbn [Datatypes.app] in Er. injection Er as -> _. apply cmem_false. now apply (Hn c n).
          * destruct Ex as [Ne Ex]. destruct (exists_last Ne) as (x' & z & ->). rewrite app_comm_cons, !app_assoc in Er. apply app_inj_tail in Er as [_ <-].
            pose proof (Ex z x' (or_intror eq_refl)) as Q'. apply cmem_false. intros I. apply cmem_false in Q'. apply Q'. vm_compute in I |- *. tauto. }
    destruct E as (q' & Hq' & E). rewrite E.
    assert (Cq' : ~ In 44 q') by (apply (no_comma (u " ()") q' Hq'); vm_compute; intuition discriminate).
    pose proof (csplit_groups 44 [s ++ x ++ q'] n) as Q. cbn [map concat] in Q. rewrite app_nil_r in Q.
    rewrite Q; [|exact Cn|intros g [<-|[]]; rewrite !in_app_iff; tauto].
    rewrite F. assert (Z : strip_chars (u " ()") (s ++ x ++ q') = x).
    { rewrite (strip_core (u " ()") s x q' Ex), (lstrip_all _ s Hs), (lstrip_all _ (rev q')); [now rewrite app_nil_r|].
      intros c Hc. apply Hq'. now apply in_rev. }
    rewrite Z. reflexivity.
Qed.
(** set_density() asks until it understands: then it is set_density(number, unit) *)
Theorem C68_density : forall conv units bad w, Forall no_density bad ->
  prompt conv units bad w = (Err InputPrompt, w)
  /\ forall a n x t rest, density_answer units a n x -> float_of n = Some t ->
      snd (prompt conv units (bad ++ a :: rest) w) = snd (set_density mc conv (DNumber (JFlt t)) x w)
      /\ (fst (set_density mc conv (DNumber (JFlt t)) x w) = Ok tt -> fst (prompt conv units (bad ++ a :: rest) w) = Ok rest)
      /\ forall e, fst (set_density mc conv (DNumber (JFlt t)) x w) = Err e -> fst (prompt conv units (bad ++ a :: rest) w) = Err e.
Proof.
  intros conv units bad w H. split.
  - rewrite <- (app_nil_r bad), prompt_bad by exact H. reflexivity.
  - intros a n x t rest Ha F. rewrite prompt_bad by exact H. rewrite (prompt_answer conv units a n x t rest w Ha F). unfold pbind, pret.
    destruct (set_density mc conv (DNumber (JFlt t)) x w) as [[[]|e] w']; cbn [fst snd]; (split; [reflexivity|split]).
    + reflexivity.
    + intros e E. discriminate E.
    + intros E. discriminate E.
    + intros e' E. injection E as <-. reflexivity.
Qed.
(** [an answer it does not understand is asked again] false with a comma: the call raises, or the decimals of a European
    number are its unit *)
Theorem C68_density_refuted :
  (forall conv units x rest w, ~ In 44 x -> float_of (u "abc") = None -> prompt conv units ((u "abc," ++ x) :: rest) w = (Err ValueError, w))
  /\ (forall conv units rest w, float_of (u "1") = Some (u "1.0") -> conv (JFlt (u "1.0")) (u "5") = Err NoConversionFoundError ->
        prompt conv units (u "1,5" :: rest) w = (Err ValueError, w)).
Proof.
  split.
  - intros conv units x rest w Nx F. cbn [prompt_density].
    assert (M : cmem 44 (u "abc," ++ x) = true) by reflexivity. rewrite M.
    assert (L : Nat.eqb (length (csplit 44 (u "abc," ++ x))) 2 = true).
    { pose proof (csplit_groups 44 [x] (u "abc")) as Q. cbn [map concat] in Q. rewrite app_nil_r in Q. change (u "abc," ++ x) with (u "abc" ++ 44 :: x).
      rewrite Q; [reflexivity|vm_compute; intuition discriminate|intros g [<-|[]]; exact Nx]. }
    rewrite L. cbn [andb].
    assert (E : exists y, strip_chars (u "()") (u "abc," ++ x) = u "abc," ++ y /\ ~ In 44 y).
    { exists (rev (lstrip_chars (u "()") (rev x))). split.
      - pose proof (strip_core (u "()") [] (u "abc,") x) as Q. cbn [Datatypes.app] in Q. apply Q. split; [discriminate|].
        intros c r [Er|Er]; [vm_compute in Er; injection Er as <- _; reflexivity|].
        change (u "abc,") with (u "abc" ++ [44]) in Er. apply app_inj_tail in Er as [_ <-]. reflexivity.
      - intros I. apply in_rev in I. apply Nx. assert (R : forall l, In 44 (lstrip_chars (u "()") l) -> In 44 l).
        { induction l as [|c l IH]; [intros []|]. cbn [lstrip_chars]. destruct (cmem c (u "()")); [intros J; right; now apply IH|auto]. }
        apply in_rev. apply R. exact I. }
    destruct E as (y & E & Ny). rewrite E. pose proof (csplit_groups 44 [y] (u "abc")) as Q. cbn [map concat] in Q. rewrite app_nil_r in Q.
    change (u "abc," ++ y) with (u "abc" ++ 44 :: y). rewrite Q; [|vm_compute; intuition discriminate|intros g [<-|[]]; exact Ny]. rewrite F. reflexivity.
  - intros conv units rest w F C. cbn [prompt_density].
    change (cmem 44 (u "1,5") && Nat.eqb (length (csplit 44 (u "1,5"))) 2) with true.
    change (csplit 44 (strip_chars (u "()") (u "1,5"))) with [u "1"; u "5"]. cbv iota. rewrite F.
    change (strip_chars (u " ()") (u "5")) with (u "5"). unfold pbind, set_density. cbn [is_num].
    change (smem (lower (u "5")) gcc) with false. cbv iota. rewrite C. reflexivity.
Qed.
(** what the needed density may be: zero or less *)
Theorem C68_needed_refuted : forall w, setting w KDensity = JNull -> float_of (u "-1") = Some (u "-1.0") ->
  exists w', needed_density float_of [u "-1"] w = (Ok (JFlt (u "-1.0"), []), w').
Proof.
  intros w N F. destruct (C68_needed_density [] w (Forall_nil _) N) as (_ & H). destruct (H (u "-1") (u "-1.0") [] F) as (w' & E & _).
  exists w'. exact E.
Qed.
End Prompts.
Print Assumptions C68_fvf.
Print Assumptions C68_needed_fvf.
Print Assumptions C68_known_fvf.
Print Assumptions C68_needed_density.
Print Assumptions C68_known_density.
Print Assumptions C68_density.
Print Assumptions C68_density_refuted.
Print Assumptions C68_needed_refuted.

(** ** Examples *)
Definition ex_float (x : str) : option str :=
  if seqb x (u "997") then Some (u "997.0") else if seqb x (u "0") then Some (u "0.0") else if seqb x (u "1.5") then Some (u "1.5") else None.
Example C68_density_example : exists w',
  prompt_density demo ex_float (fun v x => if seqb x (u "kg/m3") then Ok (Some (JFlt (u "0.997"))) else Err NoConversionFoundError) (u "g/cm3")
    [u "water"; u "1,2,3"; u "(997, kg/m3)"; u "unused"] demo_first = (Ok [u "unused"], w') /\ setting w' KDensity = JFlt (u "0.997").
Proof. eexists. split; [vm_compute; reflexivity|reflexivity]. Qed.
Example C68_answer_example : density_answer (u "g/cm3") (u "(997, kg/m3)") (u "997") (u "kg/m3") /\ no_density ex_float (u "1,2,3") /\ no_density ex_float (u "water").
Proof.
  split; [|split].
  - right. exists (u "("), (u " "), (u ")"). split; [reflexivity|]. split; [intros c Hc; vm_compute in Hc |- *; tauto|].
    split; [intros c Hc; vm_compute in Hc |- *; tauto|]. split; [intros c Hc; vm_compute in Hc |- *; tauto|]. split; [discriminate|].
    split; [vm_compute; intuition discriminate|]. split.
    + split; [discriminate|]. intros c r [E|E]; [vm_compute in E; injection E as <- _; reflexivity|].
      change (u "kg/m3") with (u "kg/m" ++ [51]) in E. apply app_inj_tail in E as [_ <-]. reflexivity.
    + split; [vm_compute; intuition discriminate|]. intros c r E. vm_compute in E. injection E as <- _. vm_compute. intuition discriminate.
  - right. exists (u "1"), (u "2"), (u "3"). reflexivity.
  - left. split; [vm_compute; intuition discriminate|reflexivity].
Qed.
Example C68_fvf_example : factor ex_float (u "1.5") (u "1.5") /\ no_factor ex_float (u "0") /\ no_factor ex_float (u "big")
  /\ fst (prompt_fvf ex_float [u "big"; u "0"; u "1.5"] demo_first) = Ok [].
Proof. split; [split; reflexivity|]. split; [right; exists (u "0.0"); split; reflexivity|]. split; [left; reflexivity|reflexivity]. Qed.
