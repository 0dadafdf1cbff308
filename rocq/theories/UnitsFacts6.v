(** * Quotients of quantities of one kind: the ratio of a name to itself *)
From Coq Require Import String QArith Qcanon Lia.
From Verif Require Import Py StrTools Network NetworkFacts SearchSpec Conv Converter EngineSpec EngineFacts EngineFacts2 EngineFacts3 EngineFacts4 EngineFacts5 EngineFacts6 EngineFacts7 PropsEngine
  OpsSpec OpsFacts OpsFacts2 OpsFacts3 StrFacts3 PropsOps ConsistSpec ConsistFacts Demo Dict Database FastDb Shipped
  Operations ShippedSpec ShippedCheck ShippedFacts2 ShippedFacts3 ShippedFacts5 Units UnitsSpec KindFacts UnitsFacts UnitsFacts2 UnitsFacts3 UnitsFacts4.
Local Open Scope N_scope.

(** ** Where names without a product sign come from *)
Definition adds (K : list str) (d d' : kinds) : Prop := forall k l', dget k d' = Some l' ->
  In k K \/ exists l, dget k d = Some l /\ forall x, ~ In c_star x -> In x l' -> In x l.
Lemma adds_trans K K' a b c : adds K a b -> adds K' b c -> adds (K ++ K') a c.
Proof.
  intros H1 H2 k l' Hk. rewrite in_app_iff. destruct (H2 k l' Hk) as [Hk'|(l & Hl & G)]; [tauto|]. destruct (H1 k l Hl) as [Hk'|(l0 & Hl0 & G0)]; [tauto|].
  right. exists l0. split; [exact Hl0|]. auto.
Qed.
Lemma adds_ds k l d : adds [u k] d (ds k l d).
Proof.
  intros k' l' Hk. unfold ds in Hk. rewrite dget_dset in Hk. destruct (seqb k' (u k)) eqn:Ek; [left; left; symmetry; now apply seqb_eq|]. right. exists l'. auto.
Qed.
Lemma adds_complete d : adds [] d (complete_products d).
Proof.
  intros k l' Hk. right. induction d as [|[k0 l0] d IH]; cbn [complete_products map dget] in Hk; [discriminate Hk|]. cbn [dget]. destruct (seqb k k0).
  - injection Hk as <-. exists l0. split; [reflexivity|]. intros x Hx I. apply in_app_or in I as [I|I]; [exact I|]. exfalso. apply in_flat_map in I as (y & _ & I).
    unfold swapped in I. destruct (cmem c_slash y); [destruct I|]. destruct (csplit c_star y) as [|a [|b [|? ?]]]; try contradiction. destruct I as [I|[]].
    apply Hx. rewrite <- I. apply in_or_app. right. apply in_or_app. left. now left.
  - exact (IH Hk).
Qed.
Definition created : list str := map u ["Rate"; "VolumeRatio"; "Density"; "Velocity"; "Acceleration"; "ProductivityIndex"; "PressureGradient"; "Pressure"; "TemperatureGradient";
  "Power"; "Frequency"; "Conductance"; "Capacitance"; "Charge"; "Voltage"; "Current"; "Resistance"]%string.
Lemma adds_all d : adds created (merge_data d) (all_kinds d).
Proof.
  unfold all_kinds. generalize (merge_data d). clear d. intros d0.
  assert (T : forall K a b c, adds K a b -> adds [] b c -> adds K a c) by (intros K a b c H1 H2; rewrite <- (app_nil_r K); exact (adds_trans _ _ _ _ _ H1 H2)).
  refine (T _ _ _ _ _ (adds_complete _)).
  refine (adds_trans (firstn 14 created) (skipn 14 created) _ _ _ _ (adds_trans [u "Voltage"; u "Current"] [u "Resistance"] _ _ _ (adds_trans [u "Voltage"] [u "Current"] _ _ _ (adds_ds _ _ _) (adds_ds _ _ _)) (adds_ds _ _ _))).
  refine (adds_trans (firstn 12 created) [u "Capacitance"; u "Charge"] _ _ _ _ (adds_trans [u "Capacitance"] [u "Charge"] _ _ _ (adds_ds _ _ _) (adds_ds _ _ _))).
  refine (adds_trans (firstn 11 created) [u "Conductance"] _ _ _ _ (adds_ds _ _ _)).
  refine (adds_trans (firstn 10 created) [u "Frequency"] _ _ _ _ (adds_ds _ _ _)).
  refine (adds_trans (firstn 9 created) [u "Power"] _ _ _ _ (adds_ds _ _ _)).
  refine (adds_trans (firstn 8 created) [u "TemperatureGradient"] _ _ _ _ (adds_ds _ _ _)).
  refine (adds_trans (firstn 7 created) [u "Pressure"] _ _ _ _ (adds_ds _ _ _)).
  refine (adds_trans (firstn 6 created) [u "PressureGradient"] _ _ _ _ (adds_ds _ _ _)).
  refine (adds_trans (firstn 5 created) [u "ProductivityIndex"] _ _ _ _ (adds_ds _ _ _)).
  refine (adds_trans (firstn 4 created) [u "Acceleration"] _ _ _ _ (adds_ds _ _ _)).
  refine (adds_trans (firstn 3 created) [u "Velocity"] _ _ _ _ (adds_ds _ _ _)).
  refine (adds_trans (firstn 2 created) [u "Density"] _ _ _ _ (adds_ds _ _ _)).
  refine (adds_trans (firstn 1 created) [u "VolumeRatio"] _ _ _ _ (adds_ds _ _ _)).
  exact (adds_ds _ _ _).
Qed.
(** ... and the names with a product sign *)
Definition others (K : list str) (d d' : kinds) : Prop := forall k l, dget k d' = Some l -> In k K \/ dget k d = Some l.
Lemma others_trans K K' a b c : others K a b -> others K' b c -> others (K ++ K') a c.
Proof. intros H1 H2 k l Hk. rewrite in_app_iff. destruct (H2 k l Hk) as [Hk'|Hl]; [tauto|]. destruct (H1 k l Hl) as [Hk'|Hl']; tauto. Qed.
Lemma others_ds k l d : others [u k] d (ds k l d).
Proof. intros k' l' Hk. unfold ds in Hk. rewrite dget_dset in Hk. destruct (seqb k' (u k)) eqn:Ek; [left; left; symmetry; now apply seqb_eq|]. now right. Qed.
Lemma complete_get d k l' : dget k (complete_products d) = Some l' -> exists l, dget k d = Some l /\ l' = complete l.
Proof.
  induction d as [|[k0 l0] d IH]; cbn [complete_products map dget]; [discriminate|]. destruct (seqb k k0); [|exact IH]. intros [= <-]. exists l0. auto.
Qed.
Lemma others_all d k l' : dget k (all_kinds d) = Some l' -> In k created \/ exists l, dget k (merge_data d) = Some l /\ l' = complete l.
Proof.
  unfold all_kinds. generalize (merge_data d). clear d. intros d0 Hk. apply complete_get in Hk as (l & Hl & E0).
  match type of Hl with dget _ ?x = _ => assert (O : others created d0 x) end.
  { refine (others_trans (firstn 14 created) (skipn 14 created) _ _ _ _ (others_trans [u "Voltage"; u "Current"] [u "Resistance"] _ _ _ (others_trans [u "Voltage"] [u "Current"] _ _ _ (others_ds _ _ _) (others_ds _ _ _)) (others_ds _ _ _))).
    refine (others_trans (firstn 12 created) [u "Capacitance"; u "Charge"] _ _ _ _ (others_trans [u "Capacitance"] [u "Charge"] _ _ _ (others_ds _ _ _) (others_ds _ _ _))).
    refine (others_trans (firstn 11 created) [u "Conductance"] _ _ _ _ (others_ds _ _ _)).
    refine (others_trans (firstn 10 created) [u "Frequency"] _ _ _ _ (others_ds _ _ _)).
    refine (others_trans (firstn 9 created) [u "Power"] _ _ _ _ (others_ds _ _ _)).
    refine (others_trans (firstn 8 created) [u "TemperatureGradient"] _ _ _ _ (others_ds _ _ _)).
    refine (others_trans (firstn 7 created) [u "Pressure"] _ _ _ _ (others_ds _ _ _)).
    refine (others_trans (firstn 6 created) [u "PressureGradient"] _ _ _ _ (others_ds _ _ _)).
    refine (others_trans (firstn 5 created) [u "ProductivityIndex"] _ _ _ _ (others_ds _ _ _)).
    refine (others_trans (firstn 4 created) [u "Acceleration"] _ _ _ _ (others_ds _ _ _)).
    refine (others_trans (firstn 3 created) [u "Velocity"] _ _ _ _ (others_ds _ _ _)).
    refine (others_trans (firstn 2 created) [u "Density"] _ _ _ _ (others_ds _ _ _)).
    refine (others_trans (firstn 1 created) [u "VolumeRatio"] _ _ _ _ (others_ds _ _ _)).
    exact (others_ds _ _ _). }
  destruct (O k l Hl) as [I|I]; [now left|]. right. exists l. auto.
Qed.
Lemma created_plain : forallb plain_class created = true. Proof. vm_compute. reflexivity. Qed.
(** the keys are distinct *)
Lemma distinct_dset k (l : list str) d : distinct_by seqb (map fst d) = true -> distinct_by seqb (map fst (dset k l d)) = true.
Proof.
  induction d as [|[k' l'] d IH]; [reflexivity|]. cbn [map fst distinct_by dset]. intros H. apply andb_true_iff in H as [H1 H2]. destruct (seqb k k') eqn:Ek.
  - apply seqb_eq in Ek. subst k'. cbn [map fst distinct_by]. now rewrite H1, H2.
  - cbn [map fst distinct_by]. rewrite (IH H2), andb_true_r. apply negb_true_iff in H1. apply negb_true_iff. clear - H1 Ek.
    induction d as [|[k1 l1] d IH]; cbn [map fst dset existsb] in *.
    + rewrite orb_false_r. destruct (seqb k' k) eqn:E; [|reflexivity]. apply seqb_eq in E. subst. now rewrite seqb_refl in Ek.
    + apply orb_false_iff in H1 as [H1 H2]. destruct (seqb k k1) eqn:E1.
      * apply seqb_eq in E1. subst k1. cbn [map fst existsb]. now rewrite H1, H2.
      * cbn [map fst existsb]. now rewrite H1, (IH H2).
Qed.
Lemma distinct_all d : distinct_by seqb (map fst (merge_data d)) = true -> distinct_by seqb (map fst (all_kinds d)) = true.
Proof.
  unfold all_kinds. generalize (merge_data d). clear d. intros d0 H.
  assert (C : forall d, map fst (complete_products d) = map fst d).
  { intros d. unfold complete_products. rewrite map_map. apply map_ext. intros [k l]. reflexivity. }
  assert (N : forall k l d, distinct_by seqb (map fst d) = true -> distinct_by seqb (map fst (ds k l d)) = true) by (intros k l d; apply distinct_dset).
  rewrite C.
  assert (N_create_Voltage_Current_Resistance : forall d, distinct_by seqb (map fst d) = true -> distinct_by seqb (map fst (create_Voltage_Current_Resistance d)) = true) by (intros d Hd; unfold create_Voltage_Current_Resistance; cbv zeta; repeat apply N; exact Hd).
  assert (N_create_Capacitance_Charge : forall d, distinct_by seqb (map fst d) = true -> distinct_by seqb (map fst (create_Capacitance_Charge d)) = true) by (intros d Hd; unfold create_Capacitance_Charge; cbv zeta; repeat apply N; exact Hd).
  assert (N_create_Conductance : forall d, distinct_by seqb (map fst d) = true -> distinct_by seqb (map fst (create_Conductance d)) = true) by (intros d Hd; unfold create_Conductance; cbv zeta; repeat apply N; exact Hd).
  assert (N_create_Frequency : forall d, distinct_by seqb (map fst d) = true -> distinct_by seqb (map fst (create_Frequency d)) = true) by (intros d Hd; unfold create_Frequency; cbv zeta; repeat apply N; exact Hd).
  assert (N_create_Power : forall d, distinct_by seqb (map fst d) = true -> distinct_by seqb (map fst (create_Power d)) = true) by (intros d Hd; unfold create_Power; cbv zeta; repeat apply N; exact Hd).
  assert (N_create_TemperatureGradient : forall d, distinct_by seqb (map fst d) = true -> distinct_by seqb (map fst (create_TemperatureGradient d)) = true) by (intros d Hd; unfold create_TemperatureGradient; cbv zeta; repeat apply N; exact Hd).
  assert (N_create_Pressure : forall d, distinct_by seqb (map fst d) = true -> distinct_by seqb (map fst (create_Pressure d)) = true) by (intros d Hd; unfold create_Pressure; cbv zeta; repeat apply N; exact Hd).
  assert (N_create_PressureGradient : forall d, distinct_by seqb (map fst d) = true -> distinct_by seqb (map fst (create_PressureGradient d)) = true) by (intros d Hd; unfold create_PressureGradient; cbv zeta; repeat apply N; exact Hd).
  assert (N_create_ProductivityIndex : forall d, distinct_by seqb (map fst d) = true -> distinct_by seqb (map fst (create_ProductivityIndex d)) = true) by (intros d Hd; unfold create_ProductivityIndex; cbv zeta; repeat apply N; exact Hd).
  assert (N_create_Acceleration : forall d, distinct_by seqb (map fst d) = true -> distinct_by seqb (map fst (create_Acceleration d)) = true) by (intros d Hd; unfold create_Acceleration; cbv zeta; repeat apply N; exact Hd).
  assert (N_create_Velocity : forall d, distinct_by seqb (map fst d) = true -> distinct_by seqb (map fst (create_Velocity d)) = true) by (intros d Hd; unfold create_Velocity; cbv zeta; repeat apply N; exact Hd).
  assert (N_create_Density : forall d, distinct_by seqb (map fst d) = true -> distinct_by seqb (map fst (create_Density d)) = true) by (intros d Hd; unfold create_Density; cbv zeta; repeat apply N; exact Hd).
  assert (N_create_VolumeRatio : forall d, distinct_by seqb (map fst d) = true -> distinct_by seqb (map fst (create_VolumeRatio d)) = true) by (intros d Hd; unfold create_VolumeRatio; cbv zeta; repeat apply N; exact Hd).
  assert (N_create_Rates : forall d, distinct_by seqb (map fst d) = true -> distinct_by seqb (map fst (create_Rates d)) = true) by (intros d Hd; unfold create_Rates; cbv zeta; repeat apply N; exact Hd).
  apply N_create_Voltage_Current_Resistance. apply N_create_Capacitance_Charge. apply N_create_Conductance. apply N_create_Frequency. apply N_create_Power. apply N_create_TemperatureGradient. apply N_create_Pressure. apply N_create_PressureGradient. apply N_create_ProductivityIndex. apply N_create_Acceleration. apply N_create_Velocity. apply N_create_Density. apply N_create_VolumeRatio. apply N_create_Rates. exact H.
Qed.
Local Opaque all_kinds merge_data.

(** ** Names that can be written between quotes *)
Lemma unescape_length x : forall y, unescape x = Some y -> (length y <= length x)%nat /\ (length y = length x -> forall c, In c x -> c <> 92 /\ c <> 10 /\ c <> 13 /\ c <> 0)%N.
Proof.
  assert (G : forall n x, (length x <= n)%nat -> forall y, unescape x = Some y ->
    (length y <= length x)%nat /\ (length y = length x -> forall c, In c x -> c <> 92 /\ c <> 10 /\ c <> 13 /\ c <> 0)%N).
  { induction n as [|n IH]; intros z Hn y Hy.
    - destruct z as [|c z]; [|cbn in Hn; lia]. injection Hy as <-. split; [reflexivity|]. intros _ c [].
    - destruct z as [|c z]; [injection Hy as <-; split; [reflexivity|]; intros _ c []|]. cbn [length] in Hn.
      destruct (N.eq_dec c 92) as [->|N1].
      + cbn [unescape] in Hy. destruct z as [|c' z]; [discriminate Hy|]. destruct (N.eq_dec c' 92) as [->|N2].
        * destruct (unescape z) as [y'|] eqn:Ey; [|discriminate Hy]. injection Hy as <-. destruct (IH z ltac:(cbn in Hn; lia) y' Ey) as [L _]. cbn [length]. split; [lia|]. intros X. lia.
        * exfalso. clear - Hy N2. repeat match type of Hy with context [match ?p with _ => _ end] => is_var p; destruct p; try congruence; try discriminate end.
      + destruct (N.eq_dec c 10) as [->|N2]; [discriminate Hy|]. destruct (N.eq_dec c 13) as [->|N3]; [discriminate Hy|]. destruct (N.eq_dec c 0) as [->|N4]; [discriminate Hy|].
        rewrite (unescape_other c z N1 N2 N3 N4) in Hy. destruct (unescape z) as [y'|] eqn:Ey; [|discriminate Hy]. injection Hy as <-.
        destruct (IH z ltac:(lia) y' Ey) as [L G]. cbn [length]. split; [lia|]. intros X c0 [<-|I]; [auto|]. apply G; [lia|exact I]. }
  intros y. exact (G (length x) x (le_n _) y).
Qed.
Lemma literal_quotable x : literal x = Some x -> quotable_name x.
Proof.
  unfold literal. destruct (cmem (quote_of x) x) eqn:Q; [intros X; discriminate X|]. intros U. destruct (unescape_length x x U) as [_ G]. specialize (G eq_refl).
  assert (Q' : ~ In 39 x \/ ~ In 34 x).
  { unfold quote_of in Q. destruct (cmem 39 x) eqn:Z; [right|left]; now apply cmem_false. }
  repeat split; [| | | |exact Q']; intros I; destruct (G _ I) as (G1 & G2 & G3 & G4); congruence.
Qed.
Definition twin (x : str) : str := (x ++ u "/" ++ x)%list.
Lemma twin_quotable x : quotable_name x -> quotable_name (twin x).
Proof.
  assert (G : forall c, c <> 47 -> ~ In c x -> ~ In c (twin x)).
  { intros c Hc N I. unfold twin in I. rewrite !in_app_iff in I. destruct I as [I|[I|I]]; [contradiction| |contradiction]. cbn in I. destruct I as [I|[]]. congruence. }
  intros (N1 & N2 & N3 & N4 & N5). repeat split; try (apply G; [discriminate|assumption]). destruct N5 as [N5|N5]; [left|right]; (apply G; [discriminate|assumption]).
Qed.
Lemma strip_first x c r : strip x = x -> x = c :: r \/ x = (r ++ [c])%list -> cmem c wspace = false.
Proof.
  intros Hs [->|Hx].
  - destruct (cmem c wspace) eqn:Z; [|reflexivity]. exfalso. unfold strip, strip_chars in Hs.
    assert (L : (length (rstrip_chars wspace (lstrip_chars wspace (c :: r))) <= length r)%nat).
    { cbn [lstrip_chars]. rewrite Z. destruct (lstrip_parts wspace r) as (p & E1 & _). unfold rstrip_chars. rewrite rev_length.
      destruct (lstrip_parts wspace (rev (lstrip_chars wspace r))) as (p' & E2 & _). apply (f_equal (@length _)) in E1, E2. rewrite app_length in E1, E2. rewrite rev_length in E2. lia. }
    rewrite Hs in L. cbn [length] in L. lia.
  - destruct (cmem c wspace) eqn:Z; [|reflexivity]. exfalso. unfold strip, strip_chars in Hs.
    destruct (lstrip_parts wspace x) as (p & E1 & _). set (y := lstrip_chars wspace x) in *. clearbody y.
    assert (Ly : (length (rstrip_chars wspace y) <= length y)%nat).
    { unfold rstrip_chars. rewrite rev_length. destruct (lstrip_parts wspace (rev y)) as (p' & E2 & _). apply (f_equal (@length _)) in E2. rewrite app_length, rev_length in E2. lia. }
    assert (p = []) as ->. { apply (f_equal (@length _)) in E1. rewrite app_length in E1. rewrite Hs in Ly. destruct p; [reflexivity|cbn [length] in E1; lia]. }
    cbn [Datatypes.app] in E1. subst y. assert (L : (length (rstrip_chars wspace x) < length x)%nat).
    { unfold rstrip_chars. rewrite rev_length, Hx, rev_app_distr, app_length. cbn [rev Datatypes.app lstrip_chars length]. rewrite Z.
      destruct (lstrip_parts wspace (rev r)) as (p' & E2 & _). apply (f_equal (@length _)) in E2. rewrite app_length, rev_length in E2. lia. }
    rewrite Hs in L. lia.
Qed.
Lemma lstrip_keep cs c r : cmem c cs = false -> lstrip_chars cs (c :: r) = c :: r.
Proof. intros Hc. cbn [lstrip_chars]. now rewrite Hc. Qed.
Lemma twin_strip x : x <> [] -> strip x = x -> strip (twin x) = twin x.
Proof.
  intros Hn Hs. destruct x as [|c r]; [congruence|]. pose proof (strip_first _ c r Hs (or_introl eq_refl)) as Hc.
  destruct (exists_last Hn) as (r' & c' & Er). pose proof (strip_first _ c' r' Hs (or_intror Er)) as Hc'.
  unfold strip, strip_chars. assert (E1 : lstrip_chars wspace (twin (c :: r)) = twin (c :: r)) by exact (lstrip_keep wspace c _ Hc). rewrite E1.
  unfold rstrip_chars. rewrite <- (rev_involutive (twin (c :: r))) at 2. f_equal.
  assert (E2 : exists z, rev (twin (c :: r)) = c' :: z).
  { unfold twin. rewrite !rev_app_distr, Er, rev_app_distr. cbn [rev Datatypes.app]. eexists. reflexivity. }
  destruct E2 as (z & ->). exact (lstrip_keep wspace c' z Hc').
Qed.
Lemma twin_split x : ~ In c_slash x -> csplit c_slash (twin x) = [x; x].
Proof.
  intros Hn. unfold twin. change (x ++ u "/" ++ x)%list with (x ++ c_slash :: x)%list. rewrite (csplit_app_sep c_slash x x Hn), csplit_no by exact Hn. reflexivity.
Qed.
Lemma twin_twin x : x <> [] -> ~ In c_slash x -> twin_b (twin x) = true.
Proof. intros Hn Hs. unfold twin_b. rewrite (twin_split x Hs), seqb_refl. destruct x; [congruence|reflexivity]. Qed.
Lemma uncertain_whole : forallb (fun x => negb (cmem c_slash x)) shipped_uncertain = true. Proof. vm_compute. reflexivity. Qed.

Section W.
Context (cs : list ShippedCert.crow) (d : db Qc).
Context (H : check_db cs d = true).
Local Notation g := (db_net d).
Local Notation kd := (merge_data (db_kinds d)).
Context {F : Floats} {P : Pow} {E : Eval}.
Context (s : st Qc) (S : session_of d s) (Hs : searches (s_par s)) (Hb : forall b, fv_of s = Ok b -> (0 < b)%Qc).
Local Open Scope Qc_scope.
Notation era := (era d s). Notation qof := (qof d).
Lemma entry_user (dd dd' : kinds) k l : but_users dd = but_users dd' -> In (k, l) dd -> k <> u "UserUnits" -> In (k, l) dd'.
Proof.
  intros B I Hk. assert (I' : In (no_users (k, l)) (but_users dd)) by now apply in_map. rewrite B in I'. apply in_map_iff in I' as ([k' l'] & E1 & E2).
  unfold no_users in E1. cbn [fst] in E1. destruct (seqb k (u "UserUnits")) eqn:Z; [apply seqb_eq in Z; contradiction|].
  destruct (seqb k' (u "UserUnits")) eqn:Z'; injection E1 as -> E1; [congruence|]. now subst.
Qed.
Lemma first_twin x w k : era w -> x <> [] -> simple x -> first_kind (twin x) w = Some k ->
  k = u "UserUnits" \/ (smem k classes = true /\ ~ In k odd_kinds /\ k <> u "UserUnits" /\ smem (twin x) (class_units k w) = true).
Proof.
  intros Hw Hn Hx Hf. unfold first_kind in Hf. destruct (find _ (w_kinds w)) as [[k' l]|] eqn:Ef; [|discriminate Hf]. injection Hf as <-. apply find_some in Ef as [E1 E2]. cbn [fst snd] in *.
  destruct (seqb k' (u "UserUnits")) eqn:Eu; [left; now apply seqb_eq|right]. assert (Nu : k' <> u "UserUnits") by now apply seqb_neq.
  pose proof Hw as (_ & Kd & _). rewrite world_kinds in Kd. pose proof (entry_user _ _ k' l Kd E1 Nu) as E3.
  pose proof (distinct_get _ k' l (distinct_all _ (gen_keys cs d H)) E3) as E4.
  assert (Cu : smem (twin x) (class_units k' w) = true).
  { rewrite (class_get d s k' w Hw Eu). unfold class_units. rewrite world_kinds, E4. exact E2. }
  apply smem_In in E2. destruct (adds_all (db_kinds d) k' l E4) as [Hc|(l0 & L0 & G)].
  - pose proof (proj1 (forallb_forall _ _) created_plain k' Hc) as Hp. destruct (plain_parts k' Hp) as (P1 & P2 & P3 & P4 & P5 & P6 & P7).
    split; [exact P1|]. split; [|split; [exact Nu|exact Cu]]. intros I. cbn [odd_kinds map In] in I. destruct I as [I|[I|[I|[]]]]; subst k'; [discriminate P1|discriminate P4|discriminate P5].
  - assert (Ns : ~ In c_star (twin x)).
    { intros I. unfold twin in I. rewrite !in_app_iff in I. destruct I as [I|[I|I]]; [exact (proj2 Hx I)| |exact (proj2 Hx I)]. cbn in I. destruct I as [I|[]]. discriminate I. }
    pose proof (G _ Ns E2) as I0. assert (No : ~ In k' odd_kinds).
    { intros I. pose proof (gen_twin cs d H k' (twin x) I (ex_intro _ l0 (conj L0 I0))) as X. rewrite (twin_twin x Hn (proj1 Hx)) in X. discriminate X. }
    split; [|split; [exact No|split; [exact Nu|exact Cu]]].
    destruct (gen_order_keys cs d H) as (A & B & Ek & Ha & Hb').
    assert (I : In k' (map fst kd)) by exact (in_map fst _ _ (dget_In _ _ _ L0)). rewrite Ek, map_app, Hb', in_app_iff in I. destruct I as [I|I].
    + destruct (Ha _ I) as [_ [I'|I']]; [now apply smem_In|]. exfalso. apply No. rewrite I'. right. now left.
    + cbn [late_kinds map In] in I. destruct I as [I|[I|[I|[]]]]; [congruence| |subst k'; reflexivity]. exfalso. apply No. left. exact I.
Qed.
Lemma ratio_units x v w : era w -> x <> [] -> simple x -> literal x = Some x -> strip x = x ->
  exists k w', units_of v (twin x) w = (Ok (PQ (Qty k (twin x) v)), w') /\ later w w'.
Proof.
  intros Hw Hn Hx Hl Ht. unfold units_of, units. cbn [wbind]. rewrite (twin_strip x Hn Ht). unfold wbind, wget. rewrite (era_uncertain d s S w Hw).
  pose proof (literal_of (twin x) (twin_quotable x (literal_quotable x Hl))) as Lt. pose proof (twin_strip x Hn Ht) as St.
  assert (L : later w (add_user (twin x) w)) by (apply later_add_user; exact (era_user cs d H s w Hw)).
  destruct (smem (twin x) shipped_uncertain) eqn:Eu.
  { exfalso. apply smem_In in Eu. pose proof (proj1 (forallb_forall _ _) uncertain_whole _ Eu) as X. cbn beta in X. apply negb_true_iff, cmem_false in X. apply X.
    unfold twin. rewrite !in_app_iff. right. left. now left. }
  destruct (first_kind (twin x) w) as [k|] eqn:Ef.
  - unfold units_kind. rewrite Lt. unfold wbind, construct. destruct (first_twin x w k Hw Hn Hx Ef) as [-> |(K1 & K2 & K3 & K4)].
    + change (is_k (u "UserUnits") "Unit") with false. change (is_k (u "UserUnits") "UserUnits") with true. cbv iota zeta. rewrite St. cbn [wret q_kind q_unit].
      change (is_k (u "UserUnits") "Percentage") with false. exists (u "UserUnits"), (add_user (twin x) w). split; [reflexivity|exact L].
    + assert (N1 : is_k k "Unit" = false) by (destruct (is_k k "Unit") eqn:Z; [apply seqb_eq in Z; subst k; discriminate K1|reflexivity]).
      assert (N2 : is_k k "UserUnits" = false) by (apply seqb_neq; exact K3).
      assert (N3 : is_k k "Date" = false) by (apply seqb_neq; intros ->; apply K2; right; left; reflexivity).
      assert (N4 : is_k k "Percentage" = false) by (apply seqb_neq; intros ->; apply K2; right; right; left; reflexivity).
      rewrite N1, N2, N3, K1, K4, N4. cbn [wret q_kind q_unit]. rewrite N4. exists k, w. split; [reflexivity|apply later_refl].
  - unfold construct. change (is_k (u "UserUnits") "Unit") with false. change (is_k (u "UserUnits") "UserUnits") with true. cbv iota zeta. rewrite St.
    exists (u "UserUnits"), (add_user (twin x) w). split; [reflexivity|exact L].
Qed.
Section M.
Context (m : scale) (b : Qc) (Hb0 : forall w, era w -> fvf_is b (w_st w)) (M0 : forall x, 0 < k_of m x)
 (M1 : forall k s l v w f t uc, session_of d s -> Forall keeps l -> fvf_is b (do_calls l s) -> unit_name f -> unit_name t ->
        listed_in kd k f -> listed_in kd k t -> ~ In k contradictory_kinds -> ~ In k rule_kinds ->
        fst (convert (VNum v) (UStr f) (UStr t) uc (do_calls l s)) = Ok (Some (CVal w)) -> w = rescale m f t v).
(** ** The name of the quotient *)
Section N.
Context (k x y : str) (Hk : In k square_kinds) (Lx : listed_in kd k x) (Ly : listed_in kd k y) (Bx : letters_b x = true) (By : letters_b y = true).
Let Hkm := km k Hk.
Lemma division_same n z w : era w -> (1 <= n)%nat -> listed_in kd k z -> letters_b z = true ->
  exists w', run (unit_op unitless_names n true (Some z) (Some z)) w = (Ok (twin z), w') /\ later w w'.
Proof.
  intros Hw Hn Lz Bz. destruct n as [|n]; [lia|]. destruct (gen_square cs d H k z Hk Lz Bz) as (_ & _ & U & _).
  pose proof (letters_plain z Bz) as Pz. cbn [unit_op]. rewrite (norm_unit z (proj1 Pz)), U, seqb_refl. cbn [negb andb].
  rewrite (run_bind _ _ _ _ _ (run_ret false w)). cbv iota.
  rewrite (ubp_alone z (proj1 (proj2 Pz))). rewrite !(run_bind _ _ _ _ _ (run_lift (Ok (z, PI 1)) w)).
  change (p_eqZ (PI 1) (-1)) with false. cbn [negb andb].
  destruct (convertible_total cs d H s S Hs k z z w Hw Hkm (proj1 Pz) (proj1 Pz) Lz Lz) as (w1 & R1 & L1). unfold convertible_ in R1.
  rewrite (run_bind _ _ _ _ _ R1). cbv iota. exists w1. split; [|exact L1]. change (p_sub (PI 1) (PI 1)) with (PI 0). change (spell z (PI 0)) with (twin z).
  unfold twin. rewrite (reduce_ratio z false (plain_is_name z Pz)). exact (run_lift _ w1).
Qed.
Lemma quotient_name w : era w -> exists w', division_name x y w = (Ok (twin x), w') /\ later w w'.
Proof.
  intros Hw. unfold division_name, unit_division. pose proof (op_fuel_3 (Some x) (Some y)) as Hf. destruct (op_fuel (Some x) (Some y)) as [|[|n]]; [lia|lia|].
  destruct (seqb x y) eqn:Exy.
  - apply seqb_eq in Exy. rewrite <- Exy. apply division_same; [exact Hw|lia|exact Lx|exact Bx].
  - destruct (gen_square cs d H k x Hk Lx Bx) as (_ & _ & U1 & _). destruct (gen_square cs d H k y Hk Ly By) as (_ & _ & U2 & _).
    pose proof (letters_plain x Bx) as Px. pose proof (letters_plain y By) as Py.
    cbn [unit_op]. fold (unit_op (V:=Qc) unitless_names n). rewrite (norm_unit x (proj1 Px)), (norm_unit y (proj1 Py)), U1, U2, Exy. cbn [negb andb].
    destruct (convertible_total cs d H s S Hs k x y w Hw Hkm (proj1 Px) (proj1 Py) Lx Ly) as (w1 & R1 & L1). unfold convertible_ in R1. rewrite (run_bind _ _ _ _ _ R1). cbv iota.
    destruct (division_same (Datatypes.S n) x w1 (era_later d s _ _ Hw L1) ltac:(lia) Lx Bx) as (w2 & R2 & L2). exists w2. split; [exact R2|exact (later_trans _ _ _ L1 L2)].
Qed.
(** [a / b] and [a // b] of one kind *)
Lemma ratio_total dv va vb v w : era w -> dv va (rescale m y x vb) = Ok v ->
  exists k2 w', div_qty dv (Qty k x va) (Qty k y vb) w = (Ok (PQ (Qty k2 (twin x) v)), w') /\ later w w'.
Proof.
  intros Hw Hv. pose proof (letters_plain x Bx) as Px. pose proof (letters_plain y By) as Py. destruct (gen_quotable cs d H k x Lx) as [Q1 Q2].
  unfold div_qty. cbn [q_kind q_unit q_val]. rewrite (kparts k Hk). cbn [andb negb].
  assert (Pk : is_k k "Percentage" = false) by (pose proof (kparts k Hk) as X; unfold kindless in X; now apply orb_false_iff in X as [_ X]). rewrite Pk. cbn [andb].
  assert (G : forall w0, era w0 -> exists k2 w', wbind (wlift (Ok v)) (fun v => wbind (division_name x y) (fun n => units_of v n)) w0 = (Ok (PQ (Qty k2 (twin x) v)), w') /\ later w0 w').
  { intros w0 Hw0. unfold wbind at 1, wlift. destruct (quotient_name w0 Hw0) as (w1 & R1 & L1). rewrite (wbind_ok _ _ _ _ _ R1).
    destruct (ratio_units x v w1 (era_later d s _ _ Hw0 L1) (proj1 (proj2 (proj1 Px))) (proj1 (proj1 Px)) Q1 Q2) as (k2 & w2 & R2 & L2). exists k2, w2.
    split; [exact R2|exact (later_trans _ _ _ L1 L2)]. }
  destruct (seqb x y) eqn:Exy.
  - apply seqb_eq in Exy. subst y. rewrite rescale_id in Hv by exact (size_nz m M0 x). rewrite Hv. exact (G w Hw).
  - destruct (convertible_total cs d H s S Hs k y x w Hw Hkm (proj1 Py) (proj1 Px) Ly Lx) as (w1 & R1 & L1). rewrite (wbind_ok _ _ _ _ _ R1). cbv iota.
    pose proof (era_later d s _ _ Hw L1) as Hw1.
    destruct (conv_num_total cs d H s S Hs m b Hb0 M1 k vb y x w1 Hw1 Hkm (proj1 Py) (proj1 Px) Ly Lx) as (w2 & R2 & L2). rewrite (wbind_ok _ _ _ _ _ R2), Hv.
    pose proof (era_later d s _ _ Hw1 L2) as Hw2. destruct (G w2 Hw2) as (k2 & w3 & R3 & L3). exists k2, w3. split; [exact R3|].
    exact (later_trans _ _ _ L1 (later_trans _ _ _ L2 L3)).
Qed.
Lemma ratio_error dv va vb e w : era w -> dv va (rescale m y x vb) = Err e -> fst (div_qty dv (Qty k x va) (Qty k y vb) w) = Err e.
Proof.
  intros Hw Hv. pose proof (letters_plain x Bx) as Px. pose proof (letters_plain y By) as Py.
  unfold div_qty. cbn [q_kind q_unit q_val]. rewrite (kparts k Hk). cbn [andb negb].
  assert (Pk : is_k k "Percentage" = false) by (pose proof (kparts k Hk) as X; unfold kindless in X; now apply orb_false_iff in X as [_ X]). rewrite Pk. cbn [andb].
  destruct (seqb x y) eqn:Exy.
  - apply seqb_eq in Exy. subst y. rewrite rescale_id in Hv by exact (size_nz m M0 x). rewrite Hv. reflexivity.
  - destruct (convertible_total cs d H s S Hs k y x w Hw Hkm (proj1 Py) (proj1 Px) Ly Lx) as (w1 & R1 & L1). rewrite (wbind_ok _ _ _ _ _ R1). cbv iota.
    destruct (conv_num_total cs d H s S Hs m b Hb0 M1 k vb y x w1 (era_later d s _ _ Hw L1) Hkm (proj1 Py) (proj1 Px) Ly Lx) as (w2 & R2 & L2). rewrite (wbind_ok _ _ _ _ _ R2), Hv.
    reflexivity.
Qed.
End N.
(** ** Remainders *)
Lemma mod_total k a c v w : era w -> In k measured_kinds -> qof k a -> qof k c -> first_in kd (q_unit a) = Some k -> ~ In k late_kinds -> ~ In (q_unit a) shipped_uncertain ->
  qmod (q_val a) (rescale m (q_unit c) (q_unit a) (q_val c)) = Ok v ->
  exists w', mod_qty a c w = (Ok (PQ (Qty k (q_unit a) v)), w') /\ later w w'.
Proof.
  intros Hw Hk (Ka & La & Ua) (Kc & Lc & Uc) Hf Hl Hu Hv. pose proof (plain_measured k Hk) as Hp. destruct (plain_parts k Hp) as (P1 & P2 & P3 & P4 & P5 & P6 & P7).
  unfold mod_qty. rewrite Ka, Kc, P7, P5. cbn [andb negb].
  assert (G : forall w0, era w0 -> wbind (wlift (Ok v)) (fun v => units_of v (q_unit a)) w0 = (Ok (PQ (Qty k (q_unit a) v)), w0)).
  { intros w0 Hw0. unfold wbind at 1, wlift. exact (units_first cs d H s S k _ v w0 Hw0 (proj1 Ua) Hf Hl Hp Hu La). }
  destruct (seqb (q_unit a) (q_unit c)) eqn:Exy.
  - apply seqb_eq in Exy. rewrite <- Exy in Hv. rewrite rescale_id in Hv by exact (size_nz m M0 _). rewrite Hv. exists w. split; [exact (G w Hw)|apply later_refl].
  - destruct (convertible_total cs d H s S Hs k (q_unit c) (q_unit a) w Hw Hk Uc Ua Lc La) as (w1 & R1 & L1). rewrite (wbind_ok _ _ _ _ _ R1). cbv iota.
    pose proof (era_later d s _ _ Hw L1) as Hw1.
    destruct (conv_num_total cs d H s S Hs m b Hb0 M1 k (q_val c) (q_unit c) (q_unit a) w1 Hw1 Hk Uc Ua Lc La) as (w2 & R2 & L2). rewrite (wbind_ok _ _ _ _ _ R2), Hv.
    exists w2. split; [exact (G w2 (era_later d s _ _ Hw1 L2))|exact (later_trans _ _ _ L1 L2)].
Qed.
Lemma mod_error k a c e w : era w -> In k measured_kinds -> qof k a -> qof k c ->
  qmod (q_val a) (rescale m (q_unit c) (q_unit a) (q_val c)) = Err e -> fst (mod_qty a c w) = Err e.
Proof.
  intros Hw Hk (Ka & La & Ua) (Kc & Lc & Uc) Hv. pose proof (plain_measured k Hk) as Hp. destruct (plain_parts k Hp) as (P1 & P2 & P3 & P4 & P5 & P6 & P7).
  unfold mod_qty. rewrite Ka, Kc, P7, P5. cbn [andb negb].
  destruct (seqb (q_unit a) (q_unit c)) eqn:Exy.
  - apply seqb_eq in Exy. rewrite <- Exy in Hv. rewrite rescale_id in Hv by exact (size_nz m M0 _). rewrite Hv. reflexivity.
  - destruct (convertible_total cs d H s S Hs k (q_unit c) (q_unit a) w Hw Hk Uc Ua Lc La) as (w1 & R1 & L1). rewrite (wbind_ok _ _ _ _ _ R1). cbv iota.
    destruct (conv_num_total cs d H s S Hs m b Hb0 M1 k (q_val c) (q_unit c) (q_unit a) w1 (era_later d s _ _ Hw L1) Hk Uc Ua Lc La) as (w2 & R2 & L2). rewrite (wbind_ok _ _ _ _ _ R2), Hv.
    reflexivity.
Qed.
End M.
End W.
