(** * The dictionary of kinds: what the created names and the user units change *)
From Coq Require Import String QArith Qcanon FMapPositive Lia.
From Verif Require Import Py StrTools Network NetworkFacts Conv Converter EngineSpec OpsFacts2 Demo Dict Database Shipped Operations Units ShippedSpec ShippedCert ShippedCheck ShippedFacts ShippedFacts2.
Local Open Scope N_scope.

(** ** Only composite names are added *)
Definition composite (x : str) : Prop := ~ simple x.
Definition grown (l l' : list str) : Prop := (forall x, In x l -> In x l') /\ forall x, simple x -> In x l' -> In x l.
Inductive ext : kinds -> kinds -> Prop :=
| ext_more e : (forall k l x, In (k, l) e -> In x l -> composite x) -> ext [] e
| ext_next k l l' d d' : grown l l' -> ext d d' -> ext ((k, l) :: d) ((k, l') :: d').
Lemma grown_refl l : grown l l. Proof. split; auto. Qed.
Lemma grown_trans a b c : grown a b -> grown b c -> grown a c.
Proof. intros [H1 H2] [H3 H4]. split; auto. Qed.
Lemma grown_app l m : (forall x, In x m -> composite x) -> grown l (l ++ m).
Proof. intros H. split; intros x; rewrite in_app_iff; [auto|]. intros Hs [K|K]; [exact K|]. exfalso. exact (H x K Hs). Qed.
Lemma ext_refl d : ext d d.
Proof. induction d as [|[k l] d IH]; [apply ext_more; intros ? ? ? []|apply ext_next; [apply grown_refl|exact IH]]. Qed.
Lemma ext_trans : forall a b c, ext a b -> ext b c -> ext a c.
Proof.
  intros a b c H. revert c. induction H as [e He|k l l' d d' Hl H IH]; intros c K.
  - apply ext_more. induction K as [e' He'|k l l' d d' Hl K IH]; [exact He'|].
    intros k0 l0 x [E|E] Hx.
    + injection E as <- <-. intros Hs. apply Hl in Hx; [|exact Hs]. exact (He k l x (or_introl eq_refl) Hx Hs).
    + refine (IH _ k0 l0 x E Hx). intros k1 l1 y Hy. exact (He k1 l1 y (or_intror Hy)).
  - inversion K as [|? ? l2 ? d2 Hl2 K2]; subst. apply ext_next; [exact (grown_trans _ _ _ Hl Hl2)|now apply IH].
Qed.
Lemma ext_set k l d : grown (match dget k d with Some l0 => l0 | None => [] end) l -> ext d (dset k l d).
Proof.
  induction d as [|[k' l'] d IH]; cbn [dget dset]; intros H.
  - apply ext_more. intros k0 l0 x [E|[]] Hx. injection E as <- <-. intros Hs. exact (proj2 H x Hs Hx).
  - destruct (seqb k k'); [apply ext_next; [exact H|apply ext_refl]|]. apply ext_next; [apply grown_refl|now apply IH].
Qed.
Lemma ext_ds k l m d : l = dg k d -> (forall x, In x m -> composite x) -> ext d (ds k (l ++ m) d).
Proof. intros -> H. apply ext_set. unfold dg. now apply grown_app. Qed.
Lemma ext_complete d : ext d (complete_products d).
Proof.
  induction d as [|[k l] d IH]; [apply ext_more; intros ? ? ? []|]. cbn. apply ext_next; [|exact IH].
  split; [intros x Hx; now apply complete_in|]. intros x Hs. now apply complete_simple.
Qed.
Lemma not_simple x c : In c x -> c = c_slash \/ c = c_star -> composite x.
Proof. intros H [->| ->] [H1 H2]; contradiction. Qed.
Lemma joins_composite sep l l' x : (exists c, In c (u sep) /\ (c = c_slash \/ c = c_star)) -> In x (joins sep l l') -> composite x.
Proof.
  intros (c & Hc & Hs) H. unfold joins in H. apply in_flat_map in H as (a & _ & H). apply in_map_iff in H as (b & <- & _).
  apply (not_simple _ c); [|exact Hs]. rewrite !in_app_iff. auto.
Qed.
Lemma slash_sep : exists c, In c (u "/") /\ (c = c_slash \/ c = c_star). Proof. exists c_slash. split; [now left|now left]. Qed.
Lemma star_sep : exists c, In c (u "*") /\ (c = c_slash \/ c = c_star). Proof. exists c_star. split; [now left|now right]. Qed.
Lemma star2_sep : exists c, In c (u "2*") /\ (c = c_slash \/ c = c_star). Proof. exists c_star. split; [right; now left|now right]. Qed.
Ltac composites := intros x Hx; rewrite ?in_app_iff in Hx;
  repeat match type of Hx with _ \/ _ => destruct Hx as [Hx|Hx] end;
  try (refine (joins_composite _ _ _ x _ Hx); first [exact slash_sep|exact star_sep|exact star2_sep]).
Lemma ext_all d : ext (merge_data d) (all_kinds d).
Proof.
  unfold all_kinds. generalize (merge_data d). clear d. intros d0.
  refine (ext_trans _ _ _ _ (ext_complete _)).
  assert (V : forall d, ext d (create_Voltage_Current_Resistance d)).
  { intros d. unfold create_Voltage_Current_Resistance. cbv zeta.
    refine (ext_trans _ _ _ (ext_trans _ _ _ (ext_ds "Voltage" _ _ d eq_refl _) (ext_ds "Current" _ _ _ _ _)) (ext_ds "Resistance" _ _ _ _ _)).
    - composites. - now rewrite dg_ds. - composites. - now rewrite !dg_ds. - composites. }
  assert (C : forall d, ext d (create_Capacitance_Charge d)).
  { intros d. unfold create_Capacitance_Charge. cbv zeta.
    refine (ext_trans _ _ _ (ext_ds "Capacitance" _ _ d eq_refl _) (ext_ds "Charge" _ _ _ _ _)); [composites|now rewrite dg_ds|composites]. }
  refine (ext_trans _ _ _ _ (V _)). refine (ext_trans _ _ _ _ (C _)). clear V C.
  refine (ext_trans _ _ _ _ (ext_ds "Conductance" _ _ _ eq_refl _)); [|intros x Hx; apply in_map_iff in Hx as (y & <- & _); apply (not_simple _ c_slash); [right; now left|now left]].
  refine (ext_trans _ _ _ _ (ext_ds "Frequency" _ _ _ eq_refl _)); [|intros x Hx; apply in_map_iff in Hx as (y & <- & _); apply (not_simple _ c_slash); [right; now left|now left]].
  refine (ext_trans _ _ _ _ (ext_ds "Power" _ _ _ eq_refl _)).
  2:{ composites. apply in_map_iff in Hx as (y & <- & Hx). unfold joins in Hx. apply in_flat_map in Hx as (a & _ & Hx). apply in_map_iff in Hx as (b & <- & _).
      apply (not_simple _ c_star); [|now right]. rewrite !in_app_iff. left. right. left. now left. }
  refine (ext_trans _ _ _ _ (ext_ds "TemperatureGradient" _ _ _ eq_refl _)); [|composites].
  refine (ext_trans _ _ _ _ (ext_ds "Pressure" _ _ _ eq_refl _)); [|composites].
  refine (ext_trans _ _ _ _ (ext_ds "PressureGradient" _ _ _ eq_refl _)); [|composites].
  refine (ext_trans _ _ _ _ (ext_ds "ProductivityIndex" _ _ _ eq_refl _)); [|composites].
  refine (ext_trans _ _ _ _ (ext_ds "Acceleration" _ _ _ eq_refl _)).
  2:{ intros x Hx. apply in_flat_map in Hx as (a & _ & Hx). apply in_flat_map in Hx as (t1 & _ & Hx). apply in_map_iff in Hx as (t2 & <- & _).
      apply (not_simple _ c_slash); [|now left]. destruct (seqb t1 t2); rewrite !in_app_iff; right; left; now left. }
  refine (ext_trans _ _ _ _ (ext_ds "Velocity" _ _ _ eq_refl _)); [|composites].
  refine (ext_trans _ _ _ _ (ext_ds "Density" _ _ _ eq_refl _)); [|composites].
  refine (ext_trans _ _ _ _ (ext_ds "VolumeRatio" _ _ _ eq_refl _)); [|composites].
  refine (ext_ds "Rate" _ _ d0 eq_refl _). composites.
Qed.
Lemma ext_get d d' k l : ext d d' -> dget k d = Some l -> exists l', dget k d' = Some l' /\ grown l l'.
Proof.
  induction 1 as [e He|k' l1 l2 d d' Hl H IH]; cbn [dget]; [discriminate|]. destruct (seqb k k'); [|exact IH]. intros [= ->]. eauto.
Qed.
Lemma ext_keys d d' : ext d d' -> exists e, map fst d' = map fst d ++ e.
Proof.
  induction 1 as [e He|k' l1 l2 d d' Hl H (e & IH)]; [exists (map fst e); reflexivity|]. exists e. cbn [map fst Datatypes.app]. now rewrite IH.
Qed.
Lemma grown_mem l l' x : grown l l' -> simple x -> smem x l' = smem x l.
Proof.
  intros [H1 H2] Hs. destruct (smem x l) eqn:E; [apply smem_In in E; apply smem_In; auto|]. apply not_true_is_false. intros K. apply smem_In in K.
  apply H2 in K; [|exact Hs]. apply smem_In in K. congruence.
Qed.
Lemma ext_first d d' x : ext d d' -> simple x -> first_in d' x = first_in d x.
Proof.
  intros H Hs. unfold first_in. induction H as [e He|k' l1 l2 d d' Hl H IH].
  - cbn [find option_map]. destruct (find _ e) as [[k l]|] eqn:E; [|reflexivity]. apply find_some in E as [E1 E2]. exfalso.
    apply smem_In in E2. exact (He k l x E1 E2 Hs).
  - cbn [find snd]. rewrite (grown_mem _ _ _ Hl Hs). destruct (smem x l1); [reflexivity|exact IH].
Qed.

(** ** User units *)
Definition no_users (kl : str * list str) : str * list str := if seqb (fst kl) (u "UserUnits") then (fst kl, []) else kl.
Definition but_users (d : kinds) : kinds := map no_users d.
Lemma but_users_keys d d' : but_users d = but_users d' -> map fst d = map fst d'.
Proof.
  revert d'. induction d as [|[k l] d IH]; intros [|[k' l'] d']; cbn [but_users map]; try discriminate; [reflexivity|]. intros H. injection H as E H.
  cbn [fst]. f_equal; [|now apply IH]. unfold no_users in E. cbn [fst] in E. destruct (seqb k _), (seqb k' _); congruence.
Qed.
Lemma but_users_get d d' k : but_users d = but_users d' -> seqb k (u "UserUnits") = false -> dget k d = dget k d'.
Proof.
  intros H Hk. revert d' H. induction d as [|[k1 l1] d IH]; intros [|[k2 l2] d'] H; try discriminate; [reflexivity|]. injection H as E H. cbn [dget].
  pose proof E as E0. unfold no_users in E0. cbn [fst] in E0.
  destruct (seqb k1 (u "UserUnits")) eqn:E1, (seqb k2 (u "UserUnits")) eqn:E2.
  - injection E0 as E0. apply seqb_eq in E1. subst k1. subst k2. rewrite Hk. now apply IH.
  - injection E0 as E0 E3. rewrite E0, E2 in E1. discriminate E1.
  - injection E0 as E0 E3. rewrite E0, E2 in E1. discriminate E1.
  - injection E0 as E0 E3. subst k2 l2. destruct (seqb k k1); [reflexivity|now apply IH].
Qed.
Lemma but_users_set l d : dget (u "UserUnits") d <> None -> but_users (dset (u "UserUnits") l d) = but_users d.
Proof.
  induction d as [|[k l0] d IH]; cbn [dget dset]; [congruence|]. destruct (seqb (u "UserUnits") k) eqn:E.
  - intros _. cbn [but_users map]. f_equal. apply seqb_eq in E. subst k. reflexivity.
  - intros H. cbn [but_users map]. f_equal. now apply IH.
Qed.
(** the kinds before the user units *)
Lemma but_users_first A B d x k : ~ In (u "UserUnits") (map fst A) -> but_users d = but_users (A ++ B) -> first_in A x = Some k -> first_in d x = Some k.
Proof.
  revert d. induction A as [|[k1 l1] A IH]; intros d Hn H Hf; [discriminate|]. destruct d as [|[k2 l2] d]; [discriminate|]. injection H as E H.
  assert (N1 : seqb k1 (u "UserUnits") = false) by (apply seqb_neq; intros ->; apply Hn; now left).
  unfold no_users in E. cbn [fst] in E. rewrite N1 in E. destruct (seqb k2 (u "UserUnits")) eqn:N2; injection E as -> E.
  { rewrite N1 in N2. discriminate N2. }
  subst l2. unfold first_in in *. cbn [find snd] in *. destruct (smem x l1); [exact Hf|]. apply IH; [|exact H|exact Hf]. intros K. apply Hn. now right.
Qed.
Lemma but_users_none d d' x : but_users d = but_users d' -> first_in (but_users d') x = None -> first_in d x = None \/ first_in d x = Some (u "UserUnits").
Proof.
  intros H. rewrite <- H. clear H. unfold first_in. induction d as [|[k l] d IH]; [now left|]. cbn [but_users map find]. unfold no_users at 1. cbn [fst].
  destruct (seqb k (u "UserUnits")) eqn:E.
  - cbn [snd]. intros H. destruct (smem x l); [right; apply seqb_eq in E; now subst|]. now apply IH.
  - cbn [snd]. destruct (smem x l); [discriminate|]. exact IH.
Qed.
Lemma first_but_users d x : first_in d x = None -> first_in (but_users d) x = None.
Proof.
  unfold first_in. induction d as [|[k l] d IH]; [reflexivity|]. cbn [but_users map find snd]. destruct (smem x l) eqn:E; [discriminate|]. intros H.
  unfold no_users. cbn [fst]. destruct (seqb k _); cbn [snd]; [exact (IH H)|]. rewrite E. exact (IH H).
Qed.
(** splitting *)
Lemma ext_split A : forall B d', ext (A ++ B) d' -> exists A' B', d' = (A' ++ B')%list /\ map fst A' = map fst A /\ ext A A' /\ ext B B' .
Proof.
  induction A as [|[k l] A IH]; intros B d' H.
  - exists [], d'. repeat split; try reflexivity; [apply ext_refl|exact H].
  - cbn [Datatypes.app] in H. inversion H as [|k0 l0 l' d0 d'' Hl H']; subst. destruct (IH B d'' H') as (A' & B' & -> & E & X & Y).
    exists ((k, l') :: A'), B'. split; [reflexivity|]. split; [cbn; now f_equal|]. split; [now apply ext_next|exact Y].
Qed.
Lemma first_in_app A B x : first_in (A ++ B) x = match first_in A x with Some k => Some k | None => first_in B x end.
Proof. unfold first_in. induction A as [|[k l] A IH]; [reflexivity|]. cbn [Datatypes.app find snd]. destruct (smem x l); [reflexivity|exact IH]. Qed.
Lemma first_in_key A x k : first_in A x = Some k -> In k (map fst A).
Proof.
  unfold first_in. destruct (find _ A) as [[k' l]|] eqn:E; [|discriminate]. intros [= <-]. apply find_some in E as [E _]. now apply (in_map fst) in E.
Qed.
