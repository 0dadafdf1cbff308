(** * is_unit in a session of the shipped database: facts *)
From Coq Require Import String QArith Qcanon.
From Verif Require Import Py StrTools Network Conv Converter EngineSpec Dict Database Shipped Operations ShippedSpec ShippedCert ShippedCheck ShippedFacts ShippedFacts2 ShippedFacts3 ShippedFacts4 ShippedFacts5 KindFacts
  Units UnitsSpec UnitsFacts UnitsFacts2 UnitsFacts4 UnitsFacts6 IsUnitSpec IsUnitFacts ShippedFacts2.
Local Open Scope N_scope.

(** ** No name has a space next to a sign *)
Lemma pairs_app : forall x p c y, signed c = true -> pairs_ok p x = true -> pairs_ok c_slash y = true -> pairs_ok p (x ++ c :: y) = true.
Proof.
  induction x as [|a x IH]; intros p c y Hc Hx Hy; cbn [Datatypes.app pairs_ok] in *.
  - apply negb_true_iff in Hx. rewrite Hx. cbn [andb orb]. apply andb_true_iff. split.
    + apply negb_true_iff. destruct (signed p); [|reflexivity]. cbn [andb]. destruct (N.eqb_spec c 32) as [->|]; [discriminate Hc|reflexivity].
    + destruct y as [|b y]; cbn [pairs_ok] in *; [destruct (N.eqb_spec c 32) as [->|]; [discriminate Hc|reflexivity]|].
      apply andb_true_iff in Hy as [H1 H2]. rewrite H2, andb_true_r. rewrite Hc. change (signed c_slash) with true in H1. change (c_slash =? 32) with false in H1.
      cbn [andb orb] in H1 |- *. apply negb_true_iff in H1. rewrite H1, orb_false_r. apply negb_true_iff. destruct (N.eqb_spec c 32) as [->|]; [discriminate Hc|reflexivity].
  - apply andb_true_iff in Hx as [H1 H2]. rewrite H1. cbn [andb]. now apply IH.
Qed.
Lemma pairs_two : forall x p, pairs_ok p x = true -> pairs_ok p (x ++ [50]) = true.
Proof.
  induction x as [|a x IH]; intros p Hx; cbn [Datatypes.app pairs_ok] in *.
  - apply negb_true_iff in Hx. rewrite Hx. cbn. destruct (signed p); reflexivity.
  - apply andb_true_iff in Hx as [H1 H2]. rewrite H1. cbn [andb]. now apply IH.
Qed.
Lemma pairs_star : forall a p b, pairs_ok p (a ++ c_star :: b) = true -> pairs_ok p a = true /\ pairs_ok c_star b = true.
Proof.
  induction a as [|x a IH]; intros p b Hx; cbn [Datatypes.app pairs_ok] in *; apply andb_true_iff in Hx as [H1 H2].
  - split; [|exact H2]. destruct (p =? 32); [|reflexivity]. cbn [andb] in H1. change (signed c_star) with true in H1. discriminate H1.
  - apply IH in H2 as [H2 H3]. rewrite H1. now split.
Qed.
Lemma pairs_start b : pairs_ok c_star b = pairs_ok c_slash b. Proof. destruct b; reflexivity. Qed.
Lemma tight_join sep a b : In sep ["/"; "*"]%string -> tight a = true -> tight b = true -> tight (a ++ u sep ++ b) = true.
Proof. intros [<-|[<-|[]]] Ha Hb; unfold tight; apply pairs_app; auto. Qed.
Lemma tight_join2 a b : tight a = true -> tight b = true -> tight (a ++ u "2*" ++ b) = true.
Proof. intros Ha Hb. change (u "2*") with ([50] ++ [c_star])%list. rewrite <- app_assoc, app_assoc. unfold tight. apply pairs_app; [reflexivity| |exact Hb]. now apply pairs_two. Qed.
Lemma tight_swapped x y : tight x = true -> In y (swapped x) -> tight y = true.
Proof.
  intros Hx. unfold swapped. destruct (cmem c_slash x); [intros []|]. destruct (csplit c_star x) as [|a [|b [|]]] eqn:E; try (solve [intros []]).
  intros [<-|[]]. pose proof (csplit_join c_star x) as J. rewrite E in J. cbn [sjoin] in J. subst x. unfold tight in Hx. apply pairs_star in Hx as [H1 H2].
  rewrite pairs_start in H2. apply (tight_join "*"); [right; left; reflexivity| |]; assumption.
Qed.
Definition all_tight (d : kinds) : Prop := forall k l x, In (k, l) d -> In x l -> tight x = true.
Lemma dset_in k l : forall (d : kinds) k' l', In (k', l') (dset k l d) -> In (k', l') d \/ l' = l.
Proof.
  induction d as [|[k0 l0] d IH]; cbn [dset]; intros k' l'.
  - intros [[= <- <-]|[]]. now right.
  - destruct (seqb k k0); intros [I|I]; [injection I as <- <-; now right|left; now right|left; now left|]. destruct (IH _ _ I) as [I'|I']; [left; now right|now right].
Qed.
Lemma tight_dg k d x : all_tight d -> In x (dg k d) -> tight x = true.
Proof. intros H. unfold dg. destruct (dget (u k) d) as [l|] eqn:E; [|intros []]. apply dget_In in E. exact (H _ _ x E). Qed.
Lemma tight_ds k l d : all_tight d -> (forall x, In x l -> tight x = true) -> all_tight (ds k l d).
Proof. intros H Hl k' l' x I Ix. destruct (dset_in _ _ _ _ _ I) as [I'|I']; [exact (H _ _ x I' Ix)|subst l'; now apply Hl]. Qed.
Lemma tight_joins sep l l' x : In sep ["/"; "*"]%string -> (forall y, In y l -> tight y = true) -> (forall y, In y l' -> tight y = true) -> In x (joins sep l l') -> tight x = true.
Proof.
  intros S H1 H2 I. unfold joins in I. apply in_flat_map in I as (a & Ia & I). apply in_map_iff in I as (b & <- & Ib). apply tight_join; auto.
Qed.
Lemma tight_joins2 l l' x : (forall y, In y l -> tight y = true) -> (forall y, In y l' -> tight y = true) -> In x (joins "2*" l l') -> tight x = true.
Proof.
  intros H1 H2 I. unfold joins in I. apply in_flat_map in I as (a & Ia & I). apply in_map_iff in I as (b & <- & Ib). apply tight_join2; auto.
Qed.
Ltac jn := match goal with
  | Hx : In _ (joins "/" _ _) |- _ => apply (tight_joins _ _ _ _ (or_introl eq_refl)) in Hx; [exact Hx| |]; intros ? ?
  | Hx : In _ (joins "*" _ _) |- _ => apply (tight_joins _ _ _ _ (or_intror (or_introl eq_refl))) in Hx; [exact Hx| |]; intros ? ?
  | Hx : In _ (joins "2*" _ _) |- _ => apply tight_joins2 in Hx; [exact Hx| |]; intros ? ?
  | Hd : all_tight ?d, Hx : In _ (dg _ ?d) |- _ => exact (tight_dg _ _ _ Hd Hx)
  end.
Ltac tg := intros x Hx; rewrite ?in_app_iff in Hx; repeat match type of Hx with _ \/ _ => destruct Hx as [Hx|Hx] end; repeat jn.
Lemma t_rates d : all_tight d -> all_tight (create_Rates d). Proof. intros H. apply tight_ds; [exact H|]. tg. Qed.
Lemma t_vr d : all_tight d -> all_tight (create_VolumeRatio d). Proof. intros H. apply tight_ds; [exact H|]. tg. Qed.
Lemma t_density d : all_tight d -> all_tight (create_Density d). Proof. intros H. apply tight_ds; [exact H|]. tg. Qed.
Lemma t_velocity d : all_tight d -> all_tight (create_Velocity d). Proof. intros H. apply tight_ds; [exact H|]. tg. Qed.
Lemma t_power d : all_tight d -> all_tight (create_Power d).
Proof.
  intros H. apply tight_ds; [exact H|]. tg. apply in_map_iff in Hx as (y & <- & Hx). unfold tight. apply pairs_two. change (tight y = true). repeat jn.
Qed.
Lemma tight_over t : tight t = true -> tight (u "1/" ++ t) = true.
Proof. intros Ht. apply (tight_join "/" (u "1") t); [now left|reflexivity|exact Ht]. Qed.
Lemma t_frequency d : all_tight d -> all_tight (create_Frequency d).
Proof. intros H. apply tight_ds; [exact H|]. tg. apply in_map_iff in Hx as (y & <- & Hx). apply tight_over. jn. Qed.
Lemma t_conductance d : all_tight d -> all_tight (create_Conductance d).
Proof. intros H. apply tight_ds; [exact H|]. tg. apply in_map_iff in Hx as (y & <- & Hx). apply tight_over. jn. Qed.
Lemma t_charge d : all_tight d -> all_tight (create_Capacitance_Charge d).
Proof. intros H. unfold create_Capacitance_Charge. cbv zeta. apply tight_ds; [apply tight_ds; [exact H|]|]; tg. Qed.
Lemma t_voltage d : all_tight d -> all_tight (create_Voltage_Current_Resistance d).
Proof. intros H. unfold create_Voltage_Current_Resistance. cbv zeta. apply tight_ds; [apply tight_ds; [apply tight_ds; [exact H|]|]|]; tg. Qed.
Lemma t_pressure d : all_tight d -> all_tight (create_Pressure d). Proof. intros H. apply tight_ds; [exact H|]. tg. Qed.
Lemma t_pi d : all_tight d -> all_tight (create_ProductivityIndex d). Proof. intros H. apply tight_ds; [exact H|]. tg. Qed.
Lemma t_pg d : all_tight d -> all_tight (create_PressureGradient d). Proof. intros H. apply tight_ds; [exact H|]. tg. Qed.
Lemma t_tg d : all_tight d -> all_tight (create_TemperatureGradient d). Proof. intros H. apply tight_ds; [exact H|]. tg. Qed.
Lemma t_acc d : all_tight d -> all_tight (create_Acceleration d).
Proof.
  intros H. apply tight_ds; [exact H|]. tg. apply in_flat_map in Hx as (l & Hl & Hx). apply in_flat_map in Hx as (t1 & H1 & Hx). apply in_map_iff in Hx as (t2 & <- & H2).
  pose proof (tight_dg _ _ _ H Hl) as Tl. pose proof (tight_dg _ _ _ H H1) as T1. pose proof (tight_dg _ _ _ H H2) as T2.
  destruct (seqb t1 t2).
  - apply (tight_join "/"); [now left|exact Tl|]. unfold tight. now apply pairs_two.
  - apply (tight_join "/"); [now left|exact Tl|]. apply (tight_join "/"); [now left|exact T1|exact T2].
Qed.
Lemma t_complete d : all_tight d -> all_tight (complete_products d).
Proof.
  intros H k l x I Ix. unfold complete_products in I. apply in_map_iff in I as ([k' l'] & E & I). injection E as <- <-.
  unfold complete in Ix. apply in_app_or in Ix as [Ix|Ix]; [exact (H _ _ x I Ix)|]. apply in_flat_map in Ix as (y & Iy & Ix). exact (tight_swapped y x (H _ _ y I Iy) Ix).
Qed.
Lemma tight_all d : all_tight (merge_data d) -> all_tight (all_kinds d).
Proof.
  intros H. unfold all_kinds. apply t_complete, t_voltage, t_charge, t_conductance, t_frequency, t_power, t_tg, t_pressure, t_pg, t_pi, t_acc, t_velocity, t_density, t_vr, t_rates, H.
Qed.
Lemma signed_is c : signed c = true -> c = c_slash \/ c = c_star.
Proof. unfold signed. intros H. apply orb_true_iff in H as [H|H]; apply N.eqb_eq in H; auto. Qed.
Lemma neat_pairs : forall x p, (p = 32 -> x <> []) -> (p = 32 -> forall c y, c = c_slash \/ c = c_star -> x <> c :: y) -> (p = c_slash \/ p = c_star -> forall y, x <> 32 :: y) ->
  (forall c a b, c = c_slash \/ c = c_star -> x <> (a ++ 32 :: c :: b)%list /\ x <> (a ++ c :: 32 :: b)%list) -> (forall a, x <> (a ++ [32])%list) -> pairs_ok p x = true.
Proof.
  induction x as [|z x IH]; intros p H1 H2 H3 H4 H5; cbn [pairs_ok].
  - apply negb_true_iff, N.eqb_neq. intros E. exact (H1 E eq_refl).
  - apply andb_true_iff. split.
    + apply negb_true_iff, orb_false_iff. split.
      * destruct (N.eqb_spec p 32) as [E|]; [|reflexivity]. cbn [andb]. destruct (signed z) eqn:Z; [|reflexivity]. exfalso. exact (H2 E z x (signed_is _ Z) eq_refl).
      * destruct (signed p) eqn:Z; [|reflexivity]. cbn [andb]. apply N.eqb_neq. intros E. subst z. exact (H3 (signed_is _ Z) x eq_refl).
    + apply IH.
      * intros -> ->. exact (H5 [] eq_refl).
      * intros -> c y Hc ->. exact (proj1 (H4 c [] y Hc) eq_refl).
      * intros Hz y ->. exact (proj2 (H4 z [] y Hz) eq_refl).
      * intros c a b Hc. split; intros ->; [exact (proj1 (H4 c (z :: a) b Hc) eq_refl)|exact (proj2 (H4 c (z :: a) b Hc) eq_refl)].
      * intros a ->. exact (H5 (z :: a) eq_refl).
Qed.
Lemma neat_tight x : neat x -> tight x = true.
Proof.
  intros [A B]. unfold tight. apply neat_pairs; try (intros D; discriminate D); [intros _ y|exact A|intros a; apply (B a)]. apply (B y).
Qed.
Lemma tight_neat x : tight x = true -> neat x.
Proof.
  intros T. split.
  - intros c a b Hc. assert (Sc : signed c = true) by (destruct Hc as [->| ->]; reflexivity). unfold tight in T. revert T. generalize c_slash at 1. intros p T. split.
    + intros ->. revert p T. induction a as [|z a IH]; intros p T; cbn [Datatypes.app pairs_ok] in T; apply andb_true_iff in T as [T1 T2]; [|exact (IH _ T2)].
      apply andb_true_iff in T2 as [T2 _]. rewrite Sc in T2. discriminate T2.
    + intros ->. revert p T. induction a as [|z a IH]; intros p T; cbn [Datatypes.app pairs_ok] in T; apply andb_true_iff in T as [T1 T2]; [|exact (IH _ T2)].
      apply andb_true_iff in T2 as [T2 _]. rewrite Sc in T2. cbn [andb] in T2. rewrite orb_true_r in T2. discriminate T2.
  - intros a. split; intros ->.
    + cbn in T. discriminate T.
    + unfold tight in T. revert T. generalize c_slash. induction a as [|z a IH]; intros p T; cbn [Datatypes.app pairs_ok] in T; apply andb_true_iff in T as [T1 T2]; [|exact (IH _ T2)]. discriminate T2.
Qed.
Lemma tight_factors x l : factors_of x l -> (forall f, In f l -> tight f = true) -> tight x = true.
Proof.
  intros F. induction F as [x N1 N2|x c y l N1 N2 C F IH]; intros A; [apply A; now left|]. unfold tight. apply pairs_app.
  - destruct C as [->| ->]; reflexivity.
  - apply A. now left.
  - apply IH. intros f I. apply A. now right.
Qed.

Section G.
Context (cs : list ShippedCert.crow) (d : db Qc).
Context (H : check_db cs d = true).
Context {F : Floats} {P : Pow} {E : Eval}.
Notation kd := (merge_data (db_kinds d)).
Notation during_in := (during_in d).
Notation calculating_in := (calculating_in d).
Local Opaque all_kinds merge_data.
Lemma gen_tight : all_tight kd.
Proof.
  intros k l x I Ix. destruct (parts cs d H) as (T & HT & HL & HR & HE & HK & HG & HW & HO & HN & HP & HD & (HC & HC') & HX & HG' & HV & HU & HM & HZ).
  unfold check_units in HZ. rewrite !andb_true_iff in HZ. destruct HZ as ((((Z1 & Z2) & Z3) & (Z4 & (Z6 & (Z7 & Z8)))) & Z5).
  pose proof (proj1 (forallb_forall _ _) Z8 _ I) as G. unfold check_digits in G. cbn [fst snd] in G. apply andb_true_iff in G as [_ G]. exact (proj1 (forallb_forall _ _) G x Ix).
Qed.
Lemma all_listed k x : listed_in kd k x -> exists l, In (k, l) (all_kinds (db_kinds d)) /\ In x l.
Proof. intros L. destruct (gen_class d k x L) as (l & Hl & Il). exists l. split; [exact (dget_In _ _ _ Hl)|exact Il]. Qed.
Lemma gen_named s w x : tame_eval -> during_in s w -> named w x <-> (exists k l, k <> u "UserUnits" /\ In (k, l) (all_kinds (db_kinds d)) /\ In x l) \/ user_named x w.
Proof.
  intros Te D. pose proof (during_era cs d H s w Te D) as (_ & Kd & _ & U). rewrite world_kinds in Kd. split.
  - intros (k & l & I & Ix). destruct (seqb k (u "UserUnits")) eqn:Z; [apply seqb_eq in Z; subst k; right; now exists l|]. left. exists k, l.
    assert (Nk : k <> u "UserUnits") by (intros ->; rewrite seqb_refl in Z; discriminate Z). split; [exact Nk|]. split; [|exact Ix]. exact (entry_user _ _ k l Kd I Nk).
  - intros [(k & l & Nk & I & Ix)|(l & I & Ix)]; [|now exists (u "UserUnits"), l]. exists k, l. split; [|exact Ix]. symmetry in Kd. exact (entry_user _ _ k l Kd I Nk).
Qed.
Lemma gen_listed_named s w k x : tame_eval -> during_in s w -> listed_in kd k x -> named w x.
Proof.
  intros Te D L. destruct (all_listed k x L) as (l & I & Ix). apply (gen_named s w x Te D).
  destruct (seqb k (u "UserUnits")) eqn:Z.
  - right. pose proof (during_era cs d H s w Te D) as (_ & _ & _ & U). apply U. apply seqb_eq in Z. subst k. exists l. rewrite world_kinds. auto.
  - left. exists k, l. split; [|auto]. intros ->. rewrite seqb_refl in Z. discriminate Z.
Qed.
Lemma gen_valid s w x : tame_eval -> during_in s w -> valid_unit (Some x) w = true <-> exists k l, In (k, l) (all_kinds (db_kinds d)) /\ In (strip x) l.
Proof.
  intros Te D. pose proof (during_era cs d H s w Te D) as (_ & _ & Ea & _). unfold valid_unit. rewrite Ea. unfold world_of. cbn [w_all]. rewrite smem_In, in_flat_map. split.
  - intros ([k l] & I & Ix). exists k, l. auto.
  - intros (k & l & I & Ix). exists (k, l). auto.
Qed.
Lemma gen_kept s w l x : tame_eval -> during_in s w -> Forall calm l -> named w x -> named (do_acts l w) x.
Proof.
  intros Te D L (k & l0 & I & Ix).
  pose proof (acts_later Te l w L (era_user cs d H s w (during_era cs d H s w Te D))) as (_ & Kd & _ & U).
  destruct (seqb k (u "UserUnits")) eqn:Z.
  - apply seqb_eq in Z. subst k. destruct (U x (ex_intro _ l0 (conj I Ix))) as (l1 & I1 & I2). now exists (u "UserUnits"), l1.
  - exists k, l0. split; [|exact Ix]. symmetry in Kd. apply (entry_user _ _ k l0 Kd I). intros ->. rewrite seqb_refl in Z. discriminate Z.
Qed.
Lemma gen_neat s w x : tame_eval -> during_in s w -> (forall y, user_named y w -> neat y) -> is_unit x (w_kinds w) = true -> neat (strip x).
Proof.
  intros Te D U I. apply tight_neat. assert (T : forall y, named w y -> tight y = true).
  { intros y N. apply (gen_named s w y Te D) in N as [(k & l & _ & I1 & I2)|N]; [|apply neat_tight, U, N]. exact (tight_all _ gen_tight k l y I1 I2). }
  apply is_unit_exact in I as [I|(l & Fl & A)]; [exact (T _ I)|]. apply (tight_factors _ l Fl). intros f If. apply T, A, If.
Qed.
End G.
Lemma first_none_in (dd : kinds) x : first_in dd x = None -> forall k l, In (k, l) dd -> ~ In x l.
Proof.
  unfold first_in. intros Hf k l I Ix. destruct (find (fun kl => smem x (snd kl)) dd) as [kl|] eqn:Ef; [discriminate Hf|].
  pose proof (find_none _ _ Ef _ I) as Z. cbn [snd] in Z. apply smem_In in Ix. congruence.
Qed.
Section G2.
Context (cs : list ShippedCert.crow) (d : db Qc).
Context (H : check_db cs d = true).
Context {F : Floats} {P : Pow} {E : Eval}.
Notation kd := (merge_data (db_kinds d)).
Local Opaque all_kinds merge_data.
Lemma gen_invalid s w x : tame_eval -> during_in d s w -> simple (strip x) -> (forall k l, In (k, l) kd -> ~ In (strip x) l) -> valid_unit (Some x) w = false.
Proof.
  intros Te D Hs N. destruct (valid_unit (Some x) w) eqn:V; [|reflexivity]. exfalso. apply (gen_valid cs d H s w x Te D) in V as (k & l & I & Ix).
  assert (Z : first_in (all_kinds (db_kinds d)) (strip x) = None) by (rewrite (ext_first _ _ _ (ext_all (db_kinds d)) Hs); exact (first_in_none d _ N)).
  exact (first_none_in _ _ Z k l I Ix).
Qed.
Lemma gen_new_world s w v x n : during_in d s w -> during_in d s (snd (units (PN v) x n w)).
Proof.
  intros (l & L & ->). exists (l ++ [DUnits (PN v) x n])%list. split; [apply Forall_app; split; [exact L|]; constructor; [exact I|constructor]|]. unfold do_acts. now rewrite fold_left_app.
Qed.
End G2.
Lemma ext_back d d' k l x : ext d d' -> dget k d' = Some l -> simple x -> In x l -> exists l0, dget k d = Some l0 /\ In x l0.
Proof.
  intros X. induction X as [e He|k' l1 l2 d d' Hl X IH]; intros G Hs I.
  - apply dget_In in G. exfalso. exact (He _ _ x G I Hs).
  - cbn [dget] in *. destruct (seqb k k'); [|exact (IH G Hs I)]. injection G as ->. exists l1. split; [reflexivity|exact (proj2 Hl x Hs I)].
Qed.
Section G3.
Context (cs : list ShippedCert.crow) (d : db Qc).
Context (H : check_db cs d = true).
Context {F : Floats} {P : Pow} {E : Eval}.
Notation kd := (merge_data (db_kinds d)).
Local Opaque all_kinds merge_data.
Lemma gen_construct s w k v x : tame_eval -> during_in d s w -> In k classes -> simple x ->
  (listed_in kd k x -> construct k (Some v) x w = (Ok (Qty k x (if is_k k "Percentage" then v / Q2Qc 100 else v)%Qc), w))
  /\ (~ listed_in kd k x -> construct k (Some v) x w = (Err WrongUnitsError, w)).
Proof.
  intros Te D Hk Hs. pose proof (during_era cs d H s w Te D) as Hw.
  assert (B : forall n, In n ["Unit"; "UserUnits"; "Date"]%string -> is_k k n = false).
  { intros n Hn. destruct (is_k k n) eqn:Z; [|reflexivity]. apply seqb_eq in Z. subst k. exfalso. apply smem_In in Hk. destruct Hn as [<-|[<-|[<-|[]]]]; vm_compute in Hk; discriminate Hk. }
  unfold construct. rewrite (B "Unit"%string (or_introl eq_refl)), (B "UserUnits"%string (or_intror (or_introl eq_refl))), (B "Date"%string (or_intror (or_intror (or_introl eq_refl)))).
  rewrite (proj2 (smem_In _ _) Hk). split.
  - intros L. now rewrite (class_listed d s k x w Hw (B "UserUnits"%string (or_intror (or_introl eq_refl))) L).
  - intros N. destruct (smem x (class_units k w)) eqn:Z; [|reflexivity]. exfalso. apply N.
    rewrite (class_get d s k w Hw (B "UserUnits"%string (or_intror (or_introl eq_refl)))) in Z. unfold class_units in Z. rewrite world_kinds in Z.
    destruct (dget k (all_kinds (db_kinds d))) as [l|] eqn:G; [|discriminate Z]. apply smem_In in Z. exact (ext_back _ _ k l x (ext_all (db_kinds d)) G Hs Z).
Qed.
End G3.
