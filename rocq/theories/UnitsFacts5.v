(** * Calculations that go wrong, in a session of a checked database *)
From Coq Require Import String QArith Qcanon Lia.
From Verif Require Import Py StrTools Network NetworkFacts SearchSpec Conv Converter EngineSpec EngineFacts EngineFacts2 EngineFacts3 EngineFacts4 EngineFacts5 EngineFacts6 EngineFacts7 PropsEngine
  OpsSpec OpsFacts OpsFacts2 OpsFacts3 PropsOps ConsistSpec ConsistFacts Demo Dict Database Shipped
  Operations ShippedSpec ShippedCheck ShippedFacts2 ShippedFacts3 ShippedFacts5 Units UnitsSpec KindFacts UnitsFacts UnitsFacts2 UnitsFacts3 UnitsFacts4.
Local Open Scope N_scope.
Local Opaque all_kinds merge_data.
Lemma temperature_defs : exists ds, In (u "Temperature", ds) defs /\ In (Def (u "Celsius") (u "Fahrenheit") (9 # 5) 32) ds.
Proof. eexists. split; [right; left; reflexivity|right; left; reflexivity]. Qed.
Lemma time_defs : exists ds, In (u "Time", ds) defs /\ In (def "minute" "s" 60) ds.
Proof. eexists. split; [left; reflexivity|left; reflexivity]. Qed.
Lemma temp_names : unit_name (u "Celsius") /\ unit_name (u "Fahrenheit").
Proof. split; apply unit_check; vm_compute; reflexivity. Qed.
Lemma new_names : unit_name (u "smoot") /\ unit_name (u "cubit") /\ u "smoot" <> u "cubit".
Proof. split; [|split]; [apply unit_check; vm_compute; reflexivity|apply unit_check; vm_compute; reflexivity|intros X; discriminate X]. Qed.
Lemma temp_measured : In (u "Temperature") measured_kinds. Proof. right; left; reflexivity. Qed.
Lemma s_plain : letters_b (u "s") = true. Proof. vm_compute. reflexivity. Qed.
Lemma s_time : In (u "Time") square_kinds. Proof. left. reflexivity. Qed.
Lemma s2_simple : simple (u "s2"). Proof. apply simple_check. vm_compute. reflexivity. Qed.

Section G.
Context (cs : list ShippedCert.crow) (d : db Qc).
Context (H : check_db cs d = true).
Local Notation g := (db_net d).
Local Notation kd := (merge_data (db_kinds d)).
Context {F : Floats} {P : Pow} {E : Eval}.
Local Open Scope Qc_scope.
Notation qof := (qof d).
Notation calculating_in := (calculating_in d). Notation during_in := (during_in d).
Definition deg (x : string) (v : Q) : qty := Qty (u "Temperature") (u x) (Q2Qc v).
Lemma temp_listed : listed_in kd (u "Temperature") (u "Celsius") /\ listed_in kd (u "Temperature") (u "Fahrenheit").
Proof. destruct temperature_defs as (ds & D1 & D2). exact (ShippedFacts4.gen_defs_listed cs d H _ ds _ D1 D2). Qed.
Lemma celsius_of v : qof (u "Temperature") (deg "Celsius" v).
Proof. exact (conj eq_refl (conj (proj1 temp_listed) (proj1 temp_names))). Qed.
Lemma fahrenheit_of v : qof (u "Temperature") (deg "Fahrenheit" v).
Proof. exact (conj eq_refl (conj (proj2 temp_listed) (proj2 temp_names))). Qed.
Lemma pos_nz (b : Qc) : 0 < b -> b <> 0. Proof. intros X ->. discriminate X. Qed.
(** 9/5 v + 32 *)
Lemma to_fahrenheit s m v : calculating_in s -> kit d s m -> rescale m (u "Celsius") (u "Fahrenheit") v = v * Q2Qc (9 # 5) + Q2Qc 32.
Proof.
  intros (S & Hs & Hb) (M0 & M2 & b & B & M1). destruct temperature_defs as (ds & D1 & D2).
  pose proof (ShippedFacts4.gen_def_returned cs d H (u "Temperature") ds _ s [] v None D1 D2 ltac:(right; left; reflexivity) S Hs (Forall_nil _) (fun b E0 => pos_nz b (Hb b E0))) as R.
  cbn [d_from d_to d_factor d_offset] in R. symmetry.
  destruct (proj1 (proj2 kind_lists) _ temp_measured) as (_ & Hc & Hr).
  refine (M1 (u "Temperature") s [] v _ _ _ None S (Forall_nil _) _ (proj1 temp_names) (proj2 temp_names) (proj1 temp_listed) (proj2 temp_listed) Hc Hr R).
  exact (B (world_of s (all_kinds (db_kinds d))) (later_refl _)).
Qed.
Lemma from_fahrenheit s m v : calculating_in s -> kit d s m -> rescale m (u "Fahrenheit") (u "Celsius") (v * Q2Qc (9 # 5) + Q2Qc 32) = v.
Proof.
  intros C K. rewrite <- (to_fahrenheit s m v C K), rescale_trans by exact (size_nz m (proj1 K) _). apply rescale_id. exact (size_nz m (proj1 K) _).
Qed.
Lemma from_fahrenheit_at s m (x y : Q) : calculating_in s -> kit d s m -> Q2Qc y * Q2Qc (9 # 5) + Q2Qc 32 = Q2Qc x -> rescale m (u "Fahrenheit") (u "Celsius") (Q2Qc x) = Q2Qc y.
Proof. intros C K <-. exact (from_fahrenheit s m _ C K). Qed.
Lemma gen_temperature s w1 w2 w3 w4 w5 w6 : tame_eval -> calculating_in s -> during_in s w1 -> during_in s w2 -> during_in s w3 -> during_in s w4 -> during_in s w5 -> during_in s w6 ->
  fst (add (deg "Celsius" 0) (PQ (deg "Fahrenheit" 32)) w1) = Ok (PQ (deg "Celsius" 0))
  /\ fst (add (deg "Fahrenheit" 32) (PQ (deg "Celsius" 0)) w2) = Ok (PQ (deg "Fahrenheit" 64))
  /\ fst (compare_ Eq (deg "Celsius" 0) (PQ (deg "Fahrenheit" 64)) w3) = Ok false
  /\ fst (sub (deg "Celsius" 0) (PQ (deg "Fahrenheit" 32)) w4) = Ok (PQ (deg "Celsius" 0))
  /\ fst (neg (deg "Fahrenheit" 32) w5) = Ok (PQ (deg "Fahrenheit" (-32)))
  /\ fst (add (deg "Celsius" 0) (PQ (deg "Fahrenheit" (-32))) w6) = Ok (PQ (deg "Celsius" (-320 # 9))).
Proof.
  intros Te C D1 D2 D3 D4 D5 D6. destruct (kit_of cs d H s C) as (m & K). pose proof temp_measured as Hk.
  split; [|split; [|split; [|split; [|split]]]].
  - unfold add. rewrite (k_sum cs d H Te s C m K _ false _ _ w1 D1 Hk (celsius_of 0) (fahrenheit_of 32)). unfold deg. cbn [q_unit q_val]. do 3 f_equal.
    rewrite (from_fahrenheit_at s m 32 0 C K) by (apply Qc_is_canon; reflexivity). reflexivity.
  - unfold add. rewrite (k_sum cs d H Te s C m K _ false _ _ w2 D2 Hk (fahrenheit_of 32) (celsius_of 0)). unfold deg. cbn [q_unit q_val]. do 3 f_equal.
    rewrite (to_fahrenheit s m _ C K). apply Qc_is_canon. reflexivity.
  - rewrite (k_compare cs d H Te s C m K _ Eq _ _ w3 D3 Hk (celsius_of 0) (fahrenheit_of 64)). unfold deg. cbn [q_unit q_val].
    rewrite (from_fahrenheit_at s m 64 (160 # 9) C K) by (apply Qc_is_canon; reflexivity). reflexivity.
  - unfold sub. rewrite (k_sum cs d H Te s C m K _ true _ _ w4 D4 Hk (celsius_of 0) (fahrenheit_of 32)). unfold deg. cbn [q_unit q_val]. do 3 f_equal.
    rewrite (from_fahrenheit_at s m 32 0 C K) by (apply Qc_is_canon; reflexivity). reflexivity.
  - rewrite (k_neg cs d H Te s _ _ w5 D5 Hk (fahrenheit_of 32)). unfold deg. cbn [q_unit q_val]. do 3 f_equal. 
  - unfold add. rewrite (k_sum cs d H Te s C m K _ false _ _ w6 D6 Hk (celsius_of 0) (fahrenheit_of (-32))). unfold deg. cbn [q_unit q_val]. do 3 f_equal.
    rewrite (from_fahrenheit_at s m (-32) (-320 # 9) C K) by (apply Qc_is_canon; reflexivity). apply Qc_is_canon. reflexivity.
Qed.
(** a quantity expressed in the unit of a definition *)
Lemma gen_expressed_def s k ds x v w : tame_eval -> calculating_in s -> In (k, ds) defs -> In x ds -> In k measured_kinds -> unit_name (d_from x) -> unit_name (d_to x) ->
  during_in s w -> expressed w (Qty k (d_from x) v) (d_to x) (v * Q2Qc (d_factor x) + Q2Qc (d_offset x)).
Proof.
  intros Te C D1 D2 Hk Uf Ut D. destruct (kit_of cs d H s C) as (m & K). destruct (ShippedFacts4.gen_defs_listed cs d H k ds x D1 D2) as [Lf Lt].
  apply (k_expressed cs d H Te s C m K k (Qty k (d_from x) v) (d_to x) w _ D Hk (conj eq_refl (conj Lf Uf)) Lt Ut). cbn [q_unit q_val].
  destruct C as (S & Hs & Hb). destruct K as (M0 & M2 & b & B & M1). destruct (proj1 (proj2 kind_lists) k Hk) as (Hw & Hc & Hr).
  pose proof (ShippedFacts4.gen_def_returned cs d H k ds x s [] v None D1 D2 Hw S Hs (Forall_nil _) (fun b E0 => pos_nz b (Hb b E0))) as R.
  refine (M1 k s [] v _ _ _ None S (Forall_nil _) _ Uf Ut Lf Lt Hc Hr R). exact (B (world_of s (all_kinds (db_kinds d))) (later_refl _)).
Qed.
(** a second times a second *)
Lemma start_first s x : simple x -> first_kind x (world_of s (all_kinds (db_kinds d))) = first_in kd x.
Proof. intros Hx. change (first_in (w_kinds (world_of s (all_kinds (db_kinds d)))) x = first_in kd x). rewrite world_kinds. exact (ext_first _ _ _ (ext_all (db_kinds d)) Hx). Qed.
Lemma start_units s v x : session_of d s -> simple x -> first_in kd x = Some (u "otherUnits") -> ~ In x shipped_uncertain ->
  fst (units_of v x (world_of s (all_kinds (db_kinds d)))) = Err NameError.
Proof.
  intros S Hx Hf Hu. pose proof (gen_first_listed cs d H x _ Hf) as Lx. destruct (gen_quotable cs d H _ x Lx) as (Q1 & Q2).
  unfold units_of. unfold wbind at 1. rewrite units_unfold, Q2, (era_uncertain d s S _ (later_refl _)).
  destruct (smem x shipped_uncertain) eqn:Eu; [apply smem_In in Eu; contradiction|]. rewrite (start_first s x Hx), Hf. unfold units_kind. rewrite Q1. reflexivity.
Qed.
Lemma gen_s2 s n v v' : session_of d s ->
  fst (mul n (Qty (u "Time") (u "s") v) (PQ (Qty (u "Time") (u "s") v')) (world_of s (all_kinds (db_kinds d)))) = Err NameError.
Proof.
  intros S. destruct time_defs as (ds & D1 & D2). pose proof (proj2 (ShippedFacts4.gen_defs_listed cs d H _ ds _ D1 D2)) as Ls. cbn [d_to def] in Ls.
  assert (G : fst (mul_qty (Qty (u "Time") (u "s") v) (Qty (u "Time") (u "s") v') (world_of s (all_kinds (db_kinds d)))) = Err NameError).
  { unfold mul_qty. cbn [q_kind q_unit q_val]. change (kindless (u "Time")) with false. change (is_k (u "Time") "Percentage") with false. cbn [andb]. rewrite seqb_refl.
    unfold product_name, unit_product. pose proof (op_fuel_3 (Some (u "s")) (Some (u "s"))) as Hf.
    assert (Hf1 : (1 <= op_fuel (Some (u "s")) (Some (u "s")))%nat) by lia.
    rewrite (wbind_ok _ _ _ _ _ (product_same cs d H (u "Time") s_time _ (u "s") _ Hf1 Ls s_plain)).
    apply (start_units s _ _ S); [exact s2_simple|exact (gen_first cs d H "s2" (Some "otherUnits"%string) (or_introl eq_refl))|intros I; apply smem_In in I; discriminate I]. }
  destruct n; cbn [mul q_kind]; change (product_unit (u "Time") (u "Time")) with (@None str); unfold then_to; exact G.
Qed.
(** user units are compared as numbers *)
Lemma gen_user_compare s w o v v' : tame_eval -> calculating_in s -> during_in s w ->
  fst (compare_ o (Qty (u "UserUnits") (u "smoot") v) (PQ (Qty (u "UserUnits") (u "cubit") v')) w) = Ok (holds o v v').
Proof.
  intros Te (S & Hs & Hb) D. pose proof (during_era cs d H s w Te D) as Hw. destruct new_names as (N1 & N2 & N3).
  destruct (gen_new cs d H "cubit" (or_intror (or_introl eq_refl))) as (O & L).
  destruct (not_convertible_total cs d H s S Hs (u "cubit") (u "smoot") w Hw N2 N1 O (fun E0 => N3 (eq_sym E0)) (proj1 (L _))) as (w' & R & _).
  unfold compare_. cbn [q_kind q_unit]. rewrite seqb_refl. unfold to. cbn [q_kind q_unit q_val]. change (kindless (u "UserUnits")) with false. cbv iota.
  unfold wbind at 1. rewrite (wbind_ok _ _ _ _ _ R). cbv iota. change (is_k (u "UserUnits") "UserUnits") with true. cbv iota. reflexivity.
Qed.
(** a doubled backslash is lost when the unit is used again *)
Lemma gen_backslash s w v v' : tame_eval -> calculating_in s -> during_in s w -> let y := u "a\\b" in ~ user_named y w ->
  exists w', units (PN v) (AUnitStr y) false w = (Ok (Qty (u "UserUnits") y v), w')
    /\ fst (units (PN v') (AUnitStr y) false w') = Ok (Qty (u "UserUnits") (u "a\b") v').
Proof.
  intros Te C D. cbv zeta. set (y := u "a\\b"). intros Nu. pose proof C as (S & Hs & Hb). pose proof (during_era cs d H s w Te D) as Hw.
  assert (Fk : first_in kd y = None) by exact (gen_first cs d H "a\\b" None ltac:(do 15 right; left; reflexivity)).
  assert (Sy : simple y) by (apply simple_check; vm_compute; reflexivity). assert (Ey : strip y = y) by (vm_compute; reflexivity).
  exists (add_user y w). pose proof (era_user cs d H s w Hw) as Hu.
  assert (Hw' : era d s (add_user y w)) by exact (era_later d s _ _ Hw (later_add_user y w Hu)).
  assert (G : forall w0, first_kind y w0 = Some (u "UserUnits") <-> user_named y w0 /\ first_kind y w0 = Some (u "UserUnits")).
  { intros w0. split; [|tauto]. intros X. split; [|exact X]. unfold first_kind in X. destruct (find _ (w_kinds w0)) as [[k l]|] eqn:Ef; [|discriminate X].
    injection X as X. cbn [fst] in X. subst k. apply find_some in Ef as [E1 E2]. exists l. split; [exact E1|now apply smem_In]. }
  split.
  - rewrite units_unfold, Ey, (era_uncertain d s S w Hw). change (smem y shipped_uncertain) with false. cbv iota.
    destruct (first_none d s y w Hw Sy Fk) as [-> |Z]; [|apply G in Z; exfalso; exact (Nu (proj1 Z))].
    unfold construct. change (is_k (u "UserUnits") "Unit") with false. change (is_k (u "UserUnits") "UserUnits") with true. cbv iota zeta. now rewrite Ey.
  - rewrite units_unfold, Ey, (era_uncertain d s S _ Hw'). change (smem y shipped_uncertain) with false. cbv iota.
    destruct (first_none d s y _ Hw' Sy Fk) as [Z | ->].
    + exfalso. destruct (user_added y w Hu) as (l & I1 & I2). unfold first_kind in Z. destruct (find _ (w_kinds (add_user y w))) as [kl|] eqn:Ef; [discriminate Z|].
      pose proof (find_none _ _ Ef _ I1) as Y. cbn [snd] in Y. apply smem_In in I2. rewrite I2 in Y. discriminate Y.
    + unfold units_kind. change (literal y) with (Some (u "a\b")). reflexivity.
Qed.
Lemma gen_units_wrong s w v : tame_eval -> calculating_in s -> during_in s w ->
  (~ user_named (u "s2") w -> fst (units (PN v) (AUnitStr (u "s2")) false w) = Err NameError)
  /\ fst (units (PN v) (AUnitStr (u "date")) false w) = Err ValueError
  /\ fst (units (PN v) (AUnitStr (u "m")) true w) = Err TypeError
  /\ (listed_in kd (u "Volume") (u "oz") /\ units (PN v) (AUnitStr (u "oz")) false w = (Ok (Qty (u "Unit") (u "oz") v), w))
  /\ (exists w', units (PN v) ANoUnit false w = (Ok (Qty (u "UserUnits") (u "Dimensionless") v), w'))
  /\ units (PQ (Qty (u "Percentage") (u "%") v)) ANoUnit false w = (Ok (Qty (u "Percentage") (u "%") (v / Q2Qc 100)), w).
Proof.
  intros Te C D. split; [|split; [|split; [|split; [|split]]]].
  - intros Nu. apply (gen_units_other cs d H Te s C w D (u "s2") (u "s2") v eq_refl s2_simple).
    + intros I. apply smem_In in I. discriminate I. + exact (gen_first cs d H "s2" (Some "otherUnits"%string) (or_introl eq_refl)). + exact Nu.
  - apply (gen_units_date cs d H Te s C w D (u "date") (u "date") v eq_refl).
    + apply simple_check. vm_compute. reflexivity. + intros I. apply smem_In in I. discriminate I.
    + exact (gen_first cs d H "date" (Some "Date"%string) ltac:(do 4 right; left; reflexivity)).
  - apply (gen_units_named cs d H Te s C w D (u "m") (u "m") v eq_refl) with (k := u "Length").
    + apply simple_check. vm_compute. reflexivity. + intros I. apply smem_In in I. discriminate I.
    + exact (gen_first cs d H "m" (Some "Length"%string) ltac:(do 9 right; left; reflexivity)).
    + apply smem_In. vm_compute. reflexivity. + intros X. discriminate X.
  - pose proof (gen_first cs d H "oz" (Some "Volume"%string) ltac:(do 16 right; left; reflexivity)) as Fk. split; [exact (gen_first_listed cs d H _ _ Fk)|].
    apply (gen_units_uncertain cs d H Te s C w D (u "oz") (u "oz") v eq_refl) with (k := u "Volume").
    + left. reflexivity. + exact Fk. + reflexivity.
  - destruct (gen_units_new cs d H Te s C w D (u "Dimensionless") (u "Dimensionless") v eq_refl) as (w' & R & _).
    + apply simple_check. vm_compute. reflexivity. + intros I. apply smem_In in I. discriminate I.
    + exact (gen_first cs d H "Dimensionless" None ltac:(do 2 right; left; reflexivity)).
    + assert (Q : forall c, cmem c (u "Dimensionless") = false -> ~ In c (u "Dimensionless")) by (intros c X I; apply cmem_In in I; rewrite I in X; discriminate X).
      split; [now apply Q|]. split; [now apply Q|]. split; [now apply Q|]. split; [now apply Q|]. left. now apply Q.
    + reflexivity.
    + exists w'. exact R.
  - pose proof (gen_units cs d H Te s C w D (u "%") (u "%") v eq_refl) as G. specialize (G (simple_check (u "%") eq_refl) (u "Percentage")).
    apply G.
    + intros I. apply smem_In in I. discriminate I. + exact (gen_first cs d H "%" (Some "Percentage"%string) ltac:(do 5 right; left; reflexivity)).
    + apply smem_In. vm_compute. reflexivity. + left. intros X. discriminate X.
Qed.
Definition user_bit (v : Qc) : act := DMake (u "UserUnits") (Some v) (u "bit").
(** a user unit with the name of a bit takes its place *)
Lemma gen_bit s v v' : calculating_in s ->
  fst (units (PN v') (AUnitStr (u "bit")) false (world_of s (all_kinds (db_kinds d)))) = Ok (Qty (u "Data") (u "bit") v')
  /\ fst (units (PN v') (AUnitStr (u "bit")) false (do_act (user_bit v) (world_of s (all_kinds (db_kinds d))))) = Ok (Qty (u "UserUnits") (u "bit") v').
Proof.
  intros (S & Hs & Hb). set (y := u "bit"). assert (Sy : simple y) by (apply simple_check; vm_compute; reflexivity).
  assert (Fk : first_in kd y = Some (u "Data")) by exact (gen_first cs d H "bit" (Some "Data"%string) ltac:(do 8 right; left; reflexivity)).
  pose proof (gen_first_listed cs d H y _ Fk) as Ly. destruct (gen_quotable cs d H _ y Ly) as (Q1 & Q2).
  set (w := world_of s (all_kinds (db_kinds d))). assert (Hw : era d s w) by apply later_refl. split.
  - rewrite units_unfold, Q2, (era_uncertain d s S w Hw). change (smem y shipped_uncertain) with false. cbv iota. subst w. rewrite (start_first s y Sy), Fk.
    unfold units_kind. rewrite Q1. unfold wbind, construct. rewrite (class_listed d s (u "Data") y _ Hw eq_refl Ly). reflexivity.
  - change (do_act (user_bit v) w) with (add_user (strip y) w). rewrite Q2.
    pose proof (era_user cs d H s w Hw) as Hu. assert (Hw' : era d s (add_user y w)) by exact (era_later d s _ _ Hw (later_add_user y w Hu)).
    assert (Fk' : first_kind y (add_user y w) = Some (u "UserUnits")).
    { destruct (gen_order_keys cs d H) as (A & B & Ek & Ha & Eb). pose proof (ext_all (db_kinds d)) as X. rewrite Ek in X.
      destruct (ext_split A B _ X) as (A' & B' & Ed & Ea & XA & XB). 
      assert (NA : first_in A y = None). { rewrite Ek, first_in_app in Fk. destruct (first_in A y) as [k0|] eqn:E0; [|reflexivity]. injection Fk as ->.
        apply first_in_key in E0. destruct (Ha _ E0) as [N _]. exfalso. apply N. right; right; left; reflexivity. }
      assert (NA' : first_in A' y = None) by now rewrite (ext_first _ _ _ XA Sy).
      assert (NU : ~ In (u "UserUnits") (map fst A')). { rewrite Ea. intros I. destruct (Ha _ I) as [N _]. apply N. now left. }
      assert (EB' : exists l B'', B' = (u "UserUnits", l) :: B'').
      { inversion XB as [e He|k l l' b b' Hl Hb' ]; subst; cbn [map late_kinds] in Eb; [discriminate Eb|]. injection Eb as Eb _. cbn [fst] in Eb. subst k. eauto. }
      destruct EB' as (l & B'' & ->). change (first_in (w_kinds (add_user y w)) y = Some (u "UserUnits")). unfold add_user.
      assert (Gd : dget (u "UserUnits") (w_kinds w) = Some l /\ forall l2, dset (u "UserUnits") l2 (w_kinds w) = (A' ++ (u "UserUnits", l2) :: B'')%list).
      { subst w. rewrite world_kinds, Ed. clear - NU. induction A' as [|[k0 l0] A' IH]; cbn [Datatypes.app dget dset].
        - rewrite seqb_refl. auto.
        - destruct (seqb (u "UserUnits") k0) eqn:Z; [apply seqb_eq in Z; exfalso; apply NU; left; exact (eq_sym Z)|].
          destruct IH as [I1 I2]; [intros I; apply NU; now right|]. split; [exact I1|]. intros l2. now rewrite I2. }
      destruct Gd as [Gd Gs]. unfold dg, ds. rewrite Gd. destruct (smem y l) eqn:Ml.
      - subst w. rewrite world_kinds, Ed, first_in_app, NA'. unfold first_in. cbn [find snd]. now rewrite Ml.
      - cbn [w_kinds]. rewrite Gs, first_in_app, NA'. unfold first_in. cbn [find snd]. assert (M2 : smem y (l ++ [y]) = true) by (apply smem_In, in_or_app; right; now left). now rewrite M2. }
    rewrite units_unfold, Q2, (era_uncertain d s S _ Hw'). change (smem y shipped_uncertain) with false. cbv iota. rewrite Fk'.
    unfold units_kind. rewrite Q1. unfold wbind, construct. change (is_k (u "UserUnits") "Unit") with false. change (is_k (u "UserUnits") "UserUnits") with true. cbv iota zeta.
    cbn [fst]. now rewrite Q2.
Qed.
End G.
(** a fraction without unit cannot be compared *)
Lemma bare_compare {F : Floats} {P : Pow} {E : Eval} o v y v' w : 
  fst (compare_ o (Qty (u "Dimensionless") [] v) (PQ (Qty (u "Dimensionless") y v')) w) = Err AttributeError.
Proof. unfold compare_. cbn [q_kind q_unit]. rewrite seqb_refl. reflexivity. Qed.
