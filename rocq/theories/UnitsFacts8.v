(** * Numbers, inverses, tuples and the operator @ with quantities of a checked database *)
From Coq Require Import String QArith Qcanon Qround Lia.
From Verif Require Import Py StrTools Network NetworkFacts SearchSpec Conv Converter EngineSpec EngineFacts EngineFacts2 EngineFacts3 EngineFacts4 EngineFacts5 EngineFacts6 EngineFacts7 PropsEngine
  StrSpec StrFacts2 OpsSpec OpsFacts OpsFacts2 OpsFacts3 StrFacts3 PropsOps ConsistSpec ConsistFacts Demo Dict Database FastDb Shipped
  Operations ShippedSpec ShippedCheck ShippedFacts2 ShippedFacts3 ShippedFacts4 ShippedFacts5 Units UnitsSpec UnitsSpec2 NumFacts KindFacts UnitsFacts UnitsFacts2 UnitsFacts3 UnitsFacts4 UnitsFacts5 UnitsFacts6 UnitsFacts7.
Local Open Scope N_scope.
Local Opaque all_kinds merge_data.

Lemma classes_parts : forallb (fun k => negb (is_k k "Unit") && negb (is_k k "UserUnits") && negb (is_k k "Date")) classes = true. Proof. vm_compute. reflexivity. Qed.
Lemma class_parts k : In k classes -> smem k classes = true /\ is_k k "Unit" = false /\ is_k k "UserUnits" = false /\ is_k k "Date" = false.
Proof.
  intros I. pose proof (proj1 (forallb_forall _ _) classes_parts k I) as X. cbn beta in X. rewrite !andb_true_iff, !negb_true_iff in X. destruct X as ((X1 & X2) & X3).
  apply smem_In in I. auto.
Qed.
Lemma qabs_pct x : (qabs x * Q2Qc 100 / Q2Qc 100 = qabs x)%Qc. Proof. field. intros X. discriminate X. Qed.

Section G.
Context (cs : list ShippedCert.crow) (d : db Qc).
Context (H : check_db cs d = true).
Local Notation g := (db_net d).
Local Notation kd := (merge_data (db_kinds d)).
Local Notation D := (dicts_of (all_kinds (db_kinds d))).
Context {F : Floats} {P : Pow} {E : Eval}.
Local Open Scope Qc_scope.
Notation qof := (qof d).
Lemma make_class s k v x w : era d s w -> In k classes -> listed_in kd k x ->
  make k v x w = (Ok (PQ (Qty k x (if is_k k "Percentage" then v / Q2Qc 100 else v))), w).
Proof.
  intros Hw Hk Hx. destruct (class_parts k Hk) as (P1 & P2 & P3 & P4). unfold make, wbind, construct. rewrite P1, P2, P3, P4, (class_listed d s k x w Hw P3 Hx). reflexivity.
Qed.
Lemma hundred x : x * Q2Qc 100 / Q2Qc 100 = x. Proof. field. intros X. discriminate X. Qed.
(** ** A quantity and a number *)
Lemma gen_numbers s k a v w : tame_eval -> during_in d s w -> In k classes -> q_kind a = k -> listed_in kd k (q_unit a) ->
  add a (PN v) w = (Ok (PQ (Qty k (q_unit a) (q_val a + v))), w) /\ sub a (PN v) w = (Ok (PQ (Qty k (q_unit a) (q_val a - v))), w)
  /\ rsub a (PN v) w = (Ok (PQ (Qty k (q_unit a) (v - q_val a))), w)
  /\ neg a w = (Ok (PQ (Qty k (q_unit a) (- q_val a))), w) /\ abs_ a w = (Ok (PQ (Qty k (q_unit a) (qabs (q_val a)))), w)
  /\ forall n, mul n a (PN v) w = (Ok (PQ (Qty k (q_unit a) (q_val a * v))), w)
     /\ (v <> 0 -> matmul n a (PN v) w = (Ok (PQ (Qty k (q_unit a) (q_val a / v))), w))
     /\ (v = 0 -> fst (matmul n a (PN v) w) = Err ZeroDivisionError).
Proof.
  intros Te Dw Hk Ka La. pose proof (during_era cs d H s w Te Dw) as Hw.
  assert (Mk : forall y, make k (if is_k k "Percentage" then y * Q2Qc 100 else y) (q_unit a) w = (Ok (PQ (Qty k (q_unit a) y)), w)).
  { intros y. rewrite (make_class s k _ _ w Hw Hk La). destruct (is_k k "Percentage"); [now rewrite hundred|reflexivity]. }
  assert (Ng : neg a w = (Ok (PQ (Qty k (q_unit a) (- q_val a))), w)).
  { unfold neg. rewrite Ka. rewrite <- Mk. destruct (is_k k "Percentage"); [|reflexivity]. f_equal. replace (Q2Qc (-100)) with (- Q2Qc 100) by (apply Qc_is_canon; reflexivity). ring. }
  assert (Sm : forall b q, q_kind q = k -> q_unit q = q_unit a -> sum b q (PN v) w = (Ok (PQ (Qty k (q_unit a) (plus b (q_val q) v))), w)).
  { intros b q Kq Uq. unfold sum. rewrite Kq, Uq. rewrite <- Mk. destruct (is_k k "Percentage"); reflexivity. }
  split; [exact (Sm false a Ka eq_refl)|]. split; [exact (Sm true a Ka eq_refl)|]. split.
  { unfold rsub. rewrite (wbind_ok _ _ _ _ _ Ng). unfold add. rewrite (Sm false (Qty k (q_unit a) (- q_val a)) eq_refl eq_refl). unfold plus. cbn [q_val]. do 4 f_equal. ring. }
  split; [exact Ng|]. split.
  { unfold abs_. rewrite Ka, <- Mk. destruct (is_k k "Percentage"); reflexivity. }
  intros n. split; [destruct n; cbn [mul]; rewrite Ka, <- Mk; destruct (is_k k "Percentage"); reflexivity|]. split.
  - intros Nv. unfold matmul, qdiv. destruct (Qc_eq_dec v 0) as [Z|_]; [contradiction|]. unfold wbind, wlift. rewrite Ka, <- Mk. destruct (is_k k "Percentage"); reflexivity.
  - intros ->. unfold matmul, qdiv. destruct (Qc_eq_dec 0 0) as [_|Z]; [reflexivity|contradiction].
Qed.
(** ** Names that no odd kind lists *)
Lemma units_all s z v w : session_of d s -> era d s w -> strip z = z -> literal z = Some z -> ~ In z shipped_uncertain ->
  (forall k l, dget k (all_kinds (db_kinds d)) = Some l -> In z l -> In k created \/ exists l0, dget k kd = Some l0 /\ ~ In k odd_kinds) ->
  exists k2 w', units_of v z w = (Ok (PQ (Qty k2 z v)), w') /\ later w w'.
Proof.
  intros S Hw St Lt Nu Hz. unfold units_of, units. cbn [wbind]. rewrite St. unfold wbind, wget. rewrite (era_uncertain d s S w Hw).
  assert (L : later w (add_user z w)) by (apply later_add_user; exact (era_user cs d H s w Hw)).
  destruct (smem z shipped_uncertain) eqn:Eu; [apply smem_In in Eu; contradiction|].
  destruct (first_kind z w) as [k|] eqn:Ef.
  - unfold first_kind in Ef. destruct (find _ (w_kinds w)) as [[k' l]|] eqn:Efd; [|discriminate Ef]. injection Ef as <-. apply find_some in Efd as [E1 E2]. cbn [fst snd] in *.
    unfold units_kind. rewrite Lt. unfold wbind, construct.
    destruct (is_k k' "UserUnits") eqn:EU.
    + apply seqb_eq in EU. subst k'. change (is_k (u "UserUnits") "Unit") with false. change (is_k (u "UserUnits") "UserUnits") with true. cbv iota zeta. rewrite St. cbn [wret q_kind q_unit].
      change (is_k (u "UserUnits") "Percentage") with false. exists (u "UserUnits"), (add_user z w). split; [reflexivity|exact L].
    + assert (NU : k' <> u "UserUnits") by now apply seqb_neq. pose proof Hw as (_ & Kd & _). rewrite world_kinds in Kd. pose proof (entry_user _ _ k' l Kd E1 NU) as E3.
      pose proof (distinct_get _ k' l (distinct_all _ (gen_keys cs d H)) E3) as E4.
      assert (Cu : smem z (class_units k' w) = true) by (rewrite (class_get d s k' w Hw EU); unfold class_units; rewrite world_kinds, E4; exact E2).
      apply smem_In in E2.
      assert (Q : smem k' classes = true /\ ~ In k' odd_kinds).
      { destruct (Hz k' l E4 E2) as [Hc|(l0 & L0 & No)].
        - pose proof (proj1 (forallb_forall _ _) created_plain k' Hc) as Hp. destruct (plain_parts k' Hp) as (P1 & P2 & P3 & P4 & P5 & P6 & P7).
          split; [exact P1|]. intros I. cbn [odd_kinds map In] in I. destruct I as [I|[I|[I|[]]]]; subst k'; [discriminate P1|discriminate P4|discriminate P5].
        - split; [|exact No]. destruct (gen_order_keys cs d H) as (A & B & Ek & Ha & Hb').
          assert (I : In k' (map fst kd)) by exact (in_map fst _ _ (dget_In _ _ _ L0)). rewrite Ek, map_app, Hb', in_app_iff in I. destruct I as [I|I].
          + destruct (Ha _ I) as [_ [I'|I']]; [now apply smem_In|]. exfalso. apply No. rewrite I'. right. now left.
          + cbn [late_kinds map In] in I. destruct I as [I|[I|[I|[]]]]; [congruence| |subst k'; reflexivity]. exfalso. apply No. left. exact I. }
      destruct Q as [K1 K2].
      assert (N1 : is_k k' "Unit" = false) by (destruct (is_k k' "Unit") eqn:Z; [apply seqb_eq in Z; subst k'; discriminate K1|reflexivity]).
      assert (N3 : is_k k' "Date" = false) by (apply seqb_neq; intros ->; apply K2; right; left; reflexivity).
      assert (N4 : is_k k' "Percentage" = false) by (apply seqb_neq; intros ->; apply K2; right; right; left; reflexivity).
      rewrite N1, N3, K1, Cu, N4. cbn [wret q_kind q_unit]. rewrite N4. exists k', w. split; [reflexivity|apply later_refl].
  - unfold construct. change (is_k (u "UserUnits") "Unit") with false. change (is_k (u "UserUnits") "UserUnits") with true. cbv iota zeta. rewrite St.
    exists (u "UserUnits"), (add_user z w). split; [reflexivity|exact L].
Qed.
Lemma units_any s z v w : session_of d s -> era d s w -> strip z = z -> literal z = Some z -> ~ In z shipped_uncertain -> ~ In c_star z ->
  (forall k, In k odd_kinds -> ~ listed_in kd k z) -> exists k2 w', units_of v z w = (Ok (PQ (Qty k2 z v)), w') /\ later w w'.
Proof.
  intros S Hw St Lt Nu Ns Nodd. apply (units_all s); try assumption. intros k l E4 E2. destruct (adds_all (db_kinds d) k l E4) as [Hc|(l0 & L0 & G)]; [now left|].
  right. exists l0. split; [exact L0|]. intros I. exact (Nodd k I (ex_intro _ l0 (conj L0 (G _ Ns E2)))).
Qed.
(** ** Inverses *)
Lemma inverse_powname x : powname x (-1) = (x ++ u "-1")%list. Proof. reflexivity. Qed.
Section I.
Context (s : st Qc) (S : session_of d s) (Hs : searches (s_par s)).
Context (k x : str) (Hk : In k measured_kinds) (Lx : listed_in kd k x) (Bx : letters_b x = true) (N1 : x <> u "s") (N2 : x <> u "S").
Lemma inverse_units v w : era d s w -> exists w', units_of v (x ++ u "-1") w = (Ok (PQ (Qty (u "UserUnits") (x ++ u "-1")%list v)), w') /\ later w w'.
Proof.
  intros Hw. destruct (gen_minus_one cs d H k x Hk Lx Bx N1 N2) as (I1 & I2 & _). pose proof (letters_plain x Bx) as Px. destruct (gen_quotable cs d H k x Lx) as [Q1 Q2].
  destruct (pow_name x (-1) (proj1 (proj2 (proj1 Px))) (literal_quotable _ Q1) Q2 (proj1 (proj1 Px))) as (S1 & S2 & S3 & S4 & S5). change (str_of_Z (-1)) with (u "-1") in *.
  exact (units_new cs d H s S (x ++ u "-1")%list v w Hw (conj S3 S4) I1 S2 S1 I2).
Qed.
Lemma inverse_apart z w : era d s w -> unit_name z -> ordinary D z -> z <> (x ++ u "-1")%list ->
  (exists w', convertible_ z (x ++ u "-1") w = (Ok false, w') /\ later w w') /\ (exists w', convertible_ (x ++ u "-1") z w = (Ok false, w') /\ later w w').
Proof.
  intros Hw Uz Oz Nz. destruct (gen_minus_one cs d H k x Hk Lx Bx N1 N2) as (_ & _ & Oi & Ai).
  assert (Ui : unit_name (x ++ u "-1")%list) by exact (powname_unit x (-1) (letters_plain x Bx)).
  split; [apply (not_convertible_total cs d H s S Hs z _ w Hw Uz Ui Oz Nz); exact (proj2 (Ai z))|].
  apply (not_convertible_total cs d H s S Hs _ z w Hw Ui Uz Oi); [intros Z; exact (Nz (eq_sym Z))|exact (proj1 (Ai z))].
Qed.
End I.
Lemma gen_rdiv s k a v w : tame_eval -> calculating_in d s -> during_in d s w -> In k measured_kinds -> qof k a -> plain_base (q_unit a) -> q_unit a <> u "s" -> q_unit a <> u "S" -> q_val a <> 0 ->
  let r := Qty (u "UserUnits") (q_unit a ++ u "-1")%list in
  fst (rdiv qdiv a v w) = Ok (PQ (r (v / q_val a))) /\ fst (rdiv qfloordiv a v w) = Ok (PQ (r (zq (Qfloor (v / q_val a)%Qc)))).
Proof.
  intros Te (S & Hs & Hb) Dw Hk (Ka & La & Ua) Pa N1 N2 Nv. cbv zeta. pose proof (during_era cs d H s w Te Dw) as Hw. pose proof (plain_measured k Hk) as Hp.
  destruct (plain_parts k Hp) as (P1 & P2 & P3 & P4 & P5 & P6 & P7).
  assert (G : forall dv y, dv v (q_val a) = Ok y -> fst (rdiv dv a v w) = Ok (PQ (Qty (u "UserUnits") (q_unit a ++ u "-1")%list y))).
  { intros dv y Ey. unfold rdiv. rewrite Ey. unfold wbind, wlift. rewrite Ka, P5, P6.
    destruct (inverse_units s S k (q_unit a) Hk La (letters_of _ Pa) N1 N2 y w Hw) as (w' & -> & _). reflexivity. }
  assert (Dv : qdiv v (q_val a) = Ok (v / q_val a)) by (unfold qdiv; destruct (Qc_eq_dec (q_val a) 0) as [Z|_]; [contradiction|reflexivity]).
  split; apply G; [exact Dv|]. unfold qfloordiv. rewrite Dv. reflexivity.
Qed.
(** an inverse that is no frequency cannot be converted: it is returned as it is *)
Lemma gen_inverse_stuck s k x v t w : tame_eval -> calculating_in d s -> during_in d s w -> In k measured_kinds -> listed_in kd k x -> plain_base x -> x <> u "s" -> x <> u "S" ->
  unit_name t -> t <> (x ++ u "-1")%list ->
  fst (to (Qty (u "UserUnits") (x ++ u "-1")%list v) (Some t) w) = Ok (PQ (Qty (u "UserUnits") (x ++ u "-1")%list v)).
Proof.
  intros Te (S & Hs & Hb) Dw Hk Lx Px N1 N2 Ut Nt. pose proof (during_era cs d H s w Te Dw) as Hw. unfold to. cbn [q_kind q_unit q_val]. change (kindless (u "UserUnits")) with false. cbv iota.
  destruct (gen_minus_one cs d H k x Hk Lx (letters_of _ Px) N1 N2) as (_ & _ & Oi & Ai).
  assert (Ui : unit_name (x ++ u "-1")%list) by exact (powname_unit x (-1) Px).
  destruct (not_convertible_total cs d H s S Hs _ t w Hw Ui Ut Oi (fun Z => Nt (eq_sym Z)) (proj1 (Ai t))) as (w1 & R1 & L1).
  rewrite (wbind_ok _ _ _ _ _ R1). reflexivity.
Qed.
(** (v / a) * b *)
Lemma gen_inverse_times s k a b n v w1 w y : tame_eval -> calculating_in d s -> during_in d s w1 -> during_in d s w -> In k square_kinds -> qof k a -> qof k b ->
  plain_base (q_unit a) -> plain_base (q_unit b) -> q_unit a <> u "s" -> q_unit a <> u "S" -> expressed w1 b (q_unit a) y ->
  exists r, fst (mul n (Qty (u "UserUnits") (q_unit a ++ u "-1")%list v) (PQ b) w) = Ok (PQ r) /\ q_unit r = (q_unit b ++ u "/" ++ q_unit b)%list /\ q_val r = v * y.
Proof.
  intros Te C D1 Dw Hk2 Qa Qb Pa Pb N1 N2 Y. pose proof (km k Hk2) as Hk. destruct (kit_of cs d H s C) as (m & K). pose proof Qa as (Ka & La & Ua). pose proof Qb as (Kb & Lb & Ub).
  apply (k_expressed cs d H Te s C m K k b (q_unit a) w1 _ D1 Hk Qb La Ua) in Y. pose proof K as (M0 & M2 & b0 & B0 & M1). pose proof C as (S & Hs & Hb).
  pose proof (letters_of _ Pa) as Ba. pose proof (letters_of _ Pb) as Bb. pose proof (during_era cs d H s w Te Dw) as Hw.
  destruct b as [kb xb vb], a as [ka xa va]. cbn [q_kind q_unit q_val] in *. subst ka kb. rename xa into x, xb into z.
  pose proof (plain_measured k Hk) as Hp. destruct (plain_parts k Hp) as (P1 & P2 & P3 & P4 & P5 & P6 & P7).
  assert (Oz : ordinary D z) by exact (gen_ordinary cs d H k z Lb (proj2 (proj2 (proj1 (proj2 kind_lists) k Hk)))).
  assert (Nz : z <> (x ++ u "-1")%list).
  { intros Z. destruct Pb as (_ & Hb1 & _). destruct (Hb1 49) as [X _]; [rewrite Z, in_app_iff; right; right; left; reflexivity|discriminate X]. }
  assert (Ui : unit_name (powname x (-1))) by exact (powname_unit x (-1) Pa).
  assert (G : forall w, era d s w -> exists w', product_name (x ++ u "-1") z w = (Ok (twin z), w') /\ later w w').
  { clear w Dw Hw. intros w Hw. unfold product_name, unit_product.
    destruct (gen_square cs d H k z Hk2 Lb Bb) as (_ & _ & U2 & _). destruct (gen_square cs d H k x Hk2 La Ba) as (_ & _ & U1 & _).
    assert (U3 : is_unitless unitless_names (powname x (-1)) = false) by exact (power_unitless x (-1) (proj1 (proj2 Pa))).
    destruct (proj2 (inverse_apart s S Hs k x Hk La Ba N1 N2 z w Hw Ub Oz Nz)) as (w1' & R1 & L1). unfold convertible_ in R1. pose proof (era_later d s _ _ Hw L1) as Hw1.
    pose proof (ubp_powname x (-1) (proj1 (proj2 Pa))) as Ubp. pose proof Nz as Nz'. rewrite <- inverse_powname in R1, Nz'. rewrite <- inverse_powname.
    generalize dependent (powname x (-1)). intros i Ui U3 R1 Ubp Nz'.
    pose proof (op_fuel_3 (Some i) (Some z)) as Hf. destruct (op_fuel (Some i) (Some z)) as [|[|[|n']]]; [lia|lia|lia|]. remember (Datatypes.S (Datatypes.S n')) as n2 eqn:En2. clear Hf.
    cbn [unit_op]. fold (unit_op (V:=Qc) unitless_names n2). rewrite (norm_unit i Ui), (norm_unit z Ub), U2, U3. cbn [negb andb].
    destruct (seqb i z) eqn:Ex; [apply seqb_eq in Ex; exfalso; exact (Nz' (eq_sym Ex))|].
    rewrite (run_bind _ _ _ _ _ R1). cbv iota. rewrite Ubp, (ubp_alone z (proj1 (proj2 Pb))).
    rewrite (run_bind _ _ _ _ _ (run_lift (Ok (x, PI (-1))) w1')), (run_bind _ _ _ _ _ (run_lift (Ok (z, PI 1)) w1')).
    change (p_eqZ (PI (-1)) (-1)) with true. change (p_eqZ (PI 1) (-1)) with false. cbn [negb andb].
    (* z / x *)
    destruct (seqb z x) eqn:Ezx.
    - apply seqb_eq in Ezx. subst z. subst n2. destruct (division_same cs d H s S Hs k Hk2 (Datatypes.S (Datatypes.S n')) x w1' Hw1 ltac:(lia) La Ba) as (w2 & R2 & L2). exists w2.
      split; [exact R2|exact (later_trans _ _ _ L1 L2)].
    - subst n2. remember (Datatypes.S n') as n3 eqn:En3. cbn [unit_op]. fold (unit_op (V:=Qc) unitless_names n3). rewrite (norm_unit z Ub), (norm_unit x Ua), U1, U2, Ezx. cbn [negb andb].
      destruct (convertible_total cs d H s S Hs k z x w1' Hw1 Hk Ub Ua Lb La) as (w2 & R2 & L2). unfold convertible_ in R2. rewrite (run_bind _ _ _ _ _ R2). cbv iota.
      pose proof (era_later d s _ _ Hw1 L2) as Hw2.
      destruct (division_same cs d H s S Hs k Hk2 n3 z w2 Hw2 ltac:(lia) Lb Bb) as (w3 & R3 & L3). exists w3.
      split; [exact R3|exact (later_trans _ _ _ L1 (later_trans _ _ _ L2 L3))]. }
  assert (Mq : exists k2 w', mul_qty (Qty (u "UserUnits") (x ++ u "-1")%list v) (Qty k z vb) w = (Ok (PQ (Qty k2 (twin z) (v * y))), w')).
  { unfold mul_qty. cbn [q_kind q_unit q_val]. change (kindless (u "UserUnits")) with false. change (is_k (u "UserUnits") "Percentage") with false. rewrite P7. cbn [andb].
    destruct (seqb (x ++ u "-1")%list z) eqn:Ex; [apply seqb_eq in Ex; exfalso; exact (Nz (eq_sym Ex))|].
    destruct (inverse_apart s S Hs k x Hk La Ba N1 N2 z w Hw Ub Oz Nz) as ((w2 & R2 & L2) & _). rewrite (wbind_ok _ _ _ _ _ R2). cbv iota. pose proof (era_later d s _ _ Hw L2) as Hw2.
    destruct (inverse_apart s S Hs k x Hk La Ba N1 N2 z w2 Hw2 Ub Oz Nz) as (_ & (w3 & R3 & L3)). rewrite (wbind_ok _ _ _ _ _ R3). cbv iota. pose proof (era_later d s _ _ Hw2 L3) as Hw3.
    assert (B1 : forall w, base_of z w = (Ok (z, PI 1), w)) by (intros w0; unfold base_of; rewrite (ubp_alone z (proj1 (proj2 Pb))); reflexivity).
    assert (B2 : forall w, base_of (x ++ u "-1")%list w = (Ok (x, PI (-1)), w)) by (intros w0; unfold base_of; rewrite <- inverse_powname, (ubp_powname x (-1) (proj1 (proj2 Pa))); reflexivity).
    destruct (convertible_total cs d H s S Hs k z x w3 Hw3 Hk Ub Ua Lb La) as (w4 & R4 & L4). pose proof (era_later d s _ _ Hw3 L4) as Hw4.
    assert (R4' : bases_convertible z (x ++ u "-1")%list w3 = (Ok true, w4)).
    { unfold bases_convertible. rewrite (wbind_ok _ _ _ _ _ (B1 w3)), (wbind_ok _ _ _ _ _ (B2 w3)). exact R4. }
    rewrite (wbind_ok _ _ _ _ _ R4'). cbv iota.
    destruct (conv_num_total cs d H s S Hs m b0 B0 M1 k 1 z x w4 Hw4 Hk Ub Ua Lb La) as (w5 & R5 & L5). pose proof (era_later d s _ _ Hw4 L5) as Hw5.
    assert (R5' : base_factor z (x ++ u "-1")%list w4 = (Ok (rescale m z x 1), w5)).
    { unfold base_factor. rewrite (wbind_ok _ _ _ _ _ (B1 w4)), (wbind_ok _ _ _ _ _ (B2 w4)). cbn [fst snd]. rewrite (wbind_ok _ _ _ _ _ R5).
      unfold pow_num, pow_int, wlift. change (Z.to_nat 1) with 1%nat. cbn [Qcpower]. do 2 f_equal. ring. }
    rewrite (wbind_ok _ _ _ _ _ R5'). destruct (G w5 Hw5) as (w6 & R6 & L6). rewrite (wbind_ok _ _ _ _ _ R6). pose proof (era_later d s _ _ Hw5 L6) as Hw6.
    destruct (gen_quotable cs d H k z Lb) as [Q1 Q2].
    destruct (ratio_units cs d H s S z (v * vb * rescale m z x 1) w6 Hw6 (proj1 (proj2 (proj1 Pb))) (proj1 (proj1 Pb)) Q1 Q2) as (k2 & w7 & R7 & L7). exists k2, w7. rewrite R7.
    do 4 f_equal. rewrite Y. rewrite (rescale_by m z x vb); [ring| |exact (size_nz m M0 x)]. exact (M2 k z x (kp k Hk2) Lb La). }
  destruct Mq as (k2 & w' & Mq). exists (Qty k2 (twin z) (v * y)). split; [|split; reflexivity].
  assert (Pn : product_unit (u "UserUnits") k = None) by reflexivity.
  destruct n; cbn [mul q_kind]; rewrite Pn; unfold then_to; rewrite Mq; reflexivity.
Qed.
(** ** Frequencies *)
Lemma freq_in : In ("Frequency"%string, "Frequency"%string, def "s-1" "Hz" 1%Q) checked_mixed. Proof. right. right. left. reflexivity. Qed.
Lemma more_first x k : In (x, k) [("s-1", Some "Frequency"); ("ft/in", None); ("ft", Some "Length"); ("in", Some "Length"); ("Hz", Some "Frequency"); ("min", Some "Time"); ("kg", Some "Weight"); ("S-1", Some "Frequency"); ("ft*min", None); ("min*ft", None); ("min/ft", None); ("mA*kV", None); ("kV*mA", None); ("mA", Some "Current"); ("kV", Some "Voltage")]%string ->
  first_in kd (u x) = option_map u k.
Proof. intros I. apply (gen_first cs d H). unfold checked_first. rewrite !in_app_iff. right. right. exact I. Qed.
Lemma freq_conv s v w : calculating_in d s -> era d s w ->
  exists w', conv_opt v (u "s-1") (u "Hz") w = (Ok (Some v), w') /\ later w w'.
Proof.
  intros (S & Hs & Hb) Hw. destruct (era_calls d s w Hw) as (l & L & El).
  destruct (gen_mixed cs d H _ _ _ s l v None freq_in S Hs L (fun b Hf Z => eq_ind_r (fun x => ~ (0 < x)) (fun Q : 0 < 0 => Qclt_not_eq _ _ Q eq_refl) Z (Hb b Hf))) as (_ & _ & X).
  cbn [d_from d_to d_factor d_offset def] in X. rewrite <- El in X.
  destruct (conv_run v (u "s-1") (u "Hz") w _ X) as (w' & R & L'). exists w'. split; [|exact L']. rewrite R. do 3 f_equal.
  replace (Q2Qc 1) with 1 by reflexivity. replace (Q2Qc 0) with 0 by reflexivity. ring.
Qed.
Lemma freq_convertible s w : calculating_in d s -> era d s w -> exists w', convertible_ (u "s-1") (u "Hz") w = (Ok true, w') /\ later w w'.
Proof.
  intros (S & Hs & Hb) Hw. destruct (era_calls d s w Hw) as (l & L & El). apply (run_quiet _ w _); [|exact (quiet_convertible _ _ _)]. rewrite El.
  destruct (gen_mixed cs d H _ _ _ s l qone None freq_in S Hs L (fun b Hf Z => eq_ind_r (fun x => ~ (0 < x)) (fun Q : 0 < 0 => Qclt_not_eq _ _ Q eq_refl) Z (Hb b Hf))) as (Lf & Lt & X).
  cbn [d_from d_to d_factor d_offset def] in X, Lf, Lt.
  assert (Fr : fresh_session s).
  { destruct (parts cs d H) as (T & HT & HL & HR & HE & HK & HG & HW & HO & HN & HP & HD & (HC & HC') & HX & HG' & HV & HU & HM & HZ).
    exact (session_fresh cs d T HT HL HE s S). }
  assert (Hf : unit_name (u "s-1")) by (apply unit_check; reflexivity). assert (Ht : unit_name (u "Hz")) by (apply unit_check; reflexivity).
  pose proof S as (S1 & S2 & S3 & _ & _ & S6).
  destruct (quiet_session s l Fr S6 (converts_quiet _ _ L)) as (St & En & _ & N & Ds).
  rewrite (convertible_simple (u "s-1") (u "Hz") None _ St En (proj1 Hf) (proj1 Ht)). unfold convertible_result.
  rewrite convert_settled in X; try assumption.
  - destruct (val_result (do_calls l s) qone (bare_answer (do_calls l s) (u "s-1") (u "Hz"))) as [[c|]|e]; [reflexivity| |discriminate X].
    exfalso. cbn [finish_result] in X. destruct (p_raise _); discriminate X.
  - rewrite Ds, S2. apply (gen_density cs d H (u "Frequency") _ _ Lf Lt (proj1 Hf) (proj1 Ht)). intros Z. discriminate Z.
Qed.
Lemma gen_frequency s a v w w' : tame_eval -> calculating_in d s -> during_in d s w -> during_in d s w' -> q_kind a = u "Time" -> q_unit a = u "s" -> q_val a <> 0 ->
  fst (rdiv qdiv a v w) = Ok (PQ (Qty (u "Frequency") (u "s-1") (v / q_val a)))
  /\ fst (to (Qty (u "Frequency") (u "s-1") (v / q_val a)) (Some (u "Hz")) w') = Ok (PQ (Qty (u "Frequency") (u "Hz") (v / q_val a))).
Proof.
  intros Te C Dw Dw' Ka Ua Nv. pose proof C as (S & Hs & Hb).
  assert (F1 : first_in kd (u "s-1") = Some (u "Frequency")) by exact (more_first "s-1" (Some "Frequency"%string) (or_introl eq_refl)).
  assert (F2 : first_in kd (u "Hz") = Some (u "Frequency")) by (apply (more_first "Hz" (Some "Frequency"%string)); do 4 right; left; reflexivity).
  split.
  - pose proof (during_era cs d H s w Te Dw) as Hw. unfold rdiv, qdiv. destruct (Qc_eq_dec (q_val a) 0) as [Z|_]; [contradiction|]. unfold wbind, wlift. rewrite Ka, Ua.
    change (is_k (u "Time") "Percentage") with false. change (is_k (u "Time") "Dimensionless") with false. cbv iota. change (u "s" ++ u "-1")%list with (u "s-1").
    rewrite (units_first cs d H s S (u "Frequency") (u "s-1") (v / q_val a) w Hw (simple_check (u "s-1") eq_refl) F1); [reflexivity| | | |].
    + intros I. apply smem_In in I. discriminate I. + reflexivity. + intros I. apply smem_In in I. discriminate I. + exact (gen_first_listed cs d H _ _ F1).
  - pose proof (during_era cs d H s w' Te Dw') as Hw. unfold to. cbn [q_kind q_unit q_val]. change (kindless (u "Frequency")) with false. cbv iota.
    destruct (freq_convertible s w' C Hw) as (w1 & R1 & L1). rewrite (wbind_ok _ _ _ _ _ R1). cbv iota. pose proof (era_later d s _ _ Hw L1) as Hw1.
    destruct (freq_conv s (v / q_val a) w1 C Hw1) as (w2 & R2 & L2). rewrite (wbind_ok _ _ _ _ _ R2). change (is_k (u "Frequency") "Unit") with false. cbv iota.
    pose proof (era_later d s _ _ Hw1 L2) as Hw2. pose proof (make_listed d s (u "Frequency") (v / q_val a) (u "Hz") w2 Hw2 eq_refl (gen_first_listed cs d H _ _ F2)) as M.
    unfold make in M. rewrite M. reflexivity.
Qed.
(** ** The operator @ *)
Lemma reduce_two x y re : is_name x = true -> is_name y = true -> reduce_units re (x ++ u "/" ++ y) = Ok (x ++ u "/" ++ y)%list.
Proof.
  intros Hx Hy. destruct (seqb x y) eqn:Exy; [apply seqb_eq in Exy; subst y; now apply reduce_ratio|].
  pose proof (reduce_units_write re [(true, x); (false, y)]) as W0.
  assert (Hf : factors_ok [(true, x); (false, y)] = true) by (unfold factors_ok; cbn [forallb snd]; now rewrite Hx, Hy).
  specialize (W0 Hf). change (write [(true, x); (false, y)]) with (x ++ (47%N :: (y ++ [])))%list in W0. rewrite app_nil_r in W0. change (x ++ u "/" ++ y)%list with (x ++ 47%N :: y)%list. rewrite W0. f_equal.
  cbn [existsb fst negb orb].
  assert (Fr : fru 0 [(true, x); (false, y)] [] = [(true, x); (false, y)]).
  { cbn [fru existsb findex opp negb fst snd]. unfold feqb. cbn [fst snd Bool.eqb andb]. unfold opp. cbn [fst snd negb Bool.eqb andb]. rewrite Exy. reflexivity. }
  rewrite Fr. change (write [(true, x); (false, y)]) with (x ++ (47%N :: (y ++ [])))%list. now rewrite app_nil_r.
Qed.
Lemma two_quotable x y : quotable_name x -> quotable_name y -> (~ In 39%N x /\ ~ In 39%N y) \/ (~ In 34%N x /\ ~ In 34%N y) -> quotable_name (x ++ u "/" ++ y)%list.
Proof.
  assert (G : forall c, c <> 47%N -> ~ In c x -> ~ In c y -> ~ In c (x ++ u "/" ++ y)%list).
  { intros c Hc Nx Ny I. rewrite !in_app_iff in I. destruct I as [I|[I|I]]; [contradiction| |contradiction]. cbn in I. destruct I as [I|[]]. congruence. }
  intros (X1 & X2 & X3 & X4 & X5) (Y1 & Y2 & Y3 & Y4 & Y5) Q. repeat split; try (apply G; [discriminate|assumption|assumption]).
  destruct Q as [[Q1 Q2]|[Q1 Q2]]; [left|right]; (apply G; [discriminate|assumption|assumption]).
Qed.
Lemma two_strip x y : x <> [] -> y <> [] -> strip x = x -> strip y = y -> strip (x ++ u "/" ++ y)%list = (x ++ u "/" ++ y)%list.
Proof.
  intros Nx Ny Sx Sy. destruct x as [|c r]; [congruence|]. pose proof (strip_first _ c r Sx (or_introl eq_refl)) as Hc.
  destruct (exists_last Ny) as (r' & c' & Er). pose proof (strip_first _ c' r' Sy (or_intror Er)) as Hc'.
  unfold strip, strip_chars. rewrite (lstrip_keep wspace c (r ++ u "/" ++ y)%list Hc : lstrip_chars wspace ((c :: r) ++ u "/" ++ y)%list = _).
  unfold rstrip_chars. refine (eq_trans (f_equal (@rev N) (_ : _ = rev (c :: (r ++ u "/" ++ y))%list)) (rev_involutive _)).
  assert (E2 : exists z, rev (c :: (r ++ u "/" ++ y))%list = c' :: z).
  { change (c :: (r ++ u "/" ++ y))%list with ((c :: r) ++ (u "/" ++ y))%list. rewrite !rev_app_distr, Er, rev_app_distr. cbn [rev Datatypes.app]. eexists. reflexivity. }
  destruct E2 as (z & ->). exact (lstrip_keep wspace c' z Hc').
Qed.
Lemma gen_matmul s k k' a b n w : tame_eval -> calculating_in d s -> during_in d s w -> In k measured_kinds -> In k' measured_kinds -> qof k a -> qof k' b ->
  plain_base (q_unit a) -> plain_base (q_unit b) -> (~ In 39%N (q_unit a) /\ ~ In 39%N (q_unit b)) \/ (~ In 34%N (q_unit a) /\ ~ In 34%N (q_unit b)) ->
  (forall k l, In (k, l) kd -> ~ In (q_unit a ++ u "/" ++ q_unit b)%list l) -> q_val b <> 0 ->
  exists r, fst (matmul n a (PQ b) w) = Ok (PQ r) /\ q_unit r = (q_unit a ++ u "/" ++ q_unit b)%list /\ q_val r = q_val a / q_val b.
Proof.
  intros Te (S & Hs & Hb) Dw Hk Hk' (Ka & La & Ua) (Kb & Lb & Ub) Pa Pb Q Un Nv. pose proof (during_era cs d H s w Te Dw) as Hw.
  destruct (plain_parts k (plain_measured k Hk)) as (P1 & P2 & P3 & P4 & P5 & P6 & P7). destruct (plain_parts k' (plain_measured k' Hk')) as (R1 & R2 & R3 & R4 & R5 & R6 & R7).
  destruct (gen_quotable cs d H k _ La) as [A1 A2]. destruct (gen_quotable cs d H k' _ Lb) as [B1 B2].
  assert (G : exists k2 w', units_of (q_val a / q_val b) (q_unit a ++ u "/" ++ q_unit b)%list w = (Ok (PQ (Qty k2 (q_unit a ++ u "/" ++ q_unit b)%list (q_val a / q_val b))), w') /\ later w w').
  { apply units_any with (s := s); [exact S|exact Hw| | | | |].
    - exact (two_strip _ _ (proj1 (proj2 (proj1 Pa))) (proj1 (proj2 (proj1 Pb))) A2 B2).
    - apply literal_of. exact (two_quotable _ _ (literal_quotable _ A1) (literal_quotable _ B1) Q).
    - intros I. pose proof (proj1 (forallb_forall _ _) uncertain_whole _ I) as X. cbn beta in X. apply negb_true_iff, cmem_false in X. apply X. rewrite !in_app_iff. right. left. now left.
    - intros I. rewrite !in_app_iff in I. destruct I as [I|[I|I]]; [exact (proj2 (proj1 Ua) I)| |exact (proj2 (proj1 Ub) I)]. cbn in I. destruct I as [I|[]]. discriminate I.
    - intros k0 _ (l & Hl & I). exact (Un k0 l (dget_In _ _ _ Hl) I). }
  destruct G as (k2 & w' & G & _). exists (Qty k2 (q_unit a ++ u "/" ++ q_unit b)%list (q_val a / q_val b)). split; [|split; reflexivity].
  unfold matmul, matmul_qty, qdiv. destruct (Qc_eq_dec (q_val b) 0) as [Z|_]; [contradiction|]. unfold wbind at 1, wlift at 1. rewrite Ka, Kb, P7, P5, R7. cbn [andb].
  rewrite (reduce_two _ _ false (plain_is_name _ Pa) (plain_is_name _ Pb)). unfold wbind at 1, wlift. rewrite G. reflexivity.
Qed.
(** ** Tuples *)
Lemma sum_other sb a l w : (forall q, In q l -> q_kind q <> q_kind a) -> sum sb a (PT (map PQ l)) w = (Ok (PT (map PQ l ++ [PQ a])), w).
Proof.
  intros N. unfold sum. assert (G : exists r, over_tuple (sum_qty sb) a (map PQ l) w = (Ok (r, false), w)).
  { induction l as [|q l IH]; [exists []; reflexivity|]. destruct IH as (r & R); [intros q' I; apply N; now right|]. exists ([PN (q_val q)] ++ r)%list.
    cbn [map over_tuple]. assert (Ne : seqb (q_kind q) (q_kind a) = false) by (apply seqb_neq; apply N; now left). rewrite Ne.
    unfold wbind, wlift, wret. cbn [spread]. rewrite R. reflexivity. }
  destruct G as (r & G). rewrite (wbind_ok _ _ _ _ _ G). reflexivity.
Qed.
Lemma sum_pair sb a b w : q_kind b <> q_kind a -> kindless (q_kind a) = false -> kindless (q_kind b) = false -> sum sb a (PQ b) w = (Ok (PT [PQ a; PQ b]), w).
Proof.
  intros N Na Nb. unfold sum, sum_qty. assert (Ne : seqb (q_kind b) (q_kind a) = false) by now apply seqb_neq. rewrite Ne, Na, Nb. cbn [andb].
  assert (Np : is_k (q_kind a) "Percentage" = false) by (unfold kindless in Na; now apply orb_false_iff in Na as [_ Na]). rewrite Np. reflexivity.
Qed.
(** with a component of the same kind: the sums, and the bare numbers of the others *)
Lemma gen_tuple s k sb a l w : tame_eval -> during_in d s w -> In k measured_kinds -> q_kind a = k -> listed_in kd k (q_unit a) ->
  (forall q, In q l -> q_kind q = k -> q_unit q = q_unit a) -> (exists q, In q l /\ q_kind q = k) ->
  sum sb a (PT (map PQ l)) w = (Ok (PT (map (fun q => if seqb (q_kind q) k then PQ (Qty k (q_unit a) (plus sb (q_val a) (q_val q))) else PN (q_val q)) l)), w).
Proof.
  intros Te Dw Hk Ka La Us Ex. pose proof (during_era cs d H s w Te Dw) as Hw. pose proof (plain_measured k Hk) as Hp.
  set (f := fun q => if seqb (q_kind q) k then PQ (Qty k (q_unit a) (plus sb (q_val a) (q_val q))) else PN (q_val q)).
  assert (G : over_tuple (sum_qty sb) a (map PQ l) w = (Ok (map f l, existsb (fun q => seqb (q_kind q) k) l), w)).
  { clear Ex. induction l as [|q l IH]; [reflexivity|]. cbn [map over_tuple existsb]. rewrite Ka.
    assert (IH' := IH (fun q' I => Us q' (or_intror I))).
    destruct (seqb (q_kind q) k) eqn:Eq.
    - apply seqb_eq in Eq. assert (R : sum_qty sb a q w = (Ok (f q), w)).
      { unfold sum_qty. rewrite Ka, Eq, seqb_refl, (Us q (or_introl eq_refl) Eq), seqb_refl. rewrite (make_listed d s k _ _ w Hw Hp La). unfold f. now rewrite Eq, seqb_refl. }
      unfold wbind. rewrite R. unfold wret. rewrite IH'. reflexivity.
    - unfold wbind, wlift, wret. cbn [spread]. rewrite IH'. cbn [fst snd orb Datatypes.app]. unfold f at 2. rewrite Eq. reflexivity. }
  unfold sum. rewrite (wbind_ok _ _ _ _ _ G). cbn [fst snd]. destruct Ex as (q & Iq & Kq).
  assert (X : existsb (fun q => seqb (q_kind q) k) l = true) by (apply existsb_exists; exists q; split; [exact Iq|rewrite Kq; apply seqb_refl]). rewrite X. reflexivity.
Qed.
Lemma gen_each s k a n vs w : tame_eval -> during_in d s w -> In k classes -> q_kind a = k -> listed_in kd k (q_unit a) ->
  mul (Datatypes.S n) a (PT (map PN vs)) w = (Ok (PT (map (fun v => PQ (Qty k (q_unit a) (q_val a * v))) vs)), w).
Proof.
  intros Te Dw Hk Ka La. cbn [mul]. fold (mul (F:=F) (P:=P) (E:=E) n).
  assert (G : each (mul n a) (map PN vs) w = (Ok (map (fun v => PQ (Qty k (q_unit a) (q_val a * v))) vs), w)).
  { induction vs as [|v vs IH]; [reflexivity|]. cbn [map each].
    destruct (gen_numbers s k a v w Te Dw Hk Ka La) as (_ & _ & _ & _ & _ & M). destruct (M n) as (M1 & _).
    rewrite (wbind_ok _ _ _ _ _ M1), (wbind_ok _ _ _ _ _ IH). reflexivity. }
  rewrite (wbind_ok _ _ _ _ _ G). reflexivity.
Qed.
(** a power whose exponent is a dimensionless quantity: the unit is not raised *)
Lemma gen_pow_dimless s k a b w r : tame_eval -> during_in d s w -> In k measured_kinds -> q_kind a = k -> listed_in kd k (q_unit a) -> q_kind b = u "Dimensionless" ->
  pow_any (q_val a) (q_val b) = Ok r -> pow_qty a b w = (Ok (PQ (Qty k (q_unit a) r)), w).
Proof.
  intros Te Dw Hk Ka La Kb R. pose proof (during_era cs d H s w Te Dw) as Hw. pose proof (plain_measured k Hk) as Hp. destruct (plain_parts k Hp) as (P1 & P2 & P3 & P4 & P5 & P6 & P7).
  unfold pow_qty. rewrite Ka, Kb, P7, P5, R. cbn [andb]. change (kindless (u "Dimensionless")) with true. unfold wbind, wlift. exact (make_listed d s k r (q_unit a) w Hw Hp La).
Qed.
End G.
