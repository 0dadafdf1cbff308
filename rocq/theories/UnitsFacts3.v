(** * Products and quotients of quantities of the kinds of a checked database *)
From Coq Require Import String QArith Qcanon Lia.
From Verif Require Import Py StrTools Network NetworkFacts SearchSpec Conv Converter EngineSpec EngineFacts EngineFacts2 EngineFacts3 EngineFacts4 EngineFacts5 EngineFacts6 EngineFacts7 PropsEngine
  OpsSpec OpsFacts OpsFacts2 OpsFacts3 PropsOps ConsistSpec ConsistFacts Demo Dict Database Shipped
  Operations ShippedSpec ShippedCheck ShippedFacts2 ShippedFacts3 ShippedFacts5 Units UnitsSpec KindFacts UnitsFacts UnitsFacts2.
Local Open Scope N_scope.
Local Opaque all_kinds merge_data.

Lemma letters_plain x : letters_b x = true -> plain_base x.
Proof.
  unfold letters_b. rewrite !andb_true_iff. intros ((H1 & H2) & H3). rewrite forallb_forall in H3. split; [apply unit_check; now rewrite H1, H2|].
  split.
  - intros c Hc. apply H3 in Hc. rewrite !andb_true_iff, !negb_true_iff in Hc. destruct Hc as ((A1 & A2) & A3). split; [exact A1|]. now apply cmem_false.
  - intros Hc. apply H3 in Hc. rewrite !andb_true_iff, !negb_true_iff in Hc. destruct Hc as (_ & A3). discriminate A3.
Qed.
Lemma norm_unit x : unit_name x -> norm (Some x) = x.
Proof.
  intros (Hs & Hb). assert (E : or_dimless (Some x) = x).
  { unfold or_dimless. destruct (strip_chars sp_par x) eqn:Es; [|reflexivity]. apply strip_nil in Es. destruct Hb as (N0 & _ & _ & _ & He).
    destruct x as [|c x]; [congruence|]. exfalso. apply (He c x (or_introl eq_refl)). specialize (Es c (or_introl eq_refl)). cbn in Es |- *. unfold blank, lpar, rpar, c_space, c_lpar, c_rpar in *. tauto. }
  unfold norm. cbv zeta. change (or_dimless (@Some str x)) with (or_dimless (Some x)). rewrite E, split2_no; [reflexivity|apply Hs].
Qed.
Lemma square_name x : powname x 2 = (x ++ u "2")%list. Proof. reflexivity. Qed.
Lemma square_ne x y : letters_b y = true -> (x ++ u "2")%list <> y.
Proof.
  intros H <-. unfold letters_b in H. rewrite !andb_true_iff in H. destruct H as (_ & H). rewrite forallb_forall in H. specialize (H 50).
  rewrite in_app_iff in H. specialize (H (or_intror (or_introl eq_refl))). discriminate H.
Qed.
Lemma square_products : forallb (fun k => match product_unit k k with None => true | _ => false end) square_kinds = true. Proof. vm_compute. reflexivity. Qed.
Lemma square_front : forallb (fun k => negb (smem k late_kinds)) square_kinds = true. Proof. vm_compute. reflexivity. Qed.
Lemma square_not_late k : In k square_kinds -> ~ In k late_kinds.
Proof. intros H K. pose proof (proj1 (forallb_forall _ _) square_front k H) as X. cbn beta in X. apply smem_In in K. rewrite K in X. discriminate X. Qed.

Section W.
Context (cs : list ShippedCert.crow) (d : db Qc).
Context (H : check_db cs d = true).
Local Notation g := (db_net d).
Local Notation kd := (merge_data (db_kinds d)).
Local Notation D := (dicts_of (all_kinds (db_kinds d))).
Context {F : Floats} {P : Pow} {E : Eval}.
Context (s : st Qc) (S : session_of d s) (Hs : searches (s_par s)) (Hb : forall b, fv_of s = Ok b -> (0 < b)%Qc).
Local Open Scope Qc_scope.
Notation era := (era d s). Notation qof := (qof d).
(** ** [units()] of a known name *)
Lemma units_kind_ok k x v w : era w -> literal x = Some x -> plain_class k = true -> listed_in kd k x -> units_kind k x v false w = (Ok (Qty k x v), w).
Proof.
  intros Hw Hl Hp Hx. destruct (plain_parts k Hp) as (P1 & P2 & P3 & P4 & P5 & P6 & P7). unfold units_kind. rewrite Hl.
  unfold wbind, construct. rewrite P1, P2, P3, P4, P5, (class_listed d s k x w Hw P3 Hx). cbn [q_kind q_unit wret]. now rewrite P5.
Qed.
Lemma units_first k x v w : era w -> simple x -> first_in kd x = Some k -> ~ In k late_kinds -> plain_class k = true -> ~ In x shipped_uncertain ->
  listed_in kd k x -> units_of v x w = (Ok (PQ (Qty k x v)), w).
Proof.
  intros Hw Hx Hf Hk Hp Hu Lx. destruct (gen_quotable cs d H k x Lx) as (Q1 & Q2). unfold units_of, units. cbn [wbind]. rewrite Q2.
  unfold wbind, wget. rewrite (era_uncertain d s S w Hw).
  destruct (smem x shipped_uncertain) eqn:Eu; [apply smem_In in Eu; contradiction|].
  rewrite (first_front cs d H s x k w Hw Hx Hf Hk), (units_kind_ok k x v w Hw Q1 Hp Lx). reflexivity.
Qed.
Lemma units_new x v w : era w -> simple x -> first_in kd x = None -> literal x = Some x -> strip x = x -> ~ In x shipped_uncertain ->
  exists w', units_of v x w = (Ok (PQ (Qty (u "UserUnits") x v)), w') /\ later w w'.
Proof.
  intros Hw Hx Hf Q1 Q2 Hu. unfold units_of, units. cbn [wbind]. rewrite Q2. unfold wbind, wget. rewrite (era_uncertain d s S w Hw).
  destruct (smem x shipped_uncertain) eqn:Eu; [apply smem_In in Eu; contradiction|].
  assert (L : later w (add_user x w)) by (apply later_add_user; exact (era_user cs d H s w Hw)).
  destruct (first_none d s x w Hw Hx Hf) as [-> | ->]; exists (add_user x w); (split; [|exact L]).
  - unfold construct. change (is_k (u "UserUnits") "Unit") with false. change (is_k (u "UserUnits") "UserUnits") with true. cbv iota zeta. rewrite Q2. reflexivity.
  - unfold units_kind. rewrite Q1. unfold wbind, construct. change (is_k (u "UserUnits") "Unit") with false. change (is_k (u "UserUnits") "UserUnits") with true. cbv iota zeta.
    rewrite Q2. reflexivity.
Qed.
Section M.
Context (m : scale) (b : Qc) (Hb0 : forall w, era w -> fvf_is b (w_st w)) (M0 : forall x, 0 < k_of m x)
 (M1 : forall k s l v w f t uc, session_of d s -> Forall keeps l -> fvf_is b (do_calls l s) -> unit_name f -> unit_name t ->
        listed_in kd k f -> listed_in kd k t -> ~ In k contradictory_kinds -> ~ In k rule_kinds ->
        fst (convert (VNum v) (UStr f) (UStr t) uc (do_calls l s)) = Ok (Some (CVal w)) -> w = rescale m f t v)
 (M2 : forall k f t, In k proportional_kinds -> listed_in kd k f -> listed_in kd k t -> o_of m f = o_of m t).
Context (k x y : str) (Hk : In k square_kinds) (Lx : listed_in kd k x) (Ly : listed_in kd k y) (Bx : letters_b x = true) (By : letters_b y = true)
  (Nx : ~ In x not_squared).
Lemma km : In k measured_kinds. Proof. exact (proj2 (proj2 (proj2 kind_lists) k Hk)). Qed.
Lemma kp : In k proportional_kinds. Proof. exact (proj1 (proj2 (proj2 kind_lists) k Hk)). Qed.
Lemma ux : unit_name x. Proof. exact (proj1 (letters_plain x Bx)). Qed.
Lemma uy : unit_name y. Proof. exact (proj1 (letters_plain y By)). Qed.
Lemma ux2 : unit_name (x ++ u "2")%list. Proof. exact (powname_unit x 2 (letters_plain x Bx)). Qed.
Lemma run_bind {X Y} (f : M Qc X) (h : X -> M Qc Y) w r w' : run f w = (Ok r, w') -> run (bind f h) w = run (h r) w'.
Proof.
  unfold run, bind. destruct (f (w_st w)) as [[z|e] s1]; intros X1; injection X1 as X1 X2; subst; [reflexivity|discriminate X1].
Qed.
Lemma run_ret {X} (r : X) w : run (ret r) w = (Ok r, w). Proof. destruct w. reflexivity. Qed.
Lemma run_lift {X} (r : res X) w : run (lift r) w = (r, w). Proof. destruct w. reflexivity. Qed.
Lemma product_same n z w : (1 <= n)%nat -> listed_in kd k z -> letters_b z = true ->
  run (unit_op unitless_names n false (Some z) (Some z)) w = (Ok (z ++ u "2")%list, w).
Proof.
  intros Hn Lz Bz. destruct n as [|n]; [lia|]. destruct (gen_square cs d H k z Hk Lz Bz) as (_ & _ & U & _).
  pose proof (letters_plain z Bz) as Pz. cbn [unit_op]. rewrite (norm_unit z (proj1 Pz)), U, seqb_refl. cbn [negb andb].
  rewrite (ubp_alone z (proj1 (proj2 Pz))). rewrite (run_bind _ _ _ _ _ (run_lift (Ok (z, PI 1)) w)). cbn [fst snd].
  unfold has_op. rewrite !name_nochar by (exact (plain_is_name z Pz) || reflexivity). cbn [orb p_int].
  rewrite (run_bind _ _ _ _ _ (run_lift (Ok 1%Z) w)). exact (run_ret _ w).
Qed.
Lemma product_total w : era w -> exists w', product_name x y w = (Ok (x ++ u "2")%list, w') /\ later w w'.
Proof.
  intros Hw. unfold product_name, unit_product. pose proof (op_fuel_3 (Some x) (Some y)) as Hf. destruct (op_fuel (Some x) (Some y)) as [|[|n]]; [lia|lia|].
  destruct (seqb x y) eqn:Exy.
  - apply seqb_eq in Exy. rewrite <- Exy. exists w. split; [|apply later_refl]. apply product_same; [lia|exact Lx|exact Bx].
  - destruct (gen_square cs d H k x Hk Lx Bx) as (_ & _ & U1 & _). destruct (gen_square cs d H k y Hk Ly By) as (_ & _ & U2 & _).
    cbn [unit_op]. fold (unit_op (V:=Qc) unitless_names n). rewrite (norm_unit x ux), (norm_unit y uy), U1, U2, Exy. cbn [negb andb].
    destruct (convertible_total cs d H s S Hs k x y w Hw km ux uy Lx Ly) as (w1 & R1 & L1). unfold convertible_ in R1. rewrite (run_bind _ _ _ _ _ R1). cbv iota.
    exists w1. split; [|exact L1]. exact (product_same (Datatypes.S n) x w1 ltac:(lia) Lx Bx).
Qed.
Lemma square_apart : (exists k2, (k2 = u "UserUnits" \/ k2 = u "Area") /\ forall v w, era w -> exists w', units_of v (x ++ u "2") w = (Ok (PQ (Qty k2 (x ++ u "2") v)), w') /\ later w w')
  /\ (forall z w, listed_in kd k z -> letters_b z = true -> era w -> exists w', convertible_ z (x ++ u "2") w = (Ok false, w') /\ later w w')
  /\ (forall z w, listed_in kd k z -> letters_b z = true -> era w -> exists w', convertible_ (x ++ u "2") z w = (Ok false, w') /\ later w w').
Proof.
  destruct (gen_square cs d H k x Hk Lx Bx) as (_ & _ & _ & X). specialize (X Nx). cbv zeta in X. destruct X as (O & U & Q1 & Q2 & K & A).
  split; [|split].
  - destruct K as [K|[K Kne]].
    + exists (u "UserUnits"). split; [now left|]. intros v w Hw. exact (units_new _ v w Hw (proj1 ux2) K Q1 Q2 U).
    + exists (u "Area"). split; [now right|]. intros v w Hw. exists w. split; [|apply later_refl].
      pose proof (gen_first_listed cs d H _ _ K) as La.
      exact (units_first _ _ v w Hw (proj1 ux2) K ltac:(intros Z; apply smem_In in Z; discriminate Z) eq_refl U La).
  - intros z w Lz Bz Hw. apply (not_convertible_total cs d H s S Hs z _ w Hw (proj1 (letters_plain z Bz)) ux2).
    + apply (ShippedFacts4.gen_ordinary cs d H k z Lz). exact (proj2 (proj2 (proj1 (proj2 kind_lists) k km))).
    + intros Z. exact (square_ne x z Bz (eq_sym Z)).
    + exact (proj1 (A z Lz)).
  - intros z w Lz Bz Hw. apply (not_convertible_total cs d H s S Hs _ z w Hw ux2 (proj1 (letters_plain z Bz))); [exact O|exact (square_ne x z Bz)|exact (proj2 (A z Lz))].
Qed.
Lemma division_total w : era w -> exists w', division_name (x ++ u "2") y w = (Ok x, w') /\ later w w'.
Proof.
  intros Hw. destruct square_apart as (_ & A1 & A2). pose proof (letters_plain x Bx) as Px. pose proof (letters_plain y By) as Py.
  assert (U1 : is_unitless unitless_names (powname x 2) = false) by exact (power_unitless x 2 (proj1 (proj2 Px))).
  assert (Un : unit_name (powname x 2)) by exact (powname_unit x 2 Px).
  assert (Ne : powname x 2 <> y) by (rewrite square_name; exact (square_ne x y By)).
  assert (A3 : exists w', convertible_ (powname x 2) y w = (Ok false, w') /\ later w w') by (rewrite square_name; exact (A2 y w Ly By Hw)).
  pose proof (ubp_powname x 2 (proj1 (proj2 Px))) as Ub.
  rewrite <- square_name. generalize dependent (powname x 2). intros z U1 Un Ne A3 Ub.
  unfold division_name, unit_division. pose proof (op_fuel_3 (Some z) (Some y)) as Hf.
  destruct (op_fuel (Some z) (Some y)) as [|n]; [lia|].
  destruct (gen_square cs d H k y Hk Ly By) as (_ & _ & U2 & _). 
  cbn [unit_op]. fold (unit_op (V:=Qc) unitless_names n). rewrite (norm_unit z Un), (norm_unit y uy), U2, U1. cbn [negb andb].
  destruct (seqb z y) eqn:Exy; [apply seqb_eq in Exy; contradiction|].
  destruct A3 as (w1 & R1 & L1). unfold convertible_ in R1. rewrite (run_bind _ _ _ _ _ R1). cbv iota.
  rewrite Ub, (ubp_alone y (proj1 (proj2 Py))).
  rewrite (run_bind _ _ _ _ _ (run_lift (Ok (x, PI 2)) w1)), (run_bind _ _ _ _ _ (run_lift (Ok (y, PI 1)) w1)).
  change (p_eqZ (PI 2) (-1)) with false. change (p_eqZ (PI 1) (-1)) with false. cbn [negb andb].
  destruct (convertible_total cs d H s S Hs k x y w1 (era_later d s _ _ Hw L1) km ux uy Lx Ly) as (w2 & R2 & L2). unfold convertible_ in R2.
  rewrite (run_bind _ _ _ _ _ R2). cbv iota. exists w2. split; [|exact (later_trans _ _ _ L1 L2)].
  change (p_sub (PI 2) (PI 1)) with (PI 1). change (spell x (PI 1)) with x.
  rewrite (reduce_plain x false (base_noslash x (proj1 (proj2 Px)))).
  - exact (run_lift _ w2).
  - apply name_nochar; [exact (plain_is_name x Px)|reflexivity].
  - apply name_nochar; [exact (plain_is_name x Px)|reflexivity].
Qed.
Lemma kparts : kindless k = false. Proof. exact (proj2 (proj2 (proj2 (proj2 (proj2 (proj2 (plain_parts k (plain_measured k km)))))))). Qed.
Lemma mul_total n va vb w : era w -> exists k2 w', mul n (Qty k x va) (PQ (Qty k y vb)) w = (Ok (PQ (Qty k2 (x ++ u "2")%list (va * rescale m y x vb))), w')
  /\ (k2 = u "UserUnits" \/ k2 = u "Area") /\ later w w'.
Proof.
  intros Hw. destruct square_apart as ((k2 & K2 & U) & _). exists k2.
  assert (Pu : product_unit k k = None). { pose proof (proj1 (forallb_forall _ _) square_products k Hk) as X. cbn beta in X. destruct (product_unit k k); [discriminate X|reflexivity]. }
  assert (G : exists w', mul_qty (Qty k x va) (Qty k y vb) w = (Ok (PQ (Qty k2 (x ++ u "2")%list (va * rescale m y x vb))), w') /\ later w w').
  { unfold mul_qty. cbn [q_kind q_unit q_val]. rewrite kparts. cbn [andb negb].
    assert (Pk : is_k k "Percentage" = false) by (pose proof kparts as X; unfold kindless in X; now apply orb_false_iff in X as [_ X]). rewrite Pk. cbn [andb].
    destruct (seqb x y) eqn:Exy.
    - apply seqb_eq in Exy. destruct (product_total w Hw) as (w1 & R1 & L1). rewrite (wbind_ok _ _ _ _ _ R1). rewrite <- Exy.
      rewrite rescale_id by exact (size_nz m M0 x). destruct (U (va * vb) w1 (era_later d s _ _ Hw L1)) as (w2 & R2 & L2). exists w2. split; [exact R2|exact (later_trans _ _ _ L1 L2)].
    - destruct (convertible_total cs d H s S Hs k y x w Hw km uy ux Ly Lx) as (w1 & R1 & L1). rewrite (wbind_ok _ _ _ _ _ R1). cbv iota.
      pose proof (era_later d s _ _ Hw L1) as Hw1.
      destruct (conv_num_total cs d H s S Hs m b Hb0 M1 k vb y x w1 Hw1 km uy ux Ly Lx) as (w2 & R2 & L2). rewrite (wbind_ok _ _ _ _ _ R2).
      pose proof (era_later d s _ _ Hw1 L2) as Hw2.
      destruct (product_total w2 Hw2) as (w3 & R3 & L3). rewrite (wbind_ok _ _ _ _ _ R3). pose proof (era_later d s _ _ Hw2 L3) as Hw3.
      destruct (U (va * rescale m y x vb) w3 Hw3) as (w4 & R4 & L4). exists w4. split; [exact R4|].
      exact (later_trans _ _ _ L1 (later_trans _ _ _ L2 (later_trans _ _ _ L3 L4))). }
  destruct G as (w' & G & L). exists w'. split; [|split; [exact K2|exact L]]. destruct n; cbn [mul q_kind]; rewrite Pu; exact G.
Qed.
Lemma div_total n k2 va vb w : era w -> k2 = u "UserUnits" \/ k2 = u "Area" -> vb <> 0 ->
  exists w', truediv n (Qty k2 (x ++ u "2")%list (va * rescale m y x vb)) (PQ (Qty k y vb)) w = (Ok (PQ (Qty k x va)), w') /\ later w w'.
Proof.
  intros Hw K2 Hv. destruct square_apart as (_ & A1 & A2). pose proof (letters_plain x Bx) as Px. pose proof (letters_plain y By) as Py.
  assert (Qu : quotient_unit k2 k = None) by (destruct K2 as [-> | ->]; reflexivity).
  assert (G : exists w', div_qty qdiv (Qty k2 (x ++ u "2")%list (va * rescale m y x vb)) (Qty k y vb) w = (Ok (PQ (Qty k x va)), w') /\ later w w').
  { unfold div_qty. cbn [q_kind q_unit q_val]. assert (X : kindless k2 = false /\ is_k k2 "Percentage" = false) by (destruct K2 as [-> | ->]; split; reflexivity).
    destruct X as [X1 X2]. rewrite X1, X2, kparts. cbn [andb negb].
    destruct (seqb (x ++ u "2")%list y) eqn:Exy; [apply seqb_eq in Exy; exfalso; exact (square_ne x y By Exy)|].
    destruct (A1 y w Ly By Hw) as (w1 & R1 & L1). rewrite (wbind_ok _ _ _ _ _ R1). cbv iota. pose proof (era_later d s _ _ Hw L1) as Hw1.
    assert (B1 : base_of y w1 = (Ok (y, PI 1), w1)) by (unfold base_of; rewrite (ubp_alone y (proj1 (proj2 Py))); reflexivity).
    assert (B2 : forall w, base_of (x ++ u "2")%list w = (Ok (x, PI 2), w)) by (intros w0; unfold base_of; rewrite <- square_name, (ubp_powname x 2 (proj1 (proj2 Px))); reflexivity).
    destruct (convertible_total cs d H s S Hs k y x w1 Hw1 km uy ux Ly Lx) as (w2 & R2 & L2). pose proof (era_later d s _ _ Hw1 L2) as Hw2.
    assert (R2' : bases_convertible y (x ++ u "2")%list w1 = (Ok true, w2)).
    { unfold bases_convertible. rewrite (wbind_ok _ _ _ _ _ B1), (wbind_ok _ _ _ _ _ (B2 w1)). exact R2. }
    rewrite (wbind_ok _ _ _ _ _ R2'). cbv iota.
    destruct (conv_num_total cs d H s S Hs m b Hb0 M1 k 1 y x w2 Hw2 km uy ux Ly Lx) as (w3 & R3 & L3). pose proof (era_later d s _ _ Hw2 L3) as Hw3.
    assert (B1' : base_of y w2 = (Ok (y, PI 1), w2)) by (unfold base_of; rewrite (ubp_alone y (proj1 (proj2 Py))); reflexivity).
    assert (R3' : base_factor y (x ++ u "2")%list w2 = (Ok (rescale m y x 1), w3)).
    { unfold base_factor. rewrite (wbind_ok _ _ _ _ _ B1'), (wbind_ok _ _ _ _ _ (B2 w2)). cbn [fst snd]. rewrite (wbind_ok _ _ _ _ _ R3).
      unfold pow_num, pow_int, wlift. change (Z.to_nat 1) with 1%nat. cbn [Qcpower]. do 2 f_equal. ring. }
    rewrite (wbind_ok _ _ _ _ _ R3').
    assert (O : o_of m y = o_of m x) by exact (M2 k y x kp Ly Lx). pose proof (size_nz m M0 x) as Nzx. pose proof (size_nz m M0 y) as Nzy.
    assert (Fz : rescale m y x 1 <> 0).
    { unfold rescale. rewrite O. intros Z. assert (Y : (1 * k_of m y + o_of m x - o_of m x) / k_of m x * k_of m x = 0) by (rewrite Z; ring).
      replace ((1 * k_of m y + o_of m x - o_of m x) / k_of m x * k_of m x) with (k_of m y) in Y by (field; exact Nzx). contradiction. }
    assert (Vz : vb * rescale m y x 1 <> 0) by (intros Z; apply Qcmult_integral in Z as [Z|Z]; contradiction).
    assert (Dv : qdiv (va * rescale m y x vb) (vb * rescale m y x 1) = Ok va).
    { unfold qdiv. destruct (Qc_eq_dec (vb * rescale m y x 1) 0) as [Z|_]; [contradiction|]. f_equal. replace (rescale m y x vb) with (vb * rescale m y x 1) by (unfold rescale; rewrite O; field; exact Nzx).
      field. split; [exact Fz|exact Hv]. }
    rewrite Dv. unfold wbind at 1, wlift at 1. 
    destruct (division_total w3 Hw3) as (w4 & R4 & L4). pose proof (era_later d s _ _ Hw3 L4) as Hw4. rewrite (wbind_ok _ _ _ _ _ R4).
    destruct (gen_square cs d H k x Hk Lx Bx) as (F1 & F2 & _ & _). exists w4. split.
    - exact (units_first k x va w4 Hw4 (proj1 ux) F1 (square_not_late k Hk) (plain_measured k km) F2 Lx).
    - exact (later_trans _ _ _ L1 (later_trans _ _ _ L2 (later_trans _ _ _ L3 L4))). }
  destruct G as (w' & G & L). exists w'. split; [|exact L]. destruct n; cbn [truediv q_kind]; rewrite Qu; exact G.
Qed.
End M.
End W.
