(** * Products and quotients of quantities of two kinds *)
From Coq Require Import String QArith Qcanon Qround Lia.
From Verif Require Import Py StrTools Network NetworkFacts SearchSpec Conv Converter EngineSpec EngineFacts EngineFacts2 EngineFacts3 EngineFacts4 EngineFacts5 EngineFacts6 EngineFacts7 PropsEngine
  StrSpec StrFacts2 OpsSpec OpsFacts OpsFacts2 OpsFacts3 StrFacts3 PropsOps ConsistSpec ConsistFacts Demo Dict Database FastDb Shipped
  Operations ShippedSpec ShippedCheck ShippedFacts2 ShippedFacts3 ShippedFacts4 ShippedFacts5 Units UnitsSpec UnitsSpec2 NumFacts KindFacts UnitsFacts UnitsFacts2 UnitsFacts3 UnitsFacts4 UnitsFacts5 UnitsFacts6 UnitsFacts7 UnitsFacts8.
Local Open Scope N_scope.
Local Opaque all_kinds merge_data.

Lemma uncertain_single : forallb (fun x => negb (cmem c_star x)) shipped_uncertain = true. Proof. vm_compute. reflexivity. Qed.
Lemma merged_sym k k' : In (k, k') merged -> In (k', k) merged.
Proof.
  intros I. unfold merged, both_ways, pairs in *. rewrite map_map in *. rewrite in_app_iff, !in_map_iff in *. cbn [fst snd] in *.
  destruct I as [([x y] & E & I)|([x y] & E & I)]; cbn [fst snd] in E; injection E as <- <-; [right|left]; exists (x, y); (split; [reflexivity|exact I]).
Qed.
(** ** Names *)
Lemma reduce_product x y re : is_name x = true -> is_name y = true -> x <> y -> reduce_units re (x ++ u "*" ++ y) = Ok (x ++ u "*" ++ y)%list.
Proof.
  intros Hx Hy Exy. pose proof (reduce_units_write re [(true, x); (true, y)]) as W0.
  assert (Hf : factors_ok [(true, x); (true, y)] = true) by (unfold factors_ok; cbn [forallb snd]; now rewrite Hx, Hy).
  specialize (W0 Hf). change (write [(true, x); (true, y)]) with (x ++ (42%N :: (y ++ [])))%list in W0. rewrite app_nil_r in W0. change (x ++ u "*" ++ y)%list with (x ++ 42%N :: y)%list. rewrite W0. f_equal.
Qed.
Lemma op_quotable c x y : c <> 92 -> c <> 10 -> c <> 13 -> c <> 0 -> c <> 39 -> c <> 34 -> quotable_name x -> quotable_name y ->
  (~ In 39%N x /\ ~ In 39%N y) \/ (~ In 34%N x /\ ~ In 34%N y) -> quotable_name (x ++ [c] ++ y)%list.
Proof.
  assert (G : forall e, c <> e -> ~ In e x -> ~ In e y -> ~ In e (x ++ [c] ++ y)%list).
  { intros e He Nx Ny I. rewrite !in_app_iff in I. destruct I as [I|[I|I]]; [contradiction| |contradiction]. destruct I as [I|[]]. congruence. }
  intros C1 C2 C3 C4 C5 C6 (X1 & X2 & X3 & X4 & X5) (Y1 & Y2 & Y3 & Y4 & Y5) Q. repeat split; try (apply G; assumption).
  destruct Q as [[Q1 Q2]|[Q1 Q2]]; [left|right]; (apply G; assumption).
Qed.
Lemma op_strip o x y : x <> [] -> y <> [] -> strip x = x -> strip y = y -> strip (x ++ o ++ y)%list = (x ++ o ++ y)%list.
Proof.
  intros Nx Ny Sx Sy. destruct x as [|c r]; [congruence|]. pose proof (strip_first _ c r Sx (or_introl eq_refl)) as Hc.
  destruct (exists_last Ny) as (r' & c' & Er). pose proof (strip_first _ c' r' Sy (or_intror Er)) as Hc'.
  unfold strip, strip_chars. rewrite (lstrip_keep wspace c (r ++ o ++ y)%list Hc : lstrip_chars wspace ((c :: r) ++ o ++ y)%list = _).
  unfold rstrip_chars. refine (eq_trans (f_equal (@rev N) (_ : _ = rev (c :: (r ++ o ++ y))%list)) (rev_involutive _)).
  assert (E2 : exists z, rev (c :: (r ++ o ++ y))%list = c' :: z).
  { change (c :: (r ++ o ++ y))%list with ((c :: r) ++ (o ++ y))%list. rewrite !rev_app_distr, Er, rev_app_distr. cbn [rev Datatypes.app]. eexists. reflexivity. }
  destruct E2 as (z & ->). exact (lstrip_keep wspace c' z Hc').
Qed.
Lemma star_swapped (x y : str) w : ~ In c_star x -> ~ In c_star y -> In (x ++ u "*" ++ y)%list (swapped w) -> w = (y ++ u "*" ++ x)%list.
Proof.
  intros Nx Ny I. unfold swapped in I. destruct (cmem c_slash w); [destruct I|]. destruct (csplit c_star w) as [|a [|b [|? ?]]] eqn:Ec; try contradiction. destruct I as [I|[]].
  pose proof (csplit_join c_star w) as J. rewrite Ec in J. change (sjoin [c_star] [a; b]) with (a ++ u "*" ++ b)%list in J.
  assert (Na : ~ In c_star a) by (apply (csplit_nosep c_star w); rewrite Ec; now left). assert (Nb : ~ In c_star b) by (apply (csplit_nosep c_star w); rewrite Ec; right; now left).
  assert (T : forall p q : str, ~ In c_star p -> ~ In c_star q -> csplit c_star (p ++ u "*" ++ q)%list = [p; q]).
  { intros p q Np Nq. change (p ++ u "*" ++ q)%list with (p ++ c_star :: q)%list. rewrite (csplit_app_sep c_star p q Np), (csplit_no c_star q Nq). reflexivity. }
  pose proof (T x y Nx Ny) as T1. rewrite <- I, (T b a Nb Na) in T1. injection T1 as -> ->. now rewrite <- J.
Qed.

Section G.
Context (cs : list ShippedCert.crow) (d : db Qc).
Context (H : check_db cs d = true).
Local Notation g := (db_net d).
Local Notation kd := (merge_data (db_kinds d)).
Local Notation D := (dicts_of (all_kinds (db_kinds d))).
Context {F : Floats} {P : Pow} {E : Eval}.
Local Open Scope Qc_scope.
Notation qof := (qof d).
Section T.
Context (s : st Qc) (S : session_of d s) (Hs : searches (s_par s)).
Notation era := (era d s).
Context (k k' x y : str) (Hk : In k square_kinds) (Hk' : In k' square_kinds) (Nk : k <> k') (Nm : ~ In (k, k') merged)
  (Lx : listed_in kd k x) (Ly : listed_in kd k' y) (Bx : letters_b x = true) (By : letters_b y = true)
  (Q : (~ In 39%N x /\ ~ In 39%N y) \/ (~ In 34%N x /\ ~ In 34%N y)).
Lemma cross_ne : x <> y.
Proof.
  intros X. destruct (gen_square cs d H k x Hk Lx Bx) as (F1 & _). destruct (gen_square cs d H k' y Hk' Ly By) as (F2 & _). rewrite <- X, F1 in F2. injection F2 as F2. exact (Nk F2).
Qed.
Lemma cross_xy w : era w -> exists w', convertible_ x y w = (Ok false, w') /\ later w w'.
Proof.
  intros Hw. apply (not_convertible_total cs d H s S Hs x y w Hw (proj1 (letters_plain x Bx)) (proj1 (letters_plain y By))).
  - apply (ShippedFacts4.gen_ordinary cs d H k x Lx). exact (proj2 (proj2 (proj1 (proj2 kind_lists) k (km k Hk)))).
  - exact cross_ne.
  - intros X. destruct (gen_kinds cs d H k k' x y Lx Ly X) as [X'|X']; contradiction.
Qed.
Lemma cross_yx w : era w -> exists w', convertible_ y x w = (Ok false, w') /\ later w w'.
Proof.
  intros Hw. apply (not_convertible_total cs d H s S Hs y x w Hw (proj1 (letters_plain y By)) (proj1 (letters_plain x Bx))).
  - apply (ShippedFacts4.gen_ordinary cs d H k' y Ly). exact (proj2 (proj2 (proj1 (proj2 kind_lists) k' (km k' Hk')))).
  - intros X. exact (cross_ne (eq_sym X)).
  - intros X. destruct (gen_kinds cs d H k' k y x Ly Lx X) as [X'|X']; [exact (Nk (eq_sym X'))|exact (Nm (merged_sym _ _ X'))].
Qed.
Lemma cross_base (z : str) w : letters_b z = true -> base_of z w = (Ok (z, PI 1), w).
Proof. intros Bz. unfold base_of. rewrite (ubp_alone z (proj1 (proj2 (letters_plain z Bz)))). reflexivity. Qed.
Lemma cross_bases w : era w -> exists w', bases_convertible y x w = (Ok false, w') /\ later w w'.
Proof.
  intros Hw. destruct (cross_yx w Hw) as (w' & R & L). exists w'. split; [|exact L]. unfold bases_convertible.
  rewrite (wbind_ok _ _ _ _ _ (cross_base y w By)), (wbind_ok _ _ _ _ _ (cross_base x w Bx)). exact R.
Qed.
Definition opname (div : bool) : str := (x ++ (if div then u "/" else u "*") ++ y)%list.
Lemma cross_name div w : era w -> exists w', run (unit_op unitless_names (op_fuel (Some x) (Some y)) div (Some x) (Some y)) w = (Ok (opname div), w') /\ later w w'.
Proof.
  intros Hw. pose proof (letters_plain x Bx) as Px. pose proof (letters_plain y By) as Py. pose proof (plain_is_name x Px) as Ix. pose proof (plain_is_name y Py) as Iy.
  pose proof (op_fuel_3 (Some x) (Some y)) as Hf. destruct (op_fuel (Some x) (Some y)) as [|n]; [lia|].
  destruct (gen_square cs d H k x Hk Lx Bx) as (_ & _ & U1 & _). destruct (gen_square cs d H k' y Hk' Ly By) as (_ & _ & U2 & _).
  assert (Exy : seqb x y = false) by (apply seqb_neq; exact cross_ne).
  cbn [unit_op]. fold (unit_op (V:=Qc) unitless_names n). rewrite (norm_unit x (proj1 Px)), (norm_unit y (proj1 Py)), U1, U2, Exy, andb_false_r. 
  destruct (cross_xy w Hw) as (w1 & R1 & L1). unfold convertible_ in R1. rewrite (run_bind _ _ _ _ _ R1). cbv iota.
  rewrite (ubp_alone x (proj1 (proj2 Px))), (ubp_alone y (proj1 (proj2 Py))).
  rewrite (run_bind _ _ _ _ _ (run_lift (Ok (x, PI 1)) w1)), (run_bind _ _ _ _ _ (run_lift (Ok (y, PI 1)) w1)).
  change (p_eqZ (PI 1) (-1)) with false. cbn [negb andb].
  destruct (cross_xy w1 (era_later d s _ _ Hw L1)) as (w2 & R2 & L2). unfold convertible_ in R2. rewrite (run_bind _ _ _ _ _ R2). cbv iota.
  assert (Hst : cmem c_star x = false) by (apply name_nochar; [exact Ix|reflexivity]). rewrite Hst, andb_false_r.
  exists w2. split; [|exact (later_trans _ _ _ L1 L2)]. rewrite (wrap_name x Ix), (wrap_name y Iy). unfold opname. destruct div.
  - rewrite (reduce_two x y false Ix Iy). exact (run_lift _ w2).
  - rewrite (reduce_product x y false Ix Iy cross_ne). exact (run_lift _ w2).
Qed.
(** the name is not in the dictionary under a kind without numbers *)
Definition fresh_name (z : str) : Prop := forall k l, In (k, l) kd -> ~ In z l.
Lemma cross_units div v w : era w -> fresh_name (opname div) -> (div = false -> fresh_name (y ++ u "*" ++ x)%list) ->
  exists k2 w', units_of v (opname div) w = (Ok (PQ (Qty k2 (opname div) v)), w') /\ later w w'.
Proof.
  intros Hw Fn Fs. pose proof (letters_plain x Bx) as Px. pose proof (letters_plain y By) as Py.
  destruct (gen_quotable cs d H k _ Lx) as [A1 A2]. destruct (gen_quotable cs d H k' _ Ly) as [B1 B2].
  assert (Nsx : ~ In c_star x) by exact (proj2 (proj1 (proj1 Px))). assert (Nsy : ~ In c_star y) by exact (proj2 (proj1 (proj1 Py))).
  apply (units_all cs d H s); [exact S|exact Hw| | | |].
  - unfold opname. exact (op_strip _ _ _ (proj1 (proj2 (proj1 Px))) (proj1 (proj2 (proj1 Py))) A2 B2).
  - apply literal_of. unfold opname. destruct div; (apply op_quotable; [discriminate|discriminate|discriminate|discriminate|discriminate|discriminate|exact (literal_quotable _ A1)|exact (literal_quotable _ B1)|exact Q]).
  - intros I. pose proof (proj1 (forallb_forall _ _) uncertain_whole _ I) as X. cbn beta in X.
    destruct div; unfold opname in X.
    + apply negb_true_iff, cmem_false in X. apply X. rewrite !in_app_iff. right. left. now left.
    + pose proof (proj1 (forallb_forall _ _) uncertain_single _ I) as X'. cbn beta in X'. apply negb_true_iff, cmem_false in X'. apply X'. unfold opname. rewrite !in_app_iff. right. left. now left.
  - intros k0 l Hl I. destruct div.
    + unfold opname in I. destruct (adds_all (db_kinds d) k0 l Hl) as [Hc|(l0 & L0 & G)]; [now left|]. exfalso. apply (Fn k0 l0 (dget_In _ _ _ L0)). unfold opname. apply G; [|exact I].
      intros I'. rewrite !in_app_iff in I'. destruct I' as [I'|[I'|I']]; [exact (Nsx I')| |exact (Nsy I')]. cbn in I'. destruct I' as [I'|[]]. discriminate I'.
    + unfold opname in I. destruct (others_all (db_kinds d) k0 l Hl) as [Hc|(l0 & L0 & G)]; [now left|]. exfalso. subst l. unfold complete in I. apply in_app_or in I as [I|I].
      * exact (Fn k0 l0 (dget_In _ _ _ L0) I).
      * apply in_flat_map in I as (z & Iz & I). apply (star_swapped x y z Nsx Nsy) in I. subst z. exact (Fs eq_refl k0 l0 (dget_In _ _ _ L0) Iz).
Qed.

Lemma cross_parts : kindless k = false /\ kindless k' = false /\ is_k k "Percentage" = false.
Proof.
  destruct (plain_parts k (plain_measured k (km k Hk))) as (P1 & P2 & P3 & P4 & P5 & P6 & P7). destruct (plain_parts k' (plain_measured k' (km k' Hk'))) as (R1 & R2 & R3 & R4 & R5 & R6 & R7). auto.
Qed.
Lemma cross_mul va vb w : era w -> fresh_name (opname false) -> fresh_name (y ++ u "*" ++ x)%list ->
  exists k2 w', mul_qty (Qty k x va) (Qty k' y vb) w = (Ok (PQ (Qty k2 (opname false) (va * vb))), w') /\ later w w'.
Proof.
  intros Hw F1 F2. destruct cross_parts as (K1 & K2 & K3). unfold mul_qty. cbn [q_kind q_unit q_val]. rewrite K1, K2, K3. cbn [andb].
  assert (Exy : seqb x y = false) by (apply seqb_neq; exact cross_ne). rewrite Exy.
  destruct (cross_yx w Hw) as (w1 & R1 & L1). rewrite (wbind_ok _ _ _ _ _ R1). cbv iota. pose proof (era_later d s _ _ Hw L1) as Hw1.
  destruct (cross_xy w1 Hw1) as (w2 & R2 & L2). rewrite (wbind_ok _ _ _ _ _ R2). cbv iota. pose proof (era_later d s _ _ Hw1 L2) as Hw2.
  destruct (cross_bases w2 Hw2) as (w3 & R3 & L3). rewrite (wbind_ok _ _ _ _ _ R3). cbv iota. pose proof (era_later d s _ _ Hw2 L3) as Hw3.
  destruct (cross_name false w3 Hw3) as (w4 & R4 & L4). unfold product_name, unit_product. rewrite (wbind_ok _ _ _ _ _ R4). pose proof (era_later d s _ _ Hw3 L4) as Hw4.
  destruct (cross_units false (va * vb) w4 Hw4 F1 (fun _ => F2)) as (k2 & w5 & R5 & L5). exists k2, w5. split; [exact R5|].
  exact (later_trans _ _ _ L1 (later_trans _ _ _ L2 (later_trans _ _ _ L3 (later_trans _ _ _ L4 L5)))).
Qed.
Lemma cross_div dv va vb v w : era w -> fresh_name (opname true) -> dv va vb = Ok v ->
  exists k2 w', div_qty dv (Qty k x va) (Qty k' y vb) w = (Ok (PQ (Qty k2 (opname true) v)), w') /\ later w w'.
Proof.
  intros Hw F1 Dv. destruct cross_parts as (K1 & K2 & K3). unfold div_qty. cbn [q_kind q_unit q_val]. rewrite K1, K2, K3. cbn [andb].
  assert (Exy : seqb x y = false) by (apply seqb_neq; exact cross_ne). rewrite Exy.
  destruct (cross_yx w Hw) as (w1 & R1 & L1). rewrite (wbind_ok _ _ _ _ _ R1). cbv iota. pose proof (era_later d s _ _ Hw L1) as Hw1.
  destruct (cross_bases w1 Hw1) as (w3 & R3 & L3). rewrite (wbind_ok _ _ _ _ _ R3). cbv iota. pose proof (era_later d s _ _ Hw1 L3) as Hw3.
  rewrite Dv. unfold wbind at 1, wlift.
  destruct (cross_name true w3 Hw3) as (w4 & R4 & L4). unfold division_name, unit_division. rewrite (wbind_ok _ _ _ _ _ R4). pose proof (era_later d s _ _ Hw3 L4) as Hw4.
  destruct (cross_units true v w4 Hw4 F1 ltac:(discriminate)) as (k2 & w5 & R5 & L5). exists k2, w5. split; [exact R5|].
  exact (later_trans _ _ _ L1 (later_trans _ _ _ L3 (later_trans _ _ _ L4 L5))).
Qed.
Lemma cross_div_zero dv va vb e w : era w -> dv va vb = Err e -> fst (div_qty dv (Qty k x va) (Qty k' y vb) w) = Err e.
Proof.
  intros Hw Dv. destruct cross_parts as (K1 & K2 & K3). unfold div_qty. cbn [q_kind q_unit q_val]. rewrite K1, K2, K3. cbn [andb].
  assert (Exy : seqb x y = false) by (apply seqb_neq; exact cross_ne). rewrite Exy.
  destruct (cross_yx w Hw) as (w1 & R1 & L1). rewrite (wbind_ok _ _ _ _ _ R1). cbv iota. pose proof (era_later d s _ _ Hw L1) as Hw1.
  destruct (cross_bases w1 Hw1) as (w3 & R3 & L3). rewrite (wbind_ok _ _ _ _ _ R3). cbv iota. rewrite Dv. reflexivity.
Qed.
End T.
Lemma gen_cross_mul s k k' a b n w : tame_eval -> calculating_in d s -> during_in d s w -> In k square_kinds -> In k' square_kinds -> k <> k' -> ~ In (k, k') merged -> product_unit k k' = None ->
  qof k a -> qof k' b -> plain_base (q_unit a) -> plain_base (q_unit b) -> (~ In 39%N (q_unit a) /\ ~ In 39%N (q_unit b)) \/ (~ In 34%N (q_unit a) /\ ~ In 34%N (q_unit b)) ->
  fresh_name (q_unit a ++ u "*" ++ q_unit b)%list -> fresh_name (q_unit b ++ u "*" ++ q_unit a)%list ->
  exists r, fst (mul n a (PQ b) w) = Ok (PQ r) /\ q_unit r = (q_unit a ++ u "*" ++ q_unit b)%list /\ q_val r = q_val a * q_val b.
Proof.
  intros Te (S & Hs & Hb) Dw Hk Hk' Nk Nm Pu (Ka & La & Ua) (Kb & Lb & Ub) Pa Pb Q F1 F2. pose proof (during_era cs d H s w Te Dw) as Hw. destruct a as [ka x va], b as [kb y vb]. cbn [q_kind q_unit q_val] in *. subst ka kb.
  destruct (cross_mul s S Hs k k' x y Hk Hk' Nk Nm La Lb (letters_of x Pa) (letters_of y Pb) Q va vb w Hw F1 F2) as (k2 & w' & R & _). exists (Qty k2 (opname x y false) (va * vb)).
  split; [|split; reflexivity]. destruct n; cbn [mul q_kind]; rewrite Pu; unfold then_to; rewrite R; reflexivity.
Qed.
Lemma gen_cross_div s k k' a b n w : tame_eval -> calculating_in d s -> during_in d s w -> In k square_kinds -> In k' square_kinds -> k <> k' -> ~ In (k, k') merged ->
  qof k a -> qof k' b -> plain_base (q_unit a) -> plain_base (q_unit b) -> (~ In 39%N (q_unit a) /\ ~ In 39%N (q_unit b)) \/ (~ In 34%N (q_unit a) /\ ~ In 34%N (q_unit b)) ->
  fresh_name (q_unit a ++ u "/" ++ q_unit b)%list -> q_val b <> 0 ->
  (quotient_unit k k' = None -> exists r, fst (truediv n a (PQ b) w) = Ok (PQ r) /\ q_unit r = (q_unit a ++ u "/" ++ q_unit b)%list /\ q_val r = q_val a / q_val b)
  /\ exists r, fst (floordiv n a (PQ b) w) = Ok (PQ r) /\ q_unit r = (q_unit a ++ u "/" ++ q_unit b)%list /\ q_val r = zq (Qfloor (q_val a / q_val b)%Qc).
Proof.
  intros Te (S & Hs & Hb) Dw Hk Hk' Nk Nm (Ka & La & Ua) (Kb & Lb & Ub) Pa Pb Q F1 Nz. pose proof (during_era cs d H s w Te Dw) as Hw. destruct a as [ka x va], b as [kb y vb]. cbn [q_kind q_unit q_val] in *. subst ka kb.
  assert (D1 : qdiv va vb = Ok (va / vb)) by (unfold qdiv; destruct (Qc_eq_dec vb 0); [contradiction|reflexivity]).
  assert (D2 : qfloordiv va vb = Ok (zq (Qfloor (va / vb)%Qc))) by (unfold qfloordiv; rewrite D1; reflexivity).
  split.
  - intros Pu. destruct (cross_div s S Hs k k' x y Hk Hk' Nk Nm La Lb (letters_of x Pa) (letters_of y Pb) Q qdiv va vb _ w Hw F1 D1) as (k2 & w' & R & _). exists (Qty k2 (opname x y true) (va / vb)).
    split; [|split; reflexivity]. destruct n; cbn [truediv q_kind]; rewrite Pu; unfold then_to; rewrite R; reflexivity.
  - destruct (cross_div s S Hs k k' x y Hk Hk' Nk Nm La Lb (letters_of x Pa) (letters_of y Pb) Q qfloordiv va vb _ w Hw F1 D2) as (k2 & w' & R & _). exists (Qty k2 (opname x y true) (zq (Qfloor (va / vb)%Qc))).
    split; [|split; reflexivity]. destruct n; cbn [floordiv]; rewrite R; reflexivity.
Qed.
End G.
