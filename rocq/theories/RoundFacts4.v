(** * Products and ratios of units of the shipped database, with numbers that round: lemmas *)
From Coq Require Import String QArith Qcanon FMapPositive.
From Verif Require Import Py StrTools Network SearchSpec NetworkFacts Search SearchFacts SearchFacts2 DescFacts
  Hybrid HybridFacts Conv ConvFacts NetFacts2 Converter EngineSpec EngineFacts EngineFacts2 EngineFacts3 EngineFacts4 EngineFacts5 EngineFacts6
  ConsistSpec ConsistFacts CleanFacts Affine Demo EngineFacts7 EngineFacts8 RegionSpec RegionFacts SymAffine NumPy CompositeSpec
  Dict Database FastDb Shipped ShippedSpec ShippedCert ShippedCheck RoundSpec RoundSpec2 RoundCheck RoundFacts ShippedFacts ShippedFacts2 ShippedFacts3 ShippedFacts4 ShippedFacts5 RoundFacts2.

Section Db.
Context (cs : list crow) (d : db Qc) (H : check_db cs d = true) (H2 : check_shapes cs d = true).
Local Notation g := (db_net d).
Local Notation kd := (merge_data (db_kinds d)).
Local Notation D := (dicts_of (all_kinds (db_kinds d))).
Local Opaque all_kinds merge_data.
(** two units of a kind without offsets: no special rule *)
Lemma gen_alike k f t : In k straight_kinds -> listed_in kd k f -> listed_in kd k t -> unit_name f -> unit_name t ->
  ordinary D f /\ density_case D f t = false.
Proof.
  intros Hk Lf Lt Hf Ht. destruct (straight_plain k Hk) as (Kc & Kr & Kv).
  destruct (parts cs d H) as (T & HT & HL & HRo & HE & HK & HG & HW & HO & HN & HP & HD & (HC & HC') & HX & HG' & HV & HU & HM & HZ).
  split; [exact (kind_ordinary d HO k f Lf Kr)|]. exact (kind_density cs d T HT HL HRo HE HK HN HG' k f t Lf Lt (proj1 Hf) (proj1 Ht) Kv).
Qed.
Lemma gen_fresh (V : Type) (A : Arith V) (s : st V) : s_net s = nmap g -> s_mem s = [] -> s_prev s = [] -> fresh_session s.
Proof.
  intros S1 S2 S3. destruct (parts cs d H) as (T & HT & HL & _ & HE & _).
  split; [rewrite S1; apply wf_sane; exact (map_wf g (table_wf T g cs _ HT HL HE))|]. split; [exact S2|exact S3].
Qed.
(** no length is a temperature *)
Lemma gen_no_temperature x : listed_in kd (u "Length") x -> simple x -> ~ In x (d_temp D).
Proof.
  intros Lx Sx B. destruct (parts cs d H) as (T & HT & HL & HRo & HE & HK & HG & HW & HO & HN & HP & HD & (HC & HC') & HX & HG' & HV & HU & HM & HZ).
  change (d_temp D) with (dg "Temperature" (all_kinds (db_kinds d))) in B. rewrite dg_all in B by reflexivity. apply complete_simple in B; [|exact Sx]. apply dg_listed in B.
  destruct (kind_registered d T HG' _ x B ltac:(discriminate)) as (c & Hc).
  destruct (kinds_apart cs d T HT HL HRo HE HK (u "Temperature") (u "Length") x x B Lx (comp_linked cs d T HT HL HRo HE x x c Hc Hc)) as [E|E].
  - discriminate E.
  - cbn in E. repeat (destruct E as [E|E]; [discriminate E|]). contradiction.
Qed.
(** a name with a division that is not registered: no special rule *)
Lemma complete_ratio x l : In c_slash x -> In x (complete l) -> In x l.
Proof.
  intros Hs Hx. apply in_app_or in Hx as [Hx|Hx]; [exact Hx|]. exfalso. apply in_flat_map in Hx as (y & _ & Hy). unfold swapped in Hy.
  destruct (cmem c_slash y) eqn:Ey; [destruct Hy|]. destruct (csplit c_star y) as [|a [|b [|? ?]]] eqn:Es; try contradiction. destruct Hy as [Hy|[]].
  apply not_true_iff_false in Ey. apply Ey, cmem_In. pose proof (csplit_join c_star y) as J. rewrite Es in J. cbn [sjoin] in J. rewrite <- J.
  rewrite <- Hy in Hs. rewrite !in_app_iff in *. cbn [In] in *. tauto.
Qed.
Lemma gen_unregistered x : In x checked_new -> In c_slash (u x) ->
  ordinary D (u x) /\ has_node g (u x) = false /\ forall t, density_case D (u x) t = false.
Proof.
  intros Hx Hs. destruct (gen_new cs d H x Hx) as (O & L). split; [exact O|].
  destruct (parts cs d H) as (T & HT & HL & HRo & HE & HK & HG & HW & HO & HN & HP & HD & (HC & HC') & HX & HG' & HV & HU & HM & HZ).
  assert (N : has_node g (u x) = false).
  { apply not_true_is_false. intros Hn. apply has_node_spec in Hn. apply get_node_ok in Hn as (a & Ha).
    apply (proj1 (L (u x))). exists a, a. split; [exact Ha|]. split; [exact Ha|]. exists [a]. constructor. }
  split; [exact N|]. intros t.
  assert (K : forall k, listed_in kd k (u x) -> k <> u "Acceleration" -> False).
  { intros k Lk Nk. destruct (kind_registered d T HG' k (u x) Lk Nk) as (c & Hc). apply (proj1 (L (u x))). exact (comp_linked cs d T HT HL HRo HE (u x) (u x) c Hc Hc). }
  apply not_true_is_false. unfold density_case. rewrite !andb_true_iff, orb_true_iff, !andb_true_iff, !smem_In. intros (_ & [[B _]|[_ B]]).
  - rewrite volume_dg, dg_all in B by reflexivity. apply complete_ratio in B; [|exact Hs]. apply dg_listed in B. exact (K _ B ltac:(discriminate)).
  - rewrite weight_dg, dg_all in B by reflexivity. apply complete_ratio in B; [|exact Hs]. apply dg_listed in B. exact (K _ B ltac:(discriminate)).
Qed.
End Db.

Local Open Scope Qc_scope.
Section Fold.
Context {V : Type} {A : Arith V} (val : V -> Qc) (e : Qc) (HR : rounding val e) (size : str -> Qc) (Hs : forall x, size x <> 0).
(** what one unit is worth in another, but for n roundings *)
Definition near (n : nat) (k : V) (q : Qc) : Prop := exists m r, (m <= n)%nat /\ RoundSpec.factor e m r /\ val k = q * r.
Lemma near_mul n n' x y q q' : near n x q -> near n' y q' -> near (1 + (n + n')) (amul x y) (q * q').
Proof.
  intros (m & r & Hm & F & E) (m' & r' & Hm' & F' & E'). destruct (rd_mul val e HR x y) as (f & Ff & Ef).
  exists (1 + (m + m'))%nat, (f * (r * r')). split; [lia|]. split; [exact (factor_mul e (rd_error val e HR) _ _ _ _ Ff (factor_mul e (rd_error val e HR) _ _ _ _ F F'))|].
  rewrite Ef, E, E'. ring.
Qed.
Lemma near_nz n x q : near n x q -> q <> 0 -> val x <> 0.
Proof.
  intros (m & r & Hm & F & E) Nq Z. rewrite E in Z. pose proof (factor_pos e (rd_error val e HR) m r F) as P.
  apply Qcmult_integral in Z as [Z|Z]; [now apply Nq|]. rewrite Z in P. discriminate P.
Qed.
Lemma near_one : near 1 (aconst 1%Q) 1.
Proof. destruct (rd_literal val e HR 1%Q) as (f & F & E). exists 1%nat, f. split; [lia|]. split; [exact F|]. rewrite E. reflexivity. Qed.
Lemma near_inv n x q : near n x q -> q <> 0 -> exists z, adiv (aconst 1%Q) x = Ok z /\ near (2 + n) z (/ q).
Proof.
  intros Hx Nq. destruct (rd_div val e HR (aconst 1%Q) x (near_nz n x q Hx Nq)) as (z & f & Ez & F & Vz). exists z. split; [exact Ez|].
  destruct Hx as (m & r & Hm & Fr & E). destruct (rd_literal val e HR 1%Q) as (f1 & F1 & E1).
  pose proof (pos_nz r (factor_pos e (rd_error val e HR) m r Fr)) as Nr.
  exists (1 + (1 + m))%nat, (f * (f1 / r)). split; [lia|].
  split; [exact (factor_mul e (rd_error val e HR) _ _ _ _ F (factor_div e (rd_error val e HR) _ _ _ _ F1 Fr))|].
  rewrite Vz, E, E1. change (Q2Qc 1) with 1. field. split; assumption.
Qed.
Definition gain (m : CompositeSpec.factor) : Qc := if f_div m then size (f_to m) / size (f_from m) else size (f_from m) / size (f_to m).
Lemma near_fold n : forall (l : list CompositeSpec.factor) ks k0 q0 n0, near n0 k0 q0 -> Forall2 (fun m k => near n k (gain m)) l ks ->
  near (n0 + length l * (1 + n)) (fold_left amul ks k0) (fold_left (fun z m => z * gain m) l q0).
Proof.
  induction l as [|m l IH]; intros ks k0 q0 n0 H0 HF; inversion HF as [|? k ? ks' Hk HF']; subst.
  - cbn [fold_left length Nat.mul]. rewrite Nat.add_0_r. exact H0.
  - cbn [fold_left]. pose proof (IH ks' (amul k0 k) (q0 * gain m) (1 + (n0 + n))%nat (near_mul _ _ _ _ _ _ H0 Hk) HF') as N.
    replace (n0 + length (m :: l) * (1 + n))%nat with (1 + (n0 + n) + length l * (1 + n))%nat by (cbn [length]; lia). exact N.
Qed.
Lemma gains (l : list CompositeSpec.factor) : forall a b, b <> 0 ->
  fold_left (fun z m => z * gain m) l (a / b)
  = fold_left (fun z m => if f_div m then z / size (f_from m) else z * size (f_from m)) l a
    / fold_left (fun z m => if f_div m then z / size (f_to m) else z * size (f_to m)) l b.
Proof.
  induction l as [|m l IH]; intros a b Nb; [reflexivity|]. cbn [fold_left]. pose proof (Hs (f_from m)) as N1. pose proof (Hs (f_to m)) as N2.
  rewrite <- IH.
  - f_equal. unfold gain. destruct (f_div m); field; repeat split; assumption.
  - intros Z. destruct (f_div m).
    + apply Nb. transitivity (b / size (f_to m) * size (f_to m)); [field; exact N2|rewrite Z; ring].
    + apply Qcmult_integral in Z as [Z|Z]; [now apply Nb|now apply N2].
Qed.
Lemma total_gain l x0 y0 : fold_left (fun z m => z * gain m) l (size x0 / size y0) = measured size f_from x0 l / measured size f_to y0 l.
Proof. exact (gains l (size x0) (size y0) (Hs y0)). Qed.
End Fold.
