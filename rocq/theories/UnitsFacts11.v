(** * Quantities with pure numbers: dimensionless ones and percentages *)
From Coq Require Import String QArith Qcanon Qround Lia.
From Verif Require Import Py StrTools Network NetworkFacts SearchSpec Conv Converter EngineSpec EngineFacts EngineFacts2 EngineFacts3 EngineFacts4 EngineFacts5 EngineFacts6 EngineFacts7 PropsEngine
  StrSpec StrFacts2 OpsSpec OpsFacts OpsFacts2 OpsFacts3 StrFacts3 PropsOps ConsistSpec ConsistFacts Demo Dict Database FastDb Shipped
  Operations ShippedSpec ShippedCheck ShippedFacts2 ShippedFacts3 ShippedFacts4 ShippedFacts5 Units UnitsSpec UnitsSpec2 NumFacts KindFacts UnitsFacts UnitsFacts2 UnitsFacts3 UnitsFacts4 UnitsFacts5 UnitsFacts6 UnitsFacts7 UnitsFacts8 UnitsFacts10.
Local Open Scope N_scope.
Local Opaque all_kinds merge_data.
Definition pure_kinds : list str := map u ["Dimensionless"; "Percentage"]%string.

Lemma pure_laws : forallb (fun k => forallb (fun p => match product_unit k p, product_unit p k, quotient_unit k p with None, None, None => true | _, _, _ => false end) pure_kinds
  && negb (smem k pure_kinds) && forallb (fun p => negb (existsb (fun e => seqb (fst e) k && seqb (snd e) p) merged)) pure_kinds) measured_kinds = true.
Proof. vm_compute. reflexivity. Qed.
Lemma pure_parts p : In p pure_kinds -> kindless p = true /\ In p classes /\ ~ In p created /\ is_k p "UserUnits" = false.
Proof.
  intros I. assert (X : forallb (fun p => kindless p && smem p classes && negb (smem p created) && negb (is_k p "UserUnits")) pure_kinds = true) by (vm_compute; reflexivity).
  pose proof (proj1 (forallb_forall _ _) X p I) as Y. cbn beta in Y. rewrite !andb_true_iff, !negb_true_iff in Y. destruct Y as (((Y1 & Y2) & Y3) & Y4).
  apply smem_In in Y2. split; [exact Y1|]. split; [exact Y2|]. split; [|exact Y4]. intros J. apply smem_In in J. rewrite J in Y3. discriminate Y3.
Qed.
Lemma pure_law k p : In k measured_kinds -> In p pure_kinds -> product_unit k p = None /\ product_unit p k = None /\ quotient_unit k p = None /\ k <> p /\ ~ In (k, p) merged.
Proof.
  intros Hk Hp. pose proof (proj1 (forallb_forall _ _) pure_laws k Hk) as X. cbn beta in X. rewrite !andb_true_iff, !negb_true_iff in X. destruct X as ((X & Y) & Z).
  pose proof (proj1 (forallb_forall _ _) X p Hp) as X'. pose proof (proj1 (forallb_forall _ _) Z p Hp) as Z'. cbn beta in X', Z'.
  destruct (product_unit k p); [discriminate X'|]. destruct (product_unit p k); [discriminate X'|]. destruct (quotient_unit k p); [discriminate X'|].
  repeat (split; [reflexivity|]). split.
  - intros ->. apply smem_In in Hp. rewrite Hp in Y. discriminate Y.
  - intros I. apply negb_true_iff in Z'. enough (G : existsb (fun e => seqb (fst e) k && seqb (snd e) p) merged = true) by (rewrite G in Z'; discriminate Z').
    apply existsb_exists. exists (k, p). split; [exact I|]. cbn [fst snd]. now rewrite !seqb_refl.
Qed.

Section G.
Context (cs : list ShippedCert.crow) (d : db Qc).
Context (H : check_db cs d = true).
Local Notation g := (db_net d).
Local Notation kd := (merge_data (db_kinds d)).
Context {F : Floats} {P : Pow} {E : Eval}.
Local Open Scope Qc_scope.
Notation qof := (qof d).

(** products, on either side *)
Lemma gen_pure_mul s k a p n w : tame_eval -> during_in d s w -> In k measured_kinds -> qof k a -> In (q_kind p) pure_kinds ->
  mul n a (PQ p) w = (Ok (PQ (Qty k (q_unit a) (q_val a * q_val p))), w) /\ mul n p (PQ a) w = (Ok (PQ (Qty k (q_unit a) (q_val a * q_val p))), w).
Proof.
  intros Te Dw Hk (Ka & La & Ua) Hp. pose proof (during_era cs d H s w Te Dw) as Hw. pose proof (plain_measured k Hk) as Hpl. destruct (plain_parts k Hpl) as (P1 & P2 & P3 & P4 & P5 & P6 & P7).
  destruct (pure_law k (q_kind p) Hk Hp) as (L1 & L2 & L3 & _). destruct (pure_parts _ Hp) as (Kp & _).
  split; destruct n; cbn [mul]; rewrite Ka, ?L1, ?L2; unfold then_to, mul_qty; rewrite Ka, Kp, P7, ?P5; cbn [andb negb];
    rewrite (make_listed d s k _ _ w Hw Hpl La), ?(Qcmult_comm (q_val p) (q_val a)); reflexivity.
Qed.
(** quotients *)
Lemma gen_pure_div s k a p n w : tame_eval -> during_in d s w -> In k measured_kinds -> qof k a -> In (q_kind p) pure_kinds -> q_val p <> 0 ->
  truediv n a (PQ p) w = (Ok (PQ (Qty k (q_unit a) (q_val a / q_val p))), w).
Proof.
  intros Te Dw Hk (Ka & La & Ua) Hp Nz. pose proof (during_era cs d H s w Te Dw) as Hw. pose proof (plain_measured k Hk) as Hpl. destruct (plain_parts k Hpl) as (P1 & P2 & P3 & P4 & P5 & P6 & P7).
  destruct (pure_law k (q_kind p) Hk Hp) as (L1 & L2 & L3 & _). destruct (pure_parts _ Hp) as (Kp & _).
  destruct n; cbn [truediv]; rewrite Ka, L3; unfold then_to, div_qty; rewrite Ka, Kp, P7, P5; cbn [andb negb]; unfold qdiv; destruct (Qc_eq_dec (q_val p) 0) as [Z|_]; try contradiction;
    unfold wbind, wlift; rewrite (make_listed d s k _ _ w Hw Hpl La); reflexivity.
Qed.
(** sums *)
Lemma gen_pure_sum s k sb a p w : tame_eval -> during_in d s w -> In k measured_kinds -> qof k a -> In (q_kind p) pure_kinds ->
  sum sb a (PQ p) w = (Ok (PQ (Qty k (q_unit a) (plus sb (q_val a) (q_val p)))), w).
Proof.
  intros Te Dw Hk (Ka & La & Ua) Hp. pose proof (during_era cs d H s w Te Dw) as Hw. pose proof (plain_measured k Hk) as Hpl. destruct (plain_parts k Hpl) as (P1 & P2 & P3 & P4 & P5 & P6 & P7).
  destruct (pure_law k (q_kind p) Hk Hp) as (L1 & L2 & L3 & L4 & _). destruct (pure_parts _ Hp) as (Kp & _).
  unfold sum, sum_qty. rewrite Ka, Kp, P7, P5. assert (N : seqb (q_kind p) k = false) by (apply seqb_neq; congruence). rewrite N. cbn [andb negb].
  rewrite (make_listed d s k _ _ w Hw Hpl La). reflexivity.
Qed.
(** a unit of a measured kind is no pure one *)
Lemma gen_pure_unlisted s k x p w : tame_eval -> calculating_in d s -> during_in d s w -> In k measured_kinds -> listed_in kd k x -> unit_name x -> In p pure_kinds ->
  smem x (class_units p w) = false.
Proof.
  intros Te C Dw Hk Lx Ux Hp. pose proof (during_era cs d H s w Te Dw) as Hw. destruct (pure_law k p Hk Hp) as (_ & _ & _ & Np & Nm). destruct (pure_parts p Hp) as (_ & _ & Nc & Pu).
  destruct (smem x (class_units p w)) eqn:Z; [|reflexivity]. exfalso. rewrite (class_get d s p w Hw Pu) in Z. unfold class_units in Z. rewrite world_kinds in Z.
  destruct (dget p (all_kinds (db_kinds d))) as [l'|] eqn:El; [|discriminate Z]. apply smem_In in Z. destruct (adds_all (db_kinds d) p l' El) as [I|(l & Hl & G)]; [exact (Nc I)|].
  assert (Lp : listed_in kd p x) by (exists l; split; [exact Hl|]; apply G; [exact (proj2 (proj1 Ux))|exact Z]).
  pose proof (gen_refuses_kind cs d H s w k p (Qty k x 0) x Te C Dw Hk (conj eq_refl (conj Lx Ux)) Lp Ux Np Nm) as R.
  pose proof (gen_self cs d H s k (Qty k x 0) w Te C Hk (conj eq_refl (conj Lx Ux)) Dw) as R'.
  unfold expressed in R'. cbn [q_unit q_kind] in R'. rewrite R in R'. discriminate R'.
Qed.
(** sums on the other side *)
Lemma gen_pure_sum_left s k sb a p w : tame_eval -> calculating_in d s -> during_in d s w -> In k measured_kinds -> qof k a -> In (q_kind p) pure_kinds ->
  sum sb p (PQ a) w = (Err WrongUnitsError, w).
Proof.
  intros Te C Dw Hk (Ka & La & Ua) Hp. pose proof (gen_pure_unlisted s k (q_unit a) (q_kind p) w Te C Dw Hk La Ua Hp) as N.
  pose proof (plain_measured k Hk) as Hpl. destruct (plain_parts k Hpl) as (P1 & P2 & P3 & P4 & P5 & P6 & P7).
  destruct (pure_law k (q_kind p) Hk Hp) as (L1 & L2 & L3 & L4 & _). destruct (pure_parts _ Hp) as (Kp & Cp & _). destruct (class_parts _ Cp) as (C1 & C2 & C3 & C4).
  unfold sum, sum_qty. rewrite Ka, Kp, P7. assert (Nk : seqb k (q_kind p) = false) by (apply seqb_neq; assumption). rewrite Nk. cbn [andb negb].
  unfold make, wbind, construct. rewrite C1, C2, C3, C4, N. reflexivity.
Qed.
(** a power with a dimension *)
Lemma gen_pure_pow s k a p w r : tame_eval -> during_in d s w -> In k measured_kinds -> qof k a -> In (q_kind p) pure_kinds -> pow_any (q_val p) (q_val a) = Ok r ->
  pow_qty p a w = (Ok (PQ (Qty k (q_unit a) r)), w).
Proof.
  intros Te Dw Hk (Ka & La & Ua) Hp R. pose proof (during_era cs d H s w Te Dw) as Hw. pose proof (plain_measured k Hk) as Hpl. destruct (plain_parts k Hpl) as (P1 & P2 & P3 & P4 & P5 & P6 & P7).
  destruct (pure_parts _ Hp) as (Kp & _). unfold pow_qty. rewrite Ka, Kp, P7, R. cbn [andb negb]. unfold wbind, wlift. exact (make_listed d s k r (q_unit a) w Hw Hpl La).
Qed.
(** the remainder keeps the unit of the pure number under the kind of the other *)
Lemma gen_pure_mod s k a p n w : tame_eval -> during_in d s w -> In k measured_kinds -> qof k a -> In (q_kind p) pure_kinds -> q_val a <> 0 -> ~ listed_in kd k (q_unit p) -> simple (q_unit p) ->
  modulo n p (PQ a) w = (Err WrongUnitsError, w).
Proof.
  intros Te Dw Hk (Ka & La & Ua) Hp Nz Nl Sp. pose proof (during_era cs d H s w Te Dw) as Hw. pose proof (plain_measured k Hk) as Hpl. destruct (plain_parts k Hpl) as (P1 & P2 & P3 & P4 & P5 & P6 & P7).
  destruct (pure_parts _ Hp) as (Kp & _).
  assert (N : smem (q_unit p) (class_units k w) = false) by (apply (class_not d s w k _ Hw P3); [destruct La as (l & Hl & _); exists l; exact Hl|exact Sp|exact Nl]).
  assert (Q : exists v, qmod (q_val p) (q_val a) = Ok v).
  { unfold qmod, rbind. pose proof (qfloordiv_ok (q_val p) _ Nz) as X. rewrite X. eexists. reflexivity. }
  destruct Q as (v & Q).
  destruct n; cbn [modulo]; unfold mod_qty; rewrite Ka, Kp, P7, Q; cbn [andb negb]; unfold wbind, wlift, make, wbind, construct; rewrite P1, P2, P3, P4, N; reflexivity.
Qed.
End G.
