(** * Quotients, remainders, roundings and powers of quantities of a checked database *)
From Coq Require Import String QArith Qcanon Qround Lia.
From Verif Require Import Py StrTools Network NetworkFacts SearchSpec Conv Converter EngineSpec EngineFacts EngineFacts2 EngineFacts3 EngineFacts4 EngineFacts5 EngineFacts6 EngineFacts7 PropsEngine
  OpsSpec OpsFacts OpsFacts2 OpsFacts3 StrFacts3 PropsOps ConsistSpec ConsistFacts Demo Dict Database FastDb Shipped
  Operations ShippedSpec ShippedCheck ShippedFacts2 ShippedFacts3 ShippedFacts5 Units UnitsSpec UnitsSpec2 NumFacts KindFacts UnitsFacts UnitsFacts2 UnitsFacts3 UnitsFacts4 UnitsFacts5 UnitsFacts6.
Local Open Scope N_scope.
Local Opaque all_kinds merge_data.

Section A.
Local Open Scope Qc_scope.
Lemma rescale_by m f t v : o_of m f = o_of m t -> k_of m t <> 0 -> rescale m f t v = v * rescale m f t 1.
Proof. intros O N. unfold rescale. rewrite O. field. exact N. Qed.
Lemma rescale_one m f t : (forall x, 0 < k_of m x) -> o_of m f = o_of m t -> 0 < rescale m f t 1.
Proof.
  intros M O. replace (rescale m f t 1) with (k_of m f * / k_of m t).
  - rewrite <- (Qcmult_0_l (/ k_of m t)). apply Qcmult_lt_compat_r; [apply Qcinv_pos, M|apply M].
  - unfold rescale. rewrite O. field. exact (size_nz m M t).
Qed.
(** a number of times does not depend on the unit *)
Lemma whole_rescale m f t v v' z : (forall x, 0 < k_of m x) -> o_of m f = o_of m t -> whole v v' z -> whole (rescale m f t v) (rescale m f t v') z.
Proof.
  intros M O W. rewrite (rescale_by m f t v), (rescale_by m f t v') by (try exact O; exact (size_nz m M t)). apply whole_scale; [now apply rescale_one|exact W].
Qed.
End A.
Lemma square_quotients : forallb (fun k => match quotient_unit k k with None => true | _ => false end) square_kinds = true. Proof. vm_compute. reflexivity. Qed.
Lemma square_quotient k : In k square_kinds -> quotient_unit k k = None.
Proof. intros Hk. pose proof (proj1 (forallb_forall _ _) square_quotients k Hk) as X. cbn beta in X. destruct (quotient_unit k k); [discriminate X|reflexivity]. Qed.
Lemma measured_not_late : forallb (fun k => negb (seqb k (u "UserUnits")) && negb (seqb k (u "otherUnits"))) measured_kinds = true. Proof. vm_compute. reflexivity. Qed.
Lemma measured_late k : In k measured_kinds -> k <> u "Data" -> ~ In k late_kinds.
Proof.
  intros Hk Hd I. pose proof (proj1 (forallb_forall _ _) measured_not_late k Hk) as X. cbn beta in X. apply andb_true_iff in X as [X1 X2]. apply negb_true_iff in X1, X2.
  cbn [late_kinds map In] in I. destruct I as [I|[I|[I|[]]]]; subst k; [rewrite seqb_refl in X1; discriminate X1|rewrite seqb_refl in X2; discriminate X2|now apply Hd].
Qed.

Lemma own_check : forallb (fun k => smem k square_kinds && negb (smem k created) && match quotient_unit (u "Dimensionless") k with None => true | _ => false end) own_kinds = true.
Proof. vm_compute. reflexivity. Qed.
Lemma own_parts k : In k own_kinds -> In k square_kinds /\ ~ In k created /\ quotient_unit (u "Dimensionless") k = None.
Proof.
  intros Hk. pose proof (proj1 (forallb_forall _ _) own_check k Hk) as X. cbn beta in X. rewrite !andb_true_iff, negb_true_iff in X. destruct X as ((X1 & X2) & X3).
  split; [now apply smem_In|]. split; [intros I; apply smem_In in I; congruence|]. destruct (quotient_unit _ k); [discriminate X3|reflexivity].
Qed.

Section G.
Context (cs : list ShippedCert.crow) (d : db Qc).
Context (H : check_db cs d = true).
Local Notation g := (db_net d).
Local Notation kd := (merge_data (db_kinds d)).
Context {F : Floats} {P : Pow} {E : Eval}.
Local Open Scope Qc_scope.
Notation qof := (qof d).
Notation calculating_in := (calculating_in d). Notation during_in := (during_in d).
Section K.
Context (Te : tame_eval) (s : st Qc) (C : calculating_in s) (m : scale) (K : kit d s m).
Let nz := knz d s m K.
Context (k : str) (a c : qty) (t : str) (Hk : In k measured_kinds) (Ht : k <> u "Temperature") (Qa : qof k a) (Qc_ : qof k c) (Lt_ : listed_in kd k t) (Ut : unit_name t).
Local Notation y' := (rescale m (q_unit c) (q_unit a) (q_val c)).
Lemma same_origin f r : listed_in kd k f -> listed_in kd k r -> o_of m f = o_of m r.
Proof. exact (proj1 (proj2 K) k f r (sum_kind k Hk Ht)). Qed.
Lemma x_of w x : during_in s w -> expressed w a t x -> x = rescale m (q_unit a) t (q_val a).
Proof. intros D X. exact (proj1 (k_expressed cs d H Te s C m K k a t w x D Hk Qa Lt_ Ut) X). Qed.
Lemma y_of w y : during_in s w -> expressed w c t y -> y = rescale m (q_unit a) t y'.
Proof.
  intros D Y. rewrite rescale_trans by apply nz. exact (proj1 (k_expressed cs d H Te s C m K k c t w y D Hk Qc_ Lt_ Ut) Y).
Qed.
Lemma at_t v : rescale m (q_unit a) t v = v * rescale m (q_unit a) t 1.
Proof. apply rescale_by; [apply same_origin; [exact (proj1 (proj2 Qa))|exact Lt_]|apply nz]. Qed.
Lemma at_pos : 0 < rescale m (q_unit a) t 1.
Proof. apply rescale_one; [exact (proj1 K)|apply same_origin; [exact (proj1 (proj2 Qa))|exact Lt_]]. Qed.
Lemma at_nz : rescale m (q_unit a) t 1 <> 0.
Proof. intros X. pose proof at_pos as Y. rewrite X in Y. discriminate Y. Qed.
Lemma y_nz w y : during_in s w -> expressed w c t y -> (y = 0 <-> y' = 0).
Proof.
  intros D Y. apply (y_of w y D) in Y. subst y. rewrite at_t. split; intros X; [|rewrite X; ring]. apply Qcmult_integral in X as [X|X]; [exact X|]. exfalso. exact (at_nz X).
Qed.
Lemma whole_t w1 w2 x y z : during_in s w1 -> during_in s w2 -> expressed w1 a t x -> expressed w2 c t y -> whole (q_val a) y' z -> whole x y z.
Proof.
  intros D1 D2 X Y W. apply (x_of w1 x D1) in X. apply (y_of w2 y D2) in Y. subst x y.
  apply whole_rescale; [exact (proj1 K)|apply same_origin; [exact (proj1 (proj2 Qa))|exact Lt_]|exact W].
Qed.
End K.

(** ** Remainders, quotients *)
Lemma gen_mod s k a c t n w1 w2 w x y : tame_eval -> calculating_in s -> In k measured_kinds -> k <> u "Temperature" -> k <> u "Data" -> qof k a -> qof k c ->
  first_in kd (q_unit a) = Some k -> ~ In (q_unit a) shipped_uncertain -> listed_in kd k t -> unit_name t -> during_in s w1 -> during_in s w2 -> during_in s w ->
  expressed w1 a t x -> expressed w2 c t y -> y <> 0 ->
  exists r z, fst (modulo n a (PQ c) w) = Ok (PQ r) /\ q_kind r = k /\ q_unit r = q_unit a /\ whole x y z
    /\ forall w', during_in s w' -> expressed w' r t (x - zq z * y).
Proof.
  intros Te C Hk Ht Hd Qa Qc_ Hf Hu Lt Ut D1 D2 D X Y Ny. destruct (kit_of cs d H s C) as (m & K).
  pose proof (y_nz Te s C m K k a c t Hk Ht Qa Qc_ Lt Ut w2 y D2 Y) as Ny'. set (y' := rescale m (q_unit c) (q_unit a) (q_val c)) in *.
  assert (Nz : y' <> 0) by (intros Z; apply Ny; apply Ny'; exact Z). set (z := Qfloor (q_val a / y')%Qc).
  pose proof C as (S & Hs & Hb). pose proof K as (M0 & M2 & b & B & M1).
  destruct (mod_total cs d H s S Hs m b B M0 M1 k a c _ w (during_era cs d H s w Te D) Hk Qa Qc_ Hf (measured_late k Hk Hd) Hu (qmod_ok _ _ Nz)) as (w' & R & _).
  fold y' in R. fold z in R. eexists. exists z. split; [destruct n; cbn [modulo]; rewrite R; reflexivity|]. split; [reflexivity|]. split; [reflexivity|].
  split; [exact (whole_t Te s C m K k a c t Hk Ht Qa Qc_ Lt Ut w1 w2 x y z D1 D2 X Y (whole_floor _ _ Nz))|]. intros w0 D0.
  apply (k_expressed cs d H Te s C m K k _ t w0 _ D0 Hk (qof_sum d k a _ Qa) Lt Ut). cbn [q_unit q_val].
  rewrite (x_of Te s C m K k a t Hk Qa Lt Ut w1 x D1 X), (y_of Te s C m K k a c t Hk Qc_ Lt Ut w2 y D2 Y). fold y'.
  rewrite (at_t s m K k a t Hk Ht Qa Lt (q_val a)), (at_t s m K k a t Hk Ht Qa Lt y'), (at_t s m K k a t Hk Ht Qa Lt (q_val a - y' * zq z)). ring.
Qed.
Lemma gen_ratio s k a c t n w1 w2 w x y : tame_eval -> calculating_in s -> In k square_kinds -> qof k a -> qof k c -> plain_base (q_unit a) -> plain_base (q_unit c) ->
  listed_in kd k t -> unit_name t -> during_in s w1 -> during_in s w2 -> during_in s w -> expressed w1 a t x -> expressed w2 c t y -> y <> 0 ->
  (exists r, fst (truediv n a (PQ c) w) = Ok (PQ r) /\ q_unit r = (q_unit a ++ u "/" ++ q_unit a)%list /\ q_val r = x / y)
  /\ (exists r z, fst (floordiv n a (PQ c) w) = Ok (PQ r) /\ q_unit r = (q_unit a ++ u "/" ++ q_unit a)%list /\ q_val r = zq z /\ whole x y z).
Proof.
  intros Te C Hs2 Qa Qc_ Pa Pc Lt Ut D1 D2 D X Y Ny. destruct (kit_of cs d H s C) as (m & K). pose proof (km k Hs2) as Hk.
  assert (Ht : k <> u "Temperature") by (intros ->; apply smem_In in Hs2; discriminate Hs2).
  pose proof (y_nz Te s C m K k a c t Hk Ht Qa Qc_ Lt Ut w2 y D2 Y) as Ny'. set (y' := rescale m (q_unit c) (q_unit a) (q_val c)) in *.
  assert (Nz : y' <> 0) by (intros Z; apply Ny; apply Ny'; exact Z).
  pose proof C as (S & Hs & Hb). pose proof K as (M0 & M2 & b & B & M1). pose proof Qa as (Ka & La & Ua). pose proof Qc_ as (Kc & Lc & Uc).
  assert (T : forall dv v, dv (q_val a) y' = Ok v -> exists k2 w', div_qty dv a c w = (Ok (PQ (Qty k2 (q_unit a ++ u "/" ++ q_unit a)%list v)), w')).
  { intros dv v Hv. destruct (ratio_total cs d H s S Hs m b B M0 M1 k (q_unit a) (q_unit c) Hs2 La Lc (letters_of _ Pa) (letters_of _ Pc) dv (q_val a) (q_val c) v w (during_era cs d H s w Te D) Hv) as (k2 & w' & R & _).
    exists k2, w'. destruct a as [ka xa va], c as [kc xc vc]. cbn [q_kind q_unit q_val] in *. subst ka kc. exact R. }
  split.
  - assert (Dv : qdiv (q_val a) y' = Ok (q_val a / y')) by (unfold qdiv; destruct (Qc_eq_dec y' 0) as [Z|_]; [contradiction|reflexivity]).
    destruct (T _ _ Dv) as (k2 & w' & R). eexists. split; [destruct n; cbn [truediv]; rewrite Ka, Kc, (square_quotient k Hs2); unfold then_to; rewrite R; reflexivity|].
    split; [reflexivity|]. cbn [q_val].
    rewrite (x_of Te s C m K k a t Hk Qa Lt Ut w1 x D1 X), (y_of Te s C m K k a c t Hk Qc_ Lt Ut w2 y D2 Y). fold y'.
    rewrite (at_t s m K k a t Hk Ht Qa Lt (q_val a)), (at_t s m K k a t Hk Ht Qa Lt y'). field. split; [exact (at_nz s m K k a t Hk Ht Qa Lt)|exact Nz].
  - destruct (T _ _ (qfloordiv_ok _ _ Nz)) as (k2 & w' & R). eexists. exists (Qfloor (q_val a / y')%Qc). split; [destruct n; cbn [floordiv]; rewrite R; reflexivity|].
    split; [reflexivity|]. split; [reflexivity|]. exact (whole_t Te s C m K k a c t Hk Ht Qa Qc_ Lt Ut w1 w2 x y _ D1 D2 X Y (whole_floor _ _ Nz)).
Qed.
Lemma gen_zero_mod s k a c t n w2 w : tame_eval -> calculating_in s -> In k measured_kinds -> k <> u "Temperature" -> qof k a -> qof k c -> listed_in kd k t -> unit_name t ->
  during_in s w2 -> during_in s w -> expressed w2 c t 0 -> fst (modulo n a (PQ c) w) = Err ZeroDivisionError.
Proof.
  intros Te C Hk Ht Qa Qc_ Lt Ut D2 D Y. destruct (kit_of cs d H s C) as (m & K). pose proof (y_nz Te s C m K k a c t Hk Ht Qa Qc_ Lt Ut w2 0 D2 Y) as Ny'.
  pose proof C as (S & Hs & Hb). pose proof K as (M0 & M2 & b & B & M1). pose proof (proj1 Ny' eq_refl) as Z.
  destruct n; cbn [modulo]; (apply (mod_error cs d H s S Hs m b B M0 M1 k a c _ w (during_era cs d H s w Te D) Hk Qa Qc_); rewrite Z; exact (proj2 (proj2 (qdiv_zero _)))).
Qed.
Lemma gen_zero_div s k a c t n w2 w : tame_eval -> calculating_in s -> In k square_kinds -> qof k a -> qof k c -> plain_base (q_unit a) -> plain_base (q_unit c) ->
  listed_in kd k t -> unit_name t -> during_in s w2 -> during_in s w -> expressed w2 c t 0 ->
  fst (truediv n a (PQ c) w) = Err ZeroDivisionError /\ fst (floordiv n a (PQ c) w) = Err ZeroDivisionError.
Proof.
  intros Te C Hs2 Qa Qc_ Pa Pc Lt Ut D2 D Y. destruct (kit_of cs d H s C) as (m & K). pose proof (km k Hs2) as Hk.
  assert (Ht : k <> u "Temperature") by (intros ->; apply smem_In in Hs2; discriminate Hs2).
  pose proof (y_nz Te s C m K k a c t Hk Ht Qa Qc_ Lt Ut w2 0 D2 Y) as Ny'. pose proof (proj1 Ny' eq_refl) as Z.
  pose proof C as (S & Hs & Hb). pose proof K as (M0 & M2 & b & B & M1). pose proof Qa as (Ka & La & Ua). pose proof Qc_ as (Kc & Lc & Uc).
  assert (T : forall dv e, dv (q_val a) 0 = Err e -> fst (div_qty dv a c w) = Err e).
  { intros dv e Hv. rewrite <- Z in Hv. pose proof (ratio_error cs d H s S Hs m b B M0 M1 k (q_unit a) (q_unit c) Hs2 La Lc (letters_of _ Pa) (letters_of _ Pc) dv (q_val a) (q_val c) e w (during_era cs d H s w Te D) Hv) as R.
    destruct a as [ka xa va], c as [kc xc vc]. cbn [q_kind q_unit q_val] in *. subst ka kc. exact R. }
  split; destruct n; cbn [truediv floordiv]; try (rewrite Ka, Kc, (square_quotient k Hs2); unfold then_to); (apply T; apply qdiv_zero).
Qed.
(** with numbers *)
Lemma gen_floor_num s k a n v w : tame_eval -> during_in s w -> In k measured_kinds -> qof k a -> v <> 0 ->
  fst (floordiv n a (PN v) w) = Ok (PQ (Qty k (q_unit a) (zq (Qfloor (q_val a / v)%Qc)))).
Proof.
  intros Te D Hk (Ka & La & Ua) Nv. pose proof (plain_measured k Hk) as Hp. destruct (plain_parts k Hp) as (P1 & P2 & P3 & P4 & P5 & P6 & P7).
  destruct n; cbn [floordiv]; rewrite (qfloordiv_ok _ _ Nv), Ka, P5; unfold wbind, wlift; rewrite (make_listed d s k _ _ w (during_era cs d H s w Te D) Hp La); reflexivity.
Qed.
Lemma gen_divided s k a n v t w1 w x : tame_eval -> calculating_in s -> In k measured_kinds -> k <> u "Temperature" -> k <> u "Data" -> qof k a ->
  first_in kd (q_unit a) = Some k -> ~ In (q_unit a) shipped_uncertain -> listed_in kd k t -> unit_name t ->
  during_in s w1 -> during_in s w -> expressed w1 a t x -> v <> 0 ->
  exists r, fst (truediv n a (PN v) w) = Ok (PQ r) /\ q_kind r = k /\ q_unit r = q_unit a /\ forall w', during_in s w' -> expressed w' r t (x / v).
Proof.
  intros Te C Hk Ht Hd Qa Hf Hu Lt Ut D1 D X Nv. destruct (kit_of cs d H s C) as (m & K). pose proof Qa as (Ka & La & Ua).
  pose proof (plain_measured k Hk) as Hp. destruct (plain_parts k Hp) as (P1 & P2 & P3 & P4 & P5 & P6 & P7). pose proof C as (S & Hs & Hb).
  assert (Dv : qdiv (q_val a) v = Ok (q_val a / v)) by (unfold qdiv; destruct (Qc_eq_dec v 0) as [Z|_]; [contradiction|reflexivity]).
  assert (R : fst (truediv n a (PN v) w) = Ok (PQ (Qty k (q_unit a) (q_val a / v)))).
  { destruct n; cbn [truediv]; rewrite Dv, Ka, P5; unfold wbind, wlift;
      rewrite (units_first cs d H s S k _ _ w (during_era cs d H s w Te D) (proj1 Ua) Hf (measured_late k Hk Hd) Hp Hu La); reflexivity. }
  eexists. split; [exact R|]. split; [reflexivity|]. split; [reflexivity|]. intros w' D'.
  apply (k_expressed cs d H Te s C m K k _ t w' _ D' Hk (qof_sum d k a _ Qa) Lt Ut). cbn [q_unit q_val].
  rewrite (x_of Te s C m K k a t Hk Qa Lt Ut w1 x D1 X). rewrite (at_t s m K k a t Hk Ht Qa Lt (q_val a)), (at_t s m K k a t Hk Ht Qa Lt (q_val a / v)). field. exact Nv.
Qed.
Lemma gen_divided_zero n a w : fst (truediv n a (PN 0) w) = Err ZeroDivisionError /\ fst (floordiv n a (PN 0) w) = Err ZeroDivisionError /\ fst (modulo n a (PN 0) w) = Err ZeroDivisionError.
Proof.
  destruct (qdiv_zero (q_val a)) as (Z1 & Z2 & Z3). split; [|split]; destruct n; cbn [truediv floordiv modulo]; rewrite ?Z1, ?Z2, ?Z3; reflexivity.
Qed.
(** a dimensionless number over a quantity *)
Lemma gen_inverse s k a x v n w : tame_eval -> during_in s w -> In k own_kinds -> qof k a -> q_val a <> 0 ->
  fst (truediv n (Qty (u "Dimensionless") x v) (PQ a) w) = Err WrongUnitsError /\ fst (floordiv n (Qty (u "Dimensionless") x v) (PQ a) w) = Err WrongUnitsError.
Proof.
  intros Te D Hk (Ka & La & Ua) Nz. destruct (own_parts k Hk) as (Hs2 & Hc & Hq). pose proof (km k Hs2) as Hm. pose proof (plain_measured k Hm) as Hp.
  destruct (plain_parts k Hp) as (P1 & P2 & P3 & P4 & P5 & P6 & P7). pose proof (during_era cs d H s w Te D) as Hw.
  assert (N : smem (u "1/" ++ q_unit a)%list (class_units k w) = false).
  { rewrite (class_get d s k w Hw P3). unfold class_units. rewrite world_kinds. destruct (dget k (all_kinds (db_kinds d))) as [l'|] eqn:El; [|reflexivity].
    destruct (smem (u "1/" ++ q_unit a)%list l') eqn:Z; [|reflexivity]. exfalso. apply smem_In in Z. destruct (adds_all (db_kinds d) k l' El) as [I|(l & Hl & G)]; [exact (Hc I)|].
    assert (Ns : ~ In c_star (u "1/" ++ q_unit a)%list).
    { intros I. apply in_app_or in I as [I|I]; [cbn in I; destruct I as [I|[I|[]]]; discriminate I|exact (proj2 (proj1 Ua) I)]. }
    pose proof (proj2 (gen_digits cs d H k _ (ex_intro _ l (conj Hl (G _ Ns Z)))) Hs2) as X. discriminate X. }
  assert (T : forall dv q, dv v (q_val a) = Ok q -> fst (div_qty dv (Qty (u "Dimensionless") x v) a w) = Err WrongUnitsError).
  { intros dv q Hq'. unfold div_qty. rewrite Ka, P7. change (kindless (q_kind (Qty (u "Dimensionless") x v))) with true. cbn [andb negb q_val]. rewrite Hq'. unfold wbind, wlift, make, construct.
    rewrite P1, P2, P3, P4. unfold wbind. match goal with |- context [smem ?z (class_units k w)] => change (smem z (class_units k w)) with (smem (u "1/" ++ q_unit a)%list (class_units k w)) end.
    rewrite N. reflexivity. }
  split; destruct n; cbn [truediv floordiv q_kind]; rewrite ?Ka, ?Hq; unfold then_to.
  1, 2: apply (T _ (v / q_val a)); unfold qdiv; destruct (Qc_eq_dec (q_val a) 0) as [Z|_]; [contradiction|reflexivity].
  all: apply (T _ _ (qfloordiv_ok v _ Nz)).
Qed.
(** ** Rounding *)
Lemma gen_round s k a n w : tame_eval -> during_in s w -> In k measured_kinds -> qof k a ->
  fst (round_ a n w) = Ok (PQ (Qty k (q_unit a) (round_to (q_val a) (match n with Some n => n | None => 0%Z end)))).
Proof.
  intros Te D Hk (Ka & La & Ua). unfold round_. rewrite Ka, (make_listed d s k _ _ w (during_era cs d H s w Te D) (plain_measured k Hk) La). reflexivity.
Qed.
Lemma gen_round_method s k a n w : tame_eval -> calculating_in s -> during_in s w -> In k measured_kinds -> k <> u "Data" -> qof k a ->
  first_in kd (q_unit a) = Some k -> ~ In (q_unit a) shipped_uncertain -> (0 <= n)%Z ->
  round_method a (Some n) w = (Ok (PQ (Qty k (q_unit a) (round_to (q_val a) n))), w).
Proof.
  intros Te C D Hk Hd (Ka & La & Ua) Hf Hu Hn. unfold round_method, round_value. rewrite (proj2 (Z.leb_le 0 n) Hn).
  exact (units_first cs d H s (proj1 C) k _ _ w (during_era cs d H s w Te D) (proj1 Ua) Hf (measured_late k Hk Hd) (plain_measured k Hk) Hu La).
Qed.
Lemma gen_equals s k a c n w y : tame_eval -> calculating_in s -> during_in s w -> In k measured_kinds -> k <> u "Data" -> qof k a -> qof k c ->
  first_in kd (q_unit a) = Some k -> ~ In (q_unit a) shipped_uncertain -> (0 <= n)%Z -> expressed w c (q_unit a) y ->
  fst (equals a (PQ c) (Some n) w) = Ok (holds Eq (round_to (q_val a) n) (round_to y n)).
Proof.
  intros Te C D Hk Hd Qa Qc_ Hf Hu Hn Y. destruct (kit_of cs d H s C) as (m & K). pose proof Qa as (Ka & La & Ua). pose proof Qc_ as (Kc & Lc & Uc).
  apply (k_expressed cs d H Te s C m K k c _ w _ D Hk Qc_ La Ua) in Y.
  pose proof C as (S & Hs & Hb). pose proof K as (M0 & M2 & b & B & M1). pose proof (during_era cs d H s w Te D) as Hw.
  unfold equals. unfold wbind at 1, wret at 1. rewrite Ka, Kc, seqb_refl. rewrite (wbind_ok _ _ _ _ _ (gen_round_method s k a n w Te C D Hk Hd Qa Hf Hu Hn)).
  unfold wlift at 1, as_qty. unfold wbind at 1.
  destruct (to_total cs d H s S Hs m b B M1 k c (q_unit a) w Hw Hk Qc_ La Ua) as (w1 & R1 & L1). rewrite (wbind_ok _ _ _ _ _ R1). unfold wlift at 1, as_qty. unfold wbind at 1.
  rewrite <- Y. pose proof (era_later d s _ _ Hw L1) as Hw1.
  assert (R2 : round_method (Qty k (q_unit a) y) (Some n) w1 = (Ok (PQ (Qty k (q_unit a) (round_to y n))), w1)).
  { unfold round_method, round_value. rewrite (proj2 (Z.leb_le 0 n) Hn). cbn [q_unit q_val].
    exact (units_first cs d H s S k _ _ w1 Hw1 (proj1 Ua) Hf (measured_late k Hk Hd) (plain_measured k Hk) Hu La). }
  rewrite (wbind_ok _ _ _ _ _ R2).
  destruct (compare_total cs d H s S Hs m b B M1 k Eq (Qty k (q_unit a) (round_to (q_val a) n)) (Qty k (q_unit a) (round_to y n)) w1 Hw1 Hk (qof_sum d k a _ Qa) (qof_sum d k a _ Qa)) as (w2 & R3 & _).
  rewrite R3. cbn [fst q_unit q_val]. rewrite rescale_id by exact (size_nz m M0 _). reflexivity.
Qed.
Lemma gen_equals_none s k a c w : tame_eval -> calculating_in s -> during_in s w -> In k measured_kinds -> qof k a -> qof k c -> fst (equals a (PQ c) None w) = Err TypeError.
Proof.
  intros Te C D Hk Qa Qc_. destruct (kit_of cs d H s C) as (m & K). pose proof Qa as (Ka & La & Ua). pose proof Qc_ as (Kc & Lc & Uc).
  pose proof C as (S & Hs & Hb). pose proof K as (M0 & M2 & b & B & M1). pose proof (during_era cs d H s w Te D) as Hw. unfold equals.
  destruct (compare_total cs d H s S Hs m b B M1 k Eq a c w Hw Hk Qa Qc_) as (w2 & R3 & _). rewrite (wbind_ok _ _ _ _ _ R3). rewrite Ka, Kc, seqb_refl. reflexivity.
Qed.
(** round(p, n) of a percentage *)
Lemma gen_round_pct s w x p n : tame_eval -> during_in s w -> listed_in kd (u "Percentage") x ->
  fst (round_ (Qty (u "Percentage") x p) n w) = Ok (PQ (Qty (u "Percentage") x (round_to p (match n with Some n => n | None => 0%Z end) / Q2Qc 100))).
Proof. intros Te D L. unfold round_. cbn [q_kind q_unit q_val]. rewrite (gen_pct cs d H Te s w D x L). reflexivity. Qed.
(** an ounce (of volume) *)
Lemma gen_ounce s w n v v' : tame_eval -> calculating_in s -> during_in s w -> v' <> 0 ->
  fst (truediv n (Qty (u "Volume") (u "oz") v) (PN v') w) = Ok (PQ (Qty (u "Unit") (u "oz") (v / v')))
  /\ fst (modulo n (Qty (u "Volume") (u "oz") v) (PQ (Qty (u "Volume") (u "oz") v')) w) = Ok (PQ (Qty (u "Unit") (u "oz") (v - v' * zq (Qfloor (v / v')%Qc)))).
Proof.
  intros Te C D Nz.
  assert (U : forall q, units_of q (u "oz") w = (Ok (PQ (Qty (u "Unit") (u "oz") q)), w)).
  { intros q. destruct (gen_units_wrong cs d H s w q Te C D) as (_ & _ & _ & (_ & R) & _). unfold units_of, wbind. rewrite R. reflexivity. }
  assert (Dv : qdiv v v' = Ok (v / v')) by (unfold qdiv; destruct (Qc_eq_dec v' 0) as [Z|_]; [contradiction|reflexivity]).
  split.
  - destruct n; cbn [truediv q_val]; rewrite Dv; unfold wbind, wlift; change (is_k (q_kind (Qty (u "Volume") (u "oz") v)) "Percentage") with false; cbv iota; cbn [q_unit]; rewrite U; reflexivity.
  - destruct n; cbn [modulo]; unfold mod_qty; change (kindless (q_kind (Qty (u "Volume") (u "oz") v))) with false; change (kindless (q_kind (Qty (u "Volume") (u "oz") v'))) with false;
      change (is_k (q_kind (Qty (u "Volume") (u "oz") v)) "Percentage") with false; cbn [andb negb q_unit q_val]; rewrite seqb_refl, (qmod_ok _ _ Nz); unfold wbind, wlift; rewrite U; reflexivity.
Qed.
Lemma gen_first_known x k : In (x, Some k) checked_first -> exists A l B, kd = (A ++ (u k, l) :: B)%list /\ In (u x) l /\ forall k' l', In (k', l') A -> ~ In (u x) l'.
Proof.
  intros Hx. pose proof (gen_first cs d H x (Some k) Hx) as Fk. cbn [option_map] in Fk. revert Fk.
  generalize (u x) (u k) kd. clear x k Hx. intros x k0 dd. unfold first_in. induction dd as [|[k l] dd IH]; cbn [find snd]; [intros X; discriminate X|]. destruct (smem x l) eqn:Z.
  - cbn [option_map fst]. intros X. injection X as ->. apply smem_In in Z. exists [], l, dd. split; [reflexivity|]. split; [exact Z|]. intros k' l' [].
  - intros X. destruct (IH X) as (A & l0 & B & -> & I & N). exists ((k, l) :: A), l0, B. split; [reflexivity|]. split; [exact I|].
    intros k' l' [I'|I']; [injection I' as _ <-; intros J; apply smem_In in J; rewrite J in Z; discriminate Z|exact (N k' l' I')].
Qed.
(** ** Powers *)
Lemma base_plain x w : plain_base x -> base_of x w = (Ok (x, PI 1), w).
Proof. intros Px. unfold base_of. rewrite (ubp_alone x (proj1 (proj2 Px))). reflexivity. Qed.
Lemma gen_pow_one s k a w : tame_eval -> calculating_in s -> during_in s w -> In k measured_kinds -> k <> u "Data" -> qof k a -> plain_base (q_unit a) ->
  first_in kd (q_unit a) = Some k -> ~ In (q_unit a) shipped_uncertain -> fst (pow a (PI 1) w) = Ok (PQ a).
Proof.
  intros Te C D Hk Hd (Ka & La & Ua) Pa Hf Hu. pose proof (plain_measured k Hk) as Hp. destruct (plain_parts k Hp) as (P1 & P2 & P3 & P4 & P5 & P6 & P7).
  unfold pow. rewrite Ka, P5, (wbind_ok _ _ _ _ _ (base_plain _ w Pa)). cbn [fst snd]. change (p_mul (PI 1) (PI 1)) with (@PI F 1). change (p_eqZ (PI 1) 0) with false. change (p_eqZ (PI 1) 1) with true. cbv iota zeta.
  unfold pow_num, pow_int. change (Z.to_nat 1) with 1%nat. cbn [Qcpower]. rewrite Qcmult_1_r. unfold wbind, wlift.
  rewrite (units_first cs d H s (proj1 C) k _ _ w (during_era cs d H s w Te D) (proj1 Ua) Hf (measured_late k Hk Hd) Hp Hu La). destruct a as [ka xa va]. cbn [q_kind q_unit q_val fst] in *. now subst ka.
Qed.
Lemma gen_pow_two s k a n w w' : tame_eval -> calculating_in s -> during_in s w -> during_in s w' -> In k square_kinds -> qof k a -> plain_base (q_unit a) -> ~ In (q_unit a) not_squared ->
  exists r, fst (pow a (PI 2) w) = Ok (PQ r) /\ fst (mul n a (PQ a) w') = Ok (PQ r) /\ q_unit r = (q_unit a ++ u "2")%list /\ q_val r = q_val a * q_val a.
Proof.
  intros Te C D D' Hs2 Qa Pa Nq. pose proof (km k Hs2) as Hk. destruct (kit_of cs d H s C) as (m & K). pose proof K as (M0 & M2 & b & B & M1). pose proof Qa as (Ka & La & Ua).
  pose proof C as (S & Hs & Hb). pose proof (plain_measured k Hk) as Hp. destruct (plain_parts k Hp) as (P1 & P2 & P3 & P4 & P5 & P6 & P7). pose proof (letters_of _ Pa) as Ba.
  destruct (square_apart cs d H s S Hs k (q_unit a) Hs2 La Ba Nq) as ((k2 & K2 & U) & _). exists (Qty k2 (q_unit a ++ u "2")%list (q_val a * q_val a)).
  split; [|split; [|split; reflexivity]].
  - unfold pow. rewrite Ka, P5, (wbind_ok _ _ _ _ _ (base_plain _ w Pa)). cbn [fst snd]. change (p_mul (PI 1) (PI 2)) with (@PI F 2). change (p_eqZ (PI 2) 0) with false. change (p_eqZ (PI 2) 1) with false. cbv iota zeta.
    unfold pow_num, pow_int. change (Z.to_nat 2) with 2%nat. cbn [Qcpower]. rewrite Qcmult_1_r. unfold wbind, wlift. change (p_str (PI 2)) with (u "2").
    destruct (U (q_val a * q_val a) w (during_era cs d H s w Te D)) as (w1 & R & _). rewrite R. reflexivity.
  - assert (Pu : product_unit k k = None). { pose proof (proj1 (forallb_forall _ _) square_products k Hs2) as X. cbn beta in X. destruct (product_unit k k); [discriminate X|reflexivity]. }
    pose proof (during_era cs d H s w' Te D') as Hw.
    assert (G : fst (mul_qty a a w') = Ok (PQ (Qty k2 (q_unit a ++ u "2")%list (q_val a * q_val a)))).
    { unfold mul_qty. rewrite Ka, P7, P5, seqb_refl. cbn [andb negb].
      destruct (product_total cs d H s S Hs k (q_unit a) (q_unit a) Hs2 La La Ba Ba w' Hw) as (w1 & R1 & L1). rewrite (wbind_ok _ _ _ _ _ R1).
      destruct (U (q_val a * q_val a) w1 (era_later d s _ _ Hw L1)) as (w2 & R2 & L2). rewrite R2. reflexivity. }
    destruct n; cbn [mul]; rewrite Ka, Pu; exact G.
Qed.
Lemma some_digit n : exists c, In c (str_of_Z n) /\ isdigit c = true.
Proof.
  destruct n as [|p|p]; [exists 48%N; split; [left; reflexivity|reflexivity]| |].
  - cbn [str_of_Z]. pose proof (str_of_N_nonnil (Npos p)) as N0. destruct (str_of_N (Npos p)) as [|c r] eqn:Es; [contradiction|]. exists c. split; [now left|].
    apply dec_isdigit. apply (all_dec_In (str_of_N (Npos p))); [apply str_of_N_dec|rewrite Es; now left].
  - cbn [str_of_Z]. pose proof (str_of_N_nonnil (Npos p)) as N0. destruct (str_of_N (Npos p)) as [|c r] eqn:Es; [contradiction|]. exists c. split; [right; now left|].
    apply dec_isdigit. apply (all_dec_In (str_of_N (Npos p))); [apply str_of_N_dec|rewrite Es; now left].
Qed.
Lemma dec_range c : is_dec c = true \/ c = c_minus -> (45 <= c /\ c <= 57)%N /\ c <> 47 /\ c <> 46 /\ cmem c wspace = false.
Proof.
  intros [Hc| ->]; [|split; [split; apply N.leb_le; reflexivity|split; [discriminate|split; [discriminate|reflexivity]]]].
  apply is_dec_range in Hc. split; [lia|]. split; [lia|]. split; [lia|]. apply cmem_false. intros I. cbn in I.
  repeat (destruct I as [I|I]; [subst c; lia|]). exact I.
Qed.
Lemma pow_name x n : x <> [] -> quotable_name x -> strip x = x -> simple x ->
  let z := (x ++ str_of_Z n)%list in strip z = z /\ literal z = Some z /\ ~ In c_slash z /\ ~ In c_star z /\ existsb isdigit z = true.
Proof.
  intros Hn Hq Hs Hx z.
  assert (G : forall c, c <> 47 -> (c < 45 \/ 57 < c)%N -> ~ In c x -> ~ In c z).
  { intros c Hc Hr N I. apply in_app_or in I as [I|I]; [contradiction|]. apply str_of_Z_chars in I. destruct (dec_range c I) as ((R1 & R2) & _). lia. }
  assert (Qz : quotable_name z).
  { destruct Hq as (N1 & N2 & N3 & N4 & N5). split; [apply G; [discriminate|lia|exact N1]|]. split; [apply G; [discriminate|lia|exact N2]|]. split; [apply G; [discriminate|lia|exact N3]|].
    split; [apply G; [discriminate|lia|exact N4]|]. destruct N5 as [N5|N5]; [left|right]; (apply G; [discriminate|lia|exact N5]). }
  assert (Nsl : ~ In c_slash z).
  { intros I. apply in_app_or in I as [I|I]; [exact (proj1 Hx I)|]. apply str_of_Z_chars in I. destruct (dec_range _ I) as (_ & R & _). now apply R. }
  assert (Nst : ~ In c_star z) by (apply G; [discriminate|left; reflexivity|exact (proj2 Hx)]).
  split; [|split; [exact (literal_of z Qz)|split; [exact Nsl|split; [exact Nst|]]]].
  - destruct x as [|c r]; [congruence|]. pose proof (strip_first _ c r Hs (or_introl eq_refl)) as Hc.
    destruct (exists_last (str_of_Z_nonnil n)) as (r' & c' & Er). assert (Hc' : cmem c' wspace = false).
    { assert (I : In c' (str_of_Z n)) by (rewrite Er; apply in_or_app; right; now left). apply str_of_Z_chars in I. exact (proj2 (proj2 (proj2 (dec_range c' I)))). }
    unfold strip, strip_chars. assert (E1 : lstrip_chars wspace z = z) by exact (lstrip_keep wspace c _ Hc). rewrite E1.
    unfold rstrip_chars. rewrite <- (rev_involutive z) at 2. f_equal. unfold z. rewrite rev_app_distr, Er, rev_app_distr. cbn [rev Datatypes.app]. exact (lstrip_keep wspace c' _ Hc').
  - destruct (some_digit n) as (c & I & Hc). apply existsb_exists. exists c. split; [apply in_or_app; now right|exact Hc].
Qed.
Lemma gen_pow_value s k a n w r : tame_eval -> calculating_in s -> during_in s w -> In k measured_kinds -> qof k a -> plain_base (q_unit a) -> n <> 0%Z -> n <> 1%Z ->
  fst (pow a (PI n) w) = Ok (PQ r) -> q_unit r = (q_unit a ++ str_of_Z n)%list /\ pow_int (q_val a) n = Ok (q_val r).
Proof.
  intros Te C D Hk (Ka & La & Ua) Pa N0 N1 R. pose proof (plain_measured k Hk) as Hp. destruct (plain_parts k Hp) as (P1 & P2 & P3 & P4 & P5 & P6 & P7).
  unfold pow in R. rewrite Ka, P5, (wbind_ok _ _ _ _ _ (base_plain _ w Pa)) in R. cbn [fst snd] in R. change (p_mul (PI 1) (PI n)) with (@PI F (1 * n)%Z) in R. rewrite Z.mul_1_l in R.
  cbn [p_eqZ] in R. rewrite (proj2 (Z.eqb_neq n 0) N0), (proj2 (Z.eqb_neq n 1) N1) in R. cbn [p_str] in R. unfold pow_num in R.
  destruct (pow_int (q_val a) n) as [v|e] eqn:Ev; [|discriminate R]. unfold wbind at 1, wlift in R.
  destruct (gen_quotable cs d H k _ La) as [Q1 Q2].
  destruct (pow_name (q_unit a) n (proj1 (proj2 (proj1 Pa))) (literal_quotable _ Q1) Q2 (proj1 Ua)) as (S1 & S2 & S3 & S4 & S5).
  revert R S1 S2 S3 S4 S5. generalize (q_unit a ++ str_of_Z n)%list. intros z R S1 S2 S3 S4 S5. pose proof (during_era cs d H s w Te D) as Hw.
  assert (G : q_unit r = z /\ q_val r = v); [|destruct G as [G1 G2]; split; [exact G1|now rewrite G2]].
  unfold units_of, wbind in R. rewrite units_unfold, S1 in R. destruct (smem z (uncertain w)).
  - unfold construct in R. change (is_k (u "Unit") "Unit") with true in R. cbv iota in R. destruct (smem (strip z) (w_all w)); [|discriminate R].
    injection R as <-. split; reflexivity.
  - destruct (first_kind z w) as [k'|] eqn:Ef.
    + unfold units_kind in R. rewrite S2 in R. unfold wbind, construct in R. destruct (is_k k' "Unit") eqn:E1.
      * destruct (smem (strip z) (w_all w)); [|discriminate R]. cbn [wret fst q_kind q_unit] in R. apply seqb_eq in E1. subst k'.
        change (is_k (u "Unit") "Percentage") with false in R. injection R as <-. split; reflexivity.
      * destruct (is_k k' "UserUnits") eqn:E2.
        { cbn [wret fst q_kind q_unit] in R. apply seqb_eq in E2. subst k'. change (is_k (u "UserUnits") "Percentage") with false in R. rewrite S1 in R. injection R as <-. split; reflexivity. }
        destruct (is_k k' "Date"); [discriminate R|]. destruct (smem k' classes); [|discriminate R]. destruct (smem z (class_units k' w)) eqn:Cu; [|discriminate R].
        cbn [wret fst q_kind q_unit] in R. destruct (is_k k' "Percentage") eqn:E5; [|injection R as <-; split; reflexivity].
        exfalso. apply seqb_eq in E5. subst k'. rewrite (class_get d s (u "Percentage") w Hw eq_refl) in Cu. unfold class_units in Cu. rewrite world_kinds in Cu.
        destruct (dget (u "Percentage") (all_kinds (db_kinds d))) as [l'|] eqn:El; [|discriminate Cu]. apply smem_In in Cu.
        destruct (adds_all (db_kinds d) (u "Percentage") l' El) as [I|(l & Hl & G)]; [apply smem_In in I; discriminate I|].
        pose proof (proj1 (gen_digits cs d H (u "Percentage") z (ex_intro _ l (conj Hl (G z S4 Cu)))) (or_intror (or_introl eq_refl)) S3) as X. rewrite X in S5. discriminate S5.
    + unfold construct in R. change (is_k (u "UserUnits") "Unit") with false in R. change (is_k (u "UserUnits") "UserUnits") with true in R. cbv iota zeta in R. rewrite S1 in R.
      injection R as <-. split; reflexivity.
Qed.
Lemma gen_pow_zero s k a w : tame_eval -> calculating_in s -> during_in s w -> In k measured_kinds -> qof k a -> plain_base (q_unit a) ->
  fst (pow a (PI 0) w) = Ok (PQ (Qty (u "UserUnits") (u "Dimensionless") 1)).
Proof.
  intros Te C D Hk (Ka & La & Ua) Pa. pose proof (plain_measured k Hk) as Hp. destruct (plain_parts k Hp) as (P1 & P2 & P3 & P4 & P5 & P6 & P7).
  unfold pow. rewrite Ka, P5, (wbind_ok _ _ _ _ _ (base_plain _ w Pa)). cbn [fst snd]. change (p_mul (PI 1) (PI 0)) with (@PI F 0). change (p_eqZ (PI 0) 0) with true. cbv iota zeta.
  unfold pow_num, pow_int. change (Z.to_nat 0) with 0%nat. cbn [Qcpower]. unfold wbind at 1, wlift.
  destruct (gen_units_wrong cs d H s w 1 Te C D) as (_ & _ & _ & _ & (w' & R) & _). unfold units_of, wbind.
  change (units (PN 1) (AUnitStr (u "Dimensionless")) false w) with (units (PN 1) ANoUnit false w). rewrite R. reflexivity.
Qed.
End G.
