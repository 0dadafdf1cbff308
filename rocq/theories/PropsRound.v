(** * C80: conversions of numbers that round

    The theorems about values (C32, C34, C52, ...) are about exact rational
    numbers.  Here the numbers are of any type whose operations round, as
    Python's floats do: what [convert] returns is within one part in 10^11 of
    the exact answer. *)
From Coq Require Import String QArith Qcanon Qcabs Qround Qpower Lqa.
From Verif Require Import Py StrTools Network SearchSpec Conv Converter EngineSpec ConsistSpec RegionSpec NumPy Demo
  Dict Database Shipped ShippedSpec ShippedCert ShippedCheck RoundSpec RoundCheck RoundFacts ShippedFacts ShippedFacts2 ShippedFacts3 ShippedFacts4 RoundFacts2 PropsShipped.
Local Open Scope Qc_scope.

(** one part in 10^11, two parts in 10^11; the error of floats (round to nearest, 53 bits) *)
Definition e11 : Qc := Q2Qc (1 # 100000000000).
Definition float_error : Qc := Q2Qc (1 # 9007199254740992).

Ltac by_round L := unfold shipped_session, shipped_numbers, listed_as, linked, never_through, shipped_net, shipped_dicts, shipped_kinds; exact (L cert shipped_db shipped_checked shipped_shapes).

Lemma shipped_round : forall b, b <> 0 -> exists size : str -> Qc, (forall x, size x <> 0)
  /\ (forall k ds x, In (k, ds) defs -> In x ds -> In k straight_kinds -> size (d_from x) = Q2Qc (d_factor x) * size (d_to x))
  /\ (forall k s l v w f t uc, shipped_session s -> Forall keeps l -> fvf_is b (do_calls l s) -> unit_name f -> unit_name t ->
        In k straight_kinds -> listed_as k f -> listed_as k t ->
        fst (convert (VNum v) (UStr f) (UStr t) uc (do_calls l s)) = Ok (Some (CVal w)) -> w = v * size f / size t)
  /\ (forall (V : Type) (A : Arith V) (val : V -> Qc) e, rounding val e ->
        forall k (s : st V) l v w f t uc, shipped_numbers s -> Forall keeps_tables l -> (forall y, fv_of (do_calls l s) = Ok y -> val y = b) -> unit_name f -> unit_name t ->
        In k straight_kinds -> listed_as k f -> listed_as k t -> converted_to v f t uc (do_calls l s) w ->
        exists n r, (N.of_nat n <= 37800)%N /\ factor e n r /\ val w = val v * size f / size t * r).
Proof. by_round gen_round. Qed.

Lemma count_le n m e : 0 <= e -> (N.of_nat n <= m)%N -> Q2Qc (inject_Z (Z.of_nat n)) * e <= Q2Qc (inject_Z (Z.of_N m)) * e.
Proof.
  intros He Hn. apply Qcmult_le_compat_r; [|exact He]. unfold Qcle. rewrite (Qred_correct (inject_Z (Z.of_nat n))), (Qred_correct (inject_Z (Z.of_N m))).
  rewrite <- Zle_Qle. lia.
Qed.

(** ** The same conversion with exact numbers and with numbers that round *)
Theorem C80_accuracy_partial : forall (V : Type) (A : Arith V) (val : V -> Qc) (e d b : Qc), rounding val e -> Q2Qc 37800 * e <= d -> d + d <= 1 -> b <> 0 ->
  forall k (s : st V) l v w s0 l0 w0 f t uc uc0, shipped_numbers s -> Forall keeps_tables l -> (forall y, fv_of (do_calls l s) = Ok y -> val y = b) ->
  shipped_session s0 -> Forall keeps l0 -> fvf_is b (do_calls l0 s0) ->
  In k straight_kinds -> listed_as k f -> listed_as k t -> unit_name f -> unit_name t ->
  converted_to v f t uc (do_calls l s) w -> fst (convert (VNum (val v)) (UStr f) (UStr t) uc0 (do_calls l0 s0)) = Ok (Some (CVal w0)) ->
  within_part (d + d) (val w) w0.
Proof.
  intros V A val e d b HR Hd1 Hd2 Hb k s l v w s0 l0 w0 f t uc uc0 S K Hv S0 K0 Hv0 Hk Lf Lt Hf Ht Hw Hw0.
  destruct (shipped_round b Hb) as (size & Hs & _ & H1 & H2). destruct (H2 V A val e HR k s l v w f t uc S K Hv Hf Ht Hk Lf Lt Hw) as (n & r & Hn & F & E).
  rewrite (H1 k s0 l0 (val v) w0 f t uc0 S0 K0 Hv0 Hf Ht Hk Lf Lt Hw0), E. apply (part_of e (rd_error val e HR) n); [exact F| |exact Hd2].
  eapply Qcle_trans; [exact (count_le n 37800 e (proj1 (rd_error val e HR)) Hn)|exact Hd1].
Qed.
Print Assumptions C80_accuracy_partial.

Definition two_e12 : Qc := Q2Qc (5 # 1000000000000).
Lemma floats_enough e : e <= float_error -> Q2Qc 37800 * e <= two_e12.
Proof.
  intros H. apply Qcle_trans with (Q2Qc 37800 * float_error); [|vm_compute; discriminate].
  rewrite (Qcmult_comm _ e), (Qcmult_comm _ float_error). apply Qcmult_le_compat_r; [exact H|vm_compute; discriminate].
Qed.
(** floats *)
Theorem C80_floats_partial : forall (V : Type) (A : Arith V) (val : V -> Qc) (e b : Qc), rounding val e -> e <= float_error -> b <> 0 ->
  forall k (s : st V) l v w s0 l0 w0 f t uc uc0, shipped_numbers s -> Forall keeps_tables l -> (forall y, fv_of (do_calls l s) = Ok y -> val y = b) ->
  shipped_session s0 -> Forall keeps l0 -> fvf_is b (do_calls l0 s0) ->
  In k straight_kinds -> listed_as k f -> listed_as k t -> unit_name f -> unit_name t ->
  converted_to v f t uc (do_calls l s) w -> fst (convert (VNum (val v)) (UStr f) (UStr t) uc0 (do_calls l0 s0)) = Ok (Some (CVal w0)) ->
  within_part e11 (val w) w0.
Proof.
  intros V A val e b HR He Hb k s l v w s0 l0 w0 f t uc uc0 S K Hv S0 K0 Hv0 Hk Lf Lt Hf Ht Hw Hw0.
  replace e11 with (two_e12 + two_e12) by (apply Qc_is_canon; reflexivity).
  refine (C80_accuracy_partial V A val e two_e12 b HR (floats_enough e He) _ Hb k s l v w s0 l0 w0 f t uc uc0 S K Hv S0 K0 Hv0 Hk Lf Lt Hf Ht Hw Hw0).
  vm_compute. discriminate.
Qed.
Print Assumptions C80_floats_partial.

(** ** The definitions of the units, with floats *)
Theorem C80_definitions_partial : forall (V : Type) (A : Arith V) (val : V -> Qc) (e b : Qc), rounding val e -> e <= float_error -> b <> 0 ->
  forall k ds x (s : st V) l v w uc, In (k, ds) defs -> In x ds -> In k straight_kinds -> shipped_numbers s -> Forall keeps_tables l ->
  (forall y, fv_of (do_calls l s) = Ok y -> val y = b) -> unit_name (d_from x) -> unit_name (d_to x) ->
  converted_to v (d_from x) (d_to x) uc (do_calls l s) w -> within_part e11 (val w) (val v * Q2Qc (d_factor x)).
Proof.
  intros V A val e b HR He Hb k ds x s l v w uc Hk Hx Ks S K Hv Hf Ht Hw. destruct (defs_known k ds x Hk Hx) as [Lf Lt].
  destruct (shipped_round b Hb) as (size & Hs & Hds & _ & H2). destruct (H2 V A val e HR k s l v w _ _ uc S K Hv Hf Ht Ks Lf Lt Hw) as (n & r & Hn & F & E).
  assert (Ed : val v * size (d_from x) / size (d_to x) = val v * Q2Qc (d_factor x)) by (rewrite (Hds k ds x Hk Hx Ks); field; apply Hs).
  rewrite <- Ed, E. replace e11 with (two_e12 + two_e12) by (apply Qc_is_canon; reflexivity).
  apply (part_of e (rd_error val e HR) n); [exact F| |vm_compute; discriminate].
  eapply Qcle_trans; [exact (count_le n 37800 e (proj1 (rd_error val e HR)) Hn)|]. now apply floats_enough.
Qed.
Print Assumptions C80_definitions_partial.

(** ** There and back, with floats, whatever happens in between *)
Theorem C80_round_trip_partial : forall (V : Type) (A : Arith V) (val : V -> Qc) (e b : Qc), rounding val e -> e <= float_error -> b <> 0 ->
  forall k (s : st V) l l' v w z f t uc uc', shipped_numbers s -> Forall keeps_tables l -> Forall keeps_tables l' ->
  (forall y, fv_of (do_calls l s) = Ok y -> val y = b) -> (forall y, fv_of (do_calls l' s) = Ok y -> val y = b) ->
  In k straight_kinds -> listed_as k f -> listed_as k t -> unit_name f -> unit_name t ->
  converted_to v f t uc (do_calls l s) w -> converted_to w t f uc' (do_calls l' s) z -> within_part (e11 + e11) (val z) (val v).
Proof.
  intros V A val e b HR He Hb k s l l' v w z f t uc uc' S K K' Hv Hv' Hk Lf Lt Hf Ht Hw Hz.
  destruct (shipped_round b Hb) as (size & Hs & _ & _ & H2). destruct (H2 V A val e HR k s l v w f t uc S K Hv Hf Ht Hk Lf Lt Hw) as (n & r & Hn & F & E).
  destruct (H2 V A val e HR k s l' w z t f uc' S K' Hv' Ht Hf Hk Lt Lf Hz) as (n' & r' & Hn' & F' & E').
  assert (E2 : val z = val v * (r * r')). { rewrite E', E. field. split; apply Hs. }
  rewrite E2. apply (part_of e (rd_error val e HR) (n + n')); [exact (factor_mul e (rd_error val e HR) n n' r r' F F')| |vm_compute; discriminate].
  eapply Qcle_trans; [exact (count_le (n + n') 75600 e (proj1 (rd_error val e HR)) ltac:(lia))|].
  apply Qcle_trans with (Q2Qc 75600 * float_error); [|vm_compute; discriminate].
  change (Q2Qc (inject_Z (Z.of_N 75600))) with (Q2Qc 75600). rewrite (Qcmult_comm _ e), (Qcmult_comm _ float_error). apply Qcmult_le_compat_r; [exact He|vm_compute; discriminate].
Qed.
Print Assumptions C80_round_trip_partial.

(** ** A number is returned: no division by a number that was rounded to zero, no error *)
Theorem C80_returned_partial : forall (V : Type) (A : Arith V) (val : V -> Qc) (e : Qc), rounding val e ->
  forall k (s : st V) l v f t uc, shipped_numbers s -> (p_algo (s_par s) = u "BFS" \/ p_algo (s_par s) = u "lean_BFS") /\ (12 <= p_max_gen (s_par s))%Z ->
  Forall converts l -> (forall y, fv_of (do_calls l s) = Ok y -> val y <> 0) -> unit_name f -> unit_name t ->
  In k straight_kinds -> In k whole_kinds -> listed_as k f -> listed_as k t -> exists w, converted_to v f t uc (do_calls l s) w.
Proof. by_round gen_round_number. Qed.
Print Assumptions C80_returned_partial.

(** ** Order: conversions with operations that keep the order never invert two numbers *)
Theorem C80_order_partial : forall (V : Type) (A : Arith V) (le : V -> V -> Prop) (pos : V -> Prop), ordered le pos ->
  forall (s : st V) l v w v' w' f t uc, shipped_numbers s -> Forall keeps_tables l -> (forall y, fv_of (do_calls l s) = Ok y -> pos y) -> unit_name f -> unit_name t ->
  ordinary shipped_dicts f -> density_case shipped_dicts f t = false -> never_through decreasing f t ->
  converted_to v f t uc (do_calls l s) w -> converted_to v' f t uc (do_calls l s) w' -> le v v' -> le w w'.
Proof. by_round gen_rising. Qed.
Print Assumptions C80_order_partial.

(** ** Examples *)
(** example: rounding to 53 bits or more, to nearest *)
Definition bits (x : Q) : Z := (53 + Z.log2 (Zpos (Qden x)) - Z.log2 (Z.abs (Qnum x)))%Z.
Definition rnd (x : Qc) : Qc :=
  if Qeq_bool (this x) 0 then 0 else Q2Qc (inject_Z (Qfloor (this x * 2 ^ bits (this x) + (1 # 2))) / 2 ^ bits (this x)).
Definition rounded_arith : Arith Qc := {|
  aadd x y := rnd (x + y); asub x y := rnd (x - y); amul x y := rnd (x * y);
  adiv x y := if Qeq_bool (this y) 0 then Err ZeroDivisionError else Ok (rnd (x / y)); aconst q := rnd (Q2Qc q) |}.
Lemma pow2_pos k : (0 < 2 ^ k)%Q.
Proof. destruct (proj1 (Qle_lteq _ _) (Qpower_pos 2 k ltac:(discriminate))) as [E|E]; [exact E|]. exfalso. apply (Qpower_not_0 2 k); [discriminate|now symmetry]. Qed.
Lemma bits_enough x : ~ (x == 0)%Q -> (inject_Z (2 ^ 52) <= Qabs.Qabs x * 2 ^ bits x)%Q.
Proof.
  intros Nx. destruct x as [n d]. unfold bits. cbn [Qnum Qden]. assert (Hn : (Z.abs n <> 0)%Z) by (intros X; apply Nx; unfold Qeq; cbn; lia).
  set (ln := Z.log2 (Z.abs n)). set (ld := Z.log2 (Zpos d)).
  pose proof (Z.log2_spec (Z.abs n) ltac:(lia)) as [L1 _]. pose proof (Z.log2_spec (Zpos d) ltac:(lia)) as [_ L2]. fold ln in L1. fold ld in L2.
  pose proof (Z.log2_nonneg (Z.abs n)) as P1. pose proof (Z.log2_nonneg (Zpos d)) as P2. fold ln in P1. fold ld in P2.
  assert (E : (2 ^ (53 + ld - ln) == inject_Z (2 ^ 52) * inject_Z (2 ^ (Z.succ ld)) / inject_Z (2 ^ ln))%Q).
  { replace (53 + ld - ln)%Z with (52 + Z.succ ld + - ln)%Z by lia. rewrite Qpower_plus by discriminate. rewrite Qpower_plus by discriminate.
    rewrite Qpower_opp. rewrite !Zpower_Qpower by lia. reflexivity. }
  rewrite E. change (Qabs.Qabs (n # d)) with (Z.abs n # d)%Q. rewrite (Qmake_Qdiv (Z.abs n) d).
  pose proof (Z.pow_pos_nonneg 2 ln ltac:(lia) P1) as Q1. pose proof (Z.pow_pos_nonneg 2 52 ltac:(lia) ltac:(lia)) as Q2.
  set (A := inject_Z (2 ^ ln)) in *. assert (A0 : (0 < A)%Q) by (unfold A; rewrite <- (Zlt_Qlt 0); exact Q1).
  assert (A1 : (A <= inject_Z (Z.abs n))%Q) by (unfold A; rewrite <- Zle_Qle; exact L1).
  assert (D0 : (0 < inject_Z (Zpos d))%Q) by (rewrite <- (Zlt_Qlt 0); lia).
  assert (D1 : (inject_Z (Zpos d) <= inject_Z (2 ^ Z.succ ld))%Q) by (rewrite <- Zle_Qle; lia).
  assert (C0 : (0 < inject_Z (2 ^ 52))%Q) by (rewrite <- (Zlt_Qlt 0); exact Q2).
  set (C := inject_Z (2 ^ 52)) in *. set (Dn := inject_Z (Zpos d)) in *. set (N := inject_Z (Z.abs n)) in *. set (M := inject_Z (2 ^ Z.succ ld)) in *.
  setoid_replace (N / Dn * (C * M / A))%Q with (C * ((N / A) * (M / Dn)))%Q by (field; split; intros X; [rewrite X in D0|rewrite X in A0]; discriminate).
  assert (F1 : (1 <= N / A)%Q) by (apply Qle_shift_div_l; [exact A0|rewrite Qmult_1_l; exact A1]).
  assert (F2 : (1 <= M / Dn)%Q) by (apply Qle_shift_div_l; [exact D0|rewrite Qmult_1_l; exact D1]).
  set (a := (N / A)%Q) in *. set (b := (M / Dn)%Q) in *. clearbody a b C. clear E L1 L2. assert ((1 <= a * b)%Q) by nra. nra.
Qed.

Lemma rnd_near x : exists f, factor float_error 1 f /\ rnd x = x * f.
Proof.
  unfold rnd. destruct (Qeq_bool (this x) 0) eqn:E0.
  { exists 1. split; [split; vm_compute; discriminate|]. apply Qeq_bool_eq in E0. replace x with 0 by (apply Qc_is_canon; symmetry; exact E0). ring. }
  assert (Nx : ~ (this x == 0)%Q) by (intros X; apply Qeq_bool_iff in X; congruence).
  pose proof (bits_enough (this x) Nx) as B. pose proof (pow2_pos (bits (this x))) as P. set (p := (2 ^ bits (this x))%Q) in *. clearbody p. set (X := this x) in *.
  pose proof (Qfloor_le (X * p + (1 # 2))) as F1. pose proof (Qlt_floor (X * p + (1 # 2))) as F2. set (F := Qfloor (X * p + (1 # 2))) in *. clearbody F. rewrite inject_Z_plus in F2.
  assert (Np : ~ (p == 0)%Q) by (intros Z; rewrite Z in P; discriminate P).
  exists (Q2Qc (inject_Z F / (X * p))). split.
  - unfold factor. cbn [Qcpower]. unfold Qcle. rewrite ?mult_this, ?minus_this. rewrite (Qred_correct (inject_Z F / (X * p))).
    change (this 1) with 1%Q. change (this float_error) with (1 # 9007199254740992)%Q. set (i := inject_Z F) in *. clearbody i. change (inject_Z 1) with 1%Q in F2. change (inject_Z (2 ^ 52)) with (4503599627370496 # 1)%Q in B.
    assert (H : (1 - (1 # 9007199254740992) <= i / (X * p) <= 1 + (1 # 9007199254740992))%Q).
    { destruct (Qlt_le_dec 0 X) as [L|L].
      - rewrite Qabs.Qabs_pos in B by lra. split; [apply Qle_shift_div_l|apply Qle_shift_div_r]; nra.
      - rewrite Qabs.Qabs_neg in B by lra. setoid_replace (i / (X * p))%Q with ((- i) / (- X * p))%Q by (field; split; assumption).
        split; [apply Qle_shift_div_l|apply Qle_shift_div_r]; nra. }
    set (r := (i / (X * p))%Q) in *. clearbody r. split; lra.
  - apply Qc_is_canon. rewrite mult_this. etransitivity; [apply Qred_correct|]. rewrite (Qred_correct (inject_Z F / (X * p))). fold X. field. split; assumption.
Qed.

Example C80_example_rounding : rounding (A:=rounded_arith) (fun x => x) float_error.
Proof.
  split; [split; [vm_compute; discriminate|reflexivity]| | |].
  - intros x y. exact (rnd_near (x * y)).
  - intros x y Hy. destruct (rnd_near (x / y)) as (f & F & E). exists (rnd (x / y)), f. split; [|split; [exact F|exact E]]. cbn [adiv rounded_arith].
    destruct (Qeq_bool (this y) 0) eqn:Ey; [|reflexivity]. exfalso. apply Hy. apply Qc_is_canon. now apply Qeq_bool_eq.
  - intros q. exact (rnd_near (Q2Qc q)).
Qed.
(** it is not exact: a tenth is not a number of it *)
Example C80_example_inexact : rnd (Q2Qc (1 # 10)) <> Q2Qc (1 # 10).
Proof. intros X. assert (E : Qeq_bool (this (rnd (Q2Qc (1 # 10)))) (this (Q2Qc (1 # 10))) = true) by (rewrite X; apply Qeq_bool_iff; reflexivity). vm_compute in E. discriminate E. Qed.

(** a session of the shipped database with these numbers *)
Definition rounded_start : st Qc :=
  St (nmap shipped_net) None [] [] None (Err NoFVFError) (Err NoFVFError) (demo_par "lean_BFS") shipped_dicts [] [].
Lemma rounded_start_session : shipped_numbers rounded_start.
Proof. split; [reflexivity|]. split; [reflexivity|]. split; [reflexivity|]. split; [reflexivity|]. split; [reflexivity|]. split; cbn; lia. Qed.
Lemma rounded_start_searches : (p_algo (s_par rounded_start) = u "BFS" \/ p_algo (s_par rounded_start) = u "lean_BFS") /\ (12 <= p_max_gen (s_par rounded_start))%Z.
Proof. split; [right; reflexivity|cbn; lia]. Qed.
Lemma rounded_start_fvf y : fv_of rounded_start <> Ok y.
Proof. change (Err NoFVFError <> Ok y). discriminate. Qed.
Lemma mile_names : unit_name (u "mile") /\ unit_name (u "m").
Proof. split; apply unit_check; vm_compute; reflexivity. Qed.
Lemma length_kind : In (u "Length") straight_kinds /\ In (u "Length") whole_kinds.
Proof. split; apply smem_In; vm_compute; reflexivity. Qed.
Lemma rounded_example_of (s : st Qc) : shipped_numbers s -> (p_algo (s_par s) = u "BFS" \/ p_algo (s_par s) = u "lean_BFS") /\ (12 <= p_max_gen (s_par s))%Z ->
  (forall y, fv_of s <> Ok y) ->
  exists w, converted_to (A:=rounded_arith) (Q2Qc 3) (u "mile") (u "m") None s w /\ within_part e11 w (Q2Qc (4828032 # 1000)).
Proof.
  intros S Hs Hv. destruct shipped_example_defs as (_ & ds2 & _ & _ & D2 & X2). destruct mile_names as [N1 N2]. destruct length_kind as [L1 L2].
  destruct (defs_known _ _ _ D2 X2) as [Lf Lt].
  destruct (C80_returned_partial Qc rounded_arith (fun x => x) float_error C80_example_rounding (u "Length") s [] (Q2Qc 3) (u "mile") (u "m") None S Hs (Forall_nil _)
    (fun y E => False_ind _ (Hv y E)) N1 N2 L1 L2 Lf Lt) as (w & Hw). exists w. split; [exact Hw|].
  pose proof (C80_definitions_partial Qc rounded_arith (fun x => x) float_error 1 C80_example_rounding ltac:(vm_compute; discriminate) ltac:(discriminate)
    (u "Length") ds2 _ s [] (Q2Qc 3) w None D2 X2 L1 S (Forall_nil _) (fun y E => False_ind _ (Hv y E)) N1 N2 Hw) as P. cbn [d_factor] in P.
  replace (Q2Qc (4828032 # 1000)) with (Q2Qc 3 * Q2Qc (1609344 # 1000)) by (apply Qc_is_canon; reflexivity). exact P.
Qed.
Example C80_example :
  exists w, converted_to (A:=rounded_arith) (Q2Qc 3) (u "mile") (u "m") None rounded_start w /\ within_part e11 w (Q2Qc (4828032 # 1000)).
Proof. exact (rounded_example_of rounded_start rounded_start_session rounded_start_searches rounded_start_fvf). Qed.

(** example: numbers with six decimals keep the order *)
Definition six (x : Qc) : Qc := Q2Qc (inject_Z (Qfloor (this x * 1000000)) / 1000000).
Definition six_arith : Arith Qc := {|
  aadd x y := six (x + y); asub x y := six (x - y); amul x y := six (x * y);
  adiv x y := if Qeq_bool (this y) 0 then Err ZeroDivisionError else Ok (six (x / y)); aconst q := six (Q2Qc q) |}.
Lemma six_le x y : x <= y -> six x <= six y.
Proof.
  intros H. unfold six, Qcle. rewrite (Qred_correct (inject_Z (Qfloor (this x * 1000000)) / 1000000)), (Qred_correct (inject_Z (Qfloor (this y * 1000000)) / 1000000)).
  apply Qmult_le_compat_r; [|discriminate]. rewrite <- Zle_Qle. apply Qfloor_resp_le. apply Qmult_le_compat_r; [exact H|discriminate].
Qed.
Lemma six_pos x : 0 <= x -> 0 <= six x.
Proof. intros H. apply six_le in H. exact H. Qed.
Example C80_example_ordered : ordered (A:=six_arith) Qcle (fun x => 0 <= x).
Proof.
  assert (M : forall x y, 0 <= x -> 0 <= y -> 0 <= x * y).
  { intros x y Hx Hy. rewrite <- (Qcmult_0_l y). now apply Qcmult_le_compat_r. }
  assert (I : forall c, 0 <= c -> Qeq_bool (this c) 0 = false -> 0 <= / c).
  { intros c Hc E. apply Qclt_le_weak, inv_pos. apply Qcle_lt_or_eq in Hc. destruct Hc as [Hc|<-]; [exact Hc|discriminate E]. }
  split; cbn [aadd asub amul adiv aconst six_arith].
  - intros q Hq. apply six_pos. unfold Qcle. rewrite (Qred_correct q). now apply Qlt_le_weak.
  - intros x c Hx Hc. apply six_pos. now apply M.
  - intros x c z Hx Hc E. destruct (Qeq_bool (this c) 0) eqn:Ec; [discriminate E|]. injection E as <-. apply six_pos. apply M; [exact Hx|now apply I].
  - intros x y c Hc L. apply six_le. now apply Qcmult_le_compat_r.
  - intros x y c x' y' Hc L Ex Ey. destruct (Qeq_bool (this c) 0) eqn:Ec; [discriminate Ex|]. injection Ex as <-. injection Ey as <-. apply six_le.
    apply Qcmult_le_compat_r; [exact L|now apply I].
  - intros x y q L. apply six_le. apply Qcplus_le_compat; [exact L|apply Qcle_refl].
  - intros x y q L. apply six_le. apply Qcplus_le_compat; [exact L|apply Qcle_refl].
Qed.
