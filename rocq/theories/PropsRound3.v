(** * C80, C26: products and ratios of units of the shipped database

    A product or ratio is converted factor by factor, every factor with its
    own path through the network, one division for every factor below the
    line, one product for every factor.  Whatever the number of factors, the
    result is within one part in 10^11 per factor of the exact answer; with
    exact numbers it is the exact answer. *)
From Coq Require Import String QArith Qcanon Qcabs Lqa.
From Verif Require Import Py StrTools Network SearchSpec Conv Converter EngineSpec NetworkFacts EngineFacts4 EngineFacts5 EngineFacts7 CompositeSpec ConsistSpec RegionSpec NumPy Demo
  Dict Database Shipped ShippedSpec ShippedCert ShippedCheck RoundSpec RoundSpec2 RoundCheck RoundFacts ShippedFacts ShippedFacts2 ShippedFacts3 ShippedFacts4 ShippedFacts5 RoundFacts2 RoundFacts3 RoundFacts4
  PropsShipped PropsRound PropsEngine3.
Local Open Scope Qc_scope.

Lemma alike_quiet x y : alike x y -> unit_name x /\ unit_name y /\ ordinary shipped_dicts x /\ density_case shipped_dicts x y = false.
Proof.
  intros (k & Hk & _ & Lx & Ly & Hx & Hy). split; [exact Hx|]. split; [exact Hy|]. revert Hk Lx Ly Hx Hy.
  unfold listed_as, shipped_dicts, shipped_kinds. exact (gen_alike cert shipped_db shipped_checked k x y).
Qed.
Lemma shipped_fresh (V : Type) (A : Arith V) (s : st V) : shipped_numbers s -> fresh_session s.
Proof. intros (S1 & _ & _ & S4 & S5 & _). exact (gen_fresh cert shipped_db shipped_checked V A s S1 S4 S5). Qed.

(** the session: the shipped database, breadth first or lean, nothing but conversions before *)
Definition searching {V : Type} (s : st V) : Prop :=
  shipped_numbers s /\ (p_algo (s_par s) = u "BFS" \/ p_algo (s_par s) = u "lean_BFS") /\ (12 <= p_max_gen (s_par s))%Z.
(** the whole pair of names matches no rule, and is not remembered *)
Definition unremembered {V : Type} (s : st V) (f t : str) (uc : option bool) : Prop :=
  no_shortcut s f t /\ density_case (s_dict s) f t = false /\ (uc = Some false \/ mget (f, t) (s_mem s) = None).

Definition session_size (b : Qc) (size : str -> Qc) : Prop := (forall x, size x <> 0)
  /\ (forall k ds x, In (k, ds) defs -> In x ds -> In k straight_kinds -> size (d_from x) = Q2Qc (d_factor x) * size (d_to x))
  /\ (forall k s l v w f t uc, shipped_session s -> Forall keeps l -> fvf_is b (do_calls l s) -> unit_name f -> unit_name t ->
        In k straight_kinds -> listed_as k f -> listed_as k t ->
        fst (convert (VNum v) (UStr f) (UStr t) uc (do_calls l s)) = Ok (Some (CVal w)) -> w = v * size f / size t).

Lemma composite_round (b : Qc) : b <> 0 -> exists size : str -> Qc, session_size b size
  /\ forall (V : Type) (A : Arith V) (val : V -> Qc) e, rounding val e ->
     forall (s : st V) cs v x0 y0 l uc, let s' := do_calls cs s in
     searching s -> Forall converts cs -> (forall y, fv_of s' = Ok y -> val y = b) ->
     l <> [] -> alike x0 y0 -> Forall (fun m => alike (f_from m) (f_to m)) l ->
     unremembered s' (source x0 l) (target y0 l) uc ->
     exists w n r, converted_to v (source x0 l) (target y0 l) uc s' w
       /\ (N.of_nat n <= 37804 * (1 + N.of_nat (length l)))%N /\ RoundSpec.factor e n r
       /\ val w = val v * measured size f_from x0 l / measured size f_to y0 l * r.
Proof.
  intros Hb. destruct (shipped_round b Hb) as (size & Hs & Hd & H1 & H2). exists size. split; [exact (conj Hs (conj Hd H1))|].
  intros V A val e HR s cs v x0 y0 l uc s' (S & Sch) Hcs Hv Hl H0 Hf (Hn & Hden & Hu).
  pose proof (shipped_fresh V A s S) as Fr. pose proof S as (S1 & S2 & S3 & S4 & S5 & S6).
  (* what one unit is worth *)
  assert (W : forall x y, alike x y -> exists k, worth s' x y k /\ near val e (N.to_nat 37801) k (size x / size y)).
  { intros x y (k & Hk & Hw & Lx & Ly & Hx & Hy).
    destruct (C80_returned_partial V A val e HR k s cs (aconst 1%Q) x y None S Sch Hcs
      (fun z E => ltac:(rewrite (Hv z E); exact Hb)) Hx Hy Hk Hw Lx Ly) as (w & Ew).
    exists w. split; [exists None; exact Ew|].
    destruct (H2 V A val e HR k s cs (aconst 1%Q) w x y None S (converts_tables cs Hcs) Hv Hx Hy Hk Lx Ly Ew) as (n & r & Hn' & F & E).
    destruct (rd_literal val e HR 1%Q) as (f1 & F1 & E1). exists (1 + n)%nat, (f1 * r). split; [lia|].
    split; [exact (factor_mul e (rd_error val e HR) _ _ _ _ F1 F)|]. rewrite E, E1. change (Q2Qc 1) with 1. field. apply Hs. }
  destruct (W x0 y0 H0) as (k0 & W0 & N0).
  assert (K : exists ks, Forall2 (factor_worth s') l ks /\ Forall2 (fun m k => near val e (2 + N.to_nat 37801) k (gain size m)) l ks).
  { assert (Ds : s_dict s' = shipped_dicts).
    { destruct (quiet_session s cs Fr S6 (converts_quiet _ _ Hcs)) as (_ & _ & _ & _ & D'). unfold s'. rewrite D'. exact S2. }
    clear - W Hf HR Hs Ds. induction l as [|m l IH]; [exists []; split; constructor|]. inversion Hf as [|? ? Hm Hf']; subst.
    destruct (IH Hf') as (ks & K1 & K2). destruct (W _ _ Hm) as (k & Wk & Nk). destruct (alike_quiet _ _ Hm) as (Q1 & Q2 & _ & Q4). rewrite <- Ds in Q4.
    destruct (f_div m) eqn:Em.
    - assert (Nz : size (f_from m) / size (f_to m) <> 0).
      { intros Z. apply (Hs (f_from m)). transitivity (size (f_from m) / size (f_to m) * size (f_to m)); [field; apply Hs|rewrite Z; ring]. }
      destruct (near_inv val e HR _ _ _ Nk Nz) as (z & Ez & Nz'). exists (z :: ks). split; constructor; try assumption.
      + split; [exact Q1|]. split; [exact Q2|]. split; [exact Q4|]. rewrite Em. exists k. split; assumption.
      + unfold gain. rewrite Em. replace (size (f_to m) / size (f_from m)) with (/ (size (f_from m) / size (f_to m))) by (field; split; apply Hs). exact Nz'.
    - exists (k :: ks). split; constructor; try assumption.
      + split; [exact Q1|]. split; [exact Q2|]. split; [exact Q4|]. rewrite Em. exact Wk.
      + unfold gain. rewrite Em. destruct Nk as (i & r & Hi & F & E). exists i, r. split; [lia|]. split; assumption. }
  destruct K as (ks & K1 & K2).
  destruct (alike_quiet _ _ H0) as (Q1 & Q2 & _ & Q4).
  pose proof (C26_factor_by_factor V A s cs v x0 y0 l k0 ks uc Fr S6 (converts_quiet _ _ Hcs) Hl Q1 Q2 ltac:(rewrite S2; exact Q4) W0 K1 Hn) as C.
  assert (Hden' : density_case (s_dict s) (source x0 l) (target y0 l) = false).
  { destruct (quiet_session s cs Fr S6 (converts_quiet _ _ Hcs)) as (_ & _ & _ & _ & D'). rewrite <- D'. exact Hden. }
  specialize (C Hden' Hu). exists (amul v (fold_left amul ks k0)).
  destruct (near_fold val e HR size _ l ks k0 _ _ N0 K2) as (n & r & Hn' & F & E).
  destruct (rd_mul val e HR v (fold_left amul ks k0)) as (f & Ff & Ef). exists (1 + n)%nat, (f * r). split; [exact C|].
  split; [|split; [exact (factor_mul e (rd_error val e HR) _ _ _ _ Ff F)|]].
  - clear - Hn'. lia.
  - rewrite Ef, E, (total_gain size Hs l x0 y0). unfold Qcdiv. ring.
Qed.

(** ** With floats, in terms of the definitions of the units *)
Lemma parts_bound n m e : 0 <= e -> e <= float_error -> (N.of_nat n <= 37804 * N.of_nat m)%N ->
  Q2Qc (inject_Z (Z.of_nat n)) * e <= Q2Qc (inject_Z (Z.of_nat m) * (5 # 1000000000000)).
Proof.
  intros H0 He Hn. apply Qcle_trans with (Q2Qc (inject_Z (37804 * Z.of_nat m)) * float_error).
  - apply Qcle_trans with (Q2Qc (inject_Z (37804 * Z.of_nat m)) * e).
    + apply Qcmult_le_compat_r; [|exact H0]. unfold Qcle. rewrite (Qred_correct (inject_Z (Z.of_nat n))), (Qred_correct (inject_Z (37804 * Z.of_nat m))).
      rewrite <- Zle_Qle. lia.
    + rewrite !(Qcmult_comm (Q2Qc (inject_Z (37804 * Z.of_nat m)))). apply Qcmult_le_compat_r; [exact He|].
      unfold Qcle. rewrite (Qred_correct (inject_Z (37804 * Z.of_nat m))). change (this 0) with (inject_Z 0). rewrite <- Zle_Qle. lia.
  - unfold Qcle. rewrite mult_this, (Qred_correct (inject_Z (37804 * Z.of_nat m))), (Qred_correct (inject_Z (Z.of_nat m) * (5 # 1000000000000))).
    change (this float_error) with (1 # 9007199254740992)%Q. rewrite inject_Z_mult. assert (P : (inject_Z 0 <= inject_Z (Z.of_nat m))%Q) by (rewrite <- Zle_Qle; lia).
    change (inject_Z 0) with 0%Q in P. set (x := inject_Z (Z.of_nat m)) in *. change (inject_Z 37804) with (37804 # 1)%Q. clearbody x. lra.
Qed.
Theorem C80_composite_partial : forall b, b <> 0 -> exists size : str -> Qc, session_size b size
  /\ forall (V : Type) (A : Arith V) (val : V -> Qc) e, rounding val e -> e <= float_error ->
     forall (s : st V) cs v x0 y0 l uc, let s' := do_calls cs s in
     searching s -> Forall converts cs -> (forall y, fv_of s' = Ok y -> val y = b) ->
     l <> [] -> (N.of_nat (length l) < 10 ^ 11)%N -> alike x0 y0 -> Forall (fun m => alike (f_from m) (f_to m)) l ->
     unremembered s' (source x0 l) (target y0 l) uc ->
     exists w, converted_to v (source x0 l) (target y0 l) uc s' w
       /\ within_part (parts_e11 (1 + length l)) (val w) (val v * measured size f_from x0 l / measured size f_to y0 l).
Proof.
  intros b Hb. destruct (composite_round b Hb) as (size & Hs & Hr). exists size. split; [exact Hs|].
  intros V A val e HR He s cs v x0 y0 l uc s' S Hcs Hv Hl Hlen H0 Hf Hu.
  destruct (Hr V A val e HR s cs v x0 y0 l uc S Hcs Hv Hl H0 Hf Hu) as (w & n & r & C & Hn & F & E). exists w. split; [exact C|]. rewrite E.
  set (m := (1 + length l)%nat) in *. assert (Hn' : (N.of_nat n <= 37804 * N.of_nat m)%N) by (unfold m; lia).
  set (d := Q2Qc (inject_Z (Z.of_nat m) * (5 # 1000000000000))).
  replace (parts_e11 m) with (d + d).
  - apply (part_of e (rd_error val e HR) n _ r d F (parts_bound n m e (proj1 (rd_error val e HR)) He Hn')).
    unfold d, Qcle. rewrite plus_this, (Qred_correct (inject_Z (Z.of_nat m) * (5 # 1000000000000))). change (this 1) with 1%Q.
    assert (P : (inject_Z (Z.of_nat m) <= inject_Z (10 ^ 11))%Q) by (rewrite <- Zle_Qle; unfold m; lia).
    change (inject_Z (10 ^ 11)) with (100000000000 # 1)%Q in P. set (x := inject_Z (Z.of_nat m)) in *. clearbody x. lra.
  - unfold d, parts_e11. apply Qc_is_canon. rewrite plus_this, (Qred_correct (inject_Z (Z.of_nat m) * (5 # 1000000000000))), (Qred_correct (inject_Z (Z.of_nat m) * (1 # 100000000000))). ring.
Qed.
Print Assumptions C80_composite_partial.

(** ** With exact numbers: the exact answer *)
Lemma exact_rounding : rounding (A:=exact_arith) (fun x => x) 0.
Proof.
  assert (F : RoundSpec.factor 0 1 1) by (split; vm_compute; discriminate).
  split; [split; [vm_compute; discriminate|reflexivity]| | |].
  - intros x y. exists 1. split; [exact F|]. change (x * y = x * y * 1). ring.
  - intros x y Hy. exists (x / y), 1. split; [|split; [exact F|ring]]. cbn [adiv exact_arith]. unfold qdiv. destruct (Qc_eq_dec y 0) as [Z|_]; [contradiction|]. reflexivity.
  - intros q. exists 1. split; [exact F|]. cbn [aconst exact_arith]. ring.
Qed.
Lemma exact_factor n r : RoundSpec.factor 0 n r -> r = 1.
Proof.
  assert (P : (1 - 0) ^ n = 1) by (induction n as [|n IH]; [reflexivity|cbn [Qcpower]; rewrite IH; reflexivity]).
  intros [F1 F2]. rewrite P in F1, F2. rewrite Qcmult_1_r in F2. apply Qcle_antisym; assumption.
Qed.
Theorem C26_shipped_partial : forall b, b <> 0 -> exists size : str -> Qc, session_size b size
  /\ forall (s : st Qc) cs v x0 y0 l uc, let s' := do_calls cs s in
     searching s -> Forall converts cs -> (forall y, fv_of s' = Ok y -> y = b) ->
     l <> [] -> alike x0 y0 -> Forall (fun m => alike (f_from m) (f_to m)) l ->
     unremembered s' (source x0 l) (target y0 l) uc ->
     fst (convert (VNum v) (UStr (source x0 l)) (UStr (target y0 l)) uc s') = Ok (Some (CVal (v * measured size f_from x0 l / measured size f_to y0 l))).
Proof.
  intros b Hb. destruct (composite_round b Hb) as (size & Hs & Hr). exists size. split; [exact Hs|].
  intros s cs v x0 y0 l uc s' S Hcs Hv Hl H0 Hf Hu.
  destruct (Hr Qc exact_arith (fun x => x) 0 exact_rounding s cs v x0 y0 l uc S Hcs Hv Hl H0 Hf Hu) as (w & n & r & C & _ & F & E).
  rewrite (exact_factor n r F), Qcmult_1_r in E. rewrite <- E. exact C.
Qed.
Print Assumptions C26_shipped_partial.

(** ** Example: miles per minute times feet *)
Definition demo_speed_of : list CompositeSpec.factor := [Factor true (u "min") (u "s"); Factor false (u "ft") (u "in")].
Lemma shipped_unregistered x : In x checked_new -> In c_slash (u x) ->
  ordinary shipped_dicts (u x) /\ has_node shipped_net (u x) = false /\ forall t, density_case shipped_dicts (u x) t = false.
Proof. unfold shipped_dicts, shipped_net, shipped_kinds. exact (gen_unregistered cert shipped_db shipped_checked x). Qed.
Lemma first_listed x k : existsb (fun p : string * option string => String.eqb (fst p) x && match snd p with Some k' => String.eqb k' k | None => false end) checked_first = true -> listed_as (u k) (u x).
Proof.
  intros E. apply existsb_exists in E as ([x' [k'|]] & Hi & E); cbn [fst snd] in E; apply andb_true_iff in E as [E1 E2]; [|discriminate E2].
  apply String.eqb_eq in E1, E2. subst x' k'. unfold listed_as. exact (gen_first_listed cert shipped_db shipped_checked _ _ (gen_first cert shipped_db shipped_checked x (Some k) Hi)).
Qed.
Lemma mile_listed : listed_as (u "Length") (u "mile"). Proof. apply (first_listed "mile" "Length"). vm_compute. reflexivity. Qed.
Lemma demo_unremembered (V : Type) (s : st V) : shipped_numbers s -> unremembered s (u "mile/min*ft") (u "m/s*in") None.
Proof.
  intros (S1 & S2 & _ & S4 & _). unfold unremembered, no_shortcut. rewrite S1, S2, S4.
  destruct (shipped_unregistered "mile/min*ft" ltac:(right; right; left; reflexivity) ltac:(apply cmem_In; reflexivity)) as (O1 & N1 & D1).
  destruct (shipped_unregistered "m/s*in" ltac:(right; right; right; left; reflexivity) ltac:(apply cmem_In; reflexivity)) as (O2 & _ & _).
  split; [|split; [apply D1|right; reflexivity]].
  split; [discriminate|]. split; [exact O1|]. split; [exact O2|].
  split. { left. apply not_true_is_false. intros Hn. apply has_node_spec in Hn as (n & Hn & E). rewrite map_nodes in Hn.
    assert (Hg : has_node shipped_net (u "mile/min*ft") = true) by (apply has_node_spec; exists n; split; assumption). rewrite Hg in N1. discriminate N1. }
  intros n1 d1 n2 d2 H1 H2. 
  change (u "mile/min*ft") with (u "mile" ++ [c_slash] ++ u "min*ft")%list in H1. change (u "m/s*in") with (u "m" ++ [c_slash] ++ u "s*in")%list in H2.
  assert (Sl : forall x, cmem c_slash x = false -> ~ In c_slash x) by (intros x Hx K; apply cmem_In in K; rewrite Hx in K; discriminate K).
  apply one_cut in H1 as [<- <-]; [|apply Sl; reflexivity|apply Sl; reflexivity].
  apply one_cut in H2 as [<- <-]; [|apply Sl; reflexivity|apply Sl; reflexivity]. split.
  - intros [K _]. revert K. destruct mile_names as [[Sm _] _]. pose proof mile_listed as Lm. revert Lm Sm. unfold listed_as, shipped_dicts, shipped_kinds.
    exact (gen_no_temperature cert shipped_db shipped_checked (u "mile")).
  - intros [K _]. vm_compute in K. discriminate K.
Qed.
Lemma demo_alike : alike (u "mile") (u "m") /\ Forall (fun m => alike (f_from m) (f_to m)) demo_speed_of.
Proof.
  assert (N : forall k x y, smem (u k) straight_kinds && smem (u k) whole_kinds = true -> listed_as (u k) (u x) -> listed_as (u k) (u y) -> simple_b (u x) && bare_b (u x) = true -> simple_b (u y) && bare_b (u y) = true -> alike (u x) (u y)).
  { intros k x y Hk Lx Ly Hx Hy. apply andb_true_iff in Hk as [Hk Hw]. exists (u k). split; [now apply smem_In|]. split; [now apply smem_In|]. split; [exact Lx|]. split; [exact Ly|]. split; now apply unit_check. }
  split; [|constructor; [|constructor; [|constructor]]].
  - apply (N "Length"%string); [vm_compute; reflexivity|exact mile_listed|apply (first_listed "m" "Length"); vm_compute; reflexivity| |]; vm_compute; reflexivity.
  - apply (N "Time"%string); [vm_compute; reflexivity|apply (first_listed "min" "Time"); vm_compute; reflexivity|apply (first_listed "s" "Time"); vm_compute; reflexivity| |]; vm_compute; reflexivity.
  - apply (N "Length"%string); [vm_compute; reflexivity|apply (first_listed "ft" "Length"); vm_compute; reflexivity|apply (first_listed "in" "Length"); vm_compute; reflexivity| |]; vm_compute; reflexivity.
Qed.
(** the theorems apply to it: with rounded numbers, and exactly *)
Example C80_composite_example : exists size w, session_size 1 size
  /\ converted_to (A:=rounded_arith) (Q2Qc 30) (u "mile/min*ft") (u "m/s*in") None rounded_start w
  /\ within_part (parts_e11 3) w (Q2Qc 30 * (size (u "mile") / size (u "min") * size (u "ft")) / (size (u "m") / size (u "s") * size (u "in"))).
Proof.
  destruct (C80_composite_partial 1 ltac:(discriminate)) as (size & Hs & Hr). destruct demo_alike as [A0 Al].
  destruct (Hr Qc rounded_arith (fun x => x) float_error C80_example_rounding ltac:(vm_compute; discriminate) rounded_start [] (Q2Qc 30) (u "mile") (u "m") demo_speed_of None
    (conj rounded_start_session rounded_start_searches) (Forall_nil _) (fun y E => False_ind _ (rounded_start_fvf y E)) ltac:(discriminate) ltac:(reflexivity) A0 Al (demo_unremembered Qc rounded_start rounded_start_session)) as (w & C & W).
  exists size, w. split; [exact Hs|]. split; [exact C|exact W].
Qed.
