(** * C80: products and ratios of units of any kinds without offsets, by any search

    As C80_composite_partial, for whatever search and whatever happened before
    (settings changed, density set): if the factors are converted, so is the
    composite unit, within one part in 10^11 per factor of the exact answer. *)
From Coq Require Import String QArith Qcanon Qcabs Lqa.
From Verif Require Import Py StrTools Network SearchSpec Conv Converter EngineSpec NetworkFacts EngineFacts4 EngineFacts5 EngineFacts7 CompositeSpec ConsistSpec RegionSpec NumPy Demo
  Dict Database Shipped ShippedSpec ShippedCert ShippedCheck RoundSpec RoundSpec2 RoundCheck RoundFacts ShippedFacts ShippedFacts2 ShippedFacts3 ShippedFacts4 ShippedFacts5 RoundFacts2 RoundFacts3 RoundFacts4
  PropsShipped PropsRound PropsEngine3 PropsRound3.
Local Open Scope Qc_scope.

(** two units of one kind without offsets *)
Definition of_kind (x y : str) : Prop := exists k, In k straight_kinds /\ listed_as k x /\ listed_as k y /\ unit_name x /\ unit_name y.
Lemma of_kind_quiet x y : of_kind x y -> unit_name x /\ unit_name y /\ ordinary shipped_dicts x /\ density_case shipped_dicts x y = false.
Proof.
  intros (k & Hk & Lx & Ly & Hx & Hy). split; [exact Hx|]. split; [exact Hy|]. revert Hk Lx Ly Hx Hy.
  unfold listed_as, shipped_dicts, shipped_kinds. exact (gen_alike cert shipped_db shipped_checked k x y).
Qed.
Lemma quiet_tables {V : Type} {A : Arith V} q (l : list (call V)) : Forall (quiet q) l -> Forall keeps_tables l.
Proof. apply Forall_impl. intros [value f t uc|f t uc|v f t uc|name|a b h r|v| |p|l']; cbn; tauto. Qed.

Theorem C80_composite_given_partial : forall b, b <> 0 -> exists size : str -> Qc, session_size b size
  /\ forall (V : Type) (A : Arith V) (val : V -> Qc) e, rounding val e -> e <= float_error ->
     forall (s : st V) cs v x0 y0 l k0 ks uc, let s' := do_calls cs s in
     shipped_numbers s -> Forall (quiet (search_settings (s_par s))) cs -> (forall y, fv_of s' = Ok y -> val y = b) ->
     l <> [] -> (N.of_nat (length l) < 10 ^ 11)%N -> of_kind x0 y0 -> Forall (fun m => of_kind (f_from m) (f_to m)) l ->
     worth s' x0 y0 k0 -> Forall2 (factor_worth s') l ks -> unremembered s' (source x0 l) (target y0 l) uc ->
     exists w, converted_to v (source x0 l) (target y0 l) uc s' w
       /\ within_part (parts_e11 (1 + length l)) (val w) (val v * measured size f_from x0 l / measured size f_to y0 l).
Proof.
  intros b Hb. destruct (shipped_round b Hb) as (size & Hs & Hd & H1 & H2). exists size. split; [exact (conj Hs (conj Hd H1))|].
  intros V A val e HR He s cs v x0 y0 l k0 ks uc s' S Hcs Hv Hl Hlen H0 Hf W0 K (Hn & Hden & Hu).
  pose proof (shipped_fresh V A s S) as Fr. pose proof S as (S1 & S2 & S3 & S4 & S5 & S6).
  destruct (quiet_session s cs Fr S6 Hcs) as (_ & _ & _ & _ & D'). 
  assert (W : forall x y k, of_kind x y -> worth s' x y k -> near val e (N.to_nat 37801) k (size x / size y)).
  { intros x y k (kd & Hk & Lx & Ly & Hx & Hy) (u1 & Ew).
    destruct (H2 V A val e HR kd s cs (aconst 1%Q) k x y u1 S (quiet_tables _ cs Hcs) Hv Hx Hy Hk Lx Ly Ew) as (n & r & Hn' & F & E).
    destruct (rd_literal val e HR 1%Q) as (f1 & F1 & E1). exists (1 + n)%nat, (f1 * r). split; [lia|].
    split; [exact (factor_mul e (rd_error val e HR) _ _ _ _ F1 F)|]. rewrite E, E1. change (Q2Qc 1) with 1. field. apply Hs. }
  assert (K2 : Forall2 (fun m k => near val e (2 + N.to_nat 37801) k (gain size m)) l ks).
  { clear - W Hf HR Hs K. induction K as [|m k l ks (U1 & U2 & U3 & U4) K IH]; [constructor|]. inversion Hf as [|? ? Hm Hf']; subst. constructor; [|exact (IH Hf')].
    unfold gain. destruct (f_div m) eqn:Em.
    - assert (Nz : size (f_from m) / size (f_to m) <> 0).
      { intros Z. apply (Hs (f_from m)). transitivity (size (f_from m) / size (f_to m) * size (f_to m)); [field; apply Hs|rewrite Z; ring]. }
      destruct U4 as (k' & U4 & U5). destruct (near_inv val e HR _ _ _ (W _ _ _ Hm U4) Nz) as (z & Ez & Nz'). rewrite U5 in Ez. injection Ez as <-.
      replace (size (f_to m) / size (f_from m)) with (/ (size (f_from m) / size (f_to m))) by (field; split; apply Hs). exact Nz'.
    - destruct (W _ _ _ Hm U4) as (i & r & Hi & F & E). exists i, r. split; [lia|]. split; assumption. }
  destruct (of_kind_quiet _ _ H0) as (Q1 & Q2 & _ & Q4).
  assert (Hden' : density_case (s_dict s) (source x0 l) (target y0 l) = false) by (rewrite <- D'; exact Hden).
  pose proof (C26_factor_by_factor V A s cs v x0 y0 l k0 ks uc Fr S6 Hcs Hl Q1 Q2 ltac:(rewrite S2; exact Q4) W0 K Hn Hden' Hu) as C.
  exists (amul v (fold_left amul ks k0)). split; [exact C|].
  destruct (near_fold val e HR size _ l ks k0 _ _ (W _ _ _ H0 W0) K2) as (n & r & Hn' & F & E).
  destruct (rd_mul val e HR v (fold_left amul ks k0)) as (f & Ff & Ef).
  assert (E2 : val (amul v (fold_left amul ks k0)) = val v * measured size f_from x0 l / measured size f_to y0 l * (f * r)).
  { rewrite Ef, E, (total_gain size Hs l x0 y0). unfold Qcdiv. ring. }
  rewrite E2. set (m := (1 + length l)%nat) in *. assert (Hn2 : (N.of_nat (1 + n) <= 37804 * N.of_nat m)%N) by (clear - Hn'; unfold m; lia).
  set (d := Q2Qc (inject_Z (Z.of_nat m) * (5 # 1000000000000))).
  replace (parts_e11 m) with (d + d).
  - apply (part_of e (rd_error val e HR) (1 + n) _ (f * r) d (factor_mul e (rd_error val e HR) _ _ _ _ Ff F) (parts_bound (1 + n) m e (proj1 (rd_error val e HR)) He Hn2)).
    unfold d, Qcle. rewrite plus_this, (Qred_correct (inject_Z (Z.of_nat m) * (5 # 1000000000000))). change (this 1) with 1%Q.
    assert (P : (inject_Z (Z.of_nat m) <= inject_Z (10 ^ 11))%Q) by (rewrite <- Zle_Qle; unfold m; lia).
    change (inject_Z (10 ^ 11)) with (100000000000 # 1)%Q in P. set (x := inject_Z (Z.of_nat m)) in *. clearbody x. lra.
  - unfold d, parts_e11. apply Qc_is_canon. rewrite plus_this, (Qred_correct (inject_Z (Z.of_nat m) * (5 # 1000000000000))), (Qred_correct (inject_Z (Z.of_nat m) * (1 # 100000000000))). ring.
Qed.
Print Assumptions C80_composite_given_partial.
(** the same example: its factors are converted *)
Example C80_composite_given_example : exists k0 ks, worth (A:=rounded_arith) rounded_start (u "mile") (u "m") k0
  /\ Forall2 (factor_worth (A:=rounded_arith) rounded_start) demo_speed_of ks
  /\ of_kind (u "mile") (u "m") /\ Forall (fun m => of_kind (f_from m) (f_to m)) demo_speed_of
  /\ unremembered rounded_start (source (u "mile") demo_speed_of) (target (u "m") demo_speed_of) None.
Proof.
  assert (Y : forall x y, alike x y -> of_kind x y) by (intros x y (k & K1 & _ & K2); exists k; split; assumption).
  destruct demo_alike as [A0 Al].
  destruct (shipped_round 1 ltac:(discriminate)) as (size & Hs & _ & _ & H2).
  pose proof rounded_start_session as S. pose proof C80_example_rounding as HR.
  assert (W : forall x y, alike x y -> exists k, worth (A:=rounded_arith) rounded_start x y k /\ k <> 0).
  { intros x y (k & Hk & Hw & Lx & Ly & Hx & Hy).
    destruct (C80_returned_partial Qc rounded_arith (fun x => x) float_error HR k rounded_start [] (@aconst Qc rounded_arith 1%Q) x y None S rounded_start_searches (Forall_nil _)
      (fun z E => False_ind _ (rounded_start_fvf z E)) Hx Hy Hk Hw Lx Ly) as (w & Ew). exists w. split; [exists None; exact Ew|].
    destruct (H2 Qc rounded_arith (fun x => x) float_error HR k rounded_start [] (@aconst Qc rounded_arith 1%Q) w x y None S (Forall_nil _) (fun z E => False_ind _ (rounded_start_fvf z E)) Hx Hy Hk Lx Ly Ew) as (n & r & _ & F & E).
    destruct (rd_literal _ _ HR 1%Q) as (f1 & F1 & E1).
    apply (near_nz (fun x => x) float_error HR (1 + n) w (size x / size y)).
    - exists (1 + n)%nat, (f1 * r). split; [lia|]. split; [exact (factor_mul float_error (rd_error _ _ HR) _ _ _ _ F1 F)|].
      rewrite E, E1. change (Q2Qc 1) with 1. field. apply Hs.
    - intros Z. apply (Hs x). transitivity (size x / size y * size y); [field; apply Hs|rewrite Z; ring]. }
  destruct (W _ _ A0) as (k0 & W0 & _).
  assert (K : exists ks, Forall2 (factor_worth (A:=rounded_arith) rounded_start) demo_speed_of ks).
  { clear - W Al HR S. induction Al as [|m l Hm Al IH]; [exists []; constructor|]. destruct IH as (ks & K). destruct (W _ _ Hm) as (k & Wk & Nk).
    destruct (alike_quiet _ _ Hm) as (Q1 & Q2 & _ & Q4). rewrite <- (proj1 (proj2 S)) in Q4.
    assert (E : exists z, factor_worth (A:=rounded_arith) rounded_start m z).
    { unfold factor_worth. destruct (f_div m).
      - destruct (rd_div _ _ HR (@aconst Qc rounded_arith 1%Q) k Nk) as (z & f & Ez & _). exists z. split; [exact Q1|]. split; [exact Q2|]. split; [exact Q4|]. exists k. split; [exact Wk|exact Ez].
      - exists k. split; [exact Q1|]. split; [exact Q2|]. split; [exact Q4|exact Wk]. }
    destruct E as (z & E). exists (z :: ks). constructor; assumption. }
  destruct K as (ks & K). exists k0, ks. split; [exact W0|]. split; [exact K|]. split; [exact (Y _ _ A0)|]. split; [exact (Forall_impl _ (fun m => Y (f_from m) (f_to m)) Al)|].
  exact (demo_unremembered Qc rounded_start S).
Qed.
