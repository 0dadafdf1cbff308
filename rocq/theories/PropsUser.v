(** * Units defined by the user (C78)

    A unit that the package does not know, and the conversion the user registers
    for it with [set_conversion(a, b, f)].  [Qty (u "UserUnits") a v] is
    [units(v, 'a')] (C40_new_partial).  The world [w] is any one whose engine is
    in the state after the registration and any conversions [cs]. *)
From Coq Require Import String QArith Qcanon Lia.
From Verif Require Import Py StrTools Network NetworkFacts SearchSpec Conv Converter EngineSpec EngineFacts EngineFacts2 EngineFacts4 EngineFacts5 EngineFacts6 EngineFacts7 EngineFacts8 ConsistSpec Demo OpsSpec
  Operations NumFacts KindFacts Dict Database Units UnitsSpec UnitsFacts UnitsFacts2 UnitsFacts4 UnitsFacts8 PropsEngine PropsEngine2 PropsEngine3 PropsUnits4.
Local Open Scope N_scope.
Section P.
Context {F : Floats} {P : Pow} {E : Eval}.

(** specification: [set_conversion(a, b, f)] was called in a session that had not converted yet, one of the two units being new; [w] is a later moment *)
Definition defined (s : st Qc) (a b : str) (f : Qc -> res Qc) (cs : list (call Qc)) (w : world) : Prop :=
  fresh_session s /\ wf_net (s_net s) /\ par_enough (s_par s) /\ p_algo (s_par s) = u "BFS"
  /\ unit_name a /\ unit_name b /\ plain_pair (s_dict s) a b /\ (has_node (s_net s) a = false \/ has_node (s_net s) b = false)
  /\ (exists k, f 1%Qc = Ok k) /\ Forall converts cs
  /\ exists r, w_st w = do_calls cs (do_call (KSetConversion a b f r) s).

Lemma registered_fresh (s : st Qc) a b f r : fresh_session s -> wf_net (s_net s) -> plain_pair (s_dict s) a b -> (has_node (s_net s) a = false \/ has_node (s_net s) b = false) ->
  fresh_session (do_call (KSetConversion a b f r) s) /\ s_par (do_call (KSetConversion a b f r) s) = s_par s /\ s_dict (do_call (KSetConversion a b f r) s) = s_dict s.
Proof.
  intros Fs W Hp Hn. unfold do_call, set_conversion_api. rewrite bind_get. unfold bind, lift.
  set (rc := match r with Some h => CUser h | None => CRev (CUser f) end).
  destruct (set_conversion_both (s_net s) a b (CUser f) rc W (proj1 Hp) Hn) as (g' & na & nb & Eg & W' & _).
  unfold api_set_conversion. fold rc. rewrite Eg. cbn [modify snd]. split; [|split; reflexivity].
  destruct Fs as (Sn & Me & Pr). split; [|split; [exact Me|exact Pr]]. exact (sane_set_conversion _ _ _ _ _ _ Sn Eg).
Qed.
(** what the engine answers *)
Lemma defined_convert s a b f cs w v : defined s a b f cs w ->
  fst (Converter.convert (VNum v) (UStr a) (UStr b) None (w_st w)) = rbind (f v) (fun y => Ok (Some (CVal y))) /\ fst (convertible a b None (w_st w)) = Ok true.
Proof.
  intros (Fs & W & En & Al & Ua & Ub & Hp & Hn & (k & Hk) & Hc & r & Ew). rewrite Ew.
  destruct (registered_fresh s a b f r Fs W Hp Hn) as (Fs' & Ep & Ed). pose proof Hp as (Nab & _ & _ & _ & Dc).
  assert (X : forall x, fst (Converter.convert (VNum x) (UStr a) (UStr b) None (do_calls cs (do_call (KSetConversion a b f r) s))) = rbind (f x) (fun y => Ok (Some (CVal y)))).
  { intros x. rewrite (C25_history_transparent Qc _ (do_call (KSetConversion a b f r) s) cs x a b None (Some false) Fs') by (try assumption; rewrite ?Ep, ?Ed; assumption).
    exact (C27_registered_conversion_used_partial Qc _ s [] x a b f r (Some false) Fs W En (Forall_nil _) Al Ua Ub Hp Hn (or_introl eq_refl)). }
  split; [exact (X v)|].
  rewrite (C28_convertible_agrees_with_convert Qc _ (do_call (KSetConversion a b f r) s) cs a b None None Fs'); try assumption.
  - change (aconst 1) with 1%Qc. rewrite X, Hk. reflexivity.
  - rewrite Ep. exact En.
  - apply converts_quiet. exact Hc.
  - rewrite Ed. exact Dc.
Qed.
Lemma defined_later s a b f cs w w' : defined s a b f cs w -> later w w' -> exists cs', defined s a b f cs' w'.
Proof.
  intros (Fs & W & En & Al & Ua & Ub & Hp & Hn & Hk & Hc & r & Ew) ((l & Hl & El) & _). exists (cs ++ l)%list.
  repeat (split; [assumption|]). split; [apply Forall_app; split; assumption|]. exists r. rewrite El, Ew. unfold do_calls. now rewrite fold_left_app.
Qed.
Lemma user_make v x w : strip x = x -> make (u "UserUnits") v x w = (Ok (PQ (Qty (u "UserUnits") x v)), add_user x w).
Proof. intros Sx. unfold make, wbind, construct. cbn [is_k]. change (is_k (u "UserUnits") "Unit") with false. change (is_k (u "UserUnits") "UserUnits") with true. cbv iota zeta. now rewrite Sx. Qed.
Lemma defined_steps s a b f cs w v y : defined s a b f cs w -> f v = Ok y -> exists w1 w2, convertible_ a b w = (Ok true, w1) /\ conv_opt v a b w1 = (Ok (Some y), w2) /\ later w w2.
Proof.
  intros D Hy. destruct (defined_convert s a b f cs w v D) as (_ & C1). destruct (run_quiet (convertible a b None) w _ C1 (quiet_convertible _ _ _)) as (w1 & R1 & L1).
  destruct (defined_later s a b f cs w w1 D L1) as (cs1 & D1). destruct (defined_convert s a b f cs1 w1 v D1) as (V1 & _). rewrite Hy in V1. cbn [rbind] in V1.
  destruct (conv_run v a b w1 _ V1) as (w2 & R2 & L2). exists w1, w2. split; [exact R1|]. split; [exact R2|exact (later_trans _ _ _ L1 L2)].
Qed.

(** a quantity in the user's unit is converted as the user said, at any later moment *)
Theorem C78_converted : forall s a b f cs w v y, defined s a b f cs w -> strip b = b -> f v = Ok y ->
  fst (to (Qty (u "UserUnits") a v) (Some b) w) = Ok (PQ (Qty (u "UserUnits") b y)).
Proof.
  intros s a b f cs w v y D Sb Hy. destruct (defined_steps s a b f cs w v y D Hy) as (w1 & w2 & R1 & R2 & L).
  unfold to. cbn [q_kind q_unit q_val]. change (kindless (u "UserUnits")) with false. cbv iota. rewrite (wbind_ok _ _ _ _ _ R1). cbv iota. rewrite (wbind_ok _ _ _ _ _ R2).
  change (is_k (u "UserUnits") "Unit") with false. cbv iota. pose proof (user_make y b w2 Sb) as X. unfold make in X. rewrite X. reflexivity.
Qed.
(** sums and comparisons with quantities of users' units *)
Theorem C78_sum : forall s a b f cs w v x y, defined s a b f cs w -> strip b = b -> f v = Ok y ->
  fst (add (Qty (u "UserUnits") b x) (PQ (Qty (u "UserUnits") a v)) w) = Ok (PQ (Qty (u "UserUnits") b (x + y)%Qc))
  /\ fst (sub (Qty (u "UserUnits") b x) (PQ (Qty (u "UserUnits") a v)) w) = Ok (PQ (Qty (u "UserUnits") b (x - y)%Qc)).
Proof.
  intros s a b f cs w v x y D Sb Hy. pose proof (proj1 (proj1 (proj2 (proj2 (proj2 (proj2 (proj2 (proj2 D)))))))) as Nab.
  assert (X : forall sb, fst (sum sb (Qty (u "UserUnits") b x) (PQ (Qty (u "UserUnits") a v)) w) = Ok (PQ (Qty (u "UserUnits") b (plus sb x y)))).
  { intros sb. destruct (defined_steps s a b f cs w v y D Hy) as (w1 & w2 & R1 & R2 & L). unfold sum, sum_qty. cbn [q_kind q_unit q_val]. rewrite seqb_refl.
    assert (Ne : seqb b a = false) by (apply seqb_neq; intros Z; exact (Nab (eq_sym Z))). rewrite Ne. rewrite (wbind_ok _ _ _ _ _ R1). cbv iota.
    assert (R3 : conv_num v a b w1 = (Ok y, w2)) by (unfold conv_num; rewrite (wbind_ok _ _ _ _ _ R2); reflexivity). rewrite (wbind_ok _ _ _ _ _ R3), (user_make _ b w2 Sb). reflexivity. }
  exact (conj (X false) (X true)).
Qed.
Theorem C78_compared : forall s o a b f cs w v x y, defined s a b f cs w -> strip b = b -> f v = Ok y ->
  exists r, fst (compare_ o (Qty (u "UserUnits") b x) (PQ (Qty (u "UserUnits") a v)) w) = Ok r /\ (r = true <-> stands o x y).
Proof.
  intros s o a b f cs w v x y D Sb Hy. pose proof (C78_converted s a b f cs w v y D Sb Hy) as R. unfold compare_. cbn [q_kind q_unit q_val]. rewrite seqb_refl.
  destruct (to (Qty (u "UserUnits") a v) (Some b) w) as [r w'] eqn:Er. cbn [fst] in R. subst r. rewrite (wbind_ok _ _ _ _ _ Er).
  unfold wbind, wlift, as_qty. eexists. split; [reflexivity|]. cbn [q_val]. apply holds_stands.
Qed.
(** but the converted quantity is no length, mass...: it makes a pair with them, and cannot be compared *)
Theorem C78_kind_refuted : forall s a b f cs w v y k x w' o, defined s a b f cs w -> strip b = b -> f v = Ok y -> with_dimension k -> k <> u "UserUnits" ->
  exists r, fst (to (Qty (u "UserUnits") a v) (Some b) w) = Ok (PQ r) /\ q_unit r = b /\ q_val r = y
  /\ add r (PQ (Qty k b x)) w' = (Ok (PT [PQ r; PQ (Qty k b x)]), w') /\ fst (compare_ o r (PQ (Qty k b x)) w') = Err TypeError.
Proof.
  intros s a b f cs w v y k x w' o D Sb Hy Wd Nk. exists (Qty (u "UserUnits") b y). split; [exact (C78_converted s a b f cs w v y D Sb Hy)|]. split; [reflexivity|]. split; [reflexivity|]. split.
  - apply C72_pair; cbn [q_kind]; [exact Nk|split; intros Z; discriminate Z|exact Wd].
  - unfold compare_. cbn [q_kind]. assert (Ne : seqb (u "UserUnits") k = false) by (apply seqb_neq; intros Z; exact (Nk (eq_sym Z))). rewrite Ne. reflexivity.
Qed.
(** and a quantity of a class (of the package) is never expressed in the user's unit b, although its unit a is convertible to it *)
Theorem C78_back_refuted : forall s a b f cs w k v y, defined s a b f cs w -> f v = Ok y -> In k classes -> with_dimension k -> ~ In b (class_units k w) ->
  fst (to (Qty k a v) (Some b) w) = Err WrongUnitsError.
Proof.
  intros s a b f cs w k v y D Hy Hk Wd Nb. destruct (defined_steps s a b f cs w v y D Hy) as (w1 & w2 & R1 & R2 & (_ & Lk & _)). destruct (class_parts k Hk) as (C1 & C2 & C3 & C4).
  unfold to. cbn [q_kind q_unit q_val]. rewrite (with_dimension_b k Wd), (wbind_ok _ _ _ _ _ R1). cbv iota. rewrite (wbind_ok _ _ _ _ _ R2), C2.
  assert (N : smem b (class_units k w2) = false).
  { destruct (smem b (class_units k w2)) eqn:Z; [|reflexivity]. exfalso. apply Nb. apply smem_In in Z. unfold class_units in *. now rewrite (but_users_get _ _ k Lk C3) in Z. }
  unfold wbind, construct. rewrite C1, C2, C3, C4, N. reflexivity.
Qed.

(** The hypotheses are met: smoots, after converting kilometres *)
Example user_example :
  let f := fun x : Qc => Ok (x * Q2Qc (17018 # 10000))%Qc in let cs := [conv_of 1 "km" "cm"] in
  let w := World (do_calls cs (do_call (KSetConversion (u "smoot") (u "m") f None) demo)) [(u "Length", [u "m"; u "km"]); (u "UserUnits", [])] [u "m"; u "km"] in
  let f' := fun x : Qc => Ok (x / Q2Qc (17018 # 10000))%Qc in
  let w' := World (do_calls cs (do_call (KSetConversion (u "m") (u "smoot") f' None) demo)) [(u "Length", [u "m"; u "km"]); (u "UserUnits", [])] [u "m"; u "km"] in
  defined demo (u "smoot") (u "m") f cs w
  /\ fst (to (Qty (u "UserUnits") (u "smoot") (Q2Qc 10000)) (Some (u "m")) w) = Ok (PQ (Qty (u "UserUnits") (u "m") (Q2Qc 17018)))
  /\ fst (add (Qty (u "UserUnits") (u "m") (Q2Qc 2)) (PQ (Qty (u "UserUnits") (u "smoot") (Q2Qc 10000))) w) = Ok (PQ (Qty (u "UserUnits") (u "m") (Q2Qc 17020)))
  /\ fst (to (Qty (u "Length") (u "m") (Q2Qc 3)) (Some (u "smoot")) w') = Err WrongUnitsError.
Proof.
  intros f cs w f' w'.
  assert (Hs : forall x, In x [u "smoot"; u "m"] -> unit_name x) by (intros x [<-|[<-|[]]]; apply unit_check; reflexivity).
  assert (D : defined demo (u "smoot") (u "m") f cs w).
  { split; [exact (demo_fresh "BFS")|]. split; [exact demo_wf|]. split; [exact (demo_enough "BFS")|]. split; [reflexivity|].
    split; [apply Hs; left; reflexivity|]. split; [apply Hs; right; left; reflexivity|].
    split; [apply plain_check; vm_compute; reflexivity|]. split; [left; vm_compute; reflexivity|].
    split; [eexists; reflexivity|]. split; [constructor; [exact I|constructor]|]. exists None. reflexivity. }
  assert (D' : defined demo (u "m") (u "smoot") f' cs w').
  { split; [exact (demo_fresh "BFS")|]. split; [exact demo_wf|]. split; [exact (demo_enough "BFS")|]. split; [reflexivity|].
    split; [apply Hs; right; left; reflexivity|]. split; [apply Hs; left; reflexivity|].
    split; [apply plain_check; vm_compute; reflexivity|]. split; [right; vm_compute; reflexivity|].
    split; [eexists; reflexivity|]. split; [constructor; [exact I|constructor]|]. exists None. reflexivity. }
  assert (Y : f (Q2Qc 10000) = Ok (Q2Qc 17018)) by (unfold f; apply (f_equal (@Ok Qc)); apply Qc_is_canon; vm_compute; reflexivity).
  split; [exact D|]. split; [exact (C78_converted _ _ _ _ _ _ _ _ D eq_refl Y)|]. split.
  - rewrite (proj1 (C78_sum demo (u "smoot") (u "m") f cs w (Q2Qc 10000) (Q2Qc 2) (Q2Qc 17018) D eq_refl Y)). apply (f_equal (@Ok pv)). apply (f_equal PQ). apply (f_equal (Qty _ _)). apply Qc_is_canon. vm_compute. reflexivity.
  - apply (C78_back_refuted demo (u "m") (u "smoot") f' cs w' (u "Length") (Q2Qc 3) _ D' eq_refl).
    + apply smem_In. vm_compute. reflexivity.
    + split; intros Z; discriminate Z.
    + intros Z. apply smem_In in Z. vm_compute in Z. discriminate Z.
Qed.
End P.
Print Assumptions C78_converted.
Print Assumptions C78_sum.
Print Assumptions C78_compared.
Print Assumptions C78_kind_refuted.
Print Assumptions C78_back_refuted.
