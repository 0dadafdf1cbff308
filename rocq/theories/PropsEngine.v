(** * Properties C18–C25, C30, C46–C48: conversions and histories *)
From Coq Require Import String QArith Qcanon.
From Verif Require Import Py StrTools Network SearchSpec NetworkFacts Search SearchFacts SearchFacts2 DescFacts
  Hybrid HybridFacts Conv NetFacts2 Converter EngineSpec EngineFacts EngineFacts2 EngineFacts3 EngineFacts4 EngineFacts5 EngineFacts6
  ConsistSpec ConsistFacts CleanFacts Affine Demo EngineFacts7.
Local Open Scope N_scope.

(** ** C18: a unit into itself *)
(** for a simple unit (known or not), after any history in which the recursion
    limit is never set below 1 *)
Theorem C18_identity_partial : forall V (A : Arith V) (s : st V) cs v x uc,
  fresh_session s -> par_enough (s_par s) -> Forall call_enough cs ->
  unit_name x -> density_case (s_dict s) x x = false ->
  fst (convert (VNum v) (UStr x) (UStr x) uc (do_calls cs s)) = Ok (Some (CVal v)).
Proof. intros. now apply convert_same. Qed.
Print Assumptions C18_identity_partial.

(** for every string, composite or not, in every state, with use_cache=False *)
Theorem C18_identity_without_cache_partial : forall V (A : Arith V) (s : st V) v x,
  par_enough (s_par s) -> density_case (s_dict s) x x = false ->
  fst (convert_clean (Some v) x x (Some false) s) = Ok (Some (CVal v)).
Proof. intros. apply convert_clean_same; [now apply enough_par|assumption]. Qed.
Print Assumptions C18_identity_without_cache_partial.

(** false in general: one conversion made while the recursion limit is 0
    breaks m -> m for the rest of the session *)
Theorem C18_recursion_limit_refuted :
  exists (s : st Qc) cs, fresh_session s /\ par_enough (s_par s) /\
    s_par (do_calls cs s) = s_par s /\
    ask 7 "m" "m" s = Ok (Some (CVal (Q2Qc 7))) /\ ask 7 "m" "m" (do_calls cs s) = Ok None.
Proof.
  exists demo, [KSetPar (with_limit (s_par demo) 0); conv_of 1 "m" "m"; KSetPar (s_par demo)].
  split; [apply demo_fresh|]. split; [apply demo_enough|]. split; [vm_compute; reflexivity|].
  split; [apply is_val_eq; vm_compute; reflexivity|vm_compute; reflexivity].
Qed.
Print Assumptions C18_recursion_limit_refuted.

Example C18_example : fresh_session demo /\ par_enough (s_par demo) /\ unit_name (u "day of year")
  /\ density_case (s_dict demo) (u "day of year") (u "day of year") = false
  /\ Forall call_enough [KSetPar (with_limit (s_par demo) 3); conv_of 1 "m" "nothing"].
Proof.
  split; [apply demo_fresh|]. split; [apply demo_enough|]. split; [apply unit_check; reflexivity|]. split; [reflexivity|].
  constructor; [split; cbn; lia|]. constructor; [exact I|constructor].
Qed.

(** ** C19: convert(None, a, b) is the conversion function *)
Theorem C19_function_and_value : forall V (A : Arith V) (s s' : st V) v f t uc h,
  convert VNone f t uc s = (Ok (Some (CFn h)), s') ->
  fst (convert (VNum v) f t uc s) = rbind (feval (fv_of s) h v) (fun w => Ok (Some (CVal w))).
Proof.
  intros V A s s' v f t uc h H. pose proof (convert_fn_value v f t uc s h s' H) as K.
  pose proof (convert_Pub VNone f t uc s) as (Hf & _). rewrite H in Hf. cbn [snd] in Hf. rewrite (fv_frame _ _ Hf) in K.
  destruct (feval (fv_of s) h v) as [w|e]; cbn [rbind]; [now rewrite K|exact K].
Qed.
Print Assumptions C19_function_and_value.
Example C19_example : exists h s', convert VNone (UStr (u "km/min")) (UStr (u "m/s")) None demo = (Ok (Some (CFn h)), s')
  /\ fst (convert (num 6) (UStr (u "km/min")) (UStr (u "m/s")) None demo) = Ok (Some (CVal (Q2Qc 100))).
Proof. eexists. eexists. split; [vm_compute; reflexivity|]. apply is_val_eq. vm_compute. reflexivity. Qed.

(** ** C20: what a conversion may change *)
Theorem C20_conversions_change_nothing_else : forall V (A : Arith V) (s s' : st V),
  (exists v f t uc, s' = snd (convert v f t uc s)) \/ (exists f t uc, s' = snd (convertible f t uc s))
  \/ (exists v f t uc, s' = snd (convert_for_SimPandas v f t uc s)) ->
  (* the units, the conversions, the formation volume factor, the dictionaries *)
  s_net s' = s_net s /\ fv_of s' = fv_of s /\ s_dict s' = s_dict s
  (* the limits, the algorithm, the switches *)
  /\ p_max_rec (s_par s') = p_max_rec (s_par s) /\ p_max_gen (s_par s') = p_max_gen (s_par s)
  /\ p_algo (s_par s') = p_algo (s_par s) /\ p_cache (s_par s') = p_cache (s_par s)
  /\ p_raise (s_par s') = p_raise (s_par s) /\ p_redpar (s_par s') = p_redpar (s_par s)
  /\ p_parallel (s_par s') = p_parallel (s_par s)
  (* the density, unless it was not set and the user has been asked for it *)
  /\ (p_density (s_par s') = p_density (s_par s)
      \/ (p_density (s_par s) = None /\ exists d, s_ask_density s = Ok d /\ p_density (s_par s') = Some d))
  (* nothing remembered is forgotten *)
  /\ (forall k, mget k (s_mem s) <> None -> mget k (s_mem s') <> None).
Proof.
  intros V A s s' H. assert (K : Pub s s').
  { destruct H as [(v & f & t & uc & ->)|[(f & t & uc & ->)|(v & f & t & uc & ->)]];
    [apply convert_Pub|apply convertible_Pub|apply simpandas_Pub]. }
  destruct K as (Hf & Hd & _ & Hk). pose proof (frame_fields _ _ Hf) as (N1 & _ & _ & _ & P & D & _).
  apply no_density_fields in P as (P1 & P2 & P3 & P4 & P5 & P6 & P7 & _). rewrite (fv_frame _ _ Hf). repeat split; auto.
Qed.
Print Assumptions C20_conversions_change_nothing_else.
Example C20_example : (* a conversion does fill the memory and the density *)
  let s' := snd (convert (num 1) (UStr (u "m3")) (UStr (u "kg")) None demo) in
  s_mem demo = [] /\ s_mem s' <> [] /\ p_density (s_par demo) = None /\ p_density (s_par s') <> None.
Proof. vm_compute. repeat split; discriminate. Qed.

(** ** C21: a failed conversion is reported as configured *)
(** whatever is converted, in any state: None is returned only if errors are off *)
Theorem C21_none_only_without_raise : forall V (A : Arith V) (s : st V) v f t uc,
  fst (convert v f t uc s) = Ok None -> p_raise (s_par s) = false.
Proof.
  intros V A s v f t uc H. unfold convert, bind, get, lift in H. destruct (clean_input _ v f t) as [[[w a] b]|]; [|discriminate].
  rewrite convert_clean_eq in H. pose proof (convert_clean_Pub w a b uc s) as (Hf & _). rewrite convert_clean_eq in Hf. unfold bind in *.
  destruct (convert_step w a b uc (set_prev s [])) as [[[[c p]|]|e] s1]; cbn [finish_conv] in *; try discriminate.
  rewrite bind_get in *. apply frame_fields in Hf as (_ & _ & _ & _ & P & _). apply no_density_fields in P as (_ & _ & _ & _ & P & _).
  destruct (p_raise (s_par s1)) eqn:E; [discriminate|]. cbn [snd ret] in P. congruence.
Qed.
Print Assumptions C21_none_only_without_raise.

(** simple units that no chain of conversions connects: reported as configured,
    by each of the three sequential algorithms, after any quiet history *)
Theorem C21_unconnected_reported : forall V (A : Arith V) (s : st V) cs v f t uc,
  fresh_session s -> wf_net (s_net s) -> par_enough (s_par s) -> sequential (p_algo (s_par s)) ->
  Forall (quiet (search_settings (s_par s))) cs ->
  unit_name f -> unit_name t -> plain_pair (s_dict s) f t -> ~ connected s f t ->
  fst (convert (VNum v) (UStr f) (UStr t) uc (do_calls cs s))
  = if p_raise (s_par (do_calls cs s)) then Err NoConversionFoundError else Ok None.
Proof.
  intros V A s cs v f t uc F W E Ha Hq Hf Ht Hp Hc. destruct (quiet_session s cs F E Hq) as (S & En & Q & N & D).
  rewrite convert_settled; try assumption; [|rewrite D; apply Hp].
  rewrite (unconnected_answer (do_calls cs s) f t); [reflexivity|now rewrite N| | |].
  - unfold search_settings in Q. injection Q as -> _. exact Ha.
  - rewrite D. apply plain_quick; [exact Hp|apply Ht].
  - unfold connected. rewrite N. exact Hc.
Qed.
Print Assumptions C21_unconnected_reported.

(** ... and connected ones are converted by BFS, through the conversions
    registered along a path; with lean_BFS see C24 *)
Theorem C21_connected_converted : forall V (A : Arith V) (s : st V) cs v f t uc,
  fresh_session s -> wf_net (s_net s) -> par_enough (s_par s) -> p_algo (s_par s) = u "BFS" ->
  Forall (quiet (search_settings (s_par s))) cs ->
  unit_name f -> unit_name t -> plain_pair (s_dict s) f t -> connected s f t ->
  exists h, path_function (s_net s) f t h /\
    fst (convert (VNum v) (UStr f) (UStr t) uc (do_calls cs s))
    = rbind (feval (fv_of (do_calls cs s)) h v) (fun w => Ok (Some (CVal w))).
Proof.
  intros V A s cs v f t uc F W E Ha Hq Hf Ht Hp Hc. destruct (quiet_session s cs F E Hq) as (S & En & Q & N & D).
  rewrite convert_settled; try assumption; [|rewrite D; apply Hp].
  assert (Hb : exists h, bare_answer (do_calls cs s) f t = Ok (Some h) /\ path_function (s_net (do_calls cs s)) f t h).
  { apply bfs_answer; [now rewrite N| | |].
    - unfold search_settings in Q. injection Q as -> _. exact Ha.
    - rewrite D. apply plain_quick; [exact Hp|apply Ht].
    - unfold connected. rewrite N. exact Hc. }
  destruct Hb as (h & Eh & Ph). rewrite N in Ph. exists h. split; [exact Ph|]. rewrite Eh. cbn [val_result].
  destruct (feval _ h v); reflexivity.
Qed.
Print Assumptions C21_connected_converted.

(** never a number out of nothing: after any history at all, with any
    algorithm, a number comes from a special rule or from registered conversions *)
Theorem C21_number_has_a_reason : forall V (A : Arith V) (s : st V) cs v w f t uc,
  fresh_session s -> par_enough (s_par s) -> Forall call_enough cs ->
  unit_name f -> unit_name t -> plain_pair (s_dict s) f t ->
  fst (convert (VNum v) (UStr f) (UStr t) uc (do_calls cs s)) = Ok (Some (CVal w)) ->
  exists h, path_function (s_net (do_calls cs s)) f t h /\ feval (fv_of (do_calls cs s)) h v = Ok w.
Proof.
  intros V A s cs v w f t uc F E C Hf Ht Hp H. destruct (session s cs F E C) as (G & En & N & D).
  rewrite convert_value in H; try assumption; [|rewrite D; apply Hp].
  destruct (simple_answer (do_calls cs s) uc f t) as [[h|]|e] eqn:Es; cbn [val_result finish_result] in H.
  - destruct (feval (fv_of (do_calls cs s)) h v) as [w'|] eqn:Ew; cbn in H; [|discriminate]. injection H as ->.
    exists h. split; [|exact Ew]. apply simple_answer_explained in Es; [|exact G|apply Hf|apply Ht].
    destruct Es as [Es|Es]; [|exact Es]. rewrite D, plain_quick in Es; [discriminate|exact Hp|apply Ht].
  - destruct (p_raise _); discriminate.
  - discriminate.
Qed.
Print Assumptions C21_number_has_a_reason.

(** other exceptions escape: an unknown unit against a ratio, and two ratios
    without common relatives *)
Theorem C21_other_exceptions_refuted : exists (s : st Qc), fresh_session s /\ p_raise (s_par s) = false /\
  ask 1 "nonsense" "m/s" s = Err NameError /\ ask 1 "m/s" "nonsense" s = Err NameError
  /\ ask 1 "kg/s" "m/g" s = Err ValueError.
Proof. exists demo. split; [apply demo_fresh|]. split; [reflexivity|]. vm_compute. repeat split. Qed.
Print Assumptions C21_other_exceptions_refuted.

Lemma demo_unconnected : ~ connected demo (u "km") (u "s").
Proof.
  intros H. pose proof (bfs_answer demo (u "km") (u "s") demo_wf eq_refl eq_refl) as [K _].
  destruct (K H) as (h & E & _). vm_compute in E. discriminate E.
Qed.
Lemma plain_check (d : dicts) f t : negb (seqb f t) && negb (smem f (d_date d)) && negb (smem (lower f) (d_dimless d)) && negb (smem (lower f) (d_percent d))
  && negb (density_case d f t) = true -> plain_pair d f t.
Proof.
  rewrite !andb_true_iff, !negb_true_iff. intros ((((H1 & H2) & H3) & H4) & H5). unfold plain_pair. rewrite <- !smem_In, H3, H4, H2.
  split; [intros ->; rewrite seqb_refl in H1; discriminate|]. repeat split; try easy.
Qed.
Example C21_example : fresh_session demo /\ wf_net (s_net demo) /\ unit_name (u "km") /\ unit_name (u "s")
  /\ plain_pair (s_dict demo) (u "km") (u "s") /\ ~ connected demo (u "km") (u "s")
  /\ plain_pair (s_dict demo) (u "km") (u "cm") /\ ask 3 "km" "cm" demo = Ok (Some (CVal (Q2Qc 300000))).
Proof.
  split; [apply demo_fresh|]. split; [apply demo_wf|]. split; [apply unit_check; reflexivity|]. split; [apply unit_check; reflexivity|].
  split; [apply plain_check; vm_compute; reflexivity|]. split; [apply demo_unconnected|].
  split; [apply plain_check; vm_compute; reflexivity|]. apply is_val_eq. vm_compute. reflexivity.
Qed.

(** ** C22, C23, C24: values in a network that agrees with a scale *)
(** the value: after any history, with any algorithm, cache and limits *)
Lemma value_of s cs v w f t uc m : fresh_session s -> par_enough (s_par s) -> Forall call_enough cs ->
  agrees (fv_of (do_calls cs s)) m (s_net (do_calls cs s)) ->
  unit_name f -> unit_name t -> ordinary (s_dict s) f -> density_case (s_dict s) f t = false ->
  fst (convert (VNum v) (UStr f) (UStr t) uc (do_calls cs s)) = Ok (Some (CVal w)) -> w = rescale m f t v.
Proof.
  intros F E C Hm Hf Ht Ho Hd H. destruct (session s cs F E C) as (G & En & N & D).
  rewrite convert_value in H; try assumption; [|now rewrite D].
  destruct (simple_answer (do_calls cs s) uc f t) as [[h|]|e] eqn:Es; cbn [val_result finish_result] in H.
  - rewrite <- D in Ho. rewrite (simple_value m (do_calls cs s) uc f t h v G Hm) in H; [|apply Hf|apply Ht|exact Ho|exact Es]. cbn in H. congruence.
  - destruct (p_raise _); discriminate.
  - discriminate.
Qed.
Lemma do_calls_app {V} {A : Arith V} cs ds (s : st V) : do_calls (cs ++ ds) s = do_calls ds (do_calls cs s).
Proof. apply fold_left_app. Qed.

(** the scale: every unit has the quantity it stands for, and a conversion keeps it *)
Theorem C23_conversion_keeps_the_quantity : forall s cs v w f t uc m,
  fresh_session s -> par_enough (s_par s) -> Forall call_enough cs ->
  agrees (fv_of (do_calls cs s)) m (s_net (do_calls cs s)) ->
  unit_name f -> unit_name t -> ordinary (s_dict s) f -> density_case (s_dict s) f t = false ->
  fst (convert (VNum v) (UStr f) (UStr t) uc (do_calls cs s)) = Ok (Some (CVal w)) ->
  quantity m t w = quantity m f v.
Proof.
  intros s cs v w f t uc m F E C Hm Hf Ht Ho Hd H. rewrite (value_of s cs v w f t uc m) by assumption.
  apply rescale_quantity, Hm.
Qed.
Print Assumptions C23_conversion_keeps_the_quantity.

(** there and back, with any calls in between that keep the network consistent *)
Theorem C22_round_trip : forall s cs ds v w x f t uc uc' m,
  let s1 := do_calls cs s in let s2 := do_calls ds s1 in
  fresh_session s -> par_enough (s_par s) -> Forall call_enough cs -> Forall call_enough ds ->
  agrees (fv_of s1) m (s_net s1) -> agrees (fv_of s2) m (s_net s2) ->
  unit_name f -> unit_name t -> ordinary (s_dict s) f -> ordinary (s_dict s) t -> density_case (s_dict s) f t = false ->
  fst (convert (VNum v) (UStr f) (UStr t) uc s1) = Ok (Some (CVal w)) ->
  fst (convert (VNum w) (UStr t) (UStr f) uc' s2) = Ok (Some (CVal x)) ->
  x = v.
Proof.
  intros s cs ds v w x f t uc uc' m s1 s2 F E C C' A1 A2 Hf Ht Of Ot Hd H1 H2.
  assert (Hd' : density_case (s_dict s) t f = false).
  { rewrite <- Hd. unfold density_case. rewrite (andb_comm (negb (smem t _))), (orb_comm (_ && _)). reflexivity. }
  assert (E1 : w = rescale m f t v) by exact (value_of s cs v w f t uc m F E C A1 Hf Ht Of Hd H1).
  assert (E2 : x = rescale m t f w).
  { subst s2 s1. rewrite <- do_calls_app in *.
    exact (value_of s (cs ++ ds) w x t f uc' m F E (proj2 (Forall_app _ _ _) (conj C C')) A2 Ht Hf Ot Hd' H2). }
  subst x w. rewrite rescale_trans by apply A1. apply rescale_id, A1.
Qed.
Print Assumptions C22_round_trip.

Theorem C23_intermediate_unit : forall s cs1 cs2 cs3 v w x y f t z uc1 uc2 uc3 m,
  let s1 := do_calls cs1 s in let s2 := do_calls cs2 s in let s3 := do_calls cs3 s in
  fresh_session s -> par_enough (s_par s) -> Forall call_enough cs1 -> Forall call_enough cs2 -> Forall call_enough cs3 ->
  agrees (fv_of s1) m (s_net s1) -> agrees (fv_of s2) m (s_net s2) -> agrees (fv_of s3) m (s_net s3) ->
  unit_name f -> unit_name t -> unit_name z -> ordinary (s_dict s) f -> ordinary (s_dict s) t ->
  density_case (s_dict s) f t = false -> density_case (s_dict s) t z = false -> density_case (s_dict s) f z = false ->
  fst (convert (VNum v) (UStr f) (UStr t) uc1 s1) = Ok (Some (CVal w)) ->
  fst (convert (VNum w) (UStr t) (UStr z) uc2 s2) = Ok (Some (CVal x)) ->
  fst (convert (VNum v) (UStr f) (UStr z) uc3 s3) = Ok (Some (CVal y)) ->
  x = y.
Proof.
  intros s cs1 cs2 cs3 v w x y f t z uc1 uc2 uc3 m s1 s2 s3 F E C1 C2 C3 A1 A2 A3 Hf Ht Hz Of Ot D1 D2 D3 H1 H2 H3.
  assert (E1 : w = rescale m f t v) by exact (value_of s cs1 v w f t uc1 m F E C1 A1 Hf Ht Of D1 H1).
  assert (E2 : x = rescale m t z w) by exact (value_of s cs2 w x t z uc2 m F E C2 A2 Ht Hz Ot D2 H2).
  assert (E3 : y = rescale m f z v) by exact (value_of s cs3 v y f z uc3 m F E C3 A3 Hf Hz Of D3 H3).
  subst. apply rescale_trans; apply A1.
Qed.
Print Assumptions C23_intermediate_unit.

(** whatever algorithm, generations, cache and threads were selected by the two histories *)
Theorem C24_same_value_whatever_the_algorithm : forall s cs1 cs2 v w1 w2 f t uc1 uc2 m,
  let s1 := do_calls cs1 s in let s2 := do_calls cs2 s in
  fresh_session s -> par_enough (s_par s) -> Forall call_enough cs1 -> Forall call_enough cs2 ->
  agrees (fv_of s1) m (s_net s1) -> agrees (fv_of s2) m (s_net s2) ->
  unit_name f -> unit_name t -> ordinary (s_dict s) f -> density_case (s_dict s) f t = false ->
  fst (convert (VNum v) (UStr f) (UStr t) uc1 s1) = Ok (Some (CVal w1)) ->
  fst (convert (VNum v) (UStr f) (UStr t) uc2 s2) = Ok (Some (CVal w2)) ->
  w1 = w2.
Proof.
  intros s cs1 cs2 v w1 w2 f t uc1 uc2 m s1 s2 F E C1 C2 A1 A2 Hf Ht Of Hd H1 H2.
  assert (E1 : w1 = rescale m f t v) by exact (value_of s cs1 v w1 f t uc1 m F E C1 A1 Hf Ht Of Hd H1).
  assert (E2 : w2 = rescale m f t v) by exact (value_of s cs2 v w2 f t uc2 m F E C2 A2 Hf Ht Of Hd H2). congruence.
Qed.
Print Assumptions C24_same_value_whatever_the_algorithm.

(** and on a consistent symmetric network the default algorithm does give a
    value whenever the units are connected within its generations *)
Theorem C24_lean_BFS_gives_a_value : forall s cs v f t uc m a b p,
  fresh_session s -> s_es s = None -> wf_net (s_net s) -> unique_names (s_net s) -> symmetric (s_net s) ->
  par_enough (s_par s) -> p_algo (s_par s) = u "lean_BFS" -> (0 <= p_max_gen (s_par s))%Z ->
  Forall converts cs -> agrees (fv_of s) m (s_net s) ->
  unit_name f -> unit_name t -> plain_pair (s_dict s) f t ->
  get_node (s_net s) f = Ok a -> get_node (s_net s) t = Ok b -> walk (registered (s_net s)) a p b ->
  (Z.of_nat (length p) <= 2 * (p_max_gen (s_par s) + 1) + 1)%Z ->
  fst (convert (VNum v) (UStr f) (UStr t) uc (do_calls cs s)) = Ok (Some (CVal (rescale m f t v))).
Proof.
  intros s cs v f t uc m a b p F Es W U Sy E Ha Hg Hc Hm Hf Ht Hp Ga Gb Wp Hl.
  destruct (quiet_session s cs F E (converts_quiet _ _ Hc)) as (S & En & _ & N & D).
  pose proof (do_calls_frame cs s Hc) as Hfr.
  rewrite convert_settled; try assumption; [|rewrite D; apply Hp].
  rewrite (finish_frame _ _ _ Hfr), (val_frame _ _ _ _ Hfr), (bare_answer_frame _ _ _ _ Hfr).
  destruct (lean_answer s f t (length p) W U Sy Ha) as (h & Eh & Ph); try assumption.
  - unfold current_es. now rewrite Es.
  - apply plain_quick; [exact Hp|apply Ht].
  - apply Hf.
  - apply Ht.
  - exists a, b, p. auto.
  - rewrite Eh. cbn [val_result]. now rewrite (path_function_agree _ _ _ _ _ _ _ Hm Ph).
Qed.
Print Assumptions C24_lean_BFS_gives_a_value.

Lemma ordinary_check d x : negb (smem x (d_date d)) && negb (smem (lower x) (d_dimless d)) && negb (smem (lower x) (d_percent d)) = true -> ordinary d x.
Proof.
  rewrite !andb_true_iff, !negb_true_iff. intros ((H1 & H2) & H3). unfold ordinary. rewrite <- !smem_In. repeat split; congruence.
Qed.
(** the hypotheses are met by the demonstration session, before and after changing the algorithm *)
Example C22_C24_example :
  let cs := [KSetPar (with_algo (s_par demo) "DFS"); conv_of 1 "cm" "km"] in
  fresh_session demo /\ par_enough (s_par demo) /\ Forall call_enough cs
  /\ agrees (fv_of demo) demo_scale (s_net demo) /\ agrees (fv_of (do_calls cs demo)) demo_scale (s_net (do_calls cs demo))
  /\ unit_name (u "celsius") /\ unit_name (u "kelvin") /\ ordinary (s_dict demo) (u "celsius")
  /\ ask 25 "celsius" "kelvin" demo = Ok (Some (CVal (Q2Qc (29815 # 100))))
  /\ ask (29815 # 100) "kelvin" "celsius" (do_calls cs demo) = Ok (Some (CVal (Q2Qc 25)))
  /\ ask 3 "km" "cm" (do_calls cs demo) = Ok (Some (CVal (Q2Qc 300000))).
Proof.
  split; [apply demo_fresh|]. split; [apply demo_enough|]. split; [constructor; [split; cbn; lia|]; constructor; [exact I|constructor]|].
  split; [apply demo_agrees|]. split.
  { assert (N : s_net (do_calls [KSetPar (with_algo (s_par demo) "DFS"); conv_of 1 "cm" "km"] demo) = s_net demo /\
      fv_of (do_calls [KSetPar (with_algo (s_par demo) "DFS"); conv_of 1 "cm" "km"] demo) = fv_of demo).
    { change (do_calls [KSetPar (with_algo (s_par demo) "DFS"); conv_of 1 "cm" "km"] demo)
        with (do_call (conv_of 1 "cm" "km") (set_par demo (with_algo (s_par demo) "DFS"))).
      pose proof (do_call_frame (conv_of 1 "cm" "km") (set_par demo (with_algo (s_par demo) "DFS")) I) as H.
      split; [apply frame_fields in H as (-> & _); reflexivity|]. now rewrite (fv_frame _ _ H). }
    destruct N as [-> ->]. apply demo_agrees. }
  split; [apply unit_check; reflexivity|]. split; [apply unit_check; reflexivity|].
  split; [apply ordinary_check; vm_compute; reflexivity|].
  repeat split; apply is_val_eq; vm_compute; reflexivity.
Qed.
Fixpoint distinct (l : list str) : bool := match l with [] => true | x :: t => negb (smem x t) && distinct t end.
Lemma distinct_NoDup l : distinct l = true -> NoDup l.
Proof.
  induction l as [|x l IH]; cbn [distinct]; [constructor|]. intros H. apply andb_true_iff in H as [H1 H2]. constructor; [|auto].
  intros K. apply smem_In in K. rewrite K in H1. discriminate.
Qed.
Example C24_lean_example : let s := demo_on demo_net "lean_BFS" in
  unique_names (s_net s) /\ symmetric (s_net s) /\ ask 3 "km" "cm" s = Ok (Some (CVal (Q2Qc 300000))).
Proof.
  split; [apply distinct_NoDup; vm_compute; reflexivity|]. split; [apply symmetric_check; vm_compute; reflexivity|].
  apply is_val_eq. vm_compute. reflexivity.
Qed.
