(** * Properties C25, C28, C30, C46–C48, C51: memory, special rules, input *)
From Coq Require Import String QArith Qcanon.
From Verif Require Import Py StrTools Network SearchSpec NetworkFacts Search SearchFacts SearchFacts2 DescFacts
  Hybrid HybridFacts Conv ConvFacts NetFacts2 Converter EngineSpec EngineFacts EngineFacts2 EngineFacts3 EngineFacts4 EngineFacts5 EngineFacts6
  ConsistSpec ConsistFacts CleanFacts Affine Demo EngineFacts7 PropsEngine.
Local Open Scope N_scope.

(** ** C25: the memory is transparent for simple units *)
(** after any quiet history: remembering, not remembering for this call, and
    having just forgotten everything give the same answer (any arithmetic) *)
Theorem C25_memory_transparent : forall V (A : Arith V) (s : st V) cs v f t uc uc',
  fresh_session s -> par_enough (s_par s) -> Forall (quiet (search_settings (s_par s))) cs ->
  unit_name f -> unit_name t -> density_case (s_dict s) f t = false ->
  fst (convert (VNum v) (UStr f) (UStr t) uc (do_calls cs s))
  = fst (convert (VNum v) (UStr f) (UStr t) uc' (do_call KCleanMemory (do_calls cs s))).
Proof.
  intros V A s cs v f t uc uc' F E Hq Hf Ht Hd. destruct (quiet_session s cs F E Hq) as (S & En & Q & N & D).
  assert (S' : settled (do_call KCleanMemory (do_calls cs s))) by (eapply do_call_settled; [exact S|exact En|exact I]).
  assert (Fr : frame (do_call KCleanMemory (do_calls cs s)) = frame (do_calls cs s)) by reflexivity.
  rewrite !convert_settled; try assumption; try (rewrite D; assumption).
  - now rewrite (finish_frame _ _ _ Fr), (val_frame _ _ _ _ Fr), (bare_answer_frame _ _ _ _ Fr).
  - change (s_dict (do_call KCleanMemory (do_calls cs s))) with (s_dict (do_calls cs s)). now rewrite D.
Qed.
Print Assumptions C25_memory_transparent.

(** after any history of conversions: the same answer as at the start of the session *)
Theorem C25_history_transparent : forall V (A : Arith V) (s : st V) cs v f t uc uc',
  fresh_session s -> par_enough (s_par s) -> Forall converts cs ->
  unit_name f -> unit_name t -> density_case (s_dict s) f t = false ->
  fst (convert (VNum v) (UStr f) (UStr t) uc (do_calls cs s)) = fst (convert (VNum v) (UStr f) (UStr t) uc' s).
Proof.
  intros V A s cs v f t uc uc' F E Hc Hf Ht Hd. destruct (quiet_session s cs F E (converts_quiet _ _ Hc)) as (S & En & Q & N & D).
  pose proof (do_calls_frame cs s Hc) as Fr. pose proof (fresh_settled s F) as S0. assert (En0 : enough s) by now apply enough_par.
  rewrite !convert_settled; try assumption; [|now rewrite D].
  now rewrite (finish_frame _ _ _ Fr), (val_frame _ _ _ _ Fr), (bare_answer_frame _ _ _ _ Fr).
Qed.
Print Assumptions C25_history_transparent.

(** registering a conversion is not quiet: a failure remembered before it stays (see C27) *)
Example C25_example :
  let cs := [conv_of 1 "km" "s"; KConvertible (u "km/min") (u "m/s") None; conv_of 2 "km/min" "m/s"; KCleanMemory; conv_of 7 "km" "cm"] in
  Forall converts cs /\ Forall (quiet (search_settings (s_par demo))) (KSetFvf (Q2Qc 2) :: cs)
  /\ s_mem (do_calls cs demo) <> [] /\ density_case (s_dict demo) (u "km") (u "cm") = false.
Proof. split; [repeat constructor|]. split; [repeat constructor|]. split; [vm_compute; discriminate|reflexivity]. Qed.

(** ** C28: convertible *)
(** simple units, after any quiet history: the answer is that of [convert] and
    stays the same whatever is converted in between *)
Theorem C28_convertible_agrees_with_convert : forall V (A : Arith V) (s : st V) cs f t uc uc',
  fresh_session s -> par_enough (s_par s) -> Forall (quiet (search_settings (s_par s))) cs ->
  unit_name f -> unit_name t -> density_case (s_dict s) f t = false ->
  fst (convertible f t uc (do_calls cs s))
  = match fst (convert (VNum (aconst 1)) (UStr f) (UStr t) uc' (do_calls cs s)) with
    | Ok (Some _) => Ok true
    | Ok None | Err NoConversionFoundError => Ok false
    | Err e => Err e
    end.
Proof.
  intros V A s cs f t uc uc' F E Hq Hf Ht Hd. destruct (quiet_session s cs F E Hq) as (S & En & Q & N & D).
  rewrite convert_settled; try assumption; [|now rewrite D].
  rewrite convertible_simple; [|exact S|exact En|apply Hf|apply Ht]. unfold convertible_result. change (aconst 1) with (qone (V:=V)).
  destruct (val_result _ _ _) as [[c|]|e]; cbn [finish_result]; [reflexivity| |reflexivity]. now destruct (p_raise _).
Qed.
Print Assumptions C28_convertible_agrees_with_convert.
Theorem C28_convertible_is_stable : forall V (A : Arith V) (s : st V) cs ds f t uc uc',
  fresh_session s -> par_enough (s_par s) -> Forall (quiet (search_settings (s_par s))) cs -> Forall converts ds ->
  unit_name f -> unit_name t ->
  fst (convertible f t uc (do_calls ds (do_calls cs s))) = fst (convertible f t uc' (do_calls cs s)).
Proof.
  intros V A s cs ds f t uc uc' F E Hq Hc Hf Ht. destruct (quiet_session s cs F E Hq) as (S & En & Q & N & D).
  pose proof (do_calls_frame ds (do_calls cs s) Hc) as Fr.
  destruct (do_calls_settled ds (do_calls cs s) S En (converts_quiet _ _ Hc)) as (S' & En' & _).
  rewrite !convertible_simple; try assumption; try apply Hf; try apply Ht.
  unfold convertible_result. now rewrite (val_frame _ _ _ _ Fr), (bare_answer_frame _ _ _ _ Fr).
Qed.
Print Assumptions C28_convertible_is_stable.
(** false for composite units (asking twice) and for volume against weight *)
Theorem C28_composite_refuted : exists s : st Qc, fresh_session s /\ par_enough (s_par s) /\
  fst (convertible (u "km/min") (u "m/s") None s) = Ok true /\
  fst (convertible (u "km/min") (u "m/s") None (do_call (KConvertible (u "km/min") (u "m/s") None) s)) = Ok false /\
  fst (convertible (u "m3") (u "kg") None s) = Ok false /\ ask 1 "m3" "kg" s = Ok (Some (CVal (Q2Qc 800))).
Proof.
  exists demo. split; [apply demo_fresh|]. split; [apply demo_enough|].
  split; [vm_compute; reflexivity|]. split; [vm_compute; reflexivity|]. split; [vm_compute; reflexivity|].
  apply is_val_eq. vm_compute. reflexivity.
Qed.
Print Assumptions C28_composite_refuted.

(** ** C30: the special rules, after any history *)
Section C30.
Context {V : Type} {A : Arith V} (s : st V) (cs : list (call V)) (v : V) (f t : str) (uc : option bool).
Definition rule_session : Prop := fresh_session s /\ par_enough (s_par s) /\ Forall call_enough cs
  /\ unit_name f /\ unit_name t /\ density_case (s_dict s) f t = false /\ f <> t.
Definition not_dates : Prop := ~ (In f (d_date (s_dict s)) /\ In t (d_date (s_dict s))).
End C30.
Lemma rule_quick V (A : Arith V) (s : st V) cs v w f t uc h :
  rule_session s cs f t -> quick (s_dict s) f t = Some h -> feval (fv_of (do_calls cs s)) h v = Ok w ->
  fst (convert (VNum v) (UStr f) (UStr t) uc (do_calls cs s)) = Ok (Some (CVal w)).
Proof.
  intros (F & E & C & Hf & Ht & Hd & _) Hq Hv. rewrite (convert_quick s cs v f t uc h) by assumption. now rewrite Hv.
Qed.
Theorem C30_date_to_date : forall V (A : Arith V) (s : st V) cs v f t uc, rule_session s cs f t ->
  In f (d_date (s_dict s)) -> In t (d_date (s_dict s)) ->
  fst (convert (VNum v) (UStr f) (UStr t) uc (do_calls cs s)) = Ok (Some (CVal v)).
Proof.
  intros V A s cs v f t uc R Hf Ht. apply (rule_quick V A s cs v v f t uc FId R); [|reflexivity]. unfold quick.
  destruct (seqb f t); [reflexivity|]. apply smem_In in Hf, Ht. now rewrite Hf, Ht.
Qed.
Print Assumptions C30_date_to_date.
Lemma skip_dates V (s : st V) f t : f <> t -> not_dates s f t ->
  seqb f t = false /\ smem f (d_date (s_dict s)) && smem t (d_date (s_dict s)) = false.
Proof.
  intros Hn Hd. split; [apply not_true_iff_false; now rewrite seqb_eq|]. apply not_true_iff_false. rewrite andb_true_iff, !smem_In. exact Hd.
Qed.
Theorem C30_dimensionless_to_percent : forall V (A : Arith V) (s : st V) cs v f t uc, rule_session s cs f t -> not_dates s f t ->
  In (lower f) (d_dimless (s_dict s)) -> In (lower t) (d_percent (s_dict s)) ->
  fst (convert (VNum v) (UStr f) (UStr t) uc (do_calls cs s)) = Ok (Some (CVal (amul v (aconst 100)))).
Proof.
  intros V A s cs v f t uc R Nd Hf Ht. apply (rule_quick V A s cs v _ f t uc FMul100 R); [|reflexivity].
  destruct R as (_ & _ & _ & _ & _ & _ & Hn). destruct (skip_dates V s f t Hn Nd) as [E1 E2]. unfold quick. rewrite E1, E2.
  apply smem_In in Hf, Ht. unfold is_dimless, is_percent. now rewrite Hf, Ht.
Qed.
Print Assumptions C30_dimensionless_to_percent.
Theorem C30_percent_to_dimensionless : forall V (A : Arith V) (s : st V) cs v w f t uc, rule_session s cs f t -> not_dates s f t ->
  In (lower f) (d_percent (s_dict s)) -> In (lower t) (d_dimless (s_dict s)) -> ~ In (lower f) (d_dimless (s_dict s)) ->
  adiv v (aconst 100) = Ok w ->
  fst (convert (VNum v) (UStr f) (UStr t) uc (do_calls cs s)) = Ok (Some (CVal w)).
Proof.
  intros V A s cs v w f t uc R Nd Hf Ht Hx Hw. apply (rule_quick V A s cs v w f t uc FDiv100 R); [|exact Hw].
  destruct R as (_ & _ & _ & _ & _ & _ & Hn). destruct (skip_dates V s f t Hn Nd) as [E1 E2]. unfold quick. rewrite E1, E2.
  apply smem_In in Hf, Ht. rewrite <- smem_In in Hx. apply not_true_iff_false in Hx. unfold is_dimless, is_percent. now rewrite Hf, Ht, Hx.
Qed.
Print Assumptions C30_percent_to_dimensionless.
Theorem C30_dimensionless_to_any_unit : forall V (A : Arith V) (s : st V) cs v f t uc, rule_session s cs f t -> not_dates s f t ->
  In (lower f) (d_dimless (s_dict s)) -> ~ In (lower t) (d_percent (s_dict s)) -> ~ In (lower f) (d_percent (s_dict s)) ->
  fst (convert (VNum v) (UStr f) (UStr t) uc (do_calls cs s)) = Ok (Some (CVal v)).
Proof.
  intros V A s cs v f t uc R Nd Hf Ht Hx. apply (rule_quick V A s cs v _ f t uc FId R); [|reflexivity].
  destruct R as (_ & _ & _ & _ & _ & _ & Hn). destruct (skip_dates V s f t Hn Nd) as [E1 E2]. unfold quick. rewrite E1, E2.
  apply smem_In in Hf. rewrite <- smem_In in Ht, Hx. apply not_true_iff_false in Ht, Hx. unfold is_dimless, is_percent. now rewrite Hf, Ht, Hx.
Qed.
Print Assumptions C30_dimensionless_to_any_unit.
(** exact inverses *)
Theorem C30_percent_round_trip : forall (s : st Qc) cs ds v f t uc uc',
  rule_session s cs f t -> rule_session s ds t f -> not_dates s f t ->
  In (lower f) (d_dimless (s_dict s)) -> In (lower t) (d_percent (s_dict s)) -> ~ In (lower t) (d_dimless (s_dict s)) ->
  exists w, fst (convert (VNum v) (UStr f) (UStr t) uc (do_calls cs s)) = Ok (Some (CVal w))
    /\ fst (convert (VNum w) (UStr t) (UStr f) uc' (do_calls ds s)) = Ok (Some (CVal v)).
Proof.
  intros s cs ds v f t uc uc' R R' Nd Hf Ht Hx. exists (amul v (aconst 100)). split; [now apply C30_dimensionless_to_percent|].
  apply C30_percent_to_dimensionless; try assumption.
  - intros [H1 H2]. now apply Nd.
  - change (qdiv (v * Q2Qc 100)%Qc (Q2Qc 100) = Ok v). assert (H0 : Q2Qc 100 <> 0%Qc) by easy.
    rewrite qdiv_ok by exact H0. f_equal. field. exact H0.
Qed.
Print Assumptions C30_percent_round_trip.
Example C30_example :
  let cs := [conv_of 1 "m" "nothing"; KSetConversion (u "aa") (u "bb") (fun x => Ok (x + x)%Qc) None; conv_of 4 "aa" "bb"] in
  rule_session demo cs (u "dimensionless") (u "%") /\ rule_session demo cs (u "%") (u "dimensionless")
  /\ rule_session demo cs (u "dimensionless") (u "km") /\ rule_session demo cs (u "day of year") (u "date")
  /\ ask 3 "Dimensionless" "Percentage" (do_calls cs demo) = Ok (Some (CVal (Q2Qc 300))).
Proof.
  assert (K : forall f t, simple_b f && bare_b f = true -> simple_b t && bare_b t = true -> density_case (s_dict demo) f t = false -> f <> t ->
    rule_session demo [conv_of 1 "m" "nothing"; KSetConversion (u "aa") (u "bb") (fun x => Ok (x + x)%Qc) None; conv_of 4 "aa" "bb"] f t).
  { intros f t Hf Ht Hd Hn. split; [apply demo_fresh|]. split; [apply demo_enough|]. split; [repeat constructor|].
    split; [now apply unit_check|]. split; [now apply unit_check|]. auto. }
  do 4 (split; [apply K; [reflexivity|reflexivity|reflexivity|discriminate]|]). apply is_val_eq. vm_compute. reflexivity.
Qed.

(** ** C46: invalid input *)
(** an argument the code rejects: the exception is TypeError or ValueError and
    nothing at all has changed (parentheses are not reduced: see below) *)
Definition plain_value {V} (v : vin V) : Prop := v = VNone \/ (exists x, v = VNum x) \/ exists x, v = VIter x.
Theorem C46_rejected_untouched : forall V (A : Arith V) (s : st V) v f t uc,
  p_redpar (s_par s) = false ->
  (* a value that is no number, nor iterable, nor Unit; else a unit that is no string, or is missing *)
  v = VOther \/ plain_value v /\ (f = UOther \/ f = UEmpty \/ t = UOther \/ t = UEmpty \/ t = UStr (u "Empty")) ->
  exists e, convert v f t uc s = (Err e, s) /\ (e = TypeError \/ e = ValueError).
Proof.
  intros V A s v f t uc Hr H.
  assert (K : exists e, clean_input (p_redpar (s_par s)) v f t = Err e).
  { rewrite Hr. destruct H as [->|[Hv H]]; [eexists; reflexivity|].
    assert (C : forall o : option V, exists e,
      rbind (clean_unit f) (fun f => if is_empty (bare t) then Err TypeError else rbind (clean_unit t) (fun t => Ok (o, f, t))) = Err e).
    { intros o. destruct H as [->|[->|[->|[->| ->]]]]; [eexists; reflexivity|eexists; reflexivity| | |];
      destruct (clean_unit f); eexists; reflexivity. }
    destruct Hv as [->|[(x & ->)|(x & ->)]]; apply C. }
  destruct K as (e & K). exists e. split; [now apply convert_malformed|]. rewrite Hr in K. eapply clean_input_err; exact K.
Qed.
Print Assumptions C46_rejected_untouched.
(** and any other exception raised while cleaning leaves everything as it was *)
Theorem C46_cleaning_touches_nothing : forall V (A : Arith V) (s : st V) v f t uc e,
  clean_input (p_redpar (s_par s)) v f t = Err e -> convert v f t uc s = (Err e, s).
Proof. intros. now apply convert_malformed. Qed.
Print Assumptions C46_cleaning_touches_nothing.
(** with reduce_parentheses on, an unbalanced unit is a ValueError, but a
    balanced one can raise IndexError *)
Theorem C46_index_error_refuted : exists s : st Qc, fresh_session s /\
  ask 1 "(m" "cm" s = Ok (Some (CVal (Q2Qc 100))) /\ ask 1 "k(m" "cm" s = Err ValueError /\ ask 1 "k(a)/" "cm" s = Err IndexError.
Proof.
  exists (set_par demo (with_redpar (s_par demo) true)). split; [apply demo_fresh|].
  split; [apply is_val_eq; vm_compute; reflexivity|]. split; vm_compute; reflexivity.
Qed.
Print Assumptions C46_index_error_refuted.

(** ** C47: padding *)
Theorem C47_padding_ignored : forall V (A : Arith V) (s : st V) v f t f' t' uc,
  bare_name f -> bare_name t -> wrapped f f' -> wrapped t t' ->
  convert (VNum v) (UStr f') (UStr t') uc s = convert (VNum v) (UStr f) (UStr t) uc s
  /\ convert VNone (UStr f') (UStr t') uc s = convert VNone (UStr f) (UStr t) uc s.
Proof.
  intros V A s v f t f' t' uc Hf Ht Wf Wt. split.
  - change (VNum v) with (opt_v (Some v)). now rewrite (convert_wrapped _ f t), convert_bare by assumption.
  - change (@VNone V) with (@opt_v V None). now rewrite (convert_wrapped _ f t), convert_bare by assumption.
Qed.
Print Assumptions C47_padding_ignored.
(** cleaning twice is cleaning once for names without inner padding characters *)
Theorem C47_cleaning_idempotent : forall x y, bare_name x -> wrapped x y -> clean_str (clean_str y) = clean_str y.
Proof. intros x y Hx W. rewrite (wrapped_clean x y Hx W). now apply bare_clean. Qed.
Print Assumptions C47_cleaning_idempotent.
(** not every mixture of padding is removed: "' m '" keeps its blanks *)
Theorem C47_nested_quotes_refuted : exists s : st Qc, fresh_session s /\
  fst (convert (num 1) (UStr ([dquote; apostrophe; blank] ++ u "m" ++ [blank; apostrophe; dquote])) (UStr (u "cm")) None s) = Ok None
  /\ ask 1 "m" "cm" s = Ok (Some (CVal (Q2Qc 100))) /\ ask 1 "('m')" "cm" s = Ok (Some (CVal (Q2Qc 100))).
Proof.
  exists demo. split; [apply demo_fresh|]. split; [vm_compute; reflexivity|]. split; apply is_val_eq; vm_compute; reflexivity.
Qed.
Print Assumptions C47_nested_quotes_refuted.
Example C47_example : bare_name (u "day of year") /\ wrapped (u "m") (u "  ('m' )").
Proof.
  split; [apply bare_check; reflexivity|]. exists (u "  ('"), [], [], [], [], (u "' )").
  split; [reflexivity|]. repeat split; intros c Hc; cbn in Hc; repeat (destruct Hc as [<-|Hc]; [cbv; tauto|]); contradiction.
Qed.

(** ** C48: changing the formation volume factor takes effect *)
Theorem C48_fvf_takes_effect_partial : forall V (A : Arith V) (s : st V) cs v b f t uc uc',
  fresh_session s -> par_enough (s_par s) -> Forall converts cs ->
  unit_name f -> unit_name t -> density_case (s_dict s) f t = false ->
  fst (convert (VNum v) (UStr f) (UStr t) uc (do_call (KSetFvf b) (do_calls cs s)))
  = fst (convert (VNum v) (UStr f) (UStr t) uc' (do_call (KSetFvf b) s)).
Proof.
  intros V A s cs v b f t uc uc' F E Hc Hf Ht Hd. destruct (quiet_session s cs F E (converts_quiet _ _ Hc)) as (S & En & Q & N & D).
  assert (En0 : enough s) by now apply enough_par.
  destruct (do_call_settled (KSetFvf b) (do_calls cs s) S En I) as (S1 & En1 & _).
  destruct (do_call_settled (KSetFvf b) s (fresh_settled s F) En0 I) as (S2 & En2 & _).
  assert (Fr : frame (do_call (KSetFvf b) (do_calls cs s)) = frame (do_call (KSetFvf b) s)).
  { pose proof (do_calls_frame cs s Hc) as Fr. apply frame_fields in Fr as (F1 & _ & F3 & F4 & F5 & F6 & F7 & F8).
    unfold frame. cbn [do_call api_set_fvf modify snd s_net s_fvf s_ask_fvf s_ask_density s_par s_dict s_sched set_fvf_].
    change (current_es (set_fvf_ (do_calls cs s) (Some b))) with (current_es (do_calls cs s)).
    change (current_es (set_fvf_ s (Some b))) with (current_es s). congruence. }
  rewrite !convert_settled; try assumption.
  - now rewrite (finish_frame _ _ _ Fr), (val_frame _ _ _ _ Fr), (bare_answer_frame _ _ _ _ Fr).
  - change (s_dict (do_call (KSetFvf b) (do_calls cs s))) with (s_dict (do_calls cs s)). now rewrite D.
Qed.
Print Assumptions C48_fvf_takes_effect_partial.
(** false for ratios: the factor computed with the old value is remembered *)
Theorem C48_ratio_refuted : exists s : st Qc, fresh_session s /\
  let s' := do_call (KSetFvf (Q2Qc 2)) s in
  ask 8 "rb/s" "stb/s" s' = Ok (Some (CVal (Q2Qc 4))) /\
  ask 8 "rb/s" "stb/s" (do_call (KSetFvf (Q2Qc 2)) (do_call (conv_of 1 "rb/s" "stb/s") s)) = Ok (Some (CVal (Q2Qc (32 # 5))))
  /\ ask 8 "rb" "stb" (do_call (KSetFvf (Q2Qc 2)) (do_call (conv_of 1 "rb" "stb") s)) = Ok (Some (CVal (Q2Qc 4))).
Proof. exists demo. split; [apply demo_fresh|]. repeat split; apply is_val_eq; vm_compute; reflexivity. Qed.
Print Assumptions C48_ratio_refuted.
