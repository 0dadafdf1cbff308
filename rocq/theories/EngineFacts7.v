(** * Public conversions after any history *)
From Coq Require Import String QArith Qcanon.
From Verif Require Import Py StrTools Network SearchSpec NetworkFacts Search SearchFacts SearchFacts2 DescFacts
  Hybrid HybridFacts Conv NetFacts2 Converter EngineSpec EngineFacts EngineFacts2 EngineFacts3 EngineFacts4 EngineFacts5 EngineFacts6
  ConsistSpec ConsistFacts CleanFacts.
Local Open Scope N_scope.

Section E.
Context {V : Type} {A : Arith V}.
Local Open Scope m_scope.
Implicit Types s : st V.
Implicit Types g : net (conv V).

Lemma fresh_good s : fresh_session s -> good s.
Proof. intros (S & M & _). split; [exact S|]. intros f t h p _ _. rewrite M. discriminate. Qed.
Lemma fresh_no_self s : fresh_session s -> no_self s.
Proof. intros (_ & M & _) f t _ _ _. now rewrite M. Qed.
Lemma fresh_settled s : fresh_session s -> settled s.
Proof. intros (S & M & P). now apply settled_fresh. Qed.

(** a public conversion between two unit names, in a session that has done [cs] *)
Lemma session s cs : fresh_session s -> par_enough (s_par s) -> Forall call_enough cs ->
  good (do_calls cs s) /\ enough (do_calls cs s) /\ no_self (do_calls cs s) /\ s_dict (do_calls cs s) = s_dict s.
Proof.
  intros F E C. apply enough_par in E. pose proof (fresh_good s F) as G.
  destruct (do_calls_no_self cs s G E (fresh_no_self s F) C) as [E' N'].
  split; [now apply do_calls_good|]. split; [exact E'|]. split; [exact N'|apply do_calls_dict].
Qed.
Lemma convert_value v f t uc s : unit_name f -> unit_name t -> enough s -> density_case (s_dict s) f t = false ->
  fst (convert (VNum v) (UStr f) (UStr t) uc s) = finish_result s (val_result s v (simple_answer s uc f t)).
Proof.
  intros [Hf Bf] [Ht Bt] En Hd. change (VNum v) with (opt_v (Some v)). rewrite convert_bare by assumption.
  now apply convert_clean_simple_val.
Qed.
Lemma convert_quick s cs v f t uc h : fresh_session s -> par_enough (s_par s) -> Forall call_enough cs ->
  unit_name f -> unit_name t -> density_case (s_dict s) f t = false -> quick (s_dict s) f t = Some h ->
  fst (convert (VNum v) (UStr f) (UStr t) uc (do_calls cs s))
  = finish_result (do_calls cs s) (rbind (feval (fv_of (do_calls cs s)) h v) (fun w => Ok (Some (CVal w)))).
Proof.
  intros F E C Hf Ht Hd Hq. destruct (session s cs F E C) as (G & En & N & D).
  rewrite convert_value by (try assumption; now rewrite D). rewrite (simple_answer_quick _ uc f t h); [reflexivity|exact N|apply Hf|apply Ht|now rewrite D].
Qed.
Lemma convert_same s cs v x uc : fresh_session s -> par_enough (s_par s) -> Forall call_enough cs ->
  unit_name x -> density_case (s_dict s) x x = false ->
  fst (convert (VNum v) (UStr x) (UStr x) uc (do_calls cs s)) = Ok (Some (CVal v)).
Proof.
  intros F E C Hx Hd. rewrite (convert_quick s cs v x x uc FId); try assumption; [reflexivity|].
  unfold quick. now rewrite seqb_refl.
Qed.
(** any string, cache switched off for the call, any state *)
Lemma converter_same v x s : visited s x x = false -> enough s ->
  fst (converter_top (Some v) x x (Some false) s) = Ok (Some (CVal v, [node_or_str (s_net s) x])).
Proof.
  intros Hv En. unfold converter_top, top_fuel. rewrite converter_S, Hv.
  pose proof (enough_nonneg s En) as H0. destruct (_ <? 0)%Z eqn:E; [apply Z.ltb_lt in E; lia|].
  unfold bind at 1. unfold get_conversion at 1, get_conversion_. rewrite bind_get.
  pose proof (rec_limit_next _ None En) as Hr. destruct (rec_limit (s_par s) (Some _) <? 0)%Z eqn:E'; [apply Z.ltb_lt in E'; lia|].
  now rewrite seqb_refl.
Qed.
Lemma convert_clean_same v x s : enough s -> density_case (s_dict s) x x = false ->
  fst (convert_clean (Some v) x x (Some false) s) = Ok (Some (CVal v)).
Proof.
  intros En Hd. rewrite convert_clean_eq. unfold convert_step, bind at 1. unfold bind at 1. rewrite no_density_case by exact Hd.
  pose proof (converter_same v x (set_prev s []) eq_refl En) as H.
  destruct (converter_top (Some v) x x (Some false) (set_prev s [])) as [r s1]. cbn [fst] in H. rewrite H. reflexivity.
Qed.

(** ** The function and the value *)
Lemma convert_fn_value v f t uc s h s' : convert VNone f t uc s = (Ok (Some (CFn h)), s') ->
  match feval (fv_of s') h v with
  | Ok w => convert (VNum v) f t uc s = (Ok (Some (CVal w)), s')
  | Err e => fst (convert (VNum v) f t uc s) = Err e
  end.
Proof.
  unfold convert, bind, get, lift. set (rp := p_redpar (s_par s)).
  assert (K : match clean_input (V:=V) rp VNone f t with
              | Ok (_, a, b) => clean_input rp (VNum v) f t = Ok (Some v, a, b) /\ clean_input (V:=V) rp VNone f t = Ok (None, a, b)
              | Err e => True end).
  { unfold clean_input. destruct (clean_unit f) as [a|]; cbn [rbind]; [|exact I]. destruct (is_empty (bare t)); [exact I|].
    destruct (clean_unit t) as [b|]; cbn [rbind]; [|exact I]. destruct rp; [|auto].
    destruct (reduce_parentheses a) as [a'|]; cbn [rbind]; [|exact I]. destruct (reduce_parentheses b) as [b'|]; cbn [rbind]; [auto|exact I]. }
  destruct (clean_input rp VNone f t) as [[[w a] b]|e]; [|discriminate].
  destruct K as [-> K]. injection K as ->. intros H. pose proof (convert_clean_erase v a b uc s) as E. now rewrite H in E.
Qed.

(** ** Values after quiet histories *)
Lemma quiet_session s cs : fresh_session s -> par_enough (s_par s) -> Forall (quiet (search_settings (s_par s))) cs ->
  settled (do_calls cs s) /\ enough (do_calls cs s) /\ search_settings (s_par (do_calls cs s)) = search_settings (s_par s)
  /\ s_net (do_calls cs s) = s_net s /\ s_dict (do_calls cs s) = s_dict s.
Proof. intros F E. apply do_calls_settled; [now apply fresh_settled|now apply enough_par]. Qed.
Lemma convert_settled v f t uc s : settled s -> enough s -> unit_name f -> unit_name t -> density_case (s_dict s) f t = false ->
  fst (convert (VNum v) (UStr f) (UStr t) uc s) = finish_result s (val_result s v (bare_answer s f t)).
Proof. intros S En Hf Ht Hd. rewrite convert_value by assumption. rewrite settled_answer; [reflexivity|assumption|assumption|apply Hf|apply Ht]. Qed.

(** ** BFS: the answer is what the connections say *)
Lemma has_node_get g x : has_node g x = true -> exists a, get_node g x = Ok a.
Proof. intros H. now apply get_node_ok, has_node_spec. Qed.
Lemma get_has g x a : get_node g x = Ok a -> has_node g x = true.
Proof. intros H. apply has_node_spec. apply get_node_ok. eauto. Qed.
Lemma search_BFS s f t : p_algo (s_par s) = u "BFS" -> search_value s f t =
  match get_node (s_net s) f, get_node (s_net s) t with Ok a, Ok b => BFS (s_net s) a b | _, _ => Ok None end.
Proof.
  intros Ha. unfold search_value, search_network. rewrite bind_get. rewrite Ha.
  destruct (has_node (s_net s) f) eqn:E1.
  - destruct (has_node_get _ _ E1) as (a & Ea). rewrite Ea. destruct (has_node (s_net s) t) eqn:E2; cbn [andb].
    + destruct (has_node_get _ _ E2) as (b & Eb). rewrite Eb. reflexivity.
    + destruct (get_node (s_net s) t) eqn:Eb; [apply get_has in Eb; congruence|reflexivity].
  - cbn [andb]. destruct (get_node (s_net s) f) eqn:Ea; [apply get_has in Ea; congruence|reflexivity].
Qed.
Lemma bfs_answer s f t : wf_net (s_net s) -> p_algo (s_par s) = u "BFS" -> quick (V:=V) (s_dict s) f t = None ->
  (connected s f t -> exists h, bare_answer s f t = Ok (Some h) /\ path_function (s_net s) f t h)
  /\ (~ connected s f t -> bare_answer s f t = Ok None).
Proof.
  intros W Ha Hq. unfold bare_answer. rewrite Hq, (search_BFS s f t Ha). split.
  - intros (a & b & Ea & Eb & R). rewrite Ea, Eb. pose proof (get_node_spec _ _ _ Ea) as [Ia _].
    destruct (BFS_total (s_net s) a b W Ia) as (r & Er). pose proof (BFS_correct (s_net s) a b) as X. rewrite Er in *.
    destruct r as [q|]; [|contradiction]. destruct X as [Hsp _].
    assert (Sn : sane_net (s_net s)) by (destruct W as (W1 & W2 & W3); repeat split; auto; intros e He; now apply W3).
    destruct (sane_path_convs (s_net s) a q b Sn (proj1 Hsp)) as (l & El). rewrite El. eexists. split; [reflexivity|].
    exists a, b, q, l. split; [exact Ea|]. split; [exact Eb|]. split; [exact Hsp|]. split; [|reflexivity].
    apply path_convs_along; [eapply simple_path_nonnil; exact Hsp|exact El].
  - intros H. destruct (get_node (s_net s) f) as [a|] eqn:Ea; [|reflexivity]. destruct (get_node (s_net s) t) as [b|] eqn:Eb; [|reflexivity].
    pose proof (get_node_spec _ _ _ Ea) as [Ia _].
    rewrite (proj2 (BFS_complete (s_net s) a b W Ia)); [reflexivity|]. intros R. apply H. exists a, b. auto.
Qed.

(** ** Any of the three sequential algorithms *)
Lemma search_seq s f t : sequential (p_algo (s_par s)) -> search_value s f t =
  match get_node (s_net s) f, get_node (s_net s) t with
  | Ok a, Ok b =>
      if seqb (p_algo (s_par s)) (u "BFS") then BFS (s_net s) a b
      else if seqb (p_algo (s_par s)) (u "lean_BFS") then lean_BFS (s_net s) (current_es s) a b (p_max_gen (s_par s))
      else DFS (s_net s) (current_es s) a b (p_max_gen (s_par s))
  | _, _ => Ok None end.
Proof.
  intros Ha. unfold search_value, search_network. rewrite bind_get.
  destruct (has_node (s_net s) f) eqn:E1.
  - destruct (has_node_get _ _ E1) as (a & Ea). rewrite Ea. destruct (has_node (s_net s) t) eqn:E2; cbn [andb].
    + destruct (has_node_get _ _ E2) as (b & Eb). rewrite Eb. unfold bind, lift, touch_es, modify.
      destruct Ha as [Ha|[Ha|Ha]]; rewrite Ha; reflexivity.
    + destruct (get_node (s_net s) t) eqn:Eb; [apply get_has in Eb; congruence|reflexivity].
  - cbn [andb]. destruct (get_node (s_net s) f) eqn:Ea; [apply get_has in Ea; congruence|reflexivity].
Qed.
Lemma unconnected_answer s f t : wf_net (s_net s) -> sequential (p_algo (s_par s)) -> quick (V:=V) (s_dict s) f t = None ->
  ~ connected s f t -> bare_answer s f t = Ok None.
Proof.
  intros W Ha Hq H. unfold bare_answer. rewrite Hq, (search_seq s f t Ha).
  destruct (get_node (s_net s) f) as [a|] eqn:Ea; [|reflexivity]. destruct (get_node (s_net s) t) as [b|] eqn:Eb; [|reflexivity].
  pose proof (get_node_spec _ _ _ Ea) as [Ia _].
  assert (R : ~ reachable (registered (s_net s)) a b) by (intros R; apply H; exists a, b; auto).
  destruct (seqb _ _); [|destruct (seqb _ _)].
  - now rewrite (proj2 (BFS_complete (s_net s) a b W Ia)).
  - destruct (lean_total (s_net s) (current_es s) a b (p_max_gen (s_par s)) (proj1 W)) as ([p|] & E); [|now rewrite E].
    apply lean_sound in E; [|apply W]. exfalso. apply R. exists p. apply E.
  - destruct (DFS_total (s_net s) (current_es s) a b (p_max_gen (s_par s)) W Ia) as ([p|] & E); [|now rewrite E].
    apply DFS_sound in E. exfalso. apply R. exists p. apply E.
Qed.
(** lean_BFS finds what is connected, in a symmetric network, within its generations *)
Lemma simple_combo x : simple x -> combo_parts x = None.
Proof.
  intros [H1 H2]. unfold combo_parts.
  assert (K : forall c, ~ In c x -> split2 c x = None).
  { intros c. clear. intros H. unfold split2.
    assert (E : csplit c x = [x]).
    { induction x as [|y x IH]; [reflexivity|]. cbn [csplit]. destruct (N.eqb_spec y c) as [->|_]; [exfalso; apply H; now left|].
      rewrite IH; [reflexivity|]. intros K. apply H. now right. }
    now rewrite E. }
  now rewrite !K.
Qed.
Lemma lean_answer s f t n : wf_net (s_net s) -> unique_names (s_net s) -> symmetric (s_net s) ->
  p_algo (s_par s) = u "lean_BFS" -> current_es s = edges_str (s_net s) -> quick (V:=V) (s_dict s) f t = None ->
  simple f -> simple t -> (0 <= p_max_gen (s_par s))%Z ->
  (exists a b p, get_node (s_net s) f = Ok a /\ get_node (s_net s) t = Ok b /\ walk (registered (s_net s)) a p b /\ length p = n) ->
  (Z.of_nat n <= 2 * (p_max_gen (s_par s) + 1) + 1)%Z ->
  exists h, bare_answer s f t = Ok (Some h) /\ path_function (s_net s) f t h.
Proof.
  intros W U Sy Ha He Hq Hf Ht Hm (a & b & p & Ea & Eb & Hp & Hn) Hl. unfold bare_answer.
  rewrite Hq, (search_seq s f t) by (rewrite Ha; unfold sequential; auto). rewrite Ea, Eb, Ha.
  change (seqb (u "lean_BFS") (u "BFS")) with false. change (seqb (u "lean_BFS") (u "lean_BFS")) with true.
  cbv iota. rewrite He.
  destruct (get_node_spec _ _ _ Ea) as [Ia Na]. destruct (get_node_spec _ _ _ Eb) as [Ib Nb].
  destruct (BFS_total (s_net s) a b W Ia) as (r & Er). pose proof (BFS_correct (s_net s) a b) as X. rewrite Er in X.
  destruct r as [q0|]; [|exfalso; apply X; exists p; exact Hp]. destruct X as [_ [X1 X2]]. pose proof (X2 p Hp) as Hq0.
  destruct (lean_complete (s_net s) a b (p_max_gen (s_par s)) q0 W U Sy Ia Ib Hm) as (q & Eq & _).
  { rewrite Na. now apply simple_combo. } { rewrite Nb. now apply simple_combo. } { split; assumption. } { lia. }
  rewrite Eq. assert (Hsp : simple_path (registered (s_net s)) a q b) by (apply lean_sound in Eq; [exact Eq|apply W]).
  assert (Sn : sane_net (s_net s)) by (destruct W as (W1 & W2 & W3); repeat split; auto; intros e He'; now apply W3).
  destruct (sane_path_convs (s_net s) a q b Sn (proj1 Hsp)) as (l & El). rewrite El. eexists. split; [reflexivity|].
  exists a, b, q, l. split; [exact Ea|]. split; [exact Eb|]. split; [exact Hsp|]. split; [|reflexivity].
  apply path_convs_along; [eapply simple_path_nonnil; exact Hsp|exact El].
Qed.

(** ** Histories that only convert *)
Lemma do_call_frame c s : converts c -> frame (do_call c s) = frame s.
Proof.
  destruct c as [value f t uc|f t uc|v f t uc|name|a b h r|v| |p|l]; cbn [do_call converts]; intros H; try contradiction.
  - apply convert_Pub.
  - apply convertible_Pub.
  - apply simpandas_Pub.
  - reflexivity.
Qed.
Lemma do_calls_frame cs : forall s, Forall converts cs -> frame (do_calls cs s) = frame s.
Proof.
  induction cs as [|c cs IH]; intros s H; [reflexivity|]. inversion H as [|? ? H1 H2]; subst.
  change (do_calls (c :: cs) s) with (do_calls cs (do_call c s)). rewrite IH by exact H2. now apply do_call_frame.
Qed.
Lemma converts_quiet q cs : Forall converts cs -> Forall (quiet (V:=V) q) cs.
Proof. apply Forall_impl. intros [value f t uc|f t uc|v f t uc|name|a b h r|v| |p|l]; cbn; auto; contradiction. Qed.
Lemma finish_frame s s' r : frame s' = frame s -> finish_result s' r = finish_result s r.
Proof.
  intros H. apply frame_fields in H as (_ & _ & _ & _ & H5 & _). apply no_density_fields in H5 as (_ & _ & _ & _ & P & _).
  unfold finish_result. now rewrite P.
Qed.
Lemma val_frame s s' v r : frame s' = frame s -> val_result s' v r = val_result s v r.
Proof. intros H. unfold val_result. now rewrite (fv_frame _ _ H). Qed.
Lemma plain_quick d f t : plain_pair d f t -> simple t -> quick (V:=V) d f t = None.
Proof.
  intros (H1 & H2 & H3 & H4 & _) Ht. unfold quick. destruct (seqb f t) eqn:E; [apply seqb_eq in E; contradiction|].
  destruct (smem f (d_date d) && smem t (d_date d)) eqn:E1; [apply andb_true_iff in E1 as [E1 E2]; rewrite smem_In in E1, E2; tauto|].
  unfold is_dimless, is_percent. destruct (smem (lower f) (d_dimless d)) eqn:E2; [apply smem_In in E2; contradiction|].
  cbn [andb]. destruct (smem (lower f) (d_percent d) && smem (lower t) (d_dimless d)) eqn:E3; [|reflexivity].
  apply andb_true_iff in E3 as [E3 E4]. rewrite smem_In in E3, E4. tauto.
Qed.
End E.
