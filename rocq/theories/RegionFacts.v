From Coq Require Import String QArith Qcanon.
From Verif Require Import Py StrTools Network SearchSpec NetworkFacts Search SearchFacts SearchFacts2 DescFacts
  Hybrid HybridFacts Conv NetFacts2 Converter EngineSpec EngineFacts EngineFacts2 EngineFacts3 EngineFacts4 EngineFacts5 EngineFacts6
  ConsistSpec ConsistFacts CleanFacts Affine EngineFacts7 EngineFacts8 RegionSpec.
Local Open Scope N_scope.

Section N.
Context {C : Type}.
Implicit Types g : net C.
Lemma closed_walk g R a p b : closed g R -> walk (registered g) a p b -> R (nname a) -> R (nname b).
Proof. intros H. induction 1 as [a|a b p c Hab W IH]; [auto|]. intros Ha. apply IH. exact (H a b Hab Ha). Qed.
Lemma walk_rev_in g R a p b : closed g R -> symmetric_in g R -> R (nname a) -> walk (registered g) a p b -> walk (registered g) b (rev p) a.
Proof.
  intros H S Ha W. induction W as [a|a b p c Hab W IH]; [constructor|]. cbn [rev]. eapply walk_snoc; [apply IH; exact (H a b Hab Ha)|].
  now apply S.
Qed.
Lemma within_sym_in g R n a b : closed g R -> symmetric_in g R -> R (nname a) -> within (registered g) n a b -> within (registered g) n b a.
Proof. intros H S Ha (p & Hp & Hl). exists (rev p). split; [now apply (walk_rev_in g R)|now rewrite rev_length]. Qed.

(** an edge with a reverse is the path that lean_BFS takes *)
Lemma lean_direct_back g x y c m : wf_net g -> unique_names g -> In x (nodes g) -> In y (nodes g) -> x <> y -> (0 <= m)%Z ->
  combo_parts (nname x) = None -> combo_parts (nname y) = None -> conversion g x y = Ok c -> registered g y x ->
  lean_BFS g (edges_str g) x y m = Ok (Some [x; y]).
Proof.
  intros W U Hx Hy Hn Hm Cx Cy Hc Hr.
  assert (Wk : walk (registered g) x [x; y] y) by (apply (walk_cons _ x y [y] y); [now apply (conversion_registered g x y c)|constructor]).
  assert (K : forall p, walk (registered g) x p y -> (length p <= 2)%nat -> p = [x; y]).
  { intros p Hp Hs. destruct Hp as [x|x z q y Hxz Hw]; [contradiction|]. cbn in Hs. destruct Hw as [z|z z' q' y Hz Hw']; [reflexivity|].
    destruct (walk_hd _ _ _ _ Hw') as (t & ->). cbn in Hs. lia. }
  assert (Sh : shortest_path (registered g) x [x; y] y).
  { split; [exact Wk|]. intros q Hq. destruct (Nat.le_gt_cases (length q) 2) as [Hl|Hl]; [rewrite (K q Hq Hl); apply Nat.le_refl|cbn; lia]. }
  destruct (lean_complete_gen g x y m [x; y] W U Hx Hy Hm Cx Cy Sh) as (q & Eq & Hq & Hq2).
  - change (length [x; y]) with 2%nat. lia.
  - cbn. apply (walk_cons _ y x [x] x); [exact Hr|constructor].
  - left. cbn. lia.
  - rewrite Eq, (K q Hq); [reflexivity|]. apply (Hq2 _ Wk).
Qed.
End N.

Section E.
Context {V : Type} {A : Arith V}.
Implicit Types s : st V.
(** lean_BFS in a symmetric region *)
Lemma lean_answer_in s R f t n : wf_net (s_net s) -> unique_names (s_net s) -> closed (s_net s) R -> symmetric_in (s_net s) R -> R f ->
  p_algo (s_par s) = u "lean_BFS" -> current_es s = edges_str (s_net s) -> quick (V:=V) (s_dict s) f t = None ->
  simple f -> simple t -> (0 <= p_max_gen (s_par s))%Z ->
  (exists a b p, get_node (s_net s) f = Ok a /\ get_node (s_net s) t = Ok b /\ walk (registered (s_net s)) a p b /\ length p = n) ->
  (Z.of_nat n <= 2 * (p_max_gen (s_par s) + 1) + 1)%Z ->
  exists h, bare_answer s f t = Ok (Some h) /\ path_function (s_net s) f t h.
Proof.
  intros W U Cl Sy Rf Ha He Hq Hf Ht Hm (a & b & p & Ea & Eb & Hp & Hn) Hl. unfold bare_answer.
  rewrite Hq, (search_seq s f t) by (rewrite Ha; unfold sequential; auto). rewrite Ea, Eb, Ha.
  change (seqb (u "lean_BFS") (u "BFS")) with false. change (seqb (u "lean_BFS") (u "lean_BFS")) with true.
  cbv iota. rewrite He.
  destruct (get_node_spec _ _ _ Ea) as [Ia Na]. destruct (get_node_spec _ _ _ Eb) as [Ib Nb].
  destruct (BFS_total (s_net s) a b W Ia) as (r & Er). pose proof (BFS_correct (s_net s) a b) as X. rewrite Er in X.
  destruct r as [q0|]; [|exfalso; apply X; exists p; exact Hp]. destruct X as [_ [X1 X2]]. pose proof (X2 p Hp) as Hq0.
  assert (Ra : R (nname a)) by now rewrite Na.
  destruct (lean_complete_gen (s_net s) a b (p_max_gen (s_par s)) q0 W U Ia Ib Hm) as (q & Eq & _).
  { rewrite Na. now apply simple_combo. } { rewrite Nb. now apply simple_combo. } { split; assumption. } { lia. }
  { now apply (walk_rev_in (s_net s) R). } { right. intros k y Hy. apply (within_sym_in (s_net s) R); try assumption. now apply (closed_walk (s_net s) R a q0 b). }
  rewrite Eq. assert (Hsp : simple_path (registered (s_net s)) a q b) by (apply lean_sound in Eq; [exact Eq|apply W]).
  assert (Sn : sane_net (s_net s)) by (destruct W as (W1 & W2 & W3); repeat split; auto; intros e He'; now apply W3).
  destruct (sane_path_convs (s_net s) a q b Sn (proj1 Hsp)) as (l & El). rewrite El. eexists. split; [reflexivity|].
  exists a, b, q, l. split; [exact Ea|]. split; [exact Eb|]. split; [exact Hsp|]. split; [|reflexivity].
  apply path_convs_along; [eapply simple_path_nonnil; exact Hsp|exact El].
Qed.
(** a registered conversion (with a reverse, for lean_BFS) is the one used *)
Lemma direct_answer s f t a b c : wf_net (s_net s) -> get_node (s_net s) f = Ok a -> get_node (s_net s) t = Ok b ->
  conversion (s_net s) a b = Ok c -> quick (V:=V) (s_dict s) f t = None -> f <> t ->
  p_algo (s_par s) = u "BFS" \/
  (p_algo (s_par s) = u "lean_BFS" /\ unique_names (s_net s) /\ current_es s = edges_str (s_net s) /\ (0 <= p_max_gen (s_par s))%Z
   /\ simple f /\ simple t /\ registered (s_net s) b a) ->
  bare_answer s f t = Ok (Some (FConvs [c])).
Proof.
  intros W Ea Eb Hc Hq Hn Ha. unfold bare_answer. rewrite Hq, (search_seq s f t) by (unfold sequential; tauto). rewrite Ea, Eb.
  destruct (get_node_spec _ _ _ Ea) as [Ia Na]. destruct (get_node_spec _ _ _ Eb) as [Ib Nb].
  assert (Hab : a <> b) by congruence.
  assert (E : (if seqb (p_algo (s_par s)) (u "BFS") then BFS (s_net s) a b
      else if seqb (p_algo (s_par s)) (u "lean_BFS") then lean_BFS (s_net s) (current_es s) a b (p_max_gen (s_par s))
      else DFS (s_net s) (current_es s) a b (p_max_gen (s_par s))) = Ok (Some [a; b])).
  { destruct Ha as [Ha|(Ha & U & He & Hm & Hf & Ht & Hr)]; rewrite Ha.
    - change (seqb (u "BFS") (u "BFS")) with true. cbv iota. now apply (BFS_direct (s_net s) a b c).
    - change (seqb (u "lean_BFS") (u "BFS")) with false. change (seqb (u "lean_BFS") (u "lean_BFS")) with true. cbv iota. rewrite He.
      apply (lean_direct_back (s_net s) a b c); try assumption; [rewrite Na|rewrite Nb]; now apply simple_combo. }
  rewrite E. cbn [path_convs]. rewrite Hc. reflexivity.
Qed.
End E.

(** ** Values *)
Local Open Scope Qc_scope.
Lemma along_agree_in fv m R g : agrees_in fv m R g -> forall p a b l x,
  walk (registered g) a p b -> R (nname a) -> convs_along g p l ->
  exists y, run_convs fv l x = Ok y /\ quantity m (nname b) y = quantity m (nname a) x.
Proof.
  intros (Hk & Hcl & Hg) p a b l x W. revert l x. induction W as [a|a b p c Hab W IH]; intros l x Ra Hl.
  - destruct l as [|? ?]; [|easy]. exists x. auto.
  - destruct (walk_hd _ _ _ _ W) as (t & ->). destruct l as [|cc l]; [easy|]. destruct Hl as [Hc Hl].
    destruct (Hg a b cc x Hab Ra Hc) as (y & Ey & Hy). destruct (IH l y (Hcl a b Hab Ra) Hl) as (z & Ez & Hz).
    exists z. cbn [run_convs]. rewrite Ey. cbn [rbind]. split; [exact Ez|congruence].
Qed.
Lemma path_function_in fv m R g f t h x : agrees_in fv m R g -> R f -> path_function g f t h -> feval fv h x = Ok (rescale m f t x) /\ R t.
Proof.
  intros Hg Rf (a & b & p & l & Ha & Hb & [W _] & Hl & ->).
  apply get_node_spec in Ha as [_ <-]. apply get_node_spec in Hb as [_ <-].
  pose proof (closed_walk g R a p b (proj1 (proj2 Hg)) W Rf) as Rb.
  destruct (along_agree_in fv m R g Hg p a b l x W Rf Hl) as (y & Ey & Hy). cbn [feval]. rewrite Ey. split; [|exact Rb]. f_equal.
  apply rescale_unique; [now apply Hg|exact Hy].
Qed.
Lemma value_in R s cs v w f t uc m : fresh_session s -> par_enough (s_par s) -> Forall call_enough cs ->
  agrees_in (fv_of (do_calls cs s)) m R (s_net (do_calls cs s)) -> R f ->
  unit_name f -> unit_name t -> ordinary (s_dict s) f -> density_case (s_dict s) f t = false ->
  fst (convert (VNum v) (UStr f) (UStr t) uc (do_calls cs s)) = Ok (Some (CVal w)) -> w = rescale m f t v /\ R t.
Proof.
  intros F E C Hm Rf Hf Ht Ho Hd H. destruct (session s cs F E C) as (G & En & N & D).
  rewrite convert_value in H; try assumption; [|now rewrite D].
  destruct (simple_answer (do_calls cs s) uc f t) as [[h|]|e] eqn:Es; cbn [val_result finish_result] in H.
  - destruct (simple_answer_explained _ uc f t h G (proj1 Hf) (proj1 Ht) Es) as [Hq|Hp].
    + rewrite D, ordinary_quick in Hq by exact Ho. destruct (seqb f t) eqn:E'; [|discriminate]. injection Hq as <-.
      apply seqb_eq in E'. subst t. cbn in H. rewrite rescale_id by (now apply Hm). split; [congruence|exact Rf].
    + destruct (path_function_in _ m R _ f t h v Hm Rf Hp) as [E1 E2]. rewrite E1 in H. cbn in H. split; [congruence|exact E2].
  - destruct (p_raise _); discriminate.
  - discriminate.
Qed.
Lemma along_increasing fv R g : increasing_in fv R g -> forall p a b l x y x' y',
  walk (registered g) a p b -> R (nname a) -> convs_along g p l ->
  run_convs fv l x = Ok x' -> run_convs fv l y = Ok y' -> x < y -> x' < y'.
Proof.
  intros (Hcl & Hg) p a b l x y x' y' W. revert l x y. induction W as [a|a b p c Hab W IH]; intros l x y Ra Hl Hx Hy Hxy.
  - destruct l as [|? ?]; [|easy]. cbn in *. congruence.
  - destruct (walk_hd _ _ _ _ W) as (t & ->). destruct l as [|cc l]; [easy|]. destruct Hl as [Hc Hl]. cbn [run_convs] in *.
    destruct (ceval fv cc x) as [x1|] eqn:E1; [|discriminate]. destruct (ceval fv cc y) as [y1|] eqn:E2; [|discriminate]. cbn [rbind] in *.
    apply (IH l x1 y1); try assumption; [exact (Hcl a b Hab Ra)|]. exact (Hg a b cc Hab Ra Hc x y x1 y1 E1 E2 Hxy).
Qed.
Lemma order_in R s cs x y x' y' f t uc : fresh_session s -> par_enough (s_par s) -> Forall call_enough cs ->
  increasing_in (fv_of (do_calls cs s)) R (s_net (do_calls cs s)) -> R f ->
  unit_name f -> unit_name t -> ordinary (s_dict s) f -> density_case (s_dict s) f t = false ->
  fst (convert (VNum x) (UStr f) (UStr t) uc (do_calls cs s)) = Ok (Some (CVal x')) ->
  fst (convert (VNum y) (UStr f) (UStr t) uc (do_calls cs s)) = Ok (Some (CVal y')) ->
  x < y -> x' < y'.
Proof.
  intros F E C Hm Rf Hf Ht Ho Hd H1 H2 Hxy. destruct (session s cs F E C) as (G & En & N & D).
  rewrite convert_value in H1, H2; try assumption; try (now rewrite D).
  destruct (simple_answer (do_calls cs s) uc f t) as [[h|]|e] eqn:Es; cbn [val_result finish_result] in H1, H2.
  - destruct (simple_answer_explained _ uc f t h G (proj1 Hf) (proj1 Ht) Es) as [Hq|Hp].
    + rewrite D, ordinary_quick in Hq by exact Ho. destruct (seqb f t) eqn:E'; [|discriminate]. injection Hq as <-.
      cbn in H1, H2. congruence.
    + destruct Hp as (a & b & p & l & Ha & Hb & [W _] & Hl & ->). apply get_node_spec in Ha as [_ Ha]. subst f.
      cbn [feval] in H1, H2. destruct (run_convs _ l x) as [x1|] eqn:E1; [|discriminate]. destruct (run_convs _ l y) as [y1|] eqn:E2; [|discriminate].
      cbn in H1, H2. injection H1 as <-. injection H2 as <-. exact (along_increasing _ R _ Hm p a b l x y x1 y1 W Rf Hl E1 E2 Hxy).
  - destruct (p_raise _); discriminate.
  - discriminate.
Qed.
