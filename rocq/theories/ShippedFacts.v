(** * What the check of the shipped network means *)
From Coq Require Import String QArith Qcanon FMapPositive.
From Verif Require Import Py StrTools Network SearchSpec NetworkFacts Search SearchFacts SearchFacts2 DescFacts
  Hybrid HybridFacts Conv NetFacts2 Converter EngineSpec EngineFacts EngineFacts2 EngineFacts3 EngineFacts4 EngineFacts5 EngineFacts6
  ConsistSpec ConsistFacts CleanFacts Affine Demo EngineFacts7 EngineFacts8 RegionSpec RegionFacts SymAffine
  Dict Database FastDb Shipped ShippedSpec ShippedCert ShippedCheck RoundCheck.
Local Open Scope N_scope.

Lemma check_true : check (fast_loaded (V:=Qc)) = true.
Proof. vm_cast_no_check (eq_refl true). Qed.
Lemma or_empty_ok r d : r = Ok d -> or_empty r = d.
Proof. now intros ->. Qed.
Lemma shipped_is d : fast_loaded (V:=Qc) = Some d -> shipped_db = d.
Proof. intros H. exact (or_empty_ok loaded d (fast_loaded_sound d H)). Qed.
Lemma check_some o d' : (forall d, o = Some d -> d' = d) -> check o = true -> check_db cert d' && check_shapes cert d' = true.
Proof. destruct o as [d|]; [|discriminate]. intros H. now rewrite (H d eq_refl). Qed.
Lemma shipped_both : check_db cert shipped_db && check_shapes cert shipped_db = true.
Proof. exact (check_some (fast_loaded (V:=Qc)) shipped_db shipped_is check_true). Qed.
Lemma shipped_checked : check_db cert shipped_db = true.
Proof. exact (proj1 (andb_prop _ _ shipped_both)). Qed.
Lemma shipped_shapes : check_shapes cert shipped_db = true.
Proof. exact (proj2 (andb_prop _ _ shipped_both)). Qed.
Global Opaque shipped_db.

Lemma in_N_In n l : in_N n l = true <-> In n l.
Proof. unfold in_N. rewrite existsb_exists. split; [intros (x & Hx & E); apply N.eqb_eq in E; now subst|intros H; exists n; split; [exact H|apply N.eqb_refl]]. Qed.
Lemma listed_In l a b : listed l a b = true <-> In (a, b) l.
Proof.
  unfold listed. rewrite existsb_exists. split.
  - intros ([x y] & Hx & E). cbn in E. apply andb_true_iff in E as [E1 E2]. apply seqb_eq in E1, E2. now subst.
  - intros H. exists (a, b). split; [exact H|]. cbn. now rewrite !seqb_refl.
Qed.
Lemma distinct_by_NoDup {A} (eqb : A -> A -> bool) (l : list A) : (forall a, eqb a a = true) -> distinct_by eqb l = true -> NoDup l.
Proof.
  intros Hr. induction l as [|x l IH]; cbn [distinct_by]; [constructor|]. intros H. apply andb_true_iff in H as [H1 H2]. constructor; [|auto].
  intros K. apply negb_true_iff in H1. rewrite <- not_true_iff_false in H1. apply H1. apply existsb_exists. eauto.
Qed.
Lemma distinct_by_inj {A} (eqb : A -> A -> bool) (l : list A) : distinct_by eqb l = true -> forall a b, In a l -> In b l -> eqb a b = true -> eqb b a = true -> a = b.
Proof.
  induction l as [|x l IH]; cbn [distinct_by]; [easy|]. intros H a b Ha Hb E E'. apply andb_true_iff in H as [H1 H2].
  apply negb_true_iff in H1. rewrite <- not_true_iff_false, existsb_exists in H1.
  destruct Ha as [->|Ha], Hb as [->|Hb]; [reflexivity|exfalso; eauto|exfalso; eauto|eauto].
Qed.
Lemma comps_of_In (T : htab row) l c : In c (comps_of T l) <-> exists n r, In n l /\ hget n T = Some r /\ c_comp (r_cert r) = c.
Proof.
  unfold comps_of. assert (G : forall l acc, In c (fold_left (fun acc n => match hget n T with Some r => insert_N (c_comp (r_cert r)) acc | None => acc end) l acc)
    <-> In c acc \/ exists n r, In n l /\ hget n T = Some r /\ c_comp (r_cert r) = c).
  { clear l. induction l as [|x l IH]; intros acc; cbn [fold_left].
    - split; [auto|]. intros [H|(n & r & [] & _)]. exact H.
    - rewrite IH. destruct (hget x T) as [r|] eqn:E.
      + assert (K : In c (insert_N (c_comp (r_cert r)) acc) <-> c = c_comp (r_cert r) \/ In c acc).
        { unfold insert_N. destruct (in_N _ acc) eqn:E'; [|cbn; intuition congruence]. apply in_N_In in E'. split; [auto|]. intros [->|H]; auto. }
        rewrite K. split.
        * intros [[->|H]|(n & r' & H & H')]; [right; exists x, r; cbn; auto|auto|right; exists n, r'; cbn; tauto].
        * intros [H|(n & r' & [->|H] & H1 & H2)]; [auto| |right; eauto]. left. left. congruence.
      + split; [intros [H|(n & r' & H & H')]; [auto|right; exists n, r'; cbn; tauto]|].
        intros [H|(n & r' & [->|H] & H1 & H2)]; [auto|congruence|right; eauto]. }
  rewrite G. split; [intros [[]|H]; exact H|auto].
Qed.
Lemma mark_eqb_eq a b : mark_eqb a b = true <-> a = b.
Proof.
  destruct a as [a1 [a2 a3]], b as [b1 [b2 b3]]. unfold mark_eqb. cbn [fst snd]. rewrite !andb_true_iff, !N.eqb_eq. split.
  - intros [[-> ->] ->]. reflexivity. - intros [= -> -> ->]. auto.
Qed.
Lemma marks_of_In (T : htab row) l n r : In n l -> hget n T = Some r -> In (mark_of (r_cert r)) (marks_of T l).
Proof.
  unfold marks_of. intros Hn E.
  assert (I : forall m acc, In m (insert_mark m acc)).
  { intros m acc. unfold insert_mark. destruct (existsb (mark_eqb m) acc) eqn:E'; [|now left]. apply existsb_exists in E' as (y & Hy & Ey).
    apply mark_eqb_eq in Ey. now subst. }
  assert (J : forall m x acc, In x acc -> In x (insert_mark m acc)).
  { intros m x acc H. unfold insert_mark. destruct (existsb (mark_eqb m) acc); [exact H|now right]. }
  assert (G : forall l acc m, In m acc -> In m (fold_left (fun acc n => match hget n T with Some r => insert_mark (mark_of (r_cert r)) acc | None => acc end) l acc)).
  { clear - J. induction l as [|x l IH]; intros acc m H; cbn [fold_left]; [exact H|]. apply IH. destruct (hget x T); auto. }
  revert Hn. generalize (@nil mark). induction l as [|x l IH]; intros acc; [easy|]. intros [->|H]; cbn [fold_left].
  - rewrite E. apply G, I.
  - now apply IH.
Qed.

(** ** Paths through gates *)
Section Gate.
Context (edge : node -> node -> Prop) (gate : node -> N) (home : N -> node -> Prop).
Hypothesis step : forall a b, edge a b -> gate a = gate b \/ (home (gate a) a /\ home (gate b) b).
Hypothesis once : forall i a b, home i a -> home i b -> a = b.
Lemma gate_back a p b i : walk edge a p b -> gate a <> i -> gate b = i -> exists z, In z p /\ home i z.
Proof.
  induction 1 as [a|a a' p b H W IH]; intros Ha Hb; [contradiction|]. destruct (N.eq_dec (gate a') i) as [E|E].
  - destruct (step a a' H) as [K|[_ K]]; [congruence|]. exists a'. rewrite E in K. split; [|exact K]. right. destruct (walk_hd _ _ _ _ W) as (t & ->). now left.
  - destruct (IH E Hb) as (z & H1 & H2). exists z. split; [now right|exact H2].
Qed.
Lemma gate_stays a p b : walk edge a p b -> NoDup p -> gate a = gate b -> forall x, In x p -> gate x = gate b.
Proof.
  induction 1 as [a|a a' p b H W IH]; intros Hn E x Hx.
  - destruct Hx as [->|[]]. reflexivity.
  - inversion Hn as [|? ? N1 N2]; subst. destruct (N.eq_dec (gate a') (gate b)) as [K|K].
    + destruct Hx as [->|Hx]; [exact E|]. now apply IH.
    + exfalso. destruct (step a a' H) as [S|[S _]]; [congruence|]. destruct (gate_back a' p b (gate b) W K eq_refl) as (z & Z1 & Z2).
      rewrite E in S. rewrite (once _ _ _ S Z2) in N1. contradiction.
Qed.
End Gate.
Lemma gate_ok_home names a i b j : gate_ok names a i b j = true ->
  i = j \/ ((i <> 0 /\ nth_error names (Nat.pred (N.to_nat i)) = Some a) /\ (j <> 0 /\ nth_error names (Nat.pred (N.to_nat j)) = Some b)).
Proof.
  unfold gate_ok. destruct (i =? j) eqn:E; [apply N.eqb_eq in E; now left|]. destruct i as [|p], j as [|q]; try discriminate.
  destruct (nth_error names (Nat.pred (Pos.to_nat p))) as [x|] eqn:Ex; [|discriminate]. destruct (nth_error names (Nat.pred (Pos.to_nat q))) as [y|] eqn:Ey; [|discriminate].
  intros H. apply andb_true_iff in H as [H1 H2]. apply seqb_eq in H1, H2. subst. right. cbn [N.to_nat]. rewrite Ex, Ey. repeat split; discriminate.
Qed.

(** ** The table of the shipped network *)
Section Table.
Context (T : htab row) (g : net (conv Qc)) (cs : list crow) (fvfc : list N).
Hypothesis HT : tabulate (rows cs g) hempty = Some T.
Hypothesis HL : length cs = length (n_edges g).
Hypothesis HR : distinct_by N.eqb (roots cs) = true.
Hypothesis HE : forallb (check_entry T (n_next g) fvfc) (n_edges g) = true.

Lemma rows_fst : forall (es : list (entry (conv Qc))) l, length l = length es ->
  map fst (map (fun ec : entry (conv Qc) * crow => (nname (e_node (fst ec)), Row (snd ec) (fst ec))) (combine es l)) = map nname (map e_node es).
Proof. induction es as [|e es IH]; intros [|c l] H; try discriminate; [reflexivity|]. cbn. f_equal. apply IH. now injection H. Qed.
Lemma table_unique : unique_names g.
Proof.
  unfold unique_names, nodes. rewrite <- (rows_fst (n_edges g) cs HL). exact (proj1 (tabulate_spec _ _ _ HT)).
Qed.
Lemma table_In n r : hget n T = Some r <-> In (n, r) (rows cs g).
Proof. rewrite (proj2 (tabulate_spec _ _ _ HT) n r). rewrite hget_empty. split; [intros [H|H]; [exact H|discriminate]|auto]. Qed.
Lemma table_row n r : hget n T = Some r -> In (r_entry r) (n_edges g) /\ nname (e_node (r_entry r)) = n /\ In (r_cert r) cs.
Proof.
  rewrite table_In. intros H. apply in_map_iff in H as ([e c] & [= <- <-] & H). cbn [r_entry r_cert fst snd].
  split; [eapply in_combine_l; exact H|]. split; [reflexivity|eapply in_combine_r; exact H].
Qed.
Lemma in_combine_ex {X Y} : forall (l : list X) (l' : list Y) x, length l' = length l -> In x l -> exists y, In (x, y) (combine l l').
Proof.
  induction l as [|a l IH]; intros [|b l'] x H Hx; try discriminate; [easy|]. destruct Hx as [->|Hx]; [exists b; now left|].
  destruct (IH l' x ltac:(now injection H) Hx) as (y & Hy). exists y. now right.
Qed.
Lemma table_entry e : In e (n_edges g) -> exists c, hget (nname (e_node e)) T = Some (Row c e).
Proof.
  intros H. destruct (in_combine_ex (n_edges g) cs e HL H) as (c & Hc). exists c. apply table_In.
  apply in_map_iff. exists (e, c). auto.
Qed.
Lemma entry_checked e : In e (n_edges g) -> check_entry T (n_next g) fvfc e = true.
Proof. intros H. exact (proj1 (forallb_forall _ _) HE e H). Qed.
Lemma entry_facts e : In e (n_edges g) -> exists c, hget (nname (e_node e)) T = Some (Row c e)
  /\ nid (e_node e) < n_next g /\ length (e_convs e) = length (e_kids e) /\ NoDup (e_kids e)
  /\ (forall b k, In (b, k) (combine (e_kids e) (e_convs e)) -> check_kid T fvfc e c b k = true)
  /\ check_parent T e c = true /\ (c_depth c <= max_depth)%nat /\ Qeq_bool (fst (fst (c_size c))) 0 = false.
Proof.
  intros H. destruct (table_entry e H) as (c & Hc). exists c. split; [exact Hc|]. pose proof (entry_checked e H) as K. unfold check_entry in K.
  rewrite Hc in K. cbn [r_cert] in K. rewrite !andb_true_iff in K. destruct K as (((K1 & K2) & K3) & (((K4 & K5) & K6) & K7)).
  split; [now apply N.ltb_lt|]. split; [now apply Nat.eqb_eq|]. split; [exact (distinct_by_NoDup neqb _ neqb_refl K3)|]. split.
  { intros b k Hb. exact (proj1 (forallb_forall _ _) K4 (b, k) Hb). }
  split; [exact K5|]. split; [now apply Nat.leb_le|]. now apply negb_true_iff.
Qed.
Lemma kid_facts e c b k : In e (n_edges g) -> hget (nname (e_node e)) T = Some (Row c e) -> In (b, k) (combine (e_kids e) (e_convs e)) ->
  exists c' e', hget (nname b) T = Some (Row c' e') /\ In e' (n_edges g) /\ e_node e' = b /\ c_comp c' = c_comp c
  /\ gate_ok gates1 (nname (e_node e)) (c_g1 c) (nname b) (c_g1 c') = true /\ gate_ok gates2 (nname (e_node e)) (c_g2 c) (nname b) (c_g2 c') = true
  /\ (In (nname (e_node e), nname b) disagreeing -> c_g1 c <> c_g1 c' \/ c_g2 c <> c_g2 c')
  /\ (~ In (nname (e_node e), nname b) disagreeing -> size_ok k (c_size c) (c_size c') = true)
  /\ (slope_pos k = false \/ In (nname (e_node e), nname b) decreasing)
  /\ (In (e_node e) (e_kids e') \/ In (nname (e_node e), nname b) one_way)
  /\ (no_fvf k = true \/ In (c_comp c) fvfc).
Proof.
  intros H Hc Hb. destruct (entry_facts e H) as (c0 & Hc0 & _ & _ & _ & Hk & _). assert (c0 = c) as -> by congruence.
  specialize (Hk b k Hb). unfold check_kid in Hk. destruct (hget (nname b) T) as [[c' e']|] eqn:E; [|discriminate].
  cbn [r_cert r_entry] in Hk. rewrite !andb_true_iff in Hk. destruct Hk as (((((((K1 & K2) & K3) & K4) & K5) & K6) & K7) & K8).
  apply neqb_eq in K1. apply N.eqb_eq in K2. destruct (table_row _ _ E) as (R1 & _). cbn in R1.
  exists c', e'. split; [reflexivity|]. split; [exact R1|]. split; [exact K1|]. split; [exact K2|]. split; [exact K3|]. split; [exact K4|].
  split. { intros Hd. apply listed_In in Hd. rewrite Hd in K5. apply negb_true_iff, andb_false_iff in K5. destruct K5 as [K9|K9]; apply N.eqb_neq in K9; auto. }
  split. { intros Hd. rewrite <- listed_In in Hd. apply not_true_iff_false in Hd. now rewrite Hd in K5. }
  split. { destruct (slope_pos k); [right; now apply listed_In|now left]. }
  split. { destruct (nmem _ _) eqn:En; [left; now apply nmem_In|right; now apply listed_In]. }
  destruct (no_fvf k); [now left|right; now apply in_N_In].
Qed.
Lemma table_wf : wf_net g.
Proof.
  split; [eapply NoDup_map_inv; exact table_unique|]. split.
  - intros n Hn. apply in_map_iff in Hn as (e & <- & He). destruct (entry_facts e He) as (c & _ & H & _). exact H.
  - intros e He. destruct (entry_facts e He) as (c & Hc & _ & Hl & Hn & Hk & _). split; [exact Hn|]. split; [exact Hl|].
    intros k Hkk. destruct (in_combine_ex (e_kids e) (e_convs e) k Hl Hkk) as (x & Hx).
    destruct (kid_facts e c k x He Hc Hx) as (c' & e' & _ & H1 & H2 & _). rewrite <- H2. now apply in_map.
Qed.
(** registered conversions *)
Lemma conversion_entry a b k : conversion g a b = Ok k -> exists e, In e (n_edges g) /\ e_node e = a /\ In (b, k) (combine (e_kids e) (e_convs e)).
Proof.
  unfold conversion. destruct (lookup g a) as [e|] eqn:L; [|discriminate]. apply lookup_In in L as [He <-].
  destruct (index_of b (e_kids e)) as [i|] eqn:Ei; [|discriminate]. apply Affine.index_nth in Ei.
  destruct (nth_error (e_convs e) i) as [x|] eqn:Ex; [|discriminate]. intros [= <-]. exists e. split; [exact He|]. split; [reflexivity|].
  eapply nth_combine; eauto.
Qed.
Lemma registered_entry a b : registered g a b -> exists e k, In e (n_edges g) /\ e_node e = a /\ In (b, k) (combine (e_kids e) (e_convs e)).
Proof.
  intros (ks & Hk & Hb). unfold children_of in Hk. destruct (lookup g a) as [e|] eqn:L; [|discriminate]. injection Hk as <-.
  apply lookup_In in L as [He <-]. destruct (entry_facts e He) as (c & _ & _ & Hl & _).
  destruct (in_combine_ex (e_kids e) (e_convs e) b Hl Hb) as (x & Hx). exists e, x. auto.
Qed.
Lemma entry_registered e b : In e (n_edges g) -> In b (e_kids e) -> registered g (e_node e) b.
Proof.
  intros He Hb. exists (e_kids e). split; [|exact Hb]. unfold children_of, lookup. destruct (find _ _) as [e'|] eqn:F.
  - apply find_some in F as [F1 F2]. apply neqb_eq in F2. destruct (table_entry e He) as (c & Hc). destruct (table_entry e' F1) as (c' & Hc').
    rewrite <- F2 in Hc'. congruence.
  - pose proof (find_none _ _ F e He) as X. cbn in X. now rewrite neqb_refl in X.
Qed.
Lemma entry_conversion e b k : In e (n_edges g) -> In (b, k) (combine (e_kids e) (e_convs e)) -> conversion g (e_node e) b = Ok k.
Proof.
  intros He Hb. destruct (entry_facts e He) as (c & _ & _ & Hl & Hn & _).
  assert (L : lookup g (e_node e) = Some e).
  { destruct (entry_registered e b He (in_combine_l _ _ _ _ Hb)) as (ks & Hk & _). unfold children_of in Hk.
    destruct (lookup g (e_node e)) as [e'|] eqn:L; [|discriminate]. apply lookup_In in L as [L1 L2].
    destruct (table_entry e He) as (c1 & Hc1). destruct (table_entry e' L1) as (c2 & Hc2). rewrite L2 in Hc2. congruence. }
  unfold conversion. rewrite L. clear - Hb Hn Hl. revert Hb Hn Hl. generalize (e_convs e). induction (e_kids e) as [|x l IH]; intros [|y l'] Hb Hn Hl; try discriminate; [easy|].
  cbn [index_of]. inversion Hn as [|? ? Hx Hn']; subst. destruct Hb as [Hb|Hb].
  - injection Hb as -> ->. now rewrite neqb_refl.
  - assert (Hne : neqb x b = false). { apply neqb_neq. intros ->. apply Hx. eapply in_combine_l; exact Hb. }
    rewrite Hne. specialize (IH l' Hb Hn' ltac:(now injection Hl)). destruct (index_of b l) as [i|]; [|discriminate]. exact IH.
Qed.

(** ** Components *)
Definition comp_of (x : str) : option N := match hget x T with Some r => Some (c_comp (r_cert r)) | None => None end.
Lemma get_node_entry x a : get_node g x = Ok a -> exists e c, In e (n_edges g) /\ e_node e = a /\ nname a = x /\ hget x T = Some (Row c e).
Proof.
  intros H. apply get_node_spec in H as [H1 H2]. apply in_map_iff in H1 as (e & E1 & E2). destruct (table_entry e E2) as (c & Hc).
  rewrite E1, H2 in Hc. exists e, c. auto.
Qed.
Lemma row_node x r : hget x T = Some r -> get_node g x = Ok (e_node (r_entry r)).
Proof.
  intros H. destruct (table_row x r H) as (H1 & H2 & _).
  assert (K : exists n, get_node g x = Ok n) by (apply get_node_ok; exists (e_node (r_entry r)); split; [now apply in_map|exact H2]).
  destruct K as (n & K). destruct (get_node_entry x n K) as (e & c & E1 & E2 & E3 & E4). rewrite K. f_equal. rewrite <- E2.
  assert (r = Row c e) as -> by congruence. reflexivity.
Qed.
Lemma registered_comp a b : registered g a b -> comp_of (nname b) = comp_of (nname a) /\ comp_of (nname a) <> None.
Proof.
  intros H. destruct (registered_entry a b H) as (e & k & He & Ha & Hb). subst a. destruct (table_entry e He) as (c & Hc).
  destruct (kid_facts e c b k He Hc Hb) as (c' & e' & H1 & _ & _ & H2 & _). unfold comp_of. rewrite Hc, H1. cbn [r_cert]. split; [congruence|discriminate].
Qed.
Lemma walk_comp a p b : walk (registered g) a p b -> comp_of (nname b) = comp_of (nname a).
Proof. induction 1 as [a|a b p c H W IH]; [reflexivity|]. rewrite IH. now apply registered_comp. Qed.
(** to the root of the component and back *)
Lemma to_root : forall n e c, In e (n_edges g) -> hget (nname (e_node e)) T = Some (Row c e) -> c_depth c = n ->
  exists r cr p q, In r (n_edges g) /\ hget (nname (e_node r)) T = Some (Row cr r) /\ c_depth cr = O /\ c_comp cr = c_comp c
    /\ walk (registered g) (e_node e) p (e_node r) /\ walk (registered g) (e_node r) q (e_node e) /\ length p = S n /\ length q = S n.
Proof.
  induction n as [|n IH]; intros e c He Hc Hn.
  - exists e, c, [e_node e], [e_node e]. repeat (split; [first [assumption|reflexivity|constructor]|]). reflexivity.
  - destruct (entry_facts e He) as (c0 & Hc0 & _ & Hl & _ & _ & Hp & _). assert (c0 = c) as -> by congruence. unfold check_parent in Hp. rewrite Hn in Hp.
    destruct (nth_error (e_kids e) (c_parent c)) as [x|] eqn:Ex; [|discriminate]. apply nth_error_In in Ex.
    destruct (in_combine_ex (e_kids e) (e_convs e) x Hl Ex) as (k & Hk).
    destruct (kid_facts e c x k He Hc Hk) as (c' & e' & H1 & H2 & H3 & H4 & _). rewrite H1 in Hp. cbn [r_cert r_entry] in Hp.
    apply andb_true_iff in Hp as [P1 P2]. apply Nat.eqb_eq in P1. apply nmem_In in P2.
    rewrite <- H3 in H1. destruct (IH e' c' H2 H1 P1) as (r & cr & p & q & R1 & R2 & R3 & R4 & R5 & R6 & R7 & R8).
    exists r, cr, (e_node e :: p), (q ++ [e_node e]). split; [exact R1|]. split; [exact R2|]. split; [exact R3|]. split; [congruence|].
    split. { econstructor; [|exact R5]. rewrite H3. now apply entry_registered. }
    split. { eapply walk_snoc; [exact R6|]. now apply entry_registered. }
    split; [cbn; now rewrite R7|]. rewrite app_length. cbn. lia.
Qed.
Lemma root_unique r cr r' cr' : In r (n_edges g) -> hget (nname (e_node r)) T = Some (Row cr r) -> c_depth cr = O ->
  In r' (n_edges g) -> hget (nname (e_node r')) T = Some (Row cr' r') -> c_depth cr' = O -> c_comp cr = c_comp cr' -> r = r'.
Proof.
  intros H1 H2 H3 H4 H5 H6 H7. rewrite table_In in H2, H5.
  assert (G : forall (es : list (entry (conv Qc))) l r r' cr cr', In (r, cr) (combine es l) -> In (r', cr') (combine es l) -> c_depth cr = O -> c_depth cr' = O -> c_comp cr = c_comp cr' ->
    distinct_by N.eqb (flat_map (fun r => match c_depth r with O => [c_comp r] | _ => [] end) l) = true -> r = r').
  { clear. induction es as [|e es IH]; intros [|c cs] r r' cr cr' Hr Hr' D D' E U; try easy. cbn [combine In flat_map] in *.
    assert (K : forall x cx, In (x, cx) (combine es cs) -> c_depth cx = O -> In (c_comp cx) (flat_map (fun r => match c_depth r with O => [c_comp r] | _ => [] end) cs)).
    { intros x cx Hx Dx. apply in_flat_map. exists cx. split; [eapply in_combine_r; exact Hx|]. rewrite Dx. now left. }
    assert (U' : distinct_by N.eqb (flat_map (fun r => match c_depth r with O => [c_comp r] | _ => [] end) cs) = true).
    { destruct (c_depth c); cbn [Datatypes.app distinct_by] in U; [|exact U]. apply andb_true_iff in U. tauto. }
    assert (F : forall x cx, (e, c) = (r, cr) -> In (x, cx) (combine es cs) -> c_depth c = O -> c_depth cx = O -> c_comp c = c_comp cx -> False).
    { intros x cx _ Hx Dc Dx Ex. rewrite Dc in U. cbn [Datatypes.app distinct_by] in U. apply andb_true_iff in U as [U _]. apply negb_true_iff in U.
      rewrite <- not_true_iff_false in U. apply U. apply existsb_exists. exists (c_comp cx). split; [eapply K; eauto|]. now apply N.eqb_eq. }
    destruct Hr as [Hr|Hr], Hr' as [Hr'|Hr'].
    - congruence.
    - exfalso. injection Hr as -> ->. eapply F; eauto.
    - exfalso. injection Hr' as -> ->. rewrite D' in U. cbn [Datatypes.app distinct_by] in U. apply andb_true_iff in U as [U _]. apply negb_true_iff in U.
      rewrite <- not_true_iff_false in U. apply U. apply existsb_exists. exists (c_comp cr). split; [eapply K; eauto|]. apply N.eqb_eq. congruence.
    - eapply IH; eauto. }
  assert (X : forall r c n, In (n, Row c r) (rows cs g) -> In (r, c) (combine (n_edges g) cs)).
  { intros x c n Hx. apply in_map_iff in Hx as ([e y] & [= _ <- <-] & Hx). exact Hx. }
  eapply (G (n_edges g) cs); eauto.
Qed.
Lemma same_comp_walk x y r r' : hget x T = Some r -> hget y T = Some r' -> c_comp (r_cert r) = c_comp (r_cert r') ->
  exists p, walk (registered g) (e_node (r_entry r)) p (e_node (r_entry r')) /\ (length p <= 27)%nat.
Proof.
  intros H H' E. destruct (table_row x r H) as (A1 & A2 & _). destruct (table_row y r' H') as (B1 & B2 & _).
  destruct r as [c e], r' as [c' e']. cbn [r_cert r_entry] in *. rewrite <- A2 in H. rewrite <- B2 in H'.
  destruct (to_root _ e c A1 H eq_refl) as (z & cz & p & q & Z1 & Z2 & Z3 & Z4 & Z5 & Z6 & Z7 & Z8).
  destruct (to_root _ e' c' B1 H' eq_refl) as (z' & cz' & p' & q' & Y1 & Y2 & Y3 & Y4 & Y5 & Y6 & Y7 & Y8).
  assert (z = z') as <- by (eapply root_unique; eauto; congruence).
  destruct (entry_facts e A1) as (c1 & C1 & _ & _ & _ & _ & _ & D1 & _). assert (c1 = c) as -> by congruence.
  destruct (entry_facts e' B1) as (c2 & C2 & _ & _ & _ & _ & _ & D2 & _). assert (c2 = c') as -> by congruence.
  destruct (walk_hd _ _ _ _ Y6) as (t & Et). exists (p ++ t). subst q'. split.
  - assert (G : forall a p b, walk (registered g) a p b -> forall t c, walk (registered g) b (b :: t) c -> walk (registered g) a (p ++ t) c).
    { clear. induction 1 as [a|a b p c Hab W IH]; intros t d Hd; [exact Hd|]. cbn [Datatypes.app]. econstructor; [exact Hab|]. now apply IH. }
    exact (G _ _ _ Z5 _ _ Y6).
  - rewrite app_length. cbn in Y8. unfold max_depth in *. lia.
Qed.
Lemma linked_comp x y : (exists a b, get_node g x = Ok a /\ get_node g y = Ok b /\ reachable (registered g) a b) <-> exists c, comp_of x = Some c /\ comp_of y = Some c.
Proof.
  split.
  - intros (a & b & Ha & Hb & p & Hp). destruct (get_node_entry x a Ha) as (e & c & E1 & E2 & E3 & E4). destruct (get_node_entry y b Hb) as (e' & c' & F1 & F2 & F3 & F4).
    exists (c_comp c). assert (K : comp_of x = Some (c_comp c)) by (unfold comp_of; now rewrite E4). split; [exact K|].
    rewrite <- F3, (walk_comp a p b Hp), E3. exact K.
  - intros (c & H1 & H2). unfold comp_of in H1, H2. destruct (hget x T) as [r|] eqn:E1; [|discriminate]. destruct (hget y T) as [r'|] eqn:E2; [|discriminate].
    destruct (same_comp_walk x y r r' E1 E2 ltac:(congruence)) as (p & Hp & _).
    exists (e_node (r_entry r)), (e_node (r_entry r')). split; [now apply row_node|]. split; [now apply row_node|]. now exists p.
Qed.

(** ** Gates *)
Definition mark_at (x : str) : option mark := match hget x T with Some r => Some (mark_of (r_cert r)) | None => None end.
Definition g1_at (n : node) : N := match hget (nname n) T with Some r => c_g1 (r_cert r) | None => 0 end.
Definition g2_at (n : node) : N := match hget (nname n) T with Some r => c_g2 (r_cert r) | None => 0 end.
Definition home (names : list str) (i : N) (n : node) : Prop := In n (nodes g) /\ nth_error names (Nat.pred (N.to_nat i)) = Some (nname n).
Lemma same_name a b : In a (nodes g) -> In b (nodes g) -> nname a = nname b -> a = b.
Proof.
  intros Ha Hb E. apply in_map_iff in Ha as (e & <- & He). apply in_map_iff in Hb as (e' & <- & He').
  destruct (table_entry e He) as (c & Hc). destruct (table_entry e' He') as (c' & Hc'). rewrite E in Hc. congruence.
Qed.
Lemma home_once names i a b : home names i a -> home names i b -> a = b.
Proof. intros [H1 H2] [H3 H4]. apply same_name; congruence. Qed.
Lemma edge_nodes a b : registered g a b -> In a (nodes g) /\ In b (nodes g).
Proof.
  intros H. destruct (registered_entry a b H) as (e & k & He & Ha & Hb). subst a. split; [now apply in_map|].
  destruct (table_entry e He) as (c & Hc). destruct (kid_facts e c b k He Hc Hb) as (c' & e' & _ & H2 & H3 & _). rewrite <- H3. now apply in_map.
Qed.
Lemma gate_step a b : registered g a b ->
  (g1_at a = g1_at b \/ (home gates1 (g1_at a) a /\ home gates1 (g1_at b) b)) /\ (g2_at a = g2_at b \/ (home gates2 (g2_at a) a /\ home gates2 (g2_at b) b)).
Proof.
  intros H. destruct (edge_nodes a b H) as [Na Nb]. destruct (registered_entry a b H) as (e & k & He & Ha & Hb). subst a.
  destruct (table_entry e He) as (c & Hc). destruct (kid_facts e c b k He Hc Hb) as (c' & e' & H1 & _ & _ & _ & G1 & G2 & _).
  unfold g1_at, g2_at, home. rewrite Hc, H1. cbn [r_cert]. apply gate_ok_home in G1, G2. tauto.
Qed.
Lemma disagreeing_gates a b : registered g a b -> In (nname a, nname b) disagreeing -> g1_at a <> g1_at b \/ g2_at a <> g2_at b.
Proof.
  intros H. destruct (registered_entry a b H) as (e & k & He & Ha & Hb). subst a.
  destruct (table_entry e He) as (c & Hc). destruct (kid_facts e c b k He Hc Hb) as (c' & e' & H1 & _ & _ & _ & _ & _ & G & _).
  unfold g1_at, g2_at. rewrite Hc, H1. exact G.
Qed.
Lemma mark_gates a b : mark_at (nname a) = mark_at (nname b) -> g1_at a = g1_at b /\ g2_at a = g2_at b.
Proof.
  unfold mark_at, g1_at, g2_at. destruct (hget (nname a) T) as [[c e]|], (hget (nname b) T) as [[c' e']|]; try discriminate; [|auto].
  unfold mark_of. cbn [r_cert]. intros [= _ -> ->]. auto.
Qed.
Lemma follows_edge l : forall p a b, walk (registered g) a p b -> follows l p -> exists x y, In x p /\ In y p /\ registered g x y /\ In (nname x, nname y) l.
Proof.
  intros p a b W. induction W as [a|a a' p b H W IH]; [intros []|]. destruct (walk_hd _ _ _ _ W) as (t & ->). cbn [follows]. intros [K|K].
  - exists a, a'. split; [now left|]. split; [right; now left|]. auto.
  - destruct (IH K) as (x & y & H1 & H2 & H3). exists x, y. split; [now right|]. split; [now right|exact H3].
Qed.
Lemma gates_safe a p b : simple_path (registered g) a p b -> mark_at (nname a) = mark_at (nname b) -> ~ follows disagreeing p.
Proof.
  intros [W N] M F. destruct (mark_gates a b M) as [M1 M2].
  pose proof (gate_stays _ g1_at (home gates1) (fun x y h => proj1 (gate_step x y h)) (home_once gates1) a p b W N M1) as S1.
  pose proof (gate_stays _ g2_at (home gates2) (fun x y h => proj2 (gate_step x y h)) (home_once gates2) a p b W N M2) as S2.
  destruct (follows_edge _ _ _ _ W F) as (x & y & Hx & Hy & Hr & Hd). pose proof (disagreeing_gates x y Hr Hd) as D.
  rewrite (S1 x Hx), (S1 y Hy), (S2 x Hx), (S2 y Hy) in D. tauto.
Qed.

(** ** Sizes *)
Definition size_at (x : str) : csize := match hget x T with Some r => c_size (r_cert r) | None => (1%Q, 0%Z, 0%Q) end.
Lemma size_ne b x : b <> 0%Qc -> k_of (cscale size_at b) x <> 0%Qc.
Proof.
  intros Hb. unfold cscale, size_at. cbn [k_of]. destruct (hget x T) as [r|] eqn:E.
  - destruct (table_row x r E) as (H1 & H2 & _). destruct (entry_facts _ H1) as (c & Hc & _ & _ & _ & _ & _ & _ & Hk).
    rewrite H2, E in Hc. injection Hc as ->. cbn [r_cert]. destruct (c_size c) as [[k e] o]. cbn in Hk. apply Q2Qc_ne in Hk.
    intros K. apply Qcmult_integral in K. destruct K as [K|K]; [contradiction|]. now apply (bpow_ne b e Hb).
  - rewrite bpow_0. discriminate.
Qed.
Lemma edge_quantity fvb a b k x : fvb <> 0%Qc -> conversion g a b = Ok k -> ~ In (nname a, nname b) disagreeing ->
  exists y, ceval (Ok fvb) k x = Ok y /\ quantity (cscale size_at fvb) (nname b) y = quantity (cscale size_at fvb) (nname a) x.
Proof.
  intros Hf Hc Hd. destruct (conversion_entry a b k Hc) as (e & He & Ha & Hb). subst a. destruct (table_entry e He) as (c & Ec).
  destruct (kid_facts e c b k He Ec Hb) as (c' & e' & H1 & _ & _ & _ & _ & _ & _ & S & _).
  apply (size_ok_sound size_at); [exact Hf|]. unfold size_at. rewrite Ec, H1. now apply S.
Qed.
Lemma walk_quantity fvb : fvb <> 0%Qc -> forall p a b l x, walk (registered g) a p b -> convs_along g p l -> ~ follows disagreeing p ->
  exists y, run_convs (Ok fvb) l x = Ok y /\ quantity (cscale size_at fvb) (nname b) y = quantity (cscale size_at fvb) (nname a) x.
Proof.
  intros Hf p a b l x W. revert l x. induction W as [a|a a' p b Hab W IH]; intros l x Hl Hn.
  - destruct l as [|? ?]; [|easy]. exists x. auto.
  - destruct (walk_hd _ _ _ _ W) as (t & ->). destruct l as [|cc l]; [easy|]. destruct Hl as [Hc Hl]. cbn [follows] in Hn.
    destruct (edge_quantity fvb a a' cc x Hf Hc ltac:(tauto)) as (y & Ey & Hy). destruct (IH l y Hl ltac:(tauto)) as (z & Ez & Hz).
    exists z. cbn [run_convs]. rewrite Ey. cbn [rbind]. split; [exact Ez|congruence].
Qed.
Lemma walk_increasing fv : (forall b, fv = Ok b -> (0 < b)%Qc) -> forall p a b l x y x' y', walk (registered g) a p b -> convs_along g p l -> ~ follows decreasing p ->
  run_convs fv l x = Ok x' -> run_convs fv l y = Ok y' -> (x < y)%Qc -> (x' < y')%Qc.
Proof.
  intros Hf p a b l x y x' y' W. revert l x y. induction W as [a|a a' p b Hab W IH]; intros l x y Hl Hn Hx Hy Hxy.
  - destruct l as [|? ?]; [|easy]. cbn in *. congruence.
  - destruct (walk_hd _ _ _ _ W) as (t & ->). destruct l as [|cc l]; [easy|]. destruct Hl as [Hc Hl]. cbn [run_convs] in *. cbn [follows] in Hn.
    destruct (ceval fv cc x) as [x1|] eqn:E1; [|discriminate]. destruct (ceval fv cc y) as [y1|] eqn:E2; [|discriminate]. cbn [rbind] in *.
    apply (IH l x1 y1); try assumption; [tauto|]. destruct (conversion_entry a a' cc Hc) as (e & He & Ha & Hb). subst a. destruct (table_entry e He) as (c & Ec).
    destruct (kid_facts e c a' cc He Ec Hb) as (c' & e' & _ & _ & _ & _ & _ & _ & _ & _ & S & _). destruct S as [S|S]; [|tauto].
    exact (slope_increasing fv cc Hf S x y x1 y1 E1 E2 Hxy).
Qed.
Lemma decreasing_comp a p b : walk (registered g) a p b -> follows decreasing p -> exists c, comp_of (nname a) = Some c /\ In c (comps_of T (map fst decreasing)).
Proof.
  intros W F. destruct (follows_edge _ _ _ _ W F) as (x & y & Hx & _ & Hr & Hd).
  assert (G : forall p a b, walk (registered g) a p b -> forall x, In x p -> comp_of (nname x) = comp_of (nname a)).
  { clear - HT HL HE. intros p a b W. induction W as [a|a a' p b Hab W IH]; intros x Hx; [destruct Hx as [->|[]]; reflexivity|].
    destruct Hx as [->|Hx]; [reflexivity|]. rewrite (IH x Hx). now apply registered_comp. }
  destruct (registered_comp x y Hr) as [_ K]. rewrite (G _ _ _ W x Hx) in K. destruct (comp_of (nname a)) as [c|] eqn:E; [|contradiction]. exists c. split; [reflexivity|].
  pose proof (G _ _ _ W x Hx) as Ex. rewrite E in Ex. unfold comp_of in Ex. destruct (hget (nname x) T) as [r|] eqn:Er; [|discriminate]. injection Ex as <-.
  apply comps_of_In. exists (nname x), r. split; [|auto]. apply in_map_iff. exists (nname x, nname y). auto.
Qed.

(** ** Regular components *)
Definition regular_comp (c : N) : Prop := ~ In c fvfc /\ ~ In c (comps_of T (map fst (one_way ++ decreasing))).
Definition in_regular (x : str) : Prop := exists c, comp_of x = Some c /\ regular_comp c.
Lemma regular_closed : closed g in_regular.
Proof. intros a b H (c & H1 & H2). exists c. split; [|exact H2]. now rewrite (proj1 (registered_comp a b H)). Qed.
Lemma regular_symmetric : symmetric_in g in_regular.
Proof.
  intros a b H (c0 & H1 & H2). destruct (registered_entry a b H) as (e & k & He & Ha & Hb). subst a. destruct (table_entry e He) as (c & Ec).
  destruct (kid_facts e c b k He Ec Hb) as (c' & e' & _ & K1 & K2 & _ & _ & _ & _ & _ & _ & S & _). destruct S as [S|S].
  - rewrite <- K2. now apply entry_registered.
  - exfalso. apply (proj2 H2). unfold comp_of in H1. rewrite Ec in H1. injection H1 as <-. apply comps_of_In.
    exists (nname (e_node e)), (Row c e). split; [|auto]. apply in_map_iff. exists (nname (e_node e), nname b). split; [reflexivity|]. apply in_or_app. now left.
Qed.
Lemma regular_evaluates fv : forall p a b l x, walk (registered g) a p b -> in_regular (nname a) -> convs_along g p l -> exists y, run_convs fv l x = Ok y.
Proof.
  intros p a b l x W. revert l x. induction W as [a|a a' p b Hab W IH]; intros l x Ra Hl.
  - destruct l as [|? ?]; [|easy]. exists x. auto.
  - destruct (walk_hd _ _ _ _ W) as (t & ->). destruct l as [|cc l]; [easy|]. destruct Hl as [Hc Hl]. cbn [run_convs].
    destruct (conversion_entry a a' cc Hc) as (e & He & Ha & Hb). subst a. destruct (table_entry e He) as (c & Ec).
    destruct (kid_facts e c a' cc He Ec Hb) as (c' & e' & _ & _ & _ & _ & _ & _ & _ & _ & S & _ & F).
    pose proof Ra as (c0 & H1 & H2 & H3). unfold comp_of in H1. rewrite Ec in H1. injection H1 as <-. cbn [r_cert] in *.
    destruct F as [F|F]; [|contradiction]. destruct S as [S|S].
    + unfold slope_pos in S. destruct (saff cc) as [m|] eqn:Es; [|discriminate]. rewrite (no_fvf_any fv (Ok 1%Qc) cc x F).
      rewrite (saff_sound 1%Qc cc ltac:(discriminate) m Es x). cbn [rbind]. apply IH; [|exact Hl]. exact (regular_closed _ _ Hab Ra).
    + exfalso. apply H3. apply comps_of_In. exists (nname (e_node e)), (Row c e). split; [|auto]. apply in_map_iff. exists (nname (e_node e), nname a'). split; [reflexivity|].
      apply in_or_app. now right.
Qed.
(** ** Direct conversions *)
Lemma edge_of_conversion f t k : edge_of T f t = Some k -> exists a b, get_node g f = Ok a /\ get_node g t = Ok b /\ conversion g a b = Ok k.
Proof.
  unfold edge_of. destruct (hget f T) as [r|] eqn:Er; [|discriminate]. destruct (find _ _) as [[b k']|] eqn:F; [|discriminate]. intros [= ->].
  apply find_some in F as [F1 F2]. cbn [fst] in F2. apply seqb_eq in F2. destruct (table_row f r Er) as (H1 & H2 & _). destruct r as [c e]. cbn [r_entry] in *.
  rewrite <- H2 in Er. destruct (kid_facts e c b k H1 Er F1) as (c' & e' & K1 & _ & K3 & _).
  exists (e_node e), b. split; [rewrite <- H2; exact (row_node _ _ Er)|]. split; [|now apply entry_conversion].
  rewrite <- F2. pose proof (row_node _ _ K1) as X. cbn in X. now rewrite K3 in X.
Qed.
End Table.
