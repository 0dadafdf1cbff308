(** * Conversions in sessions of the shipped database *)
From Coq Require Import String QArith Qcanon FMapPositive.
From Verif Require Import Py StrTools Network SearchSpec NetworkFacts Search SearchFacts SearchFacts2 DescFacts
  Hybrid HybridFacts Conv ConvFacts NetFacts2 Converter EngineSpec EngineFacts EngineFacts2 EngineFacts3 EngineFacts4 EngineFacts5 EngineFacts6
  ConsistSpec ConsistFacts CleanFacts Affine Demo EngineFacts7 EngineFacts8 RegionSpec RegionFacts SymAffine
  Dict Database FastDb Shipped ShippedSpec ShippedCert ShippedCheck ShippedFacts.
Local Open Scope N_scope.

(** ** The dictionary that the converter reads *)
Lemma dg_ds k k' l d : seqb (u k) (u k') = false -> dg k (ds k' l d) = dg k d.
Proof. intros H. unfold dg, ds. rewrite dget_dset. now rewrite H. Qed.
Lemma dget_complete k : forall d, dget k (complete_products d) = option_map complete (dget k d).
Proof.
  induction d as [|[k' l] d IH]; [reflexivity|]. unfold complete_products in *. cbn [map dget]. destruct (seqb k k'); [reflexivity|exact IH].
Qed.
Lemma dg_complete k d : dg k (complete_products d) = complete (dg k d).
Proof. unfold dg. rewrite dget_complete. now destruct (dget (u k) d). Qed.
Definition read_as_is (k : string) : bool :=
  forallb (fun k' => negb (seqb (u k) (u k'))) ["Rate"; "VolumeRatio"; "Density"; "Velocity"; "Power"; "Frequency"; "Conductance"; "Capacitance"; "Charge";
    "Voltage"; "Current"; "Resistance"; "Pressure"; "ProductivityIndex"; "PressureGradient"; "TemperatureGradient"; "Acceleration"]%string.
Lemma as_is k k' l d : read_as_is k = true -> In k' ["Rate"; "VolumeRatio"; "Density"; "Velocity"; "Power"; "Frequency"; "Conductance"; "Capacitance"; "Charge";
    "Voltage"; "Current"; "Resistance"; "Pressure"; "ProductivityIndex"; "PressureGradient"; "TemperatureGradient"; "Acceleration"]%string ->
  dg k (ds k' l d) = dg k d.
Proof. intros H Hk. apply dg_ds. apply negb_true_iff. exact (proj1 (forallb_forall _ _) H k' Hk). Qed.
Ltac as_is H := rewrite as_is; [|exact H|cbn; tauto].
Lemma dg_all k d : read_as_is k = true -> dg k (all_kinds d) = complete (dg k (merge_data d)).
Proof.
  intros H. unfold all_kinds. rewrite dg_complete. f_equal.
  unfold create_Voltage_Current_Resistance at 1. do 3 (as_is H). unfold create_Capacitance_Charge at 1. do 2 (as_is H).
  unfold create_Conductance at 1. as_is H. unfold create_Frequency at 1. as_is H. unfold create_Power at 1. as_is H.
  unfold create_TemperatureGradient at 1. as_is H. unfold create_Pressure at 1. as_is H. unfold create_PressureGradient at 1. as_is H.
  unfold create_ProductivityIndex at 1. as_is H. unfold create_Acceleration at 1. as_is H. unfold create_Velocity at 1. as_is H.
  unfold create_Density at 1. as_is H. unfold create_VolumeRatio at 1. as_is H. unfold create_Rates at 1. as_is H. reflexivity.
Qed.
Lemma dget_In {A} k : forall (d : list (str * A)) v, dget k d = Some v -> In (k, v) d.
Proof.
  induction d as [|[k' l] d IH]; intros v; cbn [dget]; [discriminate|]. destruct (seqb k k') eqn:E; [|intros H; right; now apply IH].
  apply seqb_eq in E. subst. intros [= ->]. now left.
Qed.
Lemma complete_in x l : In x l -> In x (complete l).
Proof. intros H. apply in_or_app. now left. Qed.
Lemma complete_simple x l : simple x -> In x (complete l) -> In x l.
Proof.
  intros [_ Hs] H. apply in_app_or in H as [H|H]; [exact H|]. exfalso. apply in_flat_map in H as (y & _ & H). unfold swapped in H.
  destruct (cmem c_slash y); [destruct H|]. destruct (csplit c_star y) as [|a [|b [|? ?]]]; try contradiction. destruct H as [H|[]].
  apply Hs. rewrite <- H. apply in_or_app. right. apply in_or_app. left. now left.
Qed.
Lemma sset_smem x l : smemb x (sset l) = smem x l.
Proof.
  destruct (smemb x (sset l)) eqn:E.
  - apply sset_spec in E. symmetry. now apply smem_In.
  - symmetry. apply not_true_is_false. intros K. apply smem_In, sset_spec in K. congruence.
Qed.

(** ** What a call leaves alone *)
Lemma keeps_enough : forall l, Forall keeps l -> Forall (call_enough (V:=Qc)) l.
Proof. intros l. apply Forall_impl. intros [value f t uc|f t uc|v f t uc|name|a b h r|v| |p|l']; cbn; auto. Qed.
Lemma keeps_net : forall l s, Forall keeps l -> s_net (do_calls l s) = s_net s.
Proof.
  induction l as [|c l IH]; intros s H; [reflexivity|]. inversion H as [|? ? H1 H2]; subst.
  change (do_calls (c :: l) s) with (do_calls l (do_call c s)). rewrite IH by exact H2.
  destruct c as [value f t uc|f t uc|v f t uc|name|a b h r|v| |p|l']; try contradiction; try reflexivity.
  - exact (proj1 (frame_fields _ _ (do_call_frame (KConvert value f t uc) s I))).
  - exact (proj1 (frame_fields _ _ (do_call_frame (KConvertible f t uc) s I))).
  - exact (proj1 (frame_fields _ _ (do_call_frame (KSimPandas v f t uc) s I))).
Qed.
Lemma converts_keep : forall l, Forall converts l -> Forall keeps l.
Proof. intros l. apply Forall_impl. intros [value f t uc|f t uc|v f t uc|name|a b h r|v| |p|l']; cbn; auto; contradiction. Qed.
Lemma run_without e b : forall (l : list (conv Qc)) x y, run_convs (Err e) l x = Ok y -> run_convs (Ok b) l x = Ok y.
Proof.
  induction l as [|c l IH]; intros x y H; cbn [run_convs] in *; [exact H|]. destruct (ceval (Err e) c x) as [z|] eqn:E; [|discriminate].
  rewrite (ceval_without e b c x z E). cbn [rbind] in *. now apply IH.
Qed.

(** ** Sessions on a checked database *)
Definition session_of (d : db Qc) (s : st Qc) : Prop :=
  s_net s = db_net d /\ s_dict s = dicts_of (all_kinds (db_kinds d)) /\ s_es s = None /\ s_mem s = [] /\ s_prev s = [] /\ par_enough (s_par s).
Definition never_in (g : net (conv Qc)) (l : list (str * str)) (f t : str) : Prop :=
  forall a b p, get_node g f = Ok a -> get_node g t = Ok b -> simple_path (registered g) a p b -> ~ follows l p.

Section Use.
Context (cs : list crow) (d : db Qc) (T : htab row).
Local Notation g := (db_net d).
Local Notation kd := (merge_data (db_kinds d)).
Local Notation R := (rules_of (merge_data (db_kinds d))).
Local Notation fvfc := (comps_of T [u "standard barrel"]).
Local Notation D := (dicts_of (all_kinds (db_kinds d))).
Hypothesis HT : tabulate (rows cs g) hempty = Some T.
Hypothesis HL : length cs = length (n_edges g).
Hypothesis HR : distinct_by N.eqb (roots cs) = true.
Hypothesis HE : forallb (check_entry T (n_next g) fvfc) (n_edges g) = true.

Lemma ordinary_ok x : ordinary_b R x = true -> ordinary D x.
Proof.
  unfold ordinary_b, ordinary, rules_of, dicts_of. cbn [ru_date ru_dimless ru_percent d_date d_dimless d_percent].
  rewrite !dg_all by reflexivity. rewrite !andb_true_iff, !negb_true_iff. intros ((H1 & H2) & H3). rewrite <- !smem_In. repeat split; congruence.
Qed.
Lemma density_ok f t : density_b R f t = density_case D f t.
Proof.
  unfold density_b, density_case, rules_of, dicts_of. cbn [ru_volume ru_weight d_uncertain d_volume d_weight]. rewrite !sset_smem, !dg_all by reflexivity.
  reflexivity.
Qed.
Lemma plain_ok f t : plain_b R f t = true -> unit_name f /\ unit_name t /\ ordinary D f /\ density_case D f t = false /\ f <> t.
Proof.
  unfold plain_b. rewrite !andb_true_iff, !negb_true_iff. intros ((((((H1 & H2) & H3) & H4) & H5) & H6) & H7).
  split; [apply unit_check; now rewrite H1, H2|]. split; [apply unit_check; now rewrite H3, H4|]. split; [now apply ordinary_ok|].
  split; [now rewrite <- density_ok|]. intros ->. now rewrite seqb_refl in H7.
Qed.
Lemma ordinary_none f t : ordinary D f -> f <> t -> quick (V:=Qc) D f t = None.
Proof. intros H Hn. rewrite ordinary_quick by exact H. destruct (seqb f t) eqn:E; [apply seqb_eq in E; contradiction|reflexivity]. Qed.
Lemma use_wf : wf_net g. Proof. exact (table_wf T g cs fvfc HT HL HE). Qed.
Lemma session_fresh s : session_of d s -> fresh_session s.
Proof. intros (H1 & _ & _ & H4 & H5 & _). split; [rewrite H1; apply wf_sane, use_wf|auto]. Qed.

(** where a number comes from *)
Lemma explained s l f t uc : session_of d s -> Forall keeps l -> unit_name f -> unit_name t -> ordinary D f -> density_case D f t = false ->
  (forall v w, fst (convert (VNum v) (UStr f) (UStr t) uc (do_calls l s)) <> Ok (Some (CVal w)))
  \/ exists h, (forall v w, fst (convert (VNum v) (UStr f) (UStr t) uc (do_calls l s)) = Ok (Some (CVal w)) -> feval (fv_of (do_calls l s)) h v = Ok w)
     /\ ((f = t /\ h = FId) \/ path_function g f t h).
Proof.
  intros S K Hf Ht Ho Hd. destruct (session s l (session_fresh s S) (proj2 (proj2 (proj2 (proj2 (proj2 S))))) (keeps_enough l K)) as (G & En & N & Ds).
  pose proof (keeps_net l s K) as Hn. destruct S as (S1 & S2 & _). rewrite S1 in Hn. rewrite S2 in Ds.
  assert (C : forall v, fst (convert (VNum v) (UStr f) (UStr t) uc (do_calls l s)) = finish_result (do_calls l s) (val_result (do_calls l s) v (simple_answer (do_calls l s) uc f t))).
  { intros v. apply convert_value; try assumption. now rewrite Ds. }
  destruct (simple_answer (do_calls l s) uc f t) as [[h|]|e] eqn:Es.
  - right. exists h. split.
    + intros v w. rewrite C. cbn [val_result]. destruct (feval _ h v) as [x|]; cbn [rbind finish_result]; [intros [= ->]; reflexivity|discriminate].
    + destruct (simple_answer_explained _ uc f t h G (proj1 Hf) (proj1 Ht) Es) as [Hq|Hp].
      * left. rewrite Ds, ordinary_quick in Hq by exact Ho. destruct (seqb f t) eqn:E'; [|discriminate]. injection Hq as <-. apply seqb_eq in E'. auto.
      * right. now rewrite Hn in Hp.
  - left. intros v w. rewrite C. cbn [val_result finish_result]. destruct (p_raise _); discriminate.
  - left. intros v w. rewrite C. cbn [val_result finish_result]. discriminate.
Qed.
Lemma value s l v w f t uc b : session_of d s -> Forall keeps l -> unit_name f -> unit_name t -> ordinary D f -> density_case D f t = false ->
  b <> 0%Qc -> fvf_is b (do_calls l s) -> never_in g disagreeing f t ->
  fst (convert (VNum v) (UStr f) (UStr t) uc (do_calls l s)) = Ok (Some (CVal w)) -> w = rescale (cscale (size_at T) b) f t v.
Proof.
  intros S K Hf Ht Ho Hd Hb Hv Hn H. destruct (explained s l f t uc S K Hf Ht Ho Hd) as [E|(h & E1 & E2)]; [exfalso; exact (E v w H)|].
  specialize (E1 v w H). destruct E2 as [[-> ->]|(x & y & p & k & Ex & Ey & Hp & Hk & ->)].
  - cbn in E1. injection E1 as <-. rewrite rescale_id; [reflexivity|]. exact (size_ne T g cs fvfc HT HL HE b t Hb).
  - cbn [feval] in E1. assert (E1' : run_convs (Ok b) k v = Ok w).
    { destruct Hv as [Hv|(e & Hv)]; rewrite Hv in E1; [exact E1|exact (run_without e b k v w E1)]. }
    destruct (walk_quantity T g cs fvfc HT HL HE b Hb p x y k v (proj1 Hp) Hk (Hn x y p Ex Ey Hp)) as (z & Z1 & Z2).
    rewrite Z1 in E1'. injection E1' as <-. destruct (get_node_spec _ _ _ Ex) as [_ <-]. destruct (get_node_spec _ _ _ Ey) as [_ <-].
    apply rescale_unique; [exact (size_ne T g cs fvfc HT HL HE b (nname y) Hb)|exact Z2].
Qed.
Lemma order s l v w v' w' f t uc : session_of d s -> Forall keeps l -> unit_name f -> unit_name t -> ordinary D f -> density_case D f t = false ->
  (forall b, fv_of (do_calls l s) = Ok b -> (0 < b)%Qc) -> never_in g decreasing f t ->
  fst (convert (VNum v) (UStr f) (UStr t) uc (do_calls l s)) = Ok (Some (CVal w)) ->
  fst (convert (VNum v') (UStr f) (UStr t) uc (do_calls l s)) = Ok (Some (CVal w')) -> (v < v')%Qc -> (w < w')%Qc.
Proof.
  intros S K Hf Ht Ho Hd Hb Hn H H' Hlt. destruct (explained s l f t uc S K Hf Ht Ho Hd) as [E|(h & E1 & E2)]; [exfalso; exact (E v w H)|].
  pose proof (E1 v w H) as A. pose proof (E1 v' w' H') as B. destruct E2 as [[-> ->]|(x & y & p & k & Ex & Ey & Hp & Hk & ->)].
  - cbn in A, B. congruence.
  - cbn [feval] in A, B. exact (walk_increasing T g cs fvfc HT HL HE _ Hb p x y k v v' w w' (proj1 Hp) Hk (Hn x y p Ex Ey Hp) A B Hlt).
Qed.
Lemma number_linked s l v w f t uc : session_of d s -> Forall keeps l -> unit_name f -> unit_name t -> ordinary D f -> density_case D f t = false ->
  fst (convert (VNum v) (UStr f) (UStr t) uc (do_calls l s)) = Ok (Some (CVal w)) ->
  f = t \/ exists a b, get_node g f = Ok a /\ get_node g t = Ok b /\ reachable (registered g) a b.
Proof.
  intros S K Hf Ht Ho Hd H. destruct (explained s l f t uc S K Hf Ht Ho Hd) as [E|(h & E1 & E2)]; [exfalso; exact (E v w H)|].
  destruct E2 as [[-> ->]|(x & y & p & k & Ex & Ey & Hp & _)]; [now left|right]. exists x, y. split; [exact Ex|]. split; [exact Ey|]. exists p. apply Hp.
Qed.

(** numbers that are returned *)
Lemma reached s l v f t uc c : session_of d s -> searches (s_par s) -> Forall converts l -> unit_name f -> unit_name t ->
  density_case D f t = false -> quick (V:=Qc) D f t = None ->
  comp_of T f = Some c -> comp_of T t = Some c -> regular_comp T fvfc c ->
  exists w, fst (convert (VNum v) (UStr f) (UStr t) uc (do_calls l s)) = Ok (Some (CVal w)).
Proof.
  intros S [Ha Hg] Hc Hf Ht Hd Hq Cf Ct Rc. pose proof S as (S1 & S2 & S3 & _ & _ & S6).
  destruct (quiet_session s l (session_fresh s S) S6 (converts_quiet _ _ Hc)) as (St & En & _ & N & Ds).
  pose proof (do_calls_frame l s Hc) as Hfr. rewrite convert_settled; try assumption; [|rewrite Ds, S2; exact Hd].
  rewrite (finish_frame _ _ _ Hfr), (val_frame _ _ _ _ Hfr), (bare_answer_frame _ _ _ _ Hfr).
  assert (Rf : in_regular T fvfc f) by (exists c; auto).
  unfold comp_of in Cf, Ct. destruct (hget f T) as [r|] eqn:E1; [|discriminate]. destruct (hget t T) as [r'|] eqn:E2; [|discriminate].
  destruct (same_comp_walk T g cs fvfc HT HL HR HE f t r r' E1 E2 ltac:(congruence)) as (p & Hp & Hl).
  pose proof (row_node T g cs HT HL f r E1) as Gf. pose proof (row_node T g cs HT HL t r' E2) as Gt.
  assert (B : exists h, bare_answer s f t = Ok (Some h) /\ path_function g f t h).
  { destruct Ha as [Ha|Ha].
    - rewrite <- S1. apply (proj1 (bfs_answer s f t ltac:(rewrite S1; exact use_wf) Ha ltac:(rewrite S2; exact Hq))).
      exists (e_node (r_entry r)), (e_node (r_entry r')). rewrite S1. split; [exact Gf|]. split; [exact Gt|]. now exists p.
    - rewrite <- S1. apply (lean_answer_in s (in_regular T fvfc) f t (length p)); try assumption.
      + rewrite S1. exact use_wf.
      + rewrite S1. exact (table_unique T g cs HT HL).
      + rewrite S1. exact (regular_closed T g cs fvfc HT HL HE).
      + rewrite S1. exact (regular_symmetric T g cs fvfc HT HL HE).
      + unfold current_es. now rewrite S3.
      + now rewrite S2.
      + apply Hf. + apply Ht. + lia.
      + exists (e_node (r_entry r)), (e_node (r_entry r')), p. rewrite S1. auto.
      + lia. }
  destruct B as (h & Eh & x & y & q & k & Ex & Ey & Hq' & Hk & ->). rewrite Eh. cbn [val_result feval].
  destruct (regular_evaluates T g cs fvfc HT HL HE (fv_of s) q x y k v (proj1 Hq')) as (z & Ez); [destruct (get_node_spec _ _ _ Ex) as [_ ->]; exact Rf|exact Hk|].
  exists z. now rewrite Ez.
Qed.
Lemma direct s l v w f t uc c c' : session_of d s -> p_algo (s_par s) = u "BFS" \/ (p_algo (s_par s) = u "lean_BFS" /\ (0 <= p_max_gen (s_par s))%Z) ->
  Forall converts l -> plain_b R f t = true -> edge_of T f t = Some c -> edge_of T t f = Some c' -> ceval (fv_of s) c v = Ok w ->
  fst (convert (VNum v) (UStr f) (UStr t) uc (do_calls l s)) = Ok (Some (CVal w)).
Proof.
  intros S Ha Hc Hp Ec Ec' Hv. pose proof S as (S1 & S2 & S3 & _ & _ & S6). destruct (plain_ok f t Hp) as (Hf & Ht & Ho & Hd & Hne).
  destruct (quiet_session s l (session_fresh s S) S6 (converts_quiet _ _ Hc)) as (St & En & _ & N & Ds).
  pose proof (do_calls_frame l s Hc) as Hfr. rewrite convert_settled; try assumption; [|rewrite Ds, S2; exact Hd].
  rewrite (finish_frame _ _ _ Hfr), (val_frame _ _ _ _ Hfr), (bare_answer_frame _ _ _ _ Hfr).
  destruct (edge_of_conversion T g cs fvfc HT HL HE f t c Ec) as (a & b & Ga & Gb & Hab).
  destruct (edge_of_conversion T g cs fvfc HT HL HE t f c' Ec') as (b' & a' & Gb' & Ga' & Hba).
  assert (a' = a) as -> by congruence. assert (b' = b) as -> by congruence.
  rewrite (direct_answer s f t a b c).
  - cbn [val_result feval run_convs]. now rewrite Hv.
  - rewrite S1. exact use_wf. - now rewrite S1. - now rewrite S1. - now rewrite S1. - rewrite S2. now apply ordinary_none. - exact Hne.
  - destruct Ha as [Ha|[Ha Hm]]; [now left|right]. split; [exact Ha|]. split; [rewrite S1; exact (table_unique T g cs HT HL)|].
    split; [unfold current_es; now rewrite S3|]. split; [exact Hm|]. split; [apply Hf|]. split; [apply Ht|]. rewrite S1. exact (conversion_registered g b a c' Hba).
Qed.
End Use.
