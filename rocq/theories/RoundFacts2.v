(** * Conversions of the shipped database with numbers that round *)
From Coq Require Import String QArith Qcanon FMapPositive.
From Verif Require Import Py StrTools Network SearchSpec NetworkFacts Search SearchFacts SearchFacts2 DescFacts
  Hybrid HybridFacts Conv ConvFacts NetFacts2 Converter EngineSpec EngineFacts EngineFacts2 EngineFacts3 EngineFacts4 EngineFacts5 EngineFacts6
  ConsistSpec ConsistFacts CleanFacts Affine Demo EngineFacts7 EngineFacts8 RegionSpec RegionFacts SymAffine NumPy
  Dict Database FastDb Shipped ShippedSpec ShippedCert ShippedCheck RoundSpec RoundCheck RoundFacts ShippedFacts ShippedFacts2 ShippedFacts3 ShippedFacts4.
Local Open Scope N_scope.

(** ** The same network over other numbers *)
Section Map.
Context {W V : Type} (g : net (conv W)).
Local Notation g' := (@nmap W V g).
Local Notation me := (fun e : entry (conv W) => Entry (e_node e) (e_kids e) (map (@cmap W V) (e_convs e))).
Lemma find_map {X Y} (h : X -> Y) (p : Y -> bool) : forall l, find p (map h l) = option_map h (find (fun x => p (h x)) l).
Proof. induction l as [|x l IH]; [reflexivity|]. cbn [map find]. destruct (p (h x)); [reflexivity|exact IH]. Qed.
Lemma map_nodes : nodes g' = nodes g.
Proof. unfold nodes, nmap. cbn [n_edges]. rewrite map_map. reflexivity. Qed.
Lemma map_lookup n : lookup g' n = option_map me (lookup g n).
Proof. unfold lookup, nmap. cbn [n_edges]. exact (find_map me (fun e => neqb n (e_node e)) (n_edges g)). Qed.
Lemma map_get x : get_node g' x = get_node g x.
Proof.
  unfold get_node, nmap. cbn [n_edges]. rewrite (find_map me (fun e => seqb (nname (e_node e)) x) (n_edges g)). cbn [e_node].
  destruct (find (fun e => seqb (nname (e_node e)) x) (n_edges g)); reflexivity.
Qed.
Lemma map_kids n : children_of g' n = children_of g n.
Proof. unfold children_of. rewrite map_lookup. destruct (lookup g n); reflexivity. Qed.
Lemma map_registered a b : registered g' a b <-> registered g a b.
Proof. unfold registered. rewrite map_kids. reflexivity. Qed.
Lemma map_conversion a b k : conversion g' a b = Ok k -> exists k0, conversion g a b = Ok k0 /\ k = cmap k0.
Proof.
  unfold conversion. rewrite map_lookup. destruct (lookup g a) as [e|]; [|discriminate]. cbn [option_map e_kids e_convs].
  destruct (index_of b (e_kids e)) as [i|]; [|discriminate]. rewrite nth_error_map. destruct (nth_error (e_convs e) i) as [c|]; [|discriminate].
  cbn [option_map]. intros [= <-]. exists c. auto.
Qed.
Lemma map_along : forall p l, convs_along g' p l -> exists l0, convs_along g p l0 /\ l = map cmap l0.
Proof.
  induction p as [|a p IH]; intros l H; [contradiction|]. destruct p as [|b p].
  - destruct l; [|contradiction]. exists []. split; [exact I|reflexivity].
  - destruct l as [|c l]; [contradiction|]. destruct H as [H1 H2]. destruct (map_conversion a b c H1) as (k & K1 & ->). destruct (IH l H2) as (l0 & L1 & ->).
    exists (k :: l0). split; [exact (conj K1 L1)|reflexivity].
Qed.
Lemma walk_map (R R' : node -> node -> Prop) : (forall a b, R a b -> R' a b) -> forall p a b, walk R a p b -> walk R' a p b.
Proof. intros H p a b W0. induction W0; [constructor|econstructor; eauto]. Qed.
Lemma map_simple a p b : simple_path (registered g') a p b -> simple_path (registered g) a p b.
Proof. intros [H1 H2]. split; [|exact H2]. apply (walk_map (registered g')); [|exact H1]. intros x y. apply map_registered. Qed.
Lemma map_walk a p b : walk (registered g) a p b -> walk (registered g') a p b.
Proof. apply walk_map. intros x y. apply map_registered. Qed.
Lemma map_wf : wf_net g -> wf_net g'.
Proof.
  intros (H1 & H2 & H3). split; [rewrite map_nodes; exact H1|]. split; [rewrite map_nodes; exact H2|].
  intros e He. unfold nmap in He. cbn [n_edges] in He. apply in_map_iff in He as (e0 & <- & He). destruct (H3 e0 He) as (K1 & K2 & K3).
  split; [exact K1|]. split; [cbn [e_convs e_kids]; rewrite map_length; exact K2|]. rewrite map_nodes. exact K3.
Qed.
Lemma map_unique : unique_names g -> unique_names g'.
Proof. unfold unique_names. now rewrite map_nodes. Qed.
Lemma map_path f t h : path_function g' f t h -> exists a b p l, get_node g f = Ok a /\ get_node g t = Ok b
  /\ simple_path (registered g) a p b /\ convs_along g p l /\ h = FConvs (map cmap l).
Proof.
  intros (a & b & p & l & Ea & Eb & Hp & Hl & ->). rewrite map_get in Ea, Eb. destruct (map_along p l Hl) as (l0 & L & ->).
  exists a, b, p, l0. split; [exact Ea|]. split; [exact Eb|]. split; [now apply map_simple|]. auto.
Qed.
End Map.

(** ** Sessions *)
Section Sess.
Context {V : Type} {A : Arith V}.
Lemma plain_quick d f t : ordinary d f -> quick (V:=V) d f t = if seqb f t then Some FId else None.
Proof.
  intros (H1 & H2 & H3). unfold quick. destruct (seqb f t); [reflexivity|].
  rewrite <- smem_In in H1, H2, H3. apply not_true_is_false in H1, H2, H3. unfold is_dimless, is_percent.
  now rewrite H1, H2, H3.
Qed.
Lemma tables_enough : forall l : list (call V), Forall keeps_tables l -> Forall call_enough l.
Proof. intros l H. induction H as [|c l Hc _ IH]; constructor; [|exact IH]. destruct c as [value f t uc|f t uc|v f t uc|name|a b h r|v| |p|l']; cbn in *; auto. Qed.
Lemma tables_net : forall (l : list (call V)) s, Forall keeps_tables l -> s_net (do_calls l s) = s_net s.
Proof.
  induction l as [|c l IH]; intros s H; [reflexivity|]. inversion H as [|? ? H1 H2]; subst.
  change (do_calls (c :: l) s) with (do_calls l (do_call c s)). rewrite IH by exact H2.
  destruct c as [value f t uc|f t uc|v f t uc|name|a b h r|v| |p|l']; try contradiction; try reflexivity.
  - exact (proj1 (frame_fields _ _ (do_call_frame (KConvert value f t uc) s I))).
  - exact (proj1 (frame_fields _ _ (do_call_frame (KConvertible f t uc) s I))).
  - exact (proj1 (frame_fields _ _ (do_call_frame (KSimPandas v f t uc) s I))).
Qed.
(** where a number comes from *)
Lemma comes_from s (l : list (call V)) f t uc v w : fresh_session s -> par_enough (s_par s) -> Forall keeps_tables l -> unit_name f -> unit_name t ->
  ordinary (s_dict s) f -> density_case (s_dict s) f t = false -> converted_to v f t uc (do_calls l s) w ->
  exists h, (forall v' w', converted_to v' f t uc (do_calls l s) w' -> feval (fv_of (do_calls l s)) h v' = Ok w') /\ ((f = t /\ h = FId) \/ path_function (s_net s) f t h).
Proof.
  intros Fr En0 K Hf Ht Ho Hd Hw. destruct (session s l Fr En0 (tables_enough l K)) as (G & En & N & Ds).
  pose proof (tables_net l s K) as Hn. unfold converted_to in *.
  assert (C : forall v, fst (convert (VNum v) (UStr f) (UStr t) uc (do_calls l s)) = finish_result (do_calls l s) (val_result (do_calls l s) v (simple_answer (do_calls l s) uc f t))).
  { intros v0. apply convert_value; try assumption. now rewrite Ds. }
  destruct (simple_answer (do_calls l s) uc f t) as [[h|]|e] eqn:Es.
  - exists h. split.
    + intros v' w'. rewrite C. cbn [val_result]. destruct (feval _ h v') as [x|]; cbn [rbind finish_result]; [intros [= ->]; reflexivity|discriminate].
    + destruct (simple_answer_explained _ uc f t h G (proj1 Hf) (proj1 Ht) Es) as [Hq|Hp].
      * left. rewrite Ds, plain_quick in Hq by exact Ho. destruct (seqb f t) eqn:E'; [|discriminate Hq]. injection Hq as <-. apply seqb_eq in E'. auto.
      * right. now rewrite Hn in Hp.
  - exfalso. rewrite C in Hw. cbn [val_result finish_result] in Hw. destruct (p_raise _); discriminate Hw.
  - exfalso. rewrite C in Hw. cbn [val_result finish_result] in Hw. discriminate Hw.
Qed.
End Sess.

(** conversions without the formation volume factor *)
Section NoFvf.
Context {V : Type} {A : Arith V} (fv fv' : res V).
Lemma any_fvf (c : conv Qc) : no_fvf c = true -> forall x : V, ceval fv (cmap c) x = ceval fv' (cmap c) x.
Proof.
  induction c as [|q|q|q|q|q| | |c1 IH1 c2 IH2|c IH|f]; cbn [no_fvf]; intros N x; try discriminate N; try reflexivity; cbn [cmap ceval].
  - apply andb_true_iff in N as [N1 N2]. rewrite (IH1 N1). destruct (ceval fv' (cmap c1) x); [|reflexivity]. cbn [rbind]. apply (IH2 N2).
  - now rewrite (IH N).
Qed.
Lemma run_any : forall (l : list (conv Qc)) (x : V), forallb no_fvf l = true -> run_convs fv (map cmap l) x = run_convs fv' (map cmap l) x.
Proof.
  induction l as [|c l IH]; intros x N; [reflexivity|]. cbn [forallb] in N. apply andb_true_iff in N as [N1 N2]. cbn [map run_convs]. rewrite (any_fvf c N1).
  destruct (ceval fv' (cmap c) x); [|reflexivity]. cbn [rbind]. now apply IH.
Qed.
End NoFvf.
(** exact numbers *)
Lemma exact_rounds : rounding (A:=exact_arith) (fun x => x) 0%Qc.
Proof.
  assert (F : factor 0 1 1) by (split; vm_compute; discriminate).
  split; [split; [vm_compute; discriminate|reflexivity]| | |].
  - intros x y. exists 1%Qc. split; [exact F|]. cbn [amul exact_arith]. ring.
  - intros x y Hy. exists (x / y)%Qc, 1%Qc. cbn [adiv exact_arith]. unfold qdiv. destruct (Qc_eq_dec y 0) as [Z|_]; [contradiction|].
    split; [reflexivity|]. split; [exact F|]. ring.
  - intros q. exists 1%Qc. split; [exact F|]. cbn [aconst exact_arith]. ring.
Qed.

(** ** The shipped database *)
Section Db.
Context (cs : list crow) (d : db Qc).
Hypothesis H : check_db cs d = true.
Hypothesis H2 : check_shapes cs d = true.
Local Notation g := (db_net d).
Local Notation kd := (merge_data (db_kinds d)).
Local Notation D := (dicts_of (all_kinds (db_kinds d))).
Definition numbers_of {V : Type} (s : st V) : Prop :=
  s_net s = nmap g /\ s_dict s = D /\ s_es s = None /\ s_mem s = [] /\ s_prev s = [] /\ par_enough (s_par s).
Lemma shape_parts T : tabulate (rows cs g) hempty = Some T -> (N.of_nat (length cs) <= 2700)%N
  /\ forallb (check_straight T (comps_of T bent)) (n_edges g) = true /\ forallb check_rising (n_edges g) = true
  /\ forallb (fun kl : str * list str => negb (smem (fst kl) straight_kinds) || disjoint_N (comps_of T (snd kl)) (comps_of T bent)) kd = true
  /\ check_temperatures T d = true.
Proof.
  intros HT. pose proof H2 as K. unfold check_shapes in K. rewrite HT in K. cbv zeta in K. rewrite !andb_true_iff in K. destruct K as ((((K1 & K2) & K3) & K4) & K5).
  apply N.leb_le in K1. auto.
Qed.
Lemma straight_listed k x T c : tabulate (rows cs g) hempty = Some T -> In k straight_kinds -> listed_in kd k x -> comp_of T x = Some c -> in_N c (comps_of T bent) = false.
Proof.
  intros HT Hk (l & Hl & Hx) Hc. destruct (shape_parts T HT) as (_ & _ & _ & K4 & _).
  pose proof (proj1 (forallb_forall _ _) K4 _ (dget_In k kd l Hl)) as G. cbn [fst snd] in G. apply orb_true_iff in G as [G|G].
  { exfalso. apply negb_true_iff in G. apply smem_In in Hk. rewrite Hk in G. discriminate G. }
  unfold comp_of in Hc. destruct (hget x T) as [r|] eqn:E; [|discriminate Hc]. injection Hc as <-.
  pose proof (proj1 (forallb_forall _ _) G (c_comp (r_cert r)) (proj2 (comps_of_In T l _) (ex_intro _ x (ex_intro _ r (conj Hx (conj E eq_refl)))))) as G'.
  now apply negb_true_iff in G'.
Qed.
Lemma straight_walk T fvfc : tabulate (rows cs g) hempty = Some T -> length cs = length (n_edges g) -> forallb (check_entry T (n_next g) fvfc) (n_edges g) = true ->
  forall p a z l c, walk (registered g) a p z -> convs_along g p l -> comp_of T (nname a) = Some c -> in_N c (comps_of T bent) = false ->
  forallb straight l = true /\ forallb (fun k => Nat.leb (cost k) max_cost) l = true /\ S (length l) = length p.
Proof.
  intros HT HL HE p. induction p as [|x p IH]; intros a z l c W Hl Hc Hb; [inversion W|]. destruct p as [|y p].
  - destruct l; [|contradiction]. repeat split.
  - destruct l as [|k l]; [contradiction|]. destruct Hl as [Hk Hl]. inversion W as [|? b ? ? Hab W']; subst.
    assert (b = y) as -> by (inversion W'; reflexivity).
    pose proof (registered_comp T g cs fvfc HT HL HE x y Hab) as [Ec _]. rewrite Hc in Ec. destruct (IH y z l c W' Hl Ec Hb) as (I1 & I2 & I3).
    destruct (conversion_entry g x y k Hk) as (e & He & Ea & Hin). destruct (shape_parts T HT) as (_ & K2 & _).
    pose proof (proj1 (forallb_forall _ _) K2 e He) as G. unfold check_straight in G. rewrite Ea in G. unfold comp_of in Hc.
    destruct (hget (nname x) T) as [r|] eqn:Er; [|discriminate Hc]. injection Hc as Hc. rewrite Hc, Hb in G. cbn [orb] in G.
    pose proof (proj1 (forallb_forall _ _) G k (in_combine_r _ _ _ _ Hin)) as Gk. apply andb_true_iff in Gk as [G1 G2].
    split; [cbn [forallb]; now rewrite G1, I1|]. split; [cbn [forallb]; now rewrite G2, I2|]. cbn [length] in *. lia.
Qed.
Lemma ok_inj {X} (x y : X) : Ok x = Ok y -> x = y. Proof. intros [= E]. exact E. Qed.
Lemma straight_plain k : In k straight_kinds -> ~ In k contradictory_kinds /\ ~ In k rule_kinds /\ k <> u "Volume".
Proof.
  intros Hk. assert (G : forallb (fun k => negb (smem k contradictory_kinds) && negb (smem k rule_kinds) && negb (seqb k (u "Volume"))) straight_kinds = true) by (vm_compute; reflexivity).
  pose proof (proj1 (forallb_forall _ _) G k Hk) as G1. cbn beta in G1. rewrite !andb_true_iff, !negb_true_iff in G1. destruct G1 as ((G1 & G2) & G3).
  split; [intros X; apply smem_In in X; congruence|]. split; [intros X; apply smem_In in X; congruence|]. intros ->. rewrite seqb_refl in G3. discriminate G3.
Qed.
Local Open Scope Qc_scope.
(** between units of a straight kind every path multiplies by the ratio of their sizes *)
Lemma straight_path b T fvfc k f t a z p q : b <> 0 -> tabulate (rows cs g) hempty = Some T -> length cs = length (n_edges g) ->
  forallb (check_entry T (n_next g) fvfc) (n_edges g) = true -> forallb (check_gates T) kd = true -> fvfc = comps_of T [u "standard barrel"] ->
  In k straight_kinds -> listed_in kd k f -> listed_in kd k t -> get_node g f = Ok a -> get_node g t = Ok z -> simple_path (registered g) a p z -> convs_along g p q ->
  forallb straight q = true /\ (N.of_nat (total_cost q) <= 37800)%N
  /\ forall x, run_convs (Ok b) q x = Ok (x * k_of (cscale (size_at T) b) f / k_of (cscale (size_at T) b) t).
Proof.
  intros Hb HT HL HE HG -> Hk Lf Lt Ea Ez Hs Hq. set (m := cscale (size_at T) b).
  destruct (straight_plain k Hk) as (Kc & Kr & Kv). pose proof (table_wf T g cs _ HT HL HE) as Wf.
  destruct (get_node_spec _ _ _ Ea) as [Na Ea']. destruct (get_node_spec _ _ _ Ez) as [_ Ez'].
  assert (Nd : ~ follows disagreeing p) by exact (kind_safe cs d T HT HL HE HG k f t Lf Lt Kc a z p Ea Ez Hs).
  destruct (get_node_entry T g cs HT HL f a Ea) as (ea & ca & _ & _ & _ & Ta).
  assert (Hc : comp_of T (nname a) = Some (c_comp ca)) by (unfold comp_of; rewrite Ea', Ta; reflexivity).
  destruct (straight_walk T _ HT HL HE p a z q (c_comp ca) (proj1 Hs) Hq Hc) as (Q1 & Q2 & Q3).
  { apply (straight_listed k f T (c_comp ca) HT Hk Lf). rewrite <- Ea'. exact Hc. }
  split; [exact Q1|]. split.
  { pose proof (total_cost_le max_cost q Q2) as Le. unfold max_cost in Le. destruct (shape_parts T HT) as (Ln & _).
    pose proof (NoDup_incl_length (proj2 Hs) (walk_nodes_In g a p z Wf Na (proj1 Hs))) as Lp. unfold nodes in Lp. rewrite map_length, <- HL in Lp. lia. }
  destruct (straight_run (fun x => x) 0 exact_rounds b Hb (Err NoFVFError) (fun y E => match E with end) q Q1) as (c & C1 & _).
  assert (E : forall x, x * c = rescale m f t x).
  { intros x. destruct (walk_quantity T g cs _ HT HL HE b Hb p a z q x (proj1 Hs) Hq Nd) as (y & Y1 & Y2). rewrite Ea', Ez' in Y2.
    pose proof (ok_inj _ _ (eq_trans (eq_sym (C1 x)) Y1)) as E. rewrite E. apply rescale_unique; [exact (size_ne T g cs _ HT HL HE b _ Hb)|exact Y2]. }
  intros x. rewrite C1, (E x). f_equal. pose proof (E 0) as E0. unfold rescale in *.
  pose proof (size_ne T g cs _ HT HL HE b t Hb : k_of m t <> 0) as Nt. pose proof (size_ne T g cs _ HT HL HE b f Hb : k_of m f <> 0) as Nf. clearbody m.
  set (kf := k_of m f) in *. set (kt := k_of m t) in *. set (o := o_of m f) in *. set (o' := o_of m t) in *. clearbody kf kt o o'.
  assert (Z : o - o' = 0).
  { replace (o - o') with ((0 * kf + o - o') / kt * kt) by (field; exact Nt). rewrite <- E0. ring. }
  replace (x * kf + o - o') with (x * kf + (o - o')) by ring. rewrite Z. field. exact Nt.
Qed.
(** the numbers are the exact ones but for the roundings *)
Lemma gen_round b : b <> 0 -> exists size : str -> Qc, (forall x, size x <> 0)
  /\ (forall k ds x, In (k, ds) defs -> In x ds -> In k straight_kinds -> size (d_from x) = Q2Qc (d_factor x) * size (d_to x))
  /\ (forall k s l v w f t uc, session_of d s -> Forall keeps l -> fvf_is b (do_calls l s) -> unit_name f -> unit_name t ->
        In k straight_kinds -> listed_in kd k f -> listed_in kd k t ->
        fst (convert (VNum v) (UStr f) (UStr t) uc (do_calls l s)) = Ok (Some (CVal w)) -> w = v * size f / size t)
  /\ (forall (V : Type) (A : Arith V) (val : V -> Qc) e, rounding val e ->
        forall k (s : st V) l v w f t uc, numbers_of s -> Forall keeps_tables l -> (forall y, fv_of (do_calls l s) = Ok y -> val y = b) -> unit_name f -> unit_name t ->
        In k straight_kinds -> listed_in kd k f -> listed_in kd k t -> converted_to v f t uc (do_calls l s) w ->
        exists n r, (N.of_nat n <= 37800)%N /\ factor e n r /\ val w = val v * size f / size t * r).
Proof.
  intros Hb. destruct (parts cs d H) as (T & HT & HL & HRo & HE & HK & HG & HW & HO & HN & HP & HD & (HC & HC') & HX & HG' & HV & HU & HM & HZ).
  set (m := cscale (size_at T) b). exists (k_of m). split; [intros x; exact (size_ne T g cs _ HT HL HE b x Hb)|]. split; [|split].
  - intros k ds x Hk Hx Ks. destruct (defs_listed d T HD HC k ds x Hk Hx) as (_ & _ & Cd). destruct (def_facts d T x Cd) as (_ & _ & _ & H3).
    assert (E : forall v, (v * Q2Qc (d_factor x) + Q2Qc (d_offset x)) * k_of m (d_to x) + o_of m (d_to x) = v * k_of m (d_from x) + o_of m (d_from x)).
    { intros v. destruct (size_ok_sound (size_at T) b _ _ _ v Hb H3) as (y & Y1 & Y2). cbn [ceval rbind] in Y1. pose proof (ok_inj _ _ Y1) as Y3.
      transitivity (quantity m (d_to x) y); [rewrite <- Y3; reflexivity|exact Y2]. }
    pose proof (E 0) as E0. pose proof (E 1) as E1. 
    replace (k_of m (d_from x)) with (1 * k_of m (d_from x) + o_of m (d_from x) - (0 * k_of m (d_from x) + o_of m (d_from x))) by ring. rewrite <- E0, <- E1. ring.
  - intros k s l v w f t uc S K Hv Hf Ht Hk Lf Lt Hw. destruct (straight_plain k Hk) as (Kc & Kr & Kv).
    destruct (explained cs d T HT HL HE s l f t uc S K Hf Ht (kind_ordinary d HO k f Lf Kr) (kind_density cs d T HT HL HRo HE HK HN HG' k f t Lf Lt (proj1 Hf) (proj1 Ht) Kv)) as [E|(h & E1 & E2)];
      [exfalso; exact (E v w Hw)|].
    specialize (E1 v w Hw). destruct E2 as [[-> ->]|(x & y & p & q & Ex & Ey & Hp & Hq & ->)].
    + cbn [feval] in E1. injection E1 as <-. field. exact (size_ne T g cs _ HT HL HE b t Hb).
    + cbn [feval] in E1. destruct (straight_path b T _ k f t x y p q Hb HT HL HE HG eq_refl Hk Lf Lt Ex Ey Hp Hq) as (_ & _ & P).
      assert (E1' : run_convs (Ok b) q v = Ok w).
      { destruct Hv as [Hv|(e & Hv)]; rewrite Hv in E1; [exact E1|exact (run_without e b q v w E1)]. }
      exact (ok_inj _ _ (eq_trans (eq_sym E1') (P v))).
  - intros V A val e HR k s l v w f t uc S K Hv Hf Ht Hk Lf Lt Hw.
    destruct (straight_plain k Hk) as (Kc & Kr & Kv). pose proof S as (S1 & S2 & S3 & S4 & S5 & S6).
    pose proof (table_wf T g cs _ HT HL HE) as Wf.
    assert (Fr : fresh_session s).
    { split; [rewrite S1; apply wf_sane; exact (map_wf g Wf)|]. auto. }
    assert (Ho : ordinary (s_dict s) f).
    { rewrite S2. exact (kind_ordinary d HO k f Lf Kr). }
    assert (Hd : density_case (s_dict s) f t = false).
    { rewrite S2. apply (kind_density cs d T HT HL HRo HE HK HN HG' k f t Lf Lt (proj1 Hf) (proj1 Ht) Kv). }
    pose proof (size_ne T g cs _ HT HL HE b t Hb : k_of m t <> 0) as Nt.
    destruct (comes_from s l f t uc v w Fr S6 K Hf Ht Ho Hd Hw) as (h & Eh & [[-> ->]|Hp]); specialize (Eh v w Hw).
    + exists 0%nat, 1. split; [discriminate|]. split; [apply factor_one|]. cbn [feval] in Eh. injection Eh as ->. field. exact Nt.
    + rewrite S1 in Hp. destruct (map_path g f t h Hp) as (a & z & p & q & Ea & Ez & Hs & Hq & ->). cbn [feval] in Eh.
      destruct (straight_path b T _ k f t a z p q Hb HT HL HE HG eq_refl Hk Lf Lt Ea Ez Hs Hq) as (Q1 & Q2 & P).
      destruct (straight_run val e HR b Hb (fv_of (do_calls l s)) Hv q Q1) as (c & C1 & C2). destruct (C2 v w Eh) as (r & F & Er).
      exists (total_cost q), r. split; [exact Q2|]. split; [exact F|]. rewrite Er. f_equal. exact (ok_inj _ _ (eq_trans (eq_sym (C1 (val v))) (P (val v)))).
Qed.
(** a number is returned *)
Lemma regular_plain T fvfc : tabulate (rows cs g) hempty = Some T -> length cs = length (n_edges g) -> forallb (check_entry T (n_next g) fvfc) (n_edges g) = true ->
  forall p a z l, walk (registered g) a p z -> convs_along g p l -> in_regular T fvfc (nname a) -> forallb no_fvf l = true.
Proof.
  intros HT HL HE p. induction p as [|x p IH]; intros a z l W Hl Hc; [inversion W|]. destruct p as [|y p].
  - destruct l; [reflexivity|contradiction].
  - destruct l as [|k l]; [contradiction|]. destruct Hl as [Hk Hl]. inversion W as [|? b ? ? Hab W']; subst.
    assert (b = y) as -> by (inversion W'; reflexivity).
    cbn [forallb]. rewrite (IH y z l W' Hl (regular_closed T g cs fvfc HT HL HE x y Hab Hc)), andb_true_r.
    destruct (conversion_entry g x y k Hk) as (e & He & Ea & Hin). subst x. destruct (table_entry T g cs HT HL e He) as (c & Ec).
    destruct (kid_facts T g cs fvfc HT HL HE e c y k He Ec Hin) as (c' & e' & _ & _ & _ & _ & _ & _ & _ & _ & _ & _ & F). destruct F as [F|F]; [exact F|exfalso].
    destruct Hc as (c0 & H1 & H3 & _). unfold comp_of in H1. rewrite Ec in H1. injection H1 as <-. exact (H3 F).
Qed.
Lemma converts_tables {V : Type} {A : Arith V} : forall l : list (call V), Forall converts l -> Forall keeps_tables l.
Proof. intros l. apply Forall_impl. intros [value f t uc|f t uc|v f t uc|name|a b h r|v| |p|l']; cbn; auto; contradiction. Qed.
Lemma gen_round_number (V : Type) (A : Arith V) (val : V -> Qc) e : rounding val e ->
  forall k (s : st V) l v f t uc, numbers_of s -> (p_algo (s_par s) = u "BFS" \/ p_algo (s_par s) = u "lean_BFS") /\ (12 <= p_max_gen (s_par s))%Z ->
  Forall converts l -> (forall y, fv_of (do_calls l s) = Ok y -> val y <> 0) -> unit_name f -> unit_name t ->
  In k straight_kinds -> In k whole_kinds -> listed_in kd k f -> listed_in kd k t -> exists w, converted_to v f t uc (do_calls l s) w.
Proof.
  intros HR k s l v f t uc S Hs Hl Hv Hf Ht Hk Hw Lf Lt. destruct (straight_plain k Hk) as (Kc & Kr & Kv).
  destruct (parts cs d H) as (T & HT & HL & HRo & HE & HK & HG & HW & HO & HN & HP & HD & (HC & HC') & HX & HG' & HV & HU & HM & HZ).
  pose proof S as (S1 & S2 & S3 & S4 & S5 & S6). pose proof (table_wf T g cs _ HT HL HE) as Wf.
  assert (Fr : fresh_session s) by (split; [rewrite S1; apply wf_sane; exact (map_wf g Wf)|auto]).
  assert (Ho : ordinary (s_dict s) f) by (rewrite S2; exact (kind_ordinary d HO k f Lf Kr)).
  assert (Hd : density_case (s_dict s) f t = false) by (rewrite S2; apply (kind_density cs d T HT HL HRo HE HK HN HG' k f t Lf Lt (proj1 Hf) (proj1 Ht) Kv)).
  destruct (whole_comp d T HW k f t Hw Lf Lt) as (c & Cf & Ct & Rc). unfold converted_to.
  destruct (quick (V:=V) (s_dict s) f t) as [h|] eqn:Eq.
  - rewrite (convert_quick s l v f t uc h Fr S6 (tables_enough l (converts_tables l Hl)) Hf Ht Hd Eq).
    rewrite plain_quick in Eq by exact Ho. destruct (seqb f t); [|discriminate Eq]. injection Eq as <-. exists v. reflexivity.
  - destruct (quiet_session s l Fr S6 (converts_quiet _ _ Hl)) as (St & En & _ & N & Ds). pose proof (do_calls_frame l s Hl) as Hfr.
    assert (Hd2 : density_case (s_dict (do_calls l s)) f t = false) by (rewrite Ds; exact Hd).
    rewrite convert_settled; try assumption.
    rewrite (finish_frame _ _ _ Hfr), (val_frame _ _ _ _ Hfr), (bare_answer_frame _ _ _ _ Hfr).
    assert (Rf : in_regular T (comps_of T [u "standard barrel"]) f) by (exists c; auto).
    assert (Cf' := Cf). assert (Ct' := Ct).
    unfold comp_of in Cf', Ct'. destruct (hget f T) as [r|] eqn:E1; [|discriminate Cf']. destruct (hget t T) as [r'|] eqn:E2; [|discriminate Ct'].
    destruct (same_comp_walk T g cs _ HT HL HRo HE f t r r' E1 E2 ltac:(congruence)) as (p & Hp & Hlen).
    pose proof (row_node T g cs HT HL f r E1) as Gf. pose proof (row_node T g cs HT HL t r' E2) as Gt.
    assert (B : exists h, bare_answer s f t = Ok (Some h) /\ path_function (nmap g) f t h).
    { destruct Hs as [[Ha|Ha] Hg].
      - rewrite <- S1. apply (proj1 (bfs_answer s f t ltac:(rewrite S1; exact (map_wf g Wf)) Ha Eq)).
        exists (e_node (r_entry r)), (e_node (r_entry r')). rewrite S1, !map_get. split; [exact Gf|]. split; [exact Gt|]. exists p. now apply map_walk.
      - rewrite <- S1. apply (lean_answer_in s (in_regular T (comps_of T [u "standard barrel"])) f t (length p)); try assumption.
        + rewrite S1. exact (map_wf g Wf).
        + rewrite S1. exact (map_unique g (table_unique T g cs HT HL)).
        + rewrite S1. intros x y Hxy Rx. apply (map_registered g) in Hxy. exact (regular_closed T g cs _ HT HL HE x y Hxy Rx).
        + rewrite S1. intros x y Hxy Rx. apply (map_registered g) in Hxy. apply (map_registered g). exact (regular_symmetric T g cs _ HT HL HE x y Hxy Rx).
        + unfold current_es. now rewrite S3.
        + apply Hf. + apply Ht. + lia.
        + exists (e_node (r_entry r)), (e_node (r_entry r')), p. rewrite S1, !map_get. split; [exact Gf|]. split; [exact Gt|]. split; [now apply map_walk|reflexivity].
        + lia. }
    destruct B as (h & Eh & Hpf). rewrite Eh. destruct (map_path g f t h Hpf) as (a & z & p' & q & Ea & Ez & Hsp & Hq & ->). cbn [val_result feval].
    destruct (get_node_spec _ _ _ Ea) as [_ Ea'].
    assert (Hca : comp_of T (nname a) = Some c) by (rewrite Ea'; unfold comp_of; rewrite E1; exact Cf').
    destruct (straight_walk T _ HT HL HE p' a z q c (proj1 Hsp) Hq Hca) as (Q1 & _ & _).
    { apply (straight_listed k (nname a) T c HT Hk); [rewrite Ea'; exact Lf|exact Hca]. }
    pose proof (regular_plain T _ HT HL HE p' a z q (proj1 Hsp) Hq ltac:(rewrite Ea'; exact Rf)) as Q2.
    destruct (straight_runs val e HR 1 ltac:(discriminate) (Err NoFVFError) (fun y E => match E with end) q Q1 Q2 v) as (w & Ew).
    exists w. rewrite (run_any _ (Err NoFVFError) q v Q2), Ew. reflexivity.
Qed.
(** operations that keep the order *)
Lemma rising_walk T fvfc : tabulate (rows cs g) hempty = Some T -> length cs = length (n_edges g) -> forallb (check_entry T (n_next g) fvfc) (n_edges g) = true ->
  forall p a z l, walk (registered g) a p z -> convs_along g p l -> ~ follows decreasing p -> forallb rising l = true.
Proof.
  intros HT HL HE p. induction p as [|x p IH]; intros a z l W Hl Hc; [inversion W|]. destruct p as [|y p].
  - destruct l; [reflexivity|contradiction].
  - destruct l as [|k l]; [contradiction|]. destruct Hl as [Hk Hl]. inversion W as [|? b ? ? Hab W']; subst.
    assert (b = y) as -> by (inversion W'; reflexivity). cbn [follows] in Hc.
    cbn [forallb]. rewrite (IH y z l W' Hl ltac:(tauto)), andb_true_r.
    destruct (conversion_entry g x y k Hk) as (e & He & Ea & Hin). destruct (shape_parts T HT) as (_ & _ & K3 & _).
    pose proof (proj1 (forallb_forall _ _) K3 e He) as G. unfold check_rising in G. pose proof (proj1 (forallb_forall _ _) G (y, k) Hin) as Gk. cbn [fst snd] in Gk.
    apply orb_true_iff in Gk as [Gk|Gk]; [exact Gk|exfalso]. apply Hc. left. rewrite <- Ea. now apply listed_In.
Qed.
Lemma gen_rising (V : Type) (A : Arith V) (le : V -> V -> Prop) (pos : V -> Prop) : ordered le pos ->
  forall (s : st V) l v w v' w' f t uc, numbers_of s -> Forall keeps_tables l -> (forall y, fv_of (do_calls l s) = Ok y -> pos y) -> unit_name f -> unit_name t ->
  ordinary D f -> density_case D f t = false -> never_in g decreasing f t ->
  converted_to v f t uc (do_calls l s) w -> converted_to v' f t uc (do_calls l s) w' -> le v v' -> le w w'.
Proof.
  intros HR s l v w v' w' f t uc S K Hv Hf Ht Ho Hd Hn Hw Hw' L.
  destruct (parts cs d H) as (T & HT & HL & HRo & HE & HK & HG & HW & HO & HN & HP & HD & (HC & HC') & HX & HG' & HV & HU & HM & HZ).
  pose proof S as (S1 & S2 & S3 & S4 & S5 & S6). pose proof (table_wf T g cs _ HT HL HE) as Wf.
  assert (Fr : fresh_session s) by (split; [rewrite S1; apply wf_sane; exact (map_wf g Wf)|auto]). rewrite <- S2 in Ho, Hd.
  destruct (comes_from s l f t uc v w Fr S6 K Hf Ht Ho Hd Hw) as (h & Eh & [[-> ->]|Hp]); pose proof (Eh v w Hw) as E1; pose proof (Eh v' w' Hw') as E2.
  - cbn [feval] in E1, E2. injection E1 as <-. injection E2 as <-. exact L.
  - rewrite S1 in Hp. destruct (map_path g f t h Hp) as (a & z & p & q & Ea & Ez & Hs & Hq & ->). cbn [feval] in E1, E2.
    pose proof (rising_walk T _ HT HL HE p a z q (proj1 Hs) Hq (Hn a z p Ea Ez Hs)) as Q.
    exact (rising_run le pos HR _ Hv q Q v v' w w' L E1 E2).
Qed.
End Db.
