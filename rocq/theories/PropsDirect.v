(** * C81: the network used directly

    [units_network.convert(value, a, b)] applies one registered conversion; it
    does not search.  [Conversion] objects convert and reverse. *)
From Coq Require Import String QArith Qpower Qcanon FMapPositive.
From Verif Require Import Py StrTools Network SearchSpec NetworkFacts SearchFacts Conv ConvFacts NetFacts2 Affine Converter EngineSpec EngineFacts2 EngineFacts4 EngineFacts5 ConsistSpec
  EngineFacts7 RegionSpec Demo Dict Database Shipped ShippedSpec ShippedCert ShippedCheck ShippedFacts ShippedFacts2 ShippedFacts3 ShippedFacts4 FastDb RoundFacts2 PropsShipped Direct.
Local Open Scope N_scope.

(** after any registrations: the first conversion that was asked for these two units *)
Theorem C81_first_registered : forall (V : Type) (A : Arith V) (ops : list (op (conv V))) a b c fv v,
  first_of (asked_all empty_net ops) a b = Some c -> net_convert fv (run_ops empty_net ops) v (ByNode a) (ByNode b) = ceval fv c v.
Proof.
  intros V A ops a b c fv v H. unfold net_convert, direct. cbn [resolve rbind]. rewrite (registrations_complete ops a b c H). reflexivity.
Qed.
Print Assumptions C81_first_registered.

(** a conversion of the user, by name: [f] one way, the division by f(1) the other *)
Theorem C81_user : forall (ops : list (op (conv Qc))) a b f g fv v, a <> b ->
  has_node (run_ops empty_net ops) a = false -> has_node (run_ops empty_net ops) b = false ->
  api_set_conversion (run_ops empty_net ops) a b f None = Ok g ->
  net_convert fv g v (ByName a) (ByName b) = f v
  /\ net_convert fv g v (ByName b) (ByName a) = rbind (f 1%Qc) (fun k => qdiv v k).
Proof.
  intros ops a b f g fv v Hn Ha Hb Hg. destruct (api_set_conversion_both ops a b f g Hn Ha Hb Hg) as (na & nb & Ea & Eb & C1 & C2).
  unfold net_convert, direct. cbn [resolve]. rewrite Ea, Eb. cbn [rbind]. rewrite C1, C2. split; reflexivity.
Qed.
Print Assumptions C81_user.

(** refusals: NameError for a unit that is not registered, ValueError when there is no direct conversion - even when a chain leads there *)
Theorem C81_refused : forall (V : Type) (A : Arith V) (ops : list (op (conv V))) fv v x y, let g := run_ops empty_net ops in
  ((has_node g x = false \/ has_node g y = false) -> net_convert fv g v (ByName x) (ByName y) = Err NameError)
  /\ (forall a b, get_node g x = Ok a -> get_node g y = Ok b -> ~ registered g a b -> net_convert fv g v (ByName x) (ByName y) = Err ValueError).
Proof.
  intros V A ops fv v x y g. assert (N : forall z, has_node g z = false -> get_node g z = Err NameError).
  { intros z Hz. unfold get_node. destruct (find _ _) as [e|] eqn:F; [|reflexivity]. apply find_some in F as [F1 F2]. exfalso. apply seqb_eq in F2.
    assert (T : has_node g z = true) by (unfold has_node; apply existsb_exists; exists e; split; [exact F1|rewrite F2; apply seqb_refl]). rewrite T in Hz. discriminate Hz. }
  split.
  - unfold net_convert, direct. cbn [resolve]. intros [H|H].
    + rewrite (N x H). reflexivity.
    + rewrite (N y H). unfold get_node. destruct (find _ _); reflexivity.
  - intros a b Ea Eb Hr. unfold net_convert, direct. cbn [resolve]. rewrite Ea, Eb. cbn [rbind]. unfold conversion.
    destruct (get_node_spec _ _ _ Ea) as [Ia _]. apply in_map_iff in Ia as (e & <- & He).
    destruct (lookup g (e_node e)) as [e'|] eqn:L.
    + destruct (index_of b (e_kids e')) as [i|] eqn:Ei; [|reflexivity]. exfalso. apply Hr. exists (e_kids e'). unfold children_of. rewrite L. split; [reflexivity|].
      apply Affine.index_nth in Ei. eapply nth_error_In. exact Ei.
    + exfalso. unfold lookup in L. apply (find_none _ _ L e) in He. rewrite neqb_refl in He. discriminate He.
Qed.
Print Assumptions C81_refused.

(** specification: one direct conversion after another along the path *)
Section Chain.
Context {V : Type} {A : Arith V}.
Fixpoint chain (fv : res V) (g : net (conv V)) (p : list node) (v w : V) : Prop :=
  match p with
  | a :: (b :: _) as t => exists y, net_convert fv g v (ByNode a) (ByNode b) = Ok y /\ chain fv g t y w
  | _ => v = w
  end.
Lemma run_chain fv g : forall p l v w, convs_along g p l -> run_convs fv l v = Ok w -> chain fv g p v w.
Proof.
  induction p as [|a p IH]; intros l v w Hl Hw; [contradiction|]. destruct p as [|b p].
  - destruct l; [|contradiction]. cbn in Hw. injection Hw as <-. reflexivity.
  - destruct l as [|c l]; [contradiction|]. destruct Hl as [Hc Hl]. cbn [run_convs] in Hw. destruct (ceval fv c v) as [y|] eqn:Ey; [|discriminate Hw]. cbn [rbind] in Hw.
    exists y. split; [|exact (IH l y w Hl Hw)]. unfold net_convert, direct. cbn [resolve rbind]. rewrite Hc. exact Ey.
Qed.
End Chain.
(** whatever the history, the algorithm and the memory: the number that convert() returns is the one that direct conversions
    of the network, one after the other along a path without repeated units, give *)
Theorem C81_chain : forall (V : Type) (A : Arith V) (s : st V) l f t uc v w, fresh_session s -> par_enough (s_par s) -> Forall call_enough l ->
  unit_name f -> unit_name t -> ordinary (s_dict s) f -> density_case (s_dict s) f t = false ->
  fst (convert (VNum v) (UStr f) (UStr t) uc (do_calls l s)) = Ok (Some (CVal w)) ->
  (f = t /\ w = v)
  \/ exists a b p, get_node (s_net (do_calls l s)) f = Ok a /\ get_node (s_net (do_calls l s)) t = Ok b
       /\ simple_path (registered (s_net (do_calls l s))) a p b /\ chain (fv_of (do_calls l s)) (s_net (do_calls l s)) p v w.
Proof.
  intros V A s l f t uc v w Fr En0 K Hf Ht Ho Hd Hw. destruct (session s l Fr En0 K) as (G & En & N & Ds).
  rewrite convert_value in Hw by (try assumption; now rewrite Ds). destruct (simple_answer (do_calls l s) uc f t) as [[h|]|e] eqn:Es.
  - cbn [val_result] in Hw. destruct (feval (fv_of (do_calls l s)) h v) as [x|] eqn:Ex; cbn [rbind finish_result] in Hw; [injection Hw as ->|discriminate Hw].
    destruct (simple_answer_explained _ uc f t h G (proj1 Hf) (proj1 Ht) Es) as [Hq|(a & b & p & q & Ea & Eb & Hp & Hq & ->)].
    + left. rewrite Ds, plain_quick in Hq by exact Ho. destruct (seqb f t) eqn:E'; [|discriminate Hq]. injection Hq as <-. apply seqb_eq in E'.
      cbn [feval] in Ex. injection Ex as ->. auto.
    + right. exists a, b, p. cbn [feval] in Ex. split; [exact Ea|]. split; [exact Eb|]. split; [exact Hp|]. exact (run_chain _ _ p q v w Hq Ex).
  - exfalso. cbn [val_result finish_result] in Hw. destruct (p_raise _); discriminate Hw.
  - exfalso. cbn [val_result finish_result] in Hw. discriminate Hw.
Qed.
Print Assumptions C81_chain.

(** in the shipped database, between units of one kind (all kinds but the contradictory ones and those of the dictionary rules),
    a direct conversion of the network and convert() never give two different numbers: one registered factor or a
    path of up to dozens of them, whatever the algorithm and the memory.  (_partial: not for the contradictory kinds,
    where it is false, nor for texts that only the parser knows) *)
Section Same.
Context (cs : list crow) (d : db Qc).
Hypothesis H : check_db cs d = true.
Local Notation g := (db_net d).
Local Notation kd := (merge_data (db_kinds d)).
Lemma gen_direct b k s l f t a v w uc : b <> 0%Qc -> session_of d s -> Forall keeps l -> fvf_is b (do_calls l s) -> unit_name f -> unit_name t -> f <> t ->
  listed_in kd k f -> listed_in kd k t -> ~ In k contradictory_kinds -> ~ In k rule_kinds ->
  net_convert (fv_of (do_calls l s)) g v (ByName f) (ByName t) = Ok a ->
  fst (convert (VNum v) (UStr f) (UStr t) uc (do_calls l s)) = Ok (Some (CVal w)) -> a = w.
Proof.
  intros Hb S K Hv Hf Ht Nft Lf Lt Kc Kr Ha Hw. destruct (gen_scale cs d H b Hb) as (m & _ & M1 & _ & M2).
  rewrite (M2 k s l v w f t uc S K Hv Hf Ht Lf Lt Kc Kr Hw).
  unfold net_convert, direct in Ha. cbn [resolve] in Ha. destruct (get_node g f) as [x|] eqn:Ex; [|discriminate Ha]. cbn [rbind] in Ha.
  destruct (get_node g t) as [y|] eqn:Ey; [|discriminate Ha]. cbn [rbind] in Ha. destruct (conversion g x y) as [c|] eqn:Ec; [|discriminate Ha]. cbn [rbind] in Ha.
  destruct (get_node_spec _ _ _ Ex) as [Ix Nx]. destruct (get_node_spec _ _ _ Ey) as [Iy Ny].
  assert (Nxy : x <> y) by (intros ->; apply Nft; congruence).
  assert (Rg : registered g x y).
  { unfold conversion in Ec. destruct (lookup g x) as [e|] eqn:L; [|discriminate Ec]. destruct (index_of y (e_kids e)) as [i|] eqn:Ei; [|discriminate Ec].
    exists (e_kids e). unfold children_of. rewrite L. split; [reflexivity|]. apply Affine.index_nth in Ei. eapply nth_error_In. exact Ei. }
  assert (Hp : simple_path (registered g) x [x; y] y).
  { split; [exact (walk_cons _ x y [y] y Rg (walk_one _ y))|]. constructor; [intros [E|[]]; exact (Nxy (eq_sym E))|]. constructor; [intros []|constructor]. }
  assert (Sf : ~ follows disagreeing [x; y]).
  { destruct (parts cs d H) as (T & HT & HL & HRo & HE & HK & HG & HW & HO & HN & HP & HD & (HC & HC') & HX & HG' & HV & HU & HM & HZ).
    exact (kind_safe cs d T HT HL HE HG k f t Lf Lt Kc x y [x; y] Ex Ey Hp). }
  assert (Cv : convs_along g [x; y] [c]) by (cbn; auto).
  assert (Ra : run_convs (Ok b) [c] v = Ok a).
  { assert (E0 : run_convs (fv_of (do_calls l s)) [c] v = Ok a) by (cbn [run_convs]; rewrite Ha; reflexivity).
    destruct Hv as [Hv|(e & Hv)]; rewrite Hv in E0; [exact E0|exact (run_without e b [c] v a E0)]. }
  pose proof (eq_trans (eq_sym Ra) (M1 [x; y] x y [c] v (proj1 Hp) Cv Sf)) as E1. apply ok_inj in E1. rewrite E1, Nx, Ny. reflexivity.
Qed.
Lemma direct_net T fv f t v p q : tabulate (rows cs g) hempty = Some T -> length cs = length (n_edges g) ->
  forallb (check_entry T (n_next g) (comps_of T [u "standard barrel"])) (n_edges g) = true -> direct_b T f t p q = true ->
  net_convert fv g v (ByName f) (ByName t) = Ok (v * Q2Qc p + Q2Qc q)%Qc.
Proof.
  intros HT HL HE Hd. destruct (direct_b_edge T f t p q Hd) as (c & Ec & Hc). destruct (edge_of_conversion T g cs _ HT HL HE f t c Ec) as (a & b & Ea & Eb & Hab).
  unfold net_convert, direct. cbn [resolve]. rewrite Ea, Eb. cbn [rbind]. rewrite Hab. cbn [rbind]. apply Hc.
Qed.
Lemma gen_prefix_direct p e x n fv v : In (p, e) si_prefixes -> In (x, n) si_units -> p <> u "K" \/ n = 1%Z ->
  net_convert fv g v (ByName (p ++ x)) (ByName x) = Ok (v * Q2Qc (ten_to (n * e)))%Qc
  /\ net_convert fv g v (ByName x) (ByName (p ++ x)) = Ok (v / Q2Qc (ten_to (n * e)))%Qc.
Proof.
  destruct (parts cs d H) as (T & HT & HL & HRo & HE & HK & HG & HW & HO & HN & HP & HD & (HC & HC') & HX & HG' & HV & HU & HM & HZ).
  intros Hp Hu Hk. pose proof (proj1 (forallb_forall _ _) (proj1 (forallb_forall _ _) HP _ Hp) _ Hu) as G. unfold check_prefix in G. cbn [fst snd] in G.
  apply orb_true_iff in G as [G|G].
  { exfalso. apply andb_true_iff in G as [G1 G2]. apply seqb_eq in G1. apply negb_true_iff, Z.eqb_neq in G2. tauto. }
  rewrite !andb_true_iff in G. destruct G as (((G1 & G2) & G3) & G4). rewrite (Z.mul_comm n e).
  rewrite (direct_net T fv _ _ v _ _ HT HL HE G3), (direct_net T fv _ _ v _ _ HT HL HE G4). change (Q2Qc 0) with 0%Qc. rewrite !Qcplus_0_r. split; [reflexivity|].
  f_equal. unfold Qcdiv. f_equal. unfold ten_to. rewrite <- Q2Qc_inv. apply Q2Qc_eq. apply Qpower_opp.
Qed.
End Same.
Theorem C81_same_answer_partial : forall b k s l f t a v w uc, b <> 0%Qc -> shipped_session s -> Forall keeps l -> fvf_is b (do_calls l s) ->
  unit_name f -> unit_name t -> f <> t -> listed_as k f -> listed_as k t -> ~ In k contradictory_kinds -> ~ In k rule_kinds ->
  net_convert (fv_of (do_calls l s)) shipped_net v (ByName f) (ByName t) = Ok a ->
  fst (convert (VNum v) (UStr f) (UStr t) uc (do_calls l s)) = Ok (Some (CVal w)) -> a = w.
Proof. by_check gen_direct. Qed.
Print Assumptions C81_same_answer_partial.

(** every SI prefix of every SI unit is a direct conversion of the shipped network: the power of ten and its inverse *)
Theorem C81_prefixes : forall p e x n fv v, In (p, e) si_prefixes -> In (x, n) si_units -> p <> u "K" \/ n = 1%Z ->
  net_convert fv shipped_net v (ByName (p ++ x)) (ByName x) = Ok (v * Q2Qc (ten_to (n * e)))%Qc
  /\ net_convert fv shipped_net v (ByName x) (ByName (p ++ x)) = Ok (v / Q2Qc (ten_to (n * e)))%Qc.
Proof. by_check gen_prefix_direct. Qed.
Print Assumptions C81_prefixes.

(** [Conversion] objects: [reverse] undoes [convert] exactly when the function is proportional *)
Theorem C81_objects : forall fv a b (f : Qc -> res Qc) h r al, total_fun f h -> let c := Conversion a b (Some (CUser f)) r al in
  ((forall x, rbind (co_convert fv c x) (co_reverse fv c) = Ok x /\ rbind (co_reverse fv c x) (co_convert fv c) = Ok x)
   <-> exists k, k <> 0%Qc /\ forall x, h x = (k * x)%Qc).
Proof. intros fv a b f h r al Hf c. exact (rev_exact_iff fv f h Hf). Qed.
Print Assumptions C81_objects.
(** their text: "a->b", the unit converted from first *)
Theorem C81_object_text : forall (V : Type) (k : option (conv V)) i j x y r al, co_str (Conversion (Node i x) (Node j y) k r al) = x ++ u "->" ++ y.
Proof. reflexivity. Qed.
Print Assumptions C81_object_text.
(** what [get_convert] hands over: the function, or the one that divides by its value at 1; no function, no answer *)
Theorem C81_get_convert : forall (V : Type) (A : Arith V) fv (c : conversion_object V),
  (forall k x, co_get_convert c = Some k -> ceval fv k x = if c_rev c then co_reverse fv c x else co_convert fv c x)
  /\ (co_get_convert c = None <-> forall x, co_convert fv c x = Err TypeError /\ co_reverse fv c x = Err TypeError /\ c_conv c = None).
Proof.
  intros V A fv [a b [k|] r al]; cbn [co_get_convert c_conv c_rev]; (split; [intros k' x E|split; [intros E|intros E]]).
  - injection E as <-. destruct r; reflexivity.
  - discriminate E.
  - destruct (E (aconst 1)) as (_ & _ & E'). discriminate E'.
  - discriminate E.
  - intros x. repeat split.
  - reflexivity.
Qed.
Print Assumptions C81_get_convert.

(** the names: each registered name once, no other *)
Theorem C81_names : forall (V : Type) (A : Arith V) (ops : list (op (conv V))) x,
  NoDup (list_nodes (run_ops empty_net ops)) /\ (In x (list_nodes (run_ops empty_net ops)) <-> has_node (run_ops empty_net ops) x = true).
Proof.
  intros V A ops x. split; [apply NoDup_nodup|]. unfold list_nodes. rewrite nodup_In, has_node_spec, in_map_iff. split.
  - intros (e & E & I). exists (e_node e). split; [now apply in_map|exact E].
  - intros (n & I & E). apply in_map_iff in I as (e & <- & I). exists e. auto.
Qed.
Print Assumptions C81_names.

(** [str(units_network)] raises AttributeError as soon as one unit is registered *)
Theorem C81_str_refuted : forall (V : Type) (A : Arith V) (ops : list (op (conv V))) x, has_node (run_ops empty_net ops) x = true ->
  net_str (run_ops empty_net ops) = Err AttributeError.
Proof.
  intros V A ops x Hx. unfold net_str. destruct (n_edges (run_ops empty_net ops)) eqn:E; [|reflexivity].
  unfold has_node in Hx. rewrite E in Hx. discriminate Hx.
Qed.
Print Assumptions C81_str_refuted.

(** ** The hypotheses are met *)
Example C81_example :
  net_convert (Err NoFVFError) demo_net (Q2Qc 3) (ByName (u "km")) (ByName (u "m")) = Ok (Q2Qc 3000)
  /\ net_convert (Err NoFVFError) demo_net (Q2Qc 3) (ByName (u "km")) (ByName (u "cm")) = Err ValueError
  /\ has_node demo_net (u "cm") = true
  /\ net_convert (Err NoFVFError) demo_net (Q2Qc 3) (ByName (u "ell")) (ByName (u "cm")) = Err NameError
  /\ net_convert (Err NoFVFError) demo_net (Q2Qc 3) (ByName (u "rb")) (ByName (u "stb")) = Err NoFVFError
  /\ first_of (asked_all empty_net demo_ops) (demo_node 2) (demo_node 0) = Some (CMul 1000)
  /\ ask 3 "km" "cm" demo = Ok (Some (CVal (Q2Qc 300000)))
  /\ length (list_nodes demo_net) = 13%nat.
Proof. repeat apply conj; try (vm_compute; reflexivity); apply is_val_eq; vm_compute; reflexivity. Qed.
Example C81_example_session : let s := demo_on demo_net "BFS" in
  fresh_session s /\ par_enough (s_par s) /\ unit_name (u "km") /\ unit_name (u "cm") /\ ordinary (s_dict s) (u "km") /\ density_case (s_dict s) (u "km") (u "cm") = false.
Proof.
  split; [exact (demo_fresh "BFS")|]. split; [exact (demo_enough "BFS")|]. split; [apply unit_check; reflexivity|]. split; [apply unit_check; reflexivity|].
  split; [|reflexivity]. split; [|split]; intros X; apply smem_In in X; discriminate X.
Qed.
(** in the shipped database: kilometres, directly and by convert(), after any conversions and whichever search *)
Example C81_example_shipped : forall s v w uc, shipped_session s -> Forall keeps [conv_of 1 "foot" "mile"] -> fvf_is 1 (do_calls [conv_of 1 "foot" "mile"] s) ->
  unit_name (u "km") -> unit_name (u "m") -> listed_as (u "Length") (u "km") -> listed_as (u "Length") (u "m") ->
  fst (convert (VNum v) (UStr (u "km")) (UStr (u "m")) uc (do_calls [conv_of 1 "foot" "mile"] s)) = Ok (Some (CVal w)) -> w = (v * Q2Qc (ten_to 3))%Qc.
Proof.
  intros s v w uc S K F N1 N2 L1 L2 E. symmetry. 
  refine (C81_same_answer_partial 1%Qc (u "Length") s _ _ _ _ v w uc _ S K F N1 N2 _ L1 L2 _ _ _ E).
  - discriminate. - discriminate.
  - intros X; apply smem_In in X; discriminate X. - intros X; apply smem_In in X; discriminate X.
  - refine (proj1 (C81_prefixes (u "k") 3 (u "m") 1 _ v _ _ _)); [do 10 right; left; reflexivity|right; left; reflexivity|left; discriminate].
Qed.
