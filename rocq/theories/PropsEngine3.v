(** * Properties C26, C27, C29, C31, C51: composite units, new conversions, budget, density *)
From Coq Require Import String QArith Qcanon.
From Verif Require Import Py StrTools StrFacts Network SearchSpec NetworkFacts Search SearchFacts SearchFacts2 DescFacts
  Hybrid HybridFacts Conv ConvFacts NetFacts2 Converter EngineSpec EngineFacts EngineFacts2 EngineFacts3 EngineFacts4 EngineFacts5 EngineFacts6
  ConsistSpec ConsistFacts CleanFacts Affine Demo EngineFacts7 PropsEngine EngineFacts8 CompositeSpec EngineFacts9 EngineFacts10.
Local Open Scope N_scope.

Lemma bare_spell pr l x0 : unit_name x0 -> Forall (fun m => unit_name (pr m)) l -> l <> [] ->
  bare_name (x0 ++ flat_map (fun m => sign m ++ pr m) l).
Proof.
  intros [[Sx1 Sx2] (Nx & _ & Lx & Rx & Ex)] Hl Hn.
  assert (NP : forall c, c = lpar \/ c = rpar -> ~ In c (flat_map (fun m => sign m ++ pr m) l)).
  { intros c Hc K. apply in_flat_map in K as (m & Hm & K). rewrite Forall_forall in Hl. destruct (Hl m Hm) as [_ (_ & _ & H1 & H2 & _)].
    apply in_app_iff in K as [K|K].
    - unfold sign in K. destruct Hc as [-> | ->], (f_div m); destruct K as [K|[]]; discriminate K.
    - destruct Hc as [-> | ->]; contradiction. }
  split; [destruct x0; [contradiction|discriminate]|].
  split. { intros K. destruct l as [|m l]; [contradiction|]. assert (H : In c_slash (u "Empty") \/ In c_star (u "Empty")).
    { rewrite <- K. cbn [flat_map]. unfold sign. destruct (f_div m); [left|right]; rewrite !in_app_iff; right; left; left; now left. }
    vm_compute in H. destruct H as [H|H]; repeat (destruct H as [H|H]; [discriminate|]); contradiction. }
  split; [rewrite in_app_iff; intros [K|K]; [contradiction|]; apply (NP lpar) in K; auto|].
  split; [rewrite in_app_iff; intros [K|K]; [contradiction|]; apply (NP rpar) in K; auto|].
  intros c r [K|K].
  - destruct x0 as [|c0 r0]; [contradiction|]. injection K as <- _. apply (Ex c0 r0). now left.
  - destruct (exists_last Hn) as (l' & m & ->). rewrite Forall_app in Hl. destruct Hl as [_ Hl]. inversion Hl as [|? ? [_ (Nm & _ & _ & _ & Em)] _]; subst.
    rewrite flat_map_app in K. cbn [flat_map] in K. rewrite app_nil_r in K.
    destruct (exists_last Nm) as (r' & c' & E). rewrite E in K. rewrite !app_assoc in K. apply app_inj_tail in K as [_ <-].
    apply (Em c' r'). now right.
Qed.

(** ** C26: a product or ratio is converted factor by factor *)
(** [source] and [target] spell x0, x1, x2... joined by signs, and [worth] is what
    [convert] answers for one unit; after any quiet history, for any number of
    factors, any arithmetic *)
Theorem C26_factor_by_factor : forall V (A : Arith V) (s : st V) cs v x0 y0 l k0 ks uc,
  let s' := do_calls cs s in
  fresh_session s -> par_enough (s_par s) -> Forall (quiet (search_settings (s_par s))) cs ->
  l <> [] -> unit_name x0 -> unit_name y0 -> density_case (s_dict s) x0 y0 = false ->
  worth s' x0 y0 k0 -> Forall2 (factor_worth s') l ks ->
  no_shortcut s' (source x0 l) (target y0 l) -> density_case (s_dict s) (source x0 l) (target y0 l) = false ->
  (* nothing is remembered for the pair, or the memory is not used *)
  uc = Some false \/ mget (source x0 l, target y0 l) (s_mem s') = None ->
  fst (convert (VNum v) (UStr (source x0 l)) (UStr (target y0 l)) uc s') = Ok (Some (CVal (amul v (fold_left amul ks k0)))).
Proof.
  intros V A s cs v x0 y0 l k0 ks uc s' F E Hq Hl Hx Hy Hd0 Hw Hk Hn Hd Hu.
  destruct (quiet_session s cs F E Hq) as (S & En & Q & N & D).
  assert (Hf : Forall (fun m => unit_name (f_from m)) l /\ Forall (fun m => unit_name (f_to m)) l).
  { clear - Hk. induction Hk as [|m k l ks (H1 & H2 & _) Hk [IH1 IH2]]; split; constructor; assumption. }
  change (VNum v) with (opt_v (Some v)). rewrite convert_bare; [|apply bare_spell; tauto|apply bare_spell; tauto].
  apply convert_factors; try assumption; [unfold s'; now rewrite D|unfold s'; now rewrite D|].
  unfold memo_of. destruct Hu as [-> | ->]; [reflexivity|]. now destruct (use_of s' uc).
Qed.
Print Assumptions C26_factor_by_factor.

(** exact arithmetic, consistent network, units without offset: the quantity is kept.
    The size of the composite unit is the product and quotient of the sizes. *)
Definition size_of (m : scale) (pr : factor -> str) (x0 : str) (l : list factor) : Qc :=
  fold_left (fun z g => if f_div g then (z / k_of m (pr g))%Qc else (z * k_of m (pr g))%Qc) l (k_of m x0).
Definition proportional (m : scale) (x : str) : Prop := o_of m x = 0%Qc.
Local Open Scope Qc_scope.
Lemma size_scale (m : scale) pr (l : list factor) : (forall a, k_of m a <> 0) -> forall z z',
  fold_left (fun z g => if f_div g then z / k_of m (pr g) else z * k_of m (pr g)) l (z * z')
  = z * fold_left (fun z g => if f_div g then z / k_of m (pr g) else z * k_of m (pr g)) l z'.
Proof.
  intros Hk. induction l as [|g l IH]; intros z z'; [reflexivity|]. cbn [fold_left]. rewrite <- IH. f_equal.
  destruct (f_div g); [unfold Qcdiv|]; ring.
Qed.
Lemma qprod_scale (ks : list Qc) : forall z z', fold_left Qcmult ks (z * z') = z * fold_left Qcmult ks z'.
Proof. induction ks as [|k ks IH]; intros z z'; [reflexivity|]. cbn [fold_left]. rewrite <- IH. f_equal. ring. Qed.
Lemma rescale_prop m x y : proportional m x -> proportional m y -> rescale m x y 1 = k_of m x / k_of m y.
Proof. intros Hx Hy. unfold rescale. rewrite Hx, Hy. unfold Qcdiv. ring. Qed.
Lemma sizes_kept m l ks : (forall a, k_of m a <> 0) ->
  Forall2 (fun g k => k = if f_div g then k_of m (f_to g) / k_of m (f_from g) else k_of m (f_from g) / k_of m (f_to g)) l ks ->
  forall a b c, a = c * b -> 
  fold_left (fun z g => if f_div g then z / k_of m (f_from g) else z * k_of m (f_from g)) l a
  = fold_left Qcmult ks c * fold_left (fun z g => if f_div g then z / k_of m (f_to g) else z * k_of m (f_to g)) l b.
Proof.
  intros Hk H. induction H as [|g k l ks Hg H IH]; intros a b c E; [exact E|]. cbn [fold_left]. apply IH. rewrite E, Hg.
  pose proof (Hk (f_from g)). pose proof (Hk (f_to g)). destruct (f_div g); field; auto.
Qed.
Theorem C26_composite_keeps_the_quantity : forall (s : st Qc) cs v x0 y0 l k0 ks uc m,
  let s' := do_calls cs s in
  fresh_session s -> par_enough (s_par s) -> Forall (quiet (search_settings (s_par s))) cs ->
  agrees (fv_of s') m (s_net s') ->
  l <> [] -> unit_name x0 -> unit_name y0 -> density_case (s_dict s) x0 y0 = false ->
  ordinary (s_dict s) x0 -> proportional m x0 -> proportional m y0 ->
  Forall (fun g => ordinary (s_dict s) (f_from g) /\ proportional m (f_from g) /\ proportional m (f_to g)) l ->
  worth s' x0 y0 k0 -> Forall2 (factor_worth s') l ks ->
  no_shortcut s' (source x0 l) (target y0 l) -> density_case (s_dict s) (source x0 l) (target y0 l) = false ->
  uc = Some false \/ mget (source x0 l, target y0 l) (s_mem s') = None ->
  exists w, fst (convert (VNum v) (UStr (source x0 l)) (UStr (target y0 l)) uc s') = Ok (Some (CVal w))
    /\ w * size_of m f_to y0 l = v * size_of m f_from x0 l.
Proof.
  intros s cs v x0 y0 l k0 ks uc m s' F E Hq Hm Hl Hx Hy Hd0 Ox Px Py Hg Hw Hk Hn Hd Hu.
  eexists. split; [eapply C26_factor_by_factor; eassumption|].
  assert (C : Forall call_enough cs).
  { eapply Forall_impl; [|exact Hq]. intros [] K; cbn in *; tauto. }
  destruct (quiet_session s cs F E Hq) as (S & En & Q & N & D).
  assert (W : forall x y k, unit_name x -> unit_name y -> ordinary (s_dict s) x -> density_case (s_dict s) x y = false ->
    proportional m x -> proportional m y -> worth s' x y k -> k = k_of m x / k_of m y).
  { intros x y k H1 H2 H3 H4 H5 H6 (uc' & H). rewrite <- (rescale_prop m x y H5 H6).
    exact (value_of s cs 1 k x y uc' m F E C Hm H1 H2 H3 H4 H). }
  pose proof (W x0 y0 k0 Hx Hy Ox Hd0 Px Py Hw) as E0.
  assert (Ek : Forall2 (fun g k => k = if f_div g then k_of m (f_to g) / k_of m (f_from g) else k_of m (f_from g) / k_of m (f_to g)) l ks).
  { assert (Ds : s_dict s' = s_dict s) by exact D.
    clear - W Hk Hg Hm Ds. induction Hk as [|g k l ks (H1 & H2 & H3 & H4) Hk IH]; [constructor|].
    inversion Hg as [|? ? (G1 & G2 & G3) Hg']; subst. constructor; [|now apply IH]. rewrite Ds in H3. destruct (f_div g); [|now apply W].
    destruct H4 as (k' & H4 & H5). apply W in H4; try assumption. subst k'. change (qdiv (aconst 1%Q) (k_of m (f_from g) / k_of m (f_to g)) = Ok k) in H5.
    pose proof (proj1 Hm (f_from g)) as K1. pose proof (proj1 Hm (f_to g)) as K2.
    rewrite qdiv_ok in H5. 2:{ intros K. apply K1. transitivity (k_of m (f_from g) / k_of m (f_to g) * k_of m (f_to g)); [field; exact K2|rewrite K; ring]. }
    injection H5 as <-. change (aconst 1%Q) with (1 : Qc). field. auto. }
  unfold size_of. change (@amul Qc _) with Qcmult.
  rewrite (sizes_kept m l ks (proj1 Hm) Ek (k_of m x0) (k_of m y0) k0); [ring|].
  rewrite E0. field. apply (proj1 Hm).
Qed.
Print Assumptions C26_composite_keeps_the_quantity.
Local Open Scope N_scope.
Lemma one_cut (c : chr) : forall a b a' b', ~ In c a -> ~ In c b -> a ++ [c] ++ b = a' ++ [c] ++ b' -> a = a' /\ b = b'.
Proof.
  induction a as [|x a IH]; intros b [|x' a'] b' Ha Hb E; cbn [Datatypes.app] in E.
  - now injection E.
  - injection E as E1 E2. exfalso. apply Hb. rewrite E2, in_app_iff. right. now left.
  - injection E as E1 _. exfalso. apply Ha. now left.
  - injection E as -> E2. destruct (IH b a' b') as [-> ->]; auto. intros K. apply Ha. now right.
Qed.
Definition demo_speed : list factor := [Factor true (u "min") (u "s"); Factor false (u "kg") (u "g")].
Example C26_example :
  let cs := [conv_of 1 "km" "s"; KSetFvf (Q2Qc 2); conv_of 1 "g" "kg"] in let s' := do_calls cs demo in
  source (u "km") demo_speed = u "km/min*kg" /\ target (u "m") demo_speed = u "m/s*g"
  /\ Forall (quiet (search_settings (s_par demo))) cs
  /\ worth s' (u "km") (u "m") (Q2Qc 1000) /\ Forall2 (factor_worth s') demo_speed [Q2Qc (1 # 60); Q2Qc 1000]
  /\ no_shortcut s' (source (u "km") demo_speed) (target (u "m") demo_speed)
  /\ mget (u "km/min*kg", u "m/s*g") (s_mem s') = None
  /\ ask 6 "km/min*kg" "m/s*g" s' = Ok (Some (CVal (Q2Qc 100000))).
Proof.
  split; [reflexivity|]. split; [reflexivity|]. split; [repeat constructor|].
  split; [exists None; apply is_val_eq; vm_compute; reflexivity|].
  split; [constructor; [|constructor; [|constructor]]; (split; [apply unit_check; reflexivity|]; split; [apply unit_check; reflexivity|]; split; [vm_compute; reflexivity|])|].
  - exists (Q2Qc 60). split; [exists None; apply is_val_eq; vm_compute; reflexivity|]. apply (f_equal (@Ok Qc)). apply Qc_is_canon. reflexivity.
  - exists None. apply is_val_eq. vm_compute. reflexivity.
  - split; [|split; [vm_compute; reflexivity|apply is_val_eq; vm_compute; reflexivity]].
    split; [discriminate|]. split; [apply ordinary_check; vm_compute; reflexivity|]. split; [apply ordinary_check; vm_compute; reflexivity|].
    split; [left; vm_compute; reflexivity|]. intros n1 d1 n2 d2 H1 H2.
    change (source (u "km") demo_speed) with (u "km" ++ [c_slash] ++ u "min*kg") in H1. 
    change (target (u "m") demo_speed) with (u "m" ++ [c_slash] ++ u "s*g") in H2.
    assert (Sl : forall x, cmem c_slash x = false -> ~ In c_slash x) by (intros x Hx K; apply cmem_In in K; congruence).
    apply one_cut in H1 as [<- <-]; [|apply Sl; reflexivity|apply Sl; reflexivity].
    apply one_cut in H2 as [<- <-]; [|apply Sl; reflexivity|apply Sl; reflexivity]. split.
    + intros [K _]. apply smem_In in K. vm_compute in K. discriminate K.
    + intros [K _]. vm_compute in K. discriminate K.
Qed.
(** false in general: a unit that is only in one of the two is ignored, and a
    temperature in a denominator is converted with its offset *)
Theorem C26_leftover_refuted : exists s : st Qc, fresh_session s /\
  ask 7 "m" "m/s" s = Ok (Some (CVal (Q2Qc 7))) /\ ask 1 "m/s" "s/m*kg" s = Ok (Some (CVal (Q2Qc 1))).
Proof. exists demo. split; [apply demo_fresh|]. split; apply is_val_eq; vm_compute; reflexivity. Qed.
Print Assumptions C26_leftover_refuted.
Theorem C26_temperature_refuted : exists s : st Qc, fresh_session s /\
  (* one kg per celsius is one kg per kelvin *)
  ask 1 "kg/celsius" "kg/kelvin" s = Ok (Some (CVal (Q2Qc (100 # 27415)))).
Proof. exists demo. split; [apply demo_fresh|]. apply is_val_eq; vm_compute; reflexivity. Qed.
Print Assumptions C26_temperature_refuted.

(** ** C27: a registered conversion is used *)
Section C27.
Context {V : Type} {A : Arith V}.
Lemma do_call_wf c (s : st V) : wf_net (s_net s) -> wf_net (s_net (do_call c s)).
Proof.
  intros W. assert (K : converts c -> wf_net (s_net (do_call c s))).
  { intros Hc. pose proof (do_call_frame c s Hc) as Fr. apply frame_fields in Fr as (-> & _). exact W. }
  destruct c; try (now apply K); try exact W; cbn [do_call].
  - unfold api_set_unit. rewrite bind_get. unfold bind, lift, set_unit. destruct (add_new_ok (s_net s) name W) as (g' & E & W' & _). now rewrite E.
  - unfold set_conversion_api. rewrite bind_get. unfold bind, lift. destruct (api_set_conversion (s_net s) a b f r) as [g'|e] eqn:E; [|exact W].
    unfold api_set_conversion in E.
    destruct (wf_set_conversion (s_net s) a b (CUser f) (match r with Some h => CUser h | None => CRev (CUser f) end) W) as (g1 & g2 & na & nb & g3 & gg & _ & _ & _ & _ & _ & _ & E2 & _ & _ & W2).
    rewrite E in E2. injection E2 as <-. exact W2.
Qed.
Lemma do_calls_wf cs : forall s : st V, wf_net (s_net s) -> wf_net (s_net (do_calls cs s)).
Proof. induction cs as [|c cs IH]; intros s W; [exact W|]. cbn [do_calls fold_left]. apply IH, do_call_wf, W. Qed.
End C27.
(** after any history: one of the two units new, BFS, nothing remembered for the pair *)
Theorem C27_registered_conversion_used_partial : forall V (A : Arith V) (s : st V) cs v a b f r uc,
  let s' := do_calls cs s in
  fresh_session s -> wf_net (s_net s) -> par_enough (s_par s) -> Forall call_enough cs ->
  p_algo (s_par s') = u "BFS" ->
  unit_name a -> unit_name b -> plain_pair (s_dict s) a b ->
  has_node (s_net s') a = false \/ has_node (s_net s') b = false ->
  uc = Some false \/ mget (a, b) (s_mem s') = None ->
  fst (convert (VNum v) (UStr a) (UStr b) uc (do_call (KSetConversion a b f r) s')) = rbind (f v) (fun w => Ok (Some (CVal w))).
Proof.
  intros V A s cs v a b f r uc s' F W E C Ha Hua Hub Hp Hn Hm. destruct (session s cs F E C) as (G & En & D).
  rewrite set_conversion_used; try assumption; [apply finish_some|now apply do_calls_wf|]. unfold s'. destruct D as [_ ->]. exact Hp.
Qed.
Print Assumptions C27_registered_conversion_used_partial.
(** and back: with the function given for it, else x / f(1) *)
Theorem C27_reverse_used_partial : forall V (A : Arith V) (s : st V) cs v a b f r uc,
  let s' := do_calls cs s in
  fresh_session s -> wf_net (s_net s) -> par_enough (s_par s) -> Forall call_enough cs ->
  p_algo (s_par s') = u "BFS" ->
  unit_name a -> unit_name b -> plain_pair (s_dict s) b a ->
  has_node (s_net s') a = false \/ has_node (s_net s') b = false ->
  uc = Some false \/ mget (b, a) (s_mem s') = None ->
  fst (convert (VNum v) (UStr b) (UStr a) uc (do_call (KSetConversion a b f r) s'))
  = rbind (match r with Some h => h v | None => rbind (f (aconst 1%Q)) (fun k => adiv v k) end) (fun w => Ok (Some (CVal w))).
Proof.
  intros V A s cs v a b f r uc s' F W E C Ha Hua Hub Hp Hn Hm. destruct (session s cs F E C) as (G & En & D).
  rewrite set_conversion_used_back; try assumption; [|now apply do_calls_wf|unfold s'; destruct D as [_ ->]; exact Hp].
  rewrite finish_some. destruct r; reflexivity.
Qed.
Print Assumptions C27_reverse_used_partial.
(** with the default algorithm: two new units, before any search of the session *)
Theorem C27_lean_BFS_first_partial : forall V (A : Arith V) (s : st V) v a b f r uc,
  fresh_session s -> wf_net (s_net s) -> unique_names (s_net s) -> symmetric (s_net s) -> s_es s = None ->
  par_enough (s_par s) -> p_algo (s_par s) = u "lean_BFS" -> (0 <= p_max_gen (s_par s))%Z ->
  unit_name a -> unit_name b -> plain_pair (s_dict s) a b ->
  has_node (s_net s) a = false -> has_node (s_net s) b = false ->
  fst (convert (VNum v) (UStr a) (UStr b) uc (do_call (KSetConversion a b f r) s)) = rbind (f v) (fun w => Ok (Some (CVal w))).
Proof.
  intros V A s v a b f r uc F W U Sy Es E Ha Hg Hua Hub Hp Hna Hnb. assert (En : enough s) by now apply enough_par.
  rewrite set_conversion_used_lean; try assumption; [apply finish_some|]. right. destruct F as (_ & -> & _). reflexivity.
Qed.
Print Assumptions C27_lean_BFS_first_partial.

(** false in general: a failure remembered before the registration stays; with
    the default algorithm a unit registered after a search is never found; and
    a second conversion between two known units does not replace the first *)
Theorem C27_refuted : exists s : st Qc, fresh_session s /\ wf_net (s_net s) /\ par_enough (s_par s) /\
  let dbl := fun x : Qc => Ok (x + x)%Qc in let new := KSetConversion (u "aa") (u "bb") dbl None in
  let lean := KSetPar (with_algo (s_par s) "lean_BFS") in
  p_algo (s_par s) = u "BFS" /\
  ask 3 "aa" "bb" (do_calls [new] s) = Ok (Some (CVal (Q2Qc 6))) /\
  ask 3 "aa" "bb" (do_calls [conv_of 3 "aa" "bb"; new] s) = Ok None /\
  ask 3 "aa" "bb" (do_calls [lean; new] s) = Ok (Some (CVal (Q2Qc 6))) /\
  ask 3 "aa" "bb" (do_calls [lean; conv_of 1 "km" "cm"; new] s) = Ok None /\
  ask 3 "aa" "bb" (do_calls [new; KSetConversion (u "aa") (u "bb") (fun x => Ok (x + x + x)%Qc) None] s) = Ok (Some (CVal (Q2Qc 6))).
Proof.
  exists demo. split; [apply demo_fresh|]. split; [apply demo_wf|]. split; [apply demo_enough|]. cbv zeta.
  split; [reflexivity|]. split; [apply is_val_eq; vm_compute; reflexivity|]. split; [vm_compute; reflexivity|].
  split; [apply is_val_eq; vm_compute; reflexivity|]. split; [vm_compute; reflexivity|]. apply is_val_eq; vm_compute; reflexivity.
Qed.
Print Assumptions C27_refuted.
Example C27_example :
  let cs := [conv_of 1 "km" "cm"; KSetUnit (u "zz"); KSetConversion (u "zz") (u "m") (fun x => Ok (x * x)%Qc) None] in
  Forall call_enough cs /\ has_node (s_net (do_calls cs demo)) (u "aa") = false /\ plain_pair (s_dict demo) (u "aa") (u "zz")
  /\ mget (u "aa", u "zz") (s_mem (do_calls cs demo)) = None /\ p_algo (s_par (do_calls cs demo)) = u "BFS".
Proof. split; [repeat constructor|]. split; [vm_compute; reflexivity|]. split; [apply plain_check; vm_compute; reflexivity|]. vm_compute. auto. Qed.

(** ** C31: volumes and weights *)
Definition volume_unit (d : dicts) (x : str) : Prop := In x (d_volume d) /\ ~ In x (d_uncertain d).
Definition weight_unit (d : dicts) (x : str) : Prop := In x (d_weight d) /\ ~ In x (d_uncertain d).
Lemma not_smem x l : ~ In x l -> smem x l = false.
Proof. intros H. apply not_true_iff_false. now rewrite smem_In. Qed.
(** the answer is the value times what [convert] answers for the density in weight/volume units *)
Theorem C31_volume_to_weight : forall V (A : Arith V) (s : st V) v f t uc rho k,
  bare_name f -> bare_name t -> bare_name (t ++ u "/" ++ f) ->
  volume_unit (s_dict s) f -> weight_unit (s_dict s) t -> ~ In (t ++ u "/" ++ f) (d_weight (s_dict s) ++ d_volume (s_dict s)) ->
  p_density (s_par s) = Some rho ->
  fst (convert (VNum rho) (UStr (u "g/cm3")) (UStr (t ++ u "/" ++ f)) uc s) = Ok (Some (CVal k)) ->
  fst (convert (VNum v) (UStr f) (UStr t) uc s) = Ok (Some (CVal (amul v k))).
Proof.
  intros V A s v f t uc rho k Bf Bt Bq [Vf Uf] [Wt Ut] Nq Hrho H. set (q := t ++ u "/" ++ f) in *.
  change (VNum rho) with (opt_v (Some rho)) in H. change (VNum v) with (opt_v (Some v)).
  rewrite convert_bare in H; [|apply bare_check; reflexivity|exact Bq]. rewrite convert_bare by assumption.
  rewrite convert_clean_eq in *. unfold convert_step, bind at 1 in H. unfold bind at 1 in H.
  rewrite no_density_case in H.
  2:{ unfold density_case. rewrite in_app_iff in Nq. change (s_dict (set_prev s [])) with (s_dict s).
      rewrite (not_smem q (d_weight _)), (not_smem q (d_volume _)) by tauto. now rewrite !andb_false_r. }
  unfold bind at 1. unfold convert_step, bind at 1, density_conversion. rewrite bind_get.
  change (s_dict (set_prev s [])) with (s_dict s).
  apply smem_In in Vf, Wt. rewrite (not_smem f _ Uf), (not_smem t _ Ut), Vf, Wt. cbn [negb andb].
  unfold get_density. unfold bind at 1. rewrite bind_get. change (s_par (set_prev s [])) with (s_par s). rewrite Hrho. unfold ret at 1.
  unfold bind at 1. fold q. destruct (converter_top (Some rho) (u "g/cm3") q uc (set_prev s [])) as [[[[c p]|]|e] s1]; cbn [finish_conv] in H.
  - unfold bind, modify, ret in H. cbn [fst] in H. injection H as ->. reflexivity.
  - rewrite bind_get in H. destruct (p_raise _); discriminate H.
  - discriminate H.
Qed.
Print Assumptions C31_volume_to_weight.
(** weight to volume never gives an answer: the density is a tuple there *)
Theorem C31_weight_to_volume_refuted : forall V (A : Arith V) (s : st V) v f t uc,
  bare_name f -> bare_name t -> weight_unit (s_dict s) f -> volume_unit (s_dict s) t -> ~ In f (d_volume (s_dict s)) ->
  exists e, fst (convert (VNum v) (UStr f) (UStr t) uc s) = Err e.
Proof.
  intros V A s v f t uc Bf Bt [Wf Uf] [Vt Ut] Nf. change (VNum v) with (opt_v (Some v)). rewrite convert_bare by assumption.
  rewrite convert_clean_eq. unfold bind at 1. unfold convert_step, bind at 1, density_conversion. rewrite bind_get.
  change (s_dict (set_prev s [])) with (s_dict s).
  apply smem_In in Vt, Wf. rewrite (not_smem f _ Uf), (not_smem t _ Ut), (not_smem f _ Nf), Vt, Wf. cbn [negb andb].
  unfold bind at 1. destruct (get_density (set_prev s [])) as [[rho|e] s1]; [|now exists e].
  unfold bind at 1. destruct (converter_top _ _ _ _ s1) as [[x|e] s2]; [|now exists e]. exists TypeError. reflexivity.
Qed.
Print Assumptions C31_weight_to_volume_refuted.
(** consistent units: weight = volume times density, in any units *)
Theorem C31_weight_is_volume_times_density : forall (s : st Qc) cs v f t uc m rho kt kf,
  let s' := do_calls cs s in
  fresh_session s -> par_enough (s_par s) -> Forall (quiet (search_settings (s_par s))) cs -> agrees (fv_of s') m (s_net s') ->
  unit_name f -> unit_name t -> volume_unit (s_dict s) f -> weight_unit (s_dict s) t ->
  ~ In (t ++ u "/" ++ f) (d_weight (s_dict s) ++ d_volume (s_dict s)) -> p_density (s_par s') = Some rho ->
  (* the units g and cm3 are known, and convertible to t and f *)
  ordinary (s_dict s) (u "g") -> ordinary (s_dict s) (u "cm3") ->
  density_case (s_dict s) (u "g") t = false -> density_case (s_dict s) (u "cm3") f = false ->
  proportional m (u "g") -> proportional m t -> proportional m (u "cm3") -> proportional m f ->
  worth s' (u "g") t kt -> worth s' (u "cm3") f kf ->
  no_shortcut s' (u "g/cm3") (t ++ u "/" ++ f) ->
  uc = Some false \/ mget (u "g/cm3", t ++ u "/" ++ f) (s_mem s') = None ->
  exists w, fst (convert (VNum v) (UStr f) (UStr t) uc s') = Ok (Some (CVal w))
    /\ (w * k_of m t = v * k_of m f * (rho * (k_of m (u "g") / k_of m (u "cm3"))))%Qc.
Proof.
  intros s cs v f t uc m rho kt kf s' F E Hq Hm Hf Ht Vf Wt Nq Hrho Og Oc Dg Dc Pg Pt Pc Pf Hkt Hkf Hn Hu.
  set (l := [Factor true (u "cm3") f]).
  assert (Et : t ++ u "/" ++ f = target t l) by (unfold target, l; cbn [flat_map sign f_div f_to]; now rewrite app_nil_r).
  assert (D : s_dict s' = s_dict s) by (destruct (quiet_session s cs F E Hq) as (_ & _ & _ & _ & D); exact D).
  assert (Cm : forall a, k_of m a <> 0%Qc) by apply Hm.
  assert (C : Forall call_enough cs) by (eapply Forall_impl; [|exact Hq]; intros [] K; cbn in *; tauto).
  assert (Ekf : kf = (k_of m (u "cm3") / k_of m f)%Qc).
  { destruct Hkf as (uc' & Hkf). rewrite <- (rescale_prop m _ _ Pc Pf).
    refine (value_of s cs 1%Qc kf (u "cm3") f uc' m F E C Hm _ Hf Oc Dc Hkf). apply unit_check. reflexivity. }
  destruct (C26_composite_keeps_the_quantity s cs rho (u "g") t l kt [(1 / kf)%Qc] uc m F E Hq Hm) as (w & Hw & Ew); try assumption.
  - discriminate.
  - apply unit_check. reflexivity.
  - constructor; [auto|constructor].
  - constructor; [|constructor]. split; [apply unit_check; reflexivity|]. split; [exact Hf|]. split; [cbn [f_from f_to]; fold s'; now rewrite D|].
    cbn [f_div]. exists kf. split; [exact Hkf|]. apply qdiv_ok. intros K. rewrite Ekf in K. apply (Cm (u "cm3")).
    transitivity (k_of m (u "cm3") / k_of m f * k_of m f)%Qc; [field; apply Cm|rewrite K; ring].
  - rewrite <- Et. exact Hn.
  - rewrite <- Et. unfold density_case. rewrite in_app_iff in Nq.
    rewrite (not_smem (t ++ _) (d_weight _)), (not_smem (t ++ _) (d_volume _)) by tauto. now rewrite !andb_false_r.
  - rewrite <- Et. exact Hu.
  - exists (v * w)%Qc. split.
    + rewrite <- D in Vf, Wt, Nq. refine (C31_volume_to_weight Qc _ s' v f t uc rho w (proj2 Hf) (proj2 Ht) _ Vf Wt Nq Hrho _).
      * rewrite Et. apply (bare_spell f_to l t Ht); [constructor; [exact Hf|constructor]|discriminate].
      * rewrite Et. exact Hw.
    + unfold size_of, l in Ew. cbn [fold_left f_div f_to f_from] in Ew.
      transitivity (v * k_of m f * (w * (k_of m t / k_of m f)))%Qc; [field; apply Cm|]. rewrite Ew. reflexivity.
Qed.
Print Assumptions C31_weight_is_volume_times_density.
(** a dialog "Set density" that is cancelled leaves the density False (C67), which is zero for the arithmetic: from then
    on every volume weighs nothing *)
Theorem C31_cancelled_refuted : forall (s : st Qc) cs v f t uc m kt kf,
  let s' := do_calls cs s in
  fresh_session s -> par_enough (s_par s) -> Forall (quiet (search_settings (s_par s))) cs -> agrees (fv_of s') m (s_net s') ->
  unit_name f -> unit_name t -> volume_unit (s_dict s) f -> weight_unit (s_dict s) t ->
  ~ In (t ++ u "/" ++ f) (d_weight (s_dict s) ++ d_volume (s_dict s)) -> p_density (s_par s') = Some 0%Qc ->
  ordinary (s_dict s) (u "g") -> ordinary (s_dict s) (u "cm3") ->
  density_case (s_dict s) (u "g") t = false -> density_case (s_dict s) (u "cm3") f = false ->
  proportional m (u "g") -> proportional m t -> proportional m (u "cm3") -> proportional m f ->
  worth s' (u "g") t kt -> worth s' (u "cm3") f kf ->
  no_shortcut s' (u "g/cm3") (t ++ u "/" ++ f) ->
  uc = Some false \/ mget (u "g/cm3", t ++ u "/" ++ f) (s_mem s') = None ->
  fst (convert (VNum v) (UStr f) (UStr t) uc s') = Ok (Some (CVal 0%Qc)).
Proof.
  intros s cs v f t uc m kt kf s' F E Hq Hm Hf Ht Vf Wt Nq Hrho Og Oc Dg Dc Pg Pt Pc Pf Hkt Hkf Hn Hu.
  destruct (C31_weight_is_volume_times_density s cs v f t uc m 0%Qc kt kf F E Hq Hm Hf Ht Vf Wt Nq Hrho Og Oc Dg Dc Pg Pt Pc Pf Hkt Hkf Hn Hu) as (w & Hw & Ew).
  assert (Cm : forall a, k_of m a <> 0%Qc) by apply Hm. fold s' in Hw. rewrite Hw. do 3 f_equal.
  transitivity ((w * k_of m t) / k_of m t)%Qc; [field; apply Cm|]. rewrite Ew. field. split; apply Cm.
Qed.
Print Assumptions C31_cancelled_refuted.
Definition with_density (p : par Qc) (rho : Q) : par Qc :=
  Par (p_max_rec p) (p_max_gen p) (p_algo p) (p_cache p) (p_raise p) (Some (Q2Qc rho)) (p_redpar p) (p_parallel p) (p_multi p) (p_thread p) (p_pylimit p).
Example C31_example :
  let cs := [KSetPar (with_density (s_par demo) (3 # 4)); conv_of 1 "km" "m"] in let s' := do_calls cs demo in
  Forall (quiet (search_settings (s_par demo))) cs /\ volume_unit (s_dict demo) (u "m3") /\ weight_unit (s_dict demo) (u "kg")
  /\ p_density (s_par s') = Some (Q2Qc (3 # 4)) /\ density_case (s_dict demo) (u "g") (u "kg") = false
  /\ proportional demo_scale (u "g") /\ proportional demo_scale (u "cm3") /\ worth s' (u "g") (u "kg") (Q2Qc (1 # 1000))
  /\ no_shortcut s' (u "g/cm3") (u "kg/m3")
  /\ ask 2 "m3" "kg" s' = Ok (Some (CVal (Q2Qc 1500))) /\ ask 1500 "kg" "m3" s' = Err TypeError.
Proof.
  split; [repeat constructor; cbn; lia|]. split; [split; [apply smem_In; reflexivity|intros []]|]. split; [split; [apply smem_In; reflexivity|intros []]|].
  split; [vm_compute; reflexivity|]. split; [reflexivity|]. split; [apply Qc_is_canon; reflexivity|]. split; [apply Qc_is_canon; reflexivity|].
  split; [exists None; apply is_val_eq; vm_compute; reflexivity|]. split.
  - split; [discriminate|]. split; [apply ordinary_check; vm_compute; reflexivity|]. split; [apply ordinary_check; vm_compute; reflexivity|].
    split; [left; vm_compute; reflexivity|]. intros n1 d1 n2 d2 H1 H2.
    change (u "g/cm3") with (u "g" ++ [c_slash] ++ u "cm3") in H1. change (u "kg/m3") with (u "kg" ++ [c_slash] ++ u "m3") in H2.
    assert (Sl : forall x, cmem c_slash x = false -> ~ In c_slash x) by (intros x Hx K; apply cmem_In in K; congruence).
    apply one_cut in H1 as [<- <-]; [|apply Sl; reflexivity|apply Sl; reflexivity].
    apply one_cut in H2 as [<- <-]; [|apply Sl; reflexivity|apply Sl; reflexivity]. split.
    + intros [K _]. apply smem_In in K. vm_compute in K. discriminate K.
    + intros [K _]. vm_compute in K. discriminate K.
  - split; [apply is_val_eq; vm_compute; reflexivity|vm_compute; reflexivity].
Qed.

Example C31_cancelled_example : ask 2 "m3" "kg" (do_calls [KSetPar (with_density (s_par demo) 0)] demo) = Ok (Some (CVal (Q2Qc 0))).
Proof. apply is_val_eq; vm_compute; reflexivity. Qed.

(** ** C51: convert_for_SimPandas *)
(** simple units, after any quiet history: what [convert] gives, and the value
    itself when the units are not convertible *)
Theorem C51_simple_units_partial : forall V (A : Arith V) (s : st V) cs v f t uc uc',
  let s' := do_calls cs s in
  fresh_session s -> par_enough (s_par s) -> Forall (quiet (search_settings (s_par s))) cs ->
  unit_name f -> unit_name t -> density_case (s_dict s) f t = false ->
  (fst (convertible f t None s') = Ok false -> fst (convert_for_SimPandas v f t uc s') = Ok v) /\
  (fst (convertible f t None s') = Ok true ->
     match fst (convert (VNum v) (UStr f) (UStr t) uc' s') with
     | Ok (Some (CVal w)) => fst (convert_for_SimPandas v f t uc s') = Ok w
     | Err e => fst (convert_for_SimPandas v f t uc s') = Err e
     | _ => False
     end).
Proof.
  intros V A s cs v f t uc uc' s' F E Hq Hf Ht Hd. destruct (quiet_session s cs F E Hq) as (S & En & Q & N & D). fold s' in S, En, Q, N, D.
  rewrite (convert_settled v f t uc' s'); try assumption; [|now rewrite D].
  pose proof (convertible_simple f t None s' S En (proj1 Hf) (proj1 Ht)) as Hc.
  pose proof (convertible_Pub f t None s') as P. 
  assert (S1 := settled_Pub _ _ S P). assert (En1 : enough (snd (convertible f t None s'))) by (apply (enough_frame s' _ (proj1 P)), En).
  pose proof (converter_top_val v f t uc (snd (convertible f t None s')) S1 En1 (proj1 Hf) (proj1 Ht)) as Hv.
  rewrite (val_frame _ _ _ _ (proj1 P)), (bare_answer_frame _ _ _ _ (proj1 P)) in Hv.
  unfold convert_for_SimPandas, bind. unfold convertible_result in Hc.
  destruct (convertible f t None s') as [[b|e] s1]; cbn [fst snd] in *; [|split; discriminate].
  split; intros [= ->]; [reflexivity|]. 
  destruct (bare_answer s' f t) as [[h|]|e]; cbn [val_result] in *; [|discriminate|destruct e; discriminate].
  destruct (feval (fv_of s') h v) as [w|e]; cbn [rbind finish_result] in *.
  - destruct (converter_top (Some v) f t uc s1) as [[[[c p]|]|e] s2]; cbn [fst] in Hv; try discriminate. injection Hv as ->. reflexivity.
  - destruct (converter_top (Some v) f t uc s1) as [[[[c p]|]|e'] s2]; cbn [fst] in Hv; try discriminate. injection Hv as ->. reflexivity.
Qed.
Print Assumptions C51_simple_units_partial.
(** a product or a ratio is never converted: [convertible] marks the pair as
    tried and the conversion that follows gives up *)
Theorem C51_composite_refuted : exists s : st Qc, fresh_session s /\
  let pandas (q : Q) (s : st Qc) := fst (convert_for_SimPandas (Q2Qc q) (u "km/min") (u "m/s") None s) in
  fst (convertible (u "km/min") (u "m/s") None s) = Ok true /\ ask 6 "km/min" "m/s" s = Ok (Some (CVal (Q2Qc 100))) /\
  pandas 6%Q s = Ok (Q2Qc 6) /\ pandas 6%Q (do_call (conv_of 6 "km/min" "m/s") s) = Ok (Q2Qc 6).
Proof.
  exists demo. split; [apply demo_fresh|]. cbv zeta. split; [vm_compute; reflexivity|]. split; [apply is_val_eq; vm_compute; reflexivity|].
  split; vm_compute; reflexivity.
Qed.
Print Assumptions C51_composite_refuted.
Example C51_example : fst (convertible (u "km") (u "cm") None demo) = Ok true /\ fst (convertible (u "km") (u "s") None demo) = Ok false
  /\ unit_name (u "km") /\ unit_name (u "s") /\ Forall (quiet (search_settings (s_par demo))) [conv_of 1 "km" "s"; KSetFvf (Q2Qc 2)].
Proof. split; [vm_compute; reflexivity|]. split; [vm_compute; reflexivity|]. split; [apply unit_check; reflexivity|]. split; [apply unit_check; reflexivity|]. repeat constructor. Qed.

(** ** C29: the recursion budget *)
(** [code_step] is the body of the engine with its nested calls as a parameter.
    The equation F = code_step F determines a total function: there is one,
    it is the only one, and it is the one every theorem here speaks about.  So
    the nesting is finite for every network, every pair of strings, every limit. *)
Theorem C29_conversion_terminates : forall V (A : Arith V),
  exists F : engine (V:=V),
    (forall value f t r uc s, F value f t r uc s = code_step F value f t r uc s) /\
    (forall G : engine, (forall value f t r uc s, G value f t r uc s = code_step G value f t r uc s) ->
       forall value f t r uc s, G value f t r uc s = F value f t r uc s) /\
    (forall value f t uc s, converter_top value f t uc s = F value f t None uc s).
Proof.
  intros V A. exists solution. split; [apply solution_ok|]. split; [|reflexivity].
  intros G HG value f t r uc s. symmetry. unfold solution. apply solution_converter; [exact HG|]. lia.
Qed.
Print Assumptions C29_conversion_terminates.
(** a nested call has a strictly smaller budget; without budget nothing is searched and nothing changes *)
Theorem C29_budget_decreases : forall V (A : Arith V) (s : st V),
  (forall r, (0 <= r)%Z -> (rec_limit (s_par s) (Some r) < r)%Z) /\
  (forall F value f t r uc, (rec_limit (s_par s) (Some r) < 0)%Z -> code_step F value f t (Some r) uc s = (Ok None, s)) /\
  (rec_limit (s_par s) None <= p_max_rec (s_par s))%Z.
Proof.
  intros V A s. split; [intros r; apply rec_limit_decreases|]. split.
  - intros F value f t r uc H. unfold code_step. rewrite bind_get. destruct (visited s f t); [reflexivity|]. apply Z.ltb_lt in H. now rewrite H.
  - unfold rec_limit. lia.
Qed.
Print Assumptions C29_budget_decreases.
(** a cyclic search that nests: two levels below the top call *)
Example C29_example : rec_limit (s_par demo) None = 12%Z /\ rec_limit (s_par demo) (Some 1%Z) = 0%Z
  /\ exists e, ask 1 "m3/kg" "nonsense" demo = Err e.
Proof. split; [reflexivity|]. split; [reflexivity|]. eexists. vm_compute. reflexivity. Qed.
