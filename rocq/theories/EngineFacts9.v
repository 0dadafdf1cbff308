(** * Composite units are converted factor by factor *)
From Coq Require Import String QArith Qcanon.
From Verif Require Import Py StrTools StrFacts Network SearchSpec NetworkFacts Search SearchFacts SearchFacts2 DescFacts
  Hybrid HybridFacts Conv NetFacts2 Converter EngineSpec EngineFacts EngineFacts2 EngineFacts3 EngineFacts4 EngineFacts5 EngineFacts6
  ConsistSpec ConsistFacts CleanFacts EngineFacts7 CompositeSpec.
Local Open Scope N_scope.

(** ** Tokens *)
Definition toks (pr : factor -> str) (l : list factor) : list str := flat_map (fun m => [sign m; pr m]) l.
Definition mk (pr : factor -> str) (l : list factor) : list (str * bool) := flat_map (fun m => [(sign m, false); (pr m, f_div m)]) l.
Lemma toks2_spell pr l : Forall (fun m => simple (pr m)) l -> forall x, simple x ->
  toks2 [] (x ++ flat_map (fun m => sign m ++ pr m) l) = x :: toks pr l.
Proof.
  induction l as [|m l IH]; intros Hl x Hx.
  - cbn [flat_map toks]. rewrite toks2_run by now apply simple_opc2. cbn [toks2]. now rewrite app_nil_r, rev_involutive.
  - inversion Hl as [|? ? H1 H2]; subst. cbn [flat_map]. rewrite toks2_run by now apply simple_opc2. rewrite app_nil_r.
    unfold sign at 1. unfold toks. cbn [flat_map]. unfold sign at 2.
    destruct (f_div m); change (u "/") with [c_slash]; change (u "*") with [c_star];
      rewrite <- app_assoc; cbn [Datatypes.app toks2];
      match goal with |- context[opc2 ?c] => change (opc2 c) with true end; cbv iota;
      rewrite rev_involutive; f_equal; f_equal; rewrite IH by assumption; reflexivity.
Qed.
Lemma filter_toks pr l : Forall (fun m => pr m <> []) l -> filter (fun p => negb (smem p [[]])) (toks pr l) = toks pr l.
Proof.
  induction l as [|m l IH]; intros Hl; [reflexivity|]. inversion Hl as [|? ? H1 H2]; subst. unfold toks. cbn [flat_map Datatypes.app filter].
  assert (E : forall x : str, x <> [] -> negb (smem x [[]]) = true) by (intros [|c x] Hx; [easy|reflexivity]).
  rewrite !E; [|exact H1|unfold sign; destruct (f_div m); easy]. do 2 f_equal. now apply IH.
Qed.
Lemma split_spell pr l x : simple x -> x <> [] -> Forall (fun m => simple (pr m) /\ pr m <> []) l ->
  split_unit (x ++ flat_map (fun m => sign m ++ pr m) l) = Ok (x :: toks pr l).
Proof.
  intros Hx Nx Hl. rewrite split_unit_toks, toks2_spell; [|eapply Forall_impl; [|exact Hl]; cbv beta; intuition idtac|exact Hx].
  cbn [filter]. rewrite filter_toks by (eapply Forall_impl; [|exact Hl]; cbv beta; intuition idtac). destruct x; [easy|reflexivity].
Qed.
Lemma simple_not_slash x : simple x -> x <> [] -> seqb x s_slash = false.
Proof. intros [H _] _. apply not_true_iff_false. rewrite seqb_eq. intros ->. apply H. now left. Qed.
Lemma marks_toks pr l : Forall (fun m => simple (pr m) /\ pr m <> []) l -> forall b, (b = false) -> marks b (toks pr l) = mk pr l.
Proof.
  induction l as [|m l IH]; intros Hl b ->; [reflexivity|]. inversion Hl as [|? ? [H1 H1'] H2]; subst.
  unfold toks, mk. cbn [flat_map Datatypes.app marks]. f_equal.
  assert (E : seqb (sign m) s_slash = f_div m) by (unfold sign; destruct (f_div m); reflexivity). rewrite E. f_equal.
  apply IH; [exact H2|]. now apply simple_not_slash.
Qed.
Lemma is_op_sign m : is_op (sign m) = true. Proof. unfold sign. destruct (f_div m); reflexivity. Qed.

Section E.
Context {V : Type} {A : Arith V}.
Local Open Scope m_scope.
Implicit Types s : st V.

Lemma match_one_skip r uc have x xs used rest l : forall i,
  (forall j, (j < length l)%nat -> In (i + 2 * j + 1)%nat used) ->
  match_one (V:=V) r uc have x xs i (mk f_to l ++ rest) used = match_one r uc have x xs (i + 2 * length l)%nat rest used.
Proof.
  induction l as [|m l IH]; intros i H; [cbn [mk flat_map Datatypes.app length]; now rewrite Nat.mul_0_r, Nat.add_0_r|].
  unfold mk. cbn [flat_map Datatypes.app]. fold (mk f_to l). cbn [match_one].
  rewrite is_op_sign.
  assert (E : existsb (Nat.eqb (S i)) used = true).
  { apply existsb_exists. exists (S i). split; [|apply Nat.eqb_refl]. replace (S i) with (i + 2 * 0 + 1)%nat by lia. apply H. cbn; lia. }
  rewrite E. rewrite IH; [replace (S (S i) + 2 * length l)%nat with (i + 2 * length (m :: l))%nat by (cbn [length]; lia); destruct (existsb (Nat.eqb i) used); reflexivity|].
  intros j Hj. replace (S (S i) + 2 * j + 1)%nat with (i + 2 * S j + 1)%nat by lia. apply H. cbn. lia.
Qed.

(** one factor *)
Lemma factor_conv s r uc x y k : settled s -> enough s -> (0 <= rec_limit (s_par s) (Some r))%Z -> simple x -> simple y ->
  val_result s qone (bare_answer s x y) = Ok (Some (CVal k)) ->
  exists p s', get_conversion (Some qone) x y (Some r) uc s = (Ok (Some (CVal k, p)), s') /\ Pub s s' /\ settled s'.
Proof.
  intros S En Hr Hx Hy Hk. rewrite get_conversion_erase.
  pose proof (gc_simple_fst x y (Some r) uc s Hx Hy Hr) as H. rewrite (settled_answer s uc x y S En Hx Hy) in H.
  pose proof (get_conversion_Rel None x y (Some r) uc s) as HR. pose proof (Rel_Pub _ _ HR) as HP.
  assert (S' := settled_Pub _ _ S HP). pose proof (proj1 HR) as Hc.
  destruct (bare_answer s x y) as [[h|]|e]; [|discriminate|discriminate]. cbn [val_result fn_result] in *.
  destruct (get_conversion None x y (Some r) uc s) as [[[[[w|h'] p]|]|e] s']; cbn [fst snd applied] in *; try discriminate.
  injection H as ->. rewrite (fv_core _ _ Hc). destruct (feval (fv_of s) h qone) as [k'|]; [|discriminate]. cbn in Hk. injection Hk as ->.
  eauto 8.
Qed.
Definition evens (n : nat) := map (fun j => (2 * j)%nat) (seq 0 n).
Lemma evens_S n : evens (S n) = evens n ++ [(2 * n)%nat].
Proof. unfold evens. rewrite seq_S, map_app. reflexivity. Qed.
Lemma evens_fresh n : existsb (Nat.eqb (2 * n)) (evens n) = false.
Proof.
  apply not_true_iff_false. rewrite existsb_exists. intros (j & Hj & E). apply Nat.eqb_eq in E. unfold evens in Hj.
  apply in_map_iff in Hj as (i & <- & Hi). apply in_seq in Hi. lia.
Qed.
Definition value_ok s (m : factor) (k : V) : Prop :=
  exists k', val_result s qone (bare_answer s (f_from m) (f_to m)) = Ok (Some (CVal k'))
  /\ if f_div m then adiv qone k' = Ok k else k = k'.

Lemma match_all_factors s0 r uc y0 l : (0 <= rec_limit (s_par s0) (Some r))%Z -> enough s0 ->
  Forall (fun m => (simple (f_from m) /\ f_from m <> []) /\ simple (f_to m) /\ f_to m <> []) l ->
  forall l2 l1 ks2, l = l1 ++ l2 -> Forall2 (value_ok s0) l2 ks2 ->
  forall s ks ps, settled s -> frame s = frame s0 ->
  exists ps' s', match_all r uc (mk f_from l2) ((y0, false) :: mk f_to l) (evens (S (length l1))) ks ps true s = (Ok (Some (ks ++ ks2, ps')), s')
    /\ frame s' = frame s0.
Proof.
  intros Hr En Hl. induction l2 as [|m l2 IH]; intros l1 ks2 El Hk s ks ps S Fr; inversion Hk as [|? k ? ks2' Hm Hk']; subst.
  { cbn [mk flat_map match_all]. rewrite app_nil_r. exists ps, s. split; [reflexivity|exact Fr]. }
  unfold mk at 1. cbn [flat_map Datatypes.app]. fold (mk f_from l2). cbn [match_all]. rewrite is_op_sign.
  assert (Hm' := Hl). rewrite Forall_app in Hm'. destruct Hm' as [_ Hm']. inversion Hm' as [|? ? [[Hx Nx] [Hy Ny]] _]; subst.
  rewrite (is_op_simple _ Hx Nx).
  assert (Skip : match_one (V:=V) r uc true (f_from m) (f_div m) 0 ((y0, false) :: mk f_to (l1 ++ m :: l2)) (evens (Datatypes.S (length l1)))
    = match_one r uc true (f_from m) (f_div m) (2 * Datatypes.S (length l1))%nat ((f_to m, f_div m) :: mk f_to l2) (evens (Datatypes.S (length l1)))).
  { cbn [match_one]. assert (E0 : existsb (Nat.eqb 0) (evens (Datatypes.S (length l1))) = true) by reflexivity. rewrite E0.
    unfold mk at 1. rewrite flat_map_app. fold (mk f_to l1). cbn [flat_map Datatypes.app]. fold (mk f_to l2).
    rewrite match_one_skip.
    - cbn [match_one]. rewrite is_op_sign. replace (Datatypes.S (1 + 2 * length l1))%nat with (2 * Datatypes.S (length l1))%nat by lia.
      destruct (existsb (Nat.eqb (1 + 2 * length l1)) _); reflexivity.
    - intros j Hj. unfold evens. apply in_map_iff. exists (Datatypes.S j). split; [lia|]. apply in_seq. lia. }
  rewrite Skip. clear Skip. cbn [match_one]. rewrite evens_fresh, (is_op_simple _ Hy Ny).
  destruct Hm as (k' & Ek & Hk'').
  assert (En' : enough s) by (apply (enough_frame s0 s Fr), En).
  assert (Hr' : (0 <= rec_limit (s_par s) (Some r))%Z).
  { apply frame_fields in Fr as (_ & _ & _ & _ & P & _). apply no_density_fields in P as (P1 & _ & _ & _ & _ & _ & _ & _ & _ & P10).
    unfold rec_limit in *. now rewrite P10. }
  rewrite <- (val_frame s0 s _ _ Fr), <- (bare_answer_frame s0 s _ _ Fr) in Ek.
  destruct (factor_conv s r uc (f_from m) (f_to m) k' S En' Hr' Hx Hy Ek) as (p & s1 & E1 & P1 & S1).
  assert (Fr1 : frame s1 = frame s0) by (rewrite <- Fr; apply P1).
  assert (El2 : l1 ++ m :: l2 = (l1 ++ [m]) ++ l2) by (now rewrite <- app_assoc).
  assert (Len : length (l1 ++ [m]) = Datatypes.S (length l1)) by (rewrite app_length; cbn; lia).
  unfold bind at 1. unfold bind at 1. rewrite E1. rewrite orb_diag. destruct (f_div m).
  - change (qone (V:=V)) with (aconst 1 : V) in *. unfold bind at 1, lift. rewrite Hk''. unfold ret at 1.
    destruct (IH (l1 ++ [m]) ks2' El2 Hk' s1 (ks ++ [k]) (ps ++ PS (u "/") :: PV (aconst 1) :: p) S1 Fr1) as (ps' & s' & E' & F').
    rewrite Len in E'. rewrite <- app_assoc in E'. rewrite <- evens_S. rewrite E'. eauto.
  - subst k'. unfold ret at 1.
    destruct (IH (l1 ++ [m]) ks2' El2 Hk' s1 (ks ++ [k]) (ps ++ PV qone :: p) S1 Fr1) as (ps' & s' & E' & F').
    rewrite Len in E'. rewrite <- app_assoc in E'. rewrite <- evens_S. rewrite E'. eauto.
Qed.

Lemma composite_factors s r uc x0 y0 k0 l ks : settled s -> enough s -> (0 <= rec_limit (s_par s) (Some r))%Z ->
  simple x0 /\ x0 <> [] -> simple y0 /\ y0 <> [] ->
  Forall (fun m => (simple (f_from m) /\ f_from m <> []) /\ simple (f_to m) /\ f_to m <> []) l ->
  val_result s qone (bare_answer s x0 y0) = Ok (Some (CVal k0)) -> Forall2 (value_ok s) l ks ->
  exists p s', composite (source x0 l) (target y0 l) r uc s = (Ok (Some (fold_left amul ks k0, p)), s') /\ frame s' = frame s.
Proof.
  intros S En Hr [Hx Nx] [Hy Ny] Hl Hk0 Hks. unfold composite, source, target.
  rewrite (split_spell f_from l x0 Hx Nx) by (eapply Forall_impl; [|exact Hl]; cbv beta; intuition idtac).
  rewrite (split_spell f_to l y0 Hy Ny) by (eapply Forall_impl; [|exact Hl]; cbv beta; intuition idtac).
  unfold bind at 1, lift at 1. unfold bind at 1, lift at 1. cbn [marks].
  rewrite (simple_not_slash x0 Hx Nx), (simple_not_slash y0 Hy Ny).
  assert (HF : Forall (fun m => simple (f_from m) /\ f_from m <> []) l) by (eapply Forall_impl; [|exact Hl]; cbv beta; intuition idtac).
  assert (HT : Forall (fun m => simple (f_to m) /\ f_to m <> []) l) by (eapply Forall_impl; [|exact Hl]; cbv beta; intuition idtac).
  rewrite (marks_toks f_from l HF false eq_refl), (marks_toks f_to l HT false eq_refl).
  cbn [match_all]. rewrite (is_op_simple _ Hx Nx). cbn [match_one existsb]. rewrite (is_op_simple _ Hy Ny).
  destruct (factor_conv s r uc x0 y0 k0 S En Hr Hx Hy Hk0) as (p & s1 & E1 & P1 & S1).
  unfold bind at 1. unfold bind at 1. unfold bind at 1. rewrite E1. cbn [orb]. unfold ret at 1.
  destruct (match_all_factors s r uc y0 l Hr En Hl l [] ks eq_refl Hks s1 [k0] p S1 (proj1 P1)) as (ps' & s' & E' & F').
  change (evens (Datatypes.S (length (@nil factor)))) with [0%nat] in E'. cbn [Datatypes.app] in E' |- *. rewrite E'. unfold ret. eauto.
Qed.

(** ** the whole conversion *)
Lemma split2_eq c x a b : split2 c x = Some (a, b) -> x = a ++ [c] ++ b.
Proof.
  unfold split2. destruct (csplit c x) as [|a' [|b' [|]]] eqn:E; try discriminate. intros [= -> ->].
  rewrite <- (csplit_join c x), E. reflexivity.
Qed.
Lemma gc_no_shortcut s value f t r uc : no_shortcut s f t -> (0 <= rec_limit (s_par s) r)%Z -> memo_of s uc f t = None ->
  get_conversion value f t r uc s = (Ok None, s).
Proof.
  intros (Hn & (D1 & D2 & D3) & (T1 & T2 & T3) & Hnode & Hr) Hrec Hm. unfold get_conversion, get_conversion_. rewrite bind_get.
  destruct (Z.ltb_spec (rec_limit (s_par s) r) 0) as [?|_]; [lia|].
  fold (use_of s uc). fold (memo_of s uc f t). rewrite Hm.
  destruct (seqb f t) eqn:E; [apply seqb_eq in E; contradiction|].
  rewrite <- smem_In in D1, D2, D3, T1, T2, T3. apply not_true_iff_false in D1, D2, D3, T1, T2, T3.
  unfold is_dimless, is_percent. rewrite D1, D2, D3, T2. cbn [andb].
  assert (K : from_network value f t s = (Ok None, s)).
  { assert (K : search_network f t s = (Ok None, s)).
    { unfold search_network. rewrite bind_get. destruct Hnode as [-> | ->]; rewrite ?andb_false_r; reflexivity. }
    unfold from_network. rewrite bind_get. unfold bind at 1. now rewrite K. }
  destruct (split2 c_slash f) as [[n1 d1]|] eqn:E1; [|exact K]. destruct (split2 c_slash t) as [[n2 d2]|] eqn:E2; [|exact K].
  apply split2_eq in E1, E2. destruct (Hr n1 d1 n2 d2 E1 E2) as [R1 R2].
  assert (X : smem n1 (d_temp (s_dict s)) && smem n2 (d_temp (s_dict s)) = false).
  { apply not_true_iff_false. rewrite andb_true_iff, !smem_In. exact R1. }
  rewrite X. assert (Y : seqb (strip n1) (strip d2) && seqb (strip d1) (strip n2) = false).
  { apply not_true_iff_false. rewrite andb_true_iff, !seqb_eq. exact R2. }
  rewrite Y. exact K.
Qed.
Lemma settled_prev s : settled s -> settled (set_prev s []).
Proof.
  intros (S & M & P). split; [exact S|]. split.
  - intros f t e Hf Ht E. apply (new_ok_frame (set_prev s []) s); [reflexivity|]. now apply M.
  - intros f t _ _ E. discriminate E.
Qed.
Lemma worth_val s x y k : settled s -> enough s -> unit_name x -> unit_name y -> density_case (s_dict s) x y = false ->
  worth s x y k -> val_result s qone (bare_answer s x y) = Ok (Some (CVal k)).
Proof.
  intros S En Hx Hy Hd (uc & H). rewrite convert_settled in H by assumption. change (aconst 1) with (qone (V:=V)) in H.
  destruct (val_result s qone (bare_answer s x y)) as [[c|]|e]; cbn [finish_result] in H; [exact H| |discriminate].
  destruct (p_raise (s_par s)); discriminate.
Qed.
Lemma name_nonempty x : unit_name x -> simple x /\ x <> [].
Proof. intros [H [N _]]. auto. Qed.
Lemma convert_factors s v x0 y0 l k0 ks uc : settled s -> enough s -> l <> [] ->
  unit_name x0 -> unit_name y0 -> density_case (s_dict s) x0 y0 = false -> worth s x0 y0 k0 ->
  Forall2 (factor_worth s) l ks ->
  no_shortcut s (source x0 l) (target y0 l) -> density_case (s_dict s) (source x0 l) (target y0 l) = false ->
  memo_of s uc (source x0 l) (target y0 l) = None ->
  fst (convert_clean (Some v) (source x0 l) (target y0 l) uc s) = Ok (Some (CVal (amul v (fold_left amul ks k0)))).
Proof.
  intros S En Hl0 Hx Hy Hd0 Hw Hl Hns Hd Hm. set (f := source x0 l) in *. set (t := target y0 l) in *.
  rewrite convert_clean_eq. unfold convert_step, bind at 1. unfold bind at 1. rewrite no_density_case by exact Hd.
  assert (Hq : Forall (fun m => (simple (f_from m) /\ f_from m <> []) /\ simple (f_to m) /\ f_to m <> []) l).
  { clear - Hl. induction Hl as [|m k l ks H Hl IH]; [constructor|]. constructor; [|exact IH]. destruct H as (H1 & H2 & _).
    split; now apply name_nonempty. }
  assert (Hv : Forall2 (value_ok s) l ks).
  { clear - Hl S En. induction Hl as [|m k l ks H Hl IH]; [constructor|]. constructor; [|exact IH]. destruct H as (H1 & H2 & H3 & H4).
    unfold value_ok. destruct (f_div m); [destruct H4 as (k' & H4 & H5)|]; eexists; (split; [apply worth_val; eassumption|]); auto. }
  set (s1 := set_prev s []). unfold converter_top, top_fuel. rewrite converter_S. change (visited s1 f t) with false.
  pose proof (enough_nonneg s1 En) as H0. destruct (_ <? 0)%Z eqn:E; [apply Z.ltb_lt in E; lia|]. cbv iota.
  pose proof (rec_limit_next _ None En) as Hr. change (s_par s) with (s_par s1) in Hr.
  unfold bind at 1. rewrite (gc_no_shortcut s1); [|exact Hns|exact Hr|exact Hm].
  match goal with |- context[slow ?a ?b] => generalize a, b; intros cv cn end.
  unfold slow, bind, modify, keep. set (s2 := set_prev s1 (s_prev s1 ++ [(f, t)])).
  assert (S2 : settled s2).
  { destruct (settled_prev s S) as (A1 & A2 & _). split; [exact A1|]. split.
    - intros a b e Ha Hb Ee. apply (new_ok_frame s2 s1); [reflexivity|]. now apply A2.
    - intros a b Ha Hb Ev. unfold visited in Ev. cbn [s2 s1 set_prev s_prev Datatypes.app existsb] in Ev. rewrite orb_false_r in Ev.
      apply keqb_eq in Ev. injection Ev as -> ->. exfalso. destruct l as [|m l']; [contradiction|].
      destruct Ha as [Ha Hb']. unfold f, source in Ha, Hb'. cbn [flat_map] in Ha, Hb'. unfold sign in Ha, Hb'.
      destruct (f_div m); [apply Ha|apply Hb']; rewrite !in_app_iff; right; left; left; now left. }
  destruct (name_nonempty x0 Hx) as [Sx Nx]. destruct (name_nonempty y0 Hy) as [Sy Ny].
  assert (F2 : frame s2 = frame s) by reflexivity.
  assert (W0 : val_result s2 qone (bare_answer s2 x0 y0) = Ok (Some (CVal k0))).
  { rewrite (val_frame s s2 _ _ F2), (bare_answer_frame s s2 _ _ F2). exact (worth_val s x0 y0 k0 S En Hx Hy Hd0 Hw). }
  assert (Hv2 : Forall2 (value_ok s2) l ks).
  { clear - Hv F2. clearbody s2. clear f t. induction Hv as [|m k l ks (k' & H1 & H2) Hv IH]; constructor; try exact IH. exists k'. split; [|exact H2].
    now rewrite (val_frame s s2 _ _ F2), (bare_answer_frame s s2 _ _ F2). }
  destruct (composite_factors s2 (rec_limit (s_par s1) None) uc x0 y0 k0 l ks S2 En Hr (conj Sx Nx) (conj Sy Ny) Hq W0 Hv2) as (p & s3 & E3 & F3).
  fold f t in E3. rewrite E3. reflexivity.
Qed.
End E.
