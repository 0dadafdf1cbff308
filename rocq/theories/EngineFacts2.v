(** * Invariants of the engine: the memory *)
From Coq Require Import String QArith.
From Verif Require Import Py StrTools Network SearchSpec NetworkFacts Search SearchFacts SearchFacts2 DescFacts
  Hybrid HybridFacts Conv NetFacts2 Converter EngineSpec EngineFacts.
Local Open Scope N_scope.

(** ** Splitting on '*' and '/' *)
Definition opc2 (c : chr) : bool := (c =? c_star) || (c =? c_slash).
Fixpoint toks2 (cur s : str) : list str :=
  match s with
  | [] => [rev cur]
  | c :: s' => if opc2 c then rev cur :: [c] :: toks2 [] s' else toks2 (c :: cur) s'
  end.
Lemma find_opc2 c s : find_sep (sort_sep (StrTools.sdedup [s_star; s_slash])) (c :: s) = if opc2 c then Some [c] else None.
Proof.
  replace (sort_sep (StrTools.sdedup [s_star; s_slash])) with [s_star; s_slash] by (vm_compute; reflexivity).
  unfold opc2, s_star, s_slash. cbn [find_sep sprefix]. rewrite (N.eqb_sym c_star), (N.eqb_sym c_slash), !andb_true_r.
  destruct (N.eqb_spec c c_star) as [->|]; [reflexivity|]. destruct (N.eqb_spec c c_slash) as [->|]; reflexivity.
Qed.
Lemma scan_toks2 s : forall fuel cur, (length s <= fuel)%nat ->
  scan fuel (sort_sep (StrTools.sdedup [s_star; s_slash])) cur s = Ok (toks2 cur s).
Proof.
  induction s as [|c s IH]; intros fuel cur Hf; [destruct fuel; reflexivity|].
  destruct fuel as [|fuel]; [cbn in Hf; lia|]. cbn [length] in Hf. cbn [scan toks2]. rewrite find_opc2.
  destruct (opc2 c); [cbn [length skipn]; rewrite IH by lia; reflexivity|apply IH; lia].
Qed.
Lemma split_unit_toks s : split_unit s = Ok (filter (fun p => negb (smem p [[]])) (toks2 [] s)).
Proof. unfold split_unit, multi_split, multi_split_enum. rewrite scan_toks2 by lia. reflexivity. Qed.
Lemma simple_opc2 x : simple x -> forall c, In c x -> opc2 c = false.
Proof.
  intros [H1 H2] c Hc. unfold opc2. apply orb_false_iff. split; apply N.eqb_neq; intros ->; contradiction.
Qed.
Lemma toks2_run x : (forall c, In c x -> opc2 c = false) -> forall cur s, toks2 cur (x ++ s) = toks2 (rev x ++ cur) s.
Proof.
  induction x as [|c x IH]; intros H cur s; [reflexivity|]. change ((c :: x) ++ s) with (c :: (x ++ s)). cbn [toks2]. rewrite (H c (or_introl eq_refl)).
  rewrite IH; [|intros d Hd; apply H; now right]. cbn [rev]. now rewrite <- app_assoc.
Qed.
Lemma split_unit_simple x : simple x -> split_unit x = Ok (match x with [] => [] | _ => [x] end).
Proof.
  intros H. rewrite split_unit_toks. rewrite <- (app_nil_r x) at 1. rewrite toks2_run by now apply simple_opc2.
  cbn [toks2]. rewrite app_nil_r, rev_involutive. destruct x; reflexivity.
Qed.
Lemma is_op_simple x : simple x -> x <> [] -> is_op x = false.
Proof.
  intros [H1 H2] Hx. unfold is_op. destruct x as [|a x]; [easy|].
  assert (a <> c_slash /\ a <> c_star) as [Ha Hb] by (split; intros ->; [apply H1|apply H2]; now left).
  cbn [ssub sprefix]. apply N.eqb_neq in Ha, Hb. now rewrite Ha, Hb.
Qed.
Lemma clower_slash c : clower c = c_slash -> c = c_slash.
Proof.
  unfold clower, c_slash. intros H.
  repeat match type of H with context [if ?b then _ else _] => destruct b eqn:? end; rewrite ?andb_true_iff, ?N.leb_le, ?N.eqb_eq in *; lia.
Qed.
Lemma simple_same_ratio x : simple x -> same_ratio x = false.
Proof.
  intros [H _]. unfold same_ratio.
  assert (E : split2 c_slash (lower x) = None).
  { unfold split2. assert (K : csplit c_slash (lower x) = [lower x]).
    { induction x as [|y x IH]; [reflexivity|]. cbn [lower map csplit].
      destruct (N.eqb_spec (clower y) c_slash) as [E|_]; [exfalso; apply H; left; now apply clower_slash|].
      fold (lower x). rewrite IH; [reflexivity|]. intros K. apply H. now right. }
    now rewrite K. }
  rewrite E. reflexivity.
Qed.

Section E.
Context {V : Type} {A : Arith V}.
Local Open Scope m_scope.
Implicit Types s : st V.
Implicit Types g : net (conv V).

(** ** [_get_conversion] on simple units *)
Definition quick (d : dicts) (f t : str) : option (fn V) :=
  if seqb f t then Some FId
  else if smem f (d_date d) && smem t (d_date d) then Some FId
  else if is_dimless d f && is_percent d t then Some FMul100
  else if is_percent d f && is_dimless d t then Some FDiv100
  else if is_dimless d f then Some FId
  else None.
Definition use_of s (uc : option bool) : bool := match uc with Some b => b | None => p_cache (s_par s) end.
Definition memo_of s uc f t := if use_of s uc then mget (f, t) (s_mem s) else None.

Lemma gc_simple rec f t r uc s : simple f -> simple t -> (0 <= rec_limit (s_par s) r)%Z ->
  exists qp, get_conversion_ rec None f t r uc s =
  match memo_of s uc f t with
  | Some None => (Ok None, s)
  | Some (Some (h, p)) => (Ok (Some (CFn h, p)), s)
  | None => match quick (s_dict s) f t with
            | Some h => (Ok (Some (CFn h, qp)), s)
            | None => from_network None f t s
            end
  end.
Proof.
  intros Hf Ht Hr. unfold get_conversion_. rewrite bind_get.
  destruct (Z.ltb_spec (rec_limit (s_par s) r) 0) as [?|_]; [lia|].
  fold (use_of s uc). fold (memo_of s uc f t). destruct (memo_of s uc f t) as [[[h p]|]|]; [exists []; reflexivity|exists []; reflexivity|].
  unfold quick.
  destruct (seqb f t); [eexists; reflexivity|]. destruct (_ && _); [eexists; reflexivity|].
  destruct (_ && _); [eexists; reflexivity|]. destruct (_ && _); [eexists; reflexivity|].
  rewrite (simple_cmem t Ht). cbn [negb]. rewrite andb_true_r.
  destruct (is_dimless (s_dict s) f); [eexists; reflexivity|].
  rewrite (simple_split2 f Hf). cbn [andb]. rewrite (simple_same_ratio f Hf), andb_false_r. exists []. reflexivity.
Qed.

(** ** What happens to the memory *)
Definition enough s : Prop := (1 <= rec_limit (s_par s) None)%Z.
Definition new_ok s f t (e : option (fn V * path V)) : Prop :=
  match e with
  | Some (h, pt) => quick (s_dict s) f t = None /\
      exists p l, search_value s f t = Ok (Some p) /\ path_convs (s_net s) p = Ok l /\ h = FConvs l /\ pt = map PN p
  | None => enough s -> quick (s_dict s) f t = None /\ search_value s f t = Ok None
  end.
Definition mem_step s s' : Prop := forall f t e, simple f -> simple t ->
  mget (f, t) (s_mem s') = Some e -> mget (f, t) (s_mem s) = Some e \/ new_ok s f t e.
(** the simple pairs marked as tried have failed *)
Definition prev_step s s' : Prop := forall f t, simple f -> simple t ->
  visited s' f t = true -> visited s f t = true \/ mget (f, t) (s_mem s) = Some None \/ new_ok s f t None.
Definition Rel s s' : Prop :=
  same_core s s' /\ (NoDup (nodes (s_net s)) -> prev_step s s')
  /\ (NoDup (nodes (s_net s)) -> mem_step s s')
  /\ (forall k, mget k (s_mem s) <> None -> mget k (s_mem s') <> None).
Lemma new_ok_core s s' f t e : same_core s s' -> new_ok s' f t e -> new_ok s f t e.
Proof.
  intros H. pose proof (search_core f t _ _ H) as HS. apply core_fields in H as (H1 & _ & _ & _ & H5 & H6 & _).
  unfold new_ok, enough. rewrite H1, H5, H6, HS. auto.
Qed.
Lemma Rel_refl s : Rel s s.
Proof. split; [reflexivity|]. split; [intros _ f t _ _ H; now left|]. split; [intros _ f t e _ _ H; now left|auto]. Qed.
Lemma Rel_trans a b c : Rel a b -> Rel b c -> Rel a c.
Proof.
  intros (H1 & H2 & H3 & H4) (K1 & K2 & K3 & K4).
  split; [eapply same_core_trans; eauto|]. split; [|split; [|auto]].
  - pose proof (core_fields _ _ H1) as (N1 & _). rewrite N1 in K2. intros ND f t Hf Ht H.
    destruct (K2 ND _ _ Hf Ht H) as [K|[K|K]]; [now apply H2|right; now apply H3|].
    right. right. eapply new_ok_core; eauto.
  - pose proof (core_fields _ _ H1) as (N1 & _). rewrite N1 in K3. intros ND f t e Hf Ht H. specialize (H3 ND). specialize (K3 ND).
    destruct (K3 _ _ _ Hf Ht H) as [K|K]; [now apply H3|]. right. eapply new_ok_core; eauto.
Qed.
Lemma only_es_Rel s s' : only_es s s' -> Rel s s'.
Proof.
  intros (H1 & H2 & H3). split; [exact H1|]. unfold prev_step, visited, mem_step. rewrite H2, H3. repeat split; auto.
Qed.
Lemma Rel_only {X} (m : M V X) : holds only_es m -> holds Rel m.
Proof. intros H s. apply only_es_Rel, H. Qed.
Ltac hr := first [apply Rel_refl | apply Rel_trans].

Lemma remember_Rel f t e s : (simple f -> simple t -> NoDup (nodes (s_net s)) -> new_ok s f t e) -> Rel s (snd (remember (f, t) e s)).
Proof.
  intros H. unfold remember, modify. cbn [snd]. split; [reflexivity|]. split; [intros _ f' t' _ _ K; now left|]. split.
  - intros ND f' t' e' Hf Ht. cbn [s_mem set_mem]. rewrite mget_mset. destruct (keqb (f', t') (f, t)) eqn:E; [|now left].
    apply keqb_eq in E. injection E as -> ->. intros [= <-]. right. now apply H.
  - intros k. cbn [s_mem set_mem]. rewrite mget_mset. now destruct (keqb k (f, t)).
Qed.
Lemma answer_state value h p s : snd (answer value h p s) = s.
Proof. unfold answer, bind, app, ret. destruct value as [v|]; [|reflexivity]. now destruct (feval (fv_of s) h v). Qed.
Lemma answer_Rel value h p : holds Rel (answer value h p).
Proof. intros s. rewrite answer_state. apply Rel_refl. Qed.

Lemma simple_path_nonnil {N} (e : N -> N -> Prop) a p b : simple_path e a p b -> p <> [].
Proof. intros [H _]. destruct H; discriminate. Qed.

Lemma from_network_state value f t s : snd (from_network value f t s) = snd (from_network None f t s).
Proof. destruct value as [v|]; [|reflexivity]. now rewrite from_network_erase, applied_snd. Qed.
Lemma from_network_Rel value f t s : (simple f -> simple t -> quick (s_dict s) f t = None) ->
  Rel s (snd (from_network value f t s)).
Proof.
  intros Hne. rewrite from_network_state. unfold from_network. rewrite bind_get. unfold bind at 1.
  pose proof (search_only f t s) as Ho. pose proof (search_core f t s) as Hsc. unfold search_value in Hsc.
  destruct (search_network f t s) as [[[p|]|e] s1] eqn:Es; cbn [fst snd] in *; [|now apply only_es_Rel|now apply only_es_Rel].
  unfold bind at 1, lift. pose proof (only_es_Rel _ _ Ho) as HR. destruct (path_convs (s_net s) p) as [l|] eqn:E; [|exact HR].
  unfold bind. eapply Rel_trans; [exact HR|].
  assert (K : Rel s1 (snd (remember (f, t) (Some (FConvs l, map PN p)) s1))).
  { apply remember_Rel. intros Hf Ht ND. eapply new_ok_core.
    - instantiate (1 := s). destruct Ho as (Hc & _). unfold same_core in *. now symmetry.
    - cbn [new_ok]. split; [auto|]. exists p, l. unfold search_value. now rewrite Es. }
  revert K. unfold remember, modify, ret. cbn [snd]. auto.
Qed.

Lemma get_conversion__state rec value f t r uc s : snd (get_conversion_ rec value f t r uc s) = snd (get_conversion_ rec None f t r uc s).
Proof. destruct value as [v|]; [|reflexivity]. now rewrite get_conversion__erase, applied_snd. Qed.
Lemma get_conversion__Rel rec value f t r uc : (forall v d1 d2 r uc, holds Rel (rec v d1 d2 r uc)) ->
  holds Rel (get_conversion_ rec value f t r uc).
Proof.
  intros Hrec. intros s. rewrite get_conversion__state.
  destruct (Z_lt_le_dec (rec_limit (s_par s) r) 0) as [Hr|Hr].
  { unfold get_conversion_. rewrite bind_get. apply Z.ltb_lt in Hr. rewrite Hr. apply Rel_refl. }
  destruct (simple_dec f) as [Hf|Hf]; [destruct (simple_dec t) as [Ht|Ht]|].
  { destruct (gc_simple rec f t r uc s Hf Ht Hr) as (qp & ->).
    destruct (memo_of s uc f t) as [[[h p]|]|]; [apply Rel_refl|apply Rel_refl|].
    destruct (quick (s_dict s) f t) eqn:Eq; [apply Rel_refl|]. now apply from_network_Rel. }
  all: assert (Hns : simple f -> simple t -> quick (s_dict s) f t = None) by contradiction.
  all: unfold get_conversion_; rewrite bind_get.
  all: destruct (_ <? 0)%Z; [apply Rel_refl|].
  all: destruct (if match uc with Some b => b | None => _ end then _ else _) as [[[h p]|]|]; [apply answer_Rel|apply Rel_refl|].
  all: repeat match goal with |- Rel _ (snd ((if ?c then answer _ _ _ else _) _)) => destruct c; [apply answer_Rel|] end.
  all: destruct (split2 c_slash f) as [[t1 d1]|]; [destruct (split2 c_slash t) as [[t2 d2]|]|].
  all: repeat match goal with |- Rel _ (snd ((if ?c then answer _ _ _ else _) _)) => destruct c; [apply answer_Rel|] end.
  all: try (now apply from_network_Rel).
  all: destruct (_ && _);
  [ destruct (tratio_get _ _) as [num|]; [|apply Rel_refl];
    apply (h_bind Rel Rel_trans _ _ (Hrec _ _ _ _ _)); intros [[[dv|h] dp]|]; [apply answer_Rel|apply h_raise; hr|];
    destruct (p_raise _); [apply h_raise; hr|apply h_ret; hr] | ].
  all: repeat match goal with |- Rel _ (snd ((if ?c then answer _ _ _ else _) _)) => destruct c; [apply answer_Rel|] end.
  all: now apply from_network_Rel.
Qed.
Lemma get_conversion_Rel value f t r uc : holds Rel (get_conversion value f t r uc).
Proof. apply get_conversion__Rel. intros. apply get_conversion__Rel. intros. apply h_raise; hr. Qed.

(** ** Composite units *)
Lemma match_one_Rel r uc have x xs ts used : forall i, holds Rel (match_one (V:=V) r uc have x xs i ts used).
Proof.
  induction ts as [|[y ys] ts IH]; intros i; cbn [match_one]; [apply h_ret; hr|].
  destruct (existsb _ _); [apply IH|]. destruct (is_op y); [apply IH|].
  apply h_bind; [hr|apply get_conversion_Rel|]. intros [[[k|h] p]|]; [|apply h_raise; hr|apply IH].
  destruct (_ || _); [|apply h_ret; hr]. apply h_bind; [hr|apply h_lift; hr|intros k'; apply h_ret; hr].
Qed.
Lemma match_all_Rel r uc ts : forall fs used ks ps have, holds Rel (match_all (V:=V) r uc fs ts used ks ps have).
Proof.
  induction fs as [|[x xs] fs IH]; intros used ks ps have; cbn [match_all]; [apply h_ret; hr|].
  destruct (is_op x); [apply IH|]. apply h_bind; [hr|apply match_one_Rel|]. intros [[[k p] i]|]; [apply IH|apply h_ret; hr].
Qed.
Lemma composite_Rel f t r uc : holds Rel (composite (V:=V) f t r uc).
Proof.
  unfold composite. apply h_bind; [hr|apply h_lift; hr|]. intros sf. apply h_bind; [hr|apply h_lift; hr|]. intros sto.
  apply h_bind; [hr|apply match_all_Rel|]. intros [[[|k ks] p]|]; apply h_ret; hr.
Qed.
End E.
