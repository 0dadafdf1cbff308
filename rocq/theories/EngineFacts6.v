(** * Histories that leave the network and the search settings alone *)
From Coq Require Import String QArith.
From Verif Require Import Py StrTools Network SearchSpec NetworkFacts Search SearchFacts SearchFacts2 DescFacts
  Hybrid HybridFacts Conv NetFacts2 Converter EngineSpec EngineFacts EngineFacts2 EngineFacts3 EngineFacts4 EngineFacts5.
Local Open Scope N_scope.

Section E.
Context {V : Type} {A : Arith V}.
Local Open Scope m_scope.
Implicit Types s : st V.
Implicit Types g : net (conv V).

(** ** Nothing in the memory or in the list of tried pairs is outdated *)
Definition settled s : Prop :=
  sane_net (s_net s)
  /\ (forall f t e, simple f -> simple t -> mget (f, t) (s_mem s) = Some e -> new_ok s f t e)
  /\ (forall f t, simple f -> simple t -> visited s f t = true -> new_ok s f t None).
Lemma settled_good s : settled s -> good s.
Proof.
  intros (S & M & _). split; [exact S|]. intros f t h p Hf Ht H. apply (new_ok_path s f t h p (proj1 S)). now apply M.
Qed.
Lemma settled_Pub s s' : settled s -> Pub s s' -> settled s'.
Proof.
  intros (S & M & P) (Hf & _ & H & _). destruct (H (proj1 S)) as [Hm Hp]. pose proof (frame_fields _ _ Hf) as (N1 & _).
  assert (K : forall f t e, new_ok s f t e -> new_ok s' f t e).
  { intros f t e. apply new_ok_frame. now symmetry. }
  split; [now rewrite N1|]. split.
  - intros f t e Hf' Ht E. destruct (Hm _ _ _ Hf' Ht E) as [E'|E']; [apply K; now apply M|now apply K].
  - intros f t Hf' Ht E. apply K. destruct (Hp _ _ Hf' Ht E) as [E'|[E'|E']]; [now apply P|now apply M|exact E'].
Qed.
Lemma settled_fresh s : sane_net (s_net s) -> s_mem s = [] -> s_prev s = [] -> settled s.
Proof. intros S M P. split; [exact S|]. unfold visited. rewrite M, P. split; [discriminate|]. intros f t _ _ E. discriminate E. Qed.

Lemma search_settings_value s p f t : search_settings p = search_settings (s_par s) ->
  search_value (set_par s p) f t = search_value s f t.
Proof.
  unfold search_settings. intros E. injection E as E1 E2 E3 E4 E5.
  unfold search_value, search_network, bind, get, lift, ret, raise, touch_es, modify.
  change (s_par (set_par s p)) with p. change (s_net (set_par s p)) with (s_net s).
  change (current_es (set_par s p)) with (current_es s). rewrite E1, E2.
  destruct (_ && _); [|reflexivity].
  destruct (get_node (s_net s) f) as [a|]; [|reflexivity]. destruct (get_node (s_net s) t) as [b|]; [|reflexivity].
  repeat match goal with |- context [if seqb ?a ?b then _ else _] => destruct (seqb a b) end; try reflexivity.
  cbn [fst]. unfold hybrid_outcome. change (s_par (set_par s p)) with p. now rewrite E3, E4, E5.
Qed.
Lemma search_settings_frame s s' : frame s' = frame s -> search_settings (s_par s') = search_settings (s_par s).
Proof.
  intros H. apply frame_fields in H as (_ & _ & _ & _ & H5 & _). apply no_density_fields in H5 as (_ & P2 & P3 & _ & _ & _ & P7 & P8 & P9 & _).
  unfold search_settings. congruence.
Qed.
Lemma search_ext f t s s' : s_net s' = s_net s -> s_par s' = s_par s -> s_sched s' = s_sched s ->
  current_es s' = current_es s -> search_value s' f t = search_value s f t.
Proof.
  intros H1 H5 H7 H9.
  unfold search_value, search_network, bind, get, lift, ret, raise, touch_es, modify. rewrite H1, H5, H9.
  destruct (_ && _); [|reflexivity].
  destruct (get_node (s_net s) f) as [a|]; [|reflexivity]. destruct (get_node (s_net s) t) as [b|]; [|reflexivity].
  repeat match goal with |- context [if seqb ?a ?b then _ else _] => destruct (seqb a b) end; try reflexivity.
  cbn [fst]. unfold hybrid_outcome. now rewrite H5, H7.
Qed.
Lemma do_call_settled c s : settled s -> enough s -> quiet (search_settings (s_par s)) c ->
  settled (do_call c s) /\ enough (do_call c s) /\ search_settings (s_par (do_call c s)) = search_settings (s_par s)
  /\ s_net (do_call c s) = s_net s /\ s_dict (do_call c s) = s_dict s.
Proof.
  intros S En Hq.
  assert (K : forall s', Pub s s' -> settled s' /\ enough s' /\ search_settings (s_par s') = search_settings (s_par s)
     /\ s_net s' = s_net s /\ s_dict s' = s_dict s).
  { intros s' HP. split; [eapply settled_Pub; eauto|]. destruct HP as (Hf & _).
    split; [now apply (enough_frame s s')|]. split; [now apply search_settings_frame|].
    apply frame_fields in Hf as (N1 & _ & _ & _ & _ & D & _). auto. }
  destruct c as [value f t uc|f t uc|v f t uc|name|a b h r|v| |p|l]; cbn [do_call]; try easy.
  - apply K, convert_Pub.
  - apply K, convertible_Pub.
  - apply K, simpandas_Pub.
  - change (settled (set_fvf_ s (Some v)) /\ enough s /\ search_settings (s_par s) = search_settings (s_par s) /\ s_net s = s_net s /\ s_dict s = s_dict s).
    assert (KN : forall f t e, new_ok s f t e -> new_ok (set_fvf_ s (Some v)) f t e).
    { intros f t e. unfold new_ok. rewrite (search_ext f t s (set_fvf_ s (Some v))) by reflexivity. auto. }
    split; [|auto]. destruct S as (S & M & P). split; [exact S|]. split; intros; apply KN; [now apply M|now apply P].
  - destruct S as (S & M & P). split; [|auto]. split; [exact S|]. split; [intros f t e _ _ E; discriminate E|].
    intros f t Hf Ht E. pose proof (P f t Hf Ht E) as K'. revert K'. unfold new_ok.
    rewrite (search_ext f t s (snd (api_clean_memory s))) by reflexivity. auto.
  - destruct Hq as [Hq Hp]. destruct S as (S & M & P). change (do_call (KSetPar p) s) with (set_par s p).
    assert (En' : enough (set_par s p)) by (apply enough_par; exact Hp).
    assert (KN : forall f t e, new_ok s f t e -> new_ok (set_par s p) f t e).
    { intros f t [[h q]|]; unfold new_ok; rewrite search_settings_value by exact Hq; [auto|]. intros H _. now apply H. }
    split; [|auto]. split; [exact S|]. split.
    + intros f t e Hf Ht E. apply KN. now apply M.
    + intros f t Hf Ht E. apply KN. exact (P f t Hf Ht E).
Qed.
Lemma do_calls_settled cs : forall s, settled s -> enough s -> Forall (quiet (search_settings (s_par s))) cs ->
  settled (do_calls cs s) /\ enough (do_calls cs s) /\ search_settings (s_par (do_calls cs s)) = search_settings (s_par s)
  /\ s_net (do_calls cs s) = s_net s /\ s_dict (do_calls cs s) = s_dict s.
Proof.
  induction cs as [|c cs IH]; intros s S En H; [auto|]. inversion H as [|? ? H1 H2]; subst.
  destruct (do_call_settled c s S En H1) as (S' & En' & Q' & N' & D'). rewrite <- Q' in H2.
  destruct (IH (do_call c s) S' En' H2) as (S2 & En2 & Q2 & N2 & D2).
  change (do_calls (c :: cs) s) with (do_calls cs (do_call c s)). split; [exact S2|]. split; [exact En2|]. split; [congruence|]. split; congruence.
Qed.
(** no call changes the dictionaries *)
Lemma do_call_dict c s : s_dict (do_call c s) = s_dict s.
Proof.
  assert (K : forall s', Pub s s' -> s_dict s' = s_dict s) by (intros s' (H & _); now apply frame_fields in H as (_ & _ & _ & _ & _ & ? & _)).
  destruct c as [value f t uc|f t uc|v f t uc|name|a b h r|v| |p|l]; cbn [do_call]; try reflexivity.
  - apply K, convert_Pub.
  - apply K, convertible_Pub.
  - apply K, simpandas_Pub.
  - unfold api_set_unit. rewrite bind_get. unfold bind, lift. now destruct (set_unit (s_net s) name).
  - unfold set_conversion_api. rewrite bind_get. unfold bind, lift. now destruct (api_set_conversion _ _ _ _ _).
Qed.
Lemma do_calls_dict cs : forall s, s_dict (do_calls cs s) = s_dict s.
Proof.
  induction cs as [|c cs IH]; intros s; [reflexivity|]. change (do_calls (c :: cs) s) with (do_calls cs (do_call c s)).
  now rewrite IH, do_call_dict.
Qed.

(** ** The memory is transparent *)
Definition bare_answer s f t : res (option (fn V)) :=
  match quick (s_dict s) f t with
  | Some h => Ok (Some h)
  | None =>
      match search_value s f t with
      | Ok (Some p) => match path_convs (s_net s) p with Ok l => Ok (Some (FConvs l)) | Err e => Err e end
      | Ok None => Ok None
      | Err e => Err e
      end
  end.
Lemma settled_answer s uc f t : settled s -> enough s -> simple f -> simple t -> simple_answer s uc f t = bare_answer s f t.
Proof.
  intros (S & M & _) En Hf Ht. unfold simple_answer, memo_of. destruct (use_of s uc); [|reflexivity].
  destruct (mget (f, t) (s_mem s)) as [[[h p]|]|] eqn:E; [| |reflexivity]; apply M in E; try assumption; unfold bare_answer.
  - destruct E as (-> & q & l & -> & -> & -> & _). reflexivity.
  - destruct (E En) as [-> ->]. reflexivity.
Qed.
Lemma visited_answer s f t : settled s -> enough s -> simple f -> simple t -> visited s f t = true -> bare_answer s f t = Ok None.
Proof. intros (_ & _ & P) En Hf Ht Hv. destruct (P f t Hf Ht Hv En) as [H1 H2]. unfold bare_answer. now rewrite H1, H2. Qed.

(** ** [convertible] on simple units *)
Lemma converter_top_visited value f t uc s : visited s f t = true -> converter_top (V:=V) value f t uc s = (Ok None, s).
Proof. intros H. unfold converter_top, top_fuel. now rewrite converter_S, H. Qed.
Lemma converter_top_val v f t uc s : settled s -> enough s -> simple f -> simple t ->
  match fst (converter_top (Some v) f t uc s) with
  | Ok (Some (c, _)) => Ok (Some c)
  | Ok None => Ok None
  | Err e => Err e
  end = val_result s v (bare_answer s f t).
Proof.
  intros S En Hf Ht. destruct (visited s f t) eqn:Hv.
  { rewrite converter_top_visited by exact Hv. cbn [fst]. now rewrite (visited_answer s f t). }
  pose proof (converter_top_simple f t uc s Hf Ht Hv En) as H. rewrite (settled_answer s uc f t S En Hf Ht) in H.
  rewrite converter_top_erase. pose proof (converter_top_Rel None f t uc s) as (Hc & _).
  destruct (converter_top None f t uc s) as [[[[[w|h] p]|]|e] s1]; cbn [fst snd applied] in *;
  destruct (bare_answer s f t) as [[h'|]|e']; cbn [fn_result] in H; try discriminate; cbn [val_result].
  - injection H as ->. rewrite (fv_core _ _ Hc). now destruct (feval (fv_of s) h' v).
  - reflexivity.
  - congruence.
Qed.
Definition convertible_result s f t : res bool :=
  match val_result s qone (bare_answer s f t) with
  | Ok (Some _) => Ok true
  | Ok None | Err NoConversionFoundError => Ok false
  | Err e => Err e
  end.
Lemma convertible_simple f t uc s : settled s -> enough s -> simple f -> simple t ->
  fst (convertible f t uc s) = convertible_result s f t.
Proof.
  intros S En Hf Ht. unfold convertible, convertible_result. rewrite <- (converter_top_val qone f t uc s S En Hf Ht).
  destruct (converter_top (Some qone) f t uc s) as [[[[c p]|]|e] s1]; [reflexivity|reflexivity|]. now destruct e.
Qed.
Lemma bare_answer_frame s s' f t : frame s' = frame s -> bare_answer s' f t = bare_answer s f t.
Proof.
  intros H. unfold bare_answer. rewrite (search_frame f t s s' H). apply frame_fields in H as (N1 & _ & _ & _ & _ & D & _). now rewrite N1, D.
Qed.
End E.
