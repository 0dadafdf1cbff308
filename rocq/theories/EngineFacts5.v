(** * What a conversion between two simple units answers *)
From Coq Require Import String QArith.
From Verif Require Import Py StrTools Network SearchSpec NetworkFacts Search SearchFacts SearchFacts2 DescFacts
  Hybrid HybridFacts Conv NetFacts2 Converter EngineSpec EngineFacts EngineFacts2 EngineFacts3 EngineFacts4.
Local Open Scope N_scope.

Section E.
Context {V : Type} {A : Arith V}.
Local Open Scope m_scope.
Implicit Types s : st V.
Implicit Types g : net (conv V).

Lemma no_density_case value f t uc s : density_case (s_dict s) f t = false ->
  density_conversion (V:=V) value f t uc s = (Ok None, s).
Proof.
  unfold density_case, density_conversion. rewrite bind_get. destruct (negb (smem f (d_uncertain (s_dict s))) && negb (smem t (d_uncertain (s_dict s)))); cbn [andb]; [|reflexivity].
  intros H. apply orb_false_iff in H as [H1 H2]. now rewrite H1, H2.
Qed.

Definition simple_answer s uc f t : res (option (fn V)) :=
  match memo_of s uc f t with
  | Some None => Ok None
  | Some (Some (h, _)) => Ok (Some h)
  | None =>
      match quick (s_dict s) f t with
      | Some h => Ok (Some h)
      | None =>
          match search_value s f t with
          | Ok (Some p) => match path_convs (s_net s) p with Ok l => Ok (Some (FConvs l)) | Err e => Err e end
          | Ok None => Ok None
          | Err e => Err e
          end
      end
  end.
Definition fn_result (r : res (option (fn V))) : res (option (cval V)) :=
  match r with Ok (Some h) => Ok (Some (CFn h)) | Ok None => Ok None | Err e => Err e end.

Lemma from_network_fst f t s : fst (from_network None f t s) =
  match search_value s f t with
  | Ok (Some p) => match path_convs (s_net s) p with Ok l => Ok (Some (CFn (FConvs l), map PN p)) | Err e => Err e end
  | Ok None => Ok None
  | Err e => Err e
  end.
Proof.
  unfold from_network. rewrite bind_get. unfold bind at 1. unfold search_value.
  destruct (search_network f t s) as [[[p|]|e] s2]; cbn [fst]; try reflexivity.
  unfold bind, lift. destruct (path_convs (s_net s) p); reflexivity.
Qed.
Lemma gc_simple_fst f t r uc s : simple f -> simple t -> (0 <= rec_limit (s_par s) r)%Z ->
  match fst (get_conversion None f t r uc s) with
  | Ok (Some (c, _)) => Ok (Some c)
  | Ok None => Ok None
  | Err e => Err e
  end = fn_result (simple_answer s uc f t).
Proof.
  intros Hf Ht Hr. unfold get_conversion. destruct (gc_simple get_conversion0 f t r uc s Hf Ht Hr) as (qp & ->).
  unfold simple_answer. destruct (memo_of s uc f t) as [[[h p]|]|]; [reflexivity|reflexivity|].
  destruct (quick (s_dict s) f t); [reflexivity|]. rewrite from_network_fst.
  destruct (search_value s f t) as [[p|]|e]; [|reflexivity|reflexivity]. now destruct (path_convs (s_net s) p).
Qed.
Lemma enough_nonneg s : enough s -> (0 <= rec_limit (s_par s) None)%Z.
Proof. unfold enough. lia. Qed.
(** the engine on two simple units *)
Lemma converter_top_simple f t uc s : simple f -> simple t -> visited s f t = false -> enough s ->
  match fst (converter_top None f t uc s) with
  | Ok (Some (c, _)) => Ok (Some c)
  | Ok None => Ok None
  | Err e => Err e
  end = fn_result (simple_answer s uc f t).
Proof.
  intros Hf Ht Hv En. unfold converter_top, top_fuel.
  pose proof (rec_limit_next _ None En) as Hr. rewrite <- (gc_simple_fst f t _ uc s Hf Ht Hr).
  destruct (converter_simple (Z.to_nat (rec_limit (s_par s) None)) f t None uc s Hf Ht Hv (enough_nonneg s En))
    as [([c p] & s1 & E & ->)|[(e & s1 & E & ->)|(s1 & -> & K & _)]].
  - now rewrite E.
  - now rewrite E.
  - destruct K as [K|K]; [lia|]. destruct (gc_none' f t (Some (rec_limit (s_par s) None)) uc s Hf Ht K) as (s2 & E2). now rewrite E2.
Qed.

(** ** The public function *)
Lemma simple_answer_prev s p uc f t : simple_answer (set_prev s p) uc f t = simple_answer s uc f t.
Proof. unfold simple_answer, memo_of, use_of. cbn [s_par s_mem s_dict s_net set_prev].
  rewrite (search_frame f t s (set_prev s p) eq_refl). reflexivity. Qed.
Lemma enough_prev s p : enough (set_prev s p) <-> enough s. Proof. reflexivity. Qed.
Definition finish_result s (r : res (option (cval V))) : res (option (cval V)) :=
  match r with Ok None => if p_raise (s_par s) then Err NoConversionFoundError else Ok None | r => r end.
Lemma convert_clean_simple f t uc s : simple f -> simple t -> enough s -> density_case (s_dict s) f t = false ->
  fst (convert_clean None f t uc s) = finish_result s (fn_result (simple_answer s uc f t)).
Proof.
  intros Hf Ht En Hd. rewrite convert_clean_eq. unfold convert_step, bind.
  rewrite no_density_case by exact Hd.
  pose proof (converter_top_simple f t uc (set_prev s []) Hf Ht eq_refl En) as H. rewrite simple_answer_prev in H.
  rewrite <- H. pose proof (converter_top_Rel None f t uc (set_prev s [])) as (Hc & _).
  destruct (converter_top None f t uc (set_prev s [])) as [[[[c p]|]|e] s1]; cbn [fst snd] in *; [reflexivity| |reflexivity].
  cbn [finish_conv finish_result]. rewrite bind_get. apply core_fields in Hc as (_ & _ & _ & _ & H5 & _). rewrite H5.
  cbn [s_par set_prev]. now destruct (p_raise (s_par s)).
Qed.
Definition val_result s (v : V) (r : res (option (fn V))) : res (option (cval V)) :=
  match r with
  | Ok (Some h) => rbind (feval (fv_of s) h v) (fun w => Ok (Some (CVal w)))
  | Ok None => Ok None
  | Err e => Err e
  end.
Lemma fv_frame s s' : frame s' = frame s -> fv_of s' = fv_of s.
Proof. intros H. apply frame_fields in H as (_ & H2 & H3 & _). unfold fv_of. now rewrite H2, H3. Qed.
Lemma convert_clean_simple_val v f t uc s : simple f -> simple t -> enough s -> density_case (s_dict s) f t = false ->
  fst (convert_clean (Some v) f t uc s) = finish_result s (val_result s v (simple_answer s uc f t)).
Proof.
  intros Hf Ht En Hd. pose proof (convert_clean_simple f t uc s Hf Ht En Hd) as H.
  pose proof (convert_clean_erase v f t uc s) as K.
  pose proof (convert_clean_Pub None f t uc s) as (Hfr & _).
  destruct (convert_clean None f t uc s) as [[[[w|h]|]|e] s1]; cbn [fst snd] in *.
  - destruct (simple_answer s uc f t) as [[h|]|]; cbn in H; [discriminate| |discriminate]. now destruct (p_raise (s_par s)).
  - rewrite (fv_frame _ _ Hfr) in K.
    assert (E : simple_answer s uc f t = Ok (Some h)).
    { destruct (simple_answer s uc f t) as [[h'|]|]; cbn in H; [now injection H as ->| |discriminate]. now destruct (p_raise (s_par s)). }
    rewrite E. cbn [val_result finish_result]. destruct (feval (fv_of s) h v) as [w|e]; cbn [rbind]; [now rewrite K|exact K].
  - rewrite K. cbn [fst]. rewrite H. destruct (simple_answer s uc f t) as [[h'|]|]; cbn in *; try discriminate. reflexivity.
  - rewrite K. cbn [fst]. rewrite H. destruct (simple_answer s uc f t) as [[h'|]|e']; cbn in *; try discriminate; reflexivity.
Qed.

(** ** What the answer is made of *)
Lemma sane_conversion g a b : sane_net g -> registered g a b -> exists c, conversion g a b = Ok c.
Proof.
  intros (ND & _ & WE) (ks & Hk & Hb). unfold children_of, conversion in *. destruct (lookup g a) as [e|] eqn:E; [|easy].
  injection Hk as <-. destruct (index_of b (e_kids e)) as [i|] eqn:Ei; [|now apply index_None in Ei].
  pose proof (index_bound _ _ _ Ei) as Hi. apply lookup_In in E as [He _]. rewrite <- (WE _ He) in Hi.
  apply nth_error_Some in Hi. destruct (nth_error (e_convs e) i) as [c|]; [eauto|easy].
Qed.
Lemma sane_path_convs g a p b : sane_net g -> walk (registered g) a p b -> exists l, path_convs g p = Ok l.
Proof.
  intros S W. induction W as [a|a b p c Hab W IH]; [exists []; reflexivity|].
  destruct IH as (l & El). destruct (walk_hd _ _ _ _ W) as (t & ->).
  destruct (sane_conversion g a b S Hab) as (cc & Ec). exists (cc :: l).
  change (path_convs g (a :: b :: t)) with (rbind (conversion g a b) (fun c => rbind (path_convs g (b :: t)) (fun l => Ok (c :: l)))).
  now rewrite Ec, El.
Qed.
Lemma simple_answer_explained s uc f t h : good s -> simple f -> simple t -> simple_answer s uc f t = Ok (Some h) ->
  quick (s_dict s) f t = Some h \/ path_function (s_net s) f t h.
Proof.
  intros [S M] Hf Ht. unfold simple_answer. destruct (memo_of s uc f t) as [[[h' p]|]|] eqn:Em.
  - intros [= ->]. right. unfold memo_of in Em. destruct (use_of s uc); [|discriminate]. destruct (M _ _ _ _ Hf Ht Em) as [_ X]. exact (told_function _ _ _ _ _ X).
  - discriminate.
  - destruct (quick (s_dict s) f t) as [h'|] eqn:Eq; [intros [= ->]; now left|]. intros H. right.
    destruct (search_value s f t) as [[p|]|] eqn:Es; [|discriminate|discriminate].
    destruct (path_convs (s_net s) p) as [l|] eqn:El; [|discriminate]. injection H as <-.
    destruct (new_ok_path s f t (FConvs l) (map PN p) (proj1 S)) as [_ X]; [split; [exact Eq|]; exists p, l; auto|]. exact (told_function _ _ _ _ _ X).
Qed.
(** the special rules *)
Lemma simple_answer_quick s uc f t h : no_self s -> simple f -> simple t -> quick (s_dict s) f t = Some h ->
  simple_answer s uc f t = Ok (Some h).
Proof.
  intros N Hf Ht Hq. unfold simple_answer, memo_of. rewrite (N f t Hf Ht) by congruence. rewrite Hq. now destruct (use_of s uc).
Qed.
Lemma simple_answer_id s uc x : no_self s -> simple x -> simple_answer s uc x x = Ok (Some FId).
Proof. intros N Hx. apply simple_answer_quick; try assumption. unfold quick. now rewrite seqb_refl. Qed.
End E.
