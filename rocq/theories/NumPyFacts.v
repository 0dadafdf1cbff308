(** * Arrays: the facts *)
From Coq Require Import String QArith Qcanon.
From Verif Require Import Py StrTools Network Conv Converter EngineSpec EngineFacts EngineFacts7 EngineInv NumPy NumPySpec.
Local Open Scope N_scope.

Section F.
Context {V : Type} {A : Arith V} (ediv : V -> V -> V).
Hypothesis Hd : division_agrees ediv.
Local Instance npA : Arith (npv V) := np_arith ediv.
Notation ew := (@elementwise V).

Lemma ew_id : ew (fun x => Ok x).
Proof.
  constructor.
  - intros x w E. injection E as <-. now exists x.
  - intros k l w E. injection E as <-. exists l. split; [reflexivity|]. induction l; constructor; [|assumption]. intros z K. now injection K.
  - intros k l _ _. now exists (Arr k l).
Qed.
Lemma ew_err e : ew (fun _ => Err e).
Proof.
  constructor.
  - intros x w E. discriminate E.
  - intros k l w E. discriminate E.
  - intros k [|x l] H K; [now elim H|]. destruct (K x (or_introl eq_refl)) as (y & E). discriminate E.
Qed.
Lemma ew_map (op : V -> V) (F : npv V -> res (npv V)) :
  (forall x, F (Num x) = Ok (Num (op x))) -> (forall k l, F (Arr k l) = Ok (Arr k (map op l))) -> ew F.
Proof.
  intros H1 H2. constructor.
  - intros x w E. rewrite H1 in E. injection E as <-. now exists (op x).
  - intros k l w E. rewrite H2 in E. injection E as <-. exists (map op l). split; [reflexivity|].
    induction l as [|x l IH]; cbn [map]; constructor; [|exact IH]. intros z K. rewrite H1 in K. now injection K.
  - intros k l _ _. rewrite H2. now eexists.
Qed.
Lemma ew_part (op : V -> V) (F : npv V -> res (npv V)) (g : V -> res V) :
  (forall x, F (Num x) = rbind (g x) (fun c => Ok (Num c))) -> (forall x z, g x = Ok z -> op x = z) ->
  (forall k l, F (Arr k l) = Ok (Arr k (map op l))) -> ew F.
Proof.
  intros H1 Hg H2. constructor.
  - intros x w E. rewrite H1 in E. destruct (g x) as [y|]; [|discriminate E]. injection E as <-. now exists y.
  - intros k l w E. rewrite H2 in E. injection E as <-. exists (map op l). split; [reflexivity|].
    induction l as [|x l IH]; cbn [map]; constructor; [|exact IH]. intros z K. rewrite H1 in K.
    destruct (g x) as [y|] eqn:E; [|discriminate K]. injection K as <-. symmetry. now apply Hg.
  - intros k l _ _. rewrite H2. now eexists.
Qed.
Lemma Forall2_len {X Y} (R : X -> Y -> Prop) l l' : Forall2 R l l' -> length l = length l'.
Proof. induction 1; cbn; congruence. Qed.
Lemma ew_comp F G : ew F -> ew G -> ew (fun x => rbind (F x) G).
Proof.
  intros HF HG. constructor.
  - intros x w E. destruct (F (Num x)) as [y|] eqn:K; [|discriminate E]. cbn [rbind] in E. destruct (ew_num F HF x y K) as (y' & ->).
    exact (ew_num G HG y' w E).
  - intros k l w E. destruct (F (Arr k l)) as [y|] eqn:K; [|discriminate E]. cbn [rbind] in E.
    destruct (ew_arr F HF k l y K) as (l' & -> & H1). destruct (ew_arr G HG k l' w E) as (l2 & -> & H2). exists l2. split; [reflexivity|].
    clear -H1 H2 HF. revert l2 H2. induction H1 as [|x y l l' Hx _ IH]; intros l2 H2; inversion H2 as [|? y2 ? l2' Hy Hl2]; subst; constructor.
    + intros z Hz. destruct (F (Num x)) as [w|] eqn:K; [|discriminate Hz]. cbn [rbind] in Hz. destruct (ew_num F HF x w K) as (w' & ->).
      pose proof (Hx w' eq_refl) as ->. exact (Hy z Hz).
    + now apply IH.
  - intros k l Hl H. assert (HF1 : forall x, In x l -> exists y, F (Num x) = Ok (Num y)).
    { intros x Hx. destruct (H x Hx) as (y & E). destruct (F (Num x)) as [w|] eqn:K; [|discriminate E].
      destruct (ew_num F HF x w K) as (w' & ->). now exists w'. }
    destruct (ew_ok F HF k l Hl HF1) as (w & K). rewrite K. cbn [rbind]. destruct (ew_arr F HF k l w K) as (l' & -> & H1).
    apply (ew_ok G HG). { intros ->. apply Hl. inversion H1. reflexivity. }
    assert (Q : Forall (fun y => exists z, G (Num y) = Ok (Num z)) l').
    { clear -H1 H HF1. induction H1 as [|x y l l' Hx Hl IH]; constructor.
      - destruct (HF1 x (or_introl eq_refl)) as (w & E). pose proof (Hx w E) as ->. destruct (H x (or_introl eq_refl)) as (z & K).
        rewrite E in K. cbn [rbind] in K. now exists z.
      - apply IH; intros; [apply H|apply HF1]; now right. }
    intros x Hx. exact (proj1 (Forall_forall _ _) Q x Hx).
Qed.
Lemma ew_ext F G : (forall x, F x = G x) -> ew F -> ew G.
Proof.
  intros H [H1 H2 H3]. constructor.
  - intros x w. rewrite <- H. apply H1.
  - intros k l w E. rewrite <- H in E. destruct (H2 k l w E) as (l' & -> & K). exists l'. split; [reflexivity|]. clear -K H.
    induction K as [|x y l0 l0' Hx _ IH]; constructor; [|exact IH]. intros z. rewrite <- H. apply Hx.
  - intros k l Hl K. rewrite <- H. apply H3; [exact Hl|]. intros x Hx. destruct (K x Hx) as (y & E). exists y. now rewrite H.
Qed.
Lemma ew_mul v : is_num v -> ew (fun x => Ok (amul x v)).
Proof. intros (b & ->). now apply (ew_map (fun a => amul a b)). Qed.
Lemma ew_div v : is_num v -> ew (fun x => adiv x v).
Proof. intros (b & ->). apply (ew_part (fun a => ediv a b) _ (fun a => adiv a b)); [reflexivity| |reflexivity]. intros x z. apply Hd. Qed.
Lemma ew_into v : is_num v -> ew (fun x => adiv v x).
Proof. intros (b & ->). apply (ew_part (fun a => ediv b a) _ (fun a => adiv b a)); [reflexivity| |reflexivity]. intros x z. apply Hd. Qed.
Lemma is_const q : is_num (V := V) (aconst q).
Proof. now exists (aconst q). Qed.

Lemma conv_user f : ew f -> elementwise_conv ediv (CUser f).
Proof. intros H fv _. exact H. Qed.
Lemma conv_rev c : elementwise_conv ediv c -> elementwise_conv ediv (CRev c).
Proof.
  intros H fv Hf. cbn [ceval]. destruct (ceval fv c (aconst 1)) as [w|e] eqn:E.
  - apply ew_div. exact (ew_num _ (H fv Hf) _ _ E).
  - apply ew_err.
Qed.
Lemma conv_then a b : elementwise_conv ediv a -> elementwise_conv ediv b -> elementwise_conv ediv (CThen a b).
Proof. intros Ha Hb fv Hf. cbn [ceval]. apply ew_comp; [now apply Ha|now apply Hb]. Qed.
Lemma conv_cmap {W} (c : conv W) : elementwise_conv ediv (cmap c).
Proof.
  induction c; try (now apply conv_then); try (now apply conv_rev); intros fv Hf; cbn [cmap ceval].
  - apply ew_id.
  - apply ew_mul, is_const.
  - apply ew_div, is_const.
  - now apply (ew_map (fun a => aadd a (aconst q))).
  - now apply (ew_map (fun a => asub a (aconst q))).
  - apply ew_into, is_const.
  - destruct fv as [b|e]; [|apply ew_err]. cbn [rbind]. apply ew_div. now apply Hf.
  - destruct fv as [b|e]; [|apply ew_err]. cbn [rbind]. apply ew_mul. now apply Hf.
  - apply ew_id.
Qed.
Lemma okf_ew fv h : numeric_fvf fv -> okf is_num (elementwise_conv ediv) h -> ew (feval fv h).
Proof.
  intros Hf. induction h as [l| | | |n d| |k|f IHf g IHg|]; cbn [okf]; intros H.
  - change (feval fv (FConvs l)) with (run_convs fv l). induction H as [|c l Hc Hl IH]; [apply ew_id|].
    apply (ew_comp (ceval fv c) (run_convs fv l)); [now apply Hc|exact IH].
  - apply ew_id.
  - apply ew_mul, is_const.
  - apply ew_div, is_const.
  - destruct H as [Hn Hd']. apply (ew_ext (fun x => rbind (Ok (amul x n)) (fun y => adiv y d))); [reflexivity|].
    apply ew_comp; [now apply ew_mul|now apply ew_div].
  - apply ew_into, is_const.
  - now apply ew_mul.
  - apply (ew_comp (feval fv f) (feval fv g)); [now apply IHf|now apply IHg].
  - apply ew_err.
Qed.

(** ** The invariant *)
Notation ninv := (inv is_num (elementwise_conv ediv)).
Lemma n_mul (x y : npv V) : is_num x -> is_num y -> is_num (amul x y).
Proof. intros (a & ->) (b & ->). now exists (amul a b). Qed.
Lemma n_div (x y z : npv V) : is_num x -> is_num y -> adiv x y = Ok z -> is_num z.
Proof. intros (a & ->) (b & ->) E. cbn in E. destruct (adiv a b) as [c|]; [|discriminate E]. injection E as <-. now exists c. Qed.
Lemma n_ceval fv c (x y : npv V) : (forall b, fv = Ok b -> is_num b) -> elementwise_conv ediv c -> is_num x -> ceval fv c x = Ok y -> is_num y.
Proof. intros Hf Hc (a & ->) E. exact (ew_num _ (Hc fv Hf) a y E). Qed.
Lemma session_inv s cs : numeric_session ediv s -> Forall numeric_call cs -> ninv (do_calls cs s).
Proof.
  intros (H1 & H2 & H3 & H4 & H5 & H6) Hc.
  apply (do_calls_inv is_num (elementwise_conv ediv) is_const n_mul n_div n_ceval).
  - eapply Forall_impl; [|exact Hc]. intros [| | | |a b f r| | | |]; cbn; auto. intros [Hf Hr]. split; [now apply conv_user|].
    destruct r as [h|]; [now apply conv_user|apply conv_rev; now apply conv_user].
  - constructor; try assumption. rewrite H2. intros k h p K. discriminate K.
Qed.
(** what convert does to a value *)
Lemma convert_iter v f t uc (s : st (npv V)) : convert (VIter v) f t uc s = convert (VNum v) f t uc s.
Proof. reflexivity. Qed.
Lemma clean_shape b (v : npv V) f t : match clean_input (V := npv V) b VNone f t with
  | Ok (_, x, y) => clean_input b (VNum v) f t = Ok (Some v, x, y) /\ clean_input (V := npv V) b VNone f t = Ok (None, x, y)
  | Err e => clean_input b (VNum v) f t = Err e end.
Proof.
  unfold clean_input. destruct (clean_unit f) as [x|]; cbn [rbind]; [|reflexivity]. destruct (is_empty (bare t)); [reflexivity|].
  destruct (clean_unit t) as [y|]; cbn [rbind]; [|reflexivity]. destruct b; [|split; reflexivity].
  destruct (reduce_parentheses x); cbn [rbind]; [|reflexivity]. destruct (reduce_parentheses y); cbn [rbind]; [|reflexivity]. split; reflexivity.
Qed.
Lemma convert_shape f t uc s : ninv s ->
  (exists h s', ew (feval (fv_of s') h)
     /\ forall v, match feval (fv_of s') h v with
                  | Ok w => convert (VNum v) f t uc s = (Ok (Some (CVal w)), s')
                  | Err e => fst (convert (VNum v) f t uc s) = Err e end)
  \/ (exists r s', (forall w, r <> Ok (Some w)) /\ forall v, convert (VNum v) f t uc s = (r, s')).
Proof.
  intros Is. pose proof (convert_tr is_num (elementwise_conv ediv) is_const n_mul n_div n_ceval VNone f t uc I s Is) as [I1 HQ].
  unfold convert in *. rewrite bind_get in I1, HQ. unfold bind, lift in I1, HQ.
  pose proof (fun v => clean_shape (p_redpar (s_par s)) v f t) as K.
  destruct (clean_input (p_redpar (s_par s)) VNone f t) as [[[o x] y]|e] eqn:E.
  - assert (o = None) by (destruct (K (Num (aconst 1))) as [_ K1]; now injection K1). subst o. cbv beta iota in I1, HQ.
    assert (C : forall v, bind get (fun s0 => bind (lift (clean_input (p_redpar (s_par s0)) (VNum v) f t)) (fun '(v0, f0, t0) => convert_clean v0 f0 t0 uc)) s
                = convert_clean (Some v) x y uc s).
    { intros v. rewrite bind_get. unfold bind, lift. now rewrite (proj1 (K v)). }
    pose proof (fun v => convert_clean_erase v x y uc s) as R.
    destruct (convert_clean None x y uc s) as [[[[w|h]|]|e] s'] eqn:E'; cbn [fst snd] in I1, HQ.
    + destruct (proj1 (HQ _ eq_refl) eq_refl).
    + left. exists h, s'. split; [apply okf_ew; [intros b Hb; exact (inv_fv _ _ _ _ I1 Hb)|exact (HQ _ eq_refl)]|].
      intros v. specialize (R v). rewrite C. destruct (feval (fv_of s') h v); exact R.
    + right. exists (Ok None), s'. split; [intros w Ew; discriminate Ew|]. intros v. rewrite C. exact (R v).
    + right. exists (Err e), s'. split; [intros w Ew; discriminate Ew|]. intros v. rewrite C. exact (R v).
  - right. exists (Err e), s. split; [intros w Ew; discriminate Ew|]. intros v. rewrite bind_get. unfold bind, lift. now rewrite (K v).
Qed.

Lemma both (F : npv V -> res (npv V)) : ew F -> forall k l, l <> [] -> (forall x, In x l -> exists y, F (Num x) = Ok (Num y)) ->
  exists l', F (Arr k l) = Ok (Arr k l') /\ Forall2 (fun x y => F (Num x) = Ok (Num y)) l l'.
Proof.
  intros H k l Hl K. destruct (ew_ok F H k l Hl K) as (w & E). destruct (ew_arr F H k l w E) as (l' & -> & R). exists l'. split; [exact E|].
  clear -K R. induction R as [|x y l l' Hx _ IH]; constructor.
  - destruct (K x (or_introl eq_refl)) as (z & Ez). now rewrite <- (Hx z Ez).
  - apply IH. intros x' Hx'. apply K. now right.
Qed.

Lemma array_convert s f t uc k l : ninv s -> l <> [] ->
  (forall x, In x l -> exists y, fst (convert (VNum (Num x)) f t uc s) = Ok (Some (CVal (Num y)))) ->
  exists l', fst (convert (VNum (Arr k l)) f t uc s) = Ok (Some (CVal (Arr k l')))
    /\ Forall2 (fun x y => fst (convert (VNum (Num x)) f t uc s) = Ok (Some (CVal (Num y)))) l l'
    /\ forall x, In x l -> snd (convert (VNum (Arr k l)) f t uc s) = snd (convert (VNum (Num x)) f t uc s).
Proof.
  intros Is Hl H. destruct (convert_shape f t uc s Is) as [(h & s' & Hw & Hv)|(r & s' & Hr & Hv)].
  - assert (K : forall x, In x l -> exists y, feval (fv_of s') h (Num x) = Ok (Num y)).
    { intros x Hx. destruct (H x Hx) as (y & E). specialize (Hv (Num x)). destruct (feval (fv_of s') h (Num x)) as [w|e].
      - rewrite Hv in E. cbn [fst] in E. injection E as ->. now exists y.
      - rewrite Hv in E. discriminate E. }
    destruct (both _ Hw k l Hl K) as (l' & E & R). exists l'. pose proof (Hv (Arr k l)) as Ha. rewrite E in Ha. rewrite Ha. split; [reflexivity|]. split.
    + clear -R Hv. induction R as [|x y l l' Hx _ IH]; constructor; [|exact IH]. specialize (Hv (Num x)). rewrite Hx in Hv. now rewrite Hv.
    + intros x Hx. destruct (K x Hx) as (y & Ey). specialize (Hv (Num x)). rewrite Ey in Hv. now rewrite Hv.
  - destruct l as [|x l]; [now elim Hl|]. destruct (H x (or_introl eq_refl)) as (y & E). rewrite Hv in E. cbn [fst] in E. now destruct (Hr (CVal (Num y))).
Qed.
Lemma array_answer s f t uc k l c : ninv s -> fst (convert (VNum (Arr k l)) f t uc s) = Ok (Some c) ->
  exists l', c = CVal (Arr k l') /\ Forall2 (fun x y => forall z, fst (convert (VNum (Num x)) f t uc s) = Ok (Some (CVal (Num z))) -> z = y) l l'.
Proof.
  intros Is H. destruct (convert_shape f t uc s Is) as [(h & s' & Hw & Hv)|(r & s' & Hr & Hv)].
  - pose proof (Hv (Arr k l)) as Ha. destruct (feval (fv_of s') h (Arr k l)) as [w|e] eqn:E.
    + rewrite Ha in H. cbn [fst] in H. injection H as <-. destruct (ew_arr _ Hw k l w E) as (l' & -> & R). exists l'. split; [reflexivity|].
      clear -R Hv. induction R as [|x y l l' Hx _ IH]; constructor; [|exact IH]. intros z Hz. apply Hx. specialize (Hv (Num x)).
      destruct (feval (fv_of s') h (Num x)) as [w|e]; rewrite Hv in Hz; cbn [fst] in Hz; [|discriminate Hz]. now injection Hz as ->.
    + rewrite Ha in H. discriminate H.
  - rewrite Hv in H. cbn [fst] in H. now destruct (Hr c).
Qed.
Lemma array_fails s f t uc v v' : ninv s -> fst (convert (VNum v) f t uc s) = Ok None -> convert (VNum v') f t uc s = convert (VNum v) f t uc s.
Proof.
  intros Is H. destruct (convert_shape f t uc s Is) as [(h & s' & Hw & Hv)|(r & s' & Hr & Hv)].
  - specialize (Hv v). destruct (feval (fv_of s') h v); rewrite Hv in H; discriminate H.
  - now rewrite !Hv.
Qed.
(** pandas containers *)
Lemma converter_shape f t uc s : ninv s ->
  (exists h p s', ninv s' /\ okf is_num (elementwise_conv ediv) h /\ converter_top None f t uc s = (Ok (Some (CFn h, p)), s'))
  \/ (exists s', converter_top None f t uc s = (Ok None, s')) \/ exists e s', converter_top None f t uc s = (Err e, s').
Proof.
  intros Is. pose proof (converter_top_tr is_num (elementwise_conv ediv) is_const n_mul n_div n_ceval None f t uc I s Is) as [I1 HQ].
  destruct (converter_top None f t uc s) as [[[[[w|h] p]|]|e] s']; cbn [fst snd] in *.
  - destruct (proj1 (HQ _ eq_refl) eq_refl).
  - left. exists h, p, s'. split; [exact I1|]. split; [exact (HQ _ eq_refl)|reflexivity].
  - right. left. now exists s'.
  - right. right. now exists e, s'.
Qed.
Lemma simpandas_array s f t uc k l : ninv s -> l <> [] ->
  (forall x, In x l -> exists y, fst (convert_for_SimPandas (Num x) f t uc s) = Ok (Num y)) ->
  exists l', fst (convert_for_SimPandas (Arr k l) f t uc s) = Ok (Arr k l')
    /\ Forall2 (fun x y => fst (convert_for_SimPandas (Num x) f t uc s) = Ok (Num y)) l l'.
Proof.
  intros Is Hl H. pose proof (convertible_inv is_num (elementwise_conv ediv) is_const n_mul n_div n_ceval f t None s Is) as I1.
  unfold convert_for_SimPandas, bind in *. destruct (convertible f t None s) as [[[|]|e] s1]; cbn [snd] in I1.
  - destruct (converter_shape f t uc s1 I1) as [(h & p & s' & I2 & Hh & E)|[(s' & E)|(e & s' & E)]].
    + assert (Q : forall v, match converter_top (Some v) f t uc s1 with
                | (Ok x, s0) => match x with Some (CVal w, _) => ret w | _ => ret v end s0 | (Err e, s0) => (Err e, s0) end
              = (feval (fv_of s') h v, s')).
      { intros v. rewrite converter_top_erase, E. cbn [applied]. now destruct (feval (fv_of s') h v). }
      assert (Hw : ew (feval (fv_of s') h)) by (apply okf_ew; [intros b Hb; exact (inv_fv _ _ _ _ I2 Hb)|exact Hh]).
      destruct (both _ Hw k l Hl) as (l' & El & R).
      { intros x Hx. destruct (H x Hx) as (y & Ey). rewrite Q in Ey. now exists y. }
      exists l'. rewrite Q. split; [exact El|]. clear -R Q. induction R as [|x y l l' Hx _ IH]; constructor; [|exact IH]. now rewrite Q.
    + exists l. rewrite converter_top_erase, E. cbn [applied fst ret]. split; [reflexivity|]. clear -E.
      induction l; constructor; [|assumption]. now rewrite converter_top_erase, E.
    + destruct l as [|x l]; [now elim Hl|]. destruct (H x (or_introl eq_refl)) as (y & Ey). rewrite converter_top_erase, E in Ey. discriminate Ey.
  - exists l. split; [reflexivity|]. clear. induction l; constructor; [reflexivity|assumption].
  - destruct l as [|x l]; [now elim Hl|]. destruct (H x (or_introl eq_refl)) as (y & Ey). discriminate Ey.
Qed.
End F.
