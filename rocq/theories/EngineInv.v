(** * What the functions stored by the engine are made of

    A general invariant: when the conversions of the network and the numbers of
    the settings satisfy a predicate closed under the arithmetic, so do all the
    functions the engine returns or remembers, composite units included. *)
From Coq Require Import String QArith.
From Verif Require Import Py StrTools Network Search Hybrid Conv Converter EngineSpec EngineFacts.
Local Open Scope N_scope.

Section Inv.
Context {V : Type} {A : Arith V} (okv : V -> Prop) (okc : conv V -> Prop).
Hypothesis Hconst : forall q, okv (aconst q).
Hypothesis Hmul : forall x y, okv x -> okv y -> okv (amul x y).
Hypothesis Hdiv : forall x y z, okv x -> okv y -> adiv x y = Ok z -> okv z.
Hypothesis Hceval : forall fv c x y, (forall b, fv = Ok b -> okv b) -> okc c -> okv x -> ceval fv c x = Ok y -> okv y.

(** specification: the function is made of such conversions and numbers *)
Fixpoint okf (f : fn V) : Prop :=
  match f with
  | FConvs l => Forall okc l
  | FTemp n d => okv n /\ okv d
  | FFactor k => okv k
  | FComp f g => okf f /\ okf g
  | _ => True
  end.
(** specification *)
Definition okres (value : option V) (r : result V) : Prop :=
  match r with Some (CVal v, _) => value <> None /\ okv v | Some (CFn f, _) => okf f | None => True end.
(** specification *)
Definition okpair (r : option (fn V * path V)) : Prop := match r with Some (f, _) => okf f | None => True end.
(** specification *)
Record inv (s : st V) : Prop := {
  i_edges : forall e, In e (n_edges (s_net s)) -> Forall okc (e_convs e);
  i_mem : forall k h p, mget k (s_mem s) = Some (Some (h, p)) -> okf h;
  i_fvf : forall v, s_fvf s = Some v -> okv v;
  i_askf : forall v, s_ask_fvf s = Ok v -> okv v;
  i_dens : forall v, p_density (s_par s) = Some v -> okv v;
  i_askd : forall v, s_ask_density s = Ok v -> okv v }.

Lemma net_ok g a b c : (forall e, In e (n_edges g) -> Forall okc (e_convs e)) -> conversion g a b = Ok c -> okc c.
Proof.
  intros H E. unfold conversion in E. destruct (lookup g a) as [e|] eqn:L; [|discriminate E].
  destruct (index_of b (e_kids e)) as [i|]; [|discriminate E]. destruct (nth_error (e_convs e) i) as [c'|] eqn:K; [|discriminate E].
  injection E as <-. apply find_some in L as [L _]. exact (proj1 (Forall_forall _ _) (H e L) _ (nth_error_In _ _ K)).
Qed.
Lemma i_net s : inv s -> forall a b c, conversion (s_net s) a b = Ok c -> okc c.
Proof. intros I a b c. exact (net_ok _ a b c (i_edges s I)). Qed.
Lemma inv_fv s b : inv s -> fv_of s = Ok b -> okv b.
Proof.
  intros I E. unfold fv_of in E. destruct (s_fvf s) eqn:K; [|exact (i_askf s I _ E)].
  injection E as <-. exact (i_fvf s I _ K).
Qed.

Lemma okf_val fv : (forall b, fv = Ok b -> okv b) -> forall f x y, okf f -> okv x -> feval fv f x = Ok y -> okv y.
Proof.
  intros Hf. induction f as [l| | | |n d| |k|f IHf g IHg|]; intros x y Ho Hx E; cbn [feval okf] in *.
  - revert x Hx E. induction Ho as [|c l Hc Hl IH]; intros x Hx E; cbn [run_convs] in E.
    + injection E as <-. exact Hx.
    + destruct (ceval fv c x) as [w|e] eqn:K; [|discriminate E]. cbn [rbind] in E. exact (IH w (Hceval fv c x w Hf Hc Hx K) E).
  - injection E as <-. exact Hx.
  - injection E as <-. now apply Hmul.
  - exact (Hdiv _ _ _ Hx (Hconst _) E).
  - exact (Hdiv _ _ _ (Hmul _ _ Hx (proj1 Ho)) (proj2 Ho) E).
  - exact (Hdiv _ _ _ (Hconst _) Hx E).
  - injection E as <-. now apply Hmul.
  - destruct (feval fv f x) as [w|e] eqn:K; [|discriminate E]. cbn [rbind] in E.
    exact (IHg w y (proj2 Ho) (IHf x w (proj1 Ho) Hx K) E).
  - discriminate E.
Qed.

(** ** Triples *)
Definition tr {X} (m : M V X) (Q : X -> Prop) : Prop := forall s, inv s -> inv (snd (m s)) /\ forall x, fst (m s) = Ok x -> Q x.
Lemma tr_ret {X} (x : X) (Q : X -> Prop) : Q x -> tr (ret x) Q.
Proof. intros H s I. split; [exact I|]. cbn. intros y E. now injection E as <-. Qed.
Lemma tr_raise {X} e (Q : X -> Prop) : tr (raise e) Q.
Proof. intros s I. split; [exact I|]. cbn. intros y E. discriminate E. Qed.
Lemma tr_lift {X} (r : res X) (Q : X -> Prop) : (forall x, r = Ok x -> Q x) -> tr (lift r) Q.
Proof. intros H s I. split; [exact I|]. cbn. exact H. Qed.
Lemma tr_get : tr get inv.
Proof. intros s I. split; [exact I|]. cbn. intros y E. now injection E as <-. Qed.
Lemma tr_modify h (Q : unit -> Prop) : (forall s, inv s -> inv (h s)) -> Q tt -> tr (modify h) Q.
Proof. intros H HQ s I. split; [now apply H|]. intros [] _. exact HQ. Qed.
Lemma tr_bind {X Y} (m : M V X) (k : X -> M V Y) (P : X -> Prop) (Q : Y -> Prop) :
  tr m P -> (forall x, P x -> tr (k x) Q) -> tr (bind m k) Q.
Proof.
  intros Hm Hk s I. unfold bind. destruct (m s) as [[x|e] s1] eqn:E.
  - destruct (Hm s I) as [I1 H1]. rewrite E in I1, H1. cbn in I1, H1. exact (Hk x (H1 x eq_refl) s1 I1).
  - destruct (Hm s I) as [I1 _]. rewrite E in I1. cbn in I1. split; [exact I1|]. cbn. intros y K. discriminate K.
Qed.
Lemma tr_weak {X} (m : M V X) (P Q : X -> Prop) : tr m P -> (forall x, P x -> Q x) -> tr m Q.
Proof. intros H K s I. destruct (H s I) as [I1 H1]. split; [exact I1|]. intros x E. exact (K x (H1 x E)). Qed.
Lemma tr_top {X} (m : M V X) (P : X -> Prop) : tr m P -> tr m (fun _ => True).
Proof. intros H. exact (tr_weak m P _ H (fun _ _ => I)). Qed.

(** ** The pieces *)
(** specification: a value given to the engine *)
Definition okopt (v : option V) : Prop := match v with Some x => okv x | None => True end.
Lemma inv_mset s k v : inv s -> okpair v -> inv (set_mem s (mset k v (s_mem s))).
Proof.
  intros I Hv. destruct I. constructor; cbn [s_net s_mem s_fvf s_ask_fvf s_par s_ask_density set_mem]; try assumption.
  intros k' h p E. rewrite mget_mset in E. destruct (keqb k' k); [|exact (i_mem0 _ _ _ E)]. injection E as ->. exact Hv.
Qed.
Lemma remember_tr k v : okpair v -> tr (remember k v) (fun _ => True).
Proof. intros Hv. apply tr_modify; [|exact I]. intros s Is. now apply inv_mset. Qed.
Lemma answer_tr value h p : okopt value -> okf h -> tr (answer value h p) (okres value).
Proof.
  intros Hv Hh s Is. unfold answer, bind, app. destruct value as [v|].
  - destruct (feval (fv_of s) h v) as [w|e] eqn:E; cbn [rbind fst snd ret]; (split; [exact Is|]); intros x K; [|discriminate K].
    injection K as <-. cbn [okres]. split; [intros K; discriminate K|]. exact (okf_val _ (fun b => inv_fv s b Is) h v w Hh Hv E).
  - cbn [fst snd ret]. split; [exact Is|]. intros x K. injection K as <-. exact Hh.
Qed.
Lemma touch_tr b : tr (touch_es b) (fun _ => True).
Proof. apply tr_modify; [|exact I]. intros s []. destruct b; constructor; assumption. Qed.
Lemma m_desc_tr x g c : tr (m_desc x g c) (fun _ => True).
Proof. unfold m_desc. eapply tr_bind; [apply tr_get|]. intros s _. eapply tr_bind; [apply touch_tr|]. intros [] _. now apply tr_ret. Qed.
Lemma search_tr f t : tr (search_network f t) (fun _ => True).
Proof.
  unfold search_network. eapply tr_bind; [apply tr_get|]. intros s _. cbv zeta.
  destruct (has_node (s_net s) f && has_node (s_net s) t); [|now apply tr_ret].
  eapply tr_bind; [apply (tr_lift _ (fun _ => True)); auto|]. intros a _.
  eapply tr_bind; [apply (tr_lift _ (fun _ => True)); auto|]. intros b _.
  destruct (seqb _ (u "BFS")); [apply tr_lift; auto|].
  destruct (seqb _ (u "lean_BFS")); [eapply tr_bind; [apply touch_tr|]; intros [] _; apply tr_lift; auto|].
  destruct (seqb _ (u "DFS")); [eapply tr_bind; [apply touch_tr|]; intros [] _; apply tr_lift; auto|].
  destruct (seqb _ (u "hybrid_BFS")); [eapply tr_bind; [apply touch_tr|]; intros [] _; apply tr_lift; auto|].
  apply tr_raise.
Qed.
Lemma path_convs_ok g : (forall a b c, conversion g a b = Ok c -> okc c) -> forall p l, path_convs g p = Ok l -> Forall okc l.
Proof.
  intros Hg. induction p as [|a p IH]; intros l E.
  - cbn in E. injection E as <-. constructor.
  - destruct p as [|b p]; [cbn in E; injection E as <-; constructor|]. change (path_convs g (a :: b :: p)) with (rbind (conversion g a b) (fun c => rbind (path_convs g (b :: p)) (fun l => Ok (c :: l)))) in E.
    destruct (conversion g a b) as [c|e] eqn:K; [|discriminate E]. cbn [rbind] in E.
    destruct (path_convs g (b :: p)) as [l'|e] eqn:K'; [|discriminate E]. cbn [rbind] in E. injection E as <-.
    constructor; [exact (Hg a b c K)|exact (IH l' eq_refl)].
Qed.
Lemma apply_path_ok g fv : (forall b, fv = Ok b -> okv b) -> (forall a b c, conversion g a b = Ok c -> okc c) ->
  forall p v w, okv v -> apply_path g fv v p = Ok w -> okv w.
Proof.
  intros Hf Hg. induction p as [|a p IH]; intros v w Hv E.
  - cbn in E. injection E as <-. exact Hv.
  - destruct p as [|b p]; [cbn in E; injection E as <-; exact Hv|]. 
    change (apply_path g fv v (a :: b :: p)) with (rbind (conversion g a b) (fun c => rbind (ceval fv c v) (fun w => apply_path g fv w (b :: p)))) in E.
    destruct (conversion g a b) as [c|e] eqn:K; [|discriminate E]. cbn [rbind] in E.
    destruct (ceval fv c v) as [x|e] eqn:K'; [|discriminate E]. cbn [rbind] in E.
    exact (IH x w (Hceval fv c v x Hf (Hg a b c K) Hv K') E).
Qed.
Lemma from_network_tr value f t : okopt value -> tr (from_network value f t) (okres value).
Proof.
  intros Hv. unfold from_network. eapply tr_bind; [apply tr_get|]. intros s Is.
  eapply tr_bind; [apply search_tr|]. intros [p|] _; [|now apply tr_ret].
  apply (tr_bind _ _ (Forall okc)); [apply tr_lift; intros l E; exact (path_convs_ok _ (i_net s Is) p l E)|]. intros l Hl.
  eapply tr_bind; [apply remember_tr; exact Hl|]. intros [] _.
  destruct value as [v|]; [|apply tr_ret; exact Hl].
  apply (tr_bind _ _ okv); [apply tr_lift; intros w E; exact (apply_path_ok _ _ (fun b => inv_fv s b Is) (i_net s Is) p v w Hv E)|].
  intros w Hw. apply tr_ret. cbn [okres]. split; [intros K; discriminate K|exact Hw].
Qed.
Lemma gc_tr rec value f t r uc : (forall v d1 d2 r uc, okopt v -> tr (rec v d1 d2 r uc) (okres v)) ->
  okopt value -> tr (get_conversion_ rec value f t r uc) (okres value).
Proof.
  intros Hr Hv. unfold get_conversion_. eapply tr_bind; [apply tr_get|]. intros s Is. cbv zeta.
  destruct (_ <? 0)%Z; [now apply tr_ret|].
  destruct (if match uc with Some b => b | None => p_cache (s_par s) end then mget (f, t) (s_mem s) else None) as [[[h p]|]|] eqn:E.
  - apply answer_tr; [exact Hv|]. destruct (match uc with Some b => b | None => p_cache (s_par s) end); [|discriminate E].
    exact (i_mem s Is _ _ _ E).
  - now apply tr_ret.
  - clear E. destruct (seqb f t); [now apply answer_tr|].
    destruct (smem f _ && smem t _); [now apply answer_tr|].
    destruct (is_dimless _ f && is_percent _ t); [now apply answer_tr|].
    destruct (is_percent _ f && is_dimless _ t); [now apply answer_tr|].
    destruct (is_dimless _ f && negb _); [now apply answer_tr|].
    assert (N : tr (if is_dimless (s_dict s) f && same_ratio t then answer value FId []
                    else if is_dimless (s_dict s) t && same_ratio f then answer value FId [] else from_network value f t) (okres value)).
    { destruct (is_dimless _ f && same_ratio t); [now apply answer_tr|]. destruct (is_dimless _ t && same_ratio f); [now apply answer_tr|].
      now apply from_network_tr. }
    destruct (split2 c_slash f) as [[t1 d1]|]; [|exact N]. destruct (split2 c_slash t) as [[t2 d2]|]; [|exact N].
    destruct (smem t1 _ && smem t2 _).
    + destruct (tratio_get (t1, t2) (s_dict s)) as [num|]; [|apply tr_raise].
      eapply tr_bind; [apply Hr; exact (Hconst 1%Q)|]. intros [[[dv|g] dp]|] Hd.
      * apply answer_tr; [exact Hv|]. cbn [okf]. split; [apply Hconst|exact (proj2 Hd)].
      * apply tr_raise.
      * destruct (p_raise _); [apply tr_raise|now apply tr_ret].
    + destruct (is_dimless _ f && same_ratio t); [now apply answer_tr|]. destruct (is_dimless _ t && same_ratio f); [now apply answer_tr|].
      destruct (_ && _); [now apply answer_tr|]. now apply from_network_tr.
Qed.
Lemma get_conversion_tr value f t r uc : okopt value -> tr (get_conversion value f t r uc) (okres value).
Proof. intros Hv. apply gc_tr; [|exact Hv]. intros v d1 d2 r' uc' Hv'. apply gc_tr; [|exact Hv']. intros. apply tr_raise. Qed.
Lemma match_one_tr r uc have x xs used ts : forall i, tr (match_one r uc have x xs i ts used) (fun m => match m with Some (k, _, _) => okv k | None => True end).
Proof.
  induction ts as [|[y ys] ts IH]; intros i; cbn [match_one]; [now apply tr_ret|].
  destruct (existsb (Nat.eqb i) used); [apply IH|]. destruct (is_op y); [apply IH|].
  eapply tr_bind; [apply get_conversion_tr; exact (Hconst 1%Q)|]. intros [[[k|g] p]|] Hk; [apply proj2 in Hk|apply tr_raise|apply IH].
  cbv zeta. destruct (xs || ys); [|now apply tr_ret].
  apply (tr_bind _ _ okv); [apply tr_lift; intros z E; exact (Hdiv _ _ _ (Hconst 1%Q) Hk E)|]. intros z Hz. now apply tr_ret.
Qed.
Lemma match_all_tr r uc ts : forall fs used ks ps have, Forall okv ks ->
  tr (match_all r uc fs ts used ks ps have) (fun m => match m with Some (ks, _) => Forall okv ks | None => True end).
Proof.
  induction fs as [|[x xs] fs IH]; intros used ks ps have Hk; cbn [match_all]; [now apply tr_ret|].
  destruct (is_op x); [now apply IH|].
  eapply tr_bind; [apply match_one_tr|]. intros [[[k p] i]|] Hm; [|now apply tr_ret].
  apply IH. apply Forall_app. split; [exact Hk|]. constructor; [exact Hm|constructor].
Qed.
Lemma fold_mul ks : forall k, okv k -> Forall okv ks -> okv (fold_left amul ks k).
Proof. induction ks as [|x ks IH]; intros k Hk H; cbn [fold_left]; [exact Hk|]. inversion H; subst. apply IH; [now apply Hmul|assumption]. Qed.
Lemma composite_tr f t r uc : tr (composite f t r uc) (fun m => match m with Some (k, _) => okv k | None => True end).
Proof.
  unfold composite. eapply tr_bind; [apply (tr_lift _ (fun _ => True)); auto|]. intros sf _.
  eapply tr_bind; [apply (tr_lift _ (fun _ => True)); auto|]. intros sto _.
  eapply tr_bind; [apply match_all_tr; constructor|]. intros [[[|k ks] p]|] H; try (now apply tr_ret).
  apply tr_ret. inversion H; subst. now apply fold_mul.
Qed.
Lemma fob r : okres None r -> okf (fn_or_bad r).
Proof. destruct r as [[[v|f] p]|]; cbn; auto. Qed.
Lemma via_pair_tr cv f t : (forall a b, tr (cv a b) (okres None)) -> tr (via_pair cv f t) okpair.
Proof.
  intros Hc. unfold via_pair. eapply tr_bind; [apply tr_get|]. intros s _.
  destruct (is_pair t && negb (is_pair f)).
  - eapply tr_bind; [apply (tr_lift _ (fun _ => True)); auto|]. intros [c|] _; [|now apply tr_ret].
    eapply tr_bind; [apply Hc|]. intros x Hx. eapply tr_bind; [apply Hc|]. intros y Hy.
    destruct x as [[[v|b] px]|]; try (now apply tr_ret). destruct y as [[[v|p] py]|]; try (now apply tr_ret).
  - destruct (is_pair f && negb (is_pair t)); [|now apply tr_ret].
    eapply tr_bind; [apply (tr_lift _ (fun _ => True)); auto|]. intros [c|] _; [|now apply tr_ret].
    eapply tr_bind; [apply Hc|]. intros x Hx. eapply tr_bind; [apply Hc|]. intros y Hy.
    destruct x as [[[v|b] px]|]; try (now apply tr_ret). destruct y as [[[v|p] py]|]; try (now apply tr_ret).
Qed.
Lemma guc_tr n : forall gen a b, tr (guc_loop n gen a b) (fun _ => True).
Proof.
  induction n as [|n IH]; intros gen a b; cbn [guc_loop]; [now apply tr_ret|].
  eapply tr_bind; [apply m_desc_tr|]. intros da _. eapply tr_bind; [apply m_desc_tr|]. intros db _.
  destruct (sinter da db); [apply IH|now apply tr_ret].
Qed.
Lemma total_gens_tr f t l : tr (total_gens f t l) (fun _ => True).
Proof.
  induction l as [|x l IH]; cbn [total_gens]; [now apply tr_ret|].
  eapply tr_bind; [apply guc_tr|]. intros a _. eapply tr_bind; [apply guc_tr|]. intros b _. eapply tr_bind; [apply IH|]. intros rest _. now apply tr_ret.
Qed.
Lemma ratio_loop_tr cn f t mn : (forall a b, tr (cn a b) (okres None)) -> forall cs best short count last, okf last ->
  tr (ratio_loop cn f t mn cs best short count last) okpair.
Proof.
  intros Hc. induction cs as [|[gens child] cs IH]; intros best short count last Hl; cbn [ratio_loop]; cbv zeta.
  - apply tr_ret. destruct best; cbn [okpair]; auto.
  - destruct (match best with Some _ => glt mn gens | None => false end); [apply tr_ret; destruct best; cbn [okpair]; auto|].
    eapply tr_bind; [apply Hc|]. intros x Hx. eapply tr_bind; [apply Hc|]. intros y Hy.
    assert (L : okf (FComp (fn_or_bad x) (fn_or_bad y))) by (cbn [okf]; split; now apply fob).
    destruct x as [[cx px]|]; [|now apply IH]. destruct y as [[cy py]|]; [|now apply IH].
    destruct (if (_ <? short)%Z then _ else _) as [best' short'].
    destruct (count =? 12)%Z; [|now apply IH]. apply tr_ret. destruct best'; cbn [okpair]; auto.
Qed.
Lemma ratio_children_tr cn f t : (forall a b, tr (cn a b) (okres None)) -> tr (ratio_children cn f t) okpair.
Proof.
  intros Hc. unfold ratio_children. eapply tr_bind; [apply tr_get|]. intros s _.
  eapply tr_bind; [apply m_desc_tr|]. intros ff _. eapply tr_bind; [apply m_desc_tr|]. intros ft _.
  eapply tr_bind; [apply total_gens_tr|]. intros [|[g0 c0] rest] _; [apply tr_raise|]. apply ratio_loop_tr; [exact Hc|exact I].
Qed.
Lemma keep_tr value f t h p : okopt value -> okf h -> tr (keep value f t h p) (okres value).
Proof. intros Hv Hh. unfold keep. eapply tr_bind; [apply remember_tr; exact Hh|]. intros [] _. now apply answer_tr. Qed.
Lemma slow_tr cv cn value f t r uc : (forall a b, tr (cv a b) (okres None)) -> (forall a b, tr (cn a b) (okres None)) -> okopt value ->
  tr (slow cv cn value f t r uc) (okres value).
Proof.
  intros H1 H2 Hv. unfold slow.
  eapply tr_bind; [apply (tr_modify _ (fun _ => True)); [|exact I]; intros s []; constructor; assumption|]. intros [] _.
  eapply tr_bind; [apply composite_tr|]. intros [[k p]|] Hk; [now apply keep_tr|].
  eapply tr_bind; [apply via_pair_tr; exact H1|]. intros [[g p]|] Hg; [now apply keep_tr|].
  apply (tr_bind _ _ okpair).
  - destruct (one_slash f && one_slash t); [now apply ratio_children_tr|now apply tr_ret].
  - intros [[g' p']|] Hg'; [now apply keep_tr|]. eapply tr_bind; [apply remember_tr; exact I|]. intros [] _. now apply tr_ret.
Qed.
Lemma converter_tr n : forall value f t r0 uc, okopt value -> tr (converter n value f t r0 uc) (okres value).
Proof.
  induction n as [|n IH]; intros value f t r0 uc Hv; cbn [converter]; (eapply tr_bind; [apply tr_get|]); intros s _; cbv zeta;
    (destruct (visited s f t); [now apply tr_ret|]); (destruct (_ <? 0)%Z; [now apply tr_ret|]).
  - apply tr_raise.
  - eapply tr_bind; [now apply get_conversion_tr|]. intros [x|] Hx; [now apply tr_ret|].
    apply slow_tr; [intros; now apply (IH None)|intros; now apply (IH None)|exact Hv].
Qed.
Lemma converter_top_tr value f t uc : okopt value -> tr (converter_top value f t uc) (okres value).
Proof. intros Hv s Is. exact (converter_tr (top_fuel s) value f t None uc Hv s Is). Qed.
Lemma get_density_tr : tr get_density okv.
Proof.
  unfold get_density. eapply tr_bind; [apply tr_get|]. intros s Is. destruct (p_density (s_par s)) as [d|] eqn:E.
  - apply tr_ret. exact (i_dens s Is d E).
  - apply (tr_bind _ _ okv); [apply tr_lift; exact (i_askd s Is)|]. intros d Hd.
    eapply tr_bind; [apply (tr_modify _ (fun _ => True)); [|exact I]|intros [] _; now apply tr_ret].
    intros s' []. constructor; cbn; try assumption. intros v K. injection K as <-. exact Hd.
Qed.
Lemma density_tr value f t uc : okopt value -> tr (density_conversion value f t uc) (okres value).
Proof.
  intros Hv. unfold density_conversion. eapply tr_bind; [apply tr_get|]. intros s _. cbv zeta.
  destruct (_ && _); [|now apply tr_ret]. destruct (smem f _ && smem t _).
  - eapply tr_bind; [apply get_density_tr|]. intros rho Hr. eapply tr_bind; [apply converter_top_tr; exact Hr|].
    intros [[[k|g] p]|] Hk; [apply proj2 in Hk| |]; now apply answer_tr.
  - destruct (smem t _ && smem f _); [|now apply tr_ret].
    eapply tr_bind; [apply get_density_tr|]. intros rho Hr. eapply tr_bind; [apply converter_top_tr; exact Hr|].
    intros x _. now apply answer_tr.
Qed.
(** ** The public functions *)
(** specification: what convert returns *)
Definition okans (value : option V) (x : option (cval V)) : Prop := match x with Some (CVal v) => value <> None /\ okv v | Some (CFn f) => okf f | None => True end.
Lemma convert_clean_tr value f t uc : okopt value -> tr (convert_clean value f t uc) (okans value).
Proof.
  intros Hv. unfold convert_clean.
  eapply tr_bind; [apply (tr_modify _ (fun _ => True)); [|exact I]; intros s []; constructor; assumption|]. intros [] _.
  eapply tr_bind; [now apply density_tr|]. intros x Hx.
  apply (tr_bind _ _ (okres value)); [destruct x; [now apply tr_ret|now apply converter_top_tr]|]. intros [[c p]|] Hy.
  - eapply tr_bind; [apply (tr_modify _ (fun _ => True)); [|exact I]; intros s []; constructor; assumption|]. intros [] _.
    apply tr_ret. exact Hy.
  - eapply tr_bind; [apply tr_get|]. intros s _. destruct (p_raise _); [apply tr_raise|now apply tr_ret].
Qed.
(** specification: the value among the arguments *)
Definition val_of (v : vin V) : option V := match v with VNum x | VIter x | VUnit x _ => Some x | _ => None end.
(** specification *)
Definition okvin (v : vin V) : Prop := match v with VNum x | VIter x | VUnit x _ => okv x | _ => True end.
Lemma convert_tr value f t uc : okvin value -> tr (convert value f t uc) (okans (val_of value)).
Proof.
  intros Hv. unfold convert. eapply tr_bind; [apply tr_get|]. intros s _.
  apply (tr_bind _ _ (fun x => okopt (fst (fst x)) /\ fst (fst x) = val_of value)).
  - apply tr_lift. intros [[v f'] t'] E. cbn [fst]. enough (v = val_of value) as -> by (split; [destruct value; cbn in *; auto|reflexivity]).
    assert (K : forall (o : option V) (b : bool) f t, rbind (clean_unit f) (fun f => if is_empty (bare t) then Err TypeError else
      rbind (clean_unit t) (fun t => if b then rbind (reduce_parentheses f) (fun f => rbind (reduce_parentheses t) (fun t => Ok (o, f, t)))
      else Ok (o, f, t))) = Ok (v, f', t') -> o = v).
    { intros o b f0 t0 K. destruct (clean_unit f0); [|discriminate K]. cbn [rbind] in K. destruct (is_empty (bare t0)); [discriminate K|].
      destruct (clean_unit t0); [|discriminate K]. cbn [rbind] in K. destruct b.
      - destruct (reduce_parentheses _); [|discriminate K]. cbn [rbind] in K. destruct (reduce_parentheses _); [|discriminate K].
        cbn [rbind] in K. now injection K.
      - now injection K. }
    unfold clean_input in E. destruct value as [|x|x|x un|]; cbn [okvin] in Hv.
    + symmetry. exact (K _ _ _ _ E).
    + symmetry. exact (K _ _ _ _ E).
    + symmetry. exact (K _ _ _ _ E).
    + destruct (is_empty t); symmetry; exact (K _ _ _ _ E).
    + discriminate E.
  - intros [[v f'] t'] [K1 K2]. cbn [fst] in K1, K2. rewrite <- K2. now apply convert_clean_tr.
Qed.
Lemma convertible_inv f t uc s : inv s -> inv (snd (convertible f t uc s)).
Proof.
  intros Is. unfold convertible. destruct (converter_top_tr (Some qone) f t uc (Hconst 1%Q) s Is) as [H _].
  destruct (converter_top (Some qone) f t uc s) as [[[x|]|e] s1]; try exact H. destruct e; exact H.
Qed.
Lemma simpandas_tr v f t uc : okv v -> tr (convert_for_SimPandas v f t uc) okv.
Proof.
  intros Hv. unfold convert_for_SimPandas. apply (tr_bind _ _ (fun _ => True)).
  - intros s Is. split; [now apply convertible_inv|auto].
  - intros [|] _; [|now apply tr_ret]. eapply tr_bind; [apply converter_top_tr; exact Hv|].
    intros [[[w|g] p]|] H; [apply proj2 in H| |]; now apply tr_ret.
Qed.

(** ** Histories *)
(** what the calls of the session may bring in: the functions and numbers given by the user; the values
    converted may be anything *)
Definition okcall (c : call V) : Prop :=
  match c with
  | KSetConversion _ _ f r => okc (CUser f) /\ okc (match r with Some h => CUser h | None => CRev (CUser f) end)
  | KSetFvf v => okv v
  | KSetPar p => forall v, p_density p = Some v -> okv v
  | _ => True
  end.
Lemma convert_any value f t uc s : inv s -> inv (snd (convert value f t uc s)).
Proof.
  intros Is. unfold convert. rewrite bind_get. unfold bind, lift.
  destruct (clean_input (p_redpar (s_par s)) value f t) as [[[v f'] t']|e]; [|exact Is]. cbv beta iota.
  destruct v as [v|]; [|exact (proj1 (convert_clean_tr None f' t' uc I s Is))].
  rewrite convert_clean_eq. unfold bind. rewrite convert_step_erase.
  assert (I0 : inv (set_prev s [])) by (destruct Is; constructor; assumption).
  assert (H : inv (snd (convert_step None f' t' uc (set_prev s [])))).
  { assert (T : tr (convert_step None f' t' uc) (okres None)); [|exact (proj1 (T _ I0))].
    apply (tr_bind _ _ (okres None) (okres None)); [now apply density_tr|]. intros [x|] Hx; [now apply tr_ret|now apply converter_top_tr]. }
  rewrite <- (applied_snd v) in H. destruct (applied v (convert_step None f' t' uc (set_prev s []))) as [[[[c p]|]|e] s']; cbn [snd] in H.
  - destruct H. constructor; assumption.
  - cbn [finish_conv]. rewrite bind_get. destruct (p_raise (s_par s')); exact H.
  - exact H.
Qed.
Lemma simpandas_any v f t uc s : inv s -> inv (snd (convert_for_SimPandas v f t uc s)).
Proof.
  intros Is. unfold convert_for_SimPandas, bind. pose proof (convertible_inv f t None s Is) as H.
  destruct (convertible f t None s) as [[[|]|e] s1]; cbn [snd] in H; [|exact H|exact H].
  rewrite converter_top_erase. destruct (converter_top_tr None f t uc I s1 H) as [H1 _].
  rewrite <- (applied_snd v) in H1.
  destruct (applied v (converter_top None f t uc s1)) as [[[[[w|h] p]|]|e] s2]; exact H1.
Qed.
Lemma add_node_ok g n g' : (forall e, In e (n_edges g) -> Forall okc (e_convs e)) -> add_node g n = Ok g' ->
  forall e, In e (n_edges g') -> Forall okc (e_convs e).
Proof.
  intros H E e Hi. unfold add_node in E. destruct (has_obj g n); [discriminate E|]. injection E as <-. cbn [n_edges] in Hi.
  apply in_app_iff in Hi as [Hi|[<-|[]]]; [now apply H|constructor].
Qed.
Lemma add_edge_ok g a b c g' : okc c -> (forall e, In e (n_edges g) -> Forall okc (e_convs e)) -> add_edge g a b c = Ok g' ->
  forall e, In e (n_edges g') -> Forall okc (e_convs e).
Proof.
  intros Hc H E e Hi. unfold add_edge in E. destruct (negb _); [discriminate E|]. injection E as <-. cbn [n_edges] in Hi.
  apply in_map_iff in Hi as (e0 & <- & Hi). destruct (neqb a (e_node e0)); [|now apply H]. destruct (nmem b (e_kids e0)); [now apply H|].
  cbn [e_convs]. apply Forall_app. split; [now apply H|]. constructor; [exact Hc|constructor].
Qed.
Lemma inv_net s g : inv s -> (forall e, In e (n_edges g) -> Forall okc (e_convs e)) -> inv (set_net s g).
Proof. intros [] H. constructor; assumption. Qed.
Lemma do_call_inv c s : okcall c -> inv s -> inv (do_call c s).
Proof.
  intros Hc Is. destruct c as [value f t uc|f t uc|v f t uc|a|a b f r|v| |p|l]; cbn [do_call okcall] in *.
  - now apply convert_any.
  - now apply convertible_inv.
  - now apply simpandas_any.
  - unfold api_set_unit. rewrite bind_get. unfold bind, lift. destruct (set_unit (s_net s) a) as [g|e] eqn:E; [|exact Is].
    cbn [modify snd]. apply inv_net; [exact Is|]. exact (add_node_ok _ _ _ (i_edges s Is) E).
  - unfold set_conversion_api. rewrite bind_get. unfold bind, lift.
    destruct (api_set_conversion (s_net s) a b f r) as [g|e] eqn:E; [|exact Is].
    cbn [modify snd]. apply inv_net; [exact Is|]. unfold api_set_conversion, set_conversion in E.
    destruct (add_new (s_net s) a) as [g1|] eqn:E1; [|discriminate E]. cbn [rbind] in E.
    destruct (add_new g1 b) as [g2|] eqn:E2; [|discriminate E]. cbn [rbind] in E.
    destruct (get_node g2 a) as [na|]; [|discriminate E]. cbn [rbind] in E. destruct (get_node g2 b) as [nb|]; [|discriminate E]. cbn [rbind] in E.
    destruct (add_edge g2 na nb (CUser f)) as [g3|] eqn:E3; [|discriminate E]. cbn [rbind] in E.
    exact (add_edge_ok _ _ _ _ _ (proj2 Hc) (add_edge_ok _ _ _ _ _ (proj1 Hc) (add_node_ok _ _ _ (add_node_ok _ _ _ (i_edges s Is) E1) E2) E3) E).
  - destruct Is. constructor; try assumption. cbn. intros w K. injection K as <-. exact Hc.
  - destruct Is. constructor; try assumption. cbn. intros k h p K. discriminate K.
  - destruct Is. constructor; try assumption.
  - destruct Is. constructor; try assumption.
Qed.
Lemma do_calls_inv cs : forall s, Forall okcall cs -> inv s -> inv (do_calls cs s).
Proof.
  unfold do_calls. induction cs as [|c cs IH]; intros s Hc Is; cbn [fold_left]; [exact Is|]. inversion Hc; subst. apply IH; [assumption|].
  now apply do_call_inv.
Qed.
End Inv.
