From Coq Require Import String QArith Qcanon.
From Verif Require Import Py StrTools Network SearchSpec NetworkFacts Search SearchFacts SearchFacts2 DescFacts
  Hybrid HybridFacts Conv NetFacts2 Converter EngineSpec EngineFacts EngineFacts2 EngineFacts3 EngineFacts4 EngineFacts5 ConsistSpec.
Local Open Scope Qc_scope.

Lemma quantity_inj m a x y : k_of m a <> 0 -> quantity m a x = quantity m a y -> x = y.
Proof.
  unfold quantity. intros Hk H. assert (E : x * k_of m a = y * k_of m a).
  { replace (x * k_of m a) with (x * k_of m a + o_of m a - o_of m a) by ring. rewrite H. ring. }
  rewrite <- (Qcmult_1_r x), <- (Qcmult_1_r y), <- (Qcmult_inv_r (k_of m a) Hk), !Qcmult_assoc. now rewrite E.
Qed.
Lemma rescale_quantity m a b x : k_of m b <> 0 -> quantity m b (rescale m a b x) = quantity m a x.
Proof. intros H. unfold quantity, rescale. field. exact H. Qed.
Lemma rescale_unique m a b x y : k_of m b <> 0 -> quantity m b y = quantity m a x -> y = rescale m a b x.
Proof. intros Hk H. apply (quantity_inj m b); [exact Hk|]. now rewrite rescale_quantity. Qed.
Lemma rescale_id m a x : k_of m a <> 0 -> rescale m a a x = x.
Proof. intros H. symmetry. now apply rescale_unique. Qed.
Lemma rescale_trans m a b c x : k_of m b <> 0 -> k_of m c <> 0 -> rescale m b c (rescale m a b x) = rescale m a c x.
Proof. intros Hb Hc. apply rescale_unique; [exact Hc|]. now rewrite rescale_quantity, rescale_quantity. Qed.

Lemma convs_along_agree fv m g : agrees fv m g -> forall p a b l x,
  walk (registered g) a p b -> convs_along g p l ->
  exists y, run_convs fv l x = Ok y /\ quantity m (nname b) y = quantity m (nname a) x.
Proof.
  intros [Hk Hg] p a b l x W. revert l x. induction W as [a|a b p c Hab W IH]; intros l x Hl.
  - destruct l as [|? ?]; [|easy]. exists x. auto.
  - destruct (walk_hd _ _ _ _ W) as (t & ->). destruct l as [|cc l]; [easy|]. destruct Hl as [Hc Hl].
    destruct (Hg a b cc x Hab Hc) as (y & Ey & Hy). destruct (IH l y Hl) as (z & Ez & Hz).
    exists z. cbn [run_convs]. rewrite Ey. cbn [rbind]. split; [exact Ez|congruence].
Qed.
Lemma path_function_agree fv m g f t h x : agrees fv m g -> path_function g f t h ->
  feval fv h x = Ok (rescale m f t x).
Proof.
  intros Hg (a & b & p & l & Ha & Hb & [W _] & Hl & ->). destruct (convs_along_agree fv m g Hg p a b l x W Hl) as (y & Ey & Hy).
  apply get_node_spec in Ha as [_ <-]. apply get_node_spec in Hb as [_ <-]. cbn [feval]. rewrite Ey. f_equal.
  apply rescale_unique; [apply Hg|exact Hy].
Qed.

Lemma ordinary_quick d f t : ordinary d f -> quick (V:=Qc) d f t = if seqb f t then Some FId else None.
Proof.
  intros (H1 & H2 & H3). unfold quick. destruct (seqb f t); [reflexivity|].
  rewrite <- smem_In in H1, H2, H3. apply not_true_is_false in H1, H2, H3. unfold is_dimless, is_percent.
  now rewrite H1, H2, H3.
Qed.

(** the value of every conversion between simple ordinary units *)
Lemma simple_value m s uc f t h v : good s -> agrees (fv_of s) m (s_net s) -> simple f -> simple t ->
  ordinary (s_dict s) f -> simple_answer s uc f t = Ok (Some h) ->
  feval (fv_of s) h v = Ok (rescale m f t v).
Proof.
  intros G Hg Hf Ht Ho H. destruct (simple_answer_explained s uc f t h G Hf Ht H) as [Hq|Hp].
  - rewrite ordinary_quick in Hq by exact Ho. destruct (seqb f t) eqn:E; [|discriminate]. injection Hq as <-.
    apply seqb_eq in E. subst t. cbn [feval]. rewrite rescale_id; [reflexivity|apply Hg].
  - now apply (path_function_agree _ _ _ _ _ _ _ Hg).
Qed.
