(** * The exceptions of the engine

    A general invariant: the exceptions that leave the engine are those of the
    functions it holds (and of the prompts), a fixed list, and
    NoConversionFoundError when errors are to be raised. *)
From Coq Require Import String QArith.
From Coq Require Import Lia.
From Verif Require Import Py StrTools StrFacts StrFacts2 Network SearchSpec NetworkFacts Search SearchFacts SearchFacts2 DescFacts Hybrid Conv NetFacts2 Converter EngineSpec EngineFacts.
Local Open Scope N_scope.

(** specification: what the engine raises by itself *)
Definition own_exceptions : list exn := [NameError; ValueError; TypeError; KeyError; IndexError; NotImplementedError; ModuleNotFoundError].
(** specification: what also depends on the settings: a missing conversion when errors are to be raised; the hybrid search
    when its threads are not run to their end (OutOfFuel) *)
Definition by_settings {V} (s : st V) (e : exn) : Prop :=
  e = NoConversionFoundError /\ p_raise (s_par s) = true \/ e = OutOfFuel /\ p_algo (s_par s) = u "hybrid_BFS".
(** specification: the settings that matter here *)
Definition lim {V} (s : st V) : bool * str * Z * Z := (p_raise (s_par s), p_algo (s_par s), p_max_rec (s_par s), p_pylimit (s_par s)).

Section Exc.
Context {V : Type} {A : Arith V} (okx : exn -> Prop).
Hypothesis Hown : forall e, In e own_exceptions -> okx e.
Hypothesis Hdiv : forall x y e, adiv x y = Err e -> okx e.

(** specification: a value, or an exception that is allowed *)
Definition fine {X} (r : res X) : Prop := forall e, r = Err e -> okx e.
(** specification: the conversion raises nothing else, when the formation volume factor is given without raising anything else *)
Definition okc (c : conv V) : Prop := forall fv x, fine fv -> fine (ceval fv c x).
(** specification: ... the function *)
Definition okf (f : fn V) : Prop := forall fv x, fine fv -> fine (feval fv f x).
(** specification *)
Definition okres (r : result V) : Prop := match r with Some (CFn f, _) => okf f | _ => True end.
(** specification *)
Definition okpair (r : option (fn V * path V)) : Prop := match r with Some (f, _) => okf f | None => True end.
(** specification *)
Record inv (s : st V) : Prop := {
  i_edges : forall e, In e (n_edges (s_net s)) -> Forall okc (e_convs e);
  i_mem : forall k h p, mget k (s_mem s) = Some (Some (h, p)) -> okf h;
  i_askf : fine (s_ask_fvf s);
  i_askd : fine (s_ask_density s) }.

Lemma own_fine e : In e own_exceptions -> okx e. Proof. exact (Hown e). Qed.
Ltac own := apply Hown; cbn; tauto.
Lemma fine_ok {X} (x : X) : fine (Ok x). Proof. intros e E. discriminate E. Qed.
Lemma fine_err {X} e : okx e -> fine (@Err X e). Proof. intros H e' E. injection E as <-. exact H. Qed.
Lemma fine_rbind {X Y} (m : res X) (k : X -> res Y) : fine m -> (forall x, fine (k x)) -> fine (rbind m k).
Proof. intros H K. destruct m as [x|e]; [apply K|]. intros e' E. injection E as <-. exact (H e eq_refl). Qed.
Lemma fine_div x y : fine (adiv x y). Proof. exact (Hdiv x y). Qed.

Lemma okf_id : okf FId. Proof. intros fv x _. apply fine_ok. Qed.
Lemma okf_convs l : Forall okc l -> okf (FConvs l).
Proof.
  intros H fv x Hf. cbn [feval]. revert x. induction H as [|c l Hc Hl IH]; intros x; cbn [run_convs]; [apply fine_ok|]. apply fine_rbind; [now apply Hc|exact IH].
Qed.
Lemma okf_mul100 : okf FMul100. Proof. intros fv x _. apply fine_ok. Qed.
Lemma okf_div100 : okf FDiv100. Proof. intros fv x _. apply fine_div. Qed.
Lemma okf_temp n d : okf (FTemp n d). Proof. intros fv x _. apply fine_div. Qed.
Lemma okf_inv : okf FInv. Proof. intros fv x _. apply fine_div. Qed.
Lemma okf_factor k : okf (FFactor k). Proof. intros fv x _. apply fine_ok. Qed.
Lemma okf_comp f g : okf f -> okf g -> okf (FComp f g).
Proof. intros Hf Hg fv x H. cbn [feval]. apply fine_rbind; [now apply Hf|]. intros y. now apply Hg. Qed.
Lemma okf_bad : okf FBad. Proof. intros fv x _. apply fine_err. own. Qed.
Hint Resolve okf_id okf_convs okf_mul100 okf_div100 okf_temp okf_inv okf_factor okf_comp okf_bad : core.

Lemma net_ok g a b c : (forall e, In e (n_edges g) -> Forall okc (e_convs e)) -> conversion g a b = Ok c -> okc c.
Proof.
  intros H E. unfold conversion in E. destruct (lookup g a) as [e|] eqn:L; [|discriminate E].
  destruct (index_of b (e_kids e)) as [i|]; [|discriminate E]. destruct (nth_error (e_convs e) i) as [c'|] eqn:K; [|discriminate E].
  injection E as <-. apply find_some in L as [L _]. exact (proj1 (Forall_forall _ _) (H e L) _ (nth_error_In _ _ K)).
Qed.
Lemma conversion_fine (g : net (conv V)) a b : fine (conversion g a b).
Proof.
  unfold conversion. destruct (lookup g a) as [e|]; [|apply fine_err; own]. destruct (index_of b (e_kids e)) as [i|]; [|apply fine_err; own].
  destruct (nth_error (e_convs e) i); [apply fine_ok|apply fine_err; own].
Qed.
Lemma fv_fine s : inv s -> fine (fv_of s).
Proof. intros I. unfold fv_of. destruct (s_fvf s); [apply fine_ok|exact (i_askf s I)]. Qed.

(** ** Triples: what is raised is allowed, or is NoConversionFoundError and errors are to be raised *)
Definition out {X} (L : bool * str * Z * Z) (Q : X -> Prop) (r : res X * st V) : Prop :=
  inv (snd r) /\ lim (snd r) = L /\ (forall x, fst r = Ok x -> Q x)
  /\ forall e, fst r = Err e -> okx e \/ e = NoConversionFoundError /\ fst (fst (fst L)) = true \/ e = OutOfFuel /\ snd (fst (fst L)) = u "hybrid_BFS".
Section Lim.
Context (L : bool * str * Z * Z).
Definition tr {X} (m : M V X) (Q : X -> Prop) : Prop := forall s, inv s -> lim s = L -> out L Q (m s).
Lemma out_ok {X} (x : X) (Q : X -> Prop) s : inv s -> lim s = L -> Q x -> out L Q (Ok x, s).
Proof. intros I HL H. split; [exact I|]. split; [exact HL|]. split; intros y E; [now injection E as <-|discriminate E]. Qed.
Lemma out_err {X} e (Q : X -> Prop) s : inv s -> lim s = L -> okx e -> out L Q (Err e, s).
Proof. intros I HL H. split; [exact I|]. split; [exact HL|]. split; intros y E; [discriminate E|]. injection E as <-. now left. Qed.
Lemma tr_ret {X} (x : X) (Q : X -> Prop) : Q x -> tr (ret x) Q.
Proof. intros H s I HL. now apply out_ok. Qed.
Lemma tr_lift {X} (r : res X) (Q : X -> Prop) : (forall x, r = Ok x -> Q x) -> fine r -> tr (lift r) Q.
Proof. intros H K s I HL. unfold lift. destruct r as [x|e]; [apply out_ok; auto|apply out_err; auto]. Qed.
Lemma tr_raise {X} e (Q : X -> Prop) : In e own_exceptions -> tr (raise e) Q.
Proof. intros H s I HL. apply out_err; auto. Qed.
Lemma tr_modify h (Q : unit -> Prop) : (forall s, inv s -> inv (h s) /\ lim (h s) = lim s) -> Q tt -> tr (modify h) Q.
Proof. intros H HQ s I HL. destruct (H s I) as [H1 H2]. apply out_ok; [exact H1|congruence|exact HQ]. Qed.
Lemma tr_bind {X Y} (m : M V X) (k : X -> M V Y) (P : X -> Prop) (Q : Y -> Prop) :
  tr m P -> (forall x, P x -> tr (k x) Q) -> tr (bind m k) Q.
Proof.
  intros Hm Hk s I HL. unfold bind. destruct (Hm s I HL) as (I1 & R1 & H1 & E1). destruct (m s) as [[x|e] s1]; cbn [fst snd] in *.
  - exact (Hk x (H1 x eq_refl) s1 I1 R1).
  - split; [exact I1|]. split; [exact R1|]. split; [intros y E; discriminate E|]. intros e' E. injection E as <-. exact (E1 e eq_refl).
Qed.
(** the state that is read: its invariant is known *)
Lemma tr_get {X} (k : st V -> M V X) (Q : X -> Prop) : (forall s, inv s -> lim s = L -> tr (k s) Q) -> tr (bind get k) Q.
Proof. intros H s I HL. rewrite bind_get. exact (H s I HL s I HL). Qed.
Lemma tr_weak {X} (m : M V X) (P Q : X -> Prop) : tr m P -> (forall x, P x -> Q x) -> tr m Q.
Proof. intros H K s I HL. destruct (H s I HL) as (I1 & R1 & H1 & E1). split; [exact I1|]. split; [exact R1|]. split; [|exact E1]. intros x E. exact (K x (H1 x E)). Qed.
(** the exception of a missing conversion *)
Lemma tr_missing {X} (s : st V) (Q : option X -> Prop) : lim s = L -> Q None -> tr (if p_raise (s_par s) then raise NoConversionFoundError else ret None) Q.
Proof.
  intros HL HQ. destruct (p_raise (s_par s)) eqn:R; [|now apply tr_ret]. intros s1 I1 H1. split; [exact I1|]. split; [exact H1|]. split; intros x E; [discriminate E|]. injection E as <-.
  right. left. split; [reflexivity|]. rewrite <- HL. exact R.
Qed.

(** ** The pieces *)
Lemma inv_mset s k v : inv s -> okpair v -> inv (set_mem s (mset k v (s_mem s))).
Proof.
  intros I Hv. destruct I. constructor; cbn [s_net s_mem s_fvf s_ask_fvf s_par s_ask_density set_mem]; try assumption.
  intros k' h p E. rewrite mget_mset in E. destruct (keqb k' k); [|exact (i_mem0 _ _ _ E)]. injection E as ->. exact Hv.
Qed.
Lemma remember_tr k v : okpair v -> tr (remember k v) (fun _ => True).
Proof. intros Hv. apply tr_modify; [|exact I]. intros s Is. split; [now apply inv_mset|reflexivity]. Qed.
Lemma answer_tr value h p : okf h -> tr (answer value h p) okres.
Proof.
  intros Hh s Is HL. unfold answer, bind, app. destruct value as [v|].
  - pose proof (Hh (fv_of s) v (fv_fine s Is)) as Hf. destruct (feval (fv_of s) h v) as [w|e]; cbn [rbind fst snd ret].
    + now apply out_ok.
    + apply out_err; auto.
  - now apply out_ok.
Qed.
Lemma touch_tr b : tr (touch_es b) (fun _ => True).
Proof. apply tr_modify; [|exact I]. intros s []. destruct b; (split; [constructor; assumption|reflexivity]). Qed.
Lemma m_desc_tr x g c : tr (m_desc x g c) (fun _ => True).
Proof. unfold m_desc. apply tr_get. intros s _ _. eapply tr_bind; [apply touch_tr|]. intros [] _. now apply tr_ret. Qed.
Lemma bfs_fine W (eqb : W -> W -> bool) (ch : W -> res (list W)) fin d st : (forall x, fine (ch x)) -> bfs eqb ch fin d st <> Err OutOfFuel -> fine (bfs eqb ch fin d st).
Proof.
  intros Hc. unfold bfs.
  assert (S1 : forall s, match bfs_step eqb ch fin s with More _ => True | Done r => fine r end).
  { intros s. unfold bfs_step. destruct (b_queue s) as [|p q]; [apply fine_ok|]. destruct (pmem _ _ _); [exact I|]. destruct (rev p) as [|l r]; [apply fine_err; own|].
    destruct (eqb l fin); [apply fine_ok|]. specialize (Hc l). destruct (ch l) as [ks|e]; [exact I|]. apply fine_err. exact (Hc e eq_refl). }
  assert (R : forall d s, match bfs_run eqb ch fin d s with More _ => True | Done r => fine r end).
  { induction d0 as [|d0 IH]; intros s; cbn [bfs_run]; [apply S1|]. specialize (IH s) as IH0. destruct (bfs_run eqb ch fin d0 s) as [s'|r]; [apply IH|exact IH0]. }
  specialize (R d (bfs_init st)). destruct (bfs_run eqb ch fin d (bfs_init st)) as [s|r]; [intros K; now elim K|intros _; exact R].
Qed.
Lemma children_fine (g : net (conv V)) n : fine (children_of g n).
Proof. unfold children_of. destruct (lookup g n); [apply fine_ok|apply fine_err; own]. Qed.
Lemma get_node_fine (g : net (conv V)) n : fine (get_node g n).
Proof. unfold get_node. destruct (find _ _); [apply fine_ok|apply fine_err; own]. Qed.
Lemma BFS_fine (g : net (conv V)) a b : fine (BFS g a b).
Proof. apply bfs_fine; [apply children_fine|apply BFS_terminates]. Qed.
Lemma slim_total (sel : list (entry (conv V))) s e : exists r, bfs neqb (slim_children sel) e (net_fuel sel) s = Ok r.
Proof.
  pose proof (bfs_correct neqb neqb_eq (slim_children sel) e s (map e_node sel) (max_deg (map e_kids sel))) as H.
  assert (Hdeg : forall v ks, slim_children sel v = Ok ks -> (ks = [] \/ In v (map e_node sel)) /\ (length ks <= max_deg (map e_kids sel))%nat).
  { intros v ks. unfold slim_children. destruct (find _ sel) as [x|] eqn:F; intros [= <-].
    - apply find_some in F as [He E]. apply neqb_eq in E. subst v. split; [right; now apply in_map|].
      apply max_deg_ge. now apply in_map.
    - split; [now left|cbn; lia]. }
  specialize (H ltac:(intros v k ks Hk; apply Hdeg in Hk as [[?|?] _]; easy)
                ltac:(intros v ks Hk; now apply Hdeg in Hk)
                (length sel) _ ltac:(now rewrite map_length) (le_n _)).
  unfold net_fuel. destruct (bfs _ _ _ _ _) as [r|x]; [exists r; reflexivity|].
  destruct H as (n & _ & Hn). unfold slim_children in Hn. now destruct (find _ sel).
Qed.
Lemma lean_fine (g : net (conv V)) es a b m : fine (lean_BFS g es a b m).
Proof.
  unfold lean_BFS. destruct (lean_edges g es a b m) as [|e l]; [apply fine_ok|]. destruct (slim_total (e :: l) a b) as [r ->]. apply fine_ok.
Qed.
Lemma dfs_fine W (eqb : W -> W -> bool) (ch : W -> res (list W)) fin keep d st : (forall x, fine (ch x)) -> dfs eqb ch fin keep d st <> Err OutOfFuel -> fine (dfs eqb ch fin keep d st).
Proof.
  intros Hc. unfold dfs.
  assert (R : forall d v vis pq e, dfs_ eqb ch fin keep d v vis pq = Err e -> okx e \/ e = OutOfFuel).
  { induction d0 as [|d0 IH]; intros v vis pq; cbn [dfs_]; [intros e E; injection E as <-; now right|]. specialize (Hc v). destruct (ch v) as [ks|e]; [|intros e' E; injection E as <-; left; exact (Hc e eq_refl)].
    clear Hc. generalize (v :: vis). induction ks as [|c ks IHk]; intros vs e; [intros E; discriminate E|]. destruct (vmem eqb c vs); [apply IHk|]. destruct (negb (keep c)); [apply IHk|]. destruct (eqb c fin); [intros E; discriminate E|].
    specialize (IH c vs [c]). destruct (dfs_ eqb ch fin keep d0 c vs [c]) as [[tp v']|e']; [|intros E; injection E as <-; exact (IH e' eq_refl)]. destruct (vmem eqb fin tp); [intros E; discriminate E|apply IHk]. }
  specialize (R d st [] [st]). destruct (dfs_ eqb ch fin keep d st [] [st]) as [[pq vs]|e]; intros N; [apply fine_ok|apply fine_err]. destruct (R e eq_refl) as [H| ->]; [exact H|now elim N].
Qed.
Lemma DFS_fine (g : net (conv V)) es a b m : fine (DFS g es a b m).
Proof.
  apply dfs_fine; [apply children_fine|]. apply (dfs_no_fuel neqb neqb_eq _ _ _ (map e_node (n_edges g))).
  - intros v ks E. unfold children_of, lookup in E. destruct (find _ _) as [e|] eqn:F; [|discriminate E]. apply find_some in F as [Fi Fe]. apply neqb_eq in Fe. subst v. now apply in_map.
  - intros v E. unfold children_of in E. destruct (lookup g v); discriminate E.
  - rewrite map_length. lia.
Qed.
Lemma hybrid_tr (s0 : st V) lo bo : lim s0 = L -> p_algo (s_par s0) = u "hybrid_BFS" -> tr (lift (hybrid_outcome s0 lo bo)) (fun _ => True).
Proof.
  intros HL Ha s Is Hs. assert (E : forall e, hybrid_outcome s0 lo bo = Err e -> okx e \/ e = OutOfFuel).
  { intros e E. unfold hybrid_outcome in E. destruct (pick_runner _ _ _) as [[]|x] eqn:P.
    - destruct (h_result _ _ _) as [[]|]; [left; injection E as <-; own|discriminate E|right; now injection E].
    - destruct (serial_result _ _) as [r|]; [discriminate E|right; now injection E].
    - left. injection E as <-. unfold pick_runner in P. repeat match type of P with (if ?b then _ else _) = _ => destruct b end; try discriminate P; injection P as <-; own. }
  unfold lift. destruct (hybrid_outcome s0 lo bo) as [r|e]; [now apply out_ok|]. split; [exact Is|]. split; [exact Hs|]. split; intros x K; [discriminate K|]. injection K as <-.
  destruct (E e eq_refl) as [H| ->]; [now left|]. right. right. split; [reflexivity|]. rewrite <- HL. exact Ha.
Qed.
Lemma search_tr f t : tr (search_network f t) (fun _ => True).
Proof.
  unfold search_network. apply tr_get. intros s _ HL. cbv zeta.
  destruct (has_node (s_net s) f && has_node (s_net s) t); [|now apply tr_ret].
  eapply tr_bind; [apply (tr_lift _ (fun _ => True)); [auto|apply get_node_fine]|]. intros a _.
  eapply tr_bind; [apply (tr_lift _ (fun _ => True)); [auto|apply get_node_fine]|]. intros b _.
  destruct (seqb _ (u "BFS")); [apply tr_lift; [auto|apply BFS_fine]|].
  destruct (seqb _ (u "lean_BFS")); [eapply tr_bind; [apply touch_tr|]; intros [] _; apply tr_lift; [auto|apply lean_fine]|].
  destruct (seqb _ (u "DFS")); [eapply tr_bind; [apply touch_tr|]; intros [] _; apply tr_lift; [auto|apply DFS_fine]|].
  destruct (seqb (p_algo (s_par s)) (u "hybrid_BFS")) eqn:Ea; [apply seqb_eq in Ea; eapply tr_bind; [apply touch_tr|]; intros [] _; now apply hybrid_tr|].
  apply tr_raise. cbn; tauto.
Qed.
Lemma path_convs_ok g : (forall e, In e (n_edges g) -> Forall okc (e_convs e)) -> forall p, fine (path_convs g p) /\ forall l, path_convs g p = Ok l -> Forall okc l.
Proof.
  intros Hg. induction p as [|a p IH]; [split; [apply fine_ok|]; intros l E; injection E as <-; constructor|].
  destruct p as [|b p]; [split; [apply fine_ok|]; intros l E; injection E as <-; constructor|].
  change (path_convs g (a :: b :: p)) with (rbind (conversion g a b) (fun c => rbind (path_convs g (b :: p)) (fun l => Ok (c :: l)))).
  pose proof (conversion_fine g a b) as Hc. destruct (conversion g a b) as [c|e] eqn:K; cbn [rbind].
  - destruct IH as [I1 I2]. destruct (path_convs g (b :: p)) as [l'|e]; cbn [rbind].
    + split; [apply fine_ok|]. intros l E. injection E as <-. constructor; [exact (net_ok g a b c Hg K)|exact (I2 l' eq_refl)].
    + split; [apply fine_err; exact (I1 e eq_refl)|intros l E; discriminate E].
  - split; [apply fine_err; exact (Hc e eq_refl)|intros l E; discriminate E].
Qed.
Lemma apply_path_fine g fv : fine fv -> (forall e, In e (n_edges g) -> Forall okc (e_convs e)) -> forall p v, fine (apply_path g fv v p).
Proof.
  intros Hf Hg. induction p as [|a p IH]; intros v; [apply fine_ok|]. destruct p as [|b p]; [apply fine_ok|].
  change (apply_path g fv v (a :: b :: p)) with (rbind (conversion g a b) (fun c => rbind (ceval fv c v) (fun w => apply_path g fv w (b :: p)))).
  pose proof (conversion_fine g a b) as Hc. destruct (conversion g a b) as [c|e] eqn:K; cbn [rbind]; [|apply fine_err; exact (Hc e eq_refl)].
  apply fine_rbind; [exact (net_ok g a b c Hg K fv v Hf)|exact IH].
Qed.
Lemma from_network_tr value f t : tr (from_network value f t) okres.
Proof.
  unfold from_network. apply tr_get. intros s Is _.
  eapply tr_bind; [apply search_tr|]. intros [p|] _; [|now apply tr_ret].
  destruct (path_convs_ok (s_net s) (i_edges s Is) p) as [P1 P2].
  apply (tr_bind _ _ (Forall okc)); [now apply tr_lift|]. intros l Hl.
  eapply tr_bind; [apply remember_tr; exact (okf_convs l Hl)|]. intros [] _.
  destruct value as [v|]; [|apply tr_ret; exact (okf_convs l Hl)].
  apply (tr_bind _ _ (fun _ => True)); [apply tr_lift; [auto|exact (apply_path_fine _ _ (fv_fine s Is) (i_edges s Is) p v)]|].
  intros w _. now apply tr_ret.
Qed.
Lemma gc_tr rec value f t r uc : (forall v d1 d2 r uc, cmem c_slash f = true -> cmem c_slash d1 = false -> tr (rec v d1 d2 r uc) okres) -> tr (get_conversion_ rec value f t r uc) okres.
Proof.
  intros Hr. unfold get_conversion_. apply tr_get. intros s Is HL. cbv zeta.
  destruct (_ <? 0)%Z; [now apply tr_ret|].
  destruct (if match uc with Some b => b | None => p_cache (s_par s) end then mget (f, t) (s_mem s) else None) as [[[h p]|]|] eqn:E.
  - apply answer_tr. destruct (match uc with Some b => b | None => p_cache (s_par s) end); [|discriminate E].
    exact (i_mem s Is _ _ _ E).
  - now apply tr_ret.
  - clear E. destruct (seqb f t); [now apply answer_tr|].
    destruct (smem f _ && smem t _); [now apply answer_tr|].
    destruct (is_dimless _ f && is_percent _ t); [now apply answer_tr|].
    destruct (is_percent _ f && is_dimless _ t); [now apply answer_tr|].
    destruct (is_dimless _ f && negb _); [now apply answer_tr|].
    assert (N : tr (if is_dimless (s_dict s) f && same_ratio t then answer value FId []
                    else if is_dimless (s_dict s) t && same_ratio f then answer value FId [] else from_network value f t) okres).
    { destruct (is_dimless _ f && same_ratio t); [now apply answer_tr|]. destruct (is_dimless _ t && same_ratio f); [now apply answer_tr|].
      now apply from_network_tr. }
    destruct (split2 c_slash f) as [[t1 d1]|] eqn:Ef; [|exact N]. destruct (split2 c_slash t) as [[t2 d2]|]; [|exact N].
    apply NetFacts2.split2_spec in Ef as (Ef & _ & Hd1).
    destruct (smem t1 _ && smem t2 _).
    + destruct (tratio_get (t1, t2) (s_dict s)) as [num|]; [|apply (tr_raise KeyError okres); cbn; tauto].
      eapply tr_bind; [apply Hr|].
      * rewrite Ef. apply cmem_In. apply in_or_app. right. now left.
      * apply cmem_false. exact Hd1.
      * intros [[[dv|g] dp]|] _; [now apply answer_tr|apply tr_raise; cbn; tauto|]. now apply tr_missing.
    + destruct (is_dimless _ f && same_ratio t); [now apply answer_tr|]. destruct (is_dimless _ t && same_ratio f); [now apply answer_tr|].
      destruct (_ && _); [now apply answer_tr|]. now apply from_network_tr.
Qed.
Lemma get_conversion_tr value f t r uc : tr (get_conversion value f t r uc) okres.
Proof. apply gc_tr. intros v d1 d2 r' uc' _ Hd. apply gc_tr. intros v' d1' d2' r'' uc'' K _. congruence. Qed.
Lemma match_one_tr r uc have x xs used ts : forall i, tr (match_one r uc have x xs i ts used) (fun _ => True).
Proof.
  induction ts as [|[y ys] ts IH]; intros i; cbn [match_one]; [now apply tr_ret|].
  destruct (existsb (Nat.eqb i) used); [apply IH|]. destruct (is_op y); [apply IH|].
  eapply tr_bind; [apply get_conversion_tr|]. intros [[[k|g] p]|] _; [|apply tr_raise; cbn; tauto|apply IH].
  cbv zeta. destruct (xs || ys); [|now apply tr_ret].
  apply (tr_bind _ _ (fun _ => True)); [apply tr_lift; [auto|apply fine_div]|]. intros z _. now apply tr_ret.
Qed.
Lemma match_all_tr r uc ts : forall fs used ks ps have, tr (match_all r uc fs ts used ks ps have) (fun _ => True).
Proof.
  induction fs as [|[x xs] fs IH]; intros used ks ps have; cbn [match_all]; [now apply tr_ret|].
  destruct (is_op x); [now apply IH|].
  eapply tr_bind; [apply match_one_tr|]. intros [[[k p] i]|] Hm; [|now apply tr_ret]. apply IH.
Qed.
Lemma multi_fine seps rem x : seps_ok seps -> fine (multi_split seps rem x).
Proof. intros H. destruct (multi_split_ok seps rem x H) as [l ->]. apply fine_ok. Qed.
Lemma unit_fine x : fine (split_unit x).
Proof. apply multi_fine. intros p [<-|[<-|[]]]; discriminate. Qed.
Lemma composite_tr f t r uc : tr (composite f t r uc) (fun _ => True).
Proof.
  unfold composite. eapply tr_bind; [apply (tr_lift _ (fun _ => True)); [auto|apply unit_fine]|]. intros sf _.
  eapply tr_bind; [apply (tr_lift _ (fun _ => True)); [auto|apply unit_fine]|]. intros sto _.
  eapply tr_bind; [apply match_all_tr|]. intros [[[|k ks] p]|] H; now apply tr_ret.
Qed.
Lemma grand_fine (g : net (conv V)) ks : fine (grand_pair g ks).
Proof.
  induction ks as [|k ks IH]; cbn [grand_pair]; [apply fine_ok|]. apply fine_rbind; [apply children_fine|]. intros gks. destruct (first_pair gks); [apply fine_ok|exact IH].
Qed.
Lemma pair_child_fine (g : net (conv V)) x : fine (get_pair_child g x).
Proof.
  unfold get_pair_child. apply fine_rbind; [apply get_node_fine|]. intros n. apply fine_rbind; [apply children_fine|]. intros ks. destruct (first_pair ks); [apply fine_ok|apply grand_fine].
Qed.
Lemma fob r : okres r -> okf (fn_or_bad r).
Proof. destruct r as [[[v|f] p]|]; cbn; auto. Qed.
Lemma via_pair_tr cv f t : (forall a b, tr (cv a b) okres) -> tr (via_pair cv f t) okpair.
Proof.
  intros Hc. unfold via_pair. apply tr_get. intros s _ _.
  destruct (is_pair t && negb (is_pair f)).
  - eapply tr_bind; [apply (tr_lift _ (fun _ => True)); [auto|apply pair_child_fine]|]. intros [c|] _; [|now apply tr_ret].
    eapply tr_bind; [apply Hc|]. intros x Hx. eapply tr_bind; [apply Hc|]. intros y Hy.
    destruct x as [[[v|b] px]|]; try (now apply tr_ret). destruct y as [[[v|p] py]|]; try (now apply tr_ret). apply tr_ret. cbn in *. auto.
  - destruct (is_pair f && negb (is_pair t)); [|now apply tr_ret].
    eapply tr_bind; [apply (tr_lift _ (fun _ => True)); [auto|apply pair_child_fine]|]. intros [c|] _; [|now apply tr_ret].
    eapply tr_bind; [apply Hc|]. intros x Hx. eapply tr_bind; [apply Hc|]. intros y Hy.
    destruct x as [[[v|b] px]|]; try (now apply tr_ret). destruct y as [[[v|p] py]|]; try (now apply tr_ret). apply tr_ret. cbn in *. auto.
Qed.
Lemma guc_tr n : forall gen a b, tr (guc_loop n gen a b) (fun _ => True).
Proof.
  induction n as [|n IH]; intros gen a b; cbn [guc_loop]; [now apply tr_ret|].
  eapply tr_bind; [apply m_desc_tr|]. intros da _. eapply tr_bind; [apply m_desc_tr|]. intros db _.
  destruct (sinter da db); [apply IH|now apply tr_ret].
Qed.
Lemma total_gens_tr f t l : tr (total_gens f t l) (fun _ => True).
Proof.
  induction l as [|x l IH]; cbn [total_gens]; [now apply tr_ret|].
  eapply tr_bind; [apply guc_tr|]. intros a _. eapply tr_bind; [apply guc_tr|]. intros b _. eapply tr_bind; [apply IH|]. intros rest _. now apply tr_ret.
Qed.
Lemma ratio_loop_tr cn f t mn : (forall a b, tr (cn a b) okres) -> forall cs best short count last, okf last ->
  tr (ratio_loop cn f t mn cs best short count last) okpair.
Proof.
  intros Hc. induction cs as [|[gens child] cs IH]; intros best short count last Hl; cbn [ratio_loop]; cbv zeta.
  - apply tr_ret. destruct best; cbn [okpair]; auto.
  - destruct (match best with Some _ => glt mn gens | None => false end); [apply tr_ret; destruct best; cbn [okpair]; auto|].
    eapply tr_bind; [apply Hc|]. intros x Hx. eapply tr_bind; [apply Hc|]. intros y Hy.
    assert (Lo : okf (FComp (fn_or_bad x) (fn_or_bad y))) by (apply okf_comp; now apply fob).
    destruct x as [[cx px]|]; [|now apply IH]. destruct y as [[cy py]|]; [|now apply IH].
    destruct (if (_ <? short)%Z then _ else _) as [best' short'].
    destruct (count =? 12)%Z; [|now apply IH]. apply tr_ret. destruct best'; cbn [okpair]; auto.
Qed.
Lemma ratio_children_tr cn f t : (forall a b, tr (cn a b) okres) -> tr (ratio_children cn f t) okpair.
Proof.
  intros Hc. unfold ratio_children. apply tr_get. intros s _ _.
  eapply tr_bind; [apply m_desc_tr|]. intros ff _. eapply tr_bind; [apply m_desc_tr|]. intros ft _.
  eapply tr_bind; [apply total_gens_tr|]. intros [|[g0 c0] rest] _; [apply tr_raise; cbn; tauto|]. apply ratio_loop_tr; [exact Hc|exact okf_bad].
Qed.
Lemma keep_tr value f t h p : okf h -> tr (keep value f t h p) okres.
Proof. intros Hh. unfold keep. eapply tr_bind; [apply remember_tr; exact Hh|]. intros [] _. now apply answer_tr. Qed.
Lemma slow_tr cv cn value f t r uc : (forall a b, tr (cv a b) okres) -> (forall a b, tr (cn a b) okres) ->
  tr (slow cv cn value f t r uc) okres.
Proof.
  intros H1 H2. unfold slow.
  eapply tr_bind; [apply (tr_modify _ (fun _ => True)); [|exact I]; intros s []; split; [constructor; assumption|reflexivity]|]. intros [] _.
  eapply tr_bind; [apply composite_tr|]. intros [[k p]|] Hk; [apply keep_tr, okf_factor|].
  eapply tr_bind; [apply via_pair_tr; exact H1|]. intros [[g p]|] Hg; [now apply keep_tr|].
  apply (tr_bind _ _ okpair).
  - destruct (one_slash f && one_slash t); [now apply ratio_children_tr|now apply tr_ret].
  - intros [[g' p']|] Hg'; [now apply keep_tr|]. eapply tr_bind; [apply remember_tr; exact I|]. intros [] _. now apply tr_ret.
Qed.
(** the number of levels, as in [rec_limit] *)
Definition levels (r : option Z) : Z :=
  match r with
  | None => Z.min (snd L - 15) (snd (fst L))
  | Some r => if (1 <? r)%Z then (Z.min (snd L - 15) r - 1)%Z else if (r <=? 0)%Z then (-1)%Z else (r - 1)%Z
  end.
Lemma levels_of (s : st V) r : lim s = L -> rec_limit (s_par s) r = levels r.
Proof. intros HL. unfold levels. rewrite <- HL. reflexivity. Qed.
Lemma levels_less r : (0 <= r)%Z -> (levels (Some r) < r)%Z.
Proof. intros H. unfold levels. destruct (Z.ltb_spec 1 r); [lia|]. destruct (Z.leb_spec r 0); lia. Qed.
Lemma converter_tr n : forall value f t r0 uc, (levels r0 < Z.of_nat n)%Z -> tr (converter n value f t r0 uc) okres.
Proof.
  induction n as [|n IH]; intros value f t r0 uc Hn; cbn [converter]; apply tr_get; intros s _ HL; cbv zeta; rewrite (levels_of s r0 HL);
    (destruct (visited s f t); [now apply tr_ret|]); (destruct (Z.ltb_spec (levels r0) 0) as [Hl|Hl]; [now apply tr_ret|]).
  - lia.
  - eapply tr_bind; [now apply get_conversion_tr|]. intros [x|] Hx; [now apply tr_ret|].
    apply slow_tr; intros; apply IH; pose proof (levels_less _ Hl); lia.
Qed.
Lemma converter_top_tr value f t uc : tr (converter_top value f t uc) okres.
Proof. intros s Is HL. apply converter_tr; [|exact Is|exact HL]. unfold top_fuel. rewrite (levels_of s None HL). lia. Qed.
Lemma get_density_tr : tr get_density (fun _ => True).
Proof.
  unfold get_density. apply tr_get. intros s Is _. destruct (p_density (s_par s)) as [d|].
  - now apply tr_ret.
  - apply (tr_bind _ _ (fun _ => True)); [apply tr_lift; [auto|exact (i_askd s Is)]|]. intros d _.
    eapply tr_bind; [apply (tr_modify _ (fun _ => True)); [|exact I]|intros [] _; now apply tr_ret].
    intros s' []. split; [constructor; cbn; assumption|reflexivity].
Qed.
Lemma density_tr value f t uc : tr (density_conversion value f t uc) okres.
Proof.
  unfold density_conversion. apply tr_get. intros s _ _. cbv zeta.
  destruct (_ && _); [|now apply tr_ret]. destruct (smem f _ && smem t _).
  - eapply tr_bind; [apply get_density_tr|]. intros rho Hr. eapply tr_bind; [apply converter_top_tr|].
    intros [[[k|g] p]|] _; apply answer_tr; auto.
  - destruct (smem t _ && smem f _); [|now apply tr_ret].
    eapply tr_bind; [apply get_density_tr|]. intros rho Hr. eapply tr_bind; [apply converter_top_tr|].
    intros x _. now apply answer_tr.
Qed.
(** ** The public functions *)
Lemma convert_clean_tr value f t uc : tr (convert_clean value f t uc) (fun _ => True).
Proof.
  unfold convert_clean.
  eapply tr_bind; [apply (tr_modify _ (fun _ => True)); [|exact I]; intros s []; split; [constructor; assumption|reflexivity]|]. intros [] _.
  eapply tr_bind; [now apply density_tr|]. intros x Hx.
  apply (tr_bind _ _ okres); [destruct x; [now apply tr_ret|now apply converter_top_tr]|]. intros [[c p]|] Hy.
  - eapply tr_bind; [apply (tr_modify _ (fun _ => True)); [|exact I]; intros s []; split; [constructor; assumption|reflexivity]|]. intros [] _.
    now apply tr_ret.
  - apply tr_get. intros s _ HL. now apply tr_missing.
Qed.
Lemma rp_fine l : forall a b, fine (rp_loop l a b).
Proof.
  induction l as [|x l IH]; intros a b; cbn [rp_loop]; [apply fine_ok|]. cbv zeta.
  assert (N : fine (if seqb x s_slash then match l with [] => Err IndexError | y :: _ => if seqb y s_lpar then rp_loop l (negb a) b else rp_loop l a b end
     else if seqb x s_lpar then rp_loop l a true else if seqb x s_rpar then rp_loop l a false else rp_loop l a b)).
  { destruct (seqb x s_slash).
    - destruct l as [|y l']; [apply fine_err; own|]. destruct (seqb y s_lpar); apply IH.
    - destruct (seqb x s_lpar); [apply IH|]. destruct (seqb x s_rpar); apply IH. }
  match goal with |- fine (match ?m with _ => _ end) => destruct m as [r|e] end; [apply fine_ok|apply fine_err; exact (N e eq_refl)].
Qed.
Lemma reduce_fine x : fine (reduce_parentheses x).
Proof.
  unfold reduce_parentheses. destruct (_ && _); [apply fine_ok|]. destruct (_ <? _)%nat; [apply fine_err; own|]. destruct (_ <? _)%nat; [apply fine_err; own|]. destruct (_ || _); [apply fine_ok|].
  pose proof (multi_fine op_seps [[c_space]] x op_seps_ok) as H. destruct (multi_split _ _ _) as [l|e]; [|apply fine_err; exact (H e eq_refl)].
  pose proof (rp_fine l false false) as H1. destruct (rp_loop l false false) as [r|e]; [apply fine_ok|apply fine_err; exact (H1 e eq_refl)].
Qed.
Lemma clean_unit_fine x : fine (clean_unit x).
Proof. destruct x; try apply fine_ok; apply fine_err; own. Qed.
Lemma clean_fine b (v : vin V) f t : fine (clean_input b v f t).
Proof.
  assert (K : forall (o : option V) f t, fine (rbind (clean_unit f) (fun f => if is_empty (bare t) then Err TypeError else
      rbind (clean_unit t) (fun t => if b then rbind (reduce_parentheses f) (fun f => rbind (reduce_parentheses t) (fun t => Ok (o, f, t)))
      else Ok (o, f, t))))).
  { intros o f0 t0. apply fine_rbind; [apply clean_unit_fine|]. intros f1. destruct (is_empty _); [apply fine_err; own|]. apply fine_rbind; [apply clean_unit_fine|]. intros t1.
    destruct b; [|apply fine_ok]. apply fine_rbind; [apply reduce_fine|]. intros f2. apply fine_rbind; [apply reduce_fine|]. intros t2. apply fine_ok. }
  unfold clean_input. destruct v as [|x|x|x un|]; try apply K.
  - destruct (is_empty t); apply K.
  - apply fine_err; own.
Qed.
Lemma convert_tr value f t uc : tr (convert value f t uc) (fun _ => True).
Proof.
  unfold convert. apply tr_get. intros s _ _. apply (tr_bind _ _ (fun _ => True)); [apply tr_lift; [auto|apply clean_fine]|].
  intros [[v f'] t'] _. apply convert_clean_tr.
Qed.
Lemma convertible_tr f t uc s : inv s -> lim s = L -> out L (fun _ => True) (convertible f t uc s)
  /\ forall e, fst (convertible f t uc s) = Err e -> okx e \/ e = OutOfFuel /\ snd (fst (fst L)) = u "hybrid_BFS".
Proof.
  intros Is HL. unfold convertible. destruct (converter_top_tr (Some qone) f t uc s Is HL) as (I1 & R1 & _ & E1). destruct (converter_top (Some qone) f t uc s) as [[[x|]|e] s1]; cbn [fst snd] in *; try (split; [now apply out_ok|intros e E; discriminate E]).
  specialize (E1 e eq_refl).
  destruct (match e with NoConversionFoundError => true | _ => false end) eqn:Ee; [destruct e; try discriminate Ee; split; [now apply out_ok|intros e E; discriminate E]|].
  assert (K : okx e \/ e = OutOfFuel /\ snd (fst (fst L)) = u "hybrid_BFS") by (destruct E1 as [E1|[[-> _]|E1]]; [now left|discriminate Ee|now right]).
  replace (match e with NoConversionFoundError => (Ok false, s1) | _ => (Err e, s1) end) with (@Err bool e, s1) by (destruct e; (reflexivity || discriminate Ee)).
  split; [|intros e' E; injection E as <-; exact K]. split; [exact I1|]. split; [exact R1|]. split; intros x E; [discriminate E|]. injection E as <-. tauto.
Qed.
Lemma simpandas_tr v f t uc : tr (convert_for_SimPandas v f t uc) (fun _ => True).
Proof.
  unfold convert_for_SimPandas. eapply tr_bind; [intros s Is HL; exact (proj1 (convertible_tr f t None s Is HL))|]. intros [|] _; [|now apply tr_ret]. eapply tr_bind; [apply converter_top_tr|]. intros [[[w|g] p]|] _; now apply tr_ret.
Qed.

(** ** Histories *)
End Lim.
(** specification: the functions given by the user *)
Definition okcall (c : call V) : Prop :=
  match c with
  | KSetConversion _ _ f r => (forall x, fine (f x)) /\ match r with Some h => forall x, fine (h x) | None => True end
  | _ => True
  end.
Lemma add_node_ok g n g' : (forall e, In e (n_edges g) -> Forall okc (e_convs e)) -> add_node g n = Ok g' ->
  forall e, In e (n_edges g') -> Forall okc (e_convs e).
Proof.
  intros H E e Hi. unfold add_node in E. destruct (has_obj g n); [discriminate E|]. injection E as <-. cbn [n_edges] in Hi.
  apply in_app_iff in Hi as [Hi|[<-|[]]]; [now apply H|constructor].
Qed.
Lemma add_edge_ok g a b c g' : okc c -> (forall e, In e (n_edges g) -> Forall okc (e_convs e)) -> add_edge g a b c = Ok g' ->
  forall e, In e (n_edges g') -> Forall okc (e_convs e).
Proof.
  intros Hc H E e Hi. unfold add_edge in E. destruct (negb _); [discriminate E|]. injection E as <-. cbn [n_edges] in Hi.
  apply in_map_iff in Hi as (e0 & <- & Hi). destruct (neqb a (e_node e0)); [|now apply H]. destruct (nmem b (e_kids e0)); [now apply H|].
  cbn [e_convs]. apply Forall_app. split; [now apply H|]. constructor; [exact Hc|constructor].
Qed.
Lemma inv_net s g : inv s -> (forall e, In e (n_edges g) -> Forall okc (e_convs e)) -> inv (set_net s g).
Proof. intros [] H. constructor; assumption. Qed.
Lemma okc_user f : (forall x, fine (f x)) -> okc (CUser f).
Proof. intros H fv x _. apply H. Qed.
Lemma okc_rev c : okc c -> okc (CRev c).
Proof. intros H fv x Hf. cbn [ceval]. apply fine_rbind; [now apply H|]. intros k. apply fine_div. Qed.
Lemma do_call_inv c s : okcall c -> inv s -> inv (do_call c s).
Proof.
  intros Hc Is. destruct c as [value f t uc|f t uc|v f t uc|a|a b f r|v| |p|l]; cbn [do_call okcall] in *.
  - exact (proj1 (convert_tr (lim s) value f t uc s Is eq_refl)).
  - exact (proj1 (proj1 (convertible_tr (lim s) f t uc s Is eq_refl))).
  - exact (proj1 (simpandas_tr (lim s) v f t uc s Is eq_refl)).
  - unfold api_set_unit. rewrite bind_get. unfold bind, lift. destruct (set_unit (s_net s) a) as [g|e] eqn:E; [|exact Is].
    cbn [modify snd]. apply inv_net; [exact Is|]. exact (add_node_ok _ _ _ (i_edges s Is) E).
  - unfold set_conversion_api. rewrite bind_get. unfold bind, lift.
    destruct (api_set_conversion (s_net s) a b f r) as [g|e] eqn:E; [|exact Is].
    cbn [modify snd]. apply inv_net; [exact Is|]. unfold api_set_conversion, set_conversion in E.
    assert (K : okc (CUser f) /\ okc (match r with Some h => CUser h | None => CRev (CUser f) end)).
    { destruct Hc as [H1 H2]. split; [now apply okc_user|]. destruct r; [now apply okc_user|now apply okc_rev, okc_user]. }
    destruct (add_new (s_net s) a) as [g1|] eqn:E1; [|discriminate E]. cbn [rbind] in E.
    destruct (add_new g1 b) as [g2|] eqn:E2; [|discriminate E]. cbn [rbind] in E.
    destruct (get_node g2 a) as [na|]; [|discriminate E]. cbn [rbind] in E. destruct (get_node g2 b) as [nb|]; [|discriminate E]. cbn [rbind] in E.
    destruct (add_edge g2 na nb (CUser f)) as [g3|] eqn:E3; [|discriminate E]. cbn [rbind] in E.
    exact (add_edge_ok _ _ _ _ _ (proj2 K) (add_edge_ok _ _ _ _ _ (proj1 K) (add_node_ok _ _ _ (add_node_ok _ _ _ (i_edges s Is) E1) E2) E3) E).
  - destruct Is. constructor; assumption.
  - destruct Is. constructor; try assumption. cbn. intros k h p K. discriminate K.
  - destruct Is. constructor; assumption.
  - destruct Is. constructor; assumption.
Qed.
Lemma do_calls_inv cs : forall s, Forall okcall cs -> inv s -> inv (do_calls cs s).
Proof.
  unfold do_calls. induction cs as [|c cs IH]; intros s Hc Is; cbn [fold_left]; [exact Is|]. inversion Hc; subst. apply IH; [assumption|].
  now apply do_call_inv.
Qed.
End Exc.
