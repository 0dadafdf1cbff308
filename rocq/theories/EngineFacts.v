(** * Facts about the engine that hold for any arithmetic *)
From Coq Require Import String QArith.
From Verif Require Import Py StrTools Network SearchSpec NetworkFacts Search SearchFacts SearchFacts2 DescFacts
  Hybrid HybridFacts Conv NetFacts2 Converter EngineSpec.
Local Open Scope N_scope.

Section E.
Context {V : Type} {A : Arith V}.
Local Open Scope m_scope.
Implicit Types s : st V.
Implicit Types g : net (conv V).

(** ** Invariant relations of computations *)
Definition holds {X} (R : st V -> st V -> Prop) (m : M V X) : Prop := forall s, R s (snd (m s)).
Section Rules.
Context (R : st V -> st V -> Prop) (Rrefl : forall s, R s s) (Rtrans : forall a b c, R a b -> R b c -> R a c).
Lemma h_ret {X} (x : X) : holds R (ret x).
Proof. intros s. apply Rrefl. Qed.
Lemma h_raise {X} e : holds R (@raise V X e).
Proof. intros s. apply Rrefl. Qed.
Lemma h_lift {X} (r : res X) : holds R (lift r).
Proof. intros s. apply Rrefl. Qed.
Lemma h_get : holds R get.
Proof. intros s. apply Rrefl. Qed.
Lemma h_modify h : (forall s, R s (h s)) -> holds R (modify h).
Proof. intros H s. apply H. Qed.
Lemma h_bind {X Y} (m : M V X) (k : X -> M V Y) :
  holds R m -> (forall x, holds R (k x)) -> holds R (bind m k).
Proof.
  intros Hm Hk s. unfold bind. specialize (Hm s). destruct (m s) as [[x|e] s']; cbn [snd] in *; [|exact Hm].
  eapply Rtrans; [exact Hm|apply Hk].
Qed.
Lemma h_get_bind {Y} (k : st V -> M V Y) : (forall s, R s (snd (k s s))) -> holds R (bind get k).
Proof. intros H s. apply H. Qed.
End Rules.

Lemma bind_ok {X Y} (m : M V X) (k : X -> M V Y) s x s' : m s = (Ok x, s') -> bind m k s = k x s'.
Proof. unfold bind. now intros ->. Qed.
Lemma bind_err {X Y} (m : M V X) (k : X -> M V Y) s e s' : m s = (Err e, s') -> bind m k s = (Err e, s').
Proof. unfold bind. now intros ->. Qed.
Lemma bind_inv {X Y} (m : M V X) (k : X -> M V Y) s y s' : bind m k s = (Ok y, s') ->
  exists x s1, m s = (Ok x, s1) /\ k x s1 = (Ok y, s').
Proof. unfold bind. destruct (m s) as [[x|e] s1]; [eauto|discriminate]. Qed.

Lemma bind_get {Y} (k : st V -> M V Y) s : bind get k s = k s s. Proof. reflexivity. Qed.
(** ** The frame: what a search or a conversion leaves alone *)
Definition core s := (s_net s, s_fvf s, s_ask_fvf s, s_ask_density s, s_par s, s_dict s, s_sched s, s_last s, current_es s).
Definition same_core s s' : Prop := core s' = core s.
Lemma same_core_refl s : same_core s s. Proof. reflexivity. Qed.
Lemma same_core_trans a b c : same_core a b -> same_core b c -> same_core a c.
Proof. unfold same_core. congruence. Qed.

Lemma core_fields s s' : same_core s s' ->
  s_net s' = s_net s /\ s_fvf s' = s_fvf s /\ s_ask_fvf s' = s_ask_fvf s /\ s_ask_density s' = s_ask_density s
  /\ s_par s' = s_par s /\ s_dict s' = s_dict s /\ s_sched s' = s_sched s /\ s_last s' = s_last s
  /\ current_es s' = current_es s.
Proof. unfold same_core, core. intros E. injection E as -> -> -> -> -> -> -> -> ->. intuition. Qed.

Lemma touch_core b : holds same_core (touch_es (V:=V) b).
Proof. intros s. unfold touch_es, modify, same_core, core. cbn [snd]. destruct b; reflexivity. Qed.
(** nothing but the string view changes *)
Definition only_es s s' : Prop := same_core s s' /\ s_mem s' = s_mem s /\ s_prev s' = s_prev s.
Lemma only_es_refl s : only_es s s. Proof. repeat split. Qed.
Lemma only_es_trans a b c : only_es a b -> only_es b c -> only_es a c.
Proof. intros (H1 & H2 & H3) (K1 & K2 & K3). split; [eapply same_core_trans; eauto|]. split; congruence. Qed.
Lemma touch_only b : holds only_es (touch_es (V:=V) b).
Proof. intros s. split; [apply touch_core|]. unfold touch_es, modify. cbn [snd]. destruct b; split; reflexivity. Qed.
Ltac hb := first [apply only_es_refl | apply only_es_trans | apply same_core_refl | apply same_core_trans].
Lemma m_desc_only x gen c : holds only_es (m_desc (V:=V) x gen c).
Proof.
  unfold m_desc. apply h_bind; try hb. { apply h_get; hb. } intros s. apply h_bind; try hb; [apply touch_only|].
  intros _. apply h_ret; hb.
Qed.
Lemma m_desc_val x gen c s : fst (m_desc (V:=V) x gen c s) = Ok (get_descendants (has_node (s_net s)) (current_es s) x gen c).
Proof. reflexivity. Qed.

(** ** The search *)
Definition search_value s (f t : str) : res (option (list node)) :=
  fst (search_network (V:=V) f t s).
Lemma search_only f t : holds only_es (search_network (V:=V) f t).
Proof.
  unfold search_network. apply h_bind; try hb. { apply h_get; hb. } intros s.
  destruct (_ && _); [|apply h_ret; hb].
  apply h_bind; try hb. { apply h_lift; hb. } intros a.
  apply h_bind; try hb. { apply h_lift; hb. } intros b.
  repeat match goal with |- holds _ (if ?c then _ else _) => destruct c end;
  try (apply h_bind; [hb|apply touch_only|intros _; apply h_lift; hb]); try (apply h_lift; hb).
Qed.
(** the search depends only on the core *)
Lemma search_core f t s s' : same_core s s' -> search_value s' f t = search_value s f t.
Proof.
  intros H. apply core_fields in H as (H1 & _ & _ & _ & H5 & _ & H7 & _ & H9).
  unfold search_value, search_network, bind, get, lift, ret, raise, touch_es, modify. rewrite H1, H5, H9.
  destruct (_ && _); [|reflexivity].
  destruct (get_node (s_net s) f) as [a|]; [|reflexivity]. destruct (get_node (s_net s) t) as [b|]; [|reflexivity].
  repeat match goal with |- context [if seqb ?a ?b then _ else _] => destruct (seqb a b) end; try reflexivity.
  cbn [fst]. unfold hybrid_outcome. now rewrite H5, H7.
Qed.

(** a path found by any algorithm is a real path between the nodes the two names denote *)
Lemma search_real f t s p : NoDup (nodes (s_net s)) -> search_value s f t = Ok (Some p) ->
  exists a b, get_node (s_net s) f = Ok a /\ get_node (s_net s) t = Ok b /\ simple_path (registered (s_net s)) a p b.
Proof.
  intros ND. unfold search_value, search_network, bind, get, lift, ret, raise, touch_es, modify.
  destruct (_ && _); [|discriminate].
  destruct (get_node (s_net s) f) as [a|]; [|discriminate]. destruct (get_node (s_net s) t) as [b|]; [|discriminate].
  intros H. exists a, b. split; [reflexivity|]. split; [reflexivity|]. revert H.
  repeat match goal with |- context [if seqb ?a ?b then _ else _] => destruct (seqb a b) end; cbn [fst].
  - intros H. now apply BFS_sound.
  - intros H. now apply lean_sound in H.
  - intros H. now apply DFS_sound in H.
  - unfold hybrid_outcome. destruct (pick_runner _ _ _) as [[|]|]; [| |discriminate].
    + destruct (h_result _ _ _) as [c|] eqn:E; [|discriminate]. apply hybrid_real in E; [|exact ND].
      destruct E as [(q & -> & Hq & _)|(-> & _)]; [|discriminate]. now intros [= <-].
    + pose proof (serial_spec (lean_BFS (s_net s) (current_es s) a b (p_max_gen (s_par s))) (BFS (s_net s) a b)) as S.
      destruct (serial_result _ _) as [r|]; [|discriminate]. intros [= ->].
      destruct S as [S|S]; [now apply lean_sound in S|now apply BFS_sound].
  - discriminate.
Qed.

(** ** Simple names *)
Lemma simple_pair x : simple x <-> is_pair x = false.
Proof.
  unfold simple, is_pair. rewrite orb_false_iff. unfold cmem.
  assert (H : forall c, existsb (N.eqb c) x = false <-> ~ In c x).
  { intros c. rewrite <- not_true_iff_false, existsb_exists. split; intros H K; apply H.
    - exists c. now rewrite N.eqb_refl.
    - destruct K as (y & Hy & E). apply N.eqb_eq in E. now subst. }
  now rewrite !H.
Qed.
Lemma simple_split2 x : simple x -> split2 c_slash x = None.
Proof.
  intros [H _]. unfold split2.
  assert (E : csplit c_slash x = [x]).
  { induction x as [|y x IH]; [reflexivity|]. cbn [csplit]. destruct (N.eqb_spec y c_slash) as [->|_]; [exfalso; apply H; now left|].
    rewrite IH; [reflexivity|]. intros K. apply H. now right. }
  now rewrite E.
Qed.
Lemma simple_cmem x : simple x -> cmem c_slash x = false.
Proof. intros H. apply simple_pair in H. unfold is_pair in H. now apply orb_false_iff in H. Qed.
Lemma simple_one_slash x : simple x -> one_slash x = false.
Proof. intros H. unfold one_slash. now rewrite simple_split2. Qed.
Lemma simple_dec x : {simple x} + {~ simple x}.
Proof. destruct (is_pair x) eqn:E; [right|left]; rewrite simple_pair, E; [discriminate|reflexivity]. Qed.

(** ** The memory *)
Lemma keqb_eq a b : keqb a b = true <-> a = b.
Proof.
  unfold keqb. rewrite andb_true_iff, !seqb_eq. destruct a, b; cbn. split; [intros [-> ->]; reflexivity|now intros [= -> ->]].
Qed.
Lemma keqb_refl a : keqb a a = true. Proof. now apply keqb_eq. Qed.
Lemma mget_mset k v k' (m : memo V) : mget k' (mset k v m) = if keqb k' k then Some v else mget k' m.
Proof.
  induction m as [|[k0 v0] m IH]; cbn [mset mget]; [reflexivity|].
  destruct (keqb k k0) eqn:E; cbn [mget].
  - apply keqb_eq in E. subst k0. now destruct (keqb k' k).
  - rewrite IH. destruct (keqb k' k0) eqn:E2, (keqb k' k) eqn:E3; try reflexivity.
    apply keqb_eq in E2. apply keqb_eq in E3. subst. now rewrite keqb_refl in E.
Qed.

(** ** Paths and functions *)
Lemma path_convs_along g p l : p <> [] -> path_convs g p = Ok l <-> convs_along g p l.
Proof.
  intros Hp. revert l. induction p as [|a p IH]; intros l; [easy|]. destruct p as [|b p].
  - cbn. split; [now intros [= <-]|]. now destruct l.
  - change (path_convs g (a :: b :: p)) with (rbind (conversion g a b) (fun c => rbind (path_convs g (b :: p)) (fun l => Ok (c :: l)))).
    specialize (IH ltac:(discriminate)).
    destruct l as [|c l].
    + split; [|easy]. destruct (conversion g a b); cbn [rbind]; [|easy]. now destruct (path_convs g (b :: p)).
    + change (convs_along g (a :: b :: p) (c :: l)) with (conversion g a b = Ok c /\ convs_along g (b :: p) l).
      rewrite <- IH. destruct (conversion g a b) as [c'|]; cbn [rbind]; [|split; [easy|now intros [? _]]].
      destruct (path_convs g (b :: p)) as [l'|]; cbn [rbind]; [|split; [easy|now intros [_ ?]]].
      split; [intros [= -> ->]; auto|intros [[= ->] [= ->]]; reflexivity].
Qed.
Lemma apply_path_convs g fv p : forall v, match path_convs g p with
  | Ok l => apply_path g fv v p = run_convs fv l v | Err _ => True end.
Proof.
  induction p as [|a p IH]; intros v; [reflexivity|]. destruct p as [|b p]; [reflexivity|].
  change (path_convs g (a :: b :: p)) with (rbind (conversion g a b) (fun c => rbind (path_convs g (b :: p)) (fun l => Ok (c :: l)))).
  change (apply_path g fv v (a :: b :: p)) with (rbind (conversion g a b) (fun c => rbind (ceval fv c v) (fun w => apply_path g fv w (b :: p)))).
  destruct (conversion g a b) as [c|]; cbn [rbind]; [|exact I].
  destruct (path_convs g (b :: p)) as [l|]; cbn [rbind]; [|exact I]. cbn [run_convs].
  destruct (ceval fv c v); cbn [rbind]; [apply IH|reflexivity].
Qed.

(** ** The value only decides whether the function found is applied *)
Definition applied (v : V) (x : res (result V) * st V) : res (result V) * st V :=
  let '(r, s') := x in
  (match r with
   | Ok (Some (CFn h, p)) => match feval (fv_of s') h v with Ok w => Ok (Some (CVal w, p)) | Err e => Err e end
   | r => r
   end, s').
Lemma applied_snd v x : snd (applied v x) = snd x.
Proof. now destruct x. Qed.
Lemma answer_erase v h p s : answer (Some v) h p s = applied v (answer None h p s).
Proof. unfold answer, bind, app, ret, applied. destruct (feval (fv_of s) h v); reflexivity. Qed.
Lemma fv_core s s' : same_core s s' -> fv_of s' = fv_of s.
Proof. intros H. apply core_fields in H as (_ & H2 & H3 & _). unfold fv_of. now rewrite H2, H3. Qed.

Lemma from_network_erase v f t s : from_network (Some v) f t s = applied v (from_network None f t s).
Proof.
  unfold from_network, bind, get. pose proof (search_only f t s) as [Hc _].
  destruct (search_network f t s) as [[[p|]|e] s1]; cbn [snd] in Hc; [|reflexivity|reflexivity].
  unfold lift. pose proof (apply_path_convs (s_net s) (fv_of s) p v) as Hp.
  destruct (path_convs (s_net s) p) as [l|]; [|reflexivity].
  unfold remember, modify, ret, applied. cbn [feval].
  assert (E : fv_of (set_mem s1 (mset (f, t) (Some (FConvs l, map PN p)) (s_mem s1))) = fv_of s).
  { rewrite <- (fv_core _ _ Hc). reflexivity. }
  rewrite E, Hp. destruct (run_convs (fv_of s) l v); reflexivity.
Qed.

Lemma get_conversion__erase rec v f t r uc s :
  get_conversion_ rec (Some v) f t r uc s = applied v (get_conversion_ rec None f t r uc s).
Proof.
  unfold get_conversion_. rewrite !bind_get.
  destruct (_ <? 0)%Z; [reflexivity|].
  destruct (if match uc with Some b => b | None => _ end then _ else _) as [[[g p]|]|]; [apply answer_erase|reflexivity|].
  repeat match goal with
  | |- (if ?c then _ else _) s = _ => destruct c; [apply answer_erase|]
  end.
  destruct (split2 c_slash f) as [[t1 d1]|]; [destruct (split2 c_slash t) as [[t2 d2]|]|].
  - destruct (_ && _).
    + destruct (tratio_get _ _) as [num|]; [|reflexivity]. unfold bind.
      destruct (rec (Some qone) d1 d2 _ _ s) as [[[[[dv|h] dp]|]|e] s']; [apply answer_erase|reflexivity| |reflexivity].
      now destruct (p_raise (s_par s)).
    + repeat match goal with |- (if ?c then _ else _) s = _ => destruct c; [apply answer_erase|] end.
      apply from_network_erase.
  - repeat match goal with |- (if ?c then _ else _) s = _ => destruct c; [apply answer_erase|] end.
    apply from_network_erase.
  - repeat match goal with |- (if ?c then _ else _) s = _ => destruct c; [apply answer_erase|] end.
    apply from_network_erase.
Qed.
Lemma get_conversion_erase v f t r uc s :
  get_conversion (Some v) f t r uc s = applied v (get_conversion None f t r uc s).
Proof. apply get_conversion__erase. Qed.
Lemma keep_erase v f t h p s : keep (Some v) f t h p s = applied v (keep None f t h p s).
Proof. unfold keep, bind, remember, modify. apply answer_erase. Qed.

Lemma bind_erase {X} v (m : M V X) (k1 k2 : X -> M V (result V)) s :
  (forall x s, k1 x s = applied v (k2 x s)) -> bind m k1 s = applied v (bind m k2 s).
Proof. intros H. unfold bind. destruct (m s) as [[x|e] s']; [apply H|reflexivity]. Qed.

Lemma slow_erase cv cn v f t r uc s : slow cv cn (Some v) f t r uc s = applied v (slow cv cn None f t r uc s).
Proof.
  unfold slow. apply bind_erase. intros _ s2. apply bind_erase. intros [[k p]|] s3; [apply keep_erase|].
  apply bind_erase. intros [[k p]|] s4; [apply keep_erase|].
  apply bind_erase. intros [[k p]|] s5; [apply keep_erase|]. reflexivity.
Qed.
Lemma converter_S n value f t r0 uc s : converter (S n) value f t r0 uc s =
  if visited s f t then (Ok None, s) else
  if (rec_limit (s_par s) r0 <? 0)%Z then (Ok None, s) else
  bind (get_conversion value f t (Some (rec_limit (s_par s) r0)) uc)
    (fun x => match x with
      | Some _ => ret x
      | None => slow (fun a b => converter n None a b (Some (rec_limit (s_par s) r0)) uc)
                     (fun a b => converter n None a b (Some (rec_limit (s_par s) r0)) None)
                     value f t (rec_limit (s_par s) r0) uc
      end) s.
Proof. cbn [converter]. rewrite bind_get. destruct (visited s f t); [reflexivity|]. now destruct (_ <? 0)%Z. Qed.
Lemma converter_erase n v f t r uc s :
  converter n (Some v) f t r uc s = applied v (converter n None f t r uc s).
Proof.
  destruct n as [|n].
  - cbn [converter]. rewrite !bind_get. destruct (visited s f t); [reflexivity|]. now destruct (_ <? 0)%Z.
  - rewrite !converter_S. destruct (visited s f t); [reflexivity|]. destruct (_ <? 0)%Z; [reflexivity|].
    unfold bind. rewrite get_conversion_erase.
    destruct (get_conversion None f t _ uc s) as [[[[[w|h] p]|]|e] s']; cbn [applied].
    + reflexivity.
    + unfold ret. cbn [applied]. destruct (feval (fv_of s') h v); reflexivity.
    + apply slow_erase.
    + reflexivity.
Qed.
Lemma converter_top_erase v f t uc s :
  converter_top (Some v) f t uc s = applied v (converter_top None f t uc s).
Proof. apply converter_erase. Qed.
Lemma density_erase v f t uc s :
  density_conversion (Some v) f t uc s = applied v (density_conversion None f t uc s).
Proof.
  unfold density_conversion. apply bind_erase. clear s. intros s0 s.
  destruct (_ && _); [|reflexivity]. destruct (_ && _); [|destruct (_ && _); [|reflexivity]].
  - apply bind_erase. clear s. intros rho s. apply bind_erase. clear s. intros [[[k|h] p]|] s; apply answer_erase.
  - apply bind_erase. clear s. intros rho s. apply bind_erase. clear s. intros x s; apply answer_erase.
Qed.

(** the public functions *)
Definition finish_conv (y : result V) : M V (option (cval V)) :=
  match y with
  | Some (c, p) => modify (fun s => set_last s p) ;;; ret (Some c)
  | None => s <- get ;; if p_raise (s_par s) then raise NoConversionFoundError else ret None
  end.
Definition convert_step value f t uc : M V (result V) :=
  x <- density_conversion value f t uc ;;
  match x with Some _ => ret x | None => converter_top value f t uc end.
Lemma convert_clean_eq value f t uc s :
  convert_clean value f t uc s = bind (convert_step value f t uc) finish_conv (set_prev s []).
Proof.
  unfold convert_clean, convert_step, bind, modify.
  destruct (density_conversion value f t uc (set_prev s [])) as [[[x|]|e] s']; reflexivity.
Qed.
Lemma convert_step_erase v f t uc s : convert_step (Some v) f t uc s = applied v (convert_step None f t uc s).
Proof.
  unfold convert_step, bind. rewrite density_erase.
  destruct (density_conversion None f t uc s) as [[[[[w|h] p]|]|e] s']; cbn [applied]; try reflexivity.
  - unfold ret. cbn [applied]. now destruct (feval _ _ _).
  - apply converter_top_erase.
Qed.
Lemma convert_clean_erase v f t uc s :
  match convert_clean None f t uc s with
  | (Ok (Some (CFn h)), s') =>
      match feval (fv_of s') h v with
      | Ok w => convert_clean (Some v) f t uc s = (Ok (Some (CVal w)), s')
      | Err e => fst (convert_clean (Some v) f t uc s) = Err e
      end
  | (Ok (Some (CVal _)), _) => True
  | (Ok None, s') => convert_clean (Some v) f t uc s = (Ok None, s')
  | (Err e, s') => convert_clean (Some v) f t uc s = (Err e, s')
  end.
Proof.
  rewrite !convert_clean_eq. unfold bind. rewrite !convert_step_erase.
  destruct (convert_step None f t uc (set_prev s [])) as [[[[[w|h] p]|]|e] s']; cbn [applied].
  - reflexivity.
  - cbn. change (fv_of (set_last s' p)) with (fv_of s'). destruct (feval (fv_of s') h v); reflexivity.
  - cbn [finish_conv]. rewrite !bind_get. destruct (p_raise (s_par s')); reflexivity.
  - reflexivity.
Qed.
End E.
