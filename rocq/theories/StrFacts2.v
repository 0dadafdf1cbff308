(** * reduce_parentheses and reduce_units *)
From Coq Require Import String Permutation.
From Verif Require Import Py StrTools StrSpec StrFacts.
Local Open Scope N_scope.

(** ** Names *)
Definition opS : list str := sort_sep (sdedup op_seps).
Definition keep (p : str) : bool := negb (smem p ([[c_space]] ++ [[]])).

Lemma name_char_ne c : name_char c = true ->
  c <> 40 /\ c <> 41 /\ c <> 42 /\ c <> 43 /\ c <> 45 /\ c <> 47 /\ c <> 94.
Proof.
  unfold name_char. cbn. rewrite negb_true_iff, !orb_false_iff, !N.eqb_neq. tauto.
Qed.
Lemma is_name_chars n : is_name n = true -> forall c, In c n -> name_char c = true.
Proof.
  unfold is_name. destruct n as [|a n]; [discriminate|]. rewrite andb_true_iff, forallb_forall. tauto.
Qed.
Lemma is_name_nonnil n : is_name n = true -> n <> [].
Proof. destruct n; [discriminate|congruence]. Qed.
Lemma is_name_keep n : is_name n = true -> keep n = true.
Proof.
  unfold is_name, keep. destruct n as [|a n]; [discriminate|]. rewrite andb_true_iff. intros [_ H].
  cbn [app smem existsb]. unfold c_space. apply negb_true_iff in H. rewrite H. reflexivity.
Qed.

Lemma find_name c s : name_char c = true -> find_sep opS (c :: s) = None.
Proof.
  intros H. apply name_char_ne in H.
  apply find_sep_None. intros q Hq [t Ht].
  unfold opS in Hq. rewrite sort_sep_In, sdedup_In in Hq.
  cbn in Hq. unfold c_plus, c_minus, c_star, c_slash, c_hat, c_lpar, c_rpar in Hq.
  intuition subst; cbn in Ht; congruence.
Qed.

Lemma opS_eq : exists a, opS = [c_star; c_star] :: a /\
  (forall q, In q a <-> In q [[c_plus]; [c_minus]; [c_star]; [c_slash]; [c_hat]; [c_lpar]; [c_rpar]]).
Proof.
  assert (opS = [[42; 42]; [43]; [45]; [42]; [47]; [94]; [40]; [41]]) as -> by reflexivity.
  exists [[43]; [45]; [42]; [47]; [94]; [40]; [41]].
  split; [reflexivity|]. intros q; cbn; tauto.
Qed.

Definition opc (c : N) : Prop := c = c_slash \/ c = c_lpar \/ c = c_rpar.
Lemma find_opc c s : opc c -> find_sep opS (c :: s) = Some [c].
Proof.
  assert (opS = [[42; 42]; [43]; [45]; [42]; [47]; [94]; [40]; [41]]) as -> by reflexivity.
  intros [->|[->| ->]]; reflexivity.
Qed.
Lemma find_star s : match s with 42 :: _ => False | _ => True end ->
  find_sep opS (c_star :: s) = Some [c_star].
Proof.
  assert (opS = [[42; 42]; [43]; [45]; [42]; [47]; [94]; [40]; [41]]) as -> by reflexivity.
  destruct s as [|d s]; [reflexivity|]. intros H.
  assert (42 =? d = false) as E by (apply N.eqb_neq; intros <-; exact H).
  cbn [find_sep sprefix]. unfold c_star. rewrite E. reflexivity.
Qed.

(** [scf cur s l]: scanning [s] with pending text [rev cur] yields, after the
    removal of blanks, [l]. *)
Definition scf (cur s : str) (l : list str) : Prop :=
  forall fuel, (length s <= fuel)%nat ->
  exists l0, scan fuel opS cur s = Ok l0 /\ filter keep l0 = l.

Lemma scf_nil : scf [] [] [].
Proof. intros [|f] _; exists [[]]; split; reflexivity. Qed.
Lemma scf_end n : is_name n = true -> scf (rev n) [] [n].
Proof.
  intros H fuel _. exists [n]; split.
  - destruct fuel; cbn; rewrite rev_involutive; reflexivity.
  - cbn [filter]. rewrite is_name_keep by exact H. reflexivity.
Qed.
Lemma scf_op_gen cur o t l : find_sep opS (o :: t) = Some [o] -> keep [o] = true ->
  scf [] t l -> scf cur (o :: t) (filter keep [rev cur] ++ [o] :: l).
Proof.
  intros Hf Hk H [|fuel] Hl; [cbn in Hl; lia|].
  cbn [scan]. rewrite Hf. cbn [length skipn].
  destruct (H fuel) as [l0 [E F]]; [cbn in Hl; lia|].
  rewrite E. eexists; split; [reflexivity|].
  cbn [filter]. rewrite Hk, F. destruct (keep (rev cur)); reflexivity.
Qed.
Lemma scf_op_nil o t l : find_sep opS (o :: t) = Some [o] -> keep [o] = true ->
  scf [] t l -> scf [] (o :: t) ([o] :: l).
Proof. intros Hf Hk H. exact (scf_op_gen [] o t l Hf Hk H). Qed.
Lemma scf_op_name n o t l : find_sep opS (o :: t) = Some [o] -> keep [o] = true ->
  is_name n = true -> scf [] t l -> scf (rev n) (o :: t) (n :: [o] :: l).
Proof.
  intros Hf Hk Hn H. pose proof (scf_op_gen (rev n) o t l Hf Hk H) as G.
  rewrite rev_involutive in G. cbn [filter] in G. rewrite is_name_keep in G by exact Hn. exact G.
Qed.
Lemma scf_chars n : forall cur t l, (forall c, In c n -> name_char c = true) ->
  scf (rev n ++ cur) t l -> scf cur (n ++ t) l.
Proof.
  induction n as [|c n IH]; intros cur t l Hn H; [exact H|].
  cbn [rev] in H. rewrite <- app_assoc in H. cbn [app] in H.
  specialize (IH (c :: cur) t l). intros [|fuel] Hl; [cbn in Hl; lia|].
  cbn [app scan]. rewrite find_name by (apply Hn; cbn; auto).
  apply IH; [intros; apply Hn; cbn; auto|exact H|cbn in Hl; lia].
Qed.
Lemma scf_name n t l : is_name n = true -> scf (rev n) t l -> scf [] (n ++ t) l.
Proof.
  intros Hn H. apply scf_chars; [apply is_name_chars, Hn|]. rewrite app_nil_r. exact H.
Qed.

(** First character of what follows an operator. *)
Definition starts_ok (s : str) : Prop := match s with 42 :: _ => False | _ => True end.
Lemma name_starts n t : is_name n = true -> starts_ok (n ++ t).
Proof.
  intros H. destruct n as [|c n]; [discriminate|]. cbn.
  pose proof (name_char_ne c (is_name_chars _ H c (or_introl eq_refl))) as Hc.
  destruct c as [|c]; [exact I|].
  repeat (destruct c as [c|c|]; try exact I). lia.
Qed.
Lemma find_op b s : starts_ok s -> find_sep opS (op_char b :: s) = Some [op_char b].
Proof.
  intros H. destruct b; cbn [op_char].
  - apply find_star. exact H.
  - apply find_opc. left; reflexivity.
Qed.
Lemma keep_op b : keep [op_char b] = true.
Proof. destruct b; reflexivity. Qed.

(** ** Tokens of written expressions *)
Fixpoint ftoks (l : list factor) : list str :=
  match l with [] => [] | (b, x) :: t => [op_char b] :: x :: ftoks t end.
Definition itoks (i : item) : list str :=
  match i with IName n => [n] | IGroup n r => s_lpar :: n :: ftoks r ++ [s_rpar] end.
Fixpoint gtoks (e : gexp) : list str :=
  match e with [] => [] | (b, i) :: t => [op_char b] :: itoks i ++ gtoks t end.

Definition after_name (s : str) (l : list str) : Prop :=
  forall n, is_name n = true -> scf (rev n) s (n :: l).

Lemma ftoks_scan r : forallb (fun f => is_name (snd f)) r = true ->
  forall s l, after_name s l -> after_name (write_tail r ++ s) (ftoks r ++ l).
Proof.
  induction r as [|[b x] r IH]; intros Hr s l H; [exact H|].
  cbn in Hr. apply andb_true_iff in Hr as [Hx Hr].
  intros n Hn. cbn [write_tail ftoks app]. rewrite <- app_assoc.
  apply scf_op_name; auto using keep_op.
  - apply find_op, name_starts, Hx.
  - apply scf_name; [exact Hx|]. apply IH; auto.
Qed.

Lemma item_starts i t : item_ok i = true -> starts_ok (write_item i ++ t).
Proof.
  destruct i as [n|n r]; cbn [item_ok]; intros H.
  - apply name_starts, H.
  - exact I.
Qed.

Lemma item_scan i : item_ok i = true -> forall s l, after_name s l -> scf [] s l ->
  scf [] (write_item i ++ s) (itoks i ++ l).
Proof.
  destruct i as [n|n r]; cbn [item_ok]; intros H s l H1 H2.
  - cbn [write_item itoks app]. apply scf_name; auto.
  - apply andb_true_iff in H as [Hn Hr]. cbn [write_item itoks write app].
    rewrite <- !app_assoc. cbn [app].
    apply scf_op_nil; [apply find_opc; right; left; reflexivity|reflexivity|].
    apply scf_name; [exact Hn|].
    apply (ftoks_scan r Hr (41 :: s) (s_rpar :: l)); [|exact Hn].
    intros m Hm. apply scf_op_name; auto.
Qed.

Lemma gtoks_scan e : forallb (fun bi => item_ok (snd bi)) e = true ->
  after_name (gwrite_tail e) (gtoks e) /\ scf [] (gwrite_tail e) (gtoks e).
Proof.
  induction e as [|[b i] e IH]; intros He.
  - split; [intros n Hn; apply scf_end, Hn|apply scf_nil].
  - cbn in He. apply andb_true_iff in He as [Hi He]. destruct (IH He) as [H1 H2].
    cbn [gwrite_tail gtoks].
    split.
    + intros n Hn. apply scf_op_name; auto using keep_op.
      * apply find_op, item_starts, Hi.
      * apply item_scan; auto.
    + apply scf_op_nil; auto using keep_op.
      * apply find_op, item_starts, Hi.
      * apply item_scan; auto.
Qed.

Lemma multi_split_scf s l : scf [] s l -> multi_split op_seps [[c_space]] s = Ok l.
Proof.
  intros H. destruct (H (length s)) as [l0 [E F]]; [lia|].
  unfold multi_split, multi_split_enum. unfold opS in E. rewrite E. f_equal. exact F.
Qed.

Lemma gwrite_split b i e : forallb (fun bi => item_ok (snd bi)) ((b, i) :: e) = true ->
  multi_split op_seps [[c_space]] (gwrite ((b, i) :: e)) = Ok (itoks i ++ gtoks e).
Proof.
  intros H. cbn in H. apply andb_true_iff in H as [Hi He].
  apply multi_split_scf. cbn [gwrite]. destruct (gtoks_scan e He). apply item_scan; auto.
Qed.

(** ** The parenthesis loop *)
Definition flip_if (v : bool) (l : list factor) : list factor :=
  map (fun f => (xorb v (fst f), snd f)) l.
Fixpoint flat (inv : bool) (e : gexp) : list factor :=
  match e with
  | [] => []
  | (b, IName n) :: t => (b, n) :: flat inv t
  | (b, IGroup n r) :: t =>
      let inv' := if b then inv else negb inv in
      (b, n) :: flip_if inv' r ++ flat inv' t
  end.
Fixpoint par_after (inv : bool) (e : gexp) : bool :=
  match e with
  | [] => inv
  | (b, IName _) :: t => par_after inv t
  | (b, IGroup _ _) :: t => par_after (if b then inv else negb inv) t
  end.

Lemma name_not_sub x s : is_name x = true -> (forall c, In c s -> name_char c = false) -> ssub x s = false.
Proof.
  intros Hx Hs. destruct (ssub x s) eqn:E; [|reflexivity].
  apply ssub_spec in E as [a [b E]]. destruct x as [|c x]; [discriminate|].
  assert (In c s) by (rewrite E; apply in_app_iff; right; cbn; auto).
  rewrite <- (Hs c) by assumption. symmetry. apply (is_name_chars _ Hx). cbn; auto.
Qed.
Lemma name_neq x s : is_name x = true -> (exists c, s = [c] /\ name_char c = false) -> seqb x s = false.
Proof.
  intros Hx [c [-> Hc]]. apply seqb_neq. intros ->.
  pose proof (is_name_chars _ Hx c (or_introl eq_refl)). congruence.
Qed.
Lemma rp_name x t inv inp r : is_name x = true ->
  rp_loop t inv inp = Ok r -> rp_loop (x :: t) inv inp = Ok (x :: r).
Proof.
  intros Hx H. cbn [rp_loop].
  rewrite (name_not_sub x [c_star; c_slash] Hx) by (intros c [<-|[<-|[]]]; reflexivity).
  rewrite (name_not_sub x [c_lpar; c_rpar] Hx) by (intros c [<-|[<-|[]]]; reflexivity).
  rewrite !(name_neq x) by (try exact Hx; eexists; split; reflexivity).
  cbn [andb negb]. rewrite H. reflexivity.
Qed.
Definition rp_out (x : str) (inv inp : bool) : list str :=
  if ssub x [c_star; c_slash] && inp && inv
  then [if seqb x s_slash then s_star else s_slash]
  else if negb (ssub x [c_lpar; c_rpar]) then [x] else [].
Lemma rp_step (x : str) (t : list str) (inv inp : bool) : rp_loop (x :: t) inv inp =
  match
    (if seqb x s_slash then
       match t with
       | [] => Err IndexError
       | y :: _ => if seqb y s_lpar then rp_loop t (negb inv) inp else rp_loop t inv inp
       end
     else if seqb x s_lpar then rp_loop t inv true
     else if seqb x s_rpar then rp_loop t inv false
     else rp_loop t inv inp)
  with Ok r => Ok (rp_out x inv inp ++ r) | Err e => Err e end.
Proof. reflexivity. Qed.
Lemma rp_op (b : bool) (x : str) t inv inp r : seqb x s_lpar = false -> rp_loop (x :: t) inv inp = Ok r ->
  rp_loop ([op_char b] :: x :: t) inv inp = Ok ([op_char (xorb (inp && inv) b)] :: r).
Proof.
  intros Hx H. rewrite rp_step. rewrite Hx. rewrite H. destruct b, inv, inp; reflexivity.
Qed.
Lemma rp_op_group (b : bool) t inv r : rp_loop (s_lpar :: t) (if b then inv else negb inv) false = Ok r ->
  rp_loop ([op_char b] :: s_lpar :: t) inv false = Ok ([op_char b] :: r).
Proof.
  intros H. rewrite rp_step. change (seqb s_lpar s_lpar) with true. cbn iota.
  destruct b; cbn [op_char] in *.
  - change (seqb [42] s_slash) with false. change (seqb [42] s_lpar) with false.
    change (seqb [42] s_rpar) with false. cbn iota. rewrite H. destruct inv; reflexivity.
  - change (seqb [47] s_slash) with true. cbn iota. rewrite H. destruct inv; reflexivity.
Qed.
Lemma rp_lpar t inv inp r : rp_loop t inv true = Ok r -> rp_loop (s_lpar :: t) inv inp = Ok r.
Proof. intros H. rewrite rp_step. change (seqb s_lpar s_slash) with false. change (seqb s_lpar s_lpar) with true.
  cbn iota. rewrite H. destruct inv, inp; reflexivity. Qed.
Lemma rp_rpar t inv inp r : rp_loop t inv false = Ok r -> rp_loop (s_rpar :: t) inv inp = Ok r.
Proof. intros H. rewrite rp_step. change (seqb s_rpar s_slash) with false. change (seqb s_rpar s_lpar) with false.
  change (seqb s_rpar s_rpar) with true. cbn iota. rewrite H. destruct inv, inp; reflexivity. Qed.

Lemma name_not_lpar x : is_name x = true -> seqb x s_lpar = false.
Proof. intros H; apply name_neq; [exact H|eexists; split; reflexivity]. Qed.

Lemma rp_ops r : forallb (fun f => is_name (snd f)) r = true ->
  forall inv t out, rp_loop t inv true = Ok out ->
  rp_loop (ftoks r ++ t) inv true = Ok (ftoks (flip_if inv r) ++ out).
Proof.
  induction r as [|[b x] r IH]; intros Hr inv t out H; [exact H|].
  cbn in Hr. apply andb_true_iff in Hr as [Hx Hr].
  cbn [ftoks app flip_if map fst snd].
  specialize (IH Hr inv t out H). apply (rp_name x _ inv true) in IH; [|exact Hx].
  apply (rp_op b) in IH; [|apply name_not_lpar, Hx]. exact IH.
Qed.
Lemma ftoks_app a b : ftoks (a ++ b) = ftoks a ++ ftoks b.
Proof. induction a as [|[c x] a IHa]; cbn; [reflexivity|]. rewrite IHa; reflexivity. Qed.
Lemma rp_item_ops e : forallb (fun bi => item_ok (snd bi)) e = true ->
  forall inv, rp_loop (gtoks e) inv false = Ok (ftoks (flat inv e)).
Proof.
  induction e as [|[b i] e IH]; intros He inv; [reflexivity|].
  cbn in He. apply andb_true_iff in He as [Hi He].
  destruct i as [n|n r]; cbn [item_ok] in Hi; cbn [gtoks itoks app flat ftoks].
  - pose proof (rp_name n _ inv false _ Hi (IH He inv)) as H.
    apply (rp_op b) in H; [|apply name_not_lpar, Hi]. rewrite H. destruct b; reflexivity.
  - apply andb_true_iff in Hi as [Hn Hr].
    apply rp_op_group. apply rp_lpar. apply rp_name; [exact Hn|].
    rewrite <- app_assoc, ftoks_app. apply rp_ops; [exact Hr|]. apply rp_rpar. apply IH, He.
Qed.

Lemma ftoks_concat l : List.concat (ftoks l) = write_tail l.
Proof. induction l as [|[b x] l IH]; cbn; [reflexivity|]. rewrite IH; reflexivity. Qed.

Lemma rp_whole i e : forallb (fun bi => item_ok (snd bi)) ((true, i) :: e) = true ->
  exists r, rp_loop (itoks i ++ gtoks e) false false = Ok r /\
            List.concat r = write (flat false ((true, i) :: e)).
Proof.
  intros H. pose proof (rp_item_ops ((true, i) :: e) H false) as G.
  cbn [gtoks] in G. cbn in H. apply andb_true_iff in H as [Hi He].
  assert (rp_loop ([op_char true] :: itoks i ++ gtoks e) false false =
          match rp_loop (itoks i ++ gtoks e) false false with Ok r => Ok ([[op_char true]] ++ r) | Err e => Err e end) as E.
  { reflexivity. }
  rewrite E in G. destruct (rp_loop (itoks i ++ gtoks e) false false) as [r|err]; [|discriminate].
  exists r; split; [reflexivity|]. injection G as G.
  assert (ftoks (flat false ((true, i) :: e)) = [42] :: r) as G' by (symmetry; exact G).
  apply (f_equal (@List.concat _)) in G'. rewrite ftoks_concat in G'.
  destruct i as [n|n r0]; cbn [flat write_tail op_char] in G'; cbn in G';
    injection G' as G'; cbn [flat write]; rewrite <- G'; reflexivity.
Qed.

(** ** Reading back *)
Lemma read_name n : (forall c, In c n -> name_char c = true) -> forall sg cur s,
  read sg cur (n ++ s) = read sg (rev n ++ cur) s.
Proof.
  induction n as [|c n IH]; intros Hn sg cur s; [reflexivity|].
  pose proof (name_char_ne c (Hn c (or_introl eq_refl))) as Hc.
  cbn [app read]. destruct (N.eqb_spec c 42); [lia|]. destruct (N.eqb_spec c 47); [lia|].
  rewrite IH by (intros; apply Hn; cbn; auto). cbn [rev]. rewrite <- app_assoc. reflexivity.
Qed.
Lemma read_tail l : forallb (fun f => is_name (snd f)) l = true -> forall sg n,
  read sg (rev n) (write_tail l) = (sg, n) :: l.
Proof.
  induction l as [|[b x] l IH]; intros Hl sg n.
  - cbn. rewrite rev_involutive. reflexivity.
  - cbn in Hl. apply andb_true_iff in Hl as [Hx Hl].
    cbn [write_tail read].
    destruct b; cbn [op_char N.eqb Pos.eqb]; rewrite rev_involutive; f_equal;
      (rewrite read_name by (apply is_name_chars, Hx)); rewrite app_nil_r; apply IH, Hl.
Qed.
Lemma factors_write l : factors_ok l = true -> factors (write l) = l.
Proof.
  destruct l as [|[b x] l]; [discriminate|]. cbn. intros H.
  apply andb_true_iff in H as [-> H]. apply andb_true_iff in H as [Hx Hl].
  unfold factors. rewrite read_name by (apply is_name_chars, Hx). rewrite app_nil_r. apply read_tail, Hl.
Qed.

Lemma expo_app n a b : expo n (a ++ b) = (expo n a + expo n b)%Z.
Proof. induction a as [|[s x] a IH]; cbn; [reflexivity|]. rewrite IH. lia. Qed.
Lemma expo_flip n v l : expo n (flip_if v l) = (sgn (negb v) * expo n l)%Z.
Proof.
  induction l as [|[s x] l IH]; cbn [flip_if map expo fst snd]; [lia|].
  unfold flip_if in IH. rewrite IH. destruct (seqb n x), v, s; cbn [xorb negb sgn]; lia.
Qed.

Lemma flat_expo n e : forall inv, placed inv e = true -> expo n (flat inv e) = gexpo n e.
Proof.
  induction e as [|[b i] e IH]; intros inv H; [reflexivity|].
  destruct i as [m|m r]; cbn [placed] in H; cbn [flat gexpo item_factors expo].
  - rewrite (IH inv H). destruct (seqb n m), b; cbn [xorb negb sgn expo]; lia.
  - apply andb_true_iff in H as [Hr H]. rewrite expo_app, expo_flip, (IH _ H).
    destruct r as [|f r].
    + cbn. destruct (seqb n m), b; cbn [xorb negb sgn expo]; lia.
    + apply eqb_prop in Hr. rewrite Hr. destruct (seqb n m), b; cbn [xorb negb sgn expo]; lia.
Qed.
Lemma flat_names e : forallb (fun bi => item_ok (snd bi)) e = true -> forall inv,
  forallb (fun f => is_name (snd f)) (flat inv e) = true.
Proof.
  induction e as [|[b i] e IH]; intros He inv; [reflexivity|].
  cbn in He. apply andb_true_iff in He as [Hi He]. destruct i as [m|m r]; cbn [item_ok] in Hi.
  - cbn. rewrite Hi. apply IH, He.
  - apply andb_true_iff in Hi as [Hm Hr]. cbn [flat forallb snd]. rewrite Hm, forallb_app. cbn [andb].
    rewrite (IH He), andb_true_r. clear -Hr. unfold flip_if.
    induction r as [|[c x] r IH]; cbn in *; [reflexivity|]. apply andb_true_iff in Hr as [-> Hr]. apply IH, Hr.
Qed.
Lemma flat_ok e : gexp_ok e = true -> factors_ok (flat false e) = true.
Proof.
  unfold gexp_ok. destruct e as [|[b i] e]; [discriminate|]. intros H.
  apply andb_true_iff in H as [-> H]. pose proof (flat_names _ H false) as G.
  destruct i; cbn [flat factors_ok] in *; rewrite G; reflexivity.
Qed.

Definition noparen (s : str) : Prop := ~ In c_lpar s /\ ~ In c_rpar s.
Lemma names_noparen l : forallb (fun f => is_name (snd f)) l = true -> forall c, (c = 40 \/ c = 41) -> ~ In c (write_tail l).
Proof.
  induction l as [|[b x] l IH]; intros Hl c Hc; [intros []|].
  cbn in Hl. apply andb_true_iff in Hl as [Hx Hl]. cbn [write_tail].
  intros [E|E]; [destruct b; cbn in E; lia|]. apply in_app_iff in E as [E|E].
  - pose proof (name_char_ne c (is_name_chars _ Hx c E)). lia.
  - apply (IH Hl c Hc E).
Qed.
Lemma write_noparen l : factors_ok l = true -> noparen (write l).
Proof.
  destruct l as [|[b x] l]; [discriminate|]. cbn. intros H.
  apply andb_true_iff in H as [-> H]. apply andb_true_iff in H as [Hx Hl].
  split; intros E; apply in_app_iff in E as [E|E].
  - pose proof (name_char_ne _ (is_name_chars _ Hx _ E)). unfold c_lpar in *; lia.
  - eapply names_noparen; [exact Hl| |exact E]; unfold c_lpar; auto.
  - pose proof (name_char_ne _ (is_name_chars _ Hx _ E)). unfold c_rpar in *; lia.
  - eapply names_noparen; [exact Hl| |exact E]; unfold c_rpar; auto.
Qed.

(** Characters of a written grouped expression. *)
Lemma write_tail_char r : forallb (fun f => is_name (snd f)) r = true -> forall c, In c (write_tail r) -> c <> 94 /\ c <> 43 /\ c <> 45.
Proof.
  induction r as [|[b x] r IH]; intros Hr c Hc; [destruct Hc|].
  cbn in Hr. apply andb_true_iff in Hr as [Hx Hr]. cbn [write_tail] in Hc.
  destruct Hc as [<-|Hc]; [destruct b; cbn; lia|]. apply in_app_iff in Hc as [Hc|Hc].
  - pose proof (name_char_ne _ (is_name_chars _ Hx _ Hc)). lia.
  - apply IH; auto.
Qed.
Lemma write_item_char i : item_ok i = true -> forall c, In c (write_item i) -> c <> 94 /\ c <> 43 /\ c <> 45.
Proof.
  destruct i as [n|n r]; cbn [item_ok]; intros H c Hc.
  - cbn in Hc. pose proof (name_char_ne _ (is_name_chars _ H _ Hc)). lia.
  - apply andb_true_iff in H as [Hn Hr]. cbn in Hc. destruct Hc as [<-|Hc]; [lia|].
    rewrite <- app_assoc in Hc.
    apply in_app_iff in Hc as [Hc|Hc]; [pose proof (name_char_ne _ (is_name_chars _ Hn _ Hc)); lia|].
    apply in_app_iff in Hc as [Hc|[<-|[]]]; [|lia]. eapply write_tail_char; eauto.
Qed.
Lemma gwrite_tail_char e : forallb (fun bi => item_ok (snd bi)) e = true -> forall c, In c (gwrite_tail e) -> c <> 94 /\ c <> 43 /\ c <> 45.
Proof.
  induction e as [|[b i] e IH]; intros He c Hc; [destruct Hc|].
  cbn in He. apply andb_true_iff in He as [Hi He]. cbn [gwrite_tail] in Hc.
  destruct Hc as [<-|Hc]; [destruct b; cbn; lia|]. apply in_app_iff in Hc as [Hc|Hc].
  - eapply write_item_char; eauto.
  - apply IH; auto.
Qed.

(** No ["**"] in a written expression. *)
Lemma ss_app a b : ssub [42;42] a = false -> ssub [42;42] b = false ->
  (forall a' b', a = a' ++ [42] -> b = 42 :: b' -> False) -> ssub [42;42] (a ++ b) = false.
Proof.
  intros Ha Hb Hab. destruct (ssub [42;42] (a ++ b)) eqn:E; [|reflexivity]. exfalso.
  apply ssub_spec in E as [p [q E]]. cbn in E.
  destruct (le_lt_dec (length a) (length p)) as [L|L].
  - assert (b = skipn (length a) p ++ 42 :: 42 :: q) as Eb.
    { apply (f_equal (skipn (length a))) in E. rewrite skipn_app, skipn_all, Nat.sub_diag in E. cbn in E.
      rewrite E, skipn_app. f_equal. replace (length a - length p)%nat with 0%nat by lia. reflexivity. }
    assert (ssub [42;42] b = true) by (apply ssub_spec; exists (skipn (length a) p), q; exact Eb). congruence.
  - assert (a = p ++ skipn (length p) a) as Ea.
    { rewrite <- (firstn_skipn (length p) a) at 1. f_equal.
      apply (f_equal (firstn (length p))) in E. rewrite !firstn_app, Nat.sub_diag in E.
      replace (length p - length a)%nat with 0%nat in E by lia. cbn in E. rewrite !app_nil_r, firstn_all in E. exact E. }
    remember (skipn (length p) a) as a2 eqn:E2. rewrite Ea in E. rewrite <- app_assoc in E. apply app_inv_head in E.
    destruct a2 as [|x [|y a2]].
    + rewrite app_nil_r in Ea. subst a. lia.
    + cbn in E. injection E as -> E. eapply Hab; eauto.
    + cbn in E. injection E as -> -> E.
      assert (ssub [42;42] a = true) by (apply ssub_spec; exists p, a2; exact Ea). congruence.
Qed.
Lemma ss_name n : is_name n = true -> ssub [42;42] n = false.
Proof.
  intros H. destruct (ssub [42;42] n) eqn:E; [|reflexivity]. apply ssub_spec in E as [a [b ->]].
  assert (In 42 (a ++ [42;42] ++ b)) as Hi by (apply in_app_iff; right; cbn; auto).
  pose proof (name_char_ne _ (is_name_chars _ H _ Hi)). lia.
Qed.
Definition nostar_end (s : str) : Prop := forall s', s = s' ++ [42] -> False.
Definition nostar_start (s : str) : Prop := forall s', s = 42 :: s' -> False.
Lemma name_nostar n : is_name n = true -> nostar_end n /\ nostar_start n.
Proof.
  intros H; split; intros s' ->.
  - assert (In 42 (s' ++ [42])) as Hi by (apply in_app_iff; right; cbn; auto).
    pose proof (name_char_ne _ (is_name_chars _ H _ Hi)). lia.
  - pose proof (name_char_ne _ (is_name_chars _ H 42 (or_introl eq_refl))). lia.
Qed.
Lemma nostar_end_app a b : b <> [] -> nostar_end b -> nostar_end (a ++ b).
Proof.
  intros Hb H s' E. destruct (exists_last Hb) as [b' [z ->]].
  rewrite app_assoc in E. apply app_inj_tail in E as [_ ->]. apply (H b'); reflexivity.
Qed.
Lemma ss_op b s : ssub [42;42] s = false -> nostar_start s -> ssub [42;42] (op_char b :: s) = false.
Proof.
  intros H1 H2. change (op_char b :: s) with ([op_char b] ++ s). apply ss_app; auto.
  - destruct b; reflexivity.
  - intros a' b' _ E. apply (H2 b' E).
Qed.
Lemma nostar_start_app a b : a <> [] -> nostar_start a -> nostar_start (a ++ b).
Proof. intros Ha H s' E. destruct a as [|x a]; [congruence|]. cbn in E. injection E as -> _. apply (H a); reflexivity. Qed.
Lemma write_tail_ss r : forallb (fun f => is_name (snd f)) r = true ->
  ssub [42;42] (write_tail r) = false /\ nostar_end (write_tail r).
Proof.
  induction r as [|[b x] r IH]; intros Hr; [split; [reflexivity|intros [|] E; discriminate]|].
  cbn in Hr. apply andb_true_iff in Hr as [Hx Hr]. destruct (IH Hr) as [I1 I2].
  pose proof (name_nostar x Hx) as [N1 N2]. pose proof (is_name_nonnil x Hx) as Nx. cbn [write_tail]. split.
  - apply ss_op.
    + apply ss_app; auto using ss_name. intros a' b' E _. apply (N1 a' E).
    + apply nostar_start_app; auto.
  - destruct r as [|f r].
    + cbn. rewrite app_nil_r. change (op_char b :: x) with ([op_char b] ++ x). apply nostar_end_app; auto.
    + change (op_char b :: x ++ write_tail (f :: r)) with ((op_char b :: x) ++ write_tail (f :: r)).
      apply nostar_end_app; auto. destruct f; discriminate.
Qed.
Lemma write_item_ss i : item_ok i = true ->
  ssub [42;42] (write_item i) = false /\ nostar_end (write_item i) /\ nostar_start (write_item i) /\ write_item i <> [].
Proof.
  destruct i as [n|n r]; cbn [item_ok write_item]; intros H.
  - pose proof (name_nostar n H) as [N1 N2]. pose proof (is_name_nonnil n H). repeat split; auto using ss_name.
  - apply andb_true_iff in H as [Hn Hr]. pose proof (name_nostar n Hn) as [N1 N2].
    destruct (write_tail_ss r Hr) as [I1 I2]. repeat split.
    + change (40 :: write ((true, n) :: r) ++ [41]) with ([40] ++ (write ((true, n) :: r) ++ [41])).
      apply ss_app; [reflexivity| |intros a' b' E _; destruct a' as [|? [|? ?]]; discriminate].
      apply ss_app; [|reflexivity|intros a' b' _ E; discriminate].
      cbn [write]. apply ss_app; auto using ss_name. intros a' b' E _. apply (N1 a' E).
    + change (40 :: write ((true, n) :: r) ++ [41]) with ((40 :: write ((true, n) :: r)) ++ [41]).
      apply nostar_end_app; [discriminate|]. intros [|? [|]] E; discriminate.
    + intros s' E; discriminate.
    + discriminate.
Qed.
Lemma gwrite_tail_ss e : forallb (fun bi => item_ok (snd bi)) e = true -> ssub [42;42] (gwrite_tail e) = false.
Proof.
  induction e as [|[b i] e IH]; intros He; [reflexivity|].
  cbn in He. apply andb_true_iff in He as [Hi He]. destruct (write_item_ss i Hi) as [W1 [W2 [W3 W4]]].
  cbn [gwrite_tail]. apply ss_op.
  - apply ss_app; auto. intros a' b' E _. apply (W2 a' E).
  - apply nostar_start_app; auto.
Qed.

(** Balanced counts. *)
Lemma name_count n c : is_name n = true -> c = 40 \/ c = 41 -> ccount c n = 0%nat.
Proof.
  intros H Hc. apply ccount_0. intros Hi. pose proof (name_char_ne _ (is_name_chars _ H _ Hi)). lia.
Qed.
Lemma tail_count r c : forallb (fun f => is_name (snd f)) r = true -> c = 40 \/ c = 41 -> ccount c (write_tail r) = 0%nat.
Proof. intros H Hc. apply ccount_0. apply names_noparen; auto. Qed.
Lemma item_count i : item_ok i = true -> ccount 40 (write_item i) = ccount 41 (write_item i).
Proof.
  destruct i as [n|n r]; cbn [item_ok write_item write]; intros H.
  - rewrite !name_count; auto.
  - apply andb_true_iff in H as [Hn Hr]. cbn [ccount]. rewrite !ccount_app.
    rewrite (name_count n 40), (name_count n 41), (tail_count r 40), (tail_count r 41) by auto. reflexivity.
Qed.
Lemma gtail_count e : forallb (fun bi => item_ok (snd bi)) e = true -> ccount 40 (gwrite_tail e) = ccount 41 (gwrite_tail e).
Proof.
  induction e as [|[b i] e IH]; intros He; [reflexivity|].
  cbn in He. apply andb_true_iff in He as [Hi He]. cbn [gwrite_tail ccount].
  rewrite !ccount_app, item_count, IH by assumption. destruct b; reflexivity.
Qed.

(** Without any group the string is already flat. *)
Lemma gwrite_flat_nopar e : forallb (fun bi => item_ok (snd bi)) e = true -> ~ In 40 (gwrite_tail e) ->
  forall inv, gwrite_tail e = write_tail (flat inv e).
Proof.
  induction e as [|[b i] e IH]; intros He Hn inv; [reflexivity|].
  cbn in He. apply andb_true_iff in He as [Hi He]. destruct i as [m|m r].
  - cbn [gwrite_tail flat write_tail write_item] in *. f_equal. f_equal. apply IH; auto.
    intros H; apply Hn. right. apply in_app_iff; auto.
  - exfalso. apply Hn. cbn. auto.
Qed.

Lemma reduce_parentheses_gwrite e : gexp_ok e = true ->
  reduce_parentheses (gwrite e) = Ok (write (flat false e)).
Proof.
  unfold gexp_ok. destruct e as [|[b i] e]; [discriminate|]. intros H.
  apply andb_true_iff in H as [-> H]. pose proof H as H0. cbn in H. apply andb_true_iff in H as [Hi He].
  unfold reduce_parentheses.
  destruct (negb (cmem c_lpar (gwrite ((true, i) :: e))) && negb (cmem c_rpar (gwrite ((true, i) :: e)))) eqn:E.
  - apply andb_true_iff in E as [E _]. apply negb_true_iff, cmem_false in E. f_equal.
    assert (~ In 40 (gwrite_tail ((true, i) :: e))) as Hn.
    { cbn [gwrite_tail op_char]. intros [Hx|Hx]; [lia|]. apply E. exact Hx. }
    pose proof (gwrite_flat_nopar ((true, i) :: e) H0 Hn false) as G.
    cbn [gwrite_tail] in G. destruct i as [m|m r]; [|exfalso; apply Hn; cbn; auto].
    cbn [flat write_tail] in G. cbn [gwrite flat write]. exact (f_equal (@tl N) G).
  - clear E.
    assert (ccount c_lpar (gwrite ((true, i) :: e)) = ccount c_rpar (gwrite ((true, i) :: e))) as Ec.
    { cbn [gwrite]. rewrite !ccount_app. unfold c_lpar, c_rpar. rewrite item_count, gtail_count by assumption. reflexivity. }
    rewrite Ec, Nat.ltb_irrefl.
    destruct (write_item_ss i Hi) as [W1 [W2 _]].
    assert (ssub [c_star; c_star] (gwrite ((true, i) :: e)) = false) as ->.
    { cbn [gwrite]. apply ss_app; auto using gwrite_tail_ss. intros a' b' E _. apply (W2 a' E). }
    assert (forall c, In c (gwrite ((true, i) :: e)) -> c <> 94 /\ c <> 43 /\ c <> 45) as Hc.
    { intros c Hc. cbn [gwrite] in Hc. apply in_app_iff in Hc as [Hc|Hc].
      - eapply write_item_char; [exact Hi|exact Hc].
      - eapply gwrite_tail_char; [exact He|exact Hc]. }
    assert (cmem c_hat (gwrite ((true, i) :: e)) = false) as -> by (apply cmem_false; intros Hx; apply Hc in Hx; unfold c_hat in *; lia).
    assert (cmem c_plus (gwrite ((true, i) :: e)) = false) as -> by (apply cmem_false; intros Hx; apply Hc in Hx; unfold c_plus in *; lia).
    assert (cmem c_minus (gwrite ((true, i) :: e)) = false) as -> by (apply cmem_false; intros Hx; apply Hc in Hx; unfold c_minus in *; lia).
    cbn [orb]. rewrite gwrite_split by exact H0.
    destruct (rp_whole i e H0) as [r [-> Er]]. rewrite Er. reflexivity.
Qed.

Lemma reduce_parentheses_meaning e : gexp_ok e = true -> placed false e = true ->
  exists r, reduce_parentheses (gwrite e) = Ok r /\ ~ In 40 r /\ ~ In 41 r /\
            forall n, expo n (factors r) = gexpo n e.
Proof.
  intros Hok Hp. exists (write (flat false e)).
  pose proof (flat_ok e Hok) as Hf. destruct (write_noparen _ Hf) as [N1 N2].
  repeat split; auto.
  - apply reduce_parentheses_gwrite, Hok.
  - intros n. rewrite factors_write by exact Hf. apply flat_expo, Hp.
Qed.

(** ** Errors of reduce_parentheses *)
Lemma rp_loop_err l : forall inv inp e, rp_loop l inv inp = Err e -> e = IndexError.
Proof.
  induction l as [|x t IH]; intros inv inp e; cbn [rp_loop]; [discriminate|].
  intros H. destruct (seqb x s_slash).
  - destruct t as [|y t']; [congruence|].
    destruct (seqb y s_lpar); [destruct (rp_loop (y :: t') (negb inv) inp) eqn:E|destruct (rp_loop (y :: t') inv inp) eqn:E];
      try discriminate; injection H as <-; eapply IH; eauto.
  - destruct (seqb x s_lpar); [|destruct (seqb x s_rpar)];
      match type of H with match ?m with _ => _ end = _ => destruct m eqn:E end;
      try discriminate; injection H as <-; eapply IH; eauto.
Qed.
Lemma op_seps_ok : seps_ok op_seps.
Proof. intros p Hp. cbn in Hp. intuition (subst; discriminate). Qed.
Lemma multi_split_ok seps remove s : seps_ok seps -> exists l, multi_split seps remove s = Ok l.
Proof. intros H. destruct (multi_split_tok seps remove s H) as [l [_ E]]. eauto. Qed.

Lemma reduce_parentheses_value_error s :
  reduce_parentheses s = Err ValueError <-> ccount 40 s <> ccount 41 s.
Proof.
  unfold reduce_parentheses.
  destruct (negb (cmem c_lpar s) && negb (cmem c_rpar s)) eqn:E.
  - apply andb_true_iff in E as [E1 E2]. apply negb_true_iff, cmem_false, ccount_0 in E1.
    apply negb_true_iff, cmem_false, ccount_0 in E2. unfold c_lpar, c_rpar in *.
    rewrite E1, E2. split; [discriminate|congruence].
  - unfold c_lpar, c_rpar.
    destruct (Nat.ltb_spec (ccount 41 s) (ccount 40 s)); [split; [lia|reflexivity]|].
    destruct (Nat.ltb_spec (ccount 40 s) (ccount 41 s)); [split; [lia|reflexivity]|].
    split; [|lia]. destruct (_ || _ || _ || _); [discriminate|].
    destruct (multi_split_ok op_seps [[c_space]] s op_seps_ok) as [l ->].
    destruct (rp_loop l false false) eqn:E'; [discriminate|]. apply rp_loop_err in E'. subst; discriminate.
Qed.
Lemma reduce_parentheses_id s : ~ In 40 s -> ~ In 41 s -> reduce_parentheses s = Ok s.
Proof.
  intros H1 H2. unfold reduce_parentheses, c_lpar, c_rpar.
  apply cmem_false in H1. apply cmem_false in H2. rewrite H1, H2. reflexivity.
Qed.
