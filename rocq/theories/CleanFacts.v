(** * [_clean_input] *)
From Coq Require Import String QArith.
From Verif Require Import Py StrTools StrFacts StrFacts2 StrFacts3 Network Conv Converter EngineSpec.
Local Open Scope N_scope.

Lemma lstrip_app_core cs P z : match z with c :: _ => cmem c cs = false | [] => False end ->
  lstrip_chars cs (P ++ z) = lstrip_chars cs P ++ z.
Proof.
  intros Hz. induction P as [|c P IH].
  - destruct z as [|d z]; [easy|]. cbn. unfold cmem in Hz. unfold cmem. rewrite Hz. reflexivity.
  - change ((c :: P) ++ z) with (c :: (P ++ z)). cbn [lstrip_chars]. destruct (cmem c cs); [exact IH|reflexivity].
Qed.
Definition edge_free (cs : list chr) (x : str) : Prop := x <> [] /\ forall c r, x = c :: r \/ x = r ++ [c] -> cmem c cs = false.
Lemma strip_core cs P x Q : edge_free cs x ->
  strip_chars cs (P ++ x ++ Q) = lstrip_chars cs P ++ x ++ rev (lstrip_chars cs (rev Q)).
Proof.
  intros [Hn Hx]. unfold strip_chars, rstrip_chars.
  rewrite lstrip_app_core; [|destruct x as [|c x]; [easy|]; apply (Hx c x); now left].
  rewrite !rev_app_distr, <- app_assoc.
  rewrite lstrip_app_core.
  - rewrite !rev_app_distr, !rev_involutive, <- app_assoc. reflexivity.
  - destruct (rev x) as [|c y] eqn:E; [apply (f_equal (@rev _)) in E; rewrite rev_involutive in E; contradiction|].
    apply (Hx c (rev y)). right. apply (f_equal (@rev _)) in E. now rewrite rev_involutive in E.
Qed.
Lemma lstrip_over cs p r : over cs p -> lstrip_chars cs (p ++ r) = lstrip_chars cs r.
Proof.
  intros H. induction p as [|c p IH]; [reflexivity|]. change ((c :: p) ++ r) with (c :: (p ++ r)). cbn [lstrip_chars].
  assert (E : cmem c cs = true) by (apply existsb_exists; exists c; split; [apply H; now left|apply N.eqb_refl]). rewrite E.
  apply IH. intros d Hd. apply H. now right.
Qed.
Lemma lstrip_all cs p : over cs p -> lstrip_chars cs p = [].
Proof. intros H. rewrite <- (app_nil_r p). now rewrite lstrip_over. Qed.
Lemma lstrip_suffix cs p : over cs (firstn 0 p) -> forall cs2, over cs2 p -> over cs2 (lstrip_chars cs p).
Proof.
  intros _ cs2 H. induction p as [|c p IH]; [exact H|]. cbn [lstrip_chars]. destruct (cmem c cs); [|exact H].
  apply IH. intros d Hd. apply H. now right.
Qed.
Definition set1 := [c_lpar; c_space; 39; c_rpar]. Definition set2 := [c_lpar; c_space; 34; c_rpar]. Definition set3 := [39].
Lemma lstrip_two p2 p3 : over set2 p2 -> over set3 p3 ->
  exists a b, lstrip_chars set1 (p2 ++ p3) = a ++ b /\ over set2 a /\ over set3 b.
Proof.
  intros H2 H3. induction p2 as [|c p2 IH].
  - exists [], []. split; [|split; intros ? []]. apply lstrip_all. intros c Hc. destruct (H3 c Hc) as [<-|[]]. right. right. now left.
  - change ((c :: p2) ++ p3) with (c :: (p2 ++ p3)). cbn [lstrip_chars]. destruct (cmem c set1).
    + apply IH. intros d Hd. apply H2. now right.
    + exists (c :: p2), p3. auto.
Qed.
Lemma chain_nil p1 p2 p3 : over set1 p1 -> over set2 p2 -> over set3 p3 ->
  lstrip_chars set3 (lstrip_chars set2 (lstrip_chars set1 (p1 ++ p2 ++ p3))) = [].
Proof.
  intros H1 H2 H3. rewrite lstrip_over by exact H1. destruct (lstrip_two p2 p3 H2 H3) as (a & b & -> & Ha & Hb).
  rewrite lstrip_over by exact Ha. apply lstrip_all. now apply lstrip_suffix.
Qed.
Lemma over_incl cs cs' p : (forall c, In c cs -> In c cs') -> over cs p -> over cs' p.
Proof. intros H K c Hc. apply H, K, Hc. Qed.
Lemma over_rev cs p : over cs p -> over cs (rev p).
Proof. intros H c Hc. apply H. now apply in_rev. Qed.
Lemma bare_edge x cs : bare_name x -> (forall c, In c cs -> In c [blank; lpar; rpar; apostrophe; dquote]) -> edge_free cs x.
Proof.
  intros (Hn & _ & _ & _ & Hx) Hcs. split; [exact Hn|]. intros c r Hc. destruct (cmem c cs) eqn:E; [|reflexivity].
  exfalso. apply (Hx c r Hc). apply existsb_exists in E as (d & Hd & E). apply N.eqb_eq in E. subst d. now apply Hcs.
Qed.
Lemma wrapped_clean x y : bare_name x -> wrapped x y -> clean_str y = x.
Proof.
  intros Hx (p1 & p2 & p3 & q3 & q2 & q1 & -> & P1 & P2 & P3 & Q1 & Q2 & Q3).
  assert (I1 : forall c, In c [blank; lpar; rpar; apostrophe] -> In c set1) by (cbv; intuition).
  assert (I2 : forall c, In c [blank; lpar; rpar; dquote] -> In c set2) by (cbv; intuition).
  assert (I3 : forall c, In c [apostrophe] -> In c set3) by (cbv; intuition).
  apply (over_incl _ set1) in P1, Q1; try exact I1. apply (over_incl _ set2) in P2, Q2; try exact I2.
  apply (over_incl _ set3) in P3, Q3; try exact I3.
  assert (E1 : edge_free set1 x) by (apply bare_edge; [exact Hx|cbv; intuition]).
  assert (E2 : edge_free set2 x) by (apply bare_edge; [exact Hx|cbv; intuition]).
  assert (E3 : edge_free set3 x) by (apply bare_edge; [exact Hx|cbv; intuition]).
  set (y := p1 ++ p2 ++ p3 ++ x ++ q3 ++ q2 ++ q1).
  assert (Ey : y = (p1 ++ p2 ++ p3) ++ x ++ (q3 ++ q2 ++ q1)) by (unfold y; now rewrite <- !app_assoc).
  unfold clean_str.
  assert (Hq : forall q, (q = 39 \/ q = 34) -> seqb y [q] = false).
  { intros q Hq. apply not_true_is_false. rewrite seqb_eq. intros E. destruct Hx as (Hn & _ & _ & _ & Hx). destruct x as [|c x]; [easy|].
    assert (Hc : In c y) by (rewrite Ey; apply in_or_app; right; now left). rewrite E in Hc. destruct Hc as [<-|[]].
    apply (Hx q x); [now left|]. destruct Hq as [->| ->]; cbv; intuition. }
  change q1 with (q1) in *. unfold Converter.q1, Converter.q2. rewrite (Hq 39), (Hq 34) by auto. cbn [orb].
  change [c_lpar; c_space; 39; c_rpar] with set1. change [c_lpar; c_space; 34; c_rpar] with set2. change [39] with set3.
  rewrite Ey, strip_core by exact E1. rewrite strip_core by exact E2. rewrite strip_core by exact E3.
  rewrite !rev_involutive. rewrite chain_nil by assumption.
  rewrite !rev_app_distr, <- !app_assoc, chain_nil by (apply over_rev; assumption). now rewrite app_nil_r.
Qed.
Lemma wrapped_self x : wrapped x x.
Proof. exists [], [], [], [], [], []. rewrite !app_nil_r. repeat split; intros c []. Qed.
Lemma bare_clean x : bare_name x -> clean_str x = x.
Proof. intros H. apply (wrapped_clean x x H), wrapped_self. Qed.
Lemma bare_par x : bare_name x -> reduce_parentheses x = Ok x.
Proof.
  intros (_ & _ & H1 & H2 & _). now apply reduce_parentheses_id.
Qed.
Lemma wrapped_not_empty x y : bare_name x -> wrapped x y -> seqb y (u "Empty") = false.
Proof.
  intros Hb W. apply not_true_is_false. rewrite seqb_eq. intros E. assert (C := wrapped_clean x y Hb W).
  rewrite E in C. destruct Hb as (_ & Hne & _). apply Hne. rewrite <- C. reflexivity.
Qed.

Section C.
Context {V : Type} {A : Arith V}.
Definition opt_v (v : option V) : vin V := match v with Some x => VNum x | None => VNone end.
Lemma clean_wrapped rp v f t f' t' : bare_name f -> bare_name t -> wrapped f f' -> wrapped t t' ->
  clean_input rp (opt_v v) (UStr f') (UStr t') = Ok (v, f, t).
Proof.
  intros Hf Ht Wf Wt. unfold clean_input.
  assert (E : (match opt_v v with VUnit _ un => if is_empty (UStr t') then (UStr un, UStr f') else (UStr f', UStr t') | _ => (UStr f', UStr t') end)
     = (UStr f', UStr t')) by (destruct v; reflexivity).
  destruct v as [v|]; cbn [opt_v]; cbn [clean_unit rbind bare is_empty];
  rewrite (wrapped_not_empty t t' Ht Wt), (wrapped_clean f f' Hf Wf), (wrapped_clean t t' Ht Wt);
  (destruct rp; [rewrite (bare_par f Hf); cbn [rbind]; rewrite (bare_par t Ht)|]); reflexivity.
Qed.
Lemma clean_bare rp v f t : bare_name f -> bare_name t -> clean_input rp (opt_v v) (UStr f) (UStr t) = Ok (v, f, t).
Proof. intros Hf Ht. apply clean_wrapped; try assumption; apply wrapped_self. Qed.
Lemma convert_bare v f t uc s : bare_name f -> bare_name t -> convert (opt_v v) (UStr f) (UStr t) uc s = convert_clean v f t uc s.
Proof. intros Hf Ht. unfold convert, bind, get, lift. now rewrite clean_bare. Qed.
Lemma convert_wrapped v f t f' t' uc s : bare_name f -> bare_name t -> wrapped f f' -> wrapped t t' ->
  convert (opt_v v) (UStr f') (UStr t') uc s = convert_clean v f t uc s.
Proof. intros Hf Ht Wf Wt. unfold convert, bind, get, lift. now rewrite (clean_wrapped _ _ f t). Qed.
Lemma clean_input_err (v : vin V) f t e : clean_input false v f t = Err e -> e = TypeError \/ e = ValueError.
Proof.
  unfold clean_input. set (ft := match v with VUnit _ un => if is_empty t then (UStr un, f) else (f, t) | _ => (f, t) end).
  destruct ft as [f1 t1]. destruct v as [|x|x|x y|]; cbn; try (intros [= <-]; auto; fail);
  (destruct (clean_unit f1) as [a|e1] eqn:E1; cbn [rbind];
   [destruct (is_empty (bare t1)); [intros [= <-]; auto|]; destruct (clean_unit t1) as [b|e2] eqn:E2; cbn [rbind]; [discriminate|];
    intros [= <-]; destruct t1; cbn in E2; try discriminate; injection E2 as <-; auto
   |intros [= <-]; destruct f1; cbn in E1; try discriminate; injection E1 as <-; auto]).
Qed.
Lemma convert_malformed (v : vin V) f t uc s e : clean_input (p_redpar (s_par s)) v f t = Err e -> convert v f t uc s = (Err e, s).
Proof. intros H. unfold convert, bind, get, lift. now rewrite H. Qed.
End C.
