(** * Facts about [to_number] *)
From Coq Require Import String.
From Verif Require Import Py StrTools StrFacts StrFacts2 StrFacts3 OpsSpec Operations OpsFacts OpsFacts2 CleanFacts Caster CasterSpec.
Local Open Scope N_scope.

(** ** One-character separators *)
Lemma prefix1 c x s : sprefix [c] (x :: s) = (c =? x).
Proof. cbn. now destruct (c =? x). Qed.
Lemma split_go1 c s : forall cur, split_go [c] 0 cur s = match csplit c s with w :: ws => (rev cur ++ w) :: ws | [] => [] end.
Proof.
  induction s as [|x s IH]; intros cur; [cbn; now rewrite app_nil_r|].
  cbn [split_go csplit]. rewrite prefix1, (N.eqb_sym c x). destruct (x =? c) eqn:E.
  - cbn [length Nat.sub]. rewrite IH. rewrite app_nil_r. destruct (csplit c s) as [|w ws] eqn:Ec; [now apply csplit_nonnil in Ec|]. reflexivity.
  - rewrite IH. destruct (csplit c s) as [|w ws] eqn:Ec; [now apply csplit_nonnil in Ec|]. cbn [rev]. now rewrite <- app_assoc.
Qed.
Lemma split_one c s : py_split [c] s = Ok (csplit c s).
Proof. unfold py_split. rewrite split_go1. destruct (csplit c s) as [|w ws] eqn:Ec; [now apply csplit_nonnil in Ec|]. reflexivity. Qed.
Lemma count_one c s : py_count [c] s = ccount c s.
Proof.
  unfold py_count. rewrite split_go1. pose proof (csplit_length c s) as H. destruct (csplit c s) as [|w ws] eqn:Ec; [now apply csplit_nonnil in Ec|].
  cbn [length] in *. lia.
Qed.
Lemma replace_join c b s : py_replace [c] b s = sjoin b (csplit c s).
Proof. unfold py_replace. rewrite split_go1. destruct (csplit c s) as [|w ws] eqn:Ec; [now apply csplit_nonnil in Ec|]. reflexivity. Qed.
Lemma replace_cons c b x s : py_replace [c] b (x :: s) = (if x =? c then b else [x]) ++ py_replace [c] b s.
Proof.
  rewrite !replace_join. cbn [csplit]. destruct (csplit c s) as [|w ws] eqn:Ec; [now apply csplit_nonnil in Ec|]. destruct (x =? c).
  - reflexivity.
  - destruct ws; reflexivity.
Qed.
Lemma replace_nil c b : py_replace [c] b [] = [].
Proof. reflexivity. Qed.
Lemma replace_app c b x y : py_replace [c] b (x ++ y) = py_replace [c] b x ++ py_replace [c] b y.
Proof. induction x as [|z x IH]; [reflexivity|]. cbn [Datatypes.app]. rewrite !replace_cons, IH. now rewrite app_assoc. Qed.
Lemma replace_no c b x : ~ In c x -> py_replace [c] b x = x.
Proof.
  induction x as [|z x IH]; intros H; [reflexivity|]. rewrite replace_cons. destruct (N.eqb_spec z c) as [->|_]; [exfalso; apply H; now left|].
  rewrite IH; [reflexivity|intros Hi; apply H; now right].
Qed.
Lemma replace_it c b : py_replace [c] b [c] = b.
Proof. rewrite replace_cons, N.eqb_refl, replace_nil. apply app_nil_r. Qed.
Lemma sub_one c s : ssub [c] s = cmem c s.
Proof.
  induction s as [|x s IH]; [reflexivity|]. cbn [ssub]. rewrite prefix1, IH. reflexivity.
Qed.

(** ** Digits *)
Lemma digits_dec x : digits x -> all_dec x = true /\ x <> [].
Proof.
  intros (Hn & H). split; [|exact Hn]. apply forallb_forall. intros c Hc. unfold is_dec. apply andb_true_iff. rewrite !N.leb_le. exact (H c Hc).
Qed.
Lemma digits_not x c : digits x -> ~ (48 <= c <= 57) -> ~ In c x.
Proof. intros (_ & H) Hc Hi. exact (Hc (H c Hi)). Qed.
Lemma digits_app x y : digits x -> digits y -> digits (x ++ y).
Proof. intros (Hn & H) (_ & H'). split; [destruct x; [easy|discriminate]|]. intros c Hc. apply in_app_or in Hc as [Hc|Hc]; auto. Qed.
Lemma together_digits f l : digits f -> triples l -> digits (together f l).
Proof.
  intros (Hn & Hf) Hl. split; [unfold together; destruct f; [easy|discriminate]|].
  intros c Hc. unfold together in Hc. apply in_app_or in Hc as [Hc|Hc]; [auto|]. apply in_concat in Hc as (g & Hg & Hc). exact (proj2 (proj1 (Hl g Hg)) c Hc).
Qed.
Lemma written_dec x : (forall c, In c x -> 48 <= c <= 57) -> forall a, fold_left (fun a c => (10 * a + (Z.of_N c - 48))%Z) x (Z.of_N a) = Z.of_N (dec_val a x).
Proof.
  induction x as [|c x IH]; intros H a; [reflexivity|]. cbn [fold_left dec_val]. rewrite <- IH by (intros d Hd; apply H; now right). f_equal.
  specialize (H c (or_introl eq_refl)). lia.
Qed.
Lemma int_signed sg x : sign sg -> digits x -> py_int (sg ++ x) = Ok (signed sg * written x)%Z.
Proof.
  intros Hs Hx. pose proof (digits_dec x Hx) as (Hd & Hn). unfold written. change 0%Z with (Z.of_N 0) at 1. rewrite (written_dec x (proj2 Hx)).
  destruct Hs as [->|[->| ->]].
  - cbn [Datatypes.app signed]. rewrite py_int_dec by assumption. now rewrite Z.mul_1_l.
  - unfold py_int, strip. cbn [Datatypes.app]. rewrite strip_none.
    2:{ intros c [<-|Hc]; [reflexivity|]. apply dec_not_space. exact (all_dec_In _ _ Hd Hc). }
    cbv beta iota. rewrite drop_us_dec by exact Hd. destruct x as [|c x]; [easy|]. rewrite Hd. reflexivity.
  - unfold py_int, strip. cbn [Datatypes.app]. rewrite strip_none.
    2:{ intros c [<-|Hc]; [reflexivity|]. apply dec_not_space. exact (all_dec_In _ _ Hd Hc). }
    cbv beta iota. rewrite drop_us_dec by exact Hd. destruct x as [|c x]; [easy|]. rewrite Hd. reflexivity.
Qed.
Lemma drop_us_keeps c b x y : c <> 95 -> drop_us b x = Some y -> In c x -> In c y.
Proof.
  intros Hc. revert b y; induction x as [|d x IH]; intros b y H Hi; [destruct Hi|]. cbn [drop_us] in H.
  destruct (N.eqb_spec d 95) as [->|_].
  - destruct Hi as [Hi|Hi]; [congruence|]. destruct (b && _); [|discriminate]. exact (IH _ _ H Hi).
  - destruct (drop_us (is_dec d) x) as [y'|] eqn:E; [|discriminate]. injection H as <-. destruct Hi as [->|Hi]; [now left|right]. exact (IH _ _ E Hi).
Qed.
(** [int()] refuses a text with a character that is neither digit, sign, space nor underscore *)
Lemma int_refuses c x : In c x -> is_dec c = false -> ~ In c wspace -> c <> 43 -> c <> 45 -> c <> 95 -> py_int x = Err ValueError.
Proof.
  intros Hi Hd Hw Hp Hm Hu. unfold py_int.
  assert (Ht : In c (strip x)).
  { unfold strip. destruct (strip_parts wspace x) as (p & q & E & Hp' & Hq' & _). rewrite E in Hi. apply in_app_or in Hi as [Hi|Hi]; [exfalso; exact (Hw (Hp' c Hi))|].
    apply in_app_or in Hi as [Hi|Hi]; [exact Hi|exfalso; exact (Hw (Hq' c Hi))]. }
  match goal with |- (let '(sg, b) := ?M in _) = _ => assert (In c (snd M)) as Hb; [|destruct M as [sg b]; cbn [snd] in Hb] end.
  { destruct (strip x) as [|d t]; [exact Ht|].
    destruct d as [|p]; [exact Ht|].
    do 6 (destruct p as [p|p|]; try exact Ht); (destruct Ht as [Ht|Ht]; [exfalso; congruence|exact Ht]). }
  destruct (drop_us false b) as [y|] eqn:E; [|reflexivity]. pose proof (drop_us_keeps c _ _ _ Hu E Hb) as Hy.
  destruct y as [|e y]; [reflexivity|]. destruct (all_dec (e :: y)) eqn:Ea; [|reflexivity]. rewrite (all_dec_In _ _ Ea Hy) in Hd. discriminate.
Qed.

(** ** The text of a number *)
Lemma csplit_groups t gs : forall w, ~ In t w -> (forall g, In g gs -> ~ In t g) -> csplit t (w ++ concat (map (fun g => t :: g) gs)) = w :: gs.
Proof.
  induction gs as [|g gs IH]; intros w Hw Hg; cbn [map concat].
  - rewrite app_nil_r. now apply csplit_no.
  - change ((t :: g) ++ concat (map (fun g => t :: g) gs)) with (t :: (g ++ concat (map (fun g => t :: g) gs))). rewrite csplit_app_sep by exact Hw.
    f_equal. apply IH; [apply Hg; now left|]. intros g' H. apply Hg. now right.
Qed.
Lemma three_all gs : triples gs -> all_three gs = true.
Proof.
  induction gs as [|g gs IH]; intros H; [reflexivity|]. cbn [all_three]. rewrite (proj2 (H g (or_introl eq_refl))). cbn [Nat.eqb andb].
  apply IH. intros g' Hg. apply H. now right.
Qed.
Definition tail_of (d : N) (o : option str) : str := match o with None => [] | Some f => d :: f end.
Definition frac_ok (o : option str) : Prop := match o with None => True | Some f => digits f end.
Definition nonempty {X} (l : list X) : bool := match l with [] => false | _ => true end.
Definition is_some {X} (o : option X) : bool := match o with None => false | _ => true end.

Section Body.
Variables (sg f : str) (gs : list str) (t d : N) (o : option str).
Hypotheses (Hs : sign sg) (Hf : digits f) (Hg : triples gs) (Ho : frac_ok o) (St : separator t) (Sd : separator d) (Htd : t <> d).
Definition body : str := sg ++ grouped t f gs ++ tail_of d o.
Definition plain : str := sg ++ together f gs ++ tail_of 46 o.

Lemma sg_in c : In c sg -> c = 45 \/ c = 43.
Proof using All. destruct Hs as [->|[->| ->]]; cbn; [intros []| |]; (intros [<-|[]]); auto. Qed.
Lemma sg_not c : c <> 45 -> c <> 43 -> ~ In c sg.
Proof using All. intros H1 H2 Hi. destruct (sg_in c Hi); congruence. Qed.
Lemma sep_facts c : separator c -> ~ (48 <= c <= 57) /\ c <> 40 /\ c <> 41 /\ c <> 43 /\ c <> 45 /\ c <> 101 /\ c <> 106 /\ clower c = c.
Proof. intros (H1 & H2 & H3). cbn in H2. repeat split; auto; try tauto; intros ->; apply H2; tauto. Qed.
Lemma gs_in c : In c (concat (map (fun g => t :: g) gs)) -> (c = t /\ gs <> []) \/ 48 <= c <= 57.
Proof using All.
  intros H. apply in_concat in H as (x & Hx & Hc). apply in_map_iff in Hx as (g & <- & Hgi). destruct Hc as [<-|Hc].
  - left. split; [reflexivity|]. intros E. rewrite E in Hgi. destruct Hgi.
  - right. exact (proj2 (proj1 (Hg g Hgi)) c Hc).
Qed.
Lemma body_in c : In c body -> (c = 45 \/ c = 43) \/ 48 <= c <= 57 \/ (c = t /\ gs <> []) \/ (c = d /\ is_some o = true).
Proof using All.
  unfold body, grouped. rewrite !in_app_iff. intros [H|[[H|H]|H]].
  - left. exact (sg_in c H).
  - right; left. exact (proj2 Hf c H).
  - destruct (gs_in c H) as [?|?]; tauto.
  - destruct o as [x|]; cbn [tail_of] in H; [|destruct H]. destruct H as [<-|H]; [right; right; right; split; reflexivity|]. right; left. exact (proj2 Ho c H).
Qed.
Lemma body_not c : c <> 45 -> c <> 43 -> ~ (48 <= c <= 57) -> c <> t -> c <> d -> cmem c body = false.
Proof using All. intros. apply cmem_false. intros H'. apply body_in in H'. tauto. Qed.
Lemma t_in : cmem t body = nonempty gs.
Proof using All.
  destruct (sep_facts t St) as (N1 & _ & _ & N2 & N3 & _). assert (gs = [] \/ exists g gs', gs = g :: gs') as [E|(g & gs' & E)] by (destruct gs; eauto).
  - replace (nonempty gs) with false by now rewrite E. apply cmem_false. intros H. apply body_in in H. tauto.
  - replace (nonempty gs) with true by now rewrite E. apply cmem_In. unfold body, grouped. rewrite E. cbn [map concat]. rewrite !in_app_iff. right; left; right; left. now left.
Qed.
Lemma d_in : cmem d body = is_some o.
Proof using All.
  destruct (sep_facts d Sd) as (N1 & _ & _ & N2 & N3 & _). assert (o = None \/ exists x, o = Some x) as [E|(x & E)] by (destruct o; eauto).
  - replace (is_some o) with false by now rewrite E. apply cmem_false. intros H. apply body_in in H. rewrite E in H. cbn [is_some] in H. destruct H as [H|[H|[[H _]|[_ H]]]]; try tauto; [congruence|discriminate].
  - replace (is_some o) with true by now rewrite E. apply cmem_In. unfold body. rewrite E. cbn [tail_of]. rewrite !in_app_iff. right; right. now left.
Qed.
Lemma body_lower : lower body = body.
Proof using All.
  unfold lower. rewrite <- (map_id body) at 2. apply map_ext_in. intros c Hc. apply body_in in Hc.
  destruct Hc as [[->| ->]|[H|[[-> _]|[-> _]]]]; [reflexivity|reflexivity| |apply (sep_facts t St)|apply (sep_facts d Sd)].
  unfold clower. repeat (match goal with |- context [?a <=? c] => destruct (N.leb_spec a c) end); cbn [andb]; try lia; repeat match goal with |- context [c =? ?k] => destruct (N.eqb_spec c k) end; try lia; reflexivity.
Qed.
Lemma body_edges : edge_free wspace body.
Proof using All.
  assert (D : forall c, 48 <= c <= 57 -> cmem c wspace = false).
  { intros c Hc. apply dec_not_space. unfold is_dec. apply andb_true_iff. now rewrite !N.leb_le. }
  destruct Hf as (Hn & Hfd). split.
  - unfold body, grouped. destruct sg; [|discriminate]. destruct f; [easy|discriminate].
  - intros c r [E|E].
    + unfold body, grouped in E. destruct Hs as [H|[H|H]]; rewrite H in E; cbn [Datatypes.app] in E.
      * destruct f as [|e f']; [easy|]. injection E as <- _. apply D. apply Hfd. now left.
      * injection E as <- _. reflexivity.
      * injection E as <- _. reflexivity.
    + assert (Hlast : forall x y e, x ++ y = r ++ [e] -> y <> [] -> exists y', y = y' ++ [e]).
      { intros x y e Hxy Hy. destruct (exists_last Hy) as (y' & e' & ->). rewrite app_assoc in Hxy. apply app_inj_tail in Hxy as [_ ->]. now exists y'. }
      unfold body, grouped in E.
      destruct o as [x|]; cbn [tail_of] in E.
      * cbn [frac_ok] in Ho. destruct Ho as (Hxn & Hx). rewrite app_assoc in E. apply Hlast in E as (y' & E); [|discriminate].
        destruct (exists_last Hxn) as (x' & e & ->). change (d :: x' ++ [e]) with ((d :: x') ++ [e]) in E. apply app_inj_tail in E as [_ <-].
        apply D. apply Hx. apply in_or_app. right. now left.
      * rewrite app_nil_r in E. destruct gs as [|g0 gs0] using rev_ind.
        -- cbn [map concat] in E. rewrite app_nil_r in E. apply Hlast in E as (y' & E); [|exact Hn]. rewrite E in Hfd. apply D, Hfd. apply in_or_app. right. now left.
        -- rewrite map_app, concat_app in E. cbn [map concat] in E. rewrite app_nil_r in E. rewrite !app_assoc in E. apply Hlast in E as (y' & E); [|discriminate].
           destruct (Hg g0) as ((Hgn & Hgd) & _); [apply in_or_app; right; now left|]. destruct (exists_last Hgn) as (x' & e & ->).
           change (t :: x' ++ [e]) with ((t :: x') ++ [e]) in E. apply app_inj_tail in E as [_ <-]. apply D, Hgd. apply in_or_app. right. now left.
Qed.
Lemma body_stripped l r : blank l -> blank r -> strip (l ++ body ++ r) = body.
Proof using All.
  intros Hl Hr. unfold strip. rewrite (strip_core wspace l body r body_edges). rewrite (lstrip_all wspace l Hl), (lstrip_all wspace (rev r)).
  - cbn [rev Datatypes.app]. apply app_nil_r.
  - intros c Hc. apply Hr. now apply in_rev.
Qed.
Lemma head_split : ~ In t (sg ++ f) /\ forall g, In g gs -> ~ In t g.
Proof using All.
  destruct (sep_facts t St) as (N1 & _ & _ & N2 & N3 & _). split.
  - rewrite in_app_iff. intros [H|H]; [exact (sg_not t N3 N2 H)|exact (digits_not f t Hf N1 H)].
  - intros g H. exact (digits_not g t (proj1 (Hg g H)) N1).
Qed.
Lemma thirds to : to = Some [t] \/ to = None ->
  match to with None => Ok tt | Some ts => rbind (py_split ts (sg ++ grouped t f gs)) (fun l => if all_three (tl l) then Ok tt else Err ValueError) end = Ok tt.
Proof using All.
  intros [->| ->]; [|reflexivity]. rewrite split_one. cbn [rbind]. unfold grouped. rewrite app_assoc.
  rewrite (csplit_groups t gs (sg ++ f) (proj1 head_split) (proj2 head_split)). cbn [tl]. now rewrite (three_all gs Hg).
Qed.
Lemma both_ok (b : bool) (m : res unit) (k : unit -> res unit) : b = false -> m = Ok tt -> k tt = Ok tt -> (if b then Err ValueError else rbind m k) = Ok tt.
Proof. now intros -> -> H. Qed.
Lemma checks k : (k = d \/ is_some o = false /\ k <> t /\ separator k) -> forall to : option str, to = Some [t] \/ to = None -> check [k] to body = Ok tt.
Proof using All.
  intros Hk to Hto. unfold check. rewrite split_one. cbn [rbind].
  assert (exists rest, csplit k body = (sg ++ grouped t f gs) :: rest /\ (length rest <= 1)%nat) as (rest & -> & Hlen).
  { assert (Hpre : forall c, separator c -> c <> t -> ~ In c (sg ++ grouped t f gs)).
    { intros c Sc Hct. destruct (sep_facts c Sc) as (N1 & _ & _ & N2 & N3 & _). unfold grouped. rewrite !in_app_iff. intros [H|[H|H]].
      - exact (sg_not c N3 N2 H).
      - exact (digits_not f c Hf N1 H).
      - destruct (gs_in c H) as [[? _]|?]; [congruence|tauto]. }
    unfold body. destruct o as [x|]; cbn [tail_of is_some] in *.
    - destruct Hk as [->|[? _]]; [|discriminate]. rewrite app_assoc. rewrite csplit_app_sep by (apply Hpre; [exact Sd|congruence]).
      exists [x]. split; [|cbn; lia]. f_equal. apply csplit_no. destruct (sep_facts d Sd) as (N1 & _). exact (digits_not x d Ho N1).
    - rewrite app_nil_r. exists []. split; [|cbn; lia]. apply csplit_no. destruct Hk as [->|(_ & Hk & Sk)]; apply Hpre; auto. }
  apply (both_ok _ _ (fun _ => _)); [destruct rest as [|x [|y rest]]; [reflexivity|reflexivity|exfalso; cbn in Hlen; lia]|exact (thirds to Hto)|].
  rewrite (body_not 101); [reflexivity|lia|lia|lia| |];
    [destruct (sep_facts t St) as (_ & _ & _ & _ & _ & ? & _)|destruct (sep_facts d Sd) as (_ & _ & _ & _ & _ & ? & _)]; congruence.
Qed.
Lemma no_j : cmem 106 body = false.
Proof using All.
  apply body_not; try lia; [destruct (sep_facts t St) as (_ & _ & _ & _ & _ & _ & ? & _)|destruct (sep_facts d Sd) as (_ & _ & _ & _ & _ & _ & ? & _)]; congruence.
Qed.
Lemma valid_body k : (k = d \/ is_some o = false /\ k <> t /\ separator k) -> forall to : option str, to = Some [t] \/ to = None -> validate [k] to body = Ok true.
Proof using All. intros Hk to Hto. unfold validate. rewrite no_j. cbv zeta. now rewrite (checks k Hk to Hto). Qed.
Lemma par_body (pn : bool) : (if pn then par_negative body else Ok body) = @Ok str body.
Proof using All.
  destruct pn; [|reflexivity]. unfold par_negative. destruct (sep_facts t St) as (_ & A1 & A2 & _). destruct (sep_facts d Sd) as (_ & B1 & B2 & _).
  unfold c_lpar, c_rpar. rewrite (body_not 40) by (auto; lia). rewrite (body_not 41) by (auto; lia). reflexivity.
Qed.
Lemma del_groups : py_replace [t] [] body = sg ++ together f gs ++ tail_of d o.
Proof using All.
  destruct (sep_facts t St) as (N1 & _ & _ & N2 & N3 & _). unfold body, grouped, together. rewrite !replace_app.
  rewrite (replace_no t [] sg) by exact (sg_not t N3 N2). rewrite (replace_no t [] f) by exact (digits_not f t Hf N1). f_equal. f_equal; [f_equal|].
  - clear -Hg N1. induction gs as [|g l IH]; [reflexivity|]. cbn [map concat]. rewrite replace_app, IH by (intros x Hx; apply Hg; now right).
    f_equal. rewrite replace_cons, N.eqb_refl. cbn [Datatypes.app]. apply replace_no. exact (digits_not g t (proj1 (Hg g (or_introl eq_refl))) N1).
  - apply replace_no. destruct o as [x|]; cbn [tail_of]; [|intros []]. intros [?|H]; [congruence|]. exact (digits_not x t Ho N1 H).
Qed.
Lemma dot_tail : py_replace [d] [46] (sg ++ together f gs ++ tail_of d o) = plain.
Proof using All.
  destruct (sep_facts d Sd) as (N1 & _ & _ & N2 & N3 & _). unfold plain. rewrite !replace_app. rewrite (replace_no d [46] sg) by exact (sg_not d N3 N2).
  rewrite (replace_no d [46] (together f gs)) by exact (digits_not _ d (together_digits f gs Hf Hg) N1). f_equal. f_equal.
  destruct o as [x|]; cbn [tail_of]; [|reflexivity]. rewrite replace_cons, N.eqb_refl. cbn [Datatypes.app]. f_equal. apply replace_no. exact (digits_not x d Ho N1).
Qed.
Lemma count_tail : (1 <? ccount d (sg ++ together f gs ++ tail_of d o))%nat = false.
Proof using All.
  destruct (sep_facts d Sd) as (N1 & _ & _ & N2 & N3 & _). rewrite !ccount_app.
  rewrite (proj2 (ccount_0 d sg)) by exact (sg_not d N3 N2). rewrite (proj2 (ccount_0 d _)) by exact (digits_not _ d (together_digits f gs Hf Hg) N1).
  destruct o as [x|]; cbn [tail_of ccount]; [|reflexivity]. rewrite N.eqb_refl, (proj2 (ccount_0 d x)) by exact (digits_not x d Ho N1). reflexivity.
Qed.
Lemma count_body : (1 <? ccount d body)%nat = false.
Proof using All.
  destruct (sep_facts d Sd) as (N1 & _ & _ & N2 & N3 & _). unfold body. rewrite !ccount_app.
  rewrite (proj2 (ccount_0 d sg)) by exact (sg_not d N3 N2).
  rewrite (proj2 (ccount_0 d (grouped t f gs))).
  2:{ unfold grouped. rewrite in_app_iff. intros [H|H]; [exact (digits_not f d Hf N1 H)|]. destruct (gs_in d H) as [[? _]|?]; [congruence|tauto]. }
  destruct o as [x|]; cbn [tail_of ccount]; [|reflexivity]. rewrite N.eqb_refl, (proj2 (ccount_0 d x)) by exact (digits_not x d Ho N1). reflexivity.
Qed.
End Body.
