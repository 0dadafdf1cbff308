(** * [to_number] on the numbers people write *)
From Coq Require Import String.
From Verif Require Import Py StrTools StrFacts StrFacts2 StrFacts3 OpsSpec Operations OpsFacts OpsFacts2 CleanFacts Caster CasterSpec CasterFacts.
Local Open Scope N_scope.

Section Num.
Context {F : Floats}.
Variables (sg f : str) (gs : list str) (o : option str).
Hypotheses (Hs : sign sg) (Hf : digits f) (Hg : triples gs) (Ho : frac_ok o).
Notation text := (plain sg f gs o).

(** what the plain text gives *)
Definition gives (r : res cnum) : Prop :=
  match o with
  | None => r = Ok (CI (signed sg * written (together f gs)))
  | Some _ => forall v, f_parse text = Ok v -> r = Ok (CF v)
  end.
Lemma text_gives x ds ts pn : cleaner ds ts pn x = Ok (Some text) -> gives (to_number (NText x) ds ts pn).
Proof using All.
  intros E. unfold gives, to_number. rewrite E. cbn [rbind]. unfold plain in *. destruct o as [y|].
  - intros v Hv. unfold caster. cbn [tail_of] in *. rewrite (int_refuses 46); [| |reflexivity| |discriminate|discriminate|discriminate].
    + rewrite Hv. cbn [rbind]. replace (cmem c_dot _) with true; [cbn [negb]; now rewrite andb_false_r|]. symmetry. apply cmem_In. rewrite !in_app_iff. right; right. now left.
    + rewrite !in_app_iff. right; right. now left.
    + apply cmem_false. reflexivity.
  - cbn [tail_of]. rewrite app_nil_r. unfold caster. rewrite (int_signed sg (together f gs) Hs (together_digits f gs Hf Hg)). reflexivity.
Qed.
Lemma plain_tail : sg ++ together f gs ++ tail_of 46 o = text. Proof. reflexivity. Qed.
Lemma mid_not c d : c <> 45 -> c <> 43 -> ~ (48 <= c <= 57) -> c <> d -> cmem c (sg ++ together f gs ++ tail_of d o) = false.
Proof using All.
  intros H1 H2 H3 H4. apply cmem_false. rewrite !in_app_iff. intros [H|[H|H]].
  - destruct Hs as [E|[E|E]]; rewrite E in H; cbn in H; intuition congruence.
  - exact (digits_not _ c (together_digits f gs Hf Hg) H3 H).
  - destruct o as [y|]; cbn [tail_of] in H; [|destruct H]. destruct H as [H|H]; [congruence|]. exact (digits_not y c Ho H3 H).
Qed.
Lemma mid_in d : cmem d (sg ++ together f gs ++ tail_of d o) = true \/ o = None.
Proof using All. destruct o as [y|]; [left|now right]. apply cmem_In. rewrite !in_app_iff. right; right. now left. Qed.
Lemma groups_none t : gs = [] -> body sg f gs t 46 o = sg ++ together f gs ++ tail_of 46 o.
Proof. intros ->. reflexivity. Qed.

Lemma sep_of c : existsb (N.eqb c) [39; 96; 180; 32; 44; 112; 46] = true -> separator c.
Proof.
  intros H. apply existsb_exists in H as (k & Hk & E). apply N.eqb_eq in E. subst k.
  assert (B : forallb (fun c => negb (is_dec c) && negb (cmem c [40; 41; 43; 45; 101; 106]) && (clower c =? c)) [39; 96; 180; 32; 44; 112; 46] = true) by reflexivity.
  rewrite forallb_forall in B. specialize (B c Hk). rewrite !andb_true_iff, !negb_true_iff in B. destruct B as ((B1 & B2) & B3). split; [|split].
  - intros H. unfold is_dec in B1. apply andb_false_iff in B1. rewrite !N.leb_gt in B1. lia.
  - intros H. apply (proj1 (cmem_false _ _) B2 H).
  - now apply N.eqb_eq.
Qed.

(** the automatic separators *)
Lemma auto_clean t d pn x : In t [39; 96; 180; 32] -> In d [44; 112; 46] -> lower (strip x) = body sg f gs t d o -> cleaner auto auto pn x = Ok (Some text).
Proof using All.
  intros It Id E.
  assert (St : separator t) by (apply sep_of; apply existsb_exists; exists t; split; [cbn in *; tauto|apply N.eqb_refl]).
  assert (Sd : separator d) by (apply sep_of; apply existsb_exists; exists d; split; [cbn in *; tauto|apply N.eqb_refl]).
  assert (Htd : t <> d) by (cbn in It, Id; intros ->; intuition congruence).
  unfold cleaner. rewrite E. cbv zeta. rewrite (par_body sg f gs t d o Hs Hf Hg Ho St Sd Htd pn). cbn [rbind].
  assert (Hno : forall c, c <> 45 -> c <> 43 -> ~ (48 <= c <= 57) -> c <> t -> c <> d -> cmem c (body sg f gs t d o) = false)
    by exact (body_not sg f gs t d o Hs Hf Hg Ho St Sd Htd).
  assert (E1 : cmem 44 (body sg f gs t d o) && cmem 46 (body sg f gs t d o) = false).
  { destruct Id as [<-|[<-|[<-|[]]]]; [rewrite (Hno 46) by (cbn in It; intuition (congruence || lia)); apply andb_false_r|
      rewrite (Hno 44) by (cbn in It; intuition (congruence || lia)); reflexivity|rewrite (Hno 44) by (cbn in It; intuition (congruence || lia)); reflexivity]. }
  rewrite E1, andb_false_r.
  assert (E2 : exists to : option str, (to = Some [t] \/ to = None) /\ thousands auto (body sg f gs t d o) (body sg f gs t d o) = (to, sg ++ together f gs ++ tail_of d o)).
  { unfold thousands. replace (seqb (strip auto) auto) with true by reflexivity.
    assert (Hf1 : find (fun t0 => ssub t0 (body sg f gs t d o)) auto_ts = if nonempty gs then Some [t] else None).
    { pose proof (t_in sg f gs t d o Hs Hf Hg Ho St Sd Htd) as Ti. unfold auto_ts. cbn [find]. rewrite !sub_one.
      destruct It as [<-|[<-|[<-|[<-|[]]]]]; rewrite Ti; destruct (nonempty gs); try reflexivity;
        repeat (rewrite Hno; [|lia|lia|lia|lia|cbn in Id; intros Hd; intuition congruence]); try reflexivity. }
    rewrite Hf1. destruct (nonempty gs) eqn:En.
    - exists (Some [t]). split; [now left|]. f_equal. exact (del_groups sg f gs t d o Hs Hf Hg Ho St Sd Htd).
    - exists None. split; [now right|]. f_equal. assert (Hgs : gs = []) by (destruct gs; [reflexivity|discriminate]). unfold body, together, grouped. rewrite Hgs. reflexivity. }
  destruct E2 as (to & Hto & E2). rewrite E2.
  assert (E3 : exists k, (k = d \/ is_some o = false /\ k <> t /\ separator k) /\ decimals auto (body sg f gs t d o) (sg ++ together f gs ++ tail_of d o) = Ok ([k], text)).
  { unfold decimals, c_dot. replace (seqb (strip auto) auto) with true by reflexivity.
    destruct (mid_in d) as [Hd|Hn].
    - exists d. split; [now left|].
      assert (Hf2 : find (fun d0 => ssub d0 (sg ++ together f gs ++ tail_of d o)) auto_ds = Some [d]).
      { unfold auto_ds. cbn [find]. rewrite !sub_one. pose proof (fun c => mid_not c d) as Mn. 
        destruct Id as [<-|[<-|[<-|[]]]]; rewrite Hd; try reflexivity; repeat (rewrite Mn; [|lia|lia|lia|lia]); reflexivity. }
      rewrite Hf2. rewrite count_one, (count_tail sg f gs t d o Hs Hf Hg Ho St Sd Htd). cbn [andb]. rewrite (dot_tail sg f gs t d o Hs Hf Hg Ho St Sd Htd). reflexivity.
    - exists 46. split; [right; split; [now rewrite Hn|split; [cbn in It; intros Ht; intuition congruence|apply sep_of; reflexivity]]|].
      assert (Hf2 : find (fun d0 => ssub d0 (sg ++ together f gs ++ tail_of d o)) auto_ds = None).
      { unfold auto_ds. cbn [find]. rewrite !sub_one. rewrite Hn. cbn [tail_of].
        pose proof (fun c => mid_not c 0) as Mn. rewrite Hn in Mn. cbn [tail_of] in Mn. repeat (rewrite Mn; [|lia|lia|lia|lia]). reflexivity. }
      rewrite Hf2. unfold plain. rewrite Hn. reflexivity. }
  destruct E3 as (k & Hk & E3). rewrite E3. cbn [rbind]. now rewrite (valid_body sg f gs t d o Hs Hf Hg Ho St Sd Htd k Hk to Hto).
Qed.

(** the separators given by the caller *)
Lemma strip_char c : strip [c] <> auto.
Proof.
  assert (H : (length (strip [c]) <= 1)%nat).
  { unfold strip. destruct (strip_parts wspace [c]) as (p & q & E & _). apply (f_equal (@length _)) in E. rewrite !app_length in E. cbn [length] in E. change N with chr in *. lia. }
  intros E. rewrite E in H. cbv in H. lia.
Qed.
Lemma told_clean t d pn x : separator t -> separator d -> t <> d -> lower (strip x) = body sg f gs t d o -> cleaner [d] [t] pn x = Ok (Some text).
Proof using All.
  intros St Sd Htd E. unfold cleaner. rewrite E. cbv zeta. rewrite (par_body sg f gs t d o Hs Hf Hg Ho St Sd Htd pn). cbn [rbind].
  destruct ((smem [t] [auto; [46]] && smem [d] [auto; [44]]) && (cmem 44 (body sg f gs t d o) && cmem 46 (body sg f gs t d o))) eqn:B.
  - rewrite !andb_true_iff in B. destruct B as ((B1 & B2) & _).
    assert (t = 46) as -> by (apply smem_In in B1; destruct B1 as [B|[B|[]]]; [apply (f_equal (@length _)) in B; discriminate B|injection B as <-; reflexivity]).
    assert (d = 44) as -> by (apply smem_In in B2; destruct B2 as [B|[B|[]]]; [apply (f_equal (@length _)) in B; discriminate B|injection B as <-; reflexivity]).
    match goal with |- rbind ?v _ = _ => replace v with (@Ok bool true); [cbn [rbind]|symmetry;
    exact (valid_body sg f gs 46 44 o Hs Hf Hg Ho St Sd Htd 44 (or_introl eq_refl) (Some [46]) (or_introl eq_refl))] end.
    rewrite (del_groups sg f gs 46 44 o Hs Hf Hg Ho St Sd Htd), (dot_tail sg f gs 46 44 o Hs Hf Hg Ho St Sd Htd). reflexivity.
  - unfold thousands. replace (seqb (strip [t]) auto) with false by (symmetry; apply seqb_neq, strip_char).
    rewrite (del_groups sg f gs t d o Hs Hf Hg Ho St Sd Htd). unfold decimals, c_dot. replace (seqb (strip [d]) auto) with false by (symmetry; apply seqb_neq, strip_char).
    rewrite count_one, (count_body sg f gs t d o Hs Hf Hg Ho St Sd Htd), (dot_tail sg f gs t d o Hs Hf Hg Ho St Sd Htd). cbn [rbind].
    match goal with |- rbind ?v _ = _ => replace v with (@Ok bool true); [reflexivity|] end. symmetry.
    exact (valid_body sg f gs t d o Hs Hf Hg Ho St Sd Htd d (or_introl eq_refl) (Some [t]) (or_introl eq_refl)).
Qed.
(** points and a comma *)
Lemma european_clean pn x : gs <> [] -> o <> None -> lower (strip x) = body sg f gs 46 44 o -> cleaner auto auto pn x = Ok (Some text).
Proof using All.
  intros Hgs Hon E.
  assert (St : separator 46) by (apply sep_of; reflexivity). assert (Sd : separator 44) by (apply sep_of; reflexivity). assert (Htd : 46 <> 44) by lia.
  unfold cleaner. rewrite E. cbv zeta. rewrite (par_body sg f gs 46 44 o Hs Hf Hg Ho St Sd Htd pn). cbn [rbind].
  rewrite (t_in sg f gs 46 44 o Hs Hf Hg Ho St Sd Htd), (d_in sg f gs 46 44 o Hs Hf Hg Ho St Sd Htd).
  replace (nonempty gs) with true by (destruct gs; [contradiction|reflexivity]). replace (is_some o) with true by (destruct o; [reflexivity|contradiction]).
  replace (smem auto [auto; [46]]) with true by reflexivity. replace (smem auto [auto; [44]]) with true by reflexivity. cbn [andb].
  match goal with |- rbind ?v _ = _ => replace v with (@Ok bool true); [cbn [rbind]|symmetry;
    exact (valid_body sg f gs 46 44 o Hs Hf Hg Ho St Sd Htd 44 (or_introl eq_refl) (Some [46]) (or_introl eq_refl))] end.
  rewrite (del_groups sg f gs 46 44 o Hs Hf Hg Ho St Sd Htd), (dot_tail sg f gs 46 44 o Hs Hf Hg Ho St Sd Htd). reflexivity.
Qed.
End Num.

Section More.
Context {F : Floats}.

(** brackets *)
Lemma brackets_clean f d o x : digits f -> frac_ok o -> In d [44; 112; 46] -> lower (strip x) = c_lpar :: (f ++ tail_of d o) ++ [c_rpar] ->
  cleaner auto auto true x = Ok (Some (plain [45] f [] o)).
Proof.
  intros Hf Ho Id E. unfold cleaner. rewrite E. cbv zeta. set (y := f ++ tail_of d o). set (z := c_lpar :: y ++ [c_rpar]).
  assert (Hs : sign [45]) by (right; now left). assert (Hg : triples []) by (intros g []).
  assert (Sd : separator d) by (apply sep_of; apply existsb_exists; exists d; split; [cbn in *; tauto|apply N.eqb_refl]).
  destruct (sep_facts d Sd) as (D1 & D2 & D3 & D4 & D5 & D6 & D7 & D8).
  assert (Yn : forall c, ~ (48 <= c <= 57) -> c <> d -> ~ In c y).
  { intros c H1 H2 Hi. unfold y in Hi. apply in_app_or in Hi as [Hi|Hi]; [exact (digits_not f c Hf H1 Hi)|].
    destruct o as [v|]; cbn [tail_of] in Hi; [|destruct Hi]. destruct Hi as [Hi|Hi]; [congruence|exact (digits_not v c Ho H1 Hi)]. }
  assert (Zn : forall c, ~ (48 <= c <= 57) -> c <> d -> c <> 40 -> c <> 41 -> ~ In c z).
  { intros c H1 H2 H3 H4 [Hi|Hi]; [unfold c_lpar in Hi; congruence|]. apply in_app_or in Hi as [Hi|[Hi|[]]]; [exact (Yn c H1 H2 Hi)|unfold c_rpar in Hi; congruence]. }
  assert (Hp : par_negative z = Ok (c_minus :: y)).
  { unfold par_negative. replace (cmem c_lpar z) with true by reflexivity.
    replace (cmem c_rpar z) with true by (symmetry; apply cmem_In; right; apply in_or_app; right; now left). cbn [negb].
    rewrite (proj2 (cmem_false 106 z)) by (apply Zn; try lia; congruence).
    replace (ccount c_lpar z) with 1%nat.
    2:{ unfold z. cbn [ccount]. rewrite N.eqb_refl, ccount_app. rewrite (proj2 (ccount_0 c_lpar y)) by (unfold c_lpar; apply Yn; [lia|congruence]). reflexivity. }
    replace (ccount c_rpar z) with 1%nat.
    2:{ unfold z. cbn [ccount]. rewrite ccount_app. rewrite (proj2 (ccount_0 c_rpar y)) by (unfold c_rpar; apply Yn; [lia|congruence]). reflexivity. }
    replace (last_chr z) with c_rpar by (unfold last_chr, z; change (c_lpar :: y ++ [c_rpar]) with ((c_lpar :: y) ++ [c_rpar]); now rewrite last_last).
    cbn [hd z]. rewrite !N.eqb_refl. cbn [Nat.eqb andb]. rewrite (proj2 (cmem_false c_minus z)) by (apply Zn; unfold c_minus; try lia; congruence).
    f_equal. f_equal. unfold z. rewrite replace_cons, N.eqb_refl. cbn [Datatypes.app].
    rewrite (replace_no c_lpar [] (y ++ [c_rpar])).
    - rewrite replace_app, replace_it, app_nil_r. apply replace_no. apply Yn; [unfold c_rpar; lia|unfold c_rpar; congruence].
    - rewrite in_app_iff. intros [Hi|[Hi|[]]]; [revert Hi; apply Yn; unfold c_lpar; [lia|congruence]|discriminate Hi]. }
  cbn [smem]. match goal with |- rbind ?v _ = _ => replace v with (@Ok str (c_minus :: y)) by (symmetry; exact Hp) end. cbn [rbind].
  assert (Em : c_minus :: y = [45] ++ together f [] ++ tail_of d o) by (unfold together, y; cbn [concat]; rewrite app_nil_r; reflexivity).
  assert (Mn : forall c, c <> 45 -> c <> 43 -> ~ (48 <= c <= 57) -> c <> d -> cmem c (c_minus :: y) = false).
  { intros c H1 H2 H3 H4. rewrite Em. apply mid_not; assumption. }
  assert (E1 : cmem 44 (c_minus :: y) && cmem 46 (c_minus :: y) = false).
  { destruct Id as [<-|[<-|[<-|[]]]]; [rewrite (Mn 46) by lia; apply andb_false_r|rewrite (Mn 44) by lia; reflexivity|rewrite (Mn 44) by lia; reflexivity]. }
  rewrite E1, andb_false_r.
  assert (E2 : thousands auto z (c_minus :: y) = (None, c_minus :: y)).
  { unfold thousands. replace (seqb (strip auto) auto) with true by reflexivity. unfold auto_ts. cbn [find]. rewrite !sub_one.
    rewrite !(proj2 (cmem_false _ z)); [reflexivity| | | |]; apply Zn; try lia; cbn in Id; intros Hd; intuition congruence. }
  rewrite E2.
  assert (E3 : exists k, (k = d \/ o = None /\ k = 46) /\ decimals auto z (c_minus :: y) = Ok ([k], plain [45] f [] o)).
  { unfold decimals, c_dot. replace (seqb (strip auto) auto) with true by reflexivity. rewrite Em.
    destruct (mid_in [45] f [] o Hs Hf Hg Ho d) as [Hd|Hn].
    - exists d. split; [now left|].
      assert (Hf2 : find (fun d0 => ssub d0 ([45] ++ together f [] ++ tail_of d o)) auto_ds = Some [d]).
      { unfold auto_ds. cbn [find]. rewrite !sub_one. pose proof (fun c => mid_not [45] f [] o Hs Hf Hg Ho c d) as Mn2.
        destruct Id as [<-|[<-|[<-|[]]]]; rewrite Hd; try reflexivity; repeat (rewrite Mn2; [|lia|lia|lia|lia]); reflexivity. }
      assert (St : separator 39) by (apply sep_of; reflexivity). assert (Htd : 39 <> d) by (cbn in Id; intros Hd'; intuition congruence).
      rewrite Hf2. rewrite count_one, (count_tail [45] f [] 39 d o Hs Hf Hg Ho St Sd Htd). cbn [andb]. rewrite (dot_tail [45] f [] 39 d o Hs Hf Hg Ho St Sd Htd). reflexivity.
    - exists 46. split; [right; now split|].
      assert (Hf2 : find (fun d0 => ssub d0 ([45] ++ together f [] ++ tail_of d o)) auto_ds = None).
      { unfold auto_ds. cbn [find]. rewrite !sub_one. rewrite Hn. cbn [tail_of].
        pose proof (fun c => mid_not [45] f [] o Hs Hf Hg Ho c 0) as Mn2. rewrite Hn in Mn2. cbn [tail_of] in Mn2. repeat (rewrite Mn2; [|lia|lia|lia|lia]). reflexivity. }
      rewrite Hf2. unfold plain. rewrite Hn. reflexivity. }
  destruct E3 as (k & Hk & E3). rewrite E3. cbn [rbind].
  assert (V : validate [k] None z = Ok true).
  { unfold validate. rewrite (proj2 (cmem_false 106 z)) by (apply Zn; try lia; congruence). cbv zeta. unfold check. rewrite split_one. cbn [rbind].
    assert (L : (2 <? length (csplit k z))%nat = false).
    { apply Nat.ltb_ge. rewrite csplit_length. assert (Ck : (ccount k z <= 1)%nat); [|lia].
      unfold z. cbn [ccount]. rewrite ccount_app. cbn [ccount].
      assert (Sk : separator k) by (destruct Hk as [->|[_ ->]]; [exact Sd|apply sep_of; reflexivity]).
      destruct (sep_facts k Sk) as (K1 & K2 & K3 & _). unfold c_lpar, c_rpar. destruct (N.eqb_spec 40 k); [congruence|]. destruct (N.eqb_spec 41 k); [congruence|].
      unfold y. rewrite ccount_app. rewrite (proj2 (ccount_0 k f)) by exact (digits_not f k Hf K1).
      destruct o as [v|]; cbn [tail_of ccount]; [|lia]. rewrite (proj2 (ccount_0 k v)) by exact (digits_not v k Ho K1). destruct (d =? k); lia. }
    rewrite L. cbn [rbind]. rewrite (proj2 (cmem_false 101 z)) by (apply Zn; try lia; congruence). reflexivity. }
  now rewrite V.
Qed.

(** exponents *)
Lemma exponent_clean sg f e pn x : sign sg -> digits f -> digits e -> lower (strip x) = sg ++ f ++ 101 :: e -> cleaner auto auto pn x = Ok (Some (sg ++ f ++ 101 :: e)).
Proof.
  intros Hs Hf He E. unfold cleaner. rewrite E. cbv zeta. set (z := sg ++ f ++ 101 :: e).
  assert (Zn : forall c, c <> 45 -> c <> 43 -> ~ (48 <= c <= 57) -> c <> 101 -> cmem c z = false).
  { intros c H1 H2 H3 H4. apply cmem_false. unfold z. rewrite !in_app_iff. intros [H|[H|[H|H]]].
    - destruct Hs as [S|[S|S]]; rewrite S in H; cbn in H; intuition congruence.
    - exact (digits_not f c Hf H3 H).
    - congruence.
    - exact (digits_not e c He H3 H). }
  assert (Hp : (if pn then par_negative z else Ok z) = @Ok str z).
  { destruct pn; [|reflexivity]. unfold par_negative, c_lpar, c_rpar. rewrite !Zn by lia. reflexivity. }
  match goal with |- rbind ?v _ = _ => replace v with (@Ok str z) by (symmetry; exact Hp) end. cbn [rbind].
  rewrite (Zn 44) by lia. cbn [andb]. rewrite andb_false_r.
  unfold thousands, decimals. replace (seqb (strip auto) auto) with true by reflexivity. unfold auto_ts, auto_ds. cbn [find]. rewrite !sub_one.
  rewrite (Zn 39), (Zn 96), (Zn 180), (Zn 32) by lia. rewrite !sub_one. rewrite (Zn 44), (Zn 112), (Zn 46) by lia. cbn [rbind].
  match goal with |- rbind ?v _ = _ => replace v with (@Ok bool true); [reflexivity|] end. symmetry.
  unfold validate. rewrite (Zn 106) by lia. cbv zeta. unfold check. rewrite split_one.
  rewrite (csplit_no 46 z) by (apply cmem_false, Zn; lia). cbn [rbind length]. cbn [Nat.ltb Nat.leb rbind].
  replace (cmem 101 z) with true by (symmetry; apply cmem_In; unfold z; rewrite !in_app_iff; right; right; now left).
  rewrite (Zn 106) by lia.
  assert (Hsp : csplit 101 z = [sg ++ f; e]).
  { unfold z. rewrite app_assoc. rewrite csplit_app_sep.
    - f_equal. apply csplit_no. apply (digits_not e 101 He). lia.
    - rewrite in_app_iff. intros [H|H]; [destruct Hs as [S|[S|S]]; rewrite S in H; cbn in H; intuition congruence|exact (digits_not f 101 Hf ltac:(lia) H)]. }
  rewrite Hsp. cbn [last]. replace (all_digit e) with true; [reflexivity|]. symmetry. destruct (digits_dec e He) as (Hd & Hn). destruct e as [|c e]; [easy|].
  unfold all_digit. apply forallb_forall. intros k Hk. unfold isdigit. rewrite (all_dec_In _ _ Hd Hk). reflexivity.
Qed.
Lemma exponent_gives sg f e pn x v z : sign sg -> digits f -> digits e -> lower (strip x) = sg ++ f ++ 101 :: e ->
  f_parse (sg ++ f ++ 101 :: e) = Ok v -> f_int v = Ok z -> f_eqZ v z = true -> to_number (NText x) auto auto pn = Ok (CI z).
Proof.
  intros Hs Hf He E Hv Hz Hq. unfold to_number. rewrite (exponent_clean sg f e pn x Hs Hf He E). cbn [rbind]. unfold caster.
  rewrite (int_refuses 101); [|rewrite !in_app_iff; right; right; now left|reflexivity|apply cmem_false; reflexivity|lia|lia|lia].
  rewrite Hv. cbn [rbind]. replace (cmem 69 (upper (sg ++ f ++ 101 :: e))) with true.
  2:{ symmetry. apply cmem_In. unfold upper. rewrite !map_app. rewrite !in_app_iff. right; right. now left. }
  replace (cmem c_dot (sg ++ f ++ 101 :: e)) with false.
  2:{ symmetry. apply cmem_false. rewrite !in_app_iff. intros [H|[H|[H|H]]].
      - destruct Hs as [S|[S|S]]; rewrite S in H; unfold c_dot in H; cbn in H; intuition congruence.
      - revert H. apply (digits_not f 46 Hf). lia.
      - discriminate H.
      - revert H. apply (digits_not e 46 He). lia. }
  cbn [andb negb]. rewrite Hz. cbn [rbind]. now rewrite Hq.
Qed.
End More.
