(** * C64: reading a number from a text *)
From Coq Require Import String.
From Verif Require Import Py StrTools StrFacts StrFacts2 StrFacts3 OpsSpec Operations OpsFacts OpsFacts2 CleanFacts Caster CasterSpec CasterFacts CasterFacts2 CasterFacts3.
Local Open Scope N_scope.

(** ** The automatic separators *)
(** a whole number, with or without groups of three (apostrophe, grave or acute accent, space), is read exactly, whatever its size *)
Theorem C64_whole : forall (F : Floats) l r sg f gs t pn, blank l -> blank r -> sign sg -> digits f -> triples gs -> In t [39; 96; 180; 32] ->
  to_number (NText (l ++ sg ++ grouped t f gs ++ r)) auto auto pn = Ok (CI (signed sg * written (together f gs))).
Proof.
  intros F l r sg f gs t pn Hl Hr Hs Hf Hg It.
  assert (St : separator t) by (apply sep_of; apply existsb_exists; exists t; split; [cbn in *; tauto|apply N.eqb_refl]).
  assert (Sd : separator 46) by (apply sep_of; reflexivity). assert (Htd : t <> 46) by (cbn in It; intros E; intuition congruence).
  assert (Ho : frac_ok None) by exact I.
  replace (sg ++ grouped t f gs ++ r) with (body sg f gs t 46 None ++ r) by (unfold body; cbn [tail_of]; now rewrite app_nil_r, app_assoc).
  exact (text_gives sg f gs None Hs Hf Hg Ho _ _ _ _ (auto_clean sg f gs None Hs Hf Hg Ho t 46 pn _ It ltac:(cbn; tauto)
    (eq_trans (f_equal lower (body_stripped sg f gs t 46 None Hs Hf Hg Ho St Sd Htd l r Hl Hr)) (body_lower sg f gs t 46 None Hs Hf Hg Ho St Sd Htd)))).
Qed.
Print Assumptions C64_whole.
(** a number with decimals after a comma, a dot or a "p" is the float of the same number written plainly *)
Theorem C64_decimal : forall (F : Floats) l r sg f gs t d y pn v, blank l -> blank r -> sign sg -> digits f -> triples gs -> digits y ->
  In t [39; 96; 180; 32] -> In d [44; 112; 46] -> f_parse (sg ++ together f gs ++ u "." ++ y) = Ok v ->
  to_number (NText (l ++ sg ++ grouped t f gs ++ (d :: y) ++ r)) auto auto pn = Ok (CF v).
Proof.
  intros F l r sg f gs t d y pn v Hl Hr Hs Hf Hg Hy It Id Hv.
  assert (St : separator t) by (apply sep_of; apply existsb_exists; exists t; split; [cbn in *; tauto|apply N.eqb_refl]).
  assert (Sd : separator d) by (apply sep_of; apply existsb_exists; exists d; split; [cbn in *; tauto|apply N.eqb_refl]).
  assert (Htd : t <> d) by (cbn in It, Id; intros ->; intuition congruence).
  assert (Ho : frac_ok (Some y)) by exact Hy.
  replace (sg ++ grouped t f gs ++ (d :: y) ++ r) with (body sg f gs t d (Some y) ++ r) by (unfold body; cbn [tail_of]; now rewrite !app_assoc).
  exact (text_gives sg f gs (Some y) Hs Hf Hg Ho _ _ _ _ (auto_clean sg f gs (Some y) Hs Hf Hg Ho t d pn _ It Id
    (eq_trans (f_equal lower (body_stripped sg f gs t d (Some y) Hs Hf Hg Ho St Sd Htd l r Hl Hr)) (body_lower sg f gs t d (Some y) Hs Hf Hg Ho St Sd Htd))) v Hv).
Qed.
Print Assumptions C64_decimal.
(** points between the thousands and a comma before the decimals *)
Theorem C64_european : forall (F : Floats) l r sg f gs y pn v, blank l -> blank r -> sign sg -> digits f -> triples gs -> gs <> [] -> digits y ->
  f_parse (sg ++ together f gs ++ u "." ++ y) = Ok v ->
  to_number (NText (l ++ sg ++ grouped 46 f gs ++ (44 :: y) ++ r)) auto auto pn = Ok (CF v).
Proof.
  intros F l r sg f gs y pn v Hl Hr Hs Hf Hg Hgs Hy Hv.
  assert (St : separator 46) by (apply sep_of; reflexivity). assert (Sd : separator 44) by (apply sep_of; reflexivity).
  assert (Htd : 46 <> 44) by lia. assert (Ho : frac_ok (Some y)) by exact Hy.
  replace (sg ++ grouped 46 f gs ++ (44 :: y) ++ r) with (body sg f gs 46 44 (Some y) ++ r) by (unfold body; cbn [tail_of]; now rewrite !app_assoc).
  exact (text_gives sg f gs (Some y) Hs Hf Hg Ho _ _ _ _ (european_clean sg f gs (Some y) Hs Hf Hg Ho pn _ Hgs ltac:(discriminate)
    (eq_trans (f_equal lower (body_stripped sg f gs 46 44 (Some y) Hs Hf Hg Ho St Sd Htd l r Hl Hr)) (body_lower sg f gs 46 44 (Some y) Hs Hf Hg Ho St Sd Htd))) v Hv).
Qed.
Print Assumptions C64_european.

(** ** The separators the caller gives *)
(** any two different characters that are no part of a number *)
Theorem C64_told_whole : forall (F : Floats) l r sg f gs t d pn, blank l -> blank r -> sign sg -> digits f -> triples gs ->
  separator t -> separator d -> t <> d ->
  to_number (NText (l ++ sg ++ grouped t f gs ++ r)) [d] [t] pn = Ok (CI (signed sg * written (together f gs))).
Proof.
  intros F l r sg f gs t d pn Hl Hr Hs Hf Hg St Sd Htd. assert (Ho : frac_ok None) by exact I.
  replace (sg ++ grouped t f gs ++ r) with (body sg f gs t d None ++ r) by (unfold body; cbn [tail_of]; now rewrite app_nil_r, app_assoc).
  exact (text_gives sg f gs None Hs Hf Hg Ho _ _ _ _ (told_clean sg f gs None Hs Hf Hg Ho t d pn _ St Sd Htd
    (eq_trans (f_equal lower (body_stripped sg f gs t d None Hs Hf Hg Ho St Sd Htd l r Hl Hr)) (body_lower sg f gs t d None Hs Hf Hg Ho St Sd Htd)))).
Qed.
Print Assumptions C64_told_whole.
Theorem C64_told_decimal : forall (F : Floats) l r sg f gs t d y pn v, blank l -> blank r -> sign sg -> digits f -> triples gs -> digits y ->
  separator t -> separator d -> t <> d -> f_parse (sg ++ together f gs ++ u "." ++ y) = Ok v ->
  to_number (NText (l ++ sg ++ grouped t f gs ++ (d :: y) ++ r)) [d] [t] pn = Ok (CF v).
Proof.
  intros F l r sg f gs t d y pn v Hl Hr Hs Hf Hg Hy St Sd Htd Hv. assert (Ho : frac_ok (Some y)) by exact Hy.
  replace (sg ++ grouped t f gs ++ (d :: y) ++ r) with (body sg f gs t d (Some y) ++ r) by (unfold body; cbn [tail_of]; now rewrite !app_assoc).
  exact (text_gives sg f gs (Some y) Hs Hf Hg Ho _ _ _ _ (told_clean sg f gs (Some y) Hs Hf Hg Ho t d pn _ St Sd Htd
    (eq_trans (f_equal lower (body_stripped sg f gs t d (Some y) Hs Hf Hg Ho St Sd Htd l r Hl Hr)) (body_lower sg f gs t d (Some y) Hs Hf Hg Ho St Sd Htd))) v Hv).
Qed.
Print Assumptions C64_told_decimal.

(** ** Brackets and exponents *)
(** a number without separators between brackets is negative *)
Theorem C64_brackets_whole : forall (F : Floats) l r f, blank l -> blank r -> digits f ->
  to_number (NText (l ++ (u "(" ++ f ++ u ")") ++ r)) auto auto true = Ok (CI (- written f)).
Proof.
  intros F l r f Hl Hr Hf. assert (Ho : frac_ok None) by exact I. assert (Hs : sign [45]) by (right; now left). assert (Hg : triples []) by (intros g []).
  assert (E : lower (strip (l ++ (u "(" ++ f ++ u ")") ++ r)) = c_lpar :: (f ++ tail_of 46 None) ++ [c_rpar]).
  { cbn [tail_of]. rewrite app_nil_r. change (u "(" ++ f ++ u ")") with (c_lpar :: f ++ [c_rpar]).
    rewrite (around l r _ Hl Hr (brackets_tight f)). pose proof (lower_brackets f 46 None Hf Ho eq_refl) as K. cbn [tail_of] in K. now rewrite app_nil_r in K. }
  pose proof (text_gives [45] f [] None Hs Hf Hg Ho _ _ _ _ (brackets_clean f 46 None _ Hf Ho ltac:(cbn; tauto) E)) as G.
  unfold gives in G. rewrite G. unfold together. cbn [concat]. rewrite app_nil_r. reflexivity.
Qed.
Print Assumptions C64_brackets_whole.
Theorem C64_brackets_decimal : forall (F : Floats) l r f d y v, blank l -> blank r -> digits f -> digits y -> In d [44; 112; 46] ->
  f_parse (u "-" ++ f ++ u "." ++ y) = Ok v ->
  to_number (NText (l ++ (u "(" ++ f ++ (d :: y) ++ u ")") ++ r)) auto auto true = Ok (CF v).
Proof.
  intros F l r f d y v Hl Hr Hf Hy Id Hv. assert (Ho : frac_ok (Some y)) by exact Hy. assert (Hs : sign [45]) by (right; now left). assert (Hg : triples []) by (intros g []).
  assert (Sd : separator d) by (apply sep_of; apply existsb_exists; exists d; split; [cbn in *; tauto|apply N.eqb_refl]).
  assert (E : lower (strip (l ++ (u "(" ++ f ++ (d :: y) ++ u ")") ++ r)) = c_lpar :: (f ++ tail_of d (Some y)) ++ [c_rpar]).
  { replace (u "(" ++ f ++ (d :: y) ++ u ")") with (c_lpar :: (f ++ tail_of d (Some y)) ++ [c_rpar]) by (cbn [tail_of]; now rewrite <- app_assoc).
    rewrite (around l r _ Hl Hr (brackets_tight (f ++ tail_of d (Some y)))). exact (lower_brackets f d (Some y) Hf Ho (proj2 (proj2 Sd))). }
  refine (text_gives [45] f [] (Some y) Hs Hf Hg Ho _ _ _ _ (brackets_clean f d (Some y) _ Hf Ho Id E) v _).
  unfold plain, together. cbn [concat tail_of]. rewrite app_nil_r. exact Hv.
Qed.
Print Assumptions C64_brackets_decimal.
(** a whole number with an exponent without sign is an int when its float is one *)
Theorem C64_exponent : forall (F : Floats) l r sg f e k pn v z, blank l -> blank r -> sign sg -> digits f -> digits e -> k = 101 \/ k = 69 ->
  f_parse (sg ++ f ++ u "e" ++ e) = Ok v -> f_int v = Ok z -> f_eqZ v z = true ->
  to_number (NText (l ++ (sg ++ f ++ k :: e) ++ r)) auto auto pn = Ok (CI z).
Proof.
  intros F l r sg f e k pn v z Hl Hr Hs Hf He Hk Hv Hz Hq. apply (exponent_gives sg f e pn _ v z Hs Hf He); [|exact Hv|exact Hz|exact Hq].
  rewrite (around l r _ Hl Hr (exponent_tight sg f e k Hs Hf He)). now apply lower_exponent.
Qed.
Print Assumptions C64_exponent.

(** ** Not a text *)
(** a number is returned as it is; anything else raises TypeError *)
Theorem C64_number : forall (F : Floats) v ds ts pn, to_number (NNumber v) ds ts pn = Ok v.
Proof. reflexivity. Qed.
Print Assumptions C64_number.
Theorem C64_other : forall (F : Floats) ds ts pn, to_number NOther ds ts pn = Err TypeError.
Proof. reflexivity. Qed.
Print Assumptions C64_other.

(** ** Never a wrong sign: brackets without their partner raise *)
Theorem C64_half_bracket : forall (F : Floats) x ds ts, (In 40 (strip x) <-> ~ In 41 (strip x)) -> to_number (NText x) ds ts true = Err ValueError.
Proof.
  intros F x ds ts H. unfold to_number, cleaner.
  assert (B : forall c b, c = 40 \/ c = 41 -> clower b = c -> b = c).
  { intros c b Hc. unfold clower.
    repeat match goal with |- context [if ?q then _ else _] => let E := fresh in destruct q eqn:E end; rewrite ?andb_true_iff, ?N.leb_le in *; intros; destruct Hc; subst; lia. }
  assert (L : forall c, c = 40 \/ c = 41 -> cmem c (lower (strip x)) = cmem c (strip x)).
  { intros c Hc. apply eq_true_iff_eq. rewrite !cmem_In. unfold lower. rewrite in_map_iff. split.
    - intros (b & Eb & Hb). now rewrite <- (B c b Hc Eb).
    - intros Hi. exists c. split; [destruct Hc as [->| ->]; reflexivity|exact Hi]. }
  cbv zeta. unfold par_negative. rewrite !L by tauto. unfold c_lpar, c_rpar. destruct (cmem 40 (strip x)) eqn:E1.
  - assert (E2 : cmem 41 (strip x) = false) by (apply cmem_false, H, cmem_In, E1). rewrite E2. reflexivity.
  - assert (E2 : cmem 41 (strip x) = true).
    { destruct (cmem 41 (strip x)) eqn:E2; [reflexivity|]. exfalso. apply (proj1 (cmem_false _ _) E1). apply H. now apply cmem_false. }
    rewrite E2. reflexivity.
Qed.
Print Assumptions C64_half_bracket.

(** ** Groups that are not of three characters raise *)
Theorem C64_bad_group : forall (F : Floats) x a g b t d pn, lower (strip x) = a ++ t :: g ++ b -> t <> d -> ~ In d a -> ~ In t g -> ~ In d g ->
  b = [] \/ (exists b', b = t :: b') \/ (exists b', b = d :: b') -> length g <> 3%nat -> ~ In 106 (a ++ t :: g ++ b) ->
  to_number (NText x) [d] [t] pn = Err ValueError.
Proof.
  intros F x a g b t d pn E Htd Ha Hg Hgd Hb Hl Hj. unfold to_number, cleaner. rewrite E. cbv zeta. set (z := a ++ t :: g ++ b) in *.
  assert (Hc : check [d] (Some [t]) z = Err ValueError).
  { unfold check. rewrite split_one. cbn [rbind]. destruct (2 <? length (csplit d z))%nat; [reflexivity|].
    assert (Hh : exists b1, hd [] (csplit d z) = a ++ t :: g ++ b1 /\ (b1 = [] \/ exists b2, b1 = t :: b2)).
    { unfold z. destruct Hb as [->|[(b' & ->)|(b' & ->)]].
      - exists []. split; [|now left]. rewrite csplit_no; [reflexivity|]. rewrite app_nil_r, in_app_iff. intros [H|[H|H]]; [now apply Ha|congruence|now apply Hgd].
      - exists (t :: hd [] (csplit d b')). split; [|right; eexists; reflexivity].
        assert (K : forall p q, ~ In d p -> hd [] (csplit d (p ++ q)) = p ++ hd [] (csplit d q)).
        { intros p q. induction p as [|c p IH]; intros Hp; [reflexivity|]. cbn [Datatypes.app csplit]. destruct (N.eqb_spec c d) as [->|_]; [exfalso; apply Hp; now left|].
          specialize (IH (fun H => Hp (or_intror H))). destruct (csplit d (p ++ q)) eqn:Ec; [now apply csplit_nonnil in Ec|]. cbn [hd] in *. now rewrite IH. }
        replace (a ++ t :: g ++ t :: b') with ((a ++ t :: g ++ [t]) ++ b') by (rewrite <- !app_assoc; cbn [Datatypes.app]; now rewrite <- app_assoc).
        rewrite K; [rewrite <- !app_assoc; cbn [Datatypes.app]; now rewrite <- app_assoc|]. rewrite !in_app_iff. intros [H|[H|H]]; [now apply Ha|congruence|].
        apply in_app_iff in H as [H|[H|[]]]; [now apply Hgd|congruence].
      - exists []. split; [|now left]. replace (a ++ t :: g ++ d :: b') with ((a ++ t :: g) ++ d :: b') by (rewrite <- app_assoc; reflexivity).
        rewrite csplit_app_sep; [cbn [hd]; now rewrite app_nil_r|]. rewrite in_app_iff. intros [H|[H|H]]; [now apply Ha|congruence|now apply Hgd]. }
    destruct Hh as (b1 & Hh & Hb1). rewrite Hh, split_one. cbn [rbind].
    assert (Hin : In g (tl (csplit t (a ++ t :: g ++ b1)))).
    { clear - Hg Hb1. assert (T : In g (csplit t (g ++ b1))).
      { destruct Hb1 as [->|(b2 & ->)]; [rewrite app_nil_r, csplit_no by exact Hg; now left|rewrite csplit_app_sep by exact Hg; now left]. }
      induction a as [|c a IH].
      - cbn [Datatypes.app csplit]. rewrite N.eqb_refl. exact T.
      - cbn [Datatypes.app csplit]. destruct (c =? t).
        + cbn [tl]. destruct (csplit t (a ++ t :: g ++ b1)) as [|w ws] eqn:Ec; [now apply csplit_nonnil in Ec|]. right. exact IH.
        + destruct (csplit t (a ++ t :: g ++ b1)) as [|w ws] eqn:Ec; [now apply csplit_nonnil in Ec|]. exact IH. }
    assert (Hal : forall l, In g l -> all_three l = false).
    { induction l as [|p l IH]; intros Hi; [destruct Hi|]. destruct Hi as [->|Hi]; cbn [all_three]; [|rewrite (IH Hi); apply andb_false_r]. apply Nat.eqb_neq in Hl. now rewrite Hl. }
    now rewrite (Hal _ Hin). }
  assert (Hv : validate [d] (Some [t]) z = Err ValueError).
  { unfold validate. rewrite (proj2 (cmem_false 106 z) Hj). now rewrite Hc. }
  assert (Hp : (exists s, (if pn then par_negative z else Ok z) = @Ok str s) \/ (if pn then par_negative z else Ok z) = @Err str ValueError).
  { destruct pn; [|left; eexists; reflexivity]. unfold par_negative. destruct (cmem c_lpar z), (cmem c_rpar z); cbn [negb]; try (right; reflexivity); try (left; eexists; reflexivity).
    destruct (cmem 106 z); [left; eexists; reflexivity|]. destruct (Nat.eqb _ 1 && _ && _ && _); [|left; eexists; reflexivity].
    destruct (cmem c_minus z); [right; reflexivity|left; eexists; reflexivity]. }
  destruct Hp as [(s & Hp)|Hp].
  2:{ match goal with |- rbind (rbind ?v _) _ = _ => replace v with (@Err str ValueError) by (symmetry; exact Hp) end. reflexivity. }
  match goal with |- rbind (rbind ?v _) _ = _ => replace v with (@Ok str s) by (symmetry; exact Hp) end. cbn [rbind].
  destruct ((smem [t] [auto; [46]] && smem [d] [auto; [44]]) && (cmem 44 s && cmem 46 s)) eqn:B.
  - rewrite !andb_true_iff in B. destruct B as ((B1 & B2) & _).
    assert (t = 46) by (apply smem_In in B1; destruct B1 as [B|[B|[]]]; [apply (f_equal (@length _)) in B; discriminate B|injection B as <-; reflexivity]).
    assert (d = 44) by (apply smem_In in B2; destruct B2 as [B|[B|[]]]; [apply (f_equal (@length _)) in B; discriminate B|injection B as <-; reflexivity]).
    subst t d. match goal with |- rbind (rbind ?v _) _ = _ => replace v with (@Err bool ValueError) by (symmetry; exact Hv) end. reflexivity.
  - unfold thousands. replace (seqb (strip [t]) auto) with false by (symmetry; apply seqb_neq, strip_char). unfold decimals.
    replace (seqb (strip [d]) auto) with false by (symmetry; apply seqb_neq, strip_char).
    destruct (1 <? py_count [d] z)%nat; [reflexivity|]. cbn [rbind].
    match goal with |- rbind (rbind ?v _) _ = _ => replace v with (@Err bool ValueError) by (symmetry; exact Hv) end. reflexivity.
Qed.
Print Assumptions C64_bad_group.
Example C64_bad_group_example : lower (strip (u "1'23'456")) = u "1" ++ 39 :: u "23" ++ u "'456".
Proof. vm_compute. reflexivity. Qed.

(** ** Examples and refutations *)
(** floats for the examples: hundredths, with exponents (only what they need) *)
#[local] Instance cents : Floats := {
  flt := Z;
  f_parse x := match csplit c_dot x with
               | [a; d] => rbind (py_int a) (fun i => rbind (py_int d) (fun k => Ok (100 * i + (if (i <? 0)%Z then -1 else 1) * k * 10 ^ (2 - Z.of_nat (length d)))%Z))
               | _ => match csplit 101 x with
                      | [a; e] => rbind (py_int a) (fun i => rbind (py_int e) (fun k => if (k <? 0)%Z then Err ValueError else Ok (100 * (i * 10 ^ k))%Z))
                      | _ => Err ValueError
                      end
               end;
  f_str z := str_of_Z z;
  f_ofZ z := (100 * z)%Z; f_mul a b := (a * b / 100)%Z; f_add := Z.add; f_sub := Z.sub; f_abs := Z.abs;
  f_eqZ x n := (x =? 100 * n)%Z; f_ltZ x n := (x <? 100 * n)%Z; f_gtZ x n := (100 * n <? x)%Z; f_int z := Ok (Z.quot z 100) }.
(** specification: [to_number(x)] with its default arguments *)
Definition reads (x : str) : res cnum := to_number (NText x) auto auto true.
Example C64_whole_example : blank (u " ") /\ sign (u "-") /\ digits (u "12") /\ triples [u "345"; u "678"] /\ In 39 [39; 96; 180; 32]
  /\ u " " ++ u "-" ++ grouped 39 (u "12") [u "345"; u "678"] ++ u " " = u " -12'345'678 " /\ (signed (u "-") * written (together (u "12") [u "345"; u "678"]))%Z = (-12345678)%Z
  /\ reads (u " -12'345'678 ") = Ok (CI (-12345678)).
Proof.
  split; [intros c Hc; vm_compute in Hc; destruct Hc as [<-|[]]; vm_compute; tauto|]. split; [right; left; reflexivity|]. split; [split; [discriminate|intros c Hc; vm_compute in Hc; destruct Hc as [<-|[<-|[]]]; lia]|].
  split; [intros g [<-|[<-|[]]]; (split; [split; [discriminate|intros c Hc; vm_compute in Hc; destruct Hc as [<-|[<-|[<-|[]]]]; lia]|reflexivity])|]. split; [cbn; tauto|].
  split; [vm_compute; reflexivity|]. split; vm_compute; reflexivity.
Qed.
Example C64_decimal_example : f_parse (u "" ++ together (u "1") [u "234"] ++ u "." ++ u "5") = Ok 123450%Z
  /\ reads (u "1 234,5") = Ok (CF 123450%Z) /\ reads (u "1'234p5") = Ok (CF 123450%Z) /\ reads (u "1.234,5") = Ok (CF 123450%Z)
  /\ to_number (NText (u "1,234.5")) (u ".") (u ",") true = Ok (CF 123450%Z)
  /\ reads (u "(15)") = Ok (CI (-15)) /\ reads (u "(1,5)") = Ok (CF (-150)%Z) /\ reads (u "12E3") = Ok (CI 12000)
  /\ separator 46 /\ separator 44.
Proof. repeat match goal with |- _ /\ _ => split end; try (apply sep_of; reflexivity); vm_compute; reflexivity. Qed.
(** the English way, [1,234.5], is read as 1.2345 without any warning (its group is taken for decimals), and [1,234]
    as 1.234; two groups with commas or points raise, as do a negative exponent, groups between brackets and a group
    of two digits; a sole imaginary number raises TypeError *)
Theorem C64_english_refuted : forall (F : Floats) v pn, f_parse (u "1.2345") = Ok v -> to_number (NText (u "1,234.5")) auto auto pn = Ok (CF v).
Proof. intros F v [] H; unfold to_number; (replace (cleaner auto auto _ (u "1,234.5")) with (Ok (Some (u "1.2345"))) by (vm_compute; reflexivity)); cbn [rbind]; unfold caster;
  (replace (py_int (u "1.2345")) with (@Err Z ValueError) by (vm_compute; reflexivity)); rewrite H; reflexivity. Qed.
Print Assumptions C64_english_refuted.
Theorem C64_refuted : reads (u "1,234,567") = Err ValueError /\ reads (u "1.234.567") = Err ValueError
  /\ reads (u "1e-3") = Err ValueError /\ reads (u "3j") = Err TypeError /\ reads (u "(1 234)") = Err ValueError /\ reads (u "12'34") = Err ValueError.
Proof. repeat split; vm_compute; reflexivity. Qed.
Print Assumptions C64_refuted.
