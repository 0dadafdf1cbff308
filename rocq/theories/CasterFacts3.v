(** * Blanks around a bracketed number and around an exponent *)
From Coq Require Import String.
From Verif Require Import Py StrTools StrFacts StrFacts2 StrFacts3 OpsSpec Operations OpsFacts OpsFacts2 CleanFacts Caster CasterSpec CasterFacts CasterFacts2.
Local Open Scope N_scope.

Lemma digit_tight c : 48 <= c <= 57 -> cmem c wspace = false.
Proof. intros Hc. apply dec_not_space. unfold is_dec. apply andb_true_iff. now rewrite !N.leb_le. Qed.
Lemma around l r x : blank l -> blank r -> edge_free wspace x -> strip (l ++ x ++ r) = x.
Proof.
  intros Hl Hr Hx. unfold strip. rewrite (strip_core wspace l x r Hx), (lstrip_all wspace l Hl), (lstrip_all wspace (rev r)).
  - cbn [rev Datatypes.app]. apply app_nil_r.
  - intros c Hc. apply Hr. now apply in_rev.
Qed.
Lemma brackets_tight (y : str) : edge_free wspace (c_lpar :: y ++ [c_rpar]).
Proof.
  split; [discriminate|]. intros c r [E|E].
  - injection E as <- _. reflexivity.
  - change (c_lpar :: y ++ [c_rpar]) with ((c_lpar :: y) ++ [c_rpar]) in E. apply app_inj_tail in E as [_ <-]. reflexivity.
Qed.
Lemma exponent_tight sg f e k : sign sg -> digits f -> digits e -> edge_free wspace (sg ++ f ++ k :: e).
Proof.
  intros Hs (Hn & Hf) (Hm & He). split; [destruct sg; [destruct f; [easy|discriminate]|discriminate]|]. intros c r [E|E].
  - destruct Hs as [H|[H|H]]; rewrite H in E; cbn [Datatypes.app] in E; [|injection E as <- _; reflexivity|injection E as <- _; reflexivity].
    destruct f as [|x f]; [easy|]. injection E as <- _. apply digit_tight, Hf. now left.
  - destruct (exists_last Hm) as (e' & x & ->). change (k :: e' ++ [x]) with ((k :: e') ++ [x]) in E. rewrite !app_assoc in E. apply app_inj_tail in E as [_ <-].
    apply digit_tight, He. apply in_or_app. right. now left.
Qed.
Lemma lower_digits f : digits f -> lower f = f.
Proof.
  intros (_ & Hf). unfold lower. rewrite <- (map_id f) at 2. apply map_ext_in. intros c Hc. specialize (Hf c Hc).
  unfold clower. repeat match goal with |- context [if ?b then _ else _] => let E := fresh in destruct b eqn:E; [exfalso|] end; try reflexivity.
  all: rewrite ?orb_true_iff, ?andb_true_iff, ?negb_true_iff, ?N.leb_le, ?N.eqb_eq in *; lia.
Qed.
Lemma lower_sign sg : sign sg -> lower sg = sg.
Proof. intros [->|[->| ->]]; reflexivity. Qed.
Lemma lower_app x y : lower (x ++ y) = lower x ++ lower y.
Proof. apply map_app. Qed.
Lemma lower_exponent sg f e : sign sg -> digits f -> digits e -> forall k, k = 101 \/ k = 69 -> lower (sg ++ f ++ k :: e) = sg ++ f ++ 101 :: e.
Proof.
  intros Hs Hf He k Hk. rewrite !lower_app. change (lower (k :: e)) with (clower k :: lower e). rewrite (lower_sign sg Hs), (lower_digits f Hf), (lower_digits e He).
  destruct Hk as [->| ->]; reflexivity.
Qed.
Lemma lower_brackets f d o : digits f -> frac_ok o -> clower d = d -> lower (c_lpar :: (f ++ tail_of d o) ++ [c_rpar]) = c_lpar :: (f ++ tail_of d o) ++ [c_rpar].
Proof.
  intros Hf Ho Hd. change (c_lpar :: (f ++ tail_of d o) ++ [c_rpar]) with ([c_lpar] ++ (f ++ tail_of d o) ++ [c_rpar]). rewrite !lower_app, (lower_digits f Hf).
  assert (E : lower (tail_of d o) = tail_of d o); [|rewrite E; reflexivity].
  destruct o as [v|]; [|reflexivity]. cbn [tail_of frac_ok] in *. change (lower (d :: v)) with (clower d :: lower v). now rewrite Hd, lower_digits.
Qed.
