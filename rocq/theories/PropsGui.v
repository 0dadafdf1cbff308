(** * Properties C65 and C66: the window *)
From Coq Require Import String.
From Verif Require Import Py StrTools StrFacts StrFacts2 Caster Gui GuiSpec GuiFacts GuiFacts2 GuiFacts3 GuiFacts4.

(** ** C65: the form *)
Section C65.
Context {num W : Type} (K : kit num W).
Local Opaque u.

(** a number and a unit in the boxes "from", a unit in the boxes "to" (each in its box or in the other's, and perhaps with
    a number left there): the conversion is made once, the result is in the value box of "to", the units and the number
    are in their boxes *)
Theorem C65_form : sane K -> forall g n x y,
  typed K (from_value g) (from_unit g) n x ->
  only_unit K (to_value g) (to_unit g) y \/ (exists m, typed K (to_value g) (to_unit g) m y) ->
  let r := convert K (GN n) (GT x) (GT y) (if again g then Some false else None) (engine g) in
  let h := happens K g ECalculate in
  from_unit h = x /\ from_value h = show K n /\ to_unit h = y /\ to_value h = answer K (fst r) /\
  engine h = snd r /\ path_str h = shown K r /\ red h = failed r.
Proof. intros S g n x y T O. exact (form K S true g n x y T O). Qed.

(** the Return key in the value box of "to": the same, from "to" to "from" *)
Theorem C65_form_back : sane K -> forall g n x y,
  typed K (to_value g) (to_unit g) n x ->
  only_unit K (from_value g) (from_unit g) y \/ (exists m, typed K (from_value g) (from_unit g) m y) ->
  let r := convert K (GN n) (GT x) (GT y) (if again g then Some false else None) (engine g) in
  let h := happens K g ERcalculate in
  to_unit h = x /\ to_value h = show K n /\ from_unit h = y /\ from_value h = answer K (fst r) /\
  engine h = snd r /\ path_str h = shown K r /\ red h = failed r.
Proof. intros S g n x y T O. exact (form K S false g n x y T O). Qed.

(** no number in "from" but one in "to": the conversion is made the other way, whichever the key *)
Theorem C65_other_way : sane K -> forall g n x y,
  only_unit K (from_value g) (from_unit g) y -> typed K (to_value g) (to_unit g) n x ->
  let r := convert K (GN n) (GT x) (GT y) (if again g then Some false else None) (engine g) in
  let h := happens K g ECalculate in
  to_unit h = x /\ to_value h = show K n /\ from_unit h = y /\ from_value h = answer K (fst r) /\
  engine h = snd r /\ path_str h = shown K r /\ red h = failed r.
Proof. intros S g n x y O T. exact (turned K S true g n x y O T). Qed.
Theorem C65_other_way_back : sane K -> forall g n x y,
  only_unit K (to_value g) (to_unit g) y -> typed K (from_value g) (from_unit g) n x ->
  let r := convert K (GN n) (GT x) (GT y) (if again g then Some false else None) (engine g) in
  let h := happens K g ERcalculate in
  from_unit h = x /\ from_value h = show K n /\ to_unit h = y /\ to_value h = answer K (fst r) /\
  engine h = snd r /\ path_str h = shown K r /\ red h = failed r.
Proof. intros S g n x y O T. exact (turned K S false g n x y O T). Qed.

(** whatever is in the boxes: they are all cleared and nothing is converted, or one conversion is made, of what is then
    in the boxes of one side, and its answer is in the value box of the other *)
Theorem C65_one_conversion : sane K -> forall g e, e = ECalculate \/ e = ERcalculate ->
  let h := happens K g e in
  (from_unit h = [] /\ from_value h = [] /\ to_unit h = [] /\ to_value h = [] /\ engine h = engine g) \/
  (exists d v f t, let r := convert K v f t (if again g then Some false else None) (engine g) in
     unit_box d h = text_of K f /\ value_box d h = text_of K v /\ unit_box (negb d) h = text_of K t /\ value_box (negb d) h = answer K (fst r) /\
     engine h = snd r /\ path_str h = shown K r /\ red h = failed r).
Proof.
  intros S g e He. cbv zeta. assert (X : exists fwd, happens K g e = snd (calculate K 2 fwd g)) by (destruct He as [->| ->]; [exists true|exists false]; reflexivity).
  destruct X as (fwd & ->). destruct (ends K S 0 fwd g) as (g2 & R & E & A & [C|(d & a & b & U & V & C)]); rewrite C; cbn [snd].
  - left. repeat (split; [reflexivity|]). exact E.
  - right. exists d, (snd a), (fst a), (fst b). pose proof (shows K d g2 a b) as Sh. pose proof (told K d g2 a b) as Td. cbv zeta in Sh, Td. rewrite E, A in Sh, Td.
    destruct Sh as (S1 & S2 & S3 & S4 & S5 & S6). rewrite S1, S2, U, V, S3, S4, S5. cbv zeta. do 5 (split; [reflexivity|]). split; [exact Td|].
    unfold failed. destruct (fst (convert K _ _ _ _ _)); exact (proj1 S6).
Qed.

(** the two functions call one another at most once *)
Theorem C65_ends : sane K -> forall n fwd g, (2 <= n)%nat -> calculate K n fwd g = calculate K 2 fwd g /\ fst (calculate K n fwd g) = Ok tt.
Proof.
  intros S n fwd g H. destruct n as [|[|n]]; [lia|lia|]. split; [exact (enough K S n fwd g)|].
  destruct (ends K S n fwd g) as (g2 & _ & _ & _ & [C|(d & a & b & _ & _ & C)]); rewrite C; reflexivity.
Qed.

(** false: the message "wrong number format" of the program is never shown; a side with no number is replaced by "None"
    and "None", its number and its unit are lost, and the conversion from None is asked for *)
Theorem C65_wrong_format_refuted : sane K -> forall g y, strip (from_value g) <> [] -> strip (from_unit g) <> [] -> plain_text (strip (from_value g)) ->
  is_numeric K (GT (strip (from_value g))) = false -> is_numeric K (GT (strip (from_unit g))) = false -> only_unit K (to_value g) (to_unit g) y ->
  let h := happens K g ECalculate in
  from_value h = u "None" /\ from_unit h = u "None" /\ engine h = snd (convert K GNone GNone (GT y) (if again g then Some false else None) (engine g)).
Proof.
  intros S g y N1 N2 P I1 I2 O. cbv zeta. cbn [happens].
  pose proof (side_garbage K _ _ N1 N2 P I1 I2) as Ha. pose proof (side_only K _ _ y O) as Hb.
  destruct (turn K 1 true g (GNone, GNone) (GT y, GT []) Ha Hb) as (g2 & _ & E & A & U & V & _ & _ & C). rewrite C. cbn [all_none is_blank snd andb].
  pose proof (shows K true g2 (GNone, GNone) (GT y, GT [])) as (S1 & S2 & _ & _ & S5 & _). cbn [fst snd] in S1, S2, S5. rewrite E, A in S5.
  split; [exact (eq_trans S2 V)|]. split; [exact (eq_trans S1 U)|exact S5].
Qed.
(** false: with nothing in the boxes "to", they are filled with the text "None" and a conversion to None is asked for *)
Theorem C65_nothing_asked_refuted : sane K -> forall g n x, typed K (from_value g) (from_unit g) n x -> strip (to_value g) = [] -> strip (to_unit g) = [] ->
  let r := convert K (GN n) (GT x) GNone (if again g then Some false else None) (engine g) in
  let h := happens K g ECalculate in
  to_unit h = u "None" /\ to_value h = answer K (fst r) /\ engine h = snd r.
Proof.
  intros S g n x T N1 N2. cbv zeta. cbn [happens]. pose proof (side_typed K S _ _ n x T) as Ha.
  assert (Hb : get_side K (to_value g) (to_unit g) = Ok (GNone, GNone)).
  { unfold get_side. rewrite N1, N2. rewrite (plain_kept [] empty_plain). cbv zeta. rewrite (empty_no_number K S). reflexivity. }
  destruct (turn K 1 true g (GT x, GN n) (GNone, GNone) Ha Hb) as (g2 & _ & E & A & U & V & _ & _ & C). rewrite C. cbn [all_none is_blank snd andb].
  pose proof (shows K true g2 (GT x, GN n) (GNone, GNone)) as (_ & _ & S3 & S4 & S5 & _). cbn [fst snd] in S3, S4, S5. rewrite E, A in S4, S5.
  split; [exact S3|]. split; [exact S4|exact S5].
Qed.
(** specification: a side of which nothing can be read: both boxes empty, or both filled and neither a number *)
Definition unreadable (v x : str) : Prop :=
  (strip v = [] /\ strip x = []) \/ (strip v <> [] /\ strip x <> [] /\ plain_text (strip v) /\ is_numeric K (GT (strip v)) = false /\ is_numeric K (GT (strip x)) = false).
(** when nothing can be read on either side, every box is emptied and no conversion is asked for *)
Theorem C65_cleared : sane K -> forall g e, e = ECalculate \/ e = ERcalculate -> unreadable (from_value g) (from_unit g) -> unreadable (to_value g) (to_unit g) ->
  let h := happens K g e in
  from_value h = [] /\ from_unit h = [] /\ to_value h = [] /\ to_unit h = [] /\ engine h = engine g /\ again h = again g.
Proof.
  intros S g e He A B.
  assert (X : forall v x, unreadable v x -> get_side K v x = Ok (GNone, GNone)).
  { intros v x [(N1 & N2)|(N1 & N2 & P & I1 & I2)]; [|exact (side_garbage K _ _ N1 N2 P I1 I2)].
    unfold get_side. rewrite N1, N2. rewrite (plain_kept [] empty_plain). cbv zeta. rewrite (empty_no_number K S). reflexivity. }
  apply X in A. apply X in B. cbv zeta.
  destruct He as [->| ->]; cbn [happens].
  - destruct (turn K 1 true g (GNone, GNone) (GNone, GNone) A B) as (g2 & _ & E & Ag & _ & _ & _ & _ & C). rewrite C. cbn [all_none snd set_boxes from_value from_unit to_value to_unit engine again].
    rewrite E, Ag. repeat split.
  - destruct (turn K 1 false g (GNone, GNone) (GNone, GNone) B A) as (g2 & _ & E & Ag & _ & _ & _ & _ & C). rewrite C. cbn [all_none snd set_boxes from_value from_unit to_value to_unit engine again].
    rewrite E, Ag. repeat split.
Qed.
End C65.
Print Assumptions C65_form.
Print Assumptions C65_form_back.
Print Assumptions C65_other_way.
Print Assumptions C65_other_way_back.
Print Assumptions C65_one_conversion.
Print Assumptions C65_ends.
Print Assumptions C65_wrong_format_refuted.
Print Assumptions C65_nothing_asked_refuted.
Print Assumptions C65_cleared.

(** ** C66: the moving text *)
Section C66.
Context {num W : Type} (K : kit num W).
Local Opaque u.

(** after any history in which the menus leave only short messages: an error message of a conversion stays until the
    next action, whatever timers there were *)
Theorem C66_error_stays_partial : sane K -> forall g l e ts, opened g -> (forall e, In e l -> short_message e) -> e = ECalculate \/ e = ERcalculate ->
  let h := happens K (after_all K g l) e in
  red h = true -> after_all K h (map EFire ts) = h.
Proof.
  intros S g l e ts Og Hl He. cbv zeta. intros R. pose proof (history_inv K S g l (opened_inv K g Og) Hl) as I.
  assert (P : pending (happens K (after_all K g l) e) = []).
  { destruct He as [->| ->]; cbn [happens] in *; [destruct (calculate_inv K 2 true _ I) as (_ & P)|destruct (calculate_inv K 2 false _ I) as (_ & P)]; (apply P; [discriminate|exact R]). }
  remember (happens K (after_all K g l) e) as h eqn:Eh. clear - P. induction ts as [|i ts IH]; [reflexivity|]. cbn [map after_all fold_left happens]. rewrite P. cbn [existsb]. exact IH.
Qed.
(** the path of a successful conversion, when it does not fit: every part of it is shown in turn *)
Theorem C66_all_shown_partial : sane K -> forall g l e k, opened g -> (forall e, In e l -> short_message e) -> e = ECalculate \/ e = ERcalculate ->
  let h := happens K (after_all K g l) e in let p := last_path K (engine h) in
  red h = false -> print_path_ K (engine h) = true -> (k + 53 <= length p)%nat ->
  exists n, path_str (ticks K n h) = firstn 53 (skipn k p) /\ last_path K (engine (ticks K n h)) = p.
Proof.
  intros S g l e k Og Hl He. cbv zeta. intros R P L. pose proof (history_inv K S g l (opened_inv K g Og) Hl) as I.
  assert (Lv : live K (happens K (after_all K g l) e) (last_path K (engine (happens K (after_all K g l) e)))).
  { destruct He as [->| ->]; cbn [happens] in *; apply (success_live K S); try assumption; try lia. }
  exact (all_windows K _ _ k Lv L).
Qed.
(** at most one timer is pending, so that the text moves at one speed *)
Theorem C66_one_timer_partial : sane K -> forall g l, opened g -> (forall e, In e l -> short_message e) ->
  forall i j, In i (pending (after_all K g l)) -> In j (pending (after_all K g l)) -> i = j.
Proof.
  intros S g l Og Hl i j Hi Hj. destruct (history_inv K S g l (opened_inv K g Og) Hl) as (O & _). pose proof (O i Hi) as A. pose proof (O j Hj) as B. congruence.
Qed.
(** what a timer shows is a part of the last path *)
Theorem C66_part : forall g i, In i (pending g) -> exists a b, last_path K (engine g) = (a ++ path_str (happens K g (EFire i)) ++ b)%list.
Proof.
  intros g i Hi. cbn [happens]. replace (existsb (Nat.eqb i) (pending g)) with true by (symmetry; apply existsb_exists; exists i; split; [exact Hi|apply Nat.eqb_refl]).
  destruct (Nat.lt_ge_cases (length (last_path K (engine g))) 53) as [L|L].
  - exists [], []. unfold partial_msg. cbv zeta. cbn [set_timers engine]. replace (length (last_path K (engine g)) <? max_len)%nat with true by (symmetry; apply Nat.ltb_lt; exact L).
    cbn [set_path path_str Datatypes.app]. now rewrite app_nil_r.
  - destruct (fire_long K g i L) as (f & d & E & _). rewrite E. cbn [after set_timers set_scroll set_path path_str].
    exists (firstn (first_char g) (last_path K (engine g))), (skipn 53 (skipn (first_char g) (last_path K (engine g)))).
    now rewrite firstn_skipn, firstn_skipn.
Qed.
End C66.
Print Assumptions C66_error_stays_partial.
Print Assumptions C66_all_shown_partial.
Print Assumptions C66_one_timer_partial.
Print Assumptions C66_part.
