(** * Facts about the window *)
From Coq Require Import String.
From Verif Require Import Py StrTools StrFacts StrFacts2 Caster Gui GuiSpec.

Lemma split_none p s : p <> [] -> forall cur, ssub p s = false -> split_go p O cur s = [rev cur ++ s].
Proof.
  intros Hp. induction s as [|c s IH]; intros cur H; [cbn; now rewrite app_nil_r|].
  cbn [split_go]. destruct p as [|q p]; [congruence|]. cbn [ssub] in H. apply orb_false_iff in H as [H1 H2]. rewrite H1, IH by exact H2. cbn [rev].
  now rewrite <- app_assoc.
Qed.
Lemma replace_none p b s : p <> [] -> ssub p s = false -> py_replace p b s = s.
Proof. intros Hp H. unfold py_replace. destruct p as [|q p]; [congruence|]. rewrite split_none by assumption. reflexivity. Qed.

Section GuiFacts.
Context {num W : Type} (K : kit num W) (S : sane K).
Notation win := (win W).

(** ** The boxes *)
Lemma plain_kept x : plain_text x -> py_replace (u "wrong number format") [] (py_replace (u "no conversion found!") [] x) = x.
Proof. intros (H1 & H2). rewrite (replace_none (u "no conversion found!")); [|discriminate|exact H1]. apply replace_none; [discriminate|exact H2]. Qed.
Lemma numeric_some a : is_numeric K (GT a) = true -> seqb a [] = false.
Proof. intros H. destruct a; [rewrite (empty_no_number K S) in H; discriminate H|reflexivity]. Qed.
Lemma empty_plain : plain_text []. Proof. split; reflexivity. Qed.
Lemma side_typed v w n x : typed K v w n x -> get_side K v w = Ok (GT x, GN n).
Proof.
  intros (a & Ha & Hn & Hx & Pa & Px & [(E1 & E2)|(E1 & E2)]); unfold get_side; rewrite E1, E2; cbv zeta.
  - rewrite (plain_kept a Pa), (numeric_some a Ha), Ha, Hx. cbn [andb negb]. rewrite andb_false_r. now rewrite Hn.
  - rewrite (plain_kept x Px), (numeric_some a Ha), Ha, Hx. cbn [andb negb]. rewrite andb_false_r. cbn [andb]. now rewrite Hn.
Qed.
Lemma side_only v w x : only_unit K v w x -> get_side K v w = Ok (GT x, GT []).
Proof.
  intros (Hn & Hx & Px & [(E1 & E2)|(E1 & E2)]); unfold get_side; rewrite E1, E2; cbv zeta.
  - rewrite (plain_kept [] empty_plain), Hx. assert (E : seqb x [] = false) by (destruct x; [congruence|reflexivity]). rewrite E. reflexivity.
  - rewrite (plain_kept x Px), Hx. assert (E : seqb x [] = false) by (destruct x; [congruence|reflexivity]). rewrite E. reflexivity.
Qed.
Lemma side_garbage v w : strip v <> [] -> strip w <> [] -> plain_text (strip v) -> is_numeric K (GT (strip v)) = false -> is_numeric K (GT (strip w)) = false ->
  get_side K v w = Ok (GNone, GNone).
Proof.
  intros Hv Hw Pv Nv Nw. unfold get_side. cbv zeta. rewrite (plain_kept _ Pv), Nv, Nw.
  assert (E1 : seqb (strip v) [] = false) by (destruct (strip v); [congruence|reflexivity]).
  assert (E2 : seqb (strip w) [] = false) by (destruct (strip w); [congruence|reflexivity]). rewrite E1, E2. reflexivity.
Qed.
(** the boxes always give something *)
Lemma side_ok v w : exists a, get_side K v w = Ok a.
Proof.
  unfold get_side. cbv zeta. set (x := py_replace _ _ _). set (y := strip w).
  destruct (_ && _ && _); [eexists; reflexivity|]. destruct (_ && _ && _); [eexists; reflexivity|].
  destruct (is_numeric K (GT x)) eqn:Ex, (is_numeric K (GT y)) eqn:Ey; cbn [negb andb]; try (eexists; reflexivity).
  - destruct (numeric_read K S x Ex) as (n & ->). eexists; reflexivity.
  - destruct (numeric_read K S y Ey) as (n & ->). eexists; reflexivity.
Qed.

(** ** Exchange of the two sides *)
Definition swap (g : win) : win := set_boxes g (to_unit g) (to_value g) (from_unit g) (from_value g).
Lemma swap_swap g : swap (swap g) = g. Proof. destruct g; reflexivity. Qed.
Lemma cancel_swap g : after_cancel (swap g) = swap (after_cancel g). Proof. destruct g as [? ? ? ? ? ? ? ? ? ? [i|] ? ? ?]; reflexivity. Qed.
Lemma display_swap g e : display_path K (swap g) e = swap (display_path K g e).
Proof.
  unfold display_path. destruct e as [|c e].
  - change (engine (swap g)) with (engine g). cbv zeta. destruct (_ && _); [|destruct g; reflexivity]. destruct (_ <? _)%nat; destruct g; reflexivity.
  - rewrite cancel_swap. generalize (after_cancel g). intros [? ? ? ? ? ? ? ? ? ? ? ? ? ?]. reflexivity.
Qed.
Local Opaque get_side display_path text_of u.
Lemma read_swap b g : read_side K b (swap g) = read_side K (negb b) g. Proof. destruct b, g; reflexivity. Qed.
Lemma write_swap b g p : write_side K b (swap g) p = swap (write_side K (negb b) g p). Proof. destruct b, g; reflexivity. Qed.
Lemma again_swap g b : set_again (swap g) b = swap (set_again g b). Proof. destruct g; reflexivity. Qed.
Lemma convert_swap fwd g a b : do_convert K fwd (swap g) a b = swap (do_convert K (negb fwd) g a b).
Proof.
  unfold do_convert. rewrite write_swap. set (g3 := write_side K (negb (negb fwd)) g (fst b, GT [])). clearbody g3. cbv zeta.
  change (again (swap g3)) with (again g3). change (engine (swap g3)) with (engine g3).
  destruct (convert K (snd a) (fst a) (fst b) _ (engine g3)) as [[r|e] w]; change (set_engine (swap g3) w) with (swap (set_engine g3 w)).
  - rewrite write_swap, display_swap, again_swap. reflexivity.
  - destruct e; cbv iota; rewrite display_swap, ?again_swap; reflexivity.
Qed.
Lemma calculate_swap fuel : forall fwd g, calculate K fuel fwd (swap g) = (fst (calculate K fuel (negb fwd) g), swap (snd (calculate K fuel (negb fwd) g))).
Proof.
  induction fuel as [|fuel IH]; intros fwd g; [reflexivity|]. cbn [calculate]. rewrite display_swap, read_swap.
  destruct (read_side K (negb fwd) _) as [a|e]; [|reflexivity]. rewrite write_swap, read_swap.
  destruct (read_side K (negb (negb fwd)) _) as [b|e]; [|reflexivity]. rewrite write_swap.
  destruct (all_none a b); [reflexivity|]. destruct (_ && _); [apply IH|]. now rewrite convert_swap.
Qed.
Lemma calculate_other fuel g : calculate K fuel false g = (fst (calculate K fuel true (swap g)), swap (snd (calculate K fuel true (swap g)))).
Proof. rewrite <- (swap_swap g) at 1. apply calculate_swap. Qed.
Lemma rcalculate_swap g : happens K g ERcalculate = swap (happens K (swap g) ECalculate).
Proof. cbn [happens]. now rewrite calculate_other. Qed.

(** ** What a conversion shows *)
Lemma display_boxes g e : from_unit (display_path K g e) = from_unit g /\ from_value (display_path K g e) = from_value g /\
  to_unit (display_path K g e) = to_unit g /\ to_value (display_path K g e) = to_value g /\ engine (display_path K g e) = engine g /\ again (display_path K g e) = again g.
Proof.
  Local Transparent display_path. unfold display_path. destruct e as [|c e].
  - cbv zeta. destruct (_ && _); [|repeat split]. destruct (_ <? _)%nat; repeat split.
  - destruct g as [? ? ? ? ? ? ? ? ? ? [i|] ? ? ?]; repeat split.
Qed.
Lemma display_red g e : e <> [] -> red (display_path K g e) = true /\ path_str (display_path K g e) = e.
Proof. intros H. destruct e as [|c e]; [congruence|]. split; reflexivity. Qed.
Lemma display_ok g : red (display_path K g []) = false.
Proof. unfold display_path. cbv zeta. destruct (_ && _); [|reflexivity]. destruct (_ <? _)%nat; reflexivity. Qed.

(** the window after [do_convert] *)
Lemma convert_shows g a b :
  let r := convert K (snd a) (fst a) (fst b) (if again g then Some false else None) (engine g) in
  let h := do_convert K true g a b in
  from_unit h = from_unit g /\ from_value h = from_value g /\ to_unit h = text_of K (fst b) /\ to_value h = answer K (fst r) /\ engine h = snd r /\
  match fst r with
  | Ok _ => red h = false /\ again h = false
  | Err e => red h = true /\ path_str h = message e /\ (e <> NoConversionFoundError -> again h = true)
  end.
Proof.
  cbv zeta. unfold do_convert. cbv zeta. cbn [negb]. set (g3 := write_side K false g (fst b, GT [])).
  change (again g3) with (again g). change (engine g3) with (engine g).
  destruct (convert K (snd a) (fst a) (fst b) _ (engine g)) as [[r|e] w]; cbn [fst snd].
  - set (g4 := write_side K false (set_engine g3 w) (fst b, r)). destruct (display_boxes g4 []) as (D1 & D2 & D3 & D4 & D5 & D6).
    cbn [set_again from_unit from_value to_unit to_value engine again red]. rewrite D1, D2, D3, D4, D5. repeat split. apply display_ok.
  - assert (B : forall h m, h = display_path K (set_engine g3 w) m \/ h = set_again (display_path K (set_engine g3 w) m) true -> m <> [] ->
      from_unit h = from_unit g /\ from_value h = from_value g /\ to_unit h = text_of K (fst b) /\ to_value h = [] /\ engine h = w /\ red h = true /\ path_str h = m).
    { intros h m Hh Hm. destruct (display_boxes (set_engine g3 w) m) as (D1 & D2 & D3 & D4 & D5 & D6). destruct (display_red (set_engine g3 w) m Hm) as (R1 & R2).
      destruct Hh as [->| ->]; cbn [set_again from_unit from_value to_unit to_value engine red path_str]; rewrite D1, D2, D3, D4, D5, R1, R2; repeat split. }
    set (no := match e with NoConversionFoundError => true | _ => false end).
    match goal with |- from_unit ?h = _ /\ _ =>
      assert (E : h = if no then display_path K (set_engine g3 w) (message e) else set_again (display_path K (set_engine g3 w) (message e)) true)
        by (unfold no; clear; destruct e; reflexivity) end.
    assert (Mn : message e <> []) by (clear; intros E; apply (f_equal (@length _)) in E; destruct e; discriminate E).
    rewrite E. cbn [answer].
    destruct (B (if no then display_path K (set_engine g3 w) (message e) else set_again (display_path K (set_engine g3 w) (message e)) true) (message e)) as (C1 & C2 & C3 & C4 & C5 & C6 & C7);
      [destruct no; [now left|now right]|exact Mn|].
    split; [exact C1|split; [exact C2|split; [exact C3|split; [exact C4|split; [exact C5|split; [exact C6|split; [exact C7|]]]]]]].
    intros Hne. replace no with false; [reflexivity|]. unfold no. destruct e; congruence.
Qed.
End GuiFacts.
