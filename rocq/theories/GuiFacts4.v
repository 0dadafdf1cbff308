(** * The form, in one lemma *)
From Coq Require Import String.
From Verif Require Import Py StrTools StrFacts StrFacts2 Caster Gui GuiSpec GuiFacts GuiFacts2 GuiFacts3.

(** [strip] twice *)
Lemma lstrip_idem cs x : lstrip_chars cs (lstrip_chars cs x) = lstrip_chars cs x.
Proof. induction x as [|c x IH]; [reflexivity|]. cbn [lstrip_chars]. destruct (cmem c cs) eqn:E; [exact IH|]. cbn [lstrip_chars]. now rewrite E. Qed.
Lemma lstrip_good cs x : match x with c :: _ => cmem c cs = false | [] => True end -> lstrip_chars cs x = x.
Proof. destruct x as [|c x]; [reflexivity|]. intros E. cbn [lstrip_chars]. now rewrite E. Qed.
Lemma lstrip_first cs x : match lstrip_chars cs x with c :: _ => cmem c cs = false | [] => True end.
Proof. induction x as [|c x IH]; [exact I|]. cbn [lstrip_chars]. destruct (cmem c cs) eqn:E; [exact IH|exact E]. Qed.
Lemma lstrip_tail cs (x : str) : exists p, x = (p ++ lstrip_chars cs x)%list.
Proof. induction x as [|c x (p & E)]; [exists []; reflexivity|]. cbn [lstrip_chars]. destruct (cmem c cs); [exists (c :: p); cbn; now f_equal|exists []; reflexivity]. Qed.
Lemma strip_idem x : strip (strip x) = strip x.
Proof.
  unfold strip, strip_chars, rstrip_chars. generalize wspace. intros cs. set (y := lstrip_chars cs x). pose proof (lstrip_first cs x) as F. fold y in F.
  destruct (lstrip_tail cs (rev y)) as (p & E). set (z := lstrip_chars cs (rev y)) in *.
  assert (Ez : lstrip_chars cs (rev z) = rev z).
  { apply lstrip_good. apply (f_equal (@rev _)) in E. rewrite rev_involutive, rev_app_distr in E. rewrite E in F. destruct (rev z); [exact I|exact F]. }
  rewrite Ez, rev_involutive. unfold z. now rewrite lstrip_idem.
Qed.

Section GuiFacts4.
Context {num W : Type} (K : kit num W) (S : sane K).
Notation win := (win W).
Local Opaque get_side text_of u.

Lemma path_ok g : path_str (display_path K g []) = (if print_path_ K (engine g) then firstn 53 (last_path K (engine g)) else []).
Proof.
  unfold display_path. cbv zeta. destruct (print_path_ K (engine g)).
  - destruct (seqb (last_path K (engine g)) []) eqn:E; cbn [negb andb].
    + apply seqb_eq in E. rewrite E. reflexivity.
    + destruct (Nat.ltb_spec (length (last_path K (engine g))) max_len) as [L|L]; [|reflexivity].
      cbn [set_path path_str]. rewrite firstn_all2; [reflexivity|]. unfold max_len in L. lia.
  - rewrite andb_false_r. reflexivity.
Qed.
(** what the window shows for an answer *)
Lemma told d g a b :
  let r := convert K (snd a) (fst a) (fst b) (if again g then Some false else None) (engine g) in
  path_str (do_convert K d g a b) = shown K r.
Proof.
  cbv zeta. destruct (convert K (snd a) (fst a) (fst b) (if again g then Some false else None) (engine g)) as [[r|e] w] eqn:E.
  - rewrite (convert_ok K d g a b r w E). cbn [set_again path_str]. rewrite path_ok.
    match goal with |- context [engine ?h] => replace (engine h) with w by (clear; destruct d; reflexivity) end. reflexivity.
  - rewrite (convert_err K d g a b e w E). unfold shown. cbn [fst].
    match goal with |- context [display_path K ?h (message e)] => generalize h end. intros h.
    destruct (display_red K h (message e) (message_some e)) as (_ & P).
    destruct (match e with NoConversionFoundError => true | _ => false end); exact P.
Qed.

Definition other_side (g : win) (from : bool) (y : str) : Prop :=
  only_unit K (value_box from g) (unit_box from g) y \/ exists m, typed K (value_box from g) (unit_box from g) m y.
Lemma straight d g n x y : typed K (value_box d g) (unit_box d g) n x -> other_side g (negb d) y ->
  exists g2 b, fst b = GT y /\ engine g2 = engine g /\ again g2 = again g /\ unit_box d g2 = x /\ value_box d g2 = show K n /\
    forall k, calculate K (Datatypes.S k) d g = (Ok tt, do_convert K d g2 (GT x, GN n) b).
Proof.
  intros T O. pose proof (side_typed K S _ _ n x T) as Ha.
  assert (Hb : exists b, fst b = GT y /\ get_side K (value_box (negb d) g) (unit_box (negb d) g) = Ok b).
  { destruct O as [O|(m & O)]; [exists (GT y, GT []); split; [reflexivity|exact (side_only K _ _ y O)]|exists (GT y, GN m); split; [reflexivity|exact (side_typed K S _ _ m y O)]]. }
  destruct Hb as (b & Eb & Hb).
  assert (X : forall k, calculate K (Datatypes.S k) d g = (Ok tt, do_convert K d (snd (Ok tt, write_side K (negb d) (write_side K d (display_path K g (u " ")) (GT x, GN n)) b)) (GT x, GN n) b)).
  { intros k. cbn [calculate snd]. set (g0 := display_path K g (u " ")). destruct (box_display K d g (u " ")) as (B1 & B2). destruct (box_display K (negb d) g (u " ")) as (B3 & B4).
    rewrite read_box. unfold g0. rewrite B1, B2, Ha. rewrite read_box.
    destruct (box_write_other K (negb d) d (display_path K g (u " ")) (GT x, GN n) eq_refl) as (C1 & C2). rewrite C1, C2, B3, B4, Hb.
    replace (all_none (GT x, GN n) b) with false by reflexivity. reflexivity. }
  set (h := write_side K (negb d) (write_side K d (display_path K g (u " ")) (GT x, GN n)) b) in X. exists h, b. split; [exact Eb|].
  destruct (display_boxes K g (u " ")) as (_ & _ & _ & _ & De & Da).
  destruct (write_engine K d (display_path K g (u " ")) (GT x, GN n)) as (E1 & A1).
  destruct (write_engine K (negb d) (write_side K d (display_path K g (u " ")) (GT x, GN n)) b) as (E2 & A2).
  assert (Od : d = negb (negb d)) by (destruct d; reflexivity).
  destruct (box_write_other K d (negb d) (write_side K d (display_path K g (u " ")) (GT x, GN n)) b Od) as (C1 & C2).
  destruct (box_write K d (display_path K g (u " ")) (GT x, GN n)) as (D1 & D2).
  split; [unfold h; now rewrite E2, E1, De|]. split; [unfold h; now rewrite A2, A1, Da|].
  split; [unfold h; rewrite C1; exact D1|]. split; [unfold h; rewrite C2; exact D2|]. exact X.
Qed.
Lemma form d g n x y : typed K (value_box d g) (unit_box d g) n x -> other_side g (negb d) y ->
  let r := convert K (GN n) (GT x) (GT y) (if again g then Some false else None) (engine g) in
  let h := snd (calculate K 2 d g) in
  unit_box d h = x /\ value_box d h = show K n /\ unit_box (negb d) h = y /\ value_box (negb d) h = answer K (fst r) /\
  engine h = snd r /\ path_str h = shown K r /\ red h = failed r.
Proof.
  intros T O. cbv zeta. destruct (straight d g n x y T O) as (g2 & b & Eb & E & A & U & V & X). rewrite (X 1%nat). cbn [snd].
  pose proof (shows K d g2 (GT x, GN n) b) as Sh. pose proof (told d g2 (GT x, GN n) b) as Td. cbv zeta in Sh, Td. rewrite Eb in Sh, Td. cbn [fst snd] in Sh, Td. rewrite E, A in Sh, Td.
  destruct Sh as (S1 & S2 & S3 & S4 & S5 & S6).
  split; [now rewrite S1|]. split; [now rewrite S2|]. split; [rewrite S3; reflexivity|]. split; [exact S4|]. split; [exact S5|]. split; [exact Td|].
  unfold failed. destruct (fst (convert K _ _ _ _ _)) as [r|e]; exact (proj1 S6).
Qed.
(** the number on the other side *)
Lemma turned d g n x y : only_unit K (value_box d g) (unit_box d g) y -> typed K (value_box (negb d) g) (unit_box (negb d) g) n x ->
  let r := convert K (GN n) (GT x) (GT y) (if again g then Some false else None) (engine g) in
  let h := snd (calculate K 2 d g) in
  unit_box (negb d) h = x /\ value_box (negb d) h = show K n /\ unit_box d h = y /\ value_box d h = answer K (fst r) /\
  engine h = snd r /\ path_str h = shown K r /\ red h = failed r.
Proof.
  intros O T. cbv zeta. pose proof (side_only K _ _ y O) as Ha. pose proof (side_typed K S _ _ n x T) as Hb.
  destruct (turn K 1 d g _ _ Ha Hb) as (g2 & _ & E & A & U1 & V1 & U2 & V2 & C). cbn [fst snd] in *. rewrite C.
  replace (all_none (GT y, GT []) (GT x, GN n)) with false by reflexivity. cbn [is_blank]. rewrite (number_numeric K S n). cbn [andb].
  assert (Od : d = negb (negb d)) by (destruct d; reflexivity).
  assert (T2 : typed K (value_box (negb d) g2) (unit_box (negb d) g2) n x).
  { destruct T as (a & H1 & H2 & H3 & H4 & H5 & H6). rewrite U2, V2. exists (show K n). destruct (numeric_text K S a n H1 H2) as (N1 & N2).
    assert (Sx : strip x = x) by (destruct H6 as [(_ & <-)|(<- & _)]; apply strip_idem).
    split; [exact N1|]. split; [exact N2|]. split; [exact H3|]. split; [exact (numeric_plain K S _ N1)|]. split; [exact H5|]. left. split; [exact (shown_tight K S n)|exact Sx]. }
  assert (O2 : other_side g2 (negb (negb d)) y).
  { rewrite <- Od. left. rewrite U1, V1. destruct O as (H1 & H2 & H3 & H4). assert (Sy : strip y = y) by (destruct H4 as [(_ & <-)|(<- & _)]; apply strip_idem).
    split; [exact H1|]. split; [exact H2|]. split; [exact H3|]. left. split; [reflexivity|exact Sy]. }
  destruct (straight (negb d) g2 n x y T2 O2) as (g3 & b & Eb & E3 & A3 & U3 & V3 & X). rewrite (X 0%nat). cbn [snd].
  pose proof (shows K (negb d) g3 (GT x, GN n) b) as Sh. pose proof (told (negb d) g3 (GT x, GN n) b) as Td. cbv zeta in Sh, Td. rewrite Eb in Sh, Td. cbn [fst snd] in Sh, Td. rewrite E3, A3, E, A, <- Od in Sh. rewrite E3, A3, E, A in Td.
  destruct Sh as (S1 & S2 & S3 & S4 & S5 & S6).
  split; [now rewrite S1|]. split; [now rewrite S2|]. split; [rewrite S3; reflexivity|]. split; [exact S4|]. split; [exact S5|]. split; [exact Td|].
  unfold failed. destruct (fst (convert K _ _ _ _ _)) as [r|e]; exact (proj1 S6).
Qed.
End GuiFacts4.
