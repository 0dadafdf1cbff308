(** * Whole numbers as the number reader of the window, for the examples of C65 and C66 *)
From Coq Require Import String QArith Qcanon Decimal DecimalN.
From Verif Require Import Py StrTools StrFacts StrFacts2 StrFacts3 Network Conv Converter EngineSpec CleanFacts OpsFacts OpsFacts2 PathText Caster Gui GuiSpec GuiFacts4 GuiEngine.
Local Open Scope N_scope.

(** example: the digits of a number *)
Fixpoint digits_of (d : uint) : str :=
  match d with
  | Nil => [] | D0 d => 48 :: digits_of d | D1 d => 49 :: digits_of d | D2 d => 50 :: digits_of d | D3 d => 51 :: digits_of d | D4 d => 52 :: digits_of d
  | D5 d => 53 :: digits_of d | D6 d => 54 :: digits_of d | D7 d => 55 :: digits_of d | D8 d => 56 :: digits_of d | D9 d => 57 :: digits_of d
  end.
(** example: the number of some digits *)
Fixpoint uint_of (x : str) : uint :=
  match x with
  | [] => Nil
  | c :: x => let d := uint_of x in
      if c =? 48 then D0 d else if c =? 49 then D1 d else if c =? 50 then D2 d else if c =? 51 then D3 d else if c =? 52 then D4 d
      else if c =? 53 then D5 d else if c =? 54 then D6 d else if c =? 55 then D7 d else if c =? 56 then D8 d else D9 d
  end.
Definition digit (c : chr) : bool := (48 <=? c) && (c <=? 57).
(** example: whole numbers, with spaces around *)
Definition is_whole (x : str) : bool := negb (seqb (strip x) []) && forallb digit (strip x).
Definition whole (x : str) : N := N.of_uint (uint_of (strip x)).
Definition show_whole (n : N) : str := digits_of (N.to_uint n).

Lemma uint_digits d : uint_of (digits_of d) = d.
Proof. induction d as [|d IH|d IH|d IH|d IH|d IH|d IH|d IH|d IH|d IH|d IH]; cbn [digits_of uint_of N.eqb Pos.eqb]; [reflexivity| | | | | | | | | |]; now rewrite IH. Qed.
Lemma digits_digit d : forallb digit (digits_of d) = true.
Proof. induction d as [|d IH|d IH|d IH|d IH|d IH|d IH|d IH|d IH|d IH|d IH]; [reflexivity| | | | | | | | | |]; exact IH. Qed.
Lemma digit_not_space c : digit c = true -> cmem c wspace = false.
Proof.
  intros H. apply andb_true_iff in H as [H1 H2]. apply N.leb_le in H1, H2. apply cmem_false. intros Hc. vm_compute in Hc.
  repeat (destruct Hc as [<-|Hc]; [vm_compute in H1; vm_compute in H2; (congruence || (now apply H1) || (now apply H2))|]). destruct Hc.
Qed.
Lemma digits_tight x : forallb digit x = true -> strip x = x.
Proof. intros H. apply strip_none. intros c Hc. rewrite forallb_forall in H. exact (digit_not_space c (H c Hc)). Qed.
Lemma whole_strip x : is_whole (strip x) = is_whole x.
Proof. unfold is_whole. now rewrite strip_idem. Qed.
Lemma show_tight n : strip (show_whole n) = show_whole n.
Proof. apply digits_tight, digits_digit. Qed.
Lemma show_some n : show_whole n <> [].
Proof. unfold show_whole. destruct (N.to_uint n) eqn:E; try (cbn [digits_of]; discriminate). pose proof (Unsigned.of_to n) as X. rewrite E in X. cbn in X. subst n. discriminate E. Qed.
Lemma show_is n : is_whole (show_whole n) = true.
Proof.
  unfold is_whole. rewrite show_tight. unfold show_whole at 2. rewrite digits_digit, andb_true_r. destruct (seqb (show_whole n) []) eqn:E; [|reflexivity].
  apply seqb_eq in E. destruct (show_some n E).
Qed.
Lemma whole_show n : whole (show_whole n) = n.
Proof. unfold whole. rewrite show_tight. unfold show_whole. rewrite uint_digits. apply Unsigned.of_to. Qed.
Lemma sub_in p c : In c p -> forall s, ssub p s = true -> In c s.
Proof.
  intros Hp s. induction s as [|d s IH]; cbn [ssub]; intros H; apply orb_true_iff in H as [H|H].
  - destruct p; [destruct Hp|discriminate H].
  - discriminate H.
  - revert H Hp. generalize (d :: s). clear. intros s. revert s. induction p as [|q p IHp]; intros s H Hc; [destruct Hc|]. destruct s as [|e s]; [discriminate H|].
    cbn [sprefix] in H. apply andb_true_iff in H as [H1 H2]. apply N.eqb_eq in H1. subst e. destruct Hc as [<-|Hc]; [now left|right; exact (IHp s H2 Hc)].
  - right. exact (IH H).
Qed.
Lemma whole_plain x : is_whole x = true -> plain_text x.
Proof.
  intros H. apply andb_true_iff in H as [_ H]. rewrite forallb_forall in H. destruct (strip_parts wspace x) as (p & q & E & Hp & Hq & _).
  assert (A : forall c, In c x -> In c wspace \/ digit c = true).
  { intros c Hc. rewrite E in Hc. apply in_app_or in Hc as [Hc|Hc]; [left; exact (Hp c Hc)|]. apply in_app_or in Hc as [Hc|Hc]; [right; exact (H c Hc)|left; exact (Hq c Hc)]. }
  assert (B : ~ In 110 x). { intros Hc. destruct (A 110 Hc) as [X|X]; [apply cmem_In in X; discriminate X|discriminate X]. }
  split; [destruct (ssub (u "no conversion found!") x) eqn:X|destruct (ssub (u "wrong number format") x) eqn:X]; try reflexivity;
    exfalso; apply B; eapply sub_in; try exact X; apply cmem_In; reflexivity.
Qed.

(** ** The converter of the package, with whole numbers in the boxes *)
Definition q_numeric (x : gv Qc) : bool := match x with GT x => is_whole x | GN _ => true | _ => false end.
Definition q_number (x : str) : res Qc := if is_whole x then Ok (Q2Qc (inject_Z (Z.of_N (whole x)))) else Err ValueError.
Definition q_show (q : Qc) : str := show_whole (Z.to_N (Qnum (this q))).
Lemma q_back n : Z.to_N (Qnum (this (Q2Qc (inject_Z (Z.of_N n))))) = n.
Proof.
  assert (E : Qred (inject_Z (Z.of_N n)) = inject_Z (Z.of_N n)).
  { unfold Qred, inject_Z. pose proof (Z.ggcd_correct_divisors (Z.of_N n) 1) as C. pose proof (Z.ggcd_gcd (Z.of_N n) 1) as G. rewrite Z.gcd_1_r in G.
    destruct (Z.ggcd (Z.of_N n) 1) as (g & a & b). cbn [fst snd] in *. subst g. destruct C as (C1 & C2). rewrite Z.mul_1_l in C1, C2. subst a b. reflexivity. }
  cbn [Q2Qc this]. rewrite E. cbn [inject_Z Qnum]. apply N2Z.id.
Qed.
Lemma engine_sane tup : sane (engine_kit q_numeric q_number q_show tup).
Proof.
  constructor; cbn [engine_kit is_numeric get_number show print_path_ last_path set_print_path set_last_path Gui.convert q_numeric].
  - reflexivity.
  - reflexivity.
  - reflexivity.
  - intros x H. unfold q_number. rewrite H. eexists; reflexivity.
  - intros x n H E. unfold q_number in E. rewrite H in E. injection E as <-. unfold q_show. rewrite q_back. split; [apply show_is|]. unfold q_number. now rewrite show_is, whole_show.
  - exact whole_strip.
  - intros n. apply show_tight.
  - intros x H. exact (whole_plain x H).
  - intros v a b uc (s & pp & last). unfold gui_convert. destruct (Converter.convert _ _ _ uc s) as [[[[q|f]|]|e] s']; reflexivity.
  - reflexivity.
  - reflexivity.
  - reflexivity.
  - reflexivity.
Qed.

(** ** A small converter: the unit "x" cannot be reached, the path to another unit is its name *)
Definition n_numeric (x : gv N) : bool := match x with GT x => is_whole x | GN _ => true | _ => false end.
Definition n_number (x : str) : res N := if is_whole x then Ok (whole x) else Err ValueError.
Definition n_convert (v a b : gv N) (uc : option bool) (w : bool * str) : res (gv N) * (bool * str) :=
  match b with GT y => if seqb y (u "x") then (Err NoConversionFoundError, w) else (Ok v, (fst w, y)) | _ => (Err TypeError, w) end.
Definition small : kit N (bool * str) :=
  {| is_numeric := n_numeric; get_number := n_number; show := show_whole; Gui.convert := n_convert; print_path_ := fst; last_path := snd;
     set_print_path := fun b w => (b, snd w); set_last_path := fun x w => (fst w, x) |}.
Lemma small_sane : sane small.
Proof.
  constructor; cbn [small is_numeric get_number show print_path_ last_path set_print_path set_last_path Gui.convert n_numeric].
  - reflexivity.
  - reflexivity.
  - reflexivity.
  - intros x H. unfold n_number. rewrite H. eexists; reflexivity.
  - intros x n H E. unfold n_number in E. rewrite H in E. injection E as <-. split; [apply show_is|]. unfold n_number. now rewrite show_is, whole_show.
  - exact whole_strip.
  - exact show_tight.
  - intros x H. exact (whole_plain x H).
  - intros v a b uc w. unfold n_convert. destruct b as [y| | |]; try reflexivity. destruct (seqb y (u "x")); reflexivity.
  - reflexivity.
  - reflexivity.
  - reflexivity.
  - reflexivity.
Qed.
(** gui.py:33-103: the window as it opens, with the conversion path to be shown *)
Definition window : win (bool * str) := Win [] [] [] [] false [] false 0 0 true None [] 0 (true, []).
