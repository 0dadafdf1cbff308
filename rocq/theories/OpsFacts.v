(** * Facts about operations.py: numbers, bases and powers *)
From Coq Require Import String Lia ZArith.
From Verif Require Import Py StrTools StrFacts3 Network Search Conv Converter EngineSpec CleanFacts OpsSpec Operations.
Local Open Scope N_scope.

(** ** Decimal writing of integers *)
Lemma dec_val_app a x y : dec_val a (x ++ y) = dec_val (dec_val a x) y.
Proof. revert a; induction x as [|c x IH]; intros a; cbn [dec_val Datatypes.app]; [reflexivity|apply IH]. Qed.
Lemma digit_val n : digit (n mod 10) - 48 = n mod 10.
Proof. unfold digit. rewrite N.add_comm. apply N.add_sub. Qed.
Lemma dec_digits_val : forall f n acc, n < 2 ^ N.of_nat (S f) ->
  dec_val 0 (dec_digits (S f) n acc) = dec_val n acc.
Proof.
  induction f as [|f IH]; intros n acc Hn.
  - cbn [dec_digits]. change (2 ^ N.of_nat 1) with 2 in Hn.
    assert (n / 10 = 0) as -> by (apply N.div_small; lia). cbn [N.eqb]. cbn [dec_val].
    rewrite digit_val, N.mod_small by lia. f_equal; try lia.
  - change (dec_digits (S (S f)) n acc) with
      (let acc' := digit (n mod 10) :: acc in if n / 10 =? 0 then acc' else dec_digits (S f) (n / 10) acc').
    cbv zeta. destruct (N.eqb_spec (n / 10) 0) as [H0|H0].
    + cbn [dec_val]. rewrite digit_val. f_equal. pose proof (N.div_mod' n 10). rewrite H0 in H. lia.
    + rewrite IH.
      * cbn [dec_val]. rewrite digit_val. f_equal. pose proof (N.div_mod' n 10). lia.
      * replace (N.of_nat (S (S f))) with (N.succ (N.of_nat (S f))) in Hn by lia.
        rewrite N.pow_succ_r' in Hn. apply N.div_lt_upper_bound; lia.
Qed.
Lemma is_dec_digit n : is_dec (digit (n mod 10)) = true.
Proof.
  assert (n mod 10 < 10) as H by (apply N.mod_lt; discriminate). unfold is_dec, digit. revert H. generalize (n mod 10).
  intros k H. apply andb_true_iff; rewrite !N.leb_le; lia.
Qed.
Lemma dec_digits_all : forall f n acc, all_dec acc = true -> all_dec (dec_digits f n acc) = true.
Proof.
  induction f as [|f IH]; intros n acc H; [exact H|]. cbn [dec_digits].
  assert (all_dec (digit (n mod 10) :: acc) = true) as H1.
  { unfold all_dec. cbn [forallb]. rewrite is_dec_digit. exact H. }
  destruct (n / 10 =? 0); [exact H1|now apply IH].
Qed.
Lemma dec_digits_nonnil : forall f n acc, acc <> [] -> dec_digits f n acc <> [].
Proof.
  induction f as [|f IH]; intros n acc H; [exact H|]. cbn [dec_digits]. destruct (n / 10 =? 0); [discriminate|].
  apply IH. discriminate.
Qed.
Lemma str_of_N_val n : dec_val 0 (str_of_N n) = n.
Proof.
  unfold str_of_N. rewrite dec_digits_val; [reflexivity|].
  replace (N.of_nat (S (N.to_nat (N.log2 n)))) with (N.succ (N.log2 n)) by lia.
  destruct (N.eq_dec n 0) as [->|H]; [reflexivity|]. apply N.log2_spec. lia.
Qed.
Lemma str_of_N_dec n : all_dec (str_of_N n) = true.
Proof. apply dec_digits_all. reflexivity. Qed.
Lemma str_of_N_nonnil n : str_of_N n <> [].
Proof.
  unfold str_of_N. cbn [dec_digits]. destruct (n / 10 =? 0); [discriminate|apply dec_digits_nonnil; discriminate].
Qed.
Lemma all_dec_In x c : all_dec x = true -> In c x -> is_dec c = true.
Proof. unfold all_dec. rewrite forallb_forall. auto. Qed.
Lemma is_dec_range c : is_dec c = true -> 48 <= c <= 57.
Proof. unfold is_dec. rewrite andb_true_iff, !N.leb_le. tauto. Qed.
Lemma dec_not c l : is_dec c = true -> forallb (fun d => negb (is_dec d)) l = true -> ~ In c l.
Proof. intros H Hl Hin. rewrite forallb_forall in Hl. apply Hl in Hin. now rewrite H in Hin. Qed.
Lemma dec_not_space c : is_dec c = true -> cmem c wspace = false.
Proof. intros H. apply cmem_false. apply dec_not; [exact H|reflexivity]. Qed.
Lemma strip_none cs x : (forall c, In c x -> cmem c cs = false) -> strip_chars cs x = x.
Proof.
  intros H. unfold strip_chars, rstrip_chars. rewrite (lstrip_none cs x).
  2:{ destruct x; [exact I|]. apply H. now left. }
  rewrite lstrip_none; [apply rev_involutive|]. destruct (rev x) eqn:E; [exact I|]. apply H. apply in_rev. rewrite E. now left.
Qed.
Lemma drop_us_dec b x : all_dec x = true -> drop_us b x = Some x.
Proof.
  revert b; induction x as [|c x IH]; intros b H; [reflexivity|]. cbn [drop_us].
  unfold all_dec in H. cbn [forallb] in H. apply andb_true_iff in H as (Hc & Hx).
  destruct (N.eqb_spec c 95) as [->|_]; [discriminate|]. now rewrite IH.
Qed.
Lemma str_of_Z_chars z c : In c (str_of_Z z) -> is_dec c = true \/ c = c_minus.
Proof.
  destruct z as [|p|p]; cbn [str_of_Z In].
  - intros [<-|[]]. now left.
  - intros H. left. exact (all_dec_In _ _ (str_of_N_dec _) H).
  - intros [<-|H]; [now right|]. left. exact (all_dec_In _ _ (str_of_N_dec _) H).
Qed.
Lemma py_int_dec x : all_dec x = true -> x <> [] -> py_int x = Ok (Z.of_N (dec_val 0 x)).
Proof.
  intros H Hn. unfold py_int, strip. rewrite strip_none.
  2:{ intros c Hc. apply dec_not_space. exact (all_dec_In _ _ H Hc). }
  destruct x as [|c x]; [congruence|].
  assert (c <> 45 /\ c <> 43) as (H1 & H2).
  { assert (is_dec c = true) as Hd by (apply (all_dec_In (c :: x)); [exact H|now left]). apply is_dec_range in Hd. lia. }
  match goal with |- (let '(sg, b) := ?M in _) = _ => assert (M = (1%Z, c :: x)) as -> end.
  { destruct c as [|p]; [reflexivity|]. do 6 (destruct p as [p|p|]; try reflexivity); congruence. }
  rewrite drop_us_dec by exact H. rewrite H. f_equal. lia.
Qed.
Lemma py_int_str z : py_int (str_of_Z z) = Ok z.
Proof.
  destruct z as [|p|p]; [reflexivity| |].
  - cbn [str_of_Z]. rewrite py_int_dec; [|apply str_of_N_dec|apply str_of_N_nonnil]. now rewrite str_of_N_val.
  - cbn [str_of_Z]. unfold py_int, strip. rewrite strip_none.
    2:{ intros c [<-|Hc]; [reflexivity|]. apply dec_not_space. exact (all_dec_In _ _ (str_of_N_dec _) Hc). }
    cbv beta iota. rewrite drop_us_dec by apply str_of_N_dec. pose proof (str_of_N_nonnil (Npos p)) as Hn.
    destruct (str_of_N (Npos p)) as [|c x] eqn:E; [congruence|]. rewrite <- E, str_of_N_dec, str_of_N_val. reflexivity.
Qed.
Lemma str_of_Z_nonnil z : str_of_Z z <> [].
Proof. destruct z; cbn [str_of_Z]; [discriminate|apply str_of_N_nonnil|discriminate]. Qed.
Lemma str_of_Z_nodot z : cmem c_dot (str_of_Z z) = false.
Proof. apply cmem_false. intros H. apply str_of_Z_chars in H as [H|H]; discriminate. Qed.
Lemma str_of_Z_inj a b : str_of_Z a = str_of_Z b -> a = b.
Proof. intros H. pose proof (py_int_str a) as Ha. rewrite H, py_int_str in Ha. congruence. Qed.

Section F.
Context {F : Floats}.
Lemma number_of_str z : number_of (str_of_Z z) = Ok (PI z).
Proof. unfold number_of. now rewrite str_of_Z_nodot, py_int_str. Qed.

(** ** Reading a base and its power *)
Lemma dec_isdigit c : is_dec c = true -> isdigit c = true.
Proof. intros H. unfold isdigit. now rewrite H. Qed.
Lemma base_char b c : base_name b -> In c b ->
  isdigit c = false /\ (c =? c_minus) || (c =? c_plus) || (c =? c_dot) = false /\ (c =? c_slash) = false.
Proof.
  intros H Hc. apply H in Hc as (H1 & H2). split; [exact H1|]. change (u "-+./") with [c_minus; c_plus; c_dot; c_slash] in H2. cbn [In] in H2.
  destruct (N.eqb_spec c c_minus), (N.eqb_spec c c_plus), (N.eqb_spec c c_dot), (N.eqb_spec c c_slash); try (exfalso; apply H2; intuition congruence).
  split; reflexivity.
Qed.
Lemma ubp_base b : forall x bas, base_name b -> ubp_loop (b ++ x) bas [] [] false = ubp_loop x (bas ++ b) [] [] false.
Proof.
  induction b as [|c b IH]; intros x bas H; [now rewrite app_nil_r|].
  change ((c :: b) ++ x) with (c :: (b ++ x)). cbn [ubp_loop].
  destruct (base_char _ c H (or_introl eq_refl)) as (-> & -> & ->). cbn [flip Datatypes.app].
  rewrite IH by (intros d Hd; apply H; now right). now rewrite <- app_assoc.
Qed.
Lemma ubp_digits d : forall bas pw, all_dec d = true -> ubp_loop d bas pw [] false = (bas, pw ++ d).
Proof.
  induction d as [|c d IH]; intros bas pw H; [cbn; now rewrite app_nil_r|].
  unfold all_dec in H. cbn [forallb] in H. apply andb_true_iff in H as (Hc & Hd).
  cbn [ubp_loop]. rewrite (dec_isdigit c Hc), IH by exact Hd. cbn [Datatypes.app]. now rewrite <- app_assoc.
Qed.
Lemma ubp_number z bas : ubp_loop (str_of_Z z) bas [] [] false = (bas, str_of_Z z).
Proof.
  destruct z as [|p|p]; cbn [str_of_Z]; [reflexivity|apply ubp_digits, str_of_N_dec|].
  cbn [ubp_loop]. change (isdigit 45) with false. cbn [N.eqb c_minus Pos.eqb orb Datatypes.app]. pose proof (str_of_N_nonnil (Npos p)) as Hn.
  pose proof (str_of_N_dec (Npos p)) as Hd. destruct (str_of_N (Npos p)) as [|c d] eqn:E; [congruence|].
  unfold all_dec in Hd. cbn [forallb] in Hd. apply andb_true_iff in Hd as (Hc & Hd).
  cbn [ubp_loop]. rewrite (dec_isdigit c Hc), ubp_digits by exact Hd. reflexivity.
Qed.
Lemma ubp_plain b bas : base_name b -> ubp_loop b bas [] [] false = (bas ++ b, []).
Proof. intros H. rewrite <- (app_nil_r b) at 1. rewrite ubp_base by exact H. reflexivity. Qed.
Lemma base_noslash b : base_name b -> ~ In c_slash b.
Proof. intros H Hi. apply H in Hi as (_ & Hi). apply Hi. cbn. tauto. Qed.
Lemma split2_no c x : ~ In c x -> split2 c x = None.
Proof. intros H. unfold split2. now rewrite csplit_no. Qed.
Lemma power_noslash b z : base_name b -> ~ In c_slash (b ++ str_of_Z z).
Proof.
  intros H Hi. apply in_app_iff in Hi as [Hi|Hi]; [now apply base_noslash in Hi|].
  apply str_of_Z_chars in Hi as [Hi|Hi]; discriminate.
Qed.
Lemma ubp_power b n : base_name b -> unit_base_power (b ++ str_of_Z n) = Ok (b, PI n).
Proof.
  intros H. unfold unit_base_power. rewrite split2_no by now apply power_noslash.
  rewrite ubp_base, ubp_number by exact H. cbn [Datatypes.app].
  pose proof (str_of_Z_nonnil n) as Hn. rewrite number_of_str. now destruct (str_of_Z n).
Qed.
Lemma ubp_alone b : base_name b -> unit_base_power b = Ok (b, PI 1).
Proof.
  intros H. unfold unit_base_power. rewrite split2_no by now apply base_noslash. now rewrite ubp_plain.
Qed.
Lemma split2_one a b : ~ In c_slash a -> ~ In c_slash b -> split2 c_slash (a ++ [c_slash] ++ b) = Some (a, b).
Proof.
  intros Ha Hb. unfold split2. cbn [Datatypes.app]. rewrite csplit_app_sep, !csplit_no by assumption. reflexivity.
Qed.
Lemma ubp_inverse b : ~ In c_slash b -> unit_base_power (u "1/" ++ b) = Ok (b, PI (-1)).
Proof.
  intros H. unfold unit_base_power. change (u "1/" ++ b) with ([49] ++ [c_slash] ++ b).
  rewrite split2_one; [reflexivity| |exact H]. intros [H1|[]]; discriminate.
Qed.
Lemma ubp_powname b n : base_name b -> unit_base_power (powname b n) = Ok (b, PI n).
Proof.
  intros H. unfold powname. destruct (Z.eqb_spec n 1) as [->|_]; [now apply ubp_alone|now apply ubp_power].
Qed.
End F.
