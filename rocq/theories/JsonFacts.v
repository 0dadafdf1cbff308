(** * Facts about the JSON texts: strings and numbers *)
From Coq Require Import String.
From Verif Require Import Py Json OpsFacts.
Local Open Scope N_scope.

(** ** Induction over values *)
Section Ind.
Variable P : jval -> Prop.
Hypothesis Hnull : P JNull.
Hypothesis Hbool : forall b, P (JBool b).
Hypothesis Hint : forall z, P (JInt z).
Hypothesis Hflt : forall t, P (JFlt t).
Hypothesis Hstr : forall s, P (JStr s).
Hypothesis Harr : forall l, Forall P l -> P (JArr l).
Hypothesis Hobj : forall l, Forall (fun e => P (snd e)) l -> P (JObj l).
Hypothesis Hother : P JOther.
Fixpoint jval_ind' (v : jval) : P v :=
  match v with
  | JNull => Hnull | JBool b => Hbool b | JInt z => Hint z | JFlt t => Hflt t | JStr s => Hstr s
  | JArr l => Harr l ((fix go l : Forall P l := match l with [] => Forall_nil _ | x :: t => Forall_cons x (jval_ind' x) (go t) end) l)
  | JObj l => Hobj l ((fix go l : Forall (fun e => P (snd e)) l := match l with [] => Forall_nil _ | x :: t => Forall_cons x (jval_ind' (snd x)) (go t) end) l)
  | JOther => Hother
  end.
End Ind.

Lemma writable_arr l : writable (JArr l) <-> Forall writable l.
Proof. cbn [writable]. induction l as [|x l IH]; [split; constructor|]. rewrite IH. split; [intros [A B]; constructor; assumption|intros A; inversion A; auto]. Qed.
Lemma writable_obj l : writable (JObj l) <-> NoDup (map fst l) /\ Forall (fun e => Forall plain_char (fst e) /\ writable (snd e)) l.
Proof.
  cbn [writable]. apply and_iff_compat_l. induction l as [|x l IH]; [split; constructor|]. rewrite IH.
  split; [intros [A B]; constructor; assumption|intros A; inversion A; auto].
Qed.

(** ** The text *)
Fixpoint txt (v : jval) : str :=
  match v with
  | JNull => u "null" | JBool true => u "true" | JBool false => u "false" | JInt z => str_of_Z z | JFlt t => t | JStr s => jquote s
  | JArr l => 91 :: sjoin (u ", ") (map txt l) ++ [93]
  | JObj l => 123 :: sjoin (u ", ") (map (fun e => jquote (fst e) ++ u ": " ++ txt (snd e)) l) ++ [125]
  | JOther => []
  end.
Lemma wcat_wr a b : wcat (wr a) b = (a ++ fst b, snd b).
Proof. reflexivity. Qed.
Lemma wjoin_wr l : wjoin (map wr l) = wr (sjoin (u ", ") l).
Proof. induction l as [|x [|y l] IH]; [reflexivity|reflexivity|]. cbn [map wjoin sjoin] in *. rewrite IH. reflexivity. Qed.
Lemma jwrite_txt v : writable v -> jwrite v = (txt v, true).
Proof.
  induction v using jval_ind'; intros W; try reflexivity.
  - destruct b; reflexivity.
  - apply writable_arr in W. cbn [jwrite txt].
    assert (E : map jwrite l = map wr (map txt l)).
    { rewrite map_map. clear -H W. induction l as [|x l IH]; [reflexivity|]. inversion H; inversion W; subst. cbn [map]. rewrite (H2 H6), (IH H3 H7). reflexivity. }
    rewrite E, wjoin_wr. reflexivity.
  - apply writable_obj in W. destruct W as [_ W]. cbn [jwrite txt].
    assert (E : map (fun e => wcat (wr (jquote (fst e) ++ u ": ")) (jwrite (snd e))) l = map wr (map (fun e => jquote (fst e) ++ u ": " ++ txt (snd e)) l)).
    { rewrite map_map. clear -H W. induction l as [|x l IH]; [reflexivity|]. inversion H; inversion W; subst. cbn [map].
      rewrite (H2 (proj2 H6)), (IH H3 H7). rewrite wcat_wr, <- app_assoc. reflexivity. }
    rewrite E, wjoin_wr. reflexivity.
  - destruct W.
Qed.

(** ** Hexadecimal digits *)
Lemma hexv_hexd n : n < 16 -> hexv (hexd n) = Some n.
Proof.
  intros H. unfold hexv, hexd. destruct (N.ltb_spec n 10).
  - replace (48 <=? 48 + n) with true by (symmetry; apply N.leb_le; lia). replace (48 + n <=? 57) with true by (symmetry; apply N.leb_le; lia). cbn [andb]. f_equal. lia.
  - replace (87 + n <=? 57) with false by (symmetry; apply N.leb_gt; lia). rewrite andb_false_r.
    replace (97 <=? 87 + n) with true by (symmetry; apply N.leb_le; lia). replace (87 + n <=? 102) with true by (symmetry; apply N.leb_le; lia). cbn [andb]. f_equal. lia.
Qed.
Lemma mod16 n : n mod 16 < 16.
Proof. apply N.mod_lt. discriminate. Qed.
Lemma hex4_sum n : n < 65536 -> n / 4096 mod 16 * 4096 + n / 256 mod 16 * 256 + n / 16 mod 16 * 16 + n mod 16 = n.
Proof.
  intros H. assert (E1 : n / 256 = n / 16 / 16) by (rewrite N.div_div by discriminate; reflexivity).
  assert (E2 : n / 4096 = n / 16 / 16 / 16) by (rewrite !N.div_div by discriminate; reflexivity). rewrite E1, E2.
  pose proof (N.div_mod n 16 ltac:(discriminate)). pose proof (N.div_mod (n / 16) 16 ltac:(discriminate)). pose proof (N.div_mod (n / 16 / 16) 16 ltac:(discriminate)).
  assert (E3 : n / 16 / 16 / 16 < 16). { rewrite !N.div_div by discriminate. apply N.div_lt_upper_bound; [discriminate|]. exact H. }
  rewrite (N.mod_small _ _ E3). lia.
Qed.
Lemma unhex4_hex4 n r : n < 65536 -> unhex4 (hex4 n ++ r) = Some (n, r).
Proof. intros H. unfold hex4. cbn [app]. unfold unhex4. rewrite !hexv_hexd by apply mod16. rewrite hex4_sum by exact H. reflexivity. Qed.

(** ** Strings *)
Lemma is_high_spec n : is_high n = true <-> 55296 <= n /\ n <= 56319.
Proof. unfold is_high. rewrite andb_true_iff, !N.leb_le. reflexivity. Qed.
Lemma is_low_spec n : is_low n = true <-> 56320 <= n /\ n <= 57343.
Proof. unfold is_low. rewrite andb_true_iff, !N.leb_le. reflexivity. Qed.
Lemma pair_spec c : 65536 <= c -> c < 1114112 -> let v := c - 65536 in
  is_high (55296 + v / 1024) = true /\ 55296 + v / 1024 < 65536 /\ is_low (56320 + v mod 1024) = true /\ 56320 + v mod 1024 < 65536
  /\ 65536 + (55296 + v / 1024 - 55296) * 1024 + (56320 + v mod 1024 - 56320) = c.
Proof.
  intros H1 H2 v. assert (v < 1048576) by (unfold v; lia). assert (Ev : v + 65536 = c) by (unfold v; lia). clearbody v. assert (Hd : v / 1024 < 1024) by (apply N.div_lt_upper_bound; [discriminate|exact H]).
  pose proof (N.mod_lt v 1024 ltac:(discriminate)). pose proof (N.div_mod v 1024 ltac:(discriminate)).
  rewrite is_high_spec, is_low_spec. set (x := v / 1024) in *. set (y := v mod 1024) in *. clearbody x y.
  replace (55296 + x - 55296) with x by lia. replace (56320 + y - 56320) with y by lia.
  split; [lia|]. split; [lia|]. split; [lia|]. split; [lia|]. lia.
Qed.
(** the shapes of [jchar c] *)
Inductive shape (c : chr) : str -> Prop :=
| ShEsc d : (forall r, unescape (d :: r) = Some (c, r)) -> d <> 117 -> shape c [92; d]
| ShPlain : c <> 34 -> c <> 92 -> 32 <= c -> shape c [c]
| ShHex : c < 65536 -> is_high c = false -> shape c (92 :: 117 :: hex4 c)
| ShPair a b : a < 65536 -> b < 65536 -> is_high a = true -> is_low b = true -> 65536 + (a - 55296) * 1024 + (b - 56320) = c -> shape c (92 :: 117 :: hex4 a ++ 92 :: 117 :: hex4 b).
Lemma jchar_shape c : plain_char c -> shape c (jchar c).
Proof.
  intros [H1 H2]. unfold jchar.
  destruct (N.eqb_spec c 92) as [->|N1]; [apply ShEsc; [intros r; reflexivity|discriminate]|].
  destruct (N.eqb_spec c 34) as [->|N2]; [apply ShEsc; [intros r; reflexivity|discriminate]|].
  destruct (N.eqb_spec c 10) as [->|N3]; [apply ShEsc; [intros r; reflexivity|discriminate]|].
  destruct (N.eqb_spec c 13) as [->|N4]; [apply ShEsc; [intros r; reflexivity|discriminate]|].
  destruct (N.eqb_spec c 9) as [->|N5]; [apply ShEsc; [intros r; reflexivity|discriminate]|].
  destruct (N.eqb_spec c 12) as [->|N6]; [apply ShEsc; [intros r; reflexivity|discriminate]|].
  destruct (N.eqb_spec c 8) as [->|N7]; [apply ShEsc; [intros r; reflexivity|discriminate]|].
  destruct (N.leb_spec 32 c), (N.leb_spec c 126); cbn [andb].
  1: now apply ShPlain.
  all: destruct (N.ltb_spec c 65536); [now apply ShHex|].
  all: destruct (pair_spec c) as (P1 & P2 & P3 & P4 & P5); [lia|lia|]; now apply ShPair.
Qed.
Lemma scanstring_S n s : scanstring (S n) s = match s with
      | [] => None
      | c :: t =>
          if c =? 34 then Some ([], t)
          else if c =? 92 then
            match unescape t with
            | Some (d, r) => option_map (fun p : str * str => (d :: fst p, snd p)) (scanstring n r)
            | None => None
            end
          else if c <? 32 then None
          else option_map (fun p : str * str => (c :: fst p, snd p)) (scanstring n t)
      end.
Proof. reflexivity. Qed.
Lemma unescape_hex c r : c < 65536 -> is_high c = false -> unescape (117 :: hex4 c ++ r) = Some (c, r).
Proof. intros H1 H2. unfold unescape. change (117 =? 117) with true. cbv iota. rewrite unhex4_hex4, H2 by exact H1. reflexivity. Qed.
Lemma scan_char n c r : plain_char c -> scanstring (S n) (jchar c ++ r) = option_map (fun p : str * str => (c :: fst p, snd p)) (scanstring n r).
Proof.
  intros H. rewrite scanstring_S. destruct (jchar_shape c H) as [d E N|N1 N2 L|L N|a b L1 L2 Ha Hb E].
  - change ([92; d] ++ r) with (92 :: d :: r). cbn [N.eqb Pos.eqb]. rewrite E. reflexivity.
  - cbn [app]. destruct (N.eqb_spec c 34); [contradiction|]. destruct (N.eqb_spec c 92); [contradiction|]. destruct (N.ltb_spec c 32); [lia|]. reflexivity.
  - change ((92 :: 117 :: hex4 c) ++ r) with (92 :: (117 :: hex4 c ++ r)). cbv iota beta. change (92 =? 34) with false. change (92 =? 92) with true. cbv iota.
    rewrite unescape_hex by assumption. reflexivity.
  - change ((92 :: 117 :: hex4 a ++ 92 :: 117 :: hex4 b) ++ r) with (92 :: 117 :: (hex4 a ++ 92 :: 117 :: hex4 b) ++ r). rewrite <- app_assoc.
    change (92 =? 34) with false. change (92 =? 92) with true. cbv iota. unfold unescape. change (117 =? 117) with true. cbv iota.
    rewrite unhex4_hex4, Ha by exact L1. change ((92 :: 117 :: hex4 b) ++ r) with (92 :: 117 :: hex4 b ++ r). cbv iota beta.
    rewrite unhex4_hex4, Hb, E by exact L2. reflexivity.
Qed.
Lemma scan_quoted s : forall n r, Forall plain_char s -> (length s < n)%nat -> scanstring n (flat_map jchar s ++ 34 :: r) = Some (s, r).
Proof.
  induction s as [|c s IH]; intros n r F L; destruct n as [|n]; cbn [length] in L; try lia; [reflexivity|].
  inversion F; subst. cbn [flat_map]. rewrite <- app_assoc, scan_char by assumption. rewrite IH by (assumption || lia). reflexivity.
Qed.
Lemma jchar_long s : (length s <= length (flat_map jchar s))%nat.
Proof.
  induction s as [|c s IH]; [reflexivity|]. cbn [flat_map]. rewrite app_length. cbn [length].
  assert (1 <= length (jchar c))%nat; [|lia]. unfold jchar. repeat (match goal with |- context [if ?b then _ else _] => destruct b end); cbn [length]; lia.
Qed.
Lemma scan_jquote s r : Forall plain_char s -> forall t, jquote s ++ r = 34 :: t -> scanstring (length t) t = Some (s, r).
Proof.
  intros F t E. unfold jquote in E. cbn [app] in E. injection E as <-. rewrite <- app_assoc. cbn [app]. apply scan_quoted; [exact F|].
  rewrite app_length. cbn [length]. pose proof (jchar_long s). lia.
Qed.

(** a text cut short *)
Definition cut (t p : str) : Prop := exists q, q <> [] /\ t = p ++ q.
Lemma cut_nil p : ~ cut [] p.
Proof. intros (q & N & E). destruct p, q; try discriminate. now apply N. Qed.
Lemma cut_cons c t p : cut (c :: t) p -> p = [] \/ exists p', p = c :: p' /\ cut t p'.
Proof. intros (q & N & E). destruct p as [|d p]; [now left|]. injection E as <- E. right. exists p. split; [reflexivity|]. exists q. auto. Qed.
Lemma cut_app a b p : cut (a ++ b) p -> cut a p \/ exists p', p = a ++ p' /\ cut b p'.
Proof.
  revert p. induction a as [|c a IH]; intros p H; [right; exists p; auto|]. apply cut_cons in H. destruct H as [->|(p' & -> & H)].
  - left. exists (c :: a). split; [discriminate|reflexivity].
  - destruct (IH _ H) as [(q & N & ->)|(p2 & -> & H2)]; [left; exists q; auto|right; exists p2; auto].
Qed.
Lemma unhex4_cut n p : n < 65536 -> cut (hex4 n) p -> unhex4 p = None.
Proof.
  intros L H. unfold hex4 in H. apply cut_cons in H. destruct H as [->|(p1 & -> & H)]; [reflexivity|].
  apply cut_cons in H. destruct H as [->|(p2 & -> & H)]; [reflexivity|]. apply cut_cons in H. destruct H as [->|(p3 & -> & H)]; [reflexivity|].
  apply cut_cons in H. destruct H as [->|(p4 & -> & H)]; [reflexivity|]. destruct (cut_nil _ H).
Qed.
Lemma scanstring_nil n : scanstring n [] = None.
Proof. destruct n; reflexivity. Qed.
Lemma scanstring_bs n : scanstring n [92] = None.
Proof. destruct n; reflexivity. Qed.
Lemma scan_char_cut n c p : plain_char c -> cut (jchar c) p -> scanstring n p = None.
Proof.
  intros H. destruct n as [|n]; [intros; reflexivity|]. destruct (jchar_shape c H) as [d E N|N1 N2 L|L N|a b L1 L2 Ha Hb E]; intros C.
  - apply cut_cons in C. destruct C as [->|(p1 & -> & C)]; [reflexivity|]. apply cut_cons in C. destruct C as [->|(p2 & -> & C)]; [reflexivity|]. destruct (cut_nil _ C).
  - apply cut_cons in C. destruct C as [->|(p1 & -> & C)]; [reflexivity|]. destruct (cut_nil _ C).
  - apply cut_cons in C. destruct C as [->|(p1 & -> & C)]; [reflexivity|]. apply cut_cons in C. destruct C as [->|(p2 & -> & C)]; [reflexivity|].
    rewrite scanstring_S. change (92 =? 34) with false. change (92 =? 92) with true. cbv iota. unfold unescape. change (117 =? 117) with true. cbv iota.
    rewrite (unhex4_cut c) by assumption. reflexivity.
  - apply cut_cons in C. destruct C as [->|(p1 & -> & C)]; [reflexivity|]. apply cut_cons in C. destruct C as [->|(p2 & -> & C)]; [reflexivity|].
    rewrite scanstring_S. change (92 =? 34) with false. change (92 =? 92) with true. cbv iota. unfold unescape. change (117 =? 117) with true. cbv iota.
    apply cut_app in C. destruct C as [C|(p3 & -> & C)]; [rewrite (unhex4_cut a) by assumption; reflexivity|].
    rewrite unhex4_hex4, Ha by exact L1. apply cut_cons in C. destruct C as [->|(p4 & -> & C)]; [rewrite scanstring_nil; reflexivity|].
    apply cut_cons in C. destruct C as [->|(p5 & -> & C)]; [cbv iota beta; rewrite scanstring_bs; reflexivity|].
    rewrite (unhex4_cut b) by assumption. reflexivity.
Qed.
Lemma scan_quoted_cut s : forall n p, Forall plain_char s -> cut (flat_map jchar s ++ [34]) p -> scanstring n p = None.
Proof.
  induction s as [|c s IH]; intros n p F C.
  - apply cut_cons in C. destruct C as [->|(p' & -> & C)]; [apply scanstring_nil|destruct (cut_nil _ C)].
  - inversion F; subst. cbn [flat_map] in C. rewrite <- app_assoc in C. apply cut_app in C. destruct C as [C|(p' & -> & C)]; [now apply scan_char_cut with c|].
    destruct n as [|n]; [reflexivity|]. rewrite scan_char, IH by assumption. reflexivity.
Qed.

(** ** Numbers *)
(** what may follow a number *)
Definition ends (r : str) : Prop := match r with c :: _ => is_dec c = false /\ c <> 46 /\ c <> 101 /\ c <> 69 | [] => True end.
Lemma digits_app d r : all_dec d = true -> match r with c :: _ => is_dec c = false | [] => True end -> digits (d ++ r) = (d, r).
Proof.
  intros H1 H2. induction d as [|c d IH].
  - destruct r as [|c r]; [reflexivity|]. cbn [app digits]. now rewrite H2.
  - cbn [all_dec forallb] in H1. apply andb_true_iff in H1. destruct H1 as [Hc Hd]. cbn [app digits]. rewrite Hc, (IH Hd). reflexivity.
Qed.
Lemma is_dec_spec c : is_dec c = true <-> 48 <= c /\ c <= 57.
Proof. unfold is_dec. rewrite andb_true_iff, !N.leb_le. reflexivity. Qed.
Definition int_text (i : str) : Prop := i = [48] \/ exists c r, i = c :: r /\ is_dec c = true /\ c <> 48 /\ all_dec r = true.
Definition frac_text (f : str) : Prop := f = [] \/ exists c r, f = 46 :: c :: r /\ all_dec (c :: r) = true.
Definition exp_text (e : str) : Prop := e = [] \/ exists c s d r, e = c :: s ++ d :: r /\ (c = 101 \/ c = 69) /\ (s = [] \/ s = [43] \/ s = [45]) /\ all_dec (d :: r) = true.
Lemma intpart_app i r : int_text i -> match r with c :: _ => is_dec c = false | [] => True end -> intpart (i ++ r) = Some (i, r).
Proof.
  intros [->|(c & d & -> & H1 & H2 & H3)] H; [reflexivity|]. cbn [app intpart]. destruct (N.eqb_spec c 48); [contradiction|]. rewrite H1.
  change (c :: d ++ r) with ((c :: d) ++ r). rewrite digits_app; [reflexivity| |exact H]. cbn [all_dec forallb]. now rewrite H1.
Qed.
Lemma ends_dec r : ends r -> match r with c :: _ => is_dec c = false | [] => True end.
Proof. destruct r as [|c r]; [auto|]. intros H. apply H. Qed.
Lemma exppart_app e r : exp_text e -> ends r -> exppart (e ++ r) = (e, r).
Proof.
  intros [->|(c & s & d & x & -> & Hc & Hs & Hd)] H.
  - destruct r as [|c r]; [reflexivity|]. destruct H as (_ & _ & N1 & N2). cbn [app exppart]. destruct (N.eqb_spec c 101); [contradiction|]. destruct (N.eqb_spec c 69); [contradiction|]. reflexivity.
  - assert (Ec : ((c =? 101) || (c =? 69) = true)%bool) by (destruct Hc as [->| ->]; reflexivity).
    cbn [app exppart]. rewrite Ec. rewrite <- app_assoc.
    assert (Hdd : is_dec d = true) by (cbn [all_dec forallb] in Hd; apply andb_true_iff in Hd; apply Hd).
    destruct Hs as [->|[->| ->]]; cbn [app].
    + assert (N1 : d <> 43) by (intros ->; discriminate). assert (N2 : d <> 45) by (intros ->; discriminate).
      destruct (N.eqb_spec d 43); [contradiction|]. destruct (N.eqb_spec d 45); [contradiction|]. cbn [orb].
      change (d :: x ++ r) with ((d :: x) ++ r). rewrite digits_app by (exact Hd || now apply ends_dec). reflexivity.
    + cbn [N.eqb Pos.eqb orb]. change (d :: x ++ r) with ((d :: x) ++ r). rewrite digits_app by (exact Hd || now apply ends_dec). reflexivity.
    + cbn [N.eqb Pos.eqb orb]. change (d :: x ++ r) with ((d :: x) ++ r). rewrite digits_app by (exact Hd || now apply ends_dec). reflexivity.
Qed.
Lemma exp_head e r : exp_text e -> ends r -> match e ++ r with c :: _ => is_dec c = false /\ c <> 46 | [] => True end.
Proof.
  intros [->|(c & s & d & x & -> & Hc & _)] H; cbn [app].
  - destruct r; [auto|]. split; apply H.
  - destruct Hc as [->| ->]; split; (reflexivity || discriminate).
Qed.
Lemma fracpart_app f r : frac_text f -> match r with c :: _ => is_dec c = false /\ c <> 46 | [] => True end -> fracpart (f ++ r) = (f, r).
Proof.
  intros [->|(c & x & -> & Hd)] H.
  - destruct r as [|c r]; [reflexivity|]. destruct H as [_ H]. cbn [app]. unfold fracpart.
    destruct c as [|p]; [reflexivity|]. do 6 (destruct p as [p|p|]; try reflexivity). now destruct H.
  - change ((46 :: c :: x) ++ r) with (46 :: (c :: x) ++ r). unfold fracpart. rewrite digits_app; [reflexivity|exact Hd|]. destruct r; [auto|apply H].
Qed.
Definition sign_text (s : str) : Prop := s = [] \/ s = [45].
Lemma int_text_head i : int_text i -> exists c r, i = c :: r /\ is_dec c = true.
Proof. intros [->|(c & r & -> & H & _)]; [exists 48, []|exists c, r]; auto. Qed.
Lemma scannum_app sg i f e r : sign_text sg -> int_text i -> frac_text f -> exp_text e -> ends r ->
  scannum (sg ++ i ++ f ++ e ++ r) = Some (match f, e with
            | [], [] => JInt (match sg with [] => Z.of_N (dec_val 0 i) | _ => - Z.of_N (dec_val 0 i) end)
            | _, _ => JFlt (sg ++ i ++ f ++ e)
            end, r).
Proof.
  intros Hs Hi Hf He Hr. unfold scannum.
  assert (E : sgn (sg ++ i ++ f ++ e ++ r) = (sg, i ++ f ++ e ++ r)).
  { destruct Hs as [->| ->]; [|reflexivity]. destruct (int_text_head i Hi) as (c & x & -> & Hc). cbn [app]. apply is_dec_spec in Hc.
    destruct c as [|p]; [lia|]. do 6 (destruct p as [p|p|]; try reflexivity; try lia). }
  rewrite E. pose proof (exp_head e r He Hr) as Hh. rewrite intpart_app; [|exact Hi|].
  - rewrite fracpart_app by assumption. rewrite exppart_app by assumption. reflexivity.
  - destruct Hf as [->|(c & x & -> & Hd)]; [|reflexivity]. cbn [app]. destruct (e ++ r); [auto|apply Hh].
Qed.
Lemma dec_digits_lead f : forall n acc, n <> 0 -> n < 2 ^ N.of_nat f -> exists d r, dec_digits f n acc = d :: r /\ d <> 48.
Proof.
  induction f as [|f IH]; intros n acc N0 L.
  - change (2 ^ N.of_nat 0) with 1 in L. lia.
  - cbn [dec_digits]. destruct (N.eqb_spec (n / 10) 0) as [E|E].
    + exists (digit (n mod 10)), acc. split; [reflexivity|]. apply N.div_small_iff in E; [|discriminate]. rewrite N.mod_small by exact E. unfold digit. lia.
    + apply IH; [exact E|]. apply N.div_lt_upper_bound; [discriminate|]. rewrite Nnat.Nat2N.inj_succ, N.pow_succ_r' in L. lia.
Qed.
Lemma str_of_pos_text p : int_text (str_of_N (Npos p)).
Proof.
  right. destruct (dec_digits_lead (S (N.to_nat (N.log2 (Npos p)))) (Npos p) []) as (d & r & E & N0); [discriminate| |].
  - rewrite Nnat.Nat2N.inj_succ, Nnat.N2Nat.id. apply N.log2_spec. reflexivity.
  - unfold str_of_N. exists d, r. pose proof (str_of_N_dec (Npos p)) as Hd. unfold str_of_N in Hd. rewrite E in *. cbn [all_dec forallb] in Hd. apply andb_true_iff in Hd. tauto.
Qed.
Lemma scannum_int z r : ends r -> scannum (str_of_Z z ++ r) = Some (JInt z, r).
Proof.
  intros Hr. assert (T : forall sg i, sign_text sg -> int_text i -> scannum (sg ++ i ++ r) = Some (JInt (match sg with [] => Z.of_N (dec_val 0 i) | _ => - Z.of_N (dec_val 0 i) end), r)).
  { intros sg i Hs Hi. exact (scannum_app sg i [] [] r Hs Hi (or_introl eq_refl) (or_introl eq_refl) Hr). }
  destruct z as [|p|p]; cbn [str_of_Z].
  - apply (T [] [48]); left; reflexivity.
  - rewrite <- (app_nil_l (str_of_N _ ++ r)). rewrite (T [] _ (or_introl eq_refl) (str_of_pos_text p)). rewrite str_of_N_val. reflexivity.
  - change ((45 :: str_of_N (Npos p)) ++ r) with ([45] ++ str_of_N (Npos p) ++ r). rewrite (T [45] _ (or_intror eq_refl) (str_of_pos_text p)). rewrite str_of_N_val. reflexivity.
Qed.
Lemma scannum_float t r : number_text t -> ends r -> scannum (t ++ r) = Some (JFlt t, r).
Proof.
  intros (sg & i & f & e & -> & Hs & Hi & Hf & He & N0) Hr. rewrite <- !app_assoc. rewrite (scannum_app sg i f e r Hs Hi Hf He Hr).
  destruct f; [|reflexivity]. destruct e; [|reflexivity]. destruct N0 as [N0|N0]; now destruct N0.
Qed.
(** characters of numbers; what follows the number read is among them *)
Definition numchar (c : chr) : Prop := is_dec c = true \/ c = 43 \/ c = 45 \/ c = 46 \/ c = 101 \/ c = 69.
Lemma digits_split s : s = fst (digits s) ++ snd (digits s).
Proof. induction s as [|c s IH]; [reflexivity|]. cbn [digits]. destruct (is_dec c); [|reflexivity]. destruct (digits s). cbn [fst snd app] in *. congruence. Qed.
Lemma intpart_split s i r : intpart s = Some (i, r) -> s = i ++ r /\ i <> [].
Proof.
  destruct s as [|c s]; [discriminate|]. unfold intpart. destruct (N.eqb_spec c 48) as [->|N0]; [intros E; injection E as <- <-; split; [reflexivity|discriminate]|].
  destruct (is_dec c) eqn:Hc; [|discriminate]. intros E. pose proof (digits_split (c :: s)) as D. assert (E' : digits (c :: s) = (i, r)) by congruence. rewrite E' in D. cbn [fst snd] in D. split; [exact D|].
  cbn [digits] in E'. rewrite Hc in E'. destruct (digits s). injection E' as <- _. discriminate.
Qed.
Lemma fracpart_split s : s = fst (fracpart s) ++ snd (fracpart s).
Proof.
  unfold fracpart. destruct s as [|c s]; [reflexivity|]. destruct c as [|p]; [reflexivity|]. do 6 (destruct p as [p|p|]; try reflexivity).
  pose proof (digits_split s) as D. destruct (digits s) as [[|d a] b]; [reflexivity|]. cbn [fst snd app] in *. congruence.
Qed.
Lemma exppart_split s : s = fst (exppart s) ++ snd (exppart s).
Proof.
  unfold exppart. destruct s as [|c s]; [reflexivity|]. destruct ((c =? 101) || (c =? 69))%bool; [|reflexivity].
  destruct s as [|d s].
  - reflexivity.
  - destruct ((d =? 43) || (d =? 45))%bool.
    + pose proof (digits_split s) as D. destruct (digits s) as [[|x a] b]; [reflexivity|]. cbn [fst snd app] in *. congruence.
    + pose proof (digits_split (d :: s)) as D. destruct (digits (d :: s)) as [[|x a] b]; [reflexivity|]. cbn [fst snd app] in *. congruence.
Qed.
Lemma scannum_split s v r : scannum s = Some (v, r) -> exists a, a <> [] /\ s = a ++ r.
Proof.
  unfold scannum. assert (E0 : exists sg t, sgn s = (sg, t) /\ s = sg ++ t).
  { destruct s as [|c s]; [exists [], []; auto|]. destruct c as [|p]; [exists [], (0 :: s); auto|]. do 6 (destruct p as [p|p|]; try (eexists [], _; split; reflexivity)). exists [45], s. auto. }
  destruct E0 as (sg & t & -> & ->). destruct (intpart t) as [[i r0]|] eqn:E1; [|discriminate]. apply intpart_split in E1. destruct E1 as [-> Ni].
  pose proof (fracpart_split r0) as E2. destruct (fracpart r0) as [f r1]. cbn [fst snd] in E2. pose proof (exppart_split r1) as E3. destruct (exppart r1) as [e r2]. cbn [fst snd] in E3.
  intros E. injection E as _ <-. exists (sg ++ i ++ f ++ e). split.
  - intros K. apply app_eq_nil in K. destruct K as [_ K]. apply app_eq_nil in K. now apply Ni.
  - rewrite <- !app_assoc. congruence.
Qed.
