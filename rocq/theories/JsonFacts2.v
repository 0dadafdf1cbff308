(** * Facts about the JSON texts: what is written is read back, and never when it is cut short *)
From Coq Require Import String.
From Verif Require Import Py Json OpsFacts JsonFacts.
Local Open Scope N_scope.
Local Notation len := (@length chr).

Lemma starts_spec c s t : starts c s = Some t <-> s = c :: t.
Proof.
  destruct s as [|x s]; cbn [starts]; [split; discriminate|]. destruct (N.eqb_spec x c) as [->|N0].
  - split; intros E; injection E as ->; reflexivity.
  - split; [discriminate|]. intros E. injection E as E _. now destruct N0.
Qed.
Lemma starts_hit c t : starts c (c :: t) = Some t.
Proof. now apply starts_spec. Qed.
Lemma skip_len s : (len (skip s) <= len s)%nat.
Proof. induction s as [|c s IH]; [reflexivity|]. cbn [skip]. destruct (jspace c); cbn [length]; lia. Qed.
Lemma skip_head c t : jspace c = false -> skip (c :: t) = c :: t.
Proof. intros H. cbn [skip]. now rewrite H. Qed.

(** ** The fuel is always enough, and the only exception is ValueError *)
Lemma unhex4_len s n r : unhex4 s = Some (n, r) -> (len r < len s)%nat.
Proof.
  destruct s as [|a [|b [|c [|d t]]]]; try discriminate. unfold unhex4. destruct (hexv a), (hexv b), (hexv c), (hexv d); try discriminate.
  intros E. injection E as _ <-. cbn [length]. lia.
Qed.
Lemma unescape_len s c r : unescape s = Some (c, r) -> (len r < len s)%nat.
Proof.
  destruct s as [|x t]; [discriminate|]. unfold unescape. destruct (x =? 117).
  - destruct (unhex4 t) as [[n r0]|] eqn:E; [|discriminate]. apply unhex4_len in E. destruct (is_high n); [|intros K; injection K as _ <-; cbn [length]; lia].
    assert (T : forall o : option (chr * str), o = Some (n, r0) -> o = Some (c, r) -> (len r < len (x :: t))%nat) by (intros o -> K; injection K as _ <-; cbn [length]; lia).
    destruct r0 as [|y r1]; [now apply T|]. destruct y as [|p]; [now apply T|].
    do 7 (destruct p as [p|p|]; try now apply T).
    destruct r1 as [|z r2]; [now apply T|]. destruct z as [|p]; [now apply T|]. do 7 (destruct p as [p|p|]; try now apply T).
    destruct (unhex4 r2) as [[m r3]|] eqn:E2; [|discriminate]. apply unhex4_len in E2. cbn [length] in *. destruct (is_low m); intros K; injection K as _ <-; cbn [length]; lia.
  - repeat (match goal with |- context [if ?b then _ else _] => destruct b end); try discriminate; intros K; injection K as _ <-; cbn [length]; lia.
Qed.
Lemma scanstring_len n : forall s k r, scanstring n s = Some (k, r) -> (len r < len s)%nat.
Proof.
  induction n as [|n IH]; intros s k r; [discriminate|]. rewrite scanstring_S. destruct s as [|c t]; [discriminate|].
  destruct (c =? 34); [intros E; injection E as _ <-; cbn [length]; lia|]. destruct (c =? 92).
  - destruct (unescape t) as [[d r0]|] eqn:E; [|discriminate]. apply unescape_len in E. destruct (scanstring n r0) as [[k0 r1]|] eqn:E2; [|discriminate].
    apply IH in E2. intros K. injection K as _ <-. cbn [length snd] in *. lia.
  - destruct (c <? 32); [discriminate|]. destruct (scanstring n t) as [[k0 r1]|] eqn:E2; [|discriminate]. apply IH in E2. intros K. injection K as _ <-. cbn [length snd] in *. lia.
Qed.
Lemma word_split w v s v' r : u w <> [] -> word w v s = Some (v', r) -> exists a, a <> [] /\ s = a ++ r.
Proof.
  intros N0. unfold word. destruct (sprefix (u w) s) eqn:E; [|discriminate]. apply sprefix_spec in E. destruct E as [t ->]. intros K. injection K as _ <-.
  exists (u w). split; [exact N0|]. f_equal. rewrite skipn_app, skipn_all, Nat.sub_diag. reflexivity.
Qed.
Lemma scan_plain_split s v r : scan_plain s = Some (v, r) -> exists a, a <> [] /\ s = a ++ r.
Proof.
  unfold scan_plain, orelse. intros H.
  destruct (word "null" JNull s) as [[v0 r0]|] eqn:E1; [injection H as -> ->; exact (word_split "null" _ _ _ _ ltac:(discriminate) E1)|].
  destruct (word "true" (JBool true) s) as [[v0 r0]|] eqn:E2; [injection H as -> ->; exact (word_split "true" _ _ _ _ ltac:(discriminate) E2)|].
  destruct (word "false" (JBool false) s) as [[v0 r0]|] eqn:E3; [injection H as -> ->; exact (word_split "false" _ _ _ _ ltac:(discriminate) E3)|].
  destruct (scannum s) as [[v0 r0]|] eqn:E4; [injection H as -> ->; exact (scannum_split _ _ _ E4)|].
  destruct (word "NaN" (JFlt (u "NaN")) s) as [[v0 r0]|] eqn:E5; [injection H as -> ->; exact (word_split "NaN" _ _ _ _ ltac:(discriminate) E5)|].
  destruct (word "Infinity" (JFlt (u "Infinity")) s) as [[v0 r0]|] eqn:E6; [injection H as -> ->; exact (word_split "Infinity" _ _ _ _ ltac:(discriminate) E6)|].
  exact (word_split "-Infinity" _ _ _ _ ltac:(discriminate) H).
Qed.
Lemma split_len (a s r : str) : a <> [] -> s = a ++ r -> (len r < len s)%nat.
Proof. intros N0 ->. rewrite app_length. destruct a; [now destruct N0|]. cbn [length]. lia. Qed.

Definition shrinks {X} (k : nat) (n : nat) (s : str) (r : res (X * str)) : Prop :=
  match r with Ok (_, r) => (len r < len s)%nat | Err e => e = ValueError \/ (e = OutOfFuel /\ n < 2 * len s + k)%nat end.
Lemma scan_fuel n : (forall s, shrinks 1 n s (scan n s)) /\ (forall s acc, shrinks 2 n s (elements n s acc)) /\ (forall s acc, shrinks 2 n s (members n s acc)).
Proof.
  induction n as [|n (IHs & IHe & IHm)].
  - split; [|split]; intros; right; split; try reflexivity; lia.
  - assert (Skip : forall s, (len (skip s) <= len s)%nat) by exact skip_len.
    split; [|split].
    + intros s. cbn [scan]. destruct (starts 34 s) as [t|] eqn:E1.
      * apply starts_spec in E1. subst s. destruct (scanstring (length t) t) as [[k r]|] eqn:E; [|now left]. apply scanstring_len in E. cbn [shrinks jok rbind fst snd length]. lia.
      * destruct (starts 91 s) as [t|] eqn:E2.
        { apply starts_spec in E2. subst s. pose proof (Skip t). destruct (starts 93 (skip t)) as [r|] eqn:E.
          - apply starts_spec in E. rewrite E in *. cbn [shrinks length] in *. lia.
          - pose proof (IHe (skip t) []) as K. destruct (elements n (skip t) []) as [[l r]|e]; cbn [shrinks rbind fst snd length] in *; [lia|].
            destruct K as [->|[-> K]]; [now left|right; split; [reflexivity|lia]]. }
        destruct (starts 123 s) as [t|] eqn:E3.
        { apply starts_spec in E3. subst s. pose proof (Skip t). destruct (starts 125 (skip t)) as [r|] eqn:E.
          - apply starts_spec in E. rewrite E in *. cbn [shrinks length] in *. lia.
          - pose proof (IHm (skip t) []) as K. destruct (members n (skip t) []) as [[l r]|e]; cbn [shrinks rbind fst snd length] in *; [lia|].
            destruct K as [->|[-> K]]; [now left|right; split; [reflexivity|lia]]. }
        destruct (scan_plain s) as [[v r]|] eqn:E; [|now left]. cbn [jok shrinks]. apply scan_plain_split in E. destruct E as (a & N0 & E). exact (split_len _ _ _ N0 E).
    + intros s acc. cbn [elements]. pose proof (IHs s) as K. destruct (scan n s) as [[v r]|e]; cbn [shrinks] in K.
      * pose proof (Skip r). destruct (starts 93 (skip r)) as [r'|] eqn:E.
        { apply starts_spec in E. rewrite E in *. cbn [shrinks length] in *. lia. }
        destruct (starts 44 (skip r)) as [r'|] eqn:E'; [|now left]. apply starts_spec in E'. rewrite E' in *. cbn [length] in *. pose proof (Skip r').
        pose proof (IHe (skip r') (acc ++ [v])) as K2. destruct (elements n (skip r') (acc ++ [v])) as [[l r2]|e]; cbn [shrinks] in *; [lia|].
        destruct K2 as [->|[-> K2]]; [now left|right; split; [reflexivity|lia]].
      * destruct K as [->|[-> K]]; [now left|right; split; [reflexivity|lia]].
    + intros s acc. cbn [members]. destruct (starts 34 s) as [t|] eqn:E1; [|now left]. apply starts_spec in E1. subst s.
      destruct (scanstring (length t) t) as [[k r]|] eqn:E; [|now left]. apply scanstring_len in E. pose proof (Skip r).
      destruct (starts 58 (skip r)) as [r'|] eqn:E2; [|now left]. apply starts_spec in E2. rewrite E2 in *. pose proof (Skip r').
      pose proof (IHs (skip r')) as K. destruct (scan n (skip r')) as [[v r2]|e]; cbn [shrinks length] in *.
      * pose proof (Skip r2). destruct (starts 125 (skip r2)) as [r3|] eqn:E3.
        { apply starts_spec in E3. rewrite E3 in *. cbn [shrinks length] in *. lia. }
        destruct (starts 44 (skip r2)) as [r3|] eqn:E4; [|now left]. apply starts_spec in E4. rewrite E4 in *. cbn [length] in *. pose proof (Skip r3).
        pose proof (IHm (skip r3) (oset k v acc)) as K2. destruct (members n (skip r3) (oset k v acc)) as [[l r4]|e]; cbn [shrinks length] in *; [lia|].
        destruct K2 as [->|[-> K2]]; [now left|right; split; [reflexivity|lia]].
      * destruct K as [->|[-> K]]; [now left|right; split; [reflexivity|lia]].
Qed.
Lemma jload_error s e : jload s = Err e -> e = ValueError.
Proof.
  unfold jload. pose proof (proj1 (scan_fuel (2 * length s + 2)) (skip s)) as K. pose proof (skip_len s).
  destruct (scan (2 * length s + 2) (skip s)) as [[v r]|e'].
  - destruct (skip r); intros E; [discriminate|now injection E].
  - intros E. injection E as <-. destruct K as [->|[-> K]]; [reflexivity|]. lia.
Qed.

(** ** Reading a text back *)
Lemma word_head c w v s t : s = c :: t -> match u w with d :: _ => d <> c | [] => False end -> word w v s = None.
Proof.
  intros -> H. unfold word. destruct (u w) as [|d x]; [destruct H|]. cbn [sprefix]. destruct (N.eqb_spec d c); [contradiction|reflexivity].
Qed.
Lemma scan_plain_num c t : c = 45 \/ is_dec c = true -> forall v r, scannum (c :: t) = Some (v, r) -> scan_plain (c :: t) = Some (v, r).
Proof.
  intros H v r E. assert (N0 : c <> 110 /\ c <> 116 /\ c <> 102) by (destruct H as [->|H]; [split; [|split]; discriminate|apply is_dec_spec in H; lia]).
  unfold scan_plain. rewrite (word_head c "null" _ _ t eq_refl) by (change (110 <> c); lia). rewrite (word_head c "true" _ _ t eq_refl) by (change (116 <> c); lia).
  rewrite (word_head c "false" _ _ t eq_refl) by (change (102 <> c); lia). cbn [orelse]. rewrite E. reflexivity.
Qed.
(** heads of texts *)
Definition headed (x : str) : Prop := exists c t, x = c :: t /\ jspace c = false /\ c <> 93 /\ c <> 125 /\ c <> 44.
Definition number_head (x : str) : Prop := exists c t, x = c :: t /\ (c = 45 \/ is_dec c = true).
Lemma number_headed x : number_head x -> headed x.
Proof.
  intros (c & t & -> & H). exists c, t. split; [reflexivity|]. destruct H as [->|H].
  - split; [reflexivity|]. split; [|split]; discriminate.
  - apply is_dec_spec in H. unfold jspace. destruct (N.eqb_spec c 32); [lia|]. destruct (N.eqb_spec c 9); [lia|]. destruct (N.eqb_spec c 10); [lia|]. destruct (N.eqb_spec c 13); [lia|].
    split; [reflexivity|]. lia.
Qed.
Lemma int_head z : number_head (str_of_Z z).
Proof.
  destruct z as [|p|p]; cbn [str_of_Z]; [exists 48, []; auto| |exists 45, (str_of_N (Npos p)); auto].
  destruct (int_text_head _ (str_of_pos_text p)) as (c & r & -> & H). exists c, r. auto.
Qed.
Lemma float_head t : number_text t -> number_head t.
Proof.
  intros (sg & i & f & e & -> & Hs & Hi & _). destruct (int_text_head i Hi) as (c & r & -> & H). destruct Hs as [->| ->]; [exists c, (r ++ f ++ e)|exists 45, ((c :: r) ++ f ++ e)]; auto.
Qed.
Lemma txt_headed v : writable v -> headed (txt v).
Proof.
  assert (T : forall c t, jspace c = false -> c <> 93 -> c <> 125 -> c <> 44 -> headed (c :: t)) by (intros c t A B C D; exists c, t; auto).
  intros W. destruct v; cbn [txt].
  - apply T; (reflexivity || discriminate).
  - destruct b; apply T; (reflexivity || discriminate).
  - apply number_headed, int_head.
  - destruct W as [W|[->|[->| ->]]]; [apply number_headed, float_head, W|apply T; (reflexivity || discriminate)..].
  - apply T; (reflexivity || discriminate).
  - apply T; (reflexivity || discriminate).
  - apply T; (reflexivity || discriminate).
  - destruct W.
Qed.
Lemma headed_skip x r : headed x -> skip (x ++ r) = x ++ r.
Proof. intros (c & t & -> & H & _). cbn [app]. now apply skip_head. Qed.
Lemma headed_starts d x r : headed x -> d = 93 \/ d = 125 \/ d = 44 -> starts d (x ++ r) = None.
Proof. intros (c & t & -> & _ & H1 & H2 & H3) H. cbn [app starts]. destruct (N.eqb_spec c d) as [->|_]; [|reflexivity]. destruct H as [->|[->| ->]]; contradiction. Qed.

Definition reads (v : jval) : Prop := forall n r, (2 * len (txt v ++ r) + 1 <= n)%nat -> ends r -> scan n (txt v ++ r) = Ok (v, r).
Lemma starts_no c d t : c <> d -> starts d (c :: t) = None.
Proof. intros H. cbn [starts]. destruct (N.eqb_spec c d); [contradiction|reflexivity]. Qed.
Lemma scan_number n c t v r : c = 45 \/ is_dec c = true -> scannum (c :: t) = Some (v, r) -> (1 <= n)%nat -> scan n (c :: t) = Ok (v, r).
Proof.
  intros H E L. destruct n as [|n]; [lia|]. cbn [scan]. assert (N0 : c <> 34 /\ c <> 91 /\ c <> 123) by (destruct H as [->|H]; [split; [|split]; discriminate|apply is_dec_spec in H; lia]).
  rewrite !starts_no by apply N0. rewrite (scan_plain_num c t H v r E). reflexivity.
Qed.
Lemma scan_word n c t v r : c <> 34 -> c <> 91 -> c <> 123 -> (1 <= n)%nat -> scan_plain (c :: t) = Some (v, r) -> scan n (c :: t) = Ok (v, r).
Proof. intros N1 N2 N3 L E. destruct n as [|n]; [lia|]. cbn [scan]. rewrite !starts_no by assumption. rewrite E. reflexivity. Qed.
Lemma scan_str n s r : Forall plain_char s -> (1 <= n)%nat -> scan n (jquote s ++ r) = Ok (JStr s, r).
Proof.
  intros F L. destruct n as [|n]; [lia|]. destruct (jquote s ++ r) as [|c t] eqn:E; [discriminate|]. assert (c = 34) as -> by (now injection E).
  cbn [scan]. rewrite starts_hit. rewrite (scan_jquote s r F t E). reflexivity.
Qed.
Lemma ends_comma r : ends (44 :: r).
Proof. split; [reflexivity|]. split; [|split]; discriminate. Qed.
Lemma ends_close c r : c = 93 \/ c = 125 -> ends (c :: r).
Proof. intros [->| ->]; split; try reflexivity; (split; [|split]; discriminate). Qed.
Lemma elements_reads l : Forall (fun v => writable v /\ reads v) l -> l <> [] ->
  forall n r acc, (2 * len (sjoin (u ", ") (map txt l) ++ 93%N :: r) + 2 <= n)%nat -> elements n (sjoin (u ", ") (map txt l) ++ 93 :: r) acc = Ok (acc ++ l, r).
Proof.
  induction l as [|v l IH]; intros F N0 n r acc L; [now destruct N0|]. inversion F as [|? ? [W R] F']; subst. destruct n as [|n]; [lia|].
  destruct l as [|v' l].
  - cbn [map sjoin] in *. cbn [elements]. rewrite R; [|lia|apply ends_close; now left]. rewrite skip_head, starts_hit by reflexivity. reflexivity.
  - cbn [map] in *. set (m := txt v' :: map txt l) in *. assert (E : sjoin (u ", ") (txt v :: m) ++ 93 :: r = txt v ++ 44 :: 32 :: (sjoin (u ", ") m ++ 93 :: r)).
    { unfold m. cbn [sjoin]. rewrite <- !app_assoc. reflexivity. }
    rewrite E in *. cbn [elements]. rewrite R; [|lia|apply ends_comma]. rewrite skip_head by reflexivity.
    rewrite (starts_no 44 93) by discriminate. rewrite starts_hit. cbn [skip]. change (jspace 32) with true. cbv iota.
    assert (S1 : skip (sjoin (u ", ") m ++ 93 :: r) = sjoin (u ", ") m ++ 93 :: r).
    { inversion F' as [|? ? [W' _] _]; subst. pose proof (txt_headed v' W') as Hd. unfold m. cbn [sjoin]. destruct l; cbn [map]; [apply headed_skip, Hd|]. rewrite <- app_assoc. apply headed_skip, Hd. }
    rewrite S1. unfold m in *. rewrite (IH F') ; [rewrite <- app_assoc; reflexivity|discriminate|]. rewrite app_length in L. cbn [length] in L. cbn [map]. lia.
Qed.
Lemma oset_new k v l : ~ In k (map fst l) -> oset k v l = l ++ [(k, v)].
Proof.
  induction l as [|[k' v'] l IH]; intros H; [reflexivity|]. cbn [oset]. destruct (seqb_spec k k') as [->|N0]; [exfalso; apply H; now left|].
  cbn [app]. rewrite IH; [reflexivity|]. intros K. apply H. now right.
Qed.
Definition mtxt (e : str * jval) : str := jquote (fst e) ++ u ": " ++ txt (snd e).
Lemma mtxt_headed e : headed (mtxt e).
Proof. eexists 34, _. split; [reflexivity|]. split; [reflexivity|]. split; [|split]; discriminate. Qed.
Lemma sjoin_headed x l r : headed x -> skip (sjoin (u ", ") (x :: l) ++ r) = sjoin (u ", ") (x :: l) ++ r.
Proof. intros H. cbn [sjoin]. destruct l; [now apply headed_skip|]. rewrite <- app_assoc. now apply headed_skip. Qed.
Lemma members_reads l : Forall (fun e => Forall plain_char (fst e) /\ writable (snd e) /\ reads (snd e)) l -> l <> [] ->
  forall n r acc, NoDup (map fst (acc ++ l)) -> (2 * len (sjoin (u ", ") (map mtxt l) ++ 125%N :: r) + 2 <= n)%nat ->
  members n (sjoin (u ", ") (map mtxt l) ++ 125 :: r) acc = Ok (acc ++ l, r).
Proof.
  induction l as [|[k v] l IH]; intros F N0 n r acc ND L; [now destruct N0|]. inversion F as [|? ? (Pk & W & R) F']; subst. cbn [fst snd] in *. destruct n as [|n]; [lia|].
  assert (Nk : ~ In k (map fst acc)).
  { rewrite map_app in ND. cbn [map fst] in ND. apply NoDup_remove_2 in ND. intros K. apply ND. apply in_app_iff. now left. }
  assert (Q : forall x, exists t, jquote k ++ x = 34 :: t /\ scanstring (length t) t = Some (k, x)).
  { intros x. destruct (jquote k ++ x) as [|c t] eqn:E; [discriminate|]. assert (c = 34) as -> by (now injection E). exists t. split; [reflexivity|exact (scan_jquote k x Pk t E)]. }
  assert (V : forall x, (2 * len (txt v ++ x) + 1 <= n)%nat -> ends x -> scan n (skip (32 :: txt v ++ x)) = Ok (v, x)).
  { intros x Lx Ex. cbn [skip]. change (jspace 32) with true. cbv iota. rewrite headed_skip by now apply txt_headed. now apply R. }
  destruct l as [|e' l].
  - cbn [map sjoin] in *. change (mtxt (k, v)) with (jquote k ++ u ": " ++ txt v) in *. rewrite <- !app_assoc in *. change (u ": " ++ txt v ++ 125 :: r) with (58 :: 32 :: txt v ++ 125 :: r) in *.
    destruct (Q (58 :: 32 :: txt v ++ 125 :: r)) as (t & E & S1). rewrite E in *. cbn [members]. rewrite starts_hit, S1.
    rewrite skip_head, starts_hit by reflexivity.
    assert (L2 : (2 * len (txt v ++ 125%N :: r) + 1 <= n)%nat). { apply scanstring_len in S1. cbn [length] in *. lia. }
    rewrite V; [|exact L2|apply ends_close; now right]. rewrite skip_head, starts_hit by reflexivity. rewrite oset_new by exact Nk. reflexivity.
  - set (m := map mtxt (e' :: l)) in *. change (map mtxt ((k, v) :: e' :: l)) with (mtxt (k, v) :: m) in *.
    assert (E0 : sjoin (u ", ") (mtxt (k, v) :: m) ++ 125 :: r = jquote k ++ 58 :: 32 :: txt v ++ 44 :: 32 :: (sjoin (u ", ") m ++ 125 :: r)).
    { unfold m. cbn [map sjoin]. unfold mtxt at 1. cbn [fst snd]. rewrite <- !app_assoc. reflexivity. }
    rewrite E0 in *. destruct (Q (58 :: 32 :: txt v ++ 44 :: 32 :: (sjoin (u ", ") m ++ 125 :: r))) as (t & E & S1). rewrite E in *. cbn [members]. rewrite starts_hit, S1.
    rewrite skip_head, starts_hit by reflexivity. apply scanstring_len in S1.
    assert (L2 : (2 * len (txt v ++ 44%N :: 32%N :: (sjoin (u ", ") m ++ 125%N :: r)) + 1 <= n)%nat) by (cbn [length] in *; lia).
    rewrite V; [|exact L2|apply ends_comma]. rewrite skip_head by reflexivity. rewrite (starts_no 44 125) by discriminate. rewrite starts_hit.
    cbn [skip]. change (jspace 32) with true. cbv iota. unfold m in *. cbn [map]. rewrite (sjoin_headed _ _ _ (mtxt_headed e')). rewrite oset_new by exact Nk.
    change (mtxt e' :: map mtxt l) with (map mtxt (e' :: l)).
    rewrite (IH F'); [rewrite <- app_assoc; reflexivity|discriminate|now rewrite <- app_assoc|]. rewrite app_length in L2. cbn [length] in L2. lia.
Qed.
Lemma txt_reads v : writable v -> reads v.
Proof.
  induction v using jval_ind'; intros W n r L Hr; cbn [txt] in *.
  - assert (1 <= n)%nat by lia. apply scan_word; try discriminate; [assumption|reflexivity].
  - assert (1 <= n)%nat by lia. destruct b; apply scan_word; try discriminate; try assumption; reflexivity.
  - destruct (int_head z) as (c & t & E & Hc). pose proof (scannum_int z r Hr) as S1. rewrite E in *. apply scan_number; [exact Hc|exact S1|lia].
  - destruct W as [W|W].
    + destruct (float_head t W) as (c & x & E & Hc). pose proof (scannum_float t r W Hr) as S1. rewrite E in *. apply scan_number; [exact Hc|exact S1|lia].
    + assert (1 <= n)%nat by lia. destruct W as [->|[->| ->]]; apply scan_word; try discriminate; try assumption; reflexivity.
  - apply scan_str; [exact W|lia].
  - apply writable_arr in W. destruct n as [|n]; [lia|]. destruct l as [|v l]; [reflexivity|].
    assert (F : Forall (fun v => writable v /\ reads v) (v :: l)).
    { clear -H W. revert H W. induction (v :: l) as [|x m IH]; intros H W; constructor; inversion H; inversion W; subst; [split; auto|auto]. }
    rewrite <- !app_comm_cons, <- app_assoc in L. rewrite <- !app_comm_cons, <- app_assoc. cbn [scan]. rewrite !starts_no by discriminate. rewrite starts_hit.
    assert (Hd : headed (txt v)) by (apply txt_headed; now inversion W).
    change ([93] ++ r) with (93 :: r) in *. cbn [map] in *. rewrite (sjoin_headed _ _ _ Hd).
    assert (St : starts 93 (sjoin (u ", ") (txt v :: map txt l) ++ 93 :: r) = None).
    { cbn [sjoin]. destruct (map txt l); [apply headed_starts; auto|]. rewrite <- app_assoc. apply headed_starts; auto. }
    rewrite St. change (txt v :: map txt l) with (map txt (v :: l)) in *. rewrite (elements_reads (v :: l) F); [reflexivity|discriminate|]. cbn [length] in L. lia.
  - apply writable_obj in W. destruct W as [ND W]. destruct n as [|n]; [lia|]. destruct l as [|e l]; [reflexivity|].
    assert (F : Forall (fun e => Forall plain_char (fst e) /\ writable (snd e) /\ reads (snd e)) (e :: l)).
    { clear -H W. revert H W. induction (e :: l) as [|x m IH]; intros H W; constructor; inversion H as [|? ? A B]; inversion W as [|? ? [C D] G]; subst; [split; [exact C|split; auto]|auto]. }
    change (fun e => jquote (fst e) ++ u ": " ++ txt (snd e)) with mtxt in *.
    rewrite <- !app_comm_cons, <- app_assoc in L. rewrite <- !app_comm_cons, <- app_assoc. cbn [scan]. rewrite !starts_no by discriminate. rewrite starts_hit.
    change ([125] ++ r) with (125 :: r) in *. cbn [map] in *. rewrite (sjoin_headed _ _ _ (mtxt_headed e)).
    assert (St : starts 125 (sjoin (u ", ") (mtxt e :: map mtxt l) ++ 125 :: r) = None).
    { cbn [sjoin]. destruct (map mtxt l); [apply headed_starts; [apply mtxt_headed|auto]|]. rewrite <- app_assoc. apply headed_starts; [apply mtxt_headed|auto]. }
    match goal with |- match ?q with _ => _ end = _ => replace q with (@None str) by (symmetry; exact St) end. change (mtxt e :: map mtxt l) with (map mtxt (e :: l)) in *. rewrite (members_reads (e :: l) F); [reflexivity|discriminate|exact ND|]. cbn [length] in L. lia.
  - destruct W.
Qed.
Theorem jload_txt v : writable v -> jload (txt v) = Ok v.
Proof.
  intros W. unfold jload. pose proof (headed_skip _ [] (txt_headed v W)) as S1. rewrite app_nil_r in S1. rewrite S1.
  pose proof (txt_reads v W (2 * length (txt v) + 2)%nat []) as R. rewrite app_nil_r in R. rewrite R; [reflexivity|lia|exact I].
Qed.

(** ** A text cut short *)
Definition is_number (v : jval) : Prop := match v with JInt _ | JFlt _ => True | _ => False end.
Definition failed {X} (r : res X) : Prop := exists e, r = Err e.
Definition unfinished (r : res (jval * str)) : Prop := failed r \/ exists v x, r = Ok (v, x) /\ Forall numchar x.
Definition breaks (v : jval) : Prop := forall n p, cut (txt v) p -> (2 * len p + 1 <= n)%nat -> unfinished (scan n p) /\ (~ is_number v -> failed (scan n p)).
Lemma scan_nil n : failed (scan n []).
Proof. destruct n as [|n]; [exists OutOfFuel|exists ValueError]; reflexivity. Qed.
Lemma numchar_skip x : Forall numchar x -> skip x = x /\ starts 93 x = None /\ starts 125 x = None /\ starts 44 x = None.
Proof.
  destruct x as [|c x]; [auto|]. intros F. inversion F as [|? ? H _]; subst.
  assert (N0 : jspace c = false /\ c <> 93 /\ c <> 125 /\ c <> 44).
  { destruct H as [H|[->|[->|[->|[->| ->]]]]]; [|split; [reflexivity|split; [|split]; discriminate]..].
    destruct (number_headed [c]) as (d & t & E & K); [exists c, []; auto|]. injection E as <- _. exact K. }
  destruct N0 as (A & B & C & D). rewrite skip_head, !starts_no by assumption. auto.
Qed.
Lemma number_chars x : (exists sg i f e, x = sg ++ i ++ f ++ e /\ sign_text sg /\ int_text i /\ frac_text f /\ exp_text e) -> Forall numchar x.
Proof.
  assert (Dg : forall d, all_dec d = true -> Forall numchar d).
  { intros d H. apply Forall_forall. intros c Hc. left. exact (all_dec_In _ _ H Hc). }
  intros (sg & i & f & e & -> & Hs & Hi & Hf & He). apply Forall_app. split; [|apply Forall_app; split; [|apply Forall_app; split]].
  - destruct Hs as [->| ->]; [constructor|constructor; [right; right; left; reflexivity|constructor]].
  - destruct Hi as [->|(c & r & -> & H1 & _ & H2)]; [repeat constructor|]. constructor; [now left|now apply Dg].
  - destruct Hf as [->|(c & r & -> & H)]; [constructor|]. constructor; [do 3 right; left; reflexivity|now apply Dg].
  - destruct He as [->|(c & s & d & r & -> & Hc & Hs' & H)]; [constructor|]. constructor; [destruct Hc as [->| ->]; [do 4 right; left|do 5 right]; reflexivity|].
    apply Forall_app. split; [|now apply Dg]. destruct Hs' as [->|[->| ->]]; [constructor| |]; (constructor; [|constructor]); [right; left|right; right; left]; reflexivity.
Qed.
Lemma int_number z : exists sg i f e, str_of_Z z = sg ++ i ++ f ++ e /\ sign_text sg /\ int_text i /\ frac_text f /\ exp_text e.
Proof.
  destruct z as [|p|p]; cbn [str_of_Z].
  - exists [], [48], [], []. split; [reflexivity|]. split; [now left|]. split; [now left|]. split; now left.
  - exists [], (str_of_N (Npos p)), [], []. rewrite app_nil_r. split; [reflexivity|]. split; [now left|]. split; [apply str_of_pos_text|split; now left].
  - exists [45], (str_of_N (Npos p)), [], []. rewrite app_nil_r. split; [reflexivity|]. split; [now right|]. split; [apply str_of_pos_text|split; now left].
Qed.
Lemma chars_unfinished n p : Forall numchar p -> unfinished (scan n p).
Proof.
  intros F. destruct n as [|n]; [left; exists OutOfFuel; reflexivity|]. destruct p as [|c t]; [left; exists ValueError; reflexivity|].
  inversion F as [|? ? H _]; subst.
  assert (N0 : c <> 34 /\ c <> 91 /\ c <> 123).
  { destruct H as [H|[->|[->|[->|[->| ->]]]]]; [apply is_dec_spec in H; lia|split; [|split]; discriminate..]. }
  cbn [scan]. rewrite !starts_no by apply N0. destruct (scan_plain (c :: t)) as [[v r]|] eqn:E; [|left; exists ValueError; reflexivity].
  right. exists v, r. split; [reflexivity|]. apply scan_plain_split in E. destruct E as (a & _ & E). rewrite E in F. apply Forall_app in F. apply F.
Qed.
Lemma cut_Forall (P : chr -> Prop) t p : cut t p -> Forall P t -> Forall P p.
Proof. intros (q & _ & ->) F. apply Forall_app in F. apply F. Qed.
Lemma word_cut n t p : cut t p -> (forall k, (k < length t)%nat -> scan_plain (firstn k t) = None) -> match t with c :: _ => c <> 34 /\ c <> 91 /\ c <> 123 | [] => True end -> failed (scan n p).
Proof.
  intros (q & N0 & E) H Hc. destruct n as [|n]; [exists OutOfFuel; reflexivity|]. destruct p as [|c p]; [exists ValueError; reflexivity|].
  rewrite E in Hc. destruct Hc as (A & B & C). cbn [scan]. rewrite !starts_no by assumption.
  specialize (H (length (c :: p))). rewrite E, firstn_app, Nat.sub_diag, firstn_all, app_nil_r in H. rewrite H; [exists ValueError; reflexivity|].
  rewrite app_length. destruct q; [now destruct N0|]. cbn [length]. lia.
Qed.
Lemma jquote_cut n s p : Forall plain_char s -> cut (jquote s) p -> failed (scan n p).
Proof.
  intros F C. destruct n as [|n]; [exists OutOfFuel; reflexivity|]. unfold jquote in C. apply cut_cons in C. destruct C as [->|(p' & -> & C)]; [exists ValueError; reflexivity|].
  cbn [scan]. rewrite starts_hit. rewrite (scan_quoted_cut s _ _ F C). exists ValueError. reflexivity.
Qed.
Lemma elements_cut l : Forall (fun v => writable v /\ breaks v) l -> l <> [] ->
  forall n p acc, cut (sjoin (u ", ") (map txt l) ++ [93]) p -> (2 * len p + 2 <= n)%nat -> failed (elements n p acc).
Proof.
  induction l as [|v l IH]; intros F N0 n p acc C L; [now destruct N0|]. inversion F as [|? ? [W R] F']; subst. destruct n as [|n]; [lia|]. cbn [elements].
  assert (Bad : forall p, (2 * len p + 1 <= n)%nat -> cut (txt v) p -> failed (match scan n p with
      | Err e => Err e
      | Ok (v, r) => match starts 93 (skip r) with Some r' => Ok (acc ++ [v], r') | None => match starts 44 (skip r) with Some r' => elements n (skip r') (acc ++ [v]) | None => Err ValueError end end
      end)).
  { intros p0 L0 C0. destruct (R n p0 C0 L0) as [[[e E]|(v0 & x & E & Fx)] _]; rewrite E; [exists e; reflexivity|].
    destruct (numchar_skip x Fx) as (-> & -> & _ & ->). exists ValueError. reflexivity. }
  assert (Good : forall r, (2 * len (txt v ++ r) + 1 <= n)%nat -> ends r -> scan n (txt v ++ r) = Ok (v, r)) by (intros; now apply (txt_reads v W)).
  destruct l as [|v' l].
  - cbn [map sjoin] in C. apply cut_app in C. destruct C as [C|(p' & -> & C)]; [apply Bad; [lia|exact C]|].
    apply cut_cons in C. destruct C as [->|(p2 & -> & C)]; [|destruct (cut_nil _ C)]. rewrite Good; [exists ValueError; reflexivity|lia|exact I].
  - cbn [map] in C. set (m := txt v' :: map txt l) in *.
    assert (E : sjoin (u ", ") (txt v :: m) ++ [93] = txt v ++ 44 :: 32 :: (sjoin (u ", ") m ++ [93])). { unfold m. cbn [sjoin]. rewrite <- !app_assoc. reflexivity. }
    rewrite E in C. apply cut_app in C. destruct C as [C|(p' & -> & C)]; [apply Bad; [lia|exact C]|].
    apply cut_cons in C. destruct C as [->|(p2 & -> & C)]; [rewrite Good; [exists ValueError; reflexivity|lia|exact I]|].
    rewrite Good; [|lia|apply ends_comma]. rewrite skip_head by reflexivity. rewrite (starts_no 44 93) by discriminate. rewrite starts_hit.
    rewrite app_length in L. cbn [length] in L. pose proof (skip_len p2).
    assert (S1 : failed (elements n (skip p2) (acc ++ [v]))); [|exact S1].
    apply cut_cons in C. destruct C as [->|(p3 & -> & C)].
    + destruct n as [|n]; [exists OutOfFuel; reflexivity|]. cbn [skip elements]. destruct (scan_nil n) as [e ->]. exists e. reflexivity.
    + cbn [skip]. change (jspace 32) with true. cbv iota.
      assert (S1 : skip p3 = p3).
      { destruct C as (q & _ & C). pose proof (txt_headed v') as Hd. inversion F' as [|? ? [W' _] _]; subst. specialize (Hd W'). destruct Hd as (c & t & Et & Hc & _).
        destruct p3 as [|d p3]; [reflexivity|]. apply skip_head. assert (c = d) as <-; [|exact Hc]. unfold m in C. cbn [sjoin] in C. rewrite Et in C. destruct (map txt l); cbn [app] in C; congruence. }
      rewrite S1. apply (IH F' ltac:(discriminate)); [exact C|]. cbn [length] in *. lia.
Qed.
Lemma members_cut l : Forall (fun e => Forall plain_char (fst e) /\ writable (snd e) /\ breaks (snd e)) l -> l <> [] ->
  forall n p acc, cut (sjoin (u ", ") (map mtxt l) ++ [125]) p -> (2 * len p + 2 <= n)%nat -> failed (members n p acc).
Proof.
  induction l as [|[k v] l IH]; intros F N0 n p acc C L; [now destruct N0|]. inversion F as [|? ? (Pk & W & R) F']; subst. cbn [fst snd] in *. destruct n as [|n]; [lia|].
  assert (E : exists tl, sjoin (u ", ") (map mtxt ((k, v) :: l)) ++ [125] = jquote k ++ 58 :: 32 :: txt v ++ tl
    /\ (l = [] /\ tl = [125] \/ l <> [] /\ tl = 44 :: 32 :: (sjoin (u ", ") (map mtxt l) ++ [125]))).
  { destruct l as [|e' l].
    - exists [125]. split; [|now left]. cbn [map sjoin]. unfold mtxt. cbn [fst snd]. rewrite <- !app_assoc. reflexivity.
    - exists (44 :: 32 :: (sjoin (u ", ") (map mtxt (e' :: l)) ++ [125])). split; [|right; split; [discriminate|reflexivity]].
      cbn [map sjoin]. unfold mtxt at 1. cbn [fst snd]. rewrite <- !app_assoc. reflexivity. }
  destruct E as (tl & E & Htl). rewrite E in C. clear E.
  apply cut_app in C. destruct C as [C|(p' & -> & C)].
  { unfold jquote in C. apply cut_cons in C. destruct C as [->|(p' & -> & C)]; [exists ValueError; reflexivity|]. cbn [members]. rewrite starts_hit, (scan_quoted_cut k _ _ Pk C). exists ValueError. reflexivity. }
  destruct (jquote k ++ p') as [|c t] eqn:Eq; [discriminate|]. assert (c = 34) as -> by (now injection Eq). cbn [members]. rewrite starts_hit, (scan_jquote k p' Pk t Eq).
  assert (Lp : (len p' < len t)%nat) by exact (scanstring_len _ _ _ _ (scan_jquote k p' Pk t Eq)). cbn [length] in L.
  apply cut_cons in C. destruct C as [->|(p1 & -> & C)]; [exists ValueError; reflexivity|]. rewrite skip_head, starts_hit by reflexivity.
  cbn [length] in Lp.
  set (K := fun x : res (jval * str) => match x with
          | Err e => Err e
          | Ok (v0, r2) =>
              match starts 125 (skip r2) with
              | Some r3 => Ok (oset k v0 acc, r3)
              | None =>
              match starts 44 (skip r2) with
              | Some r3 => members n (skip r3) (oset k v0 acc)
              | None => Err ValueError
              end end
          end).
  change (failed (K (scan n (skip p1)))).
  apply cut_cons in C. destruct C as [->|(p2 & -> & C)]; [cbn [skip]; destruct (scan_nil n) as [e ->]; exists e; reflexivity|].
  cbn [skip length] in *. change (jspace 32) with true. cbv iota.
  apply cut_app in C. destruct C as [C|(p3 & -> & C)].
  { assert (S1 : skip p2 = p2).
    { destruct C as (q & _ & C). destruct (txt_headed v W) as (c & x & Et & Hc & _). destruct p2 as [|d p2]; [reflexivity|]. apply skip_head. rewrite Et in C. injection C as <- _. exact Hc. }
    rewrite S1. destruct (R n p2 C ltac:(lia)) as [[[e Ee]|(v0 & x & Ee & Fx)] _]; rewrite Ee; [exists e; reflexivity|].
    unfold K. destruct (numchar_skip x Fx) as (-> & _ & -> & ->). exists ValueError. reflexivity. }
  rewrite headed_skip by now apply txt_headed.
  assert (Good : forall r, (2 * len (txt v ++ r) + 1 <= n)%nat -> ends r -> scan n (txt v ++ r) = Ok (v, r)) by (intros; now apply (txt_reads v W)).
  destruct Htl as [(-> & ->)|(Nl & ->)].
  - apply cut_cons in C. destruct C as [->|(p4 & -> & C)]; [|destruct (cut_nil _ C)]. rewrite Good; [exists ValueError; reflexivity|lia|exact I].
  - apply cut_cons in C. destruct C as [->|(p4 & -> & C)]; [rewrite Good; [exists ValueError; reflexivity|lia|exact I]|].
    rewrite Good; [|lia|apply ends_comma]. unfold K. rewrite skip_head by reflexivity. rewrite (starts_no 44 125) by discriminate. rewrite starts_hit.
    rewrite app_length in Lp. cbn [length] in Lp.
    apply cut_cons in C. destruct C as [->|(p5 & -> & C)].
    + destruct n as [|n]; [exists OutOfFuel; reflexivity|]. exists ValueError. reflexivity.
    + cbn [skip]. change (jspace 32) with true. cbv iota.
      assert (S1 : skip p5 = p5).
      { destruct C as (q & _ & C). destruct l as [|e' l]; [now destruct Nl|]. destruct (mtxt_headed e') as (c & x & Et & Hc & _).
        destruct p5 as [|d p5]; [reflexivity|]. apply skip_head. assert (c = d) as <-; [|exact Hc]. cbn [map sjoin] in C. rewrite Et in C. destruct (map mtxt l); cbn [app] in C; congruence. }
      rewrite S1. apply (IH F' Nl); [exact C|]. cbn [length] in *. lia.
Qed.
Lemma txt_breaks v : writable v -> breaks v.
Proof.
  induction v using jval_ind'; intros W n p C L.
  1: assert (Fd : failed (scan n p)) by (apply (word_cut n _ p C); [intros k Hk; cbn [txt u length] in Hk; do 4 (destruct k as [|k]; [reflexivity|]); cbn in Hk; lia|split; [|split]; discriminate]); split; [now left|auto].
  - assert (Fd : failed (scan n p)).
    { destruct b; (apply (word_cut n _ p C); [intros k Hk|split; [|split]; discriminate]).
      - do 4 (destruct k as [|k]; [reflexivity|]). cbn in Hk. lia. - do 5 (destruct k as [|k]; [reflexivity|]). cbn in Hk. lia. }
    split; [now left|auto].
  - split; [|intros N0; now destruct N0]. apply chars_unfinished. apply (cut_Forall _ _ _ C). apply number_chars. exact (int_number z).
  - split; [|intros N0; now destruct N0]. destruct W as [W|W].
    + apply chars_unfinished. apply (cut_Forall _ _ _ C). apply number_chars. destruct W as (sg & i & f & e & E & A & B & D & G & _). exists sg, i, f, e. auto.
    + left. destruct W as [->|[->| ->]]; (apply (word_cut n _ p C); [intros k Hk|split; [|split]; discriminate]).
      * do 3 (destruct k as [|k]; [reflexivity|]). cbn in Hk. lia.
      * do 8 (destruct k as [|k]; [reflexivity|]). cbn in Hk. lia.
      * do 9 (destruct k as [|k]; [reflexivity|]). cbn in Hk. lia.
  - assert (Fd : failed (scan n p)) by exact (jquote_cut n s p W C). split; [now left|auto].
  - assert (Fd : failed (scan n p)); [|split; [now left|auto]]. apply writable_arr in W. destruct n as [|n]; [lia|]. cbn [txt] in C. apply cut_cons in C.
    destruct C as [->|(p' & -> & C)]; [exists ValueError; reflexivity|]. cbn [scan]. rewrite !starts_no by discriminate. rewrite starts_hit. destruct l as [|v l].
    + cbn [map sjoin app] in C. apply cut_cons in C. destruct C as [->|(p2 & -> & C)]; [|destruct (cut_nil _ C)]. cbn [skip starts]. destruct n as [|n]; [exists OutOfFuel; reflexivity|].
      cbn [elements]. destruct (scan_nil n) as [e ->]. exists e. reflexivity.
    + assert (F : Forall (fun v => writable v /\ breaks v) (v :: l)).
      { clear -H W. revert H W. induction (v :: l) as [|x m IH]; intros H W; constructor; inversion H; inversion W; subst; [split; auto|auto]. }
      assert (S1 : skip p' = p' /\ starts 93 p' = None).
      { destruct C as (q & _ & C). inversion W as [|? ? W' _]; subst. destruct (txt_headed v W') as (c & x & Et & Hc & N1 & _).
        destruct p' as [|d p']; [auto|]. assert (c = d) as <-. { cbn [map sjoin] in C. rewrite Et in C. destruct (map txt l); cbn [app] in C; congruence. }
        split; [now apply skip_head|now apply starts_no]. }
      destruct S1 as [S1 S2]. rewrite S1, S2. destruct (elements_cut (v :: l) F ltac:(discriminate) n p' [] C) as [e Ee]; [cbn [length] in L; lia|]. rewrite Ee. exists e. reflexivity.
  - assert (Fd : failed (scan n p)); [|split; [now left|auto]]. apply writable_obj in W. destruct W as [_ W]. destruct n as [|n]; [lia|]. cbn [txt] in C. apply cut_cons in C.
    change (fun e => jquote (fst e) ++ u ": " ++ txt (snd e)) with mtxt in C.
    destruct C as [->|(p' & -> & C)]; [exists ValueError; reflexivity|]. cbn [scan]. rewrite !starts_no by discriminate. rewrite starts_hit. destruct l as [|e l].
    + cbn [map sjoin app] in C. apply cut_cons in C. destruct C as [->|(p2 & -> & C)]; [|destruct (cut_nil _ C)]. cbn [skip starts]. destruct n as [|n]; [exists OutOfFuel; reflexivity|].
      exists ValueError. reflexivity.
    + assert (F : Forall (fun e => Forall plain_char (fst e) /\ writable (snd e) /\ breaks (snd e)) (e :: l)).
      { clear -H W. revert H W. induction (e :: l) as [|x m IH]; intros H W; constructor; inversion H as [|? ? A B]; inversion W as [|? ? [D E] G]; subst; [split; [exact D|split; auto]|auto]. }
      assert (S1 : skip p' = p' /\ starts 125 p' = None).
      { destruct C as (q & _ & C). destruct (mtxt_headed e) as (c & x & Et & Hc & _ & N1 & _).
        destruct p' as [|d p']; [auto|]. assert (c = d) as <-. { cbn [map sjoin] in C. change (mtxt e) with (mtxt e) in C. rewrite Et in C. destruct l; cbn [map app] in C; injection C as C _; exact C. }
        split; [now apply skip_head|now apply starts_no]. }
      destruct S1 as [S1 S2]. rewrite S1, S2. destruct (members_cut (e :: l) F ltac:(discriminate) n p' [] C) as [x Ee]; [cbn [length] in L; lia|]. rewrite Ee. exists x. reflexivity.
  - destruct W.
Qed.
Theorem jload_cut v p : writable v -> ~ is_number v -> cut (txt v) p -> jload p = Err ValueError.
Proof.
  intros W N0 C. assert (S1 : skip p = p).
  { destruct C as (q & _ & C). destruct (txt_headed v W) as (c & x & Et & Hc & _). destruct p as [|d p]; [reflexivity|]. apply skip_head. rewrite Et in C. injection C as <- _. exact Hc. }
  destruct (jload p) as [w|e] eqn:E; [|f_equal; now apply (jload_error p)]. exfalso. unfold jload in E. rewrite S1 in E.
  destruct (txt_breaks v W (2 * length p + 2)%nat p C ltac:(lia)) as [_ H]. destruct (H N0) as [e Ee]. rewrite Ee in E. discriminate E.
Qed.

(** ** A text whose writing failed is cut short *)
Fixpoint patch (v : jval) : jval :=
  match v with
  | JArr l => JArr (map patch l)
  | JObj l => JObj (map (fun e => (fst e, patch (snd e))) l)
  | JOther => JNull
  | _ => v
  end.
Definition matches (w : written) (t : str) : Prop := if snd w then fst w = t else cut t (fst w).
Lemma cut_app_l a t p : cut t p -> cut (a ++ t) (a ++ p).
Proof. intros (q & N0 & ->). exists q. split; [exact N0|apply app_assoc]. Qed.
Lemma cut_app_r t p r : cut t p -> cut (t ++ r) p.
Proof. intros (q & N0 & ->). exists (q ++ r). split; [|symmetry; apply app_assoc]. intros K. apply app_eq_nil in K. now apply N0. Qed.
Lemma matches_cat a b s t : matches a s -> matches b t -> matches (wcat a b) (s ++ t).
Proof.
  unfold matches, wcat. destruct a as [x [|]]; cbn [fst snd].
  - intros ->. destruct b as [y [|]]; cbn [fst snd]; [now intros ->|apply cut_app_l].
  - intros C _. now apply cut_app_r.
Qed.
Lemma matches_join ws ts : Forall2 matches ws ts -> matches (wjoin ws) (sjoin (u ", ") ts).
Proof.
  induction 1 as [|w t ws ts H F IH]; [reflexivity|]. destruct F as [|w' t' ws ts H' F].
  - exact H.
  - change (wjoin (w :: w' :: ws)) with (wcat w (wcat (wr (u ", ")) (wjoin (w' :: ws)))). change (sjoin (u ", ") (t :: t' :: ts)) with (t ++ u ", " ++ sjoin (u ", ") (t' :: ts)).
    apply matches_cat; [exact H|]. apply matches_cat; [reflexivity|exact IH].
Qed.
Lemma jwrite_matches v : matches (jwrite v) (txt (patch v)).
Proof.
  induction v using jval_ind'; try reflexivity.
  - destruct b; reflexivity.
  - cbn [jwrite patch txt]. apply (matches_cat (wr (u "[")) _ (u "[")); [reflexivity|]. apply matches_cat; [|reflexivity]. apply matches_join. rewrite map_map.
    induction H as [|x l Hx Hl IH]; constructor; assumption.
  - cbn [jwrite patch txt]. apply (matches_cat (wr (u "{")) _ (u "{")); [reflexivity|]. apply matches_cat; [|reflexivity]. apply matches_join. rewrite map_map.
    induction H as [|x l Hx Hl IH]; constructor; [|assumption]. cbn [fst snd]. rewrite app_assoc. apply matches_cat; [reflexivity|exact Hx].
  - exists (u "null"). split; [discriminate|reflexivity].
Qed.
Lemma patch_complete v : snd (jwrite v) = true -> patch v = v.
Proof.
  assert (C : forall a b, snd (wcat a b) = true -> snd a = true /\ snd b = true).
  { intros [x [|]] b; unfold wcat; cbn [fst snd]; auto; discriminate. }
  assert (J : forall ws, snd (wjoin ws) = true -> Forall (fun w => snd w = true) ws).
  { induction ws as [|w [|w' ws] IH]; intros H; [constructor|constructor; [exact H|constructor]|]. change (wjoin (w :: w' :: ws)) with (wcat w (wcat (wr (u ", ")) (wjoin (w' :: ws)))) in H.
    apply C in H. destruct H as [H1 H2]. apply C in H2. constructor; [exact H1|now apply IH]. }
  induction v using jval_ind'; intros E; try reflexivity.
  - cbn [jwrite] in E. apply C in E. destruct E as [_ E]. apply C in E. destruct E as [E _]. apply J in E. cbn [patch]. f_equal.
    induction H as [|x l Hx Hl IH]; [reflexivity|]. cbn [map] in *. inversion E; subst. rewrite (Hx H1), (IH H2). reflexivity.
  - cbn [jwrite] in E. apply C in E. destruct E as [_ E]. apply C in E. destruct E as [E _]. apply J in E. cbn [patch]. f_equal.
    induction H as [|[k x] l Hx Hl IH]; [reflexivity|]. cbn [map fst snd] in *. inversion E as [|? ? E1 E2]; subst. apply C in E1. rewrite (Hx (proj2 E1)), (IH E2). reflexivity.
  - discriminate E.
Qed.
