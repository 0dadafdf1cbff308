(** * Facts about the string tools *)
From Coq Require Import String Permutation Sorting.Sorted.
From Verif Require Import Py StrTools StrSpec.
Local Open Scope N_scope.

(** ** The separator sort *)
Definition desc (l : list str) : Prop := StronglySorted (fun a b => length b <= length a)%nat l.

Lemma pass_app k l1 l2 : length l1 = S k -> bubble_pass k (l1 ++ l2) = bubble_pass k l1 ++ l2.
Proof.
  revert l1; induction k as [|k IH]; intros l1 H; [reflexivity|].
  destruct l1 as [|a [|b l1]]; try discriminate.
  cbn [bubble_pass app]. cbn in H. destruct (length a <? length b)%nat; cbn [app]; f_equal.
  - apply (IH (a :: l1)); cbn; lia.
  - apply (IH (b :: l1)); cbn; lia.
Qed.

Lemma pass_last k l : length l = S k ->
  exists l' m, bubble_pass k l = l' ++ [m] /\ Permutation l (l' ++ [m]) /\
               Forall (fun a => length m <= length a)%nat l'.
Proof.
  revert l; induction k as [|k IH]; intros l H.
  - destruct l as [|a [|b l]]; try discriminate. exists [], a; repeat split; auto.
  - destruct l as [|a [|b l]]; try discriminate.
    cbn [bubble_pass]. destruct (Nat.ltb_spec (length a) (length b)) as [Hlt|Hge].
    + destruct (IH (a :: l)) as [l' [m [E [P F]]]]; [cbn in *; lia|].
      rewrite E. exists (b :: l'), m. repeat split.
      * rewrite perm_swap. cbn. apply perm_skip. exact P.
      * constructor; [|exact F].
        assert (In a (l' ++ [m])) as Hi by (eapply Permutation_in; [exact P|cbn; auto]).
        apply in_app_iff in Hi; destruct Hi as [Hi|[<-|[]]].
        -- rewrite Forall_forall in F; specialize (F _ Hi); lia.
        -- lia.
    + destruct (IH (b :: l)) as [l' [m [E [P F]]]]; [cbn in *; lia|].
      rewrite E. exists (a :: l'), m. repeat split.
      * cbn. apply perm_skip. exact P.
      * constructor; [|exact F].
        assert (In b (l' ++ [m])) as Hi by (eapply Permutation_in; [exact P|cbn; auto]).
        apply in_app_iff in Hi; destruct Hi as [Hi|[<-|[]]].
        -- rewrite Forall_forall in F; specialize (F _ Hi); lia.
        -- lia.
Qed.

Lemma bubble_app k l1 l2 : length l1 = S k -> bubble k (l1 ++ l2) = bubble k l1 ++ l2.
Proof.
  revert l1 l2; induction k as [|k IH]; intros l1 l2 H; [reflexivity|].
  cbn [bubble]. rewrite pass_app by exact H.
  destruct (pass_last (S k) l1 H) as [l' [m [E [P F]]]].
  rewrite E, <- app_assoc.
  assert (length l' = S k) as Hl.
  { apply Permutation_length in P. rewrite app_length in P. cbn in P. lia. }
  rewrite (IH l' ([m] ++ l2) Hl), (IH l' [m] Hl), <- app_assoc. reflexivity.
Qed.

Lemma desc_snoc l m : desc l -> Forall (fun a => length m <= length a)%nat l -> desc (l ++ [m]).
Proof.
  unfold desc. intros H F; induction H as [|a l H IH Ha]; cbn; [repeat constructor|].
  inversion F as [|? ? Fa F']; subst. constructor; [apply IH; assumption|].
  apply Forall_app; split; [assumption|repeat constructor; assumption].
Qed.

Lemma bubble_sorted k l : length l = S k -> desc (bubble k l) /\ Permutation l (bubble k l).
Proof.
  revert l; induction k as [|k IH]; intros l H.
  - destruct l as [|a [|b l]]; try discriminate. split; [repeat constructor|reflexivity].
  - cbn [bubble]. destruct (pass_last (S k) l H) as [l' [m [E [P F]]]].
    assert (length l' = S k) as Hl.
    { apply Permutation_length in P. rewrite app_length in P. cbn in P. lia. }
    rewrite E, bubble_app by exact Hl.
    destruct (IH l' Hl) as [Hs Hp]. split.
    + apply desc_snoc; [exact Hs|]. rewrite Forall_forall in *. intros a Ha.
      apply F. eapply Permutation_in; [apply Permutation_sym; exact Hp|exact Ha].
    + rewrite P. apply Permutation_app_tail. exact Hp.
Qed.

Lemma sort_sep_spec l : desc (sort_sep l) /\ Permutation l (sort_sep l).
Proof.
  unfold sort_sep. destruct l as [|a l]; cbn [length]; [split; [constructor|reflexivity]|].
  apply bubble_sorted. cbn. lia.
Qed.
Lemma sort_sep_In l p : In p (sort_sep l) <-> In p l.
Proof.
  destruct (sort_sep_spec l) as [_ P]. split; apply Permutation_in; auto. apply Permutation_sym; auto.
Qed.

(** ** Finding a separator *)
Lemma find_sep_Some seps s p : desc seps -> find_sep seps s = Some p ->
  In p seps /\ at_front p s /\ (forall q, In q seps -> at_front q s -> (length q <= length p)%nat).
Proof.
  intros D; induction D as [|a l D IH Ha]; cbn; [discriminate|].
  destruct (sprefix a s) eqn:E.
  - intros [= <-]. apply sprefix_spec in E. repeat split; auto.
    intros q [->|Hq] _; [lia|]. rewrite Forall_forall in Ha. apply Ha, Hq.
  - intros H. destruct (IH H) as [H1 [H2 H3]]. repeat split; auto.
    intros q [->|Hq] Hf; [|auto].
    apply sprefix_spec in Hf. congruence.
Qed.
Lemma find_sep_None seps s : find_sep seps s = None <-> (forall q, In q seps -> ~ at_front q s).
Proof.
  induction seps as [|a l IH]; cbn; [split; [tauto|reflexivity]|].
  destruct (sprefix a s) eqn:E.
  - apply sprefix_spec in E. split; [discriminate|]. intros H; exfalso; apply (H a); auto.
  - rewrite IH; split.
    + intros H q [->|Hq]; [|auto]. intros Hf; apply sprefix_spec in Hf; congruence.
    + intros H q Hq; auto.
Qed.
Lemma front_eq p q s : at_front p s -> at_front q s -> length p = length q -> p = q.
Proof.
  intros [t ->] [t' E]. revert q t t' E; induction p as [|x p IH]; intros [|y q] t t' E L; try discriminate; auto.
  cbn in E; injection E as -> E. f_equal. eapply IH; [exact E|]. cbn in L; lia.
Qed.
Lemma find_sep_ext a b s : desc a -> desc b -> (forall p, In p a <-> In p b) ->
  find_sep a s = find_sep b s.
Proof.
  intros Da Db Hab. destruct (find_sep a s) as [p|] eqn:Ea, (find_sep b s) as [q|] eqn:Eb; auto.
  - destruct (find_sep_Some _ _ _ Da Ea) as [I1 [F1 M1]], (find_sep_Some _ _ _ Db Eb) as [I2 [F2 M2]].
    f_equal. apply (front_eq p q s); auto. apply Hab in I1; apply Hab in I2.
    specialize (M1 q I2 F2); specialize (M2 p I1 F1). lia.
  - destruct (find_sep_Some _ _ _ Da Ea) as [I1 [F1 _]]. rewrite find_sep_None in Eb.
    exfalso; apply (Eb p); auto; apply Hab; auto.
  - destruct (find_sep_Some _ _ _ Db Eb) as [I1 [F1 _]]. rewrite find_sep_None in Ea.
    exfalso; apply (Ea q); auto; apply Hab; auto.
Qed.

(** ** The scan *)
Lemma scan_ext a b : (forall s, find_sep a s = find_sep b s) ->
  forall fuel cur s, scan fuel a cur s = scan fuel b cur s.
Proof.
  intros E; induction fuel as [|f IH]; intros cur [|c s]; cbn [scan]; auto.
  rewrite E. destruct (find_sep b (c :: s)); rewrite IH; reflexivity.
Qed.

Definition seps_ok (seps : list str) : Prop := forall p, In p seps -> p <> [].

Lemma at_front_len q s : at_front q s -> (length q <= length s)%nat.
Proof. intros [t ->]. rewrite app_length; lia. Qed.

Lemma scan_tok seps : desc seps -> seps_ok seps ->
  forall fuel cur s, (length s <= fuel)%nat ->
  (forall a b, rev cur = a ++ b -> b <> [] -> forall q, In q seps -> ~ at_front q (b ++ s)) ->
  exists l, scan fuel seps cur s = Ok l /\ tok seps (rev cur ++ s) l.
Proof.
  intros D Hok; induction fuel as [|f IH]; intros cur s Hf Hcur.
  - destruct s; [|cbn in Hf; lia]. exists [rev cur]; split; [reflexivity|].
    rewrite app_nil_r. constructor. intros a b E Hb q Hq. specialize (Hcur a b E Hb q Hq).
    rewrite app_nil_r in Hcur. exact Hcur.
  - destruct s as [|c s].
    + exists [rev cur]; split; [reflexivity|].
      rewrite app_nil_r. constructor. intros a b E Hb q Hq. specialize (Hcur a b E Hb q Hq).
      rewrite app_nil_r in Hcur. exact Hcur.
    + cbn [scan]. destruct (find_sep seps (c :: s)) as [p|] eqn:E.
      * destruct (find_sep_Some _ _ _ D E) as [I1 [[t Ht] M1]].
        rewrite Ht. rewrite skipn_app, skipn_all, Nat.sub_diag. cbn [app skipn].
        destruct (IH [] t) as [l [El Tl]].
        { pose proof (Hok p I1) as Hp. destruct p; [congruence|].
          apply (f_equal (@length _)) in Ht. rewrite app_length in Ht. cbn in *. lia. }
        { intros a b Eab Hb. cbn in Eab. destruct a, b; try discriminate; congruence. }
        rewrite El. exists (rev cur :: p :: l); split; [reflexivity|].
        cbn in Tl. apply tok_sep; auto.
        -- intros a b Eab Hb q Hq. rewrite <- Ht. eapply Hcur; eauto.
        -- intros q Hq. rewrite <- Ht. apply M1, Hq.
      * destruct (IH (c :: cur) s) as [l [El Tl]].
        { cbn in Hf; lia. }
        { intros a b Eab Hb q Hq. cbn in Eab.
          destruct (exists_last Hb) as [b' [z Ez]]. subst b.
          rewrite app_assoc in Eab. apply app_inj_tail in Eab as [Eab <-].
          destruct b' as [|y b'].
          - cbn. rewrite find_sep_None in E. apply E, Hq.
          - rewrite <- app_assoc. cbn [app]. eapply (Hcur a (y :: b')); auto. discriminate. }
        rewrite El. exists l; split; [reflexivity|].
        cbn in Tl. rewrite <- app_assoc in Tl. exact Tl.
Qed.

Lemma tok_ext a b s l : (forall p, In p a <-> In p b) -> tok a s l -> tok b s l.
Proof.
  intros E T; induction T as [w H|w p t l H1 H2 H3 T IH].
  - constructor. intros; eapply H; eauto. apply E; auto.
  - constructor; auto.
    + intros; eapply H1; eauto. apply E; auto.
    + apply E; auto.
    + intros; apply H3; auto. apply E; auto.
Qed.

Lemma tok_concat seps s l : tok seps s l -> List.concat l = s.
Proof.
  intros T; induction T as [w H|w p t l H1 H2 H3 T IH]; cbn; [apply app_nil_r|].
  rewrite IH; reflexivity.
Qed.

Lemma occurs_front q w : occurs q w -> q <> [] -> exists a b, w = a ++ b /\ b <> [] /\ at_front q b.
Proof.
  intros [a [b ->]] H. exists a, (q ++ b). repeat split.
  - destruct q; [congruence|discriminate].
  - exists b; reflexivity.
Qed.

Lemma tok_parts seps s l : seps_ok seps -> tok seps s l ->
  forall p, In p l -> In p seps \/ forall q, In q seps -> ~ occurs q p.
Proof.
  intros Hok T; induction T as [w H|w p t l H1 H2 H3 T IH]; intros x.
  - intros [<-|[]]. right. intros q Hq Ho. apply occurs_front in Ho; [|apply Hok, Hq].
    destruct Ho as [a [b [E [Hb Hf]]]]. eapply H; eauto.
  - intros [<-|[<-|Hx]]; auto. right. intros q Hq Ho. apply occurs_front in Ho; [|apply Hok, Hq].
    destruct Ho as [a [b [E [Hb [r Hf]]]]]. apply (H1 a b E Hb q Hq).
    exists (r ++ p ++ t). rewrite Hf, <- app_assoc. reflexivity.
Qed.

Lemma sdedup_In x l : In x (sdedup l) <-> In x l.
Proof.
  induction l as [|y l IH]; cbn; [tauto|].
  destruct (smem y l) eqn:E.
  - apply smem_In in E. rewrite IH. split; auto. intros [->|H]; auto.
  - cbn. rewrite IH. tauto.
Qed.

Lemma concat_filter_nonempty (l : list str) rm :
  (forall p, In p rm -> p = []) ->
  List.concat (filter (fun p => negb (smem p (rm ++ [[]]))) l) = List.concat l.
Proof.
  intros Hrm; induction l as [|x l IH]; cbn; [reflexivity|].
  destruct (smem x (rm ++ [[]])) eqn:E; cbn.
  - apply smem_In, in_app_iff in E. rewrite IH.
    destruct E as [E|[<-|[]]]; [rewrite (Hrm x E)|]; reflexivity.
  - rewrite IH; reflexivity.
Qed.

Lemma multi_split_enum_tok seps remove s : seps_ok seps ->
  exists l, tok seps s l /\
    multi_split_enum seps remove s = Ok (filter (fun p => negb (smem p (remove ++ [[]]))) l).
Proof.
  intros Hok. unfold multi_split_enum.
  destruct (scan_tok (sort_sep seps)) with (fuel := length s) (cur := @nil N) (s := s) as [l [E T]].
  - apply sort_sep_spec.
  - intros p Hp. apply Hok. apply sort_sep_In, Hp.
  - lia.
  - intros a b Eab Hb. destruct a, b; try discriminate; congruence.
  - exists l. rewrite E. split; [|reflexivity].
    cbn in T. eapply tok_ext; [|exact T]. intros p. apply sort_sep_In.
Qed.

Lemma multi_split_tok seps remove s : seps_ok seps ->
  exists l, tok seps s l /\
    multi_split seps remove s = Ok (filter (fun p => negb (smem p (remove ++ [[]]))) l).
Proof.
  intros Hok. destruct (multi_split_enum_tok (sdedup seps) remove s) as [l [T E]].
  - intros p Hp. apply Hok, sdedup_In, Hp.
  - exists l; split; [|exact E]. eapply tok_ext; [|exact T]. intros p; apply sdedup_In.
Qed.

Lemma multi_split_lossless seps s : (forall p, In p seps -> p <> []) ->
  exists l, multi_split seps [] s = Ok l /\ List.concat l = s /\
    forall p, In p l -> p <> [] /\ (In p seps \/ forall q, In q seps -> ~ occurs q p).
Proof.
  intros Hok. destruct (multi_split_tok seps [] s Hok) as [l [T E]].
  exists (filter (fun p => negb (smem p ([] ++ [[]]))) l). repeat split; auto.
  - rewrite concat_filter_nonempty by (intros ? []). eapply tok_concat; eauto.
  - apply filter_In in H as [_ H]. intros ->. cbn in H. discriminate.
  - apply filter_In in H as [H _]. eapply tok_parts; eauto.
Qed.

Lemma multi_split_remove seps remove s l : multi_split seps [] s = Ok l ->
  multi_split seps remove s = Ok (filter (fun p => negb (smem p remove)) l).
Proof.
  unfold multi_split, multi_split_enum. destruct (scan _ _ _ _) as [l0|e]; [|discriminate].
  intros [= <-]. f_equal. induction l0 as [|x l0 IH]; cbn [filter]; [reflexivity|].
  assert (smem x (remove ++ [[]]) = smem x remove || smem x [[]]) as -> by apply existsb_app.
  change ([] ++ [[]]) with [@nil N] in *.
  destruct (smem x [[]]) eqn:E1; cbn [negb].
  - rewrite orb_true_r. cbn in E1. rewrite E1. cbn [negb]. exact IH.
  - rewrite orb_false_r. cbn in E1. rewrite E1. cbn [negb filter]. rewrite IH. reflexivity.
Qed.

Lemma multi_split_enum_perm a b remove s : (forall p, In p a <-> In p b) ->
  multi_split_enum a remove s = multi_split_enum b remove s.
Proof.
  intros E. unfold multi_split_enum.
  rewrite (scan_ext (sort_sep a) (sort_sep b)); [reflexivity|].
  intros t. apply find_sep_ext; try apply sort_sep_spec.
  intros p. rewrite !sort_sep_In. apply E.
Qed.
