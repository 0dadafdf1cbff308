(** * reduce_units *)
From Coq Require Import String Permutation.
From Verif Require Import Py StrTools StrSpec StrFacts StrFacts2.
Local Open Scope N_scope.

Definition enc (f : factor) : str := op_char (fst f) :: snd f.
Definition opp (f : factor) : factor := (negb (fst f), snd f).

Lemma enc_inj f g : enc f = enc g -> f = g.
Proof.
  destruct f as [b x], g as [c y]. unfold enc; cbn. intros H. injection H as H1 ->.
  destruct b, c; try discriminate; reflexivity.
Qed.
Lemma ru_change_enc f : ru_change (enc f) = enc (opp f).
Proof. destruct f as [[] x]; reflexivity. Qed.
Lemma ru_pairs_ftoks l : ru_pairs (ftoks l) = map enc l.
Proof. induction l as [|[b x] l IH]; cbn; [reflexivity|]. rewrite IH. reflexivity. Qed.

Lemma write_tail_split l : forallb (fun f => is_name (snd f)) l = true ->
  multi_split op_seps [[c_space]] (write_tail l) = Ok (ftoks l).
Proof.
  intros H. apply multi_split_scf. destruct l as [|[b x] l]; [apply scf_nil|].
  cbn in H. apply andb_true_iff in H as [Hx Hl]. cbn [write_tail ftoks].
  apply scf_op_nil; [apply find_op, name_starts, Hx|apply keep_op|].
  apply scf_name; [exact Hx|].
  pose proof (ftoks_scan l Hl [] []) as G. rewrite !app_nil_r in G. apply G; [|exact Hx].
  intros n Hn. apply scf_end, Hn.
Qed.

(** The loop on signed factors. *)
Definition feqb (f g : factor) : bool := Bool.eqb (fst f) (fst g) && seqb (snd f) (snd g).
Lemma feqb_eq f g : feqb f g = true <-> f = g.
Proof.
  destruct f as [b x], g as [c y]. unfold feqb; cbn. rewrite andb_true_iff, eqb_true_iff, seqb_eq.
  split; [intros [-> ->]; reflexivity|intros [= -> ->]; auto].
Qed.
Fixpoint findex (f : factor) (l : list factor) : option nat :=
  match l with
  | [] => None
  | g :: t => if feqb f g then Some O else option_map S (findex f t)
  end.
Fixpoint fru (i : nat) (l : list factor) (ign : list nat) : list factor :=
  match l with
  | [] => []
  | f :: t =>
      if existsb (Nat.eqb i) ign then fru (S i) t ign
      else match findex (opp f) t with
           | Some j => fru (S i) t (ign ++ [(j + i + 1)%nat])
           | None => f :: fru (S i) t ign
           end
  end.
Lemma sindex_enc f l : sindex (enc f) (map enc l) = findex f l.
Proof.
  induction l as [|g l IH]; cbn [map sindex findex]; [reflexivity|]. rewrite IH.
  assert (seqb (enc f) (enc g) = feqb f g) as ->; [|reflexivity].
  destruct (feqb f g) eqn:E.
  - apply feqb_eq in E. subst. apply seqb_refl.
  - apply seqb_neq. intros H. apply enc_inj, feqb_eq in H. congruence.
Qed.
Lemma ru_loop_enc l : forall i ign, ru_loop i (map enc l) ign = map enc (fru i l ign).
Proof.
  induction l as [|f l IH]; intros i ign; cbn [map ru_loop fru]; [reflexivity|].
  rewrite ru_change_enc, sindex_enc. destruct (existsb (Nat.eqb i) ign); [apply IH|].
  destruct (findex (opp f) l); [apply IH|]. cbn. rewrite IH. reflexivity.
Qed.

Lemma findex_Some f l j : findex f l = Some j -> nth_error l j = Some f.
Proof.
  revert j; induction l as [|g l IH]; cbn; intros j; [discriminate|].
  destruct (feqb f g) eqn:E.
  - intros [= <-]. apply feqb_eq in E. subst. reflexivity.
  - destruct (findex f l) as [k|]; cbn; [|discriminate]. intros [= <-]. cbn. apply IH. reflexivity.
Qed.
Lemma findex_None f l : findex f l = None -> ~ In f l.
Proof.
  induction l as [|g l IH]; cbn; [auto|]. destruct (feqb f g) eqn:E; [discriminate|].
  destruct (findex f l); [discriminate|]. intros _ [->|H]; [|apply IH; auto].
  assert (feqb f f = true) by (apply feqb_eq; reflexivity). congruence.
Qed.

Fixpoint mexpo (n : str) (i : nat) (l : list factor) (ign : list nat) : Z :=
  match l with
  | [] => 0%Z
  | (b, x) :: t => ((if existsb (Nat.eqb i) ign then 0 else if seqb n x then sgn b else 0)
                    + mexpo n (S i) t ign)%Z
  end.
Lemma existsb_In i ign : existsb (Nat.eqb i) ign = true <-> In i ign.
Proof.
  rewrite existsb_exists. split.
  - intros [x [Hx E]]. apply Nat.eqb_eq in E. subst; exact Hx.
  - intros H; exists i; split; [exact H|apply Nat.eqb_refl].
Qed.
Lemma existsb_snoc i ign k : existsb (Nat.eqb i) (ign ++ [k]) = existsb (Nat.eqb i) ign || Nat.eqb i k.
Proof. rewrite existsb_app. cbn. rewrite orb_false_r. reflexivity. Qed.
Lemma mexpo_low n l : forall i ign k, (k < i)%nat -> mexpo n i l (ign ++ [k]) = mexpo n i l ign.
Proof.
  induction l as [|[b x] l IH]; intros i ign k H; cbn [mexpo]; [reflexivity|].
  rewrite existsb_snoc, IH by lia. assert (Nat.eqb i k = false) as -> by (apply Nat.eqb_neq; lia).
  rewrite orb_false_r. reflexivity.
Qed.
Lemma mexpo_add n l : forall i ign j c y, nth_error l j = Some (c, y) -> ~ In (i + j)%nat ign ->
  mexpo n i l (ign ++ [(i + j)%nat]) = (mexpo n i l ign - (if seqb n y then sgn c else 0))%Z.
Proof.
  induction l as [|[b x] l IH]; intros i ign j c y Hj Hn; [destruct j; discriminate|].
  cbn [mexpo]. rewrite existsb_snoc. destruct j as [|j].
  - injection Hj as -> ->. rewrite Nat.add_0_r in *. rewrite Nat.eqb_refl, orb_true_r.
    rewrite mexpo_low by lia.
    destruct (existsb (Nat.eqb i) ign) eqn:E; [apply existsb_In in E; contradiction|]. lia.
  - cbn in Hj. assert (Nat.eqb i (i + S j) = false) as -> by (apply Nat.eqb_neq; lia).
    rewrite orb_false_r. replace (i + S j)%nat with (S i + j)%nat in * by lia.
    rewrite (IH (S i) ign j c y Hj Hn). lia.
Qed.

Lemma times_cons n b x t : times n ((b, x) :: t) = ((if seqb n x then 1 else 0) + times n t)%nat.
Proof. reflexivity. Qed.
Lemma times_nth n l j b : nth_error l j = Some (b, n) -> (1 <= times n l)%nat.
Proof.
  revert j; induction l as [|[c x] l IH]; intros [|j] H; try discriminate; cbn in *.
  - injection H as -> ->. rewrite seqb_refl. lia.
  - specialize (IH j H). lia.
Qed.

Definition ru_inv (i : nat) (l : list factor) (ign : list nat) : Prop :=
  (forall n, times n l <= 2)%nat /\
  (forall p f, nth_error l p = Some f -> In (i + p)%nat ign -> times (snd f) l = 1%nat).

Lemma ru_inv_tail i f l ign : ru_inv i (f :: l) ign -> ru_inv (S i) l ign.
Proof.
  destruct f as [b x]. intros [H1 H2]. split.
  - intros n. specialize (H1 n). rewrite times_cons in H1. lia.
  - intros p [c y] Hp Hi. specialize (H2 (S p) (c, y) Hp).
    replace (i + S p)%nat with (S i + p)%nat in H2 by lia. specialize (H2 Hi).
    rewrite times_cons in H2. cbn [snd] in *. apply times_nth in Hp. lia.
Qed.

Lemma fru_expo l : forall n i ign, ru_inv i l ign -> expo n (fru i l ign) = mexpo n i l ign.
Proof.
  induction l as [|[b x] l IH]; intros n i ign HI; [reflexivity|].
  cbn [fru mexpo]. destruct (existsb (Nat.eqb i) ign) eqn:Ei.
  - rewrite IH; [lia|eapply ru_inv_tail; exact HI].
  - destruct (findex (opp (b, x)) l) as [j|] eqn:Ej.
    + apply findex_Some in Ej. unfold opp in Ej; cbn [fst snd] in Ej.
      assert (~ In (S i + j)%nat ign) as Hn.
      { intros Hin. destruct HI as [H1 H2]. specialize (H2 (S j) (negb b, x) Ej).
        replace (i + S j)%nat with (S i + j)%nat in H2 by lia. specialize (H2 Hin). cbn [snd] in H2.
        rewrite times_cons, seqb_refl in H2. apply times_nth in Ej. lia. }
      replace (j + i + 1)%nat with (S i + j)%nat by lia.
      rewrite IH.
      * rewrite (mexpo_add n l (S i) ign j (negb b) x Ej Hn).
        destruct (seqb n x), b; cbn [sgn negb]; lia.
      * pose proof (ru_inv_tail _ _ _ _ HI) as [H1 H2]. split; [exact H1|].
        intros p [c y] Hp Hin. apply in_app_iff in Hin as [Hin|[Hin|[]]]; [eapply H2; eauto|].
        assert (p = j) as -> by lia. rewrite Ej in Hp. injection Hp as <- <-. cbn [snd].
        destruct HI as [HI _]. specialize (HI x). rewrite times_cons, seqb_refl in HI.
        apply times_nth in Ej. lia.
    + cbn [expo]. rewrite IH by (eapply ru_inv_tail; exact HI). reflexivity.
Qed.

Lemma fru_sub l : forall i ign f, In f (fru i l ign) -> In f l.
Proof.
  induction l as [|g l IH]; intros i ign f; cbn [fru]; [auto|].
  destruct (existsb (Nat.eqb i) ign); [intros H; right; eapply IH; eauto|].
  destruct (findex (opp g) l); [intros H; right; eapply IH; eauto|].
  intros [->|H]; [left; reflexivity|right; eapply IH; eauto].
Qed.
Lemma fru_reduced l : forall i ign f, In f (fru i l ign) -> ~ In (opp f) (fru i l ign).
Proof.
  induction l as [|g l IH]; intros i ign f; cbn [fru]; [intros []|].
  destruct (existsb (Nat.eqb i) ign); [exact (IH _ _ _)|].
  destruct (findex (opp g) l) eqn:E; [exact (IH _ _ _)|]. apply findex_None in E.
  assert (opp (opp f) = f) as Hoo by (destruct f as [[] ?]; reflexivity).
  intros [->|H] [H'|H'].
  - destruct f as [[] ?]; discriminate.
  - apply fru_sub in H'. contradiction.
  - apply E. rewrite H', Hoo. apply fru_sub in H. exact H.
  - exact (IH _ _ _ H H').
Qed.

Lemma mexpo_nil n l : forall i, mexpo n i l [] = expo n l.
Proof. induction l as [|[b x] l IH]; intros i; cbn; [reflexivity|]. rewrite IH. reflexivity. Qed.

Lemma enc_concat l : List.concat (map enc l) = write_tail l.
Proof. induction l as [|[b x] l IH]; cbn; [reflexivity|]. rewrite IH. reflexivity. Qed.

Lemma lstrip_none cs s : match s with c :: _ => cmem c cs = false | [] => True end -> lstrip_chars cs s = s.
Proof. destruct s as [|c s]; cbn; [reflexivity|]. intros ->. reflexivity. Qed.
Lemma rstrip_nostar s : nostar_end s -> rstrip_chars [c_star] s = s.
Proof.
  intros H. unfold rstrip_chars. rewrite lstrip_none; [apply rev_involutive|].
  destruct (rev s) as [|c r] eqn:E; [exact I|].
  unfold cmem; cbn [existsb]. rewrite orb_false_r. apply N.eqb_neq. intros ->.
  apply (f_equal (@rev _)) in E. rewrite rev_involutive in E. cbn in E. apply (H _ E).
Qed.

Lemma strip_star_tail b x o : is_name x = true -> forallb (fun f => is_name (snd f)) o = true ->
  strip_chars [c_star] (write_tail ((b, x) :: o)) =
  if b then write ((true, x) :: o) else write_tail ((b, x) :: o).
Proof.
  intros Hx Ho. unfold strip_chars.
  assert (forallb (fun f => is_name (snd f)) ((b, x) :: o) = true) as Hall by (cbn; rewrite Hx, Ho; reflexivity).
  destruct (write_tail_ss _ Hall) as [_ He].
  destruct b.
  - cbn [write_tail op_char]. cbn [lstrip_chars]. 
    assert (cmem 42 [c_star] = true) as -> by reflexivity.
    rewrite lstrip_none.
    + apply rstrip_nostar. cbn [write].
      destruct o as [|f o].
      * cbn. rewrite app_nil_r. apply name_nostar, Hx.
      * apply nostar_end_app; [destruct f; discriminate|].
        apply write_tail_ss. exact Ho.
    + destruct x as [|c x]; [discriminate|]. cbn [app].
      pose proof (name_char_ne _ (is_name_chars _ Hx c (or_introl eq_refl))).
      unfold cmem; cbn [existsb]. rewrite orb_false_r. apply N.eqb_neq. unfold c_star. lia.
  - rewrite lstrip_none by reflexivity. apply rstrip_nostar, He.
Qed.

Lemma write_slash l : factors_ok l = true -> cmem c_slash (write l) = existsb (fun f => negb (fst f)) l.
Proof.
  assert (forall n, is_name n = true -> cmem c_slash n = false) as Hn.
  { intros n Hn. apply cmem_false. intros Hi. pose proof (name_char_ne _ (is_name_chars _ Hn _ Hi)). unfold c_slash in *; lia. }
  assert (forall t, forallb (fun f => is_name (snd f)) t = true ->
            cmem c_slash (write_tail t) = existsb (fun f => negb (fst f)) t) as Ht.
  { induction t as [|[b x] t IH]; intros H; [reflexivity|]. cbn in H. apply andb_true_iff in H as [Hx H].
    cbn [write_tail existsb fst]. change (op_char b :: x ++ write_tail t) with ([op_char b] ++ (x ++ write_tail t)).
    rewrite !cmem_app, (Hn x Hx), IH by exact H. destruct b; reflexivity. }
  destruct l as [|[b x] l]; [discriminate|]. unfold factors_ok. intros H.
  apply andb_true_iff in H as [-> H]. cbn in H. apply andb_true_iff in H as [Hx H].
  cbn [write existsb fst negb orb]. rewrite cmem_app, (Hn x Hx), (Ht l H). reflexivity.
Qed.
Lemma write_nopm l c : factors_ok l = true -> c = c_plus \/ c = c_minus -> cmem c (write l) = false.
Proof.
  intros H Hc. apply cmem_false. intros Hi. destruct l as [|[b x] l]; [discriminate|].
  unfold factors_ok in H. apply andb_true_iff in H as [-> H]. cbn in H. apply andb_true_iff in H as [Hx H].
  cbn [write] in Hi. apply in_app_iff in Hi as [Hi|Hi].
  - pose proof (name_char_ne _ (is_name_chars _ Hx _ Hi)). unfold c_plus, c_minus in *; lia.
  - pose proof (write_tail_char _ H _ Hi). unfold c_plus, c_minus in *; lia.
Qed.

(** What reduce_units returns on a written product of factors. *)
Lemma reduce_units_write re l : factors_ok l = true ->
  reduce_units re (write l) =
  Ok (if existsb (fun f => negb (fst f)) l then
        match fru 0 l [] with
        | [] => write l
        | (true, x) :: o => write ((true, x) :: o)
        | o => 49 :: write_tail o
        end
      else write l).
Proof.
  intros H. unfold reduce_units.
  rewrite (write_nopm l c_plus), (write_nopm l c_minus) by auto. cbn [orb].
  rewrite write_slash by exact H. destruct (existsb (fun f => negb (fst f)) l) eqn:E; [|reflexivity].
  assert (forallb (fun f => is_name (snd f)) l = true) as Hall.
  { destruct l as [|[b x] l]; [discriminate|]. unfold factors_ok in H. apply andb_true_iff in H as [_ H]. exact H. }
  assert (c_star :: write l = write_tail l) as ->.
  { destruct l as [|[b x] l]; [discriminate|]. unfold factors_ok in H. apply andb_true_iff in H as [-> _]. reflexivity. }
  rewrite write_tail_split by exact Hall. rewrite ru_pairs_ftoks, ru_loop_enc.
  assert (forallb (fun f => is_name (snd f)) (fru 0 l []) = true) as Ho.
  { apply forallb_forall. intros f Hf. apply fru_sub in Hf. rewrite forallb_forall in Hall. apply Hall, Hf. }
  destruct (fru 0 l []) as [|[b x] o]; [reflexivity|].
  cbn in Ho. apply andb_true_iff in Ho as [Hx Ho].
  cbn [map].
  assert (List.concat (enc (b, x) :: map enc o) = write_tail ((b, x) :: o)) as -> by apply (enc_concat ((b, x) :: o)).
  rewrite strip_star_tail by assumption. destruct b; [|reflexivity].
  cbn [write]. destruct x as [|c x]; [discriminate|]. cbn [app].
  pose proof (name_char_ne _ (is_name_chars _ Hx c (or_introl eq_refl))).
  destruct (N.eqb_spec c c_slash) as [->|]; [unfold c_slash in *; lia|reflexivity].
Qed.

Lemma expo_one n b : n <> [49] -> expo n [(b, [49])] = 0%Z.
Proof. intros H. cbn [expo]. apply seqb_neq in H. rewrite H. reflexivity. Qed.

Lemma reduce_units_meaning re l : factors_ok l = true ->
  (forall n, times n l <= 2)%nat ->
  exists r, reduce_units re (write l) = Ok r /\
    forall n, n <> [49] -> expo n (factors r) = expo n l.
Proof.
  intros H Hd. rewrite reduce_units_write by exact H.
  eexists; split; [reflexivity|]. intros n Hn.
  destruct (existsb (fun f => negb (fst f)) l) eqn:E; [|rewrite factors_write by exact H; reflexivity].
  assert (forallb (fun f => is_name (snd f)) l = true) as Hall.
  { destruct l as [|[b x] l]; [discriminate|]. unfold factors_ok in H. apply andb_true_iff in H as [_ H]. exact H. }
  assert (forallb (fun f => is_name (snd f)) (fru 0 l []) = true) as Ho.
  { apply forallb_forall. intros f Hf. apply fru_sub in Hf. rewrite forallb_forall in Hall. apply Hall, Hf. }
  assert (expo n (fru 0 l []) = expo n l) as Hex.
  { rewrite fru_expo; [apply mexpo_nil|]. split; [exact Hd|intros p f _ []]. }
  destruct (fru 0 l []) as [|[b x] o]; [rewrite factors_write by exact H; reflexivity|].
  rewrite <- Hex. destruct b.
  - rewrite factors_write; [reflexivity|]. cbn. exact Ho.
  - unfold factors. change (49 :: write_tail ((false, x) :: o)) with ([49] ++ write_tail ((false, x) :: o)).
    rewrite read_name by (intros c [<-|[]]; reflexivity). rewrite app_nil_r.
    rewrite read_tail by exact Ho.
    change ((true, [49]) :: (false, x) :: o) with ([(true, [49])] ++ (false, x) :: o).
    rewrite expo_app, expo_one by exact Hn. reflexivity.
Qed.

(** The result never keeps a name both multiplied and divided, unless
    everything cancelled and the argument came back unchanged. *)
Lemma reduce_units_reduced re l r : factors_ok l = true -> reduce_units re (write l) = Ok r ->
  r <> write l -> forall n, n <> [49] -> ~ (In (true, n) (factors r) /\ In (false, n) (factors r)).
Proof.
  intros H E Hr n Hn [H1 H2]. rewrite reduce_units_write in E by exact H. injection E as E.
  assert (forallb (fun f => is_name (snd f)) l = true) as Hall.
  { destruct l as [|[b x] l]; [discriminate|]. unfold factors_ok in H. apply andb_true_iff in H as [_ H]. exact H. }
  assert (forallb (fun f => is_name (snd f)) (fru 0 l []) = true) as Ho.
  { apply forallb_forall. intros f Hf. apply fru_sub in Hf. rewrite forallb_forall in Hall. apply Hall, Hf. }
  pose proof (fru_reduced l 0 [] (true, n)) as R.
  destruct (existsb (fun f => negb (fst f)) l); [|congruence].
  destruct (fru 0 l []) as [|[b x] o]; [congruence|]. destruct b.
  - assert (r = write ((true, x) :: o)) as -> by (symmetry; exact E).
    rewrite factors_write in H1, H2 by (cbn; exact Ho). exact (R H1 H2).
  - assert (r = 49 :: write_tail ((false, x) :: o)) as -> by (symmetry; exact E). unfold factors in H1, H2.
    change (49 :: write_tail ((false, x) :: o)) with ([49] ++ write_tail ((false, x) :: o)) in H1, H2.
    rewrite read_name, app_nil_r, read_tail in H1 by (try exact Ho; intros c [<-|[]]; reflexivity).
    rewrite read_name, app_nil_r, read_tail in H2 by (try exact Ho; intros c [<-|[]]; reflexivity).
    destruct H1 as [H1|H1]; [congruence|]. destruct H2 as [H2|H2]; [congruence|]. exact (R H1 H2).
Qed.

Lemma scan_empty_sep_diverges fuel s : s <> [] -> scan fuel [[]] [] s = Err OutOfFuel.
Proof.
  induction fuel as [|f IH]; intros H; destruct s as [|c s]; try congruence; [reflexivity|].
  cbn [scan find_sep sprefix length skipn]. rewrite IH by exact H. reflexivity.
Qed.
