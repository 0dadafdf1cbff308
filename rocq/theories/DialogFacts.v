(** * Lemmas: words, answers *)
From Coq Require Import String.
From Verif Require Import Py Json Params ParamsSpec Dialogs DialogSpec.
Local Open Scope N_scope.

Lemma ws_dec c : {cmem c wspace = true /\ In c wspace} + {cmem c wspace = false /\ ~ In c wspace}.
Proof.
  destruct (cmem c wspace) eqn:E.
  - left. split; [reflexivity|]. now apply cmem_In.
  - right. split; [reflexivity|]. intros H. apply cmem_In in H. rewrite H in E. discriminate E.
Qed.
Lemma words_blank a x : blank a -> words_go [] (a ++ x) = words_go [] x.
Proof.
  induction a as [|c a IH]; intros H; [reflexivity|]. cbn [Datatypes.app words_go].
  destruct (ws_dec c) as [[-> _]|[_ N]]; [|destruct N; apply H; now left]. apply IH. intros d Hd. apply H. now right.
Qed.
Lemma words_word n : forall cur x, (forall c, In c n -> ~ In c wspace) -> words_go cur (n ++ x) = words_go (rev n ++ cur) x.
Proof.
  induction n as [|c n IH]; intros cur x H; [reflexivity|]. cbn [Datatypes.app words_go].
  destruct (ws_dec c) as [[_ I]|[-> _]]; [now destruct (H c (or_introl eq_refl))|].
  rewrite IH by (intros d Hd; apply H; now right). cbn [rev]. now rewrite <- app_assoc.
Qed.
Lemma words_end cur b x : cur <> [] -> blank b -> b <> [] -> words_go cur (b ++ x) = rev cur :: words_go [] x.
Proof.
  intros Hc Hb Hn. destruct b as [|c b]; [contradiction|]. cbn [Datatypes.app words_go].
  destruct (ws_dec c) as [[-> _]|[_ N]]; [|destruct N; apply Hb; now left]. destruct cur as [|d cur]; [contradiction|].
  f_equal. apply words_blank. intros e He. apply Hb. now right.
Qed.
Lemma words_last cur : cur <> [] -> words_go cur [] = [rev cur].
Proof. now destruct cur. Qed.
Lemma rev_nil (n : str) : n <> [] -> rev n ++ [] <> [].
Proof. rewrite app_nil_r. intros H E. apply H. rewrite <- (rev_involutive n), E. reflexivity. Qed.
Lemma words_first n x : word n -> words_go [] (n ++ x) = words_go (rev n ++ []) x.
Proof. intros [_ H]. now apply words_word. Qed.
Lemma words_one a n b : blank a -> blank b -> word n -> words (a ++ n ++ b) = [n].
Proof.
  intros Ha Hb Hn. unfold words. rewrite words_blank, words_first by assumption.
  destruct b as [|c b].
  - rewrite words_last by apply rev_nil, Hn. now rewrite app_nil_r, rev_involutive.
  - rewrite <- (app_nil_r (c :: b)), words_end; [|apply rev_nil, Hn|exact Hb|discriminate]. now rewrite app_nil_r, rev_involutive.
Qed.
Lemma words_two x n y : two_words x n y -> words x = [n; y].
Proof.
  intros (a & b & c & Ha & Hb & Hbn & Hc & Hn & Hy & ->). unfold words. rewrite words_blank, words_first by assumption.
  rewrite words_end; [|apply rev_nil, Hn|assumption..]. rewrite app_nil_r, rev_involutive. f_equal.
  exact (words_one [] y c ltac:(intros ? []) Hc Hy).
Qed.
Lemma lead x : exists a y, x = a ++ y /\ blank a /\ match y with c :: _ => ~ In c wspace | [] => True end.
Proof.
  induction x as [|c x (a & y & E & Ha & Hy)]; [now exists [], []|]. destruct (ws_dec c) as [[_ I]|[_ N]].
  - exists (c :: a), y. rewrite E. split; [reflexivity|]. split; [|exact Hy]. intros d [<-|Hd]; [exact I|now apply Ha].
  - exists [], (c :: x). split; [reflexivity|]. split; [intros ? []|exact N].
Qed.
Lemma lead_word x : exists n y, x = n ++ y /\ (forall c, In c n -> ~ In c wspace) /\ match y with c :: _ => In c wspace | [] => True end.
Proof.
  induction x as [|c x (n & y & E & Hn & Hy)]; [now exists [], []|]. destruct (ws_dec c) as [[_ I]|[_ N]].
  - exists [], (c :: x). split; [reflexivity|]. split; [intros ? []|exact I].
  - exists (c :: n), y. rewrite E. split; [reflexivity|]. split; [|exact Hy]. intros d [<-|Hd]; [exact N|now apply Hn].
Qed.
(** a text is blank, or a word with what follows it *)
Lemma word_cut x : blank x \/ exists a n b z, x = a ++ n ++ b ++ z /\ blank a /\ word n /\ blank b
  /\ ((b = [] /\ z = []) \/ (b <> [] /\ match z with c :: _ => ~ In c wspace | [] => True end)).
Proof.
  destruct (lead x) as (a & y & -> & Ha & Hy). destruct y as [|c y]; [left; now rewrite app_nil_r|right].
  destruct (lead_word (c :: y)) as (n & t & E & Hn & Ht). destruct (lead t) as (b & z & -> & Hb & Hz).
  assert (Wn : word n).
  { split; [|exact Hn]. intros ->. cbn [Datatypes.app] in E. rewrite <- E in Ht. contradiction. }
  exists a, n, b, z. split; [now rewrite E|]. split; [exact Ha|]. split; [exact Wn|]. split; [exact Hb|].
  destruct b as [|d b]; [|right; split; [discriminate|exact Hz]]. left. split; [reflexivity|]. destruct z as [|e z]; [reflexivity|].
  cbn [Datatypes.app] in Ht. contradiction.
Qed.
Lemma words_nil_blank x : words x = [] -> blank x.
Proof.
  destruct (word_cut x) as [H|(a & n & b & z & -> & Ha & Hn & Hb & D)]; [auto|]. unfold words. rewrite words_blank, words_first by assumption.
  intros E. exfalso. destruct D as [[-> ->]|[Hbn _]]; cbn [Datatypes.app] in E.
  - rewrite words_last in E by apply rev_nil, Hn. discriminate E.
  - rewrite words_end in E; [discriminate E|apply rev_nil, Hn|assumption..].
Qed.
Lemma words_one_inv x n : words x = [n] -> one_word x.
Proof.
  destruct (word_cut x) as [H|(a & m & b & z & -> & Ha & Hn & Hb & D)].
  - intros E. unfold words in E. rewrite <- (app_nil_r x), words_blank in E by exact H. discriminate E.
  - intros E. destruct D as [[-> ->]|[Hbn Hz]].
    + exists a, m, []. split; [exact Ha|]. split; [intros ? []|now split].
    + unfold words in E. rewrite words_blank, words_first, words_end in E; [|apply rev_nil, Hn|assumption..]. injection E as _ E.
      apply words_nil_blank in E. exists a, m, (b ++ z). split; [exact Ha|]. split; [|now split].
      intros c Hc. apply in_app_iff in Hc as [Hc|Hc]; [now apply Hb|now apply E].
Qed.
Lemma words_two_inv x n y : words x = [n; y] -> two_words x n y.
Proof.
  destruct (word_cut x) as [H|(a & m & b & z & -> & Ha & Hn & Hb & D)].
  - intros E. unfold words in E. rewrite <- (app_nil_r x), words_blank in E by exact H. discriminate E.
  - intros E. unfold words in E. rewrite words_blank, words_first in E by assumption. destruct D as [[-> ->]|[Hbn Hz]].
    + cbn [Datatypes.app] in E. rewrite words_last in E by apply rev_nil, Hn. discriminate E.
    + rewrite words_end in E; [|apply rev_nil, Hn|assumption..]. rewrite app_nil_r, rev_involutive in E. injection E as -> E.
      destruct (word_cut z) as [Bz|(a' & m' & b' & z' & -> & Ha' & Hn' & Hb' & D')].
      { rewrite <- (app_nil_r z), words_blank in E by exact Bz. discriminate E. }
      assert (a' = []) as ->. { destruct a' as [|d a']; [reflexivity|]. cbn [Datatypes.app] in Hz. destruct Hz. apply Ha'. now left. }
      cbn [Datatypes.app] in *. rewrite words_first in E by exact Hn'. destruct D' as [[-> ->]|[Hbn' Hz']].
      * cbn [Datatypes.app] in E. rewrite words_last, app_nil_r, rev_involutive in E by apply rev_nil, Hn'. injection E as ->.
        exists a, b, []. rewrite !app_nil_r. split; [exact Ha|]. split; [exact Hb|]. split; [exact Hbn|]. split; [intros ? []|now split].
      * rewrite words_end in E; [|apply rev_nil, Hn'|assumption..]. rewrite app_nil_r, rev_involutive in E. injection E as -> E.
        apply words_nil_blank in E. exists a, b, (b' ++ z'). split; [exact Ha|]. split; [exact Hb|]. split; [exact Hbn|].
        split; [|now split]. intros c Hc. apply in_app_iff in Hc as [Hc|Hc]; [now apply Hb'|now apply E].
Qed.
