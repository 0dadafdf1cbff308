(** * The words that turn a switch off (C42) *)
From Coq Require Import String.
From Verif Require Import Py EngineSpec CleanFacts OpsFacts2.
Local Open Scope N_scope.

Lemma clower_blank c : In (clower c) wspace <-> In c wspace.
Proof.
  unfold clower.
  destruct ((65 <=? c) && (c <=? 90)) eqn:E1; [apply andb_prop in E1; destruct E1 as [A B]; apply N.leb_le in A, B|].
  { assert (forall d, 33 <= d -> d <= 132 -> ~ In d wspace) as H by (intros d L G I; unfold wspace in I; cbn [In] in I; intuition lia).
    split; intros I; exfalso; eapply H; [| |exact I| | |exact I]; lia. }
  destruct ((192 <=? c) && (c <=? 222) && negb (c =? 215)) eqn:E2.
  { apply andb_prop in E2; destruct E2 as [E2 _]; apply andb_prop in E2; destruct E2 as [A B]; apply N.leb_le in A, B.
    assert (forall d, 161 <= d -> d <= 5759 -> ~ In d wspace) as H by (intros d L G I; unfold wspace in I; cbn [In] in I; intuition lia).
    split; intros I; exfalso; eapply H; [| |exact I| | |exact I]; lia. }
  destruct ((913 <=? c) && (c <=? 939) && negb (c =? 930)) eqn:E3.
  { apply andb_prop in E3; destruct E3 as [E3 _]; apply andb_prop in E3; destruct E3 as [A B]; apply N.leb_le in A, B.
    assert (forall d, 161 <= d -> d <= 5759 -> ~ In d wspace) as H by (intros d L G I; unfold wspace in I; cbn [In] in I; intuition lia).
    split; intros I; exfalso; eapply H; [| |exact I| | |exact I]; lia. }
  destruct (c =? 8486) eqn:E4; [apply N.eqb_eq in E4; subst; split; intros I; unfold wspace in I; cbn [In] in I; intuition discriminate|].
  destruct (c =? 8490) eqn:E5; [apply N.eqb_eq in E5; subst; split; intros I; unfold wspace in I; cbn [In] in I; intuition discriminate|].
  reflexivity.
Qed.
Lemma lower_over x : over wspace (lower x) <-> over wspace x.
Proof.
  unfold over, lower. split; intros H c Hc.
  - apply clower_blank, H, in_map, Hc.
  - apply in_map_iff in Hc. destruct Hc as (d & <- & Hd). apply clower_blank, H, Hd.
Qed.
(** [ws]: words with no blank at their ends *)
Lemma strip_word ws x : (forall y, In y ws -> forall c r, y = c :: r \/ y = r ++ [c] -> ~ In c wspace) ->
  (In (strip (lower x)) ws <-> exists a y b, x = a ++ y ++ b /\ over wspace a /\ over wspace b /\ In (lower y) ws).
Proof.
  intros W. unfold strip. split.
  - intros H. destruct (strip_parts wspace (lower x)) as (p & q & E & Hp & Hq & _).
    unfold lower in E at 1. apply map_eq_app in E. destruct E as (a & r & -> & Ea & Er).
    apply map_eq_app in Er. destruct Er as (y & b & -> & Ey & Eb).
    exists a, y, b. split; [reflexivity|]. split; [apply lower_over; unfold lower; now rewrite Ea|].
    split; [apply lower_over; unfold lower; now rewrite Eb|]. unfold lower at 1. now rewrite Ey.
  - intros (a & y & b & -> & Ha & Hb & Hy). unfold lower at 1. rewrite !map_app. fold (lower a) (lower y) (lower b).
    apply lower_over in Ha, Hb. remember (lower y) as z eqn:Ez. clear Ez y.
    destruct z as [|c z].
    + cbn [Datatypes.app]. rewrite strip_over; [exact Hy|]. intros d Hd. apply in_app_iff in Hd as [Hd|Hd]; auto.
    + rewrite strip_core.
      * rewrite lstrip_all by exact Ha. rewrite lstrip_all by (intros d Hd; apply Hb, in_rev, Hd).
        cbn [rev Datatypes.app]. now rewrite app_nil_r.
      * split; [discriminate|]. intros d r Hd. apply cmem_false. exact (W _ Hy d r Hd).
Qed.
