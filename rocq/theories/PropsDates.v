(** * C76: dates *)
From Coq Require Import String ZArith List Lia Bool.
From Verif Require Import Py DatesSpec Dates DateFacts.
Import ListNotations.
Local Open Scope Z_scope.

(** ** Specification *)
(** the attoseconds of a name of Time that a Date takes, written out: hours, seconds and their decimal parts *)
Definition length_of (x : str) : option Z :=
  if seqb x (u "h") then Some (3600 * 10 ^ 18) else if seqb x (u "s") then Some (10 ^ 18) else if seqb x (u "ms") then Some (10 ^ 15)
  else if seqb x (u "us") then Some (10 ^ 12) else if seqb x (u "ns") then Some (10 ^ 9) else None.
(** a count within 64 bits of the unit in which the answer is counted, at most nanoseconds: about 292 years from 1970 *)
Definition near_1970 (m : Z) : Prop := - 2 ^ 63 * 10 ^ 9 < m < 2 ^ 63 * 10 ^ 9.
(** a date counted in years, months, weeks, days, hours, ..., nanoseconds *)
Definition ordinary (d : date_obj) : Prop := rank (dt_unit (d_value d)) <= 9.
Local Opaque day_number civil Z.pow.

(** ** The calendar *)
(** the calendar of dates is the calendar: it begins at 1970-01-01, every day is followed by the next one, and a date has
    its own year, month and day *)
Theorem C76_calendar : (forall z, civil (z + 1) = next_day (civil z) /\ valid_date (civil z)) /\ civil 0 = (1970, 1, 1)
  /\ (forall c, valid_date c -> civil (day_number c) = c).
Proof. split; [intros z; split; [apply civil_next|apply civil_valid]|]. split; [vm_compute; reflexivity|exact number_civil]. Qed.
Print Assumptions C76_calendar.
Theorem C76_parts : forall y m d, valid_date (y, m, d) -> 1 <= y <= 9999 ->
  year (date_of (y, m, d)) = Ok y /\ month (date_of (y, m, d)) = Ok m /\ day (date_of (y, m, d)) = Ok d.
Proof.
  intros y m d V Y. assert (A : as_object (d_value (date_of (y, m, d))) = Some (y, m, d)).
  { unfold as_object, date_of, new_date. cbn [d_value dt_unit dt_count moment atto]. rewrite Z.div_mul by lia. rewrite (number_civil _ V). cbn [fst rank].
    replace (1 <=? y) with true by (symmetry; apply Z.leb_le; lia). replace (y <=? 9999) with true by (symmetry; apply Z.leb_le; lia). reflexivity. }
  unfold year, month, day. rewrite A. repeat split.
Qed.
Print Assumptions C76_parts.

(** ** Sums *)
Lemma length_code x a : length_of x = Some a -> exists t, tcode x = Some t /\ atto t = Some a /\ 4 <= rank t <= 9.
Proof.
  unfold length_of. intros H.
  destruct (seqb x (u "h")) eqn:E1; [apply seqb_eq in E1; subst x; exists Uh; split; [vm_compute; reflexivity|split; [exact H|split; vm_compute; discriminate]]|].
  destruct (seqb x (u "s")) eqn:E2; [apply seqb_eq in E2; subst x; exists Us; split; [vm_compute; reflexivity|split; [exact H|split; vm_compute; discriminate]]|].
  destruct (seqb x (u "ms")) eqn:E3; [apply seqb_eq in E3; subst x; exists Ums; split; [vm_compute; reflexivity|split; [exact H|split; vm_compute; discriminate]]|].
  destruct (seqb x (u "us")) eqn:E4; [apply seqb_eq in E4; subst x; exists Uus; split; [vm_compute; reflexivity|split; [exact H|split; vm_compute; discriminate]]|].
  destruct (seqb x (u "ns")) eqn:E5; [apply seqb_eq in E5; subst x; exists Uns; split; [vm_compute; reflexivity|split; [exact H|split; vm_compute; discriminate]]|discriminate H].
Qed.
(** what is counted in [v] is a whole number of every finer unit *)
Lemma atto_divides t v at_ av : atto t = Some at_ -> atto v = Some av -> rank t <= rank v -> exists k, at_ = k * av /\ 0 < av.
Proof.
  intros A B H. destruct t, v; cbn in A, B, H; try discriminate A; try discriminate B; try lia; injection A as <-; injection B as <-;
    match goal with |- exists k, ?a = k * ?b /\ _ => let k := eval vm_compute in (a / b) in exists k end; (split; [vm_compute; reflexivity|vm_compute; reflexivity]).
Qed.
Lemma moment_linear a w : atto (dt_unit a) = Some w -> moment a = dt_count a * w.
Proof. unfold moment. destruct (dt_unit a); intros W; try discriminate W; rewrite W; reflexivity. Qed.
Lemma moment_divides a v av : atto v = Some av -> rank (dt_unit a) <= rank v -> 3 <= rank v -> exists k, moment a = k * av.
Proof.
  intros B H L. destruct (atto (dt_unit a)) as [w|] eqn:W.
  - destruct (atto_divides _ _ _ _ W B H) as (k & E & _). exists (dt_count a * k). rewrite (moment_linear a _ W), E. ring.
  - destruct (atto_divides UD v _ _ eq_refl B L) as (k & E & _). unfold moment. destruct (dt_unit a); try discriminate W; rewrite E; [exists (day_number (1970 + dt_count a, 1, 1) * k)|exists (day_number (1970 + dt_count a / 12, 1 + dt_count a mod 12, 1) * k)]; lia.
Qed.
Lemma finer_spec a b : rank (finer a b) = Z.max (rank a) (rank b) /\ (finer a b = a \/ finer a b = b).
Proof. unfold finer. destruct (Z.ltb_spec (rank a) (rank b)); split; try lia; auto. Qed.
Lemma atto_big v av : atto v = Some av -> rank v <= 9 -> 10 ^ 9 <= av.
Proof. intros B H. destruct v; cbn in B, H; try discriminate B; try lia; injection B as <-; vm_compute; discriminate. Qed.
Lemma fits_quot m av : near_1970 m -> 10 ^ 9 <= av -> forall k, m = k * av -> fits k = true.
Proof.
  intros (A & B) C k E. unfold fits. apply andb_true_iff. change (10 ^ 9) with 1000000000 in *. change (2 ^ 63) with 9223372036854775808 in *.
  split; apply Z.ltb_lt; nia.
Qed.
Lemma atto_some v : 2 <= rank v -> exists av, atto v = Some av.
Proof. destruct v; cbn; intros H; try lia; eexists; reflexivity. Qed.
Section Sums.
Context (over : Z -> res Z).
Lemma add_linear sub a t n at_ av : atto t = Some at_ -> atto (finer (dt_unit a) t) = Some av ->
  add_td over sub a (t, n) = rbind (int64 over (moment a / av)) (fun x => rbind (int64 over (n * at_ / av)) (fun y => rbind (int64 over (x + (if sub then - y else y))) (fun n => Ok (Dt (finer (dt_unit a) t) n)))).
Proof. intros A B. unfold add_td. cbn [fst snd]. destruct t; try discriminate A; cbv zeta; rewrite B, A; reflexivity. Qed.
(** a sum and a difference with a whole number of hours, seconds, ... is the date moved by exactly that time *)
Lemma moved sub d n x a : length_of x = Some a -> ordinary d ->
  near_1970 (moment (d_value d)) -> near_1970 (n * a) -> near_1970 (moment (d_value d) + (if (sub : bool) then - (n * a) else n * a)) ->
  exists r, date_add over sub d (OTime (PInt n) x) = Ok (Some r) /\ moment (d_value r) = moment (d_value d) + (if sub then - (n * a) else n * a)
    /\ ordinary r /\ d_name r = u "date" /\ (rank (dt_unit (d_value d)) <= 8 -> x <> u "ns" -> rank (dt_unit (d_value r)) <= 8).
Proof.
  intros Hx Od Nd Nt Nr. destruct (length_code x a Hx) as (t & Hc & Ha & Hr).
  set (v := finer (dt_unit (d_value d)) t). destruct (finer_spec (dt_unit (d_value d)) t) as (Rv & Cv). fold v in Rv, Cv.
  assert (Bv : exists av, atto v = Some av) by (apply atto_some; lia).
  destruct Bv as (av & Bv). unfold ordinary in Od. assert (R9 : rank v <= 9) by lia. pose proof (atto_big v av Bv R9) as Big.
  destruct (moment_divides (d_value d) v av Bv ltac:(lia) ltac:(lia)) as (k & Ek). destruct (atto_divides t v a av Ha Bv ltac:(lia)) as (j & Ej & Pv).
  assert (Fk : fits k = true) by exact (fits_quot _ av Nd Big k Ek).
  assert (En : n * a = n * j * av) by (rewrite Ej; ring). assert (Fj : fits (n * j) = true) by exact (fits_quot _ av Nt Big (n * j) En).
  assert (Fs : fits (k + (if sub then - (n * j) else n * j)) = true) by (apply (fits_quot _ av Nr Big); rewrite Ek, En; destruct sub; ring).
  assert (Fn : fits n = true). { unfold fits in *. apply andb_true_iff in Fj as (F1 & F2). apply Z.ltb_lt in F1, F2. apply andb_true_iff.
    assert (a > 0) by (pose proof (atto_big t a Ha ltac:(lia)); assert (0 < 10 ^ 9) by (vm_compute; reflexivity); lia).
    assert (0 < j) by (rewrite Ej in *; nia). split; apply Z.ltb_lt; nia. }
  exists (new_date (Dt v (k + (if sub then - (n * j) else n * j))) None). split.
  - cbn [date_add]. unfold timedelta. rewrite Hc, Fn. cbn [rbind].
    rewrite (add_linear sub (d_value d) t n a av Ha Bv). fold v. rewrite Ek, Z.div_mul by lia. unfold int64. rewrite Fk. cbn [rbind]. rewrite En, Z.div_mul by lia. rewrite Fj. cbn [rbind]. rewrite Fs. cbn [rbind]. reflexivity.
  - unfold new_date. cbn [d_value d_name]. split; [|split; [unfold ordinary; cbn [d_value dt_unit]; lia|split; [reflexivity|]]].
    + rewrite (moment_linear _ av) by exact Bv. cbn [dt_count]. rewrite Ek, En. destruct sub; ring.
    + cbn [dt_unit]. intros D8 Nx. rewrite Rv. assert (rank t <= 8); [|lia]. unfold length_of in Hx.
      destruct (seqb x (u "h")) eqn:E1; [apply seqb_eq in E1; subst x; vm_compute in Hc; injection Hc as <-; cbn; lia|].
      destruct (seqb x (u "s")) eqn:E2; [apply seqb_eq in E2; subst x; vm_compute in Hc; injection Hc as <-; cbn; lia|].
      destruct (seqb x (u "ms")) eqn:E3; [apply seqb_eq in E3; subst x; vm_compute in Hc; injection Hc as <-; cbn; lia|].
      destruct (seqb x (u "us")) eqn:E4; [apply seqb_eq in E4; subst x; vm_compute in Hc; injection Hc as <-; cbn; lia|].
      destruct (seqb x (u "ns")) eqn:E5; [apply seqb_eq in E5; contradiction|discriminate Hx].
Qed.
End Sums.
Theorem C76_moved_partial : forall over (sub : bool) d n x a, length_of x = Some a -> ordinary d ->
  let m := moment (d_value d) in let s := if sub then - (n * a) else n * a in
  near_1970 m -> near_1970 (n * a) -> near_1970 (m + s) ->
  exists r, date_add over sub d (OTime (PInt n) x) = Ok (Some r) /\ moment (d_value r) = m + s.
Proof. intros over sub d n x a Hx Od m s Nd Nt Nr. destruct (moved over sub d n x a Hx Od Nd Nt Nr) as (r & E & M & _). exists r. split; assumption. Qed.
Print Assumptions C76_moved_partial.
(** and back *)
Theorem C76_back_partial : forall over d n x a, length_of x = Some a -> ordinary d ->
  near_1970 (moment (d_value d)) -> near_1970 (n * a) -> near_1970 (moment (d_value d) + n * a) ->
  exists r r', date_add over false d (OTime (PInt n) x) = Ok (Some r) /\ date_add over true r (OTime (PInt n) x) = Ok (Some r') /\ moment (d_value r') = moment (d_value d).
Proof.
  intros over d n x a Hx Od Nd Nt Nr. destruct (moved over false d n x a Hx Od Nd Nt Nr) as (r & E & M & Or & _).
  destruct (moved over true r n x a Hx Or) as (r' & E' & M' & _); [rewrite M; exact Nr|exact Nt|rewrite M; replace (_ + _ + - _) with (moment (d_value d)) by ring; exact Nd|].
  exists r, r'. split; [exact E|]. split; [exact E'|]. rewrite M', M. ring.
Qed.
Print Assumptions C76_back_partial.
(** the calendar date of a sum: 24 hours times [n] after a date is the date [n] days later *)
Theorem C76_days_partial : forall over (sub : bool) c n, valid_date c ->
  let n' := if sub then - n else n in let c' := civil (day_number c + n') in let e := 86400 * 10 ^ 18 in
  near_1970 (day_number c * e) -> near_1970 (n * e) -> near_1970 ((day_number c + n') * e) -> 1 <= fst (fst c') <= 9999 ->
  exists r, date_add over sub (date_of c) (OTime (PInt (24 * n)) (u "h")) = Ok (Some r) /\ year r = Ok (fst (fst c')) /\ month r = Ok (snd (fst c')) /\ day r = Ok (snd c').
Proof.
  intros over sub c n V n' c' e N1 N2 N3 Y.
  assert (M0 : moment (d_value (date_of c)) = day_number c * e) by reflexivity.
  destruct (moved over sub (date_of c) (24 * n) (u "h") (3600 * 10 ^ 18) eq_refl) as (r & E & M & _ & _ & R).
  - unfold ordinary, date_of, new_date. cbn [d_value dt_unit rank]. lia.
  - rewrite M0. exact N1.
  - replace (24 * n * (3600 * 10 ^ 18)) with (n * e) by (unfold e; ring). exact N2.
  - rewrite M0. replace (_ + _) with ((day_number c + n') * e); [exact N3|unfold n', e; destruct sub; ring].
  - exists r. split; [exact E|]. rewrite M0 in M. replace (_ + _) with ((day_number c + n') * e) in M by (unfold n', e; destruct sub; ring).
    assert (A : as_object (d_value r) = Some c').
    { unfold as_object. rewrite M. unfold e. rewrite Z.div_mul by lia. fold c'.
      assert (K : rank (dt_unit (d_value r)) <= 8) by (apply R; [unfold date_of, new_date; cbn [d_value dt_unit rank]; lia|vm_compute; discriminate]).
      replace (rank (dt_unit (d_value r)) <=? 8) with true by (symmetry; apply Z.leb_le; exact K).
      replace (1 <=? fst (fst c')) with true by (symmetry; apply Z.leb_le; lia). replace (fst (fst c') <=? 9999) with true by (symmetry; apply Z.leb_le; lia). reflexivity. }
    unfold year, month, day. rewrite A. destruct c' as [[yy mm] dd]. repeat split.
Qed.
Print Assumptions C76_days_partial.

(** ** What a user would expect and is false *)
(** a date plus a day, a minute, a week, a month, a year raises: these are names of Time, but not NumPy's codes; so does a
    number that is not whole, as every converted Time is *)
Theorem C76_names_refuted : forall over sub d v, (forall x, In x [u "day"; u "days"; u "d"; u "min"; u "minute"; u "hour"; u "hr"; u "second"; u "sec"; u "week"; u "month"; u "year"] ->
    date_add over sub d (OTime v x) = Err TypeError) /\ (forall x, tcode x <> None -> date_add over sub d (OTime PFloat x) = Err ValueError).
Proof.
  intros over sub d v. split.
  - intros x H. cbn [date_add]. unfold timedelta. assert (T : tcode x = None) by (repeat (destruct H as [<-|H]; [vm_compute; reflexivity|]); destruct H). rewrite T. reflexivity.
  - intros x H. cbn [date_add]. unfold timedelta. destruct (tcode x); [reflexivity|congruence].
Qed.
Print Assumptions C76_names_refuted.
(** the difference of two dates is None, in silence; two dates cannot be compared nor shown *)
Theorem C76_two_refuted : forall over sub a b, date_add over sub a (ODate b) = Ok None /\ compare_dates a b = Err AttributeError /\ repr_date a = Err AttributeError.
Proof. intros. repeat split. Qed.
Print Assumptions C76_two_refuted.
(** after a nanosecond is added, a date has no year *)
Theorem C76_nano_refuted : forall over d n, ordinary d -> near_1970 (moment (d_value d)) -> near_1970 (n * 10 ^ 9) -> near_1970 (moment (d_value d) + n * 10 ^ 9) ->
  exists r, date_add over false d (OTime (PInt n) (u "ns")) = Ok (Some r) /\ year r = Err AttributeError.
Proof.
  intros over d n Od N1 N2 N3. destruct (moved over false d n (u "ns") (10 ^ 9) eq_refl Od N1 N2 N3) as (r & E & _). exists r. split; [exact E|].
  assert (R : rank (dt_unit (d_value r)) = 9).
  { revert E. cbn [date_add]. unfold timedelta. replace (tcode (u "ns")) with (Some Uns) by (vm_compute; reflexivity). destruct (fits n); [|intros E; discriminate E]. cbn [rbind]. unfold add_td. cbn [fst snd].
    set (v := finer (dt_unit (d_value d)) Uns). assert (Rv : rank v = 9) by (destruct (finer_spec (dt_unit (d_value d)) Uns) as (X & _); fold v in X; unfold ordinary in Od; cbn in X; lia).
    destruct (atto v); [|intros E; discriminate E]. cbn [atto]. destruct (int64 over _); [|intros E; discriminate E]. cbn [rbind]. destruct (int64 over _); [|intros E; discriminate E]. cbn [rbind].
    destruct (int64 over _); [|intros E; discriminate E]. cbn [rbind]. intros E. injection E as <-. exact Rv. }
  unfold year, as_object. rewrite R. reflexivity.
Qed.
Print Assumptions C76_nano_refuted.

(** the hypotheses are met: 48 hours after 2024-02-28 is 2024-03-01 *)
Example C76_example : valid_date (2024, 2, 28) /\ near_1970 (day_number (2024, 2, 28) * (86400 * 10 ^ 18)) /\ near_1970 (2 * (86400 * 10 ^ 18)) /\ near_1970 ((day_number (2024, 2, 28) + 2) * (86400 * 10 ^ 18))
  /\ civil (day_number (2024, 2, 28) + 2) = (2024, 3, 1) /\ ordinary (date_of (2024, 2, 28)).
Proof. unfold near_1970, ordinary. split; [vm_compute; intuition discriminate|]. split; [vm_compute; split; reflexivity|]. split; [vm_compute; split; reflexivity|]. split; [vm_compute; split; reflexivity|]. split; [vm_compute; reflexivity|vm_compute; discriminate]. Qed.
