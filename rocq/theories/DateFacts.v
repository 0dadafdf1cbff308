(** * The calendar of the model is the calendar *)
From Coq Require Import String ZArith List Lia Bool.
From Verif Require Import Py DatesSpec Dates.
Local Open Scope Z_scope.
Ltac Zify.zify_post_hook ::= Z.to_euclidean_division_equations.
(** the days before the first of March of a year *)
Definition ystart (y : Z) : Z := 365 * y + y / 4 - y / 100 + y / 400.
(** the days before a month, from March *)
Definition mstart (m : Z) : Z := (153 * m + 2) / 5.
Definition ylen (y : Z) : Z := ystart (y + 1) - ystart y.
Lemma leap_spec y : leap y = true <-> (y mod 4 = 0 /\ y mod 100 <> 0) \/ y mod 400 = 0.
Proof. unfold leap. rewrite orb_true_iff, andb_true_iff, negb_true_iff, !Z.eqb_eq, Z.eqb_neq. tauto. Qed.
Lemma ylen_spec y : ylen y = if leap (y + 1) then 366 else 365.
Proof. unfold ylen, ystart. destruct (leap (y + 1)) eqn:L; [apply leap_spec in L; lia|]. assert (N : ~ leap (y + 1) = true) by congruence. rewrite leap_spec in N. lia. Qed.
Lemma ystart_mono a b : a <= b -> ystart a <= ystart b.
Proof. unfold ystart. lia. Qed.
Lemma year_unique a b x y : ystart a + x = ystart b + y -> 0 <= x < ylen a -> 0 <= y < ylen b -> a = b /\ x = y.
Proof.
  intros E X Y. destruct (Z.lt_trichotomy a b) as [L|[L|L]].
  - pose proof (ystart_mono (a + 1) b ltac:(lia)). unfold ylen in *. lia.
  - subst. lia.
  - pose proof (ystart_mono (b + 1) a ltac:(lia)). unfold ylen in *. lia.
Qed.
Definition yof (m y : Z) : Z := if m <=? 2 then y - 1 else y.
Definition mof (m : Z) : Z := if m <=? 2 then m + 9 else m - 3.
Lemma day_number_eq y m d : day_number (y, m, d) = ystart (yof m y) + (mstart (mof m) + (d - 1)) - 719468.
Proof. unfold day_number, ystart, yof, mof, mstart. destruct (m <=? 2); lia. Qed.
Lemma month_cases m : 1 <= m <= 12 -> m = 1 \/ m = 2 \/ m = 3 \/ m = 4 \/ m = 5 \/ m = 6 \/ m = 7 \/ m = 8 \/ m = 9 \/ m = 10 \/ m = 11 \/ m = 12. Proof. lia. Qed.
Ltac consts := repeat match goal with
  | |- context [mof ?a] => let v := eval vm_compute in (mof a) in change (mof a) with v
  | |- context [mstart (?a + ?b)] => let v := eval vm_compute in (mstart (a + b)) in change (mstart (a + b)) with v
  | |- context [mstart ?a] => let v := eval vm_compute in (mstart a) in change (mstart a) with v
  end; cbv [yof Z.leb Z.compare Pos.compare Pos.compare_cont].
Lemma month_room y m d : valid_date (y, m, d) -> 0 <= mof m <= 11 /\ mstart (mof m) <= mstart (mof m) + (d - 1) < mstart (mof m + 1) /\ mstart (mof m) + (d - 1) < ylen (yof m y).
Proof.
  intros ((M1 & M2) & D1 & D2). rewrite ylen_spec. destruct (month_cases m (conj M1 M2)) as [->|[->|[->|[->|[->|[->|[->|[->|[->|[->|[->| ->]]]]]]]]]]];
    cbv [month_length Z.eqb Pos.eqb orb] in D2; consts.
  2:{ replace (y - 1 + 1) with y by lia. destruct (leap y) eqn:L; lia. }
  all: match goal with |- context [leap ?a] => destruct (leap a) end; lia.
Qed.
Lemma month_unique a x b y : mstart a <= x < mstart (a + 1) -> mstart b <= y < mstart (b + 1) -> x = y -> a = b.
Proof. unfold mstart. lia. Qed.
Lemma valid_unique c c' : valid_date c -> valid_date c' -> day_number c = day_number c' -> c = c'.
Proof.
  destruct c as [[y m] d], c' as [[y' m'] d']. intros V V' E. rewrite !day_number_eq in E.
  destruct (month_room _ _ _ V) as (A & B & C). destruct (month_room _ _ _ V') as (A' & B' & C').
  assert (P : 0 <= mstart (mof m)) by (unfold mstart; lia). assert (P' : 0 <= mstart (mof m')) by (unfold mstart; lia).
  destruct (year_unique (yof m y) (yof m' y') (mstart (mof m) + (d - 1)) (mstart (mof m') + (d' - 1))) as (Ey & Ex); [lia|lia|lia|].
  pose proof (month_unique _ _ _ _ B B' Ex) as Em. rewrite Em in Ex. destruct V as ((V1 & V2) & _), V' as ((V1' & V2') & _).
  assert (m = m') by (unfold mof in Em; destruct (Z.leb_spec m 2), (Z.leb_spec m' 2); lia). subst m'. unfold yof in Ey. destruct (m <=? 2); f_equal; try f_equal; lia.
Qed.
(** the parts of [civil] *)
Lemma year_parts doe c q a : 0 <= doe < 146097 -> c = Z.min 3 (doe / 36524) -> q = (doe - 36524 * c) / 1461 -> a = Z.min 3 ((doe - 36524 * c - 1461 * q) / 365) ->
  let doy := doe - 36524 * c - 1461 * q - 365 * a in
  0 <= c <= 3 /\ 0 <= q <= 24 /\ 0 <= a <= 3 /\ 0 <= doy <= 365 /\ (doy = 365 -> a = 3 /\ (q < 24 \/ c = 3)).
Proof. intros H -> Hq Ha. cbv zeta. destruct (Z.min_spec 3 (doe / 36524)) as [[A B]|[A B]]; rewrite B in *; destruct (Z.min_spec 3 ((doe - 36524 * Z.min 3 (doe / 36524) - 1461 * q) / 365)) as [[A2 B2]|[A2 B2]]; rewrite ?B in *; subst; lia. Qed.
Lemma ystart_parts e c q a : 0 <= c <= 3 -> 0 <= q <= 24 -> 0 <= a <= 3 -> ystart (400 * e + 100 * c + 4 * q + a) = 146097 * e + 36524 * c + 1461 * q + 365 * a.
Proof. unfold ystart. lia. Qed.
Lemma leap_parts e c q a : 0 <= c <= 3 -> 0 <= q <= 24 -> a = 3 -> q < 24 \/ c = 3 -> leap (400 * e + 100 * c + 4 * q + a + 1) = true.
Proof. intros. apply leap_spec. lia. Qed.
Lemma month_fits m' doy y : 0 <= m' <= 11 -> mstart m' <= doy < mstart (m' + 1) -> doy <= 365 -> (doy = 365 -> leap (y + 1) = true) ->
  let m := if m' <? 10 then m' + 3 else m' - 9 in doy - mstart m' + 1 <= month_length (if m <=? 2 then y + 1 else y) m.
Proof.
  intros Hm Hms H5 Hl m.
  assert (K : m' = 0 \/ m' = 1 \/ m' = 2 \/ m' = 3 \/ m' = 4 \/ m' = 5 \/ m' = 6 \/ m' = 7 \/ m' = 8 \/ m' = 9 \/ m' = 10 \/ m' = 11) by lia.
  revert m Hms. destruct K as [->|[->|[->|[->|[->|[->|[->|[->|[->|[->|[->| ->]]]]]]]]]]];
    match goal with |- let m := ?b in _ => let v := eval vm_compute in b in change b with v end; intros m; subst m; consts; cbv [month_length Z.eqb Pos.eqb orb]; intros Hms; try lia.
  destruct (leap (y + 1)) eqn:L; [lia|]. assert (doy <> 365); [|lia]. intros E. discriminate (Hl E).
Qed.
Lemma civil_good z : valid_date (civil z) /\ day_number (civil z) = z.
Proof.
  unfold civil. cbv zeta. set (w := z + 719468). set (era := w / 146097). set (doe := w mod 146097). set (c := Z.min 3 (doe / 36524)). set (q := (doe - 36524 * c) / 1461).
  set (a := Z.min 3 ((doe - 36524 * c - 1461 * q) / 365)). set (doy := doe - 36524 * c - 1461 * q - 365 * a). set (m' := (5 * doy + 2) / 153).
  assert (Hd : 0 <= doe < 146097) by (apply Z.mod_pos_bound; lia). assert (Hw : w = 146097 * era + doe) by (apply Z.div_mod; lia).
  destruct (year_parts doe c q a Hd eq_refl eq_refl eq_refl) as (Hc & Hq & Ha & Hy & Hl). fold doy in Hy, Hl.
  pose proof (ystart_parts era c q a Hc Hq Ha) as Ys. pose proof (fun A B => leap_parts era c q a Hc Hq A B) as Lp.
  set (y := 400 * era + 100 * c + 4 * q + a) in *.
  assert (Hm : 0 <= m' <= 11) by (unfold m'; lia). assert (Hms : mstart m' <= doy < mstart (m' + 1)) by (unfold m', mstart; lia).
  set (m := if m' <? 10 then m' + 3 else m' - 9). assert (M : 1 <= m <= 12) by (unfold m; destruct (Z.ltb_spec m' 10); lia).
  assert (Em : mof m = m') by (unfold mof, m; destruct (Z.ltb_spec m' 10); [destruct (Z.leb_spec (m' + 3) 2)|destruct (Z.leb_spec (m' - 9) 2)]; lia).
  set (yy := if m <=? 2 then y + 1 else y). assert (Ey : yof m yy = y) by (unfold yof, yy; destruct (m <=? 2); lia).
  split; [|rewrite day_number_eq, Ey, Em; fold (mstart m'); lia].
  split; [exact M|]. fold (mstart m'). split; [lia|]. apply (month_fits m' doy y Hm Hms); [lia|].
  intros E. destruct (Hl E) as (A & B). exact (Lp A B).
Qed.
Theorem civil_valid z : valid_date (civil z). Proof. apply civil_good. Qed.
Theorem civil_number z : day_number (civil z) = z. Proof. apply civil_good. Qed.
Theorem number_civil c : valid_date c -> civil (day_number c) = c.
Proof. intros V. apply valid_unique; [apply civil_valid|exact V|apply civil_number]. Qed.
Lemma next_valid c : valid_date c -> valid_date (next_day c) /\ day_number (next_day c) = day_number c + 1.
Proof.
  destruct c as [[y m] d]. intros V. pose proof V as ((M1 & M2) & D1 & D2). unfold next_day.
  destruct (Z.ltb_spec d (month_length y m)) as [L|L]; [split; [cbn; lia|rewrite !day_number_eq; lia]|].
  assert (E : d = month_length y m) by lia. destruct (Z.ltb_spec m 12) as [L2|L2].
  - split; [split; [lia|]; split; [lia|]; unfold month_length; destruct (m + 1 =? 2); [destruct (leap y); lia|]; destruct ((m + 1 =? 4) || (m + 1 =? 6) || (m + 1 =? 9) || (m + 1 =? 11)); lia|].
    rewrite !day_number_eq. pose proof (ylen_spec (y - 1)) as YL. replace (y - 1 + 1) with y in YL by lia. unfold ylen in YL. replace (y - 1 + 1) with y in YL by lia. subst d. clear D1 D2 L V.
    destruct (month_cases m (conj M1 M2)) as [->|[->|[->|[->|[->|[->|[->|[->|[->|[->|[->| ->]]]]]]]]]]]; repeat match goal with |- context [Z.add (Zpos ?a) 1] => let v := eval vm_compute in (Z.add (Zpos a) 1) in change (Z.add (Zpos a) 1) with v end; consts; cbv [month_length Z.eqb Pos.eqb orb]; try lia.
    destruct (leap y); lia.
  - assert (m = 12) by lia. subst m. split; [split; [lia|]; split; [lia|]; unfold month_length; cbn; lia|].
    rewrite !day_number_eq. cbv [month_length Z.eqb Pos.eqb orb] in E. consts. replace (y + 1 - 1) with y by lia. lia.
Qed.
Theorem civil_next z : civil (z + 1) = next_day (civil z).
Proof.
  destruct (next_valid _ (civil_valid z)) as (V & N). rewrite civil_number in N. rewrite <- N. exact (number_civil _ V).
Qed.
