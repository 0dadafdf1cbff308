(** * The moving text *)
From Coq Require Import String.
From Verif Require Import Py StrTools StrFacts StrFacts2 Caster Gui GuiSpec GuiFacts GuiFacts2.

Section GuiFacts3.
Context {num W : Type} (K : kit num W) (S : sane K).
Notation win := (win W).
Local Opaque get_side text_of u.

(** ** At most one timer *)
Definition one (g : win) : Prop := forall i, In i (pending g) -> marquee g = Some i.
Definition inv (g : win) : Prop := one g /\ (print_path_ K (engine g) = false -> pending g = []).
Lemma cancel_none g : one g -> pending (after_cancel g) = [] /\ engine (after_cancel g) = engine g /\ marquee (after_cancel g) = marquee g.
Proof.
  intros H. unfold after_cancel. destruct (marquee g) as [i|] eqn:E; cbn [set_timers pending engine marquee].
  - split; [|split; [reflexivity|reflexivity]]. assert (A : forall l, (forall j, In j l -> j = i) -> filter (fun j => negb (Nat.eqb j i)) l = []).
    { induction l as [|j l IH]; intros Hl; [reflexivity|]. cbn [filter]. rewrite (Hl j (or_introl eq_refl)), Nat.eqb_refl. cbn [negb]. apply IH. intros k Hk. apply Hl. now right. }
    apply A. intros j Hj. specialize (H j Hj). rewrite E in H. now injection H.
  - split; [|split; [reflexivity|exact E]]. destruct (pending g) as [|j l] eqn:P; [reflexivity|]. specialize (H j). rewrite P, E in H. discriminate (H (or_introl eq_refl)).
Qed.
Lemma display_error g e : one g -> e <> [] -> pending (display_path K g e) = [] /\ engine (display_path K g e) = engine g.
Proof. intros H He. unfold display_path. destruct e as [|c e]; [congruence|]. destruct (cancel_none g H) as (P & E & _). split; [exact P|exact E]. Qed.
Lemma display_inv g : one g -> (print_path_ K (engine g) = false -> pending g = []) -> pending g = [] \/ (length (last_path K (engine g)) < 53)%nat -> inv (display_path K g []).
Proof.
  intros H1 H2 H. unfold display_path. cbv zeta. destruct (negb _ && _) eqn:B; [|split; [exact H1|exact H2]].
  destruct (length (last_path K (engine g)) <? max_len)%nat eqn:L; [split; [exact H1|exact H2]|].
  apply Nat.ltb_ge in L. unfold max_len in L. destruct H as [H|H]; [|lia]. apply andb_true_iff in B as [_ B]. split.
  - intros i Hi. cbn [after set_timers pending set_path set_scroll next_id marquee] in *. rewrite H in Hi. destruct Hi as [->|[]]. reflexivity.
  - intros Hp. cbn [after set_timers engine set_path set_scroll] in Hp. congruence.
Qed.
Lemma none_inv g : pending g = [] -> inv g.
Proof. intros H. split; [intros i Hi; rewrite H in Hi; destruct Hi|intros _; exact H]. Qed.
Lemma none_one g : pending g = [] -> one g. Proof. intros H. exact (proj1 (none_inv g H)). Qed.
Lemma write_pending b g p : pending (write_side K b g p) = pending g. Proof. destruct b; reflexivity. Qed.
Lemma convert_inv d g a b : pending g = [] -> inv (do_convert K d g a b) /\ (red (do_convert K d g a b) = true -> pending (do_convert K d g a b) = []).
Proof.
  intros H. destruct (convert K (snd a) (fst a) (fst b) (if again g then Some false else None) (engine g)) as [[r|e] w] eqn:E.
  - rewrite (convert_ok K d g a b r w E). set (g2 := write_side K (negb d) _ (fst b, r)). assert (P2 : pending g2 = []) by (unfold g2; rewrite write_pending; cbn [set_engine pending]; rewrite write_pending; exact H). split.
    + destruct (display_inv g2 (none_one g2 P2) (fun _ => P2) (or_introl P2)) as (I1 & I2). split; [exact I1|exact I2].
    + intros R. exfalso. change (red (display_path K g2 []) = true) in R. rewrite display_ok in R. discriminate R.
  - rewrite (convert_err K d g a b e w E). set (g1 := set_engine _ w). assert (P1 : pending g1 = []) by (unfold g1; cbn [set_engine pending]; rewrite write_pending; exact H).
    destruct (display_error g1 (message e) (none_one g1 P1) (message_some e)) as (P2 & _). set (h := display_path K g1 (message e)) in *. clearbody h.
    destruct (match e with NoConversionFoundError => true | _ => false end); split; try (apply none_inv); try intros _; exact P2.
Qed.
Lemma calculate_inv fuel : forall fwd g, inv g -> inv (snd (calculate K fuel fwd g)) /\ (fuel <> O -> red (snd (calculate K fuel fwd g)) = true -> pending (snd (calculate K fuel fwd g)) = []).
Proof.
  induction fuel as [|fuel IH]; intros fwd g I; [split; [exact I|congruence]|]. cbn [calculate].
  pose proof space_some as Sp.
  destruct (display_error g (u " ") (proj1 I) Sp) as (P0 & E0). set (g0 := display_path K g (u " ")) in *. clearbody g0.
  destruct (read_side K fwd g0) as [a|e]; [|split; [exact (none_inv g0 P0)|intros _ _; exact P0]].
  set (g1 := write_side K fwd g0 a). assert (P1 : pending g1 = []) by (unfold g1; now rewrite write_pending).
  destruct (read_side K (negb fwd) g1) as [b|e]; [|split; [exact (none_inv g1 P1)|intros _ _; exact P1]].
  set (g2 := write_side K (negb fwd) g1 b). assert (P2 : pending g2 = []) by (unfold g2; now rewrite write_pending).
  destruct (all_none a b); [split; [exact (none_inv (set_boxes g2 [] [] [] []) P2)|intros _ _; exact P2]|].
  destruct (is_blank (snd a) && is_numeric K (snd b)).
  - destruct (IH (negb fwd) g2 (none_inv g2 P2)) as (I1 & I2). split; [exact I1|]. intros _ R. destruct fuel as [|fuel]; [exact P2|]. apply I2; [discriminate|exact R].
  - destruct (convert_inv fwd g2 a b P2) as (I1 & I2). split; [exact I1|]. intros _ R. exact (I2 R).
Qed.
Lemma fire_none g i : one g -> In i (pending g) -> filter (fun j => negb (Nat.eqb j i)) (pending g) = [].
Proof.
  intros H Hi. assert (A : forall l, (forall j, In j l -> j = i) -> filter (fun j => negb (Nat.eqb j i)) l = []).
  { induction l as [|j l IH]; intros Hl; [reflexivity|]. cbn [filter]. rewrite (Hl j (or_introl eq_refl)), Nat.eqb_refl. cbn [negb]. apply IH. intros k Hk. apply Hl. now right. }
  apply A. intros j Hj. pose proof (H j Hj) as E1. pose proof (H i Hi) as E2. congruence.
Qed.
Lemma fire_long g i : (53 <= length (last_path K (engine g)))%nat ->
  exists f d, partial_msg K g i = after (set_scroll (set_path (set_timers g (marquee g) (filter (fun j => negb (Nat.eqb j i)) (pending g)) (next_id g)) (firstn 53 (skipn (first_char g) (last_path K (engine g)))) (red g)) f (msg_len g) d)
    /\ (f, d) = if msg_dir g then (if (first_char g + 53 <? msg_len g)%nat then (Datatypes.S (first_char g), true) else (first_char g, false))
                else (if (0 <? first_char g)%nat then (Nat.pred (first_char g), false) else (first_char g, true)).
Proof.
  intros L. unfold partial_msg. cbv zeta. cbn [set_timers engine first_char msg_dir msg_len set_path red marquee].
  assert (E : (length (last_path K (engine g)) <? max_len)%nat = false) by (apply Nat.ltb_ge; exact L). rewrite E. fold max_len.
  destruct (msg_dir g); [destruct (first_char g + max_len <? msg_len g)%nat|destruct (0 <? first_char g)%nat]; eexists; eexists; split; reflexivity.
Qed.
Lemma fire_short g i : (length (last_path K (engine g)) < 53)%nat -> one g -> In i (pending g) ->
  path_str (partial_msg K g i) = last_path K (engine g) /\ pending (partial_msg K g i) = [] /\ engine (partial_msg K g i) = engine g.
Proof.
  intros L H Hi. unfold partial_msg. cbv zeta. cbn [set_timers engine]. assert (E : (length (last_path K (engine g)) <? max_len)%nat = true) by (apply Nat.ltb_lt; exact L). rewrite E.
  rewrite (fire_none g i H Hi). destruct (cancel_none (set_timers g (marquee g) [] (next_id g)) (none_one (set_timers g (marquee g) [] (next_id g)) eq_refl)) as (P & En & _).
  split; [reflexivity|]. split; [exact P|exact En].
Qed.
Lemma fire_inv g i : inv g -> In i (pending g) -> inv (partial_msg K g i).
Proof.
  intros (H1 & H2) Hi. destruct (le_lt_dec 53 (length (last_path K (engine g)))) as [L|L].
  - destruct (fire_long g i L) as (f & d & E & _). rewrite E, (fire_none g i H1 Hi). split.
    + intros j Hj. cbn [after set_timers set_scroll set_path pending next_id marquee] in *. destruct Hj as [->|[]]. reflexivity.
    + intros Hp. cbn [after set_timers set_scroll set_path engine] in Hp. rewrite (H2 Hp) in Hi. destruct Hi.
  - destruct (fire_short g i L H1 Hi) as (_ & P & _). exact (none_inv _ P).
Qed.
Lemma event_inv g e : inv g -> short_message e -> inv (happens K g e).
Proof.
  intros I He. destruct e as [fu fv tu tv|b| | |i| |x|x|c x]; cbn [happens].
  - exact I.
  - exact I.
  - exact (proj1 (calculate_inv 2 true g I)).
  - exact (proj1 (calculate_inv 2 false g I)).
  - destruct (existsb (Nat.eqb i) (pending g)) eqn:B; [|exact I]. apply existsb_exists in B as (j & Hj & Ej). apply Nat.eqb_eq in Ej. subst j. exact (fire_inv g i I Hj).
  - unfold menu_print_path. cbv zeta. set (g1 := set_engine g _). assert (E1 : print_path_ K (engine g1) = negb (print_path_ K (engine g))) by (unfold g1; apply (set_path_get K S)).
    rewrite E1. destruct (print_path_ K (engine g)) eqn:P; cbn [negb].
    + apply none_inv. apply display_error; [exact (proj1 I)|exact space_some].
    + assert (P1 : pending g1 = []) by (exact (proj2 I P)). apply display_inv; [exact (none_one g1 P1)|intros _; exact P1|left; exact P1].
  - set (g1 := set_engine g _). assert (E1 : print_path_ K (engine g1) = print_path_ K (engine g)) by (unfold g1; apply (set_last_keeps K S)).
    apply display_inv; [exact (proj1 I)|rewrite E1; exact (proj2 I)|]. right. unfold g1. cbn [set_engine engine]. rewrite (set_last_get K S). exact He.
  - split; [exact (proj1 I)|]. cbn [set_engine engine pending]. rewrite (set_last_keeps K S). exact (proj2 I).
  - apply none_inv. apply display_error; [exact (proj1 I)|discriminate].
Qed.
Lemma history_inv g l : inv g -> (forall e, In e l -> short_message e) -> inv (after_all K g l).
Proof.
  revert g. induction l as [|e l IH]; intros g I H; [exact I|]. cbn [after_all fold_left]. apply IH; [|intros e' He'; apply H; now right].
  apply event_inv; [exact I|apply H; now left].
Qed.
Lemma opened_inv g : opened g -> inv g.
Proof. intros (P & _). exact (none_inv g P). Qed.

(** ** All of a long path is shown *)
Definition live (g : win) (p : str) : Prop :=
  exists i, marquee g = Some i /\ In i (pending g) /\ last_path K (engine g) = p /\ msg_len g = length p.
Definition step (l f : nat) (d : bool) : nat * bool :=
  if d then (if (f + 53 <? l)%nat then (Datatypes.S f, true) else (f, false)) else (if (0 <? f)%nat then (Nat.pred f, false) else (f, true)).
Lemma tick_step g p : live g p -> (53 <= length p)%nat ->
  live (ticks K 1 g) p /\ path_str (ticks K 1 g) = firstn 53 (skipn (first_char g) p) /\ (first_char (ticks K 1 g), msg_dir (ticks K 1 g)) = step (length p) (first_char g) (msg_dir g).
Proof.
  intros (i & Hm & Hi & Hp & Hl) L. cbn [ticks]. rewrite Hm. cbn [happens]. replace (existsb (Nat.eqb i) (pending g)) with true.
  2:{ symmetry. apply existsb_exists. exists i. split; [exact Hi|apply Nat.eqb_refl]. }
  destruct (fire_long g i) as (f & d & E & Efd); [rewrite Hp; exact L|]. rewrite E. cbn [after set_timers set_scroll set_path].
  split; [|split].
  - exists (next_id g). split; [reflexivity|]. split; [now left|]. split; [exact Hp|exact Hl].
  - cbn [path_str]. now rewrite Hp.
  - cbn [first_char msg_dir]. rewrite Hl in Efd. exact Efd.
Qed.
Lemma ticks_stuck n g : marquee g = None -> ticks K n g = g.
Proof. intros H. destruct n; [reflexivity|]. cbn [ticks]. now rewrite H. Qed.
Lemma ticks_add n m g : ticks K (n + m) g = ticks K m (ticks K n g).
Proof.
  revert g. induction n as [|n IH]; intros g; [reflexivity|]. cbn [ticks Nat.add]. destruct (marquee g) eqn:E; [apply IH|]. now rewrite ticks_stuck.
Qed.
Lemma down g p f : live g p -> (53 <= length p)%nat -> first_char g = f -> msg_dir g = false -> exists n, live (ticks K n g) p /\ first_char (ticks K n g) = O /\ msg_dir (ticks K n g) = true.
Proof.
  revert g. induction f as [|f IH]; intros g Hl L Hf Hd; destruct (tick_step g p Hl L) as (Hl' & _ & E); rewrite Hf, Hd in E; remember (ticks K 1 g) as t eqn:Ht;
    cbn [step Nat.ltb Nat.leb Nat.pred] in E.
  - exists 1%nat. rewrite <- Ht. injection E as E1 E2. auto.
  - injection E as E1 E2. destruct (IH _ Hl' L E1 E2) as (n & H). exists (1 + n)%nat. rewrite ticks_add, <- Ht. exact H.
Qed.
Lemma up g p k : live g p -> (53 <= length p)%nat -> msg_dir g = true -> (first_char g + k + 53 <= length p)%nat ->
  live (ticks K k g) p /\ first_char (ticks K k g) = (first_char g + k)%nat /\ msg_dir (ticks K k g) = true.
Proof.
  revert g. induction k as [|k IH]; intros g Hl L Hd Hk; [cbn [ticks]; rewrite Nat.add_0_r; auto|].
  destruct (tick_step g p Hl L) as (Hl' & _ & E). rewrite Hd in E. change (Datatypes.S k) with (1 + k)%nat. rewrite ticks_add. remember (ticks K 1 g) as t eqn:Ht. cbn [step] in E.
  replace (first_char g + 53 <? length p)%nat with true in E by (symmetry; apply Nat.ltb_lt; lia).
  injection E as E1 E2. destruct (IH _ Hl' L E2) as (A & B & C); [rewrite E1; lia|]. split; [exact A|]. split; [rewrite B, E1; lia|exact C].
Qed.
Lemma home g p : live g p -> (53 <= length p)%nat -> exists n, live (ticks K n g) p /\ first_char (ticks K n g) = O /\ msg_dir (ticks K n g) = true.
Proof.
  intros Hl L. destruct (msg_dir g) eqn:Hd; [|exact (down g p _ Hl L eq_refl Hd)].
  set (k := (length p - 53 - first_char g)%nat).
  assert (U : live (ticks K k g) p /\ (first_char (ticks K k g) + 53 <? length p)%nat = false /\ msg_dir (ticks K k g) = true).
  { destruct (le_lt_dec (first_char g + 53) (length p)) as [B|B].
    - destruct (up g p k Hl L Hd) as (A & C & D); [unfold k; lia|]. split; [exact A|]. split; [rewrite C; apply Nat.ltb_ge; unfold k; lia|exact D].
    - replace k with O by (unfold k; lia). split; [exact Hl|]. split; [apply Nat.ltb_ge; cbn [ticks]; lia|exact Hd]. }
  destruct U as (A & B & C). destruct (tick_step _ p A L) as (A' & _ & E). rewrite C in E. remember (ticks K 1 (ticks K k g)) as t eqn:Ht. cbn [step] in E. rewrite B in E. injection E as E1 E2.
  destruct (down _ p _ A' L eq_refl E2) as (n & H). exists (k + (1 + n))%nat. rewrite !ticks_add, <- Ht. exact H.
Qed.
Lemma all_windows g p k : live g p -> (k + 53 <= length p)%nat -> exists n, path_str (ticks K n g) = firstn 53 (skipn k p) /\ last_path K (engine (ticks K n g)) = p.
Proof.
  intros Hl L. destruct (home g p Hl ltac:(lia)) as (n & A & B & C). destruct (up _ p k A ltac:(lia) C) as (D & E & _); [rewrite B; lia|].
  destruct (tick_step _ p D ltac:(lia)) as (Lv & Ps & _). exists (n + (k + 1))%nat. rewrite !ticks_add. split; [rewrite Ps, E, B; reflexivity|]. destruct Lv as (i & _ & _ & Hp & _). exact Hp.
Qed.
(** a successful conversion starts it *)
Lemma success_live fwd g : inv g -> red (snd (calculate K 2 fwd g)) = false -> print_path_ K (engine (snd (calculate K 2 fwd g))) = true ->
  (53 <= length (last_path K (engine (snd (calculate K 2 fwd g)))))%nat -> live (snd (calculate K 2 fwd g)) (last_path K (engine (snd (calculate K 2 fwd g)))).
Proof.
  intros I. destruct (ends K S 0 fwd g) as (g2 & R2 & E2 & A2 & [C|(d & a & b & U & V & C)]); rewrite C; cbn [snd]; intros R P L.
  - exfalso. change (red g2 = false) in R. congruence.
  - revert R P L. destruct (convert K (snd a) (fst a) (fst b) (if again g2 then Some false else None) (engine g2)) as [[r|e] w] eqn:E.
    + rewrite (convert_ok K d g2 a b r w E). set (g4 := write_side K (negb d) _ (fst b, r)). cbn [set_again red engine]. intros _.
      destruct (display_boxes K g4 []) as (_ & _ & _ & _ & De & _). rewrite De. intros P L. unfold display_path. cbv zeta.
      rewrite P. assert (N : seqb (last_path K (engine g4)) [] = false) by (destruct (last_path K (engine g4)); [cbn in L; lia|reflexivity]). rewrite N. cbn [negb andb].
      assert (Lt : (length (last_path K (engine g4)) <? max_len)%nat = false) by (apply Nat.ltb_ge; exact L). rewrite Lt.
      exists (next_id g4). split; [reflexivity|]. split; [now left|]. split; reflexivity.
    + rewrite (convert_err K d g2 a b e w E). set (g1 := set_engine _ w).
      destruct (display_red K g1 (message e) (message_some e)) as (Rd & _). intros R. exfalso.
      destruct (match e with NoConversionFoundError => true | _ => false end); [|cbn [set_again red] in R]; congruence.
Qed.
End GuiFacts3.
