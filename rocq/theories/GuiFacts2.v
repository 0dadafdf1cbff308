(** * What the window shows after a request *)
From Coq Require Import String.
From Verif Require Import Py StrTools StrFacts StrFacts2 Caster Gui GuiSpec GuiFacts.

Lemma space_some : u " " <> []. Proof. discriminate. Qed.
Lemma message_some e : message e <> [].
Proof. intros E. apply (f_equal (@length _)) in E. destruct e; discriminate E. Qed.

Section GuiFacts2.
Context {num W : Type} (K : kit num W) (S : sane K).
Notation win := (win W).
Local Opaque get_side display_path text_of u.

Lemma unit_swap b (g : win) : unit_box b (swap g) = unit_box (negb b) g. Proof. destruct b; reflexivity. Qed.
Lemma value_swap b (g : win) : value_box b (swap g) = value_box (negb b) g. Proof. destruct b; reflexivity. Qed.
Lemma shows fwd g a b :
  let r := convert K (snd a) (fst a) (fst b) (if again g then Some false else None) (engine g) in
  let h := do_convert K fwd g a b in
  unit_box fwd h = unit_box fwd g /\ value_box fwd h = value_box fwd g /\ unit_box (negb fwd) h = text_of K (fst b) /\ value_box (negb fwd) h = answer K (fst r) /\ engine h = snd r /\
  match fst r with
  | Ok _ => red h = false /\ again h = false
  | Err e => red h = true /\ path_str h = message e /\ (e <> NoConversionFoundError -> again h = true)
  end.
Proof.
  destruct fwd; [exact (convert_shows K g a b)|]. cbv zeta. pose proof (convert_shows K (swap g) a b) as H. cbv zeta in H.
  rewrite (convert_swap K true g a b) in H. cbn [negb] in H. exact H.
Qed.
Lemma convert_err d g a b e w : convert K (snd a) (fst a) (fst b) (if again g then Some false else None) (engine g) = (Err e, w) ->
  do_convert K d g a b = (if match e with NoConversionFoundError => true | _ => false end then display_path K (set_engine (write_side K (negb d) g (fst b, GT [])) w) (message e)
    else set_again (display_path K (set_engine (write_side K (negb d) g (fst b, GT [])) w) (message e)) true).
Proof.
  intros H. unfold do_convert. cbv zeta. set (g1 := write_side K (negb d) g (fst b, GT [])).
  assert (E1 : again g1 = again g) by (unfold g1; destruct d; reflexivity). assert (E2 : engine g1 = engine g) by (unfold g1; destruct d; reflexivity).
  rewrite E1, E2, H. clear. destruct e; reflexivity.
Qed.
Lemma convert_ok d g a b r w : convert K (snd a) (fst a) (fst b) (if again g then Some false else None) (engine g) = (Ok r, w) ->
  do_convert K d g a b = set_again (display_path K (write_side K (negb d) (set_engine (write_side K (negb d) g (fst b, GT [])) w) (fst b, r)) []) false.
Proof.
  intros H. unfold do_convert. cbv zeta. set (g1 := write_side K (negb d) g (fst b, GT [])).
  assert (E1 : again g1 = again g) by (unfold g1; destruct d; reflexivity). assert (E2 : engine g1 = engine g) by (unfold g1; destruct d; reflexivity).
  rewrite E1, E2, H. reflexivity.
Qed.
Lemma read_box b g : read_side K b g = get_side K (value_box b g) (unit_box b g). Proof. destruct b; reflexivity. Qed.
Lemma box_display b g e : unit_box b (display_path K g e) = unit_box b g /\ value_box b (display_path K g e) = value_box b g.
Proof. destruct (display_boxes K g e) as (D1 & D2 & D3 & D4 & _). destruct b; cbn [unit_box value_box]; now rewrite ?D1, ?D2, ?D3, ?D4. Qed.
Lemma box_write b g p : unit_box b (write_side K b g p) = text_of K (fst p) /\ value_box b (write_side K b g p) = text_of K (snd p).
Proof. destruct b; split; reflexivity. Qed.
Lemma box_write_other b c g p : b = negb c -> unit_box b (write_side K c g p) = unit_box b g /\ value_box b (write_side K c g p) = value_box b g.
Proof. intros ->. destruct c; split; reflexivity. Qed.
Lemma write_engine b g p : engine (write_side K b g p) = engine g /\ again (write_side K b g p) = again g. Proof. destruct b; split; reflexivity. Qed.

(** one turn *)
Lemma turn fuel fwd g a b : get_side K (value_box fwd g) (unit_box fwd g) = Ok a -> get_side K (value_box (negb fwd) g) (unit_box (negb fwd) g) = Ok b ->
  exists g2, red g2 = true /\ engine g2 = engine g /\ again g2 = again g /\ unit_box fwd g2 = text_of K (fst a) /\ value_box fwd g2 = text_of K (snd a) /\
    unit_box (negb fwd) g2 = text_of K (fst b) /\ value_box (negb fwd) g2 = text_of K (snd b) /\
    calculate K (Datatypes.S fuel) fwd g = (if all_none a b then (Ok tt, set_boxes g2 [] [] [] []) else if is_blank (snd a) && is_numeric K (snd b) then calculate K fuel (negb fwd) g2 else (Ok tt, do_convert K fwd g2 a b)).
Proof.
  intros Ha Hb. set (g0 := display_path K g (u " ")). set (g1 := write_side K fwd g0 a). exists (write_side K (negb fwd) g1 b).
  destruct (display_boxes K g (u " ")) as (_ & _ & _ & _ & De & Da). destruct (write_engine (negb fwd) g1 b) as (E1 & A1). destruct (write_engine fwd g0 a) as (E2 & A2).
  split; [destruct (display_red K g (u " ") space_some) as (R & _); unfold g1; destruct fwd; exact R|].
  split; [rewrite E1; unfold g1; rewrite E2; exact De|]. split; [rewrite A1; unfold g1; rewrite A2; exact Da|].
  assert (O : fwd = negb (negb fwd)) by (destruct fwd; reflexivity).
  destruct (box_write_other fwd (negb fwd) g1 b O) as (U & V). destruct (box_write fwd g0 a) as (U1 & V1). destruct (box_write (negb fwd) g1 b) as (U2 & V2).
  split; [rewrite U; exact U1|]. split; [rewrite V; exact V1|]. split; [exact U2|]. split; [exact V2|].
  cbn [calculate]. fold g0. rewrite read_box. destruct (box_display fwd g (u " ")) as (B1 & B2). fold g0 in B1, B2. rewrite B1, B2, Ha. fold g1.
  rewrite read_box. destruct (box_write_other (negb fwd) fwd g0 a eq_refl) as (B3 & B4). fold g1 in B3, B4. destruct (box_display (negb fwd) g (u " ")) as (B5 & B6). fold g0 in B5, B6.
  rewrite B3, B4, B5, B6, Hb. reflexivity.
Qed.

(** a numeric value box never gives an empty value *)
Local Transparent get_side.
Lemma numeric_not_blank v w a : is_numeric K (GT v) = true -> get_side K v w = Ok a -> is_blank (snd a) = false /\ snd a <> GNone.
Proof.
  intros Hv H. assert (Hs : is_numeric K (GT (strip v)) = true) by (rewrite (numeric_strip K S); exact Hv).
  assert (P : plain_text (strip v)) by (exact (numeric_plain K S _ Hs)).
  unfold get_side in H. cbv zeta in H. rewrite (plain_kept _ P) in H. rewrite (numeric_some K S _ Hs), Hs in H. cbn [andb negb] in H. rewrite andb_false_r in H.
  destruct (is_numeric K (GT (strip w))); cbn [negb] in H.
  - injection H as <-. cbn [snd]. split; [|discriminate]. pose proof (numeric_some K S _ Hs) as E. destruct (strip v); [discriminate E|reflexivity].
  - destruct (get_number K (strip v)) as [n|e]; cbn [rbind] in H; [|discriminate H]. injection H as <-. split; [reflexivity|discriminate].
Qed.
Lemma side_numeric v w a : get_side K v w = Ok a -> is_numeric K (snd a) = true -> is_numeric K (GT (text_of K (snd a))) = true.
Proof.
  intros H Hn. unfold get_side in H. cbv zeta in H. revert H. set (x := py_replace _ _ _). set (y := strip w).
  destruct (seqb x [] && _ && _) eqn:B1.
  { intros H. injection H as <-. cbn [snd] in *. rewrite !andb_true_iff in B1. destruct B1 as ((B & _) & _). destruct x; [|discriminate B]. rewrite (empty_no_number K S) in Hn. discriminate Hn. }
  destruct (seqb y [] && _ && _) eqn:B2.
  { intros H. injection H as <-. cbn [snd] in *. rewrite !andb_true_iff in B2. destruct B2 as ((B & _) & _). destruct y; [|discriminate B]. rewrite (empty_no_number K S) in Hn. discriminate Hn. }
  destruct (is_numeric K (GT x)) eqn:Ex, (is_numeric K (GT y)) eqn:Ey; cbn [negb andb]; intros H.
  - injection H as <-. exact Ex.
  - destruct (get_number K x) as [n|e] eqn:G; cbn [rbind] in H; [|discriminate H]. injection H as <-. exact (proj1 (numeric_text K S x n Ex G)).
  - destruct (get_number K y) as [n|e] eqn:G; cbn [rbind] in H; [|discriminate H]. injection H as <-. exact (proj1 (numeric_text K S y n Ey G)).
  - injection H as <-. cbn [snd] in Hn. rewrite (none_no_number K S) in Hn. discriminate Hn.
Qed.
Local Opaque get_side.

(** every request ends after at most two turns: all boxes cleared, or one conversion *)
Lemma ends k fwd g : exists g2,
  red g2 = true /\ engine g2 = engine g /\ again g2 = again g /\
  (calculate K (Datatypes.S (Datatypes.S k)) fwd g = (Ok tt, set_boxes g2 [] [] [] []) \/
   exists d a b, unit_box d g2 = text_of K (fst a) /\ value_box d g2 = text_of K (snd a) /\ calculate K (Datatypes.S (Datatypes.S k)) fwd g = (Ok tt, do_convert K d g2 a b)).
Proof.
  destruct (side_ok K S (value_box fwd g) (unit_box fwd g)) as (a & Ha). destruct (side_ok K S (value_box (negb fwd) g) (unit_box (negb fwd) g)) as (b & Hb).
  destruct (turn (Datatypes.S k) fwd g a b Ha Hb) as (g2 & R1 & E1 & A1 & U1 & V1 & U2 & V2 & C).
  destruct (all_none a b); [exists g2; split; [exact R1|split; [exact E1|split; [exact A1|left; exact C]]]|].
  destruct (is_blank (snd a) && is_numeric K (snd b)) eqn:B.
  2:{ exists g2. split; [exact R1|]. split; [exact E1|split; [exact A1|right]]. exists fwd, a, b. split; [exact U1|split; [exact V1|exact C]]. }
  apply andb_true_iff in B as [_ Bn]. pose proof (side_numeric _ _ _ Hb Bn) as Hn. rewrite <- V2 in Hn.
  destruct (side_ok K S (value_box (negb fwd) g2) (unit_box (negb fwd) g2)) as (a' & Ha').
  destruct (side_ok K S (value_box (negb (negb fwd)) g2) (unit_box (negb (negb fwd)) g2)) as (b' & Hb').
  destruct (numeric_not_blank _ _ _ Hn Ha') as (Nb & Nn).
  destruct (turn k (negb fwd) g2 a' b' Ha' Hb') as (g3 & R3 & E3 & A3 & U3 & V3 & U4 & V4 & C').
  exists g3. split; [exact R3|]. split; [now rewrite E3|]. split; [now rewrite A3|]. right. exists (negb fwd), a', b'. split; [exact U3|]. split; [exact V3|].
  rewrite C, C', Nb. cbn [andb]. replace (all_none a' b') with false; [reflexivity|]. destruct a' as [a1 a2]. cbn [snd] in Nn. destruct a1, a2; try reflexivity. congruence.
Qed.
Lemma enough k fwd g : calculate K (Datatypes.S (Datatypes.S k)) fwd g = calculate K 2 fwd g.
Proof.
  destruct (side_ok K S (value_box fwd g) (unit_box fwd g)) as (a & Ha). destruct (side_ok K S (value_box (negb fwd) g) (unit_box (negb fwd) g)) as (b & Hb).
  assert (One : forall n fwd g a, get_side K (value_box fwd g) (unit_box fwd g) = Ok a -> is_blank (snd a) = false -> calculate K (Datatypes.S n) fwd g = calculate K 1 fwd g).
  { clear. intros n fwd g a Ha N. cbn [calculate].
    rewrite read_box. destruct (box_display fwd g (u " ")) as (B1 & B2). rewrite B1, B2, Ha, N. cbn [andb]. reflexivity. }
  change (Datatypes.S (Datatypes.S k)) with (1 + Datatypes.S k)%nat. cbn [calculate Nat.add].
  rewrite read_box. destruct (box_display fwd g (u " ")) as (B1 & B2). rewrite B1, B2, Ha. set (g1 := write_side K fwd _ a).
  rewrite read_box. destruct (box_write_other (negb fwd) fwd (display_path K g (u " ")) a eq_refl) as (B3 & B4). fold g1 in B3, B4. destruct (box_display (negb fwd) g (u " ")) as (B5 & B6).
  rewrite B3, B4, B5, B6, Hb. destruct (all_none a b); [reflexivity|]. destruct (is_blank (snd a) && is_numeric K (snd b)) eqn:B; [|reflexivity].
  apply andb_true_iff in B as [_ Bn]. pose proof (side_numeric _ _ _ Hb Bn) as Hn. set (g2 := write_side K (negb fwd) g1 b). destruct (box_write (negb fwd) g1 b) as (U & V). fold g2 in U, V. rewrite <- V in Hn.
  destruct (side_ok K S (value_box (negb fwd) g2) (unit_box (negb fwd) g2)) as (a' & Ha'). destruct (numeric_not_blank _ _ _ Hn Ha') as (Nb & _).
  exact (One k (negb fwd) g2 a' Ha' Nb).
Qed.
End GuiFacts2.
