(** * C65 with the converter, and examples of C65 and C66 *)
From Coq Require Import String QArith Qcanon Decimal DecimalN.
From Verif Require Import Py StrTools StrFacts StrFacts2 Network Conv Converter EngineSpec ShippedSpec PropsShipped PathText Caster Gui GuiSpec GuiFacts GuiFacts2 GuiFacts3 GuiFacts4 GuiEngine GuiDemo PropsGui.
Local Open Scope N_scope.
Local Open Scope Qc_scope.

(** ** The window never leaves the converter's states *)
(** what the user does with the boxes, the buttons and the path *)
Definition at_the_form (e : event) : Prop := match e with EMessage _ | EMemory _ | EError _ _ => False | _ => True end.

Section Engine.
Context (isn : gv Qc -> bool) (gn : str -> res Qc) (sh : Qc -> str) (tup : str).
Let K := engine_kit isn gn sh tup.
Lemma convert_call v a b uc w : exists c, converts c /\ fst (snd (Gui.convert K v a b uc w)) = do_call c (fst w).
Proof.
  exists (KConvert (gui_value v) (gui_unit a) (gui_unit b) uc). split; [exact I|]. destruct w as (s & pp & last). cbn [K engine_kit Gui.convert gui_convert do_call fst].
  destruct (Converter.convert _ _ _ uc s) as [[[[q|f]|]|e] s']; reflexivity.
Qed.
Lemma do_convert_call d g a b : exists c, converts c /\ fst (engine (do_convert K d g a b)) = do_call c (fst (engine g)).
Proof.
  pose proof (shows K d g a b) as (_ & _ & _ & _ & E & _). rewrite E. apply convert_call.
Qed.
Lemma press_calls fwd g : sane K -> exists l, Forall converts l /\ fst (engine (snd (calculate K 2 fwd g))) = do_calls l (fst (engine g)).
Proof.
  intros S. destruct (ends K S 0 fwd g) as (g2 & _ & E & _ & [C|(d & a & b & _ & _ & C)]); rewrite C; cbn [snd].
  - exists []. split; [constructor|]. cbn [set_boxes engine]. now rewrite E.
  - destruct (do_convert_call d g2 a b) as (c & Hc & Ec). exists [c]. split; [constructor; [exact Hc|constructor]|]. rewrite Ec, E. reflexivity.
Qed.
Lemma fire_engine g i : engine (partial_msg K g i) = engine g.
Proof. unfold partial_msg. cbv zeta. destruct (_ <? _)%nat; [destruct g as [? ? ? ? ? ? ? ? ? ? [j|] ? ? ?]; reflexivity|]. destruct (msg_dir _), (_ <? _)%nat; reflexivity. Qed.
Lemma event_calls g e : sane K -> at_the_form e -> exists l, Forall converts l /\ fst (engine (happens K g e)) = do_calls l (fst (engine g)).
Proof.
  intros S He. destruct e as [fu fv tu tv|b| | |i| |x|x|c x]; try (destruct He); cbn [happens]; try (exists []; split; [constructor|reflexivity]).
  - now apply press_calls.
  - now apply press_calls.
  - exists []. split; [constructor|]. destruct (existsb _ _); [|reflexivity]. now rewrite fire_engine.
  - exists []. split; [constructor|]. unfold menu_print_path. cbv zeta. destruct (print_path_ K _);
      (match goal with |- context [display_path K ?h ?m] => destruct (display_boxes K h m) as (_ & _ & _ & _ & -> & _) end); reflexivity.
Qed.
Lemma do_calls_app (l k : list (call Qc)) s : do_calls (l ++ k)%list s = do_calls k (do_calls l s).
Proof. apply fold_left_app. Qed.
Lemma history_calls l : sane K -> forall g, Forall at_the_form l -> exists k, Forall converts k /\ fst (engine (after_all K g l)) = do_calls k (fst (engine g)).
Proof.
  intros S. induction l as [|e l IH]; intros g H; [exists []; split; [constructor|reflexivity]|]. inversion H as [|? ? H1 H2]; subst.
  destruct (event_calls g e S H1) as (k1 & K1 & E1). destruct (IH (happens K g e) H2) as (k2 & K2 & E2). exists (k1 ++ k2)%list. split; [apply Forall_app; split; assumption|].
  cbn [after_all fold_left]. unfold after_all in E2. rewrite E2, E1. symmetry. apply do_calls_app.
Qed.

(** a quantity typed in the form, whatever was done with the window before, is converted by the definition of its unit *)
Theorem C65_definitions_partial : sane K -> forall k ds x s pp g l h v, In (k, ds) defs -> In x ds -> In k whole_kinds ->
  shipped_session s -> searches (s_par s) -> (forall b, fv_of s = Ok b -> b <> 0) ->
  engine g = (s, pp) -> Forall at_the_form l -> h = after_all K g l ->
  typed K (from_value h) (from_unit h) v (d_from x) -> only_unit K (to_value h) (to_unit h) (d_to x) ->
  let w := happens K h ECalculate in
  from_value w = sh v /\ from_unit w = d_from x /\ to_unit w = d_to x /\ to_value w = sh (v * Q2Qc (d_factor x) + Q2Qc (d_offset x)) /\ red w = false.
Proof.
  intros S k ds x s pp g l h v D X Wk Ss Sr Fv Eg Fl Eh T O. cbv zeta.
  destruct (C65_form K S h v (d_from x) (d_to x) T (or_introl O)) as (F1 & F2 & F3 & F4 & _ & _ & F7). cbv zeta in F4, F7.
  destruct (history_calls l S g Fl) as (c & Hc & Ec). assert (Ec2 : fst (engine h) = do_calls c s) by (rewrite Eh; exact (eq_trans Ec (f_equal (do_calls c) (f_equal fst Eg)))).
  pose proof (fun uc => C52_definitions_returned_partial k ds x s c v uc D X Wk Ss Sr Hc Fv) as R. rewrite <- Ec2 in R. clear Ec Ec2 Eh.
  split; [exact F2|]. split; [exact F1|]. split; [exact F3|]. rewrite F4, F7. destruct (engine h) as (s1 & pp1 & last1). cbn [fst] in R.
  set (uc := if again h then Some false else None). specialize (R uc). cbn [K engine_kit Gui.convert gui_convert gui_value gui_unit].
  destruct (Converter.convert (VNum v) (UStr (d_from x)) (UStr (d_to x)) uc s1) as [y s2]. cbn [fst] in R. rewrite R. split; reflexivity.
Qed.
End Engine.
Print Assumptions C65_definitions_partial.

(** ** Examples *)
(** typed with the number in the unit box and spaces around: "3" miles to metres *)
Lemma C65_example_of s : shipped_session s -> searches (s_par s) -> (forall b, fv_of s = Ok b -> b <> 0) ->
  let K := engine_kit q_numeric q_number q_show [] in
  let g := Win [] [] [] [] false [] false 0 0 true None [] 0 (s, (true, [])) in
  let h := happens K (after_all K g [EEdit (u " 7 ") (u "hour") (u "min") []; ECalculate; EPath]) ECalculate in
  from_unit h = u "hour" /\ from_value h = u "7" /\ to_unit h = u "min" /\ to_value h = u "420".
Proof.
  intros S Sr Fv K g. cbv zeta. set (l := [EEdit (u " 7 ") (u "hour") (u "min") []; ECalculate; EPath]). set (h := after_all K g l).
  assert (D : exists ds, In (u "Time", ds) defs /\ In (Def (u "hour") (u "min") 60 0) ds) by (eexists; split; [left; reflexivity|right; left; reflexivity]).
  destruct D as (ds & D1 & D2).
  assert (Sn : sane K) by apply engine_sane.
  set (g1 := happens K g (EEdit (u " 7 ") (u "hour") (u "min") [])).
  assert (T : forall a, is_whole a = true -> whole a = 7%N -> typed K (u "hour") a (Q2Qc 7) (u "hour") /\ typed K a (u "hour") (Q2Qc 7) (u "hour")).
  { intros a Ha Wa. pose proof (whole_plain _ (eq_trans (whole_strip a) Ha)) as Pa. assert (Hn : q_number (strip a) = Ok (Q2Qc 7)).
    { unfold q_number. rewrite whole_strip, Ha. unfold whole in *. rewrite strip_idem, Wa. reflexivity. }
    split; (exists (strip a); split; [exact (eq_trans (whole_strip a) Ha)|]; split; [exact Hn|]; split; [reflexivity|]; split; [exact Pa|]; split; [split; reflexivity|]).
    - right. split; reflexivity.
    - left. split; reflexivity. }
  assert (O : only_unit K [] (u "min") (u "min")) by (split; [discriminate|]; split; [reflexivity|]; split; [split; reflexivity|left; split; reflexivity]).
  destruct (T (u " 7 ") eq_refl eq_refl) as (T1 & _). destruct (T (u "7") eq_refl eq_refl) as (_ & T2).
  assert (Wk : In (u "Time") whole_kinds) by (left; reflexivity).
  destruct (C65_definitions_partial q_numeric q_number q_show [] Sn _ _ _ s (true, []) g [EEdit (u " 7 ") (u "hour") (u "min") []] g1 (Q2Qc 7) D1 D2 Wk S Sr Fv eq_refl (Forall_cons (EEdit (u " 7 ") (u "hour") (u "min") []) I (Forall_nil _)) eq_refl)
    as (A1 & A2 & A3 & A4 & A5).
  { cbn [g1 happens set_boxes from_value from_unit]. exact T1. }
  { exact O. }
  fold K in A1, A2, A3, A4, A5. cbn [d_from d_to d_factor d_offset] in *.
  set (g2 := happens K g1 ECalculate) in *.
  assert (E : h = menu_print_path K g2) by reflexivity.
  assert (B : forall w, from_unit (menu_print_path K w) = from_unit w /\ from_value (menu_print_path K w) = from_value w /\ to_unit (menu_print_path K w) = to_unit w /\ to_value (menu_print_path K w) = to_value w).
  { intros w. unfold menu_print_path. cbv zeta. destruct (print_path_ K _); (match goal with |- context [display_path K ?h ?m] => destruct (display_boxes K h m) as (-> & -> & -> & -> & _) end); repeat split. }
  destruct (B g2) as (B1 & B2 & B3 & B4). rewrite <- E in B1, B2, B3, B4.
  (* the second press: a number is left in the other side *)
  assert (V7 : q_show (Q2Qc 7) = u "7") by reflexivity.
  assert (Th : typed K (from_value h) (from_unit h) (Q2Qc 7) (u "hour")) by (rewrite B1, B2, A1, A2, V7; exact T2).
  assert (Oh : exists m, typed K (to_value h) (to_unit h) m (u "min")).
  { exists (Q2Qc 420). rewrite B3, B4, A3, A4. exists (u "420"). split; [reflexivity|]. split; [reflexivity|]. split; [reflexivity|]. split; [split; reflexivity|]. split; [split; reflexivity|].
    left. split; vm_compute; reflexivity. }
  destruct (C65_form K Sn h _ _ _ Th (or_intror Oh)) as (F1 & F2 & F3 & F4 & _). cbv zeta in F4.
  split; [exact F1|]. split; [rewrite F2; exact V7|]. split; [exact F3|]. rewrite F4.
  destruct (history_calls q_numeric q_number q_show [] l Sn g) as (c & Hc & Ec); [repeat constructor|]. fold K in Ec. fold h in Ec.
  pose proof (fun uc => C52_definitions_returned_partial _ _ _ s c (Q2Qc 7) uc D1 D2 Wk S Sr Hc Fv) as R. 
  assert (Ec2 : fst (engine h) = do_calls c s) by exact Ec. rewrite <- Ec2 in R. clear - R.
  destruct (engine h) as (s1 & pp1 & last1). cbn [fst] in R.
  set (uc := if again h then Some false else None). specialize (R uc). cbn [d_from d_to d_factor d_offset] in R. cbn [K engine_kit Gui.convert gui_convert gui_value gui_unit].
  destruct (Converter.convert (VNum (Q2Qc 7)) (UStr (u "hour")) (UStr (u "min")) uc s1) as [y s2]. cbn [fst] in R. rewrite R. vm_compute. reflexivity.
Qed.
Definition C65_example := C65_example_of shipped_start shipped_start_session (proj1 shipped_start_searches) shipped_start_fvf.

(** false: after a long message of a menu, the message of a failed conversion is overwritten by the text of an older timer *)
Theorem C66_error_stays_refuted : exists l i, let h := happens small (after_all small window l) ECalculate in
  red h = true /\ path_str h = u "no conversion found!" /\ In i (pending h) /\ path_str (happens small h (EFire i)) = firstn 53 (last_path small (engine h)).
Proof.
  exists [EMessage (repeat 97%N 60); EMessage (repeat 98%N 60); EEdit (u "m") (u "12") (u "x") []], 0%nat. cbv zeta. vm_compute. split; [reflexivity|]. split; [reflexivity|]. split; [left; reflexivity|reflexivity].
Qed.
Print Assumptions C66_error_stays_refuted.
(** false: the text shown for a long path may be empty: after a longer path the position is not reset *)
Theorem C66_blank_refuted : exists l n, let h := happens small (ticks small n (after_all small window l)) ECalculate in
  red h = false /\ length (last_path small (engine h)) = 60%nat /\ path_str (ticks small 1 h) = [].
Proof.
  (* the boxes of the second conversion are typed while the text of the first one moves *)
  exists [EEdit (u "m") (u "12") (repeat 97%N 200) []; ECalculate; EEdit (u "m") (u "12") (repeat 98%N 60) []], 140%nat. cbv zeta.
  split; [vm_compute; reflexivity|]. split; vm_compute; reflexivity.
Qed.
Print Assumptions C66_blank_refuted.
(** the hypotheses of C66: a path of 60 characters *)
Example C66_example : sane small /\ opened window /\
  let h := happens small (after_all small window [EEdit (u "m") (u "12") (repeat 98%N 60) []]) ECalculate in
  red h = false /\ print_path_ small (engine h) = true /\ last_path small (engine h) = repeat 98%N 60 /\ path_str h = repeat 98%N 53 /\
  red (happens small (after_all small window [EEdit (u "m") (u "12") (u "x") []]) ECalculate) = true.
Proof.
  split; [exact small_sane|]. split; [split; reflexivity|]. cbv zeta. repeat (split; [vm_compute; reflexivity|]). vm_compute; reflexivity.
Qed.
(** the hypotheses of C65_cleared: "abc" "def" on one side, nothing on the other *)
Example C65_cleared_example : let g := happens small window (EEdit (u "abc") (u "def") [] (u " ")) in
  unreadable small (from_value g) (from_unit g) /\ unreadable small (to_value g) (to_unit g) /\ from_unit g = u "abc" /\ from_unit (happens small g ECalculate) = [].
Proof.
  cbv zeta. split; [right|split; [left; split; vm_compute; reflexivity|split; vm_compute; reflexivity]].
  split; [vm_compute; discriminate|]. split; [vm_compute; discriminate|]. split; [split; vm_compute; reflexivity|]. split; vm_compute; reflexivity.
Qed.
