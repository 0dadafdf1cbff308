(** * Property C70: the conversion path told to the user *)
From Coq Require Import String QArith Qcanon.
From Verif Require Import Py StrTools Network SearchSpec SearchFacts NetworkFacts Conv Converter EngineSpec EngineFacts EngineFacts2 EngineFacts4 EngineFacts5 EngineFacts7 CleanFacts Affine Demo Caster PathText PathFacts
  Gui GuiSpec GuiEngine GuiDemo.
Local Open Scope N_scope.

(** a chain of two units or more is told as their names with arrows between, a single unit as "m = m" *)
Theorem C70_text : forall V (str_of : V -> str) tup p, (forall n, In n p -> nname n <> [] /\ strip (nname n) = nname n) ->
  print_path str_of tup (map PN p) = match p with [] => [] | [a] => nname a ++ u " = " ++ nname a | _ => sjoin (u " > ") (map nname p) end.
Proof.
  intros V str_of tup p H. destruct p as [|a [|b p]]; [reflexivity| |].
  - unfold print_path. cbn [map str_step]. apply tidy_equals. exact (H a (or_introl eq_refl)).
  - rewrite print_nodes. cbn [map]. apply join_tidy. change (nname a :: nname b :: map nname p) with (map nname (a :: b :: p)).
    intros y Hy. apply in_map_iff in Hy as (n & <- & Hn). exact (H n Hn).
Qed.
Print Assumptions C70_text.
(** when no name holds the sign of the arrow, the units can be read back from the text *)
Theorem C70_readable : forall V (str_of : V -> str) tup p, (2 <= length p)%nat ->
  (forall n, In n p -> nname n <> [] /\ strip (nname n) = nname n /\ ~ In 62 (nname n)) ->
  py_split (u " > ") (print_path str_of tup (map PN p)) = Ok (map nname p).
Proof.
  intros V str_of tup p L H. destruct p as [|a [|b p]]; [cbn in L; lia|cbn in L; lia|].
  rewrite C70_text by (intros n Hn; destruct (H n Hn) as (H1 & H2 & _); split; assumption).
  change (map nname (a :: b :: p)) with (nname a :: map nname (b :: p)). apply split_arrows.
  change (nname a :: map nname (b :: p)) with (map nname (a :: b :: p)). intros y Hy. apply in_map_iff in Hy as (n & <- & Hn). exact (proj2 (proj2 (H n Hn))).
Qed.
Print Assumptions C70_readable.

(** after any history: the path told after a conversion is a chain of registered conversions from the unit asked to the
    other, without repetition, and the number returned is what they give one after the other *)
Theorem C70_path_is_the_reason_partial : forall V (A : Arith V) str_of tup (s : st V) cs v w f t uc s',
  fresh_session s -> par_enough (s_par s) -> Forall call_enough cs ->
  unit_name f -> unit_name t -> plain_pair (s_dict s) f t ->
  Converter.convert (VNum v) (UStr f) (UStr t) uc (do_calls cs s) = (Ok (Some (CVal w)), s') ->
  exists a b p l, nname a = f /\ nname b = t /\ simple_path (registered (s_net (do_calls cs s))) a p b
    /\ convs_along (s_net (do_calls cs s)) p l /\ feval (fv_of (do_calls cs s)) (FConvs l) v = Ok w
    /\ s_last s' = map PN p
    /\ ((forall n, In n p -> nname n <> [] /\ strip (nname n) = nname n) -> print_path str_of tup (s_last s') = sjoin (u " > ") (map nname p)).
Proof.
  intros V A str_of tup s cs v w f t uc s' F E C Hf Ht Hp H. destruct (session s cs F E C) as (G & En & N & D).
  change (VNum v) with (opt_v (Some v)) in H. rewrite convert_bare in H by (apply Hf || apply Ht).
  destruct (clean_told v f t uc (do_calls cs s) w s' G En (proj1 Hf) (proj1 Ht)) as (h & pt & (a & b & p & l & Ha & Hb & Hw & Hc & Eh & Ep) & Hv & El).
  - rewrite D. apply Hp.
  - rewrite D. apply plain_quick; [exact Hp|apply Ht].
  - exact H.
  - apply get_node_spec in Ha as [_ Ha]. apply get_node_spec in Hb as [_ Hb]. exists a, b, p, l. split; [exact Ha|]. split; [exact Hb|]. split; [exact Hw|]. split; [exact Hc|].
    split; [now rewrite <- Eh|]. split; [now rewrite El|]. intros Ht'. rewrite El, Ep, C70_text by exact Ht'.
    destruct p as [|x [|y p]]; [destruct Hw as [Hw _]; inversion Hw| |reflexivity].
    exfalso. destruct Hw as [Hw _]. destruct (walk_hd _ _ _ _ Hw) as (q & Eq). injection Eq as -> _. destruct (walk_last _ _ _ _ Hw) as (r & Er).
    destruct r as [|z r]; [injection Er as ->|destruct r; discriminate Er]. destruct Hp as (Hn & _). congruence.
Qed.
Print Assumptions C70_path_is_the_reason_partial.

(** a conversion that fails leaves the path of an earlier one *)
Theorem C70_failure_keeps_partial : forall V (A : Arith V) (s : st V) v f t uc r s',
  unit_name f -> unit_name t -> density_case (s_dict s) f t = false ->
  Converter.convert (VNum v) (UStr f) (UStr t) uc s = (r, s') -> r = Ok None \/ (exists e, r = Err e) -> s_last s' = s_last s.
Proof.
  intros V A s v f t uc r s' Hf Ht Hd H Hr. change (VNum v) with (opt_v (Some v)) in H. rewrite convert_bare in H by (apply Hf || apply Ht).
  rewrite convert_clean_eq in H. unfold convert_step, bind in H. rewrite no_density_case in H by exact Hd. set (v1 := Some v) in *.
  assert (Hc : same_core (set_prev s []) (snd (converter_top v1 f t uc (set_prev s [])))) by (exact (proj1 (converter_top_Rel v1 f t uc (set_prev s [])))).
  destruct (converter_top v1 f t uc (set_prev s [])) as [[[[c p]|]|e] s1]; cbn [snd] in Hc; cbn [finish_conv] in H.
  - unfold modify, ret in H. cbn in H. injection H as <- <-. destruct Hr as [Hr|(e & Hr)]; discriminate Hr.
  - rewrite bind_get in H. assert (s' = s1) by (destruct (p_raise (s_par s1)); unfold raise, ret in H; injection H as _ <-; reflexivity). subst s'.
    apply core_fields in Hc as (_ & _ & _ & _ & _ & _ & _ & Hl & _). exact Hl.
  - injection H as _ <-. apply core_fields in Hc as (_ & _ & _ & _ & _ & _ & _ & Hl & _). exact Hl.
Qed.
Print Assumptions C70_failure_keeps_partial.

(** false: the path told is that of the number shown.  With raise_error off, a conversion that fails shows "None" in the
    window together with the path of the conversion before it, in the colour of a success *)
Theorem C70_stale_refuted : let K := engine_kit q_numeric q_number q_show [] in
  exists g l, sane K /\ opened g /\ let h := happens K (after_all K g l) ECalculate in
    from_unit h = u "m" /\ to_unit h = u "s" /\ to_value h = u "None" /\ red h = false /\ path_str h = u "m > km".
Proof.
  exists (Win [] [] [] [] false [] false 0 0 true None [] 0 (demo, (true, []))), [EEdit (u "m") (u "3000") (u "km") []; ECalculate; EEdit (u "m") (u "3000") (u "s") []].
  split; [apply engine_sane|]. split; [split; reflexivity|]. vm_compute. repeat split.
Qed.
Print Assumptions C70_stale_refuted.

(** the hypotheses are met: cm to km, through m *)
Example C70_example : fresh_session demo /\ par_enough (s_par demo) /\ unit_name (u "cm") /\ unit_name (u "km") /\ plain_pair (s_dict demo) (u "cm") (u "km")
  /\ (exists s', Converter.convert (VNum (Q2Qc 5)) (UStr (u "cm")) (UStr (u "km")) None (do_calls [conv_of 1 "km" "cm"] demo) = (Ok (Some (CVal (Q2Qc (1 # 20000)))), s')
      /\ print_path q_show [] (s_last s') = u "cm > m > km").
Proof.
  split; [apply demo_fresh|]. split; [apply demo_enough|]. split; [apply unit_check; reflexivity|]. split; [apply unit_check; reflexivity|]. split.
  - split; [discriminate|]. split; [intros (K & _); apply smem_In in K; discriminate K|]. split; [intros K; apply smem_In in K; discriminate K|].
    split; [intros (K & _); apply smem_In in K; discriminate K|reflexivity].
  - exists (snd (Converter.convert (VNum (Q2Qc 5)) (UStr (u "cm")) (UStr (u "km")) None (do_calls [conv_of 1 "km" "cm"] demo))). split; [|vm_compute; reflexivity].
    assert (X : ask 5 "cm" "km" (do_calls [conv_of 1 "km" "cm"] demo) = Ok (Some (CVal (Q2Qc (1 # 20000))))) by (apply is_val_eq; vm_compute; reflexivity).
    unfold ask, num in X. rewrite <- X. apply surjective_pairing.
Qed.
