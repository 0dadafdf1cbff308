(** * Facts about the path told after a conversion *)
From Coq Require Import String Lia.
From Verif Require Import Py StrTools StrFacts StrFacts2 StrFacts3 Network SearchSpec Search SearchFacts Conv NetFacts2 Converter EngineSpec EngineFacts EngineFacts2 EngineFacts3 EngineFacts4 EngineFacts5 EngineFacts6
  CleanFacts EngineFacts7 OpsFacts OpsFacts2 Caster CasterFacts PathText.
Local Open Scope N_scope.

(** ** The text *)
Section Text.
Context {V : Type} (str_of : V -> str) (tup : str).
Lemma loop_nodes ns : ns <> [] -> forall r, path_loop str_of tup r (map PN ns) = r ++ sjoin (u " > ") (map nname ns).
Proof.
  induction ns as [|a ns IH]; intros Hn r; [congruence|]. destruct ns as [|b ns].
  - cbn [map path_loop path_turn str_step sjoin]. now rewrite app_nil_r.
  - change (map PN (a :: b :: ns)) with (PN (V:=V) a :: map PN (b :: ns)). cbn [path_loop]. rewrite IH by discriminate.
    cbn [map path_turn str_step sjoin]. now rewrite <- !app_assoc.
Qed.
Lemma strip_lead p x : over wspace p -> strip (p ++ x) = strip x.
Proof. intros H. unfold strip, strip_chars. now rewrite (lstrip_over wspace p x H). Qed.
Lemma print_nodes a b ns : print_path str_of tup (map PN (a :: b :: ns)) = strip (sjoin (u " > ") (map nname (a :: b :: ns))).
Proof.
  unfold print_path. change (map PN (a :: b :: ns)) with (PN (V:=V) a :: PN b :: map PN ns). cbv iota.
  change (PN (V:=V) a :: PN b :: map PN ns) with (map (PN (V:=V)) (a :: b :: ns)). rewrite loop_nodes by discriminate.
  apply strip_lead. intros c Hc. vm_compute in Hc. repeat (destruct Hc as [<-|Hc]; [apply cmem_In; reflexivity|]). destruct Hc.
Qed.
End Text.

(** a name without blanks at its ends *)
Definition tidy (x : str) : Prop := x <> [] /\ strip x = x.
Lemma tidy_ends x : tidy x -> (exists c r, x = c :: r /\ cmem c wspace = false) /\ (exists c r, x = r ++ [c] /\ cmem c wspace = false).
Proof.
  intros (N & T). destruct (strip_parts wspace x) as (_ & _ & _ & _ & _ & E). fold (strip x) in E. rewrite T in E.
  split; [destruct x as [|c r]; [congruence|]; exists c, r; split; [reflexivity|exact (E c r (or_introl eq_refl))]|].
  destruct (exists_last N) as (r & c & Er). exists c, r. split; [exact Er|exact (E c r (or_intror Er))].
Qed.
Lemma ends_tidy x c d r q : x = c :: r -> x = q ++ [d] -> cmem c wspace = false -> cmem d wspace = false -> strip x = x.
Proof.
  intros E1 E2 Hc Hd. unfold strip, strip_chars. assert (L : lstrip_chars wspace x = x) by (rewrite E1; cbn [lstrip_chars]; now rewrite Hc).
  rewrite L. unfold rstrip_chars. rewrite E2, rev_app_distr. cbn [rev Datatypes.app lstrip_chars]. rewrite Hd. cbn [rev]. now rewrite rev_involutive.
Qed.
Lemma join_first sep x xs c r : x = c :: r -> exists r', sjoin sep (x :: xs) = c :: r'.
Proof. intros ->. destruct xs as [|y xs]; [exists r; reflexivity|]. eexists. cbn [sjoin Datatypes.app]. reflexivity. Qed.
Lemma join_last sep xs : forall x, exists y q, In y (x :: xs) /\ forall d z, y = z ++ [d] -> exists z', sjoin sep (x :: xs) = z' ++ [d] /\ q = tt.
Proof.
  induction xs as [|y xs IH]; intros x.
  - exists x, tt. split; [now left|]. intros d z ->. exists z. split; reflexivity.
  - destruct (IH y) as (w & q & Hw & H). exists w, tt. split; [right; exact Hw|]. intros d z Hz. destruct (H d z Hz) as (z' & E & _).
    change (sjoin sep (x :: y :: xs)) with (x ++ sep ++ sjoin sep (y :: xs)). rewrite E. exists (x ++ sep ++ z'). split; [now rewrite <- !app_assoc|reflexivity].
Qed.
Lemma join_tidy sep x xs : (forall y, In y (x :: xs) -> tidy y) -> strip (sjoin sep (x :: xs)) = sjoin sep (x :: xs).
Proof.
  intros H. destruct (tidy_ends x (H x (or_introl eq_refl))) as ((c & r & E1 & Hc) & _). destruct (join_first sep x xs c r E1) as (r' & J1).
  destruct (join_last sep xs x) as (y & q & Hy & J). destruct (tidy_ends y (H y Hy)) as (_ & d & z & E2 & Hd). destruct (J d z E2) as (z' & J2 & _).
  exact (ends_tidy _ c d r' z' J1 J2 Hc Hd).
Qed.
Lemma tidy_equals x : tidy x -> strip (x ++ u " = " ++ x) = x ++ u " = " ++ x.
Proof.
  intros T. destruct (tidy_ends x T) as ((c & r & E1 & Hc) & d & z & E2 & Hd).
  refine (ends_tidy _ c d (r ++ u " = " ++ x) (x ++ u " = " ++ z) _ _ Hc Hd); [rewrite E1 at 1; reflexivity|rewrite E2 at 2; now rewrite <- !app_assoc].
Qed.

(** the names can be read back *)
Lemma split_name x : ~ In 62 x -> forall cur rest, split_go (u " > ") O cur (x ++ u " > " ++ rest) = rev (rev x ++ cur) :: split_go (u " > ") O [] rest.
Proof.
  induction x as [|c x IH]; intros Hx cur rest.
  - cbn [rev Datatypes.app]. change (split_go (u " > ") 0 cur (u " > " ++ rest)) with (rev cur :: split_go (u " > ") 2 [] (62 :: 32 :: rest)). reflexivity.
  - assert (Hc : c <> 62) by (intros ->; apply Hx; now left). assert (Hr : ~ In 62 x) by (intros K; apply Hx; now right).
    change ((c :: x) ++ u " > " ++ rest) with (c :: (x ++ u " > " ++ rest)). cbn [split_go].
    assert (P : sprefix (u " > ") (c :: x ++ u " > " ++ rest) = false).
    { change (u " > ") with [32; 62; 32]. cbn [sprefix]. destruct (N.eqb_spec 32 c) as [<-|]; [|reflexivity]. cbn [andb].
      destruct x as [|e x]; [reflexivity|]. cbn [Datatypes.app sprefix]. destruct (N.eqb_spec 62 e) as [<-|]; [|reflexivity]. exfalso. apply Hr. now left. }
    rewrite P. rewrite (IH Hr). cbn [rev]. now rewrite <- app_assoc.
Qed.
Lemma split_last x : ~ In 62 x -> forall cur, split_go (u " > ") O cur x = [rev (rev x ++ cur)].
Proof.
  induction x as [|c x IH]; intros Hx cur; [reflexivity|]. assert (Hr : ~ In 62 x) by (intros K; apply Hx; now right). cbn [split_go].
  assert (P : sprefix (u " > ") (c :: x) = false).
  { change (u " > ") with [32; 62; 32]. cbn [sprefix]. destruct (N.eqb_spec 32 c) as [<-|]; [|reflexivity]. cbn [andb].
    destruct x as [|e x]; [reflexivity|]. cbn [sprefix]. destruct (N.eqb_spec 62 e) as [<-|]; [|reflexivity]. exfalso. apply Hr. now left. }
  rewrite P, (IH Hr). cbn [rev]. now rewrite <- app_assoc.
Qed.
Lemma split_arrows xs : forall x, (forall y, In y (x :: xs) -> ~ In 62 y) -> py_split (u " > ") (sjoin (u " > ") (x :: xs)) = Ok (x :: xs).
Proof.
  unfold py_split. change (u " > ") with [32; 62; 32] at 1. cbv iota.
  intros x H. f_equal. revert x H. induction xs as [|y xs IH]; intros x H.
  - cbn [sjoin]. rewrite split_last by (apply H; now left). now rewrite app_nil_r, rev_involutive.
  - change (sjoin (u " > ") (x :: y :: xs)) with (x ++ u " > " ++ sjoin (u " > ") (y :: xs)).
    rewrite split_name by (apply H; now left). rewrite app_nil_r, rev_involutive, IH; [reflexivity|]. intros z Hz. apply H. now right.
Qed.

(** ** The path *)
Section Told.
Context {V : Type} {A : Arith V}.
Lemma clean_told v f t uc (s : st V) w s' : good s -> enough s -> simple f -> simple t -> density_case (s_dict s) f t = false -> quick (V:=V) (s_dict s) f t = None ->
  convert_clean (Some v) f t uc s = (Ok (Some (CVal w)), s') ->
  exists h p, path_told (s_net s) f t h p /\ feval (fv_of s) h v = Ok w /\ s_last s' = p.
Proof.
  intros G En Hf Ht Hd Hq H. pose proof (convert_clean_erase v f t uc s) as E. rewrite H in E. rewrite (convert_clean_eq None) in E. unfold convert_step, bind in E.
  rewrite no_density_case in E by exact Hd. unfold converter_top, top_fuel in E.
  pose proof (rec_limit_next _ None En) as Hr.
  destruct (converter_simple (Z.to_nat (rec_limit (s_par (set_prev s [])) None)) f t None uc (set_prev s []) Hf Ht eq_refl (enough_nonneg s En))
    as [([c p] & s1 & E1 & E2)|[(e & s1 & E1 & E2)|(s1 & E2 & _)]]; rewrite E2 in E; cbn [finish_conv] in E.
  2:{ discriminate E. }
  2:{ rewrite bind_get in E. destruct (p_raise (s_par s1)); unfold raise, ret in E; discriminate E. }
  destruct (gc_simple get_conversion0 f t (Some (rec_limit (s_par (set_prev s [])) None)) uc (set_prev s []) Hf Ht Hr) as (qp & Eg).
  change (get_conversion_ get_conversion0) with (get_conversion (V:=V)) in Eg. rewrite E1 in Eg.
  change (memo_of (set_prev s []) uc f t) with (memo_of s uc f t) in Eg. change (s_dict (set_prev s [])) with (s_dict s) in Eg. rewrite Hq in Eg.
  assert (X : exists h, c = CFn h /\ path_told (s_net s) f t h p /\ fv_of s1 = fv_of s).
  { destruct (memo_of s uc f t) as [[[h q]|]|] eqn:Em.
    - injection Eg as -> -> ->. exists h. split; [reflexivity|]. split; [|reflexivity]. unfold memo_of in Em. destruct (use_of s uc); [|discriminate].
      exact (proj2 (proj2 G f t h q Hf Ht Em)).
    - discriminate Eg.
    - pose proof (from_network_fst f t (set_prev s [])) as Fn. rewrite <- Eg in Fn. cbn [fst] in Fn.
      rewrite (search_frame f t s (set_prev s []) eq_refl) in Fn. change (s_net (set_prev s [])) with (s_net s) in Fn.
      destruct (search_value s f t) as [[q|]|] eqn:Es; [|discriminate|discriminate]. destruct (path_convs (s_net s) q) as [l|] eqn:El; [|discriminate].
      injection Fn as -> ->. exists (FConvs l). split; [reflexivity|]. split.
      + destruct (new_ok_path s f t (FConvs l) (map PN q) (proj1 (proj1 G))) as [_ X]; [split; [exact Hq|]; exists q, l; auto|]. exact X.
      + pose proof (from_network_Rel None f t (set_prev s []) (fun _ _ => Hq)) as (Hc & _). rewrite <- Eg in Hc. cbn [snd] in Hc. rewrite (fv_core _ _ Hc). reflexivity. }
  destruct X as (h & -> & Pt & Fv). exists h, p. split; [exact Pt|].
  unfold modify, ret in E. cbn in E. change (fv_of (set_last s1 p)) with (fv_of s1) in E. rewrite Fv in E.
  destruct (feval (fv_of s) h v) as [w'|e]; [|discriminate E]. injection E as -> ->. split; reflexivity.
Qed.
End Told.
