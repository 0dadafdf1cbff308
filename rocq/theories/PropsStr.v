(** * Properties C01-C05: unit strings *)
From Coq Require Import String.
From Verif Require Import Py StrTools StrSpec StrFacts StrFacts2 StrFacts3.
Local Open Scope N_scope.

(** C01.  Nothing is lost, and parts are separators or separator-free. *)
Theorem C01_multi_split_lossless : forall seps s,
  (forall p, In p seps -> p <> []) ->
  exists l, multi_split seps [] s = Ok l /\ List.concat l = s /\
    forall p, In p l -> p <> [] /\ (In p seps \/ forall q, In q seps -> ~ occurs q p).
Proof. exact multi_split_lossless. Qed.
Print Assumptions C01_multi_split_lossless.
Example C01_ex : (forall p, In p [u "*"; u "**"; u "/"] -> p <> []) /\
  multi_split [u "*"; u "**"; u "/"] [] (u "a**b/c") = Ok [u "a"; u "**"; u "b"; u "/"; u "c"].
Proof. split; [intros p H; cbn in H; intuition (subst; discriminate)|reflexivity]. Qed.

(** C01.  The split is the leftmost-longest tokenisation, minus what is to be removed. *)
Theorem C01_multi_split_leftmost_longest : forall seps remove s,
  (forall p, In p seps -> p <> []) ->
  exists l, tok seps s l /\
    multi_split seps remove s = Ok (filter (fun p => negb (smem p (remove ++ [[]]))) l).
Proof. exact multi_split_tok. Qed.
Print Assumptions C01_multi_split_leftmost_longest.

(** C01.  [remove] only drops the listed parts. *)
Theorem C01_multi_split_remove : forall seps remove s l,
  multi_split seps [] s = Ok l ->
  multi_split seps remove s = Ok (filter (fun p => negb (smem p remove)) l).
Proof. exact multi_split_remove. Qed.
Print Assumptions C01_multi_split_remove.

(** C01.  The excluded case: with the empty separator no number of iterations suffices. *)
Theorem C01_empty_separator_diverges : forall fuel s, s <> [] -> scan fuel [[]] [] s = Err OutOfFuel.
Proof. exact scan_empty_sep_diverges. Qed.
Print Assumptions C01_empty_separator_diverges.

(** C02.  Any two enumerations of the same separators give the same result. *)
Theorem C02_multi_split_order_independent : forall a b remove s,
  (forall p, In p a <-> In p b) ->
  multi_split_enum a remove s = multi_split_enum b remove s.
Proof. exact multi_split_enum_perm. Qed.
Print Assumptions C02_multi_split_order_independent.
Example C02_ex : (forall p, In p [u "*"; u "**"; u "/"] <-> In p [u "/"; u "**"; u "*"; u "/"]) /\
  multi_split_enum [u "*"; u "**"; u "/"] [] (u "a**b/c") = Ok [u "a"; u "**"; u "b"; u "/"; u "c"].
Proof. split; [intros p; cbn; tauto|reflexivity]. Qed.

(** C03 (full statement: for every non-nested grouped expression [e], without
    [placed]).  Proved when every group of several factors is preceded by [/]
    exactly when the number of divided groups so far (it included) is odd —
    in particular with at most one divided group, placed last. *)
Theorem C03_reduce_parentheses_meaning_partial : forall e,
  gexp_ok e = true -> placed false e = true ->
  exists r, reduce_parentheses (gwrite e) = Ok r /\ ~ In 40 r /\ ~ In 41 r /\
            forall n, expo n (factors r) = gexpo n e.
Proof. exact reduce_parentheses_meaning. Qed.
Print Assumptions C03_reduce_parentheses_meaning_partial.
Definition C03_e : gexp :=
  [(true, IGroup (u "stb") [(true, u "ft")]); (true, IName (u "a")); (false, IGroup (u "day") [(true, u "psi"); (false, u "K")])].
Example C03_ex : gwrite C03_e = u "(stb*ft)*a/(day*psi/K)" /\ gexp_ok C03_e = true /\ placed false C03_e = true /\
  reduce_parentheses (u "(stb*ft)*a/(day*psi/K)") = Ok (u "stb*ft*a/day/psi*K").
Proof. repeat split. Qed.

(** C03 is false in general: a/(b*c)*(d*e) becomes a/b/c*d/e. *)
Theorem C03_reduce_parentheses_refuted : exists e r n,
  gexp_ok e = true /\ reduce_parentheses (gwrite e) = Ok r /\ expo n (factors r) <> gexpo n e.
Proof.
  exists [(true, IName (u "a")); (false, IGroup (u "b") [(true, u "c")]); (true, IGroup (u "d") [(true, u "e")])],
         (u "a/b/c*d/e"), (u "e").
  repeat split; vm_compute; discriminate.
Qed.
Print Assumptions C03_reduce_parentheses_refuted.

(** C04. *)
Theorem C04_parentheses_value_error : forall s,
  reduce_parentheses s = Err ValueError <-> ccount 40 s <> ccount 41 s.
Proof. exact reduce_parentheses_value_error. Qed.
Print Assumptions C04_parentheses_value_error.
Theorem C04_no_parentheses_unchanged : forall s,
  ~ In 40 s -> ~ In 41 s -> reduce_parentheses s = Ok s.
Proof. exact reduce_parentheses_id. Qed.
Print Assumptions C04_no_parentheses_unchanged.
Example C04_ex : reduce_parentheses (u "(a*(b)") = Err ValueError /\ reduce_parentheses (u "(a)*b") = Ok (u "a*b").
Proof. split; reflexivity. Qed.
(** Balanced input can still fail: a trailing [/] after a group. *)
Theorem C04_balanced_accepted_refuted : exists s,
  ccount 40 s = ccount 41 s /\ reduce_parentheses s = Err IndexError.
Proof. exists (u "(a)/"). split; reflexivity. Qed.
Print Assumptions C04_balanced_accepted_refuted.

(** C05 (full statement: without the bound on occurrences). *)
Theorem C05_reduce_units_meaning_partial : forall re l,
  factors_ok l = true -> (forall n, times n l <= 2)%nat ->
  exists r, reduce_units re (write l) = Ok r /\
    forall n, n <> [49] -> expo n (factors r) = expo n l.
Proof. exact reduce_units_meaning. Qed.
Print Assumptions C05_reduce_units_meaning_partial.
Theorem C05_reduce_units_reduced : forall re l r,
  factors_ok l = true -> reduce_units re (write l) = Ok r -> r <> write l ->
  forall n, n <> [49] -> ~ (In (true, n) (factors r) /\ In (false, n) (factors r)).
Proof. exact reduce_units_reduced. Qed.
Print Assumptions C05_reduce_units_reduced.
Definition C05_l : list factor := [(true, u "psi"); (true, u "ft"); (false, u "psi"); (false, u "day")].
Example C05_ex : factors_ok C05_l = true /\ (forall n, times n C05_l <= 2)%nat /\
  write C05_l = u "psi*ft/psi/day" /\ reduce_units false (write C05_l) = Ok (u "ft/day").
Proof.
  split; [reflexivity|]. split; [|split; reflexivity].
  intros n. cbn [times C05_l].
  destruct (seqb_spec n (u "psi")) as [->|]; [cbn; lia|].
  destruct (seqb_spec n (u "ft")) as [->|]; [cbn; lia|].
  destruct (seqb n (u "day")); cbn; lia.
Qed.
(** C05 is false in general: a*a*b/a becomes b (both a's are cancelled by one). *)
Theorem C05_reduce_units_refuted : exists l r n,
  factors_ok l = true /\ reduce_units false (write l) = Ok r /\ n <> [49] /\
  expo n (factors r) <> expo n l.
Proof.
  exists [(true, u "a"); (true, u "a"); (true, u "b"); (false, u "a")], (u "b"), (u "a").
  repeat split; vm_compute; discriminate.
Qed.
Print Assumptions C05_reduce_units_refuted.
