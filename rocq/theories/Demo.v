(** * A small session for the examples and the counterexamples

    Not the shipped database: a few units with exact factors. *)
From Coq Require Import String QArith Qcanon.
From Verif Require Import Py StrTools Network SearchSpec NetworkFacts Search Hybrid Conv Converter EngineSpec ConsistSpec Affine.
Local Open Scope N_scope.

(** nodes and conversions registered one by one, as the database does *)
Definition demo_names : list str := map u
  ["m"; "cm"; "km"; "min"; "s"; "kg"; "g"; "m3"; "cm3"; "celsius"; "kelvin"; "rb"; "stb"]%string.
Definition demo_node (i : nat) : node := Node (N.of_nat i) (nth i demo_names []).
Definition two_way (i j : nat) (c rc : conv Qc) : list (op (conv Qc)) :=
  [OAddEdge (demo_node i) (demo_node j) c; OAddEdge (demo_node j) (demo_node i) rc].
Definition demo_ops : list (op (conv Qc)) :=
  map (fun x => ONewNode x) demo_names
  ++ two_way 0 1 (CMul 100) (CDiv 100) ++ two_way 2 0 (CMul 1000) (CDiv 1000) ++ two_way 3 4 (CMul 60) (CDiv 60)
  ++ two_way 5 6 (CMul 1000) (CDiv 1000) ++ two_way 7 8 (CMul 1000000) (CDiv 1000000)
  ++ two_way 9 10 (CAdd (27315 # 100)) (CSub (27315 # 100)) ++ two_way 11 12 CFvfDiv CFvfMul.
Definition demo_net : net (conv Qc) := run_ops empty_net demo_ops.
Definition demo_dicts : dicts := Dicts
  [u "date"; u "day of year"] [u "dimensionless"] [u "%"; u "percentage"] [u "celsius"; u "kelvin"]
  [u "m3"; u "cm3"; u "rb"; u "stb"] [u "kg"; u "g"] [] [((u "celsius", u "kelvin"), 1%Q)].
Definition demo_par (algo : string) : par Qc :=
  Par 12 25 (u algo) true false None false false false false 1000.
Definition demo_on (g : net (conv Qc)) (algo : string) : st Qc :=
  St g None [] [] (Some (Q2Qc (5 # 4))) (Err NoFVFError) (Ok (Q2Qc (4 # 5))) (demo_par algo) demo_dicts [] [].
Definition demo := demo_on demo_net "BFS".
Definition with_raise (p : par Qc) (b : bool) : par Qc :=
  Par (p_max_rec p) (p_max_gen p) (p_algo p) (p_cache p) b (p_density p) (p_redpar p) (p_parallel p) (p_multi p) (p_thread p) (p_pylimit p).
Definition with_limit (p : par Qc) (n : Z) : par Qc :=
  Par n (p_max_gen p) (p_algo p) (p_cache p) (p_raise p) (p_density p) (p_redpar p) (p_parallel p) (p_multi p) (p_thread p) (p_pylimit p).
Definition with_algo (p : par Qc) (a : string) : par Qc :=
  Par (p_max_rec p) (p_max_gen p) (u a) (p_cache p) (p_raise p) (p_density p) (p_redpar p) (p_parallel p) (p_multi p) (p_thread p) (p_pylimit p).
Definition with_redpar (p : par Qc) (b : bool) : par Qc :=
  Par (p_max_rec p) (p_max_gen p) (p_algo p) (p_cache p) (p_raise p) (p_density p) b (p_parallel p) (p_multi p) (p_thread p) (p_pylimit p).
Definition num (q : Q) : vin Qc := VNum (Q2Qc q).
Definition conv_of (q : Q) (f t : string) : call Qc := KConvert (num q) (UStr (u f)) (UStr (u t)) None.
(** what [convert(q, f, t)] returns *)
Definition ask (q : Q) (f t : string) (s : st Qc) : res (option (cval Qc)) :=
  fst (convert (num q) (UStr (u f)) (UStr (u t)) None s).
Definition is_val (r : res (option (cval Qc))) (q : Q) : bool :=
  match r with Ok (Some (CVal v)) => Qeq_bool v q | _ => false end.
Lemma is_val_eq r q : is_val r q = true -> r = Ok (Some (CVal (Q2Qc q))).
Proof.
  destruct r as [[[v|]|]|]; cbn; try discriminate. intros H. apply Qeq_bool_iff in H. do 3 f_equal.
  apply Qc_is_canon. cbn. now rewrite H, Qred_correct.
Qed.

(** the scale of the demo units *)
Definition demo_k (x : str) : Q :=
  match find (fun e => seqb (fst e) x)
    [(u "cm", 1 # 100); (u "km", 1000%Q); (u "min", 60%Q); (u "kg", 1000%Q); (u "cm3", 1 # 1000000);
     (u "rb", 4 # 5)]%Q with
  | Some (_, k) => k | None => 1%Q end.
Definition demo_o (x : str) : Q := if seqb x (u "celsius") then 27315 # 100 else 0.
Definition demo_scale := qscale demo_k demo_o.
Lemma demo_k_ne a : Qeq_bool (demo_k a) 0 = false.
Proof.
  unfold demo_k. destruct (find _ _) as [[x k]|] eqn:E; [|reflexivity]. apply find_some in E as [H _]. cbn in H.
  repeat (destruct H as [H|H]; [injection H as _ <-; reflexivity|]). contradiction.
Qed.
Lemma demo_agrees : agrees (fv_of demo) demo_scale demo_net.
Proof. apply (agree_check_sound (Some (5 # 4))); [apply demo_k_ne|vm_compute; reflexivity]. Qed.

Lemma wf_sane {V} (g : net (conv V)) : wf_net g -> sane_net g.
Proof. intros (H1 & H2 & H3). split; [exact H1|]. split; [exact H2|]. intros e He. now apply H3. Qed.
Lemma demo_wf : wf_net demo_net. Proof. apply wf_run, wf_empty. Qed.
Lemma demo_fresh algo : fresh_session (demo_on demo_net algo).
Proof. split; [apply wf_sane, demo_wf|split; reflexivity]. Qed.
Lemma demo_enough algo : par_enough (s_par (demo_on demo_net algo)).
Proof. split; cbn; lia. Qed.
Definition simple_b (x : str) : bool := negb (cmem c_slash x) && negb (cmem c_star x).
Definition padb (o : option chr) : bool :=
  match o with Some c => cmem c [blank; lpar; rpar; apostrophe; dquote] | None => true end.
Definition bare_b (x : str) : bool :=
  negb (seqb x (u "Empty")) && negb (cmem lpar x) && negb (cmem rpar x) && negb (padb (hd_error x)) && negb (padb (hd_error (rev x))).
Lemma simple_check x : simple_b x = true -> simple x.
Proof.
  unfold simple_b. intros H. apply andb_true_iff in H as [H1 H2]. rewrite negb_true_iff in H1, H2.
  split; intros K; apply not_true_iff_false in H1, H2; [apply H1|apply H2]; now apply cmem_In.
Qed.
Lemma bare_check x : bare_b x = true -> bare_name x.
Proof.
  unfold bare_b. rewrite !andb_true_iff, !negb_true_iff. intros ((((H1 & H2) & H3) & H4) & H5).
  split; [intros ->; discriminate|]. split; [intros ->; discriminate|].
  split; [intros K; apply cmem_In in K; congruence|]. split; [intros K; apply cmem_In in K; congruence|].
  intros c r Hc K. apply cmem_In in K. destruct Hc as [-> | ->].
  - change (padb (hd_error (c :: r))) with (cmem c [blank; lpar; rpar; apostrophe; dquote]) in H4. congruence.
  - rewrite rev_app_distr in H5. change (padb (hd_error (rev [c] ++ rev r))) with (cmem c [blank; lpar; rpar; apostrophe; dquote]) in H5. congruence.
Qed.
Lemma unit_check x : simple_b x && bare_b x = true -> unit_name x.
Proof. intros H. apply andb_true_iff in H as [H1 H2]. split; [now apply simple_check|now apply bare_check]. Qed.
