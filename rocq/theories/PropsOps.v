(** * C06 to C09: names of powers, products and quotients *)
From Coq Require Import String Lia ZArith QArith Qcanon.
From Verif Require Import Py StrTools StrSpec StrFacts StrFacts2 StrFacts3 Network SearchSpec NetworkFacts Search Hybrid Conv Converter EngineSpec
  EngineFacts EngineFacts2 EngineFacts3 EngineFacts4 EngineFacts5 EngineFacts6 CleanFacts ConsistSpec Affine Demo EngineFacts7 PropsEngine
  OpsSpec Operations OpsFacts OpsFacts2 OpsFacts3 OpsFacts4.
Local Open Scope N_scope.

(** Python floats for the examples: only what they need (a decimal number of
    tenths).  The theorems hold for every interpretation of the floats. *)
#[local] Instance tenths : Floats := {
  flt := Z;
  f_parse x := match csplit c_dot x with [a; d] => rbind (py_int a) (fun i => rbind (py_int d) (fun k => Ok (10 * i + k)%Z)) | _ => Err ValueError end;
  f_str z := str_of_Z (z / 10) ++ u "." ++ str_of_Z (z mod 10);
  f_ofZ z := (10 * z)%Z; f_mul a b := (a * b / 10)%Z; f_add := Z.add; f_sub := Z.sub; f_abs := Z.abs;
  f_eqZ x n := (x =? 10 * n)%Z; f_ltZ x n := (x <? 10 * n)%Z; f_gtZ x n := (10 * n <? x)%Z; f_int z := Ok (Z.quot z 10) }.

(** ** C06: base and power are read back *)
Theorem C06_power_read_back : forall (F : Floats) b n, base_name b -> unit_base_power (b ++ str_of_Z n) = Ok (b, PI n).
Proof. intros F b n. apply ubp_power. Qed.
Print Assumptions C06_power_read_back.
Theorem C06_base_alone : forall (F : Floats) b, base_name b -> unit_base_power b = Ok (b, PI 1).
Proof. intros F b. apply ubp_alone. Qed.
Print Assumptions C06_base_alone.
Theorem C06_inverse : forall (F : Floats) b, base_name b -> unit_base_power (u "1/" ++ b) = Ok (b, PI (-1)).
Proof. intros F b H. apply ubp_inverse. now apply base_noslash. Qed.
Print Assumptions C06_inverse.
(** every spelling of a power, except the ratio b/b (whose base is read as itself) *)
Theorem C06_denotes : forall (F : Floats) b n x, base_name b -> denotes b n x -> n <> 0%Z -> unit_base_power x = Ok (b, PI n).
Proof.
  intros F b n x H D Hn. destruct D as [|n| |]; [now apply ubp_alone|now apply ubp_power|now apply ubp_inverse, base_noslash|congruence].
Qed.
Print Assumptions C06_denotes.
Example C06_example : base_name (u "kg*m") /\ str_of_Z (-25) = u "-25" /\ unit_base_power (u "kg*m-25") = Ok (u "kg*m", PI (-25))
  /\ unit_base_power (u "1/day") = Ok (u "day", PI (-1)) /\ base_name (u "standard cubic foot").
Proof.
  split; [intros c Hc; repeat (destruct Hc as [<-|Hc]; [split; [reflexivity|intros Hi; repeat destruct Hi as [Hi|Hi]; discriminate || exact Hi]|]); destruct Hc|].
  split; [reflexivity|]. split; [vm_compute; reflexivity|]. split; [vm_compute; reflexivity|].
  intros c Hc; repeat (destruct Hc as [<-|Hc]; [split; [reflexivity|intros Hi; repeat destruct Hi as [Hi|Hi]; discriminate || exact Hi]|]); destruct Hc.
Qed.
(** outside these names: a superscript digit and the unit "J" over another one
    raise; a plain number over a unit is read as a power; the exponent of a
    numerator is given to the whole quotient, with a sign that depends on how
    many letters the denominator has *)
Theorem C06_other_names_refuted :
  unit_base_power (u "m" ++ [178]) = Err ValueError /\ unit_base_power (u "J/s") = Err ValueError
  /\ unit_base_power (u "2/m") = Ok (u "m", PI (-2)) 
  /\ unit_base_power (u "m3/s") = Ok (u "m/s", PI 3) /\ unit_base_power (u "m3/hr") = Ok (u "m/hr", PI (-3)).
Proof. repeat split; vm_compute; reflexivity. Qed.
Print Assumptions C06_other_names_refuted.

(** ** C07: power laws *)
Definition unit_power' {F : Floats} (x : str) (n : Z) : res str := unit_power (Some x) (ANum (PI n)).
Theorem C07_names_the_power : forall (F : Floats) b n, base_name b -> ~ no_unit unitless_names (Some b) -> n <> 0%Z ->
  unit_power' b n = Ok (powname b n).
Proof.
  intros F b n H Hb Hn. unfold unit_power'. change (Some b) with (Some (powname b 1)). rewrite unit_power_powname by assumption.
  rewrite Z.mul_1_l. destruct (Z.eqb_spec n 0); [contradiction|reflexivity].
Qed.
Print Assumptions C07_names_the_power.
Theorem C07_power_of_power : forall (F : Floats) b m n, base_name b -> ~ no_unit unitless_names (Some b) -> m <> 0%Z ->
  rbind (unit_power' b m) (fun x => unit_power' x n) = unit_power' b (m * n).
Proof.
  intros F b m n H Hb Hm. rewrite C07_names_the_power by assumption. cbn [rbind]. unfold unit_power'.
  change (Some b) with (Some (powname b 1)). rewrite !unit_power_powname by assumption. now rewrite Z.mul_1_l.
Qed.
Print Assumptions C07_power_of_power.
Theorem C07_one_and_zero : forall (F : Floats) b, base_name b -> ~ no_unit unitless_names (Some b) ->
  unit_power' b 1 = Ok b /\ unit_power' b 0 = Ok (u "dimensionless").
Proof.
  intros F b H Hb. unfold unit_power'. change (Some b) with (Some (powname b 1)). rewrite !unit_power_powname by assumption. split; reflexivity.
Qed.
Print Assumptions C07_one_and_zero.
Theorem C07_inverse : forall (F : Floats) b n, base_name b -> ~ no_unit unitless_names (Some b) -> n <> 0%Z ->
  unit_inverse unitless_names (Some (powname b n)) = Ok (powname b (- n))
  /\ rbind (unit_inverse unitless_names (Some (powname b n))) (fun x => unit_inverse unitless_names (Some x)) = Ok (powname b n).
Proof.
  intros F b n H Hb Hn. rewrite unit_inverse_powname by assumption. cbn [rbind]. split; [reflexivity|].
  rewrite unit_inverse_powname by (assumption || lia). now rewrite Z.opp_involutive.
Qed.
Print Assumptions C07_inverse.
Lemma no_unit_check x : is_unitless unitless_names (norm (Some x)) = false -> ~ no_unit unitless_names (Some x).
Proof. intros H K. apply norm_no_unit in K. congruence. Qed.
Definition base_b (b : str) : bool := forallb (fun c => negb (isdigit c) && negb (cmem c (u "-+./"))) b.
Lemma base_check b : base_b b = true -> base_name b.
Proof.
  intros H c Hc. unfold base_b in H. rewrite forallb_forall in H. apply H in Hc. apply andb_true_iff in Hc as (H1 & H2).
  rewrite negb_true_iff in H1, H2. split; [exact H1|]. now apply cmem_false.
Qed.
Example C07_example : base_name (u "m") /\ ~ no_unit unitless_names (Some (u "m"))
  /\ unit_power' (u "m") (-3) = Ok (u "m-3") /\ rbind (unit_power' (u "m") (-3)) (fun x => unit_power' x (-2)) = Ok (u "m6")
  /\ unit_inverse unitless_names (Some (u "m6")) = Ok (u "m-6").
Proof. split; [apply base_check; reflexivity|]. split; [apply no_unit_check; reflexivity|]. repeat split; vm_compute; reflexivity. Qed.
(** raising to 0 first is not a power law, and quotients are not inverted: the
    inverse of "m/s2" is itself *)
Theorem C07_elsewhere_refuted :
  rbind (unit_power' (u "m") 0) (fun x => unit_power' x 2) = Ok (u "dimensionless2")
  /\ unit_inverse unitless_names (Some (u "m/s2")) = Ok (u "m/s2").
Proof. split; vm_compute; reflexivity. Qed.
Print Assumptions C07_elsewhere_refuted.

(** ** C08: products and quotients of powers of one base *)
Section C08.
Context {V : Type} {A : Arith V}.
Lemma powname_unit b n : plain_base b -> unit_name (powname b n).
Proof.
  intros (Hu & Hb & _). unfold powname. destruct (n =? 1)%Z; [exact Hu|]. destruct Hu as ((H1 & H2) & N0 & NE & N1 & N2 & He).
  assert (forall c, In c (str_of_Z n) -> ~ In c [c_slash; c_star; lpar; rpar; blank; apostrophe; dquote]) as Hn.
  { intros c Hc. apply str_of_Z_chars in Hc as [Hc|Hc]; [now apply dec_not|]. subst c. intros Hi. repeat destruct Hi as [Hi|Hi]; discriminate || exact Hi. }
  assert (forall c, In c [c_slash; c_star; lpar; rpar] -> ~ In c b -> ~ In c (b ++ str_of_Z n)) as Hi.
  { intros c Hc Hc2 Hi. apply in_app_iff in Hi as [Hi|Hi]; [contradiction|]. apply (Hn c Hi). cbn [In] in *. tauto. }
  split; [split; apply Hi; cbn; tauto|]. split; [destruct b; [congruence|discriminate]|]. split.
  { intros E. destruct (exists_last (str_of_Z_nonnil n)) as (y & d & Ed). rewrite Ed in E.
    assert (In d (u "Empty")) as Hd by (rewrite <- E, !in_app_iff; right; right; now left).
    assert (is_dec d = true \/ d = c_minus) as [K|K] by (apply (str_of_Z_chars n); rewrite Ed, in_app_iff; right; now left).
    - revert Hd. apply dec_not; [exact K|reflexivity].
    - subst d. repeat destruct Hd as [Hd|Hd]; discriminate || exact Hd. }
  split; [apply Hi; cbn; tauto|]. split; [apply Hi; cbn; tauto|].
  intros c r [E|E].
  - destruct b as [|d b]; [congruence|]. injection E as -> _. apply (He c b). now left.
  - destruct (exists_last (str_of_Z_nonnil n)) as (y & d & Ed). rewrite Ed, app_assoc in E. apply app_inj_tail in E as (_ & ->).
    intros K. apply (Hn c); [rewrite Ed, in_app_iff; right; now left|]. cbn [In] in *. tauto.
Qed.
Lemma plain_is_name b : plain_base b -> is_name b = true.
Proof.
  intros (((H1 & H2) & N0 & _ & N1 & N2 & He) & Hb & Hh). unfold is_name. destruct b as [|c b]; [congruence|].
  apply andb_true_iff. split.
  - apply forallb_forall. intros d Hd. unfold name_char. apply negb_true_iff, not_true_iff_false. intros K.
    pose proof (proj2 (Hb d Hd)) as Hs. change (u "-+./") with [45; 43; 46; 47] in Hs. cbn [existsb] in K. rewrite !orb_true_iff, !N.eqb_eq in K. cbn [In] in Hs.
    destruct K as [->|[->|[->|[->|[->|[->|[->|K]]]]]]]; try contradiction; try (apply Hs; tauto). discriminate.
  - apply negb_true_iff, seqb_neq. intros E. injection E as -> ->. apply (He 32 []); [now left|]. now left.
Qed.
Lemma session_tells (s : st V) cs b l : fresh_session s -> wf_net (s_net s) -> par_enough (s_par s) -> sequential (p_algo (s_par s)) ->
  Forall (quiet (search_settings (s_par s))) cs -> plain_base b -> powers_apart s b l ->
  tells b (fun s' => exists ds, Forall converts ds /\ s' = do_calls ds (do_calls cs s)) l.
Proof.
  intros F W E Ha Hq Hb Hp. destruct (quiet_session s cs F E Hq) as (S & En & Q & N & D).
  assert (forall s', (exists ds, Forall converts ds /\ s' = do_calls ds (do_calls cs s)) -> forall f t, unit_name f -> unit_name t ->
    exists s'', convertible f t None s' = (convertible_result (do_calls cs s) f t, s'') /\ exists ds, Forall converts ds /\ s'' = do_calls ds (do_calls cs s)) as Ans.
  { intros s' (ds & Hc & ->) f t Hf Ht. exists (snd (convertible f t None (do_calls ds (do_calls cs s)))). split.
    - pose proof (do_calls_frame ds (do_calls cs s) Hc) as Fr.
      destruct (do_calls_settled ds (do_calls cs s) S En (converts_quiet _ _ Hc)) as (S' & En' & _).
      pose proof (convertible_simple f t None _ S' En' (proj1 Hf) (proj1 Ht)) as C.
      destruct (convertible f t None (do_calls ds (do_calls cs s))) as [r s2]. cbn [fst snd] in *. rewrite C.
      unfold convertible_result. now rewrite (val_frame _ _ _ _ Fr), (bare_answer_frame _ _ _ _ Fr).
    - exists (ds ++ [KConvertible f t None]). split; [apply Forall_app; split; [exact Hc|constructor; [exact I|constructor]]|].
      now rewrite do_calls_app. }
  split.
  - intros s' Hs. destruct (Ans s' Hs b b (proj1 Hb) (proj1 Hb)) as (s2 & E2 & I2). exists s2. split; [|exact I2]. rewrite E2. f_equal.
    unfold convertible_result, bare_answer, quick. rewrite seqb_refl. reflexivity.
  - intros i j s' Hi Hj Hne Hs. destruct (Hp i j Hi Hj Hne) as (P & NC).
    destruct (Ans s' Hs (powname b i) (powname b j) (powname_unit b i Hb) (powname_unit b j Hb)) as (s2 & E2 & I2). exists s2. split; [|exact I2].
    rewrite E2. f_equal. unfold convertible_result. rewrite (unconnected_answer (do_calls cs s)); [reflexivity|now rewrite N| | |].
    + unfold search_settings in Q. injection Q as -> _. exact Ha.
    + rewrite D. apply plain_quick; [exact P|apply (powname_unit b j Hb)].
    + unfold connected. rewrite N. exact NC.
Qed.
Lemma power_len b n : plain_base b -> (1 <= length (powname b n))%nat.
Proof. intros H. apply (powname_unit b n) in H as (_ & H & _). destruct (powname b n); [congruence|cbn; lia]. Qed.
Lemma op_fuel_3 a b : (3 <= op_fuel a b)%nat.
Proof. unfold op_fuel. lia. Qed.
(** The product of two powers of [b], after any quiet history: the sum of the
    exponents (a ratio b/b when it is 0). *)
Theorem C08_product_adds_exponents : forall (F : Floats) (s : st V) cs b m n,
  fresh_session s -> wf_net (s_net s) -> par_enough (s_par s) -> sequential (p_algo (s_par s)) ->
  Forall (quiet (search_settings (s_par s))) cs ->
  plain_base b -> ~ no_unit unitless_names (Some b) -> powers_apart s b [m; n; 1%Z] ->
  exists r, fst (unit_product unitless_names (Some (powname b m)) (Some (powname b n)) (do_calls cs s)) = Ok r
    /\ denotes b (m + n) r /\ (m + n <> 0 -> r = powname b (m + n))%Z.
Proof.
  intros F s cs b m n Fr W E Ha Hq Hb Hu Hp. pose proof (session_tells s cs b _ Fr W E Ha Hq Hb Hp) as T. unfold unit_product.
  destruct (product_powers b _ [m; n; 1%Z] (proj1 (proj2 Hb)) (plain_is_name b Hb) Hu T (op_fuel (Some (powname b m)) (Some (powname b n))) m n (do_calls cs s))
    as (r & s' & Er & _ & Hd & Hr).
  - pose proof (op_fuel_3 (Some (powname b m)) (Some (powname b n))). lia.
  - exists []. split; [constructor|reflexivity].
  - cbn; tauto.
  - cbn; tauto.
  - cbn; tauto.
  - exists r. rewrite Er. split; [reflexivity|]. now split.
Qed.
(** The quotient: the difference of the exponents, unless the first exponent is
    -1 and the second is not ... *)
Theorem C08_quotient_subtracts_exponents_partial : forall (F : Floats) (s : st V) cs b m n,
  fresh_session s -> wf_net (s_net s) -> par_enough (s_par s) -> sequential (p_algo (s_par s)) ->
  Forall (quiet (search_settings (s_par s))) cs ->
  plain_base b -> ~ no_unit unitless_names (Some b) -> powers_apart s b [m; n; 1%Z] -> (m <> -1 \/ n = -1)%Z ->
  exists r, fst (unit_division unitless_names (Some (powname b m)) (Some (powname b n)) (do_calls cs s)) = Ok r
    /\ denotes b (m - n) r /\ (m - n <> 0 -> r = powname b (m - n))%Z.
Proof.
  intros F s cs b m n Fr W E Ha Hq Hb Hu Hp Hc. pose proof (session_tells s cs b _ Fr W E Ha Hq Hb Hp) as T. unfold unit_division.
  destruct (division_powers b _ [m; n; 1%Z] (proj1 (proj2 Hb)) (plain_is_name b Hb) Hu T (op_fuel (Some (powname b m)) (Some (powname b n))) m n (do_calls cs s))
    as (r & s' & Er & _ & Hd).
  - apply op_fuel_3.
  - exists []. split; [constructor|reflexivity].
  - cbn; tauto.
  - cbn; tauto.
  - cbn; tauto.
  - exists r. rewrite Er. split; [reflexivity|]. cbv zeta in Hd.
    assert ((m =? -1)%Z && negb (n =? -1)%Z = false) as K by (destruct (Z.eqb_spec m (-1)), (Z.eqb_spec n (-1)); try reflexivity; lia).
    rewrite K in Hd. exact Hd.
Qed.
(** ... in which case the code multiplies: b^-1 / b^n is given as b^(1+n). *)
Theorem C08_quotient_of_inverse_refuted : forall (F : Floats) (s : st V) cs b n,
  fresh_session s -> wf_net (s_net s) -> par_enough (s_par s) -> sequential (p_algo (s_par s)) ->
  Forall (quiet (search_settings (s_par s))) cs ->
  plain_base b -> ~ no_unit unitless_names (Some b) -> powers_apart s b [-1; n; 1]%Z -> n <> (-1)%Z ->
  fst (unit_division unitless_names (Some (powname b (-1))) (Some (powname b n)) (do_calls cs s)) = Ok (powname b (1 + n)).
Proof.
  intros F s cs b n Fr W E Ha Hq Hb Hu Hp Hc. pose proof (session_tells s cs b _ Fr W E Ha Hq Hb Hp) as T. unfold unit_division.
  destruct (division_powers b _ [-1; n; 1]%Z (proj1 (proj2 Hb)) (plain_is_name b Hb) Hu T (op_fuel (Some (powname b (-1))) (Some (powname b n))) (-1)%Z n (do_calls cs s))
    as (r & s' & Er & _ & Hd).
  - apply op_fuel_3.
  - exists []. split; [constructor|reflexivity].
  - cbn; tauto.
  - cbn; tauto.
  - cbn; tauto.
  - rewrite Er. cbn [fst]. f_equal. cbv zeta in Hd. destruct (Z.eqb_spec n (-1)); [contradiction|]. cbn [Z.eqb Pos.eqb negb andb] in Hd. apply Hd. lia.
Qed.
End C08.
Print Assumptions C08_product_adds_exponents.
Print Assumptions C08_quotient_subtracts_exponents_partial.
Print Assumptions C08_quotient_of_inverse_refuted.
Definition apart_b (s : st Qc) (b : str) (l : list Z) : bool :=
  forallb (fun i => forallb (fun j => (i =? j)%Z ||
    (let f := powname b i in let t := powname b j in
     negb (seqb f t) && negb (smem f (d_date (s_dict s))) && negb (smem (lower f) (d_dimless (s_dict s))) && negb (smem (lower f) (d_percent (s_dict s)))
     && negb (density_case (s_dict s) f t) && match bare_answer s f t with Ok None => true | _ => false end)) l) l.
Lemma apart_check (s : st Qc) b l : wf_net (s_net s) -> p_algo (s_par s) = u "BFS" -> plain_base b -> apart_b s b l = true -> powers_apart s b l.
Proof.
  intros W Ha Hb H i j Hi Hj Hne. unfold apart_b in H. rewrite forallb_forall in H. specialize (H i Hi). cbv beta in H. rewrite forallb_forall in H.
  specialize (H j Hj). cbv beta zeta in H. apply orb_true_iff in H as [H|H]; [apply Z.eqb_eq in H; contradiction|]. apply andb_true_iff in H as (H & K).
  apply plain_check in H. split; [exact H|]. intros C.
  destruct (bfs_answer s (powname b i) (powname b j) W Ha (plain_quick _ _ _ H (proj1 (powname_unit b j Hb)))) as [B _].
  destruct (B C) as (h & E & _). rewrite E in K. discriminate.
Qed.
Lemma demo_m : plain_base (u "m").
Proof. split; [apply unit_check; reflexivity|]. split; [apply base_check; reflexivity|]. intros [H|[]]; discriminate. Qed.
Example C08_example : plain_base (u "m") /\ ~ no_unit unitless_names (Some (u "m")) /\ powers_apart demo (u "m") [3; -1; 1]%Z /\ powers_apart demo (u "m") [-1; 3; 1]%Z
  /\ fst (unit_product unitless_names (Some (u "m3")) (Some (u "m-1")) demo) = Ok (u "m2")
  /\ fst (unit_product unitless_names (Some (u "m-1")) (Some (u "m")) demo) = Ok (u "m/m")
  /\ fst (unit_division unitless_names (Some (u "m3")) (Some (u "m-1")) demo) = Ok (u "m4")
  /\ fst (unit_division unitless_names (Some (u "m-1")) (Some (u "m3")) demo) = Ok (u "m4").
Proof.
  split; [apply demo_m|]. split; [apply no_unit_check; reflexivity|].
  split; [apply apart_check; [apply demo_wf|reflexivity|apply demo_m|vm_compute; reflexivity]|].
  split; [apply apart_check; [apply demo_wf|reflexivity|apply demo_m|vm_compute; reflexivity]|].
  repeat split; vm_compute; reflexivity.
Qed.
(** fractional exponents are cut to integers in squares; the power names of the
    unit itself may be related by the converter (then the second is ignored) *)
Theorem C08_fractional_exponents_refuted :
  unit_base_power (u "m1.5") = Ok (u "m", PF 15%Z) /\ fst (unit_product unitless_names (Some (u "m1.5")) (Some (u "m1.5")) demo) = Ok (u "m2").
Proof. split; vm_compute; reflexivity. Qed.
Print Assumptions C08_fractional_exponents_refuted.

(** ** C09: dimensionless is neutral *)
Theorem C09_product_neutral : forall (F : Floats) V (A : Arith V) x d (s : st V),
  ~ no_unit unitless_names (Some x) -> no_unit unitless_names d ->
  unit_product unitless_names (Some x) d s = (Ok x, s) /\ unit_product unitless_names d (Some x) s = (Ok x, s).
Proof.
  intros F V A x d s Hx Hd. apply norm_no_unit in Hd. destruct (not_no_unit x Hx) as (_ & Nx & Ux). unfold unit_product, op_fuel. rewrite Nx.
  split; [replace (length x + length (norm d) + 3)%nat with (S (length x + length (norm d) + 2)) by lia
         |replace (length (norm d) + length x + 3)%nat with (S (length (norm d) + length x + 2)) by lia]; cbn [unit_op]; rewrite Nx, Hd, ?Ux; reflexivity.
Qed.
Print Assumptions C09_product_neutral.
Theorem C09_quotient_neutral : forall (F : Floats) V (A : Arith V) x d (s : st V),
  ~ no_unit unitless_names (Some x) -> no_unit unitless_names d -> unit_division unitless_names (Some x) d s = (Ok x, s).
Proof.
  intros F V A x d s Hx Hd. apply norm_no_unit in Hd. destruct (not_no_unit x Hx) as (_ & Nx & Ux). unfold unit_division, op_fuel. rewrite Nx.
  replace (length x + length (norm d) + 3)%nat with (S (length x + length (norm d) + 2)) by lia. cbn [unit_op]. rewrite Nx, Hd. reflexivity.
Qed.
Print Assumptions C09_quotient_neutral.
Lemma unitless_lower_blank x : over sp_par x -> is_unitless unitless_names x = true.
Proof.
  intros H. unfold is_unitless. rewrite strip_over; [reflexivity|]. intros c Hc. unfold lower in Hc. apply in_map_iff in Hc as (d & <- & Hd).
  apply H in Hd. repeat (destruct Hd as [<-|Hd]; [cbn; tauto|]). destruct Hd.
Qed.
(** sums: every spelling but the ratio x/x *)
Theorem C09_sum_neutral_partial : forall (F : Floats) V (A : Arith V) x d (s : st V),
  ~ no_unit unitless_names (Some x) -> no_unit unitless_names d -> (forall y, d <> Some (y ++ u "/" ++ y)) ->
  unit_addition unitless_names (Some x) d s = (Ok x, s) /\ unit_addition unitless_names d (Some x) s = (Ok x, s).
Proof.
  intros F V A x d s Hx Hd Hr. destruct (not_no_unit x Hx) as (_ & _ & Ux). unfold unit_addition.
  assert (is_unitless unitless_names (match d with None => dimensionless | Some y => y end) = true) as U.
  { destruct Hd as [|y Hy|y n p q Hn E Hpq He|y Hy]; [reflexivity|now apply unitless_lower_blank| |].
    - apply is_unitless_name. now exists n, p, q.
    - exfalso. now apply (Hr y). }
  rewrite U, Ux. split; reflexivity.
Qed.
Print Assumptions C09_sum_neutral_partial.
(** two spellings of "no unit" give one *)
Theorem C09_no_unit_closed : forall (F : Floats) V (A : Arith V) d e (s : st V), no_unit unitless_names d -> no_unit unitless_names e ->
  exists r r', unit_product unitless_names d e s = (Ok r, s) /\ unit_division unitless_names d e s = (Ok r', s)
    /\ no_unit unitless_names (Some r) /\ no_unit unitless_names (Some r').
Proof.
  intros F V A d e s Hd He. apply norm_no_unit in Hd. apply norm_no_unit in He. exists (norm d), (norm d). unfold unit_product, unit_division, op_fuel.
  replace (length (norm d) + length (norm e) + 3)%nat with (S (length (norm d) + length (norm e) + 2)) by lia. cbn [unit_op]. rewrite He.
  split; [reflexivity|]. split; [reflexivity|].
  apply is_unitless_name in Hd as (n & p & q & Hn & E & Hpq & He'). split; exact (nu_name unitless_names _ n p q Hn E Hpq He').
Qed.
Print Assumptions C09_no_unit_closed.
Example C09_example : ~ no_unit unitless_names (Some (u "kg*m/s2")) /\ no_unit unitless_names (Some (u " (DimensionLess)"))
  /\ no_unit unitless_names (Some (u "( )")) /\ no_unit unitless_names (Some (u "psi/psi"))
  /\ fst (unit_product unitless_names (Some (u "psi/psi")) (Some (u "kg*m/s2")) demo) = Ok (u "kg*m/s2").
Proof.
  split; [apply no_unit_check; vm_compute; reflexivity|]. split.
  { apply (nu_name unitless_names _ (u "dimensionless") (u " (") (u ")")); [cbn; tauto|reflexivity| |].
    - intros c Hc. repeat (destruct Hc as [<-|Hc]; [cbn; tauto|]). destruct Hc.
    - intros c r [E|E].
      + injection E as <- _. intros Hi. repeat destruct Hi as [Hi|Hi]; discriminate || exact Hi.
      + change (u "dimensionless") with (u "dimensionles" ++ [115]) in E. apply app_inj_tail in E as (_ & <-).
        intros Hi. repeat destruct Hi as [Hi|Hi]; discriminate || exact Hi. }
  split; [apply nu_blank; intros c Hc; repeat (destruct Hc as [<-|Hc]; [cbn; tauto|]); destruct Hc|].
  split; [apply (nu_ratio unitless_names (u "psi")); intros Hi; repeat destruct Hi as [Hi|Hi]; discriminate || exact Hi|]. vm_compute. reflexivity.
Qed.
(** the sum does not recognise a ratio; the name "None" is only recognised in
    lower case (which the list does not hold); one over a power gives a name
    that cannot be read back *)
Theorem C09_elsewhere_refuted :
  fst (unit_addition unitless_names (Some (u "m")) (Some (u "s/s")) demo) = Ok (u "m+s/s")
  /\ fst (unit_product unitless_names (Some (u "m")) (Some (u "None")) demo) = Ok (u "m*None")
  /\ fst (unit_division unitless_names None (Some (u "m2")) demo) = Ok (u "m2-1") /\ unit_base_power (u "m2-1") = Err ValueError.
Proof. repeat split; vm_compute; reflexivity. Qed.
Print Assumptions C09_elsewhere_refuted.

(** ** The nesting given to products and quotients is enough *)
Theorem C08_nesting_is_enough : forall (F : Floats) V (A : Arith V) k div o1 o2 (s : st V), (op_fuel o1 o2 <= k)%nat ->
  unit_op unitless_names k div o1 o2 s = unit_op unitless_names (op_fuel o1 o2) div o1 o2 s.
Proof. intros F V A k div o1 o2 s. apply unit_op_enough. Qed.
Print Assumptions C08_nesting_is_enough.
