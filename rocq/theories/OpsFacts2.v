(** * Facts about operations.py: the spellings of "no unit", powers, inverses *)
From Coq Require Import String Lia ZArith.
From Verif Require Import Py StrTools StrFacts3 Network Search Conv Converter EngineSpec EngineFacts EngineFacts2 CleanFacts OpsSpec Operations OpsFacts.
Local Open Scope N_scope.

(** ** What [strip] leaves *)
Lemma lstrip_parts cs x : exists p, x = p ++ lstrip_chars cs x /\ over cs p
  /\ match lstrip_chars cs x with c :: _ => cmem c cs = false | [] => True end.
Proof.
  induction x as [|c x (p & E & H & M)]; [exists []; split; [reflexivity|split; [intros d []|exact I]]|].
  cbn [lstrip_chars]. destruct (cmem c cs) eqn:Hc.
  - exists (c :: p). split; [change ((c :: p) ++ lstrip_chars cs x) with (c :: (p ++ lstrip_chars cs x)); now f_equal|].
    split; [|exact M]. intros d [<-|Hd]; [now apply cmem_In|now apply H].
  - exists []. split; [reflexivity|]. split; [intros d []|exact Hc].
Qed.
Lemma strip_parts cs x : exists p q, x = p ++ strip_chars cs x ++ q /\ over cs p /\ over cs q
  /\ (forall c r, strip_chars cs x = c :: r \/ strip_chars cs x = r ++ [c] -> cmem c cs = false).
Proof.
  unfold strip_chars, rstrip_chars. destruct (lstrip_parts cs x) as (p & E & Hp & M). remember (lstrip_chars cs x) as y eqn:Ey. clear Ey.
  destruct (lstrip_parts cs (rev y)) as (q & E2 & Hq & M2). remember (lstrip_chars cs (rev y)) as z eqn:Ez. clear Ez.
  assert (y = rev z ++ rev q) as Ey by (rewrite <- (rev_involutive y), E2, rev_app_distr; reflexivity).
  exists p, (rev q). split; [rewrite E, Ey; reflexivity|]. split; [exact Hp|]. split.
  { intros c Hc. apply Hq. now apply in_rev. }
  intros c r [H|H].
  - rewrite H in Ey. subst y. exact M.
  - apply (f_equal (@rev _)) in H. rewrite rev_involutive, rev_app_distr in H. cbn in H. subst z. exact M2.
Qed.
Lemma strip_over cs x : over cs x -> strip_chars cs x = [].
Proof. intros H. unfold strip_chars, rstrip_chars. now rewrite (lstrip_all cs x H). Qed.
Lemma strip_nil cs x : strip_chars cs x = [] -> over cs x.
Proof.
  intros H. destruct (strip_parts cs x) as (p & q & E & Hp & Hq & _). rewrite H in E. cbn in E. rewrite E.
  intros c Hc. apply in_app_iff in Hc as [Hc|Hc]; auto.
Qed.
Lemma pad_chars : u " ()" = sp_par. Proof. reflexivity. Qed.

(** ** [no_unit] is what the code tests *)
Lemma smem_In x l : smem x l = true <-> In x l.
Proof.
  unfold smem. rewrite existsb_exists. split.
  - intros (y & Hy & E). apply seqb_eq in E. now subst.
  - intros H. exists x. split; [exact H|apply seqb_refl].
Qed.
Lemma dimensionless_unitless : is_unitless unitless_names dimensionless = true.
Proof. reflexivity. Qed.
Lemma is_unitless_name x : is_unitless unitless_names x = true <->
  exists n p q, In n unitless_names /\ lower x = p ++ n ++ q
    /\ (forall c, In c (p ++ q) -> In c (u " ()"))
    /\ (forall c r, n = c :: r \/ n = r ++ [c] -> ~ In c (u " ()")).
Proof.
  rewrite pad_chars. unfold is_unitless. rewrite smem_In. split.
  - intros H. destruct (strip_parts sp_par (lower x)) as (p & q & E & Hp & Hq & He).
    exists (strip_chars sp_par (lower x)), p, q. split; [exact H|]. split; [exact E|]. split.
    + intros c Hc. apply in_app_iff in Hc as [Hc|Hc]; auto.
    + intros c r Hc. apply cmem_false. exact (He c r Hc).
  - intros (n & p & q & Hn & E & Hpq & He). rewrite E.
    assert (over sp_par p) as Hp by (intros c Hc; apply Hpq, in_app_iff; now left).
    assert (over sp_par q) as Hq by (intros c Hc; apply Hpq, in_app_iff; now right).
    destruct n as [|d n].
    + cbn [Datatypes.app]. rewrite strip_over; [exact Hn|]. intros c Hc. apply Hpq, Hc.
    + rewrite strip_core.
      * rewrite lstrip_all by exact Hp. rewrite lstrip_all by (intros c Hc; apply Hq, in_rev, Hc).
        cbn [rev Datatypes.app]. now rewrite app_nil_r.
      * split; [discriminate|]. intros c r Hc. apply cmem_false. exact (He c r Hc).
Qed.
Lemma split2_spec c x a b : split2 c x = Some (a, b) <-> x = a ++ [c] ++ b /\ ~ In c a /\ ~ In c b.
Proof.
  unfold split2. split.
  - intros H. destruct (csplit c x) as [|a' [|b' [|? ?]]] eqn:E; try discriminate. injection H as -> ->.
    pose proof (csplit_join c x) as J. rewrite E in J. cbn [sjoin] in J. split; [now rewrite <- J|].
    split; apply (csplit_nosep c x); rewrite E; cbn; tauto.
  - intros (-> & Ha & Hb). cbn [Datatypes.app]. rewrite csplit_app_sep, !csplit_no by assumption. reflexivity.
Qed.
Lemma norm_no_unit o : no_unit unitless_names o -> is_unitless unitless_names (norm o) = true.
Proof.
  intros H. destruct H as [|x Hx|x n p q Hn E Hpq He|x Hx].
  - reflexivity.
  - unfold norm, or_dimless. rewrite (strip_over sp_par x) by exact Hx. reflexivity.
  - unfold norm. destruct (or_dimless (Some x)) as [|c l] eqn:Eo.
    + unfold or_dimless in Eo. destruct (strip_chars sp_par x) eqn:Es; [discriminate|]. subst x. discriminate.
    + destruct (split2 c_slash (c :: l)) as [[a b]|] eqn:E2.
      * destruct (seqb a b); [reflexivity|]. rewrite <- Eo. unfold or_dimless. destruct (strip_chars sp_par x); [reflexivity|].
        apply is_unitless_name. now exists n, p, q.
      * rewrite <- Eo. unfold or_dimless. destruct (strip_chars sp_par x); [reflexivity|].
        apply is_unitless_name. now exists n, p, q.
  - unfold norm, or_dimless. destruct (strip_chars sp_par (x ++ u "/" ++ x)) eqn:Es; [reflexivity|].
    assert (split2 c_slash (x ++ u "/" ++ x) = Some (x, x)) as -> by (apply split2_spec; auto). now rewrite seqb_refl.
Qed.
Lemma not_no_unit x : ~ no_unit unitless_names (Some x) ->
  or_dimless (Some x) = x /\ norm (Some x) = x /\ is_unitless unitless_names x = false.
Proof.
  intros H.
  assert (or_dimless (Some x) = x) as Eo.
  { unfold or_dimless. destruct (strip_chars sp_par x) eqn:Es; [|reflexivity].
    exfalso. apply H. apply nu_blank. rewrite pad_chars. now apply strip_nil. }
  split; [exact Eo|]. split.
  - unfold norm. rewrite Eo. destruct (split2 c_slash x) as [[a b]|] eqn:E; [|reflexivity].
    destruct (seqb_spec a b) as [<-|_]; [|reflexivity]. apply split2_spec in E as (-> & Ha & _).
    exfalso. apply H. now apply (nu_ratio unitless_names a).
  - destruct (is_unitless unitless_names x) eqn:E; [|reflexivity]. exfalso. apply H.
    apply is_unitless_name in E as (n & p & q & Hn & E & Hpq & He). exact (nu_name unitless_names x n p q Hn E Hpq He).
Qed.
Lemma no_unit_dec o : {no_unit unitless_names o} + {~ no_unit unitless_names o}.
Proof.
  destruct o as [x|]; [|left; constructor].
  destruct (is_unitless unitless_names (norm (Some x))) eqn:E.
  - left. unfold norm in E. remember (or_dimless (Some x)) as y eqn:Ey. unfold or_dimless in Ey.
    destruct (strip_chars sp_par x) as [|c l] eqn:Es.
    { apply nu_blank. rewrite pad_chars. now apply strip_nil. }
    subst y. destruct (split2 c_slash x) as [[a b]|] eqn:E2.
    + destruct (seqb_spec a b) as [<-|Hab].
      * apply split2_spec in E2 as (-> & Ha & _). now apply (nu_ratio unitless_names a).
      * apply is_unitless_name in E as (n & p & q & Hn & E & Hpq & He). exact (nu_name unitless_names x n p q Hn E Hpq He).
    + apply is_unitless_name in E as (n & p & q & Hn & E & Hpq & He). exact (nu_name unitless_names x n p q Hn E Hpq He).
  - right. intros H. apply norm_no_unit in H. congruence.
Qed.

(** ** Powers are never unitless *)
Lemma lower_dec c : is_dec c = true -> clower c = c.
Proof.
  intros H. apply is_dec_range in H. unfold clower.
  repeat match goal with |- context [if ?b then _ else _] => let E := fresh in destruct b eqn:E; [exfalso|] end; try reflexivity;
    rewrite ?andb_true_iff, ?N.leb_le, ?N.eqb_eq in *; lia.
Qed.
Lemma power_unitless b n : base_name b -> is_unitless unitless_names (b ++ str_of_Z n) = false.
Proof.
  intros H. destruct (is_unitless unitless_names (b ++ str_of_Z n)) eqn:E; [exfalso|reflexivity].
  apply is_unitless_name in E as (k & p & q & Hk & E & Hpq & _).
  assert (exists y d, str_of_Z n = y ++ [d] /\ is_dec d = true) as (y & d & Ey & Hd).
  { destruct n as [|z|z]; cbn [str_of_Z]; [now exists [], 48| |].
    - destruct (exists_last (str_of_N_nonnil (Npos z))) as (y & d & E1). exists y, d. split; [exact E1|].
      apply (all_dec_In _ _ (str_of_N_dec (Npos z))). rewrite E1. apply in_app_iff. right. now left.
    - destruct (exists_last (str_of_N_nonnil (Npos z))) as (y & d & E1). exists (45 :: y), d. split; [now rewrite E1|].
      apply (all_dec_In _ _ (str_of_N_dec (Npos z))). rewrite E1. apply in_app_iff. right. now left. }
  assert (In d k) as Hdk.
  { unfold lower in E. rewrite Ey, !map_app in E. cbn [map] in E. rewrite (lower_dec d Hd) in E.
    assert (In d (p ++ k ++ q)) as Hi by (rewrite <- E; rewrite !in_app_iff; right; right; now left).
    apply in_app_iff in Hi as [Hi|Hi]; [exfalso|apply in_app_iff in Hi as [Hi|Hi]; [exact Hi|exfalso]].
    - assert (In d (u " ()")) as Hp by (apply Hpq, in_app_iff; now left). revert Hp. apply dec_not; [exact Hd|reflexivity].
    - assert (In d (u " ()")) as Hp by (apply Hpq, in_app_iff; now right). revert Hp. apply dec_not; [exact Hd|reflexivity]. }
  assert (In c_slash k \/ forallb (fun c => negb (is_dec c)) k = true) as [Hs|Hs].
  { cbn [unitless_names map In] in Hk.
    repeat (destruct Hk as [<-|Hk]; [first [right; reflexivity|left; now left]|]). destruct Hk. }
  - assert (In c_slash (lower (b ++ str_of_Z n))) as Hi by (rewrite E, !in_app_iff; tauto).
    unfold lower in Hi. apply in_map_iff in Hi as (c & Hc & Hi). apply clower_slash in Hc. subst c.
    now apply (power_noslash b n H).
  - rewrite forallb_forall in Hs. apply Hs in Hdk. now rewrite Hd in Hdk.
Qed.
Lemma split2_noslash x : ~ In c_slash x -> norm (Some x) = or_dimless (Some x) \/ norm (Some x) = dimensionless.
Proof.
  intros H. unfold norm, or_dimless. destruct (strip_chars sp_par x); [right; reflexivity|left]. now rewrite (split2_no c_slash x H).
Qed.
Lemma power_or_dimless b n : or_dimless (Some (b ++ str_of_Z n)) = b ++ str_of_Z n.
Proof.
  unfold or_dimless. destruct (strip_chars sp_par (b ++ str_of_Z n)) eqn:E; [exfalso|reflexivity].
  apply strip_nil in E. pose proof (str_of_Z_nonnil n) as Hn. destruct (str_of_Z n) as [|c r] eqn:Er; [congruence|].
  assert (In c sp_par) as Hc by (apply E, in_app_iff; right; now left).
  assert (is_dec c = true \/ c = c_minus) as [Hd|Hd] by (apply (str_of_Z_chars n); rewrite Er; now left).
  - revert Hc. apply dec_not; [exact Hd|reflexivity].
  - subst c. cbn in Hc. repeat destruct Hc as [Hc|Hc]; discriminate || exact Hc.
Qed.
(** a base name that names a unit: its powers too *)
Lemma powname_ok b n : base_name b -> ~ no_unit unitless_names (Some b) ->
  or_dimless (Some (powname b n)) = powname b n /\ norm (Some (powname b n)) = powname b n
  /\ is_unitless unitless_names (powname b n) = false.
Proof.
  intros H Hb. unfold powname. destruct (Z.eqb_spec n 1) as [_|_]; [now apply not_no_unit|].
  pose proof (power_or_dimless b n) as Eo. split; [exact Eo|]. split; [|now apply power_unitless].
  unfold norm. cbv zeta. change (or_dimless (@Some str (b ++ str_of_Z n))) with (or_dimless (Some (b ++ str_of_Z n))). rewrite Eo. now rewrite split2_no by now apply power_noslash.
Qed.

Section F.
Context {F : Floats}.
(** ** [unit_power] *)
Lemma unit_power_powname b m n : base_name b -> ~ no_unit unitless_names (Some b) ->
  unit_power (Some (powname b m)) (ANum (PI n)) = Ok (if (m * n =? 0)%Z then dimensionless else powname b (m * n)).
Proof.
  intros H Hb. unfold unit_power. destruct (powname_ok b m H Hb) as (-> & _). rewrite ubp_powname by exact H.
  cbn [rbind]. cbn [p_mul p_op p_eqZ p_str]. destruct (m * n =? 0)%Z; [reflexivity|].
  unfold powname. now destruct (m * n =? 1)%Z.
Qed.
(** ** [unit_inverse] *)
Lemma unit_inverse_powname b n : base_name b -> ~ no_unit unitless_names (Some b) -> n <> 0%Z ->
  unit_inverse unitless_names (Some (powname b n)) = Ok (powname b (- n)).
Proof.
  intros H Hb Hn. unfold unit_inverse. destruct (powname_ok b n H Hb) as (-> & _ & ->). rewrite ubp_powname by exact H.
  cbn [rbind]. cbn [p_eqZ p_ltZ p_gtZ p_abs p_mul p_op p_str].
  destruct (Z.eqb_spec n (-1)) as [->|H1]; [reflexivity|]. unfold powname.
  destruct (Z.ltb_spec n (-1)) as [H2|H2].
  { destruct (Z.eqb_spec (- n) 1); [lia|]. now rewrite Z.abs_neq by lia. }
  destruct (Z.ltb_spec 1 n) as [H3|H3].
  { destruct (Z.eqb_spec (- n) 1); [lia|]. now replace (-1 * n)%Z with (- n)%Z by lia. }
  assert (n = 1%Z) as -> by lia. cbn [Z.eqb Pos.eqb]. rewrite csplit_no by now apply base_noslash. reflexivity.
Qed.
End F.
