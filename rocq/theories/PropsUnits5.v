(** * Properties of quantities: products and quotients of different kinds (C37, C73)

    The vocabulary is that of PropsUnits.v, UnitsSpec2.v and UnitsSpec3.v. *)
From Coq Require Import String QArith Qcanon Qround Lia.
From Verif Require Import Py StrTools Network SearchSpec Conv Converter EngineSpec ConsistSpec Demo OpsSpec
  Dict Database Shipped Operations ShippedSpec ShippedCert ShippedCheck ShippedFacts ShippedFacts2 Units UnitsSpec UnitsSpec2 UnitsSpec3 NumFacts PropsShipped ShippedFacts5 UnitsFacts UnitsFacts4 UnitsFacts5 UnitsFacts6 UnitsFacts7 UnitsFacts8 UnitsFacts9 IsUnitFacts2 PropsUnits PropsUnits2.
Local Open Scope Qc_scope.
Local Opaque all_kinds merge_data.

(** the tables of the code are those of the specification *)
Lemma product_law k k' : (forall t, product_unit k k' = Some t <-> law product_laws k k' t).
Proof.
  intros t. unfold law. split.
  - intros X. unfold product_unit in X. destruct (find _ _) as [[[x y] z]|] eqn:X0 in X; [|discriminate X]. injection X as <-. destruct (find_some _ _ X0) as (I & E).
    apply andb_prop in E. destruct E as (E1 & E2). apply seqb_eq in E1. apply seqb_eq in E2. exists x, y, z. split; [exact I|]. split; [exact E1|]. split; [exact E2|reflexivity].
  - intros (x & y & z & I & -> & -> & ->).
    destruct I as [I|[I|[I|[I|[I|[I|[I|[]]]]]]]]; injection I as <- <- <-; vm_compute; reflexivity.
Qed.
Lemma quotient_law k k' : (forall t, quotient_unit k k' = Some t <-> law quotient_laws k k' t).
Proof.
  intros t. unfold law. split.
  - intros X. unfold quotient_unit in X. destruct (find _ _) as [[[x y] z]|] eqn:X0 in X; [|discriminate X]. injection X as <-. destruct (find_some _ _ X0) as (I & E).
    apply andb_prop in E. destruct E as (E1 & E2). apply seqb_eq in E1. apply seqb_eq in E2. exists x, y, z. split; [exact I|]. split; [exact E1|]. split; [exact E2|reflexivity].
  - intros (x & y & z & I & -> & -> & ->).
    destruct I as [I|[I|[I|[I|[I|[I|[I|[]]]]]]]]; injection I as <- <- <-; vm_compute; reflexivity.
Qed.
Lemma no_product k k' : no_law product_laws k k' -> product_unit k k' = None.
Proof. intros N. destruct (product_unit k k') as [t|] eqn:X; [|reflexivity]. exfalso. exact (N t (proj1 (product_law k k' t) X)). Qed.
Lemma no_quotient k k' : no_law quotient_laws k k' -> quotient_unit k k' = None.
Proof. intros N. destruct (quotient_unit k k') as [t|] eqn:X; [|reflexivity]. exfalso. exact (N t (proj1 (quotient_law k k' t) X)). Qed.

Section P.
Context {F : Floats} {P : Pow} {E : Eval}.
(** ** C37: kinds without a law *)
Lemma cross_product : forall s k k' a b n w, tame_eval -> calculating s -> during s w -> In k square_kinds -> In k' square_kinds -> k <> k' -> ~ In (k, k') merged -> product_unit k k' = None ->
  quantity_of k a -> quantity_of k' b -> plain_base (q_unit a) -> plain_base (q_unit b) -> (~ In 39%N (q_unit a) /\ ~ In 39%N (q_unit b)) \/ (~ In 34%N (q_unit a) /\ ~ In 34%N (q_unit b)) ->
  unlisted (q_unit a ++ u "*" ++ q_unit b)%list -> unlisted (q_unit b ++ u "*" ++ q_unit a)%list ->
  exists r, fst (mul n a (PQ b) w) = Ok (PQ r) /\ q_unit r = (q_unit a ++ u "*" ++ q_unit b)%list /\ q_val r = q_val a * q_val b.
Proof. by_calc gen_cross_mul. Qed.
Lemma cross_quotient : forall s k k' a b n w, tame_eval -> calculating s -> during s w -> In k square_kinds -> In k' square_kinds -> k <> k' -> ~ In (k, k') merged ->
  quantity_of k a -> quantity_of k' b -> plain_base (q_unit a) -> plain_base (q_unit b) -> (~ In 39%N (q_unit a) /\ ~ In 39%N (q_unit b)) \/ (~ In 34%N (q_unit a) /\ ~ In 34%N (q_unit b)) ->
  unlisted (q_unit a ++ u "/" ++ q_unit b)%list -> q_val b <> 0 ->
  (quotient_unit k k' = None -> exists r, fst (truediv n a (PQ b) w) = Ok (PQ r) /\ q_unit r = (q_unit a ++ u "/" ++ q_unit b)%list /\ q_val r = q_val a / q_val b)
  /\ exists r, fst (floordiv n a (PQ b) w) = Ok (PQ r) /\ q_unit r = (q_unit a ++ u "/" ++ q_unit b)%list /\ q_val r = zq (Qfloor (q_val a / q_val b)%Qc).
Proof. by_calc gen_cross_div. Qed.
(** the product of quantities of two kinds is in the product of the units, with the product of the numbers *)
Theorem C37_cross_product_partial : forall s k k' a b n w, tame_eval -> calculating s -> during s w -> In k square_kinds -> In k' square_kinds -> k <> k' -> ~ In (k, k') merged -> no_law product_laws k k' ->
  quantity_of k a -> quantity_of k' b -> plain_base (q_unit a) -> plain_base (q_unit b) -> (~ In 39%N (q_unit a) /\ ~ In 39%N (q_unit b)) \/ (~ In 34%N (q_unit a) /\ ~ In 34%N (q_unit b)) ->
  unlisted (q_unit a ++ u "*" ++ q_unit b)%list -> unlisted (q_unit b ++ u "*" ++ q_unit a)%list ->
  exists r, fst (mul n a (PQ b) w) = Ok (PQ r) /\ q_unit r = (q_unit a ++ u "*" ++ q_unit b)%list /\ q_val r = q_val a * q_val b.
Proof. intros s k k' a b n w Te C D K K' N M L. exact (cross_product s k k' a b n w Te C D K K' N M (no_product _ _ L)). Qed.
Theorem C37_cross_quotient_partial : forall s k k' a b n w, tame_eval -> calculating s -> during s w -> In k square_kinds -> In k' square_kinds -> k <> k' -> ~ In (k, k') merged -> no_law quotient_laws k k' ->
  quantity_of k a -> quantity_of k' b -> plain_base (q_unit a) -> plain_base (q_unit b) -> (~ In 39%N (q_unit a) /\ ~ In 39%N (q_unit b)) \/ (~ In 34%N (q_unit a) /\ ~ In 34%N (q_unit b)) ->
  unlisted (q_unit a ++ u "/" ++ q_unit b)%list -> q_val b <> 0 ->
  exists r, fst (truediv n a (PQ b) w) = Ok (PQ r) /\ q_unit r = (q_unit a ++ u "/" ++ q_unit b)%list /\ q_val r = q_val a / q_val b.
Proof. intros s k k' a b n w Te C D K K' N M L Qa Qb Pa Pb Q U Z. exact (proj1 (cross_quotient s k k' a b n w Te C D K K' N M Qa Qb Pa Pb Q U Z) (no_quotient _ _ L)). Qed.
(** a // b of two kinds (with a law or not) *)
Theorem C59_cross_quotient_partial : forall s k k' a b n w, tame_eval -> calculating s -> during s w -> In k square_kinds -> In k' square_kinds -> k <> k' -> ~ In (k, k') merged ->
  quantity_of k a -> quantity_of k' b -> plain_base (q_unit a) -> plain_base (q_unit b) -> (~ In 39%N (q_unit a) /\ ~ In 39%N (q_unit b)) \/ (~ In 34%N (q_unit a) /\ ~ In 34%N (q_unit b)) ->
  unlisted (q_unit a ++ u "/" ++ q_unit b)%list -> q_val b <> 0 ->
  exists r, fst (floordiv n a (PQ b) w) = Ok (PQ r) /\ q_unit r = (q_unit a ++ u "/" ++ q_unit b)%list /\ q_val r = zq (Qfloor (q_val a / q_val b)%Qc).
Proof. intros s k k' a b n w Te C D K K' N M Qa Qb Pa Pb Q U Z. exact (proj2 (cross_quotient s k k' a b n w Te C D K K' N M Qa Qb Pa Pb Q U Z)). Qed.

(** ** C73: kinds with a law *)
Lemma construct_unit k v x w q w' : strip x = x -> construct k v x w = (Ok q, w') -> q_unit q = x.
Proof.
  intros Sx. unfold construct. destruct (is_k k "Unit"). { destruct (smem (strip x) (w_all w)); [|discriminate 1]. destruct v as [v|]; [|discriminate 1]. injection 1 as <- _. reflexivity. }
  destruct (is_k k "UserUnits"). { cbv zeta. rewrite Sx. destruct v as [v|]; [|discriminate 1]. injection 1 as <- _. reflexivity. }
  destruct (is_k k "Date"); [discriminate 1|]. destruct (smem k classes); [|discriminate 1]. destruct v as [v|]; [|discriminate 1].
  destruct (smem x (class_units k w)); [|discriminate 1]. injection 1 as <- _. reflexivity.
Qed.
Lemma units_unit v x w r w' : strip x = x -> literal x = Some x -> units_of v x w = (Ok r, w') -> exists q, r = PQ q /\ q_unit q = x.
Proof.
  intros Sx Lx. unfold units_of, wbind. destruct (units (PN v) (AUnitStr x) false w) as [[q|e] w1] eqn:Y; [|discriminate 1]. injection 1 as <- _. exists q. split; [reflexivity|].
  revert Y. unfold units. cbv beta iota zeta. unfold wbind, wget. rewrite Sx. destruct (smem x (uncertain w)).
  { exact (construct_unit (u "Unit") (Some v) x w q w1 Sx). }
  destruct (first_kind x w) as [k|]; [|exact (construct_unit (u "UserUnits") (Some v) x w q w1 Sx)].
  unfold units_kind, wbind. rewrite Lx. destruct (construct k (Some 0) x w) as [[q0|e] w2] eqn:Y; [|discriminate 1]. injection 1 as <- _. exact (construct_unit k (Some 0) x w q0 w2 Sx Y).
Qed.
(** the converted number of a quantity *)
Definition converts_to (p : qty) (t : str) (v : Qc) (w : world) : Prop := fst (run (Converter.convert (VNum (q_val p)) (UStr (q_unit p)) (UStr t) None) w) = Ok (Some (CVal v)).
Lemma to_unit p t w r w' : strip t = t -> literal t = Some t -> t <> [] -> to p (Some t) w = (Ok r, w') ->
  exists q, r = PQ q /\ ((q_unit q = t /\ (kindless (q_kind p) = false -> q_kind p <> u "Unit" -> exists w1, converts_to p t (q_val q) w1)) \/ (q = p /\ q_kind p = u "UserUnits" /\ fst (run (convertible (q_unit p) t None) w) = Ok false)).
Proof.
  intros St Lt Nt. unfold to. destruct (kindless (q_kind p)) eqn:Kl.
  { destruct t as [|c t]; [contradiction|]. set (x := c :: t) in *. unfold wbind at 1, wget.
    destruct (smem x (class_units (u "Percentage") w)).
    { unfold make, wbind. destruct (construct _ _ x w) as [[q|e] w1] eqn:Y; [|discriminate 1]. injection 1 as <- _. exists q. split; [reflexivity|]. left. split; [exact (construct_unit _ _ _ _ _ _ St Y)|discriminate 1]. }
    destruct (smem x (class_units (u "Dimensionless") w)).
    { unfold make, wbind. destruct (construct _ _ x w) as [[q|e] w1] eqn:Y; [|discriminate 1]. injection 1 as <- _. exists q. split; [reflexivity|]. left. split; [exact (construct_unit _ _ _ _ _ _ St Y)|discriminate 1]. }
    intros Y. destruct (units_unit _ _ _ _ _ St Lt Y) as (q & -> & U). exists q. split; [reflexivity|]. left. split; [exact U|discriminate 1]. }
  unfold wbind at 1. unfold convertible_. destruct (run (convertible (q_unit p) t None) w) as [[c|e] w1] eqn:C1; [|discriminate 1]. cbn [fst]. destruct c.
  - unfold wbind at 1. destruct (conv_opt (q_val p) (q_unit p) t w1) as [[v|e] w2] eqn:C2; [|discriminate 1].
    destruct (is_k (q_kind p) "Unit") eqn:Ku.
    { destruct v as [v|]; [|discriminate 1]. intros Y. destruct (units_unit _ _ _ _ _ St Lt Y) as (q & -> & U). exists q. split; [reflexivity|]. left. split; [exact U|]. intros _ N. apply seqb_eq in Ku. contradiction. }
    unfold wbind. destruct (construct (q_kind p) v t w2) as [[q|e] w3] eqn:Y; [|discriminate 1]. injection 1 as <- _. exists q. split; [reflexivity|]. left. split; [exact (construct_unit _ _ _ _ _ _ St Y)|].
    intros _ _. exists w1. unfold converts_to. revert C2. unfold conv_opt, wbind. destruct (run _ w1) as [[o|e] w4]; [|discriminate 1]. cbn [fst].
    assert (Kp : is_k (q_kind p) "Percentage" = false) by (unfold kindless in Kl; apply orb_false_iff in Kl; exact (proj2 Kl)).
    assert (V : v = Some (q_val q)). { revert Y. unfold construct. rewrite Ku, Kp. destruct (is_k (q_kind p) "UserUnits"); [cbv zeta|destruct (is_k (q_kind p) "Date"); [discriminate 1|]; destruct (smem (q_kind p) classes); [|discriminate 1]]; destruct v as [v|]; try discriminate 1.
      - injection 1 as <- _. reflexivity.
      - destruct (smem t _); [|discriminate 1]. injection 1 as <- _. reflexivity. }
    rewrite V. destruct o as [[z|z]|]; try discriminate 1; injection 1 as -> _; reflexivity.
  - destruct (is_k (q_kind p) "UserUnits") eqn:Ku; [|discriminate 1]. injection 1 as <- _. exists p. split; [reflexivity|]. right. split; [reflexivity|]. split; [apply seqb_eq; exact Ku|reflexivity].
Qed.
Lemma law_names laws k k' t : (forall x, In x laws -> In x (product_laws ++ quotient_laws)) -> law laws k k' t -> strip t = t /\ literal t = Some t /\ t <> [].
Proof.
  intros I (x & y & z & I0 & _ & _ & ->). apply I in I0.
  assert (A : forallb (fun e : string * string * string => let z := u (snd e) in seqb (strip z) z && match literal z with Some y => seqb y z | None => false end && negb (seqb z [])) (product_laws ++ quotient_laws) = true) by (vm_compute; reflexivity).
  rewrite forallb_forall in A. specialize (A _ I0). cbn [snd] in A. cbv zeta in A. apply andb_prop in A. destruct A as (A & A3). apply andb_prop in A. destruct A as (A1 & A2).
  split; [apply seqb_eq; exact A1|]. split.
  - destruct (literal (u z)) as [y0|]; [|discriminate A2]. apply seqb_eq in A2. rewrite A2. reflexivity.
  - intros Z. rewrite Z in A3. discriminate A3.
Qed.
Lemma then_law m t w r w' : strip t = t -> literal t = Some t -> t <> [] -> then_to m (Some t) w = (Ok r, w') ->
  exists p w1 q, m w = (Ok (PQ p), w1) /\ r = PQ q
   /\ ((q_unit q = t /\ (kindless (q_kind p) = false -> q_kind p <> u "Unit" -> exists w2, converts_to p t (q_val q) w2))
       \/ (q = p /\ q_kind p = u "UserUnits" /\ fst (run (convertible (q_unit p) t None) w1) = Ok false)).
Proof.
  intros St Lt Nt. unfold then_to, wbind. destruct (m w) as [[x|e] w1]; [|discriminate 1]. unfold wlift. destruct x as [q| | |]; try discriminate 1. cbn [as_qty].
  intros Y. destruct (to_unit q t w1 r w' St Lt Nt Y) as (q1 & -> & Z). exists q, w1, q1. split; [reflexivity|]. split; [reflexivity|exact Z].
Qed.
(** when there is a law and the product is returned, it is in the unit of the law, with the plain product converted to it; or the
    plain product could not be converted, and is returned *)
Theorem C73_product_partial : forall k k' t a b n w r w', law product_laws k k' t -> q_kind a = k -> q_kind b = k' -> mul n a (PQ b) w = (Ok r, w') ->
  exists p w1 q, mul_qty a b w = (Ok (PQ p), w1) /\ r = PQ q
   /\ ((q_unit q = t /\ (kindless (q_kind p) = false -> q_kind p <> u "Unit" -> exists w2, converts_to p t (q_val q) w2))
       \/ (q = p /\ q_kind p = u "UserUnits" /\ fst (run (convertible (q_unit p) t None) w1) = Ok false)).
Proof.
  intros k k' t a b n w r w' L Ka Kb Y. destruct (law_names product_laws k k' t) as (St & Lt & Nt). { intros x I. apply in_or_app. left. exact I. } { exact L. }
  apply (then_law (mul_qty a b) t w r w' St Lt Nt). rewrite <- Y. destruct n; cbn [mul]; rewrite Ka, Kb, (proj2 (product_law k k' t) L); reflexivity.
Qed.
Theorem C73_quotient_partial : forall k k' t a b n w r w', law quotient_laws k k' t -> q_kind a = k -> q_kind b = k' -> truediv n a (PQ b) w = (Ok r, w') ->
  exists p w1 q, div_qty qdiv a b w = (Ok (PQ p), w1) /\ r = PQ q
   /\ ((q_unit q = t /\ (kindless (q_kind p) = false -> q_kind p <> u "Unit" -> exists w2, converts_to p t (q_val q) w2))
       \/ (q = p /\ q_kind p = u "UserUnits" /\ fst (run (convertible (q_unit p) t None) w1) = Ok false)).
Proof.
  intros k k' t a b n w r w' L Ka Kb Y. destruct (law_names quotient_laws k k' t) as (St & Lt & Nt). { intros x I. apply in_or_app. right. exact I. } { exact L. }
  apply (then_law (div_qty qdiv a b) t w r w' St Lt Nt). rewrite <- Y. destruct n; cbn [truediv]; rewrite Ka, Kb, (proj2 (quotient_law k k' t) L); reflexivity.
Qed.
(** without a law, the product and the quotient are those of any kinds *)
Theorem C73_no_law : forall a b n, 
  (no_law product_laws (q_kind a) (q_kind b) -> mul n a (PQ b) = mul_qty a b) /\ (no_law quotient_laws (q_kind a) (q_kind b) -> truediv n a (PQ b) = div_qty qdiv a b).
Proof. intros a b n. split; intros N; destruct n; cbn [mul truediv]; [rewrite (no_product _ _ N)|rewrite (no_product _ _ N)|rewrite (no_quotient _ _ N)|rewrite (no_quotient _ _ N)]; reflexivity. Qed.
(** ... so that a voltage times a current is in watts (or was not understood), and the same current times the same voltage is not *)
Lemma more_names x k : In (x, k) [("ft", Some "Length"); ("min", Some "Time"); ("ft*min", None); ("min*ft", None); ("min/ft", None); ("mA*kV", None); ("kV*mA", None); ("mA", Some "Current"); ("kV", Some "Voltage")]%string ->
  first_in (merge_data (db_kinds shipped_db)) (u x) = option_map u k.
Proof.
  intros I. refine (more_first cert shipped_db shipped_checked x k _). destruct I as [I|[I|I]]; [rewrite <- I; right; right; left; reflexivity|rewrite <- I; do 5 right; left; reflexivity|]. do 8 right. exact I.
Qed.
Lemma more_listed x k : In (x, Some k) [("ft", Some "Length"); ("min", Some "Time"); ("ft*min", None); ("min*ft", None); ("min/ft", None); ("mA*kV", None); ("kV*mA", None); ("mA", Some "Current"); ("kV", Some "Voltage")]%string -> listed_as (u k) (u x).
Proof. intros I. exact (gen_first_listed cert shipped_db shipped_checked _ _ (more_names x (Some k) I)). Qed.
Lemma more_unlisted x : In (x, None) [("ft", Some "Length"); ("min", Some "Time"); ("ft*min", None); ("min*ft", None); ("min/ft", None); ("mA*kV", None); ("kV*mA", None); ("mA", Some "Current"); ("kV", Some "Voltage")]%string -> unlisted (u x).
Proof. intros I. unfold unlisted. apply IsUnitFacts2.first_none_in. exact (more_names x None I). Qed.
Lemma no_law_b laws k k' : forallb (fun e : string * string * string => let '(x, y, _) := e in negb (seqb k (u x) && seqb k' (u y))) laws = true -> no_law laws k k'.
Proof. intros A t (x & y & z & I & -> & -> & _). rewrite forallb_forall in A. specialize (A _ I). cbv beta iota in A. rewrite !seqb_refl in A. discriminate A. Qed.
Theorem C73_refuted : forall s w w' n v v', tame_eval -> calculating s -> during s w -> during s w' ->
  let i := Qty (u "Current") (u "mA") v in let e := Qty (u "Voltage") (u "kV") v' in
  law product_laws (q_kind e) (q_kind i) (u "Watt")
  /\ (exists q, fst (mul n i (PQ e) w) = Ok (PQ q) /\ q_unit q = u "mA*kV" /\ q_val q = v * v')
  /\ (forall q, fst (mul n e (PQ i) w') = Ok (PQ q) -> q_unit q <> u "mA*kV" \/ q_kind q = u "UserUnits").
Proof.
  intros s w w' n v v' Te C D D'. cbv zeta. set (i := Qty _ _ v). set (e := Qty _ _ v').
  assert (Pi : plain_base (u "mA")) by exact (UnitsFacts3.letters_plain (u "mA") eq_refl). assert (Pe : plain_base (u "kV")) by exact (UnitsFacts3.letters_plain (u "kV") eq_refl).
  assert (Li : listed_as (u "Current") (u "mA")) by (apply (more_listed "mA" "Current")%string; do 7 right; left; reflexivity).
  assert (Le : listed_as (u "Voltage") (u "kV")) by (apply (more_listed "kV" "Voltage")%string; do 8 right; left; reflexivity).
  assert (Lw : law product_laws (u "Voltage") (u "Current") (u "Watt")).
  { exists "Voltage"%string, "Current"%string, "Watt"%string. split; [do 4 right; left; reflexivity|]. split; [reflexivity|]. split; reflexivity. }
  split; [exact Lw|]. split.
  - refine (C37_cross_product_partial s (u "Current") (u "Voltage") i e n w Te C D _ _ _ _ _ _ _ Pi Pe _ _ _).
    + apply smem_In. vm_compute. reflexivity.
    + apply smem_In. vm_compute. reflexivity.
    + intros X. discriminate X.
    + intros X. assert (B : existsb (fun p : str * str => seqb (u "Current") (fst p) && seqb (u "Voltage") (snd p)) merged = true) by (apply existsb_exists; exists (u "Current", u "Voltage"); split; [exact X|cbn [fst snd]; rewrite !seqb_refl; reflexivity]).
      vm_compute in B. discriminate B.
    + apply no_law_b. vm_compute. reflexivity.
    + split; [reflexivity|]. split; [exact Li|exact (proj1 Pi)].
    + split; [reflexivity|]. split; [exact Le|exact (proj1 Pe)].
    + left. split; intros X; apply cmem_In in X; vm_compute in X; discriminate X.
    + apply (more_unlisted "mA*kV"). do 5 right. left. reflexivity.
    + apply (more_unlisted "kV*mA"). do 6 right. left. reflexivity.
  - intros q R. destruct (mul n e (PQ i) w') as [[r|x] w2] eqn:M; [|discriminate R]. injection R as ->.
    destruct (C73_product_partial (u "Voltage") (u "Current") (u "Watt") e i n w' (PQ q) w2 Lw eq_refl eq_refl M) as (p & w1 & q1 & _ & Y & Z). injection Y as <-.
    destruct Z as [(U & _)|(-> & K & _)]; [|right; exact K]. left. rewrite U. intros X. vm_compute in X. discriminate X.
Qed.
(** *** The hypotheses are met: six feet times three minutes, and three minutes over six feet *)
Lemma units5_example_of (s : st Qc) : tame_eval -> calculating s ->
  let a := Qty (u "Length") (u "ft") (Q2Qc 6) in let b := Qty (u "Time") (u "min") (Q2Qc 3) in
  let w := do_acts [DAdd a (PQ a); DMul 0 a (PQ b)] (world_of s shipped_kinds) in
  during s w
  /\ (exists r, fst (mul 0 a (PQ b) w) = Ok (PQ r) /\ q_unit r = u "ft*min" /\ q_val r = Q2Qc 18)
  /\ (exists r, fst (truediv 0 b (PQ a) w) = Ok (PQ r) /\ q_unit r = u "min/ft" /\ q_val r = Q2Qc (1 # 2))
  /\ (exists r, fst (floordiv 0 b (PQ a) w) = Ok (PQ r) /\ q_unit r = u "min/ft" /\ q_val r = 0).
Proof.
  intros Te C a b. cbv zeta. set (w := do_acts _ _).
  assert (D : during s w) by (exists [DAdd a (PQ a); DMul 0 a (PQ b)]; split; [constructor; [exact I|constructor; [exact I|constructor]]|unfold w; reflexivity]).
  assert (Pa : plain_base (u "ft")) by exact (UnitsFacts3.letters_plain (u "ft") eq_refl). assert (Pb : plain_base (u "min")) by exact (UnitsFacts3.letters_plain (u "min") eq_refl).
  assert (La : listed_as (u "Length") (u "ft")) by (apply (more_listed "ft" "Length")%string; left; reflexivity).
  assert (Lb : listed_as (u "Time") (u "min")) by (apply (more_listed "min" "Time")%string; right; left; reflexivity).
  assert (K1 : In (u "Length") square_kinds) by (apply smem_In; vm_compute; reflexivity).
  assert (K2 : In (u "Time") square_kinds) by (apply smem_In; vm_compute; reflexivity).
  assert (N1 : u "Length" <> u "Time") by (intros X; discriminate X).
  assert (N2 : u "Time" <> u "Length") by (intros X; discriminate X).
  assert (M : forall x y, existsb (fun p : str * str => seqb x (fst p) && seqb y (snd p)) merged = false -> ~ In (x, y) merged).
  { intros x y B X. assert (B1 : existsb (fun p : str * str => seqb x (fst p) && seqb y (snd p)) merged = true) by (apply existsb_exists; exists (x, y); split; [exact X|cbn [fst snd]; rewrite !seqb_refl; reflexivity]). rewrite B in B1. discriminate B1. }
  assert (M1 : ~ In (u "Length", u "Time") merged) by (apply M; vm_compute; reflexivity).
  assert (M2 : ~ In (u "Time", u "Length") merged) by (apply M; vm_compute; reflexivity).
  assert (Qa : quantity_of (u "Length") a) by (split; [reflexivity|]; split; [exact La|exact (proj1 Pa)]).
  assert (Qb : quantity_of (u "Time") b) by (split; [reflexivity|]; split; [exact Lb|exact (proj1 Pb)]).
  assert (L1 : no_law product_laws (u "Length") (u "Time")) by (apply no_law_b; vm_compute; reflexivity).
  assert (L2 : no_law quotient_laws (u "Time") (u "Length")) by (apply no_law_b; vm_compute; reflexivity).
  assert (Nv : q_val a <> 0) by (intros X; discriminate X).
  assert (Nq : forall x y : str, cmem 39%N x = false -> cmem 39%N y = false -> (~ In 39%N x /\ ~ In 39%N y) \/ (~ In 34%N x /\ ~ In 34%N y)).
  { intros x y X Y. left. split; intros Z; apply cmem_In in Z; [rewrite X in Z|rewrite Y in Z]; discriminate Z. }
  split; [exact D|]. split; [|split].
  - destruct (C37_cross_product_partial s _ _ a b 0%nat w Te C D K1 K2 N1 M1 L1 Qa Qb Pa Pb (Nq (u "ft") (u "min") eq_refl eq_refl)) as (r & R1 & R2 & R3).
    + apply (more_unlisted "ft*min"). do 2 right. left. reflexivity.
    + apply (more_unlisted "min*ft"). do 3 right. left. reflexivity.
    + exists r. split; [exact R1|]. split; [exact R2|]. rewrite R3. apply Qc_is_canon. vm_compute. reflexivity.
  - destruct (C37_cross_quotient_partial s _ _ b a 0%nat w Te C D K2 K1 N2 M2 L2 Qb Qa Pb Pa (Nq (u "min") (u "ft") eq_refl eq_refl)) as (r & R1 & R2 & R3).
    + apply (more_unlisted "min/ft"). do 4 right. left. reflexivity.
    + exact Nv.
    + exists r. split; [exact R1|]. split; [exact R2|]. rewrite R3. apply Qc_is_canon. vm_compute. reflexivity.
  - destruct (C59_cross_quotient_partial s _ _ b a 0%nat w Te C D K2 K1 N2 M2 Qb Qa Pb Pa (Nq (u "min") (u "ft") eq_refl eq_refl)) as (r & R1 & R2 & R3).
    + apply (more_unlisted "min/ft"). do 4 right. left. reflexivity.
    + exact Nv.
    + exists r. split; [exact R1|]. split; [exact R2|]. rewrite R3. apply Qc_is_canon. vm_compute. reflexivity.
Qed.
End P.
Print Assumptions C37_cross_product_partial.
Print Assumptions C37_cross_quotient_partial.
Print Assumptions C59_cross_quotient_partial.
Print Assumptions C73_product_partial.
Print Assumptions C73_quotient_partial.
Print Assumptions C73_no_law.
Print Assumptions C73_refuted.
Example units5_example := units5_example_of (F := PropsOps.tenths) (P := PropsUnits.demo_pow) (E := PropsUnits.demo_eval) PropsShipped.shipped_start PropsUnits.demo_tame PropsUnits.shipped_start_calculating.
