(** * Every operation on quantities only converts and names user units *)
From Coq Require Import String QArith Qcanon Lia.
From Verif Require Import Py StrTools Network NetworkFacts SearchSpec Conv Converter EngineSpec EngineFacts EngineFacts4 EngineFacts6 EngineFacts7 PropsEngine OpsFacts2 ConsistSpec Demo Dict Database Shipped
  Operations ShippedSpec ShippedFacts2 Units UnitsSpec KindFacts.
Local Open Scope N_scope.

(** ** Functions of the converter *)
Definition quietM {X} (m : M Qc X) : Prop := forall s, exists l, Forall converts l /\ snd (m s) = do_calls l s.
Lemma quiet_pure {X} (m : M Qc X) : (forall s, snd (m s) = s) -> quietM m.
Proof. intros H s. exists []. split; [constructor|apply H]. Qed.
Lemma quiet_ret {X} (x : X) : quietM (ret x). Proof. now apply quiet_pure. Qed.
Lemma quiet_raise {X} e : quietM (raise (X:=X) e). Proof. now apply quiet_pure. Qed.
Lemma quiet_lift {X} (r : res X) : quietM (lift r). Proof. apply quiet_pure. now destruct r. Qed.
Lemma quiet_bind {X Y} (m : M Qc X) (k : X -> M Qc Y) : quietM m -> (forall x, quietM (k x)) -> quietM (bind m k).
Proof.
  intros Hm Hk s. destruct (Hm s) as (l & L & E). unfold bind. destruct (m s) as [[x|e] s1]; cbn [snd] in E; subst s1; [|exists l; auto].
  destruct (Hk x (do_calls l s)) as (l' & L' & E'). exists (l ++ l')%list. split; [now apply Forall_app|]. now rewrite do_calls_app.
Qed.
Lemma quiet_convert v f t uc : quietM (convert (V:=Qc) v f t uc).
Proof. intros s. exists [KConvert v f t uc]. split; [repeat constructor|reflexivity]. Qed.
Lemma quiet_convertible f t uc : quietM (convertible (V:=Qc) f t uc).
Proof. intros s. exists [KConvertible f t uc]. split; [repeat constructor|reflexivity]. Qed.
Section Ops.
Context {F : Floats}.
Ltac quiet := repeat first [apply quiet_ret | apply quiet_lift | apply quiet_raise | apply quiet_convertible
  | apply quiet_bind; [|intros ?]
  | match goal with |- quietM (if ?b then _ else _) => destruct b end
  | match goal with |- quietM (let '(_, _) := ?p in _) => destruct p end
  | match goal with |- quietM (match ?p with inl _ => _ | inr _ => _ end) => destruct p end ].
Lemma quiet_factors (rec : str -> str -> M Qc str) a b : (forall x y, quietM (rec x y)) -> forall l r, quietM (div_factors rec a b l r).
Proof. intros Hr. induction l as [|x l IH]; intros r; cbn [div_factors]; quiet; auto. Qed.
Lemma quiet_op ul : forall n div o1 o2, quietM (unit_op (V:=Qc) ul n div o1 o2).
Proof.
  induction n as [|n IH]; intros div o1 o2; cbn [unit_op]; quiet; auto. apply quiet_factors. intros x0 y. apply IH.
Qed.
End Ops.

(** ** Worlds *)
Definition has_user (w : world) : Prop := dget (u "UserUnits") (w_kinds w) <> None.
Definition later (w w' : world) : Prop :=
  (exists l, Forall converts l /\ w_st w' = do_calls l (w_st w)) /\ but_users (w_kinds w') = but_users (w_kinds w) /\ w_all w' = w_all w
  /\ forall x, user_named x w -> user_named x w'.
Lemma later_refl w : later w w. Proof. split; [exists []; split; [constructor|reflexivity]|split; [reflexivity|split; [reflexivity|tauto]]]. Qed.
Lemma later_trans w1 w2 w3 : later w1 w2 -> later w2 w3 -> later w1 w3.
Proof.
  intros ((l & L & E) & K & A & U) ((l' & L' & E') & K' & A' & U'). split; [|split; [congruence|split; [congruence|auto]]].
  exists (l ++ l')%list. split; [now apply Forall_app|]. rewrite do_calls_app, <- E. exact E'.
Qed.
Lemma dget_keys {A B} k : forall (d : list (str * A)) (d' : list (str * B)), map fst d = map fst d' -> dget k d <> None -> dget k d' <> None.
Proof.
  induction d as [|[k1 l1] d IH]; intros [|[k2 l2] d']; cbn [map dget fst]; try discriminate; [auto|]. intros [= -> H]. destruct (seqb k k2); [discriminate|]. now apply IH.
Qed.
Lemma later_user w w' : later w w' -> has_user w -> has_user w'.
Proof. intros (_ & K & _). unfold has_user. apply dget_keys. symmetry. now apply but_users_keys. Qed.
Lemma users_grow z w0 : has_user w0 -> forall x, user_named x w0 -> user_named x (add_user z w0).
Proof.
  unfold has_user, add_user, user_named. intros Hu x (lx & I & Ix). unfold dg, ds. destruct (dget (u "UserUnits") (w_kinds w0)) as [l|] eqn:Ed; [|now contradiction Hu].
  destruct (smem z l) eqn:Z; [now exists lx|]. cbn [w_kinds]. clear Hu Z. revert Ed I. generalize (w_kinds w0) as dd.
  induction dd as [|[k' l'] dd IH]; cbn [dget dset]; [intros D; discriminate D|].
  destruct (seqb (u "UserUnits") k') eqn:Ek.
  - intros [= ->] [[= _ ->]|I]; [exists (lx ++ [z])%list; split; [left; f_equal; now apply seqb_eq in Ek|apply in_or_app; now left]|]. exists lx. split; [now right|exact Ix].
  - intros Ed [[= -> _]|I]; [now rewrite seqb_refl in Ek|]. destruct (IH Ed I) as (l2 & I2 & X2). exists l2. split; [now right|exact X2].
Qed.
Lemma later_add_user x w : has_user w -> later w (add_user x w).
Proof.
  intros H. pose proof (users_grow x w H) as G. revert G. unfold add_user. destruct (smem _ _); [intros _; apply later_refl|]. intros G. split; [exists []; split; [constructor|reflexivity]|].
  split; [|split; [reflexivity|exact G]].
  cbn [w_kinds]. now apply but_users_set.
Qed.
Definition stays {X} (m : W X) : Prop := forall w, has_user w -> later w (snd (m w)).
Lemma stays_ret {X} (x : X) : stays (wret x). Proof. intros w _. apply later_refl. Qed.
Lemma stays_raise {X} e : stays (wraise (X:=X) e). Proof. intros w _. apply later_refl. Qed.
Lemma stays_lift {X} (r : res X) : stays (wlift r). Proof. intros w _. apply later_refl. Qed.
Lemma stays_get : stays wget. Proof. intros w _. apply later_refl. Qed.
Lemma stays_bind {X Y} (m : W X) (k : X -> W Y) : stays m -> (forall x, stays (k x)) -> stays (wbind m k).
Proof.
  intros Hm Hk w Hu. pose proof (Hm w Hu) as H. unfold wbind. destruct (m w) as [[x|e] w']; cbn [snd] in *; [|exact H].
  exact (later_trans _ _ _ H (Hk x w' (later_user _ _ H Hu))).
Qed.
Lemma stays_run {X} (m : M Qc X) : quietM m -> stays (run m).
Proof.
  intros H w _. destruct (H (w_st w)) as (l & L & E). unfold run. destruct (m (w_st w)) as [r s]. cbn [snd] in *.
  split; [exists l; auto|split; [reflexivity|split; [reflexivity|]]]. unfold user_named. cbn [w_kinds]. tauto.
Qed.
Lemma stays_construct k v x : stays (construct k v x).
Proof.
  intros w Hu. unfold construct. destruct v as [q|]; cbv zeta; repeat match goal with |- context [if ?b then _ else _] => destruct b end; cbn [snd]; try apply later_refl; now apply later_add_user.
Qed.
Section Q.
Context {F : Floats} {P : Pow} {E : Eval}.
Context (Te : tame_eval).
Lemma stays_eval k x : stays (odd_eval k x).
Proof. intros w Hu. destruct (Te k x w) as (y & [H|H]); rewrite H; [apply later_refl|now apply later_add_user]. Qed.
Create HintDb stay.
Hint Resolve stays_ret stays_raise stays_lift stays_get stays_construct stays_eval : stay.
Ltac stay := repeat first [solve [auto with stay] | apply stays_bind; [|intros ?]
  | match goal with |- stays (if ?b then _ else _) => destruct b end
  | match goal with |- stays (let '(_, _) := ?p in _) => destruct p end
  | match goal with |- stays (match ?p with Some _ => _ | None => _ end) => destruct p end
  | match goal with |- stays (match ?p with PQ _ => _ | _ => _ end) => destruct p end
  | match goal with |- stays (match ?p with Lt => _ | _ => _ end) => destruct p end
  | progress cbv zeta].
Lemma stays_units_kind k x v n : stays (units_kind k x v n). Proof. unfold units_kind. stay. Qed.
Hint Resolve stays_units_kind : stay.
Lemma stays_units v x n : stays (units v x n).
Proof. unfold units. destruct x, v; stay. Qed.
Hint Resolve stays_units : stay.
Lemma stays_units_of v x : stays (units_of v x). Proof. unfold units_of. stay. Qed.
Lemma stays_make k v x : stays (make k v x). Proof. unfold make. stay. Qed.
Lemma stays_conv_opt v f t : stays (conv_opt v f t).
Proof. unfold conv_opt. apply stays_bind; [apply stays_run, quiet_convert|]. intros [[]|]; stay. Qed.
Hint Resolve stays_units_of stays_make stays_conv_opt : stay.
Lemma stays_conv_num v f t : stays (conv_num v f t). Proof. unfold conv_num. stay. Qed.
Lemma stays_convertible f t : stays (convertible_ f t). Proof. apply stays_run, quiet_convertible. Qed.
Hint Resolve stays_conv_num stays_convertible : stay.
Lemma stays_to a x : stays (to a x). Proof. unfold to. destruct x as [[|c x]|]; stay. Qed.
Hint Resolve stays_to : stay.
Lemma stays_neg a : stays (neg a). Proof. unfold neg. stay. Qed.
Lemma stays_abs a : stays (abs_ a). Proof. unfold abs_. stay. Qed.
Hint Resolve stays_neg stays_abs : stay.
Lemma stays_over op a : (forall x y, stays (op x y)) -> forall l, stays (over_tuple op a l).
Proof. intros H. induction l as [|x l IH]; cbn [over_tuple]; stay; auto. Qed.
Lemma stays_sum_qty s a b : stays (sum_qty s a b). Proof. unfold sum_qty. stay. Qed.
Hint Resolve stays_sum_qty stays_over : stay.
Lemma stays_sum s a b : stays (sum s a b). Proof. unfold sum. stay. Qed.
Hint Resolve stays_sum : stay.
Lemma stays_rsub a b : stays (rsub a b). Proof. unfold rsub, add. stay. Qed.
Lemma stays_product a b : stays (product_name a b). Proof. apply stays_run, quiet_op. Qed.
Lemma stays_division a b : stays (division_name a b). Proof. apply stays_run, quiet_op. Qed.
Lemma stays_base x : stays (base_of x). Proof. apply stays_lift. Qed.
Hint Resolve stays_rsub stays_product stays_division stays_base : stay.
Lemma stays_bases a b : stays (bases_convertible a b). Proof. unfold bases_convertible. stay. Qed.
Lemma stays_factor a b : stays (base_factor a b). Proof. unfold base_factor. stay. Qed.
Hint Resolve stays_bases stays_factor : stay.
Lemma stays_mul_qty a b : stays (mul_qty a b). Proof. unfold mul_qty. stay. Qed.
Lemma stays_div_qty dv a b : stays (div_qty dv a b). Proof. unfold div_qty. stay. Qed.
Lemma stays_mod_qty a b : stays (mod_qty a b). Proof. unfold mod_qty. stay. Qed.
Lemma stays_matmul_qty a b : stays (matmul_qty a b). Proof. unfold matmul_qty. stay. Qed.
Lemma stays_pow_qty a b : stays (pow_qty a b). Proof. unfold pow_qty. stay. Qed.
Hint Resolve stays_mul_qty stays_div_qty stays_mod_qty stays_matmul_qty stays_pow_qty : stay.
Lemma stays_each op : (forall x, stays (op x)) -> forall l, stays (each op l).
Proof. intros H. induction l as [|x l IH]; cbn [each]; stay; auto. Qed.
Lemma stays_then m x : stays m -> stays (then_to m x). Proof. intros H. unfold then_to. stay. Qed.
Hint Resolve stays_each stays_then : stay.
Lemma stays_mul : forall n a b, stays (mul n a b). Proof. induction n; intros a b; cbn [mul]; stay. Qed.
Lemma stays_truediv : forall n a b, stays (truediv n a b). Proof. induction n; intros a b; cbn [truediv]; stay. Qed.
Lemma stays_floordiv : forall n a b, stays (floordiv n a b). Proof. induction n; intros a b; cbn [floordiv]; stay. Qed.
Lemma stays_modulo : forall n a b, stays (modulo n a b). Proof. induction n; intros a b; cbn [modulo]; stay. Qed.
Hint Resolve stays_mul stays_truediv stays_floordiv stays_modulo : stay.
Lemma stays_matmul n a b : stays (matmul n a b). Proof. unfold matmul. stay. Qed.
Lemma stays_rdiv dv a v : stays (rdiv dv a v). Proof. unfold rdiv. stay. Qed.
Lemma stays_pow a p : stays (pow a p). Proof. unfold pow. stay. Qed.
Lemma stays_compare c a b : stays (compare_ c a b). Proof. unfold compare_. stay. Qed.
Lemma stays_round a n : stays (round_ a n). Proof. unfold round_. stay. Qed.
Lemma stays_round_method a n : stays (round_method a n). Proof. unfold round_method. stay. Qed.
Hint Resolve stays_matmul stays_rdiv stays_pow stays_compare stays_round stays_round_method : stay.
Lemma stays_equals a b n : stays (equals a b n). Proof. unfold equals. stay. Qed.
Hint Resolve stays_equals : stay.
Lemma act_later x w : calm x -> has_user w -> later w (do_act x w).
Proof.
  intros Hc Hu. destruct x; cbn [do_act];
  match goal with
  | |- later _ (snd (?m _)) => let H := fresh in assert (H : stays m) by (unfold add, sub; auto with stay); exact (H w Hu)
  | _ => idtac end.
  split; [exists [c]; split; [now repeat constructor|reflexivity]|split; [reflexivity|split; [reflexivity|]]]. unfold user_named. cbn [w_kinds]. tauto.
Qed.
Lemma acts_later : forall l w, Forall calm l -> has_user w -> later w (do_acts l w).
Proof.
  induction l as [|x l IH]; intros w Hl Hu; [apply later_refl|]. inversion Hl as [|? ? H1 H2]; subst. pose proof (act_later x w H1 Hu) as H.
  exact (later_trans _ _ _ H (IH _ H2 (later_user _ _ H Hu))).
Qed.
End Q.
