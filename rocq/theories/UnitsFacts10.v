(** * Quantities asked for a unit that they cannot have *)
From Coq Require Import String QArith Qcanon Lia.
From Verif Require Import Py StrTools Network SearchSpec SearchFacts Conv Converter EngineSpec ConsistSpec OpsSpec Dict Database Shipped ShippedSpec ShippedCert ShippedCheck ShippedFacts ShippedFacts2 ShippedFacts3 ShippedFacts4 ShippedFacts5
  Operations Units UnitsSpec UnitsFacts UnitsFacts2 UnitsFacts3 UnitsFacts4.
Local Open Scope Qc_scope.
Local Opaque all_kinds merge_data.
Section G.
Context (cs : list ShippedCert.crow) (d : db Qc).
Context (H : check_db cs d = true).
Local Notation g := (db_net d).
Local Notation kd := (merge_data (db_kinds d)).
Context {F : Floats} {P : Pow} {E : Eval}.
Notation qof := (qof d).
Lemma gen_refuses s w k a t : tame_eval -> calculating_in d s -> during_in d s w -> In k measured_kinds -> qof k a -> unit_name t -> ~ linked_in g (q_unit a) t ->
  q_unit a <> t -> fst (to a (Some t) w) = Err WrongUnitsError.
Proof.
  intros Te (S & Hs & Hb) Dw Hk (Ka & La & Ua) Ut Nl Ne. pose proof (during_era cs d H s w Te Dw) as Hw.
  pose proof (plain_measured k Hk) as Hp. destruct (plain_parts k Hp) as (P1 & P2 & P3 & P4 & P5 & P6 & P7).
  destruct (not_convertible_total cs d H s S Hs (q_unit a) t w Hw Ua Ut) as (w1 & R1 & _).
  - apply (ShippedFacts4.gen_ordinary cs d H k _ La). exact (proj2 (proj2 (proj1 (proj2 kind_lists) k Hk))).
  - exact Ne.
  - exact Nl.
  - unfold to. rewrite Ka, P7, (wbind_ok _ _ _ _ _ R1). cbv iota. replace (is_k k "UserUnits") with false. reflexivity.
Qed.
Lemma gen_refuses_kind s w k k' a t : tame_eval -> calculating_in d s -> during_in d s w -> In k measured_kinds -> qof k a -> listed_in kd k' t -> unit_name t -> k <> k' -> ~ In (k, k') merged ->
  fst (to a (Some t) w) = Err WrongUnitsError.
Proof.
  intros Te C Dw Hk Qa Lt Ut Nk Nm. assert (Nl : ~ linked_in g (q_unit a) t).
  { intros X. destruct Qa as (_ & La & _). destruct (gen_kinds cs d H k k' _ t La Lt X) as [X'|X']; contradiction. }
  apply (gen_refuses s w k a t Te C Dw Hk Qa Ut Nl). intros Z. apply Nl. destruct Qa as (_ & La & _).
  assert (Na : k <> u "Acceleration") by (intros ->; assert (X : smem (u "Acceleration") measured_kinds = true) by (apply smem_In; exact Hk); vm_compute in X; discriminate X).
  destruct (gen_registered cs d H k _ La Na) as (n & Hn). exists n, n. split; [exact Hn|]. split; [rewrite <- Z; exact Hn|]. exists [n]. constructor.
Qed.
Lemma gen_refuses_unknown s w k a t : tame_eval -> calculating_in d s -> during_in d s w -> In k measured_kinds -> qof k a -> unit_name t -> (forall n, get_node g t <> Ok n) ->
  fst (to a (Some t) w) = Err WrongUnitsError.
Proof.
  intros Te C Dw Hk Qa Ut Nn. apply (gen_refuses s w k a t Te C Dw Hk Qa Ut).
  - intros (x & y & _ & X & _). exact (Nn y X).
  - intros Z. destruct Qa as (_ & La & _). assert (Na : k <> u "Acceleration") by (intros ->; assert (X : smem (u "Acceleration") measured_kinds = true) by (apply smem_In; exact Hk); vm_compute in X; discriminate X).
    destruct (gen_registered cs d H k _ La Na) as (n & Hn). rewrite Z in Hn. exact (Nn n Hn).
Qed.
End G.
