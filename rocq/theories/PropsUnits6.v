(** * Properties of quantities: units that they cannot have (C33, C21)

    The vocabulary is that of PropsUnits.v. *)
From Coq Require Import String QArith Qcanon Lia.
From Verif Require Import Py StrTools Network SearchSpec Conv Converter EngineSpec ConsistSpec Demo OpsSpec
  Dict Database Shipped Operations ShippedSpec ShippedCert ShippedCheck ShippedFacts ShippedFacts2 Units UnitsSpec UnitsSpec2 PropsShipped ShippedFacts5 UnitsFacts UnitsFacts3 UnitsFacts4 UnitsFacts8 UnitsFacts10 PropsUnits PropsUnits2 PropsUnits5.
Local Open Scope Qc_scope.
Local Opaque all_kinds merge_data.
Section P.
Context {F : Floats} {P : Pow} {E : Eval}.
(** a quantity asked for a unit of another kind raises WrongUnitsError, at any moment of a session: it is neither converted nor
    returned unchanged *)
Theorem C33_quantity_partial : forall s w k k' a t, tame_eval -> calculating s -> during s w -> In k measured_kinds -> quantity_of k a -> listed_as k' t -> unit_name t -> k <> k' -> ~ In (k, k') merged ->
  fst (to a (Some t) w) = Err WrongUnitsError.
Proof. by_calc gen_refuses_kind. Qed.
(** ... and so does one asked for a simple name that no conversion knows *)
Theorem C21_quantity : forall s w k a t, tame_eval -> calculating s -> during s w -> In k measured_kinds -> quantity_of k a -> unit_name t -> (forall n, get_node shipped_net t <> Ok n) ->
  fst (to a (Some t) w) = Err WrongUnitsError.
Proof. by_calc gen_refuses_unknown. Qed.
(** the hypotheses are met: six feet are not minutes *)
Lemma units6_example_of (s : st Qc) : tame_eval -> calculating s ->
  let a := Qty (u "Length") (u "ft") (Q2Qc 6) in let w := do_acts [DAdd a (PQ a)] (world_of s shipped_kinds) in
  during s w /\ fst (to a (Some (u "min")) w) = Err WrongUnitsError.
Proof.
  intros Te C a. cbv zeta. set (w := do_acts _ _).
  assert (D : during s w) by (exists [DAdd a (PQ a)]; split; [constructor; [exact I|constructor]|unfold w; reflexivity]).
  assert (Pa : plain_base (u "ft")) by exact (UnitsFacts3.letters_plain (u "ft") eq_refl). assert (Pb : plain_base (u "min")) by exact (UnitsFacts3.letters_plain (u "min") eq_refl).
  assert (La : listed_as (u "Length") (u "ft")) by (apply (more_listed "ft" "Length")%string; left; reflexivity).
  assert (Lb : listed_as (u "Time") (u "min")) by (apply (more_listed "min" "Time")%string; right; left; reflexivity).
  assert (K1 : In (u "Length") measured_kinds) by (apply smem_In; vm_compute; reflexivity).
  assert (N1 : u "Length" <> u "Time") by (intros X; discriminate X).
  assert (M1 : ~ In (u "Length", u "Time") merged).
  { intros X. assert (B1 : existsb (fun p : str * str => seqb (u "Length") (fst p) && seqb (u "Time") (snd p)) merged = true) by (apply existsb_exists; exists (u "Length", u "Time"); split; [exact X|cbn [fst snd]; rewrite !seqb_refl; reflexivity]). vm_compute in B1. discriminate B1. }
  split; [exact D|]. apply (C33_quantity_partial s w (u "Length") (u "Time") a (u "min") Te C D K1); [split; [reflexivity|]; split; [exact La|exact (proj1 Pa)]|exact Lb|exact (proj1 Pb)|exact N1|exact M1].
Qed.
End P.
Print Assumptions C33_quantity_partial.
Print Assumptions C21_quantity.
Example units6_example := units6_example_of (F := PropsOps.tenths) (P := PropsUnits.demo_pow) (E := PropsUnits.demo_eval) PropsShipped.shipped_start PropsUnits.demo_tame PropsUnits.shipped_start_calculating.
