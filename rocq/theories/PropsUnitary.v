(** * C69: the constants of unyts.unitary *)
From Coq Require Import String QArith Qcanon.
From Verif Require Import Py StrTools Network SearchSpec Conv Converter EngineSpec ConsistSpec Dict Database Shipped Operations ShippedSpec Units UnitsSpec
  ShippedCheck ShippedCert ShippedFacts ShippedFacts5 UnitsFacts UnitsFacts2 UnitsFacts4 UnitsFacts7 PropsUnits PropsUnits2 Unitary.
Local Open Scope N_scope.

Section P.
Context {F : Floats} {P : Pow} {E : Eval}.
(** one of a unit *)
Definition one_of (c : string * (string * string)) : string * qty := (fst c, Qty (u (fst (snd c))) (u (snd (snd c))) 1%Qc).
(** the assignments, against the table *)
Fixpoint fits (p : list (string * rhs)) (t : list (string * (string * string))) (seen : list (string * (string * string))) : bool :=
  match p, t with
  | [], [] => true
  | (c, r) :: p', (c', (k, x)) :: t' =>
      String.eqb c c'
      && match r with
         | KUnits y => String.eqb x y && negb (String.eqb k "Unit")
         | KUnit y => String.eqb x y && String.eqb k "Unit"
         | KSame d => match find (fun s => String.eqb d (fst s)) seen with
                      | Some (_, (k', x')) => String.eqb k k' && String.eqb x x'
                      | None => false end
         end
      && fits p' t' ((c', (k, x)) :: seen)
  | _, _ => false
  end.
Lemma global_find d l : global d (map one_of l) = match find (fun s => String.eqb d (fst s)) l with Some c => Ok (snd (one_of c)) | None => Err NameError end.
Proof. induction l as [|[c [k x]] l IH]; cbn [map one_of global find fst snd]; [reflexivity|]. destruct (String.eqb d c); [reflexivity|exact IH]. Qed.
Lemma execute_fits w p : forall t seen, fits p t seen = true ->
  (forall c k x, In (c, (k, x)) t -> k <> "Unit"%string -> units (PN 1%Qc) (AUnitStr (u x)) false w = (Ok (Qty (u k) (u x) 1%Qc), w)) ->
  (forall c k x, In (c, (k, x)) t -> k = "Unit"%string -> construct (u "Unit") (Some 1%Qc) (u x) w = (Ok (Qty (u k) (u x) 1%Qc), w)) ->
  execute p (map one_of seen) w = (Ok (map one_of (rev t ++ seen)), w).
Proof.
  induction p as [|[c r] p IH]; intros [|[c' [k x]] t] seen Hf H1 H2; cbn [fits] in Hf; try discriminate Hf; [reflexivity|].
  apply andb_prop in Hf as [Hf Ht]. apply andb_prop in Hf as [Hc Hr]. apply String.eqb_eq in Hc. subst c'. cbn [execute].
  assert (Ha : assign r (map one_of seen) w = (Ok (Qty (u k) (u x) 1%Qc), w)).
  { destruct r as [y|y|d]; cbn [assign].
    - apply andb_prop in Hr as [Hx Hk]. apply String.eqb_eq in Hx. subst y. apply (H1 c k x); [now left|]. intros ->. discriminate Hk.
    - apply andb_prop in Hr as [Hx Hk]. apply String.eqb_eq in Hx, Hk. subst y. now apply (H2 c k x); [left|].
    - rewrite global_find. destruct (find _ seen) as [[d' [k' x']]|]; [|discriminate Hr]. apply andb_prop in Hr as [Hk Hx].
      apply String.eqb_eq in Hk, Hx. subst. reflexivity. }
  unfold wbind. rewrite Ha. specialize (IH t ((c, (k, x)) :: seen) Ht).
  cbn [rev]. rewrite <- app_assoc. cbn [Datatypes.app]. apply IH; intros; [eapply H1|eapply H2]; try eassumption; right; eassumption.
Qed.
Lemma fits_unitary : fits unitary constants [] = true.
Proof. vm_compute. reflexivity. Qed.
End P.
(** what is computed about the names *)
Definition name_ok (c : string * (string * string)) : bool :=
  let (k, x) := snd c in
  seqb (strip (u x)) (u x) && negb (cmem c_slash (u x)) && negb (cmem c_star (u x))
  && (String.eqb k "Unit" || negb (smem (u x) shipped_uncertain) && smem (u k) classes && negb (String.eqb k "Percentage")
      && existsb (fun e : string * option string => String.eqb (fst e) x && match snd e with Some k' => String.eqb k' k | None => false end) checked_first).
Lemma names_ok : forallb name_ok constants = true.
Proof. vm_compute. reflexivity. Qed.
Lemma ounce_only : forall c k x, In (c, (k, x)) constants -> k = "Unit"%string -> x = "oz"%string.
Proof.
  assert (G : forallb (fun c : string * (string * string) => negb (String.eqb (fst (snd c)) "Unit") || String.eqb (snd (snd c)) "oz") constants = true) by (vm_compute; reflexivity).
  intros c k x Hi ->. rewrite forallb_forall in G. specialize (G _ Hi). cbn [fst snd] in G. now apply String.eqb_eq in G.
Qed.
Lemma data_only : forall c k x, In (c, (k, x)) constants -> k = "Data"%string -> x = "b"%string \/ x = "B"%string.
Proof.
  assert (G : forallb (fun c : string * (string * string) => negb (String.eqb (fst (snd c)) "Data") || (String.eqb (snd (snd c)) "b" || String.eqb (snd (snd c)) "B")) constants = true) by (vm_compute; reflexivity).
  intros c k x Hi ->. rewrite forallb_forall in G. specialize (G _ Hi). cbn [fst snd] in G. change (String.eqb "Data" "Data") with true in G. cbn [negb orb] in G.
  apply orb_prop in G as [G|G]; apply String.eqb_eq in G; auto.
Qed.
Section T.
Context {F : Floats} {P : Pow} {E : Eval}.
Lemma gen_oz cs d (H : check_db cs d = true) s w : tame_eval -> calculating_in d s -> during_in d s w -> smem (u "oz") (uncertain w) = true.
Proof. intros Te C D. rewrite (era_uncertain d s (proj1 C) w (during_era cs d H s w Te D)). reflexivity. Qed.
Lemma known_ounce s w : tame_eval -> calculating s -> during s w -> smem (u "oz") (uncertain w) = true.
Proof. unfold calculating, during, shipped_session, shipped_net, shipped_dicts, shipped_kinds. exact (gen_oz cert shipped_db shipped_checked s w). Qed.
(** importing the module at any moment of a session succeeds, changes nothing, and every constant is one of the
    documented unit, of the documented kind (a user unit named b or B would take the place of the bit and the byte) *)
Theorem C69_constants_partial : forall s w, tame_eval -> calculating s -> during s w -> ~ user_named (u "b") w -> ~ user_named (u "B") w ->
  exists l, import_unitary w = (Ok l, w) /\ map fst l = rev (map fst unitary)
    /\ forall c k x, In (c, (k, x)) constants -> global c l = Ok (Qty (u k) (u x) 1%Qc).
Proof.
  intros s w Te C D Nb NB. exists (map one_of (rev constants)). split; [|split].
  - unfold import_unitary. rewrite <- (app_nil_r (rev constants)).
    apply (execute_fits w unitary constants [] fits_unitary).
    + intros c k x Hi Hk. pose proof names_ok as G. rewrite forallb_forall in G. specialize (G _ Hi). unfold name_ok in G. cbn [snd] in G.
      apply andb_prop in G as [G G4]. apply andb_prop in G as [G G3]. apply andb_prop in G as [G1 G2].
      apply orb_prop in G4 as [G4|G4]; [apply String.eqb_eq in G4; contradiction|].
      apply andb_prop in G4 as [G4 G7]. apply andb_prop in G4 as [G4 G6]. apply andb_prop in G4 as [G4 G5].
      apply existsb_exists in G7 as ([x' [k'|]] & I7 & G7); cbn [fst snd] in G7; apply andb_prop in G7 as [G7 G8]; [|discriminate G8].
      apply String.eqb_eq in G7, G8. subst x' k'. apply seqb_eq in G1.
      assert (R : units (PN 1%Qc) (AUnitStr (u x)) false w = (Ok (Qty (u k) (u x) (if seqb (u k) (u "Percentage") then 1 / Q2Qc 100 else 1)%Qc), w)).
      { apply (C40_listed_partial s w (u x) (u x) 1%Qc (u k) Te C D G1).
        - split; [apply cmem_false; now apply negb_true_iff in G2|apply cmem_false; now apply negb_true_iff in G3].
        - intros I. apply smem_In in I. apply negb_true_iff in G4. rewrite G4 in I. discriminate I.
        - apply first_known. exact I7.
        - now apply smem_In.
        - destruct (String.eqb k "Data") eqn:Ek; [right|left].
          + apply String.eqb_eq in Ek. destruct (data_only c k x Hi Ek) as [-> | ->]; assumption.
          + intros Eu. assert (K : k = "Data"%string).
            { assert (Q : forallb (fun c : string * (string * string) => negb (seqb (u (fst (snd c))) (u "Data")) || String.eqb (fst (snd c)) "Data") constants = true)
                by (vm_compute; reflexivity).
              rewrite forallb_forall in Q. specialize (Q _ Hi). cbn [fst snd] in Q. rewrite Eu, seqb_refl in Q. now apply String.eqb_eq in Q. }
            subst k. discriminate Ek. }
      rewrite R. clear R. destruct (seqb (u k) (u "Percentage")) eqn:Ep; [|reflexivity]. exfalso.
      assert (Q : forallb (fun c : string * (string * string) => negb (seqb (u (fst (snd c))) (u "Percentage"))) constants = true) by (vm_compute; reflexivity).
      rewrite forallb_forall in Q. specialize (Q _ Hi). cbn [fst snd] in Q. rewrite Ep in Q. discriminate Q.
    + intros c k x Hi Hk. rewrite (ounce_only c k x Hi Hk). subst k.
      destruct (C40_refuted s w 1%Qc Te C D) as (_ & _ & _ & (_ & O) & _).
      unfold units in O. change (strip (u "oz")) with (u "oz") in O. unfold wbind, wget in O.
      assert (U : smem (u "oz") (uncertain w) = true) by (revert s w Te C D Nb NB Hi O; intros s w Te C D _ _ _ _; exact (known_ounce s w Te C D)).
      rewrite U in O. exact O.
  - vm_compute. reflexivity.
  - assert (Q : forallb (fun c : string * (string * string) => match find (fun s => String.eqb (fst c) (fst s)) (rev constants) with
        | Some (_, (k, x)) => String.eqb k (fst (snd c)) && String.eqb x (snd (snd c)) | None => false end) constants = true) by (vm_compute; reflexivity).
    intros c k x Hi. rewrite forallb_forall in Q. specialize (Q _ Hi). cbn [fst snd] in Q. rewrite global_find.
    destruct (find _ (rev constants)) as [[c' [k' x']]|]; [|discriminate Q]. apply andb_prop in Q as [Q1 Q2]. apply String.eqb_eq in Q1, Q2. subst. reflexivity.
Qed.
End T.
Print Assumptions C69_constants_partial.
