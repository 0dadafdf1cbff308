(** * Property C70, continued: the path told for composite units *)
From Coq Require Import String QArith Qcanon Lia.
From Verif Require Import Py StrTools StrFacts StrFacts2 StrFacts3 Network Conv Converter Caster PathText PathFacts Demo.
Local Open Scope N_scope.

(** ** Specification *)
(** a unit in a path: a node, or one of the signs "(1)" and "(v)", which stand for one; its name *)
Inductive unit_step {V} : pstep V -> str -> Prop :=
| is_node n : unit_step (PN n) (nname n)
| is_sign x : x = u "(1)" \/ x = u "(v)" -> unit_step (PS x) x.
(** a chain of units and their names *)
Definition chain {V} (p : list (pstep V)) (names : list str) : Prop := p <> [] /\ Forall2 unit_step p names.
(** a path in several chains, each one after the first behind an operator and perhaps a number; and its text *)
Inductive told {V} (str_of : V -> str) : list (pstep V) -> str -> Prop :=
| told_chain p ns : chain p ns -> told str_of p (sjoin (u " > ") ns)
| told_op p ns op q x : chain p ns -> op <> u "(1)" -> op <> u "(v)" -> told str_of q x -> told str_of (p ++ PS op :: q) (sjoin (u " > ") ns ++ u " " ++ op ++ u " " ++ x)
| told_number p ns op k q x : chain p ns -> op <> u "(1)" -> op <> u "(v)" -> told str_of q x ->
    told str_of (p ++ PS op :: PV k :: q) (sjoin (u " > ") ns ++ u " " ++ op ++ u " " ++ str_of k ++ u " " ++ x).

Section Text.
Context {V : Type} (str_of : V -> str) (tup : str).
Notation loop := (path_loop str_of tup).
Lemma turn_unit r x n b : unit_step x n -> path_turn str_of tup r x b = r ++ n ++ (if b then [] else u " > ").
Proof.
  intros [m|y Hy]; [reflexivity|]. unfold path_turn. replace (like_node y) with true; [reflexivity|]. symmetry. unfold like_node. apply orb_true_iff.
  destruct Hy as [->| ->]; [left|right]; reflexivity.
Qed.
Lemma loop_chain p ns : Forall2 unit_step p ns -> p <> [] -> forall r, loop r p = r ++ sjoin (u " > ") ns.
Proof.
  induction 1 as [|x n p ns Hx Hp IH]; intros Hn r; [congruence|]. cbn [path_loop]. rewrite (turn_unit r x n _ Hx). destruct Hp as [|y m p ns Hy Hp].
  - cbn [path_loop sjoin]. now rewrite app_nil_r.
  - rewrite IH by discriminate. change (sjoin (u " > ") (n :: m :: ns)) with (n ++ u " > " ++ sjoin (u " > ") (m :: ns)). now rewrite <- !app_assoc.
Qed.
Lemma ends_arrow_app (r : str) : ends_arrow (r ++ u " > ") = true.
Proof. unfold ends_arrow. rewrite rev_app_distr. reflexivity. Qed.
Lemma cut_arrow (r : str) : firstn (length (r ++ u " > ") - 3) (r ++ u " > ") = r.
Proof. rewrite app_length. change (length (u " > ")) with 3%nat. replace (length r + 3 - 3)%nat with (length r + 0)%nat by lia. rewrite firstn_app_2. cbn [firstn]. apply app_nil_r. Qed.
Lemma turn_op (r op : str) b : op <> u "(1)" -> op <> u "(v)" -> path_turn str_of tup (r ++ u " > ") (PS op) b = r ++ u " " ++ op ++ u " ".
Proof.
  intros N1 N2. unfold path_turn. replace (like_node op) with false; [|symmetry; unfold like_node; apply orb_false_iff; split; apply seqb_neq; assumption].
  rewrite ends_arrow_app, cut_arrow. reflexivity.
Qed.
Lemma loop_op p ns op rest : Forall2 unit_step p ns -> p <> [] -> op <> u "(1)" -> op <> u "(v)" ->
  forall r, loop r (p ++ PS op :: rest) = loop (r ++ sjoin (u " > ") ns ++ u " " ++ op ++ u " ") rest.
Proof.
  intros H Hn N1 N2. induction H as [|x n p ns Hx Hp IH]; intros r; [congruence|]. cbn [Datatypes.app path_loop]. rewrite (turn_unit r x n _ Hx). destruct Hp as [|y m p ns Hy Hp].
  - cbn [Datatypes.app path_loop sjoin]. replace (r ++ n ++ u " > ") with ((r ++ n) ++ u " > ") by now rewrite <- app_assoc. rewrite turn_op by assumption. now rewrite <- !app_assoc.
  - cbn [Datatypes.app] in *. rewrite IH by discriminate. change (sjoin (u " > ") (n :: m :: ns)) with (n ++ u " > " ++ sjoin (u " > ") (m :: ns)). now rewrite <- !app_assoc.
Qed.
Lemma loop_told p x : told str_of p x -> forall r, loop r p = r ++ x.
Proof.
  induction 1 as [p ns (Hn & H)|p ns op q x (Hn & H) N1 N2 Hq IH|p ns op k q x (Hn & H) N1 N2 Hq IH]; intros r.
  - exact (loop_chain p ns H Hn r).
  - rewrite (loop_op p ns op q H Hn N1 N2), IH. now rewrite <- !app_assoc.
  - rewrite (loop_op p ns op (PV k :: q) H Hn N1 N2). cbn [path_loop path_turn]. rewrite IH. now rewrite <- !app_assoc.
Qed.
Lemma print_told p x : told str_of p x -> (2 <= length p)%nat -> print_path str_of tup p = strip x.
Proof.
  intros H L. unfold print_path. destruct p as [|a [|b p]]; [cbn in L; lia|cbn in L; lia|]. rewrite (loop_told _ _ H). apply strip_lead.
  intros c Hc. vm_compute in Hc. repeat (destruct Hc as [<-|Hc]; [apply cmem_In; reflexivity|]). destruct Hc.
Qed.
End Text.

(** the path of a composite conversion is told with its operators: "km > m / h > s" *)
Theorem C70_composite_text : forall V (str_of : V -> str) tup p x, told str_of p x -> (2 <= length p)%nat -> print_path str_of tup p = strip x.
Proof. intros V str_of tup p x. apply print_told. Qed.
Print Assumptions C70_composite_text.
(** a multiplication or division by a number is told with its sign *)
Theorem C70_factor_text : forall V (str_of : V -> str) tup op k, op <> u "(1)" -> op <> u "(v)" -> tidy op -> tidy (str_of k) ->
  print_path str_of tup [PS op; PV k] = op ++ u " " ++ str_of k.
Proof.
  intros V str_of tup op k N1 N2 T1 T2. unfold print_path. cbn [path_loop path_turn]. replace (like_node op) with false; [|symmetry; unfold like_node; apply orb_false_iff; split; apply seqb_neq; assumption].
  replace (ends_arrow (u "    ")) with false by reflexivity. 
  destruct (tidy_ends op T1) as ((c & r & E1 & Hc) & _). destruct (tidy_ends (str_of k) T2) as (_ & d & z & E2 & Hd).
  transitivity (strip (op ++ u " " ++ str_of k)).
  - replace (((u "    " ++ u " " ++ op ++ u " ") ++ str_of k ++ u " ") : str) with ((u "     " ++ (op ++ u " " ++ str_of k) ++ u " ") : str) by (rewrite <- !app_assoc; reflexivity).
    rewrite strip_lead; [|intros e He; vm_compute in He; repeat (destruct He as [<-|He]; [apply cmem_In; reflexivity|]); destruct He].
    unfold strip, strip_chars, rstrip_chars. rewrite E1. cbn [Datatypes.app lstrip_chars]. rewrite Hc. change (c :: (r ++ u " " ++ str_of k) ++ u " ") with ((c :: (r ++ u " " ++ str_of k)) ++ u " ").
    rewrite rev_app_distr. reflexivity.
  - assert (X1 : op ++ u " " ++ str_of k = c :: r ++ u " " ++ str_of k) by (rewrite E1; reflexivity).
    assert (X2 : op ++ u " " ++ str_of k = (op ++ u " " ++ z) ++ [d]) by (rewrite E2, <- !app_assoc; reflexivity).
    exact (ends_tidy _ c d _ _ X1 X2 Hc Hd).
Qed.
Print Assumptions C70_factor_text.
(** false: the text of a product shows its sign.  The sign is lost and a number 1 stands in its place: the path reads as
    one chain from the first unit to the last *)
Theorem C70_product_refuted : (forall V (str_of : V -> str) tup a b k c d, print_path str_of tup [PN a; PN b; PV k; PN c; PN d]
    = strip (nname a ++ u " > " ++ nname b ++ u " > " ++ str_of k ++ u " " ++ nname c ++ u " > " ++ nname d))
  /\ exists s', Converter.convert (num 1) (UStr (u "km*kg")) (UStr (u "m*g")) None demo = (Ok (Some (CVal (Q2Qc 1000000))), s')
     /\ print_path (fun _ => u "1") [] (s_last s') = u "km > m > 1 kg > g".
Proof.
  split.
  - intros V str_of tup a b k c d. unfold print_path. cbn [path_loop path_turn str_step].
    transitivity (strip (u "    " ++ (nname a ++ u " > " ++ nname b ++ u " > " ++ str_of k ++ u " " ++ nname c ++ u " > " ++ nname d))).
    + rewrite <- !app_assoc, ?app_nil_r. reflexivity.
    + apply strip_lead. intros e He. vm_compute in He. repeat (destruct He as [<-|He]; [apply cmem_In; reflexivity|]). destruct He.
  - exists (snd (Converter.convert (num 1) (UStr (u "km*kg")) (UStr (u "m*g")) None demo)). split; [|vm_compute; reflexivity].
    assert (X : ask 1 "km*kg" "m*g" demo = Ok (Some (CVal (Q2Qc 1000000)))) by (apply is_val_eq; vm_compute; reflexivity).
    unfold ask in X. rewrite <- X. apply surjective_pairing.
Qed.
Print Assumptions C70_product_refuted.
(** a quotient: km/min to m/s *)
Example C70_composite_example : exists s' x, Converter.convert (num 1) (UStr (u "km/min")) (UStr (u "m/s")) None demo = (Ok (Some (CVal (Q2Qc (50 # 3)))), s')
  /\ told (fun _ : Qc => u "1") (s_last s') x /\ (2 <= length (s_last s'))%nat /\ x = u "km > m / 1 min > s".
Proof.
  exists (snd (Converter.convert (num 1) (UStr (u "km/min")) (UStr (u "m/s")) None demo)), (u "km > m / 1 min > s"). split; [|split; [|split; [vm_compute; lia|reflexivity]]].
  - assert (X : ask 1 "km/min" "m/s" demo = Ok (Some (CVal (Q2Qc (50 # 3))))) by (apply is_val_eq; vm_compute; reflexivity).
    unfold ask in X. rewrite <- X. apply surjective_pairing.
  - assert (E : exists k, s_last (snd (Converter.convert (num 1) (UStr (u "km/min")) (UStr (u "m/s")) None demo)) = [PN (Node 2 (u "km")); PN (Node 0 (u "m"))] ++ PS (u "/") :: PV k :: [PN (Node 3 (u "min")); PN (Node 4 (u "s"))])
      by (eexists; vm_compute; reflexivity).
    destruct E as (k & E). rewrite E.
    change (u "km > m / 1 min > s") with (sjoin (u " > ") [nname (Node 2 (u "km")); nname (Node 0 (u "m"))] ++ u " " ++ u "/" ++ u " " ++ (fun _ : Qc => u "1") k ++ u " " ++ sjoin (u " > ") [nname (Node 3 (u "min")); nname (Node 4 (u "s"))]).
    apply told_number; [split; [discriminate|repeat constructor]|vm_compute; discriminate|vm_compute; discriminate|]. apply told_chain. split; [discriminate|repeat constructor].
Qed.
