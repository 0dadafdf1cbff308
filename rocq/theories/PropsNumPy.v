(** * C71: arrays are converted element by element *)
From Coq Require Import String QArith Qcanon.
From Verif Require Import Py StrTools Network Conv Converter EngineSpec Demo NumPy NumPySpec EngineInv NumPyFacts.
Local Open Scope N_scope.

(** the session of a program that uses arrays: [np_arith ediv] is the arithmetic of its values *)
Section C71.
Context (V : Type) (A : Arith V) (ediv : V -> V -> V).
Notation "'converted' v f t uc s" := (fst (@convert (npv V) (np_arith ediv) (clean_value v) f t uc s)) (at level 10, v, f, t, uc, s at level 9).
Notation calls := (@do_calls (npv V) (np_arith ediv)).

(** after any history, for any units (simple, composite, with densities...): if every number of the list, tuple
    or array can be converted, the whole is converted, to the array of their conversions, and the session is left
    as converting any one of them leaves it *)
Theorem C71_elementwise : division_agrees ediv -> forall s cs f t uc value,
  numeric_session ediv s -> Forall numeric_call cs -> elements value <> [] -> (forall x, value <> PyNum x) ->
  (forall x, In x (elements value) -> exists y, converted (PyNum x) f t uc (calls cs s) = Ok (Some (CVal (Num y)))) ->
  exists l, converted value f t uc (calls cs s) = Ok (Some (CVal (Arr Ndarray l)))
    /\ Forall2 (fun x y => converted (PyNum x) f t uc (calls cs s) = Ok (Some (CVal (Num y)))) (elements value) l
    /\ forall x, In x (elements value) ->
         @do_call (npv V) (np_arith ediv) (KConvert (clean_value value) f t uc) (calls cs s) = @do_call (npv V) (np_arith ediv) (KConvert (clean_value (PyNum x)) f t uc) (calls cs s).
Proof.
  intros Hd s cs f t uc value Hs Hc Hl Hn H. pose proof (session_inv ediv Hd s cs Hs Hc) as Is.
  assert (E : clean_value value = VIter (Arr Ndarray (elements value))) by (destruct value; [now destruct (Hn x)|reflexivity..]).
  destruct (array_convert ediv Hd _ f t uc Ndarray (elements value) Is Hl H) as (l & H1 & H2 & H3).
  exists l. rewrite E. split; [exact H1|]. split; [exact H2|exact H3].
Qed.

(** whatever array an answer is, it has one element for each given, and each is the conversion of the number
    alone (when that one does not raise, as dividing zero does) *)
Theorem C71_answer : division_agrees ediv -> forall s cs f t uc value c,
  numeric_session ediv s -> Forall numeric_call cs -> (forall x, value <> PyNum x) ->
  converted value f t uc (calls cs s) = Ok (Some c) ->
  exists l, c = CVal (Arr Ndarray l)
    /\ Forall2 (fun x y => forall z, converted (PyNum x) f t uc (calls cs s) = Ok (Some (CVal (Num z))) -> z = y) (elements value) l.
Proof.
  intros Hd s cs f t uc value c Hs Hc Hn H. pose proof (session_inv ediv Hd s cs Hs Hc) as Is.
  assert (E : clean_value value = VIter (Arr Ndarray (elements value))) by (destruct value; [now destruct (Hn x)|reflexivity..]).
  rewrite E in H. exact (array_answer ediv Hd _ f t uc Ndarray (elements value) c Is H).
Qed.

(** units without a conversion (raise_error off) are the same ones for arrays and numbers *)
Theorem C71_no_conversion : division_agrees ediv -> forall s cs f t uc value value',
  numeric_session ediv s -> Forall numeric_call cs ->
  converted value f t uc (calls cs s) = Ok None -> converted value' f t uc (calls cs s) = Ok None.
Proof.
  intros Hd s cs f t uc value value' Hs Hc H. pose proof (session_inv ediv Hd s cs Hs Hc) as Is.
  assert (E : forall v : pyval V, exists w, @convert (npv V) (np_arith ediv) (clean_value v) f t uc (calls cs s)
     = @convert (npv V) (np_arith ediv) (VNum w) f t uc (calls cs s)).
  { intros [x|l|l|k l]; eexists; reflexivity. }
  destruct (E value) as (w & Ew), (E value') as (w' & Ew'). rewrite Ew in H. rewrite Ew'.
  exact (eq_trans (f_equal fst (array_fails ediv Hd _ f t uc w w' Is H)) H).
Qed.

(** convert_for_SimPandas: the same, and the container stays *)
Theorem C71_simpandas : division_agrees ediv -> forall s cs f t uc k l,
  numeric_session ediv s -> Forall numeric_call cs -> l <> [] ->
  (forall x, In x l -> exists y, fst (@convert_for_SimPandas (npv V) (np_arith ediv) (Num x) f t uc (calls cs s)) = Ok (Num y)) ->
  exists l', fst (@convert_for_SimPandas (npv V) (np_arith ediv) (Arr k l) f t uc (calls cs s)) = Ok (Arr k l')
    /\ Forall2 (fun x y => fst (@convert_for_SimPandas (npv V) (np_arith ediv) (Num x) f t uc (calls cs s)) = Ok (Num y)) l l'.
Proof.
  intros Hd s cs f t uc k l Hs Hc Hl H. exact (simpandas_array ediv Hd _ f t uc k l (session_inv ediv Hd s cs Hs Hc) Hl H).
Qed.

(** the hypothesis on the network holds of every network without functions of the user, the shipped one among them *)
Lemma nmap_elementwise : division_agrees ediv -> forall (W : Type) (g : net (conv W)) e, In e (n_edges (nmap g)) -> Forall (elementwise_conv ediv) (e_convs e).
Proof.
  intros Hd W g e Hi. unfold nmap in Hi. cbn [n_edges] in Hi. apply in_map_iff in Hi as (e0 & <- & _). cbn [e_convs].
  apply Forall_forall. intros c Hc. apply in_map_iff in Hc as (c0 & <- & _). now apply conv_cmap.
Qed.
End C71.
Print Assumptions C71_elementwise.
Print Assumptions C71_answer.
Print Assumptions C71_no_conversion.
Print Assumptions C71_simpandas.

(** ** An example: exact arithmetic, an array dividing by zero gets a zero *)
Definition qediv (x y : Qc) : Qc := (x / y)%Qc.
Lemma qediv_agrees : division_agrees qediv.
Proof. intros x y z E. unfold adiv in E. cbn in E. unfold qdiv in E. destruct (Qc_eq_dec y 0); [discriminate E|]. now injection E. Qed.
Definition demo_arr : st (npv Qc) :=
  St (nmap demo_net) None [] [] (Some (Num (Q2Qc (5 # 4)))) (Err NoFVFError) (Ok (Num (Q2Qc (4 # 5))))
     (Par 12 25 (u "BFS") true false None false false false false 1000) demo_dicts [] [].
Lemma demo_arr_numeric : numeric_session qediv demo_arr.
Proof.
  split; [exact (nmap_elementwise Qc exact_arith qediv qediv_agrees Qc demo_net)|]. split; [reflexivity|].
  split; [|split; [|split]]; cbn.
  - intros v E. injection E as <-. now eexists.
  - intros v E. discriminate E.
  - intros v E. discriminate E.
  - intros v E. injection E as <-. now eexists.
Qed.
Local Instance demo_A : Arith (npv Qc) := np_arith qediv.
Definition q (z : Z) : Qc := Q2Qc (inject_Z z).
(** model plumbing for the examples: equality of values decided on their fractions *)
Definition same_np (a b : npv Qc) : bool :=
  match a, b with
  | Num x, Num y => Qeq_bool x y
  | Arr Ndarray l, Arr Ndarray l' | Arr Series l, Arr Series l' | Arr DataFrame l, Arr DataFrame l' =>
      (length l =? length l')%nat && forallb (fun p : Qc * Qc => Qeq_bool (fst p) (snd p)) (combine l l')
  | _, _ => false
  end.
Lemma qc_eq (x y : Qc) : Qeq_bool x y = true -> x = y.
Proof. intros E. apply Qc_is_canon. now apply Qeq_bool_iff. Qed.
Lemma list_eq : forall l l' : list Qc, (length l =? length l')%nat && forallb (fun p : Qc * Qc => Qeq_bool (fst p) (snd p)) (combine l l') = true -> l = l'.
Proof.
  induction l as [|x l IH]; intros [|y l'] E; try discriminate E; [reflexivity|]. cbn [length combine forallb fst snd Nat.eqb] in E.
  apply andb_prop in E as [E1 E2]. apply andb_prop in E2 as [E2 E3]. f_equal; [now apply qc_eq|]. apply IH. now rewrite E1, E3.
Qed.
Lemma same_np_eq a b : same_np a b = true -> a = b.
Proof. destruct a as [x|[] l], b as [y|[] l']; cbn [same_np]; intros E; try discriminate E; f_equal; (now apply qc_eq) || now apply list_eq. Qed.
Lemma ans_eq (r : res (option (cval (npv Qc)))) b : match r with Ok (Some (CVal a)) => same_np a b | _ => false end = true -> r = Ok (Some (CVal b)).
Proof. destruct r as [[[a|]|]|]; intros E; try discriminate E. do 3 f_equal. now apply same_np_eq. Qed.
Lemma ans_eq2 (r : res (npv Qc)) b : match r with Ok a => same_np a b | _ => false end = true -> r = Ok b.
Proof. destruct r as [a|]; intros E; try discriminate E. f_equal. now apply same_np_eq. Qed.
(** a list of speeds: 60 km/min and 3 km/min *)
Example C71_example :
  fst (convert (clean_value (PyList [q 60; q 3])) (UStr (u "km/min")) (UStr (u "m/s")) None demo_arr) = Ok (Some (CVal (Arr Ndarray [q 1000; q 50])))
  /\ fst (convert (clean_value (PyNum (q 3))) (UStr (u "km/min")) (UStr (u "m/s")) None demo_arr) = Ok (Some (CVal (Num (q 50)))).
Proof. split; apply ans_eq; vm_compute; reflexivity. Qed.
(** [documented: a Series is converted into a Series] false: it comes back as an ndarray, its index lost; only
    convert_for_SimPandas keeps it *)
Theorem C71_series_refuted :
  fst (convert (clean_value (PyBox Series [q 2; q 3])) (UStr (u "km")) (UStr (u "m")) None demo_arr) = Ok (Some (CVal (Arr Ndarray [q 2000; q 3000])))
  /\ fst (convert_for_SimPandas (Arr Series [q 2; q 3]) (u "km") (u "m") None demo_arr) = Ok (Arr Series [q 2000; q 3000]).
Proof. split; [apply ans_eq|apply ans_eq2]; vm_compute; reflexivity. Qed.
Print Assumptions C71_series_refuted.
(** a number whose conversion raises does not raise inside an array *)
Example C71_zero :
  fst (convert (clean_value (PyNum (q 0))) (UStr (u "m/s")) (UStr (u "s/m")) None demo_arr) = Err ZeroDivisionError
  /\ fst (convert (clean_value (PyList [q 0; q 4])) (UStr (u "m/s")) (UStr (u "s/m")) None demo_arr) = Ok (Some (CVal (Arr Ndarray [q 0; Q2Qc (1 # 4)]))).
Proof. split; [vm_compute; reflexivity|]. apply ans_eq; vm_compute; reflexivity. Qed.
