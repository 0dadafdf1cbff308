(** * What is computed about the shapes of the shipped conversions *)
From Coq Require Import String QArith Qcanon FMapPositive.
From Verif Require Import Py StrTools Network Conv Converter Dict Database FastDb Shipped ShippedSpec ShippedCert ShippedCheck SymAffine RoundSpec.
Local Open Scope N_scope.

(** specification: a positive literal *)
Definition positive (q : Q) : bool := match Qnum q with Zpos _ => true | _ => false end.
(** specification: products with and quotients by positive literals and the formation volume factor *)
Fixpoint straight {V} (c : conv V) : bool :=
  match c with
  | CId | CFvfDiv | CFvfMul => true
  | CMul q | CDiv q => positive q
  | CThen a b => straight a && straight b
  | CRev a => straight a
  | _ => false
  end.
(** specification: ... and sums with and differences to literals *)
Fixpoint rising {V} (c : conv V) : bool :=
  match c with
  | CId | CFvfDiv | CFvfMul | CAdd _ | CSub _ => true
  | CMul q | CDiv q => positive q
  | CThen a b => rising a && rising b
  | CRev a => straight a
  | _ => false
  end.
(** specification: how many roundings: every literal may be rounded, and the result of every operation *)
Fixpoint cost {V} (c : conv V) : nat :=
  match c with
  | CId => 0
  | CFvfDiv | CFvfMul => 1
  | CThen a b => cost a + cost b
  | CRev a => 2 + cost a
  | _ => 2
  end.
(** specification: units whose components have conversions that are not straight *)
Definition bent : list str := map u ["Celsius"; "psi gauge"; "API"]%string.
Definition max_cost : nat := 14.
Definition check_straight (T : htab row) (bentc : list N) (e : entry (conv Qc)) : bool :=
  match hget (nname (e_node e)) T with
  | Some r => in_N (c_comp (r_cert r)) bentc || forallb (fun c => straight c && Nat.leb (cost c) max_cost) (e_convs e)
  | None => false
  end.
Definition check_rising (e : entry (conv Qc)) : bool :=
  forallb (fun bc : node * conv Qc => rising (snd bc) || listed decreasing (nname (e_node e)) (nname (fst bc))) (combine (e_kids e) (e_convs e)).
(** specification: a conversion x -> A x + B: A, and what the sums in it can add *)
Fixpoint spread {V} (c : conv V) : option (Q * Q) :=
  match c with
  | CId => Some (1, 0)%Q
  | CMul q => if positive q then Some (q, 0%Q) else None
  | CDiv q => if positive q then Some (/ q, 0)%Q else None
  | CAdd q | CSub q => Some (1%Q, Qabs.Qabs q)
  | CThen c1 c2 => match spread c1, spread c2 with Some (a1, b1), Some (a2, b2) => Some (a1 * a2, a2 * b1 + b2)%Q | _, _ => None end
  | CRev c => if straight c then match spread c with Some (a, _) => Some (/ a, 0)%Q | None => None end else None
  | _ => None
  end.
(** specification: a bound of the offsets, in degrees Celsius *)
Definition warm_margin : Q := 280.
Definition check_warm (T : htab row) (warm : list N) (e : entry (conv Qc)) : bool :=
  match hget (nname (e_node e)) T with
  | Some r => negb (in_N (c_comp (r_cert r)) warm)
      || (let '(_, _, o) := c_size (r_cert r) in Qle_bool (Qabs.Qabs o) warm_margin)
         && forallb (fun kc : node * conv Qc => match spread (snd kc), hget (nname (fst kc)) T with
              | Some (_, b), Some r' => let '(k, x, _) := c_size (r_cert r') in Z.eqb x 0 && positive k && Qle_bool (k * b) warm_margin && Nat.leb (cost (snd kc)) max_cost
              | _, _ => false end) (combine (e_kids e) (e_convs e))
  | None => false
  end.
(** a listed temperature, if it is registered: its degrees are not too small *)
Definition check_degrees (T : htab row) (warm : list N) (x : str) : bool :=
  match hget x T with
  | Some r => in_N (c_comp (r_cert r)) warm && let '(k, x, _) := c_size (r_cert r) in Z.eqb x 0 && positive k && Qle_bool (3 * warm_margin) (1600 * k)
  | None => true
  end.
Definition check_temperatures (T : htab row) (d : db Qc) : bool :=
  let warm := comps_of T [u "Celsius"%string] in
  forallb (check_warm T warm) (n_edges (db_net d))
  && forallb (fun kl : str * list str => negb (seqb (fst kl) (u "Temperature"%string)) || forallb (check_degrees T warm) (snd kl)) (merge_data (db_kinds d)).
Definition check_shapes (cs : list crow) (d : db Qc) : bool :=
  match tabulate (rows cs (db_net d)) hempty with
  | Some T =>
      let bentc := comps_of T bent in
      (N.of_nat (length cs) <=? 2700) && forallb (check_straight T bentc) (n_edges (db_net d)) && forallb check_rising (n_edges (db_net d))
      && forallb (fun kl : str * list str => negb (smem (fst kl) straight_kinds) || disjoint_N (comps_of T (snd kl)) bentc) (merge_data (db_kinds d))
      && check_temperatures T d
  | None => false
  end.
(** both checks in one computation *)
Definition check (o : option (db Qc)) : bool := match o with Some d => check_db cert d && check_shapes cert d | None => false end.
