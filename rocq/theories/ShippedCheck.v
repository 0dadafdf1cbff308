(** * What is computed about the shipped network

    One pass over the loaded network checks the certificate and the tables of
    [ShippedSpec.v]; the lemmas state what has been checked. *)
From Coq Require Import String QArith Qcanon FMapPositive.
From Verif Require Import Py StrTools Network SearchSpec NetworkFacts Conv Converter EngineSpec NetFacts2 ConsistSpec RegionSpec Affine SymAffine
  Demo Dict Database FastDb Shipped Operations Units ShippedSpec ShippedCert.
Local Open Scope N_scope.

(** ** Tables with a fixed content *)
Fixpoint tabulate {A} (l : list (str * A)) (m : htab A) : option (htab A) :=
  match l with
  | [] => Some m
  | (n, x) :: t => match hget n m with Some _ => None | None => tabulate t (hset n x m) end
  end.
Lemma tabulate_fresh {A} n : forall (t : list (str * A)) m m' y, hget n m <> None -> tabulate t m = Some m' -> ~ In (n, y) t.
Proof.
  induction t as [|[k z] t IHt]; intros m m1 y Hm Ht Hi; [easy|]. cbn [tabulate] in Ht.
  destruct (hget k m) eqn:Ek; [discriminate|]. destruct Hi as [Hi|Hi].
  - injection Hi as -> ->. congruence.
  - apply (IHt (hset k z m) m1 y); try assumption. rewrite hget_hset. destruct (seqb n k); [discriminate|exact Hm].
Qed.
Lemma tabulate_spec {A} (l : list (str * A)) : forall m m', tabulate l m = Some m' ->
  NoDup (map fst l) /\ (forall n x, hget n m' = Some x <-> In (n, x) l \/ hget n m = Some x).
Proof.
  induction l as [|[n x] t IH]; intros m m' H; cbn [tabulate] in H.
  - injection H as <-. split; [constructor|]. cbn. intuition.
  - destruct (hget n m) as [y|] eqn:E; [discriminate|]. destruct (IH _ _ H) as [H1 H2]. split.
    + cbn [map fst]. constructor; [|exact H1]. intros K. apply in_map_iff in K as ([n' y] & K1 & K2). cbn in K1. subst n'.
      refine (tabulate_fresh n t _ _ y _ H K2). rewrite hget_hset, seqb_refl. discriminate.
    + intros k y. rewrite H2, hget_hset. destruct (seqb k n) eqn:Ek.
      * apply seqb_eq in Ek. subst k. cbn [In]. split.
        -- intros [K|K]; [now left; right|]. injection K as ->. left. now left.
        -- intros [[K|K]|K]; [injection K as ->; now right|now left|congruence].
      * cbn [In]. split; intros [K|K]; auto.
        destruct K as [K|K]; [|now left]. injection K as -> ->. rewrite seqb_refl in Ek. discriminate.
Qed.
(** a set of names *)
Definition sset (l : list str) : htab unit := fold_left (fun m n => hset n tt m) l hempty.
Definition smemb (n : str) (m : htab unit) : bool := match hget n m with Some _ => true | None => false end.
Lemma sset_spec l n : smemb n (sset l) = true <-> In n l.
Proof.
  unfold sset. assert (G : forall l m, smemb n (fold_left (fun m n => hset n tt m) l m) = true <-> In n l \/ smemb n m = true).
  { clear l. induction l as [|x l IH]; intros m; cbn [fold_left In]; [tauto|]. rewrite IH. unfold smemb. rewrite hget_hset.
    destruct (seqb n x) eqn:E; [apply seqb_eq in E; subst; tauto|]. assert (x <> n) by (intros ->; rewrite seqb_refl in E; discriminate). tauto. }
  rewrite G. unfold smemb. rewrite hget_empty. split; [intros [H|H]; [exact H|discriminate]|auto].
Qed.

(** ** The checks *)
Record row := Row { r_cert : crow; r_entry : entry (conv Qc) }.
Definition rows (cs : list crow) (g : net (conv Qc)) : list (str * row) :=
  map (fun ec => (nname (e_node (fst ec)), Row (snd ec) (fst ec))) (combine (n_edges g) cs).
Definition listed (l : list (str * str)) (a b : str) : bool := existsb (fun p => seqb (fst p) a && seqb (snd p) b) l.
Definition in_N (n : N) (l : list N) : bool := existsb (N.eqb n) l.
Fixpoint distinct_by {A} (eqb : A -> A -> bool) (l : list A) : bool :=
  match l with [] => true | x :: t => negb (existsb (eqb x) t) && distinct_by eqb t end.
Definition max_depth : nat := 13.

(** the components of some names *)
Definition insert_N (n : N) (l : list N) : list N := if in_N n l then l else n :: l.
Definition comps_of (T : htab row) (l : list str) : list N :=
  fold_left (fun acc n => match hget n T with Some r => insert_N (c_comp (r_cert r)) acc | None => acc end) l [].
Definition disjoint_N (l l' : list N) : bool := forallb (fun x => negb (in_N x l')) l.

(** one conversion *)
Definition gate_ok (names : list str) (a : str) (i : N) (b : str) (j : N) : bool :=
  if i =? j then true else
  match i, j with
  | Npos p, Npos q => match nth_error names (Nat.pred (Pos.to_nat p)), nth_error names (Nat.pred (Pos.to_nat q)) with
                      | Some x, Some y => seqb x a && seqb y b
                      | _, _ => false
                      end
  | _, _ => false
  end.
Definition check_kid (T : htab row) (fvfc : list N) (e : entry (conv Qc)) (r : crow) (b : node) (c : conv Qc) : bool :=
  let a := nname (e_node e) in
  match hget (nname b) T with
  | Some rb =>
      let r' := r_cert rb in
      neqb (e_node (r_entry rb)) b && (c_comp r' =? c_comp r)
      && gate_ok gates1 a (c_g1 r) (nname b) (c_g1 r') && gate_ok gates2 a (c_g2 r) (nname b) (c_g2 r')
      && (if listed disagreeing a (nname b) then negb ((c_g1 r =? c_g1 r') && (c_g2 r =? c_g2 r'))
          else size_ok c (c_size r) (c_size r'))
      && (if slope_pos c then listed decreasing a (nname b) else true)
      && (if nmem (e_node e) (e_kids (r_entry rb)) then true else listed one_way a (nname b))
      && (if no_fvf c then true else in_N (c_comp r) fvfc)
  | None => false
  end.
Definition check_parent (T : htab row) (e : entry (conv Qc)) (r : crow) : bool :=
  match c_depth r with
  | O => true
  | S d => match nth_error (e_kids e) (c_parent r) with
           | Some p => match hget (nname p) T with
                       | Some rp => Nat.eqb (c_depth (r_cert rp)) d && nmem (e_node e) (e_kids (r_entry rp))
                       | None => false
                       end
           | None => false
           end
  end.
Definition check_entry (T : htab row) (next : N) (fvfc : list N) (e : entry (conv Qc)) : bool :=
  (nid (e_node e) <? next) && Nat.eqb (length (e_convs e)) (length (e_kids e)) && distinct_by neqb (e_kids e)
  && match hget (nname (e_node e)) T with
     | Some r => forallb (fun bc => check_kid T fvfc e (r_cert r) (fst bc) (snd bc)) (combine (e_kids e) (e_convs e))
         && check_parent T e (r_cert r) && Nat.leb (c_depth (r_cert r)) max_depth
         && negb (Qeq_bool (fst (fst (c_size (r_cert r)))) 0)
     | None => false
     end.
Definition roots (cs : list crow) : list N := flat_map (fun r => match c_depth r with O => [c_comp r] | _ => [] end) cs.

(** the kinds *)
Definition kind_comps (T : htab row) (d : kinds) : list (str * list N) := map (fun kl : str * list str => (fst kl, comps_of T (snd kl))) d.
Definition check_kinds (kc : list (str * list N)) : bool :=
  forallb (fun k1 => forallb (fun k2 => seqb (fst k1) (fst k2) || listed merged (fst k1) (fst k2) || disjoint_N (snd k1) (snd k2)) kc) kc.
(** one gate per component *)
Definition mark := (N * (N * N))%type.
Definition mark_eqb (a b : mark) : bool := (fst a =? fst b) && (fst (snd a) =? fst (snd b)) && (snd (snd a) =? snd (snd b)).
Definition insert_mark (n : mark) (l : list mark) : list mark := if existsb (mark_eqb n) l then l else n :: l.
Definition mark_of (r : crow) : mark := (c_comp r, (c_g1 r, c_g2 r)).
Definition marks_of (T : htab row) (l : list str) : list mark :=
  fold_left (fun acc n => match hget n T with Some r => insert_mark (mark_of (r_cert r)) acc | None => acc end) l [].
Definition check_gates (T : htab row) (kl : str * list str) : bool :=
  smem (fst kl) contradictory_kinds || distinct_by (fun a b => fst a =? fst b) (marks_of T (snd kl)).
(** all the units of the kind are registered, in one component without irregularities *)
Definition check_whole (T : htab row) (fvfc : list N) (kl : str * list str) : bool :=
  if smem (fst kl) whole_kinds then
    forallb (fun n => match hget n T with Some _ => true | None => false end) (snd kl)
    && match comps_of T (snd kl) with [c] => negb (in_N c (fvfc ++ comps_of T (map fst (one_way ++ decreasing)))) | _ => false end
  else true.
(** the special rules are for the special kinds *)
Record rules := Rules { ru_date : list str; ru_dimless : list str; ru_percent : list str; ru_volume : htab unit; ru_weight : htab unit }.
Definition rules_of (d : kinds) : rules :=
  Rules (complete (dg "Date" d)) (complete (dg "Dimensionless" d)) (complete (dg "Percentage" d))
    (sset (complete (dg "Volume" d))) (sset (complete (dg "Weight" d))).
Definition ordinary_b (R : rules) (x : str) : bool :=
  negb (smem x (ru_date R)) && negb (smem (lower x) (ru_dimless R)) && negb (smem (lower x) (ru_percent R)).
Definition check_ordinary (R : rules) (kl : str * list str) : bool :=
  smem (fst kl) rule_kinds || forallb (ordinary_b R) (snd kl).
(** a volume that is also a weight is an ambiguous name *)
Definition check_ounces (R : rules) (d : kinds) : bool :=
  forallb (fun x => negb (smemb x (ru_weight R)) || smem x shipped_uncertain) (complete (dg "Volume" d)).
Definition density_b (R : rules) (f t : str) : bool :=
  negb (smem f shipped_uncertain) && negb (smem t shipped_uncertain) &&
  ((smemb f (ru_volume R) && smemb t (ru_weight R)) || (smemb t (ru_volume R) && smemb f (ru_weight R))).
Definition plain_b (R : rules) (f t : str) : bool :=
  simple_b f && bare_b f && simple_b t && bare_b t && ordinary_b R f && negb (density_b R f t) && negb (seqb f t).

(** registered conversions with a given map *)
Definition edge_of (T : htab row) (f t : str) : option (conv Qc) :=
  match hget f T with
  | Some r => match find (fun bc => seqb (nname (fst bc)) t) (combine (e_kids (r_entry r)) (e_convs (r_entry r))) with
              | Some bc => Some (snd bc)
              | None => None
              end
  | None => None
  end.
Definition direct_b (T : htab row) (f t : str) (p q : Q) : bool :=
  match edge_of T f t with
  | Some c => no_fvf c && match saff c with Some (p', e, q') => Z.eqb e 0 && Qeq_bool p' p && Qeq_bool q' q | None => false end
  | None => false
  end.
Definition check_prefix (T : htab row) (R : rules) (p : str * Z) (un : str * Z) : bool :=
  let f := fst p ++ fst un in let t := fst un in let e := (snd p * snd un)%Z in
  (seqb (fst p) (u "K") && negb (Z.eqb (snd un) 1))
  || (plain_b R f t && plain_b R t f && direct_b T f t (ten_to e) 0 && direct_b T t f (ten_to (- e)) 0).
Definition check_def (T : htab row) (R : rules) (x : definition) : bool :=
  plain_b R (d_from x) (d_to x)
  && match hget (d_from x) T, hget (d_to x) T with
     | Some a, Some b => mark_eqb (mark_of (r_cert a)) (mark_of (r_cert b))
         && size_ok (CThen (CMul (d_factor x)) (CAdd (d_offset x))) (c_size (r_cert a)) (c_size (r_cert b))
     | _, _ => false
     end.
Definition kind_has (kd : kinds) (k : str) (x : str) : bool := match dget k kd with Some l => smem x l | None => false end.
Definition check_defs (kd : kinds) (kl : str * list definition) : bool :=
  forallb (fun x => kind_has kd (fst kl) (d_from x) && kind_has kd (fst kl) (d_to x)) (snd kl).
(** conversions that are wrong, or contradict the others *)
Definition checked_odd : list (string * string * Q * Q) :=
  [("psi gauge", "psi", 1, 0); ("psi gauge", "absolute psi", 1, 146959 # 10000); ("absolute psi", "psi", 1, 0)]%Q%string.
Definition check_odd (T : htab row) (R : rules) (x : string * string * Q * Q) : bool :=
  let '(f, t, p, q) := x in plain_b R (u f) (u t) && direct_b T (u f) (u t) p q && direct_b T (u t) (u f) p (- q).

(** values of registered conversions that have a reverse *)
Definition checked_values : list (string * string * Q * Q) :=
  [("API", "SgO", 10, 1); ("API", "SgO", 30, 1415 # 1615); ("Km2", "m2", 1, 1000); ("light year", "meter", 1, 157678841209680);
   ("gillUK", "fluid ounce UK", 1, 4); ("kilogram mass", "kilogram force", 1, 980665 # 100000)]%Q%string.
Definition check_value (T : htab row) (R : rules) (x : string * string * Q * Q) : bool :=
  let '(f, t, v, w) := x in
  plain_b R (u f) (u t) && match edge_of T (u t) (u f) with Some _ => true | None => false end
  && match edge_of T (u f) (u t) with
     | Some c => no_fvf c && match ceval (Ok 1%Qc) c (Q2Qc v) with Ok y => Qeq_bool y w | Err _ => false end
     | None => false
     end.
(** regular components *)
Definition regular_b (T : htab row) (fvfc : list N) (c : N) : bool := negb (in_N c (fvfc ++ comps_of T (map fst (one_way ++ decreasing)))).
Definition regular_at (T : htab row) (fvfc : list N) (x : str) : bool :=
  match hget x T with Some r => regular_b T fvfc (c_comp (r_cert r)) | None => false end.
(** units of one kind without a conversion; units of two kinds with one *)
Definition checked_unlinked : list (string * (string * string)) :=
  [("Frequency", ("RPM", "Hz")); ("Viscosity", ("centipoise", "Poise")); ("Force", ("kilogram force", "Newton"))]%string.
Definition check_unlinked (T : htab row) (R : rules) (kd : kinds) (x : string * (string * string)) : bool :=
  let '(k, (f, t)) := x in
  plain_b R (u f) (u t) && kind_has kd (u k) (u f) && kind_has kd (u k) (u t)
  && match hget (u f) T, hget (u t) T with Some a, Some b => negb (c_comp (r_cert a) =? c_comp (r_cert b)) | _, _ => false end.
Definition checked_mixed : list (string * string * definition) :=
  [("Temperature", "Capacitance", Def (u "Celsius") (u "Farad") (9 # 5) 32); ("Area", "Permeability", def "acre" "Darcy" (5058570528000000000000000 # 1233654125));
   ("Frequency", "Frequency", def "s-1" "Hz" 1)]%Q%string.
Definition check_mixed (T : htab row) (fvfc : list N) (R : rules) (kd : kinds) (x : string * string * definition) : bool :=
  let '(k, k', dd) := x in check_def T R dd && regular_at T fvfc (d_from dd) && kind_has kd (u k) (d_from dd) && kind_has kd (u k') (d_to dd).
(** every listed unit is registered, but the accelerations *)
Definition unregistered_kinds : list str := [u "Acceleration"].
Definition check_registered (T : htab row) (kl : str * list str) : bool :=
  smem (fst kl) unregistered_kinds || forallb (fun n => match hget n T with Some _ => true | None => false end) (snd kl).

(** ** For the quantities *)
Definition size_pos (r : crow) : bool := match Qnum (fst (fst (c_size r))) with Zpos _ => true | _ => false end.
Definition origin_of (T : htab row) (x : str) : option Q := match hget x T with Some r => Some (snd (c_size (r_cert r))) | None => None end.
Definition same_origin (o o' : option Q) : bool := match o, o' with Some p, Some q => Qeq_bool p q | _, _ => false end.
Definition check_origin (T : htab row) (kl : str * list str) : bool :=
  if smem (fst kl) proportional_kinds
  then match snd kl with [] => true | x :: _ => forallb (fun y => same_origin (origin_of T x) (origin_of T y)) (snd kl) end else true.
Definition late_kinds : list str := map u ["UserUnits"; "otherUnits"; "Data"]%string.
Definition front (kd : kinds) : kinds := filter (fun kl => negb (smem (fst kl) late_kinds)) kd.
Definition first_in (kd : kinds) (x : str) : option str := option_map fst (find (fun kl : str * list str => smem x (snd kl)) kd).
(** a name of letters, the way [plain_base] says *)
Definition letters_b (x : str) : bool :=
  simple_b x && bare_b x && forallb (fun c => negb (isdigit c) && negb (cmem c (u "-+./")) && negb (c =? 94)) x.
Definition apart_b (T : htab row) (x y : str) : bool :=
  match hget x T, hget y T with Some r, Some r' => negb (c_comp (r_cert r) =? c_comp (r_cert r')) | _, None => true | _, _ => false end.
(** names that can be written between quotes, without blanks around *)
Definition quotable (x : str) : bool := match literal x with Some y => seqb y x | None => false end && seqb (strip x) x.
Definition square_b (T : htab row) (kd : kinds) (R : rules) (k x : str) : bool :=
  let y := x ++ u "2" in
  apart_b T x y && ordinary_b R y && negb (smem y shipped_uncertain) && quotable y
  && match first_in kd y with Some k' => seqb k' (u "Area") && negb (seqb k (u "Area")) | None => true end.
Definition check_square (T : htab row) (kd : kinds) (R : rules) (kl : str * list str) : bool :=
  if smem (fst kl) square_kinds then
    forallb (fun x => negb (letters_b x) ||
      (match first_in kd x with Some k => seqb k (fst kl) | None => false end && negb (smem x shipped_uncertain)
       && negb (smem (strip_chars sp_par (lower x)) unitless_names) && (smem x not_squared || square_b T kd R (fst kl) x))) (snd kl)
  else true.
Definition check_quotable (kl : str * list str) : bool := forallb quotable (snd kl).
(** the kinds whose names do not make a quantity with the value given list no ratio of a name to itself *)
Definition twin_b (x : str) : bool := match csplit c_slash x with [a; b] => seqb a b && negb (seqb a []) | _ => false end.
Definition odd_kinds : list str := map u ["otherUnits"; "Date"; "Percentage"]%string.
Definition check_twin (kl : str * list str) : bool := negb (smem (fst kl) odd_kinds) || forallb (fun x => negb (twin_b x)) (snd kl).
(** no percentage nor date is written with digits, but /100; no inverse is listed with its base *)
Definition inverse_b (x : str) : bool := match x with a :: b :: _ => (a =? 49) && (b =? 47) | _ => false end.
(** no name begins or ends with a space, nor has one next to a sign *)
Definition signed (c : N) : bool := (c =? c_slash) || (c =? c_star).
Fixpoint pairs_ok (p : N) (x : str) : bool :=
  match x with [] => negb (p =? 32) | c :: x' => negb (((p =? 32) && signed c) || (signed p && (c =? 32))) && pairs_ok c x' end.
Definition tight (x : str) : bool := pairs_ok c_slash x.
Definition check_digits (kl : str * list str) : bool :=
  (negb (smem (fst kl) (map u ["Date"; "Percentage"]%string)) || forallb (fun x => cmem c_slash x || negb (existsb isdigit x)) (snd kl))
  && (negb (smem (fst kl) square_kinds) || forallb (fun x => negb (inverse_b x)) (snd kl)) && forallb tight (snd kl).
(** the inverse of a unit of letters, written with -1, is a new name, but of the second (s-1 and S-1 are frequencies) *)
Definition inverse_new (T : htab row) (kd : kinds) (R : rules) (x : str) : bool :=
  let y := x ++ u "-1" in
  match hget y T, first_in kd y with None, None => ordinary_b R y && negb (smem y shipped_uncertain) | _, _ => false end.
Definition check_inverse (T : htab row) (kd : kinds) (R : rules) (kl : str * list str) : bool :=
  negb (smem (fst kl) measured_kinds) || forallb (fun x => negb (letters_b x) || smem x (map u ["s"; "S"]%string) || inverse_new T kd R x) (snd kl).
(** the first kinds of some names *)
Definition checked_first : list (string * option string) :=
  [("s2", Some "otherUnits"); ("sec/day", Some "otherUnits"); ("Dimensionless", None); ("dimensionless", Some "Dimensionless"); ("date", Some "Date");
   ("%", Some "Percentage"); ("F", Some "Temperature"); ("ohm", Some "Resistance"); ("bit", Some "Data"); ("m", Some "Length"); ("km", Some "Length");
   ("Celsius", Some "Temperature"); ("Fahrenheit", Some "Temperature"); ("W", Some "Power"); ("smoot", None); ("a\\b", None); ("oz", Some "Volume");
   ("inch", Some "Length"); ("foot", Some "Length"); ("mile", Some "Length"); ("", Some "Dimensionless"); ("1/s", Some "Frequency"); ("1", None); ("m ", None); ("m/s", None); ("s", Some "Time"); ("/", None)]%string
  ++ map (fun c : string * (string * string) => (snd (snd c), Some (fst (snd c)))) (filter (fun c : string * (string * string) => negb (String.eqb (fst (snd c)) "Unit")) constants)
  ++ [("s-1", Some "Frequency"); ("ft/in", None); ("ft", Some "Length"); ("in", Some "Length"); ("Hz", Some "Frequency"); ("min", Some "Time"); ("kg", Some "Weight"); ("S-1", Some "Frequency");
      ("ft*min", None); ("min*ft", None); ("min/ft", None); ("mA*kV", None); ("kV*mA", None); ("mA", Some "Current"); ("kV", Some "Voltage")]%string.
Definition check_first (kd : kinds) (x : string * option string) : bool :=
  match first_in kd (u (fst x)), snd x with Some k, Some k' => seqb k (u k') | None, None => true | _, _ => false end.
Definition check_order (kd : kinds) : bool :=
  forallb (check_first kd) checked_first && distinct_by seqb (map fst kd) && match rev (map fst kd) with a :: b :: c :: t => seqb a (u "Data") && seqb b (u "otherUnits") && seqb c (u "UserUnits")
     && forallb (fun k => negb (smem k late_kinds)) t && forallb (fun k => smem k classes || seqb k (u "Date")) t | _ => false end.
(** names that are not registered *)
Definition checked_new : list string := ["smoot"; "cubit"; "mile/min*ft"; "m/s*in"]%string.
Definition check_new (T : htab row) (R : rules) (x : string) : bool := match hget (u x) T with None => ordinary_b R (u x) | _ => false end.
Definition check_units (cs : list crow) (T : htab row) (kd : kinds) (R : rules) : bool :=
  forallb size_pos cs && forallb (check_origin T) kd && forallb (check_square T kd R) kd && (forallb check_quotable kd && (forallb (check_new T R) checked_new && ((forallb check_twin kd && forallb (check_inverse T kd R) kd) && forallb check_digits kd))) && check_order kd.

Definition check_db (cs : list crow) (d : db Qc) : bool :=
  match tabulate (rows cs (db_net d)) hempty with
  | Some T =>
      let kd := merge_data (db_kinds d) in
      let R := rules_of kd in
      let fvfc := comps_of T [u "standard barrel"] in
      Nat.eqb (length cs) (length (n_edges (db_net d))) && distinct_by N.eqb (roots cs)
      && forallb (check_entry T (n_next (db_net d)) fvfc) (n_edges (db_net d))
      && check_kinds (kind_comps T kd) && forallb (check_gates T) kd && forallb (check_whole T fvfc) kd
      && forallb (check_ordinary R) kd && check_ounces R kd
      && forallb (fun p => forallb (check_prefix T R p) si_units) si_prefixes
      && forallb (check_def T R) definitions && forallb (check_defs kd) defs && kind_has kd (u "Density") (u "API")
      && forallb (check_odd T R) checked_odd
      && forallb (check_registered T) kd && forallb (check_value T R) checked_values
      && forallb (check_unlinked T R kd) checked_unlinked && forallb (check_mixed T fvfc R kd) checked_mixed
      && check_units cs T kd R
  | None => false
  end.
