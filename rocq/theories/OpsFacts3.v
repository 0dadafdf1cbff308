(** * Products and quotients of powers of one base *)
From Coq Require Import String Lia ZArith QArith.
From Verif Require Import Py StrTools StrSpec StrFacts StrFacts2 StrFacts3 Network Search Conv Converter EngineSpec EngineFacts EngineFacts2 CleanFacts OpsSpec Operations OpsFacts OpsFacts2.
Local Open Scope N_scope.

(** ** Spelling the result *)
Lemma name_chars b : is_name b = true -> forall c, In c b -> c <> 40 /\ c <> 41 /\ c <> 42 /\ c <> 43 /\ c <> 45 /\ c <> 47 /\ c <> 94.
Proof. intros H c Hc. exact (name_char_ne _ (is_name_chars _ H c Hc)). Qed.
Lemma name_nochar b c : is_name b = true -> existsb (N.eqb c) [40; 41; 42; 43; 45; 47; 94] = true -> cmem c b = false.
Proof.
  intros H Hc. apply cmem_false. intros Hi. pose proof (name_chars b H c Hi) as Hn. cbn [existsb] in Hc.
  rewrite !orb_true_iff, !N.eqb_eq in Hc. lia.
Qed.
Lemma reduce_ratio b re : is_name b = true -> reduce_units re (b ++ u "/" ++ b) = Ok (b ++ u "/" ++ b).
Proof.
  intros H. pose proof (reduce_units_write re [(true, b); (false, b)]) as W.
  assert (factors_ok [(true, b); (false, b)] = true) as Hf by (unfold factors_ok; cbn [forallb snd]; now rewrite H).
  specialize (W Hf). change (write [(true, b); (false, b)]) with (b ++ (47 :: (b ++ []))) in W.
  rewrite app_nil_r in W. change (b ++ u "/" ++ b) with (b ++ 47 :: b). rewrite W. f_equal.
  cbn [existsb fst negb orb]. assert (fru 0 [(true, b); (false, b)] [] = []) as ->; [|reflexivity].
  cbn [fru existsb findex opp negb fst snd]. unfold feqb. cbn [fst snd Bool.eqb andb]. rewrite seqb_refl. reflexivity.
Qed.
Lemma reduce_plain x re : ~ In c_slash x -> cmem c_plus x = false -> cmem c_minus x = false -> reduce_units re x = Ok x.
Proof. intros H H1 H2. unfold reduce_units. rewrite H1, H2. apply cmem_false in H. now rewrite H. Qed.
Lemma reduce_minus x : cmem c_minus x = true -> reduce_units false x = Ok x.
Proof. intros H. unfold reduce_units. rewrite H, orb_true_r. reflexivity. Qed.
Lemma str_noplus n : cmem c_plus (str_of_Z n) = false.
Proof. apply cmem_false. intros H. apply str_of_Z_chars in H as [H|H]; discriminate. Qed.

(** the result of a product or a quotient *)
Definition result_name (b : str) (n : Z) : str := if (n =? 0)%Z then b ++ u "/" ++ b else powname b n.
Section F.
Context {F : Floats}.
Lemma wrap_name b : is_name b = true -> wrap b = b.
Proof. intros H. unfold wrap. now rewrite !name_nochar. Qed.
Lemma spell_name b n : is_name b = true -> spell b (PI n) = result_name b n.
Proof.
  intros H. unfold spell, result_name, powname. cbn [p_eqZ p_str].
  destruct (Z.eqb_spec n (-1)) as [->|_]; [reflexivity|].
  destruct (Z.eqb_spec n 1) as [->|_]; [reflexivity|].
  destruct (Z.eqb_spec n 0) as [->|_]; [reflexivity|]. now rewrite wrap_name.
Qed.
Lemma reduce_result b n : base_name b -> is_name b = true -> reduce_units false (result_name b n) = Ok (result_name b n).
Proof.
  intros Hb H. unfold result_name. destruct (Z.eqb_spec n 0) as [_|_]; [now apply reduce_ratio|].
  unfold powname. destruct (Z.eqb_spec n 1) as [_|_]; [apply reduce_plain; [now apply base_noslash|now apply name_nochar|now apply name_nochar]|].
  destruct (cmem c_minus (b ++ str_of_Z n)) eqn:E; [now apply reduce_minus|].
  apply reduce_plain; [now apply power_noslash| |exact E]. now rewrite cmem_app, name_nochar, str_noplus.
Qed.
Lemma denotes_result b n : denotes b n (result_name b n).
Proof.
  unfold result_name, powname. destruct (Z.eqb_spec n 0) as [->|_]; [constructor|].
  destruct (Z.eqb_spec n 1) as [->|_]; constructor.
Qed.
Lemma powname_inj b m n : powname b m = powname b n -> m = n.
Proof.
  unfold powname. destruct (Z.eqb_spec m 1) as [->|Hm], (Z.eqb_spec n 1) as [->|Hn]; intros H; try reflexivity.
  - exfalso. rewrite <- (app_nil_r b) in H at 1. apply app_inv_head in H. now apply (str_of_Z_nonnil n).
  - exfalso. symmetry in H. rewrite <- (app_nil_r b) in H at 1. apply app_inv_head in H. now apply (str_of_Z_nonnil m).
  - apply app_inv_head in H. now apply str_of_Z_inj.
Qed.

(** ** The products, for an invariant [I] of the converter under which powers
    of [b] with exponents in [L] are told apart *)
Context {V : Type} {A : Arith V}.
Definition tells (b : str) (I : st V -> Prop) (L : list Z) : Prop :=
  (forall s, I s -> exists s', convertible b b None s = (Ok true, s') /\ I s')
  /\ (forall i j s, In i L -> In j L -> i <> j -> I s ->
        exists s', convertible (powname b i) (powname b j) None s = (Ok false, s') /\ I s').
Section P.
Context (b : str) (I : st V -> Prop) (L : list Z)
  (Hb : base_name b) (Hn : is_name b = true) (Hu : ~ no_unit unitless_names (Some b)) (HI : tells b I L).
Notation op := (unit_op unitless_names).
Lemma mbind_ok {X Y} (m : M V X) (k : X -> M V Y) s x s' : m s = (Ok x, s') -> bind m k s = k x s'.
Proof. intros H. unfold bind. now rewrite H. Qed.
Lemma op_head n div i j s : op (S n) div (Some (powname b i)) (Some (powname b j)) s =
  (if negb div && (i =? j)%Z then (Ok (b ++ str_of_Z (i * 2)), s)
   else bind (if (i =? j)%Z then ret false else convertible (powname b i) (powname b j) None) (fun cv : bool =>
        if cv then op n div (Some (powname b i)) (Some (powname b i))
        else
          if (i =? -1)%Z && negb (j =? -1)%Z then
            (if div then op n false (Some b) (Some (powname b j)) else op n true (Some (powname b j)) (Some b))
          else if negb (i =? -1)%Z && (j =? -1)%Z then op n (negb div) (Some (powname b i)) (Some b)
          else bind (convertible b b None) (fun cb : bool =>
            if cb then lift (reduce_units false (spell b (PI (if div then i - j else i + j)%Z)))
            else if div && negb (cmem c_plus (powname b i) || cmem c_minus (powname b i) || cmem c_hat (powname b i))
                        && negb (cmem c_plus (powname b j) || cmem c_minus (powname b j) || cmem c_hat (powname b j)) && cmem c_star (powname b i) then
              bind (lift (unit_base (powname b j))) (fun bb =>
              bind (lift (base_in bb (csplit c_star (powname b i)))) (fun i0 : bool =>
              if i0 then
                bind (div_factors (fun x y => op n true (Some x) (Some y)) (powname b i) (powname b j) (csplit c_star (powname b i)) [])
                  (fun r => match r with inl r => ret r | inr r => lift (reduce_units false r) end)
              else lift (reduce_units false (wrap (powname b i) ++ u "/" ++ wrap (powname b j)))))
            else lift (reduce_units false (wrap (powname b i) ++ (if div then u "/" else u "*") ++ wrap (powname b j)))))
     s).
Proof.
  cbn [unit_op]. destruct (powname_ok b i Hb Hu) as (_ & -> & Ui). destruct (powname_ok b j Hb Hu) as (_ & -> & Uj).
  rewrite Ui, Uj.
  assert (seqb (powname b i) (powname b j) = (i =? j)%Z) as E.
  { destruct (Z.eqb_spec i j) as [->|Hne]; [apply seqb_refl|]. apply seqb_neq. intros H. now apply powname_inj in H. }
  rewrite E. rewrite !ubp_powname by exact Hb.
  destruct (negb div && (i =? j)%Z) eqn:Ed.
  - unfold bind, lift. cbn [fst snd]. unfold has_op. rewrite !name_nochar by (exact Hn || reflexivity). cbn [orb p_int]. reflexivity.
  - unfold bind. destruct ((if (i =? j)%Z then ret false else convertible (powname b i) (powname b j) None) s) as [[[|]|e] s1]; [reflexivity| |reflexivity].
    unfold lift at 1 2. cbn [p_eqZ]. destruct ((i =? -1)%Z && negb (j =? -1)%Z); [reflexivity|].
    destruct (negb (i =? -1)%Z && (j =? -1)%Z); [reflexivity|].
    destruct (convertible b b None s1) as [[[|]|e] s2]; try reflexivity. unfold lift. now destruct div.
Qed.
(** exponents that reach the sum without passing through a division *)
Lemma op_direct n div i j s : I s -> In i L -> In j L -> ((i =? -1) = (j =? -1))%Z ->
  negb div && (i =? j)%Z = false ->
  exists s', op (S n) div (Some (powname b i)) (Some (powname b j)) s
    = (Ok (result_name b (if div then i - j else i + j)), s') /\ I s'.
Proof.
  intros Is Hi Hj Hm Hd. rewrite op_head, Hd.
  assert (exists s1, (if (i =? j)%Z then ret false else convertible (powname b i) (powname b j) None) s = (Ok false, s1) /\ I s1) as (s1 & E1 & I1).
  { destruct (Z.eqb_spec i j) as [_|Hne]; [now exists s|]. now apply (proj2 HI). }
  rewrite (mbind_ok _ _ _ _ _ E1). cbv beta iota. rewrite Hm, andb_negb_r, andb_comm, andb_negb_r. cbv iota.
  destruct (proj1 HI s1 I1) as (s2 & E2 & I2). rewrite (mbind_ok _ _ _ _ _ E2). cbv iota.
  rewrite spell_name by exact Hn. exists s2. split; [|exact I2]. unfold lift. now rewrite reduce_result.
Qed.
Lemma pow1 : powname b 1 = b. Proof. reflexivity. Qed.
Lemma product_powers n i j s : (2 <= n)%nat -> I s -> In i L -> In j L -> In 1%Z L ->
  exists r s', op n false (Some (powname b i)) (Some (powname b j)) s = (Ok r, s') /\ I s'
    /\ denotes b (i + j) r /\ (i + j <> 0 -> r = powname b (i + j))%Z.
Proof.
  intros Hf Is Hi Hj H1. destruct n as [|[|n]]; [lia|lia|].
  destruct (Z.eqb_spec i j) as [->|Hne].
  { exists (b ++ str_of_Z (j * 2)), s. rewrite op_head, Z.eqb_refl. cbn [negb andb]. split; [reflexivity|]. split; [exact Is|].
    replace (j + j)%Z with (j * 2)%Z by lia. split; [constructor|]. intros _. unfold powname. destruct (Z.eqb_spec (j * 2) 1); [lia|reflexivity]. }
  assert (forall k, (k <> 0)%Z -> result_name b k = powname b k) as Rk.
  { intros k Hk. unfold result_name. now destruct (Z.eqb_spec k 0). }
  destruct (Z.eqb_spec i (-1)) as [Ei|Ei], (Z.eqb_spec j (-1)) as [Ej|Ej]; [lia| | |].
  - (* i = -1 *) rewrite op_head. destruct (Z.eqb_spec i j) as [?|_]; [lia|]. cbn [negb andb].
    destruct (proj2 HI i j s Hi Hj Hne Is) as (s1 & E1 & I1). rewrite (mbind_ok _ _ _ _ _ E1). cbv iota.
    destruct (Z.eqb_spec i (-1)) as [_|?]; [|lia]. destruct (Z.eqb_spec j (-1)) as [?|_]; [lia|]. cbn [negb andb].
    change (Some b) with (Some (powname b 1)). destruct (op_direct n true j 1 s1 I1 Hj H1) as (s2 & E2 & I2); [destruct (Z.eqb_spec j (-1)); [lia|reflexivity]|reflexivity|].
    exists (result_name b (j - 1)), s2. split; [exact E2|]. split; [exact I2|]. replace (i + j)%Z with (j - 1)%Z by lia.
    split; [apply denotes_result|apply Rk].
  - rewrite op_head. destruct (Z.eqb_spec i j) as [?|_]; [lia|]. cbn [negb andb].
    destruct (proj2 HI i j s Hi Hj Hne Is) as (s1 & E1 & I1). rewrite (mbind_ok _ _ _ _ _ E1). cbv iota.
    destruct (Z.eqb_spec j (-1)) as [_|?]; [|lia]. destruct (Z.eqb_spec i (-1)) as [?|_]; [lia|]. cbn [negb andb].
    change (Some b) with (Some (powname b 1)). destruct (op_direct n true i 1 s1 I1 Hi H1) as (s2 & E2 & I2); [destruct (Z.eqb_spec i (-1)); [lia|reflexivity]|reflexivity|].
    exists (result_name b (i - 1)), s2. split; [exact E2|]. split; [exact I2|]. replace (i + j)%Z with (i - 1)%Z by lia.
    split; [apply denotes_result|apply Rk].
  - destruct (op_direct (S n) false i j s Is Hi Hj) as (s2 & E2 & I2).
    { destruct (Z.eqb_spec i (-1)), (Z.eqb_spec j (-1)); (lia || reflexivity). }
    { destruct (Z.eqb_spec i j); [lia|reflexivity]. }
    exists (result_name b (i + j)), s2. split; [exact E2|]. split; [exact I2|]. split; [apply denotes_result|apply Rk].
Qed.
Lemma division_powers n i j s : (3 <= n)%nat -> I s -> In i L -> In j L -> In 1%Z L ->
  exists r s', op n true (Some (powname b i)) (Some (powname b j)) s = (Ok r, s') /\ I s'
    /\ let k := if (i =? -1)%Z && negb (j =? -1)%Z then (1 + j)%Z else (i - j)%Z in
       denotes b k r /\ (k <> 0 -> r = powname b k)%Z.
Proof.
  intros Hf Is Hi Hj H1. destruct n as [|[|[|n]]]; [lia|lia|lia|].
  assert (forall k, (k <> 0)%Z -> result_name b k = powname b k) as Rk.
  { intros k Hk. unfold result_name. now destruct (Z.eqb_spec k 0). }
  destruct (Bool.bool_dec (i =? -1)%Z (j =? -1)%Z) as [Em|Em].
  - destruct (op_direct (S (S n)) true i j s Is Hi Hj Em eq_refl) as (s2 & E2 & I2).
    exists (result_name b (i - j)), s2. split; [exact E2|]. split; [exact I2|]. cbv zeta. rewrite Em, andb_negb_r.
    split; [apply denotes_result|apply Rk].
  - assert (i <> j) as Hne by (intros ->; now apply Em).
    destruct (proj2 HI i j s Hi Hj Hne Is) as (s1 & E1 & I1).
    rewrite op_head. destruct (Z.eqb_spec i j) as [?|_]; [lia|]. cbn [negb andb]. rewrite (mbind_ok _ _ _ _ _ E1). cbv iota.
    destruct (Z.eqb_spec i (-1)) as [Ei|Ei], (Z.eqb_spec j (-1)) as [Ej|Ej]; try (exfalso; now apply Em); cbn [negb andb].
    + change (Some b) with (Some (powname b 1)). destruct (product_powers (S (S n)) 1 j s1 ltac:(lia) I1 H1 Hj H1) as (r & s2 & E2 & I2 & D & R).
      exists r, s2. split; [exact E2|]. split; [exact I2|]. split; [exact D|exact R].
    + change (Some b) with (Some (powname b 1)). destruct (product_powers (S (S n)) i 1 s1 ltac:(lia) I1 Hi H1 H1) as (r & s2 & E2 & I2 & D & R).
      exists r, s2. split; [exact E2|]. split; [exact I2|]. cbv zeta. replace (i - j)%Z with (i + 1)%Z by lia. split; [exact D|exact R].
Qed.
End P.
End F.
