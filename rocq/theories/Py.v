(** * Python strings and exceptions

    A Python [str] is modelled as the list of its Unicode code points.
    Only the string methods used by unyts are modelled.  The Unicode tables
    behind [str.isdigit], [str.isspace], [str.lower] and [str.upper] are
    restricted to the ranges stated at each definition (a simplification). *)
From Coq Require Import String Ascii.
From Coq Require Export List NArith ZArith Bool Lia.
Export ListNotations.
Local Open Scope N_scope.

Notation chr := N (only parsing).
(** Python's [str] (a built-in, not code of the repository): the list of its code points *)
Definition str := list chr.

(** Literals: [u "..."] decodes the UTF-8 bytes Coq keeps in a string literal. *)
Fixpoint bytes (s : string) : list N :=
  match s with
  | EmptyString => []
  | String a s' => N_of_ascii a :: bytes s'
  end.
(** model plumbing: UTF-8 decoding of a Coq literal (1 to 3 bytes) *)
Fixpoint utf8 (l : list N) : str :=
  match l with
  | [] => []
  | a :: t =>
      if a <? 128 then a :: utf8 t
      else if a <? 224 then
        match t with
        | b :: t' => ((a - 192) * 64 + (b - 128)) :: utf8 t'
        | [] => []
        end
      else
        match t with
        | b :: c :: t' => ((a - 224) * 4096 + (b - 128) * 64 + (c - 128)) :: utf8 t'
        | _ => []
        end
  end.
(** model plumbing: the Python literal with these characters *)
Definition u (s : string) : str := utf8 (bytes s).

(** Exceptions raised by the modelled code. *)
Inductive exn : Set :=
| ValueError | TypeError | NameError | KeyError | IndexError | AssertionError
| AttributeError | ZeroDivisionError | NotImplementedError | ModuleNotFoundError
| NoConversionFoundError | WrongUnitsError | WrongValueError | NoFVFError
| RecursionError | FileError | InputPrompt (* the code blocks on input() *)
| UserError (* raised by a user supplied function *)
| OutOfFuel (* the model, not the code, gave up: excluded by the theorems *).

(** model plumbing: what a Python call does: it returns a value or raises *)
Inductive res (A : Type) : Type := Ok (a : A) | Err (e : exn).
Arguments Ok {A} a.
Arguments Err {A} e.

(** model plumbing: the next statement runs if the first did not raise *)
Definition rbind {A B} (m : res A) (f : A -> res B) : res B :=
  match m with Ok a => f a | Err e => Err e end.

(** ** Equality, membership, substring *)
(** Python [a == b] on strings *)
Fixpoint seqb (a b : str) : bool :=
  match a, b with
  | [], [] => true
  | x :: a', y :: b' => (x =? y) && seqb a' b'
  | _, _ => false
  end.

(** Python [x in list_of_str]. *)
Definition smem (x : str) (l : list str) : bool := existsb (seqb x) l.

(** Python [s.startswith(p)]. *)
Fixpoint sprefix (p s : str) : bool :=
  match p, s with
  | [], _ => true
  | x :: p', y :: s' => (x =? y) && sprefix p' s'
  | _ :: _, [] => false
  end.

(** Python [p in s] on strings (substring test). *)
Fixpoint ssub (p s : str) : bool :=
  sprefix p s || match s with [] => false | _ :: s' => ssub p s' end.

(** Python [c in s] for a one-character [c]. *)
Definition cmem (c : chr) (s : str) : bool := existsb (N.eqb c) s.

(** Python [s.count(c)] for a one-character [c]. *)
Fixpoint ccount (c : chr) (s : str) : nat :=
  match s with [] => O | x :: s' => ((if (x =? c)%N then 1 else 0) + ccount c s')%nat end.

(** ** Splitting and joining *)
(** Python [s.split(c)] for a one-character [c]; never returns []. *)
Fixpoint csplit (c : chr) (s : str) : list str :=
  match s with
  | [] => [[]]
  | x :: s' =>
      if x =? c then [] :: csplit c s'
      else match csplit c s' with
           | [] => [[x]]
           | w :: ws => (x :: w) :: ws
           end
  end.

(** Python [sep.join(l)]. *)
Fixpoint sjoin (sep : str) (l : list str) : str :=
  match l with
  | [] => []
  | [w] => w
  | w :: ws => w ++ sep ++ sjoin sep ws
  end.

(** ** Stripping *)
(** Python [s.lstrip(chars)] *)
Fixpoint lstrip_chars (cs : list chr) (s : str) : str :=
  match s with
  | [] => []
  | x :: s' => if cmem x cs then lstrip_chars cs s' else s
  end.
(** Python [s.rstrip(chars)] *)
Definition rstrip_chars (cs : list chr) (s : str) : str :=
  rev (lstrip_chars cs (rev s)).
(** Python [s.strip(chars)]. *)
Definition strip_chars (cs : list chr) (s : str) : str :=
  rstrip_chars cs (lstrip_chars cs s).

(** White space as in [str.isspace] (complete table). *)
(** what Python's [s.strip()] removes *)
Definition wspace : list chr :=
  [9; 10; 11; 12; 13; 28; 29; 30; 31; 32; 133; 160; 5760; 8192; 8193; 8194; 8195;
   8196; 8197; 8198; 8199; 8200; 8201; 8202; 8232; 8233; 8239; 8287; 12288].
(** Python [s.strip()]. *)
Definition strip (s : str) : str := strip_chars wspace s.

(** ** Case (ASCII, Latin-1, Greek capitals; [str.lower] also the Ohm and Kelvin signs) *)
Definition clower (c : chr) : chr :=
  if (65 <=? c) && (c <=? 90) then c + 32
  else if (192 <=? c) && (c <=? 222) && negb (c =? 215) then c + 32
  else if (913 <=? c) && (c <=? 939) && negb (c =? 930) then c + 32
  else if c =? 8486 then 969
  else if c =? 8490 then 107
  else c.
(** Python [c.upper()], restricted as [clower] is *)
Definition cupper (c : chr) : chr :=
  if (97 <=? c) && (c <=? 122) then c - 32
  else if (224 <=? c) && (c <=? 254) && negb (c =? 247) then c - 32
  else if c =? 181 then 924
  else if (945 <=? c) && (c <=? 971) && negb (c =? 962) then c - 32
  else if c =? 962 then 931
  else c.
(** Python [s.lower()], character by character (a simplification: no character expands) *)
Definition lower (s : str) : str := map clower s.
(** Python [s.upper()], character by character (a simplification: no character expands) *)
Definition upper (s : str) : str := map cupper s.

(** ** Digits *)
(** ASCII decimal digit. *)
(** the characters Python's [int()] accepts as digits (a simplification: ASCII only) *)
Definition is_dec (c : chr) : bool := (48 <=? c) && (c <=? 57).
(** [str.isdigit] on ASCII, Latin-1 superscripts and the superscript/subscript
    block (other Unicode digits are not modelled). *)
Definition isdigit (c : chr) : bool :=
  is_dec c || (c =? 178) || (c =? 179) || (c =? 185)
  || (c =? 8304) || ((8308 <=? c) && (c <=? 8313))
  || ((8320 <=? c) && (c <=? 8329)).

(** [str(n)] for an integer. *)
(** Python [str(d)] for a digit *)
Definition digit (d : N) : chr := 48 + d.
(** Python [str(n)]: the loop on the digits *)
Fixpoint dec_digits (fuel : nat) (n : N) (acc : str) : str :=
  match fuel with
  | O => acc
  | S f => let acc' := digit (n mod 10) :: acc in
           if n / 10 =? 0 then acc' else dec_digits f (n / 10) acc'
  end.
(** Python [str(n)] for n >= 0 *)
Definition str_of_N (n : N) : str := dec_digits (S (N.to_nat (N.log2 n))) n [].
(** Python [str(z)] *)
Definition str_of_Z (z : Z) : str :=
  match z with
  | Z0 => [48]
  | Zpos p => str_of_N (Npos p)
  | Zneg p => 45 :: str_of_N (Npos p)
  end.

(** Value of a string of ASCII digits, most significant first. *)
(** part of Python's [int(s)] *)
Fixpoint dec_val (acc : N) (s : str) : N :=
  match s with [] => acc | c :: s' => dec_val (acc * 10 + (c - 48)) s' end.

(** Underscores in numeric literals: allowed only between two digits. *)
(** part of Python's [int(s)] and [float(s)] *)
Fixpoint drop_us (prev_digit : bool) (s : str) : option str :=
  match s with
  | [] => Some []
  | c :: s' =>
      if c =? 95 then
        if prev_digit && match s' with d :: _ => is_dec d | [] => false end
        then drop_us false s' else None
      else option_map (cons c) (drop_us (is_dec c) s')
  end.

(** part of Python's [int(s)] *)
Definition all_dec (s : str) : bool := forallb is_dec s.

(** Python [int(s)] (base 10; ASCII digits only). *)
Definition py_int (s : str) : res Z :=
  let t := strip s in
  let '(sg, b) :=
    match t with
    | 45 :: r => ((-1)%Z, r)
    | 43 :: r => (1%Z, r)
    | _ => (1%Z, t)
    end in
  match drop_us false b with
  | None => Err ValueError
  | Some [] => Err ValueError
  | Some d => if all_dec d then Ok (sg * Z.of_N (dec_val 0 d))%Z else Err ValueError
  end.

Lemma seqb_spec a b : reflect (a = b) (seqb a b).
Proof.
  revert b; induction a as [|x a IH]; intros [|y b]; cbn; try (constructor; congruence).
  destruct (N.eqb_spec x y) as [->|Hn]; cbn; [|constructor; congruence].
  destruct (IH b) as [->|Hn]; constructor; congruence.
Qed.
Lemma seqb_refl a : seqb a a = true.
Proof. destruct (seqb_spec a a); congruence. Qed.
Lemma seqb_eq a b : seqb a b = true <-> a = b.
Proof. destruct (seqb_spec a b); split; congruence. Qed.
Lemma seqb_neq a b : seqb a b = false <-> a <> b.
Proof. destruct (seqb_spec a b); split; congruence. Qed.
Lemma seqb_sym a b : seqb a b = seqb b a.
Proof. destruct (seqb_spec a b), (seqb_spec b a); congruence. Qed.
(** model plumbing: equality of strings is decidable *)
Definition str_eq_dec (a b : str) : {a = b} + {a <> b} := list_eq_dec N.eq_dec a b.

Lemma smem_In x l : smem x l = true <-> In x l.
Proof.
  unfold smem; rewrite existsb_exists; split.
  - intros [y [Hy Hxy]]; apply seqb_eq in Hxy; congruence.
  - intros H; exists x; split; [exact H|apply seqb_refl].
Qed.
Lemma smem_false x l : smem x l = false <-> ~ In x l.
Proof. rewrite <- smem_In. destruct (smem x l); split; congruence. Qed.
Lemma cmem_In c s : cmem c s = true <-> In c s.
Proof.
  unfold cmem; rewrite existsb_exists; split.
  - intros [y [Hy Hxy]]; apply N.eqb_eq in Hxy; subst; exact Hy.
  - intros H; exists c; split; [exact H|apply N.eqb_refl].
Qed.
Lemma cmem_false c s : cmem c s = false <-> ~ In c s.
Proof. rewrite <- cmem_In. destruct (cmem c s); split; congruence. Qed.
Lemma cmem_app c a b : cmem c (a ++ b) = cmem c a || cmem c b.
Proof. unfold cmem; apply existsb_app. Qed.
Lemma sprefix_spec p s : sprefix p s = true <-> exists t, s = p ++ t.
Proof.
  revert s; induction p as [|x p IH]; intros s; cbn.
  - split; [intros _; exists s; reflexivity|reflexivity].
  - destruct s as [|y s]; [split; [discriminate|intros [t Ht]; discriminate]|].
    rewrite andb_true_iff, N.eqb_eq, IH. split.
    + intros [-> [t ->]]; exists t; reflexivity.
    + intros [t Ht]; injection Ht as -> ->; split; [reflexivity|exists t; reflexivity].
Qed.
Lemma ssub_spec p s : ssub p s = true <-> exists a b, s = a ++ p ++ b.
Proof.
  induction s as [|x s IH]; cbn.
  - rewrite orb_false_r. destruct p; cbn; split; try discriminate; try reflexivity.
    + intros _; exists [], []; reflexivity.
    + intros [a [b H]]; destruct a; discriminate.
  - rewrite orb_true_iff, sprefix_spec, IH. split.
    + intros [[t ->]|[a [b ->]]]; [exists [], t; reflexivity|exists (x :: a), b; reflexivity].
    + intros [[|y a] [b H]]; cbn in H.
      * left; exists b; exact H.
      * right; injection H as -> ->; exists a, b; reflexivity.
Qed.
Lemma csplit_nonnil c s : csplit c s <> [].
Proof. destruct s as [|x s]; cbn; [|destruct (x =? c); [|destruct (csplit c s)]]; discriminate. Qed.
Lemma csplit_join c s : sjoin [c] (csplit c s) = s.
Proof.
  induction s as [|x s IH]; cbn; [reflexivity|].
  destruct (N.eqb_spec x c) as [->|Hn].
  - destruct (csplit c s) as [|w ws] eqn:E; [now apply csplit_nonnil in E|].
    cbn in *; rewrite IH; reflexivity.
  - destruct (csplit c s) as [|w ws] eqn:E; [now apply csplit_nonnil in E|].
    destruct ws; cbn in *; rewrite <- IH; reflexivity.
Qed.
Lemma csplit_nosep c s w : In w (csplit c s) -> ~ In c w.
Proof.
  revert w; induction s as [|x s IH]; cbn; intros w.
  - intros [<-|[]]; auto.
  - destruct (N.eqb_spec x c) as [->|Hn].
    + intros [<-|H]; auto.
    + destruct (csplit c s) as [|w0 ws]; cbn.
      * intros [<-|[]]; cbn; intuition congruence.
      * intros [<-|H].
        -- cbn; intros [->|H]; [congruence|]. apply (IH w0); cbn; auto.
        -- apply IH; cbn; auto.
Qed.
Lemma csplit_app_sep c a b :
  ~ In c a -> csplit c (a ++ c :: b) = a :: csplit c b.
Proof.
  intros H; induction a as [|x a IH]; cbn.
  - rewrite N.eqb_refl; reflexivity.
  - destruct (N.eqb_spec x c) as [->|Hn]; [exfalso; apply H; cbn; auto|].
    rewrite IH; [reflexivity|intros HH; apply H; cbn; auto].
Qed.
Lemma csplit_no c a : ~ In c a -> csplit c a = [a].
Proof.
  intros H; induction a as [|x a IH]; cbn; [reflexivity|].
  destruct (N.eqb_spec x c) as [->|Hn]; [exfalso; apply H; cbn; auto|].
  rewrite IH; [reflexivity|intros HH; apply H; cbn; auto].
Qed.
Lemma csplit_length c s : length (csplit c s) = S (ccount c s).
Proof.
  induction s as [|x s IH]; cbn; [reflexivity|].
  destruct (N.eqb_spec x c) as [->|Hn]; cbn; [congruence|].
  destruct (csplit c s); cbn in *; congruence.
Qed.
Lemma ccount_app c a b : ccount c (a ++ b) = (ccount c a + ccount c b)%nat.
Proof. induction a as [|x a IH]; cbn; [reflexivity|rewrite IH; lia]. Qed.
Lemma ccount_0 c s : ccount c s = O <-> ~ In c s.
Proof.
  induction s as [|x s IH]; cbn; [tauto|].
  destruct (N.eqb_spec x c) as [->|Hn]; cbn; [split; [discriminate|tauto]|].
  rewrite IH; intuition congruence.
Qed.
