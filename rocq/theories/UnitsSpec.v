(** * Vocabulary of the statements about quantities *)
From Coq Require Import String QArith Qcanon.
From Verif Require Import Py StrTools Network SearchSpec Conv Converter EngineSpec ConsistSpec Dict Database Shipped Operations ShippedSpec Units.
Local Open Scope N_scope.

(** ** Histories: anything done with quantities, and calls that only convert *)
Section S.
Context {F : Floats} {P : Pow} {E : Eval}.
Inductive act :=
| DCall (c : call Qc) | DUnits (value : pv) (unit : uarg) (named : bool) | DMake (k : str) (v : option Qc) (x : str)
| DTo (a : qty) (x : option str) | DNeg (a : qty) | DAbs (a : qty) | DAdd (a : qty) (b : pv) | DSub (a : qty) (b : pv) | DRsub (a : qty) (b : pv)
| DMul (n : nat) (a : qty) (b : pv) | DDiv (n : nat) (a : qty) (b : pv) | DFloordiv (n : nat) (a : qty) (b : pv) | DMod (n : nat) (a : qty) (b : pv)
| DMatmul (n : nat) (a : qty) (b : pv) | DRdiv (a : qty) (v : Qc) | DRfloordiv (a : qty) (v : Qc) | DPow (a : qty) (p : pnum F) | DPowQ (a b : qty)
| DCompare (c : cmp) (a : qty) (b : pv) | DRound (a : qty) (n : option Z) | DRoundTo (a : qty) (n : option Z) | DEquals (a : qty) (b : pv) (n : option Z).
Definition do_act (x : act) (w : world) : world :=
  match x with
  | DCall c => World (do_call c (w_st w)) (w_kinds w) (w_all w)
  | DUnits v x n => snd (units v x n w) | DMake k v x => snd (construct k v x w)
  | DTo a x => snd (to a x w) | DNeg a => snd (neg a w) | DAbs a => snd (abs_ a w)
  | DAdd a b => snd (add a b w) | DSub a b => snd (sub a b w) | DRsub a b => snd (rsub a b w)
  | DMul n a b => snd (mul n a b w) | DDiv n a b => snd (truediv n a b w) | DFloordiv n a b => snd (floordiv n a b w)
  | DMod n a b => snd (modulo n a b w) | DMatmul n a b => snd (matmul n a b w)
  | DRdiv a v => snd (rdiv qdiv a v w) | DRfloordiv a v => snd (rdiv qfloordiv a v w) | DPow a p => snd (pow a p w) | DPowQ a b => snd (pow_qty a b w)
  | DCompare c a b => snd (compare_ c a b w) | DRound a n => snd (round_ a n w) | DRoundTo a n => snd (round_method a n w) | DEquals a b n => snd (equals a b n w)
  end.
Definition do_acts (l : list act) (w : world) : world := fold_left (fun w x => do_act x w) l w.
Definition calm (x : act) : Prop := match x with DCall c => converts c | _ => True end.

(** what [eval] makes of a unit with escape sequences is at most a new user unit (and no other code) *)
Definition tame_eval : Prop := forall k x w, exists y,
  snd (odd_eval k x w) = w \/ snd (odd_eval k x w) = add_user y w.

(** a session of the shipped database at its start, with BFS or the default search; and a moment of
    it, after any calculations *)
Definition calculating (s : st Qc) : Prop := shipped_session s /\ searches (s_par s) /\ (forall b, fv_of s = Ok b -> (0 < b)%Qc).
Definition during (s : st Qc) (w : world) : Prop := exists l, Forall calm l /\ w = do_acts l (world_of s shipped_kinds).

(** ** Quantities *)
(** a quantity of a kind, in a unit listed in the dictionary under that kind *)
Definition quantity_of (k : str) (q : qty) : Prop := q_kind q = k /\ listed_as k (q_unit q) /\ unit_name (q_unit q).
(** [q] expressed in the unit [t] is [v] *)
Definition expressed (w : world) (q : qty) (t : str) (v : Qc) : Prop := fst (to q (Some t) w) = Ok (PQ (Qty (q_kind q) t v)).
(** a relation of two numbers *)
Definition stands (c : cmp) (x y : Qc) : Prop :=
  match c with Lt => (x < y)%Qc | Le => (x <= y)%Qc | Eq => x = y | Ne => x <> y | Ge => (y <= x)%Qc | Gt => (y < x)%Qc end.
(** the name was given to a user unit before *)
Definition user_named (x : str) (w : world) : Prop := exists l, In (u "UserUnits", l) (w_kinds w) /\ In x l.
(** a name without backslash, end of line, NUL, nor both kinds of quotes *)
Definition quotable_name (x : str) : Prop := ~ In 92 x /\ ~ In 10 x /\ ~ In 13 x /\ ~ In 0 x /\ (~ In 39 x \/ ~ In 34 x).
(** the first entry of the dictionary that lists a name *)
Definition first_listed (k x : str) : Prop := exists A l B,
  merge_data (db_kinds shipped_db) = (A ++ (k, l) :: B)%list /\ In x l /\ forall k' l', In (k', l') A -> ~ In x l'.
Definition unlisted (x : str) : Prop := forall k l, In (k, l) (merge_data (db_kinds shipped_db)) -> ~ In x l.
End S.
