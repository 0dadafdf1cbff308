(** * C21: which exceptions leave the converter

    For all units (composite ones too), values, settings and histories. *)
From Coq Require Import String QArith Qcanon.
From Verif Require Import Py StrTools Network Conv Converter EngineSpec EngineFacts EngineExc Demo.
Local Open Scope N_scope.

Section C21.
Context {V : Type} {A : Arith V} (X : exn -> Prop).
(** specification: the exceptions that dividing raises are in X *)
Definition division_raises : Prop := forall x y e, adiv x y = Err e -> X e.
(** specification: a conversion raises exceptions of X, or what asking for the formation volume factor raised *)
Definition conversion_raises (c : conv V) : Prop := forall fv x e, ceval fv c x = Err e -> X e \/ fv = Err e.
(** specification: a new session, whose network holds such conversions and whose prompts raise only those *)
Definition session_raises (s : st V) : Prop :=
  s_mem s = [] /\ (forall n c, In n (n_edges (s_net s)) -> In c (e_convs n) -> conversion_raises c)
  /\ (forall e, s_ask_fvf s = Err e -> X e) /\ (forall e, s_ask_density s = Err e -> X e).
(** specification: ... the functions that the user registers *)
Definition call_raises (c : call V) : Prop :=
  match c with
  | KSetConversion _ _ f r => (forall x e, f x = Err e -> X e) /\ (forall h x e, r = Some h -> h x = Err e -> X e)
  | _ => True
  end.

(** model plumbing: the engine's own exceptions, or those *)
Definition allowed (e : exn) : Prop := X e \/ In e own_exceptions.
Lemma allowed_inv s cs : division_raises -> session_raises s -> Forall call_raises cs -> inv allowed (do_calls cs s).
Proof.
  intros Hd (Hm & He & Hf & Ha) Hc. apply (do_calls_inv allowed).
  - intros e H. now right.
  - intros x y e E. left. exact (Hd x y e E).
  - clear -Hc. induction Hc as [|c cs Hc _ IH]; constructor; [|exact IH]. destruct c; try exact I. destruct Hc as [H1 H2]. split; [intros x e E; left; exact (H1 x e E)|].
    destruct r as [h|]; [|exact I]. intros x e E. left. exact (H2 h x e eq_refl E).
  - constructor.
    + intros n Hn. apply Forall_forall. intros c Ic fv x Hv e E. destruct (He n c Hn Ic fv x e E) as [H|H]; [now left|exact (Hv e H)].
    + intros k h p E. rewrite Hm in E. discriminate E.
    + intros e E. left. exact (Hf e E).
    + intros e E. left. exact (Ha e E).
Qed.

(** An exception of [convert] is one of its functions' (or of dividing, or of a prompt), one of a fixed list, or
    NoConversionFoundError, and this one only when errors are to be raised.  (OutOfFuel: the threads of the hybrid search
    are not run to their end.) *)
Theorem C21_exceptions : forall s cs v f t uc e, division_raises -> session_raises s -> Forall call_raises cs ->
  fst (convert v f t uc (do_calls cs s)) = Err e ->
  X e \/ In e [NameError; ValueError; TypeError; KeyError; IndexError; NotImplementedError; ModuleNotFoundError]
  \/ (e = NoConversionFoundError /\ p_raise (s_par (do_calls cs s)) = true)
  \/ (e = OutOfFuel /\ p_algo (s_par (do_calls cs s)) = u "hybrid_BFS").
Proof.
  intros s cs v f t uc e Hd Hs Hc E. pose proof (allowed_inv s cs Hd Hs Hc) as Hi.
  assert (H1 : forall e, In e own_exceptions -> allowed e) by (intros e' H; now right). assert (H2 : forall x y e, adiv x y = Err e -> allowed e) by (intros x y e' H; left; exact (Hd x y e' H)).
  destruct (convert_tr allowed H1 H2 (lim (do_calls cs s)) v f t uc _ Hi eq_refl) as (_ & _ & _ & H). destruct (H e E) as [[K|K]|[[K1 K2]|[K1 K2]]]; auto.
Qed.
(** ... so with raise_error(False) a missing conversion is never reported by an exception *)
Theorem C21_silent : forall s cs v f t uc, ~ X NoConversionFoundError -> division_raises -> session_raises s -> Forall call_raises cs -> p_raise (s_par (do_calls cs s)) = false ->
  fst (convert v f t uc (do_calls cs s)) <> Err NoConversionFoundError.
Proof.
  intros s cs v f t uc Hx Hd Hs Hc Hr E. destruct (C21_exceptions s cs v f t uc _ Hd Hs Hc E) as [K|[K|[[_ K]|[K _]]]].
  - exact (Hx K).
  - cbn in K. repeat (destruct K as [K|K]; [discriminate K|]). exact K.
  - rewrite Hr in K. discriminate K.
  - discriminate K.
Qed.
(** [convertible] never raises it *)
Theorem C28_exceptions : forall s cs f t uc e, division_raises -> session_raises s -> Forall call_raises cs ->
  fst (convertible f t uc (do_calls cs s)) = Err e ->
  X e \/ In e [NameError; ValueError; TypeError; KeyError; IndexError; NotImplementedError; ModuleNotFoundError]
  \/ (e = OutOfFuel /\ p_algo (s_par (do_calls cs s)) = u "hybrid_BFS").
Proof.
  intros s cs f t uc e Hd Hs Hc E. pose proof (allowed_inv s cs Hd Hs Hc) as Hi.
  assert (H1 : forall e, In e own_exceptions -> allowed e) by (intros e' H; now right). assert (H2 : forall x y e, adiv x y = Err e -> allowed e) by (intros x y e' H; left; exact (Hd x y e' H)).
  destruct (convertible_tr allowed H1 H2 (lim (do_calls cs s)) f t uc _ Hi eq_refl) as (_ & H). destruct (H e E) as [[K|K]|[K1 K2]]; auto.
Qed.

(** ** The hypotheses are met by conversions without user functions *)
(** specification: no function given by the user inside *)
Fixpoint no_user (c : conv V) : bool := match c with CUser _ => false | CThen a b => no_user a && no_user b | CRev a => no_user a | _ => true end.
Lemma no_user_raises c : division_raises -> no_user c = true -> conversion_raises c.
Proof.
  intros Hd. induction c as [|q|q|q|q|q| | |a IHa b IHb|a IHa|f]; cbn [no_user]; intros Hc fv x e E; cbn [ceval] in E; try discriminate E; try (left; exact (Hd _ _ _ E)).
  - destruct fv as [b|e']; cbn [rbind] in E; [left; exact (Hd _ _ _ E)|right; now injection E as ->].
  - destruct fv as [b|e']; cbn [rbind] in E; [discriminate E|right; now injection E as ->].
  - apply andb_true_iff in Hc as [Ca Cb]. destruct (ceval fv a x) as [y|e'] eqn:Ea; cbn [rbind] in E; [exact (IHb Cb fv y e E)|]. injection E as <-. exact (IHa Ca fv x e' Ea).
  - destruct (ceval fv a (aconst 1)) as [y|e'] eqn:Ea; cbn [rbind] in E; [left; exact (Hd _ _ _ E)|]. injection E as <-. exact (IHa Hc fv _ e' Ea).
  - discriminate Hc.
Qed.
End C21.
Print Assumptions C21_exceptions.
Print Assumptions C21_silent.
Print Assumptions C28_exceptions.

(** the demonstration network: only ZeroDivisionError and what the prompts raise *)
Lemma demo_raises : division_raises (fun e => e = ZeroDivisionError \/ s_ask_fvf demo = Err e \/ s_ask_density demo = Err e) /\ session_raises (fun e => e = ZeroDivisionError \/ s_ask_fvf demo = Err e \/ s_ask_density demo = Err e) demo.
Proof.
  assert (Hd : division_raises (fun e => e = ZeroDivisionError \/ s_ask_fvf demo = Err e \/ s_ask_density demo = Err e)).
  { intros x y e E. cbn [adiv exact_arith] in E. unfold qdiv in E. destruct (Qc_eq_dec y 0); [left; now injection E|discriminate E]. }
  split; [exact Hd|]. split; [reflexivity|]. split; [|split; intros e E; auto].
  intros n c Hn Hc. apply no_user_raises; [exact Hd|].
  assert (K : forallb (fun n => forallb no_user (e_convs n)) (n_edges (s_net demo)) = true) by (vm_compute; reflexivity).
  rewrite forallb_forall in K. specialize (K n Hn). rewrite forallb_forall in K. exact (K c Hc).
Qed.
Example C21_exceptions_example : fst (convert (VNum (Q2Qc 1)) (UStr (u "kg/s")) (UStr (u "m/g")) None demo) = Err ValueError
  /\ fst (convert (VNum (Q2Qc 1)) (UStr (u "km")) (UStr (u "s")) None demo) = Ok None.
Proof. vm_compute. split; reflexivity. Qed.
