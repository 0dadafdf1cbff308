(** * Specification: the answers to the dialogs and the prompts *)
From Coq Require Import String.
From Verif Require Import Py Json Params ParamsSpec Dialogs.
Local Open Scope N_scope.

(** specification: a word; a text of one word; a text of two words *)
Definition word (n : str) : Prop := n <> [] /\ forall c, In c n -> ~ In c wspace.
(** specification *)
Definition one_word (x : str) : Prop := exists a n b, blank a /\ blank b /\ word n /\ x = a ++ n ++ b.
(** specification *)
Definition two_words (x n y : str) : Prop :=
  exists a b c, blank a /\ blank b /\ b <> [] /\ blank c /\ word n /\ word y /\ x = a ++ n ++ b ++ y ++ c.

Section Answers.
Context (gn : str -> res jval) (conv : jval -> str -> res (option jval)) (alias : str -> str).
(** specification: the answer [x] is the positive number [v], alone or followed by a unit (after [alias]) from which it is converted to
    [d] *)
Definition accepted (x : str) (v : jval) (unit : option str) (d : jval) : Prop :=
  gt_zero v = true /\
  (one_word x /\ gn x = Ok v /\ unit = None /\ d = v
   \/ exists n y, two_words x n y /\ gn n = Ok v /\ unit = Some (alias y) /\ conv v (alias y) = Ok (Some d)).
(** specification: not an acceptable answer, and not a cancelled dialog *)
Definition unacceptable (a : option str) : Prop := exists x, a = Some x /\ x <> [] /\ forall v unit d, ~ accepted x v unit d.
(** specification: the answer is a number followed by a unit [y] that cannot be converted *)
Definition wrong_unit (a : option str) (y : str) : Prop :=
  exists x n y0 v, a = Some x /\ two_words x n y0 /\ y = alias y0 /\ gn n = Ok v /\ gt_zero v = true /\ conv v y = Err NoConversionFoundError.
(** specification: the conversion of the answer fails in another way: it raises something else, or gives [None] *)
Definition broken (a : option str) : Prop :=
  exists x n y v, a = Some x /\ two_words x n y /\ gn n = Ok v /\ gt_zero v = true
    /\ (conv v (alias y) = Ok None \/ exists e, e <> NoConversionFoundError /\ conv v (alias y) = Err e).
End Answers.
(** specification: the message at the end: [v] in [unit] was converted to [d], or is [d] itself *)
Definition says (show : jval -> str) (same : jval -> jval -> bool) (name in_unit : str) (v : jval) (unit : option str) (d : jval) (m : str) : Prop :=
  (same v d = true -> m = name ++ u " set as " ++ show d ++ u " " ++ in_unit ++ u ".")
  /\ (same v d = false -> forall y, unit = Some y -> m = name ++ u " " ++ show v ++ u " " ++ y ++ u " converted to " ++ show d ++ u " " ++ in_unit).
(** specification: nothing has changed *)
Definition unchanged (w w' : world) : Prop := other_settings_same [] w w' /\ session_same w w' /\ w_disk w' = w_disk w.
(** [vol/vol] stands for [sm3/sm3], in capitals or not *)
Definition fvf_unit (y : str) : str := if seqb (lower y) (u "vol/vol") then u "sm3/sm3" else y.
(** specification: the factor is known: the setting and the one of the network are one number *)
Definition fvf_known (w : world) (b : jval) : Prop :=
  setting w KFvf = b /\ p_net_fvf (w_par w) = b /\ ((exists z, b = JInt z) \/ exists t, b = JFlt t).

(** specification: what the marks of the menus say is what is set *)
Definition marks_right (k : marks) (w : world) : Prop :=
  (k_bfs k = true <-> setting w KAlgo = JStr (u "BFS")) /\ (k_lean k = true <-> setting w KAlgo = JStr (u "lean_BFS"))
  /\ (k_dfs k = true <-> setting w KAlgo = JStr (u "DFS")) /\ (k_hybrid k = true <-> setting w KAlgo = JStr (u "hybrid_BFS"))
  /\ k_print k = truth (setting w KPrint) /\ k_verbose k = truth (setting w KVerbose) /\ k_cache k = truth (setting w KCache)
  /\ k_off k = negb (truth (setting w KParallel)) /\ (k_threads k || k_auto k) = truth (setting w KParallel) /\ k_processes k = false.
