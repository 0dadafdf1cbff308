(** * [searches.print_path]: the text of a conversion path *)
From Coq Require Import String.
From Verif Require Import Py StrTools Network Conv Converter Caster.
Local Open Scope N_scope.

Section PathText.
Context {V : Type} (str_of : V -> str) (str_tuple : str).   (* str(number), str(tuple) *)

(** searches.py:270: the strings treated like nodes *)
Definition like_node (x : str) : bool := seqb x (u "(1)") || seqb x (u "(v)").
(** Python [str(x)] of an element; network.py:37-38 for a node *)
Definition str_step (x : pstep V) : str := match x with PN n => nname n | PS s => s | PV v => str_of v | PTuple => str_tuple end.
(** Python [result[-3:] == ' > '] *)
Definition ends_arrow (r : str) : bool := seqb (rev (firstn 3 (rev r))) (u " > ").
(** searches.py:270-279: one turn of the loop; [last]: i = len(path) - 1 *)
Definition path_turn (r : str) (x : pstep V) (last : bool) : str :=
  let other := r ++ str_step x ++ (if last then [] else u " > ") in
  match x with
  | PS s => if like_node s then other
            else (if ends_arrow r then firstn (length r - 3) r else r) ++ u " " ++ s ++ u " "
  | PV v => r ++ str_of v ++ u " "
  | _ => other
  end.
(** searches.py:269-279: the loop *)
Fixpoint path_loop (r : str) (p : list (pstep V)) : str :=
  match p with [] => r | x :: t => path_loop (path_turn r x (match t with [] => true | _ => false end)) t end.
(** searches.py:253-280 [print_path] *)
Definition print_path (p : list (pstep V)) : str :=
  match p with
  | [x] => strip (str_step x ++ u " = " ++ str_step x)
  | _ => strip (path_loop (u "    ") p)
  end.
End PathText.
