(** * Model of helpers/multi_split.py and helpers/unit_string_tools.py *)
From Coq Require Import String.
From Verif Require Import Py.
Local Open Scope N_scope.

(** Characters and small literals used by the code. *)
(** literal of unit_string_tools.py:25, 43 *)
Definition c_star : chr := 42.   (* * *)
(** literal of unit_string_tools.py:25, 43 *)
Definition c_slash : chr := 47.  (* / *)
(** literal of unit_string_tools.py:31 *)
Definition c_lpar : chr := 40.
(** literal of unit_string_tools.py:31 *)
Definition c_rpar : chr := 41.
(** literal of unit_string_tools.py:38, 69 *)
Definition c_plus : chr := 43.
(** literal of unit_string_tools.py:38, 69 *)
Definition c_minus : chr := 45.
(** literal of unit_string_tools.py:38 *)
Definition c_hat : chr := 94.
(** literal of unit_string_tools.py:44, 79 *)
Definition c_space : chr := 32.
(** literal of operations.py:39 *)
Definition c_dot : chr := 46.
(** literal of unit_string_tools.py:47 *)
Definition s_star : str := [c_star].
(** literal of unit_string_tools.py:47, 51 *)
Definition s_slash : str := [c_slash].
(** literal of unit_string_tools.py:52 *)
Definition s_lpar : str := [c_lpar].
(** literal of unit_string_tools.py:55 *)
Definition s_rpar : str := [c_rpar].

(** [list(set(l))]: some enumeration of the members of [l] without repetition
    (helpers/multi_split.py:36-38).  The order is unspecified in Python; the
    theorems quantify over it (see [multi_split_enum]). *)
Fixpoint sdedup (l : list str) : list str :=
  match l with
  | [] => []
  | x :: t => if smem x t then sdedup t else x :: sdedup t
  end.

(** One inner bubble pass, [k] comparisons (multi_split.py:44-46). *)
Fixpoint bubble_pass (k : nat) (l : list str) : list str :=
  match k, l with
  | S k', a :: b :: t =>
      if (length a <? length b)%nat
      then b :: bubble_pass k' (a :: t)
      else a :: bubble_pass k' (b :: t)
  | _, _ => l
  end.
(** The outer loop: passes of [k], [k-1], ..., [1] comparisons (multi_split.py:42-46). *)
Fixpoint bubble (k : nat) (l : list str) : list str :=
  match k with
  | O => l
  | S k' => bubble k' (bubble_pass k l)
  end.
(** multi_split.py:40-46: the separators, longest first *)
Definition sort_sep (l : list str) : list str := bubble (length l - 1) l.

(** First separator that matches at the current position (multi_split.py:55-58). *)
Fixpoint find_sep (seps : list str) (s : str) : option str :=
  match seps with
  | [] => None
  | p :: t => if sprefix p s then Some p else find_sep t s
  end.

(** The main loop (multi_split.py:49-64).  [cur] is [string[x:i]] reversed and
    [s] is [string[i:]].  With an empty separator the Python loop never ends:
    the model then runs out of fuel. *)
Fixpoint scan (fuel : nat) (seps : list str) (cur : str) (s : str) : res (list str) :=
  match s with
  | [] => Ok [rev cur]
  | c :: s' =>
      match fuel with
      | O => Err OutOfFuel
      | S f =>
          match find_sep seps s with
          | Some p =>
              match scan f seps [] (skipn (length p) s) with
              | Ok l => Ok (rev cur :: p :: l)
              | Err e => Err e
              end
          | None => scan f seps (c :: cur) s'
          end
      end
  end.

(** multi_split (multi_split.py:15-67), [seps] being the enumeration of the
    separator set that Python happened to choose. *)
Definition multi_split_enum (seps : list str) (remove : list str) (s : str) : res (list str) :=
  match scan (length s) (sort_sep seps) [] s with
  | Ok l => Ok (filter (fun p => negb (smem p (remove ++ [[]]))) l)
  | Err e => Err e
  end.
(** multi_split.py:15-67, with one enumeration of [set(sep)] *)
Definition multi_split (seps : list str) (remove : list str) (s : str) : res (list str) :=
  multi_split_enum (sdedup seps) remove s.

(** split_unit (unit_string_tools.py:24-27). *)
Definition split_unit (s : str) : res (list str) := multi_split [s_star; s_slash] [] s.
(** split_ratio, split_product (unit_string_tools.py:16-21). *)
Definition split_ratio (s : str) : list str := map strip (csplit c_slash s).
(** unit_string_tools.py:20-21 *)
Definition split_product (s : str) : list str := map strip (csplit c_star s).

(** The separators of reduce_parentheses / reduce_units
    (unit_string_tools.py:42-44 and 77-79). *)
Definition op_seps : list str :=
  [[c_plus]; [c_minus]; [c_star]; [c_slash]; [c_hat]; [c_star; c_star]; [c_lpar]; [c_rpar]].

(** The while loop of reduce_parentheses (unit_string_tools.py:45-57);
    the counter [pa] is never read and is left out. *)
Fixpoint rp_loop (l : list str) (inv inp : bool) : res (list str) :=
  match l with
  | [] => Ok []
  | x :: t =>
      let out :=
        if ssub x [c_star; c_slash] && inp && inv
        then [if seqb x s_slash then s_star else s_slash]
        else if negb (ssub x [c_lpar; c_rpar]) then [x] else [] in
      let next :=
        if seqb x s_slash then
          match t with
          | [] => Err IndexError
          | y :: _ => if seqb y s_lpar then rp_loop t (negb inv) inp else rp_loop t inv inp
          end
        else if seqb x s_lpar then rp_loop t inv true
        else if seqb x s_rpar then rp_loop t inv false
        else rp_loop t inv inp in
      match next with Ok r => Ok (out ++ r) | Err e => Err e end
  end.

(** reduce_parentheses (unit_string_tools.py:30-58). *)
Definition reduce_parentheses (s : str) : res str :=
  if negb (cmem c_lpar s) && negb (cmem c_rpar s) then Ok s
  else if (ccount c_rpar s <? ccount c_lpar s)%nat then Err ValueError
  else if (ccount c_lpar s <? ccount c_rpar s)%nat then Err ValueError
  else if cmem c_hat s || ssub [c_star; c_star] s || cmem c_plus s || cmem c_minus s then Ok s
  else match multi_split op_seps [[c_space]] s with
       | Err e => Err e
       | Ok l => match rp_loop l false false with
                 | Ok r => Ok (List.concat r)
                 | Err e => Err e
                 end
       end.

(** [change] (unit_string_tools.py:62-63). *)
Definition ru_change (x : str) : str :=
  match x with
  | c :: r => if c =? c_star then c_slash :: r else c_star :: r
  | [] => [c_star]
  end.

(** [[l[i]+l[i+1] for i in range(0, len(l)-1, 2)]] (unit_string_tools.py:80). *)
Fixpoint ru_pairs (l : list str) : list str :=
  match l with
  | a :: b :: t => (a ++ b) :: ru_pairs t
  | _ => []
  end.

(** [l.index(x)], when present. *)
(** part of unit_string_tools.py:85: Python's list method *)
Fixpoint sindex (x : str) (l : list str) : option nat :=
  match l with
  | [] => None
  | y :: t => if seqb x y then Some O else option_map S (sindex x t)
  end.

(** The while loop (unit_string_tools.py:81-89); [l] is [unit_split[i:]]. *)
Fixpoint ru_loop (i : nat) (l : list str) (ignore : list nat) : list str :=
  match l with
  | [] => []
  | x :: t =>
      if existsb (Nat.eqb i) ignore then ru_loop (S i) t ignore
      else match sindex (ru_change x) t with
           | Some j => ru_loop (S i) t (ignore ++ [(j + i + 1)%nat])
           | None => x :: ru_loop (S i) t ignore
           end
  end.

(** reduce_units (unit_string_tools.py:61-98) on a string; the [None] argument
    is handled by [reduce_units_opt]. *)
Definition reduce_units (raise_error : bool) (s : str) : res str :=
  if cmem c_plus s || cmem c_minus s then
    if raise_error then Err NotImplementedError else Ok s
  else if cmem c_slash s then
    match multi_split op_seps [[c_space]] (c_star :: s) with
    | Err e => Err e
    | Ok l =>
        match ru_loop 0 (ru_pairs l) [] with
        | [] => Ok s
        | simplified =>
            let r := strip_chars [c_star] (List.concat simplified) in
            Ok (match r with
                | c :: _ => if c =? c_slash then 49 :: r else r
                | [] => r
                end)
        end
    end
  else Ok s.
(** unit_string_tools.py:61-68: the argument may be [None] *)
Definition reduce_units_opt (raise_error : bool) (s : option str) : res (option str) :=
  match s with
  | None => if raise_error then Err ValueError else Ok None
  | Some s => match reduce_units raise_error s with Ok r => Ok (Some r) | Err e => Err e end
  end.
