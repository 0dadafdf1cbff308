(** * [hybrid_BFS]: two workers and a polling loop (searches.py:160-249)

    The two searches only read the network, so each worker is characterised
    by its outcome: it writes its cell of [results_] once, or dies with an
    exception without writing.  Every access of the main thread to [results_]
    is one atomic step; the scheduler picks who moves. *)
From Coq Require Import String.
From Verif Require Import Py Network Search.

Section H.
Context {P : Type}.   (* paths *)

(** A cell of [results_]: the initial empty string, or what a search returned. *)
(** searches.py:216 *)
Inductive cell := Empty | Value (r : option P).

(** searches.py:220-226: the life of a thread *)
Inductive worker := NotStarted | Running | Ended.

(** Program points of the main thread. *)
Inductive pc :=
| StartLean            (* 225: runner_lean_bfs.start() *)
| StartBfs             (* 226: runner_bfs.start() *)
| LeanNotEmpty         (* 230: results_['lean_bfs'] != '' *)
| LeanNotNone          (* 230: and results_['lean_bfs'] is not None *)
| ReturnLean           (* 232: _return = results_['lean_bfs'] *)
| BfsNotEmpty          (* 235 *)
| BfsNotNone           (* 235 *)
| ReturnBfs            (* 237 *)
| BfsIsNone            (* 240: results_['bfs'] is None *)
| LeanIsNone           (* 240: and results_['lean_bfs'] is None *)
| Returned (r : cell). (* the loop has ended; [_return] as read *)

(** searches.py:216-242: the program point of the caller, the two cells, the two threads *)
Record hstate := HState { h_pc : pc; h_lean : cell; h_bfs : cell; h_wl : worker; h_wb : worker }.
(** searches.py:216 *)
Definition h_init := HState StartLean Empty Empty NotStarted NotStarted.

(** model plumbing: who makes the next step *)
Inductive agent := Main | LeanWorker | BfsWorker.

(** what the two searches do: a result, or an exception *)
Context (lean_out bfs_out : res (option P)).

Definition finish (out : res (option P)) (c : cell) : cell :=
  match out with Ok r => Value r | Err _ => c end.   (* 175 / 179: the write happens only on return *)

(** searches.py:225-242, one access to [results_] at a time *)
Definition main_step (s : hstate) : hstate :=
  let '(HState p l b wl wb) := s in
  match p with
  | StartLean => HState StartBfs l b Running wb
  | StartBfs => HState LeanNotEmpty l b wl Running
  | LeanNotEmpty => HState (match l with Empty => BfsNotEmpty | _ => LeanNotNone end) l b wl wb
  | LeanNotNone => HState (match l with Value None => BfsNotEmpty | _ => ReturnLean end) l b wl wb
  | ReturnLean => HState (Returned l) l b wl wb
  | BfsNotEmpty => HState (match b with Empty => BfsIsNone | _ => BfsNotNone end) l b wl wb
  | BfsNotNone => HState (match b with Value None => BfsIsNone | _ => ReturnBfs end) l b wl wb
  | ReturnBfs => HState (Returned b) l b wl wb
  | BfsIsNone => HState (match b with Value None => LeanIsNone | _ => LeanNotEmpty end) l b wl wb
  | LeanIsNone => HState (match l with Value None => Returned (Value None) | _ => LeanNotEmpty end) l b wl wb
  | Returned r => s
  end.

(** searches.py:174-181 for the workers *)
Definition h_step (s : hstate) (a : agent) : hstate :=
  match a with
  | Main => main_step s
  | LeanWorker => match h_wl s with
                  | Running => HState (h_pc s) (finish lean_out (h_lean s)) (h_bfs s) Ended (h_wb s)
                  | _ => s end
  | BfsWorker => match h_wb s with
                 | Running => HState (h_pc s) (h_lean s) (finish bfs_out (h_bfs s)) (h_wl s) Ended
                 | _ => s end
  end.
(** model plumbing: the state after a schedule *)
Definition h_run (sched : list agent) : hstate := fold_left h_step sched h_init.

(** What the caller sees after a schedule: nothing yet, or the returned value.
    (Reading the initial '' as the result would be [Some Empty].) *)
(** searches.py:249 *)
Definition h_result (sched : list agent) : option cell :=
  match h_pc (h_run sched) with Returned r => Some r | _ => None end.

(** searches.py:160-172 + 216-242 with [SerialRun]: lean_BFS runs first; BFS runs
    only if that found nothing; exceptions are swallowed; then the polling
    loop, which no longer sees any change: [None] means it spins forever. *)
Definition serial_cells : cell * cell :=
  let l := finish lean_out Empty in
  let b := match l with Value (Some _) => Empty | _ => finish bfs_out Empty end in
  (l, b).
(** searches.py:229-242 after a serial run *)
Definition serial_result : option (option P) :=
  match serial_cells with
  | (Value (Some p), _) => Some (Some p)
  | (_, Value (Some p)) => Some (Some p)
  | (Value None, Value None) => Some None
  | _ => None
  end.
End H.

(** searches.py:202-211: the choice of runner.  [Process] is only imported when
    [multiprocessing_] was set at import time, which [multiprocessing_available]
    (parameters.py:65-73) never does: using it is a NameError. *)
Inductive runner := RThread | RSerial.
(** searches.py:202-211 *)
Definition pick_runner (parallel multiprocessing threading : bool) : res runner :=
  if parallel && multiprocessing then Err NameError
  else if parallel && threading then Ok RThread
  else if negb parallel then Ok RSerial
  else if parallel && negb threading && negb multiprocessing then Err ModuleNotFoundError
  else Err NotImplementedError.
