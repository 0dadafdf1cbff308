(** * The time that the window shows (gui.py:250-269) *)
From Coq Require Import String QArith Qcanon Qround.
From Verif Require Import Py Units.
Local Open Scope Qc_scope.
(** gui.py:250-269: the text is one or two numbers and their units.  Simplified: the numbers instead of their text, exact instead of floats *)
Inductive elapsed := Milliseconds (v : Qc) | MinutesSeconds (m s : Qc) | HoursMinutes (h m : Qc) | Seconds (v : Qc).
(** gui.py:250-269 [_calculation_time] *)
Definition calculation_time (start_time end_time : Qc) : elapsed :=
  let total := end_time - start_time in
  if Qclt_le_dec total 1 then Milliseconds (round_to (total * Q2Qc 1000) 0)                                      (* 252-254 *)
  else if Qclt_le_dec (Q2Qc 60) total                                                                            (* 255-259 *)
  then let minutes := Q2Qc (inject_Z (Qfloor (total / Q2Qc 60)%Qc)) in MinutesSeconds minutes (round_to (total - minutes) 0)
  else if Qclt_le_dec (Q2Qc 3600) total                                                                          (* 260-264 *)
  then let hours := Q2Qc (inject_Z (Qfloor (total / Q2Qc 3600)%Qc)) in HoursMinutes hours (round_to ((total - hours) / Q2Qc 60) 0)
  else Seconds (round_to total 2).                                                                               (* 265-267 *)
