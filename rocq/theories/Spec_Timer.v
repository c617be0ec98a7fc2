(* Spec_Timer.v - the timer interface as seen by its users. *)
From Verif Require Import Timer.

Inductive TOp := TCreate | TStart (id v : N) | TStop (id : N) | TProcess (period : N).

(* one call; a creation returns the identifier (or TIMER_ID_INVALID) *)
Definition tStep (ts : Timers) (op : TOp) : option N * Timers :=
  match op with
  | TCreate => let '(id, ts') := timerCreate ts in (Some id, ts')
  | TStart id v => (None, timerStart ts id v)
  | TStop id => (None, timerStop ts id)
  | TProcess p => (None, timerProcess ts p)
  end.
(* a sequence of calls; result: all identifiers returned by creations, final contexts *)
Fixpoint tRun (ts : Timers) (ops : list TOp) : list N * Timers :=
  match ops with
  | [] => ([], ts)
  | op :: r =>
      let '(o, ts1) := tStep ts op in
      let '(ids, ts2) := tRun ts1 r in
      (match o with Some id => id :: ids | None => ids end, ts2)
  end.

(* the call starts or stops timer id *)
Definition touches (id : N) (op : TOp) : Prop :=
  match op with TStart i _ => i = id | TStop i => i = id | _ => False end.
(* time that has been processed *)
Fixpoint elapsed (ops : list TOp) : N :=
  match ops with [] => 0 | TProcess p :: r => p + elapsed r | _ :: r => elapsed r end.
(* identifiers of timers really created *)
Definition valid (ids : list N) : list N := filter (fun i => negb (i =? TIMER_ID_INVALID)) ids.
