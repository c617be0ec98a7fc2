(* Spec_SwTimer.v - the software timers as seen by their users. *)
From Verif Require Import SwTimer.

Inductive SOp := SStart (id v : N) (manual : bool) | SStop (id : N) | SPoll (id : N) | STick.

Definition sStep (ts : SwTs) (op : SOp) : SwTs :=
  match op with
  | SStart id v m => swStart ts id v m
  | SStop id => swStop ts id
  | SPoll id => snd (swGetStatus ts id)
  | STick => swProcess ts
  end.
Definition sRun (ts : SwTs) (ops : list SOp) : SwTs := fold_left sStep ops ts.
(* what swTimer_getStatus(id) answers after the calls ops *)
Definition expired (ts : SwTs) (ops : list SOp) (id : N) : bool := fst (swGetStatus (sRun ts ops) id).

(* the call starts or stops timer id *)
Definition sTouches (id : N) (op : SOp) : Prop :=
  match op with SStart i _ _ => i = id | SStop i => i = id | _ => False end.
(* number of timer interrupts *)
Fixpoint ticks (ops : list SOp) : N :=
  match ops with [] => 0 | STick :: r => 1 + ticks r | _ :: r => ticks r end.
(* number of times swTimer_getStatus(id) answers TRUE during the calls ops *)
Fixpoint expirations (ts : SwTs) (ops : list SOp) (id : N) : N :=
  match ops with
  | [] => 0
  | op :: r =>
      (match op with
       | SPoll i => if (i =? id) && fst (swGetStatus ts i) then 1 else 0
       | _ => 0
       end) + expirations (sStep ts op) r id
  end.
(* one round of a main loop that polls after every interrupt; k rounds *)
Fixpoint rounds (id : N) (k : nat) : list SOp :=
  match k with O => [] | S j => STick :: SPoll id :: rounds id j end.
