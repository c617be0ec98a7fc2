(* Spec_Reset.v - waiting for the reset *)
From Verif Require Export Spec_States.

(* Waiting t seconds, one second at a time, looking at the clock in every process call: state is (seconds left,
   milliseconds of the current second, over). A wait of 0 seconds is over in the first process call. *)
Definition wait1 (s : N * N * bool) (o : Obs) : N * N * bool :=
  let '(k, ms, over) := s in
  if over then s else
  match o with
  | OTick p => (k, ms + p, false)
  | OProcess => if (k =? 0) || (1000 <=? ms) then (if k <=? 1 then (0, 0, true) else (k - 1, 0, false)) else s
  | _ => s
  end.
(* the wait of t seconds is over at the end of l *)
Definition waitOver (t : N) (l : list Obs) : bool := snd (fold_left wait1 l (t, 0, false)).
Definition resetRequests (l : list Obs) : nat := length (filter (fun o => match o with OResetRequest => true | _ => false end) l).
(* a reset was requested since the last initialisation *)
Definition resetPending (l : list Obs) : bool :=
  fold_left (fun b o => match o with OInit => false | OResetRequest => true | _ => b end) l false.

Section Reset.
Context {A : Type} {E : Env A}.
(* process calls, time and API calls, except a new nickname discovery *)
Definition inService (e : Event A) : Prop :=
  match e with EOp (OpProcess _) | EOp (OpTick _) => True | EOp (OpApi c) => c <> AStartInit | _ => False end.
End Reset.
