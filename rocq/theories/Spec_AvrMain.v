(* Spec_AvrMain.v - vocabulary for the whole program of the AVR example (property C82) *)
From Verif Require Export Spec_ExampleAvr Spec_MainLoop AvrMain.

(* all interrupts of a turn; ten of them are a millisecond *)
Definition interrupts (t : Turn) : list bool := u_i1 t ++ u_i2 t ++ u_i3 t.
Definition overflowsIn (ts : list Turn) : N := N.of_nat (length (flat_map interrupts ts)).
Definition msIn (ts : list Turn) : N := overflowsIn ts / 10.

(* the time the framework is told, in ms *)
Fixpoint toldMs (h : list Obs) : N := match h with [] => 0 | OTick p :: r => p + toldMs r | _ :: r => toldMs r end.
(* calls of vscp_core_startNodeSegmentInit by the main loop; the application makes none *)
Fixpoint initCalls (h : list Obs) : N := match h with [] => 0 | OApi AStartInit :: r => 1 + initCalls r | _ :: r => initCalls r end.

(* the messages are what an adapter can deliver *)
Definition turn_wf (t : Turn) : Prop := op_wf (OpProcess (u_rd t)).

(* the operations of the main loop *)
Inductive mainOp : Op -> Prop :=
| MOprocess rd : mainOp (OpProcess rd)
| MOinit : mainOp (OpApi AStartInit)
| MOtick : mainOp (OpTick 250).
(* the received messages of a list of operations *)
Definition reads (os : list Op) : list (option Msg) := flat_map (fun o => match o with OpProcess rd => [rd] | _ => [] end) os.

(* the samples the debouncing sees: the position of the button at every tenth interrupt; n interrupts came before *)
Fixpoint sampled (n : N) (l : list bool) : list bool :=
  match l with [] => [] | h :: r => (if (n + 1) mod 10 =? 0 then [h] else []) ++ sampled (n + 1) r end.
(* every turn is short: at most g milliseconds begin in it; n interrupts came before *)
Fixpoint paced (g n : N) (ts : list Turn) : Prop :=
  match ts with
  | [] => True
  | t :: r => let n' := n + N.of_nat (length (interrupts t)) in n' / 10 - n / 10 <= g /\ paced g n' r
  end.
(* n times *)
Definition times {X} (f : X -> X) (n : N) (x : X) : X := N.iter n f x.

(* the passes of the button's main loop (Spec_MainLoop.v): the samples taken before line 189 of main.c, among them those after line 195 of the
   turn before, and the samples taken between the lines 189 and 195; n interrupts came before *)
Definition turnPass (n : N) (carry : list bool) (t : Turn) : Pass :=
  (carry ++ sampled n (u_i1 t), sampled (n + N.of_nat (length (u_i1 t))) (u_i2 t)).
Definition turnCarry (n : N) (t : Turn) : list bool := sampled (n + N.of_nat (length (u_i1 t)) + N.of_nat (length (u_i2 t))) (u_i3 t).
Fixpoint passesOf (n : N) (carry : list bool) (ts : list Turn) : list Pass :=
  match ts with [] => [] | t :: r => turnPass n carry t :: passesOf (n + N.of_nat (length (interrupts t))) (turnCarry n t) r end.
