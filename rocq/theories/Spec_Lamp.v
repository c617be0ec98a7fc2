(* Spec_Lamp.v - the status lamp (property C78) *)
From Verif Require Export Spec_States.

(* what the lamp shows: the last order it was given *)
Definition shown (h : list Obs) : option Lamp := fold_left (fun l o => match o with OLamp x => Some x | _ => l end) h None.
(* what it should show: src/vscp_core.c does not say so in one place; the VSCP specification asks for a lamp that blinks while the node looks
   for a nickname, is lit while it works and is dark otherwise *)
Definition lampFor (s : State) : Lamp :=
  match s with STARTUP => LampBlinkSlow | INIT | PREACTIVE => LampBlinkFast | ACTIVE => LampOn | IDLE | RESET | ERROR => LampOff end.
