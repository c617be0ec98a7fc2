(* Spec_HbRun.v - vocabulary for the heartbeats over whole histories (property C55) *)
From Verif Require Export Spec_Timing.

(* the node is not restarted, does not get active anew (lamp on) and vscp_core_enableHeartbeat is not called *)
Definition steady (l : list Obs) : Prop := Forall (fun o => match o with OLamp LampOn | OApi (AHeartbeat _) | OInit | OPower => False | _ => True end) l.
(* the number of heartbeats in a history *)
Definition heartbeats {A} {E : Env A} (w : World A) : N := hb_count (hbState (history w)).
