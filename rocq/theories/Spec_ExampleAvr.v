(* Spec_ExampleAvr.v - vocabulary for the application of the AVR example (properties C79, C80) *)
From Verif Require Export Spec_Lamp Spec_Request Spec_DM ExampleAvr.
#[global] Existing Instance avrEnv.

(* the LED after a list of executed actions: the last action 1 or 2 decides *)
Definition ledAfter (led : bool) (l : list (N * N * Msg)) : bool :=
  fold_left (fun b x => let a := fst (fst x) in if a =? 1 then true else if a =? 2 then false else b) l led.
(* f is an information event of the given type (3 = ON, 4 = OFF) from the node nick about index 0 of all zones *)
Definition infoEvent (type nick : N) (f : Msg) : Prop :=
  m_class f = 20 /\ m_type f = type /\ m_prio f = 3 /\ m_oaddr f = nick /\ m_hard f = false /\ payload f = [0; 255; 255].
(* the effects after an action: action 1 is reported with one ON event, action 2 with one OFF event, nothing is sent for other actions *)
Definition reported (nick a : N) (l : list Obs) : Prop :=
  (a = 1 -> exists f ok r, infoEvent 3 nick f /\ l = OApi (ASend f) :: OTx f ok :: r) /\
  (a = 2 -> exists f ok r, infoEvent 4 nick f /\ l = OApi (ASend f) :: OTx f ok :: r).
(* register 0 is the node's zone, register 1 its sub-zone *)
Definition zoneField (a : N) : Field := if a =? 0 then FZone else FSub.
