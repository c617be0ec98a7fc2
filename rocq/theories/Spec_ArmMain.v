(* Spec_ArmMain.v - vocabulary for the whole program of the ARM example (property C83) *)
From Verif Require Export Spec_AvrMain ArmMain.
#[global] Existing Instance armEnv.

(* every interrupt is a millisecond *)
Definition armMs (ts : list Turn) : N := overflowsIn ts.
(* no turn of the main loop takes longer than g milliseconds *)
Definition armPaced (g : N) (ts : list Turn) : Prop := Forall (fun t => N.of_nat (length (interrupts t)) <= g) ts.
(* the passes of the button's main loop, as in Spec_AvrMain.v, but with every interrupt sampling the button *)
Fixpoint armPasses (carry : list bool) (ts : list Turn) : list Pass :=
  match ts with [] => [] | t :: r => (carry ++ u_i1 t, u_i2 t) :: armPasses (u_i3 t) r end.
(* nobody touches the button *)
Definition untouched (ts : list Turn) : Prop := Forall (fun t => Forall (fun h => h = false) (interrupts t)) ts.
(* no interrupt falls between the two reads of the flag *)
Definition unraced (ts : list Turn) : Prop := Forall (fun t => u_i2 t = []) ts.
(* the interrupts before the last look at the button *)
Definition armSeen (ts : list Turn) : N := N.of_nat (length (flat_map fst (armPasses [] ts))).
