(* Spec_Protect.v - write protection *)
From Verif Require Export Spec_States Spec_Regs.

Section Protect.
Context {A : Type} {E : Env A}.
Implicit Types w : World A.

(* the node w with the memory contents it had after the effects l, counted from a first power up with the contents ps0 *)
Definition memoryAt (ps0 : N -> N) (l : list Obs) w : World A := inMem (memAfter ps0 l) w.
(* the memory of the decision logic: decision matrix, its extension, rule set of the next generation decision matrix *)
Definition logicField (f : Field) : Prop := In f [FDm; FDmx; FNg].
(* the effect x, that follows the effects l, writes an application register or changes the decision logic *)
Definition protectedWrite (ps0 : N -> N) (l : list Obs) (x : Obs) w : Prop :=
  (exists p a v, x = OAppWrite p a v) \/
  (exists f i, logicField f /\ i < fieldLen cfg f /\ stored (memoryAt ps0 (l ++ [x]) w) f i <> stored (memoryAt ps0 l w) f i).
End Protect.
