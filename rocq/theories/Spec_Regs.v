(* Spec_Regs.v - what it means that a register gives access to a byte of persistent memory or to
   an application register. *)
From Verif Require Export Spec_PS.

Section Regs.
Context {A : Type} {E : Env A}.
(* write protection is off (bit 5 of the node control flags is set) *)
Definition writable (w : World A) : Prop := N.testbit (stored w FCtrl 0) 5 = true.
(* apart from persistent memory and the effect log nothing differs *)
Definition onlyMemory (w w' : World A) : Prop := set_out (w_out w) (set_ps (w_ps w) w') = w.

(* register a of page p is byte k of field f: reading returns it and changes nothing; writing is
   one persistent write that changes it and nothing else *)
Definition isWindowOn (p a : N) (f : Field) (k : N) : Prop := forall w : World A,
  readRegister p a w = (stored w f k, w) /\
  forall v, v < 256 -> writable w ->
    let w' := snd (writeRegister p a v w) in
    fst (writeRegister p a v w) = (v, false) /\ onlyMemory w w' /\
    (exists x, effects w w' = [OPs x v]) /\
    forall g j, j < fieldLen cfg g -> stored w' g j = if field_eqb f g && (k =? j) then v else stored w g j.

(* register a of page p belongs to the application: accesses are passed on to it; its answer is
   returned. It may call the API meanwhile; if it does not, nothing else happens. *)
Definition isAppRegister (p a : N) : Prop := forall w : World A,
  (let w' := snd (readRegister p a w) in
   fst (readRegister p a w) = fst (app_read (w_app w, w_ps w) p a) mod 256 /\ effects w w' = [OAppRead p a] /\
   set_out (w_out w) (set_app (w_app w) w') = w /\ w_app w' = snd (app_read (w_app w, w_ps w) p a)) /\
  forall v, writable w -> let w' := snd (writeRegister p a v w) in
    fst (writeRegister p a v w) = (fst (fst (app_write (w_app w, w_ps w) p a v)) mod 256, false) /\
    (exists rest, effects w w' = OAppWrite p a v :: rest) /\
    (snd (fst (app_write (w_app w, w_ps w) p a v)) = [] ->
       effects w w' = [OAppWrite p a v] /\ set_out (w_out w) (set_app (w_app w) w') = w /\ w_app w' = snd (app_write (w_app w, w_ps w) p a v)).
End Regs.
