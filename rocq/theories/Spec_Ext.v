(* Spec_Ext.v - EXTENDED_PAGE_READ: a transfer of up to 256 registers, in many frames *)
From Verif Require Export Spec_Page.

(* the n registers from register a of page p on; register 255 is followed by register 0 of the next page *)
Definition regsFrom (p a : N) (n : nat) : list (N * N) :=
  map (fun i => ((p + (a + N.of_nat i) / 256) mod 65536, (a + N.of_nat i) mod 256)) (seq 0 n).
(* the frames that the node sends by itself, each with the verdict of the adapter: not those that the application hands over to
   vscp_core_sendEvent *)
Fixpoint nodeFrames (own : bool) (l : list Obs) : list (Msg * bool) :=
  match l with
  | [] => []
  | OTx f ok :: r => (if own then [(f, ok)] else []) ++ nodeFrames true r
  | OApi (ASend _) :: r => nodeFrames false r
  | _ :: r => nodeFrames true r
  end.
(* frames of a transfer: EXTENDED_PAGE_RESPONSE with lowest priority (the answer to a page write has normal priority) *)
Definition isReadFrame (f : Msg) : bool := (m_class f =? 0) && (m_type f =? 39) && (m_prio f =? 7).
Definition readFrames (l : list Obs) : list (Msg * bool) := filter (fun x => isReadFrame (fst x)) (nodeFrames true l).
(* those that went out *)
Definition sentReads (l : list Obs) : list Msg := map fst (filter snd (readFrames l)).
(* sequence number, page (two bytes) and first register are followed by values of consecutive registers: the registers carried *)
Definition covers (f : Msg) : list (N * N) :=
  match payload f with
  | _ :: h :: l :: a :: vs => map (fun j => (256 * h + l, a + N.of_nat j)) (seq 0 (length vs))
  | _ => []
  end.
Definition seqNumber (f : Msg) : N := hd 0 (payload f).
(* the number of registers that a request asks for *)
Definition asked (rest : list N) : nat := match rest with [c] => if c =? 0 then 256%nat else N.to_nat c | _ => 1%nat end.

Section Ext.
Context {A : Type} {E : Env A}.
Implicit Types w : World A.
(* while the events es happen, no process call receives an EXTENDED_PAGE_READ request that may be meant for this node *)
Fixpoint noFurther (es : list (Event A)) w : Prop :=
  match es with
  | [] => True
  | e :: r => (forall m, In m (taken (effects w (stepE e w))) -> m_class m = 0 -> m_type m = 37 ->
                 hd_error (payload m) <> Some (w_nick w) /\ hd_error (payload m) <> Some 255) /\ noFurther r (stepE e w)
  end.
(* factory settings restored, or power lost *)
Definition abandoned (l : list Obs) : Prop := In OAppRestore l \/ In OPower l.
(* the transfer state: what is to be sent next *)
Definition transfer w (p a : N) (n : nat) (s : N) : World A := set_xcount (N.of_nat n) (set_xseq s (set_xaddr a (set_xpage p w))).
(* quiet cycles: the process calls es happen while the node is active, receive nothing and find no heartbeat due *)
Fixpoint idleCycles (es : list (Event A)) w : Prop :=
  match es with
  | [] => True
  | EOp (OpProcess rd) :: r => isActive w = true /\ taken (effects w (after w rd)) = [] /\ heartbeatDue w = false /\ idleCycles r (after w rd)
  | _ => False
  end.
(* the number of frames of a transfer that the adapter did not take *)
Definition refused (l : list Obs) : nat := length (filter (fun x => negb (snd x)) (readFrames l)).
End Ext.
