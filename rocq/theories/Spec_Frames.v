(* Spec_Frames.v - what the frames sent by the framework look like *)
From Verif Require Export Spec_States Spec_PS.

(* class, type and priority: NEW_NODE_ONLINE as probe (7) or announcement (0), PROBE_ACK, NICKNAME_ACCEPTED, register response, NACK of the
   boot loader, page response, who-is-there response, matrix info response, extended page response to a write (3) and to a read (7);
   node heartbeat; log message *)
Definition documented : list (N * N * N) :=
  [(0, 2, 7); (0, 2, 0); (0, 3, 0); (0, 7, 7); (0, 10, 3); (0, 14, 3); (0, 26, 3); (0, 32, 3); (0, 34, 3); (0, 39, 3); (0, 39, 7); (20, 9, 3); (509, 1, 3)].

Section Frames.
Context {A : Type} {E : Env A}.

(* the nicknames the node had, the current one first, and the event the application is just sending with vscp_core_sendEvent *)
Definition FrState : Type := list N * option Msg.
Definition frStep (s : FrState) (o : Obs) : FrState :=
  match o with
  | OPs a v => (if a =? ps_nick cfg then v :: fst s else fst s, None)
  | OApi (ASend m) => (fst s, Some m)
  | _ => (fst s, None)
  end.
(* responses to page writes may still carry an earlier nickname (C33_nickname_refuted) *)
Definition pageResponse (m : Msg) : Prop := m_class m = 0 /\ (m_type m = 26 \/ m_type m = 39) /\ m_prio m = 3.
Definition ownFrame (held : list N) (m : Msg) : Prop :=
  In (m_class m, m_type m, m_prio m) documented /\ m_hard m = c_hard cfg /\
  (m_oaddr m = hd 0 held \/ pageResponse m /\ In (m_oaddr m) held).
Definition frameOk (s : FrState) (o : Obs) : Prop := match o with OTx m _ => (match snd s with Some a => m = a | None => ownFrame (fst s) m end) | _ => True end.
Fixpoint framesOk (s : FrState) (l : list Obs) : Prop := match l with [] => True | o :: r => frameOk s o /\ framesOk (frStep s o) r end.
End Frames.
