(* Spec_Guid.v - the GUID drop nickname sequence (RESET_DEVICE, type 23): four frames, each with a quarter of the GUID *)
From Verif Require Export Spec_Request Spec_Proto.

(* what matters for the sequence: time passes, a frame with quarter q arrives (ok: it is the quarter of this node's GUID),
   the framework starts again *)
Inductive GEv := GTime (p : N) | GQuarter (q : N) (ok : bool) | GBreak.
Definition duration (l : list GEv) : N := fold_right (fun e n => match e with GTime p => p + n | _ => n end) 0 l.
(* s is the latest sequence in l: it begins with the latest first quarter, was not interrupted and takes less than t milliseconds *)
Definition sequence (t : N) (l s : list GEv) : Prop :=
  (exists l1, l = l1 ++ s) /\ duration s < t /\
  exists ok r, s = GQuarter 0 ok :: r /\ ~ In GBreak r /\ forall x, ~ In (GQuarter 0 x) r.
(* a sequence is complete with a last quarter when all four quarters have matched *)
Definition complete (s : list GEv) : Prop :=
  (exists s1 ok, s = s1 ++ [GQuarter 3 ok]) /\ forall q, q < 4 -> In (GQuarter q true) s.
(* the last event of l completes a sequence, for the first time *)
Definition guidDrop (t : N) (l : list GEv) : Prop :=
  exists s, sequence t l s /\ complete s /\ forall s1 s2, s = s1 ++ s2 -> s2 <> [] -> ~ complete s1.

Section Guid.
Context {A : Type} {E : Env A}.
Implicit Types w : World A.

(* the quarter in a frame; and whether it is that of the node *)
Definition quarterOf (m : Msg) : option N :=
  match payload m with
  | [q; _; _; _; _] => if (m_class m =? 0) && (m_type m =? 23) && (q <? 4) then Some q else None
  | _ => None
  end.
Definition guidMatch w (m : Msg) (q : N) : bool :=
  match payload m with
  | [_; b0; b1; b2; b3] => (b0 =? guidByte w (4 * q)) && (b1 =? guidByte w (4 * q + 1)) && (b2 =? guidByte w (4 * q + 2)) && (b3 =? guidByte w (4 * q + 3))
  | _ => false
  end.
(* who pays attention: an active node, unless its application claims the frame; a silent node that waits for being woken up *)
Definition attends w (m : Msg) : bool :=
  match w_st w with
  | ACTIVE => negb (c_prot_ev cfg && fst (fst (app_prot (w_app w, w_ps w) m)))
  | STARTUP => c_silent cfg && (w_nick w =? 255)
  | _ => false
  end.
(* the GUID is that after the application has looked at the frame *)
Definition guidOf w (m : Msg) : World A :=
  match w_st w with
  | ACTIVE => fold_left (fun v c => snd (step (OpApi c) v)) (if c_prot_ev cfg then snd (fst (app_prot (w_app w, w_ps w) m)) else []) (heard w m)
  | _ => w
  end.
Definition guidEvents w (e : Event A) : list GEv :=
  match e with
  | EOp (OpProcess rd) =>
      match taken (effects w (after w rd)) with
      | [m] => if attends w m then match quarterOf m with Some q => [GQuarter q (guidMatch (guidOf w m) m q)] | None => [] end else []
      | _ => []
      end
  | EOp (OpTick p) => [GTime p]
  | EOp (OpApi _) => []
  | _ => [GBreak]
  end.
Fixpoint guidTrace (es : list (Event A)) w : list GEv :=
  match es with [] => [] | e :: r => guidEvents w e ++ guidTrace r (stepE e w) end.

(* the framework has listened to the quarter q in state w: nothing else than its own bookkeeping has changed *)
Definition listened w (q g : N) : World A := set_guidSt g (if q =? 0 then set_tm (timerStart (w_tm w) (w_tGuid w) (c_t_multi cfg)) w else w).
Definition finished w : World A := set_guidSt 0 (set_tm (timerStop (w_tm w) (w_tGuid w)) w).
End Guid.
