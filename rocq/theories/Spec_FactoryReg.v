(* Spec_FactoryReg.v - register 0xA2: 0x55 followed by 0xAA in time restores the factory settings *)
From Verif Require Export Spec_Page Spec_Guid.

(* what matters: time passes, a value is written to the register, the framework starts again *)
Inductive WEv := WTime (p : N) | WWrite (v : N) | WBreak.
(* the milliseconds for which 0xAA is still accepted, if t is the time that 0x55 grants; 0: it is not accepted *)
Definition windowStep (t n : N) (e : WEv) : N :=
  match e with
  | WTime p => n - p
  | WWrite v => if v =? 85 then (if n =? 0 then t else n) else if v =? 170 then 0 else n
  | WBreak => 0
  end.
Definition window (t : N) (l : list WEv) : N := fold_left (windowStep t) l 0.
Definition msPassed (l : list WEv) : N := fold_right (fun e n => match e with WTime p => p + n | _ => n end) 0 l.

Section FactoryReg.
Context {A : Type} {E : Env A}.
Implicit Types w : World A.
(* values vs are written to the registers from a on; the page of each access is page: those written to register 0xA2 *)
Fixpoint hits (page : World A -> N) (a : N) (vs : list N) w : list N :=
  match vs with
  | [] => []
  | v :: r => (if (page w =? 0) && (a =? 162) then [v] else []) ++ hits page (a + 1) r (snd (writeRegister (page w) a v w))
  end.
(* the values that a request writes to register 0xA2 of the node in state w *)
Definition written w (m : Msg) : list N :=
  match payload m with
  | [] => []
  | n :: d =>
      if (m_class m =? 0) && (n =? w_nick w) then
        match d with
        | [a; v] => if (m_type m =? 11) && (a =? 162) then [v] else []
        | [a] => if (m_type m =? 29) && (a =? 162) then [1] else if (m_type m =? 30) && (a =? 162) then [255] else []
        | _ => []
        end ++
        match d with
        | a :: v :: r => if m_type m =? 25 then hits w_page a (v :: r) w else []
        | _ => []
        end ++
        match d with
        | p1 :: p2 :: a :: v :: r => if m_type m =? 38 then hits (fun _ => 256 * p1 + p2) a (v :: r) w else []
        | _ => []
        end
      else []
  end.
(* an active node serves protocol events that the application does not claim, after the application has seen them *)
Definition listens w (m : Msg) : bool := match w_st w with ACTIVE => attends w m | _ => false end.
(* the values written to register 0xA2 in one process call *)
Definition writes w (rd : option Msg) : list N :=
  match taken (effects w (after w rd)) with
  | [m] => if listens w m then written (guidOf w m) m else []
  | _ => []
  end.
Definition regEvents w (e : Event A) : list WEv :=
  match e with
  | EOp (OpProcess rd) => map WWrite (writes w rd)
  | EOp (OpTick p) => [WTime p]
  | EOp (OpApi _) => []
  | _ => [WBreak]
  end.
Fixpoint regTrace (es : list (Event A)) w : list WEv :=
  match es with [] => [] | e :: r => regEvents w e ++ regTrace r (stepE e w) end.
(* the other ways to restore factory settings: the application asks for it, or a DROP_NICKNAME event that is served does *)
Definition otherRestore (l : list Obs) : Prop :=
  In (OApi ARestore) l \/ exists m, taken l = [m] /\ m_class m = 0 /\ m_type m = 8.
End FactoryReg.
