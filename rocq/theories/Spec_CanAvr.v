(* Spec_CanAvr.v - what a CAN adapter of VSCP does: sending slots, one place for a received frame. *)
From Verif Require Import CanAvr.

(* what the controller does *)
Inductive HwEv := EvTx (i : N)      (* message object i gets its frame onto the bus *)
                | EvRx (w : Wire).  (* a frame arrives *)
Definition hw (c : Can) (e : HwEv) : Can := match e with EvTx i => hwTx i c | EvRx w => hwRx w c end.
(* calls of the adapter and events of the controller; d1, d2: the events in the two waiting times of
   vscp_tp_adapter_writeMessage; old: the content of the caller's buffer *)
Inductive AOp := AWrite (m : Msg) (d1 d2 : list HwEv) | ARd (old : list N) | AHw (e : HwEv).
Inductive ARes := RSent (ok : bool) | RRead (r : ARead) | RHw.
Definition aStep (c : Can) (op : AOp) : ARes * Can :=
  match op with
  | AWrite m d1 d2 => let '(ok, c') := adWrite (fun k c => fold_left hw (if k =? 1 then d1 else d2) c) m c in (RSent ok, c')
  | ARd old => let '(r, c') := adRead old c in (RRead r, c')
  | AHw e => (RHw, hw c e)
  end.
Fixpoint aRun (c : Can) (ops : list AOp) : list ARes * Can :=
  match ops with
  | [] => ([], c)
  | op :: r => let '(o, c1) := aStep c op in let '(os, c2) := aRun c1 r in (o :: os, c2)
  end.

(* VSCP on CAN: identifier of 29 bits: priority (3), hard coded (1), class (9), type (8), nickname (8) *)
Definition vscpId (m : Msg) : N :=
  m_prio m * 67108864 + (if m_hard m then 33554432 else 0) + m_class m * 65536 + m_type m * 256 + m_oaddr m.
Definition vscpWire (m : Msg) : Wire := mkWire true false (vscpId m) (m_size m) (payload m).
(* the message in a frame, in a buffer whose data bytes were old; a remote frame reads as zero bytes *)
Definition wireData (w : Wire) : list N := if w_rtr w then repeat 0 (N.to_nat (w_dlc w)) else w_dat w.
Definition vscpMsg (w : Wire) (old : list N) : Msg :=
  let x := w_cid w in
  mkMsg (x / 67108864 mod 8) (x / 65536 mod 512) (x / 256 mod 256) (x mod 256) (N.odd (x / 33554432))
        (w_dlc w) (wireData w ++ skipn (N.to_nat (w_dlc w)) old).

(* the abstract adapter: 14 slots with frames waiting for the bus, one place for a received frame, and the
   frames sent, oldest first *)
Record Box := mkBox { b_in : option Wire; b_slots : list (option Wire); b_bus : list Wire }.
Definition boxInit (bus : list Wire) : Box := mkBox None (repeat None 14) bus.
(* the first empty slot *)
Fixpoint put (l : list (option Wire)) (w : Wire) : option (list (option Wire)) :=
  match l with
  | [] => None
  | None :: t => Some (Some w :: t)
  | Some x :: t => match put t w with Some t' => Some (Some x :: t') | None => None end
  end.
Definition bHw (b : Box) (e : HwEv) : Box :=
  match e with
  | EvTx i =>
      if i =? 0 then b else
      match nth (N.to_nat (i - 1)) (b_slots b) None with
      | Some w => mkBox (b_in b) (lupd (b_slots b) (N.to_nat (i - 1)) None) (b_bus b ++ [w])
      | None => b
      end
  | EvRx w => match b_in b with None => mkBox (Some w) (b_slots b) (b_bus b) | Some _ => b end
  end.
Definition bTry (m : Msg) (b : Box) : option Box :=
  match put (b_slots b) (vscpWire m) with
  | Some l => Some (mkBox (b_in b) l (b_bus b))
  | None => None
  end.
(* up to three attempts *)
Definition bWrite (m : Msg) (d1 d2 : list HwEv) (b : Box) : bool * Box :=
  if 8 <? m_size m then (false, b) else
  match bTry m b with
  | Some b' => (true, b')
  | None =>
      let b := fold_left bHw d1 b in
      match bTry m b with
      | Some b' => (true, b')
      | None =>
          let b := fold_left bHw d2 b in
          match bTry m b with Some b' => (true, b') | None => (false, b) end
      end
  end.
Definition bStep (b : Box) (op : AOp) : ARes * Box :=
  match op with
  | AWrite m d1 d2 => let '(ok, b') := bWrite m d1 d2 b in (RSent ok, b')
  | ARd old =>
      match b_in b with
      | None => (RRead AFalse, b)
      | Some w => (RRead (ATrue (vscpMsg w old)), mkBox None (b_slots b) (b_bus b))
      end
  | AHw e => (RHw, bHw b e)
  end.
Fixpoint bRun (b : Box) (ops : list AOp) : list ARes * Box :=
  match ops with
  | [] => ([], b)
  | op :: r => let '(o, b1) := bStep b op in let '(os, b2) := bRun b1 r in (o :: os, b2)
  end.

(* a frame as the bus delivers it, with a length code of at most 8 *)
Definition wire_wf (w : Wire) : Prop :=
  w_cid w < (if w_ide w then 536870912 else 2048) /\ w_dlc w <= 8 /\
  length (w_dat w) = (if w_rtr w then 0%nat else N.to_nat (w_dlc w)) /\ bytes (w_dat w).
Definition ev_wf (e : HwEv) : Prop := match e with EvRx w => wire_wf w | EvTx _ => True end.
(* a message whose class has 9 bits *)
Definition can_msg (m : Msg) : Prop :=
  m_prio m < 8 /\ m_class m < 512 /\ m_type m < 256 /\ m_oaddr m < 256 /\
  length (m_data m) = 8%nat /\ bytes (m_data m).
Definition aop_wf (op : AOp) : Prop :=
  match op with
  | AWrite m d1 d2 => can_msg m /\ Forall ev_wf d1 /\ Forall ev_wf d2
  | ARd _ => True
  | AHw e => ev_wf e
  end.
(* the messages for which vscp_tp_adapter_writeMessage returned TRUE *)
Fixpoint accepted (ops : list AOp) (res : list ARes) : list Msg :=
  match ops, res with
  | AWrite m _ _ :: o, RSent true :: r => m :: accepted o r
  | _ :: o, _ :: r => accepted o r
  | _, _ => []
  end.
(* the frames still waiting *)
Fixpoint waiting (l : list (option Wire)) : list Wire :=
  match l with [] => [] | Some w :: t => w :: waiting t | None :: t => waiting t end.
(* the frames that found the place for received frames empty, and the messages read *)
Fixpoint readMsgs (res : list ARes) : list Msg :=
  match res with
  | [] => []
  | RRead (ATrue m) :: r => m :: readMsgs r
  | _ :: r => readMsgs r
  end.
(* reading after each frame; with each frame the content of the caller's buffer *)
Fixpoint served (ws : list (Wire * list N)) : list AOp :=
  match ws with [] => [] | (w, old) :: r => AHw (EvRx w) :: ARd old :: served r end.
