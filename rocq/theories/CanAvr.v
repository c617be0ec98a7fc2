(* CanAvr.v - model of examples/avr/at90can/driver/canDrv.c and
   examples/avr/at90can/vscp_user/vscp_tp_adapter.c, with the message objects of the AT90CAN controller. *)
From Verif Require Export Types.

(* The registers behind one page of the controller: status, control, identifier (CANIDT1..4), mask
   (CANIDM1..4) and the 8 data bytes of one message object (MOB), AT90CAN data sheet, "CAN MOB registers" *)
Record Mob := mkMob { o_st : N; o_cd : N; o_i1 : N; o_i2 : N; o_i3 : N; o_i4 : N;
                      o_k1 : N; o_k2 : N; o_k3 : N; o_k4 : N; o_dat : list N }.
(* a frame on the bus: identifier of 29 bits or 11 bits, remote frame, identifier, length code, data *)
Record Wire := mkWire { w_ide : bool; w_rtr : bool; w_cid : N; w_dlc : N; w_dat : list N }.
(* CANPAGE, the message objects and the frames sent, oldest first; the other registers (bit timing,
   CANGCON) do not matter here *)
Record Can := mkCan { c_pg : N; c_mobs : list Mob; c_bus : list Wire }.

Definition mob0 : Mob := mkMob 0 0 0 0 0 0 0 0 0 0 (repeat 0 8).
Definition mobAt (c : Can) (i : N) : Mob := nth (N.to_nat i) (c_mobs c) mob0.
(* total update of a list *)
Fixpoint lupd {T} (l : list T) (i : nat) (v : T) : list T :=
  match l, i with
  | [], _ => []
  | _ :: t, O => v :: t
  | h :: t, S j => h :: lupd t j v
  end.
(* the selected message object: bits 7..4 of CANPAGE; bits 2..0 are the data index, bit 3 (AINC) clear:
   the index is incremented by each access of CANMSG *)
Definition sel (c : Can) : N := c_pg c / 16.
Definition rdM (c : Can) : Mob := mobAt c (sel c).
Definition wrM (f : Mob -> Mob) (c : Can) : Can :=
  mkCan (c_pg c) (lupd (c_mobs c) (N.to_nat (sel c)) (f (rdM c))) (c_bus c).
Definition setPage (p : N) (c : Can) : Can := mkCan (u8 p) (c_mobs c) (c_bus c).
Definition dIdx (c : Can) : N := c_pg c mod 8.
Definition dInc (c : Can) : Can := mkCan (c_pg c / 8 * 8 + (dIdx c + 1) mod 8) (c_mobs c) (c_bus c).
Definition wSt v m := mkMob v (o_cd m) (o_i1 m) (o_i2 m) (o_i3 m) (o_i4 m) (o_k1 m) (o_k2 m) (o_k3 m) (o_k4 m) (o_dat m).
Definition wCd v m := mkMob (o_st m) v (o_i1 m) (o_i2 m) (o_i3 m) (o_i4 m) (o_k1 m) (o_k2 m) (o_k3 m) (o_k4 m) (o_dat m).
Definition wI1 v m := mkMob (o_st m) (o_cd m) v (o_i2 m) (o_i3 m) (o_i4 m) (o_k1 m) (o_k2 m) (o_k3 m) (o_k4 m) (o_dat m).
Definition wI2 v m := mkMob (o_st m) (o_cd m) (o_i1 m) v (o_i3 m) (o_i4 m) (o_k1 m) (o_k2 m) (o_k3 m) (o_k4 m) (o_dat m).
Definition wI3 v m := mkMob (o_st m) (o_cd m) (o_i1 m) (o_i2 m) v (o_i4 m) (o_k1 m) (o_k2 m) (o_k3 m) (o_k4 m) (o_dat m).
Definition wI4 v m := mkMob (o_st m) (o_cd m) (o_i1 m) (o_i2 m) (o_i3 m) v (o_k1 m) (o_k2 m) (o_k3 m) (o_k4 m) (o_dat m).
Definition wK a b x d m := mkMob (o_st m) (o_cd m) (o_i1 m) (o_i2 m) (o_i3 m) (o_i4 m) a b x d (o_dat m).
Definition wDat i v m := mkMob (o_st m) (o_cd m) (o_i1 m) (o_i2 m) (o_i3 m) (o_i4 m) (o_k1 m) (o_k2 m) (o_k3 m) (o_k4 m)
                               (lupd (o_dat m) (N.to_nat i) v).
(* CANMSG = v, CANMSG *)
Definition wrMSG (v : N) (c : Can) : Can := dInc (wrM (wDat (dIdx c) v) c).
Definition rdMSG (c : Can) : N * Can := (at0 (o_dat (rdM c)) (dIdx c), dInc c).

(* canDrv.h setMob *)
Definition setMob (i : N) (c : Can) : Can := setPage (i * 16) c.
Fixpoint nTimes {T} (k : nat) (f : T -> T) (x : T) : T :=
  match k with O => x | S j => nTimes j f (f x) end.
(* canDrv.c:39-58 clrMob *)
Definition clrMob (i : N) (c : Can) : Can :=
  let c := setPage (i * 16) c in
  let c := wrM (wSt 0) c in let c := wrM (wCd 0) c in
  let c := wrM (wI4 0) c in let c := wrM (wI3 0) c in let c := wrM (wI2 0) c in let c := wrM (wI1 0) c in
  let c := wrM (wK 0 0 0 0) c in
  nTimes 8 (wrMSG 0) c.
(* canDrv.c:64-71 clrAllMob *)
Definition clrAllMob (c : Can) : Can := fold_left (fun c i => clrMob i c) (Nseq 15) c.
(* canDrv.c:82-103 getFreeMob, the loop from MOB i on; None: ERROR_BUFFER_FULL *)
Fixpoint freeFrom (fuel : nat) (i : N) (c : Can) : option N * Can :=
  match fuel with
  | O => (None, c)
  | S k =>
      let c := setMob i c in
      if N.land (o_cd (rdM c)) 192 =? 0 then (Some i, c)
      else if negb (N.land (o_st (rdM c)) 64 =? 0) then (Some i, c)
      else freeFrom k (i + 1) c
  end.
Definition getFreeMob (c : Can) : option N * Can :=
  let save := c_pg c in
  let '(r, c) := freeFrom 14 1 c in (r, setPage save c).
(* canDrv.c:111-201 can_Open; the bit timing is not modelled *)
Definition canOpen (c : Can) : Can :=
  let c := setMob 0 (clrAllMob c) in
  wrM (fun m => wCd (N.lor (o_cd m) 128) m) c.

(* canDrv.h CANMsg *)
Record CMsg := mkCMsg { g_id : N; g_len : N; g_flags : N; g_byte : list N }.
(* canDrv.c:223-278 can_SendFrame: true = ERROR_OK. The test for a remote frame in the extended case is
   flags & CAN_MASK_RTR (4), not flags & CAN_IDFLAG_RTR (2). *)
Definition canSend (f : CMsg) (c : Can) : bool * Can :=
  match getFreeMob c with
  | (None, c) => (false, c)
  | (Some i, c) =>
      let c := clrMob i (setMob i c) in
      let c :=
        if negb (N.land (g_flags f) 1 =? 0) then
          let c := wrM (wCd (16 + N.land (g_len f) 15)) c in
          let c := wrM (wI4 (u8 (N.lor (N.shiftl (N.land (g_id f) 31) 3)
                                       (if negb (N.land (g_flags f) 4 =? 0) then 4 else 0)))) c in
          let c := wrM (wI3 (N.land (N.shiftr (g_id f) 5) 255)) c in
          let c := wrM (wI2 (N.land (N.shiftr (g_id f) 13) 255)) c in
          wrM (wI1 (N.land (N.shiftr (g_id f) 21) 255)) c
        else
          let c := wrM (wCd (N.land (g_len f) 15)) c in
          let c := if negb (N.land (g_flags f) 2 =? 0) then wrM (wI4 4) c else c in
          let c := wrM (wI2 (u8 (N.shiftl (N.land (g_id f) 7) 5))) c in
          wrM (wI1 (u8 (N.shiftr (g_id f) 3))) c in
      let c := fold_left (fun c k => wrMSG (at0 (g_byte f) k) c) (Nseq (g_len f)) c in
      (true, wrM (fun m => wCd (N.lor (o_cd m) 64) m) c)
  end.

(* canDrv.c:284-330 can_readFrame. *)
Inductive CRead :=
| CEmpty                (* ERROR_BUFFER_EMPTY *)
| CFrame (f : CMsg)     (* ERROR_OK *)
| CStray.               (* pmsg->byte[i] written for an i of 8 or more: undefined *)
Fixpoint rdBytes (k : nat) (c : Can) : list N * Can :=
  match k with
  | O => ([], c)
  | S j => let '(d, c) := rdMSG c in let '(l, c) := rdBytes j c in (d :: l, c)
  end.
Definition canRead (c : Can) : CRead * Can :=
  let c := setMob 0 c in
  if N.land (o_st (rdM c)) 32 =? 0 then (CEmpty, c)
  else
    let m := rdM c in
    let rtr := if negb (N.land (o_i4 m) 4 =? 0) then 2 else 0 in
    let ext := negb (N.land (o_cd m) 16 =? 0) in
    let id := if ext then u32 (N.shiftl (o_i1 m) 21 + N.shiftl (o_i2 m) 13 + N.shiftl (o_i3 m) 5 +
                               N.land (N.shiftr (o_i4 m) 3) 31)
              else N.shiftl (o_i1 m) 3 + N.land (N.shiftr (o_i2 m) 5) 7 in
    let len := N.land (o_cd m) 15 in
    if 8 <? len then (CStray, c)
    else
      let '(l, c) := rdBytes (N.to_nat len) c in
      let c := wrM (fun m => wCd (N.lor (o_cd m) 128) m) (clrMob 0 c) in
      (CFrame (mkCMsg id len (rtr + if ext then 1 else 0) l), c).

(* vscp_tp_adapter.c:104-133 vscp_tp_adapter_readMessage; old: the content of msg->data before *)
Inductive ARead := AFalse | ATrue (m : Msg) | AStray.
Definition adRead (old : list N) (c : Can) : ARead * Can :=
  match canRead c with
  | (CEmpty, c) => (AFalse, c)
  | (CStray, c) => (AStray, c)
  | (CFrame f, c) =>
      (ATrue (mkMsg (N.land (N.shiftr (g_id f) 26) 7) (N.land (N.shiftr (g_id f) 16) 511)
                    (N.land (N.shiftr (g_id f) 8) 255) (N.land (g_id f) 255)
                    (negb (N.land (N.shiftr (g_id f) 25) 1 =? 0)) (g_len f)
                    (g_byte f ++ skipn (N.to_nat (g_len f)) old)), c)
  end.
(* vscp_tp_adapter.c:143-195 vscp_tp_adapter_writeMessage. delay k: what the hardware does in the k-th
   waiting time of 500 us. vscpClass is an uint16_t and is not cut to 9 bits. *)
Definition frameOf (m : Msg) : CMsg :=
  mkCMsg (N.lor (u32 (N.shiftl (m_prio m) 26))
         (N.lor (N.shiftl (if m_hard m then 1 else 0) 25)
         (N.lor (N.shiftl (m_class m) 16) (N.lor (N.shiftl (m_type m) 8) (m_oaddr m)))))
         (m_size m) 1 (firstn (N.to_nat (m_size m)) (m_data m)).
Definition adWrite (delay : N -> Can -> Can) (m : Msg) (c : Can) : bool * Can :=
  if m_size m <=? 8 then
    let f := frameOf m in
    let '(ok, c) := canSend f c in
    if ok then (true, c) else
    let '(ok, c) := canSend f (delay 1 c) in
    if ok then (true, c) else canSend f (delay 2 c)
  else (false, c).

(* The controller, AT90CAN data sheet: bits 7, 6 of CANCDMOB (CONMOB) are 01 for sending, 10 for receiving;
   bit 6 of CANSTMOB is TXOK, bit 5 RXOK. CONMOB keeps its value after the transfer; the message object is
   used again after CANSTMOB was cleared and CANCDMOB was written. *)
Definition txPending (m : Mob) : bool := negb (bitset (o_cd m) 7) && bitset (o_cd m) 6 && negb (bitset (o_st m) 6).
Definition rxArmed (m : Mob) : bool := bitset (o_cd m) 7 && negb (bitset (o_cd m) 6) && negb (bitset (o_st m) 5).
(* the frame a message object sends: bit 4 of CANCDMOB is IDE, bits 3..0 the length code; an identifier of
   29 bits is in CANIDT1..4 from bit 7 of CANIDT1 on, one of 11 bits in CANIDT1, 2; bit 2 of CANIDT4 is RTR *)
Definition wireOf (m : Mob) : Wire :=
  let ide := bitset (o_cd m) 4 in
  mkWire ide (bitset (o_i4 m) 2)
         (if ide then (o_i1 m * 16777216 + o_i2 m * 65536 + o_i3 m * 256 + o_i4 m) / 8
          else (o_i1 m * 256 + o_i2 m) / 32)
         (o_cd m mod 16) (firstn (N.to_nat (N.min 8 (o_cd m mod 16))) (o_dat m)).
(* how a received frame is stored; a remote frame has no data, the data bytes then stay as they are *)
Definition stored (w : Wire) (m : Mob) : Mob :=
  let x := if w_ide w then w_cid w * 8 else w_cid w * 2097152 in
  mkMob (N.lor (o_st m) 32) (o_cd m / 64 * 64 + (if w_ide w then 16 else 0) + w_dlc w)
        (x / 16777216) (x / 65536 mod 256) (x / 256 mod 256) (x mod 256 + if w_rtr w then 4 else 0)
        (o_k1 m) (o_k2 m) (o_k3 m) (o_k4 m)
        (w_dat w ++ skipn (length (w_dat w)) (o_dat m)).
(* message object i gets its frame onto the bus *)
Definition hwTx (i : N) (c : Can) : Can :=
  let m := mobAt c i in
  if txPending m
  then mkCan (c_pg c) (lupd (c_mobs c) (N.to_nat i) (wSt (N.lor (o_st m) 64) m)) (c_bus c ++ [wireOf m])
  else c.
(* a frame arrives. The driver receives with message object 0 only; with its mask (CANIDM1..4) clear it
   takes every frame, other masks are not modelled. If it still holds a frame, the new one is lost. *)
Definition hwRx (w : Wire) (c : Can) : Can :=
  let m := mobAt c 0 in
  if rxArmed m && (o_k1 m =? 0) && (o_k2 m =? 0) && (o_k3 m =? 0) && (o_k4 m =? 0)
  then mkCan (c_pg c) (lupd (c_mobs c) 0 (stored w m)) (c_bus c) else c.
