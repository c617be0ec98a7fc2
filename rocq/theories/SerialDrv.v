(* SerialDrv.v - model of examples/avr/at90can/driver/serialDrv.c (one USART) and of main_print in
   examples/avr/at90can/main.c. *)
From Verif Require Export Types.

(* serialDrv.c:73-80 serialDrv_CyclicBuffer; all numbers are uint8_t *)
Record SBuf := mkSBuf { q_store : list N; q_size : N; q_read : N; q_write : N }.

(* serialDrv.c:546-577 serialDrv_readCyclicBuffer. Result: number of bytes read, the byte, the buffer;
   None: the storage is left. *)
Definition sbRead (b : SBuf) : option (N * N * SBuf) :=
  if negb (q_read b =? q_write b) then
    let next := u8 (q_read b + 1) in
    let next := if q_size b <=? next then 0 else next in
    match aget (q_store b) (q_read b) with
    | Some d => Some (1, d, mkSBuf (q_store b) (q_size b) next (q_write b))
    | None => None
    end
  else Some (0, 0, b).

(* serialDrv.c:586-617 serialDrv_writeCyclicBuffer *)
Definition sbWrite (b : SBuf) (d : N) : option (N * SBuf) :=
  let next := u8 (q_write b + 1) in
  let next := if q_size b <=? next then 0 else next in
  if negb (q_read b =? next) then
    match aset (q_store b) (q_write b) d with
    | Some st => Some (1, mkSBuf st (q_size b) (q_read b) next)
    | None => None
    end
  else Some (0, b).

(* serialDrv.c:83-91 serialDrv_Usart, the transmit interrupt enable bit TXCIE and the transmitter:
   u_busy: a byte is on its way; u_sent: all bytes written to the data register, oldest first;
   u_clash: a byte was written to it while another one was on its way; u_oob: a storage was left.
   rxStatus is written only and not modelled. *)
Record Usart := mkUsart { u_rx : SBuf; u_tx : SBuf; u_ovf : bool; u_txcie : bool;
                          u_busy : bool; u_sent : list N; u_clash : bool; u_oob : bool }.

(* serialDrv.c:183-189, 216-237 serialDrv_init, serialDrv_initUsart, 249-381 serialDrv_open (which
   enables the receiver and leaves TXCIE clear) *)
Definition usartInit (rx tx : list N) : Usart :=
  mkUsart (mkSBuf rx (N.of_nat (length rx)) 0 0) (mkSBuf tx (N.of_nat (length tx)) 0 0)
          false false false [] false false.

Definition setRx b u := mkUsart b (u_tx u) (u_ovf u) (u_txcie u) (u_busy u) (u_sent u) (u_clash u) (u_oob u).
Definition setTx b u := mkUsart (u_rx u) b (u_ovf u) (u_txcie u) (u_busy u) (u_sent u) (u_clash u) (u_oob u).
Definition setOvf x u := mkUsart (u_rx u) (u_tx u) x (u_txcie u) (u_busy u) (u_sent u) (u_clash u) (u_oob u).
Definition setTxcie x u := mkUsart (u_rx u) (u_tx u) (u_ovf u) x (u_busy u) (u_sent u) (u_clash u) (u_oob u).
Definition setOob u := mkUsart (u_rx u) (u_tx u) (u_ovf u) (u_txcie u) (u_busy u) (u_sent u) (u_clash u) true.
(* UDR = data *)
Definition wrUDR d u := mkUsart (u_rx u) (u_tx u) (u_ovf u) (u_txcie u) true (u_sent u ++ [d])
                                (u_clash u || u_busy u) (u_oob u).

(* serialDrv.c:622-637 ISR(USART0_RX_vect), 642-657 the same for USART 1 *)
Definition rxIsr (d : N) (u : Usart) : Usart :=
  match sbWrite (u_rx u) d with
  | Some (c, b) => let u := setRx b u in if negb (c =? 1) then setOvf true u else u
  | None => setOob u
  end.
(* the byte is out; serialDrv.c:662-678 ISR(USART0_TX_vect), 683-699, if the interrupt is enabled *)
Definition txDone (u : Usart) : Usart :=
  if u_busy u then
    let u := mkUsart (u_rx u) (u_tx u) (u_ovf u) (u_txcie u) false (u_sent u) (u_clash u) (u_oob u) in
    if u_txcie u then
      match sbRead (u_tx u) with
      | Some (c, d, b) => let u := setTx b u in if c =? 0 then setTxcie false u else wrUDR d u
      | None => setOob u
      end
    else u
  else u.
(* serialDrv.c:419-431 serialDrv_read: number of bytes, byte. The receive interrupt changes the write
   index only, so an interrupt within the function acts as one before or after it. *)
Definition serRead (u : Usart) : N * N * Usart :=
  match sbRead (u_rx u) with
  | Some (c, d, b) => (c, d, setRx b u)
  | None => (0, 0, setOob u)
  end.
(* serialDrv.c:440-484 serialDrv_write: value returned. irq: the byte on its way gets out between the
   test of TXCIE and the rest of the function *)
Definition serWrite (d : N) (irq : bool) (u : Usart) : N * Usart :=
  let direct := negb (u_txcie u) in
  let u := if irq then txDone u else u in
  if direct then (0, wrUDR d (setTxcie true u))
  else match sbWrite (u_tx u) d with
       | Some (c, b) => (c, setTx b u)
       | None => (0, setOob u)
       end.
(* serialDrv.c:491-505 serialDrv_clearRx *)
Definition serClear (u : Usart) : Usart :=
  let b := u_rx u in setRx (mkSBuf (q_store b) (q_size b) (q_read b) (q_read b)) u.
(* serialDrv.c:515-533 serialDrv_isRxOverflow *)
Definition serOvf (u : Usart) : bool * Usart := (u_ovf u, setOvf false u).

(* main.c:306-323 main_print; irqs: for every call of serialDrv_write, whether a byte gets out before it;
   None: more calls are needed. At most 200 characters are printed. *)
Fixpoint mainPrint (irqs : list bool) (s : list N) (n : N) (u : Usart) : option Usart :=
  if n <? 200 then
    match s, irqs with
    | [], _ => Some u
    | _, [] => None
    | d :: r, b :: k => let '(c, u') := serWrite d false (if b then txDone u else u) in
                        if c =? 0 then mainPrint k s n u' else mainPrint k r (n + 1) u'
    end
  else Some u.
