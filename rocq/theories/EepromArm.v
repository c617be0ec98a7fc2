(* EepromArm.v - model of examples/arm/frdm-k64f/vscp_frdm_k64f/vscp_user/vscp_ps_access.c with the serial
   EEPROM 25AA02E48 of the shield. *)
From Verif Require Export Types.

(* The device (25AA02E48 data sheet): 256 bytes, the write enable latch, an internal write cycle in progress;
   e_prot: the first write-protected address; e_float: the value on the data line while the device does not
   answer *)
Record Eep := mkEep { e_mem : N -> N; e_wel : bool; e_busy : bool; e_prot : N; e_float : N }.
(* one transfer with the chip selected: the bytes sent; the result is the last byte received. During a write
   cycle all commands but RDSR are ignored; the commands the driver does not use are not modelled. *)
Definition xfer (tx : list N) (e : Eep) : N * Eep :=
  if e_busy e then (e_float e, e)
  else match tx with
       | [6] => (e_float e, mkEep (e_mem e) true false (e_prot e) (e_float e))
       | [3; a; _] => (e_mem e a, e)
       | [2; a; v] =>
           if e_wel e
           then (e_float e, mkEep (fun i => if (i =? a) && (a <? e_prot e) then v else e_mem e i) false true (e_prot e) (e_float e))
           else (e_float e, e)
       | _ => (e_float e, e)
       end.
(* the write cycle ends (after at most 5 ms) *)
Definition cycleEnds (e : Eep) : Eep := mkEep (e_mem e) (e_wel e) false (e_prot e) (e_float e).

(* vscp_ps_access.c:147-172 vscp_ps_access_read8; DSPI_MasterTransferBlocking succeeds *)
Definition eeRead8 (addr : N) (e : Eep) : N * Eep :=
  if addr <=? 255 then xfer [3; u8 addr; 0] e else (0, e).
(* vscp_ps_access.c:180-213 vscp_ps_access_write8 *)
Definition eeWrite8 (addr value : N) (e : Eep) : Eep :=
  if addr <=? 255 then
    let '(_, e) := xfer [6] e in
    let '(_, e) := xfer [2; u8 addr; value] e in e
  else e.
(* vscp_ps_access.c:222-239 vscp_ps_access_readMultiple; the address is an uint16_t *)
Definition eeReadMultiple (addr size : N) (e : Eep) : list N * Eep :=
  fold_left (fun s i => let '(l, e) := s in let '(v, e) := eeRead8 (u16 (addr + i)) e in (l ++ [v], e)) (Nseq size) ([], e).
(* vscp_ps_access.c:248-265 vscp_ps_access_writeMultiple *)
Definition eeWriteMultiple (addr : N) (buf : list N) (e : Eep) : Eep :=
  fold_left (fun e i => eeWrite8 (u16 (addr + i)) (at0 buf i) e) (Nseq (N.of_nat (length buf))) e.
