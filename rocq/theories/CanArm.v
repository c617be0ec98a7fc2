(* CanArm.v - model of examples/arm/frdm-k64f/vscp_frdm_k64f/vscp_user/vscp_tp_adapter.c and of the functions
   of drivers/fsl_flexcan.c it calls, with the mailboxes of the FlexCAN controller of the K64F. *)
From Verif Require Export Types CanAvr.

(* a mailbox (K64 reference manual, "FlexCAN message buffer structure"): CODE, IDE, RTR, identifier, DLC,
   the two data words, its bit in IFLAG1, and whether its content was read since it was filled *)
Record MB := mkMB { x_code : N; x_ide : bool; x_rtr : bool; x_id : N; x_dlc : N; x_w0 : N; x_w1 : N;
                    x_flag : bool; x_read : bool }.
(* fsl_flexcan.c:50-75 codes: empty, full, overrun; transmission inactive, transmit *)
Definition RX_EMPTY : N := 4.
Definition RX_FULL : N := 2.
Definition RX_OVERRUN : N := 6.
Definition TX_INACTIVE : N := 8.
Definition TX_DATA : N := 12.
(* the 16 mailboxes, the static variable mbIdx of vscp_tp_adapter_readMessage, the frames sent *)
Record Flex := mkFlex { f_mbs : list MB; f_idx : N; f_out : list Wire }.

Definition mbReset : MB := mkMB 0 false false 0 0 0 0 false false.
(* fsl_flexcan.c:620-656 FLEXCAN_SetRxMbConfig as called *)
Definition mbRx : MB := mkMB RX_EMPTY true false 0 0 0 0 false false.
(* fsl_flexcan.c:598-618 FLEXCAN_SetTxMbConfig *)
Definition mbTx : MB := mkMB TX_INACTIVE false false 0 0 0 0 false false.
Definition RX_COUNT : N := 15.     (* vscp_tp_adapter.c:65 *)
Definition TX_COUNT : N := 1.      (* vscp_tp_adapter.c:68 *)
(* vscp_tp_adapter.c:104-147 vscp_tp_adapter_init; fsl_flexcan.c:335-393 FLEXCAN_Reset sets all masks to
   0x3FFFFFFF. The clock and bit timing are not modelled. *)
Definition flexInit : Flex :=
  let l := fold_left (fun l i => lupd l (N.to_nat i) mbRx) (Nseq RX_COUNT) (repeat mbReset 16) in
  let l := fold_left (fun l i => lupd l (N.to_nat (RX_COUNT + i - 1)) mbTx) (Nseq TX_COUNT) l in
  mkFlex l 0 [].

(* a << n and a >> n of type int or uint32_t are defined for 0 <= n < 32 only *)
Definition shiftOk (n : Z) : bool := ((0 <=? n) && (n <? 32))%Z.
(* the shift count for byte index, vscp_tp_adapter.c:186-198, 246-257 *)
Definition shiftOf (index : N) : Z := if 4 <? index then (24 - Z.of_N index * 8)%Z else (48 - Z.of_N index * 8)%Z.
Inductive FRes (R : Type) := FOk (r : R) | FUndef.
Arguments FOk {R}. Arguments FUndef {R}.

Definition shifts (l : list N) : bool := forallb (fun i => shiftOk (shiftOf i)) l.
(* the words built at :246-257; byte index goes to dataWord0 if 4 < index, to dataWord1 otherwise *)
Definition wordsOf (d : list N) (size : N) : N * N :=
  fold_left (fun w i => let '(w0, w1) := w in
               if 4 <? i then (N.lor w0 (u32 (N.shiftl (at0 d i) (Z.to_N (shiftOf i)))), w1)
               else (w0, N.lor w1 (u32 (N.shiftl (at0 d i) (Z.to_N (shiftOf i))))))
            (Nseq size) (0, 0).

(* fsl_flexcan.h:53-55 FLEXCAN_ID_EXT *)
Definition idExt (x : N) : N := N.land x 536870911.
(* the frame a mailbox sends; the bytes are in the words from the most significant one on *)
Definition bytesOf (w0 w1 : N) : list N := [byteN w0 3; byteN w0 2; byteN w0 1; byteN w0 0;
                                            byteN w1 3; byteN w1 2; byteN w1 1; byteN w1 0].
Definition TX_MB : N := RX_COUNT.  (* vscp_tp_adapter.c:233 *)
(* vscp_tp_adapter.c:224-266 vscp_tp_adapter_writeMessage, fsl_flexcan.c:793-845 FLEXCAN_WriteTxMb, 946-967
   FLEXCAN_TransferSendBlocking. The call waits until the frame is sent: the model covers the calls that end. *)
Definition armWrite (m : Msg) (f : Flex) : FRes bool * Flex :=
  if m_size m <=? 8 then
    if shifts (Nseq (m_size m)) then
      let id := idExt (N.lor (u32 (N.shiftl (m_prio m) 26))
               (N.lor (N.shiftl (if m_hard m then 1 else 0) 25)
               (N.lor (N.shiftl (m_class m) 16) (N.lor (N.shiftl (m_type m) 8) (m_oaddr m))))) in
      let '(w0, w1) := wordsOf (m_data m) (m_size m) in
      let mb := nth (N.to_nat TX_MB) (f_mbs f) mbReset in
      if negb (x_code mb =? TX_DATA) then
        (* sent: the code becomes inactive, the flag is set and cleared *)
        let mb' := mkMB TX_INACTIVE true false id (m_size m) w0 w1 false false in
        (FOk true, mkFlex (lupd (f_mbs f) (N.to_nat TX_MB) mb') (f_idx f)
           (f_out f ++ [mkWire true false id (m_size m) (firstn (N.to_nat (m_size m)) (bytesOf w0 w1))]))
      else (FOk false, f)
    else (FUndef, f)
  else (FOk false, f).

(* vscp_tp_adapter.c:157-214 vscp_tp_adapter_readMessage, fsl_flexcan.c:847-905 FLEXCAN_ReadRxMb; the
   condition at :208 (15 < mbIdx) is false for every mbIdx <= 15, so one mailbox is looked at per call.
   old: the content of msg->data before *)
Definition armRead (old : list N) (f : Flex) : FRes (option Msg) * Flex :=
  let mb := nth (N.to_nat (f_idx f)) (f_mbs f) mbReset in
  if x_flag mb then
    let full := (x_code mb =? RX_FULL) || (x_code mb =? RX_OVERRUN) in
    let id := if full then x_id mb else 0 in
    let len := if full then x_dlc mb else 0 in
    if shifts (Nseq len) then
      let data := fold_left (fun l i => lupd l (N.to_nat i) (u8 (N.shiftr (x_w0 mb) (Z.to_N (shiftOf i))))) (Nseq len) old in
      let mb' := mkMB (x_code mb) (x_ide mb) (x_rtr mb) (x_id mb) (x_dlc mb) (x_w0 mb) (x_w1 mb) false true in
      (FOk (Some (mkMsg (N.land (N.shiftr id 26) 7) (N.land (N.shiftr id 16) 511) (N.land (N.shiftr id 8) 255)
                        (N.land id 255) (negb (N.land (N.shiftr id 25) 1 =? 0)) len data)),
       mkFlex (lupd (f_mbs f) (N.to_nat (f_idx f)) mb') (f_idx f mod RX_COUNT) (f_out f))
    else (FUndef, f)
  else (FOk None, mkFlex (f_mbs f) (u8 (f_idx f + 1) mod RX_COUNT) (f_out f)).

(* a frame arrives (K64 reference manual, "Matching process"): it goes to the first mailbox that receives
   frames of its kind, whose identifier equals the one of the frame in all bits of the mask (all 29), and
   that is empty or was read; if there is none, into the last mailbox that matches otherwise, as an overrun. *)
Definition mbMatch (w : Wire) (mb : MB) : bool :=
  ((x_code mb =? RX_EMPTY) || (x_code mb =? RX_FULL) || (x_code mb =? RX_OVERRUN)) &&
  Bool.eqb (x_ide mb) (w_ide w) && (x_id mb =? w_cid w).
Definition mbFree (mb : MB) : bool := (x_code mb =? RX_EMPTY) || x_read mb.
Fixpoint findMb (p : MB -> bool) (l : list MB) (i : nat) : option nat :=
  match l with [] => None | mb :: t => if p mb then Some i else findMb p t (S i) end.
Definition word (l : list N) (k : nat) : N :=
  nth k l 0 * 16777216 + nth (k + 1) l 0 * 65536 + nth (k + 2) l 0 * 256 + nth (k + 3) l 0.
Definition mbFill (code : N) (w : Wire) : MB :=
  mkMB code (w_ide w) (w_rtr w) (w_cid w) (w_dlc w) (word (w_dat w) 0) (word (w_dat w) 4) true false.
Definition flexRx (w : Wire) (f : Flex) : Flex :=
  match findMb (fun mb => mbMatch w mb && mbFree mb) (f_mbs f) 0 with
  | Some i => mkFlex (lupd (f_mbs f) i (mbFill RX_FULL w)) (f_idx f) (f_out f)
  | None =>
      match findMb (mbMatch w) (rev (f_mbs f)) 0 with
      | Some i => mkFlex (lupd (f_mbs f) (length (f_mbs f) - 1 - i) (mbFill RX_OVERRUN w)) (f_idx f) (f_out f)
      | None => f
      end
  end.
