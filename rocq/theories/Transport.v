(* Transport.v - model of src/vscp_transport.c *)
From Verif Require Export PS.

Section Transport.
Context {A : Type} {E : Env A}.

(* vscp_tp_adapter_writeMessage (templates/vscp_tp_adapter.h): the result is the next
   element of the oracle w_wr *)
Definition adapterWrite (m : Msg) : M A bool :=
  ok <- get (fun w => hd true (w_wr w)) ;;
  upd (fun w => set_wr (tl (w_wr w)) w) ;;
  emit (OTx m ok) ;;
  ret ok.

(* vscp_transport.c:82: the storage is zero initialised *)
Definition msgZero : Msg := mkMsg 0 0 0 0 false 0 (repeat 0 8).

(* vscp_transport.c:97-113 vscp_transport_init; the adapter init has no modelled effect *)
Definition tp_init : M A unit :=
  when c_loop cfg do
    upd (fun w => set_loop (cbInit (cb_store (w_loop w)) (c_loop_num cfg * c_msg_size cfg) (c_msg_size cfg)) w).

(* vscp_util_cyclicBufferWrite(&loopBackCyclicBuffer, m, 1) *)
Definition loopWrite (m : Msg) : M A unit :=
  r <- get (fun w => cbWrite (w_loop w) [m]) ;;
  match r with
  | Undef => setUB
  | Ok (_, b) => upd (set_loop b)
  end.

(* vscp_transport.c:123-175 vscp_transport_readMessage.
   rd is what vscp_tp_adapter_readMessage delivers in this call (None: FALSE).
   Result: Some m - TRUE with *msg = m; None - FALSE with *msg unchanged. *)
Definition tp_readMessage (rd : option Msg) : M A (option Msg) :=
  if c_loop cfg then
    r <- get (fun w => cbRead (w_loop w) 1) ;;
    match r with
    | Undef => setUB ;; ret None
    | Ok ([], b) => upd (set_loop b) ;; ret rd
    | Ok (m :: _, b) =>
        upd (set_loop b) ;;
        (match rd with Some x => loopWrite x | None => ret tt end) ;;
        ret (Some m)
    end
  else ret rd.

(* vscp_transport.c:185-223 vscp_transport_writeMessage *)
Definition tp_writeMessage (m : Msg) : M A bool :=
  status <-
    (if c_loop cfg then
       if m_size m <=? L1_DATA_SIZE then
         (when negb (m_class m =? CLASS_PROTOCOL) && negb (m_class m =? CLASS_LOG) do loopWrite m) ;;
         adapterWrite m
       else emit (OTxDrop m) ;; ret false
     else adapterWrite m) ;;
  (when negb status do
     upd (fun w => if w_txe w <? 255 then set_txe (w_txe w + 1) w else w)) ;;
  ret status.

(* vscp_transport.c:231-238 vscp_transport_getTransmitErrors *)
Definition tp_getTransmitErrors : M A N :=
  n <- get w_txe ;; upd (set_txe 0) ;; ret n.
End Transport.
