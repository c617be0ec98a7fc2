(* Logger.v - model of src/vscp_logger.c.  vscp_logger_init (92) has no effect. *)
From Verif Require Export Transport.

Section Logger.
Context {A : Type} {E : Env A}.

(* vscp_core.c:71-76 VSCP_CORE_HARD_CODED *)
Definition hardCoded : bool := c_hard cfg.

(* vscp_core.c:648-661 vscp_core_prepareTxMessage, followed by filling data and dataSize.
   The bytes of data beyond the payload are never read; they are 0 here. *)
Definition mkTx (cls ty prio nick : N) (data : list N) : Msg :=
  mkMsg prio cls ty nick hardCoded (N.of_nat (length data)) (pad8 data).

(* vscp_logger.c:102-106 vscp_logger_enable *)
Definition log_enable (b : bool) : M A unit := upd (set_logEn b).
(* vscp_logger.c:123-127 vscp_logger_setLogLevel *)
Definition log_setLevel (l : N) : M A unit := upd (set_logLvl (u8 l)).

(* the five data bytes of one log frame: vscp_logger.c:260-274 *)
Definition log_chunk (l : list N) : list N :=
  firstn 5 l ++ repeat 0 (5 - length l).

(* vscp_logger.c:254-280, the do-while loop; fuel bounds the number of frames and is
   never exhausted (one frame consumes 5 bytes). nick is read once by prepareTxMessage. *)
Fixpoint log_loop (fuel : nat) (nick id lvl evIdx : N) (data : list N) : M A bool :=
  status <- tp_writeMessage (mkTx CLASS_LOG LT_MESSAGE PRIO_3_NORMAL nick
                               ([id; lvl; u8 evIdx] ++ log_chunk data)) ;;
  match fuel with
  | O => ret status
  | S f =>
      if status && (5 <? N.of_nat (length data))
      then log_loop f nick id lvl (evIdx + 1) (skipn 5 data)
      else ret status
  end.

(* vscp_logger.c:239-283 vscp_logger_sendLogEvent; data [] also stands for msg == NULL *)
Definition log_sendLogEvent (id lvl : N) (data : list N) : M A bool :=
  nick <- get w_nick ;;
  log_loop (length data) nick id lvl 0 data.

(* vscp_logger.c:138-150 vscp_logger_log *)
Definition log_log (id lvl : N) (data : list N) : M A unit :=
  en <- get w_logEn ;;
  level <- get w_logLvl ;;
  when en && bitset level lvl do (log_sendLogEvent id lvl data ;; ret tt).

(* vscp_logger.c:174-221 vscp_logger_handleEvent *)
Definition log_handleEvent (m : Msg) : M A unit :=
  when m_class m =? CLASS_LOG do
    if m_type m =? LT_START then
      when m_size m =? 1 do
        (id <- ps_readLogId ;; when id =? at0 (m_data m) 0 do upd (set_logEn true))
    else if m_type m =? LT_STOP then
      when m_size m =? 1 do
        (id <- ps_readLogId ;; when id =? at0 (m_data m) 0 do upd (set_logEn false))
    else if m_type m =? LT_LEVEL then
      when m_size m =? 1 do upd (set_logLvl (at0 (m_data m) 0))
    else ret tt.
End Logger.
