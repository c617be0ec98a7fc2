(* Core.v - model of src/vscp_core.c, and of the histories a node can go through. *)
From Verif Require Export Logger DM DMNG.

(* registers, vscp_types.h:105-279 *)
Definition REG_ALARM : N := 128.
Definition REG_VERSION_MAJOR : N := 129.
Definition REG_VERSION_MINOR : N := 130.
Definition REG_CTRL : N := 131.
Definition REG_USER : N := 132.          (* .. 136 *)
Definition REG_MDEV : N := 137.          (* .. 140 *)
Definition REG_MSUB : N := 141.          (* .. 144 *)
Definition REG_NICK : N := 145.
Definition REG_PAGE_MSB : N := 146.
Definition REG_PAGE_LSB : N := 147.
Definition REG_FW_MAJOR : N := 148.
Definition REG_FW_MINOR : N := 149.
Definition REG_FW_SUB : N := 150.
Definition REG_BOOT_ALG : N := 151.
Definition REG_BUFFER_SIZE : N := 152.
Definition REG_PAGES_USED : N := 153.
Definition REG_FAM : N := 154.           (* .. 157 *)
Definition REG_TYPE : N := 158.          (* .. 161 *)
Definition REG_RESTORE : N := 162.
Definition REG_FWCODE_MSB : N := 163.
Definition REG_FWCODE_LSB : N := 164.
Definition REG_GUID : N := 208.          (* .. 223 *)
Definition REG_MDF : N := 224.           (* .. 255 *)
(* vscp_core.h:93-96 *)
Definition CORE_VERSION_MAJOR : N := 1.
Definition CORE_VERSION_MINOR : N := 13.

(* vscp_util.h:87-90 VSCP_UTIL_WORD_MSB / LSB *)
Definition wordMSB (x : N) : N := N.land (N.shiftr x 8) 255.
Definition wordLSB (x : N) : N := N.land x 255.
(* (((uint16_t)hi) << 8) | lo *)
Definition mkWord (hi lo : N) : N := N.lor (N.shiftl hi 8) lo.

Section Core.
Context {A : Type} {E : Env A}.

(* ---------------- small helpers ---------------- *)
Definition timer_start (id v : N) : M A unit := upd (fun w => set_tm (timerStart (w_tm w) id v) w).
Definition timer_stop (id : N) : M A unit := upd (fun w => set_tm (timerStop (w_tm w) id) w).
Definition timer_running (id : N) : M A bool := get (fun w => timerRunning (w_tm w) id).
(* vscp_core_rxMessage.data[i] with a constant i < 8 *)
Definition rxd (i : N) : M A N := get (fun w => at0 (m_data (w_rx w)) i).
(* vscp_core_rxMessage.data[i] with a computed i *)
Definition rxdv (i : N) : M A N :=
  r <- get (fun w => aget (m_data (w_rx w)) i) ;;
  match r with Some v => ret v | None => setUB ;; ret 0 end.
(* txMessage.data[dataIndex] = v; ++dataIndex, dataIndex = length d *)
Definition push (d : list N) (v : N) : M A (list N) :=
  if N.of_nat (length d) <? L1_DATA_SIZE then ret (d ++ [v]) else setUB ;; ret d.
(* fill a protocol class message and hand it to the transport layer *)
Definition sendProt (ty prio : N) (data : list N) : M A bool :=
  nick <- get w_nick ;;
  tp_writeMessage (mkTx CLASS_PROTOCOL ty prio nick data).

(* vscp_core.c:2961-2964 vscp_core_getStartUpControl *)
Definition getStartUpControl : M A N :=
  f <- ps_readCtrl ;; ret (N.land (N.shiftr f 6) 3).
(* vscp_core.c:2973-2976 vscp_core_getRegAppWriteProtect *)
Definition getRegAppWriteProtect : M A N :=
  f <- ps_readCtrl ;; ret (N.land (N.shiftr f 5) 1).

(* vscp_core.c:710-721 vscp_core_writeNicknameId *)
Definition writeNicknameId (v : N) : M A unit :=
  ps_writeNicknameId v ;;
  n <- ps_readNicknameId ;;
  upd (set_nick n).

(* vscp_core.c:807-832 vscp_core_changeToStateInit *)
Definition changeToStateInit (probeMaster : bool) : M A unit :=
  s <- get w_st ;;
  when negb (state_eqb s INIT) do
    (emit (OLamp LampBlinkFast) ;;
     upd (set_st INIT) ;;
     (if negb probeMaster
      then upd (set_ist PROBE) ;; upd (set_probe (c_start_nick cfg))
      else upd (set_ist PROBE_MASTER) ;; upd (set_probe NICK_SEGMENT_MASTER)) ;;
     writeNicknameId NICK_NOT_INIT).

(* vscp_core.c:1009-1014 vscp_core_changeToStatePreActive *)
Definition changeToStatePreActive : M A unit := upd (set_st PREACTIVE).

(* vscp_core.c:1075-1108 vscp_core_changeToStateActive *)
Definition changeToStateActive : M A unit :=
  s <- get w_st ;;
  when negb (state_eqb s ACTIVE) do
    (emit (OLamp LampOn) ;;
     upd (set_st ACTIVE) ;;
     nick <- get w_nick ;;
     sendProt PT_NEW_NODE_ONLINE PRIO_0_HIGH [nick] ;;
     when c_hb_node cfg do
       (en <- get w_hbEn ;;
        when en do (id <- get w_tHb ;; timer_start id (c_t_hb cfg)))).

(* vscp_core.c:1198-1215 vscp_core_changeToStateIdle *)
Definition changeToStateIdle : M A unit :=
  s <- get w_st ;;
  when negb (state_eqb s IDLE) do
    (emit (OLamp LampOff) ;; upd (set_st IDLE) ;; when c_idle_co cfg do emit OIdle).

(* vscp_core.c:1233-1257 vscp_core_changeToStateReset *)
Definition changeToStateReset (timeout : N) : M A unit :=
  s <- get w_st ;;
  when negb (state_eqb s RESET) do
    (emit (OLamp LampOff) ;;
     upd (set_st RESET) ;;
     upd (set_sec timeout) ;;
     id <- get w_tSt ;;
     if 0 <? timeout then timer_start id 1000 else timer_stop id).

(* vscp_core.c:1298-1315 vscp_core_changeToStateError *)
Definition changeToStateError : M A unit :=
  s <- get w_st ;;
  when negb (state_eqb s ERROR) do
    (emit (OLamp LampOff) ;; upd (set_st ERROR) ;; when c_err_co cfg do emit OError).

(* vscp_core.c:398-454 vscp_core_restoreFactoryDefaultSettings *)
Definition restoreFactory : M A unit :=
  upd (set_alarm 0) ;;
  upd (set_page 0) ;;
  upd (set_xpage 0) ;; upd (set_xaddr 0) ;; upd (set_xcount 0) ;; upd (set_xseq 0) ;;
  writeNicknameId NICK_NOT_INIT ;;
  (when c_hb_seg cfg do ps_writeCRC SEGMENT_CRC_NOT_INIT) ;;
  ps_writeCtrl NODE_CONTROL_FLAGS_DEFAULT ;;
  forM (Nseq sz_user) (fun i => ps_writeUserId i 0) ;;
  dd_restore ;;
  (when c_dm cfg do dm_restore) ;;
  (when c_dm_ng cfg do ng_restore) ;;
  emit OAppRestore ;;
  upd (fun w => set_app (app_restore (w_app w)) w).

(* ---------------- public API called by the application ---------------- *)
(* vscp_core.c:564-578 vscp_core_startNodeSegmentInit *)
Definition startNodeSegmentInit : M A unit :=
  s <- get w_st ;; when negb (state_eqb s INIT) do changeToStateInit true.
(* vscp_core.c:588-593 vscp_core_setAlarm *)
Definition setAlarm (v : N) : M A unit := upd (fun w => set_alarm (u8 (N.lor (w_alarm w) v)) w).
(* vscp_core.c:626-631 vscp_core_setTimeSinceEpoch *)
Definition setTimeSinceEpoch (t : N) : M A unit := upd (set_epoch (u32 t)).
(* vscp_core.c:685-697 vscp_core_enableHeartbeat: the argument is not used *)
Definition enableHeartbeat (b : bool) : M A unit := upd (fun w => set_hbEn (negb (w_hbEn w)) w).

(* the query functions; they change nothing *)
(* vscp_core.c:556-559 vscp_core_readNicknameId *)
Definition readNicknameId (w : World A) : N := w_nick w.
(* vscp_core.c:603-606 vscp_core_isActive *)
Definition isActive (w : World A) : bool := state_eqb ACTIVE (w_st w).
(* vscp_core.c:614-617 vscp_core_getTimeSinceEpoch *)
Definition getTimeSinceEpoch (w : World A) : N := w_epoch w.

(* One API call. vscp_core_sendEvent (673), vscp_logger_log (vscp_logger.c:138; size is an
   uint8_t), vscp_ps_write* of optional data: only if compiled in. *)
Definition doApi (c : ApiCall) : M A unit :=
  emit (OApi c) ;;
  match c with
  | ASend m => tp_writeMessage m ;; ret tt
  | AAlarm v => setAlarm (u8 v)
  | ASetTime t => setTimeSinceEpoch t
  | AHeartbeat b => when c_hb_node cfg do enableHeartbeat b
  | AStartInit => startNodeSegmentInit
  | ARestore => restoreFactory
  | ALogEnable b => when c_logger cfg do log_enable b
  | ALogLevel l => when c_logger cfg do log_setLevel l
  | ALog id lvl data => when c_logger cfg do log_log (u8 id) (u8 lvl) (map u8 (firstn 255 data))
  | AWriteLogId v => when c_logger cfg do ps_writeLogId v
  | AWriteZone v => when d_zone_ps cfg do ps_writeZone v
  | AWriteSubZone v => when d_sub_ps cfg do ps_writeSub v
  | AGetTxErrors => n <- tp_getTransmitErrors ;; emit (OTxErrors n)
  end.

(* ---------------- callouts into the application ---------------- *)
Definition appRead (page addr : N) : M A N :=
  emit (OAppRead page addr) ;;
  r <- get (fun w => app_read (w_app w, w_ps w) page addr) ;;
  upd (set_app (snd r)) ;;
  ret (u8 (fst r)).
Definition appWrite (page addr v : N) : M A N :=
  emit (OAppWrite page addr v) ;;
  r <- get (fun w => app_write (w_app w, w_ps w) page addr v) ;;
  upd (set_app (snd r)) ;;
  forM (snd (fst r)) doApi ;;
  ret (u8 (fst (fst r))).
(* vscp_action_execute *)
Definition actionExecute (a p : N) (m : Msg) : M A unit :=
  emit (OAction a p m) ;;
  r <- get (fun w => app_action (w_app w, w_ps w) a p m) ;;
  upd (set_app (snd r)) ;;
  forM (fst r) doApi.
(* vscp_portable_provideEvent *)
Definition provideEvent (m : Msg) : M A unit :=
  emit (OEvent m) ;;
  r <- get (fun w => app_event (w_app w, w_ps w) m) ;;
  upd (set_app (snd r)) ;;
  forM (fst r) doApi.
(* vscp_portable_provideProtocolEvent: TRUE = handled by the application *)
Definition provideProtocolEvent (m : Msg) : M A bool :=
  emit (OProtEvent m) ;;
  r <- get (fun w => app_prot (w_app w, w_ps w) m) ;;
  upd (set_app (snd r)) ;;
  forM (snd (fst r)) doApi ;;
  ret (fst (fst r)).
(* vscp_portable_sendNodeHeartbeatEvent *)
Definition customHeartbeat : M A unit :=
  emit OHeartbeatCustom ;;
  r <- get (fun w => app_hb (w_app w, w_ps w)) ;;
  upd (set_app (snd r)) ;;
  forM (fst r) doApi.

(* ---------------- register access ---------------- *)
Definition inRange (lo n x : N) : bool := (lo <=? x) && (x <? lo + n).

(* vscp_core.c:1832-2000, the VSCP register area 0x80..0xFF of page 0 *)
Definition readVscpRegister (addr : N) : M A N :=
  if addr =? REG_ALARM then v <- get w_alarm ;; upd (set_alarm 0) ;; ret v
  else if addr =? REG_VERSION_MAJOR then ret CORE_VERSION_MAJOR
  else if addr =? REG_VERSION_MINOR then ret CORE_VERSION_MINOR
  else if addr =? REG_CTRL then ps_readCtrl
  else if inRange REG_USER 5 addr then ps_readUserId (addr - REG_USER)
  else if inRange REG_MDEV 4 addr then dd_getMDev (addr - REG_MDEV)
  else if inRange REG_MSUB 4 addr then dd_getMSub (addr - REG_MSUB)
  else if addr =? REG_NICK then get w_nick
  else if addr =? REG_PAGE_MSB then get (fun w => wordMSB (w_page w))
  else if addr =? REG_PAGE_LSB then get (fun w => wordLSB (w_page w))
  else if addr =? REG_FW_MAJOR then ret (d_vmaj cfg)
  else if addr =? REG_FW_MINOR then ret (d_vmin cfg)
  else if addr =? REG_FW_SUB then ret (d_vsub cfg)
  else if addr =? REG_BOOT_ALG then
    (if c_boot cfg then get (fun w => u8 (app_boot_alg (w_app w))) else ret 255)
  else if addr =? REG_BUFFER_SIZE then ret L1_DATA_SIZE
  else if addr =? REG_PAGES_USED then get (fun w => u8 (app_pages (w_app w)))
  else if inRange REG_FAM 4 addr then dd_getFam (3 - (addr - REG_FAM))
  else if inRange REG_TYPE 4 addr then dd_getType (3 - (addr - REG_TYPE))
  else if addr =? REG_RESTORE then ret 0
  else if addr =? REG_FWCODE_MSB then ret (wordMSB (d_fwcode cfg))
  else if addr =? REG_FWCODE_LSB then ret (wordLSB (d_fwcode cfg))
  else if inRange REG_GUID 16 addr then dd_getGUID (15 - (addr - REG_GUID))
  else if inRange REG_MDF 32 addr then dd_getMdf (addr - REG_MDF)
  else ret 0.

(* vscp_core.c:1823-2026 vscp_core_readRegister *)
Definition readRegister (page addr : N) : M A N :=
  if (page =? 0) && (128 <=? addr) && (addr <=? 255) then readVscpRegister addr
  else if c_dm cfg && dm_isDecisionMatrix page addr then dm_readRegister page addr
  else if c_dm_ng cfg && ng_isDecisionMatrix page addr then ng_readRegister page addr
  else appRead page addr.

(* vscp_core.c:2047-2237; result (ret, error) *)
Definition writeVscpRegister (addr value : N) : M A (N * bool) :=
  if addr =? REG_CTRL then
    ps_writeCtrl value ;; v <- ps_readCtrl ;; ret (v, false)
  else if inRange REG_USER 5 addr then
    ps_writeUserId (addr - REG_USER) value ;; v <- ps_readUserId (addr - REG_USER) ;; ret (v, false)
  else if addr =? REG_PAGE_MSB then
    upd (fun w => set_page (N.lor (N.land (w_page w) 255) (N.shiftl value 8)) w) ;;
    v <- get (fun w => wordMSB (w_page w)) ;; ret (v, false)
  else if addr =? REG_PAGE_LSB then
    upd (fun w => set_page (N.lor (N.land (w_page w) 65280) value) w) ;;
    v <- get (fun w => wordLSB (w_page w)) ;; ret (v, false)
  else if addr =? REG_RESTORE then
    id <- get w_t162 ;;
    running <- timer_running id ;;
    (if (value =? 85) && negb running then timer_start id (c_t_multi cfg)
     else when (value =? 170) && running do (timer_stop id ;; restoreFactory)) ;;
    ret (0, false)
  else ret (0, true).

(* vscp_core.c:2037-2274 vscp_core_writeRegister *)
Definition writeRegister (page addr value : N) : M A (N * bool) :=
  if (page =? 0) && (128 <=? addr) && (addr <=? 255) then writeVscpRegister addr value
  else
    p <- getRegAppWriteProtect ;;
    if negb (p =? 0) then
      v <- (if c_dm cfg && dm_isDecisionMatrix page addr then dm_writeRegister page addr value
            else if c_dm_ng cfg && ng_isDecisionMatrix page addr then ng_writeRegister page addr value
            else appWrite page addr value) ;;
      ret (v, false)
    else ret (0, true).

(* vscp_core.c:1798-1812 vscp_core_sendRegisterReadWriteRsp *)
Definition sendRWRsp (addr value : N) : M A unit :=
  sendProt PT_RW_RESPONSE PRIO_3_NORMAL [addr; value] ;; ret tt.

(* ---------------- protocol event handlers ---------------- *)
(* the guards "dataSize == n" and "nickname == data[0]" *)
Definition rxSize : M A N := get (fun w => m_size (w_rx w)).
Definition rxForMe : M A bool := get (fun w => w_nick w =? at0 (m_data (w_rx w)) 0).

(* vscp_core.c:1567-1607 vscp_core_handleProtocolHeartbeat *)
Definition handleHeartbeat : M A unit :=
  sz <- rxSize ;;
  when 0 <? sz do
    (crc <- ps_readCRC ;;
     d0 <- rxd 0 ;;
     (when negb (crc =? d0) do
        (ps_writeCRC d0 ;;
         pr <- get w_probe ;;
         when negb (pr =? NICK_SEGMENT_MASTER) do changeToStateInit true)) ;;
     when 5 <=? sz do
       (d1 <- rxd 1 ;; d2 <- rxd 2 ;; d3 <- rxd 3 ;; d4 <- rxd 4 ;;
        upd (set_epoch (N.lor (N.lor (N.lor (N.shiftl d1 24) (N.shiftl d2 16)) (N.shiftl d3 8)) d4)) ;;
        when c_time_co cfg do (t <- get w_epoch ;; emit (OTime t)))).

(* vscp_core.c:1614-1636 vscp_core_handleProtocolNewNodeOnline *)
Definition handleNewNodeOnline : M A unit :=
  sz <- rxSize ;; me <- rxForMe ;;
  when (sz =? 1) && me do (sendProt PT_PROBE_ACK PRIO_0_HIGH [] ;; ret tt).

(* vscp_core.c:1642-1656 vscp_core_handleProtocolProbeAck *)
Definition handleProbeAck : M A unit :=
  sz <- rxSize ;;
  me <- get (fun w => w_nick w =? m_oaddr (w_rx w)) ;;
  when (sz =? 0) && me do changeToStateInit true.

(* vscp_core.c:1661-1690 vscp_core_handleProtocolSetNicknameId *)
Definition handleSetNickname : M A unit :=
  sz <- rxSize ;; me <- rxForMe ;; d1 <- rxd 1 ;;
  when (sz =? 2) && me && negb (d1 =? NICK_SEGMENT_MASTER) do
    (writeNicknameId d1 ;;
     sendProt PT_NICKNAME_ACCEPTED PRIO_7_LOW [] ;; ret tt).

(* vscp_core.c:1695-1768 vscp_core_handleProtocolDropNicknameId *)
Definition handleDropNickname : M A unit :=
  sz <- rxSize ;; me <- rxForMe ;;
  when (0 <? sz) && me do
    if sz =? 1 then
      writeNicknameId NICK_NOT_INIT ;; changeToStateReset 0
    else when (sz =? 2) || (sz =? 3) do
      (d1 <- rxd 1 ;;
       d2 <- rxd 2 ;;
       let waitTime := if sz =? 3 then d2 else 0 in
       (when bitset d1 6 do
          (backup <- get w_nick ;;
           restoreFactory ;;
           when bitset d1 5 do writeNicknameId backup)) ;;
       if bitset d1 5 then changeToStateReset waitTime
       else if bitset d1 7 then writeNicknameId NICK_NOT_INIT ;; changeToStateIdle
       else writeNicknameId NICK_NOT_INIT ;; changeToStateReset waitTime).

(* vscp_core.c:1773-1790 vscp_core_handleProtocolReadRegister *)
Definition handleReadRegister : M A unit :=
  sz <- rxSize ;; me <- rxForMe ;;
  when (sz =? 2) && me do
    (addr <- rxd 1 ;; v <- readRegister 0 addr ;; sendRWRsp addr v).

(* vscp_core.c:2279-2304 vscp_core_handleProtocolWriteRegister *)
Definition handleWriteRegister : M A unit :=
  sz <- rxSize ;; me <- rxForMe ;;
  when (sz =? 3) && me do
    (addr <- rxd 1 ;; value <- rxd 2 ;;
     r <- writeRegister 0 addr value ;;
     when negb (snd r) do sendRWRsp addr (fst r)).

(* vscp_core.c:2309-2377 vscp_core_handleProtocolEnterBootLoaderMode *)
Definition handleEnterBootLoader : M A unit :=
  sz <- rxSize ;; me <- rxForMe ;;
  when (sz =? 8) && me do
    if c_boot cfg then
      alg <- get (fun w => u8 (app_boot_alg (w_app w))) ;;
      d1 <- rxd 1 ;; d2 <- rxd 2 ;; d3 <- rxd 3 ;; d4 <- rxd 4 ;; d5 <- rxd 5 ;;
      d6 <- rxd 6 ;; d7 <- rxd 7 ;;
      g0 <- dd_getGUID 15 ;; g3 <- dd_getGUID 12 ;; g5 <- dd_getGUID 10 ;; g7 <- dd_getGUID 8 ;;
      pg <- get w_page ;;
      if (alg =? 255) || negb (alg =? d1) || negb (g0 =? d2) || negb (g3 =? d3) ||
         negb (g5 =? d4) || negb (g7 =? d5) || negb (pg =? mkWord d6 d7)
      then sendProt PT_NACK_BOOT_LOADER PRIO_3_NORMAL [0] ;; ret tt
      else changeToStateIdle ;;
           ps_writeBootFlag BOOT_FLAG_BOOTLOADER ;;
           emit OBootRequest
    else sendProt PT_NACK_BOOT_LOADER PRIO_3_NORMAL [0] ;; ret tt.

(* vscp_core.c:2382-2463 vscp_core_handleProtocolGuidDropNickname *)
Definition handleGuidDrop : M A unit :=
  sz <- rxSize ;; d0 <- rxd 0 ;;
  when (sz =? 5) && (d0 <? 4) do
    (id <- get w_tGuid ;;
     (when d0 =? 0 do (upd (set_guidSt 0) ;; timer_start id (c_t_multi cfg))) ;;
     running <- timer_running id ;;
     if negb running then upd (set_guidSt 0)
     else
       d1 <- rxd 1 ;; d2 <- rxd 2 ;; d3 <- rxd 3 ;; d4 <- rxd 4 ;;
       g1 <- dd_getGUID (15 - 4 * d0) ;; g2 <- dd_getGUID (15 - 4 * d0 - 1) ;;
       g3 <- dd_getGUID (15 - 4 * d0 - 2) ;; g4 <- dd_getGUID (15 - 4 * d0 - 3) ;;
       (when (d1 =? g1) && (d2 =? g2) && (d3 =? g3) && (d4 =? g4) do
          upd (fun w => set_guidSt (u8 (N.lor (w_guidSt w) (N.shiftl 1 d0))) w)) ;;
       gs <- get w_guidSt ;;
       when (d0 =? 3) && (gs =? 15) do
         (timer_stop id ;;
          upd (set_guidSt 0) ;;
          s <- get w_st ;;
          if c_silent cfg && state_eqb s STARTUP then startNodeSegmentInit
          else writeNicknameId NICK_NOT_INIT ;; changeToStateReset 0)).

(* vscp_core.c:2502-2516, loop over the registers of a page read; txMessage.data = d.
   nick is the oAddr stored in txMessage before the loop. *)
Fixpoint pageReadLoop (n : nat) (nick addr : N) (d : list N) : M A (list N) :=
  match n with
  | O => ret d
  | S k =>
      pg <- get w_page ;;
      v <- readRegister pg (u8 addr) ;;
      d' <- push d v ;;
      if L1_DATA_SIZE <=? N.of_nat (length d') then
        tp_writeMessage (mkTx CLASS_PROTOCOL PT_RW_PAGE_RESPONSE PRIO_3_NORMAL nick d') ;;
        pageReadLoop k nick (addr + 1) [u8 (at0 d' 0 + 1)]
      else pageReadLoop k nick (addr + 1) d'
  end.
(* "if ((0xFF - num) < addr) num = 0xFF - addr" vscp_core.c:2485, 2550 *)
Definition clampNum (num addr : N) : N := if 255 - num <? addr then 255 - addr else num.
(* vscp_core.c:2468-2528 vscp_core_handleProtocolPageRead *)
Definition handlePageRead : M A unit :=
  sz <- rxSize ;; me <- rxForMe ;;
  when (sz =? 3) && me do
    (addr <- rxd 1 ;; num <- rxd 2 ;; nick <- get w_nick ;;
     d <- pageReadLoop (N.to_nat (clampNum num addr)) nick addr [0] ;;
     when 1 <? N.of_nat (length d) do
       (tp_writeMessage (mkTx CLASS_PROTOCOL PT_RW_PAGE_RESPONSE PRIO_3_NORMAL nick d) ;; ret tt)).

(* vscp_core.c:2566-2573 and 2939-2943: write n registers from rx data[rxi..], collect the
   returned values; pg gives the page of each access *)
Fixpoint writeLoop (n : nat) (pg : M A N) (addr rxi : N) (d : list N) : M A (list N) :=
  match n with
  | O => ret d
  | S k =>
      p <- pg ;;
      x <- rxdv rxi ;;
      r <- writeRegister p (u8 addr) x ;;
      d' <- push d (fst r) ;;
      writeLoop k pg (addr + 1) (rxi + 1) d'
  end.
(* vscp_core.c:2533-2582 vscp_core_handleProtocolPageWrite; the page select register is
   evaluated for every single access *)
Definition handlePageWrite : M A unit :=
  sz <- rxSize ;; me <- rxForMe ;;
  when (3 <=? sz) && me do
    (addr <- rxd 1 ;; nick <- get w_nick ;;
     d <- writeLoop (N.to_nat (clampNum (sz - 2) addr)) (get w_page) addr 2 [0] ;;
     tp_writeMessage (mkTx CLASS_PROTOCOL PT_RW_PAGE_RESPONSE PRIO_3_NORMAL nick d) ;; ret tt).

(* vscp_core.c:2587-2614 / 2619-2646 increment and decrement register; delta = 1 or 255 *)
Definition handleIncDec (delta : N) : M A unit :=
  sz <- rxSize ;; me <- rxForMe ;;
  when (sz =? 2) && me do
    (addr <- rxd 1 ;;
     v <- readRegister 0 addr ;;
     r <- writeRegister 0 addr (u8 (v + delta)) ;;
     when negb (snd r) do sendRWRsp addr (fst r)).

(* vscp_core.c:2679-2715, the two loops over the 16 GUID and 32 MDF bytes *)
Fixpoint whoLoop (l : list (M A N)) (nick row : N) (d : list N) : M A (list N) :=
  match l with
  | [] => ret d
  | rd :: t =>
      v <- rd ;;
      d' <- push d v ;;
      if L1_DATA_SIZE <=? N.of_nat (length d') then
        tp_writeMessage (mkTx CLASS_PROTOCOL PT_WHO_IS_THERE_RESPONSE PRIO_3_NORMAL nick d') ;;
        whoLoop t nick (u8 (row + 1)) [row]
      else whoLoop t nick row d'
  end.
(* vscp_core.c:2651-2728 vscp_core_handleProtocolWhoIsThere *)
Definition handleWhoIsThere : M A unit :=
  sz <- rxSize ;; me <- rxForMe ;; d0 <- rxd 0 ;;
  when (sz =? 1) && (me || (d0 =? NICK_NOT_INIT)) do
    (nick <- get w_nick ;;
     d <- whoLoop (map (fun i => dd_getGUID (15 - i)) (Nseq 16) ++ map dd_getMdf (Nseq 32)) nick 1 [0] ;;
     tp_writeMessage (mkTx CLASS_PROTOCOL PT_WHO_IS_THERE_RESPONSE PRIO_3_NORMAL nick (pad8 d)) ;; ret tt).

(* vscp_core.c:2733-2771 vscp_core_handleProtocolGetDecisionMatrixInfo; vscp_dm.c:237-260 *)
Definition handleGetMatrixInfo : M A unit :=
  sz <- rxSize ;; me <- rxForMe ;;
  when (sz =? 1) && me do
    (let size := if c_dm cfg then u8 (c_dm_rows cfg) else 0 in
     let off := if c_dm cfg then u8 dm_START_OFFSET else 0 in
     let pg := if c_dm cfg then u16 dm_START_PAGE else 0 in
     sendProt PT_GET_MATRIX_INFO_RESPONSE PRIO_3_NORMAL [size; off; wordMSB pg; wordLSB pg] ;; ret tt).

(* vscp_core.c:2849-2868, the do-while loop. Result: data, next address, count, nextPage.
   fuel 4 is exact: the frame is full after 4 registers. *)
Fixpoint extReadLoop (fuel : nat) (page addr count : N) (d : list N) : M A (list N * N * N * bool) :=
  v <- readRegister page addr ;;
  d' <- push d v ;;
  let count' := u16 (count + 65535) in
  let nextPage := 255 <=? addr in
  let addr' := if addr <? 255 then addr + 1 else addr in
  match fuel with
  | O => setUB ;; ret (d', addr', count', nextPage)
  | S f =>
      if (N.of_nat (length d') <? L1_DATA_SIZE) && (0 <? count') && negb nextPage
      then extReadLoop f page addr' count' d'
      else ret (d', addr', count', nextPage)
  end.
(* vscp_core.c:2821-2893 vscp_core_extendedPageReadRegister *)
Definition extendedPageRead : M A unit :=
  count <- get w_xcount ;;
  when 0 <? count do
    (page <- get w_xpage ;; addr <- get w_xaddr ;; seq <- get w_xseq ;; nick <- get w_nick ;;
     r <- extReadLoop 4 page addr count [seq; wordMSB page; wordLSB page; addr] ;;
     let '(d, addr', count', nextPage) := r in
     ok <- tp_writeMessage (mkTx CLASS_PROTOCOL PT_EXTENDED_PAGE_RESPONSE PRIO_7_LOW nick d) ;;
     when ok do
       ((if nextPage : bool then upd (set_xpage (u16 (page + 1))) ;; upd (set_xaddr 0)
         else upd (set_xaddr addr')) ;;
        upd (set_xcount count') ;;
        upd (set_xseq (u8 (seq + 1))))).
(* vscp_core.c:2776-2814 vscp_core_handleProtocolExtendedPageReadRegister *)
Definition handleExtPageRead : M A unit :=
  sz <- rxSize ;; me <- rxForMe ;;
  when (4 <=? sz) && me do
    (d1 <- rxd 1 ;; d2 <- rxd 2 ;; d3 <- rxd 3 ;; d4 <- rxd 4 ;;
     upd (set_xpage (mkWord d1 d2)) ;;
     upd (set_xaddr d3) ;;
     upd (set_xseq 0) ;;
     upd (set_xcount (if sz =? 5 then (if d4 =? 0 then 256 else d4) else 1)) ;;
     extendedPageRead).

(* vscp_core.c:2898-2952 vscp_core_handleProtocolExtendedPageWriteRegister *)
Definition handleExtPageWrite : M A unit :=
  sz <- rxSize ;; me <- rxForMe ;;
  when (5 <=? sz) && me do
    (d1 <- rxd 1 ;; d2 <- rxd 2 ;; d3 <- rxd 3 ;; nick <- get w_nick ;;
     let num := sz - 4 in
     let num' := if 255 - num + 1 <? d3 then 255 - d3 + 1 else num in
     d <- writeLoop (N.to_nat num') (ret (mkWord d1 d2)) d3 4 [0; d1; d2; d3] ;;
     tp_writeMessage (mkTx CLASS_PROTOCOL PT_EXTENDED_PAGE_RESPONSE PRIO_3_NORMAL nick d) ;; ret tt).

(* vscp_core.c:1333-1560 vscp_core_handleProtocolClassType; all other types do nothing *)
Definition handleProtocolClassType : M A unit :=
  t <- get (fun w => m_type (w_rx w)) ;;
  if t =? PT_SEGCTRL_HEARTBEAT then when c_hb_seg cfg do handleHeartbeat
  else if t =? PT_NEW_NODE_ONLINE then handleNewNodeOnline
  else if t =? PT_PROBE_ACK then handleProbeAck
  else if t =? PT_SET_NICKNAME then handleSetNickname
  else if t =? PT_DROP_NICKNAME then handleDropNickname
  else if t =? PT_READ_REGISTER then handleReadRegister
  else if t =? PT_WRITE_REGISTER then handleWriteRegister
  else if t =? PT_ENTER_BOOT_LOADER then handleEnterBootLoader
  else if t =? PT_RESET_DEVICE then handleGuidDrop
  else if t =? PT_PAGE_READ then handlePageRead
  else if t =? PT_PAGE_WRITE then handlePageWrite
  else if t =? PT_INCREMENT_REGISTER then handleIncDec 1
  else if t =? PT_DECREMENT_REGISTER then handleIncDec 255
  else if t =? PT_WHO_IS_THERE then handleWhoIsThere
  else if t =? PT_GET_MATRIX_INFO then handleGetMatrixInfo
  else if t =? PT_EXTENDED_PAGE_READ then handleExtPageRead
  else if t =? PT_EXTENDED_PAGE_WRITE then handleExtPageWrite
  else ret tt.

(* ---------------- states ---------------- *)
(* vscp_core.c:752-800 vscp_core_stateStartup *)
Definition stateStartup : M A unit :=
  nick <- get w_nick ;;
  if nick =? NICK_NOT_INIT then
    if c_silent cfg then
      b <- get (fun w => w_rxv w && (m_class (w_rx w) =? CLASS_PROTOCOL) &&
                         (m_type (w_rx w) =? PT_RESET_DEVICE)) ;;
      when b do handleGuidDrop
    else
      c <- getStartUpControl ;;
      when c =? 1 do changeToStateInit true
  else changeToStateActive.

(* a valid protocol class message of type ty was received: vscp_core.c:888-893 etc. *)
Definition rxIsProt (ty : N) : M A bool :=
  get (fun w => w_rxv w && (m_class (w_rx w) =? CLASS_PROTOCOL) && (m_type (w_rx w) =? ty)).

(* vscp_core.c:840-1004 vscp_core_stateInit *)
Definition stateInit : M A unit :=
  ist <- get w_ist ;;
  id <- get w_tSt ;;
  match ist with
  | PROBE_MASTER =>
      ok <- sendProt PT_NEW_NODE_ONLINE PRIO_7_LOW [NICK_SEGMENT_MASTER] ;;
      when ok do (upd (set_ist PROBE_MASTER_WAIT) ;; timer_start id (c_t_init cfg))
  | PROBE_MASTER_WAIT =>
      running <- timer_running id ;;
      if negb running then upd (set_ist PROBE) ;; upd (set_probe (c_start_nick cfg))
      else
        ack <- rxIsProt PT_PROBE_ACK ;;
        o <- get (fun w => m_oaddr (w_rx w)) ;;
        when ack && (o =? NICK_SEGMENT_MASTER) do changeToStatePreActive
  | PROBE =>
      pr <- get w_probe ;;
      ok <- sendProt PT_NEW_NODE_ONLINE PRIO_7_LOW [pr] ;;
      when ok do
        if pr =? NICK_NOT_INIT then timer_stop id ;; changeToStateIdle
        else upd (set_ist PROBE_WAIT) ;; timer_start id (c_t_probe cfg)
  | PROBE_WAIT =>
      running <- timer_running id ;;
      pr <- get w_probe ;;
      if negb running then writeNicknameId pr ;; changeToStateActive
      else
        ack <- rxIsProt PT_PROBE_ACK ;;
        o <- get (fun w => m_oaddr (w_rx w)) ;;
        when ack && (o =? pr) do
          (timer_stop id ;; upd (set_probe (u8 (pr + 1))) ;; upd (set_ist PROBE))
  end.

(* vscp_core.c:1020-1070 vscp_core_statePreActive *)
Definition statePreActive : M A unit :=
  id <- get w_tSt ;;
  running <- timer_running id ;;
  if negb running then changeToStateInit false
  else
    b <- rxIsProt PT_SET_NICKNAME ;;
    o <- get (fun w => m_oaddr (w_rx w)) ;;
    d0 <- rxd 0 ;; d1 <- rxd 1 ;;
    when b && (o =? NICK_SEGMENT_MASTER) && (d0 =? NICK_NOT_INIT) do
      (timer_stop id ;;
       writeNicknameId d1 ;;
       sendProt PT_NICKNAME_ACCEPTED PRIO_7_LOW [] ;;
       changeToStateActive).

(* events/vscp_evt_information.c:365-399 vscp_evt_information_sendNodeHeartbeat(0, zone,
   subZone, NULL, 0), called from vscp_core.c:1176 *)
Definition sendNodeHeartbeat : M A unit :=
  z <- dd_getZone ;; s <- dd_getSubZone ;;
  nick <- get w_nick ;;
  tp_writeMessage (mkTx CLASS_INFORMATION IT_NODE_HEARTBEAT PRIO_3_NORMAL nick [0; z; s]) ;; ret tt.

(* vscp_core.c:1121-1163: the message part of vscp_core_stateActive *)
Definition activeMessage : M A bool :=
  v <- get w_rxv ;;
  if v : bool then
    m <- get w_rx ;;
    (if m_class m =? CLASS_PROTOCOL then
       if c_prot_ev cfg then
         handled <- provideProtocolEvent m ;; when negb handled do handleProtocolClassType
       else handleProtocolClassType
     else provideEvent m) ;;
    (when c_dm cfg do dm_executeActions actionExecute m) ;;
    (when c_dm_ng cfg do ng_executeActions actionExecute m) ;;
    ret true
  else ret false.
(* vscp_core.c:1165-1183: node heartbeat *)
Definition activeHeartbeat : M A unit :=
  when c_hb_node cfg do
    (en <- get w_hbEn ;;
     id <- get w_tHb ;;
     running <- timer_running id ;;
     when en && negb running do
       ((if c_custom_hb cfg then customHeartbeat else sendNodeHeartbeat) ;;
        timer_start id (c_t_hb cfg))).
(* vscp_core.c:1116-1193 vscp_core_stateActive *)
Definition stateActive : M A bool :=
  h <- activeMessage ;;
  activeHeartbeat ;;
  count <- get w_xcount ;;
  if 0 <? count then extendedPageRead ;; ret true else ret h.

(* vscp_core.c:1263-1293 vscp_core_stateReset *)
Definition stateReset : M A unit :=
  rq <- get w_rreq ;;
  id <- get w_tSt ;;
  running <- timer_running id ;;
  when negb rq && negb running do
    (upd (fun w => set_sec (w_sec w - 1) w) ;;
     s <- get w_sec ;;
     if s =? 0 then emit OResetRequest ;; upd (set_rreq true)
     else timer_start id 1000).

(* vscp_core.c:467-549 vscp_core_process; rd is what the adapter delivers.
   Switch default (invalid state) cannot be expressed: State has exactly the enum values. *)
Definition process (rd : option Msg) : M A bool :=
  emit OProcess ;;
  r <- tp_readMessage rd ;;
  (match r with
   | Some m => upd (set_rx m) ;; upd (set_rxv true) ;; emit (ORx m)
   | None => upd (set_rxv false)
   end) ;;
  (when c_logger cfg do (m <- get w_rx ;; log_handleEvent m)) ;;
  ep <- get w_tEp ;;
  running <- timer_running ep ;;
  (when negb (ep =? TIMER_ID_INVALID) && negb running do
     (upd (fun w => set_epoch (u32 (w_epoch w + 1)) w) ;; timer_start ep 1000)) ;;
  s <- get w_st ;;
  a <- (match s with
        | STARTUP => stateStartup ;; ret false
        | INIT => stateInit ;; ret false
        | PREACTIVE => statePreActive ;; ret false
        | ACTIVE => stateActive
        | IDLE => ret false                    (* vscp_core.c:1222 does nothing *)
        | RESET => stateReset ;; ret false
        | ERROR => ret false                   (* vscp_core.c:1322 does nothing *)
        end) ;;
  upd (set_rxv false) ;;
  let b := match r with Some _ => true | None => a end in
  emit (ORet b) ;;
  ret b.

(* vscp_timer_create() stored into a timer id; result: created *)
Definition createTimer (store : N -> World A -> World A) : M A bool :=
  r <- get (fun w => timerCreate (w_tm w)) ;;
  upd (set_tm (snd r)) ;;
  upd (store (fst r)) ;;
  ret (negb (fst r =? TIMER_ID_INVALID)).

(* vscp_core.c:254-388 vscp_core_init; true = VSCP_CORE_RET_OK *)
Definition core_init : M A bool :=
  emit OInit ;;
  upd (set_tm (timerInit (c_timers cfg))) ;;
  tp_init ;;
  (when c_dm cfg do dm_init) ;;
  n <- ps_readNicknameId ;;
  upd (set_nick n) ;;
  upd (set_st STARTUP) ;;
  upd (set_ist PROBE) ;;
  upd (set_rreq false) ;;
  upd (fun w => set_rx (mkMsg PRIO_7_LOW CLASS_PROTOCOL 0 NICK_NOT_INIT false
                          (m_size (w_rx w)) (m_data (w_rx w))) w) ;;
  upd (set_rxv false) ;;
  emit (OLamp LampBlinkSlow) ;;
  b1 <- createTimer set_tSt ;;
  b2 <- createTimer set_tGuid ;;
  b3 <- createTimer set_t162 ;;
  b4 <- createTimer set_tEp ;;
  (when b4 do (id <- get w_tEp ;; timer_start id 1000)) ;;
  b5 <- (if c_hb_node cfg then createTimer set_tHb else ret true) ;;
  c <- getStartUpControl ;;
  (when negb (c =? 1) && negb (c =? 2) do restoreFactory) ;;        (* checkPersistentMemory, :734 *)
  let ok := b1 && b2 && b3 && b4 && b5 in
  (when negb ok do changeToStateError) ;;
  ret ok.

(* ---------------- histories ---------------- *)
(* What can happen to a node: a process call (with what the adapter delivers), a call of
   vscp_timer_process, an API call from outside of any callout, another vscp_core_init. *)
Inductive Op := OpProcess (rd : option Msg) | OpTick (p : N) | OpApi (c : ApiCall) | OpInit.

Definition step (o : Op) : M A unit :=
  match o with
  | OpProcess rd => process rd ;; ret tt
  | OpTick p => emit (OTick p) ;; upd (fun w => set_tm (timerProcess (w_tm w) p) w)
  | OpApi c => doApi c
  | OpInit => core_init ;; ret tt
  end.

(* static initialisation values (the initialisers cited in World.v) *)
Definition boot (ps : N -> N) (a : A) (wr : list bool) (out : list Obs) (ub ngub : bool) : World A :=
  mkWorld A msgZero false STARTUP PROBE NICK_NOT_INIT NICK_NOT_INIT 0 0 0 true 0 false
    0 0 0 0 0
    TIMER_ID_INVALID TIMER_ID_INVALID TIMER_ID_INVALID TIMER_ID_INVALID TIMER_ID_INVALID
    (timerInit (c_timers cfg)) ps 0
    (mkCBuf (repeat msgZero (N.to_nat (c_loop_num cfg))) 0 0 0)
    0 0 0 false 0 0 false 0 a wr out ub ngub.

(* power up with persistent memory ps, application state a, adapter behaviour wr *)
Definition powerUp (ps : N -> N) (a : A) (wr : list bool) : World A :=
  snd (core_init (boot ps a wr [] false false)).

(* persistent memory after the effects of a log (newest first) *)
Fixpoint replay (ps0 : N -> N) (l : list Obs) : N -> N :=
  match l with
  | [] => ps0
  | OPs a v :: r => fupd (replay ps0 r) a v
  | _ :: r => replay ps0 r
  end.

(* An event is a completed operation, or an operation interrupted by a power loss after k of
   its effects, followed by a new power up with application state a. *)
Inductive Event := EOp (o : Op) | ECrash (o : Op) (k : nat) (a : A).

Definition stepE (e : Event) (w : World A) : World A :=
  match e with
  | EOp o => snd (step o w)
  | ECrash o k a =>
      let w1 := snd (step o w) in
      let n := length (w_out w1) in
      (* the oldest length (w_out w) + k effects have happened *)
      let out := skipn (n - (length (w_out w) + k)) (w_out w1) in
      let delta := firstn (length out - length (w_out w)) out in
      snd (core_init (boot (replay (w_ps w) delta) a (w_wr w1) (OPower :: out) (w_ub w1) (w_ngub w1)))
  end.

Definition run (es : list Event) (w : World A) : World A := fold_left (fun w e => stepE e w) es w.
End Core.
Arguments Event : clear implicits.
