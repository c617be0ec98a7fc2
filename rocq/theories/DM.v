(* DM.v - model of src/vscp_dm.h and src/vscp_dm.c (standard decision matrix, paged access
   feature and extension). *)
From Verif Require Export DevData.

(* vscp_dm.h:136-147 vscp_dm_MatrixRow *)
Record Row := mkRow { r_oaddr : N; r_flags : N; r_cmask : N; r_cfilter : N;
                      r_tmask : N; r_tfilter : N; r_action : N; r_par : N }.
(* vscp_dm.h:168-179 vscp_dm_ExtRow *)
Record ExtRow := mkExtRow { x_zone : N; x_sub : N; x_p0 : N; x_p3 : N; x_p4 : N; x_p5 : N;
                            x_action : N; x_par : N }.
(* (uint8_t* )row: the struct is overlaid on 8 bytes *)
Definition rowOf (l : list N) : Row :=
  mkRow (at0 l 0) (at0 l 1) (at0 l 2) (at0 l 3) (at0 l 4) (at0 l 5) (at0 l 6) (at0 l 7).
Definition extRowOf (l : list N) : ExtRow :=
  mkExtRow (at0 l 0) (at0 l 1) (at0 l 2) (at0 l 3) (at0 l 4) (at0 l 5) (at0 l 6) (at0 l 7).

(* vscp_dm.h:119-131 VSCP_DM_FLAG, bit numbers *)
Definition FLAG_CLASS_FILTER_BIT8 : N := 0.
Definition FLAG_CLASS_MASK_BIT8 : N := 1.
Definition FLAG_MATCH_SUB_ZONE : N := 3.
Definition FLAG_MATCH_ZONE : N := 4.
Definition FLAG_HARDCODED : N := 5.
Definition FLAG_CHECK_OADDR : N := 6.
Definition FLAG_ENABLE : N := 7.
Definition ACTION_NOP : N := 0.        (* vscp_dm.h:101 *)
Definition ACTION_EXT : N := 255.      (* vscp_dm.h:109 *)

Section DM.
Context {A : Type} {E : Env A}.

(* vscp_dm.c:61-71 VSCP_DM_ROWS *)
Definition dm_ROWS : N := if c_dm_ext cfg then 2 * c_dm_rows cfg else c_dm_rows cfg.
Definition DM_PAGED_INDEX : N := 126.  (* vscp_dm.c:76 *)
Definition DM_PAGED_VALUE : N := 127.  (* vscp_dm.c:79 *)
(* vscp_dm.c:82, 100 *)
Definition dm_START_PAGE : N := if c_dm_paged cfg then 0 else c_dm_page cfg.
(* vscp_dm.c:85, 103 *)
Definition dm_START_OFFSET : N := if c_dm_paged cfg then DM_PAGED_INDEX else c_dm_off cfg.
Definition dm_PAGES : N := dm_ROWS / 32.                                         (* :109 *)
Definition dm_ADDITIONAL : N :=                                                  (* :112 *)
  if 255 - dm_START_OFFSET <? dm_START_PAGE + dm_PAGES + 1 then 1 else 0.
Definition dm_LAST_PAGE : N := dm_START_PAGE + dm_PAGES + dm_ADDITIONAL.         (* :115 *)
(* vscp_dm.c:118. For ROWS % 32 = 0 the unsigned "0 - 1" wraps in C; the value is then never
   used because LAST_PAGE > START_PAGE. *)
Definition dm_LAST_OFFSET : N :=
  (dm_ROWS mod 32) * 8 + (if 0 <? dm_ADDITIONAL then 255 - dm_START_OFFSET else 0) - 1.

(* vscp_dm.c:191-200 vscp_dm_init *)
Definition dm_init : M A unit := when c_dm_paged cfg do upd (set_dmIdx 0).

(* vscp_dm.c:205-230 vscp_dm_restoreFactoryDefaultSettings *)
Definition dm_restore : M A unit :=
  forM (Nseq (c_dm_rows cfg)) (fun i =>
    ps_writeDMMultiple i (repeat 0 8) ;;
    when c_dm_ext cfg do ps_writeDMExtMultiple i (repeat 0 8)).

(* vscp_dm.c:658-672 (paged), 769-814 (standard), 272-283 vscp_dm_isDecisionMatrix *)
Definition dm_isPaged (page addr : N) : bool :=
  (page =? 0) && ((addr =? DM_PAGED_INDEX) || (addr =? DM_PAGED_VALUE)).
Definition dm_isStd (page addr : N) : bool :=
  if 0 <? dm_ROWS then
    if page =? dm_START_PAGE then
      if dm_START_OFFSET <=? addr then
        if dm_START_PAGE <? dm_LAST_PAGE then true
        else addr <=? dm_LAST_OFFSET
      else false
    else if page =? dm_LAST_PAGE then addr <=? dm_START_OFFSET
    else (dm_START_PAGE <? page) && (page <? dm_LAST_PAGE)
  else false.
Definition dm_isDecisionMatrix (page addr : N) : bool :=
  if c_dm_paged cfg then dm_isPaged page addr else dm_isStd page addr.

(* vscp_dm.c:879-914 vscp_dm_calculateMatrixIndex: byte index of the register; None = FALSE.
   byteIndex is an uint16_t, *index an uint8_t. *)
Definition dm_matrixIndex (page addr : N) : option N :=
  if dm_isDecisionMatrix page addr then
    let b0 := u16 (u16 (page - dm_START_PAGE) * 8) in
    let b := if page =? dm_START_PAGE then u16 (b0 + (addr - dm_START_OFFSET))
             else u16 (u16 (b0 + (255 - dm_START_OFFSET + 1)) + addr) in
    let index := u8 (b / 8) in
    let offset := b mod 8 in
    Some (index * 8 + offset)
  else None.

(* vscp_dm.c:681-711 vscp_dm_readRegisterPagedFeature *)
Definition dm_readPaged (page addr : N) : M A N :=
  if page =? 0 then
    if addr =? DM_PAGED_INDEX then get w_dmIdx
    else if addr =? DM_PAGED_VALUE then
      idx <- get w_dmIdx ;;
      if dm_ROWS <=? idx / 8 then ret 0
      else ps_readDM (idx / 8 * 8 + idx mod 8)
    else ret 0
  else ret 0.
(* vscp_dm.c:823-838 vscp_dm_readRegisterStd *)
Definition dm_readStd (page addr : N) : M A N :=
  match dm_matrixIndex page addr with
  | Some i => ps_readDM i
  | None => ret 0
  end.
(* vscp_dm.c:292-303 vscp_dm_readRegister *)
Definition dm_readRegister (page addr : N) : M A N :=
  if c_dm_paged cfg then dm_readPaged page addr else dm_readStd page addr.

(* vscp_dm.c:721-755 vscp_dm_writeRegisterPagedFeature *)
Definition dm_writePaged (page addr value : N) : M A N :=
  if page =? 0 then
    if addr =? DM_PAGED_INDEX then
      (when value <=? u16 (dm_ROWS * 8 + 65535) do upd (set_dmIdx value)) ;;
      ret value
    else if addr =? DM_PAGED_VALUE then
      idx <- get w_dmIdx ;;
      if dm_ROWS <=? idx / 8 then ret 0
      else ps_writeDM (idx / 8 * 8 + idx mod 8) value ;; ret value
    else ret value
  else ret value.
(* vscp_dm.c:848-865 vscp_dm_writeRegisterStd *)
Definition dm_writeStd (page addr value : N) : M A N :=
  match dm_matrixIndex page addr with
  | Some i => ps_writeDM i value ;; ps_readDM i
  | None => ret value
  end.
(* vscp_dm.c:313-324 vscp_dm_writeRegister *)
Definition dm_writeRegister (page addr value : N) : M A N :=
  if c_dm_paged cfg then dm_writePaged page addr value else dm_writeStd page addr value.

(* vscp_dm.c:595-602 vscp_dm_isDecisionMatrixRowEnabled *)
Definition dm_rowEnabled (i : N) : M A bool :=
  flags <- ps_readDM (i * 8 + 1) ;; ret (bitset flags FLAG_ENABLE).
(* vscp_dm.c:610-621 *)
Definition dm_readRow (i : N) : M A Row := l <- ps_readDMRow (i * 8) ;; ret (rowOf l).
(* vscp_dm.c:631-642 *)
Definition dm_readExtRow (i : N) : M A ExtRow := l <- ps_readDMExtRow (i * 8) ;; ret (extRowOf l).

(* the sequence of checks in the loop body of vscp_dm_executeActions, vscp_dm.c:370-564;
   zone and sub are the node's zone and sub-zone (vscp_dev_data_getNodeZone/SubZone).
   Result: the action and its parameter, or None where the C code continues. *)
Definition dm_rowAction (zone sub : N) (row : Row) (ext : ExtRow) (m : Msg) : option (N * N) :=
  let isExt := c_dm_ext cfg && (r_action row =? ACTION_EXT) in
  if r_action row =? ACTION_NOP then None                                        (* :370 *)
  else if bitset (r_flags row) FLAG_CHECK_OADDR &&                               (* :377 *)
          negb (r_oaddr row =? m_oaddr m) then None
  else if bitset (r_flags row) FLAG_HARDCODED && negb (m_hard m) then None       (* :388 *)
  else if (bitset (r_flags row) FLAG_MATCH_ZONE || bitset (r_flags row) FLAG_MATCH_SUB_ZONE) &&
          (let zi := getZoneIndex (m_class m) (m_type m) in                      (* :399-464 *)
           if zi <? L1_DATA_SIZE then
             let z := at0 (m_data m) zi in
             let s := at0 (m_data m) (zi + 1) in
             (bitset (r_flags row) FLAG_MATCH_ZONE && negb (z =? ZONE_BROADCAST) &&
              negb (z =? (if isExt then x_zone ext else zone))) ||
             (bitset (r_flags row) FLAG_MATCH_SUB_ZONE && negb (s =? SUBZONE_BROADCAST) &&
              negb (s =? (if isExt then x_sub ext else sub)))
           else true)
       then None
  else
    let cmask := r_cmask row + (if bitset (r_flags row) FLAG_CLASS_MASK_BIT8 then 256 else 0) in
    let cfilter := r_cfilter row + (if bitset (r_flags row) FLAG_CLASS_FILTER_BIT8 then 256 else 0) in
    if negb (cmask =? 0) && negb (cfilter =? N.land cmask (m_class m)) then None  (* :482 *)
    else if negb (r_tmask row =? 0) &&
            negb (r_tfilter row =? N.land (r_tmask row) (m_type m)) then None     (* :490 *)
    else if isExt then                                                           (* :500 *)
      let f := r_par row in
      if bitset f 0 && ((m_size m =? 0) || negb (x_p0 ext =? at0 (m_data m) 0)) then None
      else if bitset f 1 && ((m_size m <=? 3) || negb (x_p3 ext =? at0 (m_data m) 3)) then None
      else if bitset f 2 && ((m_size m <=? 4) || negb (x_p4 ext =? at0 (m_data m) 4)) then None
      else if bitset f 3 && ((m_size m <=? 5) || negb (x_p5 ext =? at0 (m_data m) 5)) then None
      else Some (x_action ext, x_par ext)                                        (* :566 *)
    else Some (r_action row, r_par row).                                         (* :571, 577 *)

(* vscp_dm.c:342-582, one iteration; exec stands for vscp_action_execute *)
Definition dm_step (exec : N -> N -> Msg -> M A unit) (m : Msg) (i : N) : M A unit :=
  en <- dm_rowEnabled i ;;
  when en do
    (row <- dm_readRow i ;;
     ext <- (if c_dm_ext cfg then dm_readExtRow i else ret (extRowOf [])) ;;
     zone <- dd_getZone ;;
     sub <- dd_getSubZone ;;
     match dm_rowAction zone sub row ext m with
     | Some (a, p) => exec a p m
     | None => ret tt
     end).
(* vscp_dm.c:332-586 vscp_dm_executeActions. The row counter is an uint8_t: the model covers
   VSCP_CONFIG_DM_ROWS <= 255 (see valid_cfg); with 256 or more rows the C loop does not end. *)
Definition dm_executeActions (exec : N -> N -> Msg -> M A unit) (m : Msg) : M A unit :=
  forM (Nseq (c_dm_rows cfg)) (dm_step exec m).
End DM.
