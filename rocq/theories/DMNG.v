(* DMNG.v - model of src/vscp_dm_ng.h and src/vscp_dm_ng.c (decision matrix next generation),
   built with VSCP_DM_NG_DEBUG enabled. vscp_dm_ng_init (191) has no effect. *)
From Verif Require Export DevData.

Definition NG_SIZE_MIN : N := 6.         (* vscp_dm_ng.c:68 *)
Definition NG_RULE_MAX_SIZE : N := 40.   (* vscp_dm_ng.c:71 *)
Definition LOGIC_LAST : N := 0.          (* vscp_dm_ng.h:134 *)
Definition LOGIC_AND : N := 16.          (* vscp_dm_ng.h:135 *)
Definition LOGIC_OR : N := 32.           (* vscp_dm_ng.h:136 *)
Definition NG_ACTION_NOP : N := 0.       (* vscp_dm_ng.h: VSCP_DM_NG_ACTION_NO_OPERATION *)

(* vscp_dm_ng.h:141-165 VSCP_DM_NG_EVENT_PAR_ID *)
Definition PAR_CLASS : N := 1.
Definition PAR_TYPE : N := 2.
Definition PAR_OADDR : N := 3.
Definition PAR_HARD_CODED : N := 4.
Definition PAR_PRIORITY : N := 5.
Definition PAR_ZONE : N := 6.
Definition PAR_SUB_ZONE : N := 7.
Definition PAR_DATA_NUM : N := 8.
Definition PAR_DATA0 : N := 9.
Definition PAR_DATA : N := 16.
Definition PAR_MAX_NUM : N := 17.
Definition BASIC_OP_MAX_NUM : N := 7.    (* vscp_dm_ng.h:127 *)

(* vscp_dm_ng.c:686-701, 709-724 *)
Definition ng_getZone (m : Msg) : N :=
  let i := getZoneIndex (m_class m) (m_type m) in
  if i <? L1_DATA_SIZE then at0 (m_data m) i else 255.
Definition ng_getSubZone (m : Msg) : N :=
  let i := getZoneIndex (m_class m) (m_type m) in
  if i <? L1_DATA_SIZE then at0 (m_data m) (i + 1) else 255.

(* vscp_dm_ng.c:603-678 vscp_dm_ng_getEventParValue. A dataSize of at most 8 keeps
   data[dataIndex] inside the message. *)
Definition ng_getEventParValue (m : Msg) (parId dataIndex : N) : N :=
  if parId =? PAR_CLASS then m_class m
  else if parId =? PAR_TYPE then m_type m
  else if parId =? PAR_OADDR then m_oaddr m
  else if parId =? PAR_HARD_CODED then (if m_hard m then 1 else 0)
  else if parId =? PAR_PRIORITY then m_prio m
  else if parId =? PAR_ZONE then ng_getZone m
  else if parId =? PAR_SUB_ZONE then ng_getSubZone m
  else if parId =? PAR_DATA_NUM then m_size m
  else if (PAR_DATA0 <=? parId) && (parId <? PAR_DATA) then
    let i := parId - PAR_DATA0 in if i <? m_size m then at0 (m_data m) i else 0
  else if parId =? PAR_DATA then
    if dataIndex <? m_size m then at0 (m_data m) dataIndex else 0
  else 0.

(* vscp_dm_ng.c:734-792 vscp_dm_ng_compare *)
Definition ng_compare (op v x : N) : bool :=
  if op =? 1 then v =? x
  else if op =? 2 then v <? x
  else if op =? 3 then x <? v
  else if op =? 4 then v <=? x
  else if op =? 5 then x <=? v
  else if op =? 6 then negb (N.land v x =? 0)
  else false.

(* Outcome of the decision: result, error flag, index reached, and whether rulePart was
   read outside of its initialised part (UB). rulePart is the rule buffer from the first
   condition on; None entries are uninitialised. *)
Record Decision := mkDecision { dec_result : bool; dec_error : bool; dec_index : N; dec_ub : bool }.

(* rulePart[i]: value, or UB outside the buffer / for an uninitialised byte *)
Definition rp (rule : list (option N)) (i : N) : N * bool :=
  match nth_error rule (N.to_nat i) with
  | Some (Some v) => (v, false)
  | _ => (0, true)
  end.

(* vscp_dm_ng.c:433-581, the do-while loop of vscp_dm_ng_getDecisionResult.
   fuel is an upper bound of the number of conditions: each one consumes at least 3 of the
   size bytes, so size + 1 is never exhausted (exhaustion is marked as UB). *)
Fixpoint ng_loop (fuel : nat) (rule : list (option N)) (size : N) (m : Msg)
         (index : N) (first : bool) (result : bool) (logicPrev : N) (ub : bool) : Decision :=
  match fuel with
  | O => mkDecision false true index true
  | S f =>
      if size <=? index + 2 then mkDecision false true index ub                 (* :444 *)
      else
        let '(b0, u0) := rp rule index in                                        (* :451 *)
        let basicOp := N.land b0 15 in
        let logicOp := N.land b0 240 in
        let index := index + 1 in
        if BASIC_OP_MAX_NUM <=? basicOp then mkDecision false true index (ub || u0)   (* :456 *)
        else if negb (logicOp =? LOGIC_LAST) && negb (logicOp =? LOGIC_AND) &&
                negb (logicOp =? LOGIC_OR) then mkDecision false true index (ub || u0) (* :462 *)
        else
          let '(parId, u1) := rp rule index in                                   (* :471 *)
          let index := index + 1 in
          let ub := ub || u0 || u1 in
          if PAR_MAX_NUM <=? parId then mkDecision false true index ub           (* :475 *)
          else
            let '(parIndex, index, ub, err) :=                                   (* :484-495 *)
              if parId =? PAR_DATA then
                let '(v, u) := rp rule index in
                (v, index + 1, ub || u, size <=? index + 1)
              else (0, index, ub, false) in
            if err : bool then mkDecision false true index ub
            else
              let parValue := ng_getEventParValue m parId parIndex in            (* :498 *)
              let '(v0, u2) := rp rule index in                                  (* :501 *)
              let index := index + 1 in
              let ub := ub || u2 in
              let '(value, index, ub, err) :=                                    (* :505-517 *)
                if parId =? PAR_CLASS then
                  if size <=? index then (v0, index, ub, true)
                  else let '(v1, u) := rp rule index in
                       (u16 (N.lor (N.shiftl v0 8) v1), index + 1, ub || u, false)
                else (v0, index, ub, false) in
              if err : bool then mkDecision false true index ub
              else
                let cond := ng_compare basicOp parValue value in                 (* :520 *)
                (* :523-557; the last branch (an error) cannot be reached: the loop ends
                   when logicOpPrev is LAST *)
                let '(result, err) :=
                  if first then (cond, false)
                  else if logicPrev =? LOGIC_AND then (result && cond, false)
                  else if logicPrev =? LOGIC_OR then (result || cond, false)
                  else (result, true) in
                if err : bool then mkDecision false true index ub
                else if (logicOp =? LOGIC_AND) && negb result then mkDecision result false index ub (* :560 *)
                else if (logicOp =? LOGIC_OR) && result then mkDecision result false index ub       (* :570 *)
                else if logicOp =? LOGIC_LAST then mkDecision result false index ub                 (* :581 *)
                else ng_loop f rule size m index false result logicOp ub
  end.

(* vscp_dm_ng.c:417-593 vscp_dm_ng_getDecisionResult without the debug bookkeeping *)
Definition ng_getDecisionResult (rule : list (option N)) (size : N) (m : Msg) : Decision :=
  if size =? 0 then mkDecision false false 0 false
  else ng_loop (S (N.to_nat size)) rule size m 0 true false LOGIC_LAST false.

(* vscp_dm_ng.h:107-115 VSCP_DM_NG_RET *)
Inductive NgRet := NG_OK | NG_NO_RULE | NG_ERROR.

Section DMNG.
Context {A : Type} {E : Env A}.

(* vscp_dm_ng.c:74-83 *)
Definition ng_LAST_PAGE : N := c_ng_page cfg + c_ng_size cfg / 256.
Definition ng_LAST_PAGE_OFFSET : N :=
  if 0 <? c_ng_size cfg mod 256 then c_ng_size cfg mod 256 - 1 else 255.

(* vscp_dm_ng.c:201-212 vscp_dm_ng_restoreFactoryDefaultSettings *)
Definition ng_restore : M A unit := forM (Nseq (c_ng_size cfg)) (fun i => ps_writeNG i 0).

(* vscp_dm_ng.c:224-253 vscp_dm_ng_isDecisionMatrix *)
Definition ng_isDecisionMatrix (page addr : N) : bool :=
  if 0 <? c_ng_size cfg then
    if (c_ng_page cfg <=? page) && (page <=? ng_LAST_PAGE) then
      if page =? ng_LAST_PAGE then addr <=? ng_LAST_PAGE_OFFSET else true
    else false
  else false.
(* vscp_dm_ng.c:262-275 vscp_dm_ng_readRegister; index is an uint8_t *)
Definition ng_readRegister (page addr : N) : M A N :=
  if c_ng_page cfg <=? page
  then ps_readNG (u8 ((page - c_ng_page cfg) * 256 + addr))
  else ret 0.
(* vscp_dm_ng.c:285-300 vscp_dm_ng_writeRegister *)
Definition ng_writeRegister (page addr value : N) : M A N :=
  if c_ng_page cfg <=? page then
    ps_writeNG (u8 ((page - c_ng_page cfg) * 256 + addr)) value ;;
    ps_readNG (u8 ((page - c_ng_page cfg) * 256 + addr))
  else ret value.

(* the debug macros, vscp_dm_ng.c:91-121 *)
Definition dbgSetError : M A unit := upd (set_ngErr true).
Definition dbgClrError : M A unit :=
  upd (set_ngErr false) ;; upd (set_ngRule 0) ;; upd (set_ngPos 0).
Definition dbgIncRule : M A unit :=
  e <- get w_ngErr ;; when negb e do upd (fun w => set_ngRule (u8 (w_ngRule w + 1)) w).
Definition dbgIncPos (pos : N) : M A unit :=
  e <- get w_ngErr ;; when negb e do upd (fun w => set_ngPos (u8 (w_ngPos w + pos)) w).

(* rule[index] = readDMNextGeneration(ruleSetIndex + index) for index < size; the bytes of
   the buffer behind size keep their previous contents *)
Fixpoint ng_copy (n : nat) (idx : N) (buf : list (option N)) : M A (list (option N)) :=
  match n, buf with
  | S k, _ :: r =>
      v <- ps_readNG (u16 idx) ;;
      r' <- ng_copy k (idx + 1) r ;;
      ret (Some v :: r')
  | _, _ => ret buf
  end.

(* vscp_dm_ng.c:855-895 vscp_dm_ng_getNextRule (also lines 820-842 of getFirstRule) *)
Definition ng_getNextRule (buf : list (option N)) : M A (NgRet * list (option N)) :=
  cnt <- get w_ngCnt ;;
  if cnt =? 0 then ret (NG_NO_RULE, buf)
  else
    idx <- get w_ngIdx ;;
    ruleSize <- ps_readNG idx ;;
    if NG_RULE_MAX_SIZE <? ruleSize then ret (NG_ERROR, buf)
    else
      buf' <- ng_copy (N.to_nat ruleSize) idx buf ;;
      upd (set_ngIdx (u16 (idx + ruleSize))) ;;
      upd (set_ngCnt (u8 (cnt + 255))) ;;
      ret (NG_OK, buf').

(* vscp_dm_ng.c:801-846 vscp_dm_ng_getFirstRule *)
Definition ng_getFirstRule (buf : list (option N)) : M A (NgRet * list (option N)) :=
  upd (set_ngIdx 0) ;;
  cnt <- ps_readNG 0 ;;
  upd (set_ngCnt cnt) ;;
  upd (set_ngIdx 1) ;;
  ng_getNextRule buf.

(* vscp_dm_ng.c:417-593 with the debug bookkeeping of lines 584-590 *)
Definition ng_decide (rule : list (option N)) (size : N) (m : Msg) : M A bool :=
  let d := ng_getDecisionResult rule size m in
  (when dec_ub d do setNgUB) ;;
  (when dec_error d do (dbgIncPos (dec_index d) ;; dbgSetError)) ;;
  ret (if dec_error d then false else dec_result d).

(* vscp_dm_ng.c:327-371, the body of the do-while loop *)
Definition ng_rule (exec : N -> N -> Msg -> M A unit) (m : Msg) (buf : list (option N)) : M A unit :=
  dbgIncRule ;;
  let '(ruleSize, u0) := rp buf 0 in
  (when u0 do setNgUB) ;;
  if NG_SIZE_MIN <=? ruleSize then
    let '(actionId, u1) := rp buf 1 in
    let '(actionPar, u2) := rp buf 2 in
    (when u1 || u2 do setNgUB) ;;
    when negb (actionId =? NG_ACTION_NOP) do
      (r <- ng_decide (skipn 3 buf) (ruleSize - 3) m ;;
       when r do exec actionId actionPar m)
  else dbgIncPos 1 ;; dbgSetError.

(* the do-while loop, vscp_dm_ng.c:326-372. ruleCnt is an uint8_t that is decremented by every
   successful getNextRule, so 255 iterations suffice; exhaustion is marked as UB. *)
Fixpoint ng_rules (fuel : nat) (exec : N -> N -> Msg -> M A unit) (m : Msg) (buf : list (option N))
  : M A unit :=
  match fuel with
  | O => setNgUB
  | S f =>
      ng_rule exec m buf ;;
      r <- ng_getNextRule buf ;;
      match fst r with
      | NG_OK => ng_rules f exec m (snd r)
      | _ => ret tt
      end
  end.

(* vscp_dm_ng.c:308-375 vscp_dm_ng_executeActions *)
Definition ng_executeActions (exec : N -> N -> Msg -> M A unit) (m : Msg) : M A unit :=
  r <- ng_getFirstRule (repeat None (N.to_nat NG_RULE_MAX_SIZE)) ;;
  match fst r with
  | NG_OK => dbgClrError ;; ng_rules 256 exec m (snd r)
  | _ => ret tt
  end.
End DMNG.
