(* Util.v - model of src/vscp_util.c *)
From Verif Require Export Types.

(* vscp_util.c:107-205 vscp_util_getZoneIndex.  0xFF = event without zone. *)
Definition getZoneIndex (cls ty : N) : N :=
  if 0 <? ty then
    if (cls =? CLASS_ALARM) || (cls =? CLASS_SECURITY) || (cls =? CLASS_AOL) ||
       (cls =? CLASS_MEASUREZONE) || (cls =? CLASS_SETVALUEZONE) || (cls =? CLASS_WEATHER) ||
       (cls =? CLASS_WEATHER_FORECAST) || (cls =? CLASS_DIAGNOSTIC) || (cls =? CLASS_ERROR)
    then 1
    else if cls =? CLASS_INFORMATION then
      if (ty =? IT_STREAM_DATA_WITH_ZONE) || (ty =? IT_CONFIRM) then 0
      else if negb (ty =? IT_STREAM_DATA) then 1 else 255
    else if cls =? CLASS_CONTROL then
      if (ty <=? CT_DEACTIVATE) || ((CT_DIM_LAMPS <=? ty) && negb (ty =? CT_STREAM_DATA))
      then 1 else 255
    else if cls =? CLASS_PHONE then if ty =? PH_ANSWER then 1 else 255
    else if cls =? CLASS_DISPLAY then
      if negb (ty =? DT_SET_DISPLAY_BUFFER_PARAM) then 1 else 255
    else if cls =? CLASS_IR then
      if (ty =? RT_VSCP_ABSTRACT) || (ty =? RT_MAPITO) then 1 else 255
    else 255
  else 255.

(* ------------------------------------------------------------------ *)
(* Cyclic buffer. vscp_util.h:97-105.                                   *)
(* Simplification: the storage is a list of elements instead of bytes;  *)
(* the pointers src/dst, which move in multiples of elemSize, become     *)
(* element positions. An access outside the storage is UB.              *)
(* ------------------------------------------------------------------ *)
Record CBuf (T : Type) := mkCBuf {
  cb_store : list T;   (* storage *)
  cb_num : N;          (* num *)
  cb_rd : N;           (* readIndex *)
  cb_wr : N            (* writeIndex *)
}.
Arguments mkCBuf {T}. Arguments cb_store {T}. Arguments cb_num {T}.
Arguments cb_rd {T}. Arguments cb_wr {T}.

(* vscp_util.c:216-230 vscp_util_cyclicBufferInit(cbuffer, storage, size, elemSize).
   size is an uint8_t parameter: the caller's sizeof is truncated. elemSize likewise. *)
Definition cbInit {T} (storage : list T) (sizeBytes elemSize : N) : CBuf T :=
  mkCBuf storage (u8 sizeBytes / u8 elemSize) 0 0.

(* Result of an operation that may run into undefined behaviour. *)
Inductive UB (R : Type) := Ok (r : R) | Undef.
Arguments Ok {R}. Arguments Undef {R}.

(* vscp_util.c:252-267, the read loop; k = maxNum - read, src = element position of the
   source pointer (initialised once, only ever incremented). *)
Fixpoint cbReadLoop {T} (k : nat) (src : N) (b : CBuf T) (acc : list T) : UB (list T * CBuf T) :=
  match k with
  | O => Ok (rev acc, b)
  | S k' =>
      if cb_rd b =? cb_wr b then Ok (rev acc, b)
      else if cb_num b =? 0 then Undef        (* % 0 *)
      else match aget (cb_store b) src with
           | None => Undef
           | Some e =>
               cbReadLoop k' (src + 1)
                 (mkCBuf (cb_store b) (cb_num b) (u8 ((cb_rd b + 1) mod cb_num b)) (cb_wr b))
                 (e :: acc)
           end
  end.

(* vscp_util.c:238-271 vscp_util_cyclicBufferRead(cbuffer, elem, maxNum); the elements read
   are returned as a list (its length is the return value). *)
Definition cbRead {T} (b : CBuf T) (maxNum : N) : UB (list T * CBuf T) :=
  if 0 <? maxNum then cbReadLoop (N.to_nat maxNum) (cb_rd b) b []
  else Ok ([], b).

(* vscp_util.c:296-311, the write loop; next = nextWriteIndex, dst = element position. *)
Fixpoint cbWriteLoop {T} (es : list T) (next dst : N) (b : CBuf T) (written : N)
  : UB (N * CBuf T) :=
  match es with
  | [] => Ok (written, b)
  | e :: es' =>
      if cb_rd b =? next then Ok (written, b)
      else match aset (cb_store b) dst e with
           | None => Undef
           | Some st' =>
               cbWriteLoop es' (u8 ((next + 1) mod cb_num b)) (dst + 1)
                 (mkCBuf st' (cb_num b) (cb_rd b) next) (written + 1)
           end
  end.

(* vscp_util.c:281-315 vscp_util_cyclicBufferWrite(cbuffer, elem, maxNum), maxNum = length es. *)
Definition cbWrite {T} (b : CBuf T) (es : list T) : UB (N * CBuf T) :=
  match es with
  | [] => Ok (0, b)
  | _ =>
      if cb_num b =? 0 then Undef             (* % 0, line 289 *)
      else cbWriteLoop es (u8 ((cb_wr b + 1) mod cb_num b)) (cb_wr b) b 0
  end.
