(* SysTime.v - model of examples/avr/at90can/common/time.c. *)
From Verif Require Export Types.

(* time.h: time_Time, ms is an uint16_t, the other fields are uint8_t *)
Record Time := mkTime { tm_ms : N; tm_s : N; tm_m : N; tm_h : N }.
(* time.c:72-75 time_systemTime, time_day *)
Record Clock := mkClock { ck_time : Time; ck_day : N }.

(* time.c:89-98 time_init *)
Definition timeInit : Clock := mkClock (mkTime 0 0 0 0) 0.
(* time.c:105-119 time_set; the day counter is an uint8_t *)
Definition timeSet (t : Time) (c : Clock) : Clock := mkClock t (u8 (ck_day c + 1)).
(* time.c:126-137 time_get, 147-155 time_isrGet *)
Definition timeGet (c : Clock) : Time := ck_time c.

(* time.c:256-285 time_process *)
Definition timeProcess (period : N) (c : Clock) : Clock :=
  let t := ck_time c in
  let ms := u16 (tm_ms t + period) in
  if 1000 <=? ms then
    let s := u8 (tm_s t + 1) in
    if 60 <=? s then
      let m := u8 (tm_m t + 1) in
      if 60 <=? m then
        let h := u8 (tm_h t + 1) in
        if 24 <=? h then mkClock (mkTime 0 0 0 0) (u8 (ck_day c + 1))
        else mkClock (mkTime 0 0 0 h) (ck_day c)
      else mkClock (mkTime 0 0 m (tm_h t)) (ck_day c)
    else mkClock (mkTime 0 s (tm_m t) (tm_h t)) (ck_day c)
  else mkClock (mkTime ms (tm_s t) (tm_m t) (tm_h t)) (ck_day c).

(* time.c:185-205: the test that selects the older timestamp; true: old = ts1, now = ts2 *)
Definition timeSwap (t1 t2 : Time) : bool :=
  if tm_h t1 <? tm_h t2 then true
  else if tm_m t2 <? tm_m t1 then true
  else if tm_s t2 <? tm_s t1 then true
  else tm_ms t2 <? tm_ms t1.
(* time.c:207-246. The differences are computed as int and stored in uint16_t or uint8_t. *)
Definition timeSub (now old : Time) : Time :=
  let '(ms, o1) := if tm_ms now <? tm_ms old
                   then (u16 (1000 - tm_ms old + tm_ms now), 1) else (tm_ms now - tm_ms old, 0) in
  let '(s, o2) := if tm_s now <? tm_s old + o1
                  then (u8 (60 - tm_s old - o1 + tm_s now), 1) else (tm_s now - tm_s old - o1, 0) in
  let '(m, o3) := if tm_m now <? tm_m old + o2
                  then (u8 (60 - tm_m old - o2 + tm_m now), 1) else (tm_m now - tm_m old - o2, 0) in
  let h := if tm_h now <? tm_h old + o3
           then u8 (60 - tm_h old - o3 + tm_h now) else tm_h now - tm_h old - o3 in
  mkTime ms s m h.
(* time.c:178-249 time_calculateDiff *)
Definition timeDiff (t1 t2 : Time) : Time :=
  if timeSwap t1 t2 then timeSub t2 t1 else timeSub t1 t2.
