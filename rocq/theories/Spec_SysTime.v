(* Spec_SysTime.v - clock readings as numbers of milliseconds. *)
From Verif Require Import SysTime.

(* a reading of a clock *)
Definition normal (t : Time) : Prop := tm_ms t < 1000 /\ tm_s t < 60 /\ tm_m t < 60 /\ tm_h t < 24.
(* milliseconds since midnight *)
Definition millis (t : Time) : N := ((tm_h t * 60 + tm_m t) * 60 + tm_s t) * 1000 + tm_ms t.
Definition DAY : N := 86400000.
(* the clock shows the instant x (milliseconds since the start; the day counter has 8 bits) *)
Definition shows (c : Clock) (x : N) : Prop :=
  normal (ck_time c) /\ millis (ck_time c) = x mod DAY /\ ck_day c = (x / DAY) mod 256.
(* distance of two readings of the same day *)
Definition distance (t1 t2 : Time) : N :=
  if millis t1 <=? millis t2 then millis t2 - millis t1 else millis t1 - millis t2.
