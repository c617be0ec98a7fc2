(* Prop_SysTime.v - property C73. *)
From Verif Require Import SysTime Spec_SysTime Proof_SysTime.

(* C73, counting: called every p milliseconds, where p divides 1000 (the main loop uses 250), the clock
   shows after n calls exactly n * p milliseconds, as hours, minutes, seconds, milliseconds and days
   (modulo 256) *)
Theorem C73_counts_partial :
  forall p n, 0 < p -> 1000 mod p = 0 ->
    shows (Nat.iter n (timeProcess p) timeInit) (N.of_nat n * p).
Proof. intros p n H1 H2. exact (counts p n H2 H1). Qed.
Print Assumptions C73_counts_partial.

(* C73, time_set: the clock counts on from the time set, and the setting itself is signalled by the day
   counter, which counts one day more than the midnights since then; for every earlier clock c *)
Theorem C73_set_partial :
  forall p n t c, 0 < p -> 1000 mod p = 0 -> normal t -> tm_ms t mod p = 0 ->
    shows (Nat.iter n (timeProcess p) (timeSet t c)) ((ck_day c + 1) * DAY + millis t + N.of_nat n * p).
Proof. intros p n t c H1 H2 H3 H4. exact (set_counts p n t c H2 H1 H3 H4). Qed.
Print Assumptions C73_set_partial.

(* C73, other periods: the clock never shows more time than has passed *)
Theorem C73_never_fast :
  forall p c, normal (ck_time c) -> p <= 60000 ->
    normal (ck_time (timeProcess p c)) /\
    (ck_day (timeProcess p c) = ck_day c /\
     millis (ck_time (timeProcess p c)) <= millis (ck_time c) + p \/
     ck_day (timeProcess p c) = u8 (ck_day c + 1) /\
     DAY + millis (ck_time (timeProcess p c)) <= millis (ck_time c) + p).
Proof. intros p c H1 H2. exact (process_slow p c H1 H2). Qed.
Print Assumptions C73_never_fast.

(* C73, what is not true: other periods lose time, called every 300 ms the clock shows 1 s after 1.2 s *)
Theorem C73_counts_refuted :
  exists p n, p <= 1000 /\ millis (ck_time (Nat.iter n (timeProcess p) timeInit)) = 1000 /\
    N.of_nat n * p = 1200.
Proof. exists 300, 4%nat. vm_compute. repeat split; discriminate. Qed.
Print Assumptions C73_counts_refuted.

(* C73, time_calculateDiff gives the distance of two readings in exactly these cases: the first is
   from an earlier hour; or it is from a later hour and no smaller field of it is greater; or they are
   equal; or they are from the same hour, the first is earlier and one of its smaller fields is greater.
   In all other cases the result is 60 hours minus the distance. *)
Theorem C73_difference_partial :
  forall t1 t2, normal t1 -> normal t2 ->
    millis (timeDiff t1 t2) =
      if (tm_h t1 <? tm_h t2) ||
         ((tm_h t2 <? tm_h t1) && (tm_m t1 <=? tm_m t2) && (tm_s t1 <=? tm_s t2) && (tm_ms t1 <=? tm_ms t2)) ||
         (millis t1 =? millis t2) ||
         ((tm_h t1 =? tm_h t2) && (millis t1 <? millis t2) &&
          ((tm_m t2 <? tm_m t1) || (tm_s t2 <? tm_s t1) || (tm_ms t2 <? tm_ms t1)))
      then distance t1 t2 else 216000000 - distance t1 t2.
Proof.
  intros t1 t2 H1 H2. pose proof (swap_cases t1 t2 H1 H2) as H.
  destruct ((tm_h t1 <? tm_h t2) || _ || _ || _) eqn:E.
  - apply diff_right; auto. apply H. lia.
  - apply diff_wrong; auto. destruct (timeSwap t1 t2); lia.
Qed.
Print Assumptions C73_difference_partial.

(* C73, what is not true: from 00:00:30 to 00:01:00 it computes 59:59:30 *)
Theorem C73_difference_refuted :
  exists t1 t2, normal t1 /\ normal t2 /\ distance t1 t2 = 30000 /\ timeDiff t1 t2 = mkTime 0 30 59 59.
Proof. exists (mkTime 0 0 1 0), (mkTime 0 30 0 0). unfold normal. cbn. repeat split; lia. Qed.
Print Assumptions C73_difference_refuted.

Example C73_example :
  0 < 250 /\ 1000 mod 250 = 0 /\
  Nat.iter (N.to_nat 14405) (timeProcess 250) timeInit = mkClock (mkTime 250 1 0 1) 0 /\
  normal (mkTime 5 30 10 7) /\ normal (mkTime 10 20 30 9) /\
  timeDiff (mkTime 5 30 10 7) (mkTime 10 20 30 9) = mkTime 5 50 19 2.
Proof. unfold normal. cbn [tm_ms tm_s tm_m tm_h]. repeat split; try lia; vm_compute; reflexivity. Qed.

Example C73_set_example :
  normal (mkTime 500 59 59 23) /\ 500 mod 250 = 0 /\
  Nat.iter 3 (timeProcess 250) (timeSet (mkTime 500 59 59 23) (mkClock (mkTime 0 0 0 5) 7)) =
  mkClock (mkTime 250 0 0 0) 9.
Proof. unfold normal. cbn [tm_ms tm_s tm_m tm_h]. repeat split; try lia; vm_compute; reflexivity. Qed.
