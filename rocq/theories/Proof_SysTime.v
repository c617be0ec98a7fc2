(* Proof_SysTime.v - lemmas for property C73. *)
From Verif Require Import SysTime Spec_SysTime.

Lemma divides_1000 p : 1000 mod p = 0 -> 0 < p -> exists q, p * q = 1000.
Proof. intros H H0. exists (1000 / p). pose proof (N.div_mod' 1000 p). lia. Qed.

(* millisecond field is a multiple of the period *)
Lemma process_shows p c x :
  1000 mod p = 0 -> 0 < p -> shows c x -> tm_ms (ck_time c) mod p = 0 ->
  shows (timeProcess p c) (x + p) /\ tm_ms (ck_time (timeProcess p c)) mod p = 0.
Proof.
  intros Hp H0 ((N1 & N2 & N3 & N4) & Hm & Hd) Hr.
  destruct (divides_1000 p Hp H0) as [q Hq].
  assert (Hp1 : p <= 1000) by (destruct q; nia).
  destruct c as [[ms s m h] d]. cbn [ck_time ck_day tm_ms tm_s tm_m tm_h] in *.
  assert (Hk : exists k, ms = p * k).
  { exists (ms / p). pose proof (N.div_mod' ms p). lia. }
  destruct Hk as [k Hk].
  assert (Hle : ms + p <= 1000).
  { assert (k < q) by nia. assert (p * (k + 1) <= p * q) by (apply N.mul_le_mono_l; lia). lia. }
  assert (Hz : forall a, (p * a) mod p = 0) by (intro a; rewrite N.mul_comm; apply N.mod_mul; lia).
  unfold timeProcess, u16, u8. cbn [ck_time ck_day tm_ms tm_s tm_m tm_h].
  rewrite (N.mod_small (ms + p)) by lia.
  assert (Hz0 : 0 mod p = 0) by (apply N.mod_0_l; lia).
  unfold shows, normal, millis, DAY in *. cbn [ck_time ck_day tm_ms tm_s tm_m tm_h] in *.
  pose proof (N.div_mod' x 86400000) as Hx. pose proof (N.mod_lt x 86400000 ltac:(lia)) as Hl.
  set (xd := x / 86400000) in *. set (xm := x mod 86400000) in *. clearbody xd xm.
  assert (HS : forall d' r', x + p = 86400000 * d' + r' -> r' < 86400000 ->
                        (x + p) / 86400000 = d' /\ (x + p) mod 86400000 = r').
  { intros d' r' E L. split; [symmetry; apply (N.div_unique _ _ _ r')|symmetry; apply (N.mod_unique _ _ d')]; auto. }
  destruct (N.leb_spec 1000 (ms + p)) as [C1|C1].
  2:{ destruct (HS xd (xm + p)) as [-> ->]; [lia|lia|].
      cbn [ck_time ck_day tm_ms tm_s tm_m tm_h]. repeat split; try lia.
      rewrite Hk. replace (p * k + p) with (p * (k + 1)) by lia. apply Hz. }
  assert (E1 : ms + p = 1000) by lia.
  rewrite (N.mod_small (s + 1)) by lia.
  destruct (N.leb_spec 60 (s + 1)) as [C2|C2].
  2:{ destruct (HS xd (xm + p)) as [-> ->]; [lia|lia|].
      cbn [ck_time ck_day tm_ms tm_s tm_m tm_h]. repeat split; try lia. }
  rewrite (N.mod_small (m + 1)) by lia.
  destruct (N.leb_spec 60 (m + 1)) as [C3|C3].
  2:{ destruct (HS xd (xm + p)) as [-> ->]; [lia|lia|].
      cbn [ck_time ck_day tm_ms tm_s tm_m tm_h]. repeat split; try lia. }
  rewrite (N.mod_small (h + 1)) by lia.
  destruct (N.leb_spec 24 (h + 1)) as [C4|C4].
  2:{ destruct (HS xd (xm + p)) as [-> ->]; [lia|lia|].
      cbn [ck_time ck_day tm_ms tm_s tm_m tm_h]. repeat split; try lia. }
  destruct (HS (xd + 1) 0) as [-> ->]; [lia|lia|].
  cbn [ck_time ck_day tm_ms tm_s tm_m tm_h]. repeat split; try lia.
Qed.

Lemma init_shows : shows timeInit 0.
Proof. unfold shows, normal. cbn. repeat split; lia. Qed.

Lemma counts p n : 1000 mod p = 0 -> 0 < p ->
  shows (Nat.iter n (timeProcess p) timeInit) (N.of_nat n * p).
Proof.
  intros Hp H0.
  assert (G : shows (Nat.iter n (timeProcess p) timeInit) (N.of_nat n * p) /\
              tm_ms (ck_time (Nat.iter n (timeProcess p) timeInit)) mod p = 0).
  { induction n as [|n [IH1 IH2]].
    - split; [exact init_shows|]. change (0 mod p = 0). apply N.mod_0_l; lia.
    - cbn [Nat.iter nat_rect]. replace (N.of_nat (S n) * p) with (N.of_nat n * p + p) by lia.
      apply process_shows; assumption. }
  apply G.
Qed.

(* elapsed time never overestimated *)
Lemma process_slow p c : normal (ck_time c) -> p <= 60000 ->
  normal (ck_time (timeProcess p c)) /\
  (ck_day (timeProcess p c) = ck_day c /\ millis (ck_time (timeProcess p c)) <= millis (ck_time c) + p \/
   ck_day (timeProcess p c) = u8 (ck_day c + 1) /\
   DAY + millis (ck_time (timeProcess p c)) <= millis (ck_time c) + p).
Proof.
  intros (N1 & N2 & N3 & N4) Hp. destruct c as [[ms s m h] d].
  unfold timeProcess, u16, u8, normal, millis, DAY in *. cbn [ck_time ck_day tm_ms tm_s tm_m tm_h] in *.
  rewrite (N.mod_small (ms + p)) by lia.
  rewrite (N.mod_small (s + 1)), (N.mod_small (m + 1)), (N.mod_small (h + 1)) by lia.
  destruct (N.leb_spec 1000 (ms + p)), (N.leb_spec 60 (s + 1)), (N.leb_spec 60 (m + 1)), (N.leb_spec 24 (h + 1));
    cbn [ck_time ck_day tm_ms tm_s tm_m tm_h]; split; try lia.
Qed.

(* one digit of the subtraction: borrow o, base b *)
Definition digit (b now old o : N) : N * N :=
  if now <? old + o then (u8 (b - old - o + now), 1) else (now - old - o, 0).
Lemma digit_ok now old o : now < 60 -> old < 60 -> o <= 1 ->
  fst (digit 60 now old o) < 60 /\ snd (digit 60 now old o) <= 1 /\
  fst (digit 60 now old o) + old + o = now + 60 * snd (digit 60 now old o).
Proof.
  intros. unfold digit, u8. destruct (N.ltb_spec now (old + o)); cbn [fst snd]; [|lia].
  rewrite N.mod_small by lia. lia.
Qed.

Lemma sub_exact now old : normal now -> normal old ->
  exists k, k <= 1 /\ millis (timeSub now old) + millis old = millis now + k * 216000000 /\
  tm_ms (timeSub now old) < 1000 /\ tm_s (timeSub now old) < 60 /\ tm_m (timeSub now old) < 60 /\
  tm_h (timeSub now old) < 60.
Proof.
  intros (A1 & A2 & A3 & A4) (B1 & B2 & B3 & B4).
  destruct now as [a1 a2 a3 a4], old as [b1 b2 b3 b4]. unfold timeSub.
  cbn [tm_ms tm_s tm_m tm_h] in *.
  set (q1 := if a1 <? b1 then (u16 (1000 - b1 + a1), 1) else (a1 - b1, 0)).
  assert (Q1 : fst q1 < 1000 /\ snd q1 <= 1 /\ fst q1 + b1 = a1 + 1000 * snd q1).
  { unfold q1, u16. destruct (N.ltb_spec a1 b1); cbn [fst snd]; [rewrite N.mod_small by lia|]; lia. }
  destruct q1 as [ms o1]. cbn [fst snd] in Q1.
  pose proof (digit_ok a2 b2 o1 A2 B2 ltac:(lia)) as Q2. unfold digit in Q2.
  destruct (if a2 <? b2 + o1 then (u8 (60 - b2 - o1 + a2), 1) else (a2 - b2 - o1, 0)) as [s o2].
  cbn [fst snd] in Q2.
  pose proof (digit_ok a3 b3 o2 A3 B3 ltac:(lia)) as Q3. unfold digit in Q3.
  destruct (if a3 <? b3 + o2 then (u8 (60 - b3 - o2 + a3), 1) else (a3 - b3 - o2, 0)) as [m o3].
  cbn [fst snd] in Q3.
  pose proof (digit_ok a4 b4 o3 ltac:(lia) ltac:(lia) ltac:(lia)) as Q4. unfold digit in Q4.
  unfold millis. cbn [tm_ms tm_s tm_m tm_h].
  destruct (a4 <? b4 + o3); cbn [fst snd] in Q4; [exists 1|exists 0]; lia.
Qed.

Lemma sub_ordered now old : normal now -> normal old -> millis old <= millis now ->
  millis (timeSub now old) = millis now - millis old.
Proof.
  intros Hn Ho Hle. destruct (sub_exact now old Hn Ho) as (k & K1 & K2 & D1 & D2 & D3 & D4).
  assert (millis (timeSub now old) < 216000000) by (unfold millis; lia).
  assert (k = 0) by nia. subst. lia.
Qed.
Lemma sub_reversed now old : normal now -> normal old -> millis now < millis old ->
  millis (timeSub now old) = 216000000 - (millis old - millis now).
Proof.
  intros Hn Ho Hle. destruct (sub_exact now old Hn Ho) as (k & K1 & K2 & D1 & D2 & D3 & D4).
  assert (millis old < 86400000) by (unfold millis; destruct Ho as (?&?&?&?); lia).
  assert (k = 1) by nia. subst. lia.
Qed.

Lemma diff_right t1 t2 : normal t1 -> normal t2 ->
  (if timeSwap t1 t2 then millis t1 <= millis t2 else millis t2 <= millis t1) ->
  millis (timeDiff t1 t2) = distance t1 t2.
Proof.
  intros H1 H2 H. unfold timeDiff, distance.
  destruct (timeSwap t1 t2); rewrite sub_ordered by assumption;
    destruct (N.leb_spec (millis t1) (millis t2)); lia.
Qed.
Lemma diff_wrong t1 t2 : normal t1 -> normal t2 ->
  (if timeSwap t1 t2 then millis t2 < millis t1 else millis t1 < millis t2) ->
  millis (timeDiff t1 t2) = 216000000 - distance t1 t2.
Proof.
  intros H1 H2 H. unfold timeDiff, distance.
  destruct (timeSwap t1 t2); rewrite sub_reversed by assumption;
    destruct (N.leb_spec (millis t1) (millis t2)); lia.
Qed.

Lemma swap_cases t1 t2 : normal t1 -> normal t2 ->
  (if timeSwap t1 t2 then millis t1 <= millis t2 else millis t2 <= millis t1) <->
  (tm_h t1 < tm_h t2 \/
   tm_h t2 < tm_h t1 /\ tm_m t1 <= tm_m t2 /\ tm_s t1 <= tm_s t2 /\ tm_ms t1 <= tm_ms t2 \/
   millis t1 = millis t2 \/
   tm_h t1 = tm_h t2 /\ millis t1 < millis t2 /\
     (tm_m t2 < tm_m t1 \/ tm_s t2 < tm_s t1 \/ tm_ms t2 < tm_ms t1)).
Proof.
  intros (A1 & A2 & A3 & A4) (B1 & B2 & B3 & B4). unfold timeSwap, millis.
  destruct t1 as [a1 a2 a3 a4], t2 as [b1 b2 b3 b4]. cbn [tm_ms tm_s tm_m tm_h] in *.
  destruct (N.ltb_spec a4 b4); [lia|].
  destruct (N.ltb_spec b3 a3); [lia|]. destruct (N.ltb_spec b2 a2); [lia|].
  destruct (N.ltb_spec b1 a1); lia.
Qed.

(* time_set, then n calls of time_process *)
Lemma set_counts p n t c :
  1000 mod p = 0 -> 0 < p -> normal t -> tm_ms t mod p = 0 ->
  shows (Nat.iter n (timeProcess p) (timeSet t c)) ((ck_day c + 1) * DAY + millis t + N.of_nat n * p).
Proof.
  intros Hp H0 Hn Hr.
  assert (G : shows (Nat.iter n (timeProcess p) (timeSet t c)) ((ck_day c + 1) * DAY + millis t + N.of_nat n * p) /\
              tm_ms (ck_time (Nat.iter n (timeProcess p) (timeSet t c))) mod p = 0).
  { induction n as [|n [IH1 IH2]].
    - split; [|exact Hr]. cbn [Nat.iter nat_rect]. unfold timeSet, shows. cbn [ck_time ck_day].
      assert (Hl : millis t < DAY).
      { unfold normal, millis, DAY in *. lia. }
      split; [exact Hn|]. change (N.of_nat 0) with 0. rewrite N.mul_0_l, N.add_0_r, N.add_comm.
      split; [rewrite N.mod_add by (unfold DAY; lia); symmetry; now apply N.mod_small|].
      rewrite N.div_add by (unfold DAY; lia). rewrite (N.div_small _ _ Hl). reflexivity.
    - cbn [Nat.iter nat_rect].
      replace ((ck_day c + 1) * DAY + millis t + N.of_nat (S n) * p)
        with ((ck_day c + 1) * DAY + millis t + N.of_nat n * p + p) by lia.
      apply process_shows; assumption. }
  apply G.
Qed.
