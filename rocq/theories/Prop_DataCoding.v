(* Prop_DataCoding.v - properties C04, C05, C06. *)
From Verif Require Import DataCoding Spec_DataCoding Proof_DataCoding.

(* C04, the full statement ("for every value and exponent, decode (encode v e) = (v, e)") is
   false of the code: -1 comes back as 255, exponent -128 as 0, and INT32_MIN is undefined. *)
Theorem C04_roundtrip_refuted :
  (exists d e l, int32 d /\ int8 e /\
     int32ToNormalizedInteger d e 8 = Ok l /\ normalizedIntegerToInt32 l = (255%Z, e) /\ d = (-1)%Z) /\
  (exists d e l, int32 d /\ int8 e /\
     int32ToNormalizedInteger d e 8 = Ok l /\ normalizedIntegerToInt32 l = (d, 0%Z) /\ e = (-128)%Z) /\
  (exists d e, int32 d /\ int8 e /\ int32ToNormalizedInteger d e 8 = Undef).
Proof.
  split; [|split].
  - exists (-1)%Z, 0%Z, [0; 255]. unfold int32, int8. repeat split; try lia; vm_compute; reflexivity.
  - exists 7%Z, (-128)%Z, [128; 7]. unfold int32, int8. repeat split; try lia; vm_compute; reflexivity.
  - exists (-2147483648)%Z, 0%Z. unfold int32, int8. repeat split; try lia; vm_compute; reflexivity.
Qed.
Print Assumptions C04_roundtrip_refuted.

(* C04, the exact domain on which it holds: for every other value and exponent, and every
   buffer of at least 5 bytes, the round trip succeeds iff the value is not in -32767..-1 and
   the exponent is not -128. *)
Theorem C04_roundtrip_partial :
  forall d e size, int32 d -> int8 e -> d <> (-2147483648)%Z -> 5 <= size ->
  exists l, int32ToNormalizedInteger d e size = Ok l /\
    (normalizedIntegerToInt32 l = (d, e) <->
     ((0 <= d \/ d <= -32768) /\ e <> -128))%Z.
Proof. exact roundtrip_iff. Qed.
Print Assumptions C04_roundtrip_partial.
Example C04_example : int32 (-40000) /\ int8 (-3) /\ (-40000 <> -2147483648)%Z /\ 5 <= 8 /\
  int32ToNormalizedInteger (-40000) (-3) 8 = Ok [131; 255; 99; 192] /\
  normalizedIntegerToInt32 [131; 255; 99; 192] = (-40000, -3)%Z.
Proof. unfold int32, int8. repeat split; try lia; vm_compute; reflexivity. Qed.

(* C05: the encoder uses the least number k of payload bytes for |d|. If the buffer is too
   small for 1 + k bytes, it reports 0 and writes nothing; otherwise it writes exactly 1 + k
   bytes: the exponent byte and the big endian two's complement of d on k bytes. k <= 4. *)
Theorem C05_encoder_bounds :
  forall d e size, int32 d -> d <> (-2147483648)%Z ->
  exists k, leastPayload d k /\ k <= 4 /\
    (size < k + 1 -> int32ToNormalizedInteger d e size = Ok []) /\
    (k + 1 <= size -> exists n pl, int32ToNormalizedInteger d e size = Ok (n :: pl) /\
        N.of_nat (length pl) = k /\ n < 256 /\ bytes pl /\
        Z.of_N (bigEndian pl) = (d mod 2 ^ (8 * Z.of_N k))%Z).
Proof.
  intros d e size Hd Hm. destruct (encode_spec d e size Hd Hm) as (k & Hk & H).
  exists k. split; [exact Hk|]. split; [|split].
  - apply Hk; [lia|]. unfold int32 in Hd. change (2 ^ (8 * Z.of_N 4 - 1))%Z with 2147483648%Z. lia.
  - intros Hs. replace (size <? k + 1) with true in H by lia. exact H.
  - intros Hs. replace (size <? k + 1) with false in H by lia. destruct H as (pl & H1 & H2).
    do 2 eexists. split; [exact H1|]. split; [apply H2|]. split; [|apply H2].
    rewrite getNormalizerByte_sum. lia.
Qed.
Print Assumptions C05_encoder_bounds.
Example C05_example : int32 300 /\ int32ToNormalizedInteger 300 2 2 = Ok [] /\
  int32ToNormalizedInteger 300 2 3 = Ok [2; 1; 44] /\ bigEndian [1; 44] = 300.
Proof. unfold int32. repeat split; try lia; vm_compute; reflexivity. Qed.
(* the excluded value: -1 * INT32_MIN overflows *)
Theorem C05_int_min_refuted :
  forall e size, int32ToNormalizedInteger (-2147483648) e size = Undef.
Proof. reflexivity. Qed.
Print Assumptions C05_int_min_refuted.

(* C06: each field of the format byte holds its argument modulo the field size, whatever the
   other arguments are. *)
Theorem C06_format_byte :
  forall repr unit index,
    let b := getFormatByte repr unit index in
    b < 256 /\ b / 32 = repr mod 8 /\ (b / 8) mod 4 = unit mod 4 /\ b mod 8 = index mod 8.
Proof. intros r u i b. unfold b. rewrite getFormatByte_sum. lia. Qed.
Print Assumptions C06_format_byte.
(* hence in-range triples are recovered, and distinct triples give distinct bytes *)
Theorem C06_format_byte_injective :
  forall r1 u1 i1 r2 u2 i2, r1 < 8 -> u1 < 4 -> i1 < 8 -> r2 < 8 -> u2 < 4 -> i2 < 8 ->
    getFormatByte r1 u1 i1 = getFormatByte r2 u2 i2 -> r1 = r2 /\ u1 = u2 /\ i1 = i2.
Proof. intros r1 u1 i1 r2 u2 i2. rewrite !getFormatByte_sum. lia. Qed.
Print Assumptions C06_format_byte_injective.
Example C06_example : getFormatByte 4 1 2 = 138 /\ getFormatByte 12 5 10 = 138.
Proof. vm_compute. auto. Qed.
