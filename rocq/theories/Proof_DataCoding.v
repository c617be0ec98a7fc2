(* Proof_DataCoding.v - lemmas about DataCoding.v *)
From Verif Require Import DataCoding Spec_DataCoding.

(* ---- finite sweeps ---- *)
Lemma Nseq_In n x : x < n -> In x (Nseq n).
Proof.
  intros H. unfold Nseq. apply in_map_iff. exists (N.to_nat x). split; [lia|].
  apply in_seq. lia.
Qed.
Lemma sweep n (P : N -> bool) : forallb P (Nseq n) = true -> forall x, x < n -> P x = true.
Proof. intros H x Hx. rewrite forallb_forall in H. apply H, Nseq_In, Hx. Qed.

Lemma land7 x : N.land x 7 = x mod 8.
Proof. change 7 with (N.ones 3). rewrite N.land_ones. reflexivity. Qed.
Lemma land3 x : N.land x 3 = x mod 4.
Proof. change 3 with (N.ones 2). rewrite N.land_ones. reflexivity. Qed.
Lemma land1 x : N.land x 1 = x mod 2.
Proof. change 1 with (N.ones 1) at 1. rewrite N.land_ones. reflexivity. Qed.
Lemma land127 x : N.land x 127 = x mod 128.
Proof. change 127 with (N.ones 7). rewrite N.land_ones. reflexivity. Qed.
Lemma land255 x : N.land x 255 = x mod 256.
Proof. change 255 with (N.ones 8). rewrite N.land_ones. reflexivity. Qed.

Lemma getFormatByte_sum r u i : getFormatByte r u i = 32 * (r mod 8) + 8 * (u mod 4) + i mod 8.
Proof.
  unfold getFormatByte. rewrite !land7, land3.
  assert (H : forallb (fun a => forallb (fun b => forallb (fun c =>
      u8 (N.lor (N.lor (N.shiftl a 5) (N.shiftl b 3)) c) =? 32 * a + 8 * b + c)
      (Nseq 8)) (Nseq 4)) (Nseq 8) = true) by (vm_compute; reflexivity).
  apply N.eqb_eq.
  pose proof (sweep _ _ H (r mod 8) ltac:(lia)) as H1.
  pose proof (sweep _ _ H1 (u mod 4) ltac:(lia)) as H2.
  apply (sweep _ _ H2). lia.
Qed.

Lemma getNormalizerByte_sum s m : getNormalizerByte s m = 128 * (s mod 2) + m mod 128.
Proof.
  unfold getNormalizerByte. rewrite land1, land127.
  assert (H : forallb (fun a => forallb (fun b =>
      u8 (N.lor (N.shiftl a 7) b) =? 128 * a + b) (Nseq 128)) (Nseq 2) = true) by (vm_compute; reflexivity).
  apply N.eqb_eq.
  pose proof (sweep _ _ H (s mod 2) ltac:(lia)) as H1. apply (sweep _ _ H1). lia.
Qed.

Lemma sbyte_eq d n : (0 <= n)%Z -> sbyte d n = Z.to_N ((d / 2 ^ n) mod 256).
Proof.
  intros Hn. unfold sbyte. rewrite Z.shiftr_div_pow2 by exact Hn.
  change 255%Z with (Z.ones 8). rewrite Z.land_ones by lia. reflexivity.
Qed.

(* disjoint or = sum *)
Lemma lor_shift a b k : b < 2 ^ k -> N.lor (N.shiftl a k) b = a * 2 ^ k + b.
Proof.
  intros Hb. rewrite N.shiftl_mul_pow2.
  rewrite <- N.lxor_lor, <- N.add_nocarry_lxor; try reflexivity;
    apply N.bits_inj; intros i; rewrite N.land_spec, N.bits_0;
    destruct (N.lt_ge_cases i k) as [Hi|Hi];
    try (rewrite N.mul_pow2_bits_low by exact Hi; reflexivity).
  all: assert (Hz : N.testbit b i = false);
    [ destruct (N.eq_dec b 0) as [->|]; [apply N.bits_0|];
      apply N.bits_above_log2; apply N.lt_le_trans with k; auto; apply N.log2_lt_pow2; lia
    | rewrite Hz; apply andb_false_r ].
Qed.

Lemma testbit7 n : n < 256 -> N.testbit n 7 = (128 <=? n).
Proof.
  intros H. pose proof (sweep 256 (fun x => Bool.eqb (N.testbit x 7) (128 <=? x)) ltac:(vm_compute; reflexivity) n H) as E.
  apply Bool.eqb_prop in E. exact E.
Qed.

Lemma exp_roundtrip e : int8 e -> e <> (-128)%Z ->
  let nb := getNormalizerByte (if (e <? 0)%Z then 1 else 0) (expMagnitude e) in
  nb < 256 /\
  (if N.testbit nb 7 then (-1 * Z.of_N (N.land nb 127))%Z else Z.of_N (N.land nb 127)) = e.
Proof.
  intros He Hne nb. unfold nb. rewrite getNormalizerByte_sum. unfold expMagnitude, u8, int8 in *.
  rewrite land127. destruct (Z.ltb_spec e 0).
  - split; [lia|]. rewrite testbit7 by lia.
    replace (128 <=? _) with true by lia. lia.
  - split; [lia|]. rewrite testbit7 by lia.
    replace (128 <=? _) with false by lia. lia.
Qed.
Lemma exp_min_lost :
  (if N.testbit (getNormalizerByte 1 (expMagnitude (-128))) 7
   then (-1 * Z.of_N (N.land (getNormalizerByte 1 (expMagnitude (-128))) 127))%Z
   else Z.of_N (N.land (getNormalizerByte 1 (expMagnitude (-128))) 127)) = 0%Z.
Proof. reflexivity. Qed.

Definition decE (nb : N) : Z :=
  if N.testbit nb 7 then (-1 * Z.of_N (N.land nb 127))%Z else Z.of_N (N.land nb 127).

Lemma dec1 nb a : normalizedIntegerToInt32 [nb; a] = (toInt32 a, decE nb).
Proof. reflexivity. Qed.
Lemma dec2 nb a b : normalizedIntegerToInt32 [nb; a; b] = (toInt32 (N.lor (N.shiftl a 8) b), decE nb).
Proof. reflexivity. Qed.
Lemma dec3 nb a b c : normalizedIntegerToInt32 [nb; a; b; c] =
  (toInt32 (N.lor (N.lor (N.lor (if N.testbit a 7 then 4278190080 else 0) (N.shiftl a 16)) (N.shiftl b 8)) c), decE nb).
Proof. reflexivity. Qed.
Lemma dec4 nb a b c d : normalizedIntegerToInt32 [nb; a; b; c; d] =
  (toInt32 (N.lor (N.lor (N.lor (N.shiftl a 24) (N.shiftl b 16)) (N.shiftl c 8)) d), decE nb).
Proof. reflexivity. Qed.

Lemma toInt32_small x : x < 4294967296 -> toInt32 x = (if (Z.of_N x <? 2147483648) then Z.of_N x else Z.of_N x - 4294967296)%Z.
Proof. intros H. unfold toInt32, u32. rewrite N.mod_small by exact H. reflexivity. Qed.

Lemma be2 a b : b < 256 -> N.lor (N.shiftl a 8) b = 256 * a + b.
Proof. intros. rewrite lor_shift by (change (2^8) with 256; lia). change (2^8) with 256. lia. Qed.

Lemma lor_shift_shift a b j k : N.lor (N.shiftl a (j + k)) (N.shiftl b k) = N.shiftl (N.lor (N.shiftl a j) b) k.
Proof. rewrite N.shiftl_lor, N.shiftl_shiftl. reflexivity. Qed.

Lemma be3 a b c : b < 256 -> c < 256 ->
  N.lor (N.lor (N.shiftl a 16) (N.shiftl b 8)) c = 65536 * a + 256 * b + c.
Proof.
  intros. change 16 with (8 + 8) at 1. rewrite lor_shift_shift, be2 by lia.
  rewrite be2 by lia. lia.
Qed.
Lemma be4 a b c d : b < 256 -> c < 256 -> d < 256 ->
  N.lor (N.lor (N.lor (N.shiftl a 24) (N.shiftl b 16)) (N.shiftl c 8)) d = 16777216 * a + 65536 * b + 256 * c + d.
Proof.
  intros. change 24 with (16 + 8) at 1. change (N.shiftl b 16) with (N.shiftl b (8 + 8)).
  rewrite <- !N.shiftl_shiftl, <- !N.shiftl_lor.
  change (N.shiftl (N.shiftl a 16) 8) with (N.shiftl (N.shiftl a (8+8)) 8).
  replace (N.shiftl a 16) with (N.shiftl a (8+8)) by reflexivity.
  rewrite lor_shift_shift, !be2 by lia. 
  lia.
Qed.

Lemma ff24 a b c : a < 256 -> b < 256 -> c < 256 ->
  N.lor (N.lor (N.lor (if N.testbit a 7 then 4278190080 else 0) (N.shiftl a 16)) (N.shiftl b 8)) c
  = (if 128 <=? a then 4278190080 else 0) + (65536 * a + 256 * b + c).
Proof.
  intros. rewrite testbit7 by assumption.
  destruct (128 <=? a).
  - change 4278190080 with (N.shiftl 255 24) at 1. rewrite be4 by assumption. lia.
  - rewrite N.lor_0_l, be3 by assumption. lia.
Qed.

(* ---- C05 ---- *)
Lemma encode_spec d e size : int32 d -> d <> (-2147483648)%Z ->
  exists k, leastPayload d k /\
    (if size <? k + 1 then int32ToNormalizedInteger d e size = Ok []
     else exists pl, int32ToNormalizedInteger d e size = Ok (getNormalizerByte (if (e <? 0)%Z then 1 else 0) (expMagnitude e) :: pl) /\
            N.of_nat (length pl) = k /\ bytes pl /\
            Z.of_N (bigEndian pl) = (d mod 2 ^ (8 * Z.of_N k))%Z).
Proof.
  intros Hd Hmin. unfold int32ToNormalizedInteger, dataMagnitude, int32 in *.
  replace (d =? -2147483648)%Z with false by lia.
  destruct (N.ltb_spec (Z.to_N (Z.abs d)) 128); [exists 1|
  destruct (N.ltb_spec (Z.to_N (Z.abs d)) 32768); [exists 2|
  destruct (N.ltb_spec (Z.to_N (Z.abs d)) 8388608); [exists 3|exists 4]]].
  all: split; [unfold leastPayload; cbn [Z.of_N]; split; [lia|split; [try (change (2^(8*1-1))%Z with 128%Z);
       try (change (2^(8*2-1))%Z with 32768%Z);
       try (change (2^(8*3-1))%Z with 8388608%Z); try (change (2^(8*4-1))%Z with 2147483648%Z); lia|]];
       intros j Hj Hlt;
       assert (Hjc : j = 1 \/ j = 2 \/ j = 3 \/ j >= 4) by lia;
       destruct Hjc as [->|[->|[->|Hj4]]]; cbn [Z.of_N] in Hlt;
       try (change (2^(8*1-1))%Z with 128%Z in Hlt);
       try (change (2^(8*2-1))%Z with 32768%Z in Hlt);
       try (change (2^(8*3-1))%Z with 8388608%Z in Hlt); lia |].
  all: match goal with |- context [?s <? ?n] => is_var s; destruct (N.ltb_spec s n) end;
       match goal with |- context [if ?b then _ else _] => first
         [ replace b with true by lia; reflexivity | replace b with false by lia ] end.
  all: eexists; split; [reflexivity|]; split; [reflexivity|]; split;
       [ repeat constructor; rewrite ?sbyte_eq by lia; lia | ].
  all: rewrite !sbyte_eq by lia; unfold bigEndian; cbn [fold_left];
       change (2^0)%Z with 1%Z; change (2^8)%Z with 256%Z; change (2^16)%Z with 65536%Z; change (2^24)%Z with 16777216%Z;
       cbn [Z.of_N]; try change (2^(8*1))%Z with 256%Z; try change (2^(8*2))%Z with 65536%Z;
       try change (2^(8*3))%Z with 16777216%Z; try change (2^(8*4))%Z with 4294967296%Z.
  - lia.
  - lia.
  - lia.
  - lia.
Qed.

(* ---- C04 ---- *)
Lemma roundtrip_iff d e size : int32 d -> int8 e -> d <> (-2147483648)%Z -> 5 <= size ->
  exists l, int32ToNormalizedInteger d e size = Ok l /\
    (normalizedIntegerToInt32 l = (d, e) <->
     ((0 <= d \/ d <= -32768) /\ e <> -128))%Z.
Proof.
  intros Hd He Hmin Hs. unfold int32ToNormalizedInteger, dataMagnitude, int32 in *.
  replace (d =? -2147483648)%Z with false by lia.
  set (nb := getNormalizerByte _ _).
  assert (Hnb : decE nb = e <-> e <> (-128)%Z).
  { split.
    - intros H1 H2. subst nb. rewrite H2 in H1. vm_compute in H1. discriminate.
    - intros H1. exact (proj2 (exp_roundtrip e He H1)). }
  assert (Hs0 : forall n, (0 <= n)%Z -> sbyte d n < 256) by (intros; rewrite sbyte_eq by lia; lia).
  destruct (N.ltb_spec (Z.to_N (Z.abs d)) 128); [|
  destruct (N.ltb_spec (Z.to_N (Z.abs d)) 32768); [|
  destruct (N.ltb_spec (Z.to_N (Z.abs d)) 8388608)]];
  match goal with |- context [size <? ?n] => replace (size <? n) with false by lia end;
  eexists; (split; [reflexivity|]).
  - rewrite dec1, toInt32_small by (specialize (Hs0 0%Z); lia).
    rewrite sbyte_eq by lia. change (2^0)%Z with 1%Z. rewrite Z.div_1_r.
    split; [intros H1; apply pair_equal_spec in H1 as [H1 H2]; split; [|tauto] | intros [H1 H2]; f_equal; [|tauto]];
    match goal with |- context [Z.ltb ?a ?b] => destruct (Z.ltb_spec a b)
      | H1 : context [Z.ltb ?a ?b] |- _ => destruct (Z.ltb_spec a b) end; lia.
  - rewrite dec2, be2 by (apply Hs0; lia).
    rewrite toInt32_small by (pose proof (Hs0 0%Z); pose proof (Hs0 8%Z); lia).
    rewrite !sbyte_eq by lia. change (2^0)%Z with 1%Z. rewrite Z.div_1_r. change (2^8)%Z with 256%Z.
    split; [intros H1; apply pair_equal_spec in H1 as [H1 H2]; split; [|tauto] | intros [H1 H2]; f_equal; [|tauto]];
    match goal with |- context [Z.ltb ?a ?b] => destruct (Z.ltb_spec a b)
      | H1 : context [Z.ltb ?a ?b] |- _ => destruct (Z.ltb_spec a b) end; lia.
  - rewrite dec3, ff24 by (apply Hs0; lia).
    rewrite toInt32_small by (pose proof (Hs0 0%Z); pose proof (Hs0 8%Z); pose proof (Hs0 16%Z);
       destruct (128 <=? sbyte d 16); lia).
    rewrite !sbyte_eq by lia. change (2^0)%Z with 1%Z. rewrite Z.div_1_r. change (2^8)%Z with 256%Z.
    change (2^16)%Z with 65536%Z.
    match goal with |- context [128 <=? ?x] => destruct (N.leb_spec 128 x) end;
    (split; [intros H3; apply pair_equal_spec in H3 as [H3 H4]; split; [|tauto] | intros [H3 H4]; f_equal; [|tauto]];
    match goal with |- context [Z.ltb ?a ?b] => destruct (Z.ltb_spec a b)
      | H1 : context [Z.ltb ?a ?b] |- _ => destruct (Z.ltb_spec a b) end; lia).
  - rewrite dec4, be4 by (apply Hs0; lia).
    rewrite toInt32_small by (pose proof (Hs0 0%Z); pose proof (Hs0 8%Z); pose proof (Hs0 16%Z); pose proof (Hs0 24%Z); lia).
    rewrite !sbyte_eq by lia. change (2^0)%Z with 1%Z. rewrite Z.div_1_r. change (2^8)%Z with 256%Z.
    change (2^16)%Z with 65536%Z. change (2^24)%Z with 16777216%Z.
    (split; [intros H3; apply pair_equal_spec in H3 as [H3 H4]; split; [|tauto] | intros [H3 H4]; f_equal; [|tauto]];
    match goal with |- context [Z.ltb ?a ?b] => destruct (Z.ltb_spec a b)
      | H1 : context [Z.ltb ?a ?b] |- _ => destruct (Z.ltb_spec a b) end; lia).
Qed.
