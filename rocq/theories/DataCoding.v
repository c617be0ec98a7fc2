(* DataCoding.v - model of src/vscp_data_coding.c *)
From Verif Require Export Util.

(* vscp_data_coding.c:97-106 vscp_data_coding_getFormatByte *)
Definition getFormatByte (repr unit index : N) : N :=
  u8 (N.lor (N.lor (N.shiftl (N.land repr 7) 5)
                   (N.shiftl (N.land unit 3) 3))
            (N.land index 7)).

(* vscp_data_coding.c:322-330 vscp_data_coding_getNormalizerByte *)
Definition getNormalizerByte (sign magnitude : N) : N :=
  u8 (N.lor (N.shiftl (N.land sign 1) 7) (N.land magnitude 127)).

(* (uint8_t)((data >> n) & 0xff) of an int32_t; arithmetic shift (gcc/clang/avr-gcc). *)
Definition sbyte (d : Z) (n : Z) : N := Z.to_N (Z.land (Z.shiftr d n) 255).

(* int32_t range *)
Definition int32 (d : Z) : Prop := (-2147483648 <= d < 2147483648)%Z.
Definition int8 (e : Z) : Prop := (-128 <= e < 128)%Z.

(* conversion of a 32 bit pattern to int32_t (two's complement) *)
Definition toInt32 (x : N) : Z :=
  let y := Z.of_N (u32 x) in
  if (y <? 2147483648)%Z then y else (y - 4294967296)%Z.

(* vscp_data_coding.c:132 dataMagnitude; -1 * INT32_MIN overflows (undefined). *)
Definition dataMagnitude (d : Z) : UB N :=
  if (d =? -2147483648)%Z then Undef
  else Ok (Z.to_N (Z.abs d)).

(* vscp_data_coding.c:131 expMagnitude (uint8_t) *)
Definition expMagnitude (e : Z) : N := u8 (Z.to_N (Z.abs e)).

(* vscp_data_coding.c:127-212 vscp_data_coding_int32ToNormalizedInteger.
   Result: the bytes written to codedData; [] is the return value 0 (nothing written). *)
Definition int32ToNormalizedInteger (d e : Z) (codedDataSize : N) : UB (list N) :=
  match dataMagnitude d with
  | Undef => Undef
  | Ok mag =>
      let needed := if mag <? 128 then 2
                    else if mag <? 32768 then 3
                    else if mag <? 8388608 then 4
                    else 5 in
      if codedDataSize <? needed then Ok []
      else
        let nb := getNormalizerByte (if (e <? 0)%Z then 1 else 0) (expMagnitude e) in
        if mag <? 128 then Ok [nb; sbyte d 0]
        else if mag <? 32768 then Ok [nb; sbyte d 8; sbyte d 0]
        else if mag <? 8388608 then Ok [nb; sbyte d 16; sbyte d 8; sbyte d 0]
        else Ok [nb; sbyte d 24; sbyte d 16; sbyte d 8; sbyte d 0]
  end.

(* vscp_data_coding.c:223-309 vscp_data_coding_normalizedIntegerToInt32; codedDataSize is the
   length of the list (callers pass a buffer of that many bytes).
   ((int32_t)byte) << 24 for byte >= 0x80 is taken with its two's complement result. *)
Definition normalizedIntegerToInt32 (coded : list N) : Z * Z :=
  match coded with
  | n :: rest =>
      if (5 <? N.of_nat (length coded)) then (0, 0)%Z
      else
        let e0 := Z.of_N (N.land n 127) in
        let e := if N.testbit n 7 then (-1 * e0)%Z else e0 in
        let d := match rest with
                 | [a] => toInt32 a
                 | [a; b] => toInt32 (N.lor (N.shiftl a 8) b)
                 | [a; b; c] =>
                     toInt32 (N.lor (N.lor (N.lor (if N.testbit a 7 then 4278190080 else 0)
                                                  (N.shiftl a 16))
                                           (N.shiftl b 8)) c)
                 | [a; b; c; d] =>
                     toInt32 (N.lor (N.lor (N.lor (N.shiftl a 24) (N.shiftl b 16))
                                           (N.shiftl c 8)) d)
                 | _ => 0%Z
                 end in
        (d, e)
  | [] => (0, 0)%Z
  end.
