(* Spec_Events.v - what an event function promises: the documented parameters, in the order of the declaration, most
   significant byte first, are the payload *)
From Coq Require Import String.
From Verif Require Export Events Spec_DataCoding.

(* the w bytes of v, most significant byte first *)
Fixpoint be (w : nat) (v : N) : list N := match w with O => [] | S k => be k (v / 256) ++ [v mod 256] end.
Definition beN (w v : N) : list N := be (N.to_nat w) v.

(* arguments that fit the parameters: numbers in the range of their type, buffers of (at least) the given size *)
Fixpoint fit (ps : list PKind) (args : list Arg) : Prop :=
  match ps, args with
  | [], [] => True
  | PInt w :: ps, V v :: r => v < 2 ^ (8 * w) /\ fit ps r
  | PFloat :: ps, V v :: r => v < 2 ^ 32 /\ fit ps r
  | PDouble :: ps, V v :: r => v < 2 ^ 64 /\ fit ps r
  | PUnit :: ps, V v :: r => v < 256 /\ fit ps r
  | PData :: ps, V v :: r => v < 2 ^ 32 /\ fit ps r
  | PExp :: ps, V v :: r => v < 256 /\ fit ps r
  | PRef w :: ps, R o :: r => (forall v, o = Some v -> v < 2 ^ (8 * w)) /\ fit ps r
  | PBuf _ :: PSize :: ps, B o :: V n :: r => n < 256 /\ (forall l, o = Some l -> n <= N.of_nat (length l) /\ bytes l) /\ fit ps r
  | _, _ => False
  end.
Definition kinds (f : Sender) : list PKind := map snd (e_params f).
Definition fits (f : Sender) (args : list Arg) : Prop := fit (kinds f) args.

(* a mandatory buffer is missing or empty *)
Fixpoint missing (ps : list PKind) (args : list Arg) : bool :=
  match ps, args with
  | PBuf true :: _ :: ps, B None :: _ :: r => true
  | PBuf true :: _ :: ps, B (Some _) :: V n :: r => (n =? 0) || missing ps r
  | _ :: ps, _ :: r => missing ps r
  | _, _ => false
  end.

(* the concatenation of the arguments; optional ones that are NULL contribute nothing *)
Fixpoint fields (ps : list PKind) (args : list Arg) : list N :=
  match ps, args with
  | PInt w :: ps, V v :: r => beN w v ++ fields ps r
  | PFloat :: ps, V v :: r => beN 4 v ++ fields ps r
  | PDouble :: ps, V v :: r => beN 8 v ++ fields ps r
  | PRef w :: ps, R (Some v) :: r => beN w v ++ fields ps r
  | PBuf _ :: PSize :: ps, B (Some l) :: V n :: r => firstn (N.to_nat n) l ++ fields ps r
  | PBuf _ :: PSize :: ps, B None :: _ :: r => fields ps r
  | _ :: ps, _ :: r => fields ps r
  | _, _ => []
  end.

(* a measurement: value and exponent as normalised integer (least number of bytes, two's complement), see C04, C05 *)
Definition coded (d e : N) (l : list N) : Prop :=
  exists n pl k, l = n :: pl /\ n < 256 /\ bytes pl /\ N.of_nat (length pl) = k /\ leastPayload (toInt32 d) k /\
    Z.of_N (bigEndian pl) = (toInt32 d mod 2 ^ (8 * Z.of_N k))%Z /\
    n = (if (toInt8 e <? 0)%Z then 128 else 0) + Z.to_N (Z.abs (toInt8 e)) mod 128.

(* position in the payload of the parameter with the given name *)
Definition width (k : PKind) : N := match k with PInt w => w | PFloat => 4 | PDouble => 8 | PRef w => w | _ => 0 end.
Fixpoint position (n : string) (ps : list (string * PKind)) : option N :=
  match ps with [] => None | (m, k) :: r => if String.eqb m n then Some 0 else match position n r with Some x => Some (x + width k) | None => None end end.
(* the argument for the parameter with the given name *)
Fixpoint argument (n : string) (ps : list (string * PKind)) (args : list Arg) : option N :=
  match ps, args with
  | (m, _) :: ps, a :: r => if String.eqb m n then match a with V v => Some v | _ => None end else argument n ps r
  | _, _ => None
  end.

(* the functions that do not send what their documentation says, see C61_*_refuted, C62_*_refuted *)
Definition odd : list string := [
  "vscp_evt_control_sendBigChangeLevel"; "vscp_evt_information_sendPreSetActive"; "vscp_evt_information_sendDatetime";
  "vscp_evt_protocol_sendDropNicknameIdResetDevice"; "vscp_evt_protocol_sendReadWritePageResponse";
  "vscp_evt_protocol_sendHighEndServerServiceResponse"; "vscp_evt_protocol_sendGetEventInterestResponse"]%string.
Definition regular (f : Sender) : Prop := ~ In (e_name f) odd.
(* functions that send a measurement as normalised integer *)
Definition isMeasurement (f : Sender) : Prop := In PData (kinds f).
Definition hasFloat (f : Sender) : Prop := In PFloat (kinds f) \/ In PDouble (kinds f).
(* the value of a measurement is not INT32_MIN *)
Definition representable (f : Sender) (args : list Arg) : Prop :=
  forall i d, nth_error (kinds f) i = Some PData -> nth_error args i = Some (V d) -> d <> 2 ^ 31.
(* the payload of a measurement: format byte (normalised integer, unit, sensor index) or index, zone and sub zone, then the
   coded value *)
Definition measured (ks : list PKind) (args : list Arg) (x : list N) : Prop :=
  match ks, args with
  | [PInt _; PUnit; PData; PExp], [V i; V u; V d; V e] => exists l, x = (128 + 8 * (u mod 4) + i mod 8) :: l /\ coded d e l
  | [PInt _; PInt _; PInt _; PData; PExp], [V i; V z; V s; V d; V e] => exists l, x = i :: z :: s :: l /\ coded d e l
  | _, _ => False
  end.
(* the sub zone parameter is spelled in two ways *)
Definition subZoneArg (f : Sender) (args : list Arg) : option N :=
  match argument "subZone"%string (e_params f) args with Some v => Some v | None => argument "subzone"%string (e_params f) args end.
(* functions whose zone is not where a receiving node looks for it, see C64_*_refuted *)
Definition zoneless (f : Sender) : bool :=
  (e_class f =? 120) || (e_class f =? 40) || ((e_class f =? 508) && (e_type f =? 0)) || ((e_class f =? 110) && (e_type f =? 48)).
