(* Prop_Events.v - properties C61 to C65: the event functions of src/events *)
From Coq Require Import String.
From Verif Require Import Proof_Events Proof_Serve Fixture.
Local Open Scope N_scope.

(* C61: an event function called with arguments of the right types is refused if a mandatory buffer is missing, without any
   effect; otherwise it hands exactly one frame to the transport adapter, with its own class and type, normal priority, the
   nickname of the node as origin and at most 8 bytes of data, returns the verdict of the adapter and changes nothing else. No
   undefined behaviour, no byte that was never written. *)
Theorem C61_one_frame_partial :
  forall A (E : Env A) f args w, In f eventTable -> regular f -> fits f args -> representable f args ->
    exists ok v, callSender f args w = (ok, v) /\
      if missing (kinds f) args then ok = false /\ v = w
      else exists n d, n <= 8 /\ length d = 8%nat /\ visible v = visible w /\
        w_out v = OTx (mkMsg 3 (e_class f) (e_type f) (readNicknameId w) (c_hard cfg) n d) ok :: w_out w.
Proof.
  intros A E f args w HT HR HF HV. assert (X := outcome_regular (c_le cfg) f args HT HR HF HV). unfold callSender.
  destruct (missing (kinds f) args); [rewrite X; exists false, w; repeat split|].
  destruct X as (x & -> & HL & _). rewrite bind_get.
  destruct (tx_send (mkMsg (e_prio f) (e_class f) (e_type f) (w_nick w) (c_hard cfg) (N.of_nat (length x)) (x ++ repeat 0 (8 - length x))) w) as (ok & v & EQ & HO & K & _); [cbn [m_size]; lia|].
  exists ok, v. split; [exact EQ|]. exists (N.of_nat (length x)), (x ++ repeat 0 (8 - length x)).
  split; [lia|]. split; [rewrite app_length, repeat_length; lia|]. split; [exact K|]. rewrite HO. rewrite (proj1 (table_in f HT HR)). reflexivity.
Qed.
Print Assumptions C61_one_frame_partial.

Lemma byName nm f : find (fun g => String.eqb (e_name g) nm) eventTable = Some f -> In f eventTable.
Proof. intros H. apply find_some in H. apply H. Qed.
Ltac intable := match goal with |- In ?f _ => apply (byName (e_name f)); vm_compute; reflexivity end.
Ltac fitargs := cbv [fits kinds fit map snd e_params]; repeat split; try lia; try (intros; match goal with H : Some _ = Some _ |- _ => injection H as <- end; cbn [length]; repeat constructor; try lia); try discriminate.
Ltac notdata := let i := fresh in intros i ? H _; do 5 (destruct i as [|i]; [discriminate H|]); destruct i; discriminate H.

(* C61, what is not true: with these arguments a byte that was never written is sent or an array bound is exceeded *)
Theorem C61_defined_refuted :
  exists A (E : Env A), valid_env E /\ exists w, reachable w /\ w_ub w = false /\
    Forall (fun c : Sender * list Arg => let (f, args) := c in
        In f eventTable /\ fits f args /\ missing (kinds f) args = false /\ w_ub (snd (callSender f args w)) = true)
      [(evt_information_sendPreSetActive, [V 1; V 2; V 3; V 4]);
       (evt_information_sendDatetime, [V 1; V 2; V 3; B (Some [4; 5; 6; 7; 8]); V 5]);
       (evt_protocol_sendDropNicknameIdResetDevice, [V 1; R None; R (Some 5)]);
       (evt_protocol_sendReadWritePageResponse, [V 0; B (Some [1; 2; 3; 4; 5; 6; 7]); V 7]);
       (evt_protocol_sendReadWritePageResponse, [V 0; B (Some [1]); V 1]);
       (evt_protocol_sendHighEndServerServiceResponse, [V 1; B (Some [1; 2; 3]); V 3; V 80])].
Proof.
  pose (E := exEnv (exCfg oDm)). exists Regs, E. split; [exvalid|]. exists (run [EOp (OpProcess None)] (powerUp (exPs (exCfg oDm) 5) regs0 [])). split; [exreach|]. split; [vmc|].
  repeat (constructor; [split; [intable|]; split; [fitargs|]; split; vm_compute; reflexivity|]). constructor.
Qed.
Print Assumptions C61_defined_refuted.

(* C61, what is not true: with these arguments the frame that is handed to the adapter claims to have more than 8 bytes *)
Theorem C61_too_long_refuted :
  exists A (E : Env A), valid_env E /\ exists w, reachable w /\
    Forall (fun c : Sender * list Arg => let (f, args) := c in
        In f eventTable /\ fits f args /\ missing (kinds f) args = false /\
        exists m ok, effects w (snd (callSender f args w)) = [OTx m ok] /\ 8 < m_size m)
      [(evt_protocol_sendHighEndServerServiceResponse, [V 1; B (Some [10; 0; 0; 1; 9]); V 5; V 80]);
       (evt_protocol_sendGetEventInterestResponse, [V 0; V 20; V 1; B (Some [1]); V 1; V 2; B (Some [2]); V 1; V 3; B (Some [3]); V 1])].
Proof.
  pose (E := exEnv (exCfg oDm)). exists Regs, E. split; [exvalid|]. exists (run [EOp (OpProcess None)] (powerUp (exPs (exCfg oDm) 5) regs0 [])). split; [exreach|].
  repeat (constructor; [split; [intable|]; split; [fitargs|]; split; [vm_compute; reflexivity|]; eexists _, _; split; [vm_compute; reflexivity|vm_compute; reflexivity]|]). constructor.
Qed.
Print Assumptions C61_too_long_refuted.

(* C61, what is not true: the value of a measurement cannot be INT32_MIN *)
Theorem C61_int32_min_refuted :
  exists A (E : Env A), valid_env E /\ exists w f args, reachable w /\ In f eventTable /\ regular f /\ fits f args /\
    w_ub w = false /\ w_ub (snd (callSender f args w)) = true.
Proof.
  pose (E := exEnv (exCfg oDm)). exists Regs, E. split; [exvalid|].
  exists (run [EOp (OpProcess None)] (powerUp (exPs (exCfg oDm) 5) regs0 [])), evt_measurement_sendTemperature, [V 0; V 1; V 2147483648; V 0].
  split; [exreach|]. split; [intable|]. split; [intros H; apply oddb_spec in H; discriminate H|]. split; [fitargs|]. vmc.
Qed.
Print Assumptions C61_int32_min_refuted.

(* C62: the payload of the frame is the concatenation of the arguments in the order of the declaration, most significant byte
   first; optional arguments that are NULL are left out; what exceeds 8 bytes is cut off. Little endian host, or no floating
   point parameters. *)
Theorem C62_payload_partial :
  forall A (E : Env A) f args w, In f eventTable -> regular f -> fits f args -> ~ isMeasurement f -> missing (kinds f) args = false ->
    c_le cfg = true \/ ~ hasFloat f ->
    exists ok v m, callSender f args w = (ok, v) /\ w_out v = OTx m ok :: w_out w /\ payload m = firstn 8 (fields (kinds f) args).
Proof.
  intros A E f args w HT HR HF HM HX HL.
  assert (HV : representable f args) by (intros i d Q _; exfalso; apply HM; eapply nth_error_In; exact Q).
  assert (X := outcome_regular (c_le cfg) f args HT HR HF HV). rewrite HX in X. unfold callSender.
  destruct X as (x & -> & H8 & _ & HN). specialize (HN HM). rewrite (fieldsH_fields _ _ HL) in HN. rewrite bind_get.
  destruct (tx_send (mkMsg (e_prio f) (e_class f) (e_type f) (w_nick w) (c_hard cfg) (N.of_nat (length x)) (x ++ repeat 0 (8 - length x))) w) as (ok & v & EQ & HO & _); [cbn [m_size]; lia|].
  exists ok, v. eexists. split; [exact EQ|]. split; [exact HO|]. unfold payload. cbn [m_size m_data]. rewrite Nat2N.id, firstn_pad. exact HN.
Qed.
Print Assumptions C62_payload_partial.

(* C62, what is not true: on a big endian host a floating point value is sent least significant byte first *)
Theorem C62_big_endian_refuted :
  exists f args, In f eventTable /\ regular f /\ fits f args /\ ~ isMeasurement f /\ missing (kinds f) args = false /\
    outcome true f args = Sends 4 [63; 128; 0; 0; 0; 0; 0; 0] /\ fields (kinds f) args = [63; 128; 0; 0] /\
    outcome false f args = Sends 4 [0; 0; 128; 63; 0; 0; 0; 0].
Proof.
  exists evt_measurement32_sendTemperature, [V 1065353216]. split; [intable|]. split; [intros H; apply oddb_spec in H; discriminate H|]. split; [fitargs|].
  split; [intros [H|[]]; discriminate H|]. repeat split; vm_compute; reflexivity.
Qed.
Print Assumptions C62_big_endian_refuted.

(* C62, what is not true: these functions send something else than their arguments *)
Theorem C62_payload_refuted :
  exists A (E : Env A), valid_env E /\ exists w, reachable w /\ c_le cfg = true /\
    Forall (fun c : Sender * list Arg * list N => let '(f, args, d) := c in
        In f eventTable /\ fits f args /\ ~ isMeasurement f /\ missing (kinds f) args = false /\
        (exists ok v m, callSender f args w = (ok, v) /\ w_out v = OTx m ok :: w_out w /\ payload m = d) /\ d <> firstn 8 (fields (kinds f) args))
      [(evt_control_sendBigChangeLevel, [V 1; V 2; V 3; V 1000], [1; 2; 3])].
Proof.
  pose (E := exEnv (exCfg oDm)). exists Regs, E. split; [exvalid|]. exists (run [EOp (OpProcess None)] (powerUp (exPs (exCfg oDm) 5) regs0 [])). split; [exreach|]. split; [reflexivity|].
  repeat (constructor; [split; [intable|]; split; [fitargs|]; split; [intros H; cbv [isMeasurement kinds map snd e_params] in H; cbn [In] in H; repeat (destruct H as [H|H]; [discriminate H|]); exact H|];
    split; [vm_compute; reflexivity|]; split; [eexists _, _, _; split; [apply surjective_pairing|]; split; [vm_compute; reflexivity|vm_compute; reflexivity]|intros H; vm_compute in H; discriminate H]|]). constructor.
Qed.
Print Assumptions C62_payload_refuted.

(* C63: a measurement is sent as format byte (or index, zone and sub zone) and normalised integer: the exponent and the least
   number of bytes whose signed range contains the value, two's complement, most significant byte first *)
Theorem C63_measurement_partial :
  forall A (E : Env A) f args w, In f eventTable -> isMeasurement f -> fits f args -> representable f args ->
    exists ok v m, callSender f args w = (ok, v) /\ w_out v = OTx m ok :: w_out w /\ measured (kinds f) args (payload m).
Proof.
  intros A E f args w HT HM HF HV. assert (HR : regular f) by (apply measurement_regular; assumption).
  assert (X := outcome_regular (c_le cfg) f args HT HR HF HV).
  destruct (table_in f HT HR) as (_ & [HS|HMM]); [exfalso; exact (scheme_noData f HS HM)|]. rewrite (meas_missing f args HMM HF) in X. unfold callSender.
  destruct X as (x & -> & H8 & HX & _). specialize (HX HM). rewrite bind_get.
  destruct (tx_send (mkMsg (e_prio f) (e_class f) (e_type f) (w_nick w) (c_hard cfg) (N.of_nat (length x)) (x ++ repeat 0 (8 - length x))) w) as (ok & v & EQ & HO & _); [cbn [m_size]; lia|].
  exists ok, v. eexists. split; [exact EQ|]. split; [exact HO|]. unfold payload. cbn [m_size m_data]. rewrite Nat2N.id, firstn_pad. exact HX.
Qed.
Print Assumptions C63_measurement_partial.

(* C63: a receiver that decodes the value with vscp_data_coding_normalizedIntegerToInt32 obtains value and exponent, unless the
   value is in -32767 .. -1 or the exponent is -128 (see C04) *)
Theorem C63_roundtrip_partial :
  forall d e l, d < 2 ^ 32 -> d <> 2 ^ 31 -> e < 256 -> coded d e l ->
    (0 <= toInt32 d \/ toInt32 d <= -32768)%Z -> toInt8 e <> (-128)%Z ->
    normalizedIntegerToInt32 l = (toInt32 d, toInt8 e).
Proof. exact coded_roundtrip. Qed.
Print Assumptions C63_roundtrip_partial.

(* C64: for every function with a zone parameter, the bytes at vscp_util_getZoneIndex and behind of the frame are the zone and the
   sub zone argument: this is where the decision matrix of a receiving node looks for them *)
Theorem C64_zone_partial :
  forall A (E : Env A) f args w, In f eventTable -> regular f -> fits f args -> representable f args -> missing (kinds f) args = false ->
    In "zone"%string (map fst (e_params f)) -> zoneless f = false ->
    exists ok v m z s, callSender f args w = (ok, v) /\ w_out v = OTx m ok :: w_out w /\
      argument "zone" (e_params f) args = Some z /\ subZoneArg f args = Some s /\
      let i := N.to_nat (getZoneIndex (m_class m) (m_type m)) in
      nth_error (payload m) i = Some z /\ nth_error (payload m) (S i) = Some s.
Proof.
  intros A E f args w HT HR HF HV HX HI HZ. assert (X := outcome_regular (c_le cfg) f args HT HR HF HV). rewrite HX in X. unfold callSender.
  destruct X as (x & -> & H8 & HM & HN). rewrite bind_get.
  destruct (tx_send (mkMsg (e_prio f) (e_class f) (e_type f) (w_nick w) (c_hard cfg) (N.of_nat (length x)) (x ++ repeat 0 (8 - length x))) w) as (ok & v & EQ & HO & _); [cbn [m_size]; lia|].
  destruct (zone_bytes (c_le cfg) f args x HT HR HF HZ HI HM HN) as (z & s & AZ & AS & NZ & NS).
  exists ok, v. eexists. exists z, s. split; [exact EQ|]. split; [exact HO|]. split; [exact AZ|]. split; [exact AS|]. unfold payload. cbn [m_size m_data m_class m_type].
  rewrite Nat2N.id, firstn_pad. split; assumption.
Qed.
Print Assumptions C64_zone_partial.

(* C64, what is not true: for these functions a receiving node looks for the zone elsewhere or nowhere; a row that matches the
   zone is not triggered by the event *)
Theorem C64_zone_refuted :
  Forall (fun c : Sender * N * N => let '(f, p, i) := c in
      In f eventTable /\ position "zone" (e_params f) = Some p /\ getZoneIndex (e_class f) (e_type f) = i /\ p <> i)
    [(evt_multimedia_sendPlayback, 1, 255); (evt_configuration_sendLoadConfiguration, 1, 255); (evt_error_sendSuccess, 1, 255); (evt_ir_sendVscpAbstractRemoteFormat, 2, 1)].
Proof. repeat (constructor; [split; [intable|]; split; [reflexivity|]; split; [reflexivity|discriminate]|]). constructor. Qed.
Print Assumptions C64_zone_refuted.

(* C65: an event identifies the function: no two functions send the same class and type, all functions of a file send the same
   class and no other file uses it *)
Theorem C65_distinct :
  forall f g, In f eventTable -> In g eventTable -> e_class f = e_class g -> e_type f = e_type g -> f = g.
Proof. exact distinct. Qed.
Print Assumptions C65_distinct.
Theorem C65_class :
  forall i j m1 m2 f g, nth_error eventModules i = Some m1 -> nth_error eventModules j = Some m2 -> In f m1 -> In g m2 ->
    (e_class f = e_class g <-> i = j) /\ e_class f < 512 /\ e_type f < 256.
Proof. exact classes. Qed.
Print Assumptions C65_class.

Example C61_example :
  let E := exEnv (exCfg oDm) in
  let w := run [EOp (OpProcess None)] (powerUp (exPs (exCfg oDm) 5) regs0 []) in
  let f := evt_diagnostic_sendShortCircuit in let args := [V 1; V 2; V 3; B (Some [4; 5; 6; 7; 8; 9; 10]); V 7] in
  let g := evt_control_sendSetSecurityPin in
  valid_env E /\ reachable w /\ In f eventTable /\ regular f /\ fits f args /\ missing (kinds f) args = false /\ ~ isMeasurement f /\ ~ hasFloat f /\
  effects w (snd (callSender f args w)) = [OTx (exMsg 506 10 5 [1; 2; 3; 4; 5; 6; 7; 8]) true] /\
  zoneless f = false /\ argument "zone" (e_params f) args = Some 2 /\
  In g eventTable /\ regular g /\ fits g [V 1; V 2; V 3; B None; V 0] /\ missing (kinds g) [V 1; V 2; V 3; B None; V 0] = true /\
  fits g [V 1; V 2; V 3; B (Some [7]); V 1] /\ missing (kinds g) [V 1; V 2; V 3; B (Some [7]); V 1] = false.
Proof.
  cbv zeta. split; [exvalid|]. split; [exreach|]. split; [intable|]. split; [intros H; apply oddb_spec in H; discriminate H|]. split; [fitargs|]. split; [reflexivity|].
  split; [intros H; cbv [isMeasurement kinds map snd e_params] in H; cbn in H; repeat (destruct H as [H|H]; [discriminate H|]); exact H|].
  split; [intros [H|H]; cbv [isMeasurement kinds map snd e_params] in H; cbn in H; repeat (destruct H as [H|H]; [discriminate H|]); exact H|].
  split; [vm_compute; reflexivity|]. split; [reflexivity|]. split; [reflexivity|]. split; [intable|]. split; [intros H; apply oddb_spec in H; discriminate H|].
  split; [fitargs|]. split; [reflexivity|]. split; [fitargs|reflexivity].
Qed.
Example C63_example :
  let E := exEnv (exCfg oDm) in
  let w := run [EOp (OpProcess None)] (powerUp (exPs (exCfg oDm) 5) regs0 []) in
  let f := evt_measurement_sendTemperature in let args := [V 1; V 1; V 275; V 255] in
  valid_env E /\ reachable w /\ In f eventTable /\ isMeasurement f /\ fits f args /\ representable f args /\
  toInt8 255 = (-1)%Z /\ effects w (snd (callSender f args w)) = [OTx (exMsg 10 6 5 [137; 129; 1; 19]) true] /\
  normalizedIntegerToInt32 [129; 1; 19] = (275, -1)%Z.
Proof.
  cbv zeta. split; [exvalid|]. split; [exreach|]. split; [intable|]. split; [cbn; tauto|]. split; [fitargs|].
  split; [intros i d H H1; do 4 (destruct i as [|i]; [try discriminate H; injection H1 as <-; discriminate|]); destruct i; discriminate H|]. repeat split; vm_compute; reflexivity.
Qed.
