(* Prop_PS.v - properties C07 to C11: persistent memory. *)
From Verif Require Import Spec_PS Proof_PS Proof_Init Fixture.

(* C07: writing byte i of field f is one persistent write inside the framework's area; it
   reads back as written, and no other byte of any field changes. In particular different
   bytes have different addresses. *)
Theorem C07_fields_disjoint :
  forall A (E : Env A) f i v w, i < fieldLen cfg f -> v < 256 ->
    (exists a, a < psArea cfg /\ effects w (snd (writeField f i v w)) = [OPs a v]) /\
    forall g j, j < fieldLen cfg g ->
      stored (snd (writeField f i v w)) g j = if field_eqb f g && (i =? j) then v else stored w g j.
Proof.
  intros A E f i v w Hi Hv. split; [|apply field_write_effect; assumption].
  destruct (field_layout (A := A) f i Hi) as (a & Ha & H). exists a. auto.
Qed.
Print Assumptions C07_fields_disjoint.

(* an index behind the end of a field writes nothing and reads 0 *)
Theorem C07_index_checked :
  forall A (E : Env A) f i v w, indexed f = true -> fieldLen cfg f <= i ->
    writeField f i v w = (tt, w) /\ stored w f i = 0.
Proof. intros. apply field_index_guard; assumption. Qed.
Print Assumptions C07_index_checked.

Example C07_example :
  let E := exEnv (exCfg oDm) in
  let w := powerUp (exPs (exCfg oDm) 5) regs0 [] in
  let w1 := snd (writeField FDm 9 77 w) in
  9 < fieldLen cfg FDm /\ stored w1 FDm 9 = 77 /\ stored w FDm 9 = 0 /\ stored w1 FGuid 3 = stored w FGuid 3 /\
  psWrites (effects w w1) = [(84, 77)] /\ psArea (exCfg oDm) = 107 /\ fieldLen cfg FUser <= 5.
Proof. vmc. Qed.

(* C08: whatever happens, no persistent write leaves the framework's area, and the memory
   outside of it is what it was at the first power up. *)
Theorem C08_application_memory_untouched :
  forall A (E : Env A), valid_env E -> forall ps0 w, reachableFrom ps0 w ->
    (forall a v, In (OPs a v) (w_out w) -> a < psArea cfg) /\
    (forall a, psArea cfg <= a -> w_ps w a = ps0 a).
Proof. intros A E VE ps0 w H. apply reach_app_memory; assumption. Qed.
Print Assumptions C08_application_memory_untouched.

(* a history with a page write through the last register, a factory restore and a power loss *)
Example C08_example :
  let E := exEnv (exCfg oDm) in
  let ps0 := fun a => if a =? 200 then 42 else exPs (exCfg oDm) 5 a in
  let es := [EOp (OpProcess None);
             EOp (OpProcess (Some (exMsg 0 PT_EXTENDED_PAGE_WRITE 0 [5; 0; 1; 30; 1; 2; 3; 4])));
             EOp (OpProcess (Some (exMsg 0 PT_EXTENDED_PAGE_WRITE 0 [5; 255; 255; 254; 1; 2; 3; 4])));
             EOp (OpApi ARestore); ECrash (OpProcess None) 1 regs0] in
  let w := run es (powerUp ps0 regs0 []) in
  valid_env E /\ reachableFrom ps0 w /\ psArea cfg = 107 /\ length (psWrites (w_out w)) = 108%nat /\
  w_ps w 200 = 42.
Proof.
  cbv zeta. split; [exvalid|]. split.
  - eexists regs0, [], _. split; [|split; [|reflexivity]].
    + intros x. unfold exPs. destruct (x =? 200), (x =? ps_nick (exCfg oDm)), (x =? ps_ctrl (exCfg oDm)); lia.
    + repeat constructor; cbn; lia.
  - vmc.
Qed.

(* C09: the nickname the node uses and reports is the stored one, so that a power cycle keeps
   it (unless the control flags are invalid and the node returns to factory defaults). *)
Theorem C09_nickname_is_persistent :
  forall A (E : Env A), valid_env E -> forall w, reachable w ->
    readNicknameId w = stored w FNick 0 /\
    fst (readRegister 0 145 w) = stored w FNick 0 /\
    (timersNeeded cfg <= c_timers cfg -> stored w FCtrl 0 / 64 = 1 \/ stored w FCtrl 0 / 64 = 2 ->
     forall a wr, readNicknameId (powerUp (w_ps w) a wr) = readNicknameId w).
Proof.
  intros A E VE w H. pose proof (reach_nick VE w H) as HN. split; [exact HN|]. split; [exact HN|].
  intros HT HC a wr. rewrite HN. destruct (reach_inv VE w H) as [ps0 HI].
  apply (powerUp_restarted VE (w_ps w) a wr (i_ps _ w HI) HT). exact HC.
Qed.
Print Assumptions C09_nickname_is_persistent.

(* nickname 5 from memory, then changed to 9 by a message *)
Example C09_example :
  let E := exEnv (exCfg oDm) in
  let es := [EOp (OpProcess None); EOp (OpProcess (Some (exMsg 0 PT_SET_NICKNAME 0 [5; 9])))] in
  let w := run es (powerUp (exPs (exCfg oDm) 5) regs0 []) in
  valid_env E /\ reachable w /\ readNicknameId w = 9 /\ timersNeeded cfg <= c_timers cfg /\ stored w FCtrl 0 / 64 = 1.
Proof.
  cbv zeta. split; [exvalid|]. split.
  - exreach.
  - vmc.
Qed.

(* C10: power is lost after any number k of the effects of any operation of any history.
   The memory then is exactly the memory before with the writes among those k effects applied,
   and the node restarts from it: with the nickname and all other data it holds if the control
   flags are valid, with factory defaults otherwise (Spec_PS.restarted). *)
Theorem C10_power_loss :
  forall A (E : Env A), valid_env E -> timersNeeded cfg <= c_timers cfg ->
  forall w o k a, reachable w -> op_wf o ->
    let done := firstn k (effects w (snd (step o w))) in
    restarted (inMem (memAfter (w_ps w) done) w) (stepE (ECrash o k a) w).
Proof. intros A E VE HT w o k a HR Ho. apply crash_restarted; assumption. Qed.
Print Assumptions C10_power_loss.

(* the same for a power up from arbitrary memory contents, e.g. those left by a power loss
   inside of a previous vscp_core_init *)
Theorem C10_power_up :
  forall A (E : Env A), valid_env E -> timersNeeded cfg <= c_timers cfg ->
  forall ps a wr, (forall x, ps x < 256) ->
    restarted (inMem ps (boot ps a wr [] false false)) (powerUp ps a wr).
Proof. intros A E VE HT ps a wr H. apply powerUp_restarted; assumption. Qed.
Print Assumptions C10_power_up.

(* power is lost in the middle of the page write that changes the control flags (register 131)
   and the user id (132..): the flags are already changed, to an invalid value *)
Example C10_example :
  let E := exEnv (exCfg oDm) in
  let w := run [EOp (OpProcess None)] (powerUp (exPs (exCfg oDm) 5) regs0 []) in
  let o := OpProcess (Some (exMsg 0 PT_PAGE_WRITE 0 [5; 131; 0; 1; 2; 3])) in
  valid_env E /\ reachable w /\ op_wf o /\ timersNeeded cfg <= c_timers cfg /\
  psWrites (effects w (snd (step o w))) = [(3, 0); (4, 1); (5, 2); (6, 3)] /\
  readNicknameId (stepE (ECrash o 2 regs0) w) = 5 /\ readNicknameId (stepE (ECrash o 3 regs0) w) = 255 /\
  stored (stepE (ECrash o 3 regs0) w) FCtrl 0 = 160.
Proof.
  cbv zeta. split; [exvalid|]. split.
  - exreach.
  - split; [exwf|]. vmc.
Qed.

(* C11: after a factory restore from any state the fields hold their configured defaults,
   as far as restoreReaches; the RAM copies follow. Missing for the full property: the bytes
   restoreReaches excludes, for which it is false (next two theorems). *)
Theorem C11_factory_defaults_partial :
  forall A (E : Env A), valid_env E -> forall w,
    let w' := snd (restoreFactory w) in
    (forall f i v, i < fieldLen cfg f -> restoreReaches cfg f i = true ->
       factoryDefault cfg f i = Some v -> stored w' f i = v) /\
    (forall f i, i < fieldLen cfg f -> factoryDefault cfg f i = None -> restoreReaches cfg f i = true -> stored w' f i = stored w f i) /\
    readNicknameId w' = 255 /\ w_page w' = 0 /\ w_alarm w' = 0.
Proof.
  intros A E VE w. cbv zeta. destruct (restore_ram w) as (R1 & R2 & R3 & _). repeat split; try assumption.
  - intros f i v Hi HR HD. rewrite (restore_sets VE w f i Hi), (actual_default f i HR Hi), HD. reflexivity.
  - intros f i Hi HD HR. rewrite (restore_sets VE w f i Hi), (actual_default f i HR Hi), HD. reflexivity.
Qed.
Print Assumptions C11_factory_defaults_partial.

(* the decision matrix keeps old rows *)
Theorem C11_matrix_refuted :
  exists (E : Env Regs), valid_env E /\ exists w i, reachable w /\ i < fieldLen cfg FDm /\
    factoryDefault cfg FDm i = Some 0 /\ stored (snd (restoreFactory w)) FDm i = 170.
Proof.
  pose (E := exEnv (exCfg oDm)). exists E. split; [exvalid|].
  exists (run [EOp (OpProcess None); EOp (OpProcess (Some (exMsg 0 PT_EXTENDED_PAGE_WRITE 0 [5; 0; 1; 25; 170])))]
            (powerUp (exPs (exCfg oDm) 5) regs0 [])), 25. split.
  - exreach.
  - vmc.
Qed.
Print Assumptions C11_matrix_refuted.

(* the family code 0x11223344 is stored as 44 A2 D1 68 instead of 44 33 22 11 *)
Theorem C11_family_code_refuted :
  exists (E : Env Regs), valid_env E /\ exists w, reachable w /\
    map (factoryDefault cfg FFam) [0; 1; 2; 3] = [Some 68; Some 51; Some 34; Some 17] /\
    map (stored (snd (restoreFactory w)) FFam) [0; 1; 2; 3] = [68; 162; 209; 104].
Proof.
  pose (E := exEnv (exCfg oDm)). exists E. split; [exvalid|]. exists (run [] (powerUp (exPs (exCfg oDm) 5) regs0 [])). split.
  - exreach.
  - vmc.
Qed.
Print Assumptions C11_family_code_refuted.

Example C11_example :
  let E := exEnv (exCfg oDm) in
  let w := run [EOp (OpProcess None); EOp (OpProcess (Some (exMsg 0 PT_EXTENDED_PAGE_WRITE 0 [5; 0; 1; 3; 170])))]
            (powerUp (exPs (exCfg oDm) 5) regs0 []) in
  valid_env E /\ stored w FDm 3 = 170 /\ restoreReaches cfg FDm 3 = true /\ stored (snd (restoreFactory w)) FDm 3 = 0 /\
  map (stored (snd (restoreFactory w)) FGuid) [0; 1; 15] = [16; 15; 1].
Proof. cbv zeta. split; [exvalid|]. vmc. Qed.
