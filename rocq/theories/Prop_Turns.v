(* Prop_Turns.v - decision matrix and rule set in a whole process call, for every application: C15, C21 *)
From Verif Require Import Proof_Turns Fixture.

(* C15, vscp_core_process, every application, every event (protocol events included): the event is given to the application,
   then the rows of the matrix are evaluated one after the other (Spec_Turns.v: rowsRun), each in the memory that the
   application's event callout, respectively the actions of the rows before, have left. No other action is executed, but by the
   rule set, if there is one. *)
Theorem C15_whole_call :
  forall A (E : Env A), valid_env E -> c_dm cfg = true ->
  forall w rd m, reachable w -> op_wf (OpProcess rd) -> isActive w = true -> received rd w = Some m ->
  exists before matrix rules after,
    effects w (snd (process rd w)) = before ++ matrix ++ rules ++ after ++ [ORet true] /\
    actions before = [] /\ actions after = [] /\ (c_dm_ng cfg = false -> rules = []) /\
    (m_class m <> 0 -> exists calls, before = [OProcess; ORx m; OEvent m] ++ calls /\ Forall noEvent calls) /\
    Forall noEvent (matrix ++ rules ++ after) /\ (Forall noWrite after \/ exists t, after = OHeartbeatCustom :: t) /\
    rowsRun w m (Nseq (c_dm_rows cfg)) (memAfter (w_ps w) before) matrix.
Proof.
  intros A E VE HD w rd m HR Hrd HA Hm.
  destruct (process_trace VE rd w m HR ltac:(intros x ->; exact Hrd) HA Hm) as (b & lm & lr & la & H1 & H2 & H3 & H4 & H5 & H6 & H7 & H8).
  rewrite HD in H7. exists b, lm, lr, la. repeat split; try assumption. intros HN. cbv zeta in H8. rewrite HN in H8. exact H8.
Qed.
Print Assumptions C15_whole_call.

(* the application restores the factory defaults in its first action, which clears the first bytes of the matrix *)
Definition turnsEnv (c : Config) : Env Regs := {|
  cfg := c; app_read := fun a p r => (fst a p r, fst a);
  app_write := fun a p r v => (v, [], fun p' r' => if (p' =? p) && (r' =? r) then v else fst a p' r');
  app_restore := fun a _ _ => 0; app_pages := fun _ => 2; app_boot_alg := fun _ => 1; app_guid := fun _ i => 16 + i;
  app_prot := fun a _ => (false, [], fst a); app_event := fun a _ => ([], fst a);
  app_action := fun a _ _ _ => ([ARestore], fst a); app_hb := fun a => ([], fst a) |}.
Lemma turnsEnv_valid c : valid_env (exEnv c) -> valid_env (turnsEnv c).
Proof. intros H. split; [exact (ve_cfg _ H)| | | | |]; intros; cbn; repeat constructor. Qed.
(* three matching rows: without the restore three actions would be executed *)
Definition turnRows : list N := [0; 128; 0; 0; 0; 0; 5; 1;   0; 128; 0; 0; 0; 0; 6; 2;   0; 128; 0; 0; 0; 0; 7; 3].
Example C15_whole_call_example :
  let E := turnsEnv (exCfg oDm) in let m := exMsg 20 9 9 [0; 7; 8] in
  let w := run [EOp (OpProcess None)] (powerUp (exMem (exCfg oDm) 5 (ps_dm (exCfg oDm)) turnRows) regs0 []) in
  valid_env E /\ c_dm cfg = true /\ reachable w /\ isActive w = true /\ received (Some m) w = Some m /\
  matrixActions w m = [(5, 1, m); (6, 2, m); (7, 3, m)] /\ actions (effects w (snd (process (Some m) w))) <> matrixActions w m.
Proof. cbv zeta. split; [apply turnsEnv_valid; exvalid|]. split; [reflexivity|]. split; [exreachM|]. split; [reflexivity|]. split; [reflexivity|]. split; [vm_compute; reflexivity|]. vm_compute. discriminate. Qed.

(* C21, vscp_core_process, every application, every event and all contents of the rule set whose first rule has not size 0 when
   it is evaluated: after the matrix the stored rules are evaluated one after the other (rulesRun), each in the memory that
   the actions before have left. acts is the meaning of a rule as byte string; it is that of Spec_NG.v for well-formed rules. *)
Theorem C21_whole_call :
  exists acts : Msg -> list N -> list (N * N * Msg),
  (forall m r, acts m r = [] \/ acts m r = [(nth 1 r 0, nth 2 r 0, m)]) /\
  (forall m r, msg_wf m -> ruleOk r -> acts m (ruleCode r) = ruleActions m r) /\
  forall A (E : Env A), valid_env E -> c_dm_ng cfg = true ->
  forall w rd m, reachable w -> op_wf (OpProcess rd) -> isActive w = true -> received rd w = Some m ->
  exists before matrix rules after,
    effects w (snd (process rd w)) = before ++ matrix ++ rules ++ after ++ [ORet true] /\
    actions before = [] /\ actions after = [] /\
    (m_class m <> 0 -> exists calls, before = [OProcess; ORx m; OEvent m] ++ calls /\ Forall noEvent calls) /\
    Forall noEvent (matrix ++ rules ++ after) /\ (Forall noWrite after \/ exists t, after = OHeartbeatCustom :: t) /\
    (if c_dm cfg then rowsRun w m (Nseq (c_dm_rows cfg)) (memAfter (w_ps w) before) matrix else matrix = []) /\
    let ps := memAfter (w_ps w) (before ++ matrix) in
    (ngByte (inMem ps w) 0 <> 0 -> ngByte (inMem ps w) 1 <> 0) -> rulesRun w m acts (N.to_nat (ngByte (inMem ps w) 0)) 1 [] ps rules.
Proof.
  exists bytesActions. split; [|split].
  - intros m r. unfold bytesActions. destruct (ruleDecides m r); auto.
  - intros. apply bytesActions_code; assumption.
  - intros A E VE HN w rd m HR Hrd HA Hm.
    destruct (process_trace VE rd w m HR ltac:(intros x ->; exact Hrd) HA Hm) as (b & lm & lr & la & H1 & H2 & H3 & H4 & H5 & H6 & H7 & H8).
    cbv zeta in *. rewrite HN in H8. exists b, lm, lr, la. repeat split; assumption.
Qed.
Print Assumptions C21_whole_call.

(* C21 is false for applications that restore the factory defaults in an action: the rule set is cleared while it is
   evaluated, and the bytes of the cleared rules, being rules of size 0, execute the first rule again. *)
Theorem C21_restore_refuted :
  exists (E : Env Regs), valid_env E /\ c_dm_ng cfg = true /\ exists w r1 r2 m, reachable w /\ storesRules w [r1; r2] /\
    isActive w = true /\ received (Some m) w = Some m /\ ruleActions m r1 = [(5, 1, m)] /\ ruleActions m r2 = [(6, 2, m)] /\
    actions (effects w (snd (process (Some m) w))) = [(5, 1, m); (5, 1, m)].
Proof.
  pose (E := turnsEnv (exCfg oNg)). exists E. split; [apply turnsEnv_valid; exvalid|]. split; [reflexivity|].
  pose (r1 := mkRule 5 1 (Last (mkCond Equal PType 9))). pose (r2 := mkRule 6 2 (Last (mkCond Equal PType 9))).
  exists (run [EOp (OpProcess None)] (powerUp (exMem (exCfg oNg) 5 (ps_ng (exCfg oNg)) (ruleSetCode [r1; r2])) regs0 [])), r1, r2, (exMsg 20 9 9 [0; 7; 8]).
  split; [exreachM|]. split.
  { split; [cbn; lia|]. split; [repeat constructor; cbn; lia|]. split; [vm_compute; discriminate|].
    intros i Hi. match type of Hi with (_ < ?n)%nat => let k := eval vm_compute in n in change n with k in Hi end. do 13 (destruct i as [|i]; [vm_compute; reflexivity|]). lia. }
  vmc.
Qed.
Print Assumptions C21_restore_refuted.
