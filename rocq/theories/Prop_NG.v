(* Prop_NG.v - decision matrix next generation: C19, C20, C21, C22 *)
From Verif Require Import Proof_NGP Fixture.

(* C19: whatever the rule set contains, evaluating an event executes at most as many actions as
   the announced number of rules; it reads neither outside of the rule buffer nor uninitialised
   bytes of it, provided the first rule has not size 0 (refuted below without this proviso).
   The model function is total, so evaluation terminates. *)
Theorem C19_rule_set_safety_partial :
  forall A (E : Env A), valid_env E -> forall w m, reachable w -> (ngByte w 0 <> 0 -> ngByte w 1 <> 0) ->
    let w' := snd (ng_executeActions actionExecute m w) in
    w_ngub w' = w_ngub w /\ N.of_nat (length (actions (effects w w'))) <= ngByte w 0.
Proof.
  intros A E VE w m HR H1 w'. destruct (reach_inv VE w HR) as [ps0 HI].
  assert (HB : ngByte w 0 < 256) by (unfold ngByte, stored; cbn [readField]; unfold ps_readNG, psReadIdx; destruct (0 <? _); [apply (i_ps _ _ HI)|cbn; lia]).
  destruct (exec_safe m w HB H1) as (U & l & L1 & L2). split; [exact U|].
  unfold w'. rewrite (effects_app _ _ l L1). rewrite <- L2. apply N.eq_le_incl. f_equal. clear.
  induction l as [|o l IH]; [reflexivity|]. cbn [rev]. rewrite actions_app, app_length, IH. change (o :: l) with ([o] ++ l).
  rewrite (actions_app [o] l), app_length. destruct o; cbn; lia.
Qed.
Print Assumptions C19_rule_set_safety_partial.

(* the decision about a rule depends on the bytes of this rule only, whatever is stored behind *)
Theorem C19_decision_reads_rule_only :
  forall (r : list N) (behind : list (option N)) m,
    let d := ng_getDecisionResult (map Some r ++ behind) (N.of_nat (length r)) m in
    d = ng_getDecisionResult (map Some r) (N.of_nat (length r)) m /\ dec_ub d = false.
Proof. intros r b m. destruct (decision_indep r b m) as [H1 H2]. split; assumption. Qed.
Print Assumptions C19_decision_reads_rule_only.

Definition ngCfg := exCfg oNg.
(* three rules; the second is malformed (unknown operator), the third has a zone condition *)
Definition ngBytes : list N := [3;  7; 5; 77; 17; 2; 9; 0;  6; 6; 78; 9; 0; 1;  6; 7; 79; 1; 6; 7].
Example C19_example :
  let E := exEnv ngCfg in
  let w := run [EOp (OpProcess None)] (powerUp (exMem ngCfg 5 (ps_ng ngCfg) ngBytes) regs0 []) in
  valid_env E /\ reachable w /\ ngByte w 0 = 3 /\ ngByte w 1 = 7 /\
  actions (effects w (snd (ng_executeActions actionExecute (exMsg 20 9 9 [0; 7; 8]) w))) = [(7, 79, exMsg 20 9 9 [0; 7; 8])].
Proof. cbv zeta. split; [exvalid|]. split; [exreachM|]. vmc. Qed.

(* a first rule of size 0 makes the node read the uninitialised rule buffer *)
Theorem C19_uninitialised_read_refuted :
  exists (E : Env Regs), valid_env E /\ exists w m, reachable w /\ isActive w = true /\ msg_wf m /\ m_class m <> 0 /\
    w_ngub w = false /\ w_ngub (snd (process (Some m) w)) = true.
Proof.
  pose (E := exEnv ngCfg). exists E. split; [exvalid|].
  exists (run [EOp (OpProcess None)] (powerUp (exMem ngCfg 5 (ps_ng ngCfg) [1; 0]) regs0 [])), (exMsg 20 9 9 [0; 7; 8]).
  split; [exreachM|]. split; [reflexivity|]. split; [repeat split; cbn; try lia; repeat constructor; lia|]. vmc.
Qed.
Print Assumptions C19_uninitialised_read_refuted.

(* C20, for every application and every event: a stored rule executes its action iff its expression holds for the event; the expression
   c1 op1 (c2 op2 (...)) is read from the rule's bytes by the format of vscp_dm_ng.h (Spec_NG.v). *)
Theorem C20_rule_meaning :
  forall A (E : Env A) (w : World A) r m, storesRules w [r] -> msg_wf m ->
    actions (effects w (snd (ng_executeActions actionExecute m w))) =
    if negb (ru_action r =? 0) && holds m (ru_expr r) then [(ru_action r, ru_par r, m)] else [].
Proof.
  intros A E w r m HS Hm. destruct (stored_actions m w [r] Hm HS) as [S1 S2].
  assert (HB : ngByte w 0 = 1) by (destruct HS as (_ & _ & _ & H); apply (H 0%nat); cbn; lia).
  destruct (exec_one m w HB) as (l & L1 & L2); [apply S2; lia|]. rewrite (effects_app _ _ l L1), L2.
  rewrite (storedRules_code w [r] HS). cbn [map flat_map]. rewrite app_nil_r. pose proof HS as (_ & HO & _). inversion HO; subst. apply bytesActions_code; assumption.
Qed.
Print Assumptions C20_rule_meaning.

(* C20: the expression has the same value for events that are equal on the wire and contain the
   zone bytes their class and type promise, whatever is left in the receive buffer. *)
Theorem C20_wire :
  forall m1 m2 e, onWire m1 m2 -> zoneComplete m1 -> holds m1 e = holds m2 e.
Proof. exact holds_wire. Qed.
Print Assumptions C20_wire.

(* (CLASS = 20 AND (ZONE <= 7 OR DATA3 has bit 2 set)) *)
Definition exRule : Rule := mkRule 5 77 (And (mkCond Equal PClass 20) (Or (mkCond LowerEqual PZone 7) (Last (mkCond Mask (PByteAt 3) 4)))).
Example C20_example :
  let E := exEnv ngCfg in
  let w := run [EOp (OpProcess None)] (powerUp (exMem ngCfg 5 (ps_ng ngCfg) (ruleSetCode [exRule])) regs0 []) in
  valid_env E /\ reachable w /\ storesRules w [exRule] /\
  holds (exMsg 20 9 9 [0; 7; 8]) (ru_expr exRule) = true /\ holds (exMsg 20 9 9 [0; 8; 8; 6]) (ru_expr exRule) = true /\
  holds (exMsg 20 9 9 [0; 8; 8; 3]) (ru_expr exRule) = false /\ holds (exMsg 10 6 9 [4; 4; 4; 4]) (ru_expr exRule) = false.
Proof.
  cbv zeta. split; [exvalid|]. split; [exreachM|]. split.
  - split; [cbn; lia|]. split; [repeat constructor; cbn; lia|]. split; [vm_compute; discriminate|].
    intros i Hi. change (length (ruleSetCode [exRule])) with 15%nat in Hi. do 15 (destruct i as [|i]; [vm_compute; reflexivity|]). lia.
  - vmc.
Qed.

Example C20_wire_example :
  let m1 := mkMsg 3 20 9 9 false 3 [0; 7; 8; 0; 0; 0; 0; 0] in let m2 := mkMsg 3 20 9 9 false 3 [0; 7; 8; 6; 5; 4; 3; 2] in
  onWire m1 m2 /\ zoneComplete m1 /\ m1 <> m2 /\ holds m1 (ru_expr exRule) = true.
Proof.
  cbv zeta. split; [repeat split|]. split; [|split; [discriminate|reflexivity]].
  intros k H. vm_compute in H. injection H as <-. vm_compute. discriminate.
Qed.

(* the zone of an event without zone bytes is taken from behind its payload *)
Theorem C20_short_event_refuted :
  exists (E : Env Regs), valid_env E /\ exists w r m1 m2, reachable w /\ storesRules w [r] /\ msg_wf m1 /\ msg_wf m2 /\
    m_class m1 = m_class m2 /\ m_type m1 = m_type m2 /\ m_oaddr m1 = m_oaddr m2 /\ m_hard m1 = m_hard m2 /\ m_prio m1 = m_prio m2 /\ payload m1 = payload m2 /\
    length (actions (effects w (snd (ng_executeActions actionExecute m1 w)))) <> length (actions (effects w (snd (ng_executeActions actionExecute m2 w)))).
Proof.
  pose (E := exEnv ngCfg). exists E. split; [exvalid|].
  exists (run [EOp (OpProcess None)] (powerUp (exMem ngCfg 5 (ps_ng ngCfg) (ruleSetCode [mkRule 5 7 (Last (mkCond Equal PZone 7))])) regs0 [])).
  exists (mkRule 5 7 (Last (mkCond Equal PZone 7))), (mkMsg 3 20 9 9 false 1 [0; 7; 8; 0; 0; 0; 0; 0]), (mkMsg 3 20 9 9 false 1 [0; 6; 8; 0; 0; 0; 0; 0]).
  split; [exreachM|]. split.
  { split; [cbn; lia|]. split; [repeat constructor; cbn; lia|]. split; [vm_compute; discriminate|].
    intros i Hi. match type of Hi with (_ < ?n)%nat => change n with 7%nat in Hi end. do 7 (destruct i as [|i]; [vm_compute; reflexivity|]). lia. }
  assert (forall l, length l = 8%nat -> bytes l -> msg_wf (mkMsg 3 20 9 9 false 1 l)) by (intros l H1 H2; repeat split; cbn; try lia; assumption).
  split; [apply H; [reflexivity|repeat constructor; lia]|]. split; [apply H; [reflexivity|repeat constructor; lia]|]. vmc.
Qed.
Print Assumptions C20_short_event_refuted.

(* C21, vscp_core_process: an active node storing the rule set rs that receives a non-protocol
   event executes the actions of the rules that hold, once each, in rule order, after those of the
   decision matrix if there is one. *)
Theorem C21_rule_set_actions_partial :
  forall A (E : Env A), valid_env E -> c_dm_ng cfg = true ->
  (forall s e, Forall leavesMatrix (fst (app_event s e))) -> (forall s a p e, Forall leavesMatrix (fst (app_action s a p e))) ->
  (forall s, Forall leavesMatrix (fst (app_hb s))) ->
  forall w rs rd m, reachable w -> storesRules w rs -> op_wf (OpProcess rd) -> isActive w = true -> received rd w = Some m ->
    m_class m <> 0 ->
    actions (effects w (snd (process rd w))) =
    (if c_dm cfg then matrixActions w m else []) ++
    flat_map (fun r => if negb (ru_action r =? 0) && holds m (ru_expr r) then [(ru_action r, ru_par r, m)] else []) rs.
Proof.
  intros A E VE HN H1 H2 H3 w rs rd m HR HS Hrd HAct Hm HC. destruct (reach_inv VE w HR) as [ps0 HI].
  assert (Hrd' : forall x, rd = Some x -> msg_wf x) by (intros x ->; exact Hrd).
  pose proof (read_wf ps0 VE rd w m HI Hrd' Hm) as Hwf.
  destruct (stored_actions m w rs Hwf HS) as [S1 S2].
  rewrite (process_both VE rd w m) by (try assumption; intros _; exact S2). rewrite HN, S1. reflexivity.
Qed.
Print Assumptions C21_rule_set_actions_partial.

Definition exRules : list Rule := [exRule; mkRule 0 1 (Last (mkCond Equal PType 9)); mkRule 9 2 (Last (mkCond Greater PDataNum 2))].
Example C21_example :
  let E := exEnv ngCfg in
  let w := run [EOp (OpProcess None)] (powerUp (exMem ngCfg 5 (ps_ng ngCfg) (ruleSetCode exRules)) regs0 []) in
  let m := exMsg 20 9 9 [0; 7; 8] in
  valid_env E /\ reachable w /\ c_dm_ng cfg = true /\ storesRules w exRules /\ isActive w = true /\ received (Some m) w = Some m /\
  actions (effects w (snd (process (Some m) w))) = [(5, 77, m); (9, 2, m)].
Proof.
  cbv zeta. split; [exvalid|]. split; [exreachM|]. split; [reflexivity|]. split.
  - split; [cbn; lia|]. split; [repeat constructor; cbn; lia|]. split; [vm_compute; discriminate|].
    intros i Hi. change (length (ruleSetCode exRules)) with 27%nat in Hi. do 27 (destruct i as [|i]; [vm_compute; reflexivity|]). lia.
  - vmc.
Qed.

(* C22: for any contents whose first rule has not size 0, the executed actions are those that the
   stored rules themselves decide on, where a rule of size 0 stands for the rule before it: there
   is a meaning of rules as byte strings, independent of the rest of the rule set and of the
   node's state, that agrees with C20 for well-formed rules. *)
Theorem C22_any_contents_partial :
  exists acts : Msg -> list N -> list (N * N * Msg),
    (forall m r, acts m r = [] \/ acts m r = [(nth 1 r 0, nth 2 r 0, m)]) /\
    (forall m r, msg_wf m -> ruleOk r -> acts m (ruleCode r) = ruleActions m r) /\
    forall A (E : Env A), valid_env E -> (forall s a p e, Forall leavesRules (fst (app_action s a p e))) ->
    forall w m, reachable w -> (ngByte w 0 <> 0 -> ngByte w 1 <> 0) ->
      actions (effects w (snd (ng_executeActions actionExecute m w))) = flat_map (acts m) (inEffect [] (storedRules w)).
Proof.
  exists bytesActions. split; [|split].
  - intros m r. unfold bytesActions. destruct (ruleDecides m r); auto.
  - intros. apply bytesActions_code; assumption.
  - intros A E VE HA w m HR HF. destruct (reach_inv VE w HR) as [ps0 HI].
    assert (HB : ngByte w 0 < 256) by (unfold ngByte, stored; cbn [readField]; unfold ps_readNG, psReadIdx; destruct (0 <? _); [apply (i_ps _ _ HI)|cbn; lia]).
    destruct (exec_all m w HA HB HF) as (l & L1 & L2). rewrite (effects_app _ _ l L1). exact L2.
Qed.
Print Assumptions C22_any_contents_partial.

(* C22: without a rule of size 0 every stored rule acts for itself only. *)
Theorem C22_no_phantom_rule_partial :
  exists acts : Msg -> list N -> list (N * N * Msg),
    (forall m r, acts m r = [] \/ acts m r = [(nth 1 r 0, nth 2 r 0, m)]) /\
    (forall m r, msg_wf m -> ruleOk r -> acts m (ruleCode r) = ruleActions m r) /\
    forall A (E : Env A), valid_env E -> (forall s a p e, Forall leavesRules (fst (app_action s a p e))) ->
    forall w m, reachable w -> Forall (fun r => r <> []) (storedRules w) ->
      actions (effects w (snd (ng_executeActions actionExecute m w))) = flat_map (acts m) (storedRules w).
Proof.
  destruct C22_any_contents_partial as (acts & H1 & H2 & H3). exists acts. split; [exact H1|]. split; [exact H2|].
  intros A E VE HA w m HR HF. rewrite (H3 A E VE HA w m HR).
  - rewrite inEffect_id by exact HF. reflexivity.
  - intros H0. destruct (N.leb_spec (ngByte w 1) 40); [apply first_nonempty; assumption|lia].
Qed.
Print Assumptions C22_no_phantom_rule_partial.

Example C22_example :
  let E := exEnv ngCfg in
  let w := run [EOp (OpProcess None)] (powerUp (exMem ngCfg 5 (ps_ng ngCfg) ngBytes) regs0 []) in
  valid_env E /\ reachable w /\ storedRules w = [[7; 5; 77; 17; 2; 9; 0]; [6; 6; 78; 9; 0; 1]; [6; 7; 79; 1; 6; 7]] /\
  Forall (fun r => r <> []) (storedRules w).
Proof. cbv zeta. split; [exvalid|]. split; [exreachM|]. split; [reflexivity|]. vm_compute. repeat constructor; discriminate. Qed.

(* three rules announced, two stored: the rule of size 0 repeats the second *)
Example C22_example_empty :
  let E := exEnv ngCfg in
  let w := run [EOp (OpProcess None)] (powerUp (exMem ngCfg 5 (ps_ng ngCfg) [3;  6; 5; 77; 1; 2; 8;  6; 7; 79; 1; 6; 7;  0]) regs0 []) in
  let m := exMsg 20 9 9 [0; 7; 8] in
  valid_env E /\ reachable w /\ ngByte w 0 = 3 /\ ngByte w 1 = 6 /\ storedRules w = [[6; 5; 77; 1; 2; 8]; [6; 7; 79; 1; 6; 7]; []] /\
  inEffect [] (storedRules w) = [[6; 5; 77; 1; 2; 8]; [6; 7; 79; 1; 6; 7]; [6; 7; 79; 1; 6; 7]] /\
  actions (effects w (snd (ng_executeActions actionExecute m w))) = [(7, 79, m); (7, 79, m)].
Proof. cbv zeta. split; [exvalid|]. split; [exreachM|]. vmc. Qed.

(* a rule set that announces two rules but holds one executes this rule twice *)
Theorem C22_phantom_rule_refuted :
  exists (E : Env Regs), valid_env E /\ exists w r m, reachable w /\ ruleOk r /\ msg_wf m /\
    ngByte w 0 = 2 /\ storedRules w = [ruleCode r; []] /\
    actions (effects w (snd (ng_executeActions actionExecute m w))) = [(ru_action r, ru_par r, m); (ru_action r, ru_par r, m)].
Proof.
  pose (E := exEnv ngCfg). exists E. split; [exvalid|].
  exists (run [EOp (OpProcess None)] (powerUp (exMem ngCfg 5 (ps_ng ngCfg) (2 :: ruleCode (mkRule 5 7 (Last (mkCond Equal PType 9))))) regs0 [])).
  exists (mkRule 5 7 (Last (mkCond Equal PType 9))), (exMsg 20 9 9 [0; 7; 8]).
  split; [exreachM|]. split; [repeat split; cbn; lia|]. split; [repeat split; cbn; try lia; repeat constructor; lia|]. vmc.
Qed.
Print Assumptions C22_phantom_rule_refuted.
