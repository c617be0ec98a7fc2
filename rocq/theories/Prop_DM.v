(* Prop_DM.v - standard decision matrix: C15, C16 *)
From Verif Require Import Proof_NGP Fixture.

(* C15, vscp_dm_executeActions, for every application and every event: row after row, the action of
   the row is executed once iff its conditions (Spec_DM.v) hold in the state that the actions of
   the rows before have left. *)
Theorem C15_any_application :
  forall A (E : Env A), c_dm cfg = true -> forall w m, msg_wf m ->
    actions (effects w (snd (dm_executeActions actionExecute m w))) = rowsInTurn m (Nseq (c_dm_rows cfg)) w.
Proof.
  intros A E HD w m Hm. destruct (exec_rows_any m HD Hm (Nseq (c_dm_rows cfg))) with (w := w) as (l & H1 & H2).
  - intros i Hi. unfold Nseq in Hi. apply in_map_iff in Hi. destruct Hi as (k & <- & Hk). apply in_seq in Hk. lia.
  - unfold dm_executeActions. rewrite (effects_app _ _ l H1). exact H2.
Qed.
Print Assumptions C15_any_application.

(* C15: if the application's actions do not rewrite the matrix or the node's zone, these are the
   actions of the matching rows of the stored matrix, once each, in row order. *)
Theorem C15_matrix_actions :
  forall A (E : Env A), c_dm cfg = true -> (forall s a p e, Forall leavesMatrix (fst (app_action s a p e))) ->
  forall w m, msg_wf m ->
    actions (effects w (snd (dm_executeActions actionExecute m w))) = matrixActions w m.
Proof.
  intros A E HD HA w m Hm.
  destruct (exec_rows m HD Hm HA (Nseq (c_dm_rows cfg))) with (w0 := w) (w := w) as (l & H1 & H2 & _).
  - intros i Hi. unfold Nseq in Hi. apply in_map_iff in Hi. destruct Hi as (k & <- & Hk). apply in_seq in Hk. lia.
  - intros f i _ _. reflexivity.
  - unfold dm_executeActions. rewrite (effects_app _ _ l H1). exact H2.
Qed.
Print Assumptions C15_matrix_actions.

(* C15, vscp_core_process: an active node that receives a non-protocol event executes exactly
   these actions and no others in that call. Applications that rewrite the matrix or the node's
   zone during the call are left out here. *)
Theorem C15_event_actions_partial :
  forall A (E : Env A), valid_env E -> c_dm cfg = true -> c_dm_ng cfg = false ->
  (forall s e, Forall leavesMatrix (fst (app_event s e))) -> (forall s a p e, Forall leavesMatrix (fst (app_action s a p e))) ->
  (forall s, Forall leavesMatrix (fst (app_hb s))) ->
  forall w rd m, reachable w -> op_wf (OpProcess rd) -> isActive w = true -> received rd w = Some m -> m_class m <> 0 ->
    actions (effects w (snd (process rd w))) = matrixActions w m.
Proof.
  intros A E VE HD HN H1 H2 H3 w rd m HR Hrd HA Hm HC. apply process_actions; try assumption. intros x ->. exact Hrd.
Qed.
Print Assumptions C15_event_actions_partial.

(* C15: events that are equal on the wire and contain the zone bytes their class and type promise
   execute the same actions, whatever is left in the receive buffer. *)
Theorem C15_wire :
  forall A (E : Env A) (w : World A) m1 m2, onWire m1 m2 -> zoneComplete m1 ->
    map fst (matrixActions w m1) = map fst (matrixActions w m2).
Proof. exact @matrixActions_wire. Qed.
Print Assumptions C15_wire.

(* two rows match: CLASS 20 events from address 9 and TYPE 9 events of any class; the second and
   fourth row are disabled, respectively an action 0 *)
Definition exRows : list N :=
  [9; 192; 255; 20; 0; 0; 5; 77;   0; 0; 0; 0; 0; 0; 6; 1;   0; 128; 0; 0; 255; 9; 7; 78;   0; 128; 0; 0; 0; 0; 0; 1].
Example C15_example :
  let E := exEnv (exCfg oDm) in
  let m := exMsg 20 9 9 [0; 7; 8] in
  let w := run [EOp (OpProcess None)] (powerUp (exMem (exCfg oDm) 5 (ps_dm (exCfg oDm)) exRows) regs0 []) in
  valid_env E /\ reachable w /\ c_dm cfg = true /\ c_dm_ng cfg = false /\ isActive w = true /\ received (Some m) w = Some m /\
  matrixActions w m = [(5, 77, m); (7, 78, m)] /\
  matrixActions w (exMsg 20 9 8 [0; 7; 8]) = [(7, 78, exMsg 20 9 8 [0; 7; 8])] /\ matrixActions w (exMsg 10 6 9 []) = [].
Proof. cbv zeta. split; [exvalid|]. split; [exreachM|]. vmc. Qed.
Example C15_example_zone : zoneComplete (exMsg 20 9 9 [0; 7; 8]) /\ zoneComplete (exMsg 10 6 9 []).
Proof. split; intros k H; vm_compute in H; [injection H as <-|discriminate H]; vm_compute; discriminate. Qed.

Example C15_wire_example :
  let m1 := mkMsg 3 20 9 9 false 3 [0; 7; 8; 0; 0; 0; 0; 0] in let m2 := mkMsg 3 20 9 9 false 3 [0; 7; 8; 6; 5; 4; 3; 2] in
  onWire m1 m2 /\ zoneComplete m1 /\ m1 <> m2.
Proof.
  cbv zeta. split; [repeat split|]. split; [|discriminate].
  intros k H. vm_compute in H. injection H as <-. vm_compute. discriminate.
Qed.

(* C15 is false for events without the zone bytes their class and type promise: events that are
   equal on the wire execute different actions, because bytes behind the payload are compared. *)
Theorem C15_short_event_refuted :
  exists (E : Env Regs), valid_env E /\ exists w m1 m2, reachable w /\ isActive w = true /\
    received (Some m1) w = Some m1 /\ received (Some m2) w = Some m2 /\ msg_wf m1 /\ msg_wf m2 /\
    m_class m1 = m_class m2 /\ m_type m1 = m_type m2 /\ m_oaddr m1 = m_oaddr m2 /\ m_hard m1 = m_hard m2 /\ payload m1 = payload m2 /\
    map (fun x => fst (fst x)) (actions (effects w (snd (process (Some m1) w)))) = [7] /\
    actions (effects w (snd (process (Some m2) w))) = [].
Proof.
  pose (E := exEnv (exCfg oMin)). pose (c := exCfg (mkOpts false false true true true true false false false false false false 0 4 32 5)).
  clear E. pose (E := exEnv c). exists E. split; [exvalid|].
  exists (run [EOp (OpProcess None)] (powerUp (exMem c 5 (ps_dm c) [0; 144; 0; 0; 0; 0; 7; 1]) regs0 [])).
  exists (mkMsg 3 20 9 9 false 1 [0; 7; 8; 0; 0; 0; 0; 0]), (mkMsg 3 20 9 9 false 1 [0; 6; 8; 0; 0; 0; 0; 0]).
  split; [exreachM|].
  assert (forall l, length l = 8%nat -> bytes l -> msg_wf (mkMsg 3 20 9 9 false 1 l)) by (intros l H1 H2; repeat split; cbn; try lia; assumption).
  split; [reflexivity|]. split; [reflexivity|]. split; [reflexivity|].
  split; [apply H; [reflexivity|repeat constructor; lia]|]. split; [apply H; [reflexivity|repeat constructor; lia]|]. vmc.
Qed.
Print Assumptions C15_short_event_refuted.

(* C16: with the extension, a row whose action is 0xFF executes the action of its extension row
   iff the row matches (with the extension's zone) and every selected data byte is present and has
   the extension's value; all other rows behave as without extension. For every application and
   every event; x is the state in which the row is looked at. *)
Theorem C16_extension :
  forall A (E : Env A), valid_env E -> c_dm_ext cfg = true ->
  forall w m, msg_wf m ->
    actions (effects w (snd (dm_executeActions actionExecute m w))) = rowsInTurn m (Nseq (c_dm_rows cfg)) w /\
    forall x : World A,
    let selected := fun i bit k j => N.testbit (dmByte x i 7) bit = true -> k < m_size m /\ evByte m k = dmxByte x i j in
    let extHolds := fun i => selected i 0 0 2 /\ selected i 1 3 3 /\ selected i 2 4 4 /\ selected i 3 5 5 in
      forall i, i < c_dm_rows cfg ->
        (dmByte x i 6 = 255 -> rowMatches x m i = true -> extHolds i -> rowActions x m i = [(dmxByte x i 6, dmxByte x i 7, m)]) /\
        (dmByte x i 6 = 255 -> ~ (rowMatches x m i = true /\ extHolds i) -> rowActions x m i = []) /\
        (dmByte x i 6 <> 255 -> dmByte x i 6 <> 0 -> rowMatches x m i = true -> rowActions x m i = [(dmByte x i 6, dmByte x i 7, m)]) /\
        (dmByte x i 6 <> 255 -> dmByte x i 6 = 0 \/ rowMatches x m i = false -> rowActions x m i = []).
Proof.
  intros A E VE HX w m Hm. split.
  { apply C15_any_application; try assumption. exact (v_e2 _ (ve_cfg _ VE) HX). }
  clear w. intros w selected extHolds.
  assert (EH : forall i, extMatches w m i = true <-> extHolds i).
  { intros i. unfold extMatches, extHolds. cbn [forallb]. rewrite !andb_true_iff.
    assert (S : forall b k j, implb (N.testbit (dmByte w i 7) b) ((k <? m_size m) && (evByte m k =? dmxByte w i j)) = true <-> selected i b k j).
    { intros b k j. unfold selected. destruct (N.testbit (dmByte w i 7) b); cbn [implb]; [|split; [intros _ H; discriminate H|auto]].
      rewrite andb_true_iff, N.ltb_lt, N.eqb_eq. tauto. }
    rewrite !S. tauto. }
  intros i Hi. unfold rowActions, isExtended. rewrite HX. cbn [andb]. repeat split.
  - intros -> -> H. apply EH in H. rewrite H. reflexivity.
  - intros -> H. destruct (rowMatches w m i) eqn:R; [|reflexivity]. destruct (extMatches w m i) eqn:X; [|reflexivity]. exfalso. apply H. split; [reflexivity|]. apply EH, X.
  - intros H1 H2 ->. replace (dmByte w i 6 =? 0) with false by lia. replace (dmByte w i 6 =? 255) with false by lia. reflexivity.
  - intros H1 [H2| ->]; [rewrite H2|rewrite andb_false_r]; reflexivity.
Qed.
Print Assumptions C16_extension.

Example C16_example :
  let c := exCfg oExt in let E := exEnv c in
  let m := exMsg 20 3 9 [1; 7; 8; 4] in
  let w := run [EOp (OpProcess None)] (powerUp (exMem c 5 (ps_dm c) ([0; 128; 0; 0; 0; 0; 255; 3] ++ repeat 0 24 ++ [7; 8; 1; 4; 0; 0; 33; 44])) regs0 []) in
  valid_env E /\ c_dm_ext cfg = true /\ reachable w /\ dmByte w 0 6 = 255 /\ rowMatches w m 0 = true /\
  actions (effects w (snd (dm_executeActions actionExecute m w))) = [(33, 44, m)] /\
  actions (effects w (snd (dm_executeActions actionExecute (exMsg 20 3 9 [1; 7; 8; 5]) w))) = [] /\
  actions (effects w (snd (dm_executeActions actionExecute (exMsg 20 3 9 [1; 7; 8]) w))) = [].
Proof. cbv zeta. split; [exvalid|]. split; [reflexivity|]. split; [exreachM|]. vmc. Qed.
