(* Prop_Frames.v - property C33: frames are well formed *)
From Verif Require Import Proof_Frames FixtureReq.

(* C33: every frame handed to the transport during any operation has at most 8 data bytes and fields within their ranges; frames of the
   application are those it passed to the framework, and all others have one of the documented combinations of class, type and priority,
   the configured hard coded flag and the nickname of the moment of sending.
   Missing from the full claim: the response to a page write may carry a nickname the node had earlier in the same call (C33_nickname_refuted). *)
Theorem C33_frames_partial :
  forall A (E : Env A), valid_env E -> forall w o, reachable w -> op_wf o ->
    let l := effects w (snd (step o w)) in
    framesOk ([w_ps w (ps_nick cfg)], None) l /\
    (forall m ok, In (OTx m ok) l -> msg_wf m) /\ (forall m, ~ In (OTxDrop m) l).
Proof.
  intros A E VE w o HR WF l. split; [destruct (reach_inv VE w HR) as (ps1 & J1); rewrite <- (i_nick _ _ J1); apply RF_step|].
  destruct (reach_inv VE _ (reach_op w o HR WF)) as (ps0 & J).
  assert (HI : forall x, In x l -> okObs x).
  { intros x H. assert (F := i_out _ _ J). rewrite Forall_forall in F. apply F. unfold l, effects in H. apply in_rev in H. rewrite <- (firstn_skipn (length (w_out (snd (step o w))) - length (w_out w)) (w_out (snd (step o w)))). apply in_or_app. left. exact H. }
  split; [intros m ok H; exact (HI _ H)|intros m H; exact (HI _ H)].
Qed.
Print Assumptions C33_frames_partial.

(* C33: a page write may change the nickname, by restoring the factory settings through register 0xA2, and its response then carries the old one *)
Theorem C33_nickname_refuted :
  exists E : Env Regs, valid_env E /\ exists (w : World Regs) rd, reachable w /\ op_wf (OpProcess rd) /\ let w' := snd (step (OpProcess rd) w) in
    w_ps w' (ps_nick cfg) = 255 /\
    exists l1 l2 m ok, effects w w' = l1 ++ OPs (ps_nick cfg) 255 :: l2 /\ In (OTx m ok) l2 /\ m_oaddr m = 5.
Proof.
  pose (E := exEnv (exCfg oDm)). exists E. split; [exvalid|].
  exists (exNode oDm [EOp (OpProcess (Some (exReq 11 [5; 162; 85])))]), (Some (exReq 25 [5; 162; 170])). split; [exreach|]. split; [exwf|]. cbv zeta. split; [vm_compute; reflexivity|].
  match goal with |- context [effects ?a ?b] => set (l := effects a b) end. vm_compute in l.
  exists (firstn 2 l), (skipn 3 l), (mkMsg 3 0 26 5 false 2 [0; 0; 0; 0; 0; 0; 0; 0]), true. unfold l. split; [reflexivity|]. split; [cbn [skipn In]; tauto|reflexivity].
Qed.
Print Assumptions C33_nickname_refuted.

(* the theorem above is about nodes that send: the answer to a request carries the nickname, and a frame of the application arrives as it is *)
Example C33_example :
  let E := exEnv (exCfg oDm) in let w := exNode oDm [] in let o := OpProcess (Some (exReq 9 [5; 224])) in
  let w2 := exNode oDm [EOp (A := Regs) o] in let o2 := OpApi (ASend (exMsg 20 3 77 [1; 2])) in
  valid_env E /\ reachable w /\ op_wf o /\ (exists m, In (OTx m true) (effects w (snd (step o w))) /\ (m_class m, m_type m, m_prio m, m_oaddr m) = (0, 10, 3, 5)) /\
  reachable w2 /\ op_wf o2 /\ (exists m, In (OTx m true) (effects w2 (snd (step o2 w2))) /\ (m_class m, m_type m, m_prio m, m_oaddr m) = (20, 3, 3, 77)).
Proof.
  cbv zeta. split; [exvalid|]. split; [exreach|]. split; [exwf|]. split; [eexists; split; [vm_compute; right; right; left; reflexivity|reflexivity]|].
  split; [exreach|]. split; [exwf|]. eexists; split; [vm_compute; right; left; reflexivity|reflexivity].
Qed.
