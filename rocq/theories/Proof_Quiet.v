(* Proof_Quiet.v - steps whose effects are of certain kinds only (properties C15, C16, C21) *)
From Verif Require Export Walk Proof_NGP Proof_Protect.

Section Quiet.
Context {A : Type} {E : Env A}.
Implicit Types w v : World A.
Variable P : Obs -> Prop.
Definition RQ w v : Prop := exists l, w_out v = rev l ++ w_out w /\ (forall x, w_ps v x = memAfter (w_ps w) l x) /\ Forall P l.
Lemma RQ_refl w : RQ w w. Proof. exists []. repeat split; constructor. Qed.
Lemma RQ_trans a b c : RQ a b -> RQ b c -> RQ a c.
Proof.
  intros (l1 & O1 & M1 & F1) (l2 & O2 & M2 & F2). exists (l1 ++ l2). split; [rewrite O2, O1, rev_app_distr, app_assoc; reflexivity|].
  split; [|apply Forall_app; auto]. intros x. rewrite M2, mem_app. apply mem_ext. exact M1.
Qed.
Lemma RQ_same w v : w_out v = w_out w -> w_ps v = w_ps w -> RQ w v.
Proof. intros H1 H2. exists []. rewrite H1, H2. repeat split; constructor. Qed.
Lemma RQ_set f : neutral f -> forall w, RQ w (f w).
Proof. intros H w. destruct (H w) as (H1 & _ & _ & H4 & _). apply RQ_same; assumption. Qed.
Lemma RQ_emit o : P o -> (match o with OPs _ _ => False | _ => True end) -> rel RQ (@emit A o).
Proof. intros H K w. exists [o]. split; [reflexivity|]. split; [|repeat constructor; exact H]. intros x. destruct o; try reflexivity. destruct K. Qed.
(* everything but actions, events and heartbeat callouts is allowed *)
Hypothesis Hq : forall o, (match o with OAction _ _ _ | OEvent _ | OProtEvent _ | OHeartbeatCustom => False | OPs _ v => v < 256 | _ => True end) -> P o.
Lemma RQ_e o : (match o with OAction _ _ _ | OEvent _ | OProtEvent _ | OHeartbeatCustom | OPs _ _ => False | _ => True end) -> rel RQ (@emit A o).
Proof. intros H. apply RQ_emit; [apply Hq|]; destruct o; try exact Logic.I; destruct H. Qed.
Lemma RQ_ps a x : rel RQ (psWrite8 a x).
Proof.
  intros w. exists [OPs a (u8 x)]. split; [reflexivity|]. split; [|repeat constructor; apply Hq; unfold u8; lia].
  intros y. cbn [memAfter]. unfold psWrite8, emit, upd, bind. cbn [snd]. wsimp. reflexivity.
Qed.
Lemma RQ_tx m : rel RQ (tp_writeMessage m).
Proof.
  intros w. destruct (tx_any m w) as (o & OO & HO & (K & _)).
  exists [o]. split; [exact HO|].
  assert (w_ps (snd (tp_writeMessage m w)) = w_ps w) as K1 by (unfold visible in K; injection K; intros; assumption).
  split; [intros x; rewrite K1|repeat constructor; apply Hq]; destruct OO as [->|[ok ->]]; try reflexivity; exact Logic.I.
Qed.
Ltac rq := repeat first [assumption | match goal with
  | |- rel _ (psWrite8 _ _) => apply RQ_ps | |- rel _ (tp_writeMessage _) => apply RQ_tx | |- rel _ (emit _) => apply RQ_e; exact Logic.I
  | |- rel _ (upd _) => apply rel_upd; intros; apply RQ_same; reflexivity | |- rel _ (get _) => apply rel_get, RQ_refl | |- rel _ (ret _) => apply rel_ret, RQ_refl
  | |- rel _ (bind _ _) => apply rel_bind; [exact RQ_trans| |intros] | H : forall b, rel RQ (?f b) |- rel _ (?f _) => apply H
  | |- rel _ (if ?b then _ else _) => destruct b | |- rel _ (match ?b with _ => _ end) => destruct b end
  | progress unfold writeNicknameId, ps_writeNicknameId, ps_readNicknameId, psRead8, sendProt, timer_start, timer_stop, timer_running, rxIsProt, rxd].
Lemma RQ_walk o : walkObs o = true -> rel RQ (@emit A o).
Proof. intros H. apply RQ_e. destruct o; try exact Logic.I; discriminate H. Qed.
Lemma Q_init b : rel RQ (changeToStateInit b). Proof. unfold changeToStateInit. rq. Qed.
Lemma Q_active : rel RQ changeToStateActive. Proof. unfold changeToStateActive. rq. Qed.
Lemma Q_idle : rel RQ changeToStateIdle. Proof. unfold changeToStateIdle. rq. Qed.
Lemma Q_reset t : rel RQ (changeToStateReset t). Proof. unfold changeToStateReset. rq. Qed.
Lemma Q_restore : rel RQ restoreFactory.
Proof.
  apply wk_restoreFactory; auto using RQ_refl, RQ_set, RQ_walk, RQ_ps, RQ_tx; try exact RQ_trans. rq.
Qed.
Lemma Q_api c : rel RQ (doApi c).
Proof.
  rewrite doApi_body. apply rel_bind; [exact RQ_trans|apply RQ_e; exact Logic.I|intros _].
  apply wk_apiBody; auto using RQ_refl, RQ_set, RQ_walk, RQ_ps, RQ_tx, Q_init, Q_active, Q_idle, Q_reset, Q_restore. exact RQ_trans.
Qed.
Lemma Q_forM l : rel RQ (forM l doApi).
Proof. apply rel_forM; auto using RQ_refl, Q_api. exact RQ_trans. Qed.
Lemma Q_read p a : rel RQ (appRead p a). Proof. unfold appRead. rq. Qed.
Lemma Q_write p a x : rel RQ (appWrite p a x). Proof. unfold appWrite. rq. apply Q_forM. Qed.
Lemma Q_action a p m : P (OAction a p m) -> rel RQ (actionExecute a p m).
Proof. intros H. unfold actionExecute. apply rel_bind; [exact RQ_trans|apply RQ_emit; [exact H|exact Logic.I]|intros _]. rq; apply Q_forM. Qed.
Lemma Q_event m : P (OEvent m) -> rel RQ (provideEvent m).
Proof. intros H. unfold provideEvent. apply rel_bind; [exact RQ_trans|apply RQ_emit; [exact H|exact Logic.I]|intros _]. rq; apply Q_forM. Qed.
Lemma Q_prot m : P (OProtEvent m) -> rel RQ (provideProtocolEvent m).
Proof. intros H. unfold provideProtocolEvent. apply rel_bind; [exact RQ_trans|apply RQ_emit; [exact H|exact Logic.I]|intros _]. rq; apply Q_forM. Qed.
Lemma Q_hb : P OHeartbeatCustom -> rel RQ customHeartbeat.
Proof. intros H. unfold customHeartbeat. apply rel_bind; [exact RQ_trans|apply RQ_emit; [exact H|exact Logic.I]|intros _]. rq; apply Q_forM. Qed.
Lemma Q_protocol : rel RQ handleProtocolClassType.
Proof.
  apply wk_handleProtocolClassType; auto using RQ_refl, RQ_set, RQ_walk, RQ_ps, RQ_tx, Q_init, Q_active, Q_idle, Q_reset, Q_restore, Q_read, Q_write. exact RQ_trans.
Qed.
Lemma Q_after h : P OHeartbeatCustom -> rel RQ (activeHeartbeat ;; count <- get w_xcount ;; (if 0 <? count then extendedPageRead ;; ret true else ret h)).
Proof.
  intros H. apply rel_bind; [exact RQ_trans| |intros _; apply rel_bind; [exact RQ_trans|apply rel_get, RQ_refl|intros c; apply rel_if; [|apply rel_ret, RQ_refl]]].
  - apply wk_activeHeartbeat; auto using RQ_refl, RQ_set, RQ_walk, RQ_ps, RQ_tx, Q_hb. exact RQ_trans.
  - apply rel_bind; [exact RQ_trans| |intros _; apply rel_ret, RQ_refl].
    apply wk_extendedPageRead; auto using RQ_refl, RQ_set, RQ_walk, RQ_ps, RQ_tx, Q_read. exact RQ_trans.
Qed.
End Quiet.
