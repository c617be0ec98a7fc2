(* Proof_Paged.v - index/value register pair of the paged decision matrix *)
From Verif Require Export Proof_Regs Reach.
Section P.
Context {A : Type} {E : Env A}.
Implicit Type w : World A.

Definition idxOk w : Prop := w_dmIdx w < 8 * c_dm_rows cfg.
Hypothesis VE : valid_env E.
Hypothesis HP : c_dm_paged cfg = true.
Hypothesis HR : 0 < c_dm_rows cfg.
Lemma paged_rows : dm_ROWS = c_dm_rows cfg.
Proof. unfold dm_ROWS. destruct (c_dm_ext cfg) eqn:X; [|reflexivity]. exfalso. apply (v_e6 _ (ve_cfg _ VE)). auto. Qed.
Lemma paged_limit : u16 (dm_ROWS * 8 + 65535) = 8 * c_dm_rows cfg - 1.
Proof. rewrite paged_rows. pose proof (v_dm_rows _ (ve_cfg _ VE)). unfold u16. lia. Qed.

Lemma idx_step : forall o, rel (fun w w' => idxOk w -> idxOk w') (step o).
Proof.
  set (R := fun w w' => idxOk w -> idxOk w').
  assert (S : forall w w', w_dmIdx w' = w_dmIdx w -> R w w') by (intros w w' H; unfold R, idxOk; rewrite H; auto).
  assert (Rrefl : forall w, R w w) by (intros w; unfold R; auto).
  assert (Rtrans : forall a b c, R a b -> R b c -> R a c) by (unfold R; auto).
  assert (X_dmw : forall p a v, rel R (dm_writeRegister p a v)).
  { intros p a v. unfold dm_writeRegister. rewrite HP. unfold dm_writePaged. rewrite paged_limit.
    destruct (p =? 0); [|apply rel_ret; exact Rrefl]. destruct (a =? DM_PAGED_INDEX).
    - destruct (v <=? 8 * c_dm_rows cfg - 1) eqn:L; cbv iota; apply rel_bind; try assumption.
      all: try (intros _; exact Rrefl).
      apply rel_upd. intros w _. unfold idxOk. wsimp. lia.
    - unfold ps_writeDM, psWriteIdx, psWrite8. rel_tac; try (apply S; reflexivity). }
  assert (X_dminit : forall w, R w (set_dmIdx 0 w)) by (intros w _; unfold idxOk; wsimp; lia).
  clearbody R.
  tr_step R ltac:(tr_leaf ltac:(first [apply X_dminit | intros ?; apply S; reflexivity | apply S; reflexivity])).
  assumption.
Qed.
Lemma idx_reach w : reachable w -> idxOk w.
Proof.
  apply reach_kept.
  - intros ps a wr out ub. unfold idxOk, boot. wsimp. lia.
  - intros o w0. exact (idx_step o w0).
Qed.
Hypothesis HD : c_dm cfg = true.
Lemma paged_is p a : dm_isDecisionMatrix p a = (p =? 0) && ((a =? 126) || (a =? 127)).
Proof. unfold dm_isDecisionMatrix. rewrite HP. reflexivity. Qed.
Lemma paged_index w : readRegister 0 126 w = (w_dmIdx w, w).
Proof. rewrite readRegister_open by lia. rewrite HD, paged_is. cbn [andb N.eqb Pos.eqb orb]. unfold dm_readRegister. rewrite HP. reflexivity. Qed.
Lemma paged_value w : idxOk w -> readRegister 0 127 w = (stored w FDm (w_dmIdx w), w).
Proof.
  intros HI. unfold idxOk in HI. rewrite readRegister_open by lia. rewrite HD, paged_is. cbn [andb N.eqb Pos.eqb orb]. unfold dm_readRegister. rewrite HP.
  unfold dm_readPaged, DM_PAGED_INDEX, DM_PAGED_VALUE. cbn [andb N.eqb Pos.eqb orb]. rewrite bind_get, paged_rows. replace (_ <=? _) with false by lia.
  rewrite ps_readDM_state. repeat f_equal. lia.
Qed.
Lemma paged_index_write w v : v < 256 -> writable w ->
  writeRegister 0 126 v w = ((v, false), if v <? 8 * c_dm_rows cfg then set_dmIdx v w else w).
Proof.
  intros Hv HW. rewrite writeRegister_open by (assumption || lia). rewrite HD, paged_is. cbn [andb N.eqb Pos.eqb orb]. unfold dm_writeRegister. rewrite HP.
  unfold dm_writePaged, DM_PAGED_INDEX, DM_PAGED_VALUE. cbn [andb N.eqb Pos.eqb orb]. rewrite paged_limit. replace (v <=? 8 * c_dm_rows cfg - 1) with (v <? 8 * c_dm_rows cfg) by lia.
  destruct (v <? 8 * c_dm_rows cfg); reflexivity.
Qed.
Lemma paged_value_write w v : v < 256 -> writable w -> idxOk w ->
  let w' := snd (writeRegister 0 127 v w) in
    fst (writeRegister 0 127 v w) = (v, false) /\ onlyMemory w w' /\ (exists x, effects w w' = [OPs x v]) /\
    forall g j, j < fieldLen cfg g -> stored w' g j = if field_eqb FDm g && (w_dmIdx w =? j) then v else stored w g j.
Proof.
  intros Hv HW HI. unfold idxOk in HI. cbv zeta. rewrite writeRegister_open by (assumption || lia). rewrite HD, paged_is. cbn [andb N.eqb Pos.eqb orb]. unfold dm_writeRegister. rewrite HP.
  set (i := w_dmIdx w) in *.
  assert (Hk : i < fieldLen cfg FDm) by (cbn [fieldLen]; rewrite HD; exact HI).
  pose (x := writeField FDm i v ;; readField FDm i).
  assert (Q : dm_writePaged 0 127 v w = x w).
  { assert (Q1 : dm_writePaged 0 127 v w = (ps_writeDM i v ;; ret v) w).
    { unfold dm_writePaged, DM_PAGED_INDEX, DM_PAGED_VALUE. cbn [andb N.eqb Pos.eqb orb]. rewrite bind_get, paged_rows. fold i.
      replace (c_dm_rows cfg <=? i / 8) with false by lia. replace (i / 8 * 8 + i mod 8) with i by lia. reflexivity. }
    rewrite Q1. unfold x, bind. rewrite readField_state. change (ps_writeDM i v w) with (writeField FDm i v w). unfold ret. f_equal.
    pose proof (field_write_effect FDm i v w Hk Hv) as (_ & H2). rewrite (H2 FDm i Hk). rewrite N.eqb_refl. reflexivity. }
  destruct (write_read FDm i v w x Hk Hv eq_refl) as (R1 & R2 & R3 & R4). unfold bind, ret. cbn [fst snd]. rewrite Q. rewrite R1. auto.
Qed.
End P.
