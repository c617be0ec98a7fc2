(* Frame.v - functions that leave a given component of the state alone *)
From Verif Require Export Spec_Node.

Section Frame.
Context {A : Type}.
Definition pres {T U} (f : World A -> T) (m : M A U) : Prop := forall w, f (snd (m w)) = f w.
Lemma pres_ret {T U} (f : World A -> T) (r : U) : pres f (ret r). Proof. intros w. reflexivity. Qed.
Lemma pres_get {T U} (f : World A -> T) (g : World A -> U) : pres f (get g). Proof. intros w. reflexivity. Qed.
Lemma pres_upd {T} (f : World A -> T) g : (forall w, f (g w) = f w) -> pres f (upd g).
Proof. intros H w. apply H. Qed.
Lemma pres_bind {T U V} (f : World A -> T) (m : M A U) (k : U -> M A V) : pres f m -> (forall r, pres f (k r)) -> pres f (bind m k).
Proof. intros H1 H2 w. unfold bind. rewrite (H2 _ _). apply H1. Qed.
Lemma pres_if {T U} (f : World A -> T) (b : bool) (m1 m2 : M A U) : pres f m1 -> pres f m2 -> pres f (if b then m1 else m2).
Proof. destruct b; auto. Qed.
Lemma pres_forM {T X} (f : World A -> T) (l : list X) (b : X -> M A unit) : (forall x, pres f (b x)) -> pres f (forM l b).
Proof. intros H. induction l; [apply pres_ret|]. cbn [forM]. apply pres_bind; auto. Qed.
End Frame.

Ltac pres_step :=
  cbv beta zeta;
  lazymatch goal with
  | |- pres _ (bind _ _) => apply pres_bind; [|intros ?]
  | |- pres _ (ret _) => apply pres_ret
  | |- pres _ (get _) => apply pres_get
  | |- pres _ (upd _) => apply pres_upd; intros ?; try reflexivity
  | |- pres _ (emit _) => apply pres_upd; intros ?; try reflexivity
  | |- pres _ (if _ then _ else _) => apply pres_if
  | |- pres _ (forM _ _) => apply pres_forM; intros ?
  | |- pres _ (match ?x with _ => _ end) => destruct x
  end.
Ltac pres_tac := repeat pres_step.

Section Frames.
Context {A : Type} {E : Env A}.
Context {T : Type}.
Variable f : World A -> T.

(* persistent memory accesses *)
Lemma pres_psRead8 a : pres f (psRead8 a). Proof. apply pres_get. Qed.
Lemma pres_psReadIdx a s i : pres f (psReadIdx a s i). Proof. unfold psReadIdx, psRead8. pres_tac. Qed.
Section Write.
Hypothesis Hps : forall v w, f (set_ps v w) = f w.
Hypothesis Hout : forall v w, f (set_out v w) = f w.
Lemma pres_psWrite8 a v : pres f (psWrite8 a v).
Proof. unfold psWrite8. pres_tac; auto. Qed.
Lemma pres_psWriteIdx a s i v : pres f (psWriteIdx a s i v).
Proof. unfold psWriteIdx. pres_tac. apply pres_psWrite8. Qed.
Lemma pres_psWriteMultiple l : forall a, pres f (psWriteMultiple a l).
Proof. induction l; intros x; cbn [psWriteMultiple]; pres_tac; [apply pres_psWrite8|auto]. Qed.
Lemma pres_dd_restore : pres f dd_restore.
Proof.
  unfold dd_restore, ps_writeGUID, ps_writeMDev, ps_writeMSub, ps_writeMdf, ps_writeFam, ps_writeType, ps_writeZone, ps_writeSub.
  pres_tac; first [apply pres_psWriteIdx | apply pres_psWrite8].
Qed.
Lemma pres_dm_restore : pres f dm_restore.
Proof. unfold dm_restore, ps_writeDMMultiple, ps_writeDMExtMultiple. pres_tac; apply pres_psWriteMultiple. Qed.
Lemma pres_ng_restore : pres f ng_restore.
Proof. unfold ng_restore, ps_writeNG. pres_tac; apply pres_psWriteIdx. Qed.
Section Restore.
Hypothesis Happ : forall v w, f (set_app v w) = f w.
(* vscp_core_restoreFactoryDefaultSettings behind the nickname *)
Definition restoreRest : M A unit :=
  (when c_hb_seg cfg do ps_writeCRC SEGMENT_CRC_NOT_INIT) ;;
  ps_writeCtrl NODE_CONTROL_FLAGS_DEFAULT ;;
  forM (Nseq sz_user) (fun i => ps_writeUserId i 0) ;;
  dd_restore ;;
  (when c_dm cfg do dm_restore) ;;
  (when c_dm_ng cfg do ng_restore) ;;
  emit OAppRestore ;;
  upd (fun w => set_app (app_restore (w_app w)) w).
Lemma pres_restoreRest : pres f restoreRest.
Proof.
  unfold restoreRest, ps_writeCRC, ps_writeCtrl, ps_writeUserId. pres_tac;
    first [apply pres_psWrite8 | apply pres_psWriteIdx | apply pres_dd_restore | apply pres_dm_restore | apply pres_ng_restore | auto].
Qed.
End Restore.
End Write.
End Frames.
