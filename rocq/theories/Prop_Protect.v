(* Prop_Protect.v - property C37: write protection *)
From Verif Require Import Proof_Protect FixtureReq.

(* C37: in the whole history of a node, from its first power up on and through any calls, received frames and power losses, an application
   register is written, and a byte of the decision matrix, its extension or the rule set changes, only while the write protection is off. *)
Theorem C37_guarded :
  forall A (E : Env A), valid_env E -> forall ps0 w, reachableFrom ps0 w -> forall l1 x l2, history w = l1 ++ x :: l2 ->
    protectedWrite ps0 l1 x w -> writable (memoryAt ps0 l1 w).
Proof.
  intros A E VE ps0 w HR l1 x l2 HH HP. destruct (history_guarded ps0 w VE HR) as [G _]. rewrite HH in G. apply guarded_at in G.
  change (writable (memoryAt ps0 l1 w)) with (open (memAfter ps0 l1)). destruct HP as [(p & a & v & ->)|(f & i & HF & HL & HN)]; [exact G|].
  destruct x; try (exfalso; apply HN, stored_ext; [intros y; unfold memoryAt, inMem; wsimp; rewrite mem_app; reflexivity|exact HL]).
  apply G. destruct (N.le_gt_cases (ps_dm cfg) a) as [L|L]; [exact L|]. exfalso. apply HN. unfold stored. rewrite !readField_eq by exact HL.
  unfold memoryAt, inMem. wsimp. rewrite mem_app. cbn [memAfter]. pose proof (logic_high f i HF). destruct (N.eqb_spec (fieldBase cfg f + i) a); [lia|reflexivity].
Qed.
Print Assumptions C37_guarded.

(* C37: as long as the write protection stays on, no sequence of calls, frames and power losses writes an application register or changes the decision logic *)
Theorem C37_unchanged :
  forall A (E : Env A), valid_env E -> forall ps0 w w' l, reachableFrom ps0 w -> reachableFrom ps0 w' -> history w' = history w ++ l ->
    (forall l1 l2, l = l1 ++ l2 -> ~ writable (memoryAt ps0 (history w ++ l1) w')) ->
    (forall p a v, ~ In (OAppWrite p a v) l) /\ forall f i, logicField f -> i < fieldLen cfg f -> stored w' f i = stored w f i.
Proof.
  intros A E VE ps0 w w' l HR HR' HH HP. assert (G := C37_guarded A E VE ps0 w' HR'). rewrite HH in G.
  assert (K : forall l1 x l2, l = l1 ++ x :: l2 -> ~ protectedWrite ps0 (history w ++ l1) x w').
  { intros l1 x l2 -> HW. apply (HP l1 (x :: l2) eq_refl). apply (G _ x l2); [rewrite <- app_assoc; reflexivity|exact HW]. }
  split.
  - intros p a v HI. apply in_split in HI. destruct HI as (l1 & l2 & HL). apply (K _ _ _ HL). left. eauto.
  - intros f i HF HL. destruct (history_guarded ps0 w VE HR) as [_ M1]. destruct (history_guarded ps0 w' VE HR') as [_ M2].
    assert (Q : forall l1 l2, l = l1 ++ l2 -> stored (memoryAt ps0 (history w ++ l1) w') f i = stored (memoryAt ps0 (history w) w') f i).
    { intros l1. induction l1 as [|x l1 IH] using rev_ind; intros l2 HL2; [rewrite app_nil_r; reflexivity|]. rewrite <- app_assoc in HL2. rewrite <- (IH _ HL2).
      destruct (N.eq_dec (stored (memoryAt ps0 (history w ++ l1 ++ [x]) w') f i) (stored (memoryAt ps0 (history w ++ l1) w') f i)) as [EQ|NE]; [exact EQ|].
      exfalso. apply (K l1 x l2 HL2). right. exists f, i. rewrite <- app_assoc. auto. }
    transitivity (stored (memoryAt ps0 (history w') w') f i); [apply stored_ext; [exact M2|exact HL]|]. rewrite HH, (Q l []) by (rewrite app_nil_r; reflexivity).
    apply stored_ext; [intros a; symmetry; apply M1|exact HL].
Qed.
Print Assumptions C37_unchanged.

(* C37: the index register of the paged decision matrix is protected as well: no received frame and no call of the application changes it
   unless the write protection is off at some moment of the call *)
Theorem C37_index :
  forall A (E : Env A), valid_env E -> forall w o, reachable w -> op_wf o -> o <> OpInit ->
    let w' := snd (step o w) in w_dmIdx w' <> w_dmIdx w ->
    exists l1 l2, effects w w' = l1 ++ l2 /\ writable (memoryAt (w_ps w) l1 w).
Proof.
  intros A E VE w o HR WF HO w' HD. destruct RG_all as [RP RA].
  assert (G : RG w w').
  { destruct o as [rd|p|c|]; [apply RP| |apply RA|exfalso; apply HO; reflexivity]. exfalso. apply HD. reflexivity. }
  destruct G as (l & O & _ & _ & D). destruct (D HD) as (l1 & l2 & -> & OP). exists l1, l2. split; [|exact OP].
  rewrite (effects_app w w' _ O), rev_involutive. reflexivity.
Qed.
Print Assumptions C37_index.

(* a protected node (control flags 0x40): register writes to the matrix (on page 1) and to an application
   register (page 0) leave no trace. Then the control flags are rewritten by register access (0x83), and the same frames take effect. *)
Example C37_example :
  let E := exEnv (exCfg oDm) in
  let e t d := EOp (A := Regs) (OpProcess (Some (exReq t d))) in
  let l0 := [e 11 [5; 131; 64]] in
  let l1 := [e 38 [5; 0; 1; 2; 9]; e 11 [5; 3; 7]] in
  let w := exNode oDm l0 in let w1 := exNode oDm (l0 ++ l1) in let w2 := exNode oDm (l0 ++ l1 ++ [e 11 [5; 131; 96]] ++ l1) in
  valid_env E /\ reachable w /\ reachable w1 /\ reachable w2 /\ ~ writable w /\ ~ writable w1 /\ writable w2 /\
  (forall p a v, ~ In (OAppWrite p a v) (effects w w1)) /\ stored w1 FDm 2 = 0 /\
  In (OAppWrite 0 3 7) (effects w1 w2) /\ stored w2 FDm 2 = 9 /\ 2 < fieldLen cfg FDm.
Proof.
  cbv zeta. split; [exvalid|]. split; [exreach|]. split; [exreach|]. split; [exreach|]. split; [vm_compute; discriminate|]. split; [vm_compute; discriminate|]. split; [vm_compute; reflexivity|].
  split; [intros p a v; vm_compute; intuition discriminate|]. split; [vm_compute; reflexivity|]. split; [vm_compute; tauto|]. split; vm_compute; reflexivity.
Qed.
