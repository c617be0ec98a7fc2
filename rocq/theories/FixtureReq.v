(* FixtureReq.v - protocol events for the example node of Fixture.v *)
From Verif Require Export Fixture Spec_Request Proof_RW.

(* a node with nickname 5 that has become active and then has seen the history es *)
Definition exNode {E : Env Regs} (o : Opts) (es : list (Event Regs)) : World Regs :=
  run (EOp (OpProcess None) :: es) (powerUp (exPs (exCfg o) 5) regs0 []).
(* the node with the rule set on page 0 *)
Definition exNode0 {E : Env Regs} (o : Opts) (es : list (Event Regs)) : World Regs :=
  run (EOp (OpProcess None) :: es) (powerUp (exPs (exCfgAt 0 o) 5) regs0 []).
(* the protocol event of type ty with data d from node 9 *)
Notation exReq ty d := (exMsg 0 ty 9 d).
Ltac exreq := split; [exreach|]; split; [cbn; repeat split; cbn; try lia; repeat constructor; lia|]; vm_compute; repeat split; try reflexivity; try discriminate.
(* an application that claims the WRITE_REGISTER events and notes the last one's type in register 0 of page 9 *)
Definition exClaim (c : Config) : Env Regs := {|
  cfg := c;
  app_read := fun a p r => (fst a p r, fst a);
  app_write := fun a p r v => (v, [], fun p' r' => if (p' =? p) && (r' =? r) then v else fst a p' r');
  app_restore := fun a _ _ => 0;
  app_pages := fun _ => 2;
  app_boot_alg := fun _ => 1;
  app_guid := fun _ i => 16 + i;
  app_prot := fun a m => (m_type m =? 11, [], fun p r => if (p =? 9) && (r =? 0) then m_type m else fst a p r);
  app_event := fun a _ => ([], fst a);
  app_action := fun a _ _ _ => ([], fst a);
  app_hb := fun a => ([], fst a)
|}.
Lemma exClaim_valid c : valid_env (exEnv c) -> valid_env (exClaim c).
Proof. intros []. constructor; try assumption; intros; cbn; constructor. Qed.
