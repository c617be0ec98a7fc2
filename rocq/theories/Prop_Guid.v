(* Prop_Guid.v - property C50: the GUID drop nickname sequence. *)
From Verif Require Import Spec_Guid Proof_Guid FixtureReq.

(* C50: in every history since power up, an active node that receives a quarter of a GUID drops its nickname exactly if this
   completes a sequence, and otherwise changes nothing but its own bookkeeping *)
Theorem C50_active_partial :
  forall A (E : Env A), valid_env E -> timersNeeded cfg <= c_timers cfg ->
    forall ps a wr es rd m d q, (forall x, ps x < 256) -> Forall event_wf es ->
    let w0 := powerUp ps a wr in let w := run es w0 in let l := guidTrace (es ++ [EOp (OpProcess rd)]) w0 in
    request w rd m 23 d -> quarterOf m = Some q ->
    exists lo w1, served w (after w rd) m lo w1 /\
     (guidDrop (c_t_multi cfg mod 65536) l /\ dropped (finished (heard w m)) 0 0 lo w1 \/
      ~ guidDrop (c_t_multi cfg mod 65536) l /\ lo = [] /\ exists g, w1 = listened (heard w m) q g).
Proof.
  intros A E VE HT ps a wr es rd m d q HP HE w0 w l HQ QM. destruct (guid_request VE es ps a wr rd m d q HT HP HE HQ QM) as (lo & w1 & H1 & H2). exists lo, w1. auto.
Qed.
Print Assumptions C50_active_partial.

(* C50: an incomplete, late or foreign sequence never takes the nickname away *)
Theorem C50_never_otherwise_partial :
  forall A (E : Env A), valid_env E -> timersNeeded cfg <= c_timers cfg ->
    forall ps a wr es rd m d, (forall x, ps x < 256) -> Forall event_wf es ->
    let w0 := powerUp ps a wr in let w := run es w0 in let l := guidTrace (es ++ [EOp (OpProcess rd)]) w0 in let w' := after w rd in
    request w rd m 23 d -> quiet w w' -> w_nick w' <> w_nick w \/ w_st w' <> w_st w ->
    exists s, sequence (c_t_multi cfg mod 65536) l s /\ complete s /\ (forall q, q < 4 -> In (GQuarter q true) s).
Proof.
  intros A E VE HT ps a wr es rd m d HP HE w0 w l w' HQ QU HC. destruct (quarterOf m) as [q|] eqn:QM.
  - destruct (guid_request VE es ps a wr rd m d q HT HP HE HQ QM) as (lo & w1 & [(GD & _)|(_ & _ & g & ->)] & H2).
    + destruct GD as (s & H & HS & _). exists s. split; [exact H|]. split; [exact HS|]. apply HS.
    + exfalso. destruct H2 as (rest & _ & H2). destruct (H2 QU) as [_ S0]. assert (S : same w' (listened (heard w m) q g)) by exact S0.
      assert (X : w_nick w' = w_nick w /\ w_st w' = w_st w).
      { rewrite (same_nick _ _ S), (same_st _ _ S). unfold listened. destruct (q =? 0); wsimp; rewrite heard_nick, heard_st; auto. }
      destruct X. tauto.
  - exfalso. destruct (known_state VE w rd m 23 d (fun l w1 => l = [] /\ w1 = heard w m) HQ) as (lo & w1 & (-> & ->) & HS).
    + intros v S0 RX WF SZ AT NK MT ST. exists [], (heard w m). split; [auto|]. rewrite (hpct_23 v MT), (guid_other v m RX WF) by (try exact QM; try (rewrite <- RX; exact MT); apply HQ).
      cbv zeta. split; [reflexivity|]. split; [exact S0|]. intros _. apply undisturbed_refl.
    + destruct HS as (rest & _ & H2). destruct (H2 QU) as [_ S]. fold w' in S.
      rewrite (same_nick _ _ S), (same_st _ _ S), heard_nick, heard_st in HC. tauto.
Qed.
Print Assumptions C50_never_otherwise_partial.

(* C50: a type 23 event that carries no quarter changes nothing *)
Theorem C50_malformed :
  forall A (E : Env A), valid_env E -> forall w rd m d, request w rd m 23 d -> quarterOf m = None -> served w (after w rd) m [] (heard w m).
Proof.
  intros A E VE w rd m d HQ QM. destruct (known_state VE w rd m 23 d (fun l w1 => l = [] /\ w1 = heard w m) HQ) as (lo & w1 & (-> & ->) & HS); [|exact HS].
  intros v S0 RX WF SZ AT NK MT ST. exists [], (heard w m). split; [auto|]. rewrite (hpct_23 v MT), (guid_other v m RX WF) by (try exact QM; try (rewrite <- RX; exact MT); apply HQ).
  cbv zeta. split; [reflexivity|]. split; [exact S0|]. intros _. apply undisturbed_refl.
Qed.
Print Assumptions C50_malformed.

(* C50: a silent node without nickname starts its discovery exactly on a complete sequence *)
Theorem C50_startup_partial :
  forall A (E : Env A), valid_env E -> timersNeeded cfg <= c_timers cfg ->
    forall ps a wr es rd m q, (forall x, ps x < 256) -> Forall event_wf es ->
    let w0 := powerUp ps a wr in let w := run es w0 in let l := guidTrace (es ++ [EOp (OpProcess rd)]) w0 in let w' := after w rd in
    op_wf (OpProcess rd) -> c_silent cfg = true -> w_st w = STARTUP -> w_nick w = 255 -> taken (effects w w') = [m] -> quarterOf m = Some q ->
    guidDrop (c_t_multi cfg mod 65536) l /\ effects w w' = [OProcess; ORx m; OLamp LampBlinkFast; OPs (fieldBase cfg FNick) 255; ORet true] /\
      same w' (set_ps (fupd (w_ps w) (fieldBase cfg FNick) 255) (discovering (finished w))) \/
    ~ guidDrop (c_t_multi cfg mod 65536) l /\ effects w w' = [OProcess; ORx m; ORet true] /\ exists g, same w' (listened w q g).
Proof. intros A E VE HT ps a wr es rd m q HP HE w0 w l w' HO SL ST NK TK QM. exact (guid_startup VE es ps a wr rd m q HT HP HE HO SL ST NK TK QM). Qed.
Print Assumptions C50_startup_partial.

(* a quarter that is not that of the example node *)
Definition exOther (q : N) : Msg := exReq 23 [q; 0; 0; 0; 0].
Definition rx (m : Msg) : Event Regs := EOp (OpProcess (Some m)).

(* C50, refuted as stated: the frame that triggers the drop need not match, if a matching last quarter came earlier *)
Theorem C50_last_refuted :
  exists E : Env Regs, valid_env E /\ exists w m, request w (Some m) m 23 [3; 0; 0; 0; 0] /\ guidMatch w m 3 = false /\
    w_nick w = 5 /\ w_nick (after w (Some m)) = 255 /\ w_st (after w (Some m)) = RESET.
Proof.
  pose (E := exEnv (exCfg oExt)). exists E. split; [exvalid|]. 
  exists (exNode oExt [rx (exReq 23 [0; 1; 2; 3; 4]); rx (exReq 23 [3; 13; 14; 15; 16]); rx (exReq 23 [1; 5; 6; 7; 8]); rx (exReq 23 [2; 9; 10; 11; 12])]), (exOther 3).
  split; [exreq|]. vmc.
Qed.
Print Assumptions C50_last_refuted.

(* the hypotheses are met: four matching quarters in time drop the nickname; a mismatch or a delay does not *)
Example C50_example :
  let E := exEnv (exCfg oExt) in
  let w0 := powerUp (exPs (exCfg oExt) 5) regs0 [] in
  let q0 := exReq 23 [0; 1; 2; 3; 4] in let q1 := exReq 23 [1; 5; 6; 7; 8] in let q2 := exReq 23 [2; 9; 10; 11; 12] in let q3 := exReq 23 [3; 13; 14; 15; 16] in
  let good := exNode oExt [rx q0; rx q1; EOp (OpTick 900); rx q2] in
  let bad := exNode oExt [rx q0; rx (exOther 1); rx q2] in
  let late := exNode oExt [rx q0; rx q1; EOp (OpTick 1000); rx q2] in
  valid_env E /\ timersNeeded (@cfg Regs E) <= c_timers (@cfg Regs E) /\
  request good (Some q3) q3 23 [3; 13; 14; 15; 16] /\ quarterOf q3 = Some 3 /\ quiet good (after good (Some q3)) /\
  guidTrace [EOp (OpProcess None); rx q0; rx q1; EOp (OpTick 900); rx q2; rx q3] w0 = [GQuarter 0 true; GQuarter 1 true; GTime 900; GQuarter 2 true; GQuarter 3 true] /\
  guidTrace [EOp (OpProcess None); rx q0; rx (exOther 1); rx q2; rx q3] w0 = [GQuarter 0 true; GQuarter 1 false; GQuarter 2 true; GQuarter 3 true] /\
  w_nick (after good (Some q3)) = 255 /\ w_st (after good (Some q3)) = RESET /\
  w_nick (after bad (Some q3)) = 5 /\ w_st (after bad (Some q3)) = ACTIVE /\
  w_nick (after late (Some q3)) = 5 /\ w_st (after late (Some q3)) = ACTIVE.
Proof. cbv zeta. split; [exvalid|]. split; [vm_compute; discriminate|]. split; [exreq|]. split; [reflexivity|]. split; [vm_compute; auto|]. split; [vm_compute; reflexivity|]. split; [vm_compute; reflexivity|]. vmc. Qed.
Example C50_startup_example :
  let E := exEnv (exCfg oSil) in
  let q0 := exReq 23 [0; 1; 2; 3; 4] in let q1 := exReq 23 [1; 5; 6; 7; 8] in let q2 := exReq 23 [2; 9; 10; 11; 12] in let q3 := exReq 23 [3; 13; 14; 15; 16] in
  let w := run [rx q0; rx q1; rx q2] (powerUp (exPs (exCfg oSil) 255) regs0 []) in
  valid_env E /\ reachable w /\ c_silent (@cfg Regs E) = true /\ w_st w = STARTUP /\ w_nick w = 255 /\ taken (effects w (after w (Some q3))) = [q3] /\ w_st (after w (Some q3)) = INIT.
Proof. cbv zeta. split; [exvalid|]. split; [exreach|]. vmc. Qed.
