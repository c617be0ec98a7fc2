(* Prop_Page.v - C39, C40, C42: accesses to several registers in a row *)
From Verif Require Import FixtureReq Proof_Page.

(* the number of registers a page read or page write accesses: the page ends with register 0xFE *)
Definition upTo254 (off cnt : N) : N := if off + cnt <=? 255 then cnt else 255 - off.

(* C39: the values of the requested registers, in their order, in frames of seven. They are what reading these registers
   one by one returns, and so are the effects of the request.
   Partial: register 0xFF is never delivered, see C39_end_refuted. *)
Theorem C39_page_read_partial :
  forall A (E : Env A), valid_env E -> forall w rd m off cnt,
    request w rd m 24 [w_nick w; off; cnt] ->
    let r := readRegs (w_page w) off (N.to_nat (upTo254 off cnt)) (heard w m) in
    exists lo, pageAnswer (w_nick w) 0 (fst r) lo /\ served w (after w rd) m lo (snd r).
Proof.
  intros A E VE w rd m off cnt HQ r.
  destruct (served_by VE (fun l w1 => pageAnswer (w_nick w) 0 (fst r) l /\ w1 = snd r) w rd m 24 _ HQ) as (l & w1 & (HA & ->) & HS); [|exists l; split; assumption].
  intros w0 S0 RX WF HT HP NK. destruct (payload_at m _ WF HP) as [SZ AT].
  assert (Ho : off < 256) by (apply (payload_byte m); [exact WF|rewrite HP; right; left; reflexivity]).
  assert (Hc : cnt < 256) by (apply (payload_byte m); [exact WF|rewrite HP; right; right; left; reflexivity]).
  plsize SZ. plat AT 0 A0. plat AT 1 A1. plat AT 2 A2.
  assert (UP : off + upTo254 off cnt <= 256 /\ 0 + upTo254 off cnt < 256) by (unfold upTo254; destruct (off + cnt <=? 255) eqn:C; lia).
  assert (PG : w_page w0 = w_page w) by (rewrite (same_page _ _ S0); apply heard_page).
  destruct (page_loop (w_nick w) (w_page w) (N.to_nat (upTo254 off cnt)) off 0 [] w0 (heard w m) S0 PG) as (lo & G1 & G2 & G3 & G4); [cbn [length]; lia|rewrite N2Nat.id; exact (proj1 UP)|rewrite N2Nat.id; exact (proj2 UP)|].
  exists lo, (snd r). split; [split; [exact G2|reflexivity]|]. cbv zeta.
  rewrite hpct_24 by (rewrite RX; exact HT). unfold handlePageRead, rxSize, rxForMe, rxd. rewrite !bind_get, RX, SZ, A0, NK. pass. rewrite !bind_get, RX, A1, A2, NK.
  replace (clampNum cnt off) with (upTo254 off cnt) by (unfold clampNum, upTo254; destruct (off + cnt <=? 255) eqn:C1, (255 - cnt <? off) eqn:C2; lia).
  split; [exact G1|]. split; [exact G3|]. intros _. exact G4.
Qed.
Print Assumptions C39_page_read_partial.

(* C39: for registers with stored values this means: the frames carry these values, and nothing else happens *)
Theorem C39_stored_partial :
  forall A (E : Env A), valid_env E -> forall w rd m off cnt (x : N -> N),
    request w rd m 24 [w_nick w; off; cnt] -> (forall a, off <= a < off + upTo254 off cnt -> shows (heard w m) (w_page w) a (x a)) ->
    exists lo, carried lo = map (fun i => x (off + N.of_nat i)) (seq 0 (N.to_nat (upTo254 off cnt))) /\
      seqNumbers lo = map N.of_nat (seq 0 (length (frames lo))) /\ served w (after w rd) m lo (heard w m).
Proof.
  intros A E VE w rd m off cnt x HQ HX. destruct (C39_page_read_partial A E VE w rd m off cnt HQ) as (lo & HA & HS). exists lo.
  destruct (read_stored VE (w_page w) (heard w m) x (N.to_nat (upTo254 off cnt)) off) as [R1 R2]; [rewrite N2Nat.id; exact HX|]. rewrite R2 in HS. rewrite R1 in HA.
  destruct (answer_parts _ _ _ _ HA) as [P1 P2]; [apply map_nil|]. rewrite P1, P2, map_map. cbn [fst]. split; [reflexivity|]. split; [|exact HS].
  apply map_ext. intros i. lia.
Qed.
Print Assumptions C39_stored_partial.

Example C39_example :
  let E := exEnv (exCfg oDm) in
  let w := exNode oDm [] in let m := exReq 24 [5; 129; 9] in
  valid_env E /\ request w (Some m) m 24 [w_nick w; 129; 9] /\ (forall a, 129 <= a < 129 + upTo254 129 9 -> shows (heard w m) (w_page w) a (vscpRegister (heard w m) a)) /\
  map (fun f => (m_type (fst f), payload (fst f))) (frames (effects w (after w (Some m)))) = [(26, [0; 1; 13; 96; 0; 0; 0; 0]); (26, [1; 0; 0])].
Proof.
  cbv zeta. split; [exvalid|]. split; [exreq|]. split; [|vmc]. intros a Ha. change (upTo254 129 9) with 9 in Ha. left. repeat split; lia.
Qed.

(* C39 is false for register 0xFF: it is part of the page, but never delivered *)
Theorem C39_end_refuted :
  exists (E : Env Regs), valid_env E /\ exists w m, request w (Some m) m 24 [w_nick w; 240; 16] /\ w_page w = 0 /\
    carried (effects w (after w (Some m))) = map (vscpRegister w) (map N.of_nat (seq 240 15)) /\
    exists m1, request w (Some m1) m1 24 [w_nick w; 255; 1] /\ frames (effects w (after w (Some m1))) = [].
Proof.
  pose (E := exEnv (exCfg oDm)). exists E. split; [exvalid|]. exists (exNode oDm []), (exReq 24 [5; 240; 16]). split; [exreq|]. split; [reflexivity|]. split; [vmc|].
  exists (exReq 24 [5; 255; 1]). split; [exreq|]. vmc.
Qed.
Print Assumptions C39_end_refuted.

(* C40: the registers are written one by one, and the answer is one frame with their answers.
   Partial: register 0xFF is never written; the page selection is evaluated for each register anew; a protected register
   answers 0. See the refutations below. *)
Theorem C40_page_write_partial :
  forall A (E : Env A), valid_env E -> calmApp -> forall w rd m off vs,
    request w rd m 25 (w_nick w :: off :: vs) -> vs <> [] ->
    let r := writeRegs w_page off (firstn (N.to_nat (upTo254 off (N.of_nat (length vs)))) vs) (heard w m) in
    exists f ok, protFrame f 26 3 (w_nick w) (0 :: map fst (fst r)) /\
      served w (after w rd) m (concat (map snd (fst r)) ++ [OTx f ok]) (snd r).
Proof.
  intros A E VE CA w rd m off vs HQ NE r. set (us := firstn _ vs) in *.
  destruct (served_by VE (fun l w1 => exists f ok, protFrame f 26 3 (w_nick w) (0 :: map fst (fst r)) /\ l = concat (map snd (fst r)) ++ [OTx f ok] /\ w1 = snd r) w rd m 25 _ HQ)
    as (l & w1 & (f & ok & PF & -> & ->) & HS); [|exists f, ok; split; assumption].
  intros w0 S0 RX WF HT HP NK. destruct (payload_at m _ WF HP) as [SZ AT].
  assert (Ho : off < 256) by (apply (payload_byte m); [exact WF|rewrite HP; right; left; reflexivity]).
  assert (HL : (0 < length vs <= 6)%nat). { destruct vs as [|v vs]; [contradiction NE; reflexivity|]. destruct WF as (_ & _ & _ & _ & W1 & _). rewrite SZ in W1. clear CA. cbn [length] in *. lia. }
  assert (UL : length us = N.to_nat (upTo254 off (N.of_nat (length vs)))).
  { unfold us. rewrite firstn_length. unfold upTo254. clear CA. destruct (_ <=? _) eqn:C; lia. }
  assert (T0 : T162 (heard w m)). { destruct HQ as (HR & _). destruct (reach_inv VE w HR) as [ps0 HI]. apply T162_heard, (inv_T162 VE ps0 w HI). }
  pose proof (AT 0 ltac:(cbn [length]; lia)) as A0. pose proof (AT 1 ltac:(cbn [length]; lia)) as A1. change (N.to_nat 0) with 0%nat in A0. change (N.to_nat 1) with 1%nat in A1. cbn [nth] in A0, A1.
  destruct (write_all CA w_page (get w_page) m PT_RW_PAGE_RESPONSE us off 2 [0] w0 (heard w m) (w_nick w)) as (f & ok & G1 & G2 & G3 & G4); try assumption.
  - reflexivity.
  - intros x y S. apply same_page, S.
  - intros i Hi. assert (Hi' : (i < length vs)%nat). { unfold us in Hi. rewrite firstn_length in Hi. clear CA. lia. } unfold us. rewrite UL in Hi. rewrite firstn_nth by exact Hi.
    rewrite (data_at m _ (N.to_nat 2 + i) WF SZ AT) by (cbn [length]; clear CA; lia). reflexivity.
  - rewrite UL. unfold upTo254. cbn [length]. clear CA. destruct (_ <=? _) eqn:C; lia.
  - rewrite UL. unfold upTo254. clear CA. destruct (_ <=? _) eqn:C; lia.
  - eexists. exists (snd r). split; [exists f, ok; split; [exact G1|]; split; reflexivity|]. cbv zeta.
    rewrite hpct_25 by (rewrite RX; exact HT). unfold handlePageWrite, rxSize, rxForMe, rxd. rewrite !bind_get, RX, A0, NK.
    replace ((3 <=? m_size m) && (w_nick w =? w_nick w)) with true by (rewrite SZ; cbn [length]; clear CA; lia). rewrite !bind_get, RX, A1, NK.
    replace (N.to_nat (clampNum (m_size m - 2) off)) with (length us).
    + split; [exact G2|]. split; [exact G3|]. intros _. exact G4.
    + rewrite UL, SZ. unfold clampNum, upTo254. cbn [length]. clear CA. destruct (_ <=? _) eqn:C1, (_ <? _) eqn:C2; lia.
Qed.
Print Assumptions C40_page_write_partial.
(* C40: on registers that are windows on consecutive bytes of persistent memory, this means: the bytes are stored, nothing
   else changes, and the answer carries them. *)
Theorem C40_stored_partial :
  forall A (E : Env A), valid_env E -> calmApp -> forall w rd m off vs f k,
    request w rd m 25 (w_nick w :: off :: vs) -> vs <> [] -> off + N.of_nat (length vs) <= 255 -> writable w ->
    f <> FCtrl -> k + N.of_nat (length vs) <= fieldLen cfg f -> (forall i, i < N.of_nat (length vs) -> isWindowOn (w_page w) (off + i) f (k + i)) ->
    exists xs fr ok w1, map snd xs = vs /\ protFrame fr 26 3 (w_nick w) (0 :: vs) /\ onlyMemory (heard w m) w1 /\
      (forall g j, j < fieldLen cfg g -> stored w1 g j = if field_eqb f g && (k <=? j) && (j <? k + N.of_nat (length vs)) then nth (N.to_nat (j - k)) vs 0 else stored w g j) /\
      served w (after w rd) m (map (fun q => OPs (fst q) (snd q)) xs ++ [OTx fr ok]) w1.
Proof.
  intros A E VE CA w rd m off vs f k HQ NE HO HW NF HL HI. destruct (C40_page_write_partial A E VE CA w rd m off vs HQ NE) as (fr & ok & PF & HS).
  replace (firstn _ vs) with vs in PF, HS. 2:{ symmetry. apply firstn_all2. unfold upTo254. clear CA. destruct (_ <=? _) eqn:C; lia. }
  destruct (write_stored w_page (w_page w) f vs) with (a := off) (k := k) (w := heard w m) as (G1 & G2 & (xs & G3 & G3') & G4); try assumption.
  - intros x y HM HP. unfold onlyMemory in HM. rewrite <- HP, <- HM. reflexivity.
  - apply heard_page.
  - unfold writable in *. rewrite (stored_ps (heard w m) w); [exact HW|apply heard_ps].
  - destruct HQ as (HR & HO' & HA & HT). apply Forall_forall. intros v Hv. apply (payload_byte m).
    + apply (received_wf VE rd w m HR HO'). apply received_taken. apply HT.
    + destruct HT as (_ & _ & _ & HP & _). rewrite HP. right. right. exact Hv.
  - exists xs, fr, ok, (snd (writeRegs w_page off vs (heard w m))). rewrite G1 in PF. rewrite G3 in HS. split; [exact G3'|]. split; [exact PF|]. split; [exact G2|]. split; [|exact HS].
    intros g j Hj. rewrite G4 by exact Hj. rewrite (stored_ps (heard w m) w) by apply heard_ps. reflexivity.
Qed.
Print Assumptions C40_stored_partial.

Lemma exDmWindow i : i < 32 -> isWindowOn (E := exEnv (exCfg oDm)) 1 i FDm i.
Proof.
  intros Hi. assert (VE : valid_env (exEnv (exCfg oDm))) by exvalid. pose proof (@dm_window Regs (exEnv (exCfg oDm)) VE i) as W. apply W; try reflexivity. exact Hi.
Qed.
Example C40_example :
  let E := exEnv (exCfg oDm) in
  let w := exNode oDm [EOp (A := Regs) (OpProcess (Some (exReq 11 [5; 147; 1])))] in let m := exReq 25 [5; 3; 9; 8; 7] in
  valid_env E /\ calmApp /\ request w (Some m) m 25 [w_nick w; 3; 9; 8; 7] /\ writable w /\ w_page w = 1 /\
  (forall i, i < N.of_nat (length [9; 8; 7]) -> isWindowOn (w_page w) (3 + i) FDm (3 + i)) /\ fieldLen cfg FDm = 32 /\
  map (stored (after w (Some m)) FDm) [2; 3; 4; 5; 6] = [0; 9; 8; 7; 0] /\
  map (fun f => (m_type (fst f), payload (fst f))) (frames (effects w (after w (Some m)))) = [(26, [0; 9; 8; 7])].
Proof.
  cbv zeta. split; [exvalid|]. split; [intros x p a v; reflexivity|]. split; [exreq|]. split; [vmc|]. split; [vmc|]. split; [|vmc].
  intros i Hi. match goal with |- isWindowOn ?p _ _ _ => replace p with 1 by (vm_compute; reflexivity) end. apply exDmWindow. cbn [length] in Hi. lia.
Qed.

(* C40 is false for register 0xFF: it belongs to the page, but is never written *)
Theorem C40_end_refuted :
  exists (E : Env Regs), valid_env E /\ exists w m, request w (Some m) m 25 [w_nick w; 254; 6; 7] /\ w_page w = 3 /\ isAppRegister 3 255 /\ writable w /\
    effects w (after w (Some m)) = [OProcess; ORx m; OAppWrite 3 254 6; OTx (mkTx 0 26 3 5 [0; 6]) true; ORet true].
Proof.
  pose (E := exEnv (exCfg oDm)). exists E. split; [exvalid|]. exists (exNode oDm [EOp (A := Regs) (OpProcess (Some (exReq 11 [5; 147; 3])))]), (exReq 25 [5; 254; 6; 7]). split; [exreq|]. split; [vmc|].
  split; [|vmc]. assert (VE : valid_env E) by exvalid. apply app_register; try (lia || reflexivity || exact VE || apply ext_doApi).
Qed.
Print Assumptions C40_end_refuted.
(* C40 is false when the page selection register is among the registers: the next register is written on the new page *)
Theorem C40_selection_refuted :
  exists (E : Env Regs), valid_env E /\ exists w m, request w (Some m) m 25 [w_nick w; 147; 3; 7] /\ w_page w = 0 /\
    In (OAppWrite 3 148 7) (effects w (after w (Some m))).
Proof.
  pose (E := exEnv (exCfg oDm)). exists E. split; [exvalid|]. exists (exNode oDm []), (exReq 25 [5; 147; 3; 7]). split; [exreq|]. split; [vmc|]. vm_compute. tauto.
Qed.
Print Assumptions C40_selection_refuted.
(* C40: the answer for a write protected register is 0, and not the value stored *)
Theorem C40_protected_refuted :
  exists (E : Env Regs), valid_env E /\ exists w m, request w (Some m) m 25 [w_nick w; 1; 7] /\ ~ writable w /\ isWindowOn (w_page w) 1 FDm 1 /\
    frames (effects w (after w (Some m))) = [(mkTx 0 26 3 5 [0; 0], true)] /\ stored (after w (Some m)) FDm 1 = 9.
Proof.
  pose (E := exEnv (exCfg oDm)). exists E. split; [exvalid|].
  exists (exNode oDm [EOp (A := Regs) (OpProcess (Some (exReq 11 [5; 147; 1]))); EOp (A := Regs) (OpProcess (Some (exReq 25 [5; 1; 9]))); EOp (A := Regs) (OpProcess (Some (exReq 11 [5; 131; 64])))]), (exReq 25 [5; 1; 7]).
  split; [exreq|]. split; [vm_compute; discriminate|]. split; [|vmc]. match goal with |- isWindowOn ?p _ _ _ => replace p with 1 by (vm_compute; reflexivity) end. apply exDmWindow. lia.
Qed.
Print Assumptions C40_protected_refuted.

(* C42: the registers of the given page are written one by one, up to the end of the page; the answer is one frame. The
   page selection does not change, unless its registers are written or factory defaults are restored. *)
Theorem C42_ext_page_write_partial :
  forall A (E : Env A), valid_env E -> calmApp -> forall w rd m d1 d2 a vs,
    request w rd m 38 (w_nick w :: d1 :: d2 :: a :: vs) -> vs <> [] ->
    let p := 256 * d1 + d2 in
    let us := firstn (N.to_nat (256 - a)) vs in
    let r := writeRegs (fun _ => p) a us (heard w m) in
    exists f ok, protFrame f 39 3 (w_nick w) (0 :: d1 :: d2 :: a :: map fst (fst r)) /\
      ((forall b, a <= b < a + N.of_nat (length us) -> ~ (p = 0 /\ (b = 146 \/ b = 147 \/ b = 162))) -> w_page (snd r) = w_page w) /\
      served w (after w rd) m (concat (map snd (fst r)) ++ [OTx f ok]) (snd r).
Proof.
  intros A E VE CA w rd m d1 d2 a vs HQ NE p us r.
  destruct (served_by VE (fun l w1 => exists f ok, protFrame f 39 3 (w_nick w) (0 :: d1 :: d2 :: a :: map fst (fst r)) /\ l = concat (map snd (fst r)) ++ [OTx f ok] /\ w1 = snd r) w rd m 38 _ HQ)
    as (l & w1 & (f & ok & PF & -> & ->) & HS).
  2:{ exists f, ok. split; [exact PF|]. split; [|exact HS]. intros HB. transitivity (w_page (heard w m)); [|apply heard_page]. unfold r. apply (writeRegs_page CA). intros i Hi. apply HB. clear CA. lia. }
  intros w0 S0 RX WF HT HP NK. destruct (payload_at m _ WF HP) as [SZ AT].
  assert (H1 : d1 < 256) by (apply (payload_byte m); [exact WF|rewrite HP; right; left; reflexivity]).
  assert (H2 : d2 < 256) by (apply (payload_byte m); [exact WF|rewrite HP; right; right; left; reflexivity]).
  assert (Ha : a < 256) by (apply (payload_byte m); [exact WF|rewrite HP; right; right; right; left; reflexivity]).
  assert (HL : (0 < length vs <= 4)%nat). { destruct vs as [|v vs]; [contradiction NE; reflexivity|]. destruct WF as (_ & _ & _ & _ & W1 & _). rewrite SZ in W1. clear CA. cbn [length] in *. lia. }
  assert (UL : length us = Nat.min (N.to_nat (256 - a)) (length vs)) by (unfold us; apply firstn_length).
  assert (T0 : T162 (heard w m)). { destruct HQ as (HR & _). destruct (reach_inv VE w HR) as [ps0 HI]. apply T162_heard, (inv_T162 VE ps0 w HI). }
  pose proof (AT 0 ltac:(cbn [length]; lia)) as A0. pose proof (AT 1 ltac:(cbn [length]; lia)) as A1. pose proof (AT 2 ltac:(cbn [length]; lia)) as A2. pose proof (AT 3 ltac:(cbn [length]; lia)) as A3.
  change (N.to_nat 0) with 0%nat in A0. change (N.to_nat 1) with 1%nat in A1. change (N.to_nat 2) with 2%nat in A2. change (N.to_nat 3) with 3%nat in A3. cbn [nth] in A0, A1, A2, A3.
  destruct (write_all CA (fun _ => p) (ret p) m PT_EXTENDED_PAGE_RESPONSE us a 4 [0; d1; d2; a] w0 (heard w m) (w_nick w)) as (f & ok & G1 & G2 & G3 & G4); try assumption.
  - reflexivity.
  - reflexivity.
  - intros i Hi. unfold us. rewrite firstn_nth by (clear CA; lia). rewrite (data_at m _ (N.to_nat 4 + i) WF SZ AT) by (cbn [length]; clear CA; lia). reflexivity.
  - cbn [length]. clear CA. lia.
  - clear CA. lia.
  - eexists. exists (snd r). split; [exists f, ok; split; [exact G1|]; split; reflexivity|]. cbv zeta.
    rewrite hpct_38 by (rewrite RX; exact HT). unfold handleExtPageWrite, rxSize, rxForMe, rxd. rewrite !bind_get, RX, A0, NK.
    replace ((5 <=? m_size m) && (w_nick w =? w_nick w)) with true by (rewrite SZ; cbn [length]; clear CA; lia). rewrite !bind_get, RX, A1, A2, A3, NK. cbv zeta.
    replace (mkWord d1 d2) with p by (unfold mkWord, p; rewrite ?be2 by assumption; reflexivity).
    match goal with |- context [writeLoop ?n _ _ _ _] => replace n with (length us) end.
    + split; [exact G2|]. split; [exact G3|]. intros _. exact G4.
    + rewrite UL, SZ. cbn [length]. clear CA. destruct (_ <? _) eqn:C1; lia.
Qed.
Print Assumptions C42_ext_page_write_partial.

(* C42: on windows on consecutive bytes of persistent memory: the bytes are stored and nothing else changes, not even the page selection *)
Theorem C42_stored :
  forall A (E : Env A), valid_env E -> calmApp -> forall w rd m d1 d2 a vs f k,
    request w rd m 38 (w_nick w :: d1 :: d2 :: a :: vs) -> vs <> [] -> a + N.of_nat (length vs) <= 256 -> writable w ->
    f <> FCtrl -> k + N.of_nat (length vs) <= fieldLen cfg f -> (forall i, i < N.of_nat (length vs) -> isWindowOn (256 * d1 + d2) (a + i) f (k + i)) ->
    exists xs fr ok w1, map snd xs = vs /\ protFrame fr 39 3 (w_nick w) (0 :: d1 :: d2 :: a :: vs) /\ onlyMemory (heard w m) w1 /\
      (forall g j, j < fieldLen cfg g -> stored w1 g j = if field_eqb f g && (k <=? j) && (j <? k + N.of_nat (length vs)) then nth (N.to_nat (j - k)) vs 0 else stored w g j) /\
      served w (after w rd) m (map (fun q => OPs (fst q) (snd q)) xs ++ [OTx fr ok]) w1.
Proof.
  intros A E VE CA w rd m d1 d2 a vs f k HQ NE HO HW NF HL HI. destruct (C42_ext_page_write_partial A E VE CA w rd m d1 d2 a vs HQ NE) as (fr & ok & PF & _ & HS).
  replace (firstn _ vs) with vs in PF, HS. 2:{ symmetry. apply firstn_all2. clear CA. lia. }
  destruct (write_stored (fun _ => 256 * d1 + d2) (256 * d1 + d2) f vs) with (a := a) (k := k) (w := heard w m) as (G1 & G2 & (xs & G3 & G3') & G4); try assumption.
  - reflexivity.
  - reflexivity.
  - unfold writable in *. rewrite (stored_ps (heard w m) w); [exact HW|apply heard_ps].
  - destruct HQ as (HR & HO' & HA & HT). apply Forall_forall. intros v Hv. apply (payload_byte m).
    + apply (received_wf VE rd w m HR HO'). apply received_taken. apply HT.
    + destruct HT as (_ & _ & _ & HP & _). rewrite HP. do 4 right. exact Hv.
  - exists xs, fr, ok, (snd (writeRegs (fun _ => 256 * d1 + d2) a vs (heard w m))). rewrite G1 in PF. rewrite G3 in HS. split; [exact G3'|]. split; [exact PF|]. split; [exact G2|]. split; [|exact HS].
    intros g j Hj. rewrite G4 by exact Hj. rewrite (stored_ps (heard w m) w) by apply heard_ps. reflexivity.
Qed.
Print Assumptions C42_stored.

Example C42_example :
  let E := exEnv (exCfg oDm) in
  let w := exNode oDm [] in let m := exReq 38 [5; 0; 1; 3; 9; 8; 7] in
  valid_env E /\ calmApp /\ request w (Some m) m 38 [w_nick w; 0; 1; 3; 9; 8; 7] /\ writable w /\ w_page w = 0 /\
  (forall i, i < N.of_nat (length [9; 8; 7]) -> isWindowOn (256 * 0 + 1) (3 + i) FDm (3 + i)) /\
  map (stored (after w (Some m)) FDm) [2; 3; 4; 5; 6] = [0; 9; 8; 7; 0] /\ w_page (after w (Some m)) = 0 /\
  map (fun f => (m_type (fst f), payload (fst f))) (frames (effects w (after w (Some m)))) = [(39, [0; 0; 1; 3; 9; 8; 7])].
Proof.
  cbv zeta. split; [exvalid|]. split; [intros x p a v; reflexivity|]. split; [exreq|]. split; [vmc|]. split; [vmc|]. split; [|vmc].
  intros i Hi. apply exDmWindow. cbn [length] in Hi. lia.
Qed.

(* C42 is false when the write completes the factory reset sequence of register 0xA2: the page selection becomes 0 *)
Theorem C42_restore_refuted :
  exists (E : Env Regs), valid_env E /\ exists w m, request w (Some m) m 38 [w_nick w; 0; 0; 162; 170] /\ w_page w = 3 /\ w_page (after w (Some m)) = 0.
Proof.
  pose (E := exEnv (exCfg oDm)). exists E. split; [exvalid|].
  exists (exNode oDm [EOp (A := Regs) (OpProcess (Some (exReq 11 [5; 147; 3]))); EOp (A := Regs) (OpProcess (Some (exReq 11 [5; 162; 85])))]), (exReq 38 [5; 0; 0; 162; 170]).
  split; [exreq|]. vmc.
Qed.
Print Assumptions C42_restore_refuted.
