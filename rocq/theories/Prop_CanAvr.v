(* Prop_CanAvr.v - properties C67, C68, C69: the CAN adapter of the AT90CAN example. *)
From Coq Require Import Permutation.
From Verif Require Import CanAvr Spec_CanAvr Proof_CanAvr Proof_DataCoding.

(* a controller whose 15 message objects hold 8 data bytes each, in whatever state, before can_Open *)
Definition blank : Can := mkCan 0 (repeat mob0 15) [].

(* C67: after vscp_tp_adapter_init, for all calls, arriving frames (length code at most 8) and transmissions
   in any order, the adapter is the abstract adapter of Spec_CanAvr.v: the answers of all calls are the same,
   and the same frames get onto the bus in the same order. The messages have a class below 512. *)
Theorem C67_adapter_partial :
  forall c ops, can_raw c -> Forall aop_wf ops ->
    let '(res, c') := aRun (canOpen c) ops in
    let '(res', b) := bRun (boxInit (c_bus c)) ops in
    res = res' /\ c_bus c' = b_bus b.
Proof.
  intros c ops Hc Hf. destruct (run_ok ops _ _ (open_ok c Hc) Hf) as [E O].
  destruct (aRun _ ops) as [res c'], (bRun _ ops) as [res' b]. cbn [fst snd] in *.
  destruct O as (_ & _ & O & _). auto.
Qed.
Print Assumptions C67_adapter_partial.

(* C67: the frame of a message, received by another node, gives the same message *)
Theorem C67_roundtrip :
  forall m old, can_msg m -> m_size m <= 8 -> length old = 8%nat ->
    wire_wf (vscpWire m) /\
    let m' := vscpMsg (vscpWire m) old in
    m_prio m' = m_prio m /\ m_class m' = m_class m /\ m_type m' = m_type m /\ m_oaddr m' = m_oaddr m /\
    m_hard m' = m_hard m /\ m_size m' = m_size m /\ payload m' = payload m /\ length (m_data m') = 8%nat.
Proof.
  intros m old Hm Hs Ho. destruct (frame_id m Hm) as [_ Hid]. destruct Hm as (H1 & H2 & H3 & H4 & H5 & H6).
  assert (Hp : length (payload m) = N.to_nat (m_size m)) by (unfold payload; rewrite firstn_length; lia).
  split.
  - split; [exact Hid|]. split; [exact Hs|]. split; [exact Hp|]. unfold vscpWire, w_dat, payload.
    unfold bytes in *. rewrite Forall_forall in *. intros x Hx. apply H6. eapply In_firstn; eassumption.
  - unfold vscpMsg, vscpWire, wireData, vscpId.
    cbn [w_cid w_dlc w_rtr w_dat m_prio m_class m_type m_oaddr m_hard m_size m_data].
    repeat split; try (destruct (m_hard m); lia).
    + destruct (m_hard m).
      * replace ((m_prio m * 67108864 + 33554432 + m_class m * 65536 + m_type m * 256 + m_oaddr m) / 33554432)
          with (2 * m_prio m + 1) by lia. rewrite N.add_comm, N.odd_add_mul_2. reflexivity.
      * replace ((m_prio m * 67108864 + 0 + m_class m * 65536 + m_type m * 256 + m_oaddr m) / 33554432)
          with (0 + 2 * m_prio m) by lia. rewrite N.odd_add_mul_2. reflexivity.
    + unfold payload at 1. cbn [m_size m_data]. rewrite firstn_app, Hp, Nat.sub_diag. cbn [firstn].
      rewrite <- Hp, firstn_all. apply app_nil_r.
    + rewrite app_length, skipn_length, Hp, Ho. lia.
Qed.
Print Assumptions C67_roundtrip.

(* C67, what is not true: a class of 512 or more does not fit; the frame of class 512 has the hard coded bit
   set and is class 0 for the receiver *)
Theorem C67_class_refuted :
  exists m, msg_wf m /\ m_class m = 512 /\ m_hard m = false /\
    exists w, c_bus (snd (aRun (canOpen blank) [AWrite m [] []; AHw (EvTx 1)])) = [w] /\
    m_class (vscpMsg w (repeat 0 8)) = 0 /\ m_hard (vscpMsg w (repeat 0 8)) = true.
Proof.
  exists (mkMsg 3 512 1 5 false 0 (repeat 0 8)).
  split; [repeat split; try (vm_compute; reflexivity); repeat constructor; vm_compute; discriminate|].
  split; [reflexivity|]. split; [reflexivity|].
  exists (mkWire true false 234881285 0 []). vm_compute. auto.
Qed.
Print Assumptions C67_class_refuted.

(* C68: nothing is lost, sent twice or made up: the frames on the bus together with the frames in the
   controller are the frames of the messages for which vscp_tp_adapter_writeMessage returned TRUE *)
Theorem C68_conserves :
  forall c ops, can_raw c -> Forall aop_wf ops ->
    let '(res, c') := aRun (canOpen c) ops in
    exists w, Permutation (c_bus c' ++ w) (c_bus c ++ map vscpWire (accepted ops res)) /\
      w = map wireOf (filter txPending (c_mobs c')) /\ (length w <= 14)%nat.
Proof.
  intros c ops Hc Hf. destruct (run_ok ops _ _ (open_ok c Hc) Hf) as [E O].
  pose proof (run_perm ops (boxInit (c_bus c))) as P.
  destruct (aRun _ ops) as [res c'], (bRun _ ops) as [res' b]. cbn [fst snd] in *. subst res'.
  exists (waiting (b_slots b)). destruct (ok_waiting c' b O) as [W1 W2].
  split; [|auto]. destruct O as (_ & _ & -> & _). exact P.
Qed.
Print Assumptions C68_conserves.

(* C68: a message is refused only if all 14 message objects hold a frame that is not sent yet, at each of
   the three attempts; in particular the controller takes the message if one of them is free *)
Theorem C68_refused :
  forall c ops m d1 d2, can_raw c -> Forall aop_wf (ops ++ [AWrite m d1 d2]) -> m_size m <= 8 ->
    fst (aStep (snd (aRun (canOpen c) ops)) (AWrite m d1 d2)) = RSent false ->
    length (filter txPending (c_mobs (snd (aRun (canOpen c) ops)))) = 14%nat /\
    length (filter txPending (c_mobs (fold_left hw d1 (snd (aRun (canOpen c) ops))))) = 14%nat /\
    length (filter txPending (c_mobs (fold_left hw d2 (fold_left hw d1 (snd (aRun (canOpen c) ops)))))) = 14%nat.
Proof.
  intros c ops m d1 d2 Hc Hf Hs H. apply Forall_app in Hf. destruct Hf as [Hf Hm]. inversion Hm as [|? ? Hw _]; subst.
  destruct (run_ok ops _ _ (open_ok c Hc) Hf) as [_ O].
  set (c' := snd (aRun (canOpen c) ops)) in *. set (b := snd (bRun (boxInit (c_bus c)) ops)) in *.
  rewrite (proj1 (step_ok c' b _ O Hw)) in H. destruct Hw as (_ & W1 & W2).
  cbn [bStep] in H. unfold bWrite in H. replace (8 <? m_size m) with false in H by lia.
  destruct (bTry m b) as [x|] eqn:T1; [discriminate|].
  destruct (bTry m (fold_left bHw d1 b)) as [x|] eqn:T2; [discriminate|].
  destruct (bTry m (fold_left bHw d2 (fold_left bHw d1 b))) as [x|] eqn:T3; [discriminate|].
  pose proof (hws_ok d1 _ _ O W1) as O1. pose proof (hws_ok d2 _ _ O1 W2) as O2.
  split; [exact (full_count _ _ _ O T1)|]. split; [exact (full_count _ _ _ O1 T2)|exact (full_count _ _ _ O2 T3)].
Qed.
Print Assumptions C68_refused.

(* C68, what is not true: frames do not get onto the bus in the order of the calls although the controller
   always sends the waiting message object with the lowest number first: the third message takes the
   message object of the first one and overtakes the second *)
Theorem C68_order_refuted :
  exists m1 m2 m3, msg_wf m1 /\ msg_wf m2 /\ msg_wf m3 /\
    c_bus (snd (aRun (canOpen blank)
      [AWrite m1 [] []; AWrite m2 [] []; AHw (EvTx 1); AWrite m3 [] []; AHw (EvTx 1); AHw (EvTx 2)])) =
    map vscpWire [m1; m3; m2] /\ vscpWire m2 <> vscpWire m3.
Proof.
  exists (mkMsg 3 20 3 5 false 1 (1 :: repeat 0 7)), (mkMsg 3 20 4 5 false 1 (2 :: repeat 0 7)), (mkMsg 3 20 5 5 false 1 (3 :: repeat 0 7)).
  do 3 (split; [repeat split; try (vm_compute; reflexivity); repeat constructor; vm_compute; discriminate|]).
  split; [vm_compute; reflexivity|vm_compute; discriminate].
Qed.
Print Assumptions C68_order_refuted.

(* C69: if the adapter is read between any two arriving frames, all frames are delivered in order, each once *)
Theorem C69_delivers :
  forall c ws, can_raw c -> Forall (fun p => wire_wf (fst p)) ws ->
    readMsgs (fst (aRun (canOpen c) (served ws))) = map (fun p => vscpMsg (fst p) (snd p)) ws.
Proof.
  intros c ws Hc Hw.
  assert (Hf : Forall aop_wf (served ws)).
  { induction Hw as [|[w old] r H1 H2 IH]; cbn [served]; [constructor|].
    constructor; [exact H1|]. constructor; [exact I|exact IH]. }
  destruct (run_ok _ _ _ (open_ok c Hc) Hf) as [-> _]. apply served_msgs. reflexivity.
Qed.
Print Assumptions C69_delivers.

(* C69: without a frame since the last reading there is no message *)
Theorem C69_nothing_made_up :
  forall c ops, can_raw c -> Forall aop_wf ops ->
    (forall e, In (AHw e) ops -> match e with EvRx _ => False | _ => True end) ->
    (forall m d1 d2 e, In (AWrite m d1 d2) ops -> In e (d1 ++ d2) -> match e with EvRx _ => False | _ => True end) ->
    readMsgs (fst (aRun (canOpen c) ops)) = [].
Proof.
  intros c ops Hc Hf He Hd. destruct (run_ok _ _ _ (open_ok c Hc) Hf) as [-> _]. now apply quiet_msgs.
Qed.
Print Assumptions C69_nothing_made_up.

Definition idle : Can := canOpen blank.
(* C69, what is not true: a frame that arrives before the last one was read is lost *)
Theorem C69_lost_refuted :
  exists w1 w2, wire_wf w1 /\ wire_wf w2 /\
    fst (aRun idle [AHw (EvRx w1); AHw (EvRx w2); ARd (repeat 0 8); ARd (repeat 0 8)]) =
    [RHw; RHw; RRead (ATrue (vscpMsg w1 (repeat 0 8))); RRead AFalse].
Proof.
  exists (mkWire true false 1310985 0 []), (mkWire true false 1310986 0 []).
  do 2 (split; [repeat split; try (vm_compute; reflexivity); try (vm_compute; discriminate); constructor|]).
  vm_compute. reflexivity.
Qed.
Print Assumptions C69_lost_refuted.

(* C69, what is not true: not only frames of VSCP are delivered: a frame with an identifier of 11 bits is
   taken for the protocol event SET NICKNAME (class 0, type 6), and so is a remote frame *)
Theorem C69_foreign_refuted :
  exists w1 w2, wire_wf w1 /\ wire_wf w2 /\ w_ide w1 = false /\ w_rtr w2 = true /\
    exists m1 m2, readMsgs (fst (aRun idle (served [(w1, repeat 0 8); (w2, repeat 0 8)]))) = [m1; m2] /\
    (m_class m1, m_type m1, payload m1) = (0, 6, [7; 8]) /\ (m_class m2, m_type m2, payload m2) = (0, 6, [0; 0]).
Proof.
  exists (mkWire false false 1537 2 [7; 8]), (mkWire true true 1537 2 []).
  do 2 (split; [split; [vm_compute; reflexivity|]; split; [vm_compute; discriminate|]; split; [reflexivity|];
    repeat constructor; vm_compute; reflexivity|]).
  split; [reflexivity|]. split; [reflexivity|].
  eexists. eexists. split; [vm_compute; reflexivity|]. split; vm_compute; reflexivity.
Qed.
Print Assumptions C69_foreign_refuted.

(* C69, what is not true: CAN allows a length code of 9 to 15 (for 8 data bytes); such a frame makes the
   driver write behind the 8 data bytes of its buffer *)
Theorem C69_length_refuted :
  forall w, w_cid w < 536870912 -> w_ide w = true -> 8 < w_dlc w <= 15 -> length (w_dat w) = 8%nat ->
    fst (aRun idle [AHw (EvRx w); ARd (repeat 0 8)]) = [RHw; RRead AStray].
Proof. exact stray. Qed.
Print Assumptions C69_length_refuted.

Definition m_ex : Msg := mkMsg 3 20 3 42 true 3 [1; 2; 3; 0; 0; 0; 0; 0].
Example C67_C68_C69_example :
  can_raw blank /\ can_msg m_ex /\
  let ops := map (fun _ => AWrite m_ex [] []) (seq 0 14) ++
             [AWrite m_ex [] [EvRx (vscpWire m_ex)]; AWrite m_ex [EvTx 5] []; ARd (repeat 9 8); AHw (EvTx 1)] in
  Forall aop_wf ops /\
  let '(res, c') := aRun (canOpen blank) ops in
  res = repeat (RSent true) 14 ++ [RSent false; RSent true;
    RRead (ATrue (mkMsg 3 20 3 42 true 3 [1; 2; 3; 9; 9; 9; 9; 9])); RHw] /\
  c_bus c' = [mkWire true false 236192554 3 [1; 2; 3]; mkWire true false 236192554 3 [1; 2; 3]] /\
  length (accepted ops res) = 15%nat.
Proof.
  assert (W : can_msg m_ex) by (repeat split; try (vm_compute; reflexivity); repeat constructor).
  assert (V : wire_wf (vscpWire m_ex)).
  { split; [vm_compute; reflexivity|]. split; [vm_compute; discriminate|]. split; [reflexivity|]. repeat constructor. }
  split; [split; [reflexivity|repeat constructor]|]. split; [exact W|]. cbv zeta. split.
  - apply Forall_app. split.
    + apply Forall_forall. intros x Hx. apply in_map_iff in Hx. destruct Hx as (n & <- & _).
      split; [exact W|]. split; constructor.
    + constructor; [split; [exact W|]; split; [constructor|constructor; [exact V|constructor]]|].
      constructor; [split; [exact W|]; split; [constructor; [exact I|constructor]|constructor]|].
      constructor; [exact I|]. constructor; [exact I|constructor].
  - vm_compute. auto.
Qed.
