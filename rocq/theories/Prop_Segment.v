(* Prop_Segment.v - C58: nicknames on a segment *)
From Verif Require Import Spec_Segment Proof_Segment FixtureSeg.

(* C58: whenever two nodes hold the same nickname, a frame that disputes it waits for one of them *)
Theorem C58_duplicate_disputed_partial :
  forall A (env : nat -> Env A), segEnv env -> forall s, segReachable env s -> forall i j n, i <> j ->
    nodeHolds s i n -> nodeHolds s j n -> n <> 255 -> exists m, (In m (inbox s i) \/ In m (inbox s j)) /\ disputes n m.
Proof. intros A env SE s HS. exact (proj2 (reach_seg env SE s HS)). Qed.
Print Assumptions C58_duplicate_disputed_partial.

(* C58: two nodes that have read everything that was sent to them hold different nicknames *)
Theorem C58_unique_when_read_partial :
  forall A (env : nat -> Env A), segEnv env -> forall s, segReachable env s -> forall i j n, i <> j ->
    inbox s i = [] -> inbox s j = [] -> nodeHolds s i n -> nodeHolds s j n -> n = 255.
Proof.
  intros A env SE s HS i j n NE Ii Ij H1 H2. destruct (N.eq_dec n 255) as [|N5]; [assumption|].
  destruct (proj2 (reach_seg env SE s HS) i j n NE H1 H2 N5) as (m & [M|M] & _); [rewrite Ii in M|rewrite Ij in M]; destruct M.
Qed.
Print Assumptions C58_unique_when_read_partial.

(* C58: a duplicate nickname does not last: two nodes cannot both keep it while each of them reads all the frames that
   waited for it at the beginning, and then all the frames that waited for it after that *)
Theorem C58_conflict_ends_partial :
  forall A (env : nat -> Env A), segEnv env -> forall s, segReachable env s -> forall i j n la lb, i <> j -> n <> 255 ->
    let s1 := segRun env s la in segRunOK env s (la ++ lb) ->
    (forall k, k = i \/ k = j -> (length (inbox s k) <= processes k la)%nat /\ (length (inbox s1 k) <= processes k lb)%nat) ->
    ~ throughout env (fun x => nodeHolds x i n /\ nodeHolds x j n) s (la ++ lb).
Proof.
  intros A env SE s HS i j n la lb NE N5 s1 OK HK. destruct (HK i (or_introl eq_refl)) as [H1 H2]. destruct (HK j (or_intror eq_refl)) as [H3 H4].
  apply (conflict_ends env SE); assumption.
Qed.
Print Assumptions C58_conflict_ends_partial.

(* C58: while node j waits for an answer to its probe of a nickname that node i holds, the probe waits to be read by i,
   or the acknowledgement waits to be read by j. So j adopts the nickname only if one of these frames was not read in
   the whole time that a probe takes (C31_adoption). *)
Theorem C58_probe_answered_partial :
  forall A (env : nat -> Env A), segEnv env -> forall s, segReachable env s -> forall i j n e l, i <> j ->
    let v := SNode j e in segRunOK env s (v :: l) ->
    (exists f, In f (sentOK (node s j) (stepOf env j e (node s j))) /\ announces n f) ->
    throughout env (fun x => nodeHolds x i n /\ waitsFor (node x j) n) (segStep env s v) l ->
    let s' := segRun env s (v :: l) in
    (exists m, In m (inbox s' i) /\ announces n m) \/ (exists m, In m (inbox s' j) /\ acknowledges n m).
Proof. intros A env SE s HS i j n e l NE v OK HF TH. exact (probe_pends env SE s i j n e l HS NE OK HF TH). Qed.
Print Assumptions C58_probe_answered_partial.

Lemma segE_ok o : o_loop o = false -> valid_env (exEnv (exCfg o)) -> segEnv (segE o).
Proof. intros HL HV i. split; [exact HV|]. split; [exact HL|]. intros w m _. reflexivity. Qed.
Ltac segreach := match goal with |- segReachable _ (segEnd ?o (seg0 ?o ?ns) ?l) => exists (seg0 o ns), (script o (seg0 o ns) l); split; [apply seg0_init; repeat constructor|]; split; [apply script_strict; vm_compute; reflexivity|reflexivity] end.
Definition bothProbe : list Act := [P 0; P 1; P 0; P 1; T 0 5000; T 1 5000; P 0; P 1; P 0; P 1; P 0; P 1; P 0; P 1; P 0; P 1; T 0 2000; T 1 2000; P 0; P 1]%nat.

(* C58, what is not true: two nodes can hold the same nickname for some time, for example if they probed it at the same time *)
Theorem C58_always_unique_refuted :
  exists A (env : nat -> Env A), segEnv env /\ exists s, segReachable env s /\ nodeHolds s 0 1 /\ nodeHolds s 1 1.
Proof.
  exists Regs, (segE oDm). split; [apply segE_ok; [reflexivity|exvalid]|]. exists (segEnd oDm (seg0 oDm [255; 255]) bothProbe). split; [segreach|]. vmc.
Qed.
Print Assumptions C58_always_unique_refuted.

(* C58, what is not true: if the segment controller assigns by SET_NICKNAME to an active node a nickname that is in use, no
   frame is sent that would reveal it. Both nodes have read everything and hold the nickname. *)
Theorem C58_set_nickname_refuted :
  exists A (env : nat -> Env A), segEnv env /\ exists s0 l, segInit env s0 /\ segAll env (deliveredOK env) s0 l /\
    let s := segRun env s0 l in nodeHolds s 0 5 /\ nodeHolds s 1 5 /\ inbox s 0 = [] /\ inbox s 1 = [].
Proof.
  pose (s0 := seg0 oDm [5; 6]). pose (l := [P 0; P 1; P 0; F (exReq 6 [6; 5]%N); P 0; P 1; P 0; P 1]%nat).
  exists Regs, (segE oDm). split; [apply segE_ok; [reflexivity|exvalid]|]. exists s0, (script oDm s0 l). split; [apply seg0_init; repeat constructor|]. split; [apply script_delivered; vm_compute; reflexivity|]. vmc.
Qed.
Print Assumptions C58_set_nickname_refuted.

(* a duplicate with the frames that dispute it; node 1 gives the nickname up when they have been read *)
Example C58_example_conflict :
  let env := segE oDm in let s := segEnd oDm (seg0 oDm [255; 255]) bothProbe in let l := [P 0; P 1; P 0; P 1]%nat in
  segEnv env /\ segReachable env s /\ nodeHolds s 0 1 /\ nodeHolds s 1 1 /\
  map (fun m => (m_type m, payload m)) (inbox s 0) = [(2, [1])] /\ inbox s 1 = [] /\
  segRunOK env s (script oDm s l) /\
  let s' := segEnd oDm s l in nodeHolds s' 0 1 /\ isActive (node s' 1) = false /\ processes 0 (script oDm s l) = 2%nat.
Proof. cbv zeta. split; [apply segE_ok; [reflexivity|exvalid]|]. split; [segreach|]. split; [vmc|]. split; [vmc|]. split; [vmc|]. split; [vmc|]. split; [apply script_strict; vm_compute; reflexivity|]. vmc. Qed.
(* three nodes that have read everything *)
Example C58_example_unique :
  let env := segE oDm in let s := segEnd oDm (seg0 oDm [5; 6; 7]) [P 0; P 1; P 2; P 0; P 0; P 1; P 2; P 0; P 1; P 2]%nat in
  segEnv env /\ segReachable env s /\ nodeHolds s 0 5 /\ nodeHolds s 1 6 /\ nodeHolds s 2 7 /\ inbox s 0 = [] /\ inbox s 1 = [] /\ inbox s 2 = [].
Proof. cbv zeta. split; [apply segE_ok; [reflexivity|exvalid]|]. split; [segreach|]. vmc. Qed.
(* node 0 holds nickname 1, node 1 probes it *)
Example C58_example_probe :
  let env := segE oDm in let s := segEnd oDm (seg0 oDm [1; 255]) [P 0; P 1; P 1; P 0; P 1; T 1 5000; P 1]%nat in
  let e := EOp (OpProcess (hd_error (inbox s 1))) in let v := SNode 1 e in let s1 := segStep env s v in let l := script oDm s1 [T 1 100; P 0; P 0]%nat in
  segEnv env /\ segReachable env s /\ segRunOK env s (v :: l) /\ map payload (sentOK (node s 1) (stepOf env 1 e (node s 1))) = [[1]] /\
  nodeHolds s1 0 1 /\ waitsFor (node s1 1) 1 /\ (let s' := segRun env s1 l in nodeHolds s' 0 1 /\ waitsFor (node s' 1) 1 /\ map m_type (inbox s' 1) = [3]).
Proof.
  cbv zeta. split; [apply segE_ok; [reflexivity|exvalid]|]. split; [segreach|]. split; [|vmc].
  match goal with |- segRunOK _ ?s _ => set (x := s) end. change (segRunOK (segE oDm) x (script oDm x [P 1; T 1 100; P 0; P 0]%nat)). apply script_strict. vm_compute. reflexivity.
Qed.
