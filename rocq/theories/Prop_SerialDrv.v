(* Prop_SerialDrv.v - property C74. *)
From Verif Require Import SerialDrv Spec_SerialDrv Proof_SerialDrv.

(* C74: with storages of 2 to 255 bytes and as long as no transmit interrupt falls between the test and
   the rest of serialDrv_write, the port is the abstract port of Spec_SerialDrv.v: two queues that hold
   one byte less than their storage, in all calls and interrupts in any order. The answers of all calls
   are the same, the same bytes are put on the line in the same order, no byte is put there while another
   one is on its way, and no access leaves a storage. *)
Theorem C74_port_partial :
  forall rx tx ops,
    2 <= N.of_nat (length rx) <= 255 -> 2 <= N.of_nat (length tx) <= 255 -> Forall undisturbed ops ->
    let '(res, u) := uRun (usartInit rx tx) ops in
    let '(res', p) := pRun (N.of_nat (length rx) - 1) (N.of_nat (length tx) - 1) portInit ops in
    res = res' /\ u_sent u = p_out p /\ u_clash u = false /\ u_oob u = false.
Proof.
  intros rx tx ops H1 H2 Hf.
  destruct (run_ok ops _ _ _ _ (init_ok rx tx H1 H2) Hf) as [E O].
  destruct (uRun _ ops) as [res u], (pRun _ _ portInit ops) as [res' p]. cbn [fst snd] in *.
  destruct O as (_ & _ & _ & _ & _ & A & B & C & _). auto.
Qed.
Print Assumptions C74_port_partial.

(* C74, the abstract port puts the bytes it takes on the line in order, none is lost or sent twice: what
   was sent followed by what waits is what was taken *)
Theorem C74_conserves :
  forall ops n m,
    let p := snd (pRun n m portInit ops) in
    p_out p ++ p_tx p = taken n m portInit ops.
Proof. intros ops n m. exact (port_conserves ops n m portInit (or_intror eq_refl)). Qed.
Print Assumptions C74_conserves.

(* C74, main_print: whenever interrupts come between the calls of serialDrv_write, and whatever was done
   with the port before, all characters up to the 200th get out in order behind what was already waiting,
   each of them at least once; on an idle port the first one at least twice *)
Theorem C74_print :
  forall rx tx ops s irqs u',
    2 <= N.of_nat (length rx) <= 255 -> 2 <= N.of_nat (length tx) <= 255 -> Forall undisturbed ops ->
    let u := snd (uRun (usartInit rx tx) ops) in
    mainPrint irqs s 0 u = Some u' ->
    exists ks : list nat, length ks = length (firstn 200 s) /\ Forall (fun k => (1 <= k)%nat) ks /\
      (irqs <> [] -> hd false irqs = false -> s <> [] -> u_busy u = false -> (2 <= hd 0 ks)%nat) /\
      allSent u' = allSent u ++ stretch (firstn 200 s) ks /\ u_clash u' = false /\ u_oob u' = false.
Proof. exact print_stretched. Qed.
Print Assumptions C74_print.

(* C74, main_print on a new port without interrupts: it ends if the first 200 characters fit into the
   queue, and the first character gets out twice *)
Theorem C74_print_twice :
  forall rx tx d r n,
    2 <= N.of_nat (length rx) <= 255 -> N.of_nat (length tx) <= 255 ->
    let s := d :: r in
    (length (firstn 200 s) < length tx)%nat -> (length s + 1 < n)%nat ->
    exists u', mainPrint (repeat false n) s 0 (usartInit rx tx) = Some u' /\ allSent u' = d :: firstn 200 s.
Proof. exact print_twice. Qed.
Print Assumptions C74_print_twice.

(* C74, what is not true: the value returned is not the number of bytes written: the first byte on an idle
   port is sent and 0 is returned; main_print therefore sends the first character twice *)
Theorem C74_count_refuted :
  exists u, mainPrint (repeat false 10) [65; 66] 0 (usartInit (repeat 0 10) (repeat 0 10)) = Some u /\
    fst (serWrite 65 false (usartInit (repeat 0 10) (repeat 0 10))) = 0 /\
    u_sent (snd (uRun u (repeat UTxDone 5))) = [65; 65; 66].
Proof. eexists. split; [vm_compute; reflexivity|]. vm_compute. auto. Qed.
Print Assumptions C74_count_refuted.

(* C74, what is not true: if the last byte gets out between the test and the rest of serialDrv_write, the
   new byte waits although the transmitter is idle, and the next byte overtakes it *)
Theorem C74_race_refuted :
  exists ops, let '(res, u) := uRun (usartInit (repeat 0 4) (repeat 0 4)) ops in
    res = [RCount 0; RCount 1; RNone; RNone; RCount 0; RNone; RNone] /\ u_sent u = [1; 3; 2] /\
    taken 3 3 portInit ops = [1; 2; 3].
Proof.
  exists [UWrite 1 false; UWrite 2 true; UTxDone; UTxDone; UWrite 3 false; UTxDone; UTxDone].
  vm_compute. auto.
Qed.
Print Assumptions C74_race_refuted.

Example C74_example :
  let ops := [URx 1; URx 2; URx 3; URx 4; UOvf; URead; UWrite 7 false; UWrite 8 false; UTxDone; URx 5;
              UWrite 9 false; URead; URead; URead; URead; UTxDone; UTxDone; UTxDone] in
  Forall undisturbed ops /\
  let '(res, u) := uRun (usartInit (repeat 0 4) (repeat 0 4)) ops in
  res = [RNone; RNone; RNone; RNone; ROvf true; RRead (Some 1); RCount 0; RCount 1; RNone; RNone;
         RCount 1; RRead (Some 2); RRead (Some 3); RRead (Some 5); RRead None; RNone; RNone; RNone] /\
  u_sent u = [7; 8; 9] /\ taken 3 3 portInit ops = [7; 8; 9].
Proof. cbv zeta. split; [repeat constructor|]. vm_compute. auto. Qed.

(* the framework version line of main.c, an interrupt before every second call, queue of 9 bytes *)
Example C74_print_example :
  let s := [86;83;67;80;32;102;114;97;109;101;119;111;114;107;32] in
  match mainPrint (concat (repeat [false; true] 20)) s 0 (usartInit (repeat 0 10) (repeat 0 10)) with
  | Some u => allSent u = 86 :: 86 :: s
  | None => False
  end.
Proof. vm_compute. reflexivity. Qed.
