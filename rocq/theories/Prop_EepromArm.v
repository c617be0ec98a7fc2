(* Prop_EepromArm.v - property C75: the persistent memory of the FRDM-K64F example. *)
From Verif Require Import EepromArm Spec_EepromArm Proof_EepromArm.

(* C75: if the write cycle ends before the next access, the memory is an ideal one: every read returns the
   value written last, for all sequences of accesses; addresses above 255 read as 0 and cannot be written *)
Theorem C75_memory_partial :
  forall e ops, e_busy e = false -> paced ops ->
    fst (eRun e ops) = ideal (e_prot e) (e_mem e) ops.
Proof. intros e ops Hb Hp. apply run_ideal; auto. Qed.
Print Assumptions C75_memory_partial.

(* C75, vscp_ps_access_readMultiple: the bytes from addr on, in order (address arithmetic modulo 65536,
   addresses above 255 read as 0), and nothing is changed *)
Theorem C75_read_multiple :
  forall e addr size, e_busy e = false ->
    eeReadMultiple addr size e =
    (map (fun i => let a := (addr + N.of_nat i) mod 65536 in if a <=? 255 then e_mem e a else 0)
         (seq 0 (N.to_nat size)), e).
Proof. exact read_multiple. Qed.
Print Assumptions C75_read_multiple.

(* C75, what is not true: the driver does not wait for the end of the write cycle: of several bytes written
   at once only the first one gets into the memory *)
Theorem C75_multiple_refuted :
  forall e addr b0 rest, e_busy e = false -> addr + N.of_nat (length rest) <= 255 -> addr < e_prot e ->
    let e' := eeWriteMultiple addr (b0 :: rest) e in
    e_mem e' addr = b0 /\ forall i, i <> addr -> e_mem e' i = e_mem e i.
Proof.
  intros e addr b0 rest Hb Ha Hp. unfold eeWriteMultiple, Nseq. cbn [length].
  replace (N.to_nat (N.of_nat (S (length rest)))) with (S (length rest)) by lia.
  cbn [seq map fold_left].
  assert (E : exists e1, eeWrite8 (u16 (addr + N.of_nat 0)) (at0 (b0 :: rest) (N.of_nat 0)) e = e1 /\ e_busy e1 = true /\
     e_mem e1 addr = b0 /\ forall i, i <> addr -> e_mem e1 i = e_mem e i).
  { unfold eeWrite8, u16. change (N.of_nat 0) with 0. rewrite N.add_0_r, N.mod_small by lia.
    replace (addr <=? 255) with true by lia. unfold xfer at 1. rewrite Hb. cbv iota beta. unfold xfer. cbn [e_busy e_wel e_mem e_prot].
    unfold u8. rewrite N.mod_small by lia. eexists. split; [reflexivity|]. cbn [e_busy e_mem]. split; [reflexivity|].
    rewrite N.eqb_refl. replace (addr <? e_prot e) with true by lia. split; [reflexivity|].
    intros i Hi. replace (i =? addr) with false by lia. reflexivity. }
  destruct E as (e1 & -> & B1 & M1 & M2). rewrite multi_busy by assumption. auto.
Qed.
Print Assumptions C75_multiple_refuted.

(* C75, what is not true: a read right after a write does not return the value written *)
Theorem C75_read_now_refuted :
  exists e, e_busy e = false /\ fst (eRun e [EWrite 16 1; ERead 16]) = [255] /\
    fst (eRun e [EWrite 16 1; EEnd; ERead 16]) = [1].
Proof. exists (mkEep (fun _ => 0) false false 192 255). vm_compute. auto. Qed.
Print Assumptions C75_read_now_refuted.

Example C75_example :
  let e := mkEep (fun i => i) false false 192 255 in
  let ops := [EWrite 16 7; EEnd; ERead 16; EWrite 300 1; ERead 300; EWrite 17 9; EEnd; ERead 17; ERead 18; EWrite 200 1; EEnd; ERead 200] in
  e_busy e = false /\ paced ops /\ fst (eRun e ops) = [7; 0; 9; 18; 200] /\
  fst (eeReadMultiple 16 3 (eeWriteMultiple 16 [7; 8; 9] e)) = [255; 255; 255].
Proof. cbv zeta. split; [reflexivity|]. split; [cbn; repeat split; auto; intros H; exfalso; vm_compute in H; auto|]. vm_compute. auto. Qed.

Example C75_read_multiple_example :
  let e := mkEep (fun i => i) false false 192 255 in
  e_busy e = false /\ fst (eeReadMultiple 253 5 e) = [253; 254; 255; 0; 0].
Proof. vm_compute. auto. Qed.
