(* Prop_Util.v - properties C01, C02, C03. *)
From Verif Require Import Util Spec_Util Spec_Zone Proof_Util Proof_Zone.

(* C01: a buffer whose storage has n elements of elem bytes (in total less than 256 bytes)
   answers every sequence of single element reads and writes like a queue of capacity n-1,
   and never leaves its storage. *)
Theorem C01_cyclic_buffer_is_fifo :
  forall (T : Type) (storage : list T) (elem : N) (ops : list (QOp T)),
    0 < elem -> storage <> [] -> N.of_nat (length storage) * elem < 256 ->
    exists b', cbRun (cbInit storage (N.of_nat (length storage) * elem) elem) ops
               = Ok (queueRun (length storage - 1) [] ops, b').
Proof.
  intros T storage elem ops He Hs Hl.
  destruct (repr_init storage elem He Hs Hl) as [HR Hn].
  destruct (cbRun_refines ops _ _ HR) as [b' H]. exists b'. rewrite H, Hn, Nnat.Nat2N.id. reflexivity.
Qed.
Print Assumptions C01_cyclic_buffer_is_fifo.
Example C01_example :
  0 < 20 /\ repeat 0 5 <> [] /\ N.of_nat (length (repeat 0 5)) * 20 < 256 /\
  queueRun (length (repeat 0 5) - 1) []
    [QWrite 1; QWrite 2; QWrite 3; QRead; QWrite 4; QWrite 5; QWrite 6; QRead; QRead; QRead; QRead; QRead]
  = [QDone true; QDone true; QDone true; QGot (Some 1); QDone true; QDone true; QDone false;
     QGot (Some 2); QGot (Some 3); QGot (Some 4); QGot (Some 5); QGot None].
Proof. repeat split; try discriminate; reflexivity. Qed.

(* The hypothesis on the size in bytes is needed: the size parameter is an uint8_t. *)
Theorem C01_large_storage_refuted :
  exists (storage : list N) (elem : N),
    0 < elem /\ storage <> [] /\
    cbRun (cbInit storage (N.of_nat (length storage) * elem) elem) [QWrite 7] = Undef.
Proof. exists (repeat 0 16), 16. repeat split; try discriminate; vm_compute; reflexivity. Qed.
Print Assumptions C01_large_storage_refuted.

(* C02, the full statement: every block operation on every reachable buffer is defined.
   It is false: a block that reaches the end of the storage runs out of it. *)
Theorem C02_block_transfer_refuted :
  exists (storage : list N) (ops : list (BOp N)),
    N.of_nat (length storage) * 1 < 256 /\
    blkRun (cbInit storage (N.of_nat (length storage) * 1) 1) ops = Undef.
Proof. exists [0;0;0;0], [BWrite [1;2;3]; BRead 2; BWrite [4;5]]. split; vm_compute; reflexivity. Qed.
Print Assumptions C02_block_transfer_refuted.

(* C02, what holds: as long as no block reaches beyond the end of the storage (all operations
   are defined), blocks are transferred like on a queue: min(requested, available) elements in
   order. Missing from the full statement: blocks that wrap around. *)
Theorem C02_block_transfer_partial :
  forall (T : Type) (storage : list T) (elem : N) (ops : list (BOp T)) outs b',
    0 < elem -> storage <> [] -> N.of_nat (length storage) * elem < 256 ->
    blkRun (cbInit storage (N.of_nat (length storage) * elem) elem) ops = Ok (outs, b') ->
    outs = fst (blkQueueRun (length storage - 1) [] ops).
Proof.
  intros T storage elem ops outs b' He Hs Hl H.
  destruct (repr_init storage elem He Hs Hl) as [HR Hn].
  destruct (blkRun_repr ops _ _ _ _ HR H) as (q' & _ & _ & Hq).
  rewrite Hn, Nnat.Nat2N.id in Hq. rewrite Hq. reflexivity.
Qed.
Print Assumptions C02_block_transfer_partial.
Example C02_example : exists b',
  blkRun (cbInit [0;0;0;0;0] (5 * 1) 1) [BWrite [1;2;3]; BRead 2; BWrite [4]; BRead 5]
  = Ok ([BAccepted 3; BGot [1;2]; BAccepted 1; BGot [3;4]], b').
Proof. eexists. vm_compute. reflexivity. Qed.

(* C02, exact boundary: after any defined history, a block read of k elements from position rd
   is defined iff the elements transferred end inside the storage; likewise a block write. *)
Theorem C02_block_boundary_partial :
  forall (T : Type) (storage : list T) (elem : N) (ops : list (BOp T)) outs b q,
    0 < elem -> storage <> [] -> N.of_nat (length storage) * elem < 256 ->
    blkRun (cbInit storage (N.of_nat (length storage) * elem) elem) ops = Ok (outs, b) ->
    q = snd (blkQueueRun (length storage - 1) [] ops) ->
    (forall k, cbRead b k <> Undef <->
       cb_rd b + N.min k (N.of_nat (length q)) <= N.of_nat (length storage)) /\
    (forall es, cbWrite b es <> Undef <->
       cb_wr b + N.of_nat (Nat.min (length es) (length storage - 1 - length q)) <= N.of_nat (length storage)).
Proof.
  intros T storage elem ops outs b q He Hs Hl H Hq.
  destruct (repr_init storage elem He Hs Hl) as [HR Hn].
  destruct (blkRun_repr ops _ _ _ _ HR H) as (q' & HR' & Hn' & Hq').
  rewrite Hn, Nnat.Nat2N.id in Hq'. rewrite Hq' in Hq. cbn [snd] in Hq. subst q'. rewrite Hn in Hn'.
  split.
  - intros k. pose proof (cbRead_spec b q k HR') as HS. rewrite Hn' in HS.
    destruct (_ <=? _) eqn:E in HS; [destruct HS as (b1 & -> & _); split; [lia|discriminate] |
      rewrite HS; split; [congruence|lia]].
  - intros es. pose proof (cbWrite_spec es b q HR') as HS. cbv zeta in HS.
    rewrite Hn', Nnat.Nat2N.id in HS.
    destruct (_ <=? _) eqn:E in HS; [destruct HS as (b1 & -> & _); split; [lia|discriminate] |
      rewrite HS; split; [congruence|lia]].
Qed.
Print Assumptions C02_block_boundary_partial.
Example C02_boundary_example : exists b,
  blkRun (cbInit [0;0;0;0;0] (5 * 1) 1) [BWrite [1;2;3]; BRead 2] = Ok ([BAccepted 3; BGot [1;2]], b)
  /\ cbWrite b [4;5] = Ok (2, mkCBuf [1;2;3;4;5] 5 2 0) /\ cbWrite b [4;5;6] = Undef.
Proof. eexists. repeat split; vm_compute; reflexivity. Qed.

(* C03: for every class and every type the code agrees with the table of zone positions,
   the table never points beyond byte 1 (the sub-zone is then at most byte 2), and type 0 has no zone. *)
Theorem C03_zone_index :
  forall cls ty, ty < 256 ->
    getZoneIndex cls ty = match zonePosition cls ty with Some p => p | None => 255 end /\
    (forall p, zonePosition cls ty = Some p -> p + 1 < L1_DATA_SIZE) /\
    (ty = 0 -> getZoneIndex cls ty = 255).
Proof.
  intros cls ty H. split; [|split].
  - apply zone_table_eq, H.
  - intros p Hp. destruct (zonePosition_range _ _ _ Hp) as [-> | ->]; reflexivity.
  - intros ->. apply getZoneIndex_general.
Qed.
Print Assumptions C03_zone_index.
Example C03_example : getZoneIndex 20 38 = 0 /\ getZoneIndex 30 5 = 1 /\ getZoneIndex 30 18 = 255 /\ 38 < 256.
Proof. vm_compute. auto. Qed.
