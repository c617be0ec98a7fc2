(* Proof_Util.v - lemmas about the cyclic buffer and the zone index (Util.v). *)
From Verif Require Import Util Spec_Util.

Lemma nth_error_lset {T} (l : list T) i v l' j :
  lset l i v = Some l' ->
  nth_error l' j = if Nat.eqb j i then Some v else nth_error l j.
Proof.
  revert i l' j; induction l as [|h t IH]; intros [|i] l' j H; cbn [lset] in H; try discriminate.
  - injection H as <-. destruct j; reflexivity.
  - destruct (lset t i v) eqn:E; [|discriminate]. injection H as <-.
    destruct j; [reflexivity|]. cbn [nth_error Nat.eqb]. apply IH, E.
Qed.
Lemma length_lset {T} (l : list T) i v l' : lset l i v = Some l' -> length l' = length l.
Proof.
  revert i l'; induction l as [|h t IH]; intros [|i] l' H; cbn [lset] in H; try discriminate.
  - injection H as <-. reflexivity.
  - destruct (lset t i v) eqn:E; [|discriminate]. injection H as <-. cbn [length]. f_equal. eapply IH, E.
Qed.
Lemma lset_some {T} (l : list T) i v : (i < length l)%nat -> exists l', lset l i v = Some l'.
Proof.
  revert i; induction l as [|h t IH]; intros [|i] H; cbn [length] in H; try lia; cbn [lset].
  - eauto.
  - destruct (IH i) as [l' ->]; [lia|]. eauto.
Qed.
Lemma lset_none {T} (l : list T) i v : (length l <= i)%nat -> lset l i v = None.
Proof.
  revert i; induction l as [|h t IH]; intros [|i] H; cbn [length] in H; try lia; cbn [lset]; auto.
  rewrite IH by lia. reflexivity.
Qed.

(* q is the contents of b, oldest first *)
Record Repr {T} (b : CBuf T) (q : list T) : Prop := {
  rp_num : 0 < cb_num b < 256;
  rp_store : N.of_nat (length (cb_store b)) = cb_num b;
  rp_rd : cb_rd b < cb_num b;
  rp_wr : cb_wr b = (cb_rd b + N.of_nat (length q)) mod cb_num b;
  rp_cap : N.of_nat (length q) < cb_num b;
  rp_el : forall i, (i < length q)%nat ->
      nth_error (cb_store b) (N.to_nat ((cb_rd b + N.of_nat i) mod cb_num b)) = nth_error q i
}.

Lemma mod_small_cases a n : a < 2 * n -> a mod n = if a <? n then a else a - n.
Proof.
  intros H. destruct (N.ltb_spec a n).
  - apply N.mod_small; assumption.
  - symmetry. apply N.mod_unique with 1; lia.
Qed.

Lemma repr_empty_iff {T} (b : CBuf T) q : Repr b q -> (cb_rd b =? cb_wr b) = (match q with [] => true | _ => false end).
Proof.
  intros [Hn Hs Hr Hw Hc He]. rewrite Hw, mod_small_cases by lia.
  destruct q as [|x q]; cbn [length] in *.
  - rewrite N.add_0_r. destruct (N.ltb_spec (cb_rd b) (cb_num b)); lia.
  - destruct (N.ltb_spec (cb_rd b + N.of_nat (S (length q))) (cb_num b)); lia.
Qed.

Lemma repr_pop {T} (b : CBuf T) x q : Repr b (x :: q) ->
  aget (cb_store b) (cb_rd b) = Some x /\
  Repr (mkCBuf (cb_store b) (cb_num b) (u8 ((cb_rd b + 1) mod cb_num b)) (cb_wr b)) q.
Proof.
  intros [Hn Hs Hr Hw Hc He]. cbn [length] in *. split.
  - unfold aget. specialize (He O ltac:(lia)). cbn [nth_error] in He.
    rewrite N.add_0_r, N.mod_small in He by lia. exact He.
  - assert (Hu : u8 ((cb_rd b + 1) mod cb_num b) = (cb_rd b + 1) mod cb_num b).
    { unfold u8. apply N.mod_small. pose proof (N.mod_lt (cb_rd b + 1) (cb_num b) ltac:(lia)); lia. }
    constructor; cbn [cb_num cb_store cb_rd cb_wr]; rewrite ?Hu; auto; try lia.
    + rewrite Hw, N.add_mod_idemp_l by lia. f_equal. lia.
    + intros i Hi. specialize (He (S i) ltac:(lia)). cbn [nth_error] in He.
      rewrite N.add_mod_idemp_l by lia. rewrite <- He.
      replace (cb_rd b + 1 + N.of_nat i) with (cb_rd b + N.of_nat (S i)) by lia. reflexivity.
Qed.

Lemma firstn_S_cons {T} k (x : T) q : firstn (S k) (x :: q) = x :: firstn k q.
Proof. reflexivity. Qed.

Lemma readLoop_spec {T} k (b : CBuf T) q acc : Repr b q ->
  if cb_rd b + N.min (N.of_nat k) (N.of_nat (length q)) <=? cb_num b then
    exists b', cbReadLoop k (cb_rd b) b acc = Ok (rev acc ++ firstn k q, b') /\
               Repr b' (skipn k q) /\ cb_num b' = cb_num b
  else cbReadLoop k (cb_rd b) b acc = Undef.
Proof.
  revert b q acc; induction k as [|k IH]; intros b q acc HR; pose proof HR as [Hn Hs Hr Hw Hc He].
  - replace (cb_rd b + N.min (N.of_nat 0) (N.of_nat (length q)) <=? cb_num b) with true by lia.
    cbn [cbReadLoop firstn skipn]. rewrite app_nil_r. eauto.
  - cbn [cbReadLoop]. rewrite (repr_empty_iff _ _ HR). destruct q as [|x q].
    + cbn [length]. replace (_ <=? cb_num b) with true by lia.
      cbn [firstn skipn]. rewrite app_nil_r. eauto.
    + destruct (repr_pop _ _ _ HR) as [Hg HR']. rewrite Hg.
      replace (cb_num b =? 0) with false by lia.
      set (b1 := mkCBuf _ _ _ _) in *. cbn [length] in *.
      assert (Hrd : cb_rd b1 = (cb_rd b + 1) mod cb_num b).
      { unfold b1, u8. cbn [cb_rd]. apply N.mod_small.
        pose proof (N.mod_lt (cb_rd b + 1) (cb_num b) ltac:(lia)); lia. }
      specialize (IH b1 q (x :: acc) HR').
      assert (Hn1 : cb_num b1 = cb_num b) by reflexivity. rewrite Hn1 in IH.
      rewrite mod_small_cases in Hrd by lia.
      destruct (N.ltb_spec (cb_rd b + 1) (cb_num b)).
      * rewrite <- Hrd. rewrite Hrd in IH |- *.
        destruct (_ <=? cb_num b) eqn:E1 in IH.
        -- replace (_ <=? cb_num b) with true by lia.
           rewrite <- Hrd in IH |- *. destruct IH as (b' & H1 & H2 & H3). exists b'.
           rewrite H1. rewrite firstn_S_cons. cbn [rev skipn]. rewrite <- app_assoc. auto.
        -- replace (_ <=? cb_num b) with false by lia. rewrite <- Hrd in IH |- *. exact IH.
      * destruct k as [|k].
        { replace (_ <=? cb_num b) with true by lia. cbn [cbReadLoop]. exists b1. auto. }
        cbn [cbReadLoop]. rewrite (repr_empty_iff _ _ HR'). destruct q as [|y q].
        { cbn [length]. replace (_ <=? cb_num b) with true by lia.
          exists b1. rewrite firstn_S_cons. cbn [rev skipn firstn]. auto. }
        cbn [length] in *. replace (_ <=? cb_num b) with false by lia.
        replace (cb_num b1 =? 0) with false by lia.
        unfold aget. replace (nth_error (cb_store b1) (N.to_nat (cb_rd b + 1))) with (@None T); auto.
        symmetry. apply nth_error_None. change (cb_store b1) with (cb_store b). lia.
Qed.

Lemma cbRead_spec {T} (b : CBuf T) q k : Repr b q ->
  if cb_rd b + N.min k (N.of_nat (length q)) <=? cb_num b then
    exists b', cbRead b k = Ok (firstn (N.to_nat k) q, b') /\
               Repr b' (skipn (N.to_nat k) q) /\ cb_num b' = cb_num b
  else cbRead b k = Undef.
Proof.
  intros HR. unfold cbRead. destruct (N.ltb_spec 0 k).
  - pose proof (readLoop_spec (N.to_nat k) b q [] HR) as H1. rewrite N2Nat.id in H1. exact H1.
  - replace k with 0 by lia. pose proof (rp_rd _ _ HR).
    replace (_ <=? cb_num b) with true by lia. exists b. auto.
Qed.

Lemma repr_push {T} (b : CBuf T) q x : Repr b q ->
  N.of_nat (length q) + 1 < cb_num b ->
  exists st', aset (cb_store b) (cb_wr b) x = Some st' /\
  Repr (mkCBuf st' (cb_num b) (cb_rd b) (u8 ((cb_wr b + 1) mod cb_num b))) (q ++ [x]).
Proof.
  intros [Hn Hs Hr Hw Hc He] Hl.
  assert (Hwl : cb_wr b < cb_num b) by (rewrite Hw; apply N.mod_lt; lia).
  destruct (lset_some (cb_store b) (N.to_nat (cb_wr b)) x) as [st' Hst]; [lia|].
  exists st'. split; [exact Hst|].
  assert (Hu : u8 ((cb_wr b + 1) mod cb_num b) = (cb_wr b + 1) mod cb_num b).
  { unfold u8. apply N.mod_small. pose proof (N.mod_lt (cb_wr b + 1) (cb_num b) ltac:(lia)); lia. }
  constructor; cbn [cb_num cb_store cb_rd cb_wr]; rewrite ?Hu, ?app_length; cbn [length]; try lia.
  - rewrite (length_lset _ _ _ _ Hst). exact Hs.
  - rewrite Hw, N.add_mod_idemp_l by lia. f_equal. lia.
  - intros i Hi. rewrite (nth_error_lset _ _ _ _ _ Hst).
    assert (Hpos : (cb_rd b + N.of_nat i) mod cb_num b =
                   if cb_rd b + N.of_nat i <? cb_num b then cb_rd b + N.of_nat i else cb_rd b + N.of_nat i - cb_num b)
      by (apply mod_small_cases; lia).
    rewrite mod_small_cases in Hw by lia.
    destruct (Nat.eqb_spec (N.to_nat ((cb_rd b + N.of_nat i) mod cb_num b)) (N.to_nat (cb_wr b))) as [Heq|Hne].
    + assert (i = length q).
      { apply N2Nat.inj in Heq. rewrite Hpos in Heq.
        destruct (N.ltb_spec (cb_rd b + N.of_nat i) (cb_num b));
        destruct (N.ltb_spec (cb_rd b + N.of_nat (length q)) (cb_num b)); lia. }
      subst i. rewrite nth_error_app2, Nat.sub_diag by lia. reflexivity.
    + assert (i <> length q).
      { intros ->. apply Hne. f_equal. rewrite Hw. exact Hpos. }
      rewrite nth_error_app1 by lia. apply He. lia.
Qed.

(* next write index, and the test for a full buffer *)
Lemma repr_full_iff {T} (b : CBuf T) q : Repr b q ->
  (cb_rd b =? u8 ((cb_wr b + 1) mod cb_num b)) = (N.of_nat (length q) + 1 =? cb_num b).
Proof.
  intros [Hn Hs Hr Hw Hc He].
  assert (Hu : u8 ((cb_wr b + 1) mod cb_num b) = (cb_wr b + 1) mod cb_num b).
  { unfold u8. apply N.mod_small. pose proof (N.mod_lt (cb_wr b + 1) (cb_num b) ltac:(lia)); lia. }
  rewrite Hu, Hw, N.add_mod_idemp_l by lia. rewrite mod_small_cases by lia.
  destruct (N.ltb_spec (cb_rd b + N.of_nat (length q) + 1) (cb_num b)); lia.
Qed.

Lemma writeLoop_spec {T} es (b : CBuf T) q written : Repr b q ->
  let k := Nat.min (length es) (N.to_nat (cb_num b) - 1 - length q) in
  if cb_wr b + N.of_nat k <=? cb_num b then
    exists b', cbWriteLoop es (u8 ((cb_wr b + 1) mod cb_num b)) (cb_wr b) b written
                 = Ok (written + N.of_nat k, b') /\
               Repr b' (q ++ firstn k es) /\ cb_num b' = cb_num b
  else cbWriteLoop es (u8 ((cb_wr b + 1) mod cb_num b)) (cb_wr b) b written = Undef.
Proof.
  revert b q written; induction es as [|x es IH]; intros b q written HR k; pose proof HR as [Hn Hs Hr Hw Hc He];
    assert (Hwl : cb_wr b < cb_num b) by (rewrite Hw; apply N.mod_lt; lia).
  - subst k. cbn [length Nat.min]. replace (_ <=? cb_num b) with true by lia.
    cbn [cbWriteLoop firstn]. rewrite app_nil_r. exists b. rewrite N.add_0_r. auto.
  - cbn [cbWriteLoop]. rewrite (repr_full_iff _ _ HR). destruct (N.eqb_spec (N.of_nat (length q) + 1) (cb_num b)).
    + assert (k = O) by (subst k; lia). rewrite H. replace (_ <=? cb_num b) with true by lia.
      exists b. cbn [firstn]. rewrite app_nil_r, N.add_0_r. auto.
    + destruct (repr_push b q x HR ltac:(lia)) as (st' & Hst & HR'). rewrite Hst.
      set (b1 := mkCBuf _ _ _ _) in *.
      specialize (IH b1 (q ++ [x]) (written + 1) HR').
      assert (Hn1 : cb_num b1 = cb_num b) by reflexivity. rewrite Hn1 in IH.
      set (k1 := Nat.min (length es) _) in IH. cbv zeta in IH.
      assert (Hk : k = S k1) by (subst k k1; rewrite app_length; cbn [length]; lia).
      assert (Hwr : cb_wr b1 = (cb_wr b + 1) mod cb_num b).
      { unfold b1, u8. cbn [cb_wr]. apply N.mod_small.
        pose proof (N.mod_lt (cb_wr b + 1) (cb_num b) ltac:(lia)); lia. }
      assert (Hnext : u8 ((u8 ((cb_wr b + 1) mod cb_num b) + 1) mod cb_num b)
                      = u8 ((cb_wr b1 + 1) mod cb_num b)) by (subst b1; reflexivity).
      rewrite Hnext. rewrite mod_small_cases in Hwr by lia. rewrite Hk, firstn_S_cons.
      destruct (N.ltb_spec (cb_wr b + 1) (cb_num b)).
      * rewrite <- Hwr. rewrite Hwr in IH |- *.
        destruct (_ <=? cb_num b) eqn:E1 in IH.
        -- replace (cb_wr b + N.of_nat (S k1) <=? cb_num b) with true by lia.
           rewrite <- Hwr in IH |- *. destruct IH as (b' & H1 & H2 & H3). exists b'.
           rewrite H1. rewrite <- app_assoc in H2. cbn [app] in H2.
           split; [|split]; auto. replace (written + 1 + N.of_nat k1) with (written + N.of_nat (S k1)) by lia; reflexivity.
        -- replace (cb_wr b + N.of_nat (S k1) <=? cb_num b) with false by lia.
           rewrite <- Hwr in IH |- *. exact IH.
      * assert (Hfull := repr_full_iff _ _ HR'). rewrite Hn1 in Hfull.
        destruct es as [|y es].
        { assert (k1 = O) by (subst k1; cbn [length Nat.min]; lia). rewrite H0.
          replace (_ <=? cb_num b) with true by lia. cbn [cbWriteLoop firstn]. exists b1.
          split; [|split]; auto. }
        cbn [cbWriteLoop]. change (cb_rd b) with (cb_rd b1). rewrite Hfull.
        destruct (N.eqb_spec (N.of_nat (length (q ++ [x])) + 1) (cb_num b)).
        { assert (k1 = O) by (subst k1; lia). rewrite H0.
          replace (_ <=? cb_num b) with true by lia. exists b1. cbn [firstn]. auto. }
        assert (k1 <> O) by (subst k1; rewrite app_length in *; cbn [length] in *; lia).
        replace (_ <=? cb_num b) with false by lia.
        unfold aset. rewrite lset_none; auto.
        change (cb_store b1) with st'. rewrite (length_lset _ _ _ _ Hst). lia.
Qed.

Lemma cbWrite_spec {T} es (b : CBuf T) q : Repr b q ->
  let k := Nat.min (length es) (N.to_nat (cb_num b) - 1 - length q) in
  if cb_wr b + N.of_nat k <=? cb_num b then
    exists b', cbWrite b es = Ok (N.of_nat k, b') /\ Repr b' (q ++ firstn k es) /\ cb_num b' = cb_num b
  else cbWrite b es = Undef.
Proof.
  intros HR k. pose proof HR as [Hn Hs Hr Hw Hc He].
  assert (Hwl : cb_wr b < cb_num b) by (rewrite Hw; apply N.mod_lt; lia).
  destruct es as [|x es].
  - subst k. cbn [length Nat.min]. replace (_ <=? cb_num b) with true by lia.
    exists b. cbn [firstn]. rewrite app_nil_r. auto.
  - unfold cbWrite. replace (cb_num b =? 0) with false by lia.
    exact (writeLoop_spec (x :: es) b q 0 HR).
Qed.

Lemma repr_init {T} (storage : list T) elem :
  0 < elem -> storage <> [] -> N.of_nat (length storage) * elem < 256 ->
  Repr (cbInit storage (N.of_nat (length storage) * elem) elem) [] /\
  cb_num (cbInit storage (N.of_nat (length storage) * elem) elem) = N.of_nat (length storage).
Proof.
  intros He Hs Hl.
  assert (0 < N.of_nat (length storage)) by (destruct storage; [congruence|cbn [length]; lia]).
  assert (elem < 256) by nia.
  unfold cbInit, u8. rewrite !N.mod_small by lia. rewrite N.div_mul by lia.
  split; [|reflexivity].
  constructor; cbn [cb_num cb_store cb_rd cb_wr length N.of_nat]; try lia; try nia.
Qed.

(* ---- C01: single element operations refine the bounded queue ---- *)
Lemma cbStep_refines {T} (b : CBuf T) q op : Repr b q ->
  exists b', cbStep b op = Ok (fst (queueStep (N.to_nat (cb_num b) - 1) q op), b') /\
             Repr b' (snd (queueStep (N.to_nat (cb_num b) - 1) q op)) /\ cb_num b' = cb_num b.
Proof.
  intros HR. pose proof HR as [Hn Hs Hr Hw Hc He].
  assert (Hwl : cb_wr b < cb_num b) by (rewrite Hw; apply N.mod_lt; lia).
  destruct op as [|x]; cbn [cbStep queueStep].
  - pose proof (cbRead_spec b q 1 HR) as H. replace (_ <=? cb_num b) with true in H by lia.
    destruct H as (b' & H1 & H2 & H3). change (N.to_nat 1) with 1%nat in *. rewrite H1.
    destruct q as [|y q]; cbn [firstn skipn fst snd] in *; eauto.
  - pose proof (cbWrite_spec [x] b q HR) as H. cbv zeta in H. cbn [length] in H.
    destruct (Nat.ltb_spec (length q) (N.to_nat (cb_num b) - 1)).
    + replace (Nat.min 1 _) with 1%nat in H by lia.
      replace (_ <=? cb_num b) with true in H by lia.
      destruct H as (b' & H1 & H2 & H3). rewrite H1. cbn [fst snd]. exists b'. auto.
    + replace (Nat.min 1 _) with O in H by lia.
      replace (_ <=? cb_num b) with true in H by lia.
      destruct H as (b' & H1 & H2 & H3). rewrite H1. cbn [fst snd]. exists b'.
      cbn [firstn] in H2. rewrite app_nil_r in H2. auto.
Qed.

Lemma cbRun_refines {T} ops (b : CBuf T) q : Repr b q ->
  exists b', cbRun b ops = Ok (queueRun (N.to_nat (cb_num b) - 1) q ops, b').
Proof.
  revert b q; induction ops as [|op ops IH]; intros b q HR; cbn [cbRun queueRun].
  - eauto.
  - destruct (cbStep_refines b q op HR) as (b1 & H1 & H2 & H3). rewrite H1.
    destruct (queueStep (N.to_nat (cb_num b) - 1) q op) as [o q1]. cbn [fst snd] in *.
    destruct (IH b1 q1 H2) as (b2 & H4). rewrite H4, H3. eauto.
Qed.

(* every state reached by block operations without UB represents some queue *)
Lemma blkRun_repr {T} ops (b : CBuf T) q outs b' : Repr b q -> blkRun b ops = Ok (outs, b') ->
  exists q', Repr b' q' /\ cb_num b' = cb_num b /\ blkQueueRun (N.to_nat (cb_num b) - 1) q ops = (outs, q').
Proof.
  revert b q outs b'; induction ops as [|op ops IH]; intros b q outs b' HR H; cbn [blkRun blkQueueRun] in *.
  - injection H as <- <-. eauto.
  - destruct op as [k|es]; cbn [blkStep blkQueueStep] in *.
    + pose proof (cbRead_spec b q k HR) as HS. destruct (_ <=? cb_num b) eqn:E in HS.
      * destruct HS as (b1 & H1 & H2 & H3). rewrite H1 in H.
        destruct (blkRun b1 ops) as [[o2 b2]|] eqn:E2; [|discriminate]. injection H as <- <-.
        destruct (IH _ _ _ _ H2 E2) as (q' & Hq & Hn' & Hrun). rewrite H3 in Hrun.
        exists q'. rewrite Hrun. rewrite Hn', H3. auto.
      * rewrite HS in H. discriminate.
    + pose proof (cbWrite_spec es b q HR) as HS. cbv zeta in HS. destruct (_ <=? cb_num b) eqn:E in HS.
      * destruct HS as (b1 & H1 & H2 & H3). rewrite H1 in H.
        destruct (blkRun b1 ops) as [[o2 b2]|] eqn:E2; [|discriminate]. injection H as <- <-.
        destruct (IH _ _ _ _ H2 E2) as (q' & Hq & Hn' & Hrun). rewrite H3 in Hrun.
        exists q'. rewrite Hrun. rewrite Hn', H3. rewrite Nnat.Nat2N.id. auto.
      * rewrite HS in H. discriminate.
Qed.

(* ---- C03 ---- *)
Lemma getZoneIndex_range cls ty : getZoneIndex cls ty = 0 \/ getZoneIndex cls ty = 1 \/ getZoneIndex cls ty = 255.
Proof.
  unfold getZoneIndex.
  repeat match goal with |- context [if ?b then _ else _] => destruct b end; auto.
Qed.
Lemma getZoneIndex_general cls : getZoneIndex cls 0 = 255.
Proof. reflexivity. Qed.
