(* Proof_CanArm.v - lemmas for properties C70, C71. *)
From Verif Require Import CanArm Spec_CanArm Proof_DataCoding Proof_CanAvr.

Lemma arm_id m : m_prio m < 8 -> m_class m < 512 -> m_type m < 256 -> m_oaddr m < 256 ->
  idExt (N.lor (u32 (N.shiftl (m_prio m) 26))
        (N.lor (N.shiftl (if m_hard m then 1 else 0) 25)
        (N.lor (N.shiftl (m_class m) 16) (N.lor (N.shiftl (m_type m) 8) (m_oaddr m))))) = armId m.
Proof.
  intros H1 H2 H3 H4. unfold armId.
  assert (U : u32 (N.shiftl (m_prio m) 26) = N.shiftl (m_prio m) 26).
  { unfold u32. rewrite N.shiftl_mul_pow2. change (2 ^ 26) with 67108864. apply N.mod_small. lia. }
  rewrite U. rewrite (lor_shift (m_type m) (m_oaddr m) 8) by (change (2 ^ 8) with 256; lia).
  change (2 ^ 8) with 256. rewrite (lor_shift (m_class m) _ 16) by (change (2 ^ 16) with 65536; lia).
  change (2 ^ 16) with 65536.
  rewrite (lor_shift (if m_hard m then 1 else 0) _ 25) by (change (2 ^ 25) with 33554432; destruct (m_hard m); lia).
  change (2 ^ 25) with 33554432.
  rewrite (lor_shift (m_prio m) _ 26) by (change (2 ^ 26) with 67108864; destruct (m_hard m); lia).
  change (2 ^ 26) with 67108864. unfold idExt. change 536870911 with (N.ones 29). rewrite N.land_ones.
  change (2 ^ 29) with 536870912. rewrite N.mod_small by (destruct (m_hard m); lia). destruct (m_hard m); lia.
Qed.

Lemma shifts_first n : 1 <= n -> shifts (Nseq n) = false.
Proof.
  intro H. unfold Nseq. destruct (N.to_nat n) as [|k] eqn:E; [lia|]. reflexivity.
Qed.

(* invariant: 16 mailboxes; 0..13 take frames with the identifier 0 of 29 bits, 14 and 15 take none *)
Definition mbInv (mb : MB) : Prop :=
  (x_code mb = RX_EMPTY \/ x_code mb = RX_FULL \/ x_code mb = RX_OVERRUN) /\ x_ide mb = true /\ x_id mb = 0.
Definition FInv (f : Flex) : Prop :=
  length (f_mbs f) = 16%nat /\ f_idx f < 15 /\
  (forall i, (i < 14)%nat -> mbInv (nth i (f_mbs f) mbReset)) /\
  (forall i, (14 <= i < 16)%nat -> x_flag (nth i (f_mbs f) mbReset) = false /\
     (x_code (nth i (f_mbs f) mbReset) = 0 \/ x_code (nth i (f_mbs f) mbReset) = TX_INACTIVE)).
Lemma init_inv : FInv flexInit.
Proof.
  split; [reflexivity|]. split; [vm_compute; reflexivity|]. split.
  - intros i Hi. do 14 (destruct i as [|i]; [repeat split; vm_compute; auto|]). lia.
  - intros i Hi. assert (i = 14 \/ i = 15)%nat as [->| ->] by lia; vm_compute; auto.
Qed.
Lemma find_spec p : forall l k i, findMb p l k = Some i -> (k <= i < k + length l)%nat /\ p (nth (i - k) l mbReset) = true.
Proof.
  induction l as [|mb t IH]; intros k i H; cbn in H; [discriminate|]. destruct (p mb) eqn:E.
  - injection H as <-. rewrite Nat.sub_diag. cbn. split; [lia|assumption].
  - destruct (IH _ _ H) as [A B]. split; [cbn; lia|].
    replace (i - k)%nat with (S (i - S k)) by lia. exact B.
Qed.
Lemma find_none p : forall l k, (forall mb, In mb l -> p mb = false) -> findMb p l k = None.
Proof.
  induction l as [|mb t IH]; intros k H; cbn; [reflexivity|]. rewrite (H mb (or_introl eq_refl)).
  apply IH. intros; apply H; now right.
Qed.
Lemma match_inv f w i : FInv f -> (i < 16)%nat -> mbMatch w (nth i (f_mbs f) mbReset) = true ->
  (i < 14)%nat /\ w_ide w = true /\ w_cid w = 0.
Proof.
  intros (_ & _ & A & B) Hi H. unfold mbMatch in H. rewrite !andb_true_iff in H. destruct H as ((H1 & H2) & H3).
  destruct (Nat.lt_ge_cases i 14) as [C|C].
  - destruct (A i C) as (_ & E1 & E2). rewrite E1 in H2. rewrite E2 in H3. apply eqb_prop in H2. apply N.eqb_eq in H3. auto.
  - destruct (B i ltac:(lia)) as (_ & [E|E]); rewrite E in H1; discriminate.
Qed.
Lemma fill_inv f i code w : FInv f -> (i < 14)%nat -> (code = RX_FULL \/ code = RX_OVERRUN) -> w_ide w = true -> w_cid w = 0 ->
  FInv (mkFlex (lupd (f_mbs f) i (mbFill code w)) (f_idx f) (f_out f)).
Proof.
  intros (L & X & A & B) Hi Hc Hw1 Hw2. split; [cbn [f_mbs]; now rewrite lupd_len|]. split; [exact X|]. cbn [f_mbs]. split.
  - intros j Hj. rewrite lupd_nth. destruct ((j =? i)%nat && (i <? length (f_mbs f))%nat); [|auto].
    split; [right; destruct Hc; auto|]. cbn. auto.
  - intros j Hj. rewrite lupd_nth. replace (j =? i)%nat with false by lia. exact (B j Hj).
Qed.
Lemma rx_inv f w : FInv f -> FInv (flexRx w f).
Proof.
  intro H. pose proof H as (L & _). unfold flexRx.
  destruct (findMb (fun mb => mbMatch w mb && mbFree mb) (f_mbs f) 0) as [i|] eqn:E1.
  - destruct (find_spec _ _ _ _ E1) as [A B]. rewrite Nat.sub_0_r in B. apply andb_true_iff in B. destruct B as [B _].
    destruct (match_inv f w i H ltac:(lia) B) as (M1 & M2 & M3). apply fill_inv; auto.
  - destruct (findMb (mbMatch w) (rev (f_mbs f)) 0) as [i|] eqn:E2; [|exact H].
    destruct (find_spec _ _ _ _ E2) as [A B]. rewrite rev_length in A. rewrite Nat.sub_0_r in B.
    rewrite rev_nth in B by lia. replace (length (f_mbs f) - S i)%nat with (length (f_mbs f) - 1 - i)%nat in B by lia.
    destruct (match_inv f w (length (f_mbs f) - 1 - i)%nat H ltac:(lia) B) as (M1 & M2 & M3). apply fill_inv; auto.
Qed.
(* frames with another identifier leave the controller as it is *)
Lemma rx_other f w : FInv f -> w_ide w = false \/ w_cid w <> 0 -> flexRx w f = f.
Proof.
  intros H Hw. pose proof H as (L & _).
  assert (M : forall mb, In mb (f_mbs f) -> mbMatch w mb = false).
  { intros mb Hin. destruct (In_nth _ _ mbReset Hin) as (i & Hi & <-).
    destruct (mbMatch w (nth i (f_mbs f) mbReset)) eqn:E; [|reflexivity].
    destruct (match_inv f w i H ltac:(lia) E) as (_ & M2 & M3). destruct Hw; congruence. }
  unfold flexRx. rewrite find_none by (intros mb Hin; rewrite (M mb Hin); reflexivity).
  rewrite find_none; [reflexivity|]. intros mb Hin. apply M. now apply in_rev.
Qed.
Lemma write_inv m f : FInv f -> FInv (snd (armWrite m f)).
Proof.
  intro H. pose proof H as (L & X & A & B). unfold armWrite. destruct (m_size m <=? 8); [|exact H].
  destruct (shifts _); [|exact H]. destruct (wordsOf _ _) as [w0 w1].
  destruct (negb _); [|exact H]. cbn [snd]. split; [cbn [f_mbs]; now rewrite lupd_len|]. split; [exact X|].
  cbn [f_mbs]. change (N.to_nat TX_MB) with 15%nat. split; intros i Hi; rewrite lupd_nth, L.
  - replace (i =? 15)%nat with false by lia. exact (A i Hi).
  - destruct (Nat.eqb_spec i 15); cbn [andb]; [|exact (B i Hi)]. cbn. auto.
Qed.
Lemma read_inv old f : FInv f -> FInv (snd (armRead old f)).
Proof.
  intro H. pose proof H as (L & X & A & B). unfold armRead.
  destruct (x_flag _) eqn:Ef.
  - assert (Hi : (N.to_nat (f_idx f) < 14)%nat).
    { destruct (Nat.lt_ge_cases (N.to_nat (f_idx f)) 14) as [C|C]; [exact C|].
      destruct (B (N.to_nat (f_idx f)) ltac:(lia)) as [E _]. congruence. }
    cbv zeta. destruct (shifts _); [|exact H]. cbn [snd]. split; [cbn [f_mbs]; now rewrite lupd_len|].
    split; [cbn [f_idx]; unfold RX_COUNT; lia|]. cbn [f_mbs]. split; intros i Hi'; rewrite lupd_nth, L.
    + destruct (Nat.eqb_spec i (N.to_nat (f_idx f))) as [->|Hne]; cbn [andb]; [|auto].
      replace (N.to_nat (f_idx f) <? 16)%nat with true by lia. exact (A _ Hi).
    + replace (i =? N.to_nat (f_idx f))%nat with false by lia. exact (B i Hi').
  - cbn [snd]. split; [exact L|]. split; [cbn [f_idx]; unfold RX_COUNT; lia|]. auto.
Qed.
Lemma step_inv f op : FInv f -> FInv (snd (fStep f op)).
Proof.
  intro H. destruct op as [m|old|w]; cbn [fStep].
  - pose proof (write_inv m f H). now destruct (armWrite m f).
  - pose proof (read_inv old f H). now destruct (armRead old f).
  - now apply rx_inv.
Qed.
Lemma run_inv ops : forall f, FInv f -> FInv (snd (fRun f ops)).
Proof.
  induction ops as [|op r IH]; intros f H; [exact H|]. cbn [fRun]. pose proof (step_inv f op H) as S.
  destruct (fStep f op) as [o f1]. cbn [snd] in S. specialize (IH f1 S). now destruct (fRun f1 r).
Qed.
Lemma write_empty f m : FInv f -> m_prio m < 8 -> m_class m < 512 -> m_type m < 256 -> m_oaddr m < 256 -> m_size m = 0 ->
  let '(r, f') := armWrite m f in
  r = FOk true /\ f_out f' = f_out f ++ [mkWire true false (armId m) 0 []] /\ f_idx f' = f_idx f /\
  forall i, (i < 15)%nat -> nth i (f_mbs f') mbReset = nth i (f_mbs f) mbReset.
Proof.
  intros (L & X & A & B) H1 H2 H3 H4 H5. unfold armWrite. rewrite H5, arm_id by assumption.
  change (0 <=? 8) with true. change (shifts (Nseq 0)) with true. cbv iota.
  change (wordsOf (m_data m) 0) with (0, 0). cbv iota beta.
  destruct (B 15%nat ltac:(lia)) as (_ & C). change (N.to_nat TX_MB) with 15%nat.
  replace (x_code (nth 15 (f_mbs f) mbReset) =? TX_DATA) with false by (destruct C as [-> | ->]; reflexivity).
  cbn [negb f_out f_mbs f_idx]. repeat split; auto. intros i Hi. rewrite lupd_nth.
  replace (i =? 15)%nat with false by lia. reflexivity.
Qed.

(* polling: a mailbox with a frame without data is reached within 15 calls *)
Lemma poll_reach : forall k f j, FInv f -> (j < 14)%nat -> x_flag (nth j (f_mbs f) mbReset) = true ->
  (forall i, (i < 14)%nat -> i <> j -> x_flag (nth i (f_mbs f) mbReset) = false) ->
  x_dlc (nth j (f_mbs f) mbReset) = 0 ->
  ((j + 15 - N.to_nat (f_idx f)) mod 15 = k)%nat ->
  forall n, (k < n)%nat -> got (fst (fRun f (polls n))) = 1%nat.
Proof.
  assert (Q : forall n f, FInv f -> (forall i, (i < 14)%nat -> x_flag (nth i (f_mbs f) mbReset) = false) ->
    got (fst (fRun f (polls n))) = 0%nat).
  { induction n as [|n IH]; intros f H Hq; [reflexivity|]. change (polls (S n)) with (FRead (repeat 0 8) :: polls n). cbn [fRun fStep].
    pose proof H as (L & X & A & B).
    assert (E : x_flag (nth (N.to_nat (f_idx f)) (f_mbs f) mbReset) = false).
    { destruct (Nat.lt_ge_cases (N.to_nat (f_idx f)) 14) as [C|C]; [auto|]. now apply B; lia. }
    pose proof (read_inv (repeat 0 8) f H) as R. unfold armRead in *. rewrite E in *. cbn [snd] in R.
    specialize (IH _ R Hq). destruct (fRun _ (polls n)) as [os f2]. exact IH. }
  induction k as [|k IH]; intros f j H Hj Hf Ho Hd Hk n Hn; (destruct n as [|n]; [lia|]);
    change (polls (S n)) with (FRead (repeat 0 8) :: polls n); cbn [fRun fStep]; pose proof H as (L & X & A & B).
  - assert (Ej : N.to_nat (f_idx f) = j).
    { destruct (Nat.lt_ge_cases j (N.to_nat (f_idx f))) as [C|C].
      - rewrite Nat.mod_small in Hk by lia. lia.
      - replace (j + 15 - N.to_nat (f_idx f))%nat with (j - N.to_nat (f_idx f) + 1 * 15)%nat in Hk by lia.
        rewrite Nat.mod_add, Nat.mod_small in Hk by lia. lia. }
    pose proof (read_inv (repeat 0 8) f H) as R. unfold armRead in *. rewrite Ej in *. rewrite Hf in *. cbv zeta in *.
    assert (El : (if (x_code (nth j (f_mbs f) mbReset) =? RX_FULL) || (x_code (nth j (f_mbs f) mbReset) =? RX_OVERRUN)
                  then x_dlc (nth j (f_mbs f) mbReset) else 0) = 0) by (rewrite Hd; now destruct (_ || _)).
    rewrite El in *. change (shifts (Nseq 0)) with true in *. cbv iota in *. cbn [snd] in R.
    match type of R with FInv ?g => specialize (Q n g R); destruct (fRun g (polls n)) as [os f2] end.
    cbn [fst got]. cbn [fst] in Q. f_equal. apply Q. intros i Hi. cbn [f_mbs]. rewrite lupd_nth.
    destruct (Nat.eqb_spec i j) as [->|Hne]; cbn [andb]; [|auto]. destruct (j <? length (f_mbs f))%nat eqn:E; [reflexivity|].
    apply Nat.ltb_ge in E. lia.
  - assert (E : x_flag (nth (N.to_nat (f_idx f)) (f_mbs f) mbReset) = false).
    { destruct (Nat.lt_ge_cases (N.to_nat (f_idx f)) 14) as [C|C].
      - apply Ho; [assumption|]. intro E. rewrite E in Hk.
        replace (j + 15 - j)%nat with 15%nat in Hk by lia. discriminate.
      - now apply B; lia. }
    pose proof (read_inv (repeat 0 8) f H) as R. unfold armRead in *. rewrite E in *. cbn [snd] in R.
    specialize (IH _ j R Hj Hf Ho Hd). cbn [f_idx] in IH.
    assert (G : ((j + 15 - N.to_nat (u8 (f_idx f + 1) mod RX_COUNT)) mod 15 = k)%nat).
    { unfold u8, RX_COUNT. rewrite (N.mod_small (f_idx f + 1) 256) by lia.
      destruct (N.eq_dec (f_idx f) 14) as [E14|E14].
      - rewrite E14 in *. change ((14 + 1) mod 15) with 0. change (N.to_nat 14) with 14%nat in Hk. change (N.to_nat 0) with 0%nat.
        replace (j + 15 - 14)%nat with (S j) in Hk by lia. rewrite Nat.mod_small in Hk by lia.
        replace (j + 15 - 0)%nat with (j + 1 * 15)%nat by lia. rewrite Nat.mod_add, Nat.mod_small by lia. lia.
      - rewrite N.mod_small by lia.
        destruct (Nat.lt_ge_cases j (N.to_nat (f_idx f))) as [C|C].
        + rewrite Nat.mod_small in * by lia. lia.
        + replace (j + 15 - N.to_nat (f_idx f))%nat with (j - N.to_nat (f_idx f) + 1 * 15)%nat in Hk by lia.
          rewrite Nat.mod_add, Nat.mod_small in Hk by lia.
          replace (j + 15 - N.to_nat (f_idx f + 1))%nat with (j - N.to_nat (f_idx f + 1) + 1 * 15)%nat by lia.
          rewrite Nat.mod_add, Nat.mod_small by lia. lia. }
    specialize (IH G n ltac:(lia)). match goal with |- context [fRun ?g (polls n)] => destruct (fRun g (polls n)) as [os f2] end. exact IH.
Qed.
