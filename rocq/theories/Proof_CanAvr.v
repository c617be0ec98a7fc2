(* Proof_CanAvr.v - lemmas for properties C67, C68, C69. *)
From Coq Require Import Permutation.
From Verif Require Import CanAvr Spec_CanAvr Proof_DataCoding.

(* ---- lists ---- *)
Lemma lupd_len {T} (l : list T) i v : length (lupd l i v) = length l.
Proof. revert i; induction l; intros [|i]; cbn; auto. Qed.
Lemma lupd_nth {T} (l : list T) i v j d :
  nth j (lupd l i v) d = if (j =? i)%nat && (i <? length l)%nat then v else nth j l d.
Proof.
  revert i j; induction l as [|h t IH]; intros [|i] [|j]; try reflexivity; cbn [lupd nth length].
  - rewrite andb_false_r. reflexivity.
  - rewrite IH. reflexivity.
Qed.
Lemma lupd_twice {T} (l : list T) i a b : lupd (lupd l i a) i b = lupd l i b.
Proof. revert i; induction l; intros [|i]; cbn; f_equal; auto. Qed.
Lemma lupd_same {T} (l : list T) i d : (i < length l)%nat -> lupd l i (nth i l d) = l.
Proof. revert i; induction l; intros [|i] H; cbn in *; try lia; f_equal; auto with arith. Qed.

(* ---- bits ---- *)
Lemma land_bit x n : (N.land x (2 ^ n) =? 0) = negb (N.testbit x n).
Proof.
  destruct (N.testbit x n) eqn:E; cbn [negb].
  - apply N.eqb_neq. intro H. assert (G : N.testbit (N.land x (2 ^ n)) n = true)
      by (rewrite N.land_spec, E, N.pow2_bits_true; reflexivity).
    rewrite H, N.bits_0 in G. discriminate.
  - apply N.eqb_eq. apply N.bits_inj. intro k. rewrite N.land_spec, N.bits_0.
    destruct (N.eq_dec n k) as [->|Hn]; [now rewrite E|]. now rewrite N.pow2_bits_false, andb_false_r by assumption.
Qed.
Lemma land_192 x : (N.land x 192 =? 0) = negb (N.testbit x 7) && negb (N.testbit x 6).
Proof.
  change 192 with (N.lor (2 ^ 7) (2 ^ 6)). rewrite N.land_lor_distr_r, <- !land_bit.
  destruct (N.eqb_spec (N.land x (2 ^ 7)) 0) as [E|E], (N.eqb_spec (N.land x (2 ^ 6)) 0) as [F|F]; cbn [andb].
  - rewrite E, F. reflexivity.
  - apply N.eqb_neq. intro H. apply N.lor_eq_0_iff in H. tauto.
  - apply N.eqb_neq. intro H. apply N.lor_eq_0_iff in H. tauto.
  - apply N.eqb_neq. intro H. apply N.lor_eq_0_iff in H. tauto.
Qed.
Lemma tb x n : N.testbit x n = (x / 2 ^ n mod 2 =? 1).
Proof. apply N.testbit_eqb. Qed.
Lemma land31 x : N.land x 31 = x mod 32. Proof. exact (N.land_ones x 5). Qed.
Lemma land15 x : N.land x 15 = x mod 16. Proof. exact (N.land_ones x 4). Qed.
Lemma land511 x : N.land x 511 = x mod 512. Proof. exact (N.land_ones x 9). Qed.

(* ---- one message object ---- *)
(* message object i holds m and is selected, with data index k *)
Definition At (c : Can) (i k : N) (m : Mob) : Can :=
  mkCan (i * 16 + k) (lupd (c_mobs c) (N.to_nat i) m) (c_bus c).
Section At.
Variables (c : Can) (i : N).
Hypothesis Hl : length (c_mobs c) = 15%nat.
Hypothesis Hi : i < 15.
Lemma at_sel k m : k < 8 -> sel (At c i k m) = i.
Proof. intro. unfold sel, At. cbn [c_pg]. lia. Qed.
Lemma at_rd k m : k < 8 -> rdM (At c i k m) = m.
Proof.
  intro Hk. unfold rdM, mobAt. rewrite at_sel by assumption. unfold At. cbn [c_mobs].
  rewrite lupd_nth, Nat.eqb_refl, Hl. replace (N.to_nat i <? 15)%nat with true by lia. reflexivity.
Qed.
Lemma at_wr f k m : k < 8 -> wrM f (At c i k m) = At c i k (f m).
Proof.
  intro Hk. unfold wrM. rewrite at_rd, at_sel by assumption. unfold At. cbn [c_pg c_mobs c_bus].
  now rewrite lupd_twice.
Qed.
Lemma at_idx k m : k < 8 -> dIdx (At c i k m) = k.
Proof. intro. unfold dIdx, At. cbn [c_pg]. lia. Qed.
Lemma at_inc k m : k < 8 -> dInc (At c i k m) = At c i ((k + 1) mod 8) m.
Proof. intro. unfold dInc. rewrite at_idx by assumption. unfold At. cbn [c_pg c_mobs c_bus]. f_equal. lia. Qed.
Lemma at_msg v k m : k < 8 -> wrMSG v (At c i k m) = At c i ((k + 1) mod 8) (wDat k v m).
Proof. intro Hk. unfold wrMSG. rewrite at_idx, at_wr, at_inc by assumption. reflexivity. Qed.
Lemma at_rdmsg k m : k < 8 -> rdMSG (At c i k m) = (at0 (o_dat m) k, At c i ((k + 1) mod 8) m).
Proof. intro Hk. unfold rdMSG. rewrite at_rd, at_idx, at_inc by assumption. reflexivity. Qed.
Lemma at_set : setPage (i * 16) c = At c i 0 (mobAt c i).
Proof.
  unfold setPage, At, u8, mobAt. rewrite lupd_same by lia. f_equal. rewrite N.mod_small; lia.
Qed.
Lemma at_setp k m : setPage (i * 16) (At c i k m) = At c i 0 m.
Proof. unfold setPage, At, u8. cbn [c_mobs c_bus]. f_equal. rewrite N.mod_small; lia. Qed.
Lemma at_clr0 m : length (o_dat m) = 8%nat ->
  nTimes 8 (wrMSG 0) (At c i 0 (wK 0 0 0 0 (wI1 0 (wI2 0 (wI3 0 (wI4 0 (wCd 0 (wSt 0 m)))))))) = At c i 0 mob0.
Proof.
  intro H. cbn [nTimes]. rewrite !at_msg by (vm_compute; reflexivity).
  destruct m as [a b x0 x1 x2 x3 y0 y1 y2 y3 d]. cbn [o_dat] in H.
  do 8 (destruct d as [|? d]; [discriminate|]). destruct d; [|discriminate]. reflexivity.
Qed.
Lemma at_clr k m : k < 8 -> length (o_dat m) = 8%nat -> clrMob i (At c i k m) = At c i 0 mob0.
Proof.
  intros Hk H. unfold clrMob. rewrite at_setp. rewrite !at_wr by lia. now apply at_clr0.
Qed.
Lemma clr : length (o_dat (mobAt c i)) = 8%nat -> clrMob i c = At c i 0 mob0.
Proof. intro H. unfold clrMob. rewrite at_set, !at_wr by lia. now apply at_clr0. Qed.
Lemma set_clr : length (o_dat (mobAt c i)) = 8%nat -> clrMob i (setMob i c) = At c i 0 mob0.
Proof. intro H. unfold setMob. rewrite at_set. now apply at_clr. Qed.
End At.

(* ---- the frame of a message ---- *)
Lemma frame_id m : can_msg m -> g_id (frameOf m) = vscpId m /\ vscpId m < 536870912.
Proof.
  intros (H1 & H2 & H3 & H4 & _). unfold frameOf, vscpId. cbn [g_id].
  assert (U : u32 (N.shiftl (m_prio m) 26) = N.shiftl (m_prio m) 26).
  { unfold u32. rewrite N.shiftl_mul_pow2. change (2 ^ 26) with 67108864. apply N.mod_small. lia. }
  rewrite U. rewrite (lor_shift (m_type m) (m_oaddr m) 8) by (change (2 ^ 8) with 256; lia).
  change (2 ^ 8) with 256. rewrite (lor_shift (m_class m) _ 16) by (change (2 ^ 16) with 65536; lia).
  change (2 ^ 16) with 65536.
  rewrite (lor_shift (if m_hard m then 1 else 0) _ 25) by (change (2 ^ 25) with 33554432; destruct (m_hard m); lia).
  change (2 ^ 25) with 33554432.
  rewrite (lor_shift (m_prio m) _ 26) by (change (2 ^ 26) with 67108864; destruct (m_hard m); lia).
  change (2 ^ 26) with 67108864. destruct (m_hard m); lia.
Qed.
(* the message object after can_SendFrame *)
Definition txMob (m : Msg) : Mob :=
  let id := vscpId m in
  mkMob 0 (80 + m_size m) (id / 2097152 mod 256) (id / 8192 mod 256) (id / 32 mod 256) (id mod 32 * 8) 0 0 0 0
        (payload m ++ repeat 0 (8 - N.to_nat (m_size m))).
Lemma txMob_ok m : can_msg m -> m_size m <= 8 ->
  length (o_dat (txMob m)) = 8%nat /\ bitset (o_cd (txMob m)) 7 = false /\
  txPending (txMob m) = true /\ wireOf (txMob m) = vscpWire m.
Proof.
  intros H Hs. destruct (frame_id m H) as [_ Hid]. destruct H as (_ & _ & _ & _ & Hd & _).
  assert (Hp : length (payload m) = N.to_nat (m_size m)) by (unfold payload; rewrite firstn_length; lia).
  assert (B7 : N.testbit (80 + m_size m) 7 = false) by (rewrite tb; change (2 ^ 7) with 128; lia).
  assert (B6 : N.testbit (80 + m_size m) 6 = true) by (rewrite tb; change (2 ^ 6) with 64; lia).
  assert (B4 : N.testbit (80 + m_size m) 4 = true) by (rewrite tb; change (2 ^ 4) with 16; lia).
  unfold txMob. cbn [o_dat o_cd]. split; [rewrite app_length, repeat_length; lia|].
  unfold bitset. split; [assumption|].
  split; [unfold txPending, bitset; cbn [o_cd o_st]; rewrite B7, B6; reflexivity|].
  unfold wireOf, bitset, vscpWire. cbn [o_cd o_i1 o_i2 o_i3 o_i4 o_dat]. rewrite B4.
  replace ((80 + m_size m) mod 16) with (m_size m) by lia.
  f_equal.
  - rewrite tb. change (2 ^ 2) with 4. lia.
  - lia.
  - replace (N.min 8 (m_size m)) with (m_size m) by lia. rewrite <- Hp. rewrite firstn_app, Nat.sub_diag.
    cbn [firstn]. rewrite firstn_all, app_nil_r. reflexivity.
Qed.

Lemma data_fold (c : Can) i (l : list N) (M : Mob) :
  length (c_mobs c) = 15%nat -> i < 15 -> (length l <= 8)%nat -> o_dat M = repeat 0 8 ->
  exists k, k < 8 /\
  fold_left (fun c k => wrMSG (at0 l k) c) (Nseq (N.of_nat (length l))) (At c i 0 M) =
  At c i k (mkMob (o_st M) (o_cd M) (o_i1 M) (o_i2 M) (o_i3 M) (o_i4 M) (o_k1 M) (o_k2 M) (o_k3 M) (o_k4 M)
                  (l ++ repeat 0 (8 - length l))).
Proof.
  intros Hl Hi Hd HM. destruct M as [a b x0 x1 x2 x3 y0 y1 y2 y3 d]. cbn [o_dat o_st o_cd o_i1 o_i2 o_i3 o_i4 o_k1 o_k2 o_k3 o_k4] in *.
  subst d. exists (N.of_nat (length l) mod 8). split; [lia|].
  Ltac one c i Hl Hi :=
    match goal with |- context [Nseq ?x] => let v := eval vm_compute in (Nseq x) in change (Nseq x) with v end;
    cbn [fold_left]; repeat (rewrite (at_msg c i Hl Hi) by (vm_compute; reflexivity)); reflexivity.
  do 8 (destruct l as [|? l]; [one c i Hl Hi|]).
  destruct l as [|? l]; [one c i Hl Hi|cbn [length] in Hd; lia].
Qed.

Lemma mob_build a b x y z : wI1 a (wI2 b (wI3 x (wI4 y (wCd z mob0)))) = mkMob 0 z a b x y 0 0 0 0 (repeat 0 8).
Proof. reflexivity. Qed.
Lemma send_at (c : Can) i m : length (c_mobs c) = 15%nat -> i < 15 -> length (o_dat (mobAt c i)) = 8%nat ->
  can_msg m -> m_size m <= 8 -> fst (getFreeMob c) = Some i -> snd (getFreeMob c) = c ->
  exists k, k < 8 /\ canSend (frameOf m) c = (true, At c i k (txMob m)).
Proof.
  intros Hl Hi Hd Hm Hs G1 G2. unfold canSend. destruct (getFreeMob c) as [r c0]. cbn [fst snd] in G1, G2. subst.
  rewrite (set_clr c i Hl Hi Hd). destruct (frame_id m Hm) as [Ei Hid].
  rewrite Ei. cbn [frameOf g_flags g_len g_byte].
  change (N.land 1 1) with 1. change (N.land 1 4) with 0. cbn [N.eqb negb Pos.eqb].
  rewrite !(at_wr c i Hl Hi) by lia. rewrite mob_build.
  pose proof (data_fold c i (firstn (N.to_nat (m_size m)) (m_data m))) as F.
  assert (Hp : length (firstn (N.to_nat (m_size m)) (m_data m)) = N.to_nat (m_size m))
    by (rewrite firstn_length; destruct Hm as (_ & _ & _ & _ & E & _); lia).
  rewrite Hp, N2Nat.id in F.
  edestruct F as (k & Hk & ->); [assumption|assumption|lia|reflexivity|]. exists k. split; [assumption|].
  rewrite (at_wr c i Hl Hi) by assumption. do 2 f_equal.
  unfold wCd, txMob. cbn [o_st o_cd o_i1 o_i2 o_i3 o_i4 o_k1 o_k2 o_k3 o_k4 o_dat mob0].
  rewrite !land255, land31, land15, !N.shiftr_div_pow2, N.lor_0_r, N.shiftl_mul_pow2.
  change (2 ^ 21) with 2097152. change (2 ^ 13) with 8192. change (2 ^ 5) with 32. change (2 ^ 3) with 8.
  unfold payload, u8. f_equal.
  - replace (m_size m mod 16) with (m_size m) by lia.
    assert (X : m_size m = 0 \/ m_size m = 1 \/ m_size m = 2 \/ m_size m = 3 \/ m_size m = 4 \/ m_size m = 5 \/
                m_size m = 6 \/ m_size m = 7 \/ m_size m = 8) by lia.
    repeat destruct X as [->|X]; try reflexivity. rewrite X. reflexivity.
  - lia.
Qed.

(* ---- getFreeMob ---- *)
Definition mobFree (m : Mob) : bool := (negb (bitset (o_cd m) 7) && negb (bitset (o_cd m) 6)) || bitset (o_st m) 6.
Lemma freeFrom_spec : forall k i c, length (c_mobs c) = 15%nat -> i + N.of_nat k = 15 ->
  let '(r, c') := freeFrom k i c in
  c_mobs c' = c_mobs c /\ c_bus c' = c_bus c /\
  match r with
  | Some j => i <= j < 15 /\ mobFree (mobAt c j) = true /\ forall l, i <= l < j -> mobFree (mobAt c l) = false
  | None => forall l, i <= l < 15 -> mobFree (mobAt c l) = false
  end.
Proof.
  induction k as [|k IH]; intros i c Hl Hk; cbn [freeFrom].
  - repeat split; auto. intros. lia.
  - assert (Hi : i < 15) by lia. unfold setMob. rewrite (at_set c i Hl Hi), (at_rd c i Hl Hi) by lia.
    assert (E : c_mobs (At c i 0 (mobAt c i)) = c_mobs c).
    { unfold At, mobAt. cbn [c_mobs]. apply lupd_same. lia. }
    assert (Ef : (if N.land (o_cd (mobAt c i)) 192 =? 0 then true
                  else negb (N.land (o_st (mobAt c i)) 64 =? 0)) = mobFree (mobAt c i)).
    { rewrite land_192. change 64 with (2 ^ 6). rewrite land_bit. unfold mobFree, bitset.
      destruct (N.testbit (o_cd (mobAt c i)) 7), (N.testbit (o_cd (mobAt c i)) 6), (N.testbit (o_st (mobAt c i)) 6); reflexivity. }
    specialize (IH (i + 1) (At c i 0 (mobAt c i)) ltac:(now rewrite E) ltac:(lia)).
    assert (Em : forall l, mobAt (At c i 0 (mobAt c i)) l = mobAt c l) by (intro; unfold mobAt at 1; rewrite E; reflexivity).
    destruct (N.land (o_cd (mobAt c i)) 192 =? 0) eqn:E1.
    + split; [assumption|]. split; [reflexivity|]. repeat split; try lia; try (now symmetry); intros; lia.
    + destruct (N.land (o_st (mobAt c i)) 64 =? 0) eqn:E2; cbn [negb] in *.
      * destruct (freeFrom k (i + 1) (At c i 0 (mobAt c i))) as [r c'].
        destruct IH as (A & B & C). split; [congruence|]. split; [assumption|].
        destruct r as [j|].
        -- destruct C as (C1 & C2 & C3). rewrite Em in C2. repeat split; try lia; auto.
           intros l Hl'. destruct (N.eq_dec l i) as [->|Hne]; [now symmetry|]. rewrite <- Em. apply C3. lia.
        -- intros l Hl'. destruct (N.eq_dec l i) as [->|Hne]; [now symmetry|]. rewrite <- Em. apply C. lia.
      * split; [assumption|]. split; [reflexivity|]. repeat split; try lia; try (now symmetry); intros; lia.
Qed.
Lemma getFree_spec c : length (c_mobs c) = 15%nat -> c_pg c < 256 ->
  snd (getFreeMob c) = c /\
  match fst (getFreeMob c) with
  | Some j => 1 <= j < 15 /\ mobFree (mobAt c j) = true /\ forall l, 1 <= l < j -> mobFree (mobAt c l) = false
  | None => forall l, 1 <= l < 15 -> mobFree (mobAt c l) = false
  end.
Proof.
  intros Hl Hp. unfold getFreeMob. pose proof (freeFrom_spec 14 1 c Hl eq_refl) as F.
  destruct (freeFrom 14 1 c) as [r c']. destruct F as (A & B & C). cbn [fst snd]. split; [|assumption].
  unfold setPage, u8. rewrite N.mod_small, A, B by assumption. now destruct c.
Qed.

(* ---- the abstract adapter ---- *)
Lemma put_at l w j : (j < length l)%nat -> nth j l None = None -> (forall i, (i < j)%nat -> nth i l None <> None) ->
  put l w = Some (lupd l j (Some w)).
Proof.
  revert j; induction l as [|h t IH]; intros j Hj Hn Hb; [cbn in Hj; lia|]. destruct j as [|j].
  - cbn in Hn. subst. reflexivity.
  - destruct h as [x|]; [|exfalso; exact (Hb 0%nat ltac:(lia) eq_refl)].
    cbn [put]. rewrite (IH j); [reflexivity|cbn in Hj; lia|exact Hn|].
    intros i Hi. exact (Hb (S i) ltac:(lia)).
Qed.
Lemma put_full l w : (forall i, (i < length l)%nat -> nth i l None <> None) -> put l w = None.
Proof.
  induction l as [|h t IH]; intro Hb; [reflexivity|]. destruct h as [x|].
  - cbn [put]. rewrite IH; [reflexivity|]. intros i Hi. apply (Hb (S i)). cbn. lia.
  - exfalso. exact (Hb 0%nat ltac:(cbn; lia) eq_refl).
Qed.

Definition rxMob : Mob := wCd 128 mob0.
Definition slotOk (m : Mob) (s : option Wire) : Prop :=
  length (o_dat m) = 8%nat /\ bitset (o_cd m) 7 = false /\
  match s with Some w => txPending m = true /\ wireOf m = w | None => mobFree m = true end.
Definition Ok (c : Can) (b : Box) : Prop :=
  length (c_mobs c) = 15%nat /\ c_pg c < 256 /\ c_bus c = b_bus b /\ length (b_slots b) = 14%nat /\
  mobAt c 0 = match b_in b with None => rxMob | Some w => stored w rxMob end /\
  (forall w, b_in b = Some w -> wire_wf w) /\
  forall i, 1 <= i < 15 -> slotOk (mobAt c i) (nth (N.to_nat (i - 1)) (b_slots b) None).

Lemma slot_free m s : slotOk m s -> mobFree m = match s with None => true | Some _ => false end.
Proof.
  intros (_ & H7 & H). destruct s as [w|]; [|assumption]. destruct H as [H _].
  unfold txPending in H. unfold mobFree. rewrite H7 in *. cbn [negb andb] in *.
  destruct (bitset (o_cd m) 6), (bitset (o_st m) 6); cbn in *; auto; discriminate.
Qed.
Lemma slot_pending m s : slotOk m s -> txPending m = match s with None => false | Some _ => true end.
Proof.
  intros (_ & H7 & H). destruct s as [w|]; [tauto|].
  unfold mobFree in H. unfold txPending. rewrite H7 in *. cbn [negb andb] in *.
  destruct (bitset (o_cd m) 6), (bitset (o_st m) 6); cbn in *; auto; discriminate.
Qed.
Lemma mob0_len c b : Ok c b -> length (o_dat (mobAt c 0)) = 8%nat.
Proof.
  intros (_ & _ & _ & _ & H & Hw & _). rewrite H. destruct (b_in b) as [w|]; [|reflexivity].
  destruct (Hw w eq_refl) as (_ & D & L & _). unfold stored. cbn [o_dat]. rewrite app_length, skipn_length, L.
  change (length (o_dat rxMob)) with 8%nat. destruct (w_rtr w); lia.
Qed.
Lemma ok_page c b p : Ok c b -> Ok (setPage p c) b.
Proof. intros (A & B & C). split; [exact A|]. split; [|exact C]. unfold setPage, u8. cbn [c_pg]. lia. Qed.

(* an update of message object i *)
Lemma mobAt_upd pg l i m bus j : i < N.of_nat (length l) ->
  mobAt (mkCan pg (lupd l (N.to_nat i) m) bus) j = if j =? i then m else nth (N.to_nat j) l mob0.
Proof.
  intro Hi. unfold mobAt. cbn [c_mobs]. rewrite lupd_nth.
  replace (N.to_nat i <? length l)%nat with true by lia. rewrite andb_true_r.
  destruct (N.eqb_spec j i) as [->|Hne]; [rewrite Nat.eqb_refl; reflexivity|].
  replace (N.to_nat j =? N.to_nat i)%nat with false by lia. reflexivity.
Qed.
Lemma upd_slot c b i pg m s bus : Ok c b -> 1 <= i < 15 -> pg < 256 -> slotOk m s ->
  Ok (mkCan pg (lupd (c_mobs c) (N.to_nat i) m) bus) (mkBox (b_in b) (lupd (b_slots b) (N.to_nat (i - 1)) s) bus).
Proof.
  intros (A & B & C & D & F & W & G) Hi Hp Hs.
  split; [cbn [c_mobs]; now rewrite lupd_len|]. split; [exact Hp|]. split; [reflexivity|].
  split; [cbn [b_slots]; now rewrite lupd_len|]. cbn [b_in b_slots].
  split; [rewrite mobAt_upd by lia; replace (0 =? i) with false by lia; exact F|]. split; [exact W|].
  intros j Hj. rewrite mobAt_upd by lia. rewrite lupd_nth.
  destruct (N.eqb_spec j i) as [->|Hne].
  - rewrite Nat.eqb_refl. replace (N.to_nat (i - 1) <? length (b_slots b))%nat with true by lia. exact Hs.
  - replace (N.to_nat (j - 1) =? N.to_nat (i - 1))%nat with false by lia. exact (G j Hj).
Qed.
Lemma upd_in c b pg m o : Ok c b -> pg < 256 ->
  m = (match o with None => rxMob | Some w => stored w rxMob end) -> (forall w, o = Some w -> wire_wf w) ->
  Ok (mkCan pg (lupd (c_mobs c) 0 m) (c_bus c)) (mkBox o (b_slots b) (b_bus b)).
Proof.
  intros (A & B & C & D & F & W & G) Hp Hm Ho.
  split; [cbn [c_mobs]; now rewrite lupd_len|]. split; [exact Hp|]. split; [exact C|].
  split; [exact D|]. cbn [b_in b_slots]. change 0%nat with (N.to_nat 0).
  split; [rewrite mobAt_upd by lia; rewrite N.eqb_refl; exact Hm|]. split; [exact Ho|].
  intros j Hj. rewrite mobAt_upd by lia. replace (j =? 0) with false by lia. exact (G j Hj).
Qed.

Lemma hw_ok c b e : Ok c b -> ev_wf e -> Ok (hw c e) (bHw b e).
Proof.
  intros H He. pose proof H as (A & B & C & D & F & W & G). destruct e as [i|w]; cbn [hw bHw].
  - unfold hwTx. destruct (N.eqb_spec i 0) as [->|H0].
    + rewrite F. destruct (b_in b) as [w|]; [|exact H].
      replace (txPending (stored w rxMob)) with false; [exact H|]. symmetry.
      unfold txPending, stored. cbn [o_cd]. change (o_cd rxMob / 64 * 64) with 128.
      destruct (W w eq_refl) as (_ & Dl & _).
      replace (bitset (128 + (if w_ide w then 16 else 0) + w_dlc w) 7) with true; [reflexivity|].
      unfold bitset. rewrite tb. change (2 ^ 7) with 128. destruct (w_ide w); lia.
    + destruct (N.ltb_spec i 15) as [Hi|Hi].
      * pose proof (G i ltac:(lia)) as S. rewrite (slot_pending _ _ S).
        destruct (nth (N.to_nat (i - 1)) (b_slots b) None) as [w|] eqn:En; [|exact H].
        destruct S as (S1 & S2 & S3 & S4).
        rewrite S4, C. apply (upd_slot c b i); auto; [lia|].
        split; [exact S1|]. split; [exact S2|]. unfold mobFree. cbn [o_cd o_st wSt]. apply orb_true_iff. right.
        unfold bitset. rewrite N.lor_spec. change (N.testbit 64 6) with true. apply orb_true_r.
      * replace (mobAt c i) with mob0 by (unfold mobAt; rewrite nth_overflow; [reflexivity|lia]).
        change (txPending mob0) with false. cbv iota. rewrite nth_overflow by lia. exact H.
  - unfold hwRx. rewrite F. destruct (b_in b) as [w0|] eqn:Eb.
    + replace (rxArmed (stored w0 rxMob)) with false; [exact H|]. symmetry. unfold rxArmed, stored. cbn [o_st].
      change (N.lor (o_st rxMob) 32) with 32. change (bitset 32 5) with true. apply andb_false_r.
    + change (rxArmed rxMob && (o_k1 rxMob =? 0) && (o_k2 rxMob =? 0) && (o_k3 rxMob =? 0) && (o_k4 rxMob =? 0)) with true.
      cbv iota. apply upd_in; auto. intros w1 E1. injection E1 as <-. exact He.
Qed.
Lemma hws_ok es : forall c b, Ok c b -> Forall ev_wf es -> Ok (fold_left hw es c) (fold_left bHw es b).
Proof.
  induction es as [|e r IH]; intros c b H Hf; [exact H|]. inversion Hf; subst. cbn [fold_left].
  apply IH; [|assumption]. now apply hw_ok.
Qed.

Lemma try_ok c b m : Ok c b -> can_msg m -> m_size m <= 8 ->
  let '(ok, c') := canSend (frameOf m) c in
  match bTry m b with
  | Some b' => ok = true /\ Ok c' b'
  | None => ok = false /\ Ok c' b
  end.
Proof.
  intros H Hm Hs. pose proof H as (A & B & C & D & F & W & G).
  destruct (getFree_spec c A B) as [G2 G1]. unfold bTry.
  destruct (fst (getFreeMob c)) as [j|] eqn:Ej.
  - destruct G1 as (J1 & J2 & J3). pose proof (G j J1) as S.
    assert (Sn : nth (N.to_nat (j - 1)) (b_slots b) None = None).
    { rewrite (slot_free _ _ S) in J2. now destruct (nth (N.to_nat (j - 1)) (b_slots b) None). }
    rewrite (put_at (b_slots b) (vscpWire m) (N.to_nat (j - 1))); [| |exact Sn|].
    + destruct (send_at c j m A ltac:(lia) (proj1 S) Hm Hs Ej G2) as (k & Hk & ->).
      split; [reflexivity|]. unfold At. rewrite C. apply (upd_slot c b j); auto; [lia|].
      destruct (txMob_ok m Hm Hs) as (T1 & T2 & T3 & T4). split; [exact T1|]. split; [exact T2|]. auto.
    + lia.
    + intros i Hi. specialize (J3 (N.of_nat i + 1) ltac:(lia)).
      rewrite (slot_free _ _ (G (N.of_nat i + 1) ltac:(lia))) in J3.
      replace (N.to_nat (N.of_nat i + 1 - 1)) with i in J3 by lia. now destruct (nth i (b_slots b) None).
  - rewrite put_full.
    + unfold canSend. destruct (getFreeMob c) as [r c0]. cbn [fst snd] in *. subst. auto.
    + intros i Hi. specialize (G1 (N.of_nat i + 1) ltac:(lia)).
      rewrite (slot_free _ _ (G (N.of_nat i + 1) ltac:(lia))) in G1.
      replace (N.to_nat (N.of_nat i + 1 - 1)) with i in G1 by lia. now destruct (nth i (b_slots b) None).
Qed.

Lemma write_ok c b m d1 d2 : Ok c b -> can_msg m -> Forall ev_wf d1 -> Forall ev_wf d2 ->
  let '(ok, c') := adWrite (fun k c => fold_left hw (if k =? 1 then d1 else d2) c) m c in
  fst (bWrite m d1 d2 b) = ok /\ Ok c' (snd (bWrite m d1 d2 b)).
Proof.
  intros H Hm H1 H2. unfold adWrite, bWrite. rewrite N.ltb_antisym.
  destruct (N.leb_spec (m_size m) 8) as [Hs|Hs]; cbn [negb]; [|split; [reflexivity|exact H]].
  change (1 =? 1) with true. change (2 =? 1) with false. cbv iota.
  pose proof (try_ok c b m H Hm Hs) as T. destruct (canSend (frameOf m) c) as [ok c1].
  destruct (bTry m b) as [b1|]; destruct T as [-> T]; [split; [reflexivity|exact T]|].
  pose proof (hws_ok d1 c1 b T H1) as T1.
  pose proof (try_ok _ _ m T1 Hm Hs) as T2. destruct (canSend (frameOf m) (fold_left hw d1 c1)) as [ok c2].
  destruct (bTry m (fold_left bHw d1 b)) as [b2|]; destruct T2 as [-> T2]; [split; [reflexivity|exact T2]|].
  pose proof (hws_ok d2 c2 _ T2 H2) as T3.
  pose proof (try_ok _ _ m T3 Hm Hs) as T4. destruct (canSend (frameOf m) (fold_left hw d2 c2)) as [ok c3].
  destruct (bTry m (fold_left bHw d2 (fold_left bHw d1 b))) as [b3|]; destruct T4 as [-> T4]; split; auto.
Qed.

(* ---- reading ---- *)
Lemma rdBytes_at c m n : length (c_mobs c) = 15%nat -> length (o_dat m) = 8%nat -> (n <= 8)%nat ->
  exists k, k < 8 /\ rdBytes n (At c 0 0 m) = (firstn n (o_dat m), At c 0 k m).
Proof.
  intros Hl Hd Hn. destruct m as [a b x0 x1 x2 x3 y0 y1 y2 y3 d]. cbn [o_dat] in *.
  do 8 (destruct d as [|? d]; [discriminate|]). destruct d; [|discriminate].
  exists (N.of_nat n mod 8). split; [lia|].
  do 9 (destruct n as [|n];
   [cbn [rdBytes firstn]; repeat (rewrite (at_rdmsg c 0 Hl ltac:(lia)) by (vm_compute; reflexivity)); reflexivity|]).
  lia.
Qed.

Lemma firstn_zeros n : (n <= 8)%nat -> firstn n (repeat 0 8) = repeat 0 n.
Proof. intro H. do 9 (destruct n as [|n]; [reflexivity|]). lia. Qed.
Lemma read_ok c b old : Ok c b ->
  let '(r, c') := adRead old c in
  match b_in b with
  | None => r = AFalse /\ Ok c' b
  | Some w => r = ATrue (vscpMsg w old) /\ Ok c' (mkBox None (b_slots b) (b_bus b))
  end.
Proof.
  intro H. pose proof H as (A & B & C & D & F & W & G). unfold adRead, canRead, setMob.
  rewrite (at_set c 0 A ltac:(lia)), !(at_rd c 0 A ltac:(lia)) by lia.
  assert (Oa : Ok (At c 0 0 (mobAt c 0)) b).
  { rewrite <- (at_set c 0 A ltac:(lia)). now apply ok_page. }
  pose proof (mob0_len c b H) as Hd.
  destruct (b_in b) as [w|] eqn:Eb.
  - rewrite F in *. destruct (W w eq_refl) as (W1 & W2 & W3 & W4).
    change (o_st (stored w rxMob)) with 32. change (N.land 32 32 =? 0) with false. cbv iota.
    set (x := if w_ide w then w_cid w * 8 else w_cid w * 2097152).
    assert (Hx : x < 4294967296) by (unfold x; destruct (w_ide w); lia).
    assert (Ec : o_cd (stored w rxMob) = 128 + (if w_ide w then 16 else 0) + w_dlc w) by reflexivity.
    assert (El : N.land (o_cd (stored w rxMob)) 15 = w_dlc w) by (rewrite Ec, land15; destruct (w_ide w); lia).
    rewrite El. replace (8 <? w_dlc w) with false by lia.
    assert (Ee : negb (N.land (o_cd (stored w rxMob)) 16 =? 0) = w_ide w).
    { change 16 with (2 ^ 4). rewrite land_bit, negb_involutive, Ec, tb. change (2 ^ 4) with 16. destruct (w_ide w); lia. }
    rewrite Ee.
    destruct (rdBytes_at c (stored w rxMob) (N.to_nat (w_dlc w)) A Hd ltac:(lia)) as (k & Hk & ->).
    rewrite (at_clr c 0 A ltac:(lia)) by assumption. rewrite (at_wr c 0 A ltac:(lia)) by lia.
    cbn [g_id g_len g_byte].
    assert (Eid : (if w_ide w
        then u32 (N.shiftl (o_i1 (stored w rxMob)) 21 + N.shiftl (o_i2 (stored w rxMob)) 13 +
                  N.shiftl (o_i3 (stored w rxMob)) 5 + N.land (N.shiftr (o_i4 (stored w rxMob)) 3) 31)
        else N.shiftl (o_i1 (stored w rxMob)) 3 + N.land (N.shiftr (o_i2 (stored w rxMob)) 5) 7) = w_cid w).
    { unfold stored, u32. cbn [o_i1 o_i2 o_i3 o_i4]. fold x.
      rewrite !N.shiftl_mul_pow2, !N.shiftr_div_pow2, land31, land7.
      change (2 ^ 21) with 2097152. change (2 ^ 13) with 8192. change (2 ^ 5) with 32. change (2 ^ 3) with 8.
      unfold x in *. destruct (w_ide w), (w_rtr w); lia. }
    rewrite Eid.
    assert (Edat : firstn (N.to_nat (w_dlc w)) (o_dat (stored w rxMob)) = wireData w).
    { unfold stored, wireData. cbn [o_dat]. change (o_dat rxMob) with (repeat 0 8). rewrite W3. destruct (w_rtr w).
      - destruct (w_dat w); [|discriminate]. cbn [app skipn].
        apply firstn_zeros. lia.
      - rewrite firstn_app, W3, Nat.sub_diag. cbn [firstn]. rewrite <- W3, firstn_all. apply app_nil_r. }
    rewrite Edat. split.
    + unfold vscpMsg. rewrite !N.shiftr_div_pow2, land7, land511, !land255.
      change (2 ^ 26) with 67108864. change (2 ^ 16) with 65536. change (2 ^ 8) with 256. change (2 ^ 25) with 33554432.
      f_equal. f_equal. rewrite land1. 
      assert (Z := N.bit0_mod (w_cid w / 33554432)). rewrite N.bit0_odd in Z.
      rewrite <- Z. destruct (N.odd (w_cid w / 33554432)); reflexivity.
    + unfold At. change (N.to_nat 0) with 0%nat. apply (upd_in c b); [assumption|lia|reflexivity|discriminate].
  - rewrite F in *. change (N.land (o_st rxMob) 32 =? 0) with true. cbv iota. split; [reflexivity|exact Oa].
Qed.

(* ---- histories ---- *)
Lemma step_ok c b op : Ok c b -> aop_wf op ->
  fst (aStep c op) = fst (bStep b op) /\ Ok (snd (aStep c op)) (snd (bStep b op)).
Proof.
  intros H Ho. destruct op as [m d1 d2|old|e]; cbn [aStep bStep].
  - destruct Ho as (Hm & H1 & H2). pose proof (write_ok c b m d1 d2 H Hm H1 H2) as T.
    destruct (adWrite _ m c) as [ok c'], (bWrite m d1 d2 b) as [ok' b']. cbn [fst snd] in *.
    destruct T as [-> T]. auto.
  - pose proof (read_ok c b old H) as T. destruct (adRead old c) as [r c'].
    destruct (b_in b); destruct T as [-> T]; auto.
  - cbn [fst snd]. split; [reflexivity|]. now apply hw_ok.
Qed.
Lemma run_ok ops : forall c b, Ok c b -> Forall aop_wf ops ->
  fst (aRun c ops) = fst (bRun b ops) /\ Ok (snd (aRun c ops)) (snd (bRun b ops)).
Proof.
  induction ops as [|op r IH]; intros c b H Hf; [split; auto|]. inversion Hf as [|? ? H1 H2]; subst.
  destruct (step_ok c b op H H1) as [E O]. cbn [aRun bRun].
  destruct (aStep c op) as [o c1], (bStep b op) as [o' b1]. cbn [fst snd] in *. destruct (IH c1 b1 O H2) as [E2 O2].
  destruct (aRun c1 r) as [os c2], (bRun b1 r) as [os' b2]. cbn [fst snd] in *. split; [congruence|assumption].
Qed.

(* ---- can_Open ---- *)
Definition can_raw (c : Can) : Prop :=
  length (c_mobs c) = 15%nat /\ Forall (fun m => length (o_dat m) = 8%nat) (c_mobs c).
Lemma clrs_ok l : forall c, Forall (fun i => i < 15) l -> length (c_mobs c) = 15%nat -> (forall i, i < 15 -> length (o_dat (mobAt c i)) = 8%nat) ->
  let c' := fold_left (fun c i => clrMob i c) l c in
  length (c_mobs c') = 15%nat /\ (forall i, i < 15 -> length (o_dat (mobAt c' i)) = 8%nat) /\ c_bus c' = c_bus c /\
  forall i, i < 15 -> mobAt c' i = if existsb (N.eqb i) l then mob0 else mobAt c i.
Proof.
  induction l as [|a l IH]; intros c Hf Hl Hd; [cbn; auto|]. inversion Hf as [|? ? Ha Hr]; subst. cbn [fold_left].
  rewrite (clr c a Hl Ha (Hd a Ha)).
  assert (M : forall i, mobAt (At c a 0 mob0) i = if i =? a then mob0 else mobAt c i).
  { intro i. unfold At. rewrite mobAt_upd by lia. reflexivity. }
  destruct (IH (At c a 0 mob0) Hr) as (I1 & I2 & I3 & I4).
  - unfold At. cbn [c_mobs]. now rewrite lupd_len.
  - intros i Hi. rewrite M. destruct (i =? a); [reflexivity|auto].
  - split; [exact I1|]. split; [exact I2|]. split; [exact I3|]. intros i Hi. rewrite I4, M by assumption.
    cbn [existsb]. destruct (i =? a); cbn [orb]; [now destruct (existsb (N.eqb i) l)|reflexivity].
Qed.
Lemma seq15 : Forall (fun i => i < 15) (Nseq 15) /\ forall i, i < 15 -> existsb (N.eqb i) (Nseq 15) = true.
Proof.
  split.
  - unfold Nseq. apply Forall_forall. intros x Hx. apply in_map_iff in Hx. destruct Hx as (n & <- & Hn).
    apply in_seq in Hn. lia.
  - intros i Hi. apply existsb_exists. exists i. split; [|apply N.eqb_refl]. unfold Nseq. apply in_map_iff.
    exists (N.to_nat i). split; [apply N2Nat.id|]. apply in_seq. lia.
Qed.
Lemma nth_none n k : nth n (repeat (@None Wire) k) None = None.
Proof. revert n; induction k; intros [|n]; cbn; auto. Qed.
Lemma open_at c' bus : length (c_mobs c') = 15%nat -> (forall i, i < 15 -> mobAt c' i = mob0) -> c_bus c' = bus ->
  Ok (At c' 0 0 rxMob) (boxInit bus).
Proof.
  intros I1 I5 I3. assert (M : forall i, mobAt (At c' 0 0 rxMob) i = if i =? 0 then rxMob else mobAt c' i).
  { intro i. unfold At. rewrite mobAt_upd by lia. reflexivity. }
  split; [unfold At; cbn [c_mobs]; now rewrite lupd_len|]. split; [reflexivity|]. split; [exact I3|].
  split; [reflexivity|]. split; [rewrite M; reflexivity|]. split; [discriminate|].
  intros i Hi. rewrite M. replace (i =? 0) with false by lia. rewrite I5 by lia.
  unfold boxInit, b_slots. rewrite nth_none. repeat split; reflexivity.
Qed.
Lemma open_ok c : can_raw c -> Ok (canOpen c) (boxInit (c_bus c)).
Proof.
  intros [Hl Hd]. assert (Hd' : forall i, i < 15 -> length (o_dat (mobAt c i)) = 8%nat).
  { intros i Hi. rewrite Forall_forall in Hd. apply Hd. unfold mobAt. apply nth_In. lia. }
  destruct (clrs_ok (Nseq 15) c (proj1 seq15) Hl Hd') as (I1 & I2 & I3 & I4).
  unfold canOpen, clrAllMob, setMob.
  rewrite (at_set _ 0 I1 eq_refl), (at_wr _ 0 I1 eq_refl) by reflexivity.
  assert (I5 : forall i, i < 15 -> mobAt (fold_left (fun c i => clrMob i c) (Nseq 15) c) i = mob0).
  { intros i Hi. rewrite I4 by assumption. now rewrite (proj2 seq15) by assumption. }
  rewrite (I5 0 eq_refl). change (wCd (N.lor (o_cd mob0) 128) mob0) with rxMob.
  exact (open_at _ _ I1 I5 I3).
Qed.

(* ---- what the abstract adapter does ---- *)
Lemma waiting_upd l : forall j w, (j < length l)%nat -> nth j l None = Some w ->
  Permutation (waiting l) (w :: waiting (lupd l j None)).
Proof.
  induction l as [|h t IH]; intros [|j] w Hj Hn; cbn in *; try lia.
  - subst. reflexivity.
  - destruct h as [x|]; cbn.
    + rewrite (IH j w ltac:(lia) Hn). apply perm_swap.
    + apply IH; [lia|assumption].
Qed.
Lemma waiting_put l w : forall l', put l w = Some l' -> Permutation (waiting l') (w :: waiting l) /\ length l' = length l.
Proof.
  induction l as [|h t IH]; intros l' H; cbn in H; [discriminate|]. destruct h as [x|].
  - destruct (put t w) as [t'|]; [|discriminate]. injection H as <-. destruct (IH t' eq_refl) as [P L]. cbn. split; [|congruence].
    rewrite P. apply perm_swap.
  - injection H as <-. cbn. split; reflexivity.
Qed.
Lemma bhw_perm e b : Permutation (b_bus (bHw b e) ++ waiting (b_slots (bHw b e))) (b_bus b ++ waiting (b_slots b)).
Proof.
  destruct e as [i|w]; cbn [bHw].
  - destruct (i =? 0); [reflexivity|]. destruct (nth (N.to_nat (i - 1)) (b_slots b) None) as [w|] eqn:En; [|reflexivity].
    cbn [b_bus b_slots]. rewrite <- app_assoc. apply Permutation_app_head. cbn [app].
    symmetry. apply waiting_upd; [|assumption].
    destruct (Nat.lt_ge_cases (N.to_nat (i - 1)) (length (b_slots b))); [assumption|].
    rewrite nth_overflow in En by assumption. discriminate.
  - destruct (b_in b); reflexivity.
Qed.
Lemma bhws_perm es : forall b, Permutation (b_bus (fold_left bHw es b) ++ waiting (b_slots (fold_left bHw es b))) (b_bus b ++ waiting (b_slots b)).
Proof. induction es as [|e r IH]; intro b; [reflexivity|]. cbn [fold_left]. rewrite IH. apply bhw_perm. Qed.
Lemma btry_perm m b b' : bTry m b = Some b' ->
  Permutation (b_bus b' ++ waiting (b_slots b')) (vscpWire m :: b_bus b ++ waiting (b_slots b)).
Proof.
  unfold bTry. destruct (put (b_slots b) (vscpWire m)) as [l|] eqn:E; [|discriminate]. intro H. injection H as <-.
  cbn [b_bus b_slots]. destruct (waiting_put _ _ _ E) as [P _]. rewrite P. symmetry. apply Permutation_middle.
Qed.
Lemma run_perm ops : forall b, let '(res, b') := bRun b ops in
  Permutation (b_bus b' ++ waiting (b_slots b')) (b_bus b ++ waiting (b_slots b) ++ map vscpWire (accepted ops res)).
Proof.
  induction ops as [|op r IH]; intro b; cbn [bRun].
  - cbn [accepted map]. now rewrite app_nil_r.
  - destruct op as [m d1 d2|old|e]; cbn [bStep].
    + assert (W : let '(ok, b1) := bWrite m d1 d2 b in
        Permutation (b_bus b1 ++ waiting (b_slots b1)) (b_bus b ++ waiting (b_slots b) ++ if ok then [vscpWire m] else [])).
      { assert (X : forall b0 b1, Permutation (b_bus b0 ++ waiting (b_slots b0)) (b_bus b ++ waiting (b_slots b)) ->
                    bTry m b0 = Some b1 -> Permutation (b_bus b1 ++ waiting (b_slots b1)) (b_bus b ++ waiting (b_slots b) ++ [vscpWire m])).
        { intros b0 b1 P T. rewrite (btry_perm _ _ _ T), P, app_assoc. apply Permutation_cons_append. }
        unfold bWrite. destruct (8 <? m_size m); [now rewrite app_nil_r|].
        destruct (bTry m b) as [b1|] eqn:T1; [apply (X b b1); [reflexivity|assumption]|].
        destruct (bTry m (fold_left bHw d1 b)) as [b1|] eqn:T2; [apply (X (fold_left bHw d1 b) b1); [apply bhws_perm|assumption]|].
        assert (P : Permutation (b_bus (fold_left bHw d2 (fold_left bHw d1 b)) ++ waiting (b_slots (fold_left bHw d2 (fold_left bHw d1 b))))
                      (b_bus b ++ waiting (b_slots b))) by (rewrite bhws_perm; apply bhws_perm).
        destruct (bTry m (fold_left bHw d2 (fold_left bHw d1 b))) as [b1|] eqn:T3; [apply (X (fold_left bHw d2 (fold_left bHw d1 b)) b1); assumption|].
        now rewrite app_nil_r. }
      destruct (bWrite m d1 d2 b) as [ok b1]. specialize (IH b1). destruct (bRun b1 r) as [os b2].
      rewrite IH, app_assoc, W. destruct ok; cbn [accepted map]; rewrite <- !app_assoc; reflexivity.
    + destruct (b_in b) as [w|].
      * specialize (IH (mkBox None (b_slots b) (b_bus b))). destruct (bRun _ r) as [os b2]. exact IH.
      * specialize (IH b). destruct (bRun b r) as [os b2]. exact IH.
    + specialize (IH (bHw b e)). destruct (bRun (bHw b e) r) as [os b2]. cbn [accepted].
      rewrite IH, !app_assoc. apply Permutation_app_tail. apply bhw_perm.
Qed.

(* ---- the frames in the controller ---- *)
Lemma filter_slots : forall (ms : list Mob) ss, length ms = length ss ->
  (forall i, (i < length ms)%nat -> slotOk (nth i ms mob0) (nth i ss None)) ->
  map wireOf (filter txPending ms) = waiting ss.
Proof.
  induction ms as [|m t IH]; intros [|s ss] Hl H; cbn in Hl; try discriminate; [reflexivity|].
  pose proof (H 0%nat ltac:(cbn; lia)) as H0. cbn [nth] in H0.
  assert (Ht : map wireOf (filter txPending t) = waiting ss).
  { apply IH; [lia|]. intros i Hi. apply (H (S i)). cbn. lia. }
  cbn [filter]. rewrite (slot_pending _ _ H0). destruct s as [w|]; cbn [waiting map]; rewrite Ht; [|reflexivity].
  destruct H0 as (_ & _ & _ & ->). reflexivity.
Qed.
Lemma waiting_len l : (length (waiting l) <= length l)%nat.
Proof. induction l as [|[w|] t IH]; cbn; lia. Qed.
Lemma ok_waiting c b : Ok c b -> waiting (b_slots b) = map wireOf (filter txPending (c_mobs c)) /\
  (length (waiting (b_slots b)) <= 14)%nat.
Proof.
  intro H. pose proof H as (A & B & C & D & F & W & G). split.
  - destruct (c_mobs c) as [|m0 t] eqn:Em; [discriminate|].
    assert (P0 : txPending m0 = false).
    { pose proof (hw_ok c b (EvTx 0) H I) as _.
      replace m0 with (mobAt c 0) by (unfold mobAt; rewrite Em; reflexivity). rewrite F.
      destruct (b_in b) as [w|]; [|reflexivity]. destruct (W w eq_refl) as (_ & Dl & _).
      unfold txPending, stored. cbn [o_cd]. change (o_cd rxMob / 64 * 64) with 128.
      replace (bitset (128 + (if w_ide w then 16 else 0) + w_dlc w) 7) with true; [reflexivity|].
      unfold bitset. rewrite tb. change (2 ^ 7) with 128. destruct (w_ide w); lia. }
    cbn [filter]. rewrite P0. symmetry. apply filter_slots; [cbn in A; lia|].
    intros i Hi. cbn in A. specialize (G (N.of_nat i + 1) ltac:(lia)).
    replace (N.to_nat (N.of_nat i + 1 - 1)) with i in G by lia. unfold mobAt in G. rewrite Em in G.
    replace (N.to_nat (N.of_nat i + 1)) with (S i) in G by lia. exact G.
  - rewrite <- D. apply waiting_len.
Qed.
Lemma put_none l w : put l w = None -> length (waiting l) = length l.
Proof.
  induction l as [|[x|] t IH]; intro H; cbn in *; [reflexivity| |discriminate].
  destruct (put t w); [discriminate|]. now rewrite IH.
Qed.
Lemma full_count c b m : Ok c b -> bTry m b = None -> length (filter txPending (c_mobs c)) = 14%nat.
Proof.
  intros H T. destruct (ok_waiting c b H) as [E _]. unfold bTry in T.
  destruct (put (b_slots b) (vscpWire m)) eqn:P; [discriminate|]. apply put_none in P.
  rewrite <- (map_length wireOf), <- E, P. apply H.
Qed.

(* ---- what is read ---- *)
Lemma served_msgs ws : forall b, b_in b = None ->
  readMsgs (fst (bRun b (served ws))) = map (fun p => vscpMsg (fst p) (snd p)) ws.
Proof.
  induction ws as [|[w old] r IH]; intros b Hb; [reflexivity|]. cbn [served bRun bStep bHw]. rewrite Hb. cbn [b_in].
  specialize (IH (mkBox None (b_slots b) (b_bus b)) eq_refl). cbn [b_slots b_bus].
  destruct (bRun (mkBox None (b_slots b) (b_bus b)) (served r)) as [os b2]. cbn [fst readMsgs map snd] in *. now rewrite IH.
Qed.
Definition noRx (e : HwEv) : Prop := match e with EvRx _ => False | _ => True end.
Lemma quiet_hw es : forall b, b_in b = None -> Forall noRx es -> b_in (fold_left bHw es b) = None.
Proof.
  induction es as [|e r IH]; intros b Hb Hf; [assumption|]. inversion Hf as [|? ? H1 H2]; subst. cbn [fold_left].
  apply IH; [|assumption]. destruct e as [i|w]; [|contradiction]. cbn [bHw]. destruct (i =? 0); [assumption|].
  destruct (nth _ _ _); assumption.
Qed.
Lemma quiet_try m b b' : bTry m b = Some b' -> b_in b' = b_in b.
Proof. unfold bTry. destruct (put _ _); [|discriminate]. intro H. injection H as <-. reflexivity. Qed.
Lemma quiet_msgs ops : forall b, b_in b = None ->
  (forall e, In (AHw e) ops -> noRx e) ->
  (forall m d1 d2 e, In (AWrite m d1 d2) ops -> In e (d1 ++ d2) -> noRx e) ->
  readMsgs (fst (bRun b ops)) = [].
Proof.
  induction ops as [|op r IH]; intros b Hb He Hd; [reflexivity|]. cbn [bRun].
  assert (N : b_in (snd (bStep b op)) = None /\ readMsgs [fst (bStep b op)] = []).
  { destruct op as [m d1 d2|old|e]; cbn [bStep].
    - pose proof (Hd m d1 d2) as Hd0.
      assert (F1 : Forall noRx d1).
      { apply Forall_forall. intros e Hi. apply (Hd0 e); [now left|apply in_or_app; auto]. }
      assert (F2 : Forall noRx d2).
      { apply Forall_forall. intros e Hi. apply (Hd0 e); [now left|apply in_or_app; auto]. }
      pose proof (quiet_hw d1 b Hb F1) as Q1. pose proof (quiet_hw d2 _ Q1 F2) as Q2.
      unfold bWrite. destruct (8 <? m_size m); [auto|].
      destruct (bTry m b) as [x|] eqn:T1; [cbn; rewrite (quiet_try _ _ _ T1); auto|].
      destruct (bTry m (fold_left bHw d1 b)) as [x|] eqn:T2; [cbn; rewrite (quiet_try _ _ _ T2); auto|].
      destruct (bTry m (fold_left bHw d2 (fold_left bHw d1 b))) as [x|] eqn:T3; [cbn; rewrite (quiet_try _ _ _ T3); auto|]. auto.
    - rewrite Hb. auto.
    - split; [|reflexivity]. apply (quiet_hw [e] b Hb). constructor; [|constructor]. apply He. now left. }
  destruct (bStep b op) as [o b1]. cbn [fst snd] in N. destruct N as [N1 N2].
  assert (R : readMsgs (fst (bRun b1 r)) = []).
  { apply IH; [assumption| |]; intros; [apply He; now right|eapply Hd; [right; eassumption|eassumption]]. }
  destruct (bRun b1 r) as [os b2]. cbn [fst] in *. cbn in N2. destruct o as [| [| |]|]; cbn in *; try discriminate; assumption.
Qed.
Lemma In_firstn {T} (l : list T) : forall n x, In x (firstn n l) -> In x l.
Proof. induction l as [|h t IH]; intros [|n] x H; cbn in *; try tauto. destruct H; [auto|right; eauto]. Qed.

Lemma stray w : w_cid w < 536870912 -> w_ide w = true -> 8 < w_dlc w <= 15 -> length (w_dat w) = 8%nat ->
  fst (aRun (canOpen (mkCan 0 (repeat mob0 15) [])) [AHw (EvRx w); ARd (repeat 0 8)]) = [RHw; RRead AStray].
Proof.
  intros Hc Hi Hd Hl. set (c := canOpen _). vm_compute in c.
  cbn [aRun aStep hw]. unfold hwRx.
  change (mobAt c 0) with rxMob.
  change (rxArmed rxMob && (o_k1 rxMob =? 0) && (o_k2 rxMob =? 0) && (o_k3 rxMob =? 0) && (o_k4 rxMob =? 0)) with true. cbv iota.
  unfold adRead, canRead, setMob.
  set (c1 := mkCan (c_pg c) (lupd (c_mobs c) 0 (stored w rxMob)) (c_bus c)).
  assert (L : length (c_mobs c1) = 15%nat) by reflexivity.
  rewrite (at_set c1 0 L eq_refl), !(at_rd c1 0 L eq_refl) by reflexivity.
  change (mobAt c1 0) with (stored w rxMob). change (o_st (stored w rxMob)) with 32. change (N.land 32 32 =? 0) with false. cbv iota.
  replace (N.land (o_cd (stored w rxMob)) 15) with (w_dlc w).
  2:{ change (o_cd (stored w rxMob)) with (128 + (if w_ide w then 16 else 0) + w_dlc w). rewrite land15, Hi. lia. }
  replace (8 <? w_dlc w) with true by lia. reflexivity.
Qed.
