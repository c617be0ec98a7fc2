(* Proof_Page.v - accesses to several registers in a row *)
From Verif Require Export Spec_Page Proof_Drop.

Ltac bi_step := match goal with
  | |- bi _ _ (bind _ _) => apply bi_bind; [|intros ?]
  | |- bi _ _ (ret _) => apply bi_ret
  | |- bi _ _ (if _ then _ else _) => apply bi_if
  | |- bi _ _ (forM _ _) => apply bi_forM; intros ?
  | |- bi _ _ (psWrite8 _ _) => apply bi_psWrite8
  | |- bi _ _ (psRead8 _) => apply bi_psRead8
  | |- bi _ _ (psWriteMultiple _ _) => apply bi_multi
  | |- bi _ _ (emit _) => apply bi_emit
  | |- bi _ _ (upd _) => apply bi_upd; [let a := fresh in let b := fresh in let S := fresh "S" in intros a b S; samet S|reflexivity]
  | |- bi _ _ (get _) => apply bi_get; let a := fresh in let b := fresh in let S := fresh "S" in intros a b S; destruct S as [S _]; unfold visible in S; congruence
  end.
Section R.
Context {A : Type} {E : Env A}.
Implicit Types w : World A.

Lemma bi_read (o1 o2 : list Obs) p a : bi o1 o2 (readRegister (A := A) p a).
Proof.
  unfold readRegister, readVscpRegister, dm_readRegister, dm_readPaged, dm_readStd, ng_readRegister, appRead,
    ps_readCtrl, ps_readUserId, dd_getMDev, dd_getMSub, dd_getFam, dd_getType, dd_getGUID, dd_getMdf.
  repeat first [bi_step | match goal with |- bi _ _ (match ?x with Some _ => _ | None => _ end) => destruct x end
   | progress unfold psReadIdx, ps_readMDev, ps_readMSub, ps_readFam, ps_readType, ps_readGUID, ps_readMdf, ps_readDM, ps_readDMExt, ps_readNG ].
Qed.
(* reading a register changes nothing but the state of the application and the alarm register *)
Definition RR w w' : Prop := exists o x y, w' = set_out o (set_app x (set_alarm y w)).
Lemma read_frame p a : rel RR (readRegister p a).
Proof.
  set (R := RR). assert (Rrefl : forall w, R w w) by (intros w; exists (w_out w), (w_app w), (w_alarm w); destruct w; reflexivity).
  assert (Rtrans : forall a b c, R a b -> R b c -> R a c).
  { intros u v z (o & x & y & ->) (o' & x' & y' & ->). exists o', x', y'. destruct u; reflexivity. }
  assert (S_o : forall w o, R w (set_out o w)) by (intros w o; exists o, (w_app w), (w_alarm w); destruct w; reflexivity).
  assert (S_a : forall w o, R w (set_app o w)) by (intros w o; exists (w_out w), o, (w_alarm w); destruct w; reflexivity).
  assert (S_l : forall w o, R w (set_alarm o w)) by (intros w o; exists (w_out w), (w_app w), o; destruct w; reflexivity). clearbody R.
  unfold readRegister, readVscpRegister, dm_readRegister, dm_readPaged, dm_readStd, ng_readRegister, appRead, emit,
    ps_readCtrl, ps_readUserId, dd_getMDev, dd_getMSub, dd_getFam, dd_getType, dd_getGUID, dd_getMdf, ps_readMDev, ps_readMSub, ps_readFam, ps_readType, ps_readGUID, ps_readMdf, ps_readDM, ps_readDMExt, ps_readNG, psReadIdx, psRead8.
  rel_tac; try (intros w; apply S_o); try (intros w; apply S_a); try (intros w; apply S_l).
Qed.
Lemma push_ok d v w : (length d < 8)%nat -> push d v w = (d ++ [v], w).
Proof. intros H. unfold push. replace (N.of_nat (length d) <? L1_DATA_SIZE) with true by (unfold L1_DATA_SIZE; lia). reflexivity. Qed.
(* one register in two states that look the same *)
Lemma read_step p a w0 H : same w0 H -> let u := snd (readRegister p a w0) in let v := snd (readRegister p a H) in
  fst (readRegister p a w0) = fst (readRegister p a H) /\ same u v /\ w_out u = rev (effects H v) ++ w_out w0 /\ undisturbed w0 u /\ w_page u = w_page w0.
Proof.
  intros S u v. destruct (bi_read (w_out w0) (w_out H) p a w0 H) as [H1 [H2 (d & D1 & D2)]]; [split; [exact S|exists []; split; reflexivity]|].
  split; [exact H1|]. split; [exact H2|]. split; [rewrite (effects_app H v d D2), rev_involutive; exact D1|].
  destruct (read_frame p a w0) as (o & x & y & EQ). fold u in EQ. rewrite EQ. split; [repeat split; auto|reflexivity].
Qed.
Definition pageTail (n : nat) (nick a : N) (d : list N) : M A unit :=
  d' <- pageReadLoop n nick a d ;;
  when 1 <? N.of_nat (length d') do (tp_writeMessage (mkTx CLASS_PROTOCOL PT_RW_PAGE_RESPONSE PRIO_3_NORMAL nick d') ;; ret tt).
Lemma page_loop nick p n : forall a i c w0 H, same w0 H -> w_page w0 = p -> (length c < 7)%nat -> a + N.of_nat n <= 256 -> i + N.of_nat n < 256 ->
  let r := readRegs p a n H in let u := snd (pageTail n nick a (i :: map fst c) w0) in
  exists lo, w_out u = rev lo ++ w_out w0 /\ pageAnswer nick i (c ++ fst r) (concat (map snd c) ++ lo) /\ same u (snd r) /\ undisturbed w0 u.
Proof.
  induction n as [|n IH]; intros a i c w0 H S PG LC LA LI r u.
  - unfold u, r, pageTail. cbn [pageReadLoop readRegs fst snd]. rewrite bind_ret. cbn [length]. rewrite map_length, app_nil_r. destruct c as [|x c].
    + exists []. split; [reflexivity|]. split; [apply AnsNone|]. split; [exact S|]. apply undisturbed_refl.
    + replace (1 <? N.of_nat _) with true by (cbn [length]; lia). rewrite then_ret.
      match goal with |- context [tp_writeMessage ?f w0] => set (g := f) end. destruct (tx_send g w0) as (ok & v & G1 & G2 & G3); [unfold g, mkTx; cbn [m_size length]; rewrite map_length; cbn [length] in *; lia|].
      rewrite G1. cbn [snd]. exists [OTx g ok]. split; [rewrite G2; reflexivity|]. split.
      * apply AnsLast; [cbn [length] in *; lia|]. apply protFrame_mk. cbn [length]. rewrite map_length. cbn [length] in *. lia.
      * split; [exact (same_trans _ _ _ (keeps_same _ _ G3) S)|]. apply keeps_undisturbed, G3.
  - unfold u, r, pageTail. cbn [pageReadLoop readRegs fst snd]. rewrite bind_assoc, bind_get, PG. replace (u8 a) with a by (unfold u8; lia).
    destruct (read_step p a w0 H S) as (R1 & R2 & R3 & R4 & R5). cbv zeta in *. set (w1 := snd (readRegister p a w0)) in *. set (H1 := snd (readRegister p a H)) in *.
    set (x := fst (readRegister p a H)) in *. rewrite bind_assoc. rewrite (bind_val _ _ w0 x w1) by (rewrite <- R1; apply surjective_pairing).
    rewrite bind_assoc. rewrite (bind_val _ _ w1 ((i :: map fst c) ++ [x]) w1) by (apply push_ok; cbn [length]; rewrite map_length; lia).
    change ((i :: map fst c) ++ [x]) with (i :: (map fst c ++ [x])). set (l := effects H H1) in *.
    replace (map fst c ++ [x]) with (map fst (c ++ [(x, l)])) by (rewrite map_app; reflexivity).
    assert (LN : length (c ++ [(x, l)]) = Datatypes.S (length c)) by (rewrite app_length; cbn; lia).
    assert (CE : c ++ (x, l) :: fst (readRegs p (a + 1) n H1) = (c ++ [(x, l)]) ++ fst (readRegs p (a + 1) n H1)) by (rewrite <- app_assoc; reflexivity).
    rewrite CE. assert (CC : concat (map snd (c ++ [(x, l)])) = concat (map snd c) ++ l) by (rewrite map_app, concat_app; cbn; rewrite app_nil_r; reflexivity).
    assert (PG1 : w_page w1 = p) by congruence. unfold L1_DATA_SIZE. cbn [length]. rewrite map_length, LN.
    destruct (Nat.eq_dec (length c) 6) as [L6|L6].
    + replace (8 <=? _) with true by lia. rewrite bind_assoc. match goal with |- context [tp_writeMessage ?f] => set (g := f) end.
      destruct (tx_send g w1) as (ok & v & G1 & G2 & G3); [unfold g, mkTx; cbn [m_size]; cbn [length]; rewrite map_length; lia|].
      rewrite (bind_val _ _ w1 ok v G1). replace (u8 (at0 (i :: map fst (c ++ [(x, l)])) 0 + 1)) with (i + 1) by (unfold u8, at0; cbn [N.to_nat nth]; lia).
      assert (PG2 : w_page v = p) by (destruct G3 as (V & _); unfold visible in V; congruence).
      destruct (IH (a + 1) (i + 1) [] v H1) as (lo & O & PA & SS & UU); [exact (same_trans _ _ _ (keeps_same _ _ G3) R2)|exact PG2|cbn; lia|lia|lia|].
      cbn [map concat app] in *. unfold pageTail in O, SS, UU. exists (l ++ OTx g ok :: lo).
      split; [rewrite O, G2, R3, rev_app_distr; cbn [rev]; rewrite <- !app_assoc; reflexivity|]. split.
      * rewrite app_assoc, <- CC. apply AnsMore; [lia| |exact PA]. apply protFrame_mk. cbn [length]. rewrite map_length. lia.
      * split; [exact SS|]. apply (undisturbed_trans _ _ _ R4). apply (undisturbed_trans _ v); [apply keeps_undisturbed, G3|exact UU].
    + replace (8 <=? _) with false by lia.
      destruct (IH (a + 1) i (c ++ [(x, l)]) w1 H1) as (lo & O & PA & SS & UU); [exact R2|exact PG1|lia|lia|lia|].
      unfold pageTail in O, SS, UU. exists (l ++ lo). split; [rewrite O, R3, rev_app_distr, <- app_assoc; reflexivity|]. split; [rewrite app_assoc, <- CC; exact PA|].
      split; [exact SS|]. exact (undisturbed_trans _ _ _ R4 UU).
Qed.

(* ---- writing ---- *)
(* reading registers with stored values *)
Lemma read_stored (VE : valid_env E) p w (x : N -> N) n : forall a, (forall b, a <= b < a + N.of_nat n -> shows w p b (x b)) ->
  fst (readRegs p a n w) = map (fun i => (x (a + N.of_nat i), @nil Obs)) (seq 0 n) /\ snd (readRegs p a n w) = w.
Proof.
  induction n as [|n IH]; intros a H; [split; reflexivity|]. cbn [readRegs fst snd].
  assert (R1 : readRegister p a w = (x a, w)).
  { destruct (H a ltac:(lia)) as [(-> & H1 & H2 & ->)|(f & k & HI & ->)]; [|destruct (HI w) as [HR _]; exact HR].
    rewrite (readVscp VE a w) by (lia || assumption). replace (a =? 128) with false by lia. reflexivity. }
  rewrite R1. cbn [fst snd]. destruct (IH (a + 1)) as [H1 H2]; [intros b Hb; apply H; lia|]. rewrite H1, H2. split; [|reflexivity].
  cbn [seq map]. rewrite N.add_0_r, (effects_app w w []) by reflexivity. f_equal. rewrite <- seq_shift, map_map. apply map_ext. intros i. f_equal. f_equal. lia.
Qed.
Lemma map_nil {T U V} (g : T -> U) (l : list T) : Forall (fun c => snd c = @nil V) (map (fun i => (g i, @nil V)) l).
Proof. apply Forall_forall. intros c Hc. apply in_map_iff in Hc. destruct Hc as (i & <- & _). reflexivity. Qed.
Lemma concat_nil {T V} (c : list (T * list V)) : Forall (fun c => snd c = []) c -> concat (map snd c) = [].
Proof. induction 1 as [|y c H _ IH]; [reflexivity|]. cbn [map concat]. rewrite H, IH. reflexivity. Qed.
Lemma answer_parts nick i r lo : pageAnswer nick i r lo -> Forall (fun c => snd c = []) r ->
  carried lo = map fst r /\ seqNumbers lo = map (fun k => i + N.of_nat k) (seq 0 (length (frames lo))).
Proof.
  induction 1 as [i|i r f ok HL HF|i c r f ok l HL HF HA IH]; intros HN; [split; reflexivity|..].
  - rewrite (concat_nil r HN). cbn [app frames flat_map]. unfold carried, seqNumbers. cbn [frames flat_map app map concat length seq]. destruct HF as (_ & _ & _ & _ & _ & HP). cbn [fst]. rewrite HP. cbn [hd tl].
    rewrite app_nil_r, N.add_0_r. split; reflexivity.
  - apply Forall_app in HN. destruct HN as [N1 N2]. rewrite (concat_nil c N1). cbn [app]. destruct (IH N2) as [I1 I2]. unfold carried, seqNumbers in *.
    change (OTx f ok :: l) with ([OTx f ok] ++ l). rewrite frames_app. change (frames [OTx f ok]) with [(f, ok)]. cbn [app map concat length seq fst]. destruct HF as (_ & _ & _ & _ & _ & HP). rewrite HP. cbn [hd tl]. rewrite map_app, I1, I2, N.add_0_r.
    split; [reflexivity|]. f_equal. rewrite <- seq_shift, map_map. apply map_ext. intros k. lia.
Qed.
(* writing registers which are windows on consecutive bytes *)
Lemma onlyMemory_trans (a b c : World A) : onlyMemory a b -> onlyMemory b c -> onlyMemory a c.
Proof. unfold onlyMemory. destruct a, b, c. cbn. intros H1 H2. inversion H1. inversion H2. subst. reflexivity. Qed.
Lemma write_stored page p f vs : (forall w w' : World A, onlyMemory w w' -> page w = p -> page w' = p) -> f <> FCtrl -> forall a k w, page w = p -> writable w -> Forall (fun v => v < 256) vs -> k + N.of_nat (length vs) <= fieldLen cfg f ->
  (forall i, i < N.of_nat (length vs) -> isWindowOn p (a + i) f (k + i)) ->
  let r := writeRegs page a vs w in map fst (fst r) = vs /\ onlyMemory w (snd r) /\ (exists xs, concat (map snd (fst r)) = map (fun q => OPs (fst q) (snd q)) xs /\ map snd xs = vs) /\
  forall g j, j < fieldLen cfg g -> stored (snd r) g j = if field_eqb f g && (k <=? j) && (j <? k + N.of_nat (length vs)) then nth (N.to_nat (j - k)) vs 0 else stored w g j.
Proof.
  intros PO NF. induction vs as [|v vs IH]; intros a k w HP HW HV HL HI r.
  - unfold r. cbn [writeRegs fst snd map length]. split; [reflexivity|]. split; [unfold onlyMemory; destruct w; reflexivity|]. split; [exists []; split; reflexivity|].
    intros g j Hj. replace ((k <=? j) && (j <? k + N.of_nat 0)) with false by lia. rewrite <- andb_assoc. replace ((k <=? j) && (j <? k + N.of_nat 0)) with false by lia. rewrite andb_false_r. reflexivity.
  - unfold r. cbn [writeRegs fst snd map length] in *. inversion HV as [|? ? V1 V2]; subst.
    pose proof (HI 0 ltac:(lia)) as W0. rewrite !N.add_0_r in W0. destruct (W0 w) as [_ W1]. specialize (W1 v V1 HW). cbv zeta in W1. set (p := page w) in *. set (u := snd (writeRegister p a v w)) in *.
    destruct W1 as (W1 & W2 & (x & W3) & W4).
    assert (WU : writable u). { unfold writable. rewrite W4 by (cbn; lia). destruct f; try exact HW. contradiction NF; reflexivity. }
    destruct (IH (a + 1) (k + 1) u (PO w u W2 eq_refl) WU V2) as (G1 & G2 & (xs & G3 & G3') & G4); [lia|intros i Hi; rewrite <- !N.add_assoc; apply HI; lia|].
    rewrite W1, W3. cbn [fst]. split; [rewrite G1; reflexivity|]. split; [exact (onlyMemory_trans _ _ _ W2 G2)|]. split; [exists ((x, v) :: xs); cbn [map concat fst snd app]; rewrite G3, G3'; split; reflexivity|].
    intros g j Hj. rewrite G4, W4 by exact Hj. destruct (field_eqb f g); cbn [andb]; [|reflexivity].
    destruct ((k + 1 <=? j) && (j <? k + 1 + N.of_nat (length vs))) eqn:C1.
    + replace ((k <=? j) && (j <? k + N.of_nat (Datatypes.S (length vs)))) with true by lia. replace (N.to_nat (j - k)) with (Datatypes.S (N.to_nat (j - (k + 1)))) by lia. reflexivity.
    + destruct (k =? j) eqn:C2.
      * replace ((k <=? j) && (j <? k + N.of_nat (Datatypes.S (length vs)))) with true by lia. replace (N.to_nat (j - k)) with 0%nat by lia. reflexivity.
      * replace ((k <=? j) && (j <? k + N.of_nat (Datatypes.S (length vs)))) with false by lia. reflexivity.
Qed.
Hypothesis CALM : forall x p a v, snd (fst (app_write x p a v)) = [].
Definition T162 w : Prop := (N.to_nat (w_t162 w) <> N.to_nat (w_tEp w) \/ (length (w_tm w) <= N.to_nat (w_t162 w))%nat) /\
  (N.to_nat (w_tHb w) <> N.to_nat (w_t162 w) \/ (length (w_tm w) <= N.to_nat (w_t162 w))%nat).
Lemma appWrite_calm p a v w : appWrite p a v w = (emit (OAppWrite p a v) ;; r <- get (fun w => app_write (w_app w, w_ps w) p a v) ;; upd (set_app (snd r)) ;; ret (u8 (fst (fst r)))) w.
Proof. unfold appWrite. rewrite !bind_emit, !bind_get, !bind_upd. wsimp. rewrite CALM. reflexivity. Qed.
Lemma bi_ext {T} o1 o2 (m m' : M A T) : (forall w, m w = m' w) -> bi o1 o2 m' -> bi o1 o2 m.
Proof. intros H HB x y HA. rewrite !H. apply HB, HA. Qed.
Lemma bi_write (o1 o2 : list Obs) p a v : ~ (p = 0 /\ a = 162) -> bi o1 o2 (writeRegister (A := A) p a v).
Proof.
  intros N162. assert (BA : bi o1 o2 (appWrite (A := A) p a v)).
  { apply (bi_ext _ _ _ _ (appWrite_calm p a v)). repeat bi_step. }
  unfold writeRegister. destruct ((p =? 0) && (128 <=? a) && (a <=? 255)) eqn:C.
  - unfold writeVscpRegister. unfold REG_RESTORE. replace (a =? 162) with false by lia. unfold ps_writeCtrl, ps_readCtrl, ps_writeUserId, ps_readUserId, psWriteIdx, psReadIdx, REG_CTRL, REG_PAGE_MSB, REG_PAGE_LSB.
    repeat first [bi_step | apply bi_upd; [intros x y S; rewrite (same_page _ _ S); samet S|reflexivity]].
  - unfold getRegAppWriteProtect, ps_readCtrl, dm_writeRegister, dm_writePaged, dm_writeStd, ng_writeRegister.
    repeat first [bi_step | exact BA | match goal with |- bi _ _ (match ?x with Some _ => _ | None => _ end) => destruct x end
     | progress unfold ps_readDM, ps_readNG, ps_writeDM, ps_writeNG, psReadIdx, psWriteIdx].
Qed.
(* register 162 *)
Lemma same_running w0 H id : same w0 H -> (N.to_nat id <> N.to_nat (w_tEp H) \/ (length (w_tm H) <= N.to_nat id)%nat) -> timerRunning (w_tm w0) id = timerRunning (w_tm H) id.
Proof.
  intros [V T] D. unfold timerRunning. assert (NE : nth_error (w_tm w0) (N.to_nat id) = nth_error (w_tm H) (N.to_nat id)).
  { destruct D as [D|D].
    - apply T. assert (X : w_tEp w0 = w_tEp H) by (unfold visible in V; congruence). rewrite X. intros ->. apply D. reflexivity.
    - assert (X : length (w_tm w0) = length (w_tm H)) by (unfold visible in V; congruence). transitivity (@None Timer); [apply nth_error_None; lia|symmetry; apply nth_error_None; exact D]. }
  rewrite NE. reflexivity.
Qed.
Lemma tm_same (a b : World A) i v : same a b -> same (set_tm (timerSetAt (w_tm a) i v) a) (set_tm (timerSetAt (w_tm b) i v) b).
Proof.
  intros [V T]. split.
  - unfold visible in *. wsimp. rewrite !timerSetAt_length. congruence.
  - intros id Hid. wsimp. wsimp_in Hid. specialize (T id Hid). destruct (Nat.eq_dec (N.to_nat id) i) as [<-|NE]; [|rewrite !timerSetAt_other by congruence; exact T].
    revert T. generalize (N.to_nat id). generalize (w_tm a) (w_tm b). clear. intros l1. induction l1 as [|x l1 IH]; intros [|y l2] [|n]; cbn [timerSetAt nth_error]; intros H; try discriminate H; try reflexivity; try congruence.
    + destruct (nth_error l2 n) eqn:E2; [discriminate H|]. symmetry. apply nth_error_None. rewrite timerSetAt_length. apply nth_error_None. exact E2.
    + apply nth_error_None. rewrite timerSetAt_length. apply nth_error_None. exact H.
    + apply IH. exact H.
Qed.
(* what writing a register leaves alone *)
Definition WK w w' : Prop := w_tm w' = w_tm w /\ hbView w' = hbView w /\ w_rx w' = w_rx w /\ w_t162 w' = w_t162 w /\ (w_xcount w = 0 -> w_xcount w' = 0).
Lemma WK_refl w : WK w w. Proof. repeat split; auto. Qed.
Lemma WK_trans (a b c : World A) : WK a b -> WK b c -> WK a c.
Proof. intros (H1 & H2 & H3 & H4 & H5) (K1 & K2 & K3 & K4 & K5). repeat split; try congruence. auto. Qed.
Lemma WK_undisturbed w w' : WK w w' -> undisturbed w w'.
Proof. intros (H1 & H2 & H3 & H4 & H5). split; [split; [exact H2|rewrite H1; reflexivity]|]. split; [rewrite H1; reflexivity|exact H5]. Qed.
Lemma WK_parts : rel WK restoreFactory /\ forall p a v, ~ (p = 0 /\ a = 162) -> rel WK (writeRegister p a v).
Proof.
  assert (Rrefl := WK_refl). assert (Rtrans := WK_trans).
  assert (S : forall w w', w_tm w' = w_tm w -> hbView w' = hbView w -> w_rx w' = w_rx w -> w_t162 w' = w_t162 w -> (w_xcount w = 0 -> w_xcount w' = 0) -> WK w w') by (intros; repeat split; assumption).
  generalize dependent WK. intros R Rrefl Rtrans S.
  assert (W8 : forall x v, rel R (@psWrite8 A x v)) by (intros x v; unfold psWrite8, emit; rel_tac; intros w; apply S; auto).
  assert (WM : forall l x, rel R (@psWriteMultiple A x l)) by (induction l as [|v l IH]; intros x; cbn [psWriteMultiple]; rel_tac; auto).
  assert (SA : forall w o, R w (set_app o w)) by (intros; apply S; auto). assert (SP : forall w o, R w (set_page o w)) by (intros; apply S; auto).
  assert (SD : forall w o, R w (set_dmIdx o w)) by (intros; apply S; auto). assert (SO : forall w o, R w (set_out o w)) by (intros; apply S; auto).
  split.
  - unfold restoreFactory, dd_restore, dm_restore, ng_restore, writeNicknameId, ps_writeNicknameId, ps_readNicknameId, ps_writeCRC, ps_writeCtrl, ps_writeUserId, ps_writeGUID, ps_writeZone, ps_writeSub, ps_writeMDev, ps_writeMSub,
    ps_writeMdf, ps_writeFam, ps_writeType, ps_writeNG, ps_writeDMMultiple, ps_writeDMExtMultiple, psWriteIdx, psRead8.
    rel_tac; auto; try (intros w; apply S; auto).
  - intros p a v N162. assert (BA : rel R (appWrite p a v)).
    { intros w. rewrite appWrite_calm. rewrite bind_emit, bind_get, bind_upd. cbn [ret snd]. apply S; auto. }
    unfold writeRegister. destruct ((p =? 0) && (128 <=? a) && (a <=? 255)) eqn:C.
    + unfold writeVscpRegister. unfold REG_RESTORE. replace (a =? 162) with false by lia. unfold ps_writeCtrl, ps_readCtrl, ps_writeUserId, ps_readUserId, psWriteIdx, psReadIdx, psRead8. rel_tac; auto.
    + unfold getRegAppWriteProtect, ps_readCtrl, dm_writeRegister, dm_writePaged, dm_writeStd, ng_writeRegister, ps_readDM, ps_readNG, ps_writeDM, ps_writeNG, psReadIdx, psWriteIdx, psRead8. rel_tac; auto.
Qed.
Definition W162 (v : N) (running : bool) : M A (N * bool) :=
  id <- get w_t162 ;;
  (if (v =? 85) && negb running then timer_start id (c_t_multi cfg) else when (v =? 170) && running do (timer_stop id ;; restoreFactory)) ;; ret (0, false).
Lemma write_162 v w : writeRegister 0 162 v w = W162 v (timerRunning (w_tm w) (w_t162 w)) w.
Proof. reflexivity. Qed.
(* a step of the timer of register 162 *)
Lemma t162_step w0 H v : same w0 H -> T162 H -> let u := set_tm (timerSetAt (w_tm w0) (N.to_nat (w_t162 H)) v) w0 in let h := set_tm (timerSetAt (w_tm H) (N.to_nat (w_t162 H)) v) H in
  same u h /\ undisturbed w0 u /\ T162 h.
Proof.
  intros S [TT1 TT2] u h. split; [apply tm_same, S|]. split; [|unfold T162, h; wsimp; rewrite timerSetAt_length; auto].
  assert (VE : length (w_tm w0) = length (w_tm H) /\ w_tHb w0 = w_tHb H) by (destruct S as [V _]; unfold visible in V; split; congruence). destruct VE as (V2 & V3).
  unfold u. split; [split; [reflexivity|wsimp; apply timerSetAt_length]|]. wsimp. split; [|auto]. rewrite V3. destruct TT2 as [TT2|TT2]; [apply timerSetAt_other; congruence|].
  f_equal. rewrite <- V2 in TT2. revert TT2. generalize (N.to_nat (w_t162 H)) (w_tm w0). clear. intros n l. revert n. induction l as [|t l IH]; intros [|n]; cbn [timerSetAt length]; intros L; try reflexivity; [lia|]. f_equal. apply IH. lia.
Qed.
(* one register in two states that look the same *)
Lemma write_step p a v w0 H : same w0 H -> T162 H -> let u := snd (writeRegister p a v w0) in let h := snd (writeRegister p a v H) in
  fst (writeRegister p a v w0) = fst (writeRegister p a v H) /\ same u h /\ w_out u = rev (effects H h) ++ w_out w0 /\ undisturbed w0 u /\ w_rx u = w_rx w0 /\ T162 h.
Proof.
  intros S TT u h. assert (VE : w_t162 w0 = w_t162 H /\ length (w_tm w0) = length (w_tm H) /\ w_tHb w0 = w_tHb H) by (destruct S as [V _]; unfold visible in V; repeat split; congruence). destruct VE as (V1 & V2 & V3).
  assert (CASE : (p = 0 /\ a = 162) \/ ~ (p = 0 /\ a = 162)) by lia. destruct CASE as [[-> ->]|N162].
  - unfold u, h. rewrite !write_162. destruct TT as [TT1 TT2]. rewrite V1, (same_running w0 H _ S TT1). unfold W162. rewrite !bind_get, V1. set (b := timerRunning _ _).
    destruct ((v =? 85) && negb b) eqn:C1; [|destruct ((v =? 170) && b) eqn:C2].
    + unfold timer_start. rewrite !bind_upd. cbn [ret fst snd]. unfold timerStart. destruct (t162_step w0 H (u16 (c_t_multi cfg)) S (conj TT1 TT2)) as (G1 & G2 & G3).
      split; [reflexivity|]. split; [exact G1|]. split; [rewrite (effects_app H _ []); reflexivity|]. split; [exact G2|]. split; [reflexivity|exact G3].
    + unfold timer_stop. rewrite !bind_assoc, !bind_upd. unfold timerStop. destruct (t162_step w0 H 0 S (conj TT1 TT2)) as (G1 & G2 & G3). set (u0 := set_tm _ w0) in *. set (h0 := set_tm _ H) in *.
      destruct (bi_restore (w_out w0) (w_out H) u0 h0) as [R1 [R2 (d & D1 & D2)]]; [split; [exact G1|exists []; split; reflexivity]|].
      destruct WK_parts as [PR _]. pose proof (PR u0) as PU. pose proof (PR h0) as (K1 & K2 & K3 & K4 & K5). pose proof PU as (_ & _ & U3 & _).
      clear PR. unfold bind, ret. destruct (restoreFactory u0) as [x1 u1], (restoreFactory h0) as [x2 h1]. cbn [fst snd] in *.
      split; [reflexivity|]. split; [exact R2|]. split; [rewrite (effects_app H h1 d D2), rev_involutive; exact D1|].
      split; [apply (undisturbed_trans _ _ _ G2), WK_undisturbed, PU|]. split; [exact U3|]. unfold T162 in *. unfold hbView in K2. rewrite K1, K4.
      replace (w_tHb h1) with (w_tHb h0) by congruence. replace (w_tEp h1) with (w_tEp h0) by congruence. exact G3.
    + cbn [ret fst snd]. unfold bind, ret. cbn [fst snd]. split; [reflexivity|]. split; [exact S|]. split; [rewrite (effects_app H _ []); reflexivity|]. split; [apply undisturbed_refl|]. split; [reflexivity|split; assumption].
  - destruct (bi_write (w_out w0) (w_out H) p a v N162 w0 H) as [H1 [H2 (d & D1 & D2)]]; [split; [exact S|exists []; split; reflexivity]|].
    destruct WK_parts as [_ PW]. split; [exact H1|]. split; [exact H2|]. split; [rewrite (effects_app H h d D2), rev_involutive; exact D1|].
    split; [apply WK_undisturbed, PW, N162|]. split; [apply PW, N162|]. destruct (PW p a v N162 H) as (K1 & K2 & K3 & K4 & K5). fold h in K1, K2, K3, K4, K5. unfold T162. unfold hbView in K2. rewrite K1, K4.
    replace (w_tHb h) with (w_tHb H) by congruence. replace (w_tEp h) with (w_tEp H) by congruence. exact TT.
Qed.
Lemma write_loop page pg (m : Msg) : (forall w, pg w = (page w, w)) -> (forall x y : World A, same x y -> page x = page y) ->
  forall vs a rxi d w0 H, same w0 H -> T162 H -> w_rx w0 = m -> (forall i, (i < length vs)%nat -> nth_error (m_data m) (N.to_nat rxi + i) = nth_error vs i) ->
  (length d + length vs <= 8)%nat -> a + N.of_nat (length vs) <= 256 ->
  let r := writeRegs page a vs H in let q := writeLoop (length vs) pg a rxi d w0 in
  fst q = d ++ map fst (fst r) /\ w_out (snd q) = rev (concat (map snd (fst r))) ++ w_out w0 /\ same (snd q) (snd r) /\ undisturbed w0 (snd q).
Proof.
  intros PG PS. induction vs as [|v vs IH]; intros a rxi d w0 H S TT RX DA LD LA r q.
  - unfold q, r. cbn [length writeLoop writeRegs ret fst snd map concat rev app]. rewrite app_nil_r. split; [reflexivity|]. split; [reflexivity|]. split; [exact S|apply undisturbed_refl].
  - unfold q. cbn [length writeLoop]. cbn [length] in LD, LA. rewrite (bind_val _ _ _ _ _ (PG w0)). assert (RD : rxdv rxi w0 = (v, w0)); [|rewrite (bind_val _ _ _ _ _ RD)]. { unfold rxdv. rewrite bind_get. unfold aget. rewrite RX.
    pose proof (DA 0%nat ltac:(cbn [length]; lia)) as D0. cbn [nth_error] in D0. rewrite Nat.add_0_r in D0. rewrite D0. reflexivity. }
    replace (u8 a) with a by (unfold u8; lia). rewrite (PS w0 H S).
    destruct (write_step (page H) a v w0 H S TT) as (G1 & G2 & G3 & G4 & G5 & G6). unfold r. cbn [writeRegs fst snd map concat].
    destruct (writeRegister (page H) a v w0) as [x0 u0] eqn:E0. cbn [fst snd] in G1, G2, G3, G4, G5. rewrite (bind_val _ _ _ _ _ E0). rewrite (bind_val _ _ _ _ _ (push_ok d (fst x0) u0 ltac:(lia))).
    set (h := snd (writeRegister (page H) a v H)) in *. specialize (IH (a + 1) (rxi + 1) (d ++ [fst x0]) u0 h G2 G6 ltac:(congruence)). cbv zeta in IH.
    destruct IH as (K1 & K2 & K3 & K4).
    + intros i Hi. pose proof (DA (Datatypes.S i) ltac:(cbn [length]; lia)) as D1. cbn [nth_error] in D1. rewrite <- D1. f_equal. lia.
    + rewrite app_length. cbn [length]. lia.
    + lia.
    + rewrite K1, K2, G3, <- app_assoc, rev_app_distr, <- app_assoc. cbn [app]. split; [rewrite <- G1; reflexivity|]. split; [reflexivity|]. split; [exact K3|exact (undisturbed_trans _ _ _ G4 K4)].
Qed.
Lemma inv_T162 (VE : valid_env E) ps0 w : Inv ps0 w -> T162 w.
Proof.
  intros HI. unfold T162. rewrite (i_tHb _ _ HI), (i_t162 _ _ HI), (i_tEp _ _ HI). destruct (i_tm _ _ HI) as [HT _]. pose proof (f_equal (@length _) HT) as HL. rewrite map_length in HL. unfold tids in HL. rewrite map_length, seq_length in HL.
  clear CALM. unfold tid, TIMER_ID_INVALID. pose proof (v_timers _ (ve_cfg E VE)). destruct (2 <? c_timers cfg) eqn:C1; [|split; right; lia]. split; left; [destruct (3 <? c_timers cfg); lia|destruct (c_hb_node cfg), (4 <? c_timers cfg); lia].
Qed.
Lemma T162_heard w m : T162 w -> T162 (heard w m).
Proof. unfold heard. destruct (c_prot_ev cfg); exact (fun H => H). Qed.
Lemma writeRegs_len page vs : forall a w, length (fst (writeRegs page a vs w)) = length vs.
Proof. induction vs as [|v vs IH]; intros a w; cbn [writeRegs fst length]; [reflexivity|]. rewrite IH. reflexivity. Qed.
(* the loop and the response *)
Lemma write_all page pg (m : Msg) ty vs a rxi pre w0 H nick : (forall w, pg w = (page w, w)) -> (forall x y : World A, same x y -> page x = page y) ->
  same w0 H -> T162 H -> w_rx w0 = m -> (forall i, (i < length vs)%nat -> nth_error (m_data m) (N.to_nat rxi + i) = nth_error vs i) ->
  (length pre + length vs <= 8)%nat -> a + N.of_nat (length vs) <= 256 ->
  let r := writeRegs page a vs H in
  let u := snd ((d <- writeLoop (length vs) pg a rxi pre ;; tp_writeMessage (mkTx CLASS_PROTOCOL ty PRIO_3_NORMAL nick d) ;; ret tt) w0) in
  exists f ok, protFrame f ty 3 nick (pre ++ map fst (fst r)) /\ w_out u = rev (concat (map snd (fst r)) ++ [OTx f ok]) ++ w_out w0 /\ same u (snd r) /\ undisturbed w0 u.
Proof.
  intros PG PS S TT RX DA LD LA r u. destruct (write_loop page pg m PG PS vs a rxi pre w0 H S TT RX DA LD LA) as (G1 & G2 & G3 & G4).
  unfold u. destruct (writeLoop (length vs) pg a rxi pre w0) as [d u0] eqn:E0. cbn [fst snd] in G1, G2, G3, G4. rewrite (bind_val _ _ _ _ _ E0), then_ret.
  assert (LEN : (length d <= 8)%nat) by (rewrite G1, app_length, map_length, writeRegs_len; exact LD).
  destruct (tx_send (mkTx CLASS_PROTOCOL ty PRIO_3_NORMAL nick d) u0) as (ok & v & K1 & K2 & K3); [unfold mkTx; cbn [m_size]; lia|]. rewrite K1. cbn [snd].
  exists (mkTx CLASS_PROTOCOL ty PRIO_3_NORMAL nick d), ok. split; [unfold r; rewrite <- G1; apply protFrame_mk; exact LEN|]. rewrite K2, G2. split; [rewrite rev_app_distr; reflexivity|].
  split; [exact (same_trans _ _ _ (keeps_same _ _ K3) G3)|exact (undisturbed_trans _ _ _ G4 (keeps_undisturbed _ _ K3))].
Qed.
Lemma hpct_24 w : m_type (w_rx w) = 24 -> handleProtocolClassType w = handlePageRead w.
Proof. intros H. unfold handleProtocolClassType. rewrite bind_get, H. reflexivity. Qed.
Lemma hpct_25 w : m_type (w_rx w) = 25 -> handleProtocolClassType w = handlePageWrite w.
Proof. intros H. unfold handleProtocolClassType. rewrite bind_get, H. reflexivity. Qed.
Lemma hpct_38 w : m_type (w_rx w) = 38 -> handleProtocolClassType w = handleExtPageWrite w.
Proof. intros H. unfold handleProtocolClassType. rewrite bind_get, H. reflexivity. Qed.
Lemma data_at m d i : msg_wf m -> m_size m = N.of_nat (length d) -> (forall i, i < N.of_nat (length d) -> at0 (m_data m) i = nth (N.to_nat i) d 0) ->
  (i < length d)%nat -> nth_error (m_data m) i = nth_error d i.
Proof.
  intros WF SZ AT Hi. destruct WF as (_ & _ & _ & _ & W1 & W2 & _). specialize (AT (N.of_nat i) ltac:(lia)). unfold at0 in AT. rewrite Nat2N.id in AT.
  clear CALM. rewrite (nth_error_nth' (m_data m) 0) by lia. rewrite (nth_error_nth' d 0) by exact Hi. rewrite AT. reflexivity.
Qed.
Lemma firstn_nth {T} n i : forall l : list T, (i < n)%nat -> nth_error (firstn n l) i = nth_error l i.
Proof. revert i. induction n as [|n IH]; intros [|i] [|x l] H; try lia; cbn [firstn nth_error]; try reflexivity. apply IH. lia. Qed.
(* the page selection changes only through its registers and when factory defaults are restored *)
Definition WP w w' : Prop := w_page w' = w_page w.
Lemma WP_write p a v : ~ (p = 0 /\ (a = 146 \/ a = 147 \/ a = 162)) -> rel WP (writeRegister p a v).
Proof.
  intros NP. assert (Rrefl : forall w, WP w w) by reflexivity. assert (Rtrans : forall (a b c : World A), WP a b -> WP b c -> WP a c) by (unfold WP; congruence).
  assert (S : forall w w', w_page w' = w_page w -> WP w w') by (intros; assumption).
  generalize dependent WP. intros R Rrefl Rtrans S.
  assert (W8 : forall x v, rel R (@psWrite8 A x v)) by (intros x y; unfold psWrite8, emit; rel_tac; intros w; apply S; auto).
  assert (WM : forall l x, rel R (@psWriteMultiple A x l)) by (induction l as [|y l IH]; intros x; cbn [psWriteMultiple]; rel_tac; auto).
  assert (SA : forall w o, R w (set_app o w)) by (intros; apply S; auto). assert (ST : forall w o, R w (set_tm o w)) by (intros; apply S; auto).
  assert (SD : forall w o, R w (set_dmIdx o w)) by (intros; apply S; auto). assert (SO : forall w o, R w (set_out o w)) by (intros; apply S; auto).
  assert (BA : rel R (appWrite p a v)).
  { intros w. rewrite appWrite_calm. rewrite bind_emit, bind_get, bind_upd. cbn [ret snd]. apply S; auto. }
  unfold writeRegister. destruct ((p =? 0) && (128 <=? a) && (a <=? 255)) eqn:C.
  - unfold writeVscpRegister. unfold REG_PAGE_MSB, REG_PAGE_LSB. replace (a =? 146) with false by lia. replace (a =? 147) with false by lia. unfold REG_RESTORE. replace (a =? 162) with false by lia. unfold timer_start, timer_stop, timer_running, ps_writeCtrl, ps_readCtrl, ps_writeUserId, ps_readUserId, psWriteIdx, psReadIdx, psRead8. rel_tac; auto.
  - unfold getRegAppWriteProtect, ps_readCtrl, dm_writeRegister, dm_writePaged, dm_writeStd, ng_writeRegister, ps_readDM, ps_readNG, ps_writeDM, ps_writeNG, psReadIdx, psWriteIdx, psRead8. rel_tac; auto.
Qed.
Lemma writeRegs_page p vs : forall a w, (forall i, (i < length vs)%nat -> ~ (p = 0 /\ (a + N.of_nat i = 146 \/ a + N.of_nat i = 147 \/ a + N.of_nat i = 162))) -> w_page (snd (writeRegs (fun _ => p) a vs w)) = w_page w.
Proof.
  induction vs as [|v vs IH]; intros a w H; [reflexivity|]. cbn [writeRegs snd]. rewrite IH.
  - apply WP_write. specialize (H 0%nat ltac:(cbn [length]; clear; lia)). rewrite N.add_0_r in H. exact H.
  - intros i Hi. specialize (H (Datatypes.S i) ltac:(cbn [length]; clear - Hi; lia)). intros [H1 H2]. apply H. split; [exact H1|]. clear - H2. lia.
Qed.
End R.
