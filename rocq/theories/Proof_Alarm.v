(* Proof_Alarm.v - no alarm bit is lost unreported *)
From Verif Require Export Spec_Alarm Own Proof_Heartbeat Proof_Epoch Proof_Transport.

Section P.
Context {A : Type} {E : Env A}.
Variable b : N.
Hypothesis HB : b < 8.
Implicit Types w : World A.

Lemma pending_app l1 : forall x l2, pending b x (l1 ++ l2) = pending b (pending b x l1) l2.
Proof using. clear HB. induction l1 as [|o l1 IH]; intros x l2; [reflexivity|]. cbn [app pending]. destruct o; try apply IH. match goal with c : ApiCall |- _ => destruct c; apply IH end. Qed.
Lemma pending_mono l : forall x, pending b x l = true -> pending b true l = true.
Proof using.
  clear HB. intros [|]; [auto|]. enough (Q : forall l, pending b false l = true -> forall x, pending b x l = true) by (intros H; apply Q, H).
  clear l. intros l. induction l as [|o l IH]; intros H x; [discriminate H|]. cbn [pending] in *. destruct o; try (apply IH; exact H).
  - match goal with c : ApiCall |- _ => destruct c end; try (apply IH; exact H). cbn [orb] in H. destruct (N.testbit v b); [rewrite orb_true_r; exact H|apply IH, H].
Qed.
Definition ab w : bool := N.testbit (w_alarm w) b.
(* v0: the bit was read before and is still to be sent *)
Definition RD (v0 v1 : bool) w w' : Prop := w_rx w' = w_rx w /\ exists l, w_out w' = rev l ++ w_out w /\ (pending b (ab w || v0) l = true -> (ab w' || v1) = true).
Lemma RD_comp v0 v1 v2 (x y z : World A) : RD v0 v1 x y -> RD v1 v2 y z -> RD v0 v2 x z.
Proof using.
  clear HB. intros (X1 & l1 & O1 & H1) (X2 & l2 & O2 & H2). split; [congruence|]. exists (l1 ++ l2). split; [rewrite O2, O1, rev_app_distr, app_assoc; reflexivity|]. rewrite pending_app. intros H. apply H2.
  destruct (pending b (ab x || v0) l1); [rewrite H1 by reflexivity; exact H|]. destruct (ab y || v1); [apply (pending_mono l2 false H)|exact H].
Qed.
Definition RA w w' : Prop := RD false false w w'.
Lemma RA_refl w : RA w w. Proof using. clear HB. split; [reflexivity|]. exists []. split; [reflexivity|cbn; auto]. Qed.
Lemma RA_trans (x y z : World A) : RA x y -> RA y z -> RA x z.
Proof using. clear HB. intros H1 H2. exact (RD_comp _ _ _ _ _ _ H1 H2). Qed.
Lemma RA_RD v w w' : RA w w' -> RD v v w w'.
Proof using. clear HB. intros (X & l & O & H). split; [exact X|]. exists l. split; [exact O|]. destruct v; [rewrite !orb_true_r; auto|exact H]. Qed.
Lemma RA_same w w' : w_out w' = w_out w -> w_alarm w' = w_alarm w -> w_rx w' = w_rx w -> RA w w'.
Proof using. clear HB. intros H1 H2 H3. split; [exact H3|]. exists []. split; [exact H1|]. unfold ab. rewrite H2. auto. Qed.
Lemma RA_emit o : match o with OTx _ _ | OApi (AAlarm _) => false | _ => true end = true -> rel RA (@emit A o).
Proof using.
  clear HB. intros H w. split; [reflexivity|]. exists [o]. split; [reflexivity|]. change (ab (snd (emit o w))) with (ab w). destruct o; try discriminate H; try (cbn; rewrite ?orb_false_r; auto; fail).
  - match goal with c : ApiCall |- _ => destruct c end; try discriminate H; cbn; rewrite ?orb_false_r; auto.
  - cbn. discriminate.
Qed.
Lemma RA_tx m : rel RA (tp_writeMessage m).
Proof using.
  clear HB. intros w. destruct (tx_any m w) as (o & OO & HO & (K & _ & K2 & _)). unfold visible in K.
  assert (K1 : w_alarm (snd (tp_writeMessage m w)) = w_alarm w) by (injection K; intros; assumption).
  split; [exact K2|]. exists [o]. split; [exact HO|]. unfold ab. rewrite K1. destruct OO as [->|[ok ->]]; cbn; destruct (N.testbit _ b); cbn; auto.
Qed.
(* a frame with the read bits *)
Lemma RD_tx v m w : m_size m <= 8 -> (v = true -> reports b m = true) -> RD v false w (snd (tp_writeMessage m w)).
Proof using.
  clear HB. intros L HV. destruct (tx_send m w L) as (ok & w' & EQ & HO & (K & _ & K2 & _)). rewrite EQ. cbn [snd]. split; [exact K2|]. exists [OTx m ok]. split; [exact HO|]. unfold visible in K.
  assert (K1 : w_alarm w' = w_alarm w) by (injection K; intros; assumption). unfold ab. rewrite K1. cbn [pending]. destruct v; [rewrite HV by reflexivity; rewrite andb_false_r; discriminate|]. rewrite orb_false_r. destruct (N.testbit _ b); cbn; auto.
Qed.
(* programs that carry read bits *)
Definition tri {T} (v0 : bool) (m : M A T) (Q : T -> bool -> Prop) : Prop := forall w, exists v1, Q (fst (m w)) v1 /\ RD v0 v1 w (snd (m w)).
Lemma tri_bind {T U} v0 (m : M A T) (k : T -> M A U) (Q : T -> bool -> Prop) (P : U -> bool -> Prop) :
  tri v0 m Q -> (forall r v1, Q r v1 -> tri v1 (k r) P) -> tri v0 (bind m k) P.
Proof using.
  clear HB. intros H1 H2 w. destruct (H1 w) as (v1 & q & R1). destruct (H2 _ v1 q (snd (m w))) as (v2 & p & R2). exists v2. split; [exact p|]. rewrite snd_bind. exact (RD_comp _ _ _ _ _ _ R1 R2).
Qed.
Lemma tri_rel {T} v (m : M A T) : rel RA m -> tri v m (fun _ v1 => v1 = v).
Proof using. clear HB. intros H w. exists v. split; [reflexivity|]. apply RA_RD, H. Qed.
Lemma tri_get {T} v (f : World A -> T) : tri v (get f) (fun _ v1 => v1 = v). Proof using. clear HB. apply tri_rel, rel_get, RA_refl. Qed.
Lemma tri_ret {T} v (x : T) (Q : T -> bool -> Prop) : Q x v -> tri v (ret x) Q.
Proof using. clear HB. intros H w. exists v. split; [exact H|]. apply RA_RD, RA_refl. Qed.
Lemma tri_weak {T} v (m : M A T) (P Q : T -> bool -> Prop) : tri v m P -> (forall r v1, P r v1 -> Q r v1) -> tri v m Q.
Proof using. clear HB. intros H1 H2 w. destruct (H1 w) as (v1 & p & R1). exists v1. auto. Qed.
Lemma tri_tx v m : m_size m <= 8 -> (v = true -> reports b m = true) -> tri v (tp_writeMessage m) (fun _ v1 => v1 = false).
Proof using. clear HB. intros L HV w. exists false. split; [reflexivity|]. apply RD_tx; assumption. Qed.
(* reading a register *)
Definition isAlarm (p a : N) : bool := (p =? 0) && (a =? 128).
Definition afterRead (v : bool) (p a : N) (x : N) (v1 : bool) : Prop := v1 = v || (isAlarm p a && N.testbit x b).
Definition readsOk : Prop := forall p a, isAlarm p a = false -> rel RA (@readRegister A E p a).
Lemma tri_read : readsOk -> forall v p a, tri v (@readRegister A E p a) (afterRead v p a).
Proof using.
  clear HB. intros RO v p a. destruct (isAlarm p a) eqn:IA.
  - unfold isAlarm in IA. assert (P0 : p = 0) by lia. assert (A0 : a = 128) by lia. subst. intros w. exists (v || N.testbit (w_alarm w) b). split; [reflexivity|].
    split; [reflexivity|]. exists []. split; [reflexivity|]. cbn [pending]. unfold ab. intros H. apply orb_true_iff in H. apply orb_true_iff. right. apply orb_true_iff. tauto.
  - apply (tri_weak v _ (fun _ v1 => v1 = v)); [apply tri_rel, RO, IA|]. intros r v1 ->. unfold afterRead. rewrite IA. cbn. rewrite orb_false_r. reflexivity.
Qed.
Lemma pad_nth d i : nth i (pad8 d) 0 = nth i d 0.
Proof using.
  clear HB. unfold pad8. destruct (Nat.ltb_spec i (length d)) as [L|L]; [apply app_nth1, L|]. rewrite app_nth2 by exact L. rewrite nth_repeat. symmetry. apply nth_overflow, L.
Qed.
Lemma push_ok d v : (length d < 8)%nat -> @push A d v = ret (d ++ [v]).
Proof using. clear HB. intros H. unfold push, L1_DATA_SIZE. replace (N.of_nat (length d) <? 8) with true by lia. reflexivity. Qed.
Lemma bind_ret0 {T U} (x : T) (f : T -> M A U) : bind (ret x) f = f x. Proof using. reflexivity. Qed.
(* page read *)
Definition hasBit (d : list N) : bool := existsb (fun x => N.testbit x b) (tl d).
Lemma hasBit_app d x : d <> [] -> hasBit (d ++ [x]) = hasBit d || N.testbit x b.
Proof using. clear HB. destruct d as [|y d]; [congruence|]. intros _. unfold hasBit. cbn [tl app]. rewrite existsb_app. cbn [existsb]. rewrite orb_false_r. reflexivity. Qed.
Lemma page_reports prio nick d : hasBit d = true -> reports b (mkTx CLASS_PROTOCOL 26 prio nick d) = true.
Proof using.
  clear HB. intros H. unfold reports, mkTx. cbn [m_class m_type m_data]. assert (Q : existsb (fun x => N.testbit x b) (tl (pad8 d)) = true).
  { destruct d as [|y d]; [discriminate H|]. unfold pad8, hasBit in *. cbn [tl app] in *. rewrite existsb_app, H. reflexivity. }
  rewrite Q. reflexivity.
Qed.
Lemma tri_pageLoop : readsOk -> forall n nick a d v, (1 <= length d <= 7)%nat -> (v = true -> hasBit d = true) ->
  tri v (@pageReadLoop A E n nick a d) (fun d' v1 => (length d' <= 7)%nat /\ (v1 = true -> hasBit d' = true)).
Proof using.
  clear HB. intros RO. induction n as [|n IH]; intros nick a d v L HV; cbn [pageReadLoop]; [apply tri_ret; split; [lia|exact HV]|].
  eapply tri_bind; [apply tri_get|]. intros pg v1 ->. eapply tri_bind; [apply tri_read, RO|]. intros x v1 Hv1. rewrite push_ok by lia. rewrite bind_ret0.
  assert (H1 : v1 = true -> hasBit (d ++ [x]) = true).
  { unfold afterRead in Hv1. intros ->. symmetry in Hv1. rewrite hasBit_app by (destruct d; [cbn in L; lia|discriminate]). apply orb_true_iff in Hv1. apply orb_true_iff. destruct Hv1 as [Q|Q]; [auto|]. apply andb_true_iff in Q. tauto. }
  rewrite app_length. cbn [length]. unfold L1_DATA_SIZE. destruct (8 <=? _) eqn:L8.
  - eapply tri_bind; [apply tri_tx; [cbn; rewrite app_length; cbn [length]; lia|intros ->; apply page_reports, H1; reflexivity]|]. intros ok v2 ->. apply IH; [cbn; lia|discriminate].
  - apply IH; [rewrite app_length; cbn [length]; lia|exact H1].
Qed.
Lemma tri_rel0 {T} (m : M A T) (P : T -> Prop) : tri false m (fun r v1 => v1 = false) -> rel RA m.
Proof using. clear HB. intros H w. destruct (H w) as (v1 & -> & R1). exact R1. Qed.
(* extended page read: page pg, first register a0 *)
Definition extBit (pg a0 : N) (d : list N) : bool := (pg =? 0) && (a0 <=? 128) && (4 + 128 - a0 <? N.of_nat (length d)) && N.testbit (nth (N.to_nat (4 + 128 - a0)) d 0) b.
Lemma extBit_app pg a0 d x : extBit pg a0 d = true -> extBit pg a0 (d ++ [x]) = true.
Proof using.
  clear HB. unfold extBit. rewrite !andb_true_iff, app_length. cbn [length]. intros (((H1 & H2) & H3) & H4). rewrite app_nth1 by lia. repeat split; try assumption. lia.
Qed.
Definition hdr (pg a0 : N) (d : list N) : Prop := exists seq t, d = seq :: wordMSB pg :: wordLSB pg :: a0 :: t.
Lemma ext_reports pg a0 prio nick d : hdr pg a0 d -> extBit pg a0 d = true -> reports b (mkTx CLASS_PROTOCOL 39 prio nick d) = true.
Proof using.
  clear HB. intros (seq & t & HD) H. unfold extBit in H. rewrite !andb_true_iff in H. destruct H as (((H1 & H2) & H3) & H4). unfold reports, mkTx. cbn [m_class m_type m_data m_size].
  assert (P0 : pg = 0) by lia. subst pg. rewrite !pad_nth. change (N.to_nat 1) with 1%nat. change (N.to_nat 2) with 2%nat. change (N.to_nat 3) with 3%nat.
  assert (N1 : nth 1 d 0 = 0) by (rewrite HD; reflexivity). assert (N2 : nth 2 d 0 = 0) by (rewrite HD; reflexivity). assert (N3 : nth 3 d 0 = a0) by (rewrite HD; reflexivity).
  rewrite N1, N2, N3, H2, H3, H4. rewrite ?andb_true_r, ?orb_true_r. reflexivity.
Qed.
Lemma tri_extLoop : readsOk -> forall f pg a0 a c d v, hdr pg a0 d -> (4 <= length d <= 7)%nat -> (8 - length d <= S f)%nat -> a = a0 + N.of_nat (length d) - 4 -> (v = true -> extBit pg a0 d = true) ->
  tri v (@extReadLoop A E f pg a c d) (fun r v1 => let '(d', _, _, _) := r in hdr pg a0 d' /\ (length d' <= 8)%nat /\ (v1 = true -> extBit pg a0 d' = true)).
Proof using.
  clear HB. intros RO. induction f as [|f IH]; intros pg a0 a c d v HH L LF HA HV; cbn [extReadLoop].
  all: eapply tri_bind; [apply tri_read, RO|]; intros x v1 Hv1; rewrite push_ok by lia; rewrite bind_ret0.
  all: assert (H0 : hdr pg a0 (d ++ [x])) by (destruct HH as (s & t & ->); exists s, (t ++ [x]); reflexivity).
  all: assert (H1 : v1 = true -> extBit pg a0 (d ++ [x]) = true).
  1,3: unfold afterRead in Hv1; intros ->; symmetry in Hv1; apply orb_true_iff in Hv1; destruct Hv1 as [Q|Q]; [apply extBit_app; auto|]; unfold isAlarm in Q; rewrite !andb_true_iff in Q; destruct Q as ((Q1 & Q2) & Q3);
    unfold extBit; rewrite !andb_true_iff, app_length; cbn [length]; replace (N.to_nat (4 + 128 - a0)) with (length d) by lia; rewrite nth_middle; repeat split; try assumption; lia.
  - eapply tri_bind; [apply tri_rel|]. 2: { intros r v2 ->. apply tri_ret. split; [exact H0|]. split; [rewrite app_length; cbn; lia|exact H1]. } intros w'. apply RA_same; reflexivity.
  - rewrite app_length. cbn [length]. unfold L1_DATA_SIZE. destruct (_ && _) eqn:C.
    + apply IH; [exact H0|rewrite app_length; cbn [length]; lia|rewrite app_length; cbn [length]; lia| |exact H1].
      rewrite app_length. cbn [length]. destruct (a <? 255) eqn:L2; lia.
    + apply tri_ret. split; [exact H0|]. split; [rewrite app_length; cbn; lia|exact H1].
Qed.

(* factory restore withdraws the alarms *)
Definition RZ w w' : Prop := w_rx w' = w_rx w /\ exists l, w_out w' = rev l ++ w_out w.
Lemma RZ_refl w : RZ w w. Proof using. split; [reflexivity|exists []; reflexivity]. Qed.
Lemma RZ_trans (x y z : World A) : RZ x y -> RZ y z -> RZ x z.
Proof using. intros (H1 & l1 & O1) (H2 & l2 & O2). split; [congruence|]. exists (l1 ++ l2). rewrite O2, O1, rev_app_distr, app_assoc. reflexivity. Qed.
Definition ends {T} (m : M A T) : Prop := forall w, w_rx (snd (m w)) = w_rx w /\ exists l, w_out (snd (m w)) = OAppRestore :: rev l ++ w_out w.
Lemma ends_bind {T U} (m : M A T) (k : T -> M A U) : rel RZ m -> (forall r, ends (k r)) -> ends (bind m k).
Proof using.
  intros H1 H2 w. rewrite snd_bind. destruct (H1 w) as (X1 & l1 & O1). destruct (H2 (fst (m w)) (snd (m w))) as (X2 & l2 & O2). split; [congruence|].
  exists (l1 ++ l2). rewrite O2, O1, rev_app_distr, app_assoc. reflexivity.
Qed.
Lemma RA_restore : rel RA (@restoreFactory A E).
Proof using.
  assert (Q : ends (@restoreFactory A E)).
  { assert (Rrefl := RZ_refl). assert (Rtrans := RZ_trans).
    assert (S : forall w w', w_out w' = w_out w -> w_rx w' = w_rx w -> RZ w w') by (intros w w' H1 H2; split; [exact H2|exists []; exact H1]).
    assert (X_e : forall o, rel RZ (@emit A o)) by (intros o w; split; [reflexivity|exists [o]; reflexivity]).
    assert (PW : forall a v, rel RZ (psWrite8 a v)) by (intros; unfold psWrite8; rel_tac; first [apply X_e|apply S; reflexivity]).
    unfold restoreFactory. repeat lazymatch goal with
      | |- ends (bind (emit OAppRestore) _) => intros w; split; [reflexivity|exists []; reflexivity]
      | |- ends (bind _ _) => apply ends_bind; [|intros _]
      end.
    all: unfold writeNicknameId, ps_writeNicknameId, ps_readNicknameId, psRead8, ps_writeCRC, ps_writeCtrl, ps_writeUserId, dd_restore, dm_restore, ng_restore, ps_writeDMMultiple, ps_writeDMExtMultiple, ps_writeNG, ps_writeGUID, ps_writeZone, ps_writeSub, ps_writeMDev, ps_writeMSub, ps_writeMdf, ps_writeFam, ps_writeType, psWriteIdx.
    all: assert (PM : forall l a, rel RZ (psWriteMultiple a l)) by (induction l as [|y l IH]; intros; cbn [psWriteMultiple]; rel_tac).
    all: generalize dependent RZ; intros R Rrefl Rtrans S X_e PW PM; rel_tac; apply S; reflexivity. }
  intros w. destruct (Q w) as (X & l & O). split; [exact X|]. exists (l ++ [OAppRestore]). split; [rewrite rev_app_distr; exact O|]. rewrite pending_app. cbn [pending]. intros H. discriminate H.
Qed.

Lemma RA_alarm v : rel RA (@doApi A E (AAlarm v)).
Proof using HB.
  intros w. split; [reflexivity|]. exists [OApi (AAlarm v)]. split; [reflexivity|]. cbn [pending]. rewrite !orb_false_r. intros H. unfold ab.
  change (w_alarm (snd (doApi (AAlarm v) w))) with (u8 (N.lor (w_alarm w) (u8 v))). unfold u8. change 256 with (2 ^ 8). rewrite N.mod_pow2_bits_low, N.lor_spec, N.mod_pow2_bits_low by exact HB. exact H.
Qed.
Definition handlersOk : Prop := rel RA (@handleReadRegister A E) /\ rel RA (@handlePageRead A E) /\ rel RA (@extendedPageRead A E).
Lemma tri_if {T} v (c : bool) (m1 m2 : M A T) Q : tri v m1 Q -> tri v m2 Q -> tri v (if c then m1 else m2) Q. Proof using. destruct c; auto. Qed.
Ltac tget := eapply tri_bind; [apply tri_get|intros ? ? ->].
Lemma readers : readsOk -> handlersOk.
Proof using.
  clear HB. intros RO. split; [|split].
  - apply tri_rel0; [exact (fun _ => True)|]. unfold handleReadRegister, rxSize, rxForMe, rxd. tget. tget. apply tri_if; [|apply tri_ret; reflexivity]. tget.
    eapply tri_bind; [apply tri_read, RO|]. intros x v1 Hv. unfold sendRWRsp, sendProt. eapply tri_bind; [|intros ? ? H; apply tri_ret; exact H].
    tget. apply tri_tx; [cbn; lia|]. intros ->. unfold afterRead in Hv. symmetry in Hv. cbn [orb] in Hv. unfold isAlarm in Hv. rewrite !andb_true_iff in Hv. destruct Hv as ((_ & H1) & H2).
    unfold reports, mkTx. cbn [m_class m_type m_data]. rewrite !pad_nth. change (N.to_nat 1) with 1%nat. change (N.to_nat 0) with 0%nat. cbn [nth]. rewrite H1, H2. reflexivity.
  - apply tri_rel0; [exact (fun _ => True)|]. unfold handlePageRead, rxSize, rxForMe, rxd. tget. tget. apply tri_if; [|apply tri_ret; reflexivity]. tget. tget. tget.
    eapply tri_bind; [apply tri_pageLoop; [exact RO|cbn; lia|discriminate]|]. intros d v1 (L & H). destruct (N.ltb_spec 1 (N.of_nat (length d))) as [L2|L2].
    + eapply tri_bind; [apply tri_tx; [cbn; lia|intros Q; apply page_reports, H, Q]|]. intros ? ? ->. apply tri_ret. reflexivity.
    + apply tri_ret. destruct v1; [|reflexivity]. specialize (H eq_refl). exfalso. destruct d as [|y [|z d]]; [discriminate H|discriminate H|cbn [length] in L2; lia].
  - apply tri_rel0; [exact (fun _ => True)|]. unfold extendedPageRead. tget. apply tri_if; [|apply tri_ret; reflexivity]. tget. tget. tget. tget.
    eapply tri_bind; [apply tri_extLoop with (a0 := r1); [exact RO|eexists; eexists; reflexivity|cbn; lia|cbn; lia|cbn; lia|discriminate]|].
    intros [[[d a'] c'] np] v1 (HH & L & H). eapply tri_bind; [apply tri_tx; [cbn; lia|intros Q; eapply ext_reports; [exact HH|exact (H Q)]]|]. intros ok v2 ->.
    apply tri_rel. assert (S : forall w w', w_out w' = w_out w -> w_alarm w' = w_alarm w -> w_rx w' = w_rx w -> RA w w') by exact RA_same.
    assert (Rrefl := RA_refl). assert (Rtrans := RA_trans). rel_tac; apply S; reflexivity.
Qed.

Ltac lfm2 S X_e := intros; try (unfold setUB, setNgUB, timer_start, timer_stop); first [apply X_e; reflexivity | apply rel_upd; intros; apply S; reflexivity | apply S; reflexivity].
Definition quiet0 (o : Obs) : bool := match o with OTx _ _ | OApi (AAlarm _) => false | _ => true end.
Lemma RA_all : (forall c, rel RA (@doApi A E c)) /\ (forall w, (w_rxv w = true -> countsAlarm (w_rx w) = false) -> RA w (snd (dispatch w))).
Proof using HB.
  assert (s_restore := RA_restore). assert (s_alarm := RA_alarm). assert (s_rds := readers). assert (s_tx := RA_tx). unfold handlersOk in s_rds.
  assert (s_ps : forall a v, rel RA (psWrite8 a v)).
  { intros a v w. split; [reflexivity|]. exists [OPs a (u8 v)]. split; [reflexivity|]. cbn [pending]. change (ab (snd (psWrite8 a v w))) with (ab w). auto. }
  assert (X_e : forall o, quiet0 o = true -> rel RA (@emit A o)) by exact RA_emit.
  assert (S : forall w w', w_out w' = w_out w -> w_alarm w' = w_alarm w -> w_rx w' = w_rx w -> RA w w') by exact RA_same.
  assert (s_keep : forall w w', RA w w' -> w_rx w' = w_rx w) by (intros w w' (X & _); exact X).
  assert (s_inc : (forall p a, isAlarm p a = false -> rel RA (readRegister p a)) -> (forall p a v, rel RA (writeRegister p a v)) -> forall d w, (m_type (w_rx w) = 29 \/ m_type (w_rx w) = 30) -> m_class (w_rx w) = 0 -> countsAlarm (w_rx w) = false -> RA w (snd (handleIncDec d w))).
  { intros RO WO d w HT HC CA. unfold handleIncDec, rxSize, rxForMe, rxd, sendRWRsp, sendProt. rewrite !bind_get. destruct (_ && _); [|apply RA_refl]. rewrite bind_get.
    assert (IA : isAlarm 0 (at0 (m_data (w_rx w)) 1) = false).
    { unfold countsAlarm in CA. rewrite HC in CA. unfold isAlarm. change (0 =? 0) with true in *. unfold at0 in *. change (N.to_nat 1) with 1%nat. cbn [andb] in *. destruct (nth 1 (m_data (w_rx w)) 0 =? 128); [|reflexivity]. rewrite andb_true_r in CA. lia. }
    assert (Rrefl := RA_refl). assert (Rtrans := RA_trans). assert (RD1 := RO 0 _ IA).
    match goal with |- RA w (snd (?m w)) => enough (Q : rel RA m) by apply Q end. generalize dependent RA. intros R; intros. rel_tac. }
  unfold readsOk in s_rds. set (R := RA) in *. assert (Rrefl : forall w, R w w) by exact RA_refl. assert (Rtrans : forall x y z, R x y -> R y z -> R x z) by exact RA_trans.
  clearbody R.
  Ltac lfa S X_e := intros; try (unfold setUB, setNgUB, timer_start, timer_stop); first [apply X_e; reflexivity | apply X_e; match goal with H : plainObs ?o = true |- _ => destruct o; try reflexivity; try discriminate H end | apply rel_upd; intros; apply S; reflexivity | apply S; reflexivity].
  assert (s_ub : rel R setUB) by (lfa S X_e). assert (s_ngub : rel R setNgUB) by (lfa S X_e). assert (s_app : forall v w, R w (set_app v w)) by (lfa S X_e).
  assert (s_emit : forall o, plainObs o = true -> rel R (@emit A o)) by (lfa S X_e).
  assert (s_nick : forall v, rel R (writeNicknameId v)) by (intros; apply tr_writeNicknameId; tr_fill ltac:(lfa S X_e)).
  assert (s_logl : forall f n i l e d, rel R (@log_loop A E f n i l e d)) by (induction f as [|f IH]; intros; cbn [log_loop]; rel_tac).
  assert (s_wl : forall v, rel R (ps_writeLogId v)) by (intros; apply s_ps). assert (s_wz : forall v, rel R (ps_writeZone v)) by (intros; apply s_ps). assert (s_ws : forall v, rel R (ps_writeSub v)) by (intros; apply s_ps).
  assert (s_api : forall c, rel R (doApi c)).
  { intros c. destruct c; try (apply s_alarm); unfold doApi; (apply rel_bind; [exact Rtrans|apply X_e; reflexivity|intros _]).
    all: unfold setTimeSinceEpoch, enableHeartbeat, log_enable, log_setLevel, tp_getTransmitErrors, startNodeSegmentInit, changeToStateInit, log_log, log_sendLogEvent.
    all: rel_tac; lfa S X_e. }
  split; [exact s_api|].
  assert (s_chb : rel R customHeartbeat) by (unfold customHeartbeat; rel_tac; lfa S X_e).
  assert (s_gz : rel R dd_getZone) by (apply tr_getZone; tr_fill ltac:(lfa S X_e)). assert (s_gs : rel R dd_getSubZone) by (apply tr_getSub; tr_fill ltac:(lfa S X_e)).
  assert (s_ah : rel R activeHeartbeat) by (unfold activeHeartbeat, timer_running, sendNodeHeartbeat; rel_tac; lfa S X_e).
  assert (s_std : forall cls ty prio nick d, stdFrame cls ty prio = true -> cls <> CLASS_INFORMATION -> rel R (tp_writeMessage (mkTx cls ty prio nick d))) by (intros; apply s_tx).
  assert (s_page : forall v w, R w (set_page v w)) by (lfa S X_e).
  assert (s_psH : forall a v, a <> ps_nick cfg -> rel R (psWrite8 a v)) by (intros; apply s_ps).
  assert (s_psW : forall a v, a <> ps_nick cfg -> a < ps_dm cfg -> rel R (psWrite8 a v)) by (intros; apply s_ps).
  assert (s_RO : forall p a, isAlarm p a = false -> rel R (readRegister p a)).
  { intros p a IA. unfold readRegister. destruct (_ && _) eqn:VR.
    - apply tr_readVscpOther; tr_fill ltac:(lfa S X_e). unfold isAlarm in IA. apply andb_true_iff in VR. destruct VR as [VR _]. apply andb_true_iff in VR. destruct VR as [VR _]. rewrite VR in IA. exact IA.
    - apply rel_if; [apply tr_dm_readRegister; tr_fill ltac:(lfa S X_e)|apply rel_if; [apply tr_ng_readRegister; tr_fill ltac:(lfa S X_e)|unfold appRead; rel_tac; lfa S X_e]]. }
  destruct (s_rds s_RO) as (s_hr & s_pr & s_epr).
  tr_own R ltac:(lfa S X_e).
  assert (s_hi : forall d w, m_type (w_rx w) = 29 \/ m_type (w_rx w) = 30 -> m_class (w_rx w) = 0 -> countsAlarm (w_rx w) = false -> R w (snd (handleIncDec d w))) by (apply s_inc; assumption). clear s_inc.
  assert (s_hp : forall w, m_class (w_rx w) = 0 -> countsAlarm (w_rx w) = false -> R w (snd (handleProtocolClassType w))).
  { intros w HC CA. unfold handleProtocolClassType, PT_INCREMENT_REGISTER, PT_DECREMENT_REGISTER. rewrite bind_get.
    repeat match goal with |- R w (snd ((if ?c then _ else _) w)) => destruct c eqn:? end; try (apply s_hi; [lia|exact HC|exact CA]);
    match goal with |- R w (snd (?m w)) => enough (Q : rel R m) by apply Q end; try assumption; try (apply rel_ret; exact Rrefl).
    - apply ts_handleNewNodeOnline; tr_fill ltac:(lfa S X_e).
    - apply ts_handleProbeAck; tr_fill ltac:(lfa S X_e).
    - apply ts_handleWriteRegister; tr_fill ltac:(lfa S X_e).
    - apply ts_handleEnterBootLoader; tr_fill ltac:(lfa S X_e).
    - apply ts_handleGetMatrixInfo; tr_fill ltac:(lfa S X_e). }
  assert (s_am : forall w, (w_rxv w = true -> countsAlarm (w_rx w) = false) -> R w (snd (activeMessage w))).
  { intros w HW. unfold activeMessage. rewrite bind_get. destruct (w_rxv w); [|apply Rrefl]. specialize (HW eq_refl). rewrite bind_get, snd_bind.
    set (m := w_rx w). match goal with |- R w (snd (_ ?v)) => apply (Rtrans _ v) end.
    - destruct (m_class m =? CLASS_PROTOCOL) eqn:CP.
      + assert (MC : m_class (w_rx w) = 0) by (fold m; unfold CLASS_PROTOCOL in CP; lia). destruct (c_prot_ev cfg); [|apply s_hp; assumption].
        rewrite snd_bind. assert (PE : rel R (provideProtocolEvent m)) by (apply ts_provideProtocolEvent; tr_fill ltac:(lfa S X_e)).
        assert (K := s_keep _ _ (PE w)). apply (Rtrans _ (snd (provideProtocolEvent m w))); [apply PE|]. destruct (fst (provideProtocolEvent m w)); [apply Rrefl|]. cbn [negb]. apply s_hp; rewrite K; assumption.
      + match goal with |- R w (snd (?q w)) => enough (Q : rel R q) by apply Q end. apply ts_provideEvent; tr_fill ltac:(lfa S X_e).
    - match goal with |- R ?u (snd (?q ?u)) => enough (Q : rel R q) by apply Q end.
      assert (s_dm : rel R (dm_executeActions actionExecute m)) by (apply tr_dm_executeActions; tr_fill ltac:(lfa S X_e)). assert (s_ng : rel R (ng_executeActions actionExecute m)) by (apply tr_ng_executeActions; tr_fill ltac:(lfa S X_e)).
      rel_tac. }
  assert (o_sinit : rel R stateInit) by (unfold stateInit, timer_running, rxIsProt; rel_tac; lfa S X_e).
  assert (o_spre : rel R statePreActive) by (unfold statePreActive, timer_running, rxIsProt, rxd; rel_tac; lfa S X_e).
  assert (o_cu : rel R getStartUpControl) by (apply tr_startUp; tr_fill ltac:(lfa S X_e)).
  assert (o_su : rel R stateStartup) by (unfold stateStartup; rel_tac; lfa S X_e).
  assert (o_sr : rel R stateReset) by (unfold stateReset, timer_running; rel_tac; lfa S X_e).
  intros w HW. unfold dispatch. rewrite bind_get. destruct (w_st w).
  all: try (match goal with |- _ ?u (snd (?q ?u)) => enough (Q : rel ltac:(exact R) q) by apply Q end; rel_tac; fail).
  unfold stateActive. rewrite snd_bind. apply (Rtrans _ (snd (activeMessage w))); [apply s_am, HW|].
  match goal with |- R ?u (snd (?q ?u)) => enough (Q : rel R q) by apply Q end. rel_tac.
Qed.
(* operations *)
Definition RP w w' : Prop := exists l, w_out w' = rev l ++ w_out w /\ (pending b (ab w) l = true -> ab w' = true).
Lemma RA_RP w w' : RA w w' -> RP w w'. Proof using. intros (_ & l & O & H). exists l. rewrite !orb_false_r in H. auto. Qed.
Lemma RP_trans (x y z : World A) : RP x y -> RP y z -> RP x z.
Proof using.
  clear HB. intros (l1 & O1 & H1) (l2 & O2 & H2). exists (l1 ++ l2). split; [rewrite O2, O1, rev_app_distr, app_assoc; reflexivity|]. rewrite pending_app. intros H. apply H2.
  destruct (pending b (ab x) l1); [rewrite H1 by reflexivity; exact H|]. destruct (ab y); [apply (pending_mono l2 false H)|exact H].
Qed.
Lemma RP_init : rel RP (@core_init A E).
Proof using.
  assert (s_restore : rel RP (@restoreFactory A E)) by (intros w; apply RA_RP, RA_restore).
  assert (S : forall w w', w_out w' = w_out w -> w_alarm w' = w_alarm w -> RP w w') by (intros w w' H1 H2; exists []; split; [exact H1|unfold ab; rewrite H2; auto]).
  assert (X_e : forall o, quiet0 o = true -> rel RP (@emit A o)) by (intros o H w; apply RA_RP, RA_emit, H).
  assert (Rrefl : forall w, RP w w) by (intros w; apply RA_RP, RA_refl). assert (Rtrans := RP_trans).
  generalize dependent RP. intros R; intros. clear HB.
  apply tr_core_init; tr_fill ltac:(lfm2 S X_e). all: unfold tp_init, dm_init, ps_readNicknameId, psRead8, changeToStateError; rel_tac; lfm2 S X_e.
Qed.
Lemma RP_step o w : (forall m, In (ORx m) (effects w (snd (step o w))) -> countsAlarm m = false) -> RP w (snd (step o w)).
Proof using HB.
  destruct RA_all as [RC RB]. destruct o as [rd|p|c|]; intros HW.
  - change (snd (step (OpProcess rd) w)) with (snd (process rd w)) in *. pose proof (process_state rd w) as PS. cbv zeta in PS. rewrite PS in *. clear PS. cbn [snd] in *. set (w1 := snd (prologue rd w)) in *. set (bb := match received rd w with Some _ => true | None => fst (dispatch w1) end) in *.
    assert (PO := prologue_out rd w). fold w1 in PO.
    assert (PA : w_alarm w1 = w_alarm w) by (apply (pres_prologue w_alarm); reflexivity).
    assert (R1 : RP w w1).
    { exists (OProcess :: match received rd w with Some m => [ORx m] | None => [] end). split; [rewrite PO; cbn [rev]; destruct (received rd w); reflexivity|]. unfold ab. rewrite PA. destruct (received rd w); cbn [pending]; auto. }
    assert (CE : exists l2, w_out (snd (dispatch w1)) = rev l2 ++ w_out w1).
    { destruct taken_parts as (RS1 & _). destruct (RS1 w1) as (l & O & _). exists (rev l). rewrite rev_involutive. exact O. }
    assert (R2 : RA w1 (snd (dispatch w1))).
    { apply RB. intros RV. destruct (received rd w) as [m|] eqn:RC0; [|destruct (prologue_norx rd w RC0) as [_ Q]; fold w1 in Q; congruence].
      destruct (prologue_rx rd w m RC0) as [Q _]. fold w1 in Q. rewrite Q. apply HW. destruct CE as (l2 & O2).
      assert (OUT : w_out (set_out (ORet bb :: w_out (snd (dispatch w1))) (set_rxv false (snd (dispatch w1)))) = (ORet bb :: rev l2 ++ [ORx m; OProcess]) ++ w_out w).
      { wsimp. rewrite O2, PO. cbn [app]. rewrite <- app_assoc. reflexivity. }
      rewrite (effects_app _ _ _ OUT).
      apply -> in_rev. right. apply in_or_app. right. left. reflexivity. }
    apply (RP_trans _ w1); [exact R1|]. apply (RP_trans _ (snd (dispatch w1))); [apply RA_RP, R2|]. exists [ORet bb]. split; [reflexivity|]. cbn [pending]. unfold ab. wsimp. auto.
  - exists [OTick p]. split; [reflexivity|]. cbn [pending]. auto.
  - apply RA_RP, RC.
  - rewrite step_init. apply RP_init.
Qed.

(* nothing but the application raises alarms *)
Definition RU w w' : Prop := exists l, w_out w' = rev l ++ w_out w /\ (ab w' = true -> ab w = true \/ raised b l).
Lemma RU_trans (x y z : World A) : RU x y -> RU y z -> RU x z.
Proof using.
  clear HB. intros (l1 & O1 & H1) (l2 & O2 & H2). exists (l1 ++ l2). split; [rewrite O2, O1, rev_app_distr, app_assoc; reflexivity|].
  intros H. destruct (H2 H) as [Q|(v & I1 & I2)]; [destruct (H1 Q) as [Q1|(v & I1 & I2)]; [auto|]|]; right; exists v; (split; [apply in_or_app; auto|exact I2]).
Qed.
Lemma RU_all : (forall c, rel RU (@doApi A E c)) /\ (forall rd, rel RU (@process A E rd)) /\ rel RU (@core_init A E).
Proof using HB.
  assert (s_alarm : forall v, rel RU (@doApi A E (AAlarm v))).
  { intros v w. exists [OApi (AAlarm v)]. split; [reflexivity|]. unfold ab. change (w_alarm (snd (doApi (AAlarm v) w))) with (u8 (N.lor (w_alarm w) (u8 v))). unfold u8. change 256 with (2 ^ 8).
    rewrite N.mod_pow2_bits_low, N.lor_spec, N.mod_pow2_bits_low by exact HB. intros H. apply orb_true_iff in H. destruct H as [H|H]; [auto|]. right. exists v. split; [left; reflexivity|exact H]. }
  assert (s_tx : forall m, rel RU (tp_writeMessage m)).
  { intros m w. destruct (tx_any m w) as (o & OO & HO & (K & _)). exists [o]. split; [exact HO|]. unfold visible in K. assert (K1 : w_alarm (snd (tp_writeMessage m w)) = w_alarm w) by (injection K; intros; assumption). unfold ab. rewrite K1. auto. }
  assert (X_e : forall o, rel RU (@emit A o)) by (intros o w; exists [o]; split; [reflexivity|auto]).
  assert (S : forall w w', w_out w' = w_out w -> w_alarm w' = w_alarm w -> RU w w') by (intros w w' H1 H2; exists []; split; [exact H1|unfold ab; rewrite H2; auto]).
  assert (S0 : forall w, RU w (set_alarm 0 w)) by (intros w; exists []; split; [reflexivity|unfold ab; wsimp; rewrite N.bits_0; discriminate]).
  assert (Rrefl : forall w, RU w w) by (intros w; exists []; split; [reflexivity|auto]). assert (Rtrans := RU_trans).
  generalize dependent RU. intros R; intros. clear HB.
  Ltac lfu S S0 X_e := intros; try (unfold setUB, setNgUB, timer_start, timer_stop); first [apply X_e | apply rel_upd; intros; first [apply S0 | apply S; reflexivity] | apply S0 | apply S; reflexivity].
  assert (s_ps : forall a v, rel R (psWrite8 a v)) by (intros; unfold psWrite8; rel_tac; lfu S S0 X_e).
  assert (s_ub : rel R setUB) by (lfu S S0 X_e). assert (s_ngub : rel R setNgUB) by (lfu S S0 X_e). assert (s_app : forall v w, R w (set_app v w)) by (lfu S S0 X_e).
  assert (s_emit : forall o, plainObs o = true -> rel R (@emit A o)) by (lfu S S0 X_e).
  assert (s_psH : forall a v, a <> ps_nick cfg -> rel R (psWrite8 a v)) by (intros; apply s_ps).
  assert (s_psW : forall a v, a <> ps_nick cfg -> a < ps_dm cfg -> rel R (psWrite8 a v)) by (intros; apply s_ps).
  assert (s_nick : forall v, rel R (writeNicknameId v)) by (intros; apply tr_writeNicknameId; tr_fill ltac:(lfu S S0 X_e)).
  assert (s_d1 : rel R dd_restore) by (apply tr_dd_restore; tr_fill ltac:(lfu S S0 X_e)). assert (s_d2 : rel R dm_restore) by (apply tr_dm_restore; tr_fill ltac:(lfu S S0 X_e)).
  assert (s_d3 : rel R ng_restore) by (apply tr_ng_restore; tr_fill ltac:(lfu S S0 X_e)). assert (s_us : forall i v, rel R (ps_writeUserId i v)) by (intros; apply tr_writeUser; tr_fill ltac:(lfu S S0 X_e)).
  assert (s_restore : rel R restoreFactory) by (unfold restoreFactory, ps_writeCRC, ps_writeCtrl; rel_tac; lfu S S0 X_e).
  assert (s_logl : forall f n i l e d, rel R (@log_loop A E f n i l e d)) by (induction f as [|f IH]; intros; cbn [log_loop]; rel_tac).
  assert (s_wl : forall v, rel R (ps_writeLogId v)) by (intros; apply s_ps). assert (s_wz : forall v, rel R (ps_writeZone v)) by (intros; apply s_ps). assert (s_ws : forall v, rel R (ps_writeSub v)) by (intros; apply s_ps).
  assert (s_api : forall c, rel R (doApi c)).
  { intros c. destruct c; try (apply s_alarm); unfold doApi; (apply rel_bind; [exact Rtrans|apply X_e|intros _]).
    all: unfold setTimeSinceEpoch, enableHeartbeat, log_enable, log_setLevel, tp_getTransmitErrors, startNodeSegmentInit, changeToStateInit, log_log, log_sendLogEvent.
    all: rel_tac; lfu S S0 X_e. }
  split; [exact s_api|].
  assert (s_chb : rel R customHeartbeat) by (unfold customHeartbeat; rel_tac; lfu S S0 X_e).
  assert (s_gz : rel R dd_getZone) by (apply tr_getZone; tr_fill ltac:(lfu S S0 X_e)). assert (s_gs : rel R dd_getSubZone) by (apply tr_getSub; tr_fill ltac:(lfu S S0 X_e)).
  assert (s_ah : rel R activeHeartbeat) by (unfold activeHeartbeat, timer_running, sendNodeHeartbeat; rel_tac; lfu S S0 X_e).
  assert (s_std : forall cls ty prio nick d, stdFrame cls ty prio = true -> cls <> CLASS_INFORMATION -> rel R (tp_writeMessage (mkTx cls ty prio nick d))) by (intros; apply s_tx).
  tr_own R ltac:(lfu S S0 X_e). tr_ownTop R ltac:(lfu S S0 X_e). tr_ownProcess R ltac:(lfu S S0 X_e).
  split; assumption.
Qed.
Lemma RU_step o w : RU w (snd (step o w)).
Proof using HB.
  destruct RU_all as (R1 & R2 & R3). destruct o as [rd|p|c|]; [apply R2| |apply R1|rewrite step_init; apply R3]. exists [OTick p]. split; [reflexivity|auto].
Qed.
End P.
