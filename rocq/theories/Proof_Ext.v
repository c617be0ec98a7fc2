(* Proof_Ext.v - EXTENDED_PAGE_READ *)
From Verif Require Export Spec_Ext Own Proof_Page Proof_Guid.

(* ---- the transfer as a machine over the effects ---- *)
Definition XSt : Type := N * N * N * N.   (* page, register, count, sequence number *)
Definition x0 : XSt := (0, 0, 0, 0).
Definition xb (s : XSt) : Prop := let '(p, a, n, q) := s in p < 65536 /\ a < 256 /\ n <= 256 /\ q < 256.
Definition xadv (s : XSt) (k : N) : XSt := let '(p, a, n, q) := s in
  (if a + k =? 256 then (p + 1) mod 65536 else p, if a + k =? 256 then 0 else a + k, n - k, (q + 1) mod 256).
Definition xk (f : Msg) : N := N.of_nat (length (payload f) - 4).
Definition xfits (s : XSt) (f : Msg) : Prop := let '(p, a, n, q) := s in
  exists vs, payload f = q :: p / 256 :: p mod 256 :: a :: vs /\ 0 < N.of_nat (length vs) <= n /\ a + N.of_nat (length vs) <= 256.
(* an effect: fst: the next frame is the node's own; restoring factory settings or a loss of power may end the transfer *)
Definition xs (b : bool * XSt) (o : Obs) (b' : bool * XSt) : Prop :=
  match o with
  | OTx f ok => (fst b = true -> isReadFrame f = true -> xfits (snd b) f) /\ b' = (true, if fst b && isReadFrame f && ok then xadv (snd b) (xk f) else snd b)
  | OAppRestore | OPower => b' = (true, snd b) \/ b' = (true, x0)
  | OApi (ASend _) => b' = (false, snd b)
  | _ => b' = (true, snd b)
  end.
Fixpoint xr (b : bool * XSt) (l : list Obs) (b' : bool * XSt) : Prop :=
  match l with [] => b' = b | o :: r => exists b1, xs b o b1 /\ xr b1 r b' end.
Lemma xr_app l1 : forall b l2 b2, (exists b1, xr b l1 b1 /\ xr b1 l2 b2) <-> xr b (l1 ++ l2) b2.
Proof.
  induction l1 as [|o l1 IH]; intros b l2 b2; cbn [app xr].
  - split; [intros (b1 & -> & H); exact H|intros H; exists b; auto].
  - split; [intros (b1 & (b0 & H1 & H2) & H3); exists b0; split; [exact H1|]; apply IH; eauto|].
    intros (b0 & H1 & H2). apply IH in H2. destruct H2 as (b1 & H2 & H3). exists b1. split; [exists b0; auto|exact H3].
Qed.
Lemma xr_one b o b' : xs b o b' -> xr b [o] b'. Proof. intros H. exists b'. split; [exact H|reflexivity]. Qed.
Lemma xadv_b s f : xb s -> xfits s f -> xb (xadv s (xk f)).
Proof.
  destruct s as [[[p a] n] q]. intros (H1 & H2 & H3 & H4) (vs & P & K1 & K2). unfold xk. rewrite P. cbn [length].
  replace (S (S (S (S (length vs)))) - 4)%nat with (length vs) by lia. unfold xadv, xb. destruct (N.eqb_spec (a + N.of_nat (length vs)) 256); lia.
Qed.

Section X.
Context {A : Type} {E : Env A}.
Implicit Types w : World A.
Definition xst w : XSt := (w_xpage w, w_xaddr w, w_xcount w, w_xseq w).
Definition RX w w' : Prop := w_rx w' = w_rx w /\ (xb (xst w) -> exists l, w_out w' = l ++ w_out w /\ xb (xst w') /\ xr (true, xst w) (rev l) (true, xst w')).
Lemma RX_refl w : RX w w. Proof. split; [reflexivity|]. intros H. exists []. split; [reflexivity|]. split; [exact H|reflexivity]. Qed.
Lemma RX_trans (a b c : World A) : RX a b -> RX b c -> RX a c.
Proof.
  intros (X1 & H1) (X2 & H2). split; [congruence|]. intros B. destruct (H1 B) as (l1 & O1 & B1 & R1). destruct (H2 B1) as (l2 & O2 & B2 & R2).
  exists (l2 ++ l1). split; [rewrite O2, O1, app_assoc; reflexivity|]. split; [exact B2|]. rewrite rev_app_distr. apply xr_app. eauto.
Qed.
Lemma RX_same w w' : w_out w' = w_out w -> xst w' = xst w -> w_rx w' = w_rx w -> RX w w'.
Proof. intros H1 H2 H3. split; [exact H3|]. intros B. exists []. split; [exact H1|]. rewrite H2. split; [exact B|reflexivity]. Qed.
Definition still2 (o : Obs) : bool := match o with OTx _ _ | OApi (ASend _) => false | _ => true end.
Lemma still_xs o s : still2 o = true -> xs (true, s) o (true, s).
Proof. destruct o; intros H; try discriminate H; try reflexivity; try (left; reflexivity). destruct c; try discriminate H; reflexivity. Qed.
Lemma RX_emit o : still2 o = true -> rel RX (@emit A o).
Proof. intros H w. split; [reflexivity|]. intros B. exists [o]. split; [reflexivity|]. split; [exact B|]. apply xr_one. apply still_xs. exact H. Qed.
Lemma keeps_x w w' : keeps w w' -> xst w' = xst w /\ w_rx w' = w_rx w /\ w_nick w' = w_nick w.
Proof. intros (K & _ & X & _). unfold visible in K. split; [unfold xst; congruence|]. split; congruence. Qed.
Lemma RX_tx cls ty prio n d : (cls =? 0) && (ty =? 39) && (prio =? 7) = false -> rel RX (tp_writeMessage (mkTx cls ty prio n d)).
Proof.
  intros HS w. destruct (tx_any (mkTx cls ty prio n d) w) as (o & O & HO & K). destruct (keeps_x _ _ K) as (K1 & K2 & _). split; [exact K2|]. intros B. exists [o]. split; [exact HO|]. rewrite K1. split; [exact B|]. apply xr_one. destruct O as [->|[ok ->]]; [reflexivity|].
  change (isReadFrame (mkTx cls ty prio n d) = false) in HS. cbn [xs fst snd]. rewrite HS. split; [discriminate|reflexivity].
Qed.
Lemma RX_send m : rel RX (@doApi A E (ASend m)).
Proof.
  intros w. unfold doApi. rewrite bind_emit, snd_bind. cbn [ret snd]. destruct (tx_any m (set_out (OApi (ASend m) :: w_out w) w)) as (o & OO & HO & K).
  destruct (keeps_x _ _ K) as (K1 & K2 & _). split; [exact K2|]. intros B. exists [o; OApi (ASend m)]. split; [exact HO|]. rewrite K1. split; [exact B|]. change (xst (set_out _ w)) with (xst w).
  cbn [rev app]. exists (false, xst w). split; [reflexivity|]. apply xr_one. destruct OO as [->|[ok ->]]; [reflexivity|]. split; [discriminate|reflexivity].
Qed.
(* ---- factory settings ---- *)
Definition RZ w w' : Prop := w_rx w' = w_rx w /\ xst w' = xst w /\ w_nick w' = w_nick w /\ exists l, w_out w' = l ++ w_out w /\ Forall (fun o => still2 o = true) l.
Lemma still_run l : Forall (fun o => still2 o = true) l -> forall s, xr (true, s) l (true, s).
Proof. induction l as [|o l IH]; intros HF s; [reflexivity|]. inversion HF as [|? ? H1 H2]; subst. exists (true, s). split; [apply still_xs; exact H1|apply IH; exact H2]. Qed.
Lemma RX_restore : rel RX (@restoreFactory A E).
Proof.
  intros w. set (w1 := snd (writeNicknameId NICK_NOT_INIT (ramReset w))).
  assert (X : exists v, RZ w1 v /\ snd (restoreFactory w) = set_app (app_restore (w_app v)) (set_out (OAppRestore :: w_out v) v)).
  { unfold restoreFactory. repeat rewrite snd_bind. cbv beta. match goal with |- exists v, _ /\ snd (upd _ (snd (emit OAppRestore ?u))) = _ => exists u end. split; [|reflexivity].
    assert (Rrefl : forall u, RZ u u) by (intros u; repeat split; exists []; split; [reflexivity|constructor]).
    assert (Rtrans : forall a b c, RZ a b -> RZ b c -> RZ a c).
    { intros a b c (H1 & H2 & H3 & l1 & O1 & F1) (K1 & K2 & K3 & l2 & O2 & F2). split; [congruence|]. split; [congruence|]. split; [congruence|]. exists (l2 ++ l1). rewrite O2, O1, app_assoc. split; [reflexivity|]. apply Forall_app. auto. }
    assert (P : forall a v, rel RZ (psWrite8 a v)) by (intros a v u; repeat split; exists [OPs a (u8 v)]; split; [reflexivity|repeat constructor]).
    assert (C : forall T (m : M A T) u, RZ w1 u -> rel RZ m -> RZ w1 (snd (m u))) by (intros T m u H1 H2; exact (Rtrans _ _ _ H1 (H2 u))).
    apply C; [|destruct (c_dm_ng cfg); [apply tr_ng_restore; auto|rel_tac]]. apply C; [|destruct (c_dm cfg); [apply tr_dm_restore; auto|rel_tac]].
    apply C; [|apply tr_dd_restore; auto]. apply C; [|apply rel_forM; auto; intros i; unfold ps_writeUserId, psWriteIdx; rel_tac].
    apply C; [|unfold ps_writeCtrl; rel_tac]. apply C; [|unfold ps_writeCRC; rel_tac]. unfold w1, ramReset, upd. cbn [snd]. apply Rrefl. }
  destruct X as (v & (V1 & V2 & V3 & l & V4 & V5) & ->).
  assert (O1 : w_out w1 = OPs (ps_nick cfg) 255 :: w_out w) by (unfold w1; rewrite writeNick_state by reflexivity; reflexivity).
  assert (Q1 : w_rx w1 = w_rx w /\ xst w1 = x0) by (unfold w1; rewrite writeNick_state by reflexivity; split; reflexivity). destruct Q1 as [Q1 Q2].
  split; [transitivity (w_rx v); [reflexivity|congruence]|]. intros _. exists (OAppRestore :: l ++ [OPs (ps_nick cfg) 255]). split; [wsimp; rewrite V4, O1, <- app_comm_cons, <- app_assoc; reflexivity|].
  change (xst (set_app _ _)) with (xst v). rewrite V2, Q2. split; [unfold x0, xb; lia|]. cbn [rev]. rewrite rev_app_distr. cbn [rev app].
  assert (FR : Forall (fun o => still2 o = true) (rev l)) by (apply Forall_rev; exact V5). exists (true, xst w). split; [reflexivity|]. apply xr_app. exists (true, xst w). split; [apply still_run; exact FR|].
  apply xr_one. right. reflexivity.
Qed.
(* ---- one frame of a transfer ---- *)
Definition chunk (a n : N) : nat := N.to_nat (N.min 4 (N.min n (256 - a))).
Lemma readRegs_x p : forall k a w, let w' := snd (readRegs p a k w) in
  xst w' = xst w /\ w_rx w' = w_rx w /\ w_nick w' = w_nick w /\ w_tm w' = w_tm w /\ length (fst (readRegs p a k w)) = k.
Proof.
  induction k as [|k IH]; intros a w w'; unfold w'; [repeat split|]. cbn [readRegs fst snd]. destruct (read_frame p a w) as (o & x & y & EQ). set (w1 := snd (readRegister p a w)) in *.
  assert (W1 : xst w1 = xst w /\ w_rx w1 = w_rx w /\ w_nick w1 = w_nick w /\ w_tm w1 = w_tm w) by (rewrite EQ; repeat split). destruct W1 as (W1 & W2 & W3 & W4).
  destruct (IH (a + 1) w1) as (I1 & I2 & I3 & I4 & I5). cbn [length]. rewrite I5. repeat split; congruence.
Qed.
Lemma ext_loop p : forall f a c d w, (length d + f = 8)%nat -> (0 < f)%nat -> 0 < c <= 256 -> a < 256 ->
  let k := Nat.min f (N.to_nat (N.min c (256 - a))) in let r := readRegs p a k w in
  extReadLoop f p a c d w = ((d ++ map fst (fst r), if a + N.of_nat k =? 256 then 255 else a + N.of_nat k, c - N.of_nat k, a + N.of_nat k =? 256), snd r).
Proof.
  induction f as [|f IH]; intros a c d w HL HF HC HA k r; [lia|]. cbn [extReadLoop]. unfold r, k. clear r k.
  replace (Nat.min (S f) (N.to_nat (N.min c (256 - a)))) with (S (Nat.min f (N.to_nat (N.min (c - 1) (255 - a))))) by lia. set (k := Nat.min f (N.to_nat (N.min (c - 1) (255 - a)))).
  cbn [readRegs fst snd map]. rewrite (bind_val _ _ w (fst (readRegister p a w)) (snd (readRegister p a w))) by apply surjective_pairing.
  set (x := fst (readRegister p a w)). set (w1 := snd (readRegister p a w)). rewrite (bind_val _ _ w1 (d ++ [x]) w1) by (apply push_ok; lia). cbv zeta.
  replace (u16 (c + 65535)) with (c - 1) by (unfold u16; lia). rewrite app_length. cbn [length]. unfold L1_DATA_SIZE.
  destruct ((N.of_nat (length d + 1) <? 8) && (0 <? c - 1) && negb (255 <=? a)) eqn:CC.
  - assert (C1 : (0 < f)%nat /\ 0 < c - 1 /\ a < 255) by lia. destruct C1 as (C1 & C2 & C3). replace (a <? 255) with true by lia.
    rewrite (IH (a + 1) (c - 1) (d ++ [x]) w1) by (rewrite ?app_length; cbn [length]; lia). cbv zeta.
    replace (Nat.min f (N.to_nat (N.min (c - 1) (256 - (a + 1))))) with k by (unfold k; lia). rewrite <- app_assoc. cbn [app].
    replace (a + 1 + N.of_nat k) with (a + N.of_nat (S k)) by lia. replace (c - 1 - N.of_nat k) with (c - N.of_nat (S k)) by lia. reflexivity.
  - assert (K0 : k = 0%nat) by (unfold k; lia). rewrite K0. cbn [readRegs map fst snd]. unfold ret.
    replace (255 <=? a) with (a + N.of_nat 1 =? 256) by lia. replace (if a <? 255 then a + 1 else a) with (if a + N.of_nat 1 =? 256 then 255 else a + N.of_nat 1) by (destruct (N.ltb_spec a 255), (N.eqb_spec (a + N.of_nat 1) 256); lia).
    replace (c - N.of_nat 1) with (c - 1) by lia. reflexivity.
Qed.
(* state and effects of one frame *)
Definition xset (s : XSt) w : World A := let '(p, a, n, q) := s in set_xseq q (set_xcount n (set_xaddr a (set_xpage p w))).
Lemma ext_frame w : xb (xst w) -> 0 < w_xcount w ->
  let p := w_xpage w in let a := w_xaddr w in let k := chunk a (w_xcount w) in let r := readRegs p a k w in
  exists f ok v, protFrame f 39 7 (w_nick w) ([w_xseq w; p / 256; p mod 256; a] ++ map fst (fst r)) /\ 
    w_out v = OTx f ok :: w_out (snd r) /\ keeps (snd r) v /\ snd (extendedPageRead w) = (if ok then xset (xadv (xst w) (N.of_nat k)) v else v).
Proof.
  intros (B1 & B2 & B3 & B4) HC p a k r. unfold extendedPageRead. rewrite bind_get. replace (0 <? w_xcount w) with true by lia. rewrite !bind_get.
  assert (LK : (0 < k <= 4)%nat) by (unfold k, chunk; lia). destruct (readRegs_x p k a w) as (_ & _ & _ & _ & LR). fold r in LR.
  pose proof (ext_loop p 4 a (w_xcount w) [w_xseq w; wordMSB p; wordLSB p; a] w eq_refl ltac:(lia) ltac:(lia) B2) as EL. cbv zeta in EL.
  replace (Nat.min 4 (N.to_nat (N.min (w_xcount w) (256 - a)))) with k in EL by (unfold k, chunk; lia). fold r in EL.
  rewrite (bind_val _ _ _ _ _ EL). cbv iota beta. set (d := [w_xseq w; wordMSB p; wordLSB p; a] ++ map fst (fst r)). set (g := mkTx CLASS_PROTOCOL PT_EXTENDED_PAGE_RESPONSE PRIO_7_LOW (w_nick w) d).
  assert (LD : length d = (4 + k)%nat) by (unfold d; rewrite app_length, map_length, LR; reflexivity).
  destruct (tx_send g (snd r)) as (ok & v & G1 & G2 & G3); [unfold g, mkTx; cbn [m_size]; rewrite LD; lia|]. rewrite (bind_val _ _ _ _ _ G1).
  exists g, ok, v. split.
  { replace ([w_xseq w; p / 256; p mod 256; a] ++ map fst (fst r)) with d; [apply protFrame_mk; lia|]. unfold d, wordMSB, wordLSB. change 255 with (N.ones 8). rewrite !N.land_ones, N.shiftr_div_pow2. change (2 ^ 8) with 256. replace (p / 256 mod 256) with (p / 256) by (unfold p; lia). reflexivity. }
  split; [exact G2|]. split; [exact G3|]. destruct ok; [|reflexivity]. unfold xadv, xst, xset. fold a. fold p.
  assert (XP : w_xpage v = p) by (destruct (keeps_x _ _ G3) as (K1 & _); destruct (readRegs_x p k a w) as (K2 & _); fold r in K2; rewrite K2 in K1; unfold xst in K1; unfold p; congruence).
  destruct (N.eqb_spec (a + N.of_nat k) 256) as [E1|E1]; unfold bind, upd; cbn [fst snd]; [reflexivity|]. clear - XP. rewrite <- XP. destruct v; reflexivity.
Qed.
Lemma xst_set s w : xst (xset s w) = s. Proof. destruct s as [[[p a] n] q]. reflexivity. Qed.
Lemma readRegs_out p : forall k a w, w_out (snd (readRegs p a k w)) = rev (concat (map snd (fst (readRegs p a k w)))) ++ w_out w /\
  Forall (fun o => still2 o = true) (concat (map snd (fst (readRegs p a k w)))).
Proof.
  assert (P1 : forall a w, exists l, w_out (snd (readRegister p a w)) = l ++ w_out w /\ Forall (fun o => still2 o = true) l).
  { intros a. set (R := fun w w' : World A => exists l, w_out w' = l ++ w_out w /\ Forall (fun o => still2 o = true) l). change (rel R (readRegister p a)).
    assert (Rrefl : forall w, R w w) by (intros w; exists []; auto). assert (Rtrans : forall a b c, R a b -> R b c -> R a c).
    { intros x y z (l1 & O1 & F1) (l2 & O2 & F2). exists (l2 ++ l1). rewrite O2, O1, app_assoc. split; [reflexivity|]. apply Forall_app. auto. }
    assert (S : forall w w', w_out w' = w_out w -> R w w') by (intros w w' H; exists []; auto).
    assert (X_e : forall o, plainObs o = true -> rel R (@emit A o)) by (intros o H w; exists [o]; split; [reflexivity|]; constructor; [destruct o; try reflexivity; discriminate H|constructor]).
    clearbody R. assert (s_ub : rel R setUB) by (apply rel_upd; intros; apply S; reflexivity). assert (s_ngub : rel R setNgUB) by (apply rel_upd; intros; apply S; reflexivity).
    assert (s_app : forall v w, R w (set_app v w)) by (intros; apply S; reflexivity).
    assert (s_al : rel R (v <- get w_alarm ;; upd (set_alarm 0) ;; ret v)) by (rel_tac; apply S; reflexivity).
    apply tr_readRegister; assumption. }
  induction k as [|k IH]; intros a w; [split; [reflexivity|constructor]|]. cbn [readRegs fst snd map concat]. destruct (P1 a w) as (l & O & F). set (w1 := snd (readRegister p a w)) in *.
  rewrite (effects_app w w1 l O). destruct (IH (a + 1) w1) as [I1 I2]. rewrite I1, O, rev_app_distr, rev_involutive, <- app_assoc. split; [reflexivity|]. apply Forall_app. split; [apply Forall_rev; exact F|exact I2].
Qed.
Lemma RX_ext : rel RX (@extendedPageRead A E).
Proof.
  intros w. destruct (N.ltb_spec 0 (w_xcount w)) as [HC|HC].
  2:{ unfold extendedPageRead. rewrite bind_get. replace (0 <? w_xcount w) with false by lia. apply RX_refl. }
  assert (RXX : w_rx (snd (extendedPageRead w)) = w_rx w).
  { set (R := fun a b : World A => w_rx b = w_rx a). assert (Z : rel R (@extendedPageRead A E)).
    { assert (Rrefl : forall w, R w w) by reflexivity. assert (Rtrans : forall a b c, R a b -> R b c -> R a c) by (intros a b c H1 H2; unfold R in *; congruence).
      assert (RR1 : forall p a, rel R (readRegister p a)) by (intros p a v; destruct (read_frame p a v) as (o & x & y & ->); reflexivity).
      assert (S : forall w w', w_rx w' = w_rx w -> R w w') by auto. assert (T : forall m, rel R (tp_writeMessage m)) by (intros m v; destruct (tx_any m v) as (o & _ & _ & K); apply (keeps_x _ _ K)).
      clearbody R. apply ts_extendedPageRead; auto; try (apply rel_upd; intros; apply S; reflexivity); intros; try (apply S; reflexivity); try (intros v; apply S; reflexivity). }
    apply Z. }
  split; [exact RXX|]. intros B. destruct (ext_frame w B HC) as (f & ok & v & PF & OV & KV & EQ). cbv zeta in *.
  set (k := chunk (w_xaddr w) (w_xcount w)) in *. set (r := readRegs (w_xpage w) (w_xaddr w) k w) in *. destruct (readRegs_x (w_xpage w) k (w_xaddr w) w) as (R1 & _ & _ & _ & R5). fold r in R1, R5.
  destruct (readRegs_out (w_xpage w) k (w_xaddr w) w) as [R6 R7]. fold r in R6, R7. destruct (keeps_x _ _ KV) as (K1 & _). rewrite R1 in K1.
  assert (LK : (0 < k <= 4)%nat /\ N.of_nat k <= w_xcount w /\ w_xaddr w + N.of_nat k <= 256) by (destruct B as (B1 & B2 & B3 & B4); unfold k, chunk; lia). destruct LK as (LK & LC & LA).
  destruct PF as (F1 & F2 & F3 & F4 & F5 & F6). assert (IR : isReadFrame f = true) by (unfold isReadFrame; rewrite F1, F2, F3; reflexivity).
  assert (FT : xfits (xst w) f). { unfold xfits, xst. exists (map fst (fst r)). split; [exact F6|]. rewrite map_length, R5. lia. }
  assert (XK : xk f = N.of_nat k). { unfold xk. rewrite F6, app_length, map_length, R5. cbn [length]. lia. }
  assert (OO : w_out (snd (extendedPageRead w)) = (OTx f ok :: rev (concat (map snd (fst r)))) ++ w_out w).
  { rewrite EQ. transitivity (w_out v); [destruct ok; [|reflexivity]; destruct (xadv _ _) as [[[p1 a1] n1] q1]; reflexivity|]. rewrite OV, R6. reflexivity. }
  exists (OTx f ok :: rev (concat (map snd (fst r)))). split; [exact OO|]. cbn [rev]. rewrite rev_involutive.
  assert (XX : xr (true, xst w) (concat (map snd (fst r)) ++ [OTx f ok]) (true, if ok then xadv (xst w) (xk f) else xst w)).
  { apply xr_app. exists (true, xst w). split; [apply still_run; exact R7|]. apply xr_one. cbn [xs fst snd]. rewrite IR. split; [auto|reflexivity]. }
  rewrite EQ. destruct ok.
  - rewrite xst_set. rewrite <- XK. split; [apply xadv_b; assumption|exact XX].
  - rewrite K1. split; [exact B|exact XX].
Qed.

(* ---- everything but the request ---- *)
Lemma RX_parts : (forall w, m_type (w_rx w) <> 37 -> RX w (snd (handleProtocolClassType w))) /\ (forall c, rel RX (@doApi A E c)) /\
  rel RX (@activeHeartbeat A E) /\ rel RX (@stateInit A E) /\ rel RX (@statePreActive A E) /\ rel RX (@stateReset A) /\ rel RX (@stateStartup A E) /\
  (forall m, rel RX (@provideEvent A E m)) /\ (forall m, rel RX (@provideProtocolEvent A E m)) /\ (forall m, rel RX (dm_executeActions actionExecute m)) /\ (forall m, rel RX (ng_executeActions actionExecute m)).
Proof.
  set (R := RX). assert (Rrefl : forall w, R w w) by apply RX_refl. assert (Rtrans : forall a b c, R a b -> R b c -> R a c) by exact RX_trans.
  assert (S : forall w w', w_out w' = w_out w -> xst w' = xst w -> w_rx w' = w_rx w -> R w w') by exact RX_same.
  assert (X_e : forall o, still2 o = true -> rel R (@emit A o)) by exact RX_emit.
  assert (X_tx : forall cls ty prio n d, (cls =? 0) && (ty =? 39) && (prio =? 7) = false -> rel R (tp_writeMessage (mkTx cls ty prio n d))) by exact RX_tx.
  assert (s_snd : forall m, rel R (doApi (ASend m))) by exact RX_send.
  assert (s_restore : rel R restoreFactory) by exact RX_restore. assert (s_epr : rel R extendedPageRead) by exact RX_ext.
  clearbody R.
  Ltac lx S X_e X_tx := intros; try (unfold setUB, setNgUB, timer_start, timer_stop); first [apply X_tx; reflexivity | apply X_e; reflexivity | apply X_e; match goal with H : plainObs ?o = true |- _ => destruct o; try reflexivity; try discriminate H end | apply rel_upd; intros; apply S; reflexivity | apply S; reflexivity].
  Ltac LX := idtac; match goal with S : forall w w', w_out w' = w_out w -> _, X_e : forall o, still2 o = true -> _, X_tx : forall cls ty prio n d, _ -> _ |- _ => lx S X_e X_tx end.
  assert (s_ub : rel R setUB) by LX. assert (s_ngub : rel R setNgUB) by LX. assert (s_app : forall v w, R w (set_app v w)) by LX.
  assert (s_emit : forall o, plainObs o = true -> rel R (@emit A o)) by LX.
  assert (s_psW : forall a v, rel R (psWrite8 a v)) by (intros; unfold psWrite8; rel_tac; LX).
  assert (s_nick : forall v, rel R (writeNicknameId v)) by (intros; unfold writeNicknameId, ps_writeNicknameId, ps_readNicknameId, psRead8; rel_tac; LX).
  assert (s_loop : forall k n i l e d, rel R (log_loop k n i l e d)) by (induction k; intros; cbn [log_loop]; rel_tac; LX).
  assert (s_log : forall i l d, rel R (log_log i l d)) by (intros; unfold log_log, log_sendLogEvent; rel_tac; LX).
  assert (s_wl : forall v, rel R (ps_writeLogId v)) by (intros; apply tr_writeLog; auto).
  assert (s_wz : forall v, rel R (ps_writeZone v)) by (intros; apply tr_writeZone; auto). assert (s_ws : forall v, rel R (ps_writeSub v)) by (intros; apply tr_writeSub; auto).
  assert (s_api : forall c, rel R (doApi c)).
  { intros c. destruct c; [apply s_snd|..]; unfold doApi; (apply rel_bind; [exact Rtrans|apply X_e; reflexivity|intros _]).
    all: unfold setAlarm, setTimeSinceEpoch, enableHeartbeat, log_enable, log_setLevel, tp_getTransmitErrors, startNodeSegmentInit, changeToStateInit.
    all: rel_tac; LX. }
  assert (s_z : rel R dd_getZone) by (apply tr_getZone; assumption). assert (s_sz : rel R dd_getSubZone) by (apply tr_getSub; assumption).
  assert (s_nhb : rel R sendNodeHeartbeat) by (unfold sendNodeHeartbeat; rel_tac; LX).
  assert (s_chb : rel R customHeartbeat) by (unfold customHeartbeat; rel_tac; LX).
  assert (s_ts : forall i v, rel R (timer_start i v)) by LX. assert (s_tp : forall i, rel R (timer_stop i)) by LX.
  assert (s_ah : rel R activeHeartbeat) by (unfold activeHeartbeat, timer_running; rel_tac; LX).
  assert (s_sp : forall ty prio d, (ty =? 39) && (prio =? 7) = false -> rel R (sendProt ty prio d)) by (intros; unfold sendProt; rel_tac; apply X_tx; assumption).
  assert (s_act : rel R changeToStateActive) by (unfold changeToStateActive; rel_tac; first [LX|apply s_sp; reflexivity]).
  assert (s_init : forall b, rel R (changeToStateInit b)) by (intros; unfold changeToStateInit; rel_tac; LX).
  assert (s_idle : rel R changeToStateIdle) by (unfold changeToStateIdle; rel_tac; LX).
  assert (s_page : forall v w, R w (set_page v w)) by LX.
  assert (s_pre : rel R changeToStatePreActive) by (unfold changeToStatePreActive; rel_tac; first [LX|apply s_sp; reflexivity]).
  assert (s_reset : forall t, rel R (changeToStateReset t)) by (intros; unfold changeToStateReset; rel_tac; LX).
  assert (s_GU : forall i, rel R (dd_getGUID i)) by (intros; apply tr_getGUID; assumption).
  assert (s_md : forall i, rel R (dd_getMdf i)) by (intros; apply tr_getMdf; assumption).
  assert (s_guid : rel R handleGuidDrop) by (unfold handleGuidDrop, rxSize, rxd, timer_running, startNodeSegmentInit; rel_tac; LX).
  assert (s_162 : forall v, rel R (writeVscpRegister REG_RESTORE v)).
  { intros v. unfold writeVscpRegister. match goal with |- rel R ?x => change (rel R (id <- get w_t162 ;; running <- timer_running id ;;
      (if (v =? 85) && negb running then timer_start id (c_t_multi cfg) else when (v =? 170) && running do (timer_stop id ;; restoreFactory)) ;; ret (0, false))) end. unfold timer_running. rel_tac; LX. }
  assert (s_wv : forall a v, rel R (writeVscpRegister a v)) by (intros a v; apply ts_writeVscpRegister; tr_fill ltac:(idtac; LX)).
  assert (s_dmw : forall p a v, rel R (dm_writeRegister p a v)) by (intros; apply tr_dm_writeRegister; tr_fill ltac:(idtac; LX)).
  assert (s_al : rel R (v <- get w_alarm ;; upd (set_alarm 0) ;; ret v)) by (rel_tac; LX).
  assert (s_hb : rel R handleHeartbeat) by (apply tr_handleHeartbeat; tr_fill ltac:(idtac; LX)).
  assert (s_rr : forall p a, rel R (readRegister p a)) by (intros; apply tr_readRegister; tr_fill ltac:(idtac; LX)).
  assert (s_wr : forall p a v, rel R (writeRegister p a v)) by (intros; apply tr_writeRegister; tr_fill ltac:(idtac; LX)).
  assert (s_push : forall d v, rel R (push d v)) by (intros; apply tr_push; assumption).
  assert (s_wloop : forall n pg, rel R pg -> forall a i d, rel R (writeLoop n pg a i d)) by (intros n pg HP; induction n; intros; cbn [writeLoop]; unfold rxdv; rel_tac).
  assert (s_prl : forall k n a d, rel R (pageReadLoop k n a d)) by (induction k; intros; cbn [pageReadLoop]; rel_tac; LX).
  assert (s_wh : forall n r d, rel R (whoLoop (map (fun i => dd_getGUID (15 - i)) (Nseq 16) ++ map dd_getMdf (Nseq 32)) n r d)).
  { intros n. set (L := map _ (Nseq 16) ++ _). assert (HL : forall x, In x L -> rel R x).
    { intros x H. unfold L in H. apply in_app_or in H. destruct H as [H|H]; apply in_map_iff in H; destruct H as (y & <- & _); auto. }
    clearbody L. induction L as [|x L IH]; intros r d; cbn [whoLoop]; [rel_tac|].
    assert (rel R x) by (apply HL; left; reflexivity). assert (forall r d, rel R (whoLoop L n r d)) by (apply IH; intros y Hy; apply HL; right; exact Hy). rel_tac; LX. }
  Ltac HX h := unfold h, sendRWRsp, rxSize, rxForMe, rxd, rxdv, startNodeSegmentInit; rel_tac; first [LX | match goal with s_sp : forall ty prio d, _ -> _ |- _ => apply s_sp; reflexivity end].
  assert (s_pr : rel R handlePageRead) by HX (@handlePageRead). assert (s_pw : rel R handlePageWrite) by HX (@handlePageWrite).
  assert (s_hew : rel R handleExtPageWrite) by HX (@handleExtPageWrite). assert (s_who : rel R handleWhoIsThere) by HX (@handleWhoIsThere).
  assert (s_sn : rel R handleSetNickname) by HX (@handleSetNickname). assert (s_dn : rel R handleDropNickname) by HX (@handleDropNickname).
  assert (s_nno : rel R handleNewNodeOnline) by HX (@handleNewNodeOnline). assert (s_pa : rel R handleProbeAck) by HX (@handleProbeAck).
  assert (s_hrr : rel R handleReadRegister) by HX (@handleReadRegister). assert (s_hwr : rel R handleWriteRegister) by HX (@handleWriteRegister).
  assert (s_ctrl : rel R ps_readCtrl) by (apply tr_readCtrl; assumption). assert (s_crc : rel R ps_readCRC) by (apply tr_readCRC; assumption).
  assert (s_ebl : rel R handleEnterBootLoader) by (unfold handleEnterBootLoader, rxSize, rxForMe, rxd; destruct (c_boot cfg) eqn:?; rel_tac; first [LX|apply s_sp; reflexivity|apply tr_writeBoot; auto]).
  assert (s_id : forall d, rel R (handleIncDec d)) by (intros; HX (@handleIncDec)).
  assert (s_gmi : rel R handleGetMatrixInfo) by HX (@handleGetMatrixInfo).
  assert (s_pe : forall m, rel R (provideEvent m)) by (intros; unfold provideEvent; rel_tac; LX).
  assert (s_ppe : forall m, rel R (provideProtocolEvent m)) by (intros; unfold provideProtocolEvent; rel_tac; LX).
  split. { intros w NT. unfold handleProtocolClassType. rewrite bind_get. replace (m_type (w_rx w) =? PT_EXTENDED_PAGE_READ) with false by (unfold PT_EXTENDED_PAGE_READ; lia).
    generalize (m_type (w_rx w)). intros t. revert w NT. match goal with |- forall w, _ -> R w (snd (?m w)) => assert (Z : rel R m) by rel_tac; intros; apply Z end. }
  assert (s_cu : rel R getStartUpControl) by (apply tr_startUp; tr_fill ltac:(idtac; LX)).
  split; [exact s_api|]. split; [exact s_ah|].
  split; [unfold stateInit, timer_running, rxIsProt; rel_tac; first [LX|apply s_sp; reflexivity]|]. split; [unfold statePreActive, timer_running, rxIsProt, rxd; rel_tac; first [LX|apply s_sp; reflexivity]|].
  split; [unfold stateReset, timer_running; rel_tac; LX|]. split; [unfold stateStartup; rel_tac; LX|].
  split; [exact s_pe|]. split; [exact s_ppe|].
  split; [intros; apply ts_dm; tr_fill ltac:(idtac; LX)|]. intros; apply ts_ng; tr_fill ltac:(idtac; LX).
Qed.

(* the application cannot give the node another nickname, only take it away *)
Definition RNK w w' : Prop := w_nick w' = w_nick w \/ w_nick w' = 255.
Lemma RNK_api c : rel RNK (@doApi A E c).
Proof.
  set (R := RNK). assert (Rrefl : forall w, R w w) by (left; reflexivity). assert (Rtrans : forall a b c, R a b -> R b c -> R a c) by (intros x y z [H1|H1] [H2|H2]; unfold R, RNK in *; rewrite ?H1 in *; auto).
  assert (S : forall w w', w_nick w' = w_nick w -> R w w') by (left; assumption).
  assert (s_tx : forall m, rel R (tp_writeMessage m)) by (intros m w; destruct (tx_any m w) as (o & _ & _ & K); left; apply (keeps_x _ _ K)).
  assert (s_restore : rel R (@restoreFactory A E)) by (intros w; right; exact (proj1 (restore_ram w))).
  assert (s_nick : rel R (@writeNicknameId A E NICK_NOT_INIT)) by (intros w; right; rewrite writeNick_state by reflexivity; reflexivity).
  clearbody R. assert (X_e : forall o, rel R (@emit A o)) by (intros o w; apply S; reflexivity). assert (s_psW : forall a v, rel R (@psWrite8 A a v)) by (intros; unfold psWrite8; rel_tac; intros; apply S; reflexivity).
  assert (s_ub : rel R setUB) by (apply rel_upd; intros; apply S; reflexivity).
  assert (s_loop : forall k n i l e d, rel R (log_loop k n i l e d)) by (induction k; intros; cbn [log_loop]; rel_tac).
  assert (s_log : forall i l d, rel R (log_log i l d)) by (intros; unfold log_log, log_sendLogEvent; rel_tac).
  assert (s_wl : forall v, rel R (ps_writeLogId v)) by (intros; apply tr_writeLog; auto).
  assert (s_wz : forall v, rel R (ps_writeZone v)) by (intros; apply tr_writeZone; auto). assert (s_ws : forall v, rel R (ps_writeSub v)) by (intros; apply tr_writeSub; auto).
  unfold doApi. apply rel_bind; [exact Rtrans|apply X_e|intros _].
  destruct c; unfold setAlarm, setTimeSinceEpoch, enableHeartbeat, log_enable, log_setLevel, tp_getTransmitErrors, startNodeSegmentInit, changeToStateInit; rel_tac; apply S; reflexivity.
Qed.
Lemma RNK_prot m : rel RNK (@provideProtocolEvent A E m).
Proof.
  pose proof RNK_api as P. assert (Rrefl : forall w, RNK w w) by (left; reflexivity). assert (Rtrans : forall a b c, RNK a b -> RNK b c -> RNK a c) by (intros x y z [H1|H1] [H2|H2]; unfold RNK in *; rewrite ?H1 in *; auto).
  assert (S : forall w w', w_nick w' = w_nick w -> RNK w w') by (left; assumption). generalize dependent RNK. intros R P Rrefl Rtrans S. unfold provideProtocolEvent, emit. rel_tac; apply S; reflexivity.
Qed.
Lemma hpct_37 w : m_type (w_rx w) = 37 -> handleProtocolClassType w = handleExtPageRead w.
Proof. intros H. unfold handleProtocolClassType. rewrite bind_get, H. reflexivity. Qed.
Lemma not_mine w : msg_wf (w_rx w) -> hd_error (payload (w_rx w)) <> Some (w_nick w) -> snd (handleExtPageRead w) = w.
Proof.
  intros WF HD. unfold handleExtPageRead, rxSize, rxForMe. rewrite !bind_get. destruct (payload_at _ _ WF eq_refl) as [SZ AT].
  destruct (4 <=? m_size (w_rx w)) eqn:L; [|reflexivity]. cbn [andb]. destruct (N.eqb_spec (w_nick w) (at0 (m_data (w_rx w)) 0)) as [EQ|NE]; [|reflexivity].
  exfalso. apply HD. rewrite AT in EQ by lia. destruct (payload (w_rx w)) as [|x l]; [cbn [length] in SZ; lia|]. cbn in *. congruence.
Qed.
Definition others w (m : Msg) : Prop := m_class m = 0 -> m_type m = 37 -> hd_error (payload m) <> Some (w_nick w) /\ hd_error (payload m) <> Some 255.
Lemma hpct_others w : msg_wf (w_rx w) -> m_class (w_rx w) = 0 -> (m_type (w_rx w) = 37 -> hd_error (payload (w_rx w)) <> Some (w_nick w)) -> RX w (snd (handleProtocolClassType w)).
Proof.
  intros WF C0 HO. destruct (N.eq_dec (m_type (w_rx w)) 37) as [T|T]; [|apply RX_parts; exact T].
  rewrite (hpct_37 w T), not_mine; auto. apply RX_refl.
Qed.
Lemma dispatch_x w : (w_rxv w = true -> msg_wf (w_rx w) /\ others w (w_rx w)) -> RX w (snd (dispatch w)).
Proof.
  intros HM. destruct RX_parts as (_ & PA & PH & PI & PP & PR & PS & PE & PV & PD & PN). pose proof RX_ext as PX. pose proof RX_refl as Rrefl. pose proof RX_trans as Rtrans.
  unfold dispatch. rewrite bind_get. destruct (w_st w) eqn:ST; try (rewrite snd_bind; cbn [ret snd]; first [apply PS | apply PI | apply PP | apply PR]); try apply Rrefl.
  unfold stateActive. rewrite snd_bind.
  match goal with |- context [snd (?q (snd (activeMessage w)))] => assert (Z : rel RX q) by (generalize dependent RX; intros R; intros; rel_tac) end.
  eapply RX_trans; [|apply Z]. clear Z. unfold activeMessage. rewrite bind_get. destruct (w_rxv w) eqn:RV; [|apply RX_refl]. destruct (HM eq_refl) as [WF OT]. clear HM.
  rewrite bind_get, snd_bind. set (m := w_rx w) in *.
  match goal with |- context [snd (?q (snd (?p w)))] => assert (Z : rel RX q) by (clear OT; generalize dependent RX; intros R; intros; rel_tac); eapply (RX_trans _ (snd (p w))); [|apply Z] end. clear Z.
  destruct (m_class m =? CLASS_PROTOCOL) eqn:CP; [|apply PE]. assert (MC : m_class m = 0) by (unfold CLASS_PROTOCOL in CP; lia).
  destruct (c_prot_ev cfg).
  - rewrite snd_bind. eapply RX_trans; [apply PV|]. set (u := snd (provideProtocolEvent m w)). destruct (negb _); [|apply RX_refl].
    assert (UX : w_rx u = m) by apply (PV m w). apply hpct_others; rewrite UX; try assumption. intros T. destruct (RNK_prot m w) as [K|K]; fold u in K; rewrite K; apply OT; assumption.
  - apply hpct_others; try assumption. intros T. apply OT; assumption.
Qed.
(* ---- one event ---- *)
Definition XR w w' : Prop := exists l, w_out w' = l ++ w_out w /\ xr (true, xst w) (rev l) (true, xst w').
Lemma XR_trans (a b c : World A) : XR a b -> XR b c -> XR a c.
Proof. intros (l1 & O1 & R1) (l2 & O2 & R2). exists (l2 ++ l1). split; [rewrite O2, O1, app_assoc; reflexivity|]. rewrite rev_app_distr. apply xr_app. eauto. Qed.
Lemma same_xst a b : same a b -> xst a = xst b. Proof. intros [V _]. unfold visible in V. unfold xst. congruence. Qed.
Lemma xr_same w u m o : xst u = xst w -> w_out u = m ++ w_out w -> Forall (fun o => still2 o = true) m -> w_out o = w_out u -> xst o = xst u -> XR w o.
Proof. intros H1 H2 H3 H4 H5. exists m. split; [congruence|]. rewrite H5, H1. apply still_run. apply Forall_rev. exact H3. Qed.
Lemma process_x rd w : valid_env E -> reachable w -> op_wf (OpProcess rd) -> (forall m, received rd w = Some m -> others w m) -> XR w (snd (step (OpProcess rd) w)).
Proof.
  intros V HR HO HM. unfold step. rewrite snd_then, (process_state rd w). cbv zeta. cbn [snd]. set (u := snd (prologue rd w)).
  assert (SU : same u w) by apply prologue_same. assert (XU := same_xst _ _ SU). assert (NU : w_nick u = w_nick w) by (apply same_nick; exact SU).
  assert (BW : xb (xst u)) by (rewrite XU; destruct (reach_inv V w HR) as (ps0 & HI); unfold xst, xb; pose proof (i_xpage _ _ HI); pose proof (i_xaddr _ _ HI); pose proof (i_xcount _ _ HI); pose proof (i_xseq _ _ HI); tauto).
  assert (D : RX u (snd (dispatch u))).
  { apply dispatch_x. intros RV. destruct (received rd w) as [m|] eqn:RM.
    - destruct (prologue_rx rd w m RM) as [R1 _]. fold u in R1. rewrite R1. split; [exact (received_wf V rd w m HR HO RM)|]. unfold others. rewrite NU. apply (HM m eq_refl).
    - destruct (prologue_norx rd w RM) as [_ X]. fold u in X. congruence. }
  destruct D as (_ & D). destruct (D BW) as (l & O & _ & X). set (v := snd (dispatch u)) in *.
  assert (OU : exists k, w_out u = k ++ w_out w /\ Forall (fun o => still2 o = true) k).
  { unfold u. rewrite prologue_out. destruct (received rd w) as [m|]; [exists [ORx m; OProcess]|exists [OProcess]]; (split; [reflexivity|repeat constructor]). }
  destruct OU as (k & OK & FK). match goal with |- XR w (set_out (ORet ?b :: _) _) => set (bb := b) end.
  exists (ORet bb :: l ++ k). split; [wsimp; rewrite O, OK, <- app_comm_cons, <- app_assoc; reflexivity|]. change (xst (set_out _ _)) with (xst v).
  cbn [rev]. rewrite rev_app_distr, <- app_assoc. apply xr_app. exists (true, xst w). split; [apply still_run, Forall_rev; exact FK|]. apply xr_app. exists (true, xst v). split; [rewrite <- XU; exact X|]. apply xr_one. reflexivity.
Qed.

Section V.
Hypothesis VE : valid_env E.
Lemma reach_xb w : reachable w -> xb (xst w).
Proof. intros HR. destruct (reach_inv VE w HR) as (ps0 & HI). unfold xst, xb. pose proof (i_xpage _ _ HI); pose proof (i_xaddr _ _ HI); pose proof (i_xcount _ _ HI); pose proof (i_xseq _ _ HI). tauto. Qed.
Lemma init_x w : xb (xst w) -> XR w (snd (core_init w)).
Proof.
  set (R := fun a b : World A => xb (xst a) -> XR a b /\ xb (xst b)). intros B. enough (Z : rel R (@core_init A E)) by (apply Z; exact B).
  assert (Rrefl : forall w, R w w) by (intros u H; split; [exists []; split; reflexivity|exact H]).
  assert (Rtrans : forall a b c, R a b -> R b c -> R a c) by (intros x y z H1 H2 H; destruct (H1 H) as [K1 K2]; destruct (H2 K2) as [K3 K4]; split; [exact (XR_trans _ _ _ K1 K3)|exact K4]).
  assert (S : forall a b : World A, w_out b = w_out a -> xst b = xst a -> R a b) by (intros x y H1 H2 H; rewrite H2; split; [exists []; rewrite H2; split; [exact H1|reflexivity]|exact H]).
  assert (X_e : forall o, still2 o = true -> rel R (@emit A o)).
  { intros o H u HB. split; [|exact HB]. exists [o]. split; [reflexivity|]. apply xr_one, still_xs. exact H. }
  assert (s_r : rel R (@restoreFactory A E)) by (intros u HB; destruct (RX_restore u) as [_ Q]; destruct (Q HB) as (l & O & B2 & X); split; [exists l; auto|exact B2]).
  clearbody R. assert (s_ub : rel R setUB) by (apply rel_upd; intros; apply S; reflexivity).
  apply tr_core_init; try assumption; try solve [intros; apply X_e; reflexivity]; try solve [intros; apply S; reflexivity]; try solve [intros i v; unfold timer_start; apply rel_upd; intros; apply S; reflexivity].
  - unfold tp_init. rel_tac; apply S; reflexivity.
  - unfold dm_init. rel_tac; apply S; reflexivity.
  - unfold ps_readNicknameId, psRead8. rel_tac; apply S; reflexivity.
  - unfold changeToStateError. rel_tac; first [apply X_e; reflexivity|apply S; reflexivity].
Qed.

Lemma op_x o w : reachable w -> op_wf o -> XR w (snd (step o w)) \/
  exists rd m l, o = OpProcess rd /\ received rd w = Some m /\ ~ others w m /\ w_out (snd (step o w)) = rev l ++ [ORx m; OProcess] ++ w_out w.
Proof.
  intros HR HO. destruct o as [rd|p|c|].
  - destruct (received rd w) as [m|] eqn:RM.
    + assert (DEC : others w m \/ ~ others w m).
      { unfold others. destruct (N.eq_dec (m_class m) 0), (N.eq_dec (m_type m) 37); try (left; intros; exfalso; tauto).
        destruct (hd_error (payload m)) as [x|]; [|left; intros; split; discriminate]. destruct (N.eq_dec x (w_nick w)) as [->|N1]; [right; intros H; destruct H; tauto|].
        destruct (N.eq_dec x 255) as [->|N2]; [right; intros H; destruct H; tauto|]. left. intros _ _. split; intros Q; injection Q; assumption. }
      destruct DEC as [D|D]; [left; apply process_x; auto; intros m' H; replace m' with m by congruence; exact D|]. right.
      assert (XT : exists d, w_out (snd (dispatch (snd (prologue rd w)))) = d ++ w_out (snd (prologue rd w))).
      { destruct taken_parts as (T1 & _). destruct (T1 (snd (prologue rd w))) as (d & H & _). exists d. exact H. }
      destruct XT as (d & D1). rewrite prologue_out, RM in D1. exists rd, m. unfold step. rewrite snd_then, (process_state rd w). cbv zeta. cbn [snd]. wsimp. rewrite D1.
      match goal with |- context [ORet ?b :: _] => exists (rev (ORet b :: d)) end. rewrite rev_involutive. auto.
    + left. apply process_x; auto. intros m H. congruence.
  - left. exists [OTick p]. split; [reflexivity|]. apply xr_one. reflexivity.
  - left. destruct RX_parts as (_ & PA & _). destruct (PA c w) as [_ Q]. destruct (Q (reach_xb w HR)) as (l & O & _ & X). exists l. auto.
  - left. rewrite step_init. apply init_x. apply reach_xb. exact HR.
Qed.
Lemma event_x e w : reachable w -> event_wf e -> (forall m, In m (taken (effects w (stepE e w))) -> others w m) -> XR w (stepE e w).
Proof.
  intros HR HE HM. destruct e as [o|o k a].
  - destruct (op_x o w HR HE) as [X|(rd & m & l & -> & RM & NO & _)]; [exact X|]. exfalso. apply NO, HM. cbn [stepE]. rewrite process_taken, RM. left. reflexivity.
  - destruct (reach_inv VE w HR) as (ps0 & HI). destruct (crash_boot ps0 VE o k a w HE HI) as (ps & out & ub & ngub & _ & (d & d' & O1 & O2) & EQ). rewrite EQ in *. clear EQ.
    set (bt := boot ps a (w_wr (snd (step o w))) (OPower :: out) ub ngub) in *.
    assert (XB : xst bt = x0) by reflexivity. destruct (init_x bt) as (li & OI & XI); [rewrite XB; unfold xb, x0; lia|]. change (w_out bt) with (OPower :: out) in OI. set (fin := snd (core_init bt)) in *.
    assert (OF : w_out fin = (li ++ OPower :: d) ++ w_out w) by (rewrite OI, O1, <- app_assoc; reflexivity).
    assert (PX : exists b1, xr (true, xst w) (rev d) b1).
    { assert (PRE : forall l1 l2 b b2, xr b (l1 ++ l2) b2 -> exists b1, xr b l1 b1) by (intros l1 l2 b b2 H; apply xr_app in H; destruct H as (b1 & H & _); exists b1; exact H).
      destruct (op_x o w HR HE) as [(l & O3 & X)|(rd & m & l & -> & RM & NO & O3)].
      - rewrite O2, O1, app_assoc in O3. apply app_inv_tail in O3. subst l. rewrite rev_app_distr in X. apply (PRE _ _ _ _ X).
      - rewrite O2, O1, !app_assoc in O3. apply app_inv_tail in O3.
        assert (LD : (length d < 2)%nat \/ (2 <= length d)%nat) by lia. destruct LD as [LD|LD].
        + apply (f_equal (@rev Obs)) in O3. rewrite rev_app_distr in O3. rewrite (rev_app_distr (rev l)), rev_involutive in O3. cbn [rev app] in O3.
          destruct d as [|y [|z d]]; [exists (true, xst w); reflexivity| |cbn [length] in LD; lia]. cbn [rev app] in *. injection O3 as -> _. exists (true, xst w). apply xr_one. reflexivity.
        + exfalso. apply NO, HM. rewrite (effects_app w fin _ OF), rev_app_distr, taken_app. apply in_or_app. left. cbn [rev]. rewrite taken_app. apply in_or_app. left.
          apply (f_equal (@rev Obs)) in O3. rewrite rev_app_distr in O3. rewrite (rev_app_distr (rev l)), rev_involutive in O3. cbn [rev app] in O3.
          rewrite <- rev_length in LD. destruct (rev d) as [|y [|z dd]]; try (cbn [length] in LD; lia). injection O3 as -> -> _. cbn. left. reflexivity. }
    destruct PX as (b1 & PX). exists (li ++ OPower :: d). split; [exact OF|]. rewrite rev_app_distr. apply xr_app. exists (true, x0). split; [|rewrite XB in XI; exact XI].
    cbn [rev]. apply xr_app. exists b1. split; [exact PX|]. apply xr_one. right. reflexivity.
Qed.
Lemma run_x es : forall w, reachable w -> Forall event_wf es -> noFurther es w -> XR w (run es w).
Proof.
  induction es as [|e es IH]; intros w HR HE HN; [exists []; split; reflexivity|]. inversion HE as [|? ? HE1 HE2]; subst. destruct HN as [H1 HN].
  change (run (e :: es) w) with (run es (stepE e w)). eapply XR_trans; [apply event_x; eauto; intros m HI C T; apply H1; assumption|]. apply IH; auto. apply reach_step; assumption.
Qed.
(* ---- the request ---- *)
Lemma request_x w rd m p1 p2 a rest : request w rd m 37 (w_nick w :: p1 :: p2 :: a :: rest) -> 
  exists w0 l, same w0 (heard w m) /\ w_out w0 = notice m ++ ORx m :: OProcess :: w_out w /\
    let st := (256 * p1 + p2, a, N.of_nat (asked rest), 0) in let u := xset st w0 in
    effects w (after w rd) = OProcess :: ORx m :: notice m ++ l /\ xb st /\ xr (true, st) l (true, xst (after w rd)) /\ exists l', rev l = l' ++ rev (effects u (snd (extendedPageRead u))).
Proof.
  intros (HR & HO & HA & HT & HC & HTY & HP & HU). pose proof (received_taken rd w m HT) as HM.
  set (wp := snd (prologue rd w)). assert (SP : same wp w) by apply prologue_same. destruct (prologue_rx rd w m HM) as [RX0 RV]. fold wp in RX0, RV.
  assert (AP : w_app wp = w_app w) by (destruct SP as [V _]; unfold visible in V; congruence).
  assert (PP : w_ps wp = w_ps w) by (destruct SP as [V _]; unfold visible in V; congruence).
  assert (SA : isActive wp = true) by (destruct SP as [V _]; unfold visible in V; unfold isActive in *; replace (w_st wp) with (w_st w) by congruence; exact HA).
  assert (UP : unclaimed wp m) by (unfold unclaimed in *; rewrite AP, PP; exact HU).
  assert (OP : w_out wp = ORx m :: OProcess :: w_out w) by (unfold wp; rewrite prologue_out, HM; reflexivity).
  pose proof (dispatch_active false m wp SA RX0 RV HC (unclaimed_reacts wp m UP)) as DA. cbv zeta in DA. unfold serving in DA. cbn [negb] in DA. set (w0 := set_out (notice m ++ w_out wp) (heard wp m)) in *.
  assert (S0 : same w0 (heard w m)). { unfold w0, heard. destruct (c_prot_ev cfg); [|exact SP]. rewrite AP, PP. destruct SP as [V T]. split; [|exact T]. unfold visible in *. wsimp. congruence. }
  assert (WF : msg_wf m) by exact (received_wf VE rd w m HR HO HM). destruct (payload_at m _ WF HP) as [SZ AT].
  assert (RX1 : w_rx w0 = m) by (unfold w0, heard; destruct (c_prot_ev cfg); exact RX0).
  assert (NK : w_nick w0 = w_nick w) by (rewrite (same_nick _ _ S0), heard_nick; reflexivity).
  set (st := (256 * p1 + p2, a, N.of_nat (asked rest), 0)). set (u := xset st w0).
  assert (BY : forall i, i < m_size m -> at0 (m_data m) i < 256).
  { intros i Hi. destruct WF as (_ & _ & _ & _ & _ & _ & HB). unfold at0. destruct (nth_in_or_default (N.to_nat i) (m_data m) 0) as [HIn|D0]; [|rewrite D0; reflexivity]. unfold bytes in HB. rewrite Forall_forall in HB. apply HB. exact HIn. }
  cbn [length] in SZ, AT. assert (D0 := AT 0 ltac:(lia)). assert (D1 := AT 1 ltac:(lia)). assert (D2 := AT 2 ltac:(lia)). assert (D3 := AT 3 ltac:(lia)).
  change (N.to_nat 0) with 0%nat in D0. change (N.to_nat 1) with 1%nat in D1. change (N.to_nat 2) with 2%nat in D2. change (N.to_nat 3) with 3%nat in D3. cbn [nth] in D0, D1, D2, D3.
  assert (B1 : p1 < 256) by (rewrite <- D1; apply BY; lia). assert (B2 : p2 < 256) by (rewrite <- D2; apply BY; lia). assert (B3 : a < 256) by (rewrite <- D3; apply BY; lia).
  assert (CNT : (if m_size m =? 5 then (if at0 (m_data m) 4 =? 0 then 256 else at0 (m_data m) 4) else 1) = N.of_nat (asked rest)).
  { unfold asked. destruct rest as [|c [|c2 r2]]; cbn [length] in SZ.
    - replace (m_size m =? 5) with false by lia. reflexivity.
    - replace (m_size m =? 5) with true by lia. rewrite (AT 4) by (cbn [length]; lia). change (N.to_nat 4) with 4%nat. cbn [nth]. destruct (c =? 0); lia.
    - replace (m_size m =? 5) with false by lia. reflexivity. }
  assert (BA : N.of_nat (asked rest) <= 256).
  { rewrite <- CNT. destruct (N.eqb_spec (m_size m) 5) as [M5|M5]; [|lia]. destruct (at0 (m_data m) 4 =? 0); [lia|]. specialize (BY 4 ltac:(lia)). lia. }
  assert (BS : xb st) by (unfold st, xb; lia).
  assert (HH : snd (handleProtocolClassType w0) = snd (extendedPageRead u)).
  { rewrite (hpct_37 w0) by (rewrite RX1; exact HTY). unfold handleExtPageRead, rxSize, rxForMe, rxd. rewrite !bind_get, RX1, NK, D0, N.eqb_refl. replace (4 <=? m_size m) with true by lia. cbn [andb].
    rewrite !bind_get, RX1, D1, D2, D3, !bind_upd, CNT. replace (mkWord p1 p2) with (256 * p1 + p2); [reflexivity|]. unfold mkWord. rewrite be2 by assumption. reflexivity. }
  assert (AM : rel RX (aftermath m)).
  { destruct RX_parts as (_ & _ & PH & _ & _ & _ & _ & _ & _ & PD & PN). pose proof RX_ext as PX. pose proof RX_refl as Rrefl. pose proof RX_trans as Rtrans. unfold aftermath. generalize dependent RX. intros R; intros. rel_tac. }
  exists w0. rewrite HH in DA. 
  destruct (RX_ext u) as [_ Q1]. assert (XU : xst u = st) by reflexivity. rewrite XU in Q1. destruct (Q1 BS) as (l1 & O1 & BB1 & X1). set (u1 := snd (extendedPageRead u)) in *.
  destruct (AM u1) as [_ Q2]. destruct (Q2 BB1) as (l2 & O2 & BB2 & X2). rewrite <- DA in O2, X2. set (u2 := snd (dispatch wp)) in *.
  assert (OU : w_out u = notice m ++ ORx m :: OProcess :: w_out w) by (transitivity (w_out w0); [reflexivity|]; unfold w0; wsimp; rewrite OP; reflexivity).
  assert (EF : exists bb, w_out (after w rd) = ORet bb :: w_out u2 /\ xst (after w rd) = xst u2).
  { unfold after, step. rewrite snd_then, (process_state rd w). cbv zeta. cbn [snd]. fold wp. fold u2. eexists. split; reflexivity. }
  destruct EF as (bb & OA & XA). exists (rev l1 ++ rev l2 ++ [ORet bb]). split; [exact S0|]. split; [transitivity (w_out u); [reflexivity|exact OU]|]. cbv zeta. fold st. fold u. fold u1.
  split. { rewrite (effects_app w (after w rd) (ORet bb :: l2 ++ l1 ++ notice m ++ [ORx m; OProcess])).
    - cbn [rev]. rewrite !rev_app_distr. cbn [rev app]. replace (rev (notice m)) with (notice m) by (unfold notice; destruct (c_prot_ev cfg); reflexivity). rewrite <- !app_assoc. reflexivity.
    - rewrite OA, O2, O1, OU, <- app_comm_cons, <- !app_assoc. reflexivity. }
  split; [exact BS|]. split.
  - apply xr_app. exists (true, xst u1). split; [exact X1|]. apply xr_app. exists (true, xst u2). split; [exact X2|]. rewrite XA. apply xr_one. reflexivity.
  - exists (rev (rev l2 ++ [ORet bb])). rewrite (effects_app u u1 l1 O1), rev_app_distr. reflexivity.
Qed.
End V.
End X.
