(* Proof_NG.v - lemmas for Prop_NG.v *)
From Verif Require Export Spec_NG Proof_Regs.

(* ---- the decision reads only the bytes of its rule ---- *)
Lemma ng_loop_indep (r r' : list (option N)) (f : N -> N) size m : (forall i, i < size -> rp r i = (f i, false)) -> (forall i, i < size -> rp r' i = (f i, false)) ->
  forall fuel index first result lp, index <= size -> size < index + N.of_nat fuel ->
  ng_loop fuel r size m index first result lp false = ng_loop fuel r' size m index first result lp false /\
  dec_ub (ng_loop fuel r size m index first result lp false) = false.
Proof.
  intros H H'. induction fuel as [|fuel IH]; intros index first result lp Hi Hf.
  { exfalso. lia. } 
  cbn [ng_loop]. destruct (size <=? index + 2) eqn:L; [split; reflexivity|].
  rewrite (H index), (H' index) by lia. cbv zeta. destruct (BASIC_OP_MAX_NUM <=? _); [split; reflexivity|].
  destruct (negb _ && negb _ && negb _); [split; reflexivity|].
  rewrite (H (index + 1)), (H' (index + 1)) by lia. cbv zeta. destruct (PAR_MAX_NUM <=? _); [split; reflexivity|].
  rewrite (H (index + 1 + 1)), (H' (index + 1 + 1)) by lia. cbn [orb].
  destruct (f (index + 1) =? PAR_DATA) eqn:PD.
  - destruct (size <=? index + 1 + 1 + 1) eqn:L2; [split; reflexivity|].
    rewrite (H (index + 1 + 1 + 1)), (H' (index + 1 + 1 + 1)) by lia. cbn [orb].
    destruct (f (index + 1) =? PAR_CLASS) eqn:PC; [unfold PAR_DATA, PAR_CLASS in *; lia|].
    set (cond := ng_compare _ _ _).
    destruct (if first then _ else _) as [res err]. destruct err; [split; reflexivity|].
    destruct (_ && negb res); [split; reflexivity|]. destruct (_ && res); [split; reflexivity|].
    destruct (_ =? LOGIC_LAST); [split; reflexivity|]. apply IH; lia.
  - rewrite (H (index + 1 + 1)), (H' (index + 1 + 1)) by lia. cbn [orb].
    destruct (f (index + 1) =? PAR_CLASS) eqn:PC.
    + destruct (size <=? index + 1 + 1 + 1) eqn:L2; [split; reflexivity|].
      rewrite (H (index + 1 + 1 + 1)), (H' (index + 1 + 1 + 1)) by lia. cbn [orb].
      destruct (if first then _ else _) as [res err]. destruct err; [split; reflexivity|].
      destruct (_ && negb res); [split; reflexivity|]. destruct (_ && res); [split; reflexivity|].
      destruct (_ =? LOGIC_LAST); [split; reflexivity|]. apply IH; lia.
    + destruct (if first then _ else _) as [res err]. destruct err; [split; reflexivity|].
      destruct (_ && negb res); [split; reflexivity|]. destruct (_ && res); [split; reflexivity|].
      destruct (_ =? LOGIC_LAST); [split; reflexivity|]. apply IH; lia.
Qed.
Lemma rp_some l t i : (N.to_nat i < length l)%nat -> rp (map Some l ++ t) i = (nth (N.to_nat i) l 0, false).
Proof.
  intros H. unfold rp. rewrite nth_error_app1 by (rewrite map_length; exact H). rewrite nth_error_map.
  destruct (nth_error l (N.to_nat i)) as [v|] eqn:Q; [|apply nth_error_None in Q; lia]. cbn. rewrite (nth_error_nth _ _ _ Q). reflexivity.
Qed.
Lemma decision_indep l t m :
  ng_getDecisionResult (map Some l ++ t) (N.of_nat (length l)) m = ng_getDecisionResult (map Some l) (N.of_nat (length l)) m /\
  dec_ub (ng_getDecisionResult (map Some l ++ t) (N.of_nat (length l)) m) = false.
Proof.
  unfold ng_getDecisionResult. destruct (_ =? 0); [split; reflexivity|].
  apply (ng_loop_indep _ _ (fun i => nth (N.to_nat i) l 0)); [intros i Hi; apply rp_some; lia| |lia|lia].
  intros i Hi. rewrite <- (app_nil_r (map Some l)). apply rp_some. lia.
Qed.

(* ---- the decision of an encoded expression ---- *)
Lemma getZone_spec m : msg_wf m -> ng_getZone m = parOf m PZone /\ ng_getSubZone m = parOf m PSubZone.
Proof.
  intros Hm. unfold ng_getZone, ng_getSubZone, parOf. pose proof Hm as (_ & _ & HT & _). rewrite (zone_table_eq (m_class m) (m_type m) HT).
  destruct (zonePosition (m_class m) (m_type m)) as [k|] eqn:Q; [|split; reflexivity].
  destruct (zonePosition_range _ _ _ Q) as [K|K]; subst k; split; reflexivity.
Qed.
Lemma data_at m k : (if k <? m_size m then at0 (m_data m) k else 0) = dataByte m k.
Proof.
  destruct (N.ltb_spec k (m_size m)) as [L|L]; [symmetry; apply (evByte_in m k L)|].
  unfold dataByte, payload. rewrite nth_firstn'. replace (Nat.ltb _ _) with false; [reflexivity|]. symmetry. apply Nat.ltb_ge. lia.
Qed.
Definition parId (p : Par) : N := hd 0 (parCode p).
Definition parIdx (p : Par) : N := match p with PByteAt k => k | _ => 0 end.
Lemma parValue_spec m p : msg_wf m -> match p with PByte k => k < 7 | _ => True end ->
  ng_getEventParValue m (parId p) (parIdx p) = parOf m p.
Proof.
  intros Hm Hp. destruct (getZone_spec m Hm) as [GZ1 GZ2]. destruct p; try reflexivity; try assumption.
  - cbn [parId parCode hd parIdx parOf]. unfold ng_getEventParValue, PAR_CLASS, PAR_TYPE, PAR_OADDR, PAR_HARD_CODED, PAR_PRIORITY, PAR_ZONE, PAR_SUB_ZONE, PAR_DATA_NUM, PAR_DATA0, PAR_DATA.
    replace (9 + k =? 1) with false by lia. replace (9 + k =? 2) with false by lia. replace (9 + k =? 3) with false by lia.
    replace (9 + k =? 4) with false by lia. replace (9 + k =? 5) with false by lia. replace (9 + k =? 6) with false by lia.
    replace (9 + k =? 7) with false by lia. replace (9 + k =? 8) with false by lia.
    replace ((9 <=? 9 + k) && (9 + k <? 16)) with true by lia. replace (9 + k - 9) with k by lia. apply data_at.
  - apply data_at.
Qed.
Lemma condCode_length l c : (3 <= length (condCode l c))%nat.
Proof. unfold condCode. cbn [length]. rewrite app_length. destruct (cd_par c); cbn; lia. Qed.

(* one round of the loop on an encoded condition *)
Lemma loop_cond rule size m fuel index first result lp l c rest : msg_wf m -> condOk c ->
  l = 0 \/ l = 16 \/ l = 32 ->
  (forall j, (j < length (condCode l c))%nat -> rp rule (index + N.of_nat j) = (nth j (condCode l c ++ rest) 0, false)) ->
  index + N.of_nat (length (condCode l c)) <= size ->
  first = true \/ lp = 16 /\ result = true \/ lp = 32 /\ result = false ->
  ng_loop (S fuel) rule size m index first result lp false =
  (let b := condHolds m c in let i := index + N.of_nat (length (condCode l c)) in
   if (l =? 16) && negb b then mkDecision b false i false
   else if (l =? 32) && b then mkDecision b false i false
   else if l =? 0 then mkDecision b false i false
   else ng_loop fuel rule size m i false b l false).
Proof.
  intros Hm [HC1 HC2] Hl HR HS HF. pose proof (condCode_length l c) as HL.
  assert (R0 : rp rule index = (l + cmpCode (cd_cmp c), false)) by (rewrite <- (N.add_0_r index) at 1; apply (HR 0%nat); lia).
  assert (R1 : rp rule (index + 1) = (parId (cd_par c), false)) by (etransitivity; [exact (HR 1%nat ltac:(lia))|]; unfold condCode; destruct (cd_par c); reflexivity).
  assert (B0 : N.land (l + cmpCode (cd_cmp c)) 15 = cmpCode (cd_cmp c)) by (destruct Hl as [->|[->| ->]]; destruct (cd_cmp c); reflexivity).
  assert (B1 : N.land (l + cmpCode (cd_cmp c)) 240 = l) by (destruct Hl as [->|[->| ->]]; destruct (cd_cmp c); reflexivity).
  cbn [ng_loop]. replace (size <=? index + 2) with false by lia. rewrite R0. cbv zeta. rewrite B0, B1.
  replace (BASIC_OP_MAX_NUM <=? cmpCode (cd_cmp c)) with false by (destruct (cd_cmp c); reflexivity).
  unfold LOGIC_LAST, LOGIC_AND, LOGIC_OR. replace (negb (l =? 0) && negb (l =? 16) && negb (l =? 32)) with false by (destruct Hl as [->|[->| ->]]; reflexivity).
  rewrite R1. cbn [orb]. assert (HID : parId (cd_par c) < 17) by (unfold parId; clear - HC1; destruct (cd_par c); cbn [parCode hd] in *; lia).
  replace (PAR_MAX_NUM <=? parId (cd_par c)) with false by (unfold PAR_MAX_NUM; lia).
  assert (HCMP : ng_compare (cmpCode (cd_cmp c)) (parOf m (cd_par c)) (cd_value c) = condHolds m c) by (unfold condHolds; destruct (cd_cmp c); reflexivity).
  assert (FIN : forall i (T : Decision), i = index + N.of_nat (length (condCode l c)) ->
     T = (let '(result0, err) := if first then (condHolds m c, false) else if lp =? 16 then (result && condHolds m c, false)
            else if lp =? 32 then (result || condHolds m c, false) else (result, true) in
          if err : bool then mkDecision false true i false else
          if (l =? 16) && negb result0 then mkDecision result0 false i false
          else if (l =? 32) && result0 then mkDecision result0 false i false
          else if l =? 0 then mkDecision result0 false i false
          else ng_loop fuel rule size m i false result0 l false) ->
     T = (if (l =? 16) && negb (condHolds m c) then mkDecision (condHolds m c) false (index + N.of_nat (length (condCode l c))) false
          else if (l =? 32) && condHolds m c then mkDecision (condHolds m c) false (index + N.of_nat (length (condCode l c))) false
          else if l =? 0 then mkDecision (condHolds m c) false (index + N.of_nat (length (condCode l c))) false
          else ng_loop fuel rule size m (index + N.of_nat (length (condCode l c))) false (condHolds m c) l false)).
  { intros i T -> ->. destruct HF as [->|[[-> ->]|[-> ->]]].
    - reflexivity.
    - destruct first; reflexivity.
    - destruct first; reflexivity. }
  pose proof (parValue_spec m (cd_par c) Hm) as PV.
  destruct (cd_par c) as [| | | | | | | | |k|k] eqn:EP.
  11:{ (* PByteAt *)
    assert (R2 : rp rule (index + 1 + 1) = (k, false)) by (replace (index + 1 + 1) with (index + N.of_nat 2) by lia; rewrite (HR 2%nat) by lia; unfold condCode; rewrite EP; reflexivity).
    assert (HL4 : length (condCode l c) = 4%nat) by (unfold condCode; rewrite EP; reflexivity).
    assert (R3 : rp rule (index + 1 + 1 + 1) = (cd_value c, false)) by (replace (index + 1 + 1 + 1) with (index + N.of_nat 3) by lia; rewrite (HR 3%nat) by lia; unfold condCode; rewrite EP; reflexivity).
    change (parId (PByteAt k) =? PAR_DATA) with true. cbv iota. rewrite R2. cbn [orb].
    replace (size <=? index + 1 + 1 + 1) with false by lia. rewrite R3. cbn [orb]. change (parId (PByteAt k) =? PAR_CLASS) with false. cbv iota.
    change (ng_getEventParValue m (parId (PByteAt k)) k) with (ng_getEventParValue m (parId (PByteAt k)) (parIdx (PByteAt k))).
    rewrite PV by exact I. rewrite HCMP. apply (FIN (index + 1 + 1 + 1 + 1)); [lia|reflexivity]. }
  2:{ (* PClass *)
    assert (HL4 : length (condCode l c) = 4%nat) by (unfold condCode; rewrite EP; reflexivity).
    assert (R2 : rp rule (index + 1 + 1) = (cd_value c / 256, false)) by (replace (index + 1 + 1) with (index + N.of_nat 2) by lia; rewrite (HR 2%nat) by lia; unfold condCode; rewrite EP; reflexivity).
    assert (R3 : rp rule (index + 1 + 1 + 1) = (cd_value c mod 256, false)) by (replace (index + 1 + 1 + 1) with (index + N.of_nat 3) by lia; rewrite (HR 3%nat) by lia; unfold condCode; rewrite EP; reflexivity).
    change (parId PClass =? PAR_DATA) with false. cbv iota. rewrite R2. cbn [orb]. change (parId PClass =? PAR_CLASS) with true. cbv iota.
    replace (size <=? index + 1 + 1 + 1) with false by lia. rewrite R3. cbn [orb]. change (ng_getEventParValue m (parId PClass) 0) with (ng_getEventParValue m (parId PClass) (parIdx PClass)). rewrite PV by exact I.
    assert (HV : u16 (N.lor (N.shiftl (cd_value c / 256) 8) (cd_value c mod 256)) = cd_value c).
    { change 256 with (2 ^ 8). rewrite <- N.shiftr_div_pow2, <- N.land_ones. unfold u16.
      rewrite <- N.ldiff_ones_r.
      replace (N.lor (N.ldiff (cd_value c) (N.ones 8)) (N.land (cd_value c) (N.ones 8))) with (cd_value c).
      - apply N.mod_small. exact HC2.
      - apply N.bits_inj. intros j. rewrite N.lor_spec, N.ldiff_spec, N.land_spec. destruct (N.testbit (cd_value c) j), (N.testbit (N.ones 8) j); reflexivity. }
    rewrite HV, HCMP. apply (FIN (index + 1 + 1 + 1 + 1)); [lia|reflexivity]. }
  all: assert (HL3 : length (condCode l c) = 3%nat) by (unfold condCode; rewrite EP; reflexivity).
  all: assert (R2 : rp rule (index + 1 + 1) = (cd_value c, false)) by (replace (index + 1 + 1) with (index + N.of_nat 2) by lia; rewrite (HR 2%nat) by lia; unfold condCode; rewrite EP; reflexivity).
  all: match goal with |- context[parId ?p =? PAR_DATA] => replace (parId p =? PAR_DATA) with false by (unfold parId, PAR_DATA; cbn [parCode hd]; lia) end; cbv iota; rewrite R2; cbn [orb].
  all: match goal with |- context[parId ?p =? PAR_CLASS] => replace (parId p =? PAR_CLASS) with false by (unfold parId, PAR_CLASS; cbn [parCode hd]; lia) end; cbv iota.
  all: match goal with |- context[ng_getEventParValue ?e (parId ?p) 0] => change (ng_getEventParValue e (parId p) 0) with (ng_getEventParValue e (parId p) (parIdx p)) end.
  all: rewrite PV by (exact HC1 || exact I); rewrite HCMP; apply (FIN (index + 1 + 1 + 1)); [lia|reflexivity].
Qed.

Lemma loop_expr rule size m : msg_wf m -> forall e, exprOk e ->
  forall fuel index first result lp,
  (forall j, (j < length (exprCode e))%nat -> rp rule (index + N.of_nat j) = (nth j (exprCode e) 0, false)) ->
  index + N.of_nat (length (exprCode e)) <= size -> (length (exprCode e) <= fuel)%nat ->
  first = true \/ lp = 16 /\ result = true \/ lp = 32 /\ result = false ->
  let d := ng_loop fuel rule size m index first result lp false in
  dec_result d = holds m e /\ dec_error d = false /\ dec_ub d = false.
Proof.
  intros Hm. induction e as [c|c e IH|c e IH]; intros HO fuel index first result lp HR HS HF HP; cbn [exprOk exprCode holds] in *.
  - pose proof (condCode_length 0 c). destruct fuel as [|fuel]; [lia|]. cbv zeta.
    rewrite (loop_cond rule size m fuel index first result lp 0 c []); try assumption; [|auto|rewrite app_nil_r; exact HR].
    cbn [N.eqb andb dec_result dec_error dec_ub]. auto.
  - pose proof (condCode_length 16 c). rewrite app_length in *. destruct fuel as [|fuel]; [lia|]. cbv zeta.
    rewrite (loop_cond rule size m fuel index first result lp 16 c (exprCode e)); try tauto; [|intros j Hj; apply HR; lia|lia].
    cbn [N.eqb Pos.eqb andb]. destruct (condHolds m c) eqn:B; cbn [negb andb]; [|repeat split; reflexivity].
    apply IH; [tauto| |lia|lia|auto]. intros j Hj. replace (index + N.of_nat (length (condCode 16 c)) + N.of_nat j) with (index + N.of_nat (length (condCode 16 c) + j)) by lia.
    rewrite HR by lia. rewrite app_nth2_plus. reflexivity.
  - pose proof (condCode_length 32 c). rewrite app_length in *. destruct fuel as [|fuel]; [lia|]. cbv zeta.
    rewrite (loop_cond rule size m fuel index first result lp 32 c (exprCode e)); try tauto; [|intros j Hj; apply HR; lia|lia].
    cbn [N.eqb Pos.eqb andb]. destruct (condHolds m c) eqn:B; cbn [negb andb orb]; [repeat split; reflexivity|].
    apply IH; [tauto| |lia|lia|auto]. intros j Hj. replace (index + N.of_nat (length (condCode 32 c)) + N.of_nat j) with (index + N.of_nat (length (condCode 32 c) + j)) by lia.
    rewrite HR by lia. rewrite app_nth2_plus. reflexivity.
Qed.
Lemma exprCode_length e : (3 <= length (exprCode e))%nat.
Proof. destruct e; cbn [exprCode]; rewrite ?app_length; pose proof condCode_length as H; [apply H| |]; eapply Nat.le_trans; [apply H|apply Nat.le_add_r| |apply Nat.le_add_r]. apply (H 32 c). Qed.
Lemma decision_expr m e t : msg_wf m -> exprOk e ->
  let d := ng_getDecisionResult (map Some (exprCode e) ++ t) (N.of_nat (length (exprCode e))) m in
  dec_result d = holds m e /\ dec_error d = false /\ dec_ub d = false.
Proof.
  intros Hm HO. unfold ng_getDecisionResult. pose proof (exprCode_length e). replace (_ =? 0) with false by lia. cbv zeta.
  apply loop_expr; try assumption; try lia.
  intros j Hj. rewrite N.add_0_l, rp_some by lia. rewrite Nat2N.id. reflexivity.
Qed.

(* ---- one rule ---- *)
Definition ruleDecides (m : Msg) (r : list N) : bool :=
  let d := ng_getDecisionResult (map Some (skipn 3 r)) (N.of_nat (length (skipn 3 r))) m in
  Nat.leb 6 (length r) && negb (nth 1 r 0 =? 0) && (negb (dec_error d) && dec_result d).
Definition bytesActions (m : Msg) (r : list N) : list (N * N * Msg) :=
  if ruleDecides m r then [(nth 1 r 0, nth 2 r 0, m)] else [].

Section N.
Context {A : Type} {E : Env A}.
Implicit Type w : World A.
(* only the debug variables differ *)
Definition dbg w w' : Prop := exists e r p, w' = set_ngErr e (set_ngRule r (set_ngPos p w)).
Lemma dbg_refl w : dbg w w. Proof. exists (w_ngErr w), (w_ngRule w), (w_ngPos w). destruct w. reflexivity. Qed.
Lemma dbg_trans a b c : dbg a b -> dbg b c -> dbg a c.
Proof. intros (e & r & p & ->) (e' & r' & p' & ->). exists e', r', p'. destruct a. reflexivity. Qed.
Lemma dbg_incRule : rel dbg (@dbgIncRule A).
Proof. intros w. unfold dbgIncRule. rewrite bind_get. destruct (w_ngErr w); [apply dbg_refl|]. exists (w_ngErr w), (u8 (w_ngRule w + 1)), (w_ngPos w). destruct w. reflexivity. Qed.
Lemma dbg_incPos n : rel dbg (@dbgIncPos A n).
Proof. intros w. unfold dbgIncPos. rewrite bind_get. destruct (w_ngErr w); [apply dbg_refl|]. exists (w_ngErr w), (w_ngRule w), (u8 (w_ngPos w + n)). destruct w. reflexivity. Qed.
Lemma dbg_setError : rel dbg (@dbgSetError A).
Proof. intros w. exists true, (w_ngRule w), (w_ngPos w). destruct w. reflexivity. Qed.

Definition goodRule (r : list N) : Prop := r <> [] /\ hd 0 r = N.of_nat (length r) /\ (length r <= 40)%nat.
Lemma skipn_map_app n r t : (n <= length r)%nat -> skipn n (map Some r ++ t) = map (@Some N) (skipn n r) ++ t.
Proof. intros H. rewrite skipn_app, map_length. replace (n - length r)%nat with 0%nat by lia. rewrite skipn_map. reflexivity. Qed.
Lemma rule_step exec m r t w : goodRule r ->
  exists w', dbg w w' /\ ng_rule exec m (map Some r ++ t) w = if ruleDecides m r then exec (nth 1 r 0) (nth 2 r 0) m w' else (tt, w').
Proof.
  intros (H0 & H1 & H2). unfold ng_rule.
  assert (HL : (0 < length r)%nat) by (destruct r; [congruence|cbn; lia]).
  unfold bind at 1. set (w1 := snd (dbgIncRule w)). assert (D1 : dbg w w1) by apply dbg_incRule.
  rewrite rp_some by (cbn; lia). change (nth (N.to_nat 0) r 0) with (nth 0 r 0). replace (nth 0 r 0) with (hd 0 r) by (destruct r; reflexivity). rewrite H1.
  unfold bind at 1. cbn [snd ret]. unfold ruleDecides. destruct (Nat.leb_spec 6 (length r)) as [L|L].
  - replace (NG_SIZE_MIN <=? N.of_nat (length r)) with true by (unfold NG_SIZE_MIN; lia).
    rewrite !rp_some by lia. cbn [orb]. unfold bind at 1. cbn [snd ret andb]. change (nth (N.to_nat 1) r 0) with (nth 1 r 0). change (nth (N.to_nat 2) r 0) with (nth 2 r 0).
    unfold NG_ACTION_NOP. destruct (nth 1 r 0 =? 0) eqn:AZ; cbn [negb andb]; [exists w1; split; [exact D1|reflexivity]|].
    assert (HS : N.of_nat (length r) - 3 = N.of_nat (length (skipn 3 r))) by (rewrite skipn_length; lia). rewrite HS, skipn_map_app by lia.
    unfold ng_decide. destruct (decision_indep (skipn 3 r) t m) as [DI DU]. rewrite DI in DU. rewrite DI, DU.
    set (d := ng_getDecisionResult _ _ m). unfold bind at 1. unfold bind at 1. cbn [snd ret]. unfold bind at 1.
    destruct (dec_error d) eqn:DE.
    + exists (snd (dbgSetError (snd (dbgIncPos (dec_index d) w1)))). split; [|reflexivity].
      eapply dbg_trans; [exact D1|]. eapply dbg_trans; [apply dbg_incPos|apply dbg_setError].
    + exists w1. split; [exact D1|]. cbn [snd ret fst negb andb]. destruct (dec_result d); reflexivity.
  - replace (NG_SIZE_MIN <=? N.of_nat (length r)) with false by (unfold NG_SIZE_MIN; lia). cbn [andb].
    exists (snd (dbgSetError (snd (dbgIncPos 1 w1)))). split; [|reflexivity].
    eapply dbg_trans; [exact D1|]. eapply dbg_trans; [apply dbg_incPos|apply dbg_setError].
Qed.

(* ---- fetching rules ---- *)
Lemma ngByte_read i w : ps_readNG i w = (ngByte w i, w). Proof. apply ps_readNG_state. Qed.
Definition bytesAt w o n : list N := map (fun j => ngByte w (o + j)) (Nseq n).
Lemma bytesAt_length w o n : length (bytesAt w o n) = N.to_nat n. Proof. unfold bytesAt, Nseq. rewrite !map_length, seq_length. reflexivity. Qed.
Lemma copy_spec n : forall o buf w, (n <= length buf)%nat -> o + N.of_nat n < 65536 ->
  ng_copy n o buf w = (map Some (bytesAt w o (N.of_nat n)) ++ skipn n buf, w).
Proof.
  induction n as [|n IH]; intros o buf w Hn Ho.
  - destruct buf; reflexivity.
  - destruct buf as [|x buf]; [cbn in Hn; lia|]. cbn [ng_copy]. unfold bind. rewrite ngByte_read. cbn [fst snd].
    rewrite IH by (cbn in Hn; lia). cbn [fst snd ret]. unfold ret. f_equal.
    replace (u16 o) with o by (unfold u16; lia). unfold bytesAt, Nseq. rewrite !Nat2N.id. cbn [seq map]. rewrite N.add_0_r. cbn [app skipn].
    f_equal. f_equal. rewrite <- seq_shift, !map_map. apply map_ext. intros j. f_equal. f_equal. lia.
Qed.
Lemma next_spec n o buf w : w_ngCnt w = N.of_nat n -> w_ngIdx w = o -> o + 40 < 65536 -> length buf = 40%nat -> (n <= 255)%nat ->
  ng_getNextRule buf w =
  match n with
  | O => ((NG_NO_RULE, buf), w)
  | S k => if 40 <? ngByte w o then ((NG_ERROR, buf), w)
           else ((NG_OK, map Some (bytesAt w o (ngByte w o)) ++ skipn (N.to_nat (ngByte w o)) buf),
                 set_ngCnt (N.of_nat k) (set_ngIdx (o + ngByte w o) w))
  end.
Proof.
  intros HC HI Ho HB Hn. unfold ng_getNextRule. rewrite bind_get, HC. destruct n as [|k]; [reflexivity|].
  replace (N.of_nat (S k) =? 0) with false by lia. rewrite bind_get, HI. unfold bind at 1. rewrite ngByte_read. cbn [fst snd].
  unfold NG_RULE_MAX_SIZE. destruct (N.ltb_spec 40 (ngByte w o)) as [L|L]; [reflexivity|].
  unfold bind at 1. rewrite copy_spec by lia. cbn [fst snd]. rewrite N2Nat.id. unfold bind, upd, ret. cbn [fst snd].
  replace (u16 (o + ngByte w o)) with (o + ngByte w o) by (unfold u16; lia). replace (u8 (N.of_nat (S k) + 255)) with (N.of_nat k) by (unfold u8; lia). reflexivity.
Qed.

(* ---- what the application's actions leave alone ---- *)
Definition calmN w w' : Prop :=
  (exists l, w_out w' = l ++ w_out w /\ actions l = []) /\ (forall i, ngByte w' i = ngByte w i) /\ w_ngCnt w' = w_ngCnt w /\ w_ngIdx w' = w_ngIdx w.
Lemma calmN_refl w : calmN w w. Proof. split; [exists []|]; auto. Qed.
Lemma calmN_trans a b c : calmN a b -> calmN b c -> calmN a c.
Proof.
  intros ((l1 & H1 & H2) & H3 & H4 & H5) ((l2 & G1 & G2) & G3 & G4 & G5). split.
  - exists (l2 ++ l1). rewrite G1, H1, app_assoc, actions_app, G2, H2. auto.
  - split; [intros i; rewrite G3; apply H3|]. split; congruence.
Qed.
Lemma ngByte_ext w w' : (forall a, w_ps w' a = w_ps w a) -> forall i, ngByte w' i = ngByte w i.
Proof. intros H i. unfold ngByte, stored, readField, ps_readNG, psReadIdx, psRead8. destruct (i <? sz_ng cfg); [apply H|reflexivity]. Qed.
Lemma calmN_same w w' : w_out w' = w_out w -> w_ps w' = w_ps w -> w_ngCnt w' = w_ngCnt w -> w_ngIdx w' = w_ngIdx w -> calmN w w'.
Proof. intros H1 H2 H3 H4. split; [exists []; auto|]. split; [apply ngByte_ext; intros a; rewrite H2; reflexivity|auto]. Qed.
Lemma ngByte_big w i : ~ i < fieldLen cfg FNg -> ngByte w i = 0.
Proof.
  intros H. unfold ngByte, stored, readField, ps_readNG, psReadIdx. replace (i <? sz_ng cfg) with false; [reflexivity|].
  cbn [fieldLen] in H. unfold sz_ng, b2n. destruct (c_dm_ng cfg); lia.
Qed.
Lemma calmN_write f i v : f <> FNg -> i < fieldLen cfg f -> rel calmN (psWrite8 (fieldBase cfg f + i) v).
Proof.
  intros Hf Hi w. unfold psWrite8, emit, bind, upd. cbn [fst snd]. split; [|split; [|auto]].
  - exists [OPs (fieldBase cfg f + i) (u8 v)]. wsimp. auto.
  - intros j. destruct (N.ltb_spec j (fieldLen cfg FNg)) as [L|L]; [|rewrite !ngByte_big by lia; reflexivity].
    unfold ngByte, stored. rewrite !readField_eq by exact L. wsimp. unfold fupd.
    rewrite field_addr_inj by assumption. destruct (field_eqb FNg f && (j =? i)) eqn:X; [|reflexivity].
    apply andb_prop in X. destruct X as [X _]. exfalso. apply Hf. destruct f; try discriminate X; reflexivity.
Qed.
Lemma calmN_emit o : (match o with OAction _ _ _ => False | _ => True end) -> rel calmN (emit o).
Proof. intros H w. split; [exists [o]; split; [reflexivity|destruct o; tauto]|]. split; [apply ngByte_ext; reflexivity|auto]. Qed.
End N.
Ltac calmN_upd := intros; apply calmN_same; reflexivity.
Section N2.
Context {A : Type} {E : Env A}.
Implicit Type w : World A.
Lemma calmN_tx m : rel calmN (tp_writeMessage m).
Proof.
  assert (R1 := @calmN_refl A E). assert (R2 := @calmN_trans A E).
  unfold tp_writeMessage, adapterWrite, loopWrite, setUB. rel_tac; try calmN_upd; try (apply calmN_emit; exact I).
  destruct (_ <? _); calmN_upd.
Qed.
Lemma calmN_nick v : rel calmN (writeNicknameId v).
Proof.
  assert (R1 := @calmN_refl A E). assert (R2 := @calmN_trans A E).
  unfold writeNicknameId, ps_writeNicknameId, ps_readNicknameId, psRead8. rel_tac; try calmN_upd.
  replace (ps_nick cfg) with (fieldBase cfg FNick + 0) by (cbn; lia). apply calmN_write; [discriminate|cbn; lia].
Qed.
Lemma calmN_doApi c : leavesRules c -> rel calmN (doApi c).
Proof.
  assert (R1 := @calmN_refl A E). assert (R2 := @calmN_trans A E). assert (T := calmN_tx). assert (NI := calmN_nick).
  assert (L : forall f n i l e d, rel calmN (log_loop f n i l e d)) by (apply tr_log_loop; assumption).
  intros H. unfold doApi. apply rel_bind; [assumption|apply calmN_emit; exact I|]. intros _. destruct c; try contradiction H.
  all: unfold setAlarm, setTimeSinceEpoch, enableHeartbeat, startNodeSegmentInit, changeToStateInit, log_enable, log_setLevel, log_log, log_sendLogEvent,
         ps_writeLogId, ps_writeZone, ps_writeSub, tp_getTransmitErrors.
  all: destruct (c_logger cfg) eqn:CL; destruct (d_zone_ps cfg) eqn:CZ; destruct (d_sub_ps cfg) eqn:CS; cbv iota; rel_tac; try calmN_upd; try (apply calmN_emit; exact I).
  all: match goal with
       | |- rel _ (psWrite8 (ps_log _) _) => replace (ps_log cfg) with (fieldBase cfg FLog + 0) by (cbn [fieldBase]; lia)
       | |- rel _ (psWrite8 (ps_zone _) _) => replace (ps_zone cfg) with (fieldBase cfg FZone + 0) by (cbn [fieldBase]; lia)
       | |- rel _ (psWrite8 (ps_sub _) _) => replace (ps_sub cfg) with (fieldBase cfg FSub + 0) by (cbn [fieldBase]; lia)
       end.
  all: apply calmN_write; [discriminate|cbn [fieldLen]; rewrite ?CL, ?CZ, ?CS; lia].
Qed.
Lemma calmN_calls l : Forall leavesRules l -> rel calmN (forM l doApi).
Proof.
  induction 1 as [|c l Hc Hl IH]; cbn [forM]; [apply rel_ret, calmN_refl|].
  apply rel_bind; [apply calmN_trans|apply calmN_doApi; assumption|intros _; exact IH].
Qed.
Lemma calmN_action a p m : (forall s x y e, Forall leavesRules (fst (app_action s x y e))) ->
  forall w, exists w1, w_out w1 = OAction a p m :: w_out w /\ (forall i, ngByte w1 i = ngByte w i) /\ w_ngCnt w1 = w_ngCnt w /\ w_ngIdx w1 = w_ngIdx w /\
            calmN w1 (snd (actionExecute a p m w)).
Proof.
  intros H w. unfold actionExecute. rewrite bind_emit, bind_get, bind_upd. eexists. split; [|split; [|split; [|split; [|apply calmN_calls, H]]]]; try reflexivity.
  apply ngByte_ext. reflexivity.
Qed.

(* ---- the whole rule set ---- *)
Lemma bytesAt_same w w' o n : (forall i, ngByte w' i = ngByte w i) -> bytesAt w' o n = bytesAt w o n.
Proof. intros H. unfold bytesAt. apply map_ext. intros j. apply H. Qed.
Lemma bytesAt_good w o : ngByte w o <= 40 -> bytesAt w o (ngByte w o) <> [] -> goodRule (bytesAt w o (ngByte w o)).
Proof.
  intros H H0. split; [exact H0|]. pose proof (bytesAt_length w o (ngByte w o)) as HL. split; [|lia].
  rewrite HL. unfold bytesAt, Nseq in *. destruct (N.to_nat (ngByte w o)) as [|k] eqn:K.
  - exfalso. apply H0. rewrite ?K. reflexivity.
  - cbn [seq map hd]. rewrite N.add_0_r. lia.
Qed.
Lemma exec_rules m : (forall s x y e, Forall leavesRules (fst (app_action s x y e))) ->
  forall n fuel r t w0 w o, (n < fuel)%nat -> (n <= 255)%nat -> goodRule r -> length (map Some r ++ t) = 40%nat ->
  w_ngCnt w = N.of_nat n -> w_ngIdx w = o -> o + 40 * N.of_nat (S n) < 65536 ->
  (forall i, ngByte w i = ngByte w0 i) ->
  exists l, w_out (snd (ng_rules fuel actionExecute m (map Some r ++ t) w)) = l ++ w_out w /\
    actions (rev l) = bytesActions m r ++ flat_map (bytesActions m) (inEffect r (rulesFrom w0 n o)).
Proof.
  intros HA. induction n as [n IH] using (well_founded_induction lt_wf). intros fuel r t w0 w o Hf Hn HG HL HC HI Ho HS.
  destruct fuel as [|fuel]; [lia|]. cbn [ng_rules].
  destruct (rule_step actionExecute m r t w HG) as (w1 & (e' & r' & p' & D) & HR).
  unfold bind at 1. rewrite HR. clear HR.
  assert (S1 : w_out w1 = w_out w /\ (forall i, ngByte w1 i = ngByte w i) /\ w_ngCnt w1 = w_ngCnt w /\ w_ngIdx w1 = w_ngIdx w).
  { subst w1. split; [reflexivity|]. split; [apply ngByte_ext; reflexivity|]. split; reflexivity. }
  clear D. set (w2 := snd (if ruleDecides m r then actionExecute (nth 1 r 0) (nth 2 r 0) m w1 else (tt, w1))).
  assert (S2 : exists l1, w_out w2 = l1 ++ w_out w /\ actions (rev l1) = bytesActions m r /\ (forall i, ngByte w2 i = ngByte w i) /\ w_ngCnt w2 = w_ngCnt w /\ w_ngIdx w2 = w_ngIdx w).
  { destruct S1 as (T1 & T2 & T3 & T4). unfold w2, bytesActions. destruct (ruleDecides m r).
    - destruct (calmN_action (nth 1 r 0) (nth 2 r 0) m HA w1) as (w3 & U1 & U2 & U3 & U4 & (lc & V1 & V2) & V3 & V4 & V5).
      exists (lc ++ [OAction (nth 1 r 0) (nth 2 r 0) m]). rewrite V1, U1, T1. split; [rewrite <- app_assoc; reflexivity|].
      split; [rewrite rev_app_distr, actions_app, (actions_rev lc V2); reflexivity|].
      split; [intros i; rewrite V3, U2; apply T2|]. split; congruence.
    - exists []. auto. }
  clearbody w2. clear S1 w1. destruct S2 as (l1 & T1 & T2 & T3 & T4 & T5).
  unfold bind at 1. rewrite (next_spec n o) by (congruence || lia).
  destruct n as [|k].
  - cbn [fst snd]. exists l1. split; [exact T1|]. cbn [rulesFrom inEffect flat_map]. rewrite app_nil_r. exact T2.
  - cbn [rulesFrom] in *. rewrite <- (HS o), <- (T3 o) in *.
    assert (HB : map (fun j => ngByte w0 (o + j)) (Nseq (ngByte w2 o)) = bytesAt w2 o (ngByte w2 o)).
    { unfold bytesAt. apply map_ext. intros j. rewrite T3, HS. reflexivity. }
    rewrite HB in *.
    destruct (N.ltb_spec 40 (ngByte w2 o)) as [L|L].
    + cbn [fst snd inEffect flat_map]. exists l1. rewrite app_nil_r. auto.
    + cbn [fst snd].
      destruct (N.eq_dec (ngByte w2 o) 0) as [Z|Z].
      { rewrite Z in *. change (bytesAt w2 o 0) with (@nil N) in *. cbn [map app N.to_nat skipn inEffect flat_map].
        destruct (IH k ltac:(lia) fuel r t w0 (set_ngCnt (N.of_nat k) (set_ngIdx (o + 0) w2)) (o + 0)) as (l2 & G1 & G2); try lia; try assumption; try reflexivity.
        - intros i. transitivity (ngByte w2 i); [apply ngByte_ext; reflexivity|]. rewrite T3. apply HS.
        - exists (l2 ++ l1). rewrite G1. wsimp. rewrite T1, app_assoc. split; [reflexivity|].
          rewrite rev_app_distr, actions_app, G2, T2. reflexivity. }
      assert (NE : bytesAt w2 o (ngByte w2 o) <> []) by (intros X; pose proof (bytesAt_length w2 o (ngByte w2 o)) as BL; rewrite X in BL; cbn in BL; lia).
      replace (inEffect r (bytesAt w2 o (ngByte w2 o) :: rulesFrom w0 k (o + ngByte w2 o)))
        with (bytesAt w2 o (ngByte w2 o) :: inEffect (bytesAt w2 o (ngByte w2 o)) (rulesFrom w0 k (o + ngByte w2 o)))
        by (destruct (bytesAt w2 o (ngByte w2 o)); [congruence|reflexivity]). cbn [flat_map].
      destruct (IH k ltac:(lia) fuel (bytesAt w2 o (ngByte w2 o)) (skipn (N.to_nat (ngByte w2 o)) (map Some r ++ t)) w0
                  (set_ngCnt (N.of_nat k) (set_ngIdx (o + ngByte w2 o) w2)) (o + ngByte w2 o)) as (l2 & G1 & G2); try lia; try assumption; try reflexivity.
      * apply bytesAt_good; assumption.
      * rewrite app_length, map_length, bytesAt_length, skipn_length, HL. lia.
      * intros i. transitivity (ngByte w2 i); [apply ngByte_ext; reflexivity|]. rewrite T3. apply HS.
      * exists (l2 ++ l1). rewrite G1. wsimp. rewrite T1, app_assoc. split; [reflexivity|].
        rewrite rev_app_distr, actions_app, G2, T2. reflexivity.
Qed.
Lemma inEffect_id rs : forall p, Forall (fun r : list N => r <> []) rs -> inEffect p rs = rs.
Proof. induction rs as [|r rs IH]; intros p H; [reflexivity|]. inversion H; subst. destruct r; [congruence|]. cbn [inEffect]. rewrite IH by assumption. reflexivity. Qed.
Lemma first_nonempty w : ngByte w 1 <= 40 -> Forall (fun r => r <> []) (storedRules w) -> ngByte w 0 <> 0 -> ngByte w 1 <> 0.
Proof.
  unfold storedRules. intros L H H0 Z. destruct (N.to_nat (ngByte w 0)) as [|n] eqn:En; [lia|]. cbn [rulesFrom] in H. rewrite Z in H. inversion H as [|? ? H1 _]. apply H1. reflexivity.
Qed.
Lemma first_run buf w : ng_getFirstRule buf w = ng_getNextRule buf (set_ngIdx 1 (set_ngCnt (ngByte w 0) (set_ngIdx 0 w))).
Proof.
  unfold ng_getFirstRule. rewrite bind_upd. unfold bind at 1. rewrite (ngByte_read 0 (set_ngIdx 0 w)). cbn [fst snd].
  rewrite bind_upd, bind_upd. replace (ngByte (set_ngIdx 0 w) 0) with (ngByte w 0); [reflexivity|]. symmetry. apply ngByte_ext. reflexivity.
Qed.
Lemma exec_all m w : (forall s x y e, Forall leavesRules (fst (app_action s x y e))) -> ngByte w 0 < 256 -> (ngByte w 0 <> 0 -> ngByte w 1 <> 0) ->
  exists l, w_out (snd (ng_executeActions actionExecute m w)) = l ++ w_out w /\ actions (rev l) = flat_map (bytesActions m) (inEffect [] (storedRules w)).
Proof.
  intros HA HC HF. unfold ng_executeActions. unfold bind at 1. rewrite first_run.
  match goal with |- context[ng_getNextRule _ ?x] => set (w1 := x) end.
  assert (HB : forall i, ngByte w1 i = ngByte w i) by (apply ngByte_ext; reflexivity).
  assert (HC1 : w_ngCnt w1 = ngByte w 0) by reflexivity.
  assert (HI1 : w_ngIdx w1 = 1 /\ w_out w1 = w_out w) by (split; reflexivity). clearbody w1. destruct HI1 as [HI1 HO1].
  set (n := N.to_nat (ngByte w 0)) in *. unfold storedRules in *. fold n.
  rewrite (next_spec n 1 _ w1); [|rewrite HC1; unfold n; lia|exact HI1|lia|reflexivity|unfold n; lia].
  destruct n as [|k] eqn:En; [exists []; split; [exact HO1|reflexivity]|]. cbn [rulesFrom] in *. rewrite HB.
  assert (HBs : map (fun j => ngByte w (1 + j)) (Nseq (ngByte w 1)) = bytesAt w1 1 (ngByte w 1)) by (unfold bytesAt; apply map_ext; intros j; rewrite HB; reflexivity).
  rewrite HBs in *.
  destruct (N.ltb_spec 40 (ngByte w 1)) as [L|L]; [exists []; split; [exact HO1|reflexivity]|]. cbn [fst snd].
  assert (HF1 : bytesAt w1 1 (ngByte w 1) <> []).
  { intros X. pose proof (bytesAt_length w1 1 (ngByte w 1)) as BL. rewrite X in BL. cbn [length] in BL. assert (ngByte w 1 <> 0) by (apply HF; lia). lia. }
  unfold bind at 1. unfold dbgClrError. cbn [bind upd fst snd].
  set (r := bytesAt w1 1 (ngByte w 1)) in *.
  assert (HG : goodRule r) by (unfold r in *; rewrite <- (HB 1) in HF1, L |- *; apply bytesAt_good; [exact L|exact HF1]).
  destruct (exec_rules m HA k 256 r (skipn (N.to_nat (ngByte w 1)) (repeat None (N.to_nat NG_RULE_MAX_SIZE))) w
     (set_ngPos 0 (set_ngRule 0 (set_ngErr false (set_ngCnt (N.of_nat k) (set_ngIdx (1 + ngByte w 1) w1))))) (1 + ngByte w 1)) as (l & G1 & G2); try lia; try assumption; try reflexivity.
  - unfold r. rewrite app_length, map_length, bytesAt_length, skipn_length, repeat_length. unfold NG_RULE_MAX_SIZE. lia.
  - intros i. transitivity (ngByte w1 i); [apply ngByte_ext; reflexivity|]. apply HB.
  - exists l. split; [rewrite <- HO1; exact G1|].
    replace (inEffect [] (r :: rulesFrom w k (1 + ngByte w 1))) with (r :: inEffect r (rulesFrom w k (1 + ngByte w 1))) by (destruct r; [congruence|reflexivity]).
    cbn [flat_map]. rewrite G2. reflexivity.
Qed.

(* ---- any contents: what is accessed, how many actions ---- *)
Definition calmA w w' : Prop :=
  (exists l, w_out w' = l ++ w_out w /\ actions l = []) /\ w_ngCnt w' = w_ngCnt w /\ w_ngIdx w' = w_ngIdx w /\ w_ngub w' = w_ngub w.
Lemma calmA_doApi c : rel calmA (doApi c).
Proof.
  assert (Rrefl : forall w, calmA w w) by (intros w; split; [exists []|]; auto).
  assert (Rtrans : forall a b c, calmA a b -> calmA b c -> calmA a c).
  { intros x y z ((l1 & H1 & H2) & H3 & H4 & H5) ((l2 & G1 & G2) & G3 & G4 & G5). split; [|repeat split; congruence].
    exists (l2 ++ l1). rewrite G1, H1, app_assoc, actions_app, G2, H2. auto. }
  assert (S : forall w w', w_out w' = w_out w -> w_ngCnt w' = w_ngCnt w -> w_ngIdx w' = w_ngIdx w -> w_ngub w' = w_ngub w -> calmA w w').
  { intros w w' H1 H2 H3 H4. split; [exists []; auto|auto]. }
  assert (He : forall o, (match o with OAction _ _ _ => False | _ => True end) -> rel calmA (emit o)).
  { intros o H w. split; [exists [o]; split; [reflexivity|destruct o; tauto]|auto]. }
  assert (X_emit : forall o, plainObs o = true -> rel calmA (emit o)) by (intros o H; apply He; destruct o; try exact I; discriminate H).
  assert (t_tx : forall m, rel calmA (tp_writeMessage m)).
  { intros m. unfold tp_writeMessage, adapterWrite, loopWrite, setUB. rel_tac; try (apply S; reflexivity); try (apply He; exact I).
    destruct (w_txe _ <? 255); apply S; reflexivity. }
  assert (t_psW : forall a v, rel calmA (psWrite8 a v)) by (intros a v; unfold psWrite8; rel_tac; try (apply S; reflexivity); apply He; exact I).
  assert (t_nick : forall v, rel calmA (writeNicknameId v)) by (intros v; apply tr_writeNicknameId; auto; intros; apply S; reflexivity).
  assert (t_init : forall b, rel calmA (changeToStateInit b)) by (intros b; apply tr_toInit; try assumption; intros; first [apply He; exact Logic.I | apply S; reflexivity]).
  assert (t_restore : rel calmA restoreFactory) by (apply tr_restoreFactory; auto; intros; apply S; reflexivity).
  apply tr_doApi; try assumption; intros;
    try (unfold setAlarm, setTimeSinceEpoch, enableHeartbeat, log_enable, log_setLevel, tp_getTransmitErrors; rel_tac; try (apply S; reflexivity); apply He; exact I).
Qed.
Lemma calmA_calls l : rel calmA (forM l doApi).
Proof.
  apply rel_forM; [intros w; split; [exists []|]; auto| |apply calmA_doApi].
  intros x y z ((l1 & H1 & H2) & H3 & H4 & H5) ((l2 & G1 & G2) & G3 & G4 & G5). split; [|repeat split; congruence].
  exists (l2 ++ l1). rewrite G1, H1, app_assoc, actions_app, G2, H2. auto.
Qed.
Lemma action_calm a p m w : let w' := snd (actionExecute a p m w) in
  (exists l, w_out w' = l ++ w_out w /\ length (actions l) = 1%nat) /\ w_ngCnt w' = w_ngCnt w /\ w_ngIdx w' = w_ngIdx w /\ w_ngub w' = w_ngub w.
Proof.
  cbv zeta. unfold actionExecute. rewrite bind_emit, bind_get, bind_upd.
  match goal with |- context[forM ?l doApi ?x] => destruct (calmA_calls l x) as ((d & H1 & H2) & H3 & H4 & H5) end.
  rewrite H1, H3, H4, H5. split; [|auto]. exists (d ++ [OAction a p m]). wsimp. rewrite <- app_assoc. split; [reflexivity|]. rewrite actions_app, H2. reflexivity.
Qed.
Lemma copy_some n : forall o buf w, (n <= length buf)%nat ->
  exists l, length l = n /\ (n <> O -> hd 0 l = ngByte w (u16 o)) /\ ng_copy n o buf w = (map Some l ++ skipn n buf, w).
Proof.
  induction n as [|n IH]; intros o buf w Hn.
  - exists []. split; [reflexivity|]. split; [congruence|]. destruct buf; reflexivity.
  - destruct buf as [|x buf]; [cbn in Hn; lia|]. cbn [ng_copy]. unfold bind. rewrite ngByte_read. cbn [fst snd].
    destruct (IH (o + 1) buf w) as (l & H1 & H2 & H3); [cbn in Hn; lia|]. rewrite H3. exists (ngByte w (u16 o) :: l). cbn. auto.
Qed.
Definition goodBuf (buf : list (option N)) : Prop := length buf = 40%nat /\ exists r t, buf = map Some r ++ t /\ goodRule r.
Lemma next_safe buf w : length buf = 40%nat -> w_ngIdx w < 65536 -> w_ngCnt w < 256 ->
  let p := ng_getNextRule buf w in
  w_out (snd p) = w_out w /\ w_ngub (snd p) = w_ngub w /\
  (fst (fst p) = NG_OK -> w_ngCnt w = w_ngCnt (snd p) + 1 /\ w_ngIdx (snd p) < 65536 /\ (goodBuf buf \/ ngByte w (w_ngIdx w) <> 0 -> goodBuf (snd (fst p)))).
Proof.
  intros HL HI HC. cbv zeta. set (s := ngByte w (w_ngIdx w)).
  assert (HP : exists l, length l = N.to_nat s /\ (N.to_nat s <> O -> hd 0 l = ngByte w (u16 (w_ngIdx w))) /\
    (ng_getNextRule buf w = ((NG_NO_RULE, buf), w) \/ ng_getNextRule buf w = ((NG_ERROR, buf), w) \/
     s <= 40 /\ w_ngCnt w <> 0 /\ ng_getNextRule buf w = ((NG_OK, map Some l ++ skipn (N.to_nat s) buf), set_ngCnt (u8 (w_ngCnt w + 255)) (set_ngIdx (u16 (w_ngIdx w + s)) w)))).
  { destruct (N.ltb_spec 40 s) as [L|L].
    - exists (ngByte w (u16 (w_ngIdx w)) :: repeat 0 (N.to_nat s - 1)). split; [cbn; rewrite repeat_length; lia|]. split; [reflexivity|].
      unfold ng_getNextRule. rewrite bind_get. destruct (w_ngCnt w =? 0); [left; reflexivity|]. right; left. rewrite bind_get. unfold bind at 1. rewrite ngByte_read. cbn [fst snd].
      unfold NG_RULE_MAX_SIZE. fold s. replace (40 <? s) with true by lia. reflexivity.
    - destruct (copy_some (N.to_nat s) (w_ngIdx w) buf w) as (l & H1 & H2 & H3); [lia|]. exists l. split; [exact H1|]. split; [exact H2|].
      unfold ng_getNextRule. rewrite bind_get. destruct (w_ngCnt w =? 0) eqn:C0; [left; reflexivity|]. right; right. split; [exact L|]. split; [lia|].
      rewrite bind_get. unfold bind at 1. rewrite ngByte_read. cbn [fst snd]. unfold NG_RULE_MAX_SIZE. fold s. replace (40 <? s) with false by lia.
      unfold bind at 1. rewrite H3. reflexivity. }
  destruct HP as (l & H1 & H2 & [HP|[HP|(L & C0 & HP)]]); rewrite HP; cbn [fst snd]; wsimp; (split; [reflexivity|]); (split; [reflexivity|]); [intros X; discriminate X|intros X; discriminate X|].
  intros _. split; [unfold u8; lia|]. split; [apply u16_lt|].
  intros HB. split; [rewrite app_length, map_length, skipn_length; lia|].
  destruct (N.eq_dec s 0) as [Z|Z].
  - rewrite Z in *. destruct l; [|discriminate H1]. cbn [N.to_nat map app skipn]. destruct HB as [[_ HB]|HB]; [exact HB|contradiction].
  - exists l, (skipn (N.to_nat s) buf). split; [reflexivity|]. split; [destruct l; [cbn in H1; lia|discriminate]|].
    rewrite H2 by lia. replace (u16 (w_ngIdx w)) with (w_ngIdx w) by (unfold u16; lia). split; [unfold s in *; lia|lia].
Qed.
Lemma rules_safe m : forall fuel buf w, goodBuf buf -> (N.to_nat (w_ngCnt w) < fuel)%nat -> w_ngCnt w < 256 -> w_ngIdx w < 65536 ->
  let w' := snd (ng_rules fuel actionExecute m buf w) in
  w_ngub w' = w_ngub w /\ exists l, w_out w' = l ++ w_out w /\ (length (actions l) <= S (N.to_nat (w_ngCnt w)))%nat.
Proof.
  induction fuel as [|fuel IH]; intros buf w (HL & r & t & HB & HG) HF HC HI; [lia|]. intros w'. set (w1 := snd (ng_rule actionExecute m buf w)).
  set (p := ng_getNextRule buf w1).
  assert (HW : w' = snd ((match fst (fst p) with NG_OK => ng_rules fuel actionExecute m (snd (fst p)) | _ => ret tt end) (snd p))) by reflexivity.
  clearbody w'. subst w'. unfold p. clear p.
  assert (S1 : (exists l, w_out w1 = l ++ w_out w /\ (length (actions l) <= 1)%nat) /\ w_ngCnt w1 = w_ngCnt w /\ w_ngIdx w1 = w_ngIdx w /\ w_ngub w1 = w_ngub w).
  { unfold w1. rewrite HB. destruct (rule_step actionExecute m r t w HG) as (w2 & (e' & r' & p' & D) & HR). rewrite HR. clear HR w1.
    assert (S2 : w_out w2 = w_out w /\ w_ngCnt w2 = w_ngCnt w /\ w_ngIdx w2 = w_ngIdx w /\ w_ngub w2 = w_ngub w) by (subst w2; repeat split).
    clear D. destruct S2 as (T1 & T2 & T3 & T4). destruct (ruleDecides m r).
    - destruct (action_calm (nth 1 r 0) (nth 2 r 0) m w2) as ((l & U1 & U2) & U3 & U4 & U5). split; [|repeat split; congruence].
      exists l. rewrite U1, T1. split; [reflexivity|lia].
    - split; [exists []; split; [exact T1|cbn; lia]|auto]. }
  clearbody w1. destruct S1 as ((l1 & T1 & T2) & T3 & T4 & T5).
  destruct (next_safe buf w1 HL) as (N1 & N2 & N3); [congruence|congruence|].
  set (p := ng_getNextRule buf w1) in *. destruct (fst (fst p)) eqn:Q.
  - destruct (N3 eq_refl) as (N4 & N5 & N6).
    destruct (IH (snd (fst p)) (snd p)) as (I1 & l2 & I2 & I3); [apply N6; left; split; [exact HL|exists r, t; auto]|lia|lia|exact N5|].
    split; [congruence|]. exists (l2 ++ l1). rewrite I2, N1, T1, app_assoc. split; [reflexivity|]. rewrite actions_app, app_length. lia.
  - split; [cbn; congruence|]. exists l1. cbn. rewrite N1, T1. split; [reflexivity|lia].
  - split; [cbn; congruence|]. exists l1. cbn. rewrite N1, T1. split; [reflexivity|lia].
Qed.
Lemma exec_safe m w : ngByte w 0 < 256 -> (ngByte w 0 <> 0 -> ngByte w 1 <> 0) ->
  let w' := snd (ng_executeActions actionExecute m w) in
  w_ngub w' = w_ngub w /\ exists l, w_out w' = l ++ w_out w /\ N.of_nat (length (actions l)) <= ngByte w 0.
Proof.
  intros HC H1. intros w'.
  set (b0 := repeat (@None N) (N.to_nat NG_RULE_MAX_SIZE)).
  assert (HW : forall p, ng_getFirstRule b0 w = p -> w' = snd ((match fst (fst p) with NG_OK => dbgClrError ;; ng_rules 256 actionExecute m (snd (fst p)) | _ => ret tt end) (snd p))) by (intros p <-; reflexivity).
  clearbody w'. specialize (HW _ (first_run b0 w)). subst w'.
  match goal with |- context[ng_getNextRule _ ?x] => set (w1 := x) end.
  assert (HB : forall i, ngByte w1 i = ngByte w i) by (apply ngByte_ext; reflexivity).
  assert (HC1 : w_ngCnt w1 = ngByte w 0) by reflexivity. assert (HI1 : w_ngIdx w1 = 1) by reflexivity.
  assert (HO1 : w_out w1 = w_out w) by reflexivity. assert (HU1 : w_ngub w1 = w_ngub w) by reflexivity. clearbody w1.
  destruct (next_safe b0 w1) as (N1 & N2 & N3); [reflexivity|lia|lia|].
  set (p := ng_getNextRule b0 w1) in *. destruct (fst (fst p)) eqn:Q.
  - destruct (N3 eq_refl) as (N4 & N5 & N6). unfold bind at 1 2.
    set (w2 := snd (dbgClrError (snd p))).
    assert (W2 : w_ngub w2 = w_ngub (snd p) /\ w_out w2 = w_out (snd p) /\ w_ngCnt w2 = w_ngCnt (snd p) /\ w_ngIdx w2 = w_ngIdx (snd p)) by (repeat split).
    clearbody w2. destruct W2 as (A1 & A2 & A3 & A4).
    destruct (rules_safe m 256 (snd (fst p)) w2) as (I1 & l & I2 & I3); [apply N6; right; rewrite HI1, HB; apply H1; lia|lia|lia|congruence|].
    split; [congruence|]. exists l. rewrite I2. split; [congruence|]. lia.
  - split; [cbn; congruence|]. exists []. cbn. split; [congruence|lia].
  - split; [cbn; congruence|]. exists []. cbn. split; [congruence|lia].
Qed.
End N2.
