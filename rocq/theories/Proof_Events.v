(* Proof_Events.v - the event functions: every function but seven is an instance of one of three schemes, and the schemes are
   right *)
From Coq Require Import String.
From Verif Require Export Spec_Events EventTable.
From Verif Require Import Proof_DataCoding.
Local Open Scope N_scope.

(* the statements that a function with the given parameters has to consist of; i: number of the parameter, pos: position in the
   payload. Only a comparison with the bodies in EventTable: nothing below relies on it being right. *)
Definition setsI (i : nat) (pos w : N) : list Basic :=
  map (fun q => Set_ (pos + q) (if w =? 1 then Par i else Shift i ((w - 1 - q) * 8))) (Nseq w).
Definition setsF (i : nat) (pos w : N) : list Basic :=
  map (fun q => Set_ (pos + q) (Byte i w (w - 1 - q))) (Nseq w).
Fixpoint schemeF (i : nat) (pos : N) (ks : list PKind) : list Stmt :=
  match ks with
  | PInt w :: r => map Do (setsI i pos w ++ [Add w]) ++ schemeF (S i) (pos + w) r
  | PFloat :: r => map Do (setsF i pos 4 ++ [Add 4]) ++ schemeF (S i) (pos + 4) r
  | PDouble :: r => map Do (setsF i pos 8 ++ [Add 8]) ++ schemeF (S i) (pos + 8) r
  | PRef w :: r => IfPtr i (setsI i pos w ++ [Add w]) :: schemeF (S i) (pos + w) r
  | PBuf true :: r => Do (Loop pos i (S i)) :: schemeF (S i) pos r
  | PBuf false :: r => IfPtr i [Loop pos i (S i)] :: schemeF (S i) pos r
  | _ :: r => schemeF (S i) pos r
  | [] => []
  end.
Fixpoint guards (i : nat) (ks : list PKind) : list Stmt :=
  match ks with PBuf true :: r => Guard i (S i) :: guards (S i) r | _ :: r => guards (S i) r | [] => [] end.
Definition scheme (ks : list PKind) : list Stmt :=
  match ks with
  | [] => [Do (SizeIs 0)]
  | _ => guards 0 ks ++ schemeF 0 0 ks ++ [Do SizeVar]
  end.
(* fixed part shorter than 8 bytes before a buffer, at most 8 bytes; optional parameters only at the end *)
Fixpoint shape (pos : N) (ks : list PKind) : bool :=
  match ks with
  | [] => pos <=? 8
  | PInt w :: r => (0 <? w) && shape (pos + w) r
  | PFloat :: r => shape (pos + 4) r
  | PDouble :: r => shape (pos + 8) r
  | [PRef w] => (0 <? w) && (pos + w <=? 8)
  | [PBuf _; PSize] => pos <? 8
  | _ => false
  end.
Definition stmt_dec (a b : list Stmt) : {a = b} + {a <> b}.
Proof. repeat decide equality. Defined.
Definition isScheme (f : Sender) : bool :=
  shape 0 (kinds f) && (if stmt_dec (e_body f) (scheme (kinds f)) then true else false).
Definition meas1 : list Stmt := [Do (SizeIs 1); Do (Set_ 0 (Fmt 4 1 0)); Do (Norm 1 2 3)].
Definition meas3 : list Stmt := [Do (SizeIs 3); Do (Set_ 0 (Par 0)); Do (Set_ 1 (Par 1)); Do (Set_ 2 (Par 2)); Do (Norm 3 3 4)].
Definition kinds1 : list PKind := [PInt 1; PUnit; PData; PExp].
Definition kinds3 : list PKind := [PInt 1; PInt 1; PInt 1; PData; PExp].
Definition kinds_dec (a b : list PKind) : {a = b} + {a <> b}.
Proof. repeat decide equality. Defined.
Definition isMeas (f : Sender) : bool :=
  (if stmt_dec (e_body f) meas1 then if kinds_dec (kinds f) kinds1 then true else false else false) ||
  (if stmt_dec (e_body f) meas3 then if kinds_dec (kinds f) kinds3 then true else false else false).
Lemma isMeas_cases f : isMeas f = true -> (e_body f = meas1 /\ kinds f = kinds1) \/ (e_body f = meas3 /\ kinds f = kinds3).
Proof.
  unfold isMeas. intros H. apply orb_true_iff in H. destruct H as [H|H]; [left|right];
    (destruct (stmt_dec _ _) in H; [|discriminate H]; destruct (kinds_dec _ _) in H; [|discriminate H]; auto).
Qed.

(* ------------------------------------------------------------------ the buffer *)
Definition D (l : list N) : list (option N) := map Some l ++ repeat None (8 - length l).
Lemma D_set l v : (length l < 8)%nat -> setNth (D l) (length l) (Some v) = D (l ++ [v]).
Proof.
  intros H. unfold D. rewrite app_length. cbn [length]. rewrite map_app, <- app_assoc.
  replace (8 - length l)%nat with (S (8 - (length l + 1)))%nat by lia. cbn [repeat].
  generalize (repeat (@None N) (8 - (length l + 1))). clear H. induction l; intros r; cbn [setNth map app length]; [reflexivity|]. f_equal. apply IHl.
Qed.
Lemma setData_D l v i sz ds : i = N.of_nat (length l) -> i < 8 -> setData (mkSt (D l) sz ds) i v = ROk (mkSt (D (l ++ [v])) sz ds).
Proof.
  intros -> H. unfold setData, L1_DATA_SIZE. destruct (_ <? 8) eqn:Q; [|lia]. cbn [s_data s_size s_dsize].
  rewrite Nat2N.id, D_set by lia. reflexivity.
Qed.
Lemma execBs_app le args a b s : execBs le args (a ++ b) s = match execBs le args a s with ROk t => execBs le args b t | x => x end.
Proof. revert s. induction a; intros s; cbn [execBs app]; [reflexivity|]. destruct (execB le args a s); auto. Qed.
Lemma exec_app le args a b s : exec le args (a ++ b) s = match exec le args a s with ROk t => exec le args b t | x => x end.
Proof. revert s. induction a; intros s; cbn [exec app]; [reflexivity|]. destruct (execS le args a s); auto. Qed.
Lemma exec_Do le args l s : exec le args (map Do l) s = execBs le args l s.
Proof. revert s. induction l; intros s; cbn [exec execBs map execS]; [reflexivity|]. destruct (execB le args a s); auto. Qed.

Lemma exec_sets le args pos e (g : N -> N) sz ds : forall n k acc,
  length acc = (N.to_nat pos + k)%nat -> pos + N.of_nat k + N.of_nat n <= 8 ->
  (forall q, q < N.of_nat (k + n) -> evalE le args (e q) = Some (g q)) ->
  execBs le args (map (fun q => Set_ (pos + q) (e q)) (map N.of_nat (seq k n))) (mkSt (D acc) sz ds) =
    ROk (mkSt (D (acc ++ map g (map N.of_nat (seq k n)))) sz ds).
Proof.
  induction n; intros k acc HL HB HE; cbn [seq map execBs execB]; [rewrite app_nil_r; reflexivity|].
  rewrite HE by lia. rewrite setData_D by lia.
  rewrite IHn; [|rewrite app_length; cbn [length]; lia|lia|intros q HQ; apply HE; lia]. rewrite <- app_assoc. reflexivity.
Qed.
Lemma Nseq_S k : map N.of_nat (seq 0 (S k)) = map N.of_nat (seq 0 k) ++ [N.of_nat k].
Proof. rewrite seq_S, map_app. reflexivity. Qed.
Lemma be_seq w : forall v, map (fun q => u8 (N.shiftr v ((N.of_nat w - 1 - q) * 8))) (map N.of_nat (seq 0 w)) = be w v.
Proof.
  induction w; intros v; [reflexivity|]. rewrite Nseq_S, map_app. cbn [be map]. f_equal.
  - rewrite <- (IHw (v / 256)). rewrite !map_map. apply map_ext_in. intros a HA. apply in_seq in HA.
    replace ((N.of_nat (S w) - 1 - N.of_nat a) * 8) with (8 + (N.of_nat w - 1 - N.of_nat a) * 8) by lia.
    rewrite <- N.shiftr_shiftr. rewrite (N.shiftr_div_pow2 v 8). reflexivity.
  - replace ((N.of_nat (S w) - 1 - N.of_nat w) * 8) with 0 by lia. rewrite N.shiftr_0_r. reflexivity.
Qed.
Lemma be_length w v : length (be w v) = w.
Proof. revert v. induction w; intros v; [reflexivity|]. cbn [be]. rewrite app_length, IHw. cbn [length]. lia. Qed.
Lemma beN_length w v : N.of_nat (length (beN w v)) = w.
Proof. unfold beN. rewrite be_length. lia. Qed.
Lemma be_bytes w : forall v, bytes (be w v).
Proof. induction w; intros v; [constructor|]. cbn [be]. apply Forall_app. split; [apply IHw|]. constructor; [|constructor]. apply N.mod_lt. lia. Qed.

(* an integer *)
Lemma sets_int le args i pos w v acc sz ds : value args i = Some v -> N.of_nat (length acc) = pos -> pos + w <= 8 -> 0 < w -> sz = pos ->
  execBs le args (setsI i pos w ++ [Add w]) (mkSt (D acc) sz ds) = ROk (mkSt (D (acc ++ beN w v)) (pos + w) ds).
Proof.
  intros HV HL HB HW ->. rewrite execBs_app. unfold setsI, Nseq.
  rewrite (exec_sets le args pos _ (fun q => u8 (N.shiftr v ((w - 1 - q) * 8)))); [|lia|lia|].
  - cbn [execBs execB]. unfold addSize. cbn [s_data s_size s_dsize]. do 2 f_equal.
    + do 2 f_equal. unfold beN. rewrite <- be_seq. rewrite N2Nat.id. reflexivity.
    + unfold u8. lia.
  - intros q HQ. destruct (N.eqb_spec w 1).
    + cbn [evalE]. rewrite HV. replace ((w - 1 - q) * 8) with 0 by lia. rewrite N.shiftr_0_r. reflexivity.
    + cbn [evalE]. rewrite HV. reflexivity.
Qed.
(* a floating point number: on a big endian host the bytes are in the wrong order *)
Definition repr (le : bool) (w v : N) : list N := if le then beN w v else rev (beN w v).
Lemma rev_seq n : rev (map N.of_nat (seq 0 n)) = map (fun q => N.of_nat n - 1 - q) (map N.of_nat (seq 0 n)).
Proof.
  induction n; [reflexivity|]. rewrite Nseq_S at 1. rewrite rev_app_distr. cbn [rev app].
  rewrite IHn. cbn [seq]. rewrite <- seq_shift. cbn [map]. f_equal; [lia|]. rewrite !map_map. apply map_ext. intros a. lia.
Qed.
Lemma sets_float le args i pos w v acc sz ds : value args i = Some v -> N.of_nat (length acc) = pos -> pos + w <= 8 -> sz = pos ->
  execBs le args (setsF i pos w ++ [Add w]) (mkSt (D acc) sz ds) = ROk (mkSt (D (acc ++ repr le w v)) (pos + w) ds).
Proof.
  intros HV HL HB ->. rewrite execBs_app. unfold setsF, Nseq.
  rewrite (exec_sets le args pos _ (fun q => reprByte le w (w - 1 - q) v)); [|lia|lia|intros q HQ; cbn [evalE]; rewrite HV; reflexivity].
  cbn [execBs execB]. unfold addSize. cbn [s_data s_size s_dsize]. do 2 f_equal; [|unfold u8; lia].
  do 2 f_equal. unfold repr, beN. rewrite <- be_seq, N2Nat.id. destruct le.
  - apply map_ext. intros q. unfold reprByte. do 2 f_equal. lia.
  - rewrite <- map_rev, rev_seq, (map_map (fun q => N.of_nat (N.to_nat w) - 1 - q)). rewrite N2Nat.id. apply map_ext_in. intros q HQ. unfold reprByte. do 2 f_equal. 
    apply in_map_iff in HQ. destruct HQ as (x & <- & HQ). apply in_seq in HQ. lia.
Qed.
(* a buffer *)
Lemma loop_ok base ds : forall k l bi acc sz, (k <= length l)%nat -> base + bi = N.of_nat (length acc) -> sz = N.of_nat (length acc) -> sz < 8 ->
  loopData base l k bi (mkSt (D acc) sz ds) =
    let x := firstn 8 (acc ++ firstn k l) in ROk (mkSt (D x) (N.of_nat (length x)) ds).
Proof.
  induction k; intros l bi acc sz HK HB HS H8; cbn [loopData]; cbv zeta.
  - change (firstn 0 l) with (@nil N). rewrite app_nil_r. rewrite firstn_all2 by lia. rewrite HS. reflexivity.
  - destruct l as [|v r]; [cbn [length] in HK; lia|]. change (firstn (S k) (v :: r)) with (v :: firstn k r). cbn [length] in HK. rewrite setData_D by lia.
    unfold addSize. cbn [s_data s_size s_dsize]. unfold L1_DATA_SIZE.
    assert (Z : u8 (sz + 1) = N.of_nat (length (acc ++ [v]))) by (rewrite app_length; cbn [length]; unfold u8; lia).
    replace (acc ++ v :: firstn k r) with ((acc ++ [v]) ++ firstn k r) by (rewrite <- app_assoc; reflexivity).
    destruct (8 <=? u8 (sz + 1)) eqn:Q.
    + cbv zeta. assert (L8 : length (acc ++ [v]) = 8%nat) by (rewrite app_length in *; cbn [length] in *; lia).
      rewrite firstn_app, firstn_all2 by lia. replace (8 - length (acc ++ [v]))%nat with 0%nat by lia. cbn [firstn]. rewrite app_nil_r, Z. reflexivity.
    + rewrite IHk; [reflexivity|lia|rewrite app_length; cbn [length]; lia|exact Z|lia].
Qed.

(* ------------------------------------------------------------------ the scheme *)
(* the fields as a little or big endian host sends them *)
Fixpoint fieldsH (le : bool) (ps : list PKind) (args : list Arg) : list N :=
  match ps, args with
  | PInt w :: ps, V v :: r => beN w v ++ fieldsH le ps r
  | PFloat :: ps, V v :: r => repr le 4 v ++ fieldsH le ps r
  | PDouble :: ps, V v :: r => repr le 8 v ++ fieldsH le ps r
  | PRef w :: ps, R (Some v) :: r => beN w v ++ fieldsH le ps r
  | PBuf _ :: PSize :: ps, B (Some l) :: V n :: r => firstn (N.to_nat n) l ++ fieldsH le ps r
  | PBuf _ :: PSize :: ps, B None :: _ :: r => fieldsH le ps r
  | _ :: ps, _ :: r => fieldsH le ps r
  | _, _ => []
  end.
Lemma shape_pos : forall ks pos, shape pos ks = true -> pos <= 8.
Proof.
  induction ks as [|k r IH]; intros pos H; cbn [shape] in H; [lia|].
  destruct k; try discriminate H.
  - apply andb_true_iff in H. destruct H as (_ & H). apply IH in H. lia.
  - apply IH in H. lia.
  - apply IH in H. lia.
  - destruct r; [lia|discriminate H].
  - destruct r as [|[] [|]]; try discriminate H. lia.
Qed.
Lemma repr_length le w v : length (repr le w v) = N.to_nat w.
Proof. unfold repr. destruct le; [|rewrite rev_length]; unfold beN; apply be_length. Qed.
Lemma nth_pre (pre r : list Arg) a : nth_error (pre ++ a :: r) (length pre) = Some a.
Proof. rewrite nth_error_app2 by lia. rewrite Nat.sub_diag. reflexivity. Qed.
Lemma value_pre (pre r : list Arg) v : value (pre ++ V v :: r) (length pre) = Some v.
Proof. unfold value. rewrite nth_pre. reflexivity. Qed.
Lemma value_pre2 (pre r : list Arg) a v : value (pre ++ a :: V v :: r) (S (length pre)) = Some v.
Proof. unfold value. rewrite nth_error_app2 by lia. replace (S (length pre) - length pre)%nat with 1%nat by lia. reflexivity. Qed.

Lemma schemeF_ok le : forall ks pos pre r acc, shape pos ks = true -> fit ks r -> missing ks r = false -> N.of_nat (length acc) = pos ->
  exec le (pre ++ r) (schemeF (length pre) pos ks) (mkSt (D acc) pos 0) =
    let x := firstn 8 (acc ++ fieldsH le ks r) in ROk (mkSt (D x) (N.of_nat (length x)) 0).
Proof.
  induction ks as [|k ks IH]; intros pos pre r acc HS HF HM HL.
  - cbn [schemeF exec fieldsH]. destruct r; rewrite app_nil_r; cbv zeta; apply shape_pos in HS; rewrite firstn_all2 by lia; rewrite HL; reflexivity.
  - assert (HP := shape_pos _ _ HS).
    assert (STEP : forall a r' bs ks' w, r = a :: r' -> schemeF (length pre) pos (k :: ks) = map Do bs ++ schemeF (S (length pre)) (pos + N.of_nat (length ks')) ks ->
       shape (pos + N.of_nat (length ks')) ks = true -> fit ks r' -> missing ks r' = false -> w = N.of_nat (length ks') ->
       execBs le (pre ++ r) bs (mkSt (D acc) pos 0) = ROk (mkSt (D (acc ++ ks')) (pos + w) 0) ->
       fieldsH le (k :: ks) r = ks' ++ fieldsH le ks r' ->
       exec le (pre ++ r) (schemeF (length pre) pos (k :: ks)) (mkSt (D acc) pos 0) =
         let x := firstn 8 (acc ++ fieldsH le (k :: ks) r) in ROk (mkSt (D x) (N.of_nat (length x)) 0)).
    { intros a r' bs ks' w -> HE HS' HF' HM' -> HX HFD. rewrite HE, exec_app, exec_Do, HX, HFD.
      replace (pre ++ a :: r') with ((pre ++ [a]) ++ r') by (rewrite <- app_assoc; reflexivity).
      replace (S (length pre)) with (length (pre ++ [a])) by (rewrite app_length; cbn [length]; lia).
      rewrite IH; [rewrite <- app_assoc; reflexivity|exact HS'|exact HF'|exact HM'|rewrite app_length; lia]. }
    destruct k; try discriminate HS.
    + (* integer *) cbn [shape] in HS. apply andb_true_iff in HS. destruct HS as (HW & HS). cbn [fit] in HF. destruct r as [|[v| |] r]; try contradiction. destruct HF as (HV & HF).
      assert (HP' := shape_pos _ _ HS).
      eapply (STEP (V v) r _ (beN w v) w eq_refl); rewrite ?beN_length; try assumption; try reflexivity.
      apply sets_int; [apply value_pre|exact HL|exact HP'|lia|reflexivity].
    + (* float *) cbn [shape] in HS. cbn [fit] in HF. destruct r as [|[v| |] r]; try contradiction. destruct HF as (HV & HF). assert (HP' := shape_pos _ _ HS).
      eapply (STEP (V v) r _ (repr le 4 v) 4 eq_refl); rewrite ?repr_length; try assumption; try reflexivity.
      apply sets_float; [apply value_pre|exact HL|exact HP'|reflexivity].
    + (* double *) cbn [shape] in HS. cbn [fit] in HF. destruct r as [|[v| |] r]; try contradiction. destruct HF as (HV & HF). assert (HP' := shape_pos _ _ HS).
      eapply (STEP (V v) r _ (repr le 8 v) 8 eq_refl); rewrite ?repr_length; try assumption; try reflexivity.
      apply sets_float; [apply value_pre|exact HL|exact HP'|reflexivity].
    + (* optional integer, the last parameter *) clear STEP IH. destruct ks; [|discriminate HS]. cbn [shape] in HS. cbn [fit] in HF. destruct r as [|[ |o| ] r]; try contradiction.
      destruct HF as (HV & HF). destruct r; [|contradiction]. cbn [schemeF exec execS fieldsH]. unfold isNull. rewrite nth_pre.
      destruct o as [v|].
      * rewrite (sets_int le _ _ pos w v acc pos 0); [|unfold value; rewrite nth_pre; reflexivity|exact HL|lia|lia|reflexivity].
        rewrite app_nil_r. cbv zeta. rewrite firstn_all2 by (rewrite app_length; unfold beN; rewrite be_length; lia).
        rewrite app_length. unfold beN. rewrite be_length. do 2 f_equal. lia.
      * rewrite app_nil_r. cbv zeta. rewrite firstn_all2 by lia. rewrite HL. reflexivity.
    + (* buffer, the last parameter *) clear STEP IH. destruct ks as [|[] [|]]; try discriminate HS. cbn [shape] in HS. cbn [fit] in HF.
      destruct r as [|[ | |o] [|[n| |] r]]; try contradiction. destruct HF as (HN & HV & HF). destruct r; [|contradiction].
      assert (LOOP : forall l, o = Some l -> execB le (pre ++ [B o; V n]) (Loop pos (length pre) (S (length pre))) (mkSt (D acc) pos 0) =
         let x := firstn 8 (acc ++ firstn (N.to_nat n) l) in ROk (mkSt (D x) (N.of_nat (length x)) 0)).
      { intros l ->. cbn [execB]. rewrite nth_pre, value_pre2. destruct (HV l eq_refl) as (HLN & _). apply loop_ok; [lia|lia|lia|lia]. }
      destruct mandatory; cbn [schemeF exec execS fieldsH].
      * cbn [missing] in HM. destruct o as [l|]; [|discriminate HM]. rewrite (LOOP l eq_refl). cbv zeta. rewrite app_nil_r. reflexivity.
      * unfold isNull. rewrite nth_pre. destruct o as [l|].
        -- cbn [execBs]. rewrite (LOOP l eq_refl). cbv zeta. rewrite app_nil_r. reflexivity.
        -- rewrite app_nil_r. cbv zeta. rewrite firstn_all2 by lia. rewrite HL. reflexivity.
Qed.
Lemma guards_ok le s : forall ks pos pre r, shape pos ks = true -> fit ks r ->
  exec le (pre ++ r) (guards (length pre) ks) s = if missing ks r then RFalse else ROk s.
Proof.
  induction ks as [|k ks IH]; intros pos pre r HS HF; [destruct r; reflexivity|].
  assert (NEXT : forall a r' pos', r = a :: r' -> shape pos' ks = true -> fit ks r' -> exec le (pre ++ r) (guards (S (length pre)) ks) s = if missing ks r' then RFalse else ROk s).
  { intros a r' pos' -> HS' HF'. replace (pre ++ a :: r') with ((pre ++ [a]) ++ r') by (rewrite <- app_assoc; reflexivity).
    replace (S (length pre)) with (length (pre ++ [a])) by (rewrite app_length; cbn [length]; lia). eapply IH; eassumption. }
  destruct k; try discriminate HS.
  - cbn [shape] in HS. apply andb_true_iff in HS. destruct HS as (HW & HS). cbn [fit] in HF. destruct r as [|[v| |] r]; try contradiction. destruct HF as (HV & HF).
    cbn [guards missing]. eapply NEXT; eauto.
  - cbn [shape] in HS. cbn [fit] in HF. destruct r as [|[v| |] r]; try contradiction. destruct HF as (HV & HF). cbn [guards missing]. eapply NEXT; eauto.
  - cbn [shape] in HS. cbn [fit] in HF. destruct r as [|[v| |] r]; try contradiction. destruct HF as (HV & HF). cbn [guards missing]. eapply NEXT; eauto.
  - destruct ks; [|discriminate HS]. cbn [fit] in HF. destruct r as [|[ |o| ] r]; try contradiction. destruct r; [|tauto]. reflexivity.
  - destruct ks as [|[] [|]]; try discriminate HS. cbn [fit] in HF. destruct r as [|[ | |o] [|[n| |] r]]; try contradiction. destruct r; [|tauto].
    destruct mandatory; cbn [guards missing exec execS]; [|reflexivity]. unfold isNull. rewrite nth_pre, value_pre2.
    destruct o; cbn [orb]; [|reflexivity]. rewrite orb_false_r. destruct (n =? 0); reflexivity.
Qed.
Lemma scheme_ok le ks args : shape 0 ks = true -> fit ks args ->
  exec le args (scheme ks) (mkSt (repeat None 8) 0 0) =
    if missing ks args then RFalse
    else let x := firstn 8 (fieldsH le ks args) in ROk (mkSt (D x) (if ks then 0 else N.of_nat (length x)) (N.of_nat (length x))).
Proof.
  intros HS HF. unfold scheme. destruct ks as [|k ks].
  - destruct args; [|contradiction]. reflexivity.
  - rewrite exec_app. assert (G := guards_ok le (mkSt (repeat None 8) 0 0) (k :: ks) 0 [] args HS HF). cbn [app length] in G. rewrite G. destruct (missing (k :: ks) args) eqn:HM; [reflexivity|].
    rewrite exec_app. change (repeat None 8) with (D []).
    assert (F := schemeF_ok le (k :: ks) 0 [] args [] HS HF HM eq_refl). cbn [app length] in F. rewrite F. cbv zeta. reflexivity.
Qed.
Lemma D_some l : (length l <= 8)%nat -> forallb (fun o : option N => match o with Some _ => true | None => false end) (firstn (length l) (D l)) = true.
Proof.
  intros H. unfold D. rewrite firstn_app, map_length, Nat.sub_diag, app_nil_r. rewrite firstn_all2 by (rewrite map_length; lia).
  clear H. induction l; [reflexivity|exact IHl].
Qed.
Lemma D_values l : map (fun o : option N => match o with Some v => v | None => 0 end) (D l) = l ++ repeat 0 (8 - length l).
Proof.
  unfold D. rewrite map_app, map_map, map_id. f_equal. generalize (8 - length l)%nat. induction n; [reflexivity|]. cbn [repeat map]. f_equal. exact IHn.
Qed.
Lemma outcome_scheme le f args : isScheme f = true -> fits f args ->
  outcome le f args = if missing (kinds f) args then Refused
    else let x := firstn 8 (fieldsH le (kinds f) args) in Sends (N.of_nat (length x)) (x ++ repeat 0 (8 - length x)).
Proof.
  unfold isScheme, fits. intros H HF. apply andb_true_iff in H. destruct H as (HS & HB). destruct (stmt_dec _ _) as [EB|]; [|discriminate HB].
  unfold outcome. rewrite EB, scheme_ok by assumption. destruct (missing (kinds f) args); [reflexivity|]. cbv zeta. cbn [s_data s_dsize].
  rewrite Nat2N.id, D_some, D_values; [reflexivity|]. rewrite firstn_length. lia.
Qed.

(* ------------------------------------------------------------------ measurements *)
Lemma putData_D l : forall acc i sz ds, i = N.of_nat (length acc) -> (length acc + length l <= 8)%nat ->
  putData l i (mkSt (D acc) sz ds) = ROk (mkSt (D (acc ++ l)) sz ds).
Proof.
  induction l as [|v r IH]; intros acc i sz ds HI HL; cbn [putData]; [rewrite app_nil_r; reflexivity|]. cbn [length] in HL.
  rewrite setData_D by lia. rewrite IH; [rewrite <- app_assoc; reflexivity|rewrite app_length; cbn [length]; lia|rewrite app_length; cbn [length]; lia].
Qed.
Lemma toInt32_range d : d < 2 ^ 32 -> d <> 2 ^ 31 -> int32 (toInt32 d) /\ toInt32 d <> (-2147483648)%Z.
Proof. intros H H1. unfold toInt32, int32, u32. change (2 ^ 32) with 4294967296 in *. change (2 ^ 31) with 2147483648 in *. destruct (Z.ltb_spec (Z.of_N (d mod 4294967296)) 2147483648); lia. Qed.
Lemma norm_ok d e avail : d < 2 ^ 32 -> d <> 2 ^ 31 -> 5 <= avail ->
  exists l, int32ToNormalizedInteger (toInt32 d) (toInt8 e) avail = Ok l /\ coded d e l /\ (length l <= 5)%nat.
Proof.
  intros H1 H2 H3. destruct (toInt32_range d H1 H2) as (HR & HM). destruct (encode_spec (toInt32 d) (toInt8 e) avail HR HM) as (k & HK & HX).
  assert (K4 : k <= 4) by (apply HK; unfold int32 in HR; lia).
  destruct (avail <? k + 1) eqn:Q; [lia|]. destruct HX as (pl & EX & HL & HB & HE).
  eexists. split; [exact EX|]. split; [|cbn [length]; lia].
  eexists _, pl, k. split; [reflexivity|]. rewrite getNormalizerByte_sum. unfold expMagnitude, u8.
  split; [destruct (toInt8 e <? 0)%Z; lia|]. split; [exact HB|]. split; [exact HL|]. split; [exact HK|]. split; [exact HE|].
  destruct (toInt8 e <? 0)%Z; lia.
Qed.
Lemma outcome_meas le f args : isMeas f = true -> fits f args -> representable f args ->
  exists x, outcome le f args = Sends (N.of_nat (length x)) (x ++ repeat 0 (8 - length x)) /\ (length x <= 8)%nat /\ measured (kinds f) args x.
Proof.
  unfold fits, representable. intros H HF HR. destruct (isMeas_cases f H) as [(EB & EK)|(EB & EK)]; rewrite EK in *; clear H EK.
  - unfold kinds1 in *.
    destruct args as [|[i| |] [|[u| |] [|[d| |] [|[e| |] [|]]]]]; cbn [fit] in HF; try tauto. destruct HF as (HI & HU & HD & HE & _).
    specialize (HR 2%nat d eq_refl eq_refl). destruct (norm_ok d e 7 HD HR) as (l & EL & HC & HL); [lia|].
    exists ((128 + 8 * (u mod 4) + i mod 8) :: l). split; [|split; [cbn [length]; lia|exists l; split; [reflexivity|exact HC]]].
    unfold outcome. rewrite EB. change (repeat None 8) with (D []). unfold meas1. cbn [exec execS execB evalE value nth_error s_data s_size s_dsize].
    rewrite (setData_D [] _ 0) by reflexivity. cbn [app s_data s_size s_dsize]. change (L1_DATA_SIZE - 1) with 7. rewrite EL.
    rewrite putData_D; [|reflexivity|cbn [length]; lia]. cbn [app s_data s_size s_dsize].
    rewrite getFormatByte_sum. replace (32 * (4 mod 8) + 8 * (u mod 4) + i mod 8) with (128 + 8 * (u mod 4) + i mod 8) by (change (4 mod 8) with 4; lia).
    set (x := _ :: l). replace (u8 (1 + N.of_nat (length l))) with (N.of_nat (length x)) by (unfold x, u8; cbn [length]; lia).
    rewrite Nat2N.id, D_some, D_values by (unfold x; cbn [length]; lia). reflexivity.
  - unfold kinds3 in *.
    destruct args as [|[i| |] [|[z| |] [|[s| |] [|[d| |] [|[e| |] [|]]]]]]; cbn [fit] in HF; try tauto. destruct HF as (HI & HZ & HS & HD & HE & _). change (2 ^ (8 * 1)) with 256 in *.
    specialize (HR 3%nat d eq_refl eq_refl). destruct (norm_ok d e 5 HD HR) as (l & EL & HC & HL); [lia|].
    exists (i :: z :: s :: l). split; [|split; [cbn [length]; lia|exists l; split; [reflexivity|exact HC]]].
    unfold outcome. rewrite EB. change (repeat None 8) with (D []). unfold meas3. cbn [exec execS execB evalE value nth_error s_data s_size s_dsize].
    rewrite (setData_D [] _ 0) by reflexivity. cbn [app s_data s_size s_dsize]. rewrite (setData_D [_] _ 1) by reflexivity. cbn [app]. rewrite (setData_D [_; _] _ 2) by reflexivity. cbn [app s_dsize].
    change (L1_DATA_SIZE - 3) with 5. rewrite EL. rewrite putData_D; [|reflexivity|cbn [length]; lia]. cbn [app s_data s_size s_dsize].
    assert (U : forall a, a < 256 -> u8 a = a) by (intros a HA; apply N.mod_small; exact HA). rewrite (U i HI), (U z HZ), (U s HS).
    set (x := i :: z :: s :: l). replace (u8 (3 + N.of_nat (length l))) with (N.of_nat (length x)) by (unfold x, u8; cbn [length]; lia).
    rewrite Nat2N.id, D_some, D_values by (unfold x; cbn [length]; lia). reflexivity.
Qed.

(* ------------------------------------------------------------------ the table *)
Definition oddb (f : Sender) : bool := existsb (String.eqb (e_name f)) odd.
Lemma oddb_spec f : oddb f = true <-> In (e_name f) odd.
Proof. unfold oddb. rewrite existsb_exists. split; [intros (x & H & Q); apply String.eqb_eq in Q; congruence|]. intros H. exists (e_name f). split; [exact H|apply String.eqb_refl]. Qed.
Lemma table_ok : forallb (fun f => (e_prio f =? 3) && (oddb f || isScheme f || isMeas f)) eventTable = true.
Proof. vm_compute. reflexivity. Qed.
Lemma table_in f : In f eventTable -> regular f -> e_prio f = 3 /\ (isScheme f = true \/ isMeas f = true).
Proof.
  intros H HR. assert (T := proj1 (forallb_forall _ _) table_ok f H). cbv beta in T. apply andb_true_iff in T. destruct T as (P & T). split; [lia|].
  destruct (oddb f) eqn:O; [exfalso; apply HR, oddb_spec, O|]. apply orb_true_iff in T. exact T.
Qed.
Lemma shape_noData : forall ks pos, shape pos ks = true -> ~ In PData ks.
Proof.
  induction ks as [|k r IH]; intros pos H Q; [destruct Q|]. destruct Q as [Q|Q]; cbn [shape] in H.
  - subst k. discriminate H.
  - destruct k; try discriminate H.
    + apply andb_true_iff in H. destruct H as (_ & H). exact (IH _ H Q).
    + exact (IH _ H Q).
    + exact (IH _ H Q).
    + destruct r; [contradiction|discriminate H].
    + destruct r as [|[] [|]]; try discriminate H. destruct Q as [Q|[]]. discriminate Q.
Qed.
Lemma scheme_noData f : isScheme f = true -> ~ isMeasurement f.
Proof. unfold isScheme. intros H. apply andb_true_iff in H. eapply shape_noData, H. Qed.
Lemma meas_data f : isMeas f = true -> isMeasurement f.
Proof.
  unfold isMeasurement. intros H. destruct (isMeas_cases f H) as [(_ & ->)|(_ & ->)]; cbn; tauto.
Qed.
Lemma meas_missing f args : isMeas f = true -> fits f args -> missing (kinds f) args = false.
Proof.
  unfold fits. intros H HF. destruct (isMeas_cases f H) as [(_ & EK)|(_ & EK)]; rewrite EK in *; clear H EK; unfold kinds1, kinds3 in *.
  - destruct args as [|[i| |] [|[u| |] [|[d| |] [|[e| |] [|]]]]]; cbn [fit] in HF; try tauto; reflexivity.
  - destruct args as [|[i| |] [|[z| |] [|[s| |] [|[d| |] [|[e| |] [|]]]]]]; cbn [fit] in HF; try tauto; reflexivity.
Qed.
Lemma fieldsH_fields le ks : le = true \/ ~ (In PFloat ks \/ In PDouble ks) -> forall args, fieldsH le ks args = fields ks args.
Proof.
  intros H. assert (G : forall n ks args, (length ks <= n)%nat -> le = true \/ ~ (In PFloat ks \/ In PDouble ks) -> fieldsH le ks args = fields ks args);
    [|intros args; eapply G; [apply le_n|exact H]].
  clear ks H. induction n as [|n IH]; intros ks args HL H; [destruct ks; [reflexivity|cbn [length] in HL; lia]|].
  destruct ks as [|k ks]; [reflexivity|]. cbn [length] in HL.
  assert (N1 : le = true \/ ~ (In PFloat ks \/ In PDouble ks)) by (destruct H as [H|H]; [left; exact H|right; cbn [In] in H; tauto]).
  assert (HF : k = PFloat \/ k = PDouble -> le = true) by (intros HK; destruct H as [H|H]; [exact H|exfalso; apply H; cbn [In]; tauto]).
  assert (IH' := fun args => IH ks args ltac:(lia) N1).
  destruct k; cbn [fieldsH fields]; try (destruct args as [|[]]; rewrite ?IH'; reflexivity).
  - rewrite HF by tauto. destruct args as [|[]]; try reflexivity; try (rewrite <- IH'; rewrite HF by tauto; reflexivity).
  - rewrite HF by tauto. destruct args as [|[]]; try reflexivity; try (rewrite <- IH'; rewrite HF by tauto; reflexivity).
  - destruct ks as [|k2 ks]; [destruct args as [|[]]; reflexivity|].
    assert (IH2 := fun args => IH ks args ltac:(cbn [length] in HL; lia)).
    assert (N2 : le = true \/ ~ (In PFloat ks \/ In PDouble ks)) by (destruct N1 as [N1|N1]; [left; exact N1|right; cbn [In] in N1; tauto]).
    destruct k2; try (destruct args as [|[| |[]] [|[]]]; try reflexivity; apply IH').
    destruct args as [|a args]; [reflexivity|]. destruct a as [| |[]].
    + apply IH'.
    + apply IH'.
    + destruct args as [|[]]; try apply IH'. rewrite IH2 by exact N2. reflexivity.
    + destruct args; [apply IH'|]. apply IH2, N2.
Qed.

(* ------------------------------------------------------------------ where a parameter is in the payload *)
(* all parameters before the one with the given name are integers, this one is a byte *)
Fixpoint intsUpTo (nm : string) (ps : list (string * PKind)) : bool :=
  match ps with
  | [] => false
  | (m, k) :: r => match k with PInt w => if String.eqb m nm then w =? 1 else intsUpTo nm r | _ => false end
  end.
Lemma named_field le nm : forall ps args p v, fit (map snd ps) args -> intsUpTo nm ps = true -> position nm ps = Some p -> argument nm ps args = Some v ->
  nth_error (fieldsH le (map snd ps) args) (N.to_nat p) = Some v.
Proof.
  induction ps as [|(m, k) ps IH]; intros args p v HF HI HP HA; [discriminate HI|]. cbn [intsUpTo] in HI. destruct k as [w| | | | | | | |]; try discriminate HI.
  cbn [map snd fit] in HF. destruct args as [|[a| |] args]; try contradiction. destruct HF as (HW & HF). cbn [position argument] in HP, HA. cbn [map snd fieldsH].
  destruct (String.eqb m nm).
  - assert (w = 1) as -> by lia. injection HP as <-. injection HA as <-. change (2 ^ (8 * 1)) with 256 in HW.
    change (beN 1 a) with [a mod 256]. rewrite N.mod_small by exact HW. reflexivity.
  - destruct (position nm ps) as [x|] eqn:Q; [|discriminate HP]. injection HP as <-. cbn [width].
    rewrite nth_error_app2 by (unfold beN; rewrite be_length; lia).
    replace (N.to_nat (x + w) - length (beN w a))%nat with (N.to_nat x) by (unfold beN; rewrite be_length; lia). eapply IH; eauto.
Qed.
Lemma argument_some nm : forall ps args, fit (map snd ps) args -> intsUpTo nm ps = true -> exists v, argument nm ps args = Some v.
Proof.
  induction ps as [|(m, k) ps IH]; intros args HF HI; [discriminate HI|]. cbn [intsUpTo] in HI. destruct k as [w| | | | | | | |]; try discriminate HI.
  cbn [map snd fit] in HF. destruct args as [|[a| |] args]; try contradiction. destruct HF as (HW & HF). cbn [argument].
  destruct (String.eqb m nm); [eauto|]. apply IH; assumption.
Qed.
Definition subName (f : Sender) : string := match position "subZone"%string (e_params f) with Some _ => "subZone" | None => "subzone" end.
Definition posIs (nm : string) (f : Sender) (i : N) : bool :=
  intsUpTo nm (e_params f) && match position nm (e_params f) with Some p => p =? i | None => false end.
Definition zoneOK (f : Sender) : bool :=
  match position "zone"%string (e_params f) with
  | None => true
  | Some _ => zoneless f || oddb f || (posIs "zone" f (getZoneIndex (e_class f) (e_type f)) && posIs (subName f) f (getZoneIndex (e_class f) (e_type f) + 1) &&
      (getZoneIndex (e_class f) (e_type f) <? 7))
  end.
Lemma table_zone : forallb zoneOK eventTable = true.
Proof. vm_compute. reflexivity. Qed.
Lemma argument_none nm : forall ps args, position nm ps = None -> argument nm ps args = None.
Proof.
  induction ps as [|(m, k) ps IH]; intros args H; [reflexivity|]. cbn [position] in H. destruct args as [|a args]; [reflexivity|]. cbn [argument].
  destruct (String.eqb m nm); [discriminate H|]. apply IH. destruct (position nm ps); [discriminate H|reflexivity].
Qed.
Lemma subZoneArg_name f args : fits f args -> intsUpTo (subName f) (e_params f) = true -> subZoneArg f args = argument (subName f) (e_params f) args.
Proof.
  unfold subZoneArg, subName. intros HF HI. destruct (position "subZone" (e_params f)) eqn:Q.
  - destruct (argument_some _ _ args HF HI) as (v & ->). reflexivity.
  - rewrite (argument_none _ _ args Q). reflexivity.
Qed.

(* frames *)
Lemma outcome_regular le f args : In f eventTable -> regular f -> fits f args -> representable f args ->
  if missing (kinds f) args then outcome le f args = Refused
  else exists x, outcome le f args = Sends (N.of_nat (length x)) (x ++ repeat 0 (8 - length x)) /\ (length x <= 8)%nat /\
    (isMeasurement f -> measured (kinds f) args x) /\
    (~ isMeasurement f -> x = firstn 8 (fieldsH le (kinds f) args)).
Proof.
  intros HT HR HF HV. destruct (table_in f HT HR) as (_ & [HS|HM]).
  - rewrite (outcome_scheme le f args HS HF). destruct (missing (kinds f) args); [reflexivity|]. eexists. split; [reflexivity|].
    split; [rewrite firstn_length; lia|]. split; [intros Q; exfalso; exact (scheme_noData f HS Q)|reflexivity].
  - rewrite (meas_missing f args HM HF). destruct (outcome_meas le f args HM HF HV) as (x & EX & HL & HX). exists x. split; [exact EX|]. split; [exact HL|].
    split; [intros _; exact HX|intros Q; exfalso; exact (Q (meas_data f HM))].
Qed.
Lemma firstn_pad (x : list N) k : firstn (length x) (x ++ repeat 0 k) = x.
Proof. rewrite firstn_app, Nat.sub_diag. cbn [firstn]. rewrite app_nil_r. apply firstn_all. Qed.
Lemma zone_bytes le f args x : In f eventTable -> regular f -> fits f args -> zoneless f = false -> In "zone"%string (map fst (e_params f)) ->
  (isMeasurement f -> measured (kinds f) args x) -> (~ isMeasurement f -> x = firstn 8 (fieldsH le (kinds f) args)) ->
  let i := N.to_nat (getZoneIndex (e_class f) (e_type f)) in
  exists z s, argument "zone" (e_params f) args = Some z /\ subZoneArg f args = Some s /\ nth_error x i = Some z /\ nth_error x (S i) = Some s.
Proof.
  intros HT HR HF HZ HI HM HN i. assert (T := proj1 (forallb_forall _ _) table_zone f HT). unfold zoneOK in T.
  destruct (position "zone" (e_params f)) as [p|] eqn:HP.
  2:{ exfalso. revert HP HI. clear. generalize (e_params f). induction l as [|(m, k) l IH]; intros HP HI; [exact HI|]. cbn [position] in HP. cbn [map fst In] in HI.
      destruct (String.eqb m "zone") eqn:Q; [discriminate HP|]. destruct (position "zone" l); [discriminate HP|]. apply IH; [reflexivity|].
      destruct HI as [HI|HI]; [|exact HI]. subst m. discriminate Q. }
  rewrite HZ in T. destruct (oddb f) eqn:HO; [exfalso; apply HR, oddb_spec, HO|]. cbn [orb] in T. apply andb_true_iff in T. destruct T as (T & T3). apply andb_true_iff in T. destruct T as (T1 & T2).
  unfold posIs in T1, T2. rewrite HP in T1. apply andb_true_iff in T1. destruct T1 as (Z1 & Z2). apply andb_true_iff in T2. destruct T2 as (S1 & S2).
  destruct (position (subName f) (e_params f)) as [q|] eqn:HQ; [|discriminate S2].
  destruct (argument_some _ _ args HF Z1) as (z & AZ). destruct (argument_some _ _ args HF S1) as (s & AS). exists z, s.
  split; [exact AZ|]. split; [rewrite subZoneArg_name by assumption; exact AS|].
  assert (NZ := named_field le _ _ args p z HF Z1 HP AZ). assert (NS := named_field le _ _ args q s HF S1 HQ AS).
  fold (kinds f) in NZ, NS. replace (N.to_nat p) with i in NZ by lia. replace (N.to_nat q) with (S i) in NS by lia.
  assert (I7 : (i < 7)%nat) by lia.
  destruct (table_in f HT HR) as (_ & [HS|HMM]).
  - specialize (HN (scheme_noData f HS)). 
    assert (GEN : forall n v, (n < 8)%nat -> nth_error (fieldsH le (kinds f) args) n = Some v -> nth_error x n = Some v).
    { intros n v Hn H. rewrite HN. rewrite <- H. clear -Hn. revert n Hn. generalize (fieldsH le (kinds f) args). generalize 8%nat. induction n; intros l m Hm; [lia|].
      destruct l; [destruct m; reflexivity|]. destruct m; [reflexivity|]. cbn [firstn nth_error]. apply IHn. lia. }
    split; apply GEN; try assumption; lia.
  - specialize (HM (meas_data f HMM)). unfold fits in HF. destruct (isMeas_cases f HMM) as [(_ & EK)|(_ & EK)]; rewrite EK in *; unfold kinds1, kinds3 in *.
    + exfalso. destruct args as [|[a1| |] [|[a2| |] [|[d| |] [|[e| |] [|]]]]]; cbn [fit] in HF; try tauto.
      change (fieldsH _ _ _) with [a1 mod 256] in NS. destruct i; discriminate NS.
    + destruct args as [|[a1| |] [|[a2| |] [|[a3| |] [|[d| |] [|[e| |] [|]]]]]]; cbn [fit] in HF; try tauto. destruct HF as (H1 & H2 & H3 & _). change (2 ^ (8 * 1)) with 256 in *.
      destruct HM as (l & -> & _). change (fieldsH _ _ _) with [a1 mod 256; a2 mod 256; a3 mod 256] in NZ, NS. rewrite !N.mod_small in NZ, NS by assumption.
      change (a1 :: a2 :: a3 :: l) with ([a1; a2; a3] ++ l).
      assert (LT : forall n v, nth_error [a1; a2; a3] n = Some v -> nth_error ([a1; a2; a3] ++ l) n = Some v).
      { intros n v H. rewrite nth_error_app1; [exact H|]. apply nth_error_Some. rewrite H. discriminate. }
      split; apply LT; assumption.
Qed.

(* ------------------------------------------------------------------ more facts about the table *)
Lemma table_data : forallb (fun f => negb (oddb f) || forallb (fun k => match k with PData => false | _ => true end) (kinds f)) eventTable = true.
Proof. vm_compute. reflexivity. Qed.
Lemma measurement_regular f : In f eventTable -> isMeasurement f -> regular f.
Proof.
  intros HT HM HO. apply oddb_spec in HO. assert (T := proj1 (forallb_forall _ _) table_data f HT). cbv beta in T. rewrite HO in T. cbn [negb orb] in T.
  assert (Q := proj1 (forallb_forall _ _) T PData HM). discriminate Q.
Qed.
Definition code (f : Sender) : N := e_class f * 256 + e_type f.
Fixpoint nodupb (l : list N) : bool := match l with [] => true | x :: r => negb (existsb (N.eqb x) r) && nodupb r end.
Lemma table_codes : forallb (fun f => (e_class f <? 512) && (e_type f <? 256)) eventTable && nodupb (map code eventTable) = true.
Proof. vm_compute. reflexivity. Qed.
Lemma nodupb_inj l : nodupb (map code l) = true -> forall f g, In f l -> In g l -> code f = code g -> f = g.
Proof.
  induction l as [|a l IH]; intros H f g HF HG HC; [contradiction|]. cbn [map nodupb] in H. apply andb_true_iff in H. destruct H as (HA & H).
  assert (NA : forall x, In x l -> code a <> code x).
  { intros x HX Q. apply negb_true_iff in HA. assert (X : existsb (N.eqb (code a)) (map code l) = true); [|congruence].
    apply existsb_exists. exists (code x). split; [apply in_map; exact HX|]. rewrite Q. apply N.eqb_refl. }
  destruct HF as [<-|HF], HG as [<-|HG]; [reflexivity|exfalso; exact (NA g HG HC)|exfalso; exact (NA f HF (eq_sym HC))|apply IH; assumption].
Qed.
Lemma ranges f : In f eventTable -> e_class f < 512 /\ e_type f < 256.
Proof.
  intros H. assert (T := table_codes). apply andb_true_iff in T. destruct T as (T & _). assert (Q := proj1 (forallb_forall _ _) T f H). cbv beta in Q. lia.
Qed.
Lemma distinct f g : In f eventTable -> In g eventTable -> e_class f = e_class g -> e_type f = e_type g -> f = g.
Proof.
  intros HF HG H1 H2. assert (T := table_codes). apply andb_true_iff in T. destruct T as (_ & T). apply (nodupb_inj _ T f g HF HG). unfold code. congruence.
Qed.
(* the coded bytes are determined *)
Lemma be_value : forall l, bytes l -> be (length l) (bigEndian l) = l.
Proof.
  apply (rev_ind (fun l => bytes l -> be (length l) (bigEndian l) = l)); [reflexivity|]. intros x l IH H. apply Forall_app in H. destruct H as (HL & HX). apply Forall_inv in HX.
  rewrite app_length. cbn [length]. rewrite Nat.add_1_r. cbn [be]. unfold bigEndian. rewrite fold_left_app. cbn [fold_left]. fold (bigEndian l).
  replace ((256 * bigEndian l + x) / 256) with (bigEndian l) by lia. replace ((256 * bigEndian l + x) mod 256) with x by lia. rewrite (IH HL). reflexivity.
Qed.
Lemma coded_unique d e l1 l2 : coded d e l1 -> coded d e l2 -> l1 = l2.
Proof.
  intros (n1 & p1 & k1 & -> & _ & B1 & L1 & (P1a & P1b & P1c) & V1 & ->) (n2 & p2 & k2 & -> & _ & B2 & L2 & (P2a & P2b & P2c) & V2 & ->).
  f_equal. assert (k1 = k2) as -> by (apply N.le_antisymm; auto).
  rewrite <- (be_value p1 B1), <- (be_value p2 B2). f_equal; lia.
Qed.
Lemma coded_roundtrip d e l : d < 2 ^ 32 -> d <> 2 ^ 31 -> e < 256 -> coded d e l ->
  (0 <= toInt32 d \/ toInt32 d <= -32768)%Z -> toInt8 e <> (-128)%Z -> normalizedIntegerToInt32 l = (toInt32 d, toInt8 e).
Proof.
  intros H1 H2 H3 HC HD HE. destruct (norm_ok d e 5 H1 H2) as (l' & EL & HC' & _); [lia|]. rewrite (coded_unique d e l l' HC HC').
  destruct (toInt32_range d H1 H2) as (HR & HM). destruct (roundtrip_iff (toInt32 d) (toInt8 e) 5 HR) as (l2 & E2 & HI); [unfold toInt8, int8, u8; destruct (Z.ltb_spec (Z.of_N (e mod 256)) 128); lia|exact HM|lia|].
  rewrite EL in E2. injection E2 as <-. apply HI. split; assumption.
Qed.
Definition classOf (m : list Sender) : N := match m with [] => 0 | f :: _ => e_class f end.
Lemma table_modules : forallb (fun m => forallb (fun f => e_class f =? classOf m) m) eventModules && nodupb (map classOf eventModules) = true.
Proof. vm_compute. reflexivity. Qed.
Lemma nodupb_nth l : nodupb l = true -> forall i j x, nth_error l i = Some x -> nth_error l j = Some x -> i = j.
Proof.
  induction l as [|a l IH]; intros H i j x HI HJ; [destruct i; discriminate HI|]. cbn [nodupb] in H. apply andb_true_iff in H. destruct H as (HA & H).
  assert (NA : forall k, nth_error l k <> Some a).
  { intros k Q. apply negb_true_iff in HA. assert (X : existsb (N.eqb a) l = true); [|congruence]. apply existsb_exists. exists a. split; [eapply nth_error_In; exact Q|apply N.eqb_refl]. }
  destruct i, j; [reflexivity| | |f_equal; eapply IH; eauto]; cbn [nth_error] in HI, HJ.
  - injection HI as <-. exfalso. exact (NA j HJ).
  - injection HJ as <-. exfalso. exact (NA i HI).
Qed.
Lemma classes i j m1 m2 f g : nth_error eventModules i = Some m1 -> nth_error eventModules j = Some m2 -> In f m1 -> In g m2 ->
  (e_class f = e_class g <-> i = j) /\ e_class f < 512 /\ e_type f < 256.
Proof.
  intros H1 H2 HF HG. assert (T := table_modules). apply andb_true_iff in T. destruct T as (T1 & T2). rewrite forallb_forall in T1.
  assert (C1 := proj1 (forallb_forall _ _) (T1 m1 (nth_error_In _ _ H1)) f HF). assert (C2 := proj1 (forallb_forall _ _) (T1 m2 (nth_error_In _ _ H2)) g HG). cbv beta in C1, C2.
  split; [split; intros Q|].
  - apply (nodupb_nth _ T2 i j (classOf m1)); [apply map_nth_error; exact H1|]. replace (classOf m1) with (classOf m2) by lia. apply map_nth_error. exact H2.
  - subst j. rewrite H1 in H2. injection H2 as <-. lia.
  - apply ranges. unfold eventTable. apply in_concat. exists m1. split; [eapply nth_error_In; exact H1|exact HF].
Qed.
