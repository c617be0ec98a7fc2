(* Proof_Restore.v - what vscp_core_restoreFactoryDefaultSettings leaves in persistent memory *)
From Verif Require Export Proof_PS.

Section R.
Context {A : Type} {E : Env A}.

(* m replaces the stored bytes for which u gives a value and leaves the others alone *)
Definition setsF {T} (m : M A T) (u : Field -> N -> option N) : Prop :=
  forall w f i, i < fieldLen cfg f ->
    stored (snd (m w)) f i = match u f i with Some v => v | None => stored w f i end.
Definition nothing : Field -> N -> option N := fun _ _ => None.
Definition over (u2 u1 : Field -> N -> option N) : Field -> N -> option N :=
  fun f i => match u2 f i with Some v => Some v | None => u1 f i end.
Lemma setsF_bind {T U} (m : M A T) (k : T -> M A U) u1 u2 :
  setsF m u1 -> (forall r, setsF (k r) u2) -> setsF (bind m k) (over u2 u1).
Proof.
  intros H1 H2 w f i Hi. unfold bind. rewrite (H2 _ _ f i Hi), (H1 _ f i Hi). unfold over.
  destruct (u2 f i); reflexivity.
Qed.
Lemma stored_ext (w w' : World A) f i : (forall a, w_ps w' a = w_ps w a) -> i < fieldLen cfg f -> stored w' f i = stored w f i.
Proof. intros H Hi. unfold stored. rewrite !readField_eq by exact Hi. apply H. Qed.
Lemma setsF_none {T} (m : M A T) : (forall w, w_ps (snd (m w)) = w_ps w) -> setsF m nothing.
Proof. intros H w f i Hi. cbn. apply stored_ext; [intros a; rewrite H; reflexivity|exact Hi]. Qed.
Lemma setsF_ext {T} (m : M A T) u u' : setsF m u -> (forall f i, i < fieldLen cfg f -> u f i = u' f i) -> setsF m u'.
Proof. intros H K w f i Hi. rewrite (H w f i Hi), (K f i Hi). reflexivity. Qed.
Lemma setsF_when {T} (b : bool) (m m' : M A T) u u' : (b = true -> setsF m u) -> (b = false -> setsF m' u') ->
  setsF (if b then m else m') (if b then u else u').
Proof. destruct b; auto. Qed.
Lemma app_if (b : bool) (u : Field -> N -> option N) f i : (if b then u else nothing) f i = if b then u f i else None.
Proof. destruct b; reflexivity. Qed.
Lemma if_none (b : bool) : (if b then @None N else None) = None.
Proof. destruct b; reflexivity. Qed.
Definition one (f : Field) (i v : N) : Field -> N -> option N :=
  fun g j => if field_eqb f g && (i =? j) then Some v else None.
Lemma setsF_write f i v : i < fieldLen cfg f -> v < 256 -> setsF (writeField f i v) (one f i v).
Proof.
  intros Hi Hv w g j Hj. rewrite (proj2 (field_write_effect f i v w Hi Hv) g j Hj). unfold one.
  destruct (field_eqb f g && (i =? j)); reflexivity.
Qed.
(* a loop of writes to one field *)
Definition loopOf (f : Field) (l : list (N * N)) : Field -> N -> option N :=
  fun g j => if field_eqb f g then fold_left (fun acc p => if fst p =? j then Some (snd p) else acc) l None else None.
Lemma fold_over (l : list (N * N)) j acc :
  fold_left (fun acc p => if fst p =? j then Some (snd p) else acc) l acc =
  match fold_left (fun acc p => if fst p =? j then Some (snd p) else acc) l None with Some v => Some v | None => acc end.
Proof.
  revert acc. induction l as [|p l IH]; intros acc; [destruct acc; reflexivity|]. cbn [fold_left].
  rewrite IH. rewrite (IH (if fst p =? j then Some (snd p) else None)). destruct (fold_left _ l None); [reflexivity|].
  destruct (fst p =? j); reflexivity.
Qed.
Lemma setsF_loop {X} f (l : list X) (h v : X -> N) (body : X -> M A unit) :
  (forall x w, In x l -> body x w = writeField f (h x) (v x) w) ->
  (forall x, In x l -> h x < fieldLen cfg f /\ v x < 256) ->
  setsF (forM l body) (loopOf f (map (fun x => (h x, v x)) l)).
Proof.
  induction l as [|x l IH]; intros HB H.
  - cbn [forM map]. eapply setsF_ext; [apply setsF_none; reflexivity|]. intros g i _. unfold loopOf. cbn. destruct (field_eqb f g); reflexivity.
  - cbn [forM map]. destruct (H x (or_introl eq_refl)).
    eapply setsF_ext; [eapply setsF_bind; [|intros _; apply IH; auto]|].
    + intros w g i Hi. rewrite HB by (left; reflexivity). apply (setsF_write f (h x) (v x)); assumption.
    + intros y w Hy. apply HB. right. exact Hy.
    + intros y Hy. apply H. right. exact Hy.
    + intros g i _. unfold over, loopOf, one. destruct (field_eqb f g); [|reflexivity]. cbn [fold_left fst snd andb].
      rewrite (fold_over _ i (if h x =? i then _ else _)). destruct (fold_left _ (map _ l) None); reflexivity.
Qed.
Lemma fold_none (l : list (N * N)) j : (forall p, In p l -> fst p <> j) ->
  fold_left (fun acc p => if fst p =? j then Some (snd p) else acc) l None = None.
Proof.
  induction l as [|p l IH]; intros H; [reflexivity|]. cbn [fold_left].
  replace (fst p =? j) with false by (symmetry; apply N.eqb_neq, H; left; reflexivity). apply IH. intros q Hq. apply H. right. exact Hq.
Qed.
Lemma fold_value (l : list (N * N)) j x : (forall p, In p l -> fst p = j -> snd p = x) -> (exists p, In p l /\ fst p = j) ->
  fold_left (fun acc p => if fst p =? j then Some (snd p) else acc) l None = Some x.
Proof.
  induction l as [|p l IH]; intros H [q [Hq Hj]]; [destruct Hq|]. cbn [fold_left]. rewrite fold_over.
  destruct (existsb (fun p => fst p =? j) l) eqn:X.
  - apply existsb_exists in X as (p' & Hp' & Hj'). apply N.eqb_eq in Hj'. rewrite IH; [reflexivity| |exists p'; auto].
    intros r Hr. apply H. right. exact Hr.
  - rewrite fold_none.
    + destruct Hq as [->|Hq].
      * rewrite Hj, N.eqb_refl. f_equal. apply H; [left; reflexivity|exact Hj].
      * exfalso. assert (K : existsb (fun p => fst p =? j) l = true); [|congruence].
        apply existsb_exists. exists q. split; [exact Hq|]. apply N.eqb_eq. exact Hj.
    + intros r Hr K. assert (K' : existsb (fun p => fst p =? j) l = true); [|congruence].
      apply existsb_exists. exists r. split; [exact Hr|]. apply N.eqb_eq. exact K.
Qed.
Lemma in_Nseq n i : In i (Nseq n) <-> i < n.
Proof.
  unfold Nseq. rewrite in_map_iff. split.
  - intros (k & <- & Hk). apply in_seq in Hk. lia.
  - intros H. exists (N.to_nat i). rewrite N2Nat.id. split; [reflexivity|]. apply in_seq. lia.
Qed.
(* loop over all indices of the field *)
Definition whole (f : Field) (n : N) (v : N -> N) : Field -> N -> option N :=
  fun g j => if field_eqb f g then (if j <? n then Some (v j) else None) else None.
Lemma setsF_whole f n (v : N -> N) (body : N -> M A unit) :
  (forall i w, i < n -> body i w = writeField f i (v i) w) ->
  (forall i, i < n -> i < fieldLen cfg f /\ v i < 256) ->
  setsF (forM (Nseq n) body) (whole f n v).
Proof.
  intros HB H. eapply setsF_ext; [apply (setsF_loop f _ (fun i => i) v)|].
  - intros x w Hx. apply HB. apply in_Nseq. exact Hx.
  - intros x Hx. apply H. apply in_Nseq. exact Hx.
  - intros g j _. unfold loopOf, whole. destruct (field_eqb f g); [|reflexivity]. destruct (N.ltb_spec j n) as [L|L].
    + apply fold_value.
      * intros p Hp <-. apply in_map_iff in Hp as (x & <- & _). reflexivity.
      * exists (j, v j). split; [|reflexivity]. apply in_map_iff. exists j. split; [reflexivity|apply in_Nseq; exact L].
    + apply fold_none. intros p Hp. apply in_map_iff in Hp as (x & <- & Hx). apply in_Nseq in Hx. cbn. lia.
Qed.

Definition zeros (f : Field) (i n : N) : Field -> N -> option N :=
  fun g j => if field_eqb f g && (i <=? j) && (j <? i + n) then Some 0 else None.
Lemma setsF_zeros f n : forall i, i + N.of_nat n <= fieldLen cfg f ->
  setsF (psWriteMultiple (fieldBase cfg f + i) (repeat 0 n)) (zeros f i (N.of_nat n)).
Proof.
  induction n as [|n IH]; intros i H.
  - cbn [repeat psWriteMultiple]. eapply setsF_ext; [apply setsF_none; reflexivity|]. intros g j _. unfold zeros, nothing.
    replace ((i <=? j) && (j <? i + N.of_nat 0)) with false by lia. rewrite <- Bool.andb_assoc. replace ((i <=? j) && (j <? i + N.of_nat 0)) with false by lia.
    rewrite Bool.andb_false_r. reflexivity.
  - cbn [repeat psWriteMultiple]. eapply setsF_ext.
    + eapply setsF_bind.
      * intros w g j Hj. rewrite <- (writeField_eq f i 0 w) by lia. apply (setsF_write f i 0); lia.
      * intros _. replace (fieldBase cfg f + i + 1) with (fieldBase cfg f + (i + 1)) by lia. apply IH. lia.
    + intros g j _. unfold over, zeros, one. rewrite <- !Bool.andb_assoc.
      destruct (field_eqb f g); cbn [andb]; [|reflexivity]. destruct (i =? j) eqn:Q.
      * replace ((i <=? j) && (j <? i + N.of_nat (S n))) with true by lia. replace ((i + 1 <=? j) && _) with false by lia. reflexivity.
      * replace ((i <=? j) && (j <? i + N.of_nat (S n))) with ((i + 1 <=? j) && (j <? i + 1 + N.of_nat n)) by lia.
        destruct ((i + 1 <=? j) && (j <? i + 1 + N.of_nat n)); reflexivity.
Qed.
Definition cover (l : list N) (j : N) : bool := existsb (fun i => (i <=? j) && (j <? i + 8)) l.
Definition dmZero (l : list N) : Field -> N -> option N :=
  fun g j => if (field_eqb FDm g || (c_dm_ext cfg && field_eqb FDmx g)) && cover l j then Some 0 else None.
Lemma setsF_dmrows (c_dm_on : c_dm cfg = true) l : (forall i, In i l -> i < c_dm_rows cfg) ->
  setsF (forM l (fun i => ps_writeDMMultiple i (repeat 0 8) ;; when c_dm_ext cfg do ps_writeDMExtMultiple i (repeat 0 8))) (dmZero l).
Proof.
  lenNames cfg. induction l as [|i l IH]; intros H.
  - eapply setsF_ext; [apply setsF_none; reflexivity|]. intros g j _. unfold dmZero, cover. cbn [existsb]. rewrite Bool.andb_false_r. reflexivity.
  - cbn [forM]. pose proof (H i (or_introl eq_refl)) as Hi. eapply setsF_ext.
    + eapply setsF_bind; [|intros _; apply IH; intros k Hk; apply H; right; exact Hk].
      eapply (setsF_bind _ _ (zeros FDm i 8) (if c_dm_ext cfg then zeros FDmx i 8 else nothing)).
      * unfold ps_writeDMMultiple. rewrite repeat_length. cbn [N.of_nat].
        assert (LE : i + 8 <= fieldLen cfg FDm) by (cbn [fieldLen]; rewrite c_dm_on; lia).
        replace ((0 <? _) && _) with true by lia. apply (setsF_zeros FDm 8). exact LE.
      * intros _. apply setsF_when.
        -- intros X. unfold ps_writeDMExtMultiple. rewrite repeat_length.
           assert (LE : i + 8 <= fieldLen cfg FDmx) by (cbn [fieldLen]; rewrite X; lia).
           replace (_ <=? _) with true by lia. apply (setsF_zeros FDmx 8). exact LE.
        -- intros _. apply setsF_none. reflexivity.
    + intros g j _. unfold over, dmZero. cbn [cover existsb]. fold (cover l j).
      destruct (c_dm_ext cfg); destruct g; cbn [field_eqb andb orb]; unfold zeros, nothing; cbn [field_eqb andb];
        destruct (cover l j), (i <=? j), (j <? i + 8); reflexivity.
Qed.
Lemma cover_Nseq n j : 0 < n -> cover (Nseq n) j = (j <? n + 7).
Proof.
  intros Hn. unfold cover. destruct (N.ltb_spec j (n + 7)) as [L|L].
  - apply existsb_exists. exists (if j <? n then j else n - 1). rewrite in_Nseq. destruct (N.ltb_spec j n); split; lia.
  - destruct (existsb _ (Nseq n)) eqn:X; [|reflexivity]. apply existsb_exists in X as (i & Hi & K). apply in_Nseq in Hi. lia.
Qed.
(* what is actually written *)
Definition actual (f : Field) (i : N) : option N :=
  match f with
  | FFam => if d_family cfg then Some (N.land (N.shiftr (d_fam cfg) i) 255) else None
  | FType => if d_family cfg then Some (N.land (N.shiftr (d_type cfg) i) 255) else None
  | FDm | FDmx => if i <? c_dm_rows cfg + 7 then Some 0 else None
  | _ => factoryDefault cfg f i
  end.
Hypothesis VE : valid_env E.
Lemma hostByte_div x i : hostByte x i = x / 2 ^ (8 * (if c_le cfg then i else 3 - i)) mod 256.
Proof. unfold hostByte, byteN. rewrite N.shiftr_div_pow2. change 255 with (N.ones 8). rewrite N.land_ones. reflexivity. Qed.
Lemma nth_byte l k : bytes l -> nth k l 0 < 256.
Proof. intros H. destruct (Nat.lt_ge_cases k (length l)); [apply (proj1 (Forall_forall _ _) H); apply nth_In; lia|rewrite nth_overflow by lia; lia]. Qed.
Lemma land255 x : N.land x 255 < 256.
Proof. change 255 with (N.ones 8). rewrite N.land_ones. apply N.mod_lt. discriminate. Qed.
Lemma dd_restore_sets : setsF dd_restore (fun f i => match f with
   | FGuid | FZone | FSub | FMDev | FMSub | FMdf | FFam | FType => actual f i | _ => None end).
Proof.
  pose proof (ve_cfg E VE) as VC. lenNames cfg. pose proof (v_guid cfg VC) as [GL GB].
  unfold dd_restore. eapply setsF_ext.
  - repeat (eapply setsF_bind; [apply setsF_when; [intros HB|intros _; apply (setsF_none (ret tt)); reflexivity]|intros _]).
    + (* GUID *) apply (setsF_loop FGuid _ (fun i => sz_guid cfg - i - 1) (fun i => at0 (d_guid cfg) i)).
      * reflexivity.
      * intros i Hi. apply in_Nseq in Hi. split; [lia|]. apply nth_byte. exact GB.
    + apply (setsF_write FZone 0 (d_zone cfg)); [cbn [fieldLen]; rewrite HB; lia|apply VC].
    + apply (setsF_write FSub 0 (d_sub cfg)); [cbn [fieldLen]; rewrite HB; lia|apply VC].
    + apply (setsF_whole FMDev _ (hostByte (d_mdev cfg))); [reflexivity|]. intros i Hi. split; [lia|]. rewrite hostByte_div. apply N.mod_lt. discriminate.
    + apply (setsF_whole FMSub _ (hostByte (d_msub cfg))); [reflexivity|]. intros i Hi. split; [lia|]. rewrite hostByte_div. apply N.mod_lt. discriminate.
    + apply (setsF_whole FMdf _ (at0 (d_mdf cfg))); [reflexivity|]. intros i Hi. split; [lia|]. apply nth_byte.
      eapply Forall_impl; [|exact (v_mdf cfg VC)]. cbn. lia.
    + apply (setsF_whole FFam _ (fun i => N.land (N.shiftr (d_fam cfg) i) 255)); [reflexivity|]. intros i Hi. split; [lia|apply land255].
    + apply setsF_when; [intros HB|intros _; apply (setsF_none (ret tt)); reflexivity].
      apply (setsF_whole FType _ (fun i => N.land (N.shiftr (d_type cfg) i) 255)); [reflexivity|]. intros i Hi. split; [lia|apply land255].
  - intros f i Hi. unfold over. rewrite !app_if.
    destruct f; cbn [actual factoryDefault]; unfold whole, loopOf, one; cbn [field_eqb andb]; rewrite ?if_none;
      rewrite ?HS2, ?HS5, ?HS6, ?HS7, ?HS8, ?HS9; try reflexivity; cbn [fieldLen] in *.
    + destruct (d_guid_ps cfg); [|lia]. apply fold_value.
      * intros p Hp <-. apply in_map_iff in Hp as (x & <- & Hx). apply in_Nseq in Hx. cbn [fst snd]. unfold at0. f_equal. lia.
      * exists (i, at0 (d_guid cfg) (15 - i)). split; [|reflexivity]. apply in_map_iff. exists (15 - i). split; [f_equal; lia|apply in_Nseq; lia].
    + destruct (d_zone_ps cfg); [|lia]. replace (0 =? i) with true by lia. reflexivity.
    + destruct (d_sub_ps cfg); [|lia]. replace (0 =? i) with true by lia. reflexivity.
    + destruct (d_mdev_ps cfg); [|lia]. replace (i <? 4) with true by lia. rewrite hostByte_div. reflexivity.
    + destruct (d_msub_ps cfg); [|lia]. replace (i <? 4) with true by lia. rewrite hostByte_div. reflexivity.
    + destruct (d_mdf_ps cfg); [|lia]. replace (i <? 32) with true by lia. reflexivity.
    + destruct (d_fam_ps cfg); [|lia]. replace (i <? 4) with true by lia. destruct (d_family cfg); reflexivity.
    + destruct (d_type_ps cfg); [|lia]. replace (i <? 4) with true by lia. destruct (d_family cfg); reflexivity.
Qed.
Lemma restore_sets : setsF restoreFactory actual.
Proof.
  pose proof (ve_cfg E VE) as VC. lenNames cfg. unfold restoreFactory.
  eapply setsF_ext.
  - do 6 (eapply setsF_bind; [apply setsF_none; reflexivity|intros _]).
    eapply setsF_bind.
    { unfold writeNicknameId. eapply setsF_bind; [apply (setsF_write FNick 0 255); [cbn; lia|lia]|].
      intros _. eapply setsF_bind; [apply setsF_none; reflexivity|]. intros r. apply setsF_none. reflexivity. }
    intros _. eapply setsF_bind.
    { apply setsF_when; [intros HB; apply (setsF_write FCrc 0 255); [cbn; lia|lia]|intros _; apply (setsF_none (ret tt)); reflexivity]. }
    intros _. eapply setsF_bind; [apply (setsF_write FCtrl 0 160); [cbn; lia|lia]|].
    intros _. eapply setsF_bind; [apply (setsF_whole FUser _ (fun _ => 0)); [reflexivity|]; intros i Hi; split; [exact Hi|lia]|].
    intros _. eapply setsF_bind; [apply dd_restore_sets|].
    intros _. eapply setsF_bind.
    { apply setsF_when; [intros HB; apply setsF_dmrows; [exact HB|]|intros _; apply (setsF_none (ret tt)); reflexivity]. intros i. apply in_Nseq. }
    intros _. eapply setsF_bind.
    { apply setsF_when; [intros HB|intros _; apply (setsF_none (ret tt)); reflexivity].
      apply (setsF_whole FNg _ (fun _ => 0)); [reflexivity|]. intros i Hi. cbn [fieldLen]. rewrite HB. split; [exact Hi|lia]. }
    intros _. eapply setsF_bind; [apply setsF_none; reflexivity|]. intros _. apply setsF_none. reflexivity.
  - intros f i Hi. unfold over. rewrite !app_if. unfold nothing.
    destruct f; cbn [actual factoryDefault]; unfold whole, one, dmZero; cbn [field_eqb andb orb]; rewrite ?Bool.andb_false_r; cbn [andb]; rewrite ?if_none; try reflexivity; cbn [fieldLen] in Hi.
    + replace (0 =? i) with true by lia. reflexivity.
    + replace (0 =? i) with true by lia. destruct (c_hb_seg cfg); reflexivity.
    + replace (0 =? i) with true by lia. reflexivity.
    + replace (i <? sz_user) with true by (unfold sz_user; lia). reflexivity.
    + destruct (d_family cfg); reflexivity.
    + destruct (d_family cfg); reflexivity.
    + destruct (c_dm cfg); [|lia]. rewrite cover_Nseq by lia. destruct (i <? _); reflexivity.
    + rewrite Bool.andb_true_r. destruct (c_dm_ext cfg) eqn:X; [|lia]. rewrite (v_e2 cfg VC X). rewrite cover_Nseq by lia. cbn [andb]. destruct (i <? _); reflexivity.
    + destruct (c_dm_ng cfg); [|lia]. replace (i <? c_ng_size cfg) with true by lia. reflexivity.
Qed.
End R.
