(* Proof_SwTimer.v - lemmas for property C72. *)
From Verif Require Import SwTimer Spec_SwTimer.

Lemma swAt_length ts i f : length (swAt ts i f) = length ts.
Proof. revert i; induction ts as [|t r IH]; destruct i; cbn; auto. Qed.
Lemma swAt_same ts i f t : nth_error ts i = Some t -> nth_error (swAt ts i f) i = Some (f t).
Proof. revert i; induction ts as [|t0 r IH]; destruct i; cbn; try discriminate; auto. congruence. Qed.
Lemma swAt_other ts i j f : i <> j -> nth_error (swAt ts i f) j = nth_error ts j.
Proof.
  revert i j; induction ts as [|t0 r IH]; destruct i, j; cbn; auto; try congruence.
  all: intros; apply IH; congruence.
Qed.

(* the value of one timer after one call that does not touch it *)
Definition dec (t : SwT) : SwT :=
  mkSwT (s_start t) (s_manual t) (if 0 <? s_val t then s_val t - 1 else s_val t).
Definition poll (t : SwT) : SwT :=
  if (s_val t =? 0) && negb (s_manual t) then mkSwT (s_start t) (s_manual t) (s_start t) else t.

Lemma step_one ts op id t :
  ~ sTouches id op -> nth_error ts (N.to_nat id) = Some t ->
  nth_error (sStep ts op) (N.to_nat id) =
  Some (match op with STick => dec t | SPoll i => if i =? id then poll t else t | _ => t end).
Proof.
  intros Ht Hn. destruct op as [i v m|i|i|]; cbn [sStep sTouches] in *.
  - unfold swStart. rewrite swAt_other; [assumption|]. intro E. apply Ht. lia.
  - unfold swStop. rewrite swAt_other; [assumption|]. intro E. apply Ht. lia.
  - unfold swGetStatus. destruct (N.eqb_spec i id) as [->|Hi].
    + rewrite Hn. unfold poll. destruct (s_val t =? 0); cbn; [|assumption].
      destruct (s_manual t) eqn:Em; cbn; [assumption|].
      rewrite (swAt_same _ _ _ t Hn). now rewrite Em.
    + destruct (nth_error ts (N.to_nat i)) as [t'|]; [|assumption].
      destruct (s_val t' =? 0); cbn; [|assumption].
      destruct (s_manual t'); [assumption|]. rewrite swAt_other; [assumption|]. lia.
  - unfold swProcess. rewrite nth_error_map, Hn. reflexivity.
Qed.

Lemma start_one ts id v m : (N.to_nat id < length ts)%nat ->
  nth_error (swStart ts id v m) (N.to_nat id) = Some (mkSwT (u8 v) m (u8 v)).
Proof.
  intro H. unfold swStart. destruct (nth_error ts (N.to_nat id)) as [t|] eqn:E.
  - exact (swAt_same _ _ _ t E).
  - apply nth_error_None in E. lia.
Qed.

Lemma step_length ts op : length (sStep ts op) = length ts.
Proof.
  destruct op; cbn [sStep]; unfold swStart, swStop, swProcess, swGetStatus; rewrite ?swAt_length, ?map_length; auto.
  destruct nth_error as [t|]; auto. destruct (s_val t =? 0); cbn; auto. destruct (s_manual t); auto.
  apply swAt_length.
Qed.
Lemma run_length ops : forall ts, length (sRun ts ops) = length ts.
Proof.
  induction ops as [|o r IH]; intro ts; [reflexivity|].
  change (sRun ts (o :: r)) with (sRun (sStep ts o) r). rewrite IH. apply step_length.
Qed.
Lemma init_length num : length (swInit num) = N.to_nat num.
Proof. apply repeat_length. Qed.

Lemma status_one ts id t : nth_error ts (N.to_nat id) = Some t -> fst (swGetStatus ts id) = (s_val t =? 0).
Proof. unfold swGetStatus. intros ->. destruct (s_val t =? 0); reflexivity. Qed.

(* manual timer, or automatic timer while it does not expire *)
Lemma manual_run : forall ops ts id t,
  Forall (fun op => ~ sTouches id op) ops -> nth_error ts (N.to_nat id) = Some t -> s_manual t = true ->
  nth_error (sRun ts ops) (N.to_nat id) = Some (mkSwT (s_start t) true (s_val t - ticks ops)).
Proof.
  induction ops as [|op r IH]; intros ts id t Hf Hn Hm.
  - cbn. rewrite Hn. f_equal. destruct t; cbn in *. subst. f_equal. lia.
  - inversion Hf as [|? ? H1 H2]; subst. cbn [sRun fold_left].
    pose proof (step_one ts op id t H1 Hn) as Hs.
    set (t' := match op with STick => dec t | SPoll i => if i =? id then poll t else t | _ => t end) in *.
    assert (Hp : poll t = t) by (unfold poll; rewrite Hm; now rewrite andb_false_r).
    assert (Hm' : s_manual t' = true).
    { unfold t'. destruct op; auto. rewrite Hp. destruct (_ =? _); auto. }
    assert (Hst : s_start t' = s_start t).
    { unfold t'. destruct op; auto. rewrite Hp. destruct (_ =? _); auto. }
    pose proof (IH _ _ _ H2 Hs Hm') as HI. unfold sRun in HI. rewrite HI, Hst. f_equal. f_equal.
    unfold t'. destruct op; cbn [ticks]; auto.
    + rewrite Hp. destruct (_ =? _); auto.
    + unfold dec; cbn [s_val]. destruct (N.ltb_spec 0 (s_val t)); lia.
Qed.

Lemma expired_manual : forall num pre id v post,
  id < num -> Forall (fun op => ~ sTouches id op) post ->
  expired (swInit num) (pre ++ SStart id v true :: post) id = (v mod 256 <=? ticks post).
Proof.
  intros num pre id v post Hid Hf. unfold expired, sRun. rewrite fold_left_app. cbn [fold_left sStep].
  fold (sRun (swInit num) pre). set (ts := sRun (swInit num) pre).
  assert (Hl : (N.to_nat id < length ts)%nat).
  { unfold ts. rewrite run_length, init_length. lia. }
  pose proof (manual_run post _ id _ Hf (start_one ts id v true Hl) eq_refl) as H.
  unfold sRun in H. cbn in H. rewrite (status_one _ _ _ H). cbn. unfold u8. 
  destruct (N.leb_spec (v mod 256) (ticks post)); [apply N.eqb_eq|apply N.eqb_neq]; lia.
Qed.

(* automatic timer: bookkeeping *)
Lemma auto_run : forall ops ts id t v,
  Forall (fun op => ~ sTouches id op) ops -> nth_error ts (N.to_nat id) = Some t ->
  s_manual t = false -> s_start t = v -> s_val t <= v ->
  exists t', nth_error (sRun ts ops) (N.to_nat id) = Some t' /\ s_manual t' = false /\ s_start t' = v /\
             s_val t' <= v /\ s_val t + v * expirations ts ops id <= ticks ops + s_val t'.
Proof.
  induction ops as [|op r IH]; intros ts id t v Hf Hn Hm Hst Hv.
  - exists t. cbn. repeat split; auto. lia.
  - inversion Hf as [|? ? H1 H2]; subst. cbn [sRun fold_left].
    pose proof (step_one ts op id t H1 Hn) as Hs.
    set (t1 := match op with STick => dec t | SPoll i => if i =? id then poll t else t | _ => t end) in *.
    assert (Ht1 : s_manual t1 = false /\ s_start t1 = s_start t /\ s_val t1 <= s_start t /\
       s_val t + s_start t * (match op with
       | SPoll i => if (i =? id) && fst (swGetStatus ts i) then 1 else 0 | _ => 0 end)
       <= (match op with STick => 1 | _ => 0 end) + s_val t1).
    { unfold t1. destruct op as [| |i|]; try (repeat split; auto; lia).
      - destruct (N.eqb_spec i id) as [->|]; cbn [andb].
        + rewrite (status_one _ _ _ Hn). unfold poll. rewrite Hm.
          destruct (N.eqb_spec (s_val t) 0) as [E|E]; cbn; repeat split; auto; try lia.
        + repeat split; auto; lia.
      - unfold dec; cbn [s_val s_start s_manual]. destruct (N.ltb_spec 0 (s_val t)); repeat split; auto; lia. }
    destruct Ht1 as (M1 & S1 & V1 & B1).
    destruct (IH _ _ _ (s_start t) H2 Hs M1 S1 V1) as (t' & G1 & G2 & G3 & G4 & G5).
    exists t'. repeat split; auto. cbn [expirations ticks].
    destruct op; cbn [ticks] in *; lia.
Qed.

Lemma auto_never_fast : forall num pre id v post,
  id < num -> v < 256 -> Forall (fun op => ~ sTouches id op) post ->
  v * expirations (sRun (swInit num) (pre ++ [SStart id v false])) post id <= ticks post.
Proof.
  intros num pre id v post Hid Hv Hf. unfold sRun. rewrite fold_left_app. cbn [fold_left sStep].
  fold (sRun (swInit num) pre). set (ts := sRun (swInit num) pre).
  assert (Hl : (N.to_nat id < length ts)%nat).
  { unfold ts. rewrite run_length, init_length. lia. }
  pose proof (start_one ts id v false Hl) as Hn. unfold u8 in Hn. rewrite N.mod_small in Hn by assumption.
  destruct (auto_run post _ id _ v Hf Hn eq_refl eq_refl (N.le_refl v)) as (t' & _ & _ & _ & H4 & H5).
  cbn in H5. lia.
Qed.

(* automatic timer between two expirations *)
Lemma auto_quiet : forall ops ts id t,
  Forall (fun op => ~ sTouches id op) ops -> nth_error ts (N.to_nat id) = Some t ->
  expirations ts ops id = 0 ->
  nth_error (sRun ts ops) (N.to_nat id) = Some (mkSwT (s_start t) (s_manual t) (s_val t - ticks ops)).
Proof.
  induction ops as [|op r IH]; intros ts id t Hf Hn He.
  - cbn. rewrite Hn. f_equal. destruct t; cbn. f_equal. lia.
  - inversion Hf as [|? ? H1 H2]; subst. cbn [sRun fold_left expirations] in *.
    pose proof (step_one ts op id t H1 Hn) as Hs.
    assert (He2 : expirations (sStep ts op) r id = 0) by lia.
    pose proof (IH _ _ _ H2 Hs He2) as HI. unfold sRun in HI. rewrite HI. f_equal.
    destruct op as [| |i|]; cbn [ticks]; auto.
    + destruct (N.eqb_spec i id) as [->|]; auto. rewrite (status_one _ _ _ Hn) in He. cbn [andb] in He.
      unfold poll. destruct (N.eqb_spec (s_val t) 0); cbn; [lia|reflexivity].
    + unfold dec; cbn [s_val s_start s_manual]. f_equal. destruct (N.ltb_spec 0 (s_val t)); lia.
Qed.

Lemma expired_again : forall num pre id v p1 p2,
  id < num -> Forall (fun op => ~ sTouches id op) (p1 ++ SPoll id :: p2) ->
  let ts := sRun (swInit num) (pre ++ SStart id v false :: p1) in
  fst (swGetStatus ts id) = true ->
  expirations (sRun ts [SPoll id]) p2 id = 0 ->
  expired ts (SPoll id :: p2) id = (v mod 256 <=? ticks p2).
Proof.
  intros num pre id v p1 p2 Hid Hf ts He H0.
  apply Forall_app in Hf. destruct Hf as [Hf1 Hf2]. inversion Hf2 as [|? ? _ Hf3]; subst.
  assert (exists t, nth_error ts (N.to_nat id) = Some t /\ s_manual t = false /\ s_start t = v mod 256) as (t & Hn & Hm & Hst).
  { unfold ts, sRun. rewrite fold_left_app. cbn [fold_left sStep]. fold (sRun (swInit num) pre).
    assert (Hl : (N.to_nat id < length (sRun (swInit num) pre))%nat) by (rewrite run_length, init_length; lia).
    pose proof (start_one _ id v false Hl) as Hn0.
    destruct (auto_run p1 _ id _ (u8 v) Hf1 Hn0 eq_refl eq_refl (N.le_refl _)) as (t' & A1 & A2 & A3 & _).
    exists t'. auto. }
  rewrite (status_one _ _ _ Hn) in He.
  assert (Hp : nth_error (sRun ts [SPoll id]) (N.to_nat id) = Some (mkSwT (v mod 256) false (v mod 256))).
  { cbn [sRun fold_left]. rewrite (step_one ts (SPoll id) id t (fun H => H) Hn), N.eqb_refl.
    unfold poll. rewrite He, Hm, Hst. reflexivity. }
  unfold expired. change (sRun ts (SPoll id :: p2)) with (sRun (sRun ts [SPoll id]) p2).
  rewrite (status_one _ _ _ (auto_quiet p2 _ id _ Hf3 Hp H0)). cbn.
  destruct (N.leb_spec (v mod 256) (ticks p2)); [apply N.eqb_eq|apply N.eqb_neq]; lia.
Qed.

(* polled after every interrupt *)
Lemma rounds_one : forall k ts id t, nth_error ts (N.to_nat id) = Some t -> s_manual t = false ->
  0 < s_start t -> s_val t <= s_start t -> 0 < s_val t ->
  exists t', nth_error (sRun ts (rounds id k)) (N.to_nat id) = Some t' /\ s_manual t' = false /\
    s_start t' = s_start t /\ 0 < s_val t' <= s_start t /\
    s_val t + s_start t * expirations ts (rounds id k) id = N.of_nat k + s_val t'.
Proof.
  induction k as [|k IH]; intros ts id t Hn Hm Hs Hv H0.
  - exists t. cbn. repeat split; auto; lia.
  - cbn [rounds sRun fold_left expirations].
    pose proof (step_one ts STick id t (fun H => H) Hn) as S1.
    pose proof (step_one _ (SPoll id) id _ (fun H => H) S1) as S2. cbv iota in S1, S2. rewrite N.eqb_refl in S2.
    rewrite N.eqb_refl, (status_one _ _ _ S1). cbn [andb].
    assert (D : s_val (dec t) = s_val t - 1) by (unfold dec; cbn; destruct (N.ltb_spec 0 (s_val t)); lia).
    set (t2 := poll (dec t)) in *.
    assert (P : s_manual t2 = false /\ s_start t2 = s_start t /\
                (if s_val (dec t) =? 0 then s_val t2 = s_start t else s_val t2 = s_val t - 1)).
    { unfold t2, poll. replace (s_manual (dec t)) with false by (symmetry; exact Hm).
      destruct (s_val (dec t) =? 0) eqn:E; cbn [andb negb]; repeat split; auto. }
    destruct P as (P1 & P2 & P3).
    assert (P4 : 0 < s_val t2 <= s_start t) by (destruct (N.eqb_spec (s_val (dec t)) 0); lia).
    destruct (IH _ id t2 S2 P1) as (t' & G1 & G2 & G3 & G4 & G5); [lia..|].
    exists t'. unfold sRun in G1. repeat split; auto; [lia|lia|lia|].
    rewrite P2 in G5. destruct (N.eqb_spec (s_val (dec t)) 0); lia.
Qed.

Lemma auto_exact : forall num pre id v k,
  id < num -> 0 < v < 256 ->
  expirations (sRun (swInit num) (pre ++ [SStart id v false])) (rounds id k) id = N.of_nat k / v.
Proof.
  intros num pre id v k Hid Hv. unfold sRun. rewrite fold_left_app. cbn [fold_left sStep].
  fold (sRun (swInit num) pre). set (ts := sRun (swInit num) pre).
  assert (Hl : (N.to_nat id < length ts)%nat) by (unfold ts; rewrite run_length, init_length; lia).
  pose proof (start_one ts id v false Hl) as Hn. unfold u8 in Hn. rewrite N.mod_small in Hn by lia.
  destruct (rounds_one k _ id _ Hn eq_refl) as (t' & _ & _ & _ & G4 & G5); cbn in *; [lia..|].
  apply (N.div_unique _ _ _ (v - s_val t')); lia.
Qed.

Lemma out_of_range : forall num ops id, num <= id ->
  let ts := sRun (swInit num) ops in
  swGetStatus ts id = (true, ts) /\ swStop ts id = ts /\ (forall v m, swStart ts id v m = ts).
Proof.
  intros num ops id H ts.
  assert (Hn : nth_error ts (N.to_nat id) = None).
  { apply nth_error_None. unfold ts. rewrite run_length, init_length. lia. }
  assert (G : forall f, swAt ts (N.to_nat id) f = ts).
  { intro f. clearbody ts. clear H. generalize dependent (N.to_nat id). induction ts as [|t r IH]; intros n Hn; destruct n; cbn in *; auto; try discriminate.
    f_equal. auto. }
  split; [unfold swGetStatus; now rewrite Hn|]. split; [apply G|]. intros v m. apply G.
Qed.

(* a timer that nobody starts *)
Definition dead (t : SwT) : Prop := s_val t = 0 /\ (s_manual t = true \/ s_start t = 0).
Lemma dead_step ts op id t :
  (forall v m, op <> SStart id v m) -> nth_error ts (N.to_nat id) = Some t -> dead t ->
  exists t', nth_error (sStep ts op) (N.to_nat id) = Some t' /\ dead t'.
Proof.
  intros Hs Hn [D1 D2].
  assert (Hd : op = SStop id \/ ~ sTouches id op).
  { destruct op as [i v m|i|i|]; cbn; auto; [right|].
    - intros ->. exact (Hs v m eq_refl).
    - destruct (N.eq_dec i id) as [->|]; auto. }
  destruct Hd as [->|Ht].
  - cbn [sStep]. unfold swStop. rewrite (swAt_same _ _ _ t Hn). eexists. split; [reflexivity|].
    split; [reflexivity|exact D2].
  - rewrite (step_one ts op id t Ht Hn). eexists. split; [reflexivity|].
    destruct op as [i v m|i|i|]; try (split; assumption).
    + destruct (i =? id); [|split; assumption]. unfold poll. rewrite D1. cbn.
      destruct (s_manual t) eqn:Em; cbn; [split; auto|]. destruct D2 as [D2|D2]; [discriminate|].
      split; cbn; auto.
    + unfold dec. rewrite D1. split; cbn; auto.
Qed.
Lemma dead_run : forall ops ts id t,
  (forall v m, ~ In (SStart id v m) ops) -> nth_error ts (N.to_nat id) = Some t -> dead t ->
  exists t', nth_error (sRun ts ops) (N.to_nat id) = Some t' /\ dead t'.
Proof.
  induction ops as [|op r IH]; intros ts id t Hs Hn D; [now exists t|].
  destruct (dead_step ts op id t) as (t1 & N1 & D1); auto.
  { intros v m ->. apply (Hs v m). now left. }
  apply (IH (sStep ts op) id t1); auto. intros v m Hi. apply (Hs v m). now right.
Qed.
Lemma dead_status ts id t : nth_error ts (N.to_nat id) = Some t -> dead t -> fst (swGetStatus ts id) = true.
Proof. intros H [D _]. now rewrite (status_one _ _ _ H), D. Qed.

Lemma never_started : forall num ops id,
  (forall v m, ~ In (SStart id v m) ops) -> expired (swInit num) ops id = true.
Proof.
  intros num ops id Hs. unfold expired. destruct (nth_error (swInit num) (N.to_nat id)) as [t|] eqn:E.
  - assert (D : dead t).
    { apply nth_error_In in E. apply repeat_spec in E. subst. split; [reflexivity|now right]. }
    destruct (dead_run ops _ _ _ Hs E D) as (t' & E' & D'). exact (dead_status _ _ _ E' D').
  - unfold swGetStatus. replace (nth_error (sRun (swInit num) ops) (N.to_nat id)) with (@None SwT); [reflexivity|].
    symmetry. apply nth_error_None. apply nth_error_None in E. now rewrite run_length.
Qed.

Lemma stopped_manual : forall num pre id v p1 p2,
  id < num -> Forall (fun op => ~ sTouches id op) p1 -> (forall w m, ~ In (SStart id w m) p2) ->
  expired (swInit num) (pre ++ SStart id v true :: p1 ++ SStop id :: p2) id = true.
Proof.
  intros num pre id v p1 p2 Hid H1 H2. unfold expired, sRun.
  rewrite fold_left_app. cbn [fold_left]. rewrite fold_left_app. cbn [fold_left].
  fold (sRun (swInit num) pre). set (ts := sRun (swInit num) pre).
  assert (Hl : (N.to_nat id < length ts)%nat).
  { unfold ts. rewrite run_length, init_length. lia. }
  pose proof (manual_run p1 _ id _ H1 (start_one ts id v true Hl) eq_refl) as H.
  fold (sRun (sStep ts (SStart id v true)) p1). cbn [sStep].
  set (ts1 := sRun (swStart ts id v true) p1) in *.
  assert (Hn : nth_error (sStep ts1 (SStop id)) (N.to_nat id) = Some (mkSwT (u8 v) true 0)).
  { cbn [sStep]. unfold swStop. now rewrite (swAt_same _ _ _ _ H). }
  destruct (dead_run p2 _ _ _ H2 Hn) as (t' & E' & D'); [split; [reflexivity|now left]|].
  exact (dead_status _ _ _ E' D').
Qed.
