(* Proof_SerialDrv.v - lemmas for property C74. *)
From Verif Require Import SerialDrv Spec_SerialDrv.

Definition wrap (s x : N) : N := if x <? s then x else x - s.
(* buffer b holds the queue q *)
Definition Rep (s : N) (b : SBuf) (q : list N) : Prop :=
  q_size b = s /\ 2 <= s <= 255 /\ N.of_nat (length (q_store b)) = s /\ q_read b < s /\
  N.of_nat (length q) < s /\ q_write b = wrap s (q_read b + N.of_nat (length q)) /\
  forall i, (i < length q)%nat -> aget (q_store b) (wrap s (q_read b + N.of_nat i)) = nth_error q i.

Lemma lset_get {T} (l : list T) i v l' : lset l i v = Some l' ->
  length l' = length l /\ nth_error l' i = Some v /\ forall j, j <> i -> nth_error l' j = nth_error l j.
Proof.
  revert i l'; induction l as [|h t IH]; intros i l' H; destruct i; cbn in H; try discriminate.
  - injection H as <-. split; [reflexivity|]. split; [reflexivity|]. intros [|j] Hj; [congruence|reflexivity].
  - destruct (lset t i v) as [t'|] eqn:E; [|discriminate]. injection H as <-.
    destruct (IH _ _ E) as (A & B & C). cbn. split; [lia|]. split; [assumption|].
    intros [|j] Hj; cbn; auto.
Qed.
Lemma lset_some {T} (l : list T) i v : (i < length l)%nat -> exists l', lset l i v = Some l'.
Proof.
  revert i; induction l as [|h t IH]; intros i H; destruct i; cbn in *; try lia; eauto.
  destruct (IH i) as [t' ->]; [lia|]. eauto.
Qed.

Lemma rep_read s b q : Rep s b q ->
  match q with
  | [] => sbRead b = Some (0, 0, b)
  | d :: r => exists b', sbRead b = Some (1, d, b') /\ Rep s b' r
  end.
Proof.
  intros (E & Hs & Hl & Hr & Hq & Hw & Hi). unfold sbRead. rewrite Hw. destruct q as [|d r].
  - cbn [length] in *. unfold wrap. replace (q_read b + N.of_nat 0) with (q_read b) by lia.
    destruct (N.ltb_spec (q_read b) s); [|lia]. rewrite N.eqb_refl. reflexivity.
  - cbn [length] in *.
    replace (q_read b =? wrap s (q_read b + N.of_nat (S (length r)))) with false.
    2:{ symmetry. apply N.eqb_neq. unfold wrap. destruct (N.ltb_spec (q_read b + N.of_nat (S (length r))) s); lia. }
    cbn [negb]. pose proof (Hi 0%nat ltac:(lia)) as H0. cbn [nth_error] in H0.
    replace (wrap s (q_read b + N.of_nat 0)) with (q_read b) in H0
      by (unfold wrap; destruct (N.ltb_spec (q_read b + N.of_nat 0) s); lia).
    rewrite H0. eexists; split; [reflexivity|].
    assert (En : (if q_size b <=? u8 (q_read b + 1) then 0 else u8 (q_read b + 1)) = wrap s (q_read b + 1)).
    { unfold u8, wrap. rewrite N.mod_small by lia. rewrite E.
      destruct (N.leb_spec s (q_read b + 1)), (N.ltb_spec (q_read b + 1) s); lia. }
    unfold Rep. cbn [q_size q_store q_read q_write]. rewrite En.
    assert (Hn : wrap s (q_read b + 1) < s) by (unfold wrap; destruct (N.ltb_spec (q_read b + 1) s); lia).
    assert (Hstep : forall i, N.of_nat i < s -> wrap s (wrap s (q_read b + 1) + N.of_nat i) = wrap s (q_read b + N.of_nat (S i))).
    { intros i Hi'. unfold wrap. destruct (N.ltb_spec (q_read b + 1) s).
      - replace (q_read b + 1 + N.of_nat i) with (q_read b + N.of_nat (S i)) by lia. reflexivity.
      - destruct (N.ltb_spec (q_read b + 1 - s + N.of_nat i) s), (N.ltb_spec (q_read b + N.of_nat (S i)) s); lia. }
    repeat split; auto; try lia.
    + rewrite Hstep by lia. first [exact Hw|reflexivity].
    + intros i Hi'. rewrite Hstep by lia. exact (Hi (S i) ltac:(lia)).
Qed.

Lemma rep_write s b q d : Rep s b q ->
  if N.of_nat (length q) <? s - 1
  then exists b', sbWrite b d = Some (1, b') /\ Rep s b' (q ++ [d])
  else sbWrite b d = Some (0, b).
Proof.
  intros (E & Hs & Hl & Hr & Hq & Hw & Hi). unfold sbWrite.
  assert (Hww : q_write b < s).
  { rewrite Hw. unfold wrap. destruct (N.ltb_spec (q_read b + N.of_nat (length q)) s); lia. }
  assert (En : (if q_size b <=? u8 (q_write b + 1) then 0 else u8 (q_write b + 1)) = wrap s (q_read b + N.of_nat (S (length q)))).
  { unfold u8. rewrite N.mod_small by lia. rewrite E, Hw. unfold wrap.
    destruct (N.ltb_spec (q_read b + N.of_nat (length q)) s), (N.ltb_spec (q_read b + N.of_nat (S (length q))) s);
    match goal with |- (if ?c then _ else _) = _ => destruct c eqn:Ec end; lia. }
  rewrite En. destruct (N.ltb_spec (N.of_nat (length q)) (s - 1)) as [C|C].
  - replace (q_read b =? wrap s (q_read b + N.of_nat (S (length q)))) with false.
    2:{ symmetry. apply N.eqb_neq. unfold wrap. destruct (N.ltb_spec (q_read b + N.of_nat (S (length q))) s); lia. }
    cbn [negb]. unfold aset.
    destruct (lset_some (q_store b) (N.to_nat (q_write b)) d) as [st Est]; [lia|]. rewrite Est.
    destruct (lset_get _ _ _ _ Est) as (L1 & L2 & L3).
    eexists; split; [reflexivity|]. unfold Rep. cbn [q_size q_store q_read q_write].
    rewrite app_length. cbn [length]. replace (length q + 1)%nat with (S (length q)) by lia.
    repeat split; auto; try lia.
    intros i Hi'. unfold aget. destruct (Nat.eq_dec i (length q)) as [->|Hne].
    + rewrite <- Hw, L2, nth_error_app2, Nat.sub_diag by lia. reflexivity.
    + rewrite L3.
      * rewrite nth_error_app1 by lia. apply Hi. lia.
      * rewrite Hw. unfold wrap.
        destruct (N.ltb_spec (q_read b + N.of_nat i) s), (N.ltb_spec (q_read b + N.of_nat (length q)) s); lia.
  - replace (q_read b =? wrap s (q_read b + N.of_nat (S (length q)))) with true; [reflexivity|].
    symmetry. apply N.eqb_eq. unfold wrap. destruct (N.ltb_spec (q_read b + N.of_nat (S (length q))) s); lia.
Qed.

(* the concrete port u implements the abstract port p *)
Definition Ok (n m : N) (u : Usart) (p : Port) : Prop :=
  Rep n (u_rx u) (p_rx p) /\ Rep m (u_tx u) (p_tx p) /\ u_ovf u = p_ovf p /\
  u_txcie u = p_line p /\ u_busy u = p_line p /\ u_sent u = p_out p /\ u_clash u = false /\ u_oob u = false /\
  (p_line p = false -> p_tx p = []).

Lemma step_ok n m u p op : Ok n m u p -> undisturbed op ->
  fst (uStep u op) = fst (pStep (n - 1) (m - 1) p op) /\
  Ok n m (snd (uStep u op)) (snd (pStep (n - 1) (m - 1) p op)).
Proof.
  intros (R & T & H1 & H2 & H3 & H4 & H5 & H6 & H7) Hu.
  destruct op as [d| | |d irq| |]; cbn [uStep pStep].
  - pose proof (rep_write n _ _ d R) as W. unfold rxIsr. cbn [fst snd].
    destruct (N.of_nat (length (p_rx p)) <? n - 1).
    + destruct W as (b' & -> & W). cbn. split; [reflexivity|]. repeat (split; [first [assumption|reflexivity]|]). assumption.
    + rewrite W. cbn. split; [reflexivity|]. repeat (split; [first [assumption|reflexivity]|]). assumption.
  - unfold txDone. rewrite H3. pose proof (rep_read m _ _ T) as W.
    destruct (p_line p) eqn:Ep.
    + cbn [u_txcie u_tx]. rewrite H2. destruct (p_tx p) as [|d r] eqn:Et.
      * rewrite W. cbn. split; [reflexivity|]. repeat (split; [first [assumption|reflexivity]|]). auto.
      * destruct W as (b' & -> & W). cbn. split; [reflexivity|].
        unfold Ok. cbn. rewrite H4, H5.
        repeat (split; [first [assumption|reflexivity]|]). discriminate.
    + rewrite (H7 eq_refl) in *. cbn. split; [reflexivity|].
      repeat (split; [first [assumption|reflexivity]|]). auto.
  - unfold serRead. pose proof (rep_read n _ _ R) as W. destruct (p_rx p) as [|d r] eqn:Er.
    + rewrite W. cbn. split; [reflexivity|].
      unfold Ok. cbn. rewrite Er. repeat (split; [first [assumption|reflexivity]|]). assumption.
    + destruct W as (b' & -> & W). cbn. split; [reflexivity|].
      repeat (split; [first [assumption|reflexivity]|]). assumption.
  - cbn in Hu. subst irq. unfold serWrite. rewrite H2. destruct (p_line p) eqn:Ep; cbn [negb].
    + pose proof (rep_write m _ _ d T) as W. destruct (N.of_nat (length (p_tx p)) <? m - 1).
      * destruct W as (b' & -> & W). cbn. split; [reflexivity|].
        repeat (split; [first [assumption|reflexivity]|]). discriminate.
      * rewrite W. cbn. split; [reflexivity|]. unfold Ok. cbn. rewrite Ep.
        repeat (split; [first [assumption|reflexivity]|]). assumption.
    + cbn. split; [reflexivity|]. unfold Ok. cbn. rewrite H4, H5, H3.
      repeat (split; [first [assumption|reflexivity]|]). discriminate.
  - cbn. split; [reflexivity|]. destruct R as (E & Hs & Hl & Hr & Hq & Hw & Hi).
    split; [|repeat (split; [first [assumption|reflexivity]|]); assumption].
    unfold Rep. cbn. repeat split; auto; try lia; try (intros; lia).
    unfold wrap. replace (q_read (u_rx u) + 0) with (q_read (u_rx u)) by lia.
    destruct (N.ltb_spec (q_read (u_rx u)) n); lia.
  - cbn. split; [now rewrite H1|]. repeat (split; [first [assumption|reflexivity]|]). assumption.
Qed.

Lemma rep_init l : 2 <= N.of_nat (length l) <= 255 -> Rep (N.of_nat (length l)) (mkSBuf l (N.of_nat (length l)) 0 0) [].
Proof.
  intro H. unfold Rep. cbn. repeat split; auto; try lia; try (intros; lia).
  unfold wrap. destruct (N.ltb_spec 0 (N.of_nat (length l))); lia.
Qed.
Lemma init_ok rx tx : 2 <= N.of_nat (length rx) <= 255 -> 2 <= N.of_nat (length tx) <= 255 ->
  Ok (N.of_nat (length rx)) (N.of_nat (length tx)) (usartInit rx tx) portInit.
Proof. intros H1 H2. repeat (split; [first [apply rep_init; assumption|reflexivity]|]). reflexivity. Qed.

Lemma run_ok : forall ops n m u p, Ok n m u p -> Forall undisturbed ops ->
  fst (uRun u ops) = fst (pRun (n - 1) (m - 1) p ops) /\
  Ok n m (snd (uRun u ops)) (snd (pRun (n - 1) (m - 1) p ops)).
Proof.
  induction ops as [|op r IH]; intros n m u p H Hf; [split; auto|].
  inversion Hf as [|? ? H1 H2]; subst. destruct (step_ok n m u p op H H1) as [E O].
  cbn [uRun pRun]. destruct (uStep u op) as [o u1], (pStep (n - 1) (m - 1) p op) as [o' p1]. cbn [fst snd] in *.
  destruct (IH n m u1 p1 O H2) as [E2 O2].
  destruct (uRun u1 r) as [os u2], (pRun (n - 1) (m - 1) p1 r) as [os' p2]. cbn [fst snd] in *. split; [congruence|assumption].
Qed.

Lemma port_conserves : forall ops n m p, p_line p = true \/ p_tx p = [] ->
  let p' := snd (pRun n m p ops) in
  p_out p' ++ p_tx p' = (p_out p ++ p_tx p) ++ taken n m p ops.
Proof.
  induction ops as [|op r IH]; intros n m p H; cbn [pRun taken].
  - cbn. now rewrite app_nil_r.
  - assert (G : let q := snd (pStep n m p op) in (p_line q = true \/ p_tx q = []) /\
       p_out q ++ p_tx q = (p_out p ++ p_tx p) ++
        (match op with UWrite d _ => if negb (p_line p) || (N.of_nat (length (p_tx p)) <? m) then [d] else [] | _ => [] end)).
    { destruct op; cbn [pStep].
      - destruct (_ <? _); cbn; rewrite app_nil_r; auto.
      - destruct (p_tx p) as [|d t] eqn:Et; cbn; rewrite !app_nil_r; auto. rewrite <- app_assoc. auto.
      - destruct (p_rx p); cbn; rewrite app_nil_r; auto.
      - destruct (p_line p) eqn:El; cbn [negb orb].
        + destruct (_ <? _); cbn; rewrite ?app_nil_r, ?app_assoc; auto.
        + destruct H as [H|H]; [discriminate|]. cbn. rewrite H, !app_nil_r. auto.
      - cbn. rewrite app_nil_r. auto.
      - cbn. rewrite app_nil_r. auto. }
    destruct (pStep n m p op) as [o q] eqn:Eq. cbn [snd] in G |- *. destruct G as [G1 G2].
    specialize (IH n m q G1). destruct (pRun n m q r) as [os p2] eqn:Er. cbn [snd] in *.
    rewrite IH, G2. now rewrite <- app_assoc.
Qed.

(* main_print *)
Lemma flush : forall k n m p, (p_line p = true \/ p_tx p = []) -> (length (p_tx p) < k)%nat ->
  p_out (snd (pRun n m p (repeat UTxDone k))) = p_out p ++ p_tx p.
Proof.
  induction k as [|k IH]; intros n m p Hl Hk; [lia|]. cbn [repeat pRun pStep].
  destruct (p_tx p) as [|d r] eqn:E.
  - assert (G : forall j p0, p_tx p0 = [] -> p_out (snd (pRun n m p0 (repeat UTxDone j))) = p_out p0).
    { clear. induction j as [|j IH]; intros p0 H0; [reflexivity|]. cbn [repeat pRun pStep]. rewrite H0.
      destruct (pRun n m _ (repeat UTxDone j)) as [os p2] eqn:E2. cbn [snd].
      specialize (IH (mkPort (p_rx p0) [] (p_ovf p0) false (p_out p0)) eq_refl). rewrite E2 in IH. exact IH. }
    destruct (pRun n m _ (repeat UTxDone k)) as [os p2] eqn:E2. cbn [snd].
    specialize (G k (mkPort (p_rx p) [] (p_ovf p) false (p_out p)) eq_refl). rewrite E2 in G. cbn in G.
    now rewrite G, app_nil_r.
  - destruct (pRun n m _ (repeat UTxDone k)) as [os p2] eqn:E2. cbn [snd].
    specialize (IH n m (mkPort (p_rx p) r (p_ovf p) true (p_out p ++ [d]))).
    rewrite E2 in IH. cbn [p_tx p_out p_line snd length] in *. rewrite IH; [|auto|lia].
    now rewrite <- app_assoc.
Qed.
Lemma allSent_port n m u p : Ok n m u p -> allSent u = p_out p ++ p_tx p.
Proof.
  intro H. unfold allSent.
  assert (Hf : Forall undisturbed (repeat UTxDone 256)).
  { apply Forall_forall. intros op Ho. apply repeat_spec in Ho. subst. exact I. }
  destruct (run_ok _ _ _ _ _ H Hf) as [_ (_ & _ & _ & _ & _ & E & _)]. rewrite E.
  destruct H as (_ & (_ & Hm & _ & _ & Hq & _) & _ & _ & _ & _ & _ & _ & Hl).
  apply flush; [destruct (p_line p); auto|]. lia.
Qed.
Lemma txDone_ok n m u p : Ok n m u p ->
  exists p', Ok n m (txDone u) p' /\ p_out p' ++ p_tx p' = p_out p ++ p_tx p.
Proof.
  intro H. destruct (step_ok n m u p UTxDone H I) as [_ O]. cbn [uStep snd] in O.
  eexists. split; [exact O|]. cbn [pStep]. destruct (p_tx p) as [|d r]; cbn; [reflexivity|].
  now rewrite <- app_assoc.
Qed.
Lemma serWrite_ok n m u p d : Ok n m u p ->
  let '(c, u') := serWrite d false u in
  exists p', Ok n m u' p' /\
    if p_line p then
      if N.of_nat (length (p_tx p)) <? m - 1
      then c = 1 /\ p_out p' ++ p_tx p' = (p_out p ++ p_tx p) ++ [d] /\ p_line p' = true /\ p_tx p' = p_tx p ++ [d] /\ p_out p' = p_out p
      else c = 0 /\ p' = p
    else c = 0 /\ p_out p' ++ p_tx p' = (p_out p ++ p_tx p) ++ [d] /\ p_line p' = true /\ p_tx p' = [] /\ p_out p' = p_out p ++ [d].
Proof.
  intro H. destruct (step_ok n m u p (UWrite d false) H eq_refl) as [E O]. cbn [uStep pStep] in *.
  destruct (serWrite d false u) as [c u']. cbn [fst snd] in *.
  destruct H as (_ & _ & _ & _ & _ & _ & _ & _ & Hl).
  destruct (p_line p) eqn:El.
  - destruct (N.of_nat (length (p_tx p)) <? m - 1); cbn [fst snd] in *.
    + injection E as ->. eexists. split; [exact O|]. cbn. rewrite app_assoc. auto.
    + injection E as ->. eexists. split; [exact O|]. auto.
  - cbn [fst snd] in *. injection E as ->. eexists. split; [exact O|]. cbn. rewrite (Hl eq_refl), !app_nil_r. auto.
Qed.

Lemma print_gen : forall irqs s i n m u p u',
  Ok n m u p -> i <= 200 -> mainPrint irqs s i u = Some u' ->
  exists p' ks, Ok n m u' p' /\ length ks = length (firstn (N.to_nat (200 - i)) s) /\ Forall (fun k => 1 <= k)%nat ks /\
    (irqs <> [] -> hd false irqs = false -> s <> [] -> i < 200 -> p_line p = false -> (2 <= hd 0 ks)%nat) /\
    p_out p' ++ p_tx p' = (p_out p ++ p_tx p) ++ stretch (firstn (N.to_nat (200 - i)) s) ks.
Proof.
  assert (Base : forall s i n m u p u' (irqs : list bool), Ok n m u p -> Some u = Some u' -> (s = [] \/ ~ i < 200) ->
    exists p' ks, Ok n m u' p' /\ length ks = length (firstn (N.to_nat (200 - i)) s) /\ Forall (fun k => 1 <= k)%nat ks /\
    (irqs <> [] -> hd false irqs = false -> s <> [] -> i < 200 -> p_line p = false -> (2 <= hd 0 ks)%nat) /\
    p_out p' ++ p_tx p' = (p_out p ++ p_tx p) ++ stretch (firstn (N.to_nat (200 - i)) s) ks).
  { intros s i n m u p u' irqs H E Hs. injection E as <-. exists p, []. split; [exact H|].
    assert (F : firstn (N.to_nat (200 - i)) s = []).
    { destruct Hs as [->|Hs]; [apply firstn_nil|]. now replace (N.to_nat (200 - i)) with O by lia. }
    rewrite F. cbn. rewrite app_nil_r. repeat split; auto. intros. destruct Hs; [contradiction|lia]. }
  induction irqs as [|b k IH]; intros s i n m u p u' H Hi E; cbn [mainPrint] in E.
  - destruct (N.ltb_spec i 200) as [L|L]; [|eapply Base; eauto; lia].
    destruct s as [|d r]; [eapply Base; eauto|discriminate].
  - destruct (N.ltb_spec i 200) as [L|L]; [|eapply Base; eauto; lia].
    destruct s as [|d r]; [eapply Base; eauto|].
    set (u0 := if b then txDone u else u) in *.
    assert (H0 : exists p0, Ok n m u0 p0 /\ p_out p0 ++ p_tx p0 = p_out p ++ p_tx p /\ (b = false -> p0 = p)).
    { unfold u0. destruct b; [|exists p; auto]. destruct (txDone_ok _ _ _ _ H) as (p0 & A & B). exists p0.
      split; [exact A|]. split; [exact B|discriminate]. }
    destruct H0 as (p0 & O0 & C0 & B0). rewrite <- C0. clearbody u0.
    pose proof (serWrite_ok n m u0 p0 d O0) as W. destruct (serWrite d false u0) as [c u1].
    destruct W as (p1 & O1 & W).
    replace (N.to_nat (200 - i)) with (S (N.to_nat (200 - (i + 1)))) by lia. cbn [firstn].
    assert (Again : c = 0 -> forall x, p_out p1 ++ p_tx p1 = (p_out p0 ++ p_tx p0) ++ repeat d x ->
       (p_line p0 = false -> x = 1%nat) ->
       exists p' ks, Ok n m u' p' /\ length ks = length (d :: firstn (N.to_nat (200 - (i + 1))) r) /\
         Forall (fun k => 1 <= k)%nat ks /\
         (b :: k <> [] -> hd false (b :: k) = false -> d :: r <> [] -> i < 200 -> p_line p = false -> (2 <= hd 0 ks)%nat) /\
         p_out p' ++ p_tx p' = (p_out p0 ++ p_tx p0) ++ stretch (d :: firstn (N.to_nat (200 - (i + 1))) r) ks).
    { intros -> x Hx Hx1. cbn [N.eqb] in E.
      destruct (IH (d :: r) i n m u1 p1 u' O1 Hi E) as (p' & ks & A1 & A2 & A3 & A4 & A5).
      replace (N.to_nat (200 - i)) with (S (N.to_nat (200 - (i + 1)))) in A2, A5 by lia. cbn [firstn] in A2, A5.
      destruct ks as [|k0 ks]; [discriminate|]. exists p', ((x + k0)%nat :: ks). inversion A3 as [|? ? B1 B2]; subst.
      split; [exact A1|]. split; [exact A2|]. split; [constructor; [lia|exact B2]|]. split.
      - intros _ Hb _ _ Hp. cbn [hd] in *. rewrite (B0 Hb) in Hx1. specialize (Hx1 Hp). lia.
      - rewrite A5, Hx. cbn [stretch]. rewrite repeat_app, <- !app_assoc. reflexivity. }
    destruct (p_line p0) eqn:El.
    + destruct (N.of_nat (length (p_tx p0)) <? m - 1).
      * destruct W as (-> & Wo & _). cbn [N.eqb] in E.
        destruct (IH r (i + 1) n m u1 p1 u' O1 ltac:(lia) E) as (p' & ks & A1 & A2 & A3 & A4 & A5).
        exists p', (1%nat :: ks). split; [exact A1|]. split; [cbn; now rewrite A2|]. split; [constructor; auto|].
        split.
        { intros _ Hb _ _ Hp. cbn [hd] in Hb. rewrite (B0 Hb) in El. congruence. }
        rewrite A5, Wo. cbn. now rewrite <- !app_assoc.
      * destruct W as (Wc & ->). apply (Again Wc 0%nat); [cbn; now rewrite app_nil_r|discriminate].
    + destruct W as (Wc & Wo & _). apply (Again Wc 1%nat); [exact Wo|reflexivity].
Qed.

Lemma print_stretched : forall rx tx ops s irqs u',
  2 <= N.of_nat (length rx) <= 255 -> 2 <= N.of_nat (length tx) <= 255 -> Forall undisturbed ops ->
  let u := snd (uRun (usartInit rx tx) ops) in
  mainPrint irqs s 0 u = Some u' ->
  exists ks, length ks = length (firstn 200 s) /\ Forall (fun k => 1 <= k)%nat ks /\
    (irqs <> [] -> hd false irqs = false -> s <> [] -> u_busy u = false -> (2 <= hd 0 ks)%nat) /\
    allSent u' = allSent u ++ stretch (firstn 200 s) ks /\ u_clash u' = false /\ u_oob u' = false.
Proof.
  intros rx tx ops s irqs u' H1 H2 Hf u E.
  destruct (run_ok ops _ _ _ _ (init_ok rx tx H1 H2) Hf) as [_ O]. fold u in O.
  set (p := snd (pRun _ _ portInit ops)) in O. clearbody p u.
  destruct (print_gen irqs s 0 _ _ u p u' O ltac:(lia) E) as (p' & ks & A1 & A2 & A3 & A4 & A5).
  change (N.to_nat (200 - 0)) with 200%nat in *.
  exists ks. split; [exact A2|]. split; [exact A3|]. split.
  - intros B1 B2 B3 B4. apply A4; auto; [lia|]. destruct O as (_ & _ & _ & _ & Hb & _). congruence.
  - rewrite (allSent_port _ _ _ _ A1), (allSent_port _ _ _ _ O), A5. destruct A1 as (_ & _ & _ & _ & _ & _ & Hc & Ho & _). auto.
Qed.

Lemma print_quiet : forall s k i n m u p,
  Ok n m u p -> p_line p = true -> (length s < k)%nat -> i <= 200 ->
  N.of_nat (length (p_tx p)) + N.of_nat (length (firstn (N.to_nat (200 - i)) s)) <= m - 1 ->
  exists u' p', mainPrint (repeat false k) s i u = Some u' /\ Ok n m u' p' /\
    p_out p' ++ p_tx p' = (p_out p ++ p_tx p) ++ firstn (N.to_nat (200 - i)) s.
Proof.
  induction s as [|d r IH]; intros k i n m u p H Hl Hk Hi Hq.
  - exists u, p. rewrite firstn_nil, app_nil_r. destruct k; cbn [repeat mainPrint]; destruct (i <? 200); auto.
  - destruct k as [|k]; [cbn in Hk; lia|]. cbn [repeat mainPrint]. destruct (N.ltb_spec i 200) as [L|L].
    + pose proof (serWrite_ok n m u p d H) as W. destruct (serWrite d false u) as [c u1]. rewrite Hl in W.
      destruct W as (p1 & O1 & W).
      replace (N.to_nat (200 - i)) with (S (N.to_nat (200 - (i + 1)))) in * by lia. cbn [firstn length] in *.
      destruct (N.ltb_spec (N.of_nat (length (p_tx p))) (m - 1)); [|lia].
      destruct W as (-> & Wo & Wl & Wt & _). cbn [N.eqb].
      destruct (IH k (i + 1) n m u1 p1 O1 Wl) as (u' & p' & A1 & A2 & A3); [lia|lia| |].
      { rewrite Wt, app_length. cbn [length]. lia. }
      exists u', p'. split; [exact A1|]. split; [exact A2|]. rewrite A3, Wo, <- !app_assoc. reflexivity.
    + exists u, p. replace (N.to_nat (200 - i)) with O by lia. cbn. rewrite app_nil_r. auto.
Qed.
Lemma print_twice : forall rx tx d r n,
  2 <= N.of_nat (length rx) <= 255 -> N.of_nat (length tx) <= 255 ->
  let s := d :: r in
  (length (firstn 200 s) < length tx)%nat -> (length s + 1 < n)%nat ->
  exists u', mainPrint (repeat false n) s 0 (usartInit rx tx) = Some u' /\ allSent u' = d :: firstn 200 s.
Proof.
  intros rx tx d r n H1 H2 s H3 H4. unfold s in *.
  assert (H2' : 2 <= N.of_nat (length tx)) by (cbn [firstn length] in H3; lia).
  pose proof (init_ok rx tx H1 (conj H2' H2)) as O.
  destruct n as [|n]; [lia|]. cbn [repeat mainPrint]. change (0 <? 200) with true. cbn iota.
  pose proof (serWrite_ok _ _ _ _ d O) as W. destruct (serWrite d false (usartInit rx tx)) as [c u1].
  destruct W as (p1 & O1 & W). cbn [portInit p_line p_tx p_out] in W. destruct W as (-> & Wo & Wl & Wt & We).
  cbn [N.eqb].
  destruct (print_quiet (d :: r) n 0 _ _ u1 p1 O1 Wl) as (u' & p' & A1 & A2 & A3).
  { lia. } { lia. } { rewrite Wt. change (N.to_nat (200 - 0)) with 200%nat. cbn [length]. lia. }
  exists u'. split; [exact A1|]. rewrite (allSent_port _ _ _ _ A2), A3, Wo. reflexivity.
Qed.
