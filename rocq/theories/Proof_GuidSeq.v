(* Proof_GuidSeq.v - the current sequence of quarters, step by step *)
From Verif Require Export Spec_Guid.

Lemma duration_app a b : duration (a ++ b) = duration a + duration b.
Proof. induction a as [|e a IH]; [reflexivity|]. cbn [app duration fold_right]. fold (duration (a ++ b)) (duration a). rewrite IH. destruct e; lia. Qed.

Section S.
Variable t : N.
(* whether s is complete *)
Definition hasQ (q : N) (s : list GEv) : bool := existsb (fun e => match e with GQuarter p true => p =? q | _ => false end) s.
Lemma hasQ_in q s : hasQ q s = true <-> In (GQuarter q true) s.
Proof.
  unfold hasQ. rewrite existsb_exists. split.
  - intros (e & I & H). destruct e as [p|p [|]|]; try discriminate H. replace q with p by lia. exact I.
  - intros I. exists (GQuarter q true). split; [exact I|]. apply N.eqb_refl.
Qed.
Lemma hasQ_app q a b : hasQ q (a ++ b) = hasQ q a || hasQ q b. Proof. apply existsb_app. Qed.
Definition full (s : list GEv) : bool := hasQ 0 s && hasQ 1 s && hasQ 2 s && hasQ 3 s.
Lemma full_all s : full s = true <-> forall q, q < 4 -> In (GQuarter q true) s.
Proof.
  unfold full. split.
  - intros H q Hq. apply andb_true_iff in H. destruct H as [H H3]. apply andb_true_iff in H. destruct H as [H H2]. apply andb_true_iff in H. destruct H as [H0 H1].
    apply hasQ_in. destruct (N.eq_dec q 0) as [->|]; [exact H0|]. destruct (N.eq_dec q 1) as [->|]; [exact H1|]. destruct (N.eq_dec q 2) as [->|]; [exact H2|]. replace q with 3 by lia. exact H3.
  - intros H. assert (G : forall q, q < 4 -> hasQ q s = true) by (intros q Hq; apply hasQ_in, H, Hq). rewrite !G by lia. reflexivity.
Qed.
Definition isLast (e : GEv) : bool := match e with GQuarter q _ => q =? 3 | _ => false end.
Lemma complete_last s e : complete (s ++ [e]) <-> isLast e = true /\ full (s ++ [e]) = true.
Proof.
  unfold complete. rewrite full_all. split.
  - intros ((s1 & ok & EQ) & H). apply app_inj_tail in EQ. destruct EQ as [-> ->]. split; [reflexivity|exact H].
  - intros (L & H). split; [|exact H]. destruct e as [p|q ok|]; try discriminate L. cbn [isLast] in L. exists s, ok. replace q with 3 by lia. reflexivity.
Qed.
Lemma complete_nil : ~ complete []. Proof. intros ((s1 & ok & EQ) & _). destruct s1; discriminate EQ. Qed.

(* the sequence under way *)
Definition cur1 (c : option (list GEv)) (e : GEv) : option (list GEv) :=
  match e with
  | GBreak => None
  | GTime p => match c with Some s => if duration s + p <? t then Some (s ++ [e]) else None | None => None end
  | GQuarter q ok =>
      if q =? 0 then (if 0 <? t then Some [e] else None)
      else match c with Some s => if (q =? 3) && full (s ++ [e]) then None else Some (s ++ [e]) | None => None end
  end.
Definition cur (l : list GEv) : option (list GEv) := fold_left cur1 l None.
Lemma cur_last l e : cur (l ++ [e]) = cur1 (cur l) e. Proof. unfold cur. rewrite fold_left_app. reflexivity. Qed.
(* under way: no part of it was complete *)
Definition underWay (l s : list GEv) : Prop := sequence t l s /\ forall s1 s2, s = s1 ++ s2 -> ~ complete s1.
Lemma under_snoc l s e : underWay (l ++ [e]) (s ++ [e]) -> s <> [] -> underWay l s.
Proof.
  intros (((l1 & EQ) & D & ok & r & ES & NB & NQ) & H) NS. split.
  - split; [exists l1; rewrite app_assoc in EQ; apply app_inj_tail in EQ; apply EQ|]. split; [rewrite duration_app in D; lia|].
    destruct s as [|x s]; [contradiction NS; reflexivity|]. cbn [app] in ES. injection ES as -> ER. exists ok, s. split; [reflexivity|].
    split; [intros I; apply NB; rewrite <- ER; apply in_or_app; auto|intros x I; apply (NQ x); rewrite <- ER; apply in_or_app; auto].
  - intros s1 s2 ->. apply (H s1 (s2 ++ [e])). rewrite app_assoc. reflexivity.
Qed.
Lemma parts_snoc {X} (s : list X) e s1 s2 : s ++ [e] = s1 ++ s2 -> (s1 = s ++ [e] /\ s2 = []) \/ exists s3, s = s1 ++ s3.
Proof.
  intros EQ. destruct s2 as [|y s2] using rev_ind; [left; rewrite app_nil_r in EQ; auto|]. right. rewrite app_assoc in EQ. apply app_inj_tail in EQ. destruct EQ as [-> _]. exists s2. reflexivity.
Qed.
Lemma under_add l s e : underWay l s -> duration (s ++ [e]) < t -> e <> GBreak -> (forall x, e <> GQuarter 0 x) -> (isLast e && full (s ++ [e]) = false) -> underWay (l ++ [e]) (s ++ [e]).
Proof.
  intros (((l1 & EQ) & D & ok & r & ES & NB & NQ) & H) D1 N1 N2 NC. split.
  - split; [exists l1; rewrite EQ, app_assoc; reflexivity|]. split; [exact D1|]. exists ok, (r ++ [e]). split; [rewrite ES; reflexivity|].
    split; [intros I; apply in_app_or in I; destruct I as [I|[I|[]]]; [apply NB, I|contradiction]|].
    intros x I. apply in_app_or in I. destruct I as [I|[I|[]]]; [apply (NQ x), I|apply (N2 x), I].
  - intros s1 s2 EP. destruct (parts_snoc _ _ _ _ EP) as [[-> ->]|[s3 ->]]; [|apply (H s1 s3); reflexivity].
    intros C. apply complete_last in C. destruct C as [C1 C2]. rewrite C1, C2 in NC. discriminate NC.
Qed.
Lemma under_nonempty l s : underWay l s -> s <> []. Proof. intros ((_ & _ & ok & r & -> & _) & _). discriminate. Qed.
Lemma under_first l ok : 0 < t -> underWay (l ++ [GQuarter 0 ok]) [GQuarter 0 ok].
Proof.
  intros HT. split.
  - split; [exists l; reflexivity|]. split; [exact HT|]. exists ok, []. split; [reflexivity|]. split; [intros []|intros x []].
  - intros s1 s2 EQ C. destruct s1 as [|x [|y s1]].
    + apply complete_nil, C.
    + injection EQ as <- _. apply (complete_last [] _) in C. destruct C as [C _]. discriminate C.
    + discriminate EQ.
Qed.
Lemma under_inv l e s : underWay (l ++ [e]) s -> (s = [e] /\ exists ok, e = GQuarter 0 ok) \/ exists s0, s = s0 ++ [e] /\ underWay l s0 /\ e <> GBreak /\ (forall x, e <> GQuarter 0 x).
Proof.
  intros U. assert (NE := under_nonempty _ _ U). destruct s as [|x s] using rev_ind; [contradiction NE; reflexivity|]. clear IHs NE.
  pose proof U as (((l1 & EQ) & D & ok & r & ES & NB & NQ) & H). rewrite app_assoc in EQ. apply app_inj_tail in EQ. destruct EQ as [EL ->].
  destruct s as [|y s].
  - left. split; [reflexivity|]. injection ES as -> _. eauto.
  - right. exists (y :: s). split; [reflexivity|]. split; [apply (under_snoc _ _ _ U); discriminate|]. injection ES as -> ER.
    split; [intros ->; apply NB; rewrite <- ER; apply in_or_app; right; left; reflexivity|]. intros z ->. apply (NQ z). rewrite <- ER. apply in_or_app. right. left. reflexivity.
Qed.
Lemma cur_spec l : forall s, cur l = Some s <-> underWay l s.
Proof.
  induction l as [|e l IH] using rev_ind; intros s.
  - split; [discriminate|]. intros U. destruct U as (((l1 & EQ) & _ & ok & r & -> & _) & _). destruct l1; discriminate EQ.
  - rewrite cur_last. split.
    + intros HC. unfold cur1 in HC. destruct e as [p|q ok|]; [| |discriminate HC].
      * destruct (cur l) as [s0|]; [|discriminate HC]. destruct (N.ltb_spec (duration s0 + p) t) as [LT|]; [|discriminate HC]. injection HC as <-.
        apply under_add; [apply IH; reflexivity| |discriminate|discriminate|reflexivity]. rewrite duration_app. cbn. lia.
      * destruct (N.eqb_spec q 0) as [->|NQ].
        -- destruct (N.ltb_spec 0 t) as [HT|]; [|discriminate HC]. injection HC as <-. apply under_first, HT.
        -- destruct (cur l) as [s0|]; [|discriminate HC]. destruct ((q =? 3) && full (s0 ++ [GQuarter q ok])) eqn:FC; [discriminate HC|]. injection HC as <-.
           assert (U0 : underWay l s0) by (apply IH; reflexivity).
           apply under_add; [exact U0| |discriminate|intros x EX; injection EX as E0 _; contradiction|exact FC]. rewrite duration_app. cbn. destruct U0 as ((_ & D & _) & _). lia.
    + intros U. assert (U' := U). apply under_inv in U'. destruct U' as [(-> & ok & ->)|(s0 & -> & U0 & N1 & N2)].
      * cbn [cur1]. change (0 =? 0) with true. cbv iota. destruct U as ((_ & D & _) & _). cbn in D. replace (0 <? t) with true by lia. reflexivity.
      * apply IH in U0. rewrite U0. destruct U as ((_ & D & _) & H). rewrite duration_app in D. destruct e as [p|q ok|]; [| |contradiction N1; reflexivity].
        -- cbn [cur1]. cbn in D. replace (duration s0 + p <? t) with true by lia. reflexivity.
        -- cbn [cur1]. destruct (N.eqb_spec q 0) as [->|NQ]; [exfalso; apply (N2 ok); reflexivity|].
           destruct ((q =? 3) && full (s0 ++ [GQuarter q ok])) eqn:FC; [|reflexivity]. exfalso. apply (H (s0 ++ [GQuarter q ok]) []); [rewrite app_nil_r; reflexivity|]. apply complete_last. apply andb_true_iff in FC. exact FC.
Qed.
(* the last frame completes the sequence *)
Lemma drop_spec l e : guidDrop t (l ++ [e]) <-> exists s, cur l = Some s /\ isLast e = true /\ full (s ++ [e]) = true.
Proof.
  split.
  - intros (s & SQ & CS & H). pose proof SQ as ((l1 & EQ) & D & ok & r & ES & NB & NQ).
    destruct s as [|x s] using rev_ind; [discriminate ES|]. clear IHs. rewrite app_assoc in EQ. apply app_inj_tail in EQ. destruct EQ as [EL ->].
    apply complete_last in CS. destruct CS as [C1 C2]. exists s. split; [|auto]. apply cur_spec.
    destruct s as [|y s]; [injection ES as -> _; discriminate C1|]. injection ES as -> ER. split.
    + split; [exists l1; exact EL|]. split; [rewrite duration_app in D; lia|]. exists ok, s. split; [reflexivity|].
      split; [intros I; apply NB; rewrite <- ER; apply in_or_app; auto|intros z I; apply (NQ z); rewrite <- ER; apply in_or_app; auto].
    + intros s1 s2 ES. apply (H s1 (s2 ++ [x])); [rewrite app_assoc, <- ES; reflexivity|destruct s2; discriminate].
  - intros (s & HC & C1 & C2). apply cur_spec in HC. destruct HC as (((l1 & EQ) & D & ok & r & ES & NB & NQ) & H). exists (s ++ [e]). split; [|split].
    + split; [exists l1; rewrite EQ, app_assoc; reflexivity|]. split; [rewrite duration_app; destruct e; try discriminate C1; cbn; lia|].
      exists ok, (r ++ [e]). split; [rewrite ES; reflexivity|]. destruct e as [p|q x|]; try discriminate C1. cbn [isLast] in C1.
      split; [intros I; apply in_app_or in I; destruct I as [I|[I|[]]]; [apply NB, I|discriminate I]|].
      intros z I. apply in_app_or in I. destruct I as [I|[I|[]]]; [apply (NQ z), I|]. injection I as EQ0 _. lia.
    + apply complete_last. auto.
    + intros s1 s2 EP NN. destruct (parts_snoc _ _ _ _ EP) as [[-> ->]|[s3 ->]]; [contradiction NN; reflexivity|]. apply (H s1 s3). reflexivity.
Qed.
End S.
