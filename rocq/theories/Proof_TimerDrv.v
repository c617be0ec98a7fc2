(* Proof_TimerDrv.v - proofs about the timer driver *)
From Verif Require Import Spec_TimerDrv.
From Coq Require Import Lia.

Lemma overflows_gen : forall k d, td_intr d < 10 -> td_tick d < 256 ->
  td_tick (overflows k d) = (td_tick d + (td_intr d + N.of_nat k) / 10) mod 256 /\
  td_intr (overflows k d) = (td_intr d + N.of_nat k) mod 10 /\
  td_cb (overflows k d) = td_cb d /\
  callbacks k d = if td_cb d then (td_intr d + N.of_nat k) / 10 else 0.
Proof.
  induction k as [|k IH]; intros d Hi Ht; cbn [overflows callbacks].
  - rewrite N.add_0_r, N.div_small, N.add_0_r, !N.mod_small by lia. destruct (td_cb d); repeat split.
  - assert (E : u8 (td_intr d + 1) = td_intr d + 1) by (unfold u8; apply N.mod_small; lia).
    unfold drvIsr at 1 2 3 4 5. rewrite E. unfold THRESHOLD.
    assert (D : td_intr (snd (drvIsr d)) < 10 /\ td_tick (snd (drvIsr d)) < 256).
    { unfold drvIsr; rewrite E; unfold THRESHOLD. destruct (N.leb_spec 10 (td_intr d + 1)); cbn; unfold u8;
      split; try lia; apply N.mod_lt; lia. }
    destruct D as [D1 D2]. specialize (IH _ D1 D2). revert IH. unfold drvIsr. rewrite E. unfold THRESHOLD.
    destruct (N.leb_spec 10 (td_intr d + 1)) as [H|H]; cbn; intros (A & B & C & F); rewrite A, B, C, F; clear A B C F.
    + assert (Q : td_intr d + N.pos (Pos.of_succ_nat k) = N.of_nat k + 1 * 10) by lia.
      rewrite Q, N.div_add, N.mod_add by lia. unfold u8.
      rewrite N.add_mod_idemp_l by lia. replace (td_tick d + 1 + N.of_nat k / 10) with (td_tick d + (N.of_nat k / 10 + 1)) by lia.
      destruct (td_cb d); repeat split; lia.
    + assert (Q : td_intr d + N.pos (Pos.of_succ_nat k) = td_intr d + 1 + N.of_nat k) by lia.
      rewrite Q. destruct (td_cb d); repeat split; lia.
Qed.

(* what is known at a phase after el ticks; last = ticks before the last read *)
Definition slpInv (n t el last : N) (s : Slp) : Prop :=
  let e := (t + n) mod 256 in
  match s with
  | SlpBegin => False
  | SlpTest x => x = e /\ el = 0
  | SlpOver x => x = e /\ 256 <= t + n /\ t + el < 256 /\ el < n
  | SlpWait x => x = e /\ (el < n \/ el = n /\ last = 1) /\ (256 <= t + n -> 256 <= t + el)
  | SlpDone => el = n
  end.

Lemma mod_cases a : a < 512 -> a mod 256 = if a <? 256 then a else a - 256.
Proof.
  intros H. destruct (N.ltb_spec a 256). apply N.mod_small; lia.
  replace a with (a - 256 + 1 * 256) at 1 by lia. rewrite N.mod_add by lia. apply N.mod_small; lia.
Qed.

Lemma slp_step n t el last g s : 0 < n < 256 -> t < 256 -> g <= 1 -> (match s with SlpTest _ => True | _ => last + g <= 1 end) ->
  s <> SlpDone -> slpInv n t el last s -> slpInv n t (el + g) g (slpRead n ((t + (el + g)) mod 256) s).
Proof.
  intros Hn Ht Hg Hl Hd. unfold slpInv. destruct s as [|x|x|x|]; try congruence; cbn [slpRead].
  - tauto.
  - intros (-> & ->). rewrite !mod_cases by lia.
    destruct (N.ltb_spec (t + n) 256), (N.ltb_spec (t + (0 + g)) 256);
      match goal with |- context[if ?a <? ?b then _ else _] => destruct (N.ltb_spec a b) end; lia.
  - intros (-> & H & H1 & H2). rewrite !mod_cases by lia.
    destruct (N.ltb_spec (t + n) 256), (N.ltb_spec (t + (el + g)) 256);
      match goal with |- context[if ?a <? ?b then _ else _] => destruct (N.ltb_spec a b) end; lia.
  - intros (-> & H & H1). rewrite !mod_cases by lia.
    destruct (N.ltb_spec (t + n) 256), (N.ltb_spec (t + (el + g)) 256);
      match goal with |- context[if ?a <? ?b then _ else _] => destruct (N.ltb_spec a b) end; lia.
Qed.

Lemma sleeping_gen n t : 0 < n < 256 -> t < 256 -> forall gaps el last s, brisk gaps ->
  (match s, gaps with SlpTest _, _ => True | _, g :: _ => last + g <= 1 | _, [] => True end) -> slpInv n t el last s ->
  match sleeping n t el s gaps with Some x => x = n | None => el + total gaps <= n end.
Proof.
  intros Hn Ht. induction gaps as [|g r IH]; intros el last s Hb Hl Hi.
  - destruct s; cbn [sleeping total fold_right]; cbn in Hi; lia.
  - destruct Hb as (H1 & H2 & H3).
    assert (X : s = SlpDone \/ s <> SlpDone) by (destruct s; (left; reflexivity) || (right; discriminate)).
    destruct X as [->|X]. { cbn. exact Hi. }
    assert (S1 : slpInv n t (el + g) g (slpRead n ((t + (el + g)) mod 256) s)).
    { apply (slp_step n t el last); auto; destruct s; auto. }
    assert (Q : sleeping n t el s (g :: r) = sleeping n t (el + g) (slpRead n ((t + (el + g)) mod 256) s) r)
      by (destruct s; try reflexivity; congruence).
    rewrite Q. cbn [total fold_right]. fold (total r). rewrite (N.add_assoc el g (total r)).
    eapply IH; [exact H3| |exact S1].
    destruct (slpRead n ((t + (el + g)) mod 256) s); destruct r; try exact I; exact H2.
Qed.

Lemma sleep_brisk n t gaps : 0 < n < 256 -> t < 256 -> brisk gaps ->
  match sleep n t gaps with Some x => x = n | None => total gaps <= n end.
Proof.
  intros Hn Ht Hb. unfold sleep. cbn [slpRead]. change (total gaps) with (0 + total gaps).
  eapply (sleeping_gen n t Hn Ht gaps 0 0); [exact Hb| |split; reflexivity]. exact I.
Qed.

(* a tick at every second read *)
Fixpoint alternating (k : nat) : list N := match k with O => [0] | S j => 0 :: 1 :: alternating j end.
Lemma brisk_alternating k : brisk (alternating k).
Proof.
  induction k as [|k IH]; cbn [alternating brisk]. lia.
  split; [lia|]. split; [lia|]. split; [lia|]. split; [destruct k; cbn; lia|exact IH].
Qed.
Lemma sleep_zero t : t < 255 -> sleep 0 t (1 :: alternating 256) = Some 256.
Proof.
  intros H.
  assert (X : forallb (fun i => match sleep 0 (N.of_nat i) (1 :: alternating 256) with Some x => x =? 256 | None => false end)
                (seq 0 255) = true) by (vm_compute; reflexivity).
  rewrite forallb_forall in X. specialize (X (N.to_nat t)). rewrite N2Nat.id in X.
  destruct (sleep 0 t (1 :: alternating 256)).
  - f_equal. apply N.eqb_eq, X, in_seq. lia.
  - discriminate X. apply in_seq. lia.
Qed.
