(* Proof_EepromArm.v - lemmas for property C75. *)
From Verif Require Import EepromArm Spec_EepromArm.

Lemma ideal_ext p : forall ops m1 m2, (forall i, i <= 255 -> m1 i = m2 i) -> ideal p m1 ops = ideal p m2 ops.
Proof.
  induction ops as [|op r IH]; intros m1 m2 H; [reflexivity|]. destruct op as [a|a v|]; cbn [ideal].
  - f_equal; [|auto]. destruct (N.leb_spec a 255); auto.
  - apply IH. intros i Hi. destruct (_ && _); auto.
  - auto.
Qed.
Lemma run_ideal : forall ops e, paced ops ->
  (e_busy e = false \/ match ops with [] => True | EEnd :: _ => True | _ => False end) ->
  fst (eRun e ops) = ideal (e_prot e) (e_mem e) ops.
Proof.
  induction ops as [|op r IH]; intros e Hp Hb; [reflexivity|]. cbn [eRun].
  destruct op as [a|a v|]; cbn [eStep].
  - destruct Hb as [Hb|[]]. unfold eeRead8. destruct (N.leb_spec a 255) as [Ha|Ha].
    + unfold xfer, u8. rewrite Hb, N.mod_small by lia. specialize (IH e Hp (or_introl Hb)).
      destruct (eRun e r) as [l2 e2]. cbn [fst ideal app] in *. replace (a <=? 255) with true by lia. now rewrite IH.
    + specialize (IH e Hp (or_introl Hb)). destruct (eRun e r) as [l2 e2]. cbn [fst ideal app] in *.
      replace (a <=? 255) with false by lia. now rewrite IH.
  - destruct Hb as [Hb|[]]. destruct Hp as [Hn Hp]. unfold eeWrite8. cbn [ideal].
    destruct (N.leb_spec a 255) as [Ha|Ha].
    + unfold xfer at 1. rewrite Hb. cbv iota beta. unfold xfer. cbn [e_busy e_wel e_mem e_prot e_float].
      unfold u8. rewrite N.mod_small by lia.
      match goal with |- context [eRun ?g r] => specialize (IH g Hp (or_intror (Hn Ha))); destruct (eRun g r) as [l2 e2] end.
      cbn [fst app e_prot e_mem] in *. rewrite IH. apply ideal_ext. intros i Hi.
      replace (a <? N.min (e_prot e) 256) with (a <? e_prot e) by lia. reflexivity.
    + specialize (IH e Hp (or_introl Hb)). destruct (eRun e r) as [l2 e2]. cbn [fst app] in *. rewrite IH.
      apply ideal_ext. intros i Hi. replace (i =? a) with false by lia. reflexivity.
  - specialize (IH (cycleEnds e) Hp (or_introl eq_refl)). destruct (eRun (cycleEnds e) r) as [l2 e2]. exact IH.
Qed.
Lemma multi_busy : forall l addr buf e, e_busy e = true ->
  fold_left (fun e i => eeWrite8 (u16 (addr + i)) (at0 buf i) e) l e = e.
Proof.
  induction l as [|i r IH]; intros addr buf e H; [reflexivity|]. cbn [fold_left].
  replace (eeWrite8 (u16 (addr + i)) (at0 buf i) e) with e; [auto|].
  unfold eeWrite8, xfer. destruct (_ <=? 255); [|reflexivity]. rewrite H. cbv iota beta. rewrite H. reflexivity.
Qed.

Lemma read_multiple : forall e addr size, e_busy e = false ->
  eeReadMultiple addr size e =
  (map (fun i => let a := (addr + N.of_nat i) mod 65536 in if a <=? 255 then e_mem e a else 0)
       (seq 0 (N.to_nat size)), e).
Proof.
  intros e addr size Hb. unfold eeReadMultiple, Nseq.
  assert (G : forall l acc,
    fold_left (fun s i => let '(l, e) := s in let '(v, e) := eeRead8 (u16 (addr + i)) e in (l ++ [v], e))
              (map N.of_nat l) (acc, e) =
    (acc ++ map (fun i => let a := (addr + N.of_nat i) mod 65536 in if a <=? 255 then e_mem e a else 0) l, e)).
  { induction l as [|x l IH]; intro acc; [cbn; now rewrite app_nil_r|]. cbn [map fold_left].
    assert (R : eeRead8 (u16 (addr + N.of_nat x)) e =
      (if (addr + N.of_nat x) mod 65536 <=? 255 then e_mem e ((addr + N.of_nat x) mod 65536) else 0, e)).
    { unfold eeRead8, u16, u8, xfer. rewrite Hb.
      destruct (N.leb_spec ((addr + N.of_nat x) mod 65536) 255) as [L|L]; [|reflexivity].
      now rewrite (N.mod_small ((addr + N.of_nat x) mod 65536)) by lia. }
    rewrite R, IH, <- app_assoc. reflexivity. }
  apply (G (seq 0 (N.to_nat size)) []).
Qed.
