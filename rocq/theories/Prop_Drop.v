(* Prop_Drop.v - property C48: DROP_NICKNAME. *)
From Verif Require Import Spec_Proto Proof_Drop FixtureReq.

(* C48: exactly the requested variant is performed, for all flags and wait times *)
Theorem C48_drop_nickname :
  forall A (E : Env A), valid_env E -> forall w rd m data flags t,
    request w rd m 8 (w_nick w :: data) -> dropArgs (w_nick w :: data) = Some (flags, t) ->
    exists l w1, dropped (heard w m) flags t l w1 /\ served w (after w rd) m l w1.
Proof.
  intros A E VE w rd m data flags t HQ HA. set (H := heard w m).
  apply (known_state VE w rd m 8 _ (fun l w1 => dropped H flags t l w1) HQ). intros w0 S0 RX WF SZ AT NK HT ST. fold H in S0.
  rewrite (drop_split w0 m (w_nick w :: data) flags t RX) by (try assumption; rewrite <- ?RX; try assumption; rewrite NK; reflexivity).
  destruct HQ as (HR & _). destruct (reach_inv VE w HR) as [ps0 HI].
  destruct (drop_state w0 H flags t S0 ST) as (l & w1 & G1 & G2 & G3 & G4).
  - rewrite NK, (i_nick _ _ HI). apply (i_ps _ _ HI).
  - apply (hbApart_eq H); try (destruct S0 as [V _]; unfold visible in V; congruence).
    apply (hbApart_eq w); try (unfold H, heard; destruct (c_prot_ev cfg); reflexivity). apply (inv_hbApart VE ps0 w HI).
  - exists l, w1. split; [exact G1|]. cbv zeta. split; [exact G2|]. split; [exact G3|]. intros _. exact G4.
Qed.
Print Assumptions C48_drop_nickname.

(* C48, spelled out: nickname and state afterwards *)
Theorem C48_nickname_afterwards :
  forall A (E : Env A), valid_env E -> forall w rd m data flags t,
    request w rd m 8 (w_nick w :: data) -> dropArgs (w_nick w :: data) = Some (flags, t) -> quiet w (after w rd) ->
    let w' := after w rd in
    w_nick w' = (if dropKeep flags then w_nick w else 255) /\ stored w' FNick 0 = w_nick w' /\
    w_st w' = (if dropIdle flags then IDLE else RESET) /\ (dropIdle flags = false -> w_sec w' = t).
Proof.
  intros A E VE w rd m data flags t HQ HA HQu w'. destruct (C48_drop_nickname A E VE w rd m data flags t HQ HA) as (l & w1 & HD & HS).
  destruct HS as (rest & _ & HS). destruct (HS HQu) as [_ S]. fold w' in S.
  assert (HN : w_nick w1 = if dropKeep flags then w_nick w else 255).
  { destruct HD as (wr & wn & ln & -> & HN & _ & ->). assert (EN : w_nick wn = if dropKeep flags then w_nick w else 255).
    { destruct (dropKeep flags); cbn [negb] in HN; [destruct (dropRestore flags)|].
      - destruct HN as (x & _ & HM & _). rewrite (onlyMemory_fields _ _ HM). wsimp. apply heard_nick.
      - destruct HN as (_ & ->). apply heard_nick.
      - destruct HN as (x & _ & HM & _). rewrite (onlyMemory_fields _ _ HM). reflexivity. }
    destruct (dropIdle flags); exact EN. }
  split; [rewrite (same_nick _ _ S); exact HN|]. destruct (reach_inv VE w' (reach_op w (OpProcess rd) (proj1 HQ) (proj1 (proj2 HQ)))) as [ps0 HI].
  split; [rewrite (i_nick _ _ HI); unfold stored; rewrite readField_eq by (cbn; lia); cbn [fieldBase]; rewrite N.add_0_r; reflexivity|].
  rewrite (same_st _ _ S). assert (SE : w_sec w' = w_sec w1) by (destruct S as [V _]; unfold visible in V; congruence). rewrite SE.
  destruct HD as (wr & wn & ln & -> & _ & _ & ->). destruct (dropIdle flags); split; try reflexivity; discriminate.
Qed.
Print Assumptions C48_nickname_afterwards.

(* C48: a DROP_NICKNAME event with more than three bytes changes nothing *)
Theorem C48_size_checked :
  forall A (E : Env A), valid_env E -> forall w rd m data,
    request w rd m 8 (w_nick w :: data) -> dropArgs (w_nick w :: data) = None -> served w (after w rd) m [] (heard w m).
Proof.
  intros A E VE w rd m data HQ HA.
  destruct (known_state VE w rd m 8 _ (fun l w1 => l = [] /\ w1 = heard w m) HQ) as (l & w1 & (-> & ->) & HS); [|exact HS].
  intros w0 S0 RX WF SZ AT NK HT ST. exists [], (heard w m). split; [auto|]. cbv zeta.
  rewrite hpct_8 by exact HT. unfold handleDropNickname, rxSize. destruct data as [|d1 [|d2 [|d3 data]]]; try discriminate HA. cbn [length] in SZ.
  unfold rxForMe. rewrite !bind_get, RX.
  replace (m_size m =? 1) with false by (symmetry; lia). replace ((m_size m =? 2) || (m_size m =? 3)) with false by (symmetry; lia).
  assert (G : forall c : bool, (if c then (ret tt : M A unit) else ret tt) w0 = (tt, w0)) by (intros []; reflexivity). rewrite G. cbn [snd rev app].
  split; [reflexivity|]. split; [exact S0|]. intros _. apply undisturbed_refl.
Qed.
Print Assumptions C48_size_checked.

(* all variants: plain; keep the nickname; restore defaults and keep; idle; restore and wait 3 seconds *)
Example C48_example :
  let E := exEnv (exCfg oFull) in
  let w := exNode oFull [] in
  let a := after w (Some (exReq 8 [5])) in let b := after w (Some (exReq 8 [5; 32; 2])) in let c := after w (Some (exReq 8 [5; 96])) in
  let d := after w (Some (exReq 8 [5; 128])) in let e := after w (Some (exReq 8 [5; 64; 3])) in let f := after w (Some (exReq 8 [5; 64; 3; 0])) in
  valid_env E /\ request w (Some (exReq 8 [5])) (exReq 8 [5]) 8 [w_nick w] /\ request w (Some (exReq 8 [5; 64; 3])) (exReq 8 [5; 64; 3]) 8 [w_nick w; 64; 3] /\
  request w (Some (exReq 8 [5; 64; 3; 0])) (exReq 8 [5; 64; 3; 0]) 8 [w_nick w; 64; 3; 0] /\ quiet w a /\ quiet w e /\
  map w_nick [a; b; c; d; e; f] = [255; 5; 5; 255; 255; 5] /\ map w_st [a; b; c; d; e; f] = [RESET; RESET; RESET; IDLE; RESET; ACTIVE] /\
  map w_sec [a; b; c; e] = [0; 2; 0; 3] /\ map (fun w => stored w FCtrl 0) [w; a; b; c; d; e; f] = [96; 96; 96; 160; 96; 160; 96].
Proof. cbv zeta. split; [exvalid|]. split; [exreq|]. split; [exreq|]. split; [exreq|]. vmc. Qed.
