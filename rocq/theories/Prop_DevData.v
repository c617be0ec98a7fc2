(* Prop_DevData.v - properties C12 to C14: device data registers. *)
From Verif Require Import Spec_PS Proof_DevData Fixture.

(* C12: register 0xD0+k is byte k of the configured GUID, MSB first: always if the GUID is in
   flash; after a factory restore if it is in persistent memory (and in general the stored
   byte 15-k); byte 15-k of the external provider otherwise. Reading changes nothing. *)
Theorem C12_guid_registers :
  forall A (E : Env A), valid_env E -> forall k, k < 16 -> forall w,
    (d_guid_ps cfg = false -> d_guid_ext cfg = false ->
       readRegister 0 (208 + k) w = (nth (N.to_nat k) (d_guid cfg) 0, w)) /\
    (d_guid_ps cfg = true ->
       readRegister 0 (208 + k) w = (stored w FGuid (15 - k), w) /\
       fst (readRegister 0 (208 + k) (snd (restoreFactory w))) = nth (N.to_nat k) (d_guid cfg) 0) /\
    (d_guid_ps cfg = false -> d_guid_ext cfg = true ->
       readRegister 0 (208 + k) w = (app_guid (w_app w) (15 - k) mod 256, w)).
Proof.
  intros A E VE k Hk w. rewrite (reg_guid k Hk). assert (K : 15 - (15 - k) = k) by lia. repeat split.
  - intros H1 H2. rewrite (getGUID_flash VE (15 - k) w) by (lia || assumption). rewrite K. reflexivity.
  - apply getGUID_ps; [lia|assumption].
  - rewrite (getGUID_restored VE (15 - k) w) by (lia || assumption). rewrite K. reflexivity.
  - apply getGUID_ext.
Qed.
Print Assumptions C12_guid_registers.

Example C12_example :
  let E := exEnv (exCfg oDm) in
  let w := powerUp (exPs (exCfg oDm) 5) regs0 [] in
  valid_env E /\ d_guid_ps cfg = true /\
  map (fun k => fst (readRegister 0 (208 + k) w)) (Nseq 16) = repeat 0 16 /\
  map (fun k => fst (readRegister 0 (208 + k) (snd (restoreFactory w)))) (Nseq 16) = exGuid.
Proof. cbv zeta. split; [exvalid|]. vmc. Qed.

(* C13 is false: the code 0x11223344 reads as 68 D1 A2 44 *)
Theorem C13_family_code_refuted :
  exists (E : Env Regs), valid_env E /\ d_family cfg = true /\ exists w, reachable w /\
    exists k, k < 4 /\ fst (readRegister 0 (154 + k) w) <> d_fam cfg / 2 ^ (8 * (3 - k)) mod 256 /\
                       fst (readRegister 0 (158 + k) w) <> d_type cfg / 2 ^ (8 * (3 - k)) mod 256.
Proof.
  pose (E := exEnv (exCfg oMin)). exists E. split; [exvalid|]. split; [reflexivity|].
  exists (run [] (powerUp (exPs (exCfg oMin) 5) regs0 [])). split; [exreach|].
  exists 1. vmc.
Qed.
Print Assumptions C13_family_code_refuted.

(* C13, what the registers return: bits 3-k .. 10-k of the code, 0xFF replaced by 0; hence
   the documented byte for k = 3 unless it is 0xFF. Missing for the full property: k < 3. *)
Theorem C13_family_code_partial :
  forall A (E : Env A), valid_env E -> d_family cfg = true -> forall w k, k < 4 ->
    (d_fam_ps cfg = false -> fst (readRegister 0 (154 + k) w) = shifted (d_fam cfg) (3 - k)) /\
    (d_fam_ps cfg = true -> fst (readRegister 0 (154 + k) (snd (restoreFactory w))) = shifted (d_fam cfg) (3 - k)) /\
    (d_type_ps cfg = false -> fst (readRegister 0 (158 + k) w) = shifted (d_type cfg) (3 - k)) /\
    (d_type_ps cfg = true -> fst (readRegister 0 (158 + k) (snd (restoreFactory w))) = shifted (d_type cfg) (3 - k)) /\
    (forall code, k = 3 -> code mod 256 <> 255 -> shifted code (3 - k) = code / 2 ^ (8 * (3 - k)) mod 256).
Proof.
  intros A E VE HF w k Hk. rewrite (reg_fam k Hk), (reg_type k Hk). repeat split; intros.
  - rewrite getFam_flash by assumption. reflexivity.
  - apply getFam_restored; [assumption|lia|assumption..].
  - rewrite getType_flash by assumption. reflexivity.
  - apply getType_restored; [assumption|lia|assumption..].
  - subst k. unfold shifted. cbv zeta. change (2 ^ (3 - 3)) with 1. change (2 ^ (8 * (3 - 3))) with 1. rewrite N.div_1_r.
    destruct (N.eqb_spec (code mod 256) 255); [contradiction|reflexivity].
Qed.
Print Assumptions C13_family_code_partial.

Example C13_example :
  let E := exEnv (exCfg oMin) in
  let w := powerUp (exPs (exCfg oMin) 5) regs0 [] in
  valid_env E /\ d_family cfg = true /\ d_fam_ps cfg = false /\ d_fam cfg = 287454020 /\
  map (fun k => fst (readRegister 0 (154 + k) w)) [0; 1; 2; 3] = [104; 209; 162; 68] /\ d_fam cfg mod 256 = 68.
Proof. cbv zeta. split; [exvalid|]. vmc. Qed.

(* C14: register 0xE0+k is character k of the MDF URL, and 0 behind its end: always if it is
   in flash, after a factory restore if it is in persistent memory. The URL may be longer. *)
Theorem C14_mdf_registers :
  forall A (E : Env A), valid_env E -> forall k, k < 32 -> forall w,
    let url := fun k => if k <? N.of_nat (length (d_mdf cfg)) then nth (N.to_nat k) (d_mdf cfg) 0 else 0 in
    (d_mdf_ps cfg = false -> readRegister 0 (224 + k) w = (url k, w)) /\
    (d_mdf_ps cfg = true -> readRegister 0 (224 + k) w = (stored w FMdf k, w) /\
       fst (readRegister 0 (224 + k) (snd (restoreFactory w))) = url k).
Proof.
  intros A E VE k Hk w. cbv zeta. rewrite (reg_mdf k Hk).
  assert (K : (if k <? N.of_nat (length (d_mdf cfg)) then nth (N.to_nat k) (d_mdf cfg) 0 else 0) = nth (N.to_nat k) (d_mdf cfg) 0).
  { destruct (N.ltb_spec k (N.of_nat (length (d_mdf cfg)))); [reflexivity|]. symmetry. apply nth_overflow. lia. }
  rewrite K. repeat split.
  - apply getMdf_flash.
  - apply getMdf_ps; assumption.
  - apply getMdf_restored; assumption.
Qed.
Print Assumptions C14_mdf_registers.

Example C14_example :
  let E := exEnv (exCfg oMin) in
  let w := powerUp (exPs (exCfg oMin) 5) regs0 [] in
  valid_env E /\ d_mdf_ps cfg = false /\
  map (fun k => fst (readRegister 0 (224 + k) w)) [0; 1; 2; 3; 4; 5; 31] = [119; 119; 119; 46; 120; 0; 0].
Proof. cbv zeta. split; [exvalid|]. vmc. Qed.
