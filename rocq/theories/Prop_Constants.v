(* Prop_Constants.v - property C66: the numbers that VSCP fixes. The right-hand sides are the numbers of the
   VSCP Level I specification: classes (vscp_class_l1.h), types of the protocol class (vscp_type_protocol.h), of
   other classes, register addresses (vscp_types.h:105-279), flags of the decision matrices and other numbers. *)
From Verif Require Import Types Core DM DMNG.

Definition agree (l : list (N * N)) : Prop := Forall (fun p => fst p = snd p) l.
Definition distinct (l : list (N * N)) : Prop := NoDup (map fst l).
(* classes of events *)
Definition classes : list (N * N) :=
  [(CLASS_PROTOCOL, 0); (CLASS_ALARM, 1); (CLASS_SECURITY, 2); (CLASS_MEASUREMENT, 10); (CLASS_DATA, 15);
      (CLASS_INFORMATION, 20); (CLASS_CONTROL, 30); (CLASS_MULTIMEDIA, 40); (CLASS_AOL, 50);
      (CLASS_MEASUREMENT64, 60); (CLASS_MEASUREZONE, 65); (CLASS_MEASUREMENT32, 70); (CLASS_SETVALUEZONE, 85);
      (CLASS_WEATHER, 90); (CLASS_WEATHER_FORECAST, 95); (CLASS_PHONE, 100); (CLASS_DISPLAY, 102); (CLASS_IR, 110); (CLASS_GNSS, 206); (CLASS_WIRELESS, 212); (CLASS_DIAGNOSTIC, 506); (CLASS_ERROR, 508); (CLASS_LOG, 509); (CLASS_LABORATORY, 510); (CLASS_LOCAL, 511)].
(* types of the protocol class *)
Definition protocol_types : list (N * N) :=
  [(PT_SEGCTRL_HEARTBEAT, 1); (PT_NEW_NODE_ONLINE, 2); (PT_PROBE_ACK, 3); (PT_SET_NICKNAME, 6);
      (PT_NICKNAME_ACCEPTED, 7); (PT_DROP_NICKNAME, 8); (PT_READ_REGISTER, 9); (PT_RW_RESPONSE, 10);
      (PT_WRITE_REGISTER, 11); (PT_ENTER_BOOT_LOADER, 12); (PT_NACK_BOOT_LOADER, 14); (PT_RESET_DEVICE, 23);
      (PT_PAGE_READ, 24); (PT_PAGE_WRITE, 25); (PT_RW_PAGE_RESPONSE, 26); (PT_INCREMENT_REGISTER, 29);
      (PT_DECREMENT_REGISTER, 30); (PT_WHO_IS_THERE, 31); (PT_WHO_IS_THERE_RESPONSE, 32); (PT_GET_MATRIX_INFO, 33); (PT_GET_MATRIX_INFO_RESPONSE, 34); (PT_EXTENDED_PAGE_READ, 37); (PT_EXTENDED_PAGE_WRITE, 38);
      (PT_EXTENDED_PAGE_RESPONSE, 39)].
(* types of other classes the framework looks at *)
Definition other_types : list (N * N) :=
  [(IT_NODE_HEARTBEAT, 9); (IT_STREAM_DATA, 36); (IT_STREAM_DATA_WITH_ZONE, 38); (IT_CONFIRM, 39);
      (LT_MESSAGE, 1); (LT_START, 2); (LT_STOP, 3); (LT_LEVEL, 4); (CT_DEACTIVATE, 16); (CT_DIM_LAMPS, 20);
      (CT_STREAM_DATA, 25); (PH_ANSWER, 4); (DT_SET_DISPLAY_BUFFER_PARAM, 6); (RT_VSCP_ABSTRACT, 48);
      (RT_MAPITO, 49)].
(* addresses of the registers of VSCP *)
Definition registers : list (N * N) :=
  [(REG_ALARM, 128); (REG_VERSION_MAJOR, 129); (REG_VERSION_MINOR, 130); (REG_CTRL, 131); (REG_USER, 132);
      (REG_MDEV, 137); (REG_MSUB, 141); (REG_NICK, 145); (REG_PAGE_MSB, 146); (REG_PAGE_LSB, 147);
      (REG_FW_MAJOR, 148); (REG_FW_MINOR, 149); (REG_FW_SUB, 150); (REG_BOOT_ALG, 151); (REG_BUFFER_SIZE, 152);
      (REG_PAGES_USED, 153); (REG_FAM, 154); (REG_TYPE, 158); (REG_RESTORE, 162); (REG_FWCODE_MSB, 163);
      (REG_FWCODE_LSB, 164); (REG_GUID, 208); (REG_MDF, 224)].
(* standard decision matrix *)
Definition dm_numbers : list (N * N) :=
  [(FLAG_CLASS_FILTER_BIT8, 0); (FLAG_CLASS_MASK_BIT8, 1); (FLAG_MATCH_SUB_ZONE, 3); (FLAG_MATCH_ZONE, 4);
      (FLAG_HARDCODED, 5); (FLAG_CHECK_OADDR, 6); (FLAG_ENABLE, 7); (ACTION_NOP, 0); (ACTION_EXT, 255);
      (DM_PAGED_INDEX, 126); (DM_PAGED_VALUE, 127)].
(* next generation decision matrix *)
Definition ng_numbers : list (N * N) :=
  [(NG_SIZE_MIN, 6); (NG_RULE_MAX_SIZE, 40); (LOGIC_LAST, 0); (LOGIC_AND, 16); (LOGIC_OR, 32);
      (NG_ACTION_NOP, 0); (PAR_CLASS, 1); (PAR_TYPE, 2); (PAR_OADDR, 3); (PAR_HARD_CODED, 4); (PAR_PRIORITY, 5); (PAR_ZONE, 6); (PAR_SUB_ZONE, 7); (PAR_DATA_NUM, 8); (PAR_DATA0, 9); (PAR_DATA, 16); (PAR_MAX_NUM, 17); (BASIC_OP_MAX_NUM, 7)].
(* sizes, special nicknames, priorities and defaults *)
Definition other_numbers : list (N * N) :=
  [(L1_DATA_SIZE, 8); (NICK_SEGMENT_MASTER, 0); (NICK_NOT_INIT, 255); (SEGMENT_CRC_NOT_INIT, 255);
      (NODE_CONTROL_FLAGS_DEFAULT, 160); (BOOT_FLAG_BOOTLOADER, 187); (GUID_SIZE, 16); (TIMER_ID_INVALID, 255);
      (ZONE_BROADCAST, 255); (SUBZONE_BROADCAST, 255); (PRIO_0_HIGH, 0); (PRIO_3_NORMAL, 3); (PRIO_7_LOW, 7)].
(* registers with their numbers of bytes *)
Definition layout : list (N * N) :=
  [(REG_ALARM, 1); (REG_VERSION_MAJOR, 1); (REG_VERSION_MINOR, 1); (REG_CTRL, 1); (REG_USER, 5); (REG_MDEV, 4); (REG_MSUB, 4); (REG_NICK, 1); (REG_PAGE_MSB, 1); (REG_PAGE_LSB, 1); (REG_FW_MAJOR, 1); (REG_FW_MINOR, 1); (REG_FW_SUB, 1); (REG_BOOT_ALG, 1); (REG_BUFFER_SIZE, 1); (REG_PAGES_USED, 1); (REG_FAM, 4);
      (REG_TYPE, 4); (REG_RESTORE, 1); (REG_FWCODE_MSB, 1); (REG_FWCODE_LSB, 1); (REG_GUID, 16); (REG_MDF, 32)].
(* the addresses of a list of registers *)
Definition addresses (l : list (N * N)) : list N := flat_map (fun p => Nrange (fst p) (snd p)) l.

(* C66: the model uses the numbers of the specification *)
Theorem C66_numbers :
  agree classes /\ agree protocol_types /\ agree other_types /\ agree registers /\ agree dm_numbers /\
  agree ng_numbers /\ agree other_numbers.
Proof. repeat (split || constructor). Qed.
Print Assumptions C66_numbers.

Fixpoint nodupb (l : list N) : bool :=
  match l with [] => true | x :: t => negb (existsb (N.eqb x) t) && nodupb t end.
Lemma nodup_dec (l : list N) : nodupb l = true -> NoDup l.
Proof.
  induction l as [|x t IH]; cbn; intro H; constructor; apply andb_true_iff in H; destruct H as [H1 H2]; [|auto].
  intro Hin. apply negb_true_iff in H1. rewrite <- not_true_iff_false in H1. apply H1.
  apply existsb_exists. exists x. split; [assumption|apply N.eqb_refl].
Qed.

(* C66: no two classes, no two types of the protocol class and no two addresses of the registers are the same;
   classes have 9 bits, types and addresses 8, the registers are in the upper half of the register space *)
Theorem C66_unambiguous :
  distinct classes /\ distinct protocol_types /\ NoDup (addresses layout) /\
  Forall (fun p => fst p < 512) classes /\ Forall (fun p => fst p < 256) protocol_types /\
  Forall (fun a => 128 <= a < 256) (addresses layout).
Proof.
  split; [apply nodup_dec; vm_compute; reflexivity|]. split; [apply nodup_dec; vm_compute; reflexivity|].
  split; [apply nodup_dec; vm_compute; reflexivity|].
  split; [repeat constructor|]. split; [repeat constructor|].
  apply Forall_forall. intros a Ha.
  assert (G : forallb (fun a => (128 <=? a) && (a <? 256)) (addresses layout) = true) by (vm_compute; reflexivity).
  rewrite forallb_forall in G. specialize (G a Ha). lia.
Qed.
Print Assumptions C66_unambiguous.

Example C66_example : In (CLASS_INFORMATION, 20) classes /\ In (PT_READ_REGISTER, 9) protocol_types /\
  In 223 (addresses layout) /\ length (addresses layout) = 85%nat.
Proof. vm_compute. intuition. Qed.
