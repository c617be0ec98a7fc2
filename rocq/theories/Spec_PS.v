(* Spec_PS.v - persistent memory of a node as a set of named fields (vscp_ps.h, vscp_ps.c),
   independent of where the implementation puts them. *)
From Verif Require Export Spec_Node.

(* the named fields *)
Inductive Field := FBoot | FNick | FCrc | FCtrl | FUser | FGuid | FZone | FSub | FMDev | FMSub | FMdf
                 | FFam | FType | FLog | FDm | FDmx | FNg.
Definition field_eqb (a b : Field) : bool :=
  match a, b with
  | FBoot, FBoot | FNick, FNick | FCrc, FCrc | FCtrl, FCtrl | FUser, FUser | FGuid, FGuid | FZone, FZone
  | FSub, FSub | FMDev, FMDev | FMSub, FMSub | FMdf, FMdf | FFam, FFam | FType, FType | FLog, FLog
  | FDm, FDm | FDmx, FDmx | FNg, FNg => true
  | _, _ => false
  end.
(* number of bytes of a field; 0 = not present in this configuration *)
Definition fieldLen (c : Config) (f : Field) : N :=
  match f with
  | FBoot => if c_boot c then 1 else 0
  | FNick | FCrc | FCtrl => 1
  | FUser => 5
  | FGuid => if d_guid_ps c then 16 else 0
  | FZone => if d_zone_ps c then 1 else 0
  | FSub => if d_sub_ps c then 1 else 0
  | FMDev => if d_mdev_ps c then 4 else 0
  | FMSub => if d_msub_ps c then 4 else 0
  | FMdf => if d_mdf_ps c then 32 else 0
  | FFam => if d_fam_ps c then 4 else 0
  | FType => if d_type_ps c then 4 else 0
  | FLog => if c_logger c then 1 else 0
  | FDm => if c_dm c then 8 * c_dm_rows c else 0
  | FDmx => if c_dm_ext c then 8 * c_dm_rows c else 0
  | FNg => if c_dm_ng c then c_ng_size c else 0
  end.
Definition allFields : list Field :=
  [FBoot; FNick; FCrc; FCtrl; FUser; FGuid; FZone; FSub; FMDev; FMSub; FMdf; FFam; FType; FLog; FDm; FDmx; FNg].
(* size of the framework's persistent memory area, which starts at address 0; the
   application's own data starts behind it (VSCP_PS_ADDR_NEXT) *)
Definition psArea (c : Config) : N := fold_right (fun f n => fieldLen c f + n) 0 allFields.

Section PSFields.
Context {A : Type} {E : Env A}.
(* the accessor functions of vscp_ps.c, by field *)
Definition readField (f : Field) (i : N) : M A N :=
  match f with
  | FBoot => ps_readBootFlag | FNick => ps_readNicknameId | FCrc => ps_readCRC | FCtrl => ps_readCtrl
  | FUser => ps_readUserId i | FGuid => ps_readGUID i | FZone => ps_readZone | FSub => ps_readSub
  | FMDev => ps_readMDev i | FMSub => ps_readMSub i | FMdf => ps_readMdf i | FFam => ps_readFam i
  | FType => ps_readType i | FLog => ps_readLogId | FDm => ps_readDM i | FDmx => ps_readDMExt i
  | FNg => ps_readNG i
  end.
Definition writeField (f : Field) (i v : N) : M A unit :=
  match f with
  | FBoot => ps_writeBootFlag v | FNick => ps_writeNicknameId v | FCrc => ps_writeCRC v | FCtrl => ps_writeCtrl v
  | FUser => ps_writeUserId i v | FGuid => ps_writeGUID i v | FZone => ps_writeZone v | FSub => ps_writeSub v
  | FMDev => ps_writeMDev i v | FMSub => ps_writeMSub i v | FMdf => ps_writeMdf i v | FFam => ps_writeFam i v
  | FType => ps_writeType i v | FLog => ps_writeLogId v | FDm => ps_writeDM i v | FDmx => ps_writeDMExt i v
  | FNg => ps_writeNG i v
  end.
(* the value the accessor returns in a state *)
Definition stored (w : World A) (f : Field) (i : N) : N := fst (readField f i w).
End PSFields.

(* factory default of byte i of a field; None: factory restore is not said to touch it.
   Byte orders: the GUID is stored LSB first, ids in the byte order of the host. *)
Definition factoryDefault (c : Config) (f : Field) (i : N) : option N :=
  match f with
  | FNick => Some 255
  | FCrc => if c_hb_seg c then Some 255 else None
  | FCtrl => Some 160
  | FUser => Some 0
  | FGuid => Some (nth (N.to_nat (15 - i)) (d_guid c) 0)
  | FZone => Some (d_zone c)
  | FSub => Some (d_sub c)
  | FMDev => Some (d_mdev c / 2 ^ (8 * (if c_le c then i else 3 - i)) mod 256)
  | FMSub => Some (d_msub c / 2 ^ (8 * (if c_le c then i else 3 - i)) mod 256)
  | FMdf => Some (nth (N.to_nat i) (d_mdf c) 0)
  | FFam => if d_family c then Some (d_fam c / 2 ^ (8 * i) mod 256) else None
  | FType => if d_family c then Some (d_type c / 2 ^ (8 * i) mod 256) else None
  | FDm | FDmx | FNg => Some 0
  | FBoot | FLog => None
  end.
(* The bytes for which factory restore really does so. Missing: the second half of a matrix
   (vscp_dm.c:205-230 advances by one byte instead of one row), and the upper bytes of the
   family code and device type (vscp_dev_data.c:187-221 shifts by bits instead of bytes). *)
Definition restoreReaches (c : Config) (f : Field) (i : N) : bool :=
  match f with
  | FDm | FDmx => i <? c_dm_rows c + 7
  | FFam | FType => i =? 0
  | _ => true
  end.
(* number of timers the framework needs *)
Definition timersNeeded (c : Config) : N := if c_hb_node c then 5 else 4.

Section Restart.
Context {A : Type} {E : Env A}.
(* a state with the given persistent memory contents, so that stored can name the fields *)
Definition inMem (ps : N -> N) (w : World A) : World A := set_ps ps w.
(* The outcome w' of vscp_core_init on the memory contents of w0. The start-up control value
   in the upper two bits of the control flags decides whether they are valid (1 or 2). *)
Definition restarted (w0 w' : World A) : Prop :=
  w_st w' = STARTUP /\
  (stored w0 FCtrl 0 / 64 = 1 \/ stored w0 FCtrl 0 / 64 = 2 ->
     readNicknameId w' = stored w0 FNick 0 /\ forall a, w_ps w' a = w_ps w0 a) /\
  (~ (stored w0 FCtrl 0 / 64 = 1 \/ stored w0 FCtrl 0 / 64 = 2) ->
     readNicknameId w' = 255 /\
     forall f i, i < fieldLen cfg f -> restoreReaches cfg f i = true ->
       stored w' f i = match factoryDefault cfg f i with Some v => v | None => stored w0 f i end).
End Restart.
(* fields with an index parameter *)
Definition indexed (f : Field) : bool :=
  match f with FBoot | FNick | FCrc | FCtrl | FZone | FSub | FLog => false | _ => true end.
