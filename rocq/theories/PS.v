(* PS.v - model of src/vscp_ps.h (layout) and src/vscp_ps.c (accessors).
   vscp_ps_init (vscp_ps.c:83) only initialises the access layer and has no modelled effect. *)
From Verif Require Export World.

(* ---------------- layout, vscp_ps.h:129-372 ---------------- *)
Definition b2n (b : bool) (n : N) : N := if b then n else 0.
Section Layout.
Variable c : Config.
Definition ps_boot : N := 0.                                            (* :132 *)
Definition sz_boot : N := b2n (c_boot c) 1.                             (* :134-144 *)
Definition ps_nick : N := ps_boot + sz_boot.                            (* :151 *)
Definition sz_nick : N := 1.
Definition ps_crc : N := ps_nick + sz_nick.                             (* SEGMENT_CONTROLLER_CRC *)
Definition sz_crc : N := 1.
Definition ps_ctrl : N := ps_crc + sz_crc.                              (* NODE_CONTROL_FLAGS *)
Definition sz_ctrl : N := 1.
Definition ps_user : N := ps_ctrl + sz_ctrl.                            (* USER_ID *)
Definition sz_user : N := 5.
Definition ps_guid : N := ps_user + sz_user.                            (* GUID *)
Definition sz_guid : N := b2n (d_guid_ps c) GUID_SIZE.
Definition ps_zone : N := ps_guid + sz_guid.                            (* NODE_ZONE *)
Definition sz_zone : N := b2n (d_zone_ps c) 1.
Definition ps_sub : N := ps_zone + sz_zone.                             (* NODE_SUB_ZONE *)
Definition sz_sub : N := b2n (d_sub_ps c) 1.
Definition ps_mdev : N := ps_sub + sz_sub.                              (* MANUFACTURER_DEV_ID *)
Definition sz_mdev : N := b2n (d_mdev_ps c) 4.
Definition ps_msub : N := ps_mdev + sz_mdev.                            (* MANUFACTURER_SUB_DEV_ID *)
Definition sz_msub : N := b2n (d_msub_ps c) 4.
Definition ps_mdf : N := ps_msub + sz_msub.                             (* MDF_URL *)
Definition sz_mdf : N := b2n (d_mdf_ps c) 32.
Definition ps_fam : N := ps_mdf + sz_mdf.                               (* STD_DEV_FAMILY_CODE *)
Definition sz_fam : N := b2n (d_fam_ps c) 4.
Definition ps_type : N := ps_fam + sz_fam.                              (* STD_DEV_TYPE *)
Definition sz_type : N := b2n (d_type_ps c) 4.
Definition ps_log : N := ps_type + sz_type.                             (* LOG_ID *)
Definition sz_log : N := b2n (c_logger c) 1.
Definition ps_dm : N := ps_log + sz_log.                                (* DM *)
Definition sz_dm : N := b2n (c_dm c) (c_dm_rows c * 8).
Definition ps_dmx : N := ps_dm + sz_dm.                                 (* DM_EXTENSION *)
Definition sz_dmx : N := b2n (c_dm_ext c) (c_dm_rows c * 8).
Definition ps_ng : N := ps_dmx + sz_dmx.                                (* DM_NEXT_GENERATION *)
Definition sz_ng : N := b2n (c_dm_ng c) (c_ng_size c).
Definition ps_next : N := ps_ng + sz_ng.                                (* :372 VSCP_PS_ADDR_NEXT *)
End Layout.

(* memory update *)
Definition fupd (f : N -> N) (a v : N) : N -> N := fun x => if x =? a then v else f x.

Section PS.
Context {A : Type} {E : Env A}.

(* vscp_ps_access_read8 / write8 (templates/vscp_ps_access.h): byte addressed memory *)
Definition psRead8 (a : N) : M A N := get (fun w => w_ps w a).
Definition psWrite8 (a v : N) : M A unit :=
  upd (fun w => set_ps (fupd (w_ps w) a (u8 v)) w) ;; emit (OPs a (u8 v)).
(* vscp_ps_access_readMultiple / writeMultiple: consecutive addresses, ascending *)
Definition psReadMultiple (a n : N) : M A (list N) := get (fun w => map (w_ps w) (Nrange a n)).
Fixpoint psWriteMultiple (a : N) (l : list N) : M A unit :=
  match l with
  | [] => ret tt
  | v :: r => psWrite8 a v ;; psWriteMultiple (a + 1) r
  end.

(* "if (SIZE > index) data = read8(ADDR + index)" / write, the common accessor shape *)
Definition psReadIdx (addr size index : N) : M A N :=
  if index <? size then psRead8 (addr + index) else ret 0.
Definition psWriteIdx (addr size index v : N) : M A unit :=
  when index <? size do psWrite8 (addr + index) v.

Definition ps_readBootFlag : M A N := psRead8 (ps_boot).                              (* vscp_ps.c:98 *)
Definition ps_writeBootFlag (v : N) : M A unit := psWrite8 (ps_boot) v.               (* vscp_ps.c:108 *)
Definition ps_readNicknameId : M A N := psRead8 (ps_nick cfg).                        (* vscp_ps.c:121 *)
Definition ps_writeNicknameId (v : N) : M A unit := psWrite8 (ps_nick cfg) v.         (* vscp_ps.c:131 *)
Definition ps_readCRC : M A N := psRead8 (ps_crc cfg).                                (* vscp_ps.c:144 *)
Definition ps_writeCRC (v : N) : M A unit := psWrite8 (ps_crc cfg) v.                 (* vscp_ps.c:154 *)
Definition ps_readCtrl : M A N := psRead8 (ps_ctrl cfg).                              (* vscp_ps.c:167 *)
Definition ps_writeCtrl (v : N) : M A unit := psWrite8 (ps_ctrl cfg) v.               (* vscp_ps.c:177 *)
Definition ps_readUserId (i : N) : M A N := psReadIdx (ps_user cfg) sz_user i.        (* vscp_ps.c:190 *)
Definition ps_writeUserId (i v : N) : M A unit := psWriteIdx (ps_user cfg) sz_user i v. (* vscp_ps.c:209 *)
Definition ps_readGUID (i : N) : M A N := psReadIdx (ps_guid cfg) (sz_guid cfg) i.    (* vscp_ps.c:228 *)
Definition ps_writeGUID (i v : N) : M A unit := psWriteIdx (ps_guid cfg) (sz_guid cfg) i v. (* :247 *)
Definition ps_readZone : M A N := psRead8 (ps_zone cfg).                              (* vscp_ps.c:266 *)
Definition ps_writeZone (v : N) : M A unit := psWrite8 (ps_zone cfg) v.               (* vscp_ps.c:276 *)
Definition ps_readSub : M A N := psRead8 (ps_sub cfg).                                (* vscp_ps.c:291 *)
Definition ps_writeSub (v : N) : M A unit := psWrite8 (ps_sub cfg) v.                 (* vscp_ps.c:301 *)
Definition ps_readMDev (i : N) : M A N := psReadIdx (ps_mdev cfg) (sz_mdev cfg) i.    (* vscp_ps.c:318 *)
Definition ps_writeMDev (i v : N) : M A unit := psWriteIdx (ps_mdev cfg) (sz_mdev cfg) i v. (* :337 *)
Definition ps_readMSub (i : N) : M A N := psReadIdx (ps_msub cfg) (sz_msub cfg) i.    (* vscp_ps.c:358 *)
Definition ps_writeMSub (i v : N) : M A unit := psWriteIdx (ps_msub cfg) (sz_msub cfg) i v. (* :377 *)
Definition ps_readMdf (i : N) : M A N := psReadIdx (ps_mdf cfg) (sz_mdf cfg) i.       (* vscp_ps.c:397 *)
Definition ps_writeMdf (i v : N) : M A unit := psWriteIdx (ps_mdf cfg) (sz_mdf cfg) i v. (* :416 *)
Definition ps_readFam (i : N) : M A N := psReadIdx (ps_fam cfg) (sz_fam cfg) i.       (* vscp_ps.c:437 *)
Definition ps_writeFam (i v : N) : M A unit := psWriteIdx (ps_fam cfg) (sz_fam cfg) i v. (* :456 *)
Definition ps_readType (i : N) : M A N := psReadIdx (ps_type cfg) (sz_type cfg) i.    (* vscp_ps.c:477 *)
Definition ps_writeType (i v : N) : M A unit := psWriteIdx (ps_type cfg) (sz_type cfg) i v. (* :496 *)
Definition ps_readLogId : M A N := psRead8 (ps_log cfg).                              (* vscp_ps.c:515 *)
Definition ps_writeLogId (v : N) : M A unit := psWrite8 (ps_log cfg) v.               (* vscp_ps.c:525 *)
Definition ps_readDM (i : N) : M A N := psReadIdx (ps_dm cfg) (sz_dm cfg) i.          (* vscp_ps.c:541 *)
Definition ps_writeDM (i v : N) : M A unit := psWriteIdx (ps_dm cfg) (sz_dm cfg) i v. (* vscp_ps.c:559 *)
Definition ps_readDMExt (i : N) : M A N := psReadIdx (ps_dmx cfg) (sz_dmx cfg) i.     (* vscp_ps.c:620 *)
Definition ps_writeDMExt (i v : N) : M A unit := psWriteIdx (ps_dmx cfg) (sz_dmx cfg) i v. (* :638 *)
Definition ps_readNG (i : N) : M A N := psReadIdx (ps_ng cfg) (sz_ng cfg) i.          (* vscp_ps.c:693 *)
Definition ps_writeNG (i v : N) : M A unit := psWriteIdx (ps_ng cfg) (sz_ng cfg) i v. (* vscp_ps.c:711 *)

(* vscp_ps.c:576-590 vscp_ps_readDMMultiple into a zero initialised row of 8 bytes *)
Definition ps_readDMRow (i : N) : M A (list N) :=
  if i + 8 <=? sz_dm cfg then psReadMultiple (ps_dm cfg + i) 8 else ret (repeat 0 8).
(* vscp_ps.c:597-609 vscp_ps_writeDMMultiple *)
Definition ps_writeDMMultiple (i : N) (l : list N) : M A unit :=
  when (0 <? N.of_nat (length l)) && (i + N.of_nat (length l) <=? sz_dm cfg)
  do psWriteMultiple (ps_dm cfg + i) l.
(* vscp_ps.c:654-663 vscp_ps_readDMExtensionMultiple into a zero initialised row *)
Definition ps_readDMExtRow (i : N) : M A (list N) :=
  if i + 8 <=? sz_dmx cfg then psReadMultiple (ps_dmx cfg + i) 8 else ret (repeat 0 8).
(* vscp_ps.c:671-680 vscp_ps_writeDMExtensionMultiple *)
Definition ps_writeDMExtMultiple (i : N) (l : list N) : M A unit :=
  when (i + N.of_nat (length l) <=? sz_dmx cfg) do psWriteMultiple (ps_dmx cfg + i) l.
End PS.
