(* DevData.v - model of src/vscp_dev_data.c.  vscp_dev_data_init (84) has no effect. *)
From Verif Require Export PS.

Section DevData.
Context {A : Type} {E : Env A}.

(* ((const uint8_t* )&x)[i] of an uint32_t on this host *)
Definition hostByte (x i : N) : N := byteN x (if c_le cfg then i else 3 - i).

(* vscp_dev_data.c:94-228 vscp_dev_data_restoreFactoryDefaultSettings *)
Definition dd_restore : M A unit :=
  (when d_guid_ps cfg do                                                       (* :96-110 *)
     forM (Nseq (sz_guid cfg)) (fun i => ps_writeGUID (sz_guid cfg - i - 1) (at0 (d_guid cfg) i))) ;;
  (when d_zone_ps cfg do ps_writeZone (d_zone cfg)) ;;                         (* :112-117 *)
  (when d_sub_ps cfg do ps_writeSub (d_sub cfg)) ;;                            (* :119-124 *)
  (when d_mdev_ps cfg do                                                       (* :126-139 *)
     forM (Nseq (sz_mdev cfg)) (fun i => ps_writeMDev i (hostByte (d_mdev cfg) i))) ;;
  (when d_msub_ps cfg do                                                       (* :141-154 *)
     forM (Nseq (sz_msub cfg)) (fun i => ps_writeMSub i (hostByte (d_msub cfg) i))) ;;
  (when d_mdf_ps cfg do                                                        (* :156-183; at0 is 0 from the
                                                 terminating zero on *)
     forM (Nseq (sz_mdf cfg)) (fun i => ps_writeMdf i (at0 (d_mdf cfg) i))) ;;
  (when d_family cfg && d_fam_ps cfg do                                        (* :187-203 *)
     forM (Nseq (sz_fam cfg)) (fun i => ps_writeFam i (N.land (N.shiftr (d_fam cfg) i) 255))) ;;
  (when d_family cfg && d_type_ps cfg do                                       (* :205-221 *)
     forM (Nseq (sz_type cfg)) (fun i => ps_writeType i (N.land (N.shiftr (d_type cfg) i) 255))).

(* vscp_dev_data.c:235-259 vscp_dev_data_getGUID *)
Definition dd_getGUID (i : N) : M A N :=
  if d_guid_ps cfg then ps_readGUID i
  else if d_guid_ext cfg then get (fun w => u8 (app_guid (w_app w) i))
  else ret (if i <? N.of_nat (length (d_guid cfg))
            then at0 (d_guid cfg) (N.of_nat (length (d_guid cfg)) - i - 1) else 0).
(* vscp_dev_data.c:267-278 *)
Definition dd_getZone : M A N := if d_zone_ps cfg then ps_readZone else ret (d_zone cfg).
(* vscp_dev_data.c:285-296 *)
Definition dd_getSubZone : M A N := if d_sub_ps cfg then ps_readSub else ret (d_sub cfg).
(* vscp_dev_data.c:305-324 *)
Definition dd_getMDev (i : N) : M A N :=
  if d_mdev_ps cfg then ps_readMDev i else ret (if i <? 4 then hostByte (d_mdev cfg) i else 0).
(* vscp_dev_data.c:333-352 *)
Definition dd_getMSub (i : N) : M A N :=
  if d_msub_ps cfg then ps_readMSub i else ret (if i <? 4 then hostByte (d_msub cfg) i else 0).
(* vscp_dev_data.c:360-386; the scan up to the terminating zero finds character i or nothing *)
Definition dd_getMdf (i : N) : M A N :=
  if d_mdf_ps cfg then ps_readMdf i else ret (at0 (d_mdf cfg) i).
(* vscp_dev_data.c:426-452 vscp_dev_data_getStdDevFamilyCode *)
Definition dd_getFam (i : N) : M A N :=
  if d_family cfg then
    v <- (if d_fam_ps cfg then ps_readFam i
          else ret (N.land (N.shiftr (d_fam cfg) i) 255)) ;;
    ret (if v =? 255 then 0 else v)
  else ret 0.
(* vscp_dev_data.c:462-488 vscp_dev_data_getStdDevType *)
Definition dd_getType (i : N) : M A N :=
  if d_family cfg then
    v <- (if d_type_ps cfg then ps_readType i
          else ret (N.land (N.shiftr (d_type cfg) i) 255)) ;;
    ret (if v =? 255 then 0 else v)
  else ret 0.
End DevData.
