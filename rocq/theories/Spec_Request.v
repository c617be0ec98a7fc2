(* Spec_Request.v - vocabulary for the properties about protocol events that an active node
   receives: which part of the node's state is visible in registers and behaviour, and what else a
   process call may do besides serving the event. *)
From Verif Require Export Spec_PS Spec_Regs Spec_Transport.

Section Req.
Context {A : Type} {E : Env A}.
Implicit Types w : World A.

(* everything that determines the reaction to protocol events, except for the adapter: node state,
   nickname, register contents, timers (other than the one second timer of the time since epoch),
   persistent memory and the application *)
Definition visible w :=
  (w_st w, w_ist w, w_nick w, w_probe w, w_page w, w_alarm w, w_hbEn w, w_sec w, w_rreq w,
   (w_xpage w, w_xaddr w, w_xcount w, w_xseq w), w_guidSt w, (w_tSt w, w_tGuid w, w_t162 w, w_tEp w, w_tHb w),
   w_ps w, w_dmIdx w, w_app w, length (w_tm w)).
Definition same w w' : Prop :=
  visible w = visible w' /\ forall id, id <> w_tEp w -> nth_error (w_tm w) (N.to_nat id) = nth_error (w_tm w') (N.to_nat id).

(* With VSCP_CONFIG_ENABLE_PROTOCOL_EVENT the application sees every protocol event first and may
   claim it. unclaimed: it does not claim m and makes no API calls. *)
Definition unclaimed w (m : Msg) : Prop := c_prot_ev cfg = true -> fst (app_prot (w_app w, w_ps w) m) = (false, []).
(* claims: it claims m, and makes no API calls either *)
Definition claims w (m : Msg) : Prop := c_prot_ev cfg = true /\ fst (app_prot (w_app w, w_ps w) m) = (true, []).
Definition notice (m : Msg) : list Obs := if c_prot_ev cfg then [OProtEvent m] else [].
Definition heard w (m : Msg) : World A := if c_prot_ev cfg then set_app (snd (app_prot (w_app w, w_ps w) m)) w else w.

(* a process call may also execute actions of the decision matrix, send a heartbeat and continue an
   extended page read *)
Definition heartbeatDue w : bool := c_hb_node cfg && w_hbEn w && negb (timerRunning (w_tm w) (w_tHb w)).
Definition readPending w : bool := 0 <? w_xcount w.
Definition quiet w w' : Prop := actions (effects w w') = [] /\ heartbeatDue w = false /\ readPending w = false.

(* the process call from w to w' receives the protocol event m of type ty with the payload data *)
Definition receives w w' (m : Msg) (ty : N) (data : list N) : Prop :=
  taken (effects w w') = [m] /\ m_class m = 0 /\ m_type m = ty /\ payload m = data /\ unclaimed w m.

(* a node in a reachable active state w, in its next process call (in which the adapter delivers rd),
   receives the protocol event m of type ty with the payload data; after: the state after that call *)
Definition after w (rd : option Msg) : World A := snd (step (OpProcess rd) w).
Definition request w rd (m : Msg) (ty : N) (data : list N) : Prop :=
  reachable w /\ op_wf (OpProcess rd) /\ isActive w = true /\ receives w (after w rd) m ty data.

(* a protocol frame sent by the node *)
Definition protFrame (f : Msg) (ty prio nick : N) (data : list N) : Prop :=
  m_class f = 0 /\ m_type f = ty /\ m_prio f = prio /\ m_oaddr f = nick /\ m_hard f = c_hard cfg /\ payload f = data.

(* Serving the received event m has exactly the effects l and leaves the node in the state w1
   (up to the transport layer and the time since epoch). The process call begins with the reception; whatever
   follows on serving the event is left open, unless the call is quiet: then there is nothing else. *)
Definition served w w' (m : Msg) (l : list Obs) w1 : Prop :=
  exists rest, effects w w' = OProcess :: ORx m :: notice m ++ l ++ rest /\
    (quiet w w' -> rest = [ORet true] /\ same w' w1).

(* the protocol events that the framework reacts to, by whom they address:
   first data byte: SET_NICKNAME, DROP_NICKNAME, READ_REGISTER, WRITE_REGISTER, ENTER_BOOT_LOADER, PAGE_READ, PAGE_WRITE,
   INCREMENT_REGISTER, DECREMENT_REGISTER, GET_MATRIX_INFO, EXTENDED_PAGE_READ, EXTENDED_PAGE_WRITE;
   first data byte, or 0xFF for everybody: WHO_IS_THERE; the probed nickname: NEW_NODE_ONLINE; the sender: PROBE_ACK;
   everybody: SEGCTRL_HEARTBEAT; the node with a certain GUID: RESET_DEVICE *)
Definition addressed : list N := [6; 8; 9; 11; 12; 24; 25; 29; 30; 33; 37; 38].
Definition handledTypes : list N := [1; 2; 3; 23; 31] ++ addressed.
Definition notFor (nick : N) (m : Msg) : Prop :=
  (In (m_type m) addressed /\ hd_error (payload m) <> Some nick) \/
  (m_type m = 31 /\ hd_error (payload m) <> Some nick /\ hd_error (payload m) <> Some 255) \/
  (m_type m = 2 /\ hd_error (payload m) <> Some nick) \/
  (m_type m = 3 /\ m_oaddr m <> nick) \/
  ~ In (m_type m) handledTypes.

(* -- the VSCP registers 0x80 to 0xFF of page 0 (vscp_types.h:205-260, VSCP specification) -- *)
(* byte k of the GUID, most significant first *)
Definition guidByte w (k : N) : N :=
  if d_guid_ps cfg then stored w FGuid (15 - k)
  else if d_guid_ext cfg then app_guid (w_app w) (15 - k) mod 256
  else nth (N.to_nat k) (d_guid cfg) 0.
(* character k of the MDF URL *)
Definition mdfByte w (k : N) : N := if d_mdf_ps cfg then stored w FMdf k else nth (N.to_nat k) (d_mdf cfg) 0.
(* byte k of a manufacturer id, in the byte order of the host *)
Definition idByte (fromPs : bool) w f (id k : N) : N :=
  if fromPs then stored w f k else id / 2 ^ (8 * (if c_le cfg then k else 3 - k)) mod 256.
(* all registers except for 0x9A to 0xA1 (family code and device type, property C13) *)
Definition vscpRegister w (a : N) : N :=
  if a =? 128 then w_alarm w                                                  (* alarm *)
  else if a =? 129 then 1 else if a =? 130 then 13                            (* VSCP version *)
  else if a =? 131 then stored w FCtrl 0                                      (* node control flags *)
  else if (132 <=? a) && (a <=? 136) then stored w FUser (a - 132)            (* user id *)
  else if (137 <=? a) && (a <=? 140) then idByte (d_mdev_ps cfg) w FMDev (d_mdev cfg) (a - 137)
  else if (141 <=? a) && (a <=? 144) then idByte (d_msub_ps cfg) w FMSub (d_msub cfg) (a - 141)
  else if a =? 145 then w_nick w                                              (* nickname *)
  else if a =? 146 then w_page w / 256 mod 256                                (* page select *)
  else if a =? 147 then w_page w mod 256
  else if a =? 148 then d_vmaj cfg else if a =? 149 then d_vmin cfg else if a =? 150 then d_vsub cfg
  else if a =? 151 then (if c_boot cfg then app_boot_alg (w_app w) mod 256 else 255)
  else if a =? 152 then 8                                                     (* buffer size *)
  else if a =? 153 then app_pages (w_app w) mod 256                           (* pages used *)
  else if a =? 163 then d_fwcode cfg / 256 mod 256 else if a =? 164 then d_fwcode cfg mod 256
  else if (208 <=? a) && (a <=? 223) then guidByte w (a - 208)
  else if 224 <=? a then mdfByte w (a - 224)
  else 0.

(* -- writing a register of page 0 -- *)
(* the registers that can be written: node control flags, user id, page select; and the registers below 0x80 that are
   a window on the memory of the decision logic, unless they are write protected *)
Definition cellReg w (a : N) (f : Field) (k : N) : Prop :=
  (a = 131 /\ f = FCtrl /\ k = 0) \/ (132 <= a <= 136 /\ f = FUser /\ k = a - 132) \/
  (a < 128 /\ In f [FDm; FDmx; FNg] /\ k < fieldLen cfg f /\ isWindowOn 0 a f k /\ writable w).
Definition writableReg w (a : N) : Prop := a = 146 \/ a = 147 \/ exists f k, cellReg w a f k.
(* what the register holds *)
Definition holds w (a : N) (x : N) : Prop :=
  (128 <= a /\ x = vscpRegister w a) \/ (a < 128 /\ exists f k, isWindowOn 0 a f k /\ x = stored w f k).
(* byte k of field f becomes v and nothing else changes *)
Definition stores w (f : Field) (k v : N) w1 : Prop :=
  onlyMemory w w1 /\ forall g j, j < fieldLen cfg g -> stored w1 g j = if field_eqb f g && (k =? j) then v else stored w g j.
(* writing v has the effects l and leads to w1 *)
Definition wrote w (a v : N) (l : list Obs) w1 : Prop :=
  (a = 146 /\ l = [] /\ w1 = set_page (256 * v + w_page w mod 256) w) \/
  (a = 147 /\ l = [] /\ w1 = set_page (256 * (w_page w / 256) + v) w) \/
  (exists f k x, cellReg w a f k /\ l = [OPs x v] /\ stores w f k v w1).
End Req.
