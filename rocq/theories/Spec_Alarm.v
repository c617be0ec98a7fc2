(* Spec_Alarm.v - the bits of the alarm status, register 0x80 *)
From Verif Require Export Spec_Node.

(* the byte of a frame that reports bit b of the alarm status: register response for register 0x80, extended page response that covers
   register 0x80 of page 0; a page response does not name its registers, there any data byte counts *)
Definition reports (b : N) (m : Msg) : bool :=
  let d i := nth (N.to_nat i) (m_data m) 0 in
  (m_class m =? 0) &&
  (((m_type m =? 10) && (d 0 =? 128) && N.testbit (d 1) b) ||
   ((m_type m =? 26) && existsb (fun x => N.testbit x b) (tl (m_data m))) ||
   ((m_type m =? 39) && (d 1 =? 0) && (d 2 =? 0) && (d 3 <=? 128) && (4 + 128 - d 3 <? m_size m) && N.testbit (d (4 + 128 - d 3)) b)).
(* increment or decrement of register 0x80 *)
Definition countsAlarm (m : Msg) : bool := (m_class m =? 0) && ((m_type m =? 29) || (m_type m =? 30)) && (nth 1 (m_data m) 0 =? 128).
(* whether bit b has been raised and not been reported since, x: at the beginning, l: the effects since then. A factory restore withdraws alarms. *)
Fixpoint pending (b : N) (x : bool) (l : list Obs) : bool :=
  match l with
  | [] => x
  | OApi (AAlarm v) :: r => pending b (x || N.testbit v b) r
  | OTx m _ :: r => pending b (x && negb (reports b m)) r
  | OAppRestore :: r => pending b false r
  | _ :: r => pending b x r
  end.
(* bit b is raised by the application during l *)
Definition raised (b : N) (l : list Obs) : Prop := exists v, In (OApi (AAlarm v)) l /\ N.testbit v b = true.
