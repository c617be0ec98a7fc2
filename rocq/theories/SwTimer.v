(* SwTimer.v - model of examples/avr/at90can/common/swTimer.c; the file
   examples/arm/frdm-k64f/vscp_frdm_k64f/common/swTimer.c is identical. *)
From Verif Require Export Types.

(* swTimer.c:64-71 swTimer_Context; BOOL isManual is TRUE or FALSE *)
Record SwT := mkSwT { s_start : N; s_manual : bool; s_val : N }.
(* swTimer.c:82 swTimer_timers; the length of the list is SWTIMER_NUM *)
Definition SwTs := list SwT.

(* swTimer.c:96-101 swTimer_init: memset 0 *)
Definition swInit (num : N) : SwTs := repeat (mkSwT 0 false 0) (N.to_nat num).

(* timer = &swTimer_timers[id]; change it (nothing happens if SWTIMER_NUM <= id) *)
Fixpoint swAt (ts : SwTs) (i : nat) (f : SwT -> SwT) : SwTs :=
  match ts, i with
  | [], _ => []
  | t :: r, O => f t :: r
  | t :: r, S j => t :: swAt r j f
  end.

(* swTimer.c:110-126 swTimer_start; value is an uint8_t *)
Definition swStart (ts : SwTs) (id v : N) (manual : bool) : SwTs :=
  swAt ts (N.to_nat id) (fun _ => mkSwT (u8 v) manual (u8 v)).

(* swTimer.c:133-147 swTimer_stop *)
Definition swStop (ts : SwTs) (id : N) : SwTs :=
  swAt ts (N.to_nat id) (fun t => mkSwT (s_start t) (s_manual t) 0).

(* swTimer.c:159-183 swTimer_getStatus: TRUE = stopped. The interrupt that runs swTimer_process may
   come at any point of this function: between the comparison with 0 and the assignment it finds the
   value 0 and changes nothing, so every interleaving equals one of the two orders. *)
Definition swGetStatus (ts : SwTs) (id : N) : bool * SwTs :=
  match nth_error ts (N.to_nat id) with
  | None => (true, ts)
  | Some t =>
      if s_val t =? 0 then
        (true, if s_manual t then ts
               else swAt ts (N.to_nat id) (fun t => mkSwT (s_start t) (s_manual t) (s_start t)))
      else (false, ts)
  end.

(* swTimer.c:189-204 swTimer_process *)
Definition swProcess (ts : SwTs) : SwTs :=
  map (fun t => mkSwT (s_start t) (s_manual t) (if 0 <? s_val t then s_val t - 1 else s_val t)) ts.
