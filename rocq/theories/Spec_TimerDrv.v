(* Spec_TimerDrv.v - the timer driver as seen by its users (property C81) *)
From Verif Require Export TimerDrv.

(* k overflow interrupts; the number of calls of the callback *)
Fixpoint overflows (k : nat) (d : Drv) : Drv := match k with O => d | S j => overflows j (snd (drvIsr d)) end.
Fixpoint callbacks (k : nat) (d : Drv) : N :=
  match k with O => 0 | S j => (if fst (drvIsr d) then 1 else 0) + callbacks j (snd (drvIsr d)) end.

(* timerDrv_sleep(n) called at the counter value t. A schedule lists, for every read of the counter after the first one, how many ticks
   have passed since the read before. el is the number of ticks since the first read; the answer is that number at the time the
   function returns, None if it is still waiting at the end of the schedule. *)
Fixpoint sleeping (n t el : N) (s : Slp) (gaps : list N) : option N :=
  match s, gaps with
  | SlpDone, _ => Some el
  | _, [] => None
  | _, g :: r => sleeping n t (el + g) (slpRead n ((t + (el + g)) mod 256) s) r
  end.
Definition sleep (n t : N) (gaps : list N) : option N := sleeping n t 0 (slpRead n t SlpBegin) gaps.
Definition total (gaps : list N) : N := fold_right N.add 0 gaps.

(* the reads are faster than the ticks: no two ticks during three successive reads *)
Fixpoint brisk (gaps : list N) : Prop :=
  match gaps with
  | g :: r => g <= 1 /\ match r with h :: _ => g + h <= 1 | [] => True end /\ brisk r
  | [] => True
  end.
