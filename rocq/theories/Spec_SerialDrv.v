(* Spec_SerialDrv.v - the serial port as two queues. *)
From Verif Require Import SerialDrv.

Inductive UOp :=
| URx (d : N)                  (* a byte arrives *)
| UTxDone                      (* the transmitter has finished a byte *)
| URead                        (* serialDrv_read *)
| UWrite (d : N) (irq : bool)  (* serialDrv_write; irq: UTxDone falls into the call *)
| UClear                       (* serialDrv_clearRx *)
| UOvf.                        (* serialDrv_isRxOverflow *)
(* what the caller sees *)
Inductive URes := RNone | RRead (d : option N) | RCount (c : N) | ROvf (b : bool).

Definition uStep (u : Usart) (op : UOp) : URes * Usart :=
  match op with
  | URx d => (RNone, rxIsr d u)
  | UTxDone => (RNone, txDone u)
  | URead => let '(c, d, u') := serRead u in (RRead (if c =? 0 then None else Some d), u')
  | UWrite d irq => let '(c, u') := serWrite d irq u in (RCount c, u')
  | UClear => (RNone, serClear u)
  | UOvf => let '(b, u') := serOvf u in (ROvf b, u')
  end.
Fixpoint uRun (u : Usart) (ops : list UOp) : list URes * Usart :=
  match ops with
  | [] => ([], u)
  | op :: r => let '(o, u1) := uStep u op in let '(os, u2) := uRun u1 r in (o :: os, u2)
  end.

(* the abstract port: rx, tx: queues of capacity n and m; overflow; line: the transmitter is in use;
   out: bytes put on the line, oldest first *)
Record Port := mkPort { p_rx : list N; p_tx : list N; p_ovf : bool; p_line : bool; p_out : list N }.
Definition portInit : Port := mkPort [] [] false false [].
Definition pStep (n m : N) (p : Port) (op : UOp) : URes * Port :=
  match op with
  | URx d =>
      if N.of_nat (length (p_rx p)) <? n
      then (RNone, mkPort (p_rx p ++ [d]) (p_tx p) (p_ovf p) (p_line p) (p_out p))
      else (RNone, mkPort (p_rx p) (p_tx p) true (p_line p) (p_out p))
  | UTxDone =>
      match p_tx p with
      | [] => (RNone, mkPort (p_rx p) [] (p_ovf p) false (p_out p))
      | d :: r => (RNone, mkPort (p_rx p) r (p_ovf p) true (p_out p ++ [d]))
      end
  | URead =>
      match p_rx p with
      | [] => (RRead None, p)
      | d :: r => (RRead (Some d), mkPort r (p_tx p) (p_ovf p) (p_line p) (p_out p))
      end
  | UWrite d _ =>
      if p_line p then
        if N.of_nat (length (p_tx p)) <? m
        then (RCount 1, mkPort (p_rx p) (p_tx p ++ [d]) (p_ovf p) true (p_out p))
        else (RCount 0, p)
      (* the byte is sent, and yet the value returned is 0 *)
      else (RCount 0, mkPort (p_rx p) (p_tx p) (p_ovf p) true (p_out p ++ [d]))
  | UClear => (RNone, mkPort [] (p_tx p) (p_ovf p) (p_line p) (p_out p))
  | UOvf => (ROvf (p_ovf p), mkPort (p_rx p) (p_tx p) false (p_line p) (p_out p))
  end.
Fixpoint pRun (n m : N) (p : Port) (ops : list UOp) : list URes * Port :=
  match ops with
  | [] => ([], p)
  | op :: r => let '(o, p1) := pStep n m p op in let '(os, p2) := pRun n m p1 r in (o :: os, p2)
  end.
(* no interrupt between the test and the rest of serialDrv_write *)
Definition undisturbed (op : UOp) : Prop := match op with UWrite _ irq => irq = false | _ => True end.
(* the bytes the abstract port takes for sending: all but those written while the queue was full *)
Fixpoint taken (n m : N) (p : Port) (ops : list UOp) : list N :=
  match ops with
  | [] => []
  | op :: r =>
      (match op with
       | UWrite d _ => if negb (p_line p) || (N.of_nat (length (p_tx p)) <? m) then [d] else []
       | _ => []
       end) ++ taken n m (snd (pStep n m p op)) r
  end.
(* the bytes put on the line when 256 more bytes have got out, so that nothing waits any more *)
Definition allSent (u : Usart) : list N := u_sent (snd (uRun u (repeat UTxDone 256))).
(* the string with its characters repeated *)
Fixpoint stretch (s : list N) (ks : list nat) : list N :=
  match s, ks with d :: r, k :: t => repeat d k ++ stretch r t | _, _ => [] end.
