(* Spec_EepromArm.v - a persistent memory of 256 bytes. *)
From Verif Require Import EepromArm.

(* accesses, and the end of the write cycle *)
Inductive EOp := ERead (a : N) | EWrite (a v : N) | EEnd.
Definition eStep (e : Eep) (op : EOp) : list N * Eep :=
  match op with
  | ERead a => let '(v, e') := eeRead8 a e in ([v], e')
  | EWrite a v => ([], eeWrite8 a v e)
  | EEnd => ([], cycleEnds e)
  end.
Fixpoint eRun (e : Eep) (ops : list EOp) : list N * Eep :=
  match ops with
  | [] => ([], e)
  | op :: r => let '(l, e1) := eStep e op in let '(l2, e2) := eRun e1 r in (l ++ l2, e2)
  end.
(* the values read from an ideal memory: a write changes one byte if it is below p, addresses from 256 on read as 0 *)
Fixpoint ideal (p : N) (mem : N -> N) (ops : list EOp) : list N :=
  match ops with
  | [] => []
  | ERead a :: r => (if a <=? 255 then mem a else 0) :: ideal p mem r
  | EWrite a v :: r => ideal p (fun i => if (i =? a) && (a <? N.min p 256) then v else mem i) r
  | EEnd :: r => ideal p mem r
  end.
(* no access during a write cycle: after each write (to the device) the write cycle ends first *)
Fixpoint paced (ops : list EOp) : Prop :=
  match ops with
  | [] => True
  | EWrite a _ :: r => (a <= 255 -> match r with [] => True | EEnd :: _ => True | _ => False end) /\ paced r
  | _ :: r => paced r
  end.
