(* Spec_CanArm.v - histories of the FlexCAN adapter. *)
From Verif Require Import CanArm.

Inductive FOp := FWrite (m : Msg) | FRead (old : list N) | FRx (w : Wire).
Inductive FOut := OWrite (r : FRes bool) | ORead (r : FRes (option Msg)) | ORx.
Definition fStep (f : Flex) (op : FOp) : FOut * Flex :=
  match op with
  | FWrite m => let '(r, f') := armWrite m f in (OWrite r, f')
  | FRead old => let '(r, f') := armRead old f in (ORead r, f')
  | FRx w => (ORx, flexRx w f)
  end.
Fixpoint fRun (f : Flex) (ops : list FOp) : list FOut * Flex :=
  match ops with
  | [] => ([], f)
  | op :: r => let '(o, f1) := fStep f op in let '(os, f2) := fRun f1 r in (o :: os, f2)
  end.
(* VSCP on CAN: identifier of 29 bits: priority (3), hard coded (1), class (9), type (8), nickname (8) *)
Definition armId (m : Msg) : N :=
  m_prio m * 67108864 + (if m_hard m then 33554432 else 0) + m_class m * 65536 + m_type m * 256 + m_oaddr m.
(* n calls of vscp_tp_adapter_readMessage *)
Definition polls (n : nat) : list FOp := repeat (FRead (repeat 0 8)) n.
(* number of messages they return *)
Fixpoint got (res : list FOut) : nat :=
  match res with [] => O | ORead (FOk (Some _)) :: r => S (got r) | _ :: r => got r end.
