(* Spec_Util.v - what a user expects from the cyclic buffer: a bounded FIFO queue. *)
From Verif Require Import Util.

(* ---- one element at a time ---- *)
Inductive QOp (T : Type) := QRead | QWrite (x : T).
Arguments QRead {T}. Arguments QWrite {T}.
(* what the caller sees: the element read (if any), or whether the write was accepted *)
Inductive QOut (T : Type) := QGot (x : option T) | QDone (ok : bool).
Arguments QGot {T}. Arguments QDone {T}.

(* the abstract queue of capacity cap *)
Definition queueStep {T} (cap : nat) (q : list T) (op : QOp T) : QOut T * list T :=
  match op with
  | QRead => match q with [] => (QGot None, []) | x :: r => (QGot (Some x), r) end
  | QWrite x => if Nat.ltb (length q) cap then (QDone true, q ++ [x]) else (QDone false, q)
  end.
Fixpoint queueRun {T} (cap : nat) (q : list T) (ops : list (QOp T)) : list (QOut T) :=
  match ops with
  | [] => []
  | op :: r => let '(o, q') := queueStep cap q op in o :: queueRun cap q' r
  end.

(* the code: cyclicBufferRead(b, &e, 1) / cyclicBufferWrite(b, &e, 1) *)
Definition cbStep {T} (b : CBuf T) (op : QOp T) : UB (QOut T * CBuf T) :=
  match op with
  | QRead => match cbRead b 1 with
             | Ok ([x], b') => Ok (QGot (Some x), b')
             | Ok ([], b') => Ok (QGot None, b')
             | _ => Undef
             end
  | QWrite x => match cbWrite b [x] with
                | Ok (n, b') => Ok (QDone (n =? 1), b')
                | Undef => Undef
                end
  end.
Fixpoint cbRun {T} (b : CBuf T) (ops : list (QOp T)) : UB (list (QOut T) * CBuf T) :=
  match ops with
  | [] => Ok ([], b)
  | op :: r =>
      match cbStep b op with
      | Undef => Undef
      | Ok (o, b') => match cbRun b' r with Undef => Undef | Ok (os, b'') => Ok (o :: os, b'') end
      end
  end.

(* ---- blocks of elements ---- *)
Inductive BOp (T : Type) := BRead (n : N) | BWrite (es : list T).
Arguments BRead {T}. Arguments BWrite {T}.
(* elements read, or number of elements accepted *)
Inductive BOut (T : Type) := BGot (es : list T) | BAccepted (n : nat).
Arguments BGot {T}. Arguments BAccepted {T}.

Definition blkQueueStep {T} (cap : nat) (q : list T) (op : BOp T) : BOut T * list T :=
  match op with
  | BRead n => (BGot (firstn (N.to_nat n) q), skipn (N.to_nat n) q)
  | BWrite es => let k := Nat.min (length es) (cap - length q) in
                 (BAccepted k, q ++ firstn k es)
  end.
Fixpoint blkQueueRun {T} (cap : nat) (q : list T) (ops : list (BOp T)) : list (BOut T) * list T :=
  match ops with
  | [] => ([], q)
  | op :: r => let '(o, q1) := blkQueueStep cap q op in
               let '(os, q2) := blkQueueRun cap q1 r in (o :: os, q2)
  end.

Definition blkStep {T} (b : CBuf T) (op : BOp T) : UB (BOut T * CBuf T) :=
  match op with
  | BRead n => match cbRead b n with Ok (es, b') => Ok (BGot es, b') | Undef => Undef end
  | BWrite es => match cbWrite b es with Ok (n, b') => Ok (BAccepted (N.to_nat n), b') | Undef => Undef end
  end.
Fixpoint blkRun {T} (b : CBuf T) (ops : list (BOp T)) : UB (list (BOut T) * CBuf T) :=
  match ops with
  | [] => Ok ([], b)
  | op :: r =>
      match blkStep b op with
      | Undef => Undef
      | Ok (o, b') => match blkRun b' r with Undef => Undef | Ok (os, b'') => Ok (o :: os, b'') end
      end
  end.
