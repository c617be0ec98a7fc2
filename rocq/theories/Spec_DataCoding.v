(* Spec_DataCoding.v - vocabulary for the normalised integer coding. *)
From Verif Require Import DataCoding.

(* k is the least number of payload bytes (at least one) whose signed range contains |d| *)
Definition leastPayload (d : Z) (k : N) : Prop :=
  1 <= k /\ (Z.abs d < 2 ^ (8 * Z.of_N k - 1))%Z /\
  forall j, 1 <= j -> (Z.abs d < 2 ^ (8 * Z.of_N j - 1))%Z -> k <= j.

(* value of a byte string, most significant byte first *)
Definition bigEndian (l : list N) : N := fold_left (fun acc b => 256 * acc + b) l 0.
