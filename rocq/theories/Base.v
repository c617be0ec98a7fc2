(* Base.v - bytes, fixed width arithmetic, checked arrays.
   Not a model of one particular file: this is the vocabulary in which the C
   integer types of /repo/src (uint8_t, uint16_t, uint32_t, arrays) are written. *)
From Coq Require Export List NArith ZArith Bool Lia.
From Coq Require Export ZifyBool ZifyNat ZifyN.
Export ListNotations.
Open Scope N_scope.

Ltac Zify.zify_post_hook ::= Z.div_mod_to_equations.

(* C: conversion to uint8_t / uint16_t / uint32_t (reduction modulo 2^n). *)
Definition u8  (x : N) : N := x mod 256.
Definition u16 (x : N) : N := x mod 65536.
Definition u32 (x : N) : N := x mod 4294967296.

(* C: (x & (1 << n)) != 0 *)
Definition bitset (x n : N) : bool := N.testbit x n.

(* C: a[i]; None is an out-of-bounds access. *)
Definition aget {T} (l : list T) (i : N) : option T := nth_error l (N.to_nat i).
(* a[i] for an index the caller has checked; 0 when out of bounds. *)
Definition at0 (l : list N) (i : N) : N := nth (N.to_nat i) l 0.

(* C: a[i] = v; None is an out-of-bounds access. *)
Fixpoint lset {T} (l : list T) (i : nat) (v : T) : option (list T) :=
  match l, i with
  | [], _ => None
  | _ :: t, O => Some (v :: t)
  | h :: t, S j => match lset t j v with Some t' => Some (h :: t') | None => None end
  end.
Definition aset {T} (l : list T) (i : N) (v : T) : option (list T) := lset l (N.to_nat i) v.

(* [0; 1; ...; n-1] *)
Definition Nseq (n : N) : list N := map N.of_nat (seq 0 (N.to_nat n)).
(* [a; a+1; ...; a+n-1] *)
Definition Nrange (a n : N) : list N := map (fun i => a + N.of_nat i) (seq 0 (N.to_nat n)).

(* byte k of a 32 bit value, k = 0 is the least significant byte *)
Definition byteN (x k : N) : N := N.land (N.shiftr x (8 * k)) 255.

(* all elements are bytes *)
Definition bytes (l : list N) : Prop := Forall (fun x => x < 256) l.
