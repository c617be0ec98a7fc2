(* Spec_Zone.v - where an event carries its zone, as a table of numbers.
   (class, first type, last type, position of the zone byte); the sub-zone follows it.
   Everything else, and type 0 of every class, has no zone. *)
From Verif Require Import Util.

Definition zoneTable : list (N * N * N * N) :=
  [ (1, 1, 255, 1);      (* alarm *)
    (2, 1, 255, 1);      (* security *)
    (20, 1, 35, 1);      (* information *)
    (20, 37, 37, 1);
    (20, 38, 39, 0);     (*   stream data with zone, confirm *)
    (20, 40, 255, 1);
    (30, 1, 16, 1);      (* control *)
    (30, 20, 24, 1);
    (30, 26, 255, 1);
    (50, 1, 255, 1);     (* AOL *)
    (65, 1, 255, 1);     (* measurement with zone *)
    (85, 1, 255, 1);     (* set value with zone *)
    (90, 1, 255, 1);     (* weather *)
    (95, 1, 255, 1);     (* weather forecast *)
    (100, 4, 4, 1);      (* phone: answer *)
    (102, 1, 5, 1);      (* display *)
    (102, 7, 255, 1);
    (110, 48, 49, 1);    (* remote: abstract, mapito *)
    (506, 1, 255, 1);    (* diagnostic *)
    (508, 1, 255, 1)     (* error *)
  ].

Fixpoint zoneLookup (t : list (N * N * N * N)) (cls ty : N) : option N :=
  match t with
  | [] => None
  | (c, lo, hi, pos) :: r =>
      if (cls =? c) && (lo <=? ty) && (ty <=? hi) then Some pos else zoneLookup r cls ty
  end.
(* position of the zone byte of an event, None = no zone *)
Definition zonePosition (cls ty : N) : option N := zoneLookup zoneTable cls ty.
