(* Spec_DM.v - when a row of the standard decision matrix matches an event.
   Row layout (8 bytes): 0 originating address, 1 flags, 2 class mask, 3 class filter, 4 type
   mask, 5 type filter, 6 action, 7 action parameter. Extension row: 0 zone, 1 sub-zone,
   2..5 expected data bytes 0, 3, 4, 5, 6 action, 7 action parameter. *)
From Verif Require Export Spec_PS Spec_Zone.

Section DMSpec.
Context {A : Type} {E : Env A}.
Variable w : World A.          (* where the matrix is stored *)
Variable m : Msg.              (* the event *)

(* byte j of row i, of the matrix and of its extension *)
Definition dmByte (i j : N) : N := stored w FDm (8 * i + j).
Definition dmxByte (i j : N) : N := stored w FDmx (8 * i + j).
Definition flag (i bit : N) : bool := N.testbit (dmByte i 1) bit.
(* byte k of the event *)
Definition evByte (k : N) : N := nth (N.to_nat k) (payload m) 0.
(* byte k of the buffer the event was received into; behind the payload it is whatever was left there *)
Definition bufByte (k : N) : N := nth (N.to_nat k) (m_data m) 0.
(* the zone and sub-zone of the node *)
Definition nodeZone : N := if d_zone_ps cfg then stored w FZone 0 else d_zone cfg.
Definition nodeSubZone : N := if d_sub_ps cfg then stored w FSub 0 else d_sub cfg.

(* the row delegates to its extension row *)
Definition isExtended (i : N) : bool := c_dm_ext cfg && (dmByte i 6 =? 255).
(* zone z of the event addresses zone z' *)
Definition addresses (z z' : N) : bool := (z =? 255) || (z =? z').
(* the conditions of a row *)
Definition rowMatches (i : N) : bool :=
  let zone := if isExtended i then dmxByte i 0 else nodeZone in
  let sub := if isExtended i then dmxByte i 1 else nodeSubZone in
  let classMask := dmByte i 2 + (if flag i 1 then 256 else 0) in
  let classFilter := dmByte i 3 + (if flag i 0 then 256 else 0) in
  flag i 7 &&
  implb (flag i 6) (m_oaddr m =? dmByte i 0) &&
  implb (flag i 5) (m_hard m) &&
  implb (flag i 4) (match zonePosition (m_class m) (m_type m) with
                    | Some k => addresses (bufByte k) zone | None => false end) &&
  implb (flag i 3) (match zonePosition (m_class m) (m_type m) with
                    | Some k => addresses (bufByte (k + 1)) sub | None => false end) &&
  ((classMask =? 0) || (N.land (m_class m) classMask =? classFilter)) &&
  ((dmByte i 4 =? 0) || (N.land (m_type m) (dmByte i 4) =? dmByte i 5)).
(* the additional conditions of an extension row: (bit of the action parameter, data byte,
   byte of the extension row) *)
Definition extMatches (i : N) : bool :=
  forallb (fun '(bit, k, j) => implb (N.testbit (dmByte i 7) bit) ((k <? m_size m) && (evByte k =? dmxByte i j)))
          [(0, 0, 2); (1, 3, 3); (2, 4, 4); (3, 5, 5)].
(* the action of row i for the event *)
Definition rowActions (i : N) : list (N * N * Msg) :=
  if negb (dmByte i 6 =? 0) && rowMatches i then
    if isExtended i then (if extMatches i then [(dmxByte i 6, dmxByte i 7, m)] else [])
    else [(dmByte i 6, dmByte i 7, m)]
  else [].
Definition matrixActions : list (N * N * Msg) := flat_map rowActions (Nseq (c_dm_rows cfg)).
End DMSpec.

(* the same for applications whose actions rewrite the matrix or the zone of the node: every row is looked at
   in the state that the actions of the rows before it have left *)
Fixpoint rowsInTurn {A} {E : Env A} (m : Msg) (rows : list N) (w : World A) : list (N * N * Msg) :=
  match rows with
  | [] => []
  | i :: rest =>
      rowActions w m i ++
      rowsInTurn m rest (fold_left (fun w a => snd (actionExecute (fst (fst a)) (snd (fst a)) (snd a) w)) (rowActions w m i) w)
  end.

(* the event contains the zone bytes its class and type promise *)
Definition zoneComplete (m : Msg) : Prop :=
  forall k, zonePosition (m_class m) (m_type m) = Some k -> k + 2 <= m_size m.
(* the events are equal on the wire *)
Definition onWire (m1 m2 : Msg) : Prop :=
  m_prio m1 = m_prio m2 /\ m_class m1 = m_class m2 /\ m_type m1 = m_type m2 /\ m_oaddr m1 = m_oaddr m2 /\ m_hard m1 = m_hard m2 /\
  m_size m1 = m_size m2 /\ payload m1 = payload m2.
(* the application's actions do not rewrite the matrix or the node's zone while it is evaluated *)
Definition leavesMatrix (c : ApiCall) : Prop :=
  match c with ARestore | AWriteZone _ | AWriteSubZone _ => False | _ => True end.
