(* Spec_Turns.v - specification: the decision matrix and the rule set are evaluated step by step, while the
   application's actions may change the persistent memory (properties C15, C16, C21, C22) *)
From Verif Require Export Spec_NG.

Section Turns.
Context {A : Type} {E : Env A}.
(* w only gives the type of the states; the memory is ps *)
Variable w : World A.
Variable m : Msg.

(* The effects l of evaluating the given rows of the matrix for the event m, beginning with memory ps: row after row, the
   action of the row is executed once, iff it matches in the memory of that moment. An action may have any effects e
   other than actions. *)
Inductive rowsRun : list N -> (N -> N) -> list Obs -> Prop :=
| rows_end ps : rowsRun [] ps []
| rows_skip i rows ps l : rowActions (inMem ps w) m i = [] -> rowsRun rows ps l -> rowsRun (i :: rows) ps l
| rows_act i rows ps a p e l : rowActions (inMem ps w) m i = [(a, p, m)] -> actions e = [] ->
    rowsRun rows (memAfter ps e) l -> rowsRun (i :: rows) ps (OAction a p m :: e ++ l).

(* The same for n rules from offset o of the rule set on; acts are the actions of a rule, prev is the rule before. A rule
   that announces more than 40 bytes ends the rule set, a rule of size 0 stands for the rule before. *)
Inductive rulesRun (acts : Msg -> list N -> list (N * N * Msg)) : nat -> N -> list N -> (N -> N) -> list Obs -> Prop :=
| rules_end o prev ps : rulesRun acts 0 o prev ps []
| rules_long n o prev ps : 40 < ngByte (inMem ps w) o -> rulesRun acts (S n) o prev ps []
| rules_next n o prev ps r l1 l2 :
    ngByte (inMem ps w) o <= 40 ->
    r = (if ngByte (inMem ps w) o =? 0 then prev else map (fun j => ngByte (inMem ps w) (o + j)) (Nseq (ngByte (inMem ps w) o))) ->
    (acts m r = [] /\ l1 = [] \/ exists a p e, acts m r = [(a, p, m)] /\ l1 = OAction a p m :: e /\ actions e = []) ->
    rulesRun acts n (o + ngByte (inMem ps w) o) r (memAfter ps l1) l2 ->
    rulesRun acts (S n) o prev ps (l1 ++ l2).
End Turns.

(* no event or protocol event is given to the application *)
Definition noEvent (o : Obs) : Prop := match o with OEvent _ | OProtEvent _ => False | _ => True end.
(* the memory is not written and the application makes no API call *)
Definition noWrite (o : Obs) : Prop := match o with OPs _ _ | OApi _ => False | _ => True end.
