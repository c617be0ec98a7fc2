(* Spec_NG.v - meaning of the rules of the decision matrix next generation, after the grammar in
   vscp_dm_ng.h:42-54: a rule set is a count followed by that many rules; a rule is its size, an
   action, an action parameter and a list of conditions. *)
From Verif Require Export Spec_PS Spec_DM.

(* what a condition looks at: a field of the event or one of its data bytes *)
Inductive Par := PNone | PClass | PType | POaddr | PHard | PPriority | PZone | PSubZone | PDataNum
               | PByte (k : N)      (* k < 7 *)
               | PByteAt (k : N).
Inductive Cmp := Never | Equal | Lower | Greater | LowerEqual | GreaterEqual | Mask.
Record Cond := mkCond { cd_cmp : Cmp; cd_par : Par; cd_value : N }.
Inductive Expr := Last (c : Cond) | And (c : Cond) (e : Expr) | Or (c : Cond) (e : Expr).
Record Rule := mkRule { ru_action : N; ru_par : N; ru_expr : Expr }.

(* ---- meaning ---- *)
Definition dataByte (m : Msg) (k : N) : N := nth (N.to_nat k) (payload m) 0.
Definition parOf (m : Msg) (p : Par) : N :=
  match p with
  | PNone => 0
  | PClass => m_class m
  | PType => m_type m
  | POaddr => m_oaddr m
  | PHard => if m_hard m then 1 else 0
  | PPriority => m_prio m
  | PZone => match zonePosition (m_class m) (m_type m) with Some k => bufByte m k | None => 255 end
  | PSubZone => match zonePosition (m_class m) (m_type m) with Some k => bufByte m (k + 1) | None => 255 end
  | PDataNum => m_size m
  | PByte k | PByteAt k => dataByte m k
  end.
Definition condHolds (m : Msg) (c : Cond) : bool :=
  let x := parOf m (cd_par c) in
  let v := cd_value c in
  match cd_cmp c with
  | Never => false
  | Equal => x =? v
  | Lower => x <? v
  | Greater => v <? x
  | LowerEqual => x <=? v
  | GreaterEqual => v <=? x
  | Mask => negb (N.land x v =? 0)
  end.
Fixpoint holds (m : Msg) (e : Expr) : bool :=
  match e with
  | Last c => condHolds m c
  | And c r => condHolds m c && holds m r
  | Or c r => condHolds m c || holds m r
  end.

(* ---- representation ---- *)
Definition cmpCode (c : Cmp) : N :=
  match c with Never => 0 | Equal => 1 | Lower => 2 | Greater => 3 | LowerEqual => 4 | GreaterEqual => 5 | Mask => 6 end.
Definition parCode (p : Par) : list N :=
  match p with
  | PNone => [0] | PClass => [1] | PType => [2] | POaddr => [3] | PHard => [4] | PPriority => [5] | PZone => [6]
  | PSubZone => [7] | PDataNum => [8] | PByte k => [9 + k] | PByteAt k => [16; k]
  end.
Definition valueCode (p : Par) (v : N) : list N :=
  match p with PClass => [v / 256; v mod 256] | _ => [v] end.
Definition condCode (logic : N) (c : Cond) : list N :=
  (logic + cmpCode (cd_cmp c)) :: parCode (cd_par c) ++ valueCode (cd_par c) (cd_value c).
Fixpoint exprCode (e : Expr) : list N :=
  match e with
  | Last c => condCode 0 c
  | And c r => condCode 16 c ++ exprCode r
  | Or c r => condCode 32 c ++ exprCode r
  end.
Definition ruleCode (r : Rule) : list N :=
  (3 + N.of_nat (length (exprCode (ru_expr r)))) :: ru_action r :: ru_par r :: exprCode (ru_expr r).
Definition ruleSetCode (rs : list Rule) : list N := N.of_nat (length rs) :: concat (map ruleCode rs).

(* a rule the format can represent; a rule has at most 40 bytes *)
Definition condOk (c : Cond) : Prop :=
  match cd_par c with PByte k => k < 7 | PByteAt k => k < 256 | _ => True end /\
  cd_value c < match cd_par c with PClass => 65536 | _ => 256 end.
Fixpoint exprOk (e : Expr) : Prop :=
  match e with Last c => condOk c | And c r | Or c r => condOk c /\ exprOk r end.
Definition ruleOk (r : Rule) : Prop :=
  ru_action r < 256 /\ ru_par r < 256 /\ exprOk (ru_expr r) /\ (length (ruleCode r) <= 40)%nat.

(* the actions of a rule set for an event: those of the rules that hold, in order; action 0 is "no
   operation" *)
Definition ruleActions (m : Msg) (r : Rule) : list (N * N * Msg) :=
  if negb (ru_action r =? 0) && holds m (ru_expr r) then [(ru_action r, ru_par r, m)] else [].

Section NG.
Context {A : Type} {E : Env A}.
(* byte i of the stored rule set *)
Definition ngByte (w : World A) (i : N) : N := stored w FNg i.
(* the node stores the rule set rs *)
Definition storesRules (w : World A) (rs : list Rule) : Prop :=
  (length rs <= 255)%nat /\ Forall ruleOk rs /\ N.of_nat (length (ruleSetCode rs)) <= fieldLen cfg FNg /\
  forall i, (i < length (ruleSetCode rs))%nat -> ngByte w (N.of_nat i) = nth i (ruleSetCode rs) 0.

(* rules found in arbitrary contents: n rules from offset o on; a rule that announces more than 40
   bytes ends the rule set *)
Fixpoint rulesFrom (w : World A) (n : nat) (o : N) : list (list N) :=
  match n with
  | O => []
  | S k => if 40 <? ngByte w o then []
           else map (fun j => ngByte w (o + j)) (Nseq (ngByte w o)) :: rulesFrom w k (o + ngByte w o)
  end.
(* a rule of size 0 leaves the rule before it in the rule buffer, which is evaluated again *)
Fixpoint inEffect (prev : list N) (rs : list (list N)) : list (list N) :=
  match rs with
  | [] => []
  | [] :: t => prev :: inEffect prev t
  | r :: t => r :: inEffect r t
  end.
Definition storedRules (w : World A) : list (list N) := rulesFrom w (N.to_nat (ngByte w 0)) 1.
End NG.
(* the application's actions do not rewrite the rule set while it is evaluated *)
Definition leavesRules (c : ApiCall) : Prop := match c with ARestore => False | _ => True end.
