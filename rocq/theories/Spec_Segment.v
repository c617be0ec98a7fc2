(* Spec_Segment.v - several nodes on one segment. *)
From Verif Require Export Spec_States.

(* The nodes 0, 1, 2, ... may be configured differently (env i). Each one has the frames that the medium has
   delivered to it, but that it has not yet read, in the order in which they were sent. *)
Section Segment.
Context {A : Type} (env : nat -> Env A).
Record Segment := mkSegment { node : nat -> World A; inbox : nat -> list Msg }.

(* the frames that a node gets onto the medium between two of its states *)
Definition sentOK (w w' : World A) : list Msg := flat_map (fun f => if snd f : bool then [fst f] else []) (frames (effects w w')).
Definition stepOf (i : nat) (e : Event A) (w : World A) : World A := @stepE A (env i) e w.

(* Anything can happen to one of the nodes at any time: process calls, time, calls of the application, restarts and
   crashes. A process call reads the oldest frame. Somebody else (segment controller, foreign device) may send a frame. *)
Inductive SegEv := SNode (i : nat) (e : Event A) | SForeign (m : Msg).
Definition reads (e : Event A) : bool := match e with EOp (OpProcess _) => true | ECrash (OpProcess _) _ _ => true | _ => false end.
Definition segStep (s : Segment) (v : SegEv) : Segment :=
  match v with
  | SNode i e =>
      let w := node s i in let w' := stepOf i e w in
      mkSegment (fun j => if Nat.eqb j i then w' else node s j)
                (fun j => if Nat.eqb j i then (if reads e then tl (inbox s j) else inbox s j) else inbox s j ++ sentOK w w')
  | SForeign m => mkSegment (node s) (fun j => inbox s j ++ [m])
  end.

(* what is assumed of an event:
   - a process call gets the oldest frame that waits for the node, if any; reliable delivery: the adapter accepts
     every frame;
   - nobody assigns a new nickname to an active node by SET_NICKNAME *)
Definition readFrame (e : Event A) : option (option Msg) := match e with EOp (OpProcess rd) | ECrash (OpProcess rd) _ _ => Some rd | _ => None end.
Definition deliveredOK (s : Segment) (v : SegEv) : Prop :=
  match v with
  | SNode i e => event_wf e /\ (forall rd, readFrame e = Some rd -> rd = hd_error (inbox s i)) /\
      (forall f ok, In (f, ok) (frames (effects (node s i) (stepOf i e (node s i)))) -> ok = true)
  | SForeign m => msg_wf m
  end.
Definition assigns (m : Msg) : bool := (m_class m =? 0) && (m_type m =? 6).
Definition unassigned (s : Segment) (v : SegEv) : Prop :=
  match v with SNode i e => forall m, readFrame e = Some (Some m) -> isActive (node s i) = true -> assigns m = false | SForeign _ => True end.
Definition segOK (s : Segment) (v : SegEv) : Prop := deliveredOK s v /\ unassigned s v.
Fixpoint segRun (s : Segment) (l : list SegEv) : Segment := match l with [] => s | v :: r => segRun (segStep s v) r end.
Fixpoint segAll (P : Segment -> SegEv -> Prop) (s : Segment) (l : list SegEv) : Prop := match l with [] => True | v :: r => P s v /\ segAll P (segStep s v) r end.
Definition segRunOK : Segment -> list SegEv -> Prop := segAll segOK.

(* all nodes have been powered up, nothing has been sent *)
Definition segInit (s : Segment) : Prop :=
  (forall i, exists ps a wr, (forall x, ps x < 256) /\ node s i = @powerUp A (env i) ps a wr) /\ (forall i, inbox s i = []).

(* the configuration: valid, no loop-back of own events, and the applications leave protocol events to the framework *)
Definition segEnv : Prop :=
  forall i, @valid_env A (env i) /\ c_loop (@cfg A (env i)) = false /\ (forall w m, @unclaimed A (env i) w m).

(* node i of the segment is active with nickname n *)
Definition nodeHolds (s : Segment) (i : nat) (n : N) : Prop := isActive (node s i) = true /\ readNicknameId (node s i) = n.
(* NEW_NODE_ONLINE for n (probe or announcement); PROBE_ACK from n *)
Definition announces (n : N) (m : Msg) : Prop := m_class m = 0 /\ m_type m = 2 /\ payload m = [n].
Definition acknowledges (n : N) (m : Msg) : Prop := m_class m = 0 /\ m_type m = 3 /\ m_oaddr m = n /\ payload m = [].
Definition disputes (n : N) (m : Msg) : Prop := announces n m \/ acknowledges n m.

(* a state of the segment that can be reached *)
Definition segReachable (s : Segment) : Prop := exists s0 l, segInit s0 /\ segRunOK s0 l /\ s = segRun s0 l.
(* in every state of the run l from s, including the first and the last one *)
Definition throughout (P : Segment -> Prop) (s : Segment) (l : list SegEv) : Prop := forall l1 l2, l = l1 ++ l2 -> P (segRun s l1).
(* the number of process calls of node i *)
Definition processes (i : nat) (l : list SegEv) : nat := length (filter (fun v => match v with SNode k e => Nat.eqb k i && reads e | SForeign _ => false end) l).
End Segment.
Arguments SegEv : clear implicits.
Arguments Segment : clear implicits.
