(* Spec_Node.v - vocabulary of the property statements about a whole node: histories,
   reachable states, effects of a call. *)
From Verif Require Export Core.

Section Node.
Context {A : Type} {E : Env A}.

(* what the environment may do: deliver frames and issue API calls with in-range fields *)
Definition op_wf (o : Op) : Prop :=
  match o with OpProcess (Some m) => msg_wf m | OpApi c => api_wf c | _ => True end.
Definition event_wf (e : Event A) : Prop :=
  match e with EOp o => op_wf o | ECrash o _ _ => op_wf o end.

(* the state of a node after power up with some persistent memory contents ps0 and a history
   of calls and power losses *)
Definition reachableFrom (ps0 : N -> N) (w : World A) : Prop :=
  exists a wr es, (forall x, ps0 x < 256) /\ Forall event_wf es /\ w = run es (powerUp ps0 a wr).
Definition reachable (w : World A) : Prop := exists ps0, reachableFrom ps0 w.

(* the observable effects between two states of one node, oldest first *)
Definition effects (w w' : World A) : list Obs :=
  rev (firstn (length (w_out w') - length (w_out w)) (w_out w')).

(* persistent memory after a sequence of effects, oldest first *)
Fixpoint memAfter (ps : N -> N) (l : list Obs) : N -> N :=
  match l with
  | [] => ps
  | OPs a v :: r => memAfter (fun x => if x =? a then v else ps x) r
  | _ :: r => memAfter ps r
  end.

(* the frames handed to the transport adapter, with its verdict *)
Definition frames (l : list Obs) : list (Msg * bool) :=
  flat_map (fun o => match o with OTx m ok => [(m, ok)] | _ => [] end) l.
(* the persistent memory writes *)
Definition psWrites (l : list Obs) : list (N * N) :=
  flat_map (fun o => match o with OPs a v => [(a, v)] | _ => [] end) l.
(* the executed actions: identifier, parameter, event *)
Definition actions (l : list Obs) : list (N * N * Msg) :=
  flat_map (fun o => match o with OAction a p m => [(a, p, m)] | _ => [] end) l.
End Node.
