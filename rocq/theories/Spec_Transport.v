(* Spec_Transport.v - what a user expects from the transport layer and the logger. *)
From Verif Require Export Spec_Node.

(* -- loop-back -- *)
(* the messages handed to the node by the transport layer *)
Definition taken (l : list Obs) : list Msg := flat_map (fun o => match o with ORx m => [m] | _ => [] end) l.
(* sent events that are to come back: neither PROTOCOL (class 0) nor LOG (class 509) *)
Definition comesBack (m : Msg) : bool := negb (m_class m =? 0) && negb (m_class m =? 509).
(* a sent event joins the queue unless it is full *)
Definition enqueue (cap : nat) (q : list Msg) (m : Msg) : list Msg := if Nat.ltb (length q) cap then q ++ [m] else q.
Definition sentBack (l : list Obs) : list Msg := filter comesBack (map fst (frames l)).
Definition optList {T} (o : option T) : list T := match o with Some x => [x] | None => [] end.
(* the queue while the operation o with effects l takes place: process removes the oldest message;
   the message that arrives meanwhile joins the queue unless it is passed on at once *)
Definition arrival (o : Op) (q : list Msg) : list Msg :=
  match o with
  | OpInit => []
  | OpProcess rd => match q with [] => [] | _ :: r => r ++ optList rd end
  | _ => q
  end.
Definition queueAfter (cap : nat) (o : Op) (l : list Obs) (q : list Msg) : list Msg :=
  fold_left (enqueue cap) (sentBack l) (arrival o q).

Section T.
Context {A : Type} {E : Env A}.
(* the queue after the history es that starts in state w with the queue q *)
Fixpoint pendingRun (cap : nat) (es : list (Event A)) (w : World A) (q : list Msg) : list Msg :=
  match es with
  | [] => q
  | e :: r => let w' := stepE e w in
      pendingRun cap r w' (match e with EOp o => queueAfter cap o (effects w w') q | ECrash _ _ _ => [] end)
  end.

(* -- transmit errors -- *)
(* failed transmissions since the last query or power up; l is a log with the newest effect first *)
Fixpoint failures (l : list Obs) : N :=
  match l with
  | [] => 0
  | OTx _ false :: r | OTxDrop _ :: r => failures r + 1
  | OTxErrors _ :: _ | OPower :: _ => 0
  | _ :: r => failures r
  end.

(* -- logger -- *)
(* frame number i of a log message: id, level, index, five message bytes (zero padded) *)
Definition logFrames (n : N) : N := N.max 1 ((n + 4) / 5).
Definition logPayload (id lvl : N) (msg : list N) (i : N) : list N :=
  [id; lvl; i] ++ map (fun j => nth (N.to_nat (5 * i + j)) msg 0) [0; 1; 2; 3; 4].

(* the settings of the logger, and what API calls and received events do to them; id is the log id *)
Record LogSet := mkLogSet { ls_on : bool; ls_filter : N }.
Definition logEvent (id : N) (m : Msg) (s : LogSet) : LogSet :=
  if (m_class m =? 509) && (m_size m =? 1) then
    if m_type m =? 2 then (if id =? nth 0 (m_data m) 0 then mkLogSet true (ls_filter s) else s)        (* START *)
    else if m_type m =? 3 then (if id =? nth 0 (m_data m) 0 then mkLogSet false (ls_filter s) else s)  (* STOP *)
    else if m_type m =? 4 then mkLogSet (ls_on s) (nth 0 (m_data m) 0)                              (* LEVEL *)
    else s
  else s.
Definition logObs (id : N) (s : LogSet) (o : Obs) : LogSet :=
  match o with
  | ORx m => logEvent id m s
  | OApi (ALogEnable b) => mkLogSet b (ls_filter s)
  | OApi (ALogLevel l) => mkLogSet (ls_on s) (l mod 256)
  | _ => s
  end.
(* the most recent received message since vscp_core_init; log newest first *)
Fixpoint lastRx (l : list Obs) : option Msg :=
  match l with
  | [] | OInit :: _ | OPower :: _ => None
  | ORx m :: _ => Some m
  | _ :: r => lastRx r
  end.
(* the settings in force *)
Definition settings (w : World A) : LogSet := mkLogSet (w_logEn w) (w_logLvl w).
(* m is frame number i of the log message msg *)
Definition isLogFrame (nick id lvl : N) (msg : list N) (i : N) (m : Msg) : Prop :=
  m_class m = 509 /\ m_type m = 1 /\ m_prio m = 3 /\ m_oaddr m = nick /\ m_hard m = c_hard cfg /\
  payload m = logPayload id lvl msg i.

End T.
