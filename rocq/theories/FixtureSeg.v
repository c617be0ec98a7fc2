(* FixtureSeg.v - segments for the examples: a script says who acts, the events follow from the inboxes *)
From Verif Require Import Spec_Segment.
From Verif Require Export FixtureReq.

Definition segE (o : Opts) : nat -> Env Regs := fun _ => exEnv (exCfg o).
Definition seg0 (o : Opts) (ns : list N) : Segment Regs :=
  mkSegment (fun i => @powerUp Regs (segE o i) (exPs (exCfg o) (nth i ns 255)) regs0 []) (fun _ => []).
(* node i processes / time passes for node i / somebody else sends a frame *)
Inductive Act := P (i : nat) | T (i : nat) (ms : N) | F (m : Msg).
Definition actEv (s : Segment Regs) (a : Act) : SegEv Regs :=
  match a with P i => SNode i (EOp (OpProcess (hd_error (inbox s i)))) | T i ms => SNode i (EOp (OpTick ms)) | F m => SForeign m end.
Fixpoint script (o : Opts) (s : Segment Regs) (l : list Act) : list (SegEv Regs) :=
  match l with [] => [] | a :: r => let v := actEv s a in v :: script o (segStep (segE o) s v) r end.

Definition msgOK (m : Msg) : bool :=
  (m_prio m <? 8) && (m_class m <? 65536) && (m_type m <? 256) && (m_oaddr m <? 256) && (m_size m <=? 8) && Nat.eqb (length (m_data m)) 8 && forallb (fun b => b <? 256) (m_data m).
Lemma msgOK_wf m : msgOK m = true -> msg_wf m.
Proof.
  unfold msgOK, msg_wf, bytes. rewrite !andb_true_iff, Nat.eqb_eq, forallb_forall. intros ((((((H1 & H2) & H3) & H4) & H5) & H6) & H7).
  repeat split; try lia; try assumption. apply Forall_forall. intros x Hx. specialize (H7 x Hx). lia.
Qed.
Definition actOK (o : Opts) (strict : bool) (s : Segment Regs) (a : Act) : bool :=
  let quietEv i v := forallb (fun f : Msg * bool => snd f) (frames (effects (node s i) (stepOf (segE o) i v (node s i)))) in
  match a with
  | P i => (match hd_error (inbox s i) with Some m => msgOK m && negb (strict && isActive (node s i) && assigns m) | None => true end) && quietEv i (EOp (OpProcess (hd_error (inbox s i))))
  | T i ms => quietEv i (EOp (OpTick ms))
  | F m => msgOK m
  end.
Fixpoint scriptOK (o : Opts) (strict : bool) (s : Segment Regs) (l : list Act) : bool :=
  match l with [] => true | a :: r => actOK o strict s a && scriptOK o strict (segStep (segE o) s (actEv s a)) r end.
Lemma quiet_all (l : list (Msg * bool)) : forallb (fun f => snd f) l = true -> forall f ok, In (f, ok) l -> ok = true.
Proof. rewrite forallb_forall. intros H f ok HI. exact (H (f, ok) HI). Qed.
Lemma actOK_ok o strict s a : actOK o strict s a = true -> deliveredOK (segE o) s (actEv s a) /\ (strict = true -> unassigned s (actEv s a)).
Proof.
  unfold actOK. destruct a as [i|i ms|m]; intros H; cbn [actEv deliveredOK unassigned].
  - apply andb_true_iff in H. destruct H as [H1 H2]. split.
    + split; [|split; [intros rd [= <-]; reflexivity|apply quiet_all; exact H2]]. destruct (hd_error (inbox s i)) as [m|]; [|exact I]. apply andb_true_iff in H1. apply msgOK_wf, H1.
    + intros -> m [= HM] HA. rewrite HM in H1. cbn [andb] in H1. apply andb_true_iff in H1. destruct H1 as [_ H1]. rewrite HA in H1. cbn [andb] in H1. destruct (assigns m); [discriminate H1|reflexivity].
  - split; [|discriminate]. split; [exact I|]. split; [discriminate|apply quiet_all; exact H].
  - split; [apply msgOK_wf; exact H|intros _; exact I].
Qed.
Lemma script_strict o l : forall s, scriptOK o true s l = true -> segRunOK (segE o) s (script o s l).
Proof.
  induction l as [|a l IH]; intros s H; [exact I|]. cbn [scriptOK] in H. apply andb_true_iff in H. destruct H as [H1 H2]. destruct (actOK_ok o true s a H1) as [X1 X2].
  split; [split; [exact X1|apply X2; reflexivity]|apply IH; exact H2].
Qed.
Lemma script_delivered o l : forall s, scriptOK o false s l = true -> segAll (segE o) (deliveredOK (segE o)) s (script o s l).
Proof.
  induction l as [|a l IH]; intros s H; [exact I|]. cbn [scriptOK] in H. apply andb_true_iff in H. destruct H as [H1 H2]. destruct (actOK_ok o false s a H1) as [X1 _].
  split; [exact X1|apply IH; exact H2].
Qed.
Lemma seg0_init o ns : Forall (fun n => n < 256) ns -> segInit (segE o) (seg0 o ns).
Proof.
  intros H. split; [|reflexivity]. intros i. exists (exPs (exCfg o) (nth i ns 255)), regs0, []. split; [|reflexivity].
  assert (nth i ns 255 < 256) by (destruct (nth_in_or_default i ns 255) as [X|X]; [exact (proj1 (Forall_forall _ _) H _ X)|rewrite X; lia]).
  intros x. unfold exPs. destruct (x =? _); [assumption|]. destruct (x =? _); lia.
Qed.
Definition segEnd (o : Opts) (s : Segment Regs) (l : list Act) : Segment Regs := segRun (segE o) s (script o s l).
