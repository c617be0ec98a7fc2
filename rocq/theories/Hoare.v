(* Hoare.v - program logic for the state monad of World.v: an invariant I, a transition
   relation R between the worlds before and after, and a property Q of the result. *)
From Verif Require Export World.

Section Hoare.
Context {A : Type}.
Variable I : World A -> Prop.
Variable R : World A -> World A -> Prop.
Hypothesis Rrefl : forall w, R w w.
Hypothesis Rtrans : forall a b c, R a b -> R b c -> R a c.

Definition keeps {T} (m : M A T) (Q : T -> Prop) : Prop :=
  forall w, I w -> I (snd (m w)) /\ R w (snd (m w)) /\ Q (fst (m w)).

Lemma keeps_ret {T} (r : T) (Q : T -> Prop) : Q r -> keeps (ret r) Q.
Proof. intros H w Hw. cbn. auto. Qed.
Lemma keeps_bind {T U} (m : M A T) (k : T -> M A U) (P : T -> Prop) (Q : U -> Prop) :
  keeps m P -> (forall r, P r -> keeps (k r) Q) -> keeps (bind m k) Q.
Proof.
  intros Hm Hk w Hw. unfold bind. destruct (Hm w Hw) as (H1 & H2 & H3).
  destruct (Hk _ H3 _ H1) as (H4 & H5 & H6). split; [exact H4|]. split; [|exact H6].
  eapply Rtrans; eassumption.
Qed.
Lemma keeps_get {T} (f : World A -> T) (Q : T -> Prop) : (forall w, I w -> Q (f w)) -> keeps (get f) Q.
Proof. intros H w Hw. cbn. auto. Qed.
Lemma keeps_upd (f : World A -> World A) : (forall w, I w -> I (f w) /\ R w (f w)) -> keeps (upd f) (fun _ => True).
Proof. intros H w Hw. cbn. destruct (H w Hw). auto. Qed.
Lemma keeps_weaken {T} (m : M A T) (P Q : T -> Prop) : keeps m P -> (forall r, P r -> Q r) -> keeps m Q.
Proof. intros Hm H w Hw. destruct (Hm w Hw) as (?&?&?). auto. Qed.
Lemma keeps_true {T} (m : M A T) (P : T -> Prop) : keeps m P -> keeps m (fun _ => True).
Proof. intros H. eapply keeps_weaken; [exact H|auto]. Qed.
Lemma keeps_if {T} (b : bool) (m1 m2 : M A T) Q :
  (b = true -> keeps m1 Q) -> (b = false -> keeps m2 Q) -> keeps (if b then m1 else m2) Q.
Proof. destruct b; auto. Qed.
Lemma keeps_forM {X} (l : list X) (f : X -> M A unit) :
  (forall x, In x l -> keeps (f x) (fun _ => True)) -> keeps (forM l f) (fun _ => True).
Proof.
  induction l as [|x l IH]; intros H; cbn [forM].
  - apply keeps_ret. exact Logic.I.
  - eapply keeps_bind; [apply H; left; reflexivity|]. intros _ _. apply IH. intros y Hy. apply H. right. exact Hy.
Qed.
End Hoare.
