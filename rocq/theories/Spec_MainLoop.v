(* Spec_MainLoop.v - what pressing the button and setting the lamp should do. *)
From Verif Require Import MainLoop.

(* the button is down in the last 101 of the samples (oldest first) that were taken once per ms *)
Definition debounced (samples : list bool) : bool :=
  (101 <=? N.of_nat (length samples)) && forallb (fun x => x) (firstn 101 (rev samples)).

(* a schedule: for every pass of the main loop the samples the interrupt has taken since the last one,
   and those it takes between the two reads of the flag *)
Definition Pass : Type := list bool * list bool.
Definition pass (tick : bool -> Btn -> Btn) (b : Btn) (p : Pass) : Btn :=
  loopLatch (fold_left (fun s h => tick h s) (snd p)
    (loopTest (fold_left (fun s h => tick h s) (fst p) b))).
Definition loop (tick : bool -> Btn -> Btn) (ps : list Pass) : Btn := fold_left (pass tick) ps btnInit.

(* all samples *)
Definition samples (ps : list Pass) : list bool := concat (map (fun p => fst p ++ snd p) ps).
(* number of passes at which the debounced button is down while it was not at the pass before;
   seen: samples before, was: its state at the pass before *)
Fixpoint presses (seen : list bool) (was : bool) (ps : list Pass) : N :=
  match ps with
  | [] => 0
  | p :: r =>
      let now := debounced (seen ++ fst p) in
      (if now && negb was then 1 else 0) + presses (seen ++ fst p) now r
  end.
