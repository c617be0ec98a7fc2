(* Spec_Bound.v - how many frames a call may send *)
From Verif Require Export Spec_Transport.

(* frames an API call of the application may cause: the event itself, or a log message in parts of five bytes *)
Definition allowance (c : ApiCall) : N :=
  match c with
  | ASend _ => 1
  | ALog _ _ d => N.max 1 ((N.min 255 (N.of_nat (length d)) + 4) / 5)
  | _ => 0
  end.
Fixpoint allowances (l : list Obs) : N := match l with [] => 0 | OApi c :: r => allowance c + allowances r | _ :: r => allowances r end.
Definition sent (l : list Obs) : N := N.of_nat (length (frames l)).
