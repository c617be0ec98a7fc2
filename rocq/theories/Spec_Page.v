(* Spec_Page.v - PAGE_READ, PAGE_WRITE and EXTENDED_PAGE_WRITE: accesses to several registers in a row *)
From Verif Require Export Spec_Request.

Section Page.
Context {A : Type} {E : Env A}.
Implicit Types w : World A.

(* reading n registers of page p in a row, from register a on: for each of them the value that reading this one register
   returns and the effects of doing so, and the state in the end *)
Fixpoint readRegs (p a : N) (n : nat) w : list (N * list Obs) * World A :=
  match n with
  | O => ([], w)
  | S k => let w1 := snd (readRegister p a w) in
           ((fst (readRegister p a w), effects w w1) :: fst (readRegs p (a + 1) k w1), snd (readRegs p (a + 1) k w1))
  end.
(* the same for writing the values vs; page p w is the page of the access in state w *)
Fixpoint writeRegs (page : World A -> N) (a : N) (vs : list N) w : list (N * list Obs) * World A :=
  match vs with
  | [] => ([], w)
  | v :: r => let w1 := snd (writeRegister (page w) a v w) in
              ((fst (fst (writeRegister (page w) a v w)), effects w w1) :: fst (writeRegs page (a + 1) r w1), snd (writeRegs page (a + 1) r w1))
  end.

(* the answer to a page read: frames of seven values each, the last of them shorter, with the sequence numbers i, i+1, ...
   in front; each of them sent when its values have been read *)
Inductive pageAnswer (nick : N) : N -> list (N * list Obs) -> list Obs -> Prop :=
| AnsNone i : pageAnswer nick i [] []
| AnsLast i r f ok : (0 < length r < 7)%nat -> protFrame f 26 3 nick (i :: map fst r) -> pageAnswer nick i r (concat (map snd r) ++ [OTx f ok])
| AnsMore i c r f ok l : length c = 7%nat -> protFrame f 26 3 nick (i :: map fst c) -> pageAnswer nick (i + 1) r l ->
    pageAnswer nick i (c ++ r) (concat (map snd c) ++ OTx f ok :: l).

(* the application does not call the framework's API while one of its registers is written *)
Definition calmApp : Prop := forall x p a v, snd (fst (app_write x p a v)) = [].

(* register a of page p is a VSCP register other than the alarm register, or a window on the decision logic, and holds x *)
Definition shows w (p a x : N) : Prop :=
  (p = 0 /\ 128 < a < 256 /\ ~ (154 <= a <= 161) /\ x = vscpRegister w a) \/ (exists f k, isWindowOn p a f k /\ x = stored w f k).
(* first bytes and remaining bytes of the frames sent *)
Definition seqNumbers (l : list Obs) : list N := map (fun f => hd 0 (payload (fst f))) (frames l).
Definition carried (l : list Obs) : list N := concat (map (fun f => tl (payload (fst f))) (frames l)).
End Page.
