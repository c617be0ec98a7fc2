(* Events.v - model of the event functions vscp_evt_*_send* in src/events/*.c: an interpreter for the few kinds of
   statements that occur in them. The functions themselves are in EventTable.v. *)
From Coq Require Import String.
From Verif Require Export Core DataCoding.

(* Kinds of parameters: PInt w: unsigned (or signed) integer of w bytes; PFloat: float_t (4 bytes), PDouble: double_t
   (8 bytes); PRef w: pointer to an optional integer of w bytes; PBuf: pointer to a buffer (mandatory or optional according to
   the documentation), PSize: its size; PUnit, PData, PExp: unit, value and exponent of a measurement. *)
Inductive PKind := PInt (w : N) | PFloat | PDouble | PRef (w : N) | PBuf (mandatory : bool) | PSize | PUnit | PData | PExp.
(* Arguments. V: the value as unsigned number (two's complement, IEEE 754 representation); R: NULL or a pointer to a value;
   B: NULL or a pointer to a buffer (exactly the bytes that may be read) *)
Inductive Arg := V (v : N) | R (o : option N) | B (o : option (list N)).

(* right hand sides of txMsg.data[i] = ...; parameters are given by their position.
   Par p: p or *p; Shift p n: (uint8_t)((p >> n) & 0xff) or with *p; Byte p w k: ((uint8_t* )&p)[k] where sizeof(p) = w;
   Fmt r u i: vscp_data_coding_getFormatByte(r, u, i) *)
Inductive Exp := Par (p : nat) | Shift (p : nat) (n : N) | Byte (p : nat) (w k : N) | Fmt (r : N) (u i : nat).
(* Set_ i e: txMsg.data[i] = e; Add n: size += n; SizeIs n: txMsg.dataSize = n; SizeVar: txMsg.dataSize = size;
   Loop b p n: for(byteIndex = 0; byteIndex < n; ++byteIndex) { txMsg.data[b + byteIndex] = p[byteIndex]; size += 1;
               if (VSCP_L1_DATA_SIZE <= size) { break; } };
   Norm i d e: txMsg.dataSize += vscp_data_coding_int32ToNormalizedInteger(d, e, &txMsg.data[i], VSCP_L1_DATA_SIZE - txMsg.dataSize) *)
Inductive Basic := Set_ (i : N) (e : Exp) | Add (n : N) | SizeIs (n : N) | SizeVar | Loop (b : N) (p n : nat) | Norm (i : N) (d e : nat).
(* IfPtr p b: if (NULL != p) { b }; Guard p n: if ((NULL == p) || (0 == n)) { return FALSE; } *)
Inductive Stmt := Do (b : Basic) | IfPtr (p : nat) (b : list Basic) | Guard (p n : nat).
Record Sender := mkSender { e_name : string; e_class : N; e_type : N; e_prio : N; e_params : list (string * PKind); e_body : list Stmt }.

(* the local variables: txMsg.data (None: not initialised), size, txMsg.dataSize *)
Record TxSt := mkSt { s_data : list (option N); s_size : N; s_dsize : N }.
Inductive Res := RUndef | RFalse | ROk (s : TxSt).

(* byte k of the representation of a value of w bytes in memory, on a little or big endian host *)
Definition reprByte (le : bool) (w k v : N) : N := u8 (N.shiftr v (8 * (if le then k else w - 1 - k))).
Definition value (args : list Arg) (p : nat) : option N :=
  match nth_error args p with Some (V v) => Some v | Some (R (Some v)) => Some v | _ => None end.
Definition evalE (le : bool) (args : list Arg) (e : Exp) : option N :=
  match e with
  | Par p => match value args p with Some v => Some (u8 v) | None => None end
  | Shift p n => match value args p with Some v => Some (u8 (N.shiftr v n)) | None => None end
  | Byte p w k => match value args p with Some v => Some (reprByte le w k v) | None => None end
  | Fmt r u i => match value args u, value args i with Some u, Some i => Some (getFormatByte r u i) | _, _ => None end
  end.
(* txMsg.data[i] = v; an index outside of the array is undefined behaviour *)
Fixpoint setNth {T} (l : list T) (i : nat) (v : T) : list T :=
  match l, i with x :: r, S j => x :: setNth r j v | _ :: r, O => v :: r | [], _ => [] end.
Definition setData (s : TxSt) (i v : N) : Res :=
  if i <? L1_DATA_SIZE then ROk (mkSt (setNth (s_data s) (N.to_nat i) (Some v)) (s_size s) (s_dsize s)) else RUndef.
Definition addSize (s : TxSt) (n : N) : TxSt := mkSt (s_data s) (u8 (s_size s + n)) (s_dsize s).
(* the loop from byteIndex on, k rounds are left at most; l: the bytes from byteIndex on that may be read *)
Fixpoint loopData (base : N) (l : list N) (k : nat) (byteIndex : N) (s : TxSt) {struct k} : Res :=
  match k with
  | O => ROk s
  | S k' =>
      match l with
      | [] => RUndef
      | v :: r =>
          match setData s (base + byteIndex) v with
          | ROk s1 => let s2 := addSize s1 1 in if L1_DATA_SIZE <=? s_size s2 then ROk s2 else loopData base r k' (byteIndex + 1) s2
          | x => x
          end
      end
  end.
(* writes the bytes l from data[i] on *)
Fixpoint putData (l : list N) (i : N) (s : TxSt) : Res :=
  match l with [] => ROk s | v :: r => match setData s i v with ROk s1 => putData r (i + 1) s1 | x => x end end.
(* an int8_t *)
Definition toInt8 (x : N) : Z := let y := Z.of_N (u8 x) in if (y <? 128)%Z then y else (y - 256)%Z.
Definition execB (le : bool) (args : list Arg) (b : Basic) (s : TxSt) : Res :=
  match b with
  | Set_ i e => match evalE le args e with Some v => setData s i v | None => RUndef end
  | Add n => ROk (addSize s n)
  | SizeIs n => ROk (mkSt (s_data s) (s_size s) n)
  | SizeVar => ROk (mkSt (s_data s) (s_size s) (s_size s))
  | Loop base p n =>
      match nth_error args p, value args n with
      | Some (B (Some l)), Some k => loopData base l (N.to_nat k) 0 s
      | Some (B None), Some k => if k =? 0 then ROk s else RUndef
      | _, _ => RUndef
      end
  | Norm i d e =>
      match value args d, value args e with
      | Some d, Some e =>
          match int32ToNormalizedInteger (toInt32 d) (toInt8 e) (L1_DATA_SIZE - s_dsize s) with
          | Ok l => match putData l i s with ROk s1 => ROk (mkSt (s_data s1) (s_size s1) (u8 (s_dsize s1 + N.of_nat (length l)))) | x => x end
          | Undef => RUndef
          end
      | _, _ => RUndef
      end
  end.
Fixpoint execBs (le : bool) (args : list Arg) (l : list Basic) (s : TxSt) : Res :=
  match l with [] => ROk s | b :: r => match execB le args b s with ROk s1 => execBs le args r s1 | x => x end end.
Definition isNull (args : list Arg) (p : nat) : bool := match nth_error args p with Some (R None) | Some (B None) => true | _ => false end.
Definition execS (le : bool) (args : list Arg) (c : Stmt) (s : TxSt) : Res :=
  match c with
  | Do b => execB le args b s
  | IfPtr p l => if isNull args p then ROk s else execBs le args l s
  | Guard p n => if isNull args p || (match value args n with Some v => v =? 0 | None => false end) then RFalse else ROk s
  end.
Fixpoint exec (le : bool) (args : list Arg) (l : list Stmt) (s : TxSt) : Res :=
  match l with [] => ROk s | c :: r => match execS le args c s with ROk s1 => exec le args r s1 | x => x end end.

(* What the call amounts to: Undefined: undefined behaviour (an index out of bounds, a NULL pointer, an overflow) or a byte that
   was never written is sent; Refused: returns FALSE without sending; Sends n data: sends n bytes of data. *)
Inductive Outcome := Undefined | Refused | Sends (n : N) (data : list N).
Definition outcome (le : bool) (f : Sender) (args : list Arg) : Outcome :=
  match exec le args (e_body f) (mkSt (repeat None 8) 0 0) with
  | RUndef => Undefined
  | RFalse => Refused
  | ROk s =>
      if forallb (fun o : option N => match o with Some _ => true | None => false end) (firstn (N.to_nat (s_dsize s)) (s_data s))
      then Sends (s_dsize s) (map (fun o : option N => match o with Some v => v | None => 0 end) (s_data s))
      else Undefined
  end.

Section Call.
Context {A : Type} {E : Env A}.
(* The whole function: vscp_core_prepareTxMessage (vscp_core.c:648-661), the body, vscp_core_sendEvent (vscp_core.c:673-676).
   Result: the return value. *)
Definition callSender (f : Sender) (args : list Arg) : M A bool :=
  match outcome (c_le cfg) f args with
  | Undefined => setUB ;; ret false
  | Refused => ret false
  | Sends n data =>
      nick <- get w_nick ;;
      tp_writeMessage (mkMsg (e_prio f) (e_class f) (e_type f) nick (c_hard cfg) n data)
  end.
End Call.
