(* Fixture.v - concrete configurations and an application for the examples beside the
   theorems. No theorem depends on this file except refutations, which are about it. *)
From Verif Require Export Spec_Node.

(* an application with one byte of memory per (page, register) and no own traffic *)
Definition Regs := N -> N -> N.
Definition exEnv (c : Config) : Env Regs := {|
  cfg := c;
  app_read := fun a p r => (fst a p r, fst a);
  app_write := fun a p r v => (v, [], fun p' r' => if (p' =? p) && (r' =? r) then v else fst a p' r');
  app_restore := fun a _ _ => 0;
  app_pages := fun _ => 2;
  app_boot_alg := fun _ => 1;
  app_guid := fun _ i => 16 + i;
  app_prot := fun a _ => (false, [], fst a);
  app_event := fun a _ => ([], fst a);
  app_action := fun a _ _ _ => ([], fst a);
  app_hb := fun a => ([], fst a)
|}.
Definition exGuid : list N := [1;2;3;4;5;6;7;8;9;10;11;12;13;14;15;16].

Record Opts := mkOpts { o_logger : bool; o_silent : bool; o_hbseg : bool; o_hbnode : bool; o_boot : bool;
  o_dm : bool; o_paged : bool; o_ext : bool; o_ng : bool; o_loop : bool; o_prot : bool; o_ps : bool;
  o_dmoff : N; o_rows : N; o_ngsize : N; o_timers : N }.
Definition exCfgAt (page : N) (o : Opts) : Config := {|
  c_logger := o_logger o; c_silent := o_silent o; c_hard := false; c_hb_seg := o_hbseg o; c_hb_node := o_hbnode o;
  c_idle_co := true; c_err_co := true; c_boot := o_boot o; c_dm := o_dm o; c_dm_paged := o_paged o;
  c_dm_ext := o_ext o; c_dm_ng := o_ng o; c_loop := o_loop o; c_time_co := o_hbseg o; c_prot_ev := o_prot o;
  c_custom_hb := false; c_t_init := 5000; c_t_probe := 2000; c_t_multi := 1000; c_t_hb := 30000; c_start_nick := 1;
  c_dm_page := 1; c_dm_off := o_dmoff o; c_dm_rows := o_rows o; c_ng_page := page; c_ng_size := o_ngsize o;
  c_loop_num := 5; c_msg_size := 20; c_timers := o_timers o; c_le := true;
  d_family := true; d_guid_ps := o_ps o; d_guid_ext := false; d_zone_ps := o_ps o; d_sub_ps := o_ps o;
  d_mdev_ps := o_ps o; d_msub_ps := o_ps o; d_mdf_ps := o_ps o; d_fam_ps := o_ps o; d_type_ps := o_ps o;
  d_guid := exGuid; d_zone := 7; d_sub := 8; d_mdev := 305419896; d_msub := 2; d_mdf := [119;119;119;46;120];
  d_vmaj := 1; d_vmin := 2; d_vsub := 3; d_fam := 287454020; d_type := 1432778632; d_fwcode := 4660
|}.
(* the matrix on page 1, the rule set on page 2 *)
Notation exCfg := (exCfgAt 2).
(*                      logger silent hbseg hbnode boot  dm    paged ext   ng    loop  prot  ps    off rows ng timers *)
Definition oMin  := mkOpts false false false false false false false false false false false false 0 4 32 5.
Definition oDm   := mkOpts false false true  true  true  true  false false false false false true  0 4 32 5.
Definition oExt  := mkOpts false false true  true  true  true  false true  false false false false 0 4 32 5.
Definition oPage := mkOpts false false true  false false true  true  false false false false false 0 4 32 5.
Definition oNg   := mkOpts true  false true  true  false false false false true  true  false false 0 4 32 5.
Definition oFull := mkOpts true  false true  true  true  true  false false false true  true  true  0 4 32 5.
Definition oSil  := mkOpts true  true  true  false false false false false false false false false 0 4 32 5.

Lemma exCfg_valid page o : page < 65536 -> o_rows o <= 255 -> o_timers o <= 255 -> o_ngsize o < 65536 -> o_dmoff o < 256 ->
  (o_paged o = true -> o_dm o = true) -> (o_ext o = true -> o_dm o = true) ->
  ~ (o_paged o = true /\ o_ext o = true) -> valid_env (exEnv (exCfgAt page o)).
Proof.
  intros. constructor; [|intros; cbn; constructor ..].
  destruct o; cbn [o_logger o_silent o_hbseg o_hbnode o_boot o_dm o_paged o_ext o_ng o_loop o_prot o_ps o_dmoff o_rows o_ngsize o_timers] in *.
  constructor; cbn; try lia; try assumption; try (intros; reflexivity); try tauto.
  all: try (intros [? ?]; discriminate).
  all: try (split; [reflexivity|]). all: repeat constructor.
Qed.
Ltac exvalid := apply exCfg_valid; cbn; first [lia | discriminate | intros [? ?]; discriminate | auto].

(* a factory-fresh memory except for the nickname, as left by a node with nickname n *)
Definition exPs (c : Config) (n : N) : N -> N :=
  fun a => if a =? ps_nick c then n else if a =? ps_ctrl c then 96 else 0.
(* frames *)
Definition exMsg (cls ty oaddr : N) (d : list N) : Msg := mkMsg 3 cls ty oaddr false (N.of_nat (length d)) (pad8 d).
Definition regs0 : Regs := fun p r => (p * 16 + r) mod 256.

(* histories of such a node *)
Lemma exReach {E : Env Regs} c n es : n < 256 -> Forall event_wf es -> reachable (run es (powerUp (exPs c n) regs0 [])).
Proof.
  intros Hn H. exists (exPs c n), regs0, [], es. split; [|auto].
  intros x. unfold exPs. destruct (x =? ps_nick c); [exact Hn|]. destruct (x =? ps_ctrl c); lia.
Qed.
Ltac exwf := repeat constructor; cbn; lia.
Ltac exreach := apply exReach; [lia|exwf].
(* the same node with the bytes l stored from address base on (matrix rows, rules) *)
Definition exMem (c : Config) (n base : N) (l : list N) : N -> N :=
  fun a => if (base <=? a) && (a <? base + N.of_nat (length l)) then nth (N.to_nat (a - base)) l 0 else exPs c n a.
Lemma exReachM {E : Env Regs} c n base l es : n < 256 -> bytes l -> Forall event_wf es -> reachable (run es (powerUp (exMem c n base l) regs0 [])).
Proof.
  intros Hn Hl H. exists (exMem c n base l), regs0, [], es. split; [|auto].
  intros x. unfold exMem, exPs. destruct ((base <=? x) && _).
  - destruct (nth_in_or_default (N.to_nat (x - base)) l 0) as [HI| ->]; [|lia]. unfold bytes in Hl. rewrite Forall_forall in Hl. apply Hl. exact HI.
  - destruct (x =? ps_nick c); [exact Hn|]. destruct (x =? ps_ctrl c); lia.
Qed.
Ltac exreachM := apply exReachM; [lia|repeat constructor; lia|exwf].
(* close a conjunction of computations *)
Ltac vmc := vm_compute; repeat split; try reflexivity; try discriminate.
