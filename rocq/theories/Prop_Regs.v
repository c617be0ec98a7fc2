(* Prop_Regs.v - C17, C18, C23: register windows on the decision matrix and on the rule set *)
From Verif Require Import Fixture Proof_Paged.

(* C17: the registers of the matrix window are the bytes of the stored matrix; all other registers
   outside of the VSCP register area go to the application.
   Partial: proved for matrices that start at register 0 and fit into one page (fewer than 32
   rows, no extension, no page 255 or above); the general claim is refuted below. *)
Theorem C17_matrix_window_partial :
  forall A (E : Env A), valid_env E ->
  c_dm cfg = true -> c_dm_paged cfg = false -> c_dm_ext cfg = false -> c_dm_ng cfg = false ->
  c_dm_off cfg = 0 -> c_dm_rows cfg < 32 -> c_dm_page cfg < 255 ->
  (forall k, k < 8 * c_dm_rows cfg -> isWindowOn (c_dm_page cfg) k FDm k) /\
  (forall p a, a < 256 -> ~ (p = 0 /\ 128 <= a) -> ~ (p = c_dm_page cfg /\ a < 8 * c_dm_rows cfg) -> isAppRegister p a).
Proof.
  intros A E VE HD HP HX HN HO HR HPg. split.
  - intros k Hk. apply dm_window; assumption.
  - intros p a Ha H0 H1. apply app_register; try assumption.
    + rewrite HD, dm_single by assumption. cbn [andb]. lia.
    + rewrite HN. reflexivity.
    + exact ext_doApi.
Qed.
Print Assumptions C17_matrix_window_partial.

Example C17_example :
  let c := exCfg oDm in let E := exEnv c in
  let w := run [EOp (OpProcess None)] (powerUp (exMem c 5 (ps_dm c) [11; 12; 13]) regs0 []) in
  valid_env E /\ reachable w /\ c_dm_rows cfg = 4 /\ writable w /\ fst (readRegister 1 2 w) = 13 /\ fst (readRegister 1 31 w) = 0 /\
  fst (readRegister 1 32 w) = regs0 1 32 /\ stored (snd (writeRegister 1 2 99 w)) FDm 2 = 99.
Proof. cbv zeta. split; [exvalid|]. split; [exreachM|]. vmc. Qed.

(* with a register offset the last bytes of the matrix are not reachable at their register *)
Theorem C17_offset_refuted :
  exists (E : Env Regs), valid_env E /\ c_dm cfg = true /\ c_dm_paged cfg = false /\ c_dm_ext cfg = false /\
  exists w k, reachable w /\ k < 8 * c_dm_rows cfg /\ c_dm_off cfg + k < 256 /\
    fst (readRegister (c_dm_page cfg) (c_dm_off cfg + k) w) <> stored w FDm k.
Proof.
  pose (c := exCfg (mkOpts false false true true true true false false false false false true 8 4 32 5)).
  pose (E := exEnv c). exists E. split; [exvalid|]. split; [reflexivity|]. split; [reflexivity|]. split; [reflexivity|].
  exists (run [EOp (OpProcess None)] (powerUp (exMem c 5 (ps_dm c) (repeat 0 24 ++ [99])) regs0 [])), 24.
  split; [exreachM|]. vmc.
Qed.
Print Assumptions C17_offset_refuted.

(* bytes behind the first page of the matrix are found at wrong registers *)
Theorem C17_pages_refuted :
  exists (E : Env Regs), valid_env E /\ c_dm cfg = true /\ c_dm_paged cfg = false /\ c_dm_ext cfg = false /\ c_dm_off cfg = 0 /\
  exists w k, reachable w /\ k < 8 * c_dm_rows cfg /\
    fst (readRegister (c_dm_page cfg + k / 256) (k mod 256) w) <> stored w FDm k.
Proof.
  pose (c := exCfg (mkOpts false false true true true true false false false false false true 0 40 32 5)).
  pose (E := exEnv c). exists E. split; [exvalid|]. split; [reflexivity|]. split; [reflexivity|]. split; [reflexivity|]. split; [reflexivity|].
  exists (run [EOp (OpProcess None)] (powerUp (exMem c 5 (ps_dm c + 256) [99]) regs0 [])), 256.
  split; [exreachM|]. vmc.
Qed.
Print Assumptions C17_pages_refuted.

(* C17: on the first page of the window, whatever its offset and the number of rows, register off + k is byte k of the matrix.
   Partial: a matrix with fewer than 32 rows is only found up to register 8 * rows - 1, see C17_offset_refuted. *)
Theorem C17_first_page_partial :
  forall A (E : Env A), valid_env E -> c_dm cfg = true -> c_dm_paged cfg = false ->
  forall k, let rows := if c_dm_ext cfg then 2 * c_dm_rows cfg else c_dm_rows cfg in
    k < 8 * c_dm_rows cfg -> c_dm_off cfg + k < 256 -> 32 <= rows \/ c_dm_off cfg + k < 8 * rows ->
    isWindowOn (c_dm_page cfg) (c_dm_off cfg + k) FDm k.
Proof.
  intros A E VE HD HP k rows Hk H2 HR. change rows with dm_ROWS in HR. pose proof (v_e5 _ (ve_cfg _ VE) HD HP).
  apply dm_window_at; try assumption. apply dm_first_index; try assumption.
  assert (R0 : 0 < dm_ROWS) by (change dm_ROWS with rows; unfold rows; destruct (c_dm_ext cfg); lia).
  apply dm_claims; [assumption|reflexivity|lia|exact R0|].
  unfold dm_LAST_PAGE, dm_PAGES. unfold dm_START_PAGE. rewrite HP. destruct (dm_ADDITIONAL =? 0) eqn:Q; [|left; lia].
  destruct (32 <=? dm_ROWS) eqn:Q1; [left|right]; lia.
Qed.
Print Assumptions C17_first_page_partial.

(* C17: the pages behind the first one are claimed by the matrix as well, but register a of the j-th of them is byte
   256 - off + 8 * j + a of the matrix instead of byte 256 * j - off + a *)
Theorem C17_following_pages_partial :
  forall A (E : Env A), valid_env E -> c_dm cfg = true -> c_dm_paged cfg = false ->
  forall j a, let rows := if c_dm_ext cfg then 2 * c_dm_rows cfg else c_dm_rows cfg in
    let i := 256 - c_dm_off cfg + 8 * j + a in
    0 < j -> j < rows / 32 \/ j = rows / 32 /\ a <= c_dm_off cfg -> a < 256 -> c_dm_page cfg + j < 65536 -> i < 8 * c_dm_rows cfg ->
    isWindowOn (c_dm_page cfg + j) a FDm i.
Proof.
  intros A E VE HD HP j a rows i Hj HC Ha H6 Hi. change rows with dm_ROWS in HC. pose proof (v_dm_rows _ (ve_cfg _ VE)).
  assert (R0 : 0 < dm_ROWS) by (change dm_ROWS with rows; unfold rows; destruct (c_dm_ext cfg); lia).
  apply dm_window_at; try assumption; [lia|]. apply dm_later_index; try assumption; [|unfold i in Hi; lia].
  rewrite dm_later_claims by assumption. unfold dm_PAGES. destruct (dm_ADDITIONAL =? 0) eqn:Q; lia.
Qed.
Print Assumptions C17_following_pages_partial.

Example C17_example_pages :
  let c := exCfg (mkOpts false false true true true true false false false false false true 8 100 32 5) in let E := exEnv c in
  let w := run [EOp (OpProcess None)] (powerUp (exMem c 5 (ps_dm c + 247) [11; 12; 13; 14; 15; 16; 17; 18; 19; 20]) regs0 []) in
  valid_env E /\ reachable w /\ c_dm cfg = true /\ c_dm_paged cfg = false /\ c_dm_rows cfg = 100 /\ c_dm_off cfg = 8 /\ writable w /\
  fst (readRegister (c_dm_page cfg) 255 w) = 11 /\ fst (readRegister (c_dm_page cfg + 1) 0 w) = 20 /\ stored w FDm 256 = 20.
Proof. cbv zeta. split; [exvalid|]. split; [exreachM|]. vmc. Qed.

(* the rows of the extension cannot be reached through their registers *)
Theorem C17_extension_refuted :
  exists (E : Env Regs), valid_env E /\ c_dm cfg = true /\ c_dm_paged cfg = false /\ c_dm_ext cfg = true /\ c_dm_off cfg = 0 /\
  exists w k, reachable w /\ k < 8 * c_dm_rows cfg /\ 8 * c_dm_rows cfg + k < 256 /\
    fst (readRegister (c_dm_page cfg) (8 * c_dm_rows cfg + k) w) <> stored w FDmx k.
Proof.
  pose (c := exCfg oExt). pose (E := exEnv c). exists E. split; [exvalid|]. repeat (split; [reflexivity|]).
  exists (run [EOp (OpProcess None)] (powerUp (exMem c 5 (ps_dmx c) [99]) regs0 [])), 0. split; [exreachM|]. vmc.
Qed.
Print Assumptions C17_extension_refuted.

(* C18: paged access. In every reachable state the index register holds the number i of a byte of
   the matrix; the value register is this byte; writing the index register stores exactly the
   indices inside of the matrix and changes nothing else; writing the value register is one
   persistent write that changes this byte and nothing else. *)
Theorem C18_paged_access :
  forall A (E : Env A), valid_env E -> c_dm cfg = true -> c_dm_paged cfg = true -> 0 < c_dm_rows cfg ->
  forall w, reachable w -> exists i, i < 8 * c_dm_rows cfg /\
    readRegister 0 126 w = (i, w) /\
    readRegister 0 127 w = (stored w FDm i, w) /\
    (forall v, v < 256 -> writable w ->
       let w' := snd (writeRegister 0 126 v w) in
       snd (readRegister 0 126 w') = w' /\ fst (readRegister 0 126 w') = (if v <? 8 * c_dm_rows cfg then v else i) /\
       exists j, w' = set_dmIdx j w) /\
    (forall v, v < 256 -> writable w ->
       let w' := snd (writeRegister 0 127 v w) in
       fst (writeRegister 0 127 v w) = (v, false) /\ onlyMemory w w' /\ (exists x, effects w w' = [OPs x v]) /\
       forall g j, j < fieldLen cfg g -> stored w' g j = if field_eqb FDm g && (i =? j) then v else stored w g j).
Proof.
  intros A E VE HD HP HR w Hw. pose proof (idx_reach VE HP HR w Hw) as HI. exists (w_dmIdx w). split; [exact HI|].
  split; [apply paged_index; assumption|]. split; [apply paged_value; assumption|]. split.
  - intros v Hv HW. cbv zeta. rewrite (paged_index_write VE HP HR HD w v Hv HW). cbn [snd]. rewrite (paged_index HP HR HD). cbn [fst snd].
    split; [reflexivity|]. destruct (v <? 8 * c_dm_rows cfg).
    + split; [reflexivity|exists v; reflexivity].
    + split; [reflexivity|exists (w_dmIdx w); destruct w; reflexivity].
  - intros v Hv HW. apply (paged_value_write VE HP HR HD w v Hv HW HI).
Qed.
Print Assumptions C18_paged_access.

Example C18_example :
  let c := exCfg oPage in let E := exEnv c in
  let w := run [EOp (OpProcess None); EOp (OpProcess (Some (exMsg 0 11 0 [5; 126; 9])))] (powerUp (exMem c 5 (ps_dm c) [0;0;0;0;0;0;0;0;0;77]) regs0 []) in
  valid_env E /\ reachable w /\ writable w /\ fst (readRegister 0 126 w) = 9 /\ fst (readRegister 0 127 w) = 77 /\
  fst (readRegister 0 126 (snd (writeRegister 0 126 32 w))) = 9.
Proof. cbv zeta. split; [exvalid|]. split; [exreachM|]. vmc. Qed.

(* C23: the registers of the rule set window are the bytes of the stored rule set; all other
   registers outside of the VSCP register area go to the application.
   Partial: rule sets smaller than 256 bytes, without a standard decision matrix; a window on page
   0 reaches only up to register 127. The general claim is refuted below. *)
Theorem C23_rule_window_partial :
  forall A (E : Env A), valid_env E ->
  c_dm_ng cfg = true -> c_dm cfg = false -> 0 < c_ng_size cfg -> c_ng_size cfg < 256 ->
  (forall k, k < c_ng_size cfg -> c_ng_page cfg <> 0 \/ k < 128 -> isWindowOn (c_ng_page cfg) k FNg k) /\
  (forall p a, a < 256 -> ~ (p = 0 /\ 128 <= a) -> ~ (p = c_ng_page cfg /\ a < c_ng_size cfg) -> isAppRegister p a).
Proof.
  intros A E VE HN HD H0 H1. split.
  - intros k Hk HP. apply ng_window; assumption.
  - intros p a Ha HQ HW. apply app_register; try assumption.
    + rewrite HD. reflexivity.
    + rewrite HN, ng_single by assumption. cbn [andb]. lia.
    + exact ext_doApi.
Qed.
Print Assumptions C23_rule_window_partial.

Example C23_example :
  let c := exCfg oNg in let E := exEnv c in
  let w := run [EOp (OpProcess None)] (powerUp (exMem c 5 (ps_ng c) [11; 12; 13]) regs0 []) in
  valid_env E /\ reachable w /\ c_ng_size cfg = 32 /\ writable w /\ fst (readRegister 2 2 w) = 13 /\ fst (readRegister 2 31 w) = 0 /\
  fst (readRegister 2 32 w) = regs0 2 32 /\ stored (snd (writeRegister 2 2 99 w)) FNg 2 = 99.
Proof. cbv zeta. split; [exvalid|]. split; [exreachM|]. vmc. Qed.

(* a rule set of exactly one page also claims the following page: its registers are taken away
   from the application and show the rule set a second time *)
Theorem C23_last_page_refuted :
  exists (E : Env Regs), valid_env E /\ c_dm_ng cfg = true /\ c_ng_size cfg = 256 /\
  exists w a, reachable w /\ a < 256 /\ writable w /\
    fst (readRegister (c_ng_page cfg + 1) a w) = stored w FNg a /\
    ~ isAppRegister (c_ng_page cfg + 1) a /\
    stored (snd (writeRegister (c_ng_page cfg + 1) a 55 w)) FNg a = 55 /\ stored w FNg a <> 55.
Proof.
  pose (c := exCfg (mkOpts false false true true false false false false true false false false 0 4 256 5)).
  pose (E := exEnv c). exists E. split; [exvalid|]. split; [reflexivity|]. split; [reflexivity|].
  exists (run [EOp (OpProcess None)] (powerUp (exMem c 5 (ps_ng c) [99]) regs0 [])), 0.
  split; [exreachM|]. split; [reflexivity|]. split; [reflexivity|]. split; [reflexivity|]. split; [|vmc].
  intros H. specialize (H (run [EOp (OpProcess None)] (powerUp (exMem c 5 (ps_ng c) [99]) regs0 []))).
  destruct H as ((H & _) & _). vm_compute in H. discriminate H.
Qed.
Print Assumptions C23_last_page_refuted.

(* the bytes of a larger rule set from 256 on are not reachable: their registers show byte k - 256 *)
Theorem C23_alias_refuted :
  exists (E : Env Regs), valid_env E /\ c_dm_ng cfg = true /\
  exists w k, reachable w /\ k < c_ng_size cfg /\
    fst (readRegister (c_ng_page cfg + k / 256) (k mod 256) w) <> stored w FNg k.
Proof.
  pose (c := exCfg (mkOpts false false true true false false false false true false false false 0 4 300 5)).
  pose (E := exEnv c). exists E. split; [exvalid|]. split; [reflexivity|].
  exists (run [EOp (OpProcess None)] (powerUp (exMem c 5 (ps_ng c + 256) [99]) regs0 [])), 256.
  split; [exreachM|]. vmc.
Qed.
Print Assumptions C23_alias_refuted.
