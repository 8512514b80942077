(** Properties C01-C10: the virtual machine (src/vm, include/buxn/vm).

    Vocabulary.  [st] is the state of the interpreter loop, [abs x] the machine
    it stands for (VmSpec), [wf_st x] says that the C data is well typed (every
    uint8_t is a byte, pc is a uint16_t) and that the host allocated at least
    64 KiB.  [step] executes one instruction; [spec_step] is the reference table.
    [dei] and [deo] are arbitrary host callbacks. *)
From Verif Require Import Base VmModel VmSpec VmProofs VmStep VmRun VmHook VmModes VmAddr.
From Coq Require Import ZifyBool.

(** ** A concrete machine for the examples: memory holds [prog] at 0x100. *)
Definition ex_mem (prog : list Z) : arr :=
  fun i => if (256 <=? i) && (i <? 256 + Z.of_nat (length prog)) then nth (Z.to_nat (i - 256)) prog 0 else 0.
Definition ex_vm (wsp : Z) (ws : list Z) (prog : list Z) : vm :=
  mkVm wsp 0 (fun i => if (0 <=? i) && (i <? Z.of_nat (length ws)) then nth (Z.to_nat i) ws 0 else 0)
       (fun _ => 0) (fun _ => 0) (ex_mem prog) 65536.
(** A host that records the ports it is asked about, newest first. *)
Definition ex_dei (a : Z) (v : vm) (w : list Z) : res (Z * vm * list Z) := Ok (a + 1, v, a :: w).
Definition ex_deo (a : Z) (v : vm) (w : list Z) : res (vm * list Z) := Ok (v, a :: w).
Definition ex_st (wsp : Z) (ws prog : list Z) : st (list Z) :=
  initial _ 0 0 256 (ex_vm wsp ws prog) [].
Definition ex_step := step (list Z) ex_dei ex_deo true.

Lemma nth_byte l n : Forall is_byte l -> is_byte (nth n l 0).
Proof.
  intros H. destruct (Nat.lt_ge_cases n (length l)).
  - rewrite Forall_forall in H. apply H, nth_In; auto.
  - rewrite nth_overflow by auto. unfold is_byte; lia.
Qed.
Lemma ex_wf wsp ws prog : is_byte wsp -> Forall is_byte ws -> Forall is_byte prog ->
  wf_st _ (ex_st wsp ws prog).
Proof.
  intros H1 H2 H3. constructor; [constructor| | |]; cbn; try intros i Hi; unfold ex_mem;
  repeat match goal with |- context [if ?b then _ else _] => destruct b end;
  try apply nth_byte; auto; unfold is_byte, is_short in *; try lia.
Qed.
Lemma ex_host_wt : host_well_typed ex_dei ex_deo.
Proof. split; intros; unfold ex_dei, ex_deo in *; congruence. Qed.
Lemma bytes_list l : forallb (fun b => (0 <=? b) && (b <? 256)) l = true -> Forall is_byte l.
Proof. rewrite forallb_forall, Forall_forall. intros H b Hb. specialize (H b Hb). unfold is_byte. lia. Qed.
Ltac bytes := first [apply bytes_list; vm_compute; reflexivity | unfold is_byte; lia].

(** ** C01 *)
Theorem C01_instruction_semantics :
  forall W dei deo hi_first (x : st W),
  wf_st W x ->
  let op := opcode_at W x in
  ~ is_brk op -> ~ is_device_op op -> ~ mul_overflows op (abs W x) ->
  exists x', step W dei deo hi_first x = Ok (true, x') /\
    machine_eq (abs W x') (spec_step op (abs W x)) /\
    (s_w W x' = s_w W x) /\ vm_msize (s_vm W x') = vm_msize (s_vm W x) /\ wf_st W x'.
Proof.
  intros W dei deo hi x Hw op H1 H2 H3.
  destruct (step_refines W dei deo hi x Hw H1 H2 H3) as (x' & A & B & (C1 & C2 & _) & D).
  exists x'. auto.
Qed.
Print Assumptions C01_instruction_semantics.

(** SWP2 with the stack pointer wrapped around: operands at 0xfe..0xff and 0x00..0x01. *)
Example C01_case :
  let x := ex_st 2 ([7; 9] ++ repeat 0 252 ++ [1; 2]) [36] in
  wf_st _ x /\ ~ is_brk (opcode_at _ x) /\ ~ is_device_op (opcode_at _ x) /\
  ~ mul_overflows (opcode_at _ x) (abs _ x) /\
  match ex_step x with
  | Ok (true, x') => map (vm_ws (s_vm _ x')) [254; 255; 0; 1] = [7; 9; 1; 2] /\ s_wsp _ x' = 2
  | _ => False end.
Proof.
  split; [apply ex_wf; bytes|].
  split; [vm_compute; discriminate|]. split; [vm_compute; intros [H|H]; discriminate|].
  split; [intros (H & _); vm_compute in H; discriminate|]. vm_compute. auto.
Qed.

(** ** C02 *)
Theorem C02_keep_mode :
  forall W dei deo hi_first op (x : st W),
  0 <= op < 128 -> op mod 32 <> 0 -> ~ is_device_op op ->
  wf_st W x -> ~ mul_overflows op (abs W x) ->
  exists xp xk,
    exec_byte W dei deo hi_first op x = Ok (true, xp) /\
    exec_byte W dei deo hi_first (op + 128) x = Ok (true, xk) /\
    let r := flag op 64 in
    keep_vs_plain (total (operand_widths (operation (op mod 32)) (flag op 32)))
      (if r then rst (abs W x) else wst (abs W x))
      (if r then rst (abs W xp) else wst (abs W xp))
      (if r then rst (abs W xk) else wst (abs W xk)) /\
    stack_eq (if r then wst (abs W xp) else rst (abs W xp))
             (if r then wst (abs W xk) else rst (abs W xk)) /\
    (forall i, ram (abs W xp) i = ram (abs W xk) i) /\
    (forall i, 0 <= i < 256 -> devp (abs W xp) i = devp (abs W xk) i) /\
    ip (abs W xp) = ip (abs W xk) /\ s_w W xp = s_w W x /\ s_w W xk = s_w W x.
Proof. exact keep_mode. Qed.
Print Assumptions C02_keep_mode.

(** ADD and ADDk of 3 and 4. *)
Example C02_case :
  let x := ex_st 2 [3; 4] [] in
  wf_st _ x /\ ~ is_device_op 24 /\ ~ mul_overflows 24 (abs _ x) /\
  match exec_byte _ ex_dei ex_deo true 24 x, exec_byte _ ex_dei ex_deo true (24 + 128) x with
  | Ok (true, p), Ok (true, k) =>
      map (vm_ws (s_vm _ p)) [0] = [7] /\ s_wsp _ p = 1 /\
      map (vm_ws (s_vm _ k)) [0; 1; 2] = [3; 4; 7] /\ s_wsp _ k = 3
  | _, _ => False end.
Proof.
  split; [apply ex_wf; bytes|]. split; [vm_compute; intros [H|H]; discriminate|].
  split; [intros (H & _); vm_compute in H; discriminate|]. vm_compute. auto.
Qed.

(** ** C03 *)
Theorem C03_return_mode :
  forall W dei deo hi_first op (x : st W),
  is_byte op -> flag op 64 = false ->
  (op mod 32 <> 0 \/ op = 128 \/ op = 160) ->
  (is_device_op op -> host_symmetric W dei deo /\ host_well_typed dei deo) ->
  wf_st W x ->
  swapped W (exec_byte W dei deo hi_first op x)
            (exec_byte W dei deo hi_first (op + 64) (swap_st W x)).
Proof. exact return_mode. Qed.
Print Assumptions C03_return_mode.

(** DEI and STH: the recording host treats both stacks alike. *)
Example C03_case :
  host_symmetric _ ex_dei ex_deo /\ host_well_typed ex_dei ex_deo /\
  flag 22 64 = false /\ flag 15 64 = false /\
  match exec_byte _ ex_dei ex_deo true (15 + 64) (swap_st _ (ex_st 2 [3; 4] [])) with
  | Ok (true, y) => s_rsp _ y = 1 /\ s_wsp _ y = 1 /\ vm_ws (s_vm _ y) 0 = 4
  | _ => False end.
Proof.
  split; [split; intros; reflexivity|]. split; [exact ex_host_wt|].
  split; [reflexivity|]. split; [reflexivity|]. vm_compute. auto.
Qed.

(** ** C04 *)
(** No run, of any length, with any well typed callbacks and hook that do not
    themselves fail, accesses memory outside the allocation, a stack cell
    outside 0..255 or a device byte outside 0..255: the only failure is the
    overflow of short multiplication. *)
Theorem C04_memory_safety :
  forall W dei deo hi_first hook fuel kw kr pc v w f,
  well_typed v -> is_short pc ->
  host_well_typed dei deo -> hook_well_typed W hook ->
  (forall g, ~ callback_fault W dei deo g) -> (forall g, ~ hook_fault W hook g) ->
  execute W dei deo hi_first hook kw kr fuel pc v w = Crash W f ->
  exists n, n > 2147483647 /\ f = SignedOverflow n.
Proof.
  intros W dei deo hi hook fuel kw kr pc v w f Hv Hp HH Hh H1 H2. unfold execute.
  destruct (pc =? 0); [discriminate|]. intros E.
  pose proof (run_cases W dei deo hi hook fuel _ HH Hh (wf_initial W dei deo hi kw kr pc v w Hv Hp)) as R.
  rewrite E in R. destruct R as [R|[R|R]]; auto; exfalso; [eapply H1|eapply H2]; eauto.
Qed.
Print Assumptions C04_memory_safety.

(** Memory at or above 0x10000 keeps its content, as long as the device
    callbacks keep it. *)
Theorem C04_high_memory :
  forall W dei deo hi_first fuel kw kr pc v w v' w',
  well_typed v -> is_short pc -> host_well_typed dei deo -> host_keeps_high W dei deo ->
  execute W dei deo hi_first None kw kr fuel pc v w = Done W v' w' ->
  vm_msize v' = vm_msize v /\ forall i, 65536 <= i -> vm_mem v' i = vm_mem v i.
Proof.
  intros W dei deo hi fuel kw kr pc v w v' w' Hv Hp HH HK. unfold execute.
  destruct (pc =? 0).
  - intros E. injection E as <- <-. auto.
  - intros E. exact (run_high W dei deo hi fuel _ (wf_initial W dei deo hi kw kr pc v w Hv Hp) HH HK v' w' E).
Qed.
Print Assumptions C04_high_memory.

(** One CPU instruction that is not a device access, whatever the callbacks are. *)
Theorem C04_instruction_high_memory :
  forall W dei deo hi_first (x : st W) b x',
  wf_st W x -> host_well_typed dei deo -> ~ is_device_op (opcode_at W x) ->
  step W dei deo hi_first x = Ok (b, x') ->
  forall i, 65536 <= i -> vm_mem (s_vm W x') i = vm_mem (s_vm W x) i.
Proof.
  intros W dei deo hi x b x' Hw HH Hd E.
  apply (step_high W dei deo hi x Hw HH (fun H => match Hd H with end) b x' E).
Qed.
Print Assumptions C04_instruction_high_memory.

(** A store to 0xffff in short mode (wraps to 0x0000) in a 64 KiB memory, then BRK. *)
Example C04_case :
  let v := ex_vm 4 [171; 205; 255; 255] [53 (* STA2 *); 0] in
  well_typed v /\ is_short 256 /\ host_well_typed ex_dei ex_deo /\
  (forall g, ~ callback_fault _ ex_dei ex_deo g) /\ host_keeps_high _ ex_dei ex_deo /\
  match execute _ ex_dei ex_deo true None 0 0 10 256 v [] with
  | Done _ v' _ => vm_mem v' 65535 = 171 /\ vm_mem v' 0 = 205
  | _ => False end.
Proof.
  split; [apply wf_well_typed; apply (wfs_vm _ _ (ex_wf 4 [171; 205; 255; 255] [53; 0] ltac:(bytes) ltac:(bytes) ltac:(bytes)))|].
  split; [unfold is_short; lia|]. split; [exact ex_host_wt|].
  split; [intros g (a & v & w & _ & _ & [H|H]); discriminate|].
  split; [split; intros; unfold ex_dei, ex_deo in *; split; congruence|].
  vm_compute. auto.
Qed.

(** ** C05 *)
Theorem C05_load_wraps :
  forall W dei deo hi_first (x : st W) a md,
  wf_st W x ->
  let op := opcode_at W x in let m := abs W x in
  accesses 16 op m a md -> flag op 32 = true ->
  exists x', step W dei deo hi_first x = Ok (true, x') /\
    top_short (here op (abs W x')) = 256 * ram m (a mod md) + ram m ((a + 1) mod md).
Proof. exact load_wraps. Qed.
Print Assumptions C05_load_wraps.

Theorem C05_store_wraps :
  forall W dei deo hi_first (x : st W) a md,
  wf_st W x ->
  let op := opcode_at W x in let m := abs W x in
  accesses 17 op m a md -> flag op 32 = true ->
  exists x', step W dei deo hi_first x = Ok (true, x') /\
    let v := short_below (here op m) (if op mod 32 =? 21 then 2 else 1) in
    forall i, ram (abs W x') i =
      (if i =? (a + 1) mod md then v mod 256 else if i =? a mod md then v / 256 else ram m i).
Proof. exact store_wraps. Qed.
Print Assumptions C05_store_wraps.

Theorem C05_jump_wraps :
  forall W dei deo hi_first (x : st W),
  wf_st W x ->
  let op := opcode_at W x in let m := abs W x in
  ((op mod 32 = 12 \/ op mod 32 = 14 \/
    (op mod 32 = 13 /\ cell (here op m) ((depth (here op m) - 2) mod 256) <> 0)) /\ flag op 32 = false ->
   exists x', step W dei deo hi_first x = Ok (true, x') /\
     s_pc _ x' = (s_pc _ x + 1 + signed (top_byte (here op m))) mod 65536) /\
  ((op = 64 \/ op = 96 \/ (op = 32 /\ top_byte (wst m) <> 0)) ->
   exists x', step W dei deo hi_first x = Ok (true, x') /\
     s_pc _ x' = (s_pc _ x + 3 +
        (256 * ram m ((s_pc _ x + 1) mod 65536) + ram m ((s_pc _ x + 2) mod 65536))) mod 65536).
Proof. exact jump_wraps. Qed.
Print Assumptions C05_jump_wraps.

(** LDZ2 at 0xff, and JMP by -2. *)
Example C05_case :
  let x := ex_st 1 [255] [48] in
  accesses 16 (opcode_at _ x) (abs _ x) 255 256 /\ flag (opcode_at _ x) 32 = true /\
  let y := ex_st 1 [254] [12] in
  opcode_at _ y mod 32 = 12 /\ flag (opcode_at _ y) 32 = false /\
  match ex_step y with Ok (true, y') => s_pc _ y' = 255 | _ => False end.
Proof. repeat split; vm_compute; auto. Qed.

(** ** C06 *)
(** [passive observe] is a hook that reads the VM and updates only its own state;
    the hooked run ends exactly as the unhooked run, and the private state is the
    fold of [observe] over the sequence of states at which the unhooked run
    fetches an instruction ([sync] has the real stack pointers). *)
Theorem C06_hook_transparent :
  forall W L dei deo hi_first (observe : Z -> vm -> W -> L -> L) fuel kw kr pc v w l,
  execute (W * L) (dei_l W L dei) (deo_l W L deo) hi_first (Some (passive W L observe))
          kw kr fuel pc v (w, l) =
  with_log W L (execute W dei deo hi_first None kw kr fuel pc v w)
     (if pc =? 0 then l
      else log_of W L observe (visited W dei deo hi_first fuel (initial W kw kr pc v w)) l).
Proof. intros. apply hook_execute. Qed.
Print Assumptions C06_hook_transparent.

(** LIT 03, LIT 04, ADD, BRK: the hook sees pc and working stack pointer. *)
Example C06_case :
  match execute (list Z * list (Z * Z)) (dei_l _ _ ex_dei) (deo_l _ _ ex_deo) true
          (Some (passive _ _ (fun pc v _ l => l ++ [(pc, vm_wsp v)]))) 0 0 10 256
          (ex_vm 0 [] [128; 3; 128; 4; 24; 0]) ([], []) with
  | Done _ v (_, l) => vm_ws v 0 = 7 /\ l = [(256, 0); (258, 1); (260, 2); (261, 1)]
  | _ => False end.
Proof. vm_compute. auto. Qed.

(** ** C07 *)
Theorem C07_zero_vector :
  forall W dei deo hi_first hook kw kr fuel v w,
  execute W dei deo hi_first hook kw kr fuel 0 v w = Done W v w.
Proof. reflexivity. Qed.
Print Assumptions C07_zero_vector.

Theorem C07_returns_iff_brk :
  forall W dei deo hi_first kw kr fuel pc v w,
  well_typed v -> is_short pc -> pc <> 0 -> host_well_typed dei deo ->
  forall v' w',
  execute W dei deo hi_first None kw kr fuel pc v w = Done W v' w' <->
  exists n y, (n < fuel)%nat /\
    steps W dei deo hi_first n (initial W kw kr pc v w) y /\
    vm_mem (s_vm W y) (s_pc W y) = 0 /\
    v' = vm_set_ptrs (s_vm W y) (s_wsp W y) (s_rsp W y) /\ w' = s_w W y.
Proof.
  intros W dei deo hi kw kr fuel pc v w Hv Hp H0 HH v' w'. unfold execute.
  replace (pc =? 0) with false by lia.
  apply run_done_iff; auto. apply wf_initial; auto.
Qed.
Print Assumptions C07_returns_iff_brk.

Theorem C07_fuel_irrelevant :
  forall W dei deo hi_first hook kw kr fuel k pc v w v' w',
  execute W dei deo hi_first hook kw kr fuel pc v w = Done W v' w' ->
  execute W dei deo hi_first hook kw kr (fuel + k) pc v w = Done W v' w'.
Proof.
  intros W dei deo hi hook kw kr fuel k pc v w v' w'. unfold execute. destruct (pc =? 0); auto.
  apply run_fuel.
Qed.
Print Assumptions C07_fuel_irrelevant.

Example C07_case :
  match execute _ ex_dei ex_deo true None 0 0 10 256 (ex_vm 0 [] [128; 3; 0]) [] with
  | Done _ v _ => vm_wsp v = 1 /\ vm_ws v 0 = 3 | _ => False end.
Proof. vm_compute. auto. Qed.

(** ** C08 *)
Theorem C08_reset :
  forall v flags, 0 <= flags -> 256 <= vm_msize v ->
  exists v', reset v flags = Ok v' /\ reset_spec flags v v'.
Proof. exact reset_correct. Qed.
Print Assumptions C08_reset.

Theorem C08_soft_reset_keeps :
  forall v, 256 <= vm_msize v ->
  exists v', reset v RESET_SOFT = Ok v' /\
    (forall i, 0 <= i < 256 -> vm_mem v' i = vm_mem v i /\ vm_dev v' i = vm_dev v i) /\
    (forall i, 256 <= i < vm_msize v -> vm_mem v' i = 0) /\ vm_wsp v' = 0 /\ vm_rsp v' = 0.
Proof.
  intros v Hs. destruct (reset_correct v RESET_SOFT ltac:(vm_compute; discriminate) Hs) as (v' & E & [A B C D F G]).
  exists v'. split; auto. split; [intros; split; [rewrite F|rewrite D]; auto|].
  split; [intros; rewrite G by auto; reflexivity|]. exact B.
Qed.
Print Assumptions C08_soft_reset_keeps.

Example C08_case :
  match reset (ex_vm 3 [1; 2; 3] [5; 6]) RESET_STACK with
  | Ok v => vm_wsp v = 0 /\ vm_ws v 1 = 0 /\ vm_mem v 257 = 6 | _ => False end.
Proof. vm_compute. auto. Qed.

(** ** C09 *)
Theorem C09_only_mul2_overflows :
  forall W dei deo hi_first (x : st W),
  wf_st W x -> ~ is_device_op (opcode_at W x) ->
  ((exists f, step W dei deo hi_first x = Fault f) <-> mul_overflows (opcode_at W x) (abs W x)).
Proof.
  intros W dei deo hi x Hw Hd. split.
  - intros (f & E).
    assert (Hb : is_brk (opcode_at W x) \/ ~ is_brk (opcode_at W x)) by (unfold is_brk; lia).
    destruct Hb as [Hb|Hb].
    + destruct (step_brk W dei deo hi x Hw Hb) as (? & ? & _). congruence.
    + assert (Hm : mul_overflows (opcode_at W x) (abs W x) \/ ~ mul_overflows (opcode_at W x) (abs W x)).
      { rewrite mul_overflows_spec. cbv zeta.
        match goal with |- context [INT_MAX < ?a] => destruct (Z_lt_dec INT_MAX a); [|tauto] end.
        destruct (flag (opcode_at W x) 32); [|right; intros (?&?&?&?); discriminate].
        destruct (Z.eq_dec (opcode_at W x mod 32) 0); [tauto|].
        destruct (operation (opcode_at W x mod 32)); try (right; intros (?&?&?&?); discriminate). auto. }
      destruct Hm as [Hm|Hm]; auto.
      destruct (step_refines W dei deo hi x Hw Hb Hd Hm) as (? & ? & _). congruence.
  - intros Hm. destruct (step_mul_overflow W dei deo hi x Hw Hm) as (v & _ & E). eauto.
Qed.
Print Assumptions C09_only_mul2_overflows.

(** The overflow is reachable: 0xffff * 0xffff by MUL2. *)
Theorem C09_mul2_no_ub_refuted :
  exists x : st (list Z), wf_st _ x /\ opcode_at _ x = 58 /\
    ex_step x = Fault (SignedOverflow 4294836225).
Proof.
  exists (ex_st 4 [255; 255; 255; 255] [58]). split; [apply ex_wf; bytes|].
  split; vm_compute; reflexivity.
Qed.
Print Assumptions C09_mul2_no_ub_refuted.

(** ** C10 *)
Theorem C10_output :
  forall W dei deo hi_first (x : st W),
  wf_st W x ->
  let op := opcode_at W x in
  op mod 32 = 23 ->
  let keep := flag op 128 in let ret := flag op 64 in let short := flag op 32 in
  match host_out W deo short (port_of ret (abs W x)) (value_of ret short (abs W x))
          (consume (sync W x) keep ret (1 + width short)) (s_w W x) with
  | Ok (v, w) => exists x', step W dei deo hi_first x = Ok (true, x') /\
      s_vm W x' = v /\ s_wsp W x' = vm_wsp v /\ s_rsp W x' = vm_rsp v /\
      s_pc W x' = (s_pc W x + 1) mod 65536 /\ s_w W x' = w
  | Fault f => step W dei deo hi_first x = Fault f
  end.
Proof.
  intros W dei deo hi x Hw op Hop. cbv zeta.
  pose proof (exec_DEO W dei deo hi (flag op 128) (flag op 64) (flag op 32) (fetched W x) (wf_fetched W x Hw)) as H.
  change (port_of (flag op 64) (abs W (fetched W x))) with (port_of (flag op 64) (abs W x)) in H.
  change (value_of (flag op 64) (flag op 32) (abs W (fetched W x))) with (value_of (flag op 64) (flag op 32) (abs W x)) in H.
  change (sync W (fetched W x)) with (sync W x) in H.
  change (s_w W (fetched W x)) with (s_w W x) in H.
  assert (E : step W dei deo hi x = exec_label W dei deo hi (Poly DEO (flag op 128) (flag op 64) (flag op 32)) (fetched W x)).
  { rewrite step_fetch by auto. rewrite device_op_label; [|apply opcode_byte; auto|right; exact Hop].
    fold op. rewrite Hop. reflexivity. }
  rewrite E. destruct (host_out _ _ _ _ _ _ _) as [[v w]|f]; rewrite H; auto.
  eexists. split; [reflexivity|]. repeat split.
Qed.
Print Assumptions C10_output.

Theorem C10_input :
  forall W dei deo hi_first (x : st W),
  wf_st W x ->
  let op := opcode_at W x in
  op mod 32 = 22 ->
  let keep := flag op 128 in let ret := flag op 64 in let short := flag op 32 in
  match host_in W dei hi_first short (port_of ret (abs W x))
          (consume (sync W x) keep ret 1) (s_w W x) with
  | Ok (b, v, w) =>
      well_typed v ->
      exists x', step W dei deo hi_first x = Ok (true, x') /\
        machine_eq (abs W x') (push_value ret short b (machine_of v ((s_pc W x + 1) mod 65536))) /\
        s_w W x' = w /\ vm_msize (s_vm W x') = vm_msize v
  | Fault f => step W dei deo hi_first x = Fault f
  end.
Proof.
  intros W dei deo hi x Hw op Hop. cbv zeta.
  pose proof (exec_DEI W dei deo hi (flag op 128) (flag op 64) (flag op 32) (fetched W x) (wf_fetched W x Hw)) as H.
  change (port_of (flag op 64) (abs W (fetched W x))) with (port_of (flag op 64) (abs W x)) in H.
  change (sync W (fetched W x)) with (sync W x) in H.
  change (s_w W (fetched W x)) with (s_w W x) in H.
  assert (E : step W dei deo hi x = exec_label W dei deo hi (Poly DEI (flag op 128) (flag op 64) (flag op 32)) (fetched W x)).
  { rewrite step_fetch by auto. rewrite device_op_label; [|apply opcode_byte; auto|left; exact Hop].
    fold op. rewrite Hop. reflexivity. }
  rewrite E. destruct (host_in _ _ _ _ _ _ _) as [[[b v] w]|f]; auto.
  intros Hv. destruct (H Hv) as (x' & A & B & C & D & _). eauto 8.
Qed.
Print Assumptions C10_input.

(** DEO2 of 0x1234 to port 0xff: both bytes are stored, the second at port 0x00,
    and the callback is called for 0xff and then 0x00. *)
Example C10_case :
  let x := ex_st 3 [18; 52; 255] [55] in
  wf_st _ x /\ opcode_at _ x mod 32 = 23 /\
  match ex_step x with
  | Ok (true, x') => vm_dev (s_vm _ x') 255 = 18 /\ vm_dev (s_vm _ x') 0 = 52 /\
                     s_w _ x' = [0; 255] /\ s_wsp _ x' = 0
  | _ => False end.
Proof. split; [apply ex_wf; bytes|]. vm_compute. auto. Qed.
