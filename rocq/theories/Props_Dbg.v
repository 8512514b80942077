(** Properties C31-C35: the debugger core (src/dbg/core.c).

    [reachable s]: [s] is a state of the debugger and its wire that some program
    and some client can produce (DbgSpec).  A [call] is one call of the hook:
    position, machine and debugger before and after; [emits c ev] are the events
    and commands the wire saw during it.  [table log id] is the breakpoint last
    set for [id] in [log].  Hosts ([dei], [deo]), programs and command streams are
    arbitrary. *)
From Verif Require Import Base VmModel VmSpec VmProofs VmRun VmHook DbgModel DbgSpec DbgProofs DbgHits DbgSteps DbgRun Props_VM.
From Coq Require Import ZifyBool.

(** ** Concrete debuggers for the examples *)
Notation exW := (list Z) (only parsing).
Definition ex_hook := dbg_hook exW ex_dei ex_deo.
Definition ex_side (input : list cmd) : dbg_side := mkSide (request_pause dbg_init) input [].
Definition do_call (pc : Z) (v : vm) (s : dbg_side) : call :=
  match ex_hook pc v ([], s) with
  | Ok (v', (_, s')) => mkCall pc v s v' s'
  | Fault _ => mkCall pc v s v s
  end.
Lemma do_call_ok pc v s : is_short pc -> well_typed v ->
  match ex_hook pc v ([], s) with Ok _ => true | _ => false end = true ->
  is_call exW ex_dei ex_deo (do_call pc v s) /\ c_side (do_call pc v s) = s /\
  c_pc (do_call pc v s) = pc /\ c_vm (do_call pc v s) = v.
Proof.
  intros Hp Hv. unfold do_call, ex_hook, is_call.
  destruct (dbg_hook exW ex_dei ex_deo pc v ([], s)) as [[v' [w' s']]|] eqn:E; [|discriminate].
  intros _. cbn. split; [|auto]. split; [auto|]. split; [auto|]. exists [], w'. exact E.
Qed.
Lemma ex_side_reachable input : Forall cmd_ok input -> reachable exW ex_dei ex_deo (ex_side input).
Proof. intros H. apply (reachable_pause _ _ _ (mkSide dbg_init input [])). apply reachable_init. auto. Qed.
Lemma ex_vm_wt wsp ws prog : is_byte wsp -> Forall is_byte ws -> Forall is_byte prog ->
  well_typed (ex_vm wsp ws prog).
Proof. intros. apply wf_well_typed. apply (ex_wf wsp ws prog); auto. Qed.
Definition ex_run (input : list cmd) (v : vm) :=
  execute (exW * dbg_side) (dei_l exW dbg_side ex_dei) (deo_l exW dbg_side ex_deo) true (Some ex_hook)
    0 0 100 256 v ([], ex_side input).

(** ** C31 *)
(** Every answer to a get command, and to the request for the number of
    breakpoints, in any history. *)
Theorem C31_get :
  forall W dei deo s, reachable W dei deo s ->
  forall pre id r post, ds_log s = pre ++ EvCmd (CmdBrkpGet id) r :: post ->
  if id =? 255 then r = RNone else r = RBrkp (table pre id).
Proof.
  intros W dei deo s H pre id r post E. apply reachable_T in H as [(_ & _ & H) _].
  exact (H _ _ _ _ E).
Qed.
Print Assumptions C31_get.

Theorem C31_count :
  forall W dei deo s, reachable W dei deo s ->
  forall pre r post, ds_log s = pre ++ EvCmd (CmdInfo InfoNbrkps) r :: post ->
  exists n, r = RCount n /\ count_is pre n.
Proof.
  intros W dei deo s H pre r post E. apply reachable_T in H as [(_ & _ & H) _].
  exact (H _ _ _ _ E).
Qed.
Print Assumptions C31_count.

(** The integration installs the hook exactly if it is needed. *)
Theorem C31_hook_requested :
  forall W dei deo s, reachable W dei deo s ->
  should_hook (ds_dbg s) = true <->
  d_type (ds_dbg s) <> StExecute \/
  exists id, 0 <= id < 255 /\ b_mask (table (ds_log s) id) <> 0.
Proof. exact hook_wanted. Qed.
Print Assumptions C31_hook_requested.

(** Set 3 and 7, ask, delete 7, ask again. *)
Example C31_case :
  let a := mkBrkp 256 6 in let b := mkBrkp 512 8 in
  let input := [CmdBrkpSet 3 a; CmdBrkpSet 7 b; CmdBrkpGet 3; CmdInfo InfoNbrkps;
                CmdBrkpSet 7 (mkBrkp 512 0); CmdInfo InfoNbrkps; CmdBrkpGet 7] in
  Forall cmd_ok input /\
  match ex_run input (ex_vm 0 [] [0]) with
  | Done _ _ (_, s) =>
      nth 4 (ds_log s) EvEndExec = EvCmd (CmdBrkpGet 3) (RBrkp a) /\
      nth 5 (ds_log s) EvEndExec = EvCmd (CmdInfo InfoNbrkps) (RCount 8) /\
      nth 7 (ds_log s) EvEndExec = EvCmd (CmdInfo InfoNbrkps) (RCount 4) /\
      nth 8 (ds_log s) EvEndExec = EvCmd (CmdBrkpGet 7) (RBrkp (mkBrkp 512 0))
  | _ => False end.
Proof.
  split; [repeat constructor; cbn; unfold brkp_ok, is_byte, is_short; cbn; lia|]. vm_compute. auto.
Qed.

(** ** C32 *)
(** [names b started v pc]: the breakpoint applies to what the instruction at [pc]
    is about to do.  [loads]/[writes]/[touches] are defined from the behaviour of
    the VM: the outcome depends on the cell, the contents afterwards do not
    depend on those before, the host is called for the port. *)
Theorem C32_hits :
  forall W dei deo c, reachable W dei deo (c_side c) -> is_call W dei deo c ->
  (wrapping_access (c_vm c) (c_pc c) -> forall id, 0 <= id < 255 ->
     b_addr (table (ds_log (c_side c)) id) <> 0 /\ b_addr (table (ds_log (c_side c)) id) <> 256) ->
  forall started, (started = true <-> starts c) ->
  forall id, reported c id <->
    lowest (table (ds_log (c_side c))) (fun b => names b started (c_vm c) (c_pc c)) id.
Proof. exact hit_theorem. Qed.
Print Assumptions C32_hits.

(** The remaining case, exactly: a short access at 0xff of the zero page or of
    the device page is taken to touch 0xff and 0x100. *)
Theorem C32_wrapping :
  forall W dei deo c, reachable W dei deo (c_side c) -> is_call W dei deo c ->
  wrapping_access (c_vm c) (c_pc c) ->
  forall started, (started = true <-> starts c) ->
  forall id, reported c id <->
    lowest (table (ds_log (c_side c))) (fun b => misnames b started (c_vm c) (c_pc c)) id.
Proof. exact wrapping_theorem. Qed.
Print Assumptions C32_wrapping.

(** What the instructions do, for reference: the cells and ports named above. *)
Theorem C32_loads :
  forall v pc a, well_typed v -> is_short pc ->
  loads v pc a <-> opcode v pc mod 32 <> 0 /\
    in_operand (load_operand (op_of v pc) (rmode v pc) (machine_of v pc)) (smode v pc) a.
Proof. exact loads_iff. Qed.
Print Assumptions C32_loads.

(** LDA2 at 0x1234 with breakpoint 5 watching loads of 0x1235. *)
Definition c32_input := [CmdBrkpSet 5 (mkBrkp 4661 10); CmdBrkpSet 9 (mkBrkp 4660 8); CmdResume].
Definition c32_prog := [160; 18; 52; 52; 0].
Definition c32_first := do_call 256 (ex_vm 0 [] c32_prog) (ex_side c32_input).
Definition c32_second := do_call 259 (ex_vm 2 [18; 52] c32_prog) (c_side' c32_first).
Lemma second_call (input : list cmd) prog wsp ws pc :
  Forall cmd_ok input -> Forall is_byte prog -> is_byte wsp -> Forall is_byte ws -> is_short pc ->
  let first := do_call 256 (ex_vm 0 [] prog) (ex_side input) in
  let second := do_call pc (ex_vm wsp ws prog) (c_side' first) in
  match ex_hook 256 (ex_vm 0 [] prog) ([], ex_side input) with Ok _ => true | _ => false end = true ->
  match ex_hook pc (ex_vm wsp ws prog) ([], c_side' first) with Ok _ => true | _ => false end = true ->
  reachable exW ex_dei ex_deo (c_side second) /\ is_call exW ex_dei ex_deo second /\
  c_pc second = pc /\ c_vm second = ex_vm wsp ws prog /\ c_side second = c_side' first.
Proof.
  intros H1 H2 H3 H4 H5 first second E1 E2.
  destruct (do_call_ok 256 (ex_vm 0 [] prog) (ex_side input)) as (A1 & A2 & _); auto.
  { unfold is_short; lia. } { apply ex_vm_wt; auto. unfold is_byte; lia. }
  assert (R : reachable exW ex_dei ex_deo (c_side' first)).
  { apply (reachable_call _ _ _ first); auto. unfold first. rewrite A2. apply ex_side_reachable; auto. }
  destruct (do_call_ok pc (ex_vm wsp ws prog) (c_side' first)) as (B1 & B2 & B3 & B4); auto.
  { apply ex_vm_wt; auto. }
  unfold second. rewrite B2. auto.
Qed.

Example C32_case :
  reachable exW ex_dei ex_deo (c_side c32_second) /\ is_call exW ex_dei ex_deo c32_second /\
  ~ wrapping_access (c_vm c32_second) (c_pc c32_second) /\
  loads (c_vm c32_second) (c_pc c32_second) 4661 /\
  emits c32_second [EvBeginBreak 5; EvCmd CmdResume RNone; EvEndBreak].
Proof.
  destruct (second_call c32_input c32_prog 2 [18; 52] 259) as (A1 & A2 & A3 & A4 & A5).
  { repeat constructor; cbn; unfold brkp_ok, is_byte, is_short; cbn; lia. }
  { bytes. } { bytes. } { bytes. } { unfold is_short; lia. }
  { vm_compute; reflexivity. } { vm_compute; reflexivity. }
  fold c32_first in *. fold c32_second in *. split; [auto|]. split; [auto|]. rewrite A3, A4. split; [|split].
  - rewrite wrapping_iff. intros (H & _). revert H. vm_compute. tauto || (intros H; repeat (destruct H as [H|H]; try discriminate H); auto).
  - apply loads_iff; [destruct A2 as (_ & A2 & _); rewrite <- A4; auto|unfold is_short; lia|].
    split; [vm_compute; discriminate|]. right. split; vm_compute; reflexivity.
  - unfold emits. vm_compute. reflexivity.
Qed.

(** The wrap-around exception is real: LDZ2 at 0xff loads the cells 0xff and 0,
    the load breakpoint on cell 0 stays silent. *)
Theorem C32_wrapped_load_missed_refuted :
  ~ (forall W dei deo c, reachable W dei deo (c_side c) -> is_call W dei deo c ->
     forall started, (started = true <-> starts c) ->
     forall id, reported c id <->
       lowest (table (ds_log (c_side c))) (fun b => names b started (c_vm c) (c_pc c)) id).
Proof.
  intros H.
  pose (input := [CmdBrkpSet 0 (mkBrkp 0 8); CmdResume]). pose (prog := [128; 255; 48; 0]).
  destruct (second_call input prog 1 [255] 258) as (A1 & A2 & A3 & A4 & A5).
  { repeat constructor; cbn; unfold brkp_ok, is_byte, is_short; cbn; lia. }
  { bytes. } { bytes. } { bytes. } { unfold is_short; lia. }
  { vm_compute; reflexivity. } { vm_compute; reflexivity. }
  set (first := do_call 256 _ _) in *. set (second := do_call 258 _ _) in *.
  assert (E : emits second []) by (unfold emits; vm_compute; reflexivity).
  assert (S : false = true <-> starts second).
  { split; [discriminate|]. intros (ev & E'). pose proof (emits_inj _ _ _ E E'). discriminate. }
  specialize (H _ _ _ second A1 A2 false S 0).
  destruct H as [_ H]. destruct H as (ev & E' & Hin & _).
  - split; [lia|]. split; [|intros; lia].
    assert (Et : table (ds_log (c_side second)) 0 = mkBrkp 0 8) by (vm_compute; reflexivity).
    rewrite Et, A3, A4. unfold names. cbn [b_mask b_addr].
    change (Z.testbit 8 0) with false. cbv iota. right. left. split; [reflexivity|].
    apply loads_iff; [destruct A2 as (_ & A2 & _); rewrite <- A4; auto|unfold is_short; lia|].
    split; [vm_compute; discriminate|]. right. split; vm_compute; reflexivity.
  - rewrite <- (emits_inj _ _ _ E E') in Hin. destruct Hin.
Qed.
Print Assumptions C32_wrapped_load_missed_refuted.

(** ** C33 *)
(** [a] is a call at which the program was paused and let go by [go]; [b] is a
    later call with no stop in between.  The depth is that of the return stack. *)
Theorem C33_stepping :
  forall W dei deo s l pre a mid b post s' go,
  reachable W dei deo s -> l = pre ++ a :: mid ++ b :: post -> calls W dei deo s l s' ->
  ended_by a go -> Forall (fun c => ~ stops c) mid ->
  stops b <-> pausing_hit b \/ wanted go (vm_rsp (c_vm' a)) (vm_rsp (c_vm b)).
Proof. exact step_theorem. Qed.
Print Assumptions C33_stepping.

(** Before any pause: a running debugger stops only at pausing breakpoints, a
    pause request stops at the next call. *)
Theorem C33_first_stop :
  forall W dei deo s l mid b post s',
  reachable W dei deo s -> l = mid ++ b :: post -> calls W dei deo s l s' ->
  Forall (fun c => ~ stops c) mid ->
  (d_type (ds_dbg s) = StExecute -> (stops b <-> pausing_hit b)) /\
  (d_type (ds_dbg s) = StPause -> stops b).
Proof. exact first_stop. Qed.
Print Assumptions C33_first_stop.

(** The depth a pause starts from is the depth at the instruction it stopped at,
    unless device commands were served. *)
Theorem C33_depth_of_pause :
  forall W dei deo c, host_well_typed dei deo ->
  reachable W dei deo (c_side c) -> is_call W dei deo c ->
  (forall ev, emits c ev -> Forall no_device ev) -> vm_rsp (c_vm' c) = vm_rsp (c_vm c).
Proof. exact call_rsp. Qed.
Print Assumptions C33_depth_of_pause.

(** A vector run under the debugger makes a sequence of calls as above: one per
    instruction, the first at its start address, the last at its BRK. *)
Theorem C33_vector_calls :
  forall W dei deo hi fuel kw kr pc v w s v' w' s',
  host_well_typed dei deo -> reachable W dei deo s -> well_typed v -> is_short pc -> pc <> 0 ->
  execute (W * dbg_side) (dei_l W dbg_side dei) (deo_l W dbg_side deo) hi (Some (dbg_hook W dei deo))
    kw kr fuel pc v (w, s) = Done _ v' (w', s') ->
  exists c rest, calls W dei deo s (c :: rest) s' /\ one_vector (c :: rest) /\
    c_pc c = pc /\ c_vm c = v.
Proof.
  intros W dei deo hi fuel kw kr pc v w s v' w' s' HH HR Hv Hp H0. unfold execute.
  replace (pc =? 0) with false by lia. intros H.
  destruct (run_calls W dei deo hi HH fuel (initial _ kw kr pc v (w, s)) v' w' s'
    (wf_initial _ (dei_l W dbg_side dei) (deo_l W dbg_side deo) hi _ _ _ _ _ Hv Hp) HR H) as (l & L1 & L2 & L3).
  destruct l as [|c rest]; [contradiction|]. exists c, rest. destruct L3 as [L3 L4].
  split; [exact L1|]. split; [exact L2|]. split; [exact L3|]. rewrite L4. destruct v; reflexivity.
Qed.
Print Assumptions C33_vector_calls.

(** JSI to a routine, stepping over it, then into the next instruction.
    0100: JSI 0104  0103: BRK  0104: LIT 7, POP, JMP2r (returns to 0103). *)
Example C33_case :
  match ex_run [CmdStepOver; CmdInfo InfoPc; CmdStepIn] (ex_vm 0 [] [96; 0; 2; 0; 0; 128; 7; 2; 108]) with
  | Done _ _ (_, s) =>
      ds_log s = [EvBeginExec 256; EvBeginBreak 255; EvCmd CmdStepOver RNone; EvEndBreak;
                  EvBeginBreak 255; EvCmd (CmdInfo InfoPc) (RPc 259); EvCmd CmdStepIn RNone; EvEndBreak;
                  EvEndExec]
  | _ => False end.
Proof. vm_compute. reflexivity. Qed.

(** A breakpoint that does not ask for a pause hides one that does and has a
    higher number: execution runs through a pausing breakpoint. *)
Theorem C33_shadowed_breakpoint_refuted :
  ~ (forall W dei deo c, reachable W dei deo (c_side c) -> is_call W dei deo c ->
     ~ wrapping_access (c_vm c) (c_pc c) ->
     forall id, 0 <= id < 255 ->
     names (table (ds_log (c_side c)) id) false (c_vm c) (c_pc c) ->
     Z.testbit (b_mask (table (ds_log (c_side c)) id)) 1 = true ->
     stops c).
Proof.
  intros H.
  pose (input := [CmdBrkpSet 0 (mkBrkp 258 4); CmdBrkpSet 1 (mkBrkp 258 6); CmdResume]).
  pose (prog := [128; 255; 2; 0]).
  destruct (second_call input prog 1 [255] 258) as (A1 & A2 & A3 & A4 & A5).
  { repeat constructor; cbn; unfold brkp_ok, is_byte, is_short; cbn; lia. }
  { bytes. } { bytes. } { bytes. } { unfold is_short; lia. }
  { vm_compute; reflexivity. } { vm_compute; reflexivity. }
  set (first := do_call 256 _ _) in *. set (second := do_call 258 _ _) in *.
  assert (E : emits second [EvBeginBreak 0; EvEndBreak]) by (unfold emits; vm_compute; reflexivity).
  assert (Et : table (ds_log (c_side second)) 1 = mkBrkp 258 6) by (vm_compute; reflexivity).
  destruct (H _ _ _ second A1 A2) with (id := 1) as (ev & cm & r & E' & Hin).
  - rewrite A3, A4. rewrite wrapping_iff. intros (Hw & _). revert Hw. vm_compute.
    intros Hw; repeat (destruct Hw as [Hw|Hw]; try discriminate Hw); auto.
  - lia.
  - rewrite Et, A3. unfold names. cbn [b_mask b_addr]. change (Z.testbit 6 0) with false. cbv iota.
    left. split; reflexivity.
  - rewrite Et. reflexivity.
  - rewrite <- (emits_inj _ _ _ E E') in Hin. destruct Hin as [Hin|[Hin|[]]]; discriminate.
Qed.
Print Assumptions C33_shadowed_breakpoint_refuted.

(** ** C34 *)
(** At any time the wire has seen complete sessions, followed by one unfinished
    session exactly while a vector is executing. *)
Theorem C34_well_nested :
  forall W dei deo s, reachable W dei deo s ->
  exists closed, sessions closed /\
    if d_executing (ds_dbg s) then exists pc rest, open_session pc rest /\ ds_log s = closed ++ rest
    else ds_log s = closed.
Proof. exact reachable_nested. Qed.
Print Assumptions C34_well_nested.

(** A vector that runs to its end adds one session, opened with its address. *)
Theorem C34_vector_session :
  forall W dei deo hi fuel kw kr pc v w s v' w' s',
  host_well_typed dei deo -> reachable W dei deo s -> well_typed v -> is_short pc -> pc <> 0 ->
  d_executing (ds_dbg s) = false ->
  execute (W * dbg_side) (dei_l W dbg_side dei) (deo_l W dbg_side deo) hi (Some (dbg_hook W dei deo))
    kw kr fuel pc v (w, s) = Done _ v' (w', s') ->
  reachable W dei deo s' /\ d_executing (ds_dbg s') = false /\
  exists e, ds_log s' = ds_log s ++ e /\ session pc e.
Proof. exact execute_session. Qed.
Print Assumptions C34_vector_session.

(** Two breaks in one vector. *)
Example C34_case :
  match ex_run [CmdStepIn; CmdInfo InfoPc; CmdResume] (ex_vm 0 [] [128; 3; 2; 0]) with
  | Done _ _ (_, s) =>
      ds_log s = [EvBeginExec 256; EvBeginBreak 255; EvCmd CmdStepIn RNone; EvEndBreak;
                  EvBeginBreak 255; EvCmd (CmdInfo InfoPc) (RPc 258); EvCmd CmdResume RNone; EvEndBreak;
                  EvEndExec]
  | _ => False end.
Proof. vm_compute. reflexivity. Qed.

(** ** C35 *)
(** [serve] is the switch over one command of a paused program: continue pausing,
    reply, machine, debugger, host afterwards. *)
Theorem C35_memory_read :
  forall W dei deo pc v d (w : W) addr size,
  well_typed v -> is_short addr -> is_short size ->
  exists l, serve W dei deo pc (CmdMemRead addr size) v d w = Ok (true, RBytes l, v, d, w) /\
    window (vm_mem v) addr size l.
Proof.
  intros W dei deo pc v d w addr size Hv Ha Hs. unfold is_short in Hs.
  destruct (mem_read_spec v ltac:(apply Hv) (Z.to_nat size) 0 addr) as (l & E & HL & HN).
  exists l. cbn [serve]. rewrite E. split; [reflexivity|]. split; [lia|].
  intros i Hi. rewrite HN by lia. f_equal. f_equal. lia.
Qed.
Print Assumptions C35_memory_read.

Theorem C35_memory_write :
  forall W dei deo pc v d (w : W) addr size values,
  well_typed v -> cmd_ok (CmdMemWrite addr size values) ->
  exists v', serve W dei deo pc (CmdMemWrite addr size values) v d w = Ok (true, RNone, v', d, w) /\
    (forall a, vm_mem v' a = overwritten (vm_mem v) addr size values a) /\
    v' = vm_set_mem v (vm_mem v').
Proof.
  intros W dei deo pc v d w addr size values Hv (H1 & H2 & H3 & H4). unfold is_short in *.
  destruct (mem_write_spec values H4 (Z.to_nat size) 0 addr v Hv) as (v' & E & _ & (m & Em) & HM); try lia.
  exists v'. cbn [serve]. rewrite E. split; [reflexivity|]. split.
  - intros a. rewrite HM. unfold overwritten. rewrite Z2Nat.id by lia.
    assert (Hn : 0 <= (a - addr) mod 65536) by (apply Z.mod_pos_bound; lia).
    replace (0 <=? (a - addr) mod 65536) with true by lia. rewrite andb_true_r, Z.add_0_l. reflexivity.
  - rewrite Em. reflexivity.
Qed.
Print Assumptions C35_memory_write.

Theorem C35_info :
  forall W dei deo pc v d (w : W),
  serve W dei deo pc (CmdInfo InfoPc) v d w = Ok (true, RPc pc, v, d, w) /\
  (exists l, serve W dei deo pc (CmdInfo InfoWst) v d w = Ok (true, RStack (vm_wsp v) l, v, d, w) /\
     length l = 256%nat /\ forall i, 0 <= i < 256 -> nth (Z.to_nat i) l 0 = vm_ws v i) /\
  (exists l, serve W dei deo pc (CmdInfo InfoRst) v d w = Ok (true, RStack (vm_rsp v) l, v, d, w) /\
     length l = 256%nat /\ forall i, 0 <= i < 256 -> nth (Z.to_nat i) l 0 = vm_rs v i).
Proof.
  intros. assert (H : forall f : Z -> Z, length (map f (upto 256 0)) = 256%nat /\
    forall i, 0 <= i < 256 -> nth (Z.to_nat i) (map f (upto 256 0)) 0 = f i).
  { intros f. split; [rewrite map_length, upto_length; reflexivity|]. intros i Hi.
    rewrite nth_indep with (d' := f 0) by (rewrite map_length, upto_length; lia).
    rewrite map_nth, upto_nth by lia. f_equal. lia. }
  split; [reflexivity|]. split; (eexists; split; [reflexivity|apply H]).
Qed.
Print Assumptions C35_info.

(** With inspecting commands only (everything except device and memory writes
    and device reads) the program behaves as without debugger: same result, same
    machine, same host, whatever the breakpoints and steps. *)
Theorem C35_transparent :
  forall W dei deo hi fuel kw kr pc v (w : W) s,
  host_well_typed dei deo -> reachable W dei deo s ->
  Forall (fun c => inspecting c = true) (ds_in s) ->
  well_typed v -> is_short pc ->
  exists s',
    execute (W * dbg_side) (dei_l W dbg_side dei) (deo_l W dbg_side deo) hi (Some (dbg_hook W dei deo))
      kw kr fuel pc v (w, s) =
    with_log W dbg_side (execute W dei deo hi None kw kr fuel pc v w) s'.
Proof.
  intros W dei deo hi fuel kw kr pc v w s HH R I V P.
  destruct (execute_looking W dei deo hi fuel kw kr pc v w s HH (conj R I) V P) as (s' & E & _). eauto.
Qed.
Print Assumptions C35_transparent.

(** No command makes the debugger read or write out of bounds: a hook call fails
    only if a device callback does. *)
Theorem C35_safe :
  forall W dei deo pc v w s, host_well_typed dei deo -> reachable W dei deo s ->
  is_short pc -> well_typed v ->
  match dbg_hook W dei deo pc v (w, s) with
  | Ok (v', _) => well_typed v'
  | Fault f => exists a u x, is_byte a /\ well_typed u /\ (dei a u x = Fault f \/ deo a u x = Fault f)
  end.
Proof. exact hook_safe. Qed.
Print Assumptions C35_safe.

(** Reading and writing across the end of memory. *)
Example C35_case :
  let input := [CmdMemWrite 65535 3 [11; 22; 33]; CmdMemRead 65534 4] in
  Forall cmd_ok input /\
  match ex_run input (ex_vm 0 [] [0]) with
  | Done _ v (_, s) =>
      nth 3 (ds_log s) EvEndExec = EvCmd (CmdMemRead 65534 4) (RBytes [0; 11; 22; 33]) /\
      vm_mem v 0 = 22 /\ vm_mem v 2 = 0
  | _ => False end.
Proof.
  split; [|vm_compute; auto]. repeat constructor; cbn; unfold is_byte, is_short; try lia.
Qed.
