(** Specification vocabulary for the debugger core (C31-C35), independent of the
    decoder and the loops of core.c.  What an instruction reads and writes is
    defined from the behaviour of the VM, not from its opcode. *)
From Verif Require Import Base VmSpec.
From Verif Require VmModel.
From Verif Require Import DbgModel.
Import VmModel(vm, vm_wsp, vm_rsp, vm_ws, vm_rs, vm_dev, vm_mem, vm_msize).

(** ** Well-typed C data *)
Definition brkp_ok (b : brkp) : Prop := is_short (b_addr b) /\ is_byte (b_mask b).

(** Commands as C values: the ranges of the fields, and write commands come with
    as many values as they announce. *)
Definition cmd_ok (c : cmd) : Prop :=
  match c with
  | CmdBrkpGet id => is_byte id
  | CmdBrkpSet id b => is_byte id /\ brkp_ok b
  | CmdDevRead addr size => is_byte addr /\ is_byte size
  | CmdDevWrite addr size values =>
      is_byte addr /\ is_byte size /\ size <= Z.of_nat (length values) /\ Forall is_byte values
  | CmdMemRead addr size => is_short addr /\ is_short size
  | CmdMemWrite addr size values =>
      is_short addr /\ is_short size /\ size <= Z.of_nat (length values) /\ Forall is_byte values
  | _ => True
  end.

(** ** The calls of the hook *)
(** One call of [buxn_dbg_hook] that returned: where, the machine and the
    debugger before and after. *)
Record call : Type := mkCall {
  c_pc : Z;
  c_vm : vm;
  c_side : dbg_side;
  c_vm' : vm;
  c_side' : dbg_side
}.

Section Calls.
Variable W : Type.
Variable dei : Z -> vm -> W -> res (Z * vm * W).
Variable deo : Z -> vm -> W -> res (vm * W).

Definition is_call (c : call) : Prop :=
  is_short (c_pc c) /\ well_typed (c_vm c) /\
  exists w w', dbg_hook W dei deo (c_pc c) (c_vm c) (w, c_side c) = Ok (c_vm' c, (w', c_side' c)).

(** Successive calls with the same debugger, on any machines: between two calls
    the VM runs, or another vector is started. *)
Fixpoint calls (s : dbg_side) (l : list call) (s' : dbg_side) : Prop :=
  match l with
  | [] => s = s'
  | c :: rest => c_side c = s /\ is_call c /\ calls (c_side' c) rest s'
  end.

(** The debugger states a program can get into: a fresh debugger with any
    commands to come, calls of the hook, and pause requests. *)
Inductive reachable : dbg_side -> Prop :=
| reachable_init input : Forall cmd_ok input -> reachable (mkSide dbg_init input [])
| reachable_pause s : reachable s ->
    reachable (mkSide (request_pause (ds_dbg s)) (ds_in s) (ds_log s))
| reachable_call c : reachable (c_side c) -> is_call c -> reachable (c_side' c).
End Calls.

(** What a call tells the wire. *)
Definition emits (c : call) (ev : list event) : Prop :=
  ds_log (c_side' c) = ds_log (c_side c) ++ ev.

(** The call consumes commands, that is, the program is paused. *)
Definition stops (c : call) : Prop :=
  exists ev cm r, emits c ev /\ In (EvCmd cm r) ev.

(** The call announces the start of a vector. *)
Definition starts (c : call) : Prop := exists ev, emits c (EvBeginExec (c_pc c) :: ev).

(** ** C31: the table *)
(** The breakpoint last set for [id]; id 255 is not a breakpoint. *)
Fixpoint last_set (log : list event) (id : Z) (b : brkp) : brkp :=
  match log with
  | [] => b
  | EvCmd (CmdBrkpSet i b') _ :: rest => last_set rest id (if i =? id then b' else b)
  | _ :: rest => last_set rest id b
  end.
Definition table (log : list event) (id : Z) : brkp := last_set log id (mkBrkp 0 0).

(** One more than the largest id whose breakpoint is enabled. *)
Definition count_is (log : list event) (n : Z) : Prop :=
  0 <= n <= 255 /\
  (forall id, n <= id < 255 -> b_mask (table log id) = 0) /\
  (n = 0 \/ b_mask (table log (n - 1)) <> 0).

(** ** C32: what the next instruction does *)
(** A host that only records which ports are read ([false]) and written. *)
Definition rec_dei (a : Z) (v : vm) (w : list (bool * Z)) : res (Z * vm * list (bool * Z)) :=
  Ok (0, v, w ++ [(false, a)]).
Definition rec_deo (a : Z) (v : vm) (w : list (bool * Z)) : res (vm * list (bool * Z)) :=
  Ok (v, w ++ [(true, a)]).

(** The machine and the ports touched after the instruction with label [l] has
    been carried out at [pc] in [v]. *)
Definition perform (l : VmModel.label) (v : vm) (pc : Z) : option (machine * list (bool * Z)) :=
  match VmModel.exec_label (list (bool * Z)) rec_dei rec_deo true l
          (VmModel.mkSt _ v (vm_wsp v) (vm_rsp v) 0 0 ((pc + 1) mod 65536) []) with
  | Ok (_, x) =>
      Some (mkMachine (mkStack (VmModel.s_wsp _ x) (vm_ws (VmModel.s_vm _ x)))
                      (mkStack (VmModel.s_rsp _ x) (vm_rs (VmModel.s_vm _ x)))
                      (vm_mem (VmModel.s_vm _ x)) (vm_dev (VmModel.s_vm _ x)) (VmModel.s_pc _ x),
            VmModel.s_w _ x)
  | Fault _ => None
  end.

Definition same_except (a : Z) (p q : option (machine * list (bool * Z))) : Prop :=
  match p, q with
  | None, None => True
  | Some (m, w), Some (n, u) =>
      stack_eq (wst m) (wst n) /\ stack_eq (rst m) (rst n) /\
      (forall i, i <> a -> ram m i = ram n i) /\
      (forall i, 0 <= i < 256 -> devp m i = devp n i) /\ ip m = ip n /\ w = u
  | _, _ => False
  end.

(** The memory cell [a] changed to [x]. *)
Definition poke (v : vm) (a x : Z) : vm :=
  VmModel.vm_set_mem v (fun i => if i =? a then x else vm_mem v i).

(** The opcode about to be executed, and its label. *)
Definition opcode (v : vm) (pc : Z) : Z := vm_mem v pc.
(** BRK, the immediate jumps and LIT: the bytes behind the opcode are part of
    the instruction, not data it loads. *)
Definition immediate (v : vm) (pc : Z) : Prop := opcode v pc mod 32 = 0.

(** The instruction depends on the contents of memory cell [a]: some other
    contents lead to a machine that differs elsewhere. *)
Definition loads (v : vm) (pc a : Z) : Prop :=
  ~ immediate v pc /\
  exists l x, VmModel.dispatch (opcode v pc) = Some l /\ is_byte x /\
    ~ same_except a (perform l v pc) (perform l (poke v a x) pc).

(** The instruction overwrites memory cell [a]: its contents afterwards do not
    depend on those before. *)
Definition writes (v : vm) (pc a : Z) : Prop :=
  exists l m w, VmModel.dispatch (opcode v pc) = Some l /\ perform l v pc = Some (m, w) /\
    forall x, is_byte x ->
      exists m' w', perform l (poke v a x) pc = Some (m', w') /\ ram m' a = ram m a.

(** The instruction asks the host for port [a], or notifies it about port [a]. *)
Definition touches (out : bool) (v : vm) (pc a : Z) : Prop :=
  exists l m w, VmModel.dispatch (opcode v pc) = Some l /\ perform l v pc = Some (m, w) /\
    In (out, a) w.

(** The big-endian vector stored in the device page at port [a] and the next. *)
Definition port_vector (v : vm) (a : Z) : Z :=
  256 * vm_dev v (a mod 256) + vm_dev v ((a + 1) mod 256).

(** Breakpoint [b] names what is about to happen. *)
Definition names (b : brkp) (started : bool) (v : vm) (pc : Z) : Prop :=
  let exec := Z.testbit (b_mask b) 2 = true in
  let load := Z.testbit (b_mask b) 3 = true in
  let store := Z.testbit (b_mask b) 4 = true in
  if Z.testbit (b_mask b) 0 then
    exec /\ started = true /\ port_vector v (b_addr b) = pc \/
    load /\ touches false v pc (b_addr b) \/
    store /\ touches true v pc (b_addr b)
  else
    exec /\ b_addr b = pc \/
    load /\ loads v pc (b_addr b) \/
    store /\ writes v pc (b_addr b).

(** [id] is the lowest-numbered breakpoint satisfying [P]. *)
Definition lowest (tab : Z -> brkp) (P : brkp -> Prop) (id : Z) : Prop :=
  0 <= id < 255 /\ P (tab id) /\ forall j, 0 <= j < id -> ~ P (tab j).
Definition none (tab : Z -> brkp) (P : brkp -> Prop) : Prop :=
  forall j, 0 <= j < 255 -> ~ P (tab j).

(** A short zero page or device access whose second byte wraps from 0xff to 0. *)
Definition wrapping_access (v : vm) (pc : Z) : Prop :=
  let op := opcode v pc in
  (op mod 32 = 16 \/ op mod 32 = 17 \/ op mod 32 = 22 \/ op mod 32 = 23) /\
  Z.odd (op / 32) = true /\
  (let r := Z.odd (op / 64) in
   (if r then vm_rs v else vm_ws v) (((if r then vm_rsp v else vm_wsp v) - 1) mod 256) = 255).

(** What the debugger takes such an access to touch: 0xff and 0x100 (the right
    answer is 0xff and 0x00). *)
Definition misnames (b : brkp) (started : bool) (v : vm) (pc : Z) : Prop :=
  let exec := Z.testbit (b_mask b) 2 = true in
  let load := Z.testbit (b_mask b) 3 = true in
  let store := Z.testbit (b_mask b) 4 = true in
  let there := b_addr b = 255 \/ b_addr b = 256 in
  let code := opcode v pc mod 32 in
  if Z.testbit (b_mask b) 0 then
    exec /\ started = true /\ port_vector v (b_addr b) = pc \/
    load /\ code = 22 /\ there \/
    store /\ code = 23 /\ there
  else
    exec /\ b_addr b = pc \/
    load /\ code = 16 /\ there \/
    store /\ code = 17 /\ there.

(** ** C33: stepping *)
(** Commands that end a pause. *)
Definition is_go (c : cmd) : bool :=
  match c with CmdResume | CmdStepIn | CmdStepOver | CmdStepOut => true | _ => false end.

(** Where the command wants to stop, given the depths of the return stack. *)
Definition wanted (go : cmd) (depth_then depth_now : Z) : Prop :=
  match go with
  | CmdStepIn => True
  | CmdStepOver => depth_now = depth_then
  | CmdStepOut => depth_now < depth_then
  | _ => False
  end.

(** The pause of call [c] was ended by command [go]. *)
Definition ended_by (c : call) (go : cmd) : Prop :=
  exists pre r post, emits c (pre ++ EvCmd go r :: EvEndBreak :: post) /\ is_go go = true.

(** The breakpoint reported at call [c], if any. *)
Definition reported (c : call) (id : Z) : Prop :=
  exists ev, emits c ev /\ In (EvBeginBreak id) ev /\ id <> 255.

(** The reported breakpoint asks for a pause. *)
Definition pausing_hit (c : call) : Prop :=
  exists id, reported c id /\ Z.testbit (b_mask (table (ds_log (c_side c)) id)) 1 = true.

(** ** C34: the trace *)
Inductive break_group : list event -> Prop :=
| group_notice id : id <> 255 -> break_group [EvBeginBreak id; EvEndBreak]
| group_pause id asked go r :
    Forall (fun e => exists c r, e = EvCmd c r /\ is_go c = false) asked ->
    is_go go = true ->
    break_group (EvBeginBreak id :: asked ++ [EvCmd go r; EvEndBreak]).
Inductive break_groups : list event -> Prop :=
| groups_nil : break_groups []
| groups_cons g rest : break_group g -> break_groups rest -> break_groups (g ++ rest).
(** A whole vector, and a vector that has not finished. *)
Definition session (pc : Z) (l : list event) : Prop :=
  exists g, break_groups g /\ l = EvBeginExec pc :: g ++ [EvEndExec].
Definition open_session (pc : Z) (l : list event) : Prop :=
  exists g, break_groups g /\ l = EvBeginExec pc :: g.
Inductive sessions : list event -> Prop :=
| sessions_nil : sessions []
| sessions_cons pc s rest : session pc s -> sessions rest -> sessions (s ++ rest).

(** ** C35 *)
(** Commands that only look at the machine or change the debugger. *)
Definition inspecting (c : cmd) : bool :=
  match c with
  | CmdDevRead _ _ | CmdDevWrite _ _ _ | CmdMemWrite _ _ _ => false
  | _ => true
  end.

(** [size] consecutive bytes from [addr], wrapping at 64 KiB. *)
Definition window (mem : Z -> Z) (addr size : Z) (l : list Z) : Prop :=
  Z.of_nat (length l) = size /\
  forall i, 0 <= i < size -> nth (Z.to_nat i) l 0 = mem ((addr + i) mod 65536).

(** Memory after storing the first [size] values at [addr], wrapping. *)
Definition overwritten (mem : Z -> Z) (addr size : Z) (values : list Z) (a : Z) : Z :=
  if (0 <=? a) && (a <? 65536) && ((a - addr) mod 65536 <? size)
  then nth (Z.to_nat ((a - addr) mod 65536)) values 0
  else mem a.
