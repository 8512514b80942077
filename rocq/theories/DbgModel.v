(** Model of the debugger core: src/dbg/core.c, include/buxn/dbg/core.h.

    The wire (the five functions "provided by the host program", core.h:136-151)
    is modelled by an input list of commands and a log of everything the core
    tells the wire.  [buxn_dbg_next_command] takes the next command of the list;
    when the list is exhausted it returns RESUME, which is what wire.c:72-90
    does once the connection is closed.  Because the list is arbitrary this
    covers every client, interactive ones included, as long as each pause ends.

    The VM and the host devices are those of VmModel; the private state of the
    debugger is kept beside the host state ([W * dbg_side]). *)
From Verif Require Import Base VmModel.

(** core.h:54-57 [buxn_dbg_brkp_t]. *)
Record brkp : Type := mkBrkp { b_addr : Z; b_mask : Z }.

(** core.h:19-25. *)
Definition BRKP_DEV : Z := 1.
Definition BRKP_PAUSE : Z := 2.
Definition BRKP_EXEC : Z := 4.
Definition BRKP_LOAD : Z := 8.
Definition BRKP_STORE : Z := 16.
Definition BRKP_TYPE_MASK : Z := 1.
(** core.h:27 *)
Definition BRKP_NONE : Z := 255.

(** core.c:5-10 [buxn_dbg_standing_cmd_type_t]. *)
Inductive standing : Type := StExecute | StPause | StStepOver | StStepOut.

(** core.c:25-34 [struct buxn_dbg_s]; the wire is [dbg_side] below,
    [vm_userdata] is never used.  [d_tab] is [brkps[255]]. *)
Record dbg : Type := mkDbg {
  d_executing : bool;
  d_type : standing;
  d_rsp : Z;
  d_n : Z;
  d_mask : Z;
  d_tab : Z -> brkp
}.

(** Field updates. *)
Definition set_executing (d : dbg) (b : bool) : dbg :=
  mkDbg b (d_type d) (d_rsp d) (d_n d) (d_mask d) (d_tab d).
Definition set_type (d : dbg) (t : standing) : dbg :=
  mkDbg (d_executing d) t (d_rsp d) (d_n d) (d_mask d) (d_tab d).
Definition set_type_rsp (d : dbg) (t : standing) (r : Z) : dbg :=
  mkDbg (d_executing d) t r (d_n d) (d_mask d) (d_tab d).

(** core.c:42-50 [buxn_dbg_init]: all fields zero. *)
Definition dbg_init : dbg := mkDbg false StExecute 0 0 0 (fun _ => mkBrkp 0 0).

(** core.c:52-55 [buxn_dbg_request_pause]. *)
Definition request_pause (d : dbg) : dbg := set_type d StPause.

(** core.c:65-69 [buxn_dbg_should_hook]. *)
Definition is_execute (t : standing) : bool :=
  match t with StExecute => true | _ => false end.
Definition should_hook (d : dbg) : bool := negb (is_execute (d_type d)) || negb (d_n d =? 0).

(** core.h:47-52 [buxn_dbg_info_type_t]; any other value is [InfoOther]. *)
Inductive info : Type := InfoPc | InfoWst | InfoRst | InfoNbrkps | InfoOther.

(** core.h:33-45,64-112 [buxn_dbg_cmd_t].  Output pointers are left out: what is
    written through them is the [reply].  The arrays of the write commands are
    lists.  [CmdOther] is a command type without a case in the switch. *)
Inductive cmd : Type :=
| CmdInfo (i : info)
| CmdResume
| CmdStepOver
| CmdStepIn
| CmdStepOut
| CmdBrkpGet (id : Z)
| CmdBrkpSet (id : Z) (b : brkp)
| CmdDevRead (addr size : Z)
| CmdDevWrite (addr size : Z) (values : list Z)
| CmdMemRead (addr size : Z)
| CmdMemWrite (addr size : Z) (values : list Z)
| CmdOther.

(** What a command leaves in the buffers of the client. *)
Inductive reply : Type :=
| RNone
| RPc (pc : Z)
| RStack (pointer : Z) (data : list Z)
| RCount (n : Z)
| RBrkp (b : brkp)
| RBytes (l : list Z).

(** The calls of the core to the wire, in order; a command is logged together
    with its reply. *)
Inductive event : Type :=
| EvBeginExec (addr : Z)
| EvBeginBreak (id : Z)
| EvCmd (c : cmd) (r : reply)
| EvEndBreak
| EvEndExec.

Record dbg_side : Type := mkSide {
  ds_dbg : dbg;
  ds_in : list cmd;
  ds_log : list event
}.

(** core.c:17-23 [buxn_dbg_opcode_class_t]. *)
Inductive opclass : Type := ClsOther | ClsMemLoad | ClsMemStore | ClsDevLoad | ClsDevStore.

(** C truth of [(x & m) > 0] on unsigned bytes. *)
Definition has (x m : Z) : bool := 0 <? Z.land x m.

(** core.c:94-133: decode the current opcode.  Result: class and the two
    addresses it is compared with. *)
Definition decode (pc : Z) (v : vm) : res (opclass * Z * Z) :=
  rbind (aget (vm_msize v) (vm_mem v) pc) (fun opcode =>
  let base_opcode := Z.land opcode 31 in
  let return_stack := has opcode 64 in
  let stack := if return_stack then vm_rs v else vm_ws v in
  let sp := if return_stack then vm_rsp v else vm_wsp v in
  rbind (aget 256 stack (u8 (sp - 1))) (fun top =>
  rbind (aget 256 stack (u8 (sp - 2))) (fun below =>
  let rel := u16 (pc + 1 + s8 top) in
  let abs := Z.lor (u16 (Z.shiftl below 8)) top in
  let '(cls, a1) :=
    if base_opcode =? 22 then (ClsDevLoad, top)          (* 100-102 DEI *)
    else if base_opcode =? 23 then (ClsDevStore, top)    (* 103-105 DEO *)
    else if base_opcode =? 16 then (ClsMemLoad, top)     (* 106-108 LDZ *)
    else if base_opcode =? 17 then (ClsMemStore, top)    (* 109-111 STZ *)
    else if base_opcode =? 18 then (ClsMemLoad, rel)     (* 112-115 LDR *)
    else if base_opcode =? 19 then (ClsMemStore, rel)    (* 116-119 STR *)
    else if base_opcode =? 20 then (ClsMemLoad, abs)     (* 120-124 LDA *)
    else if base_opcode =? 21 then (ClsMemStore, abs)    (* 125-129 STA *)
    else (ClsOther, 0) in
  let short_mode := has opcode 32 in                     (* 132 *)
  Ok (cls, a1, u16 (a1 + (if short_mode then 1 else 0))) (* 133 *)))).

Definition is_mem_load (c : opclass) : bool := match c with ClsMemLoad => true | _ => false end.
Definition is_mem_store (c : opclass) : bool := match c with ClsMemStore => true | _ => false end.
Definition is_dev_load (c : opclass) : bool := match c with ClsDevLoad => true | _ => false end.
Definition is_dev_store (c : opclass) : bool := match c with ClsDevStore => true | _ => false end.

(** core.c:139-196: the body of the search loop for one breakpoint. *)
Definition brkp_matches (b : brkp) (started : bool) (pc : Z) (v : vm) (cls : opclass) (a1 a2 : Z)
  : bool :=
  let at_addr := (a1 =? b_addr b) || (a2 =? b_addr b) in
  if b_mask b =? 0 then false
  else if Z.land (b_mask b) BRKP_TYPE_MASK =? BRKP_DEV then
    (has (b_mask b) BRKP_EXEC && started && (dev_load2 v (u8 (b_addr b)) =? pc))
    || (has (b_mask b) BRKP_LOAD && is_dev_load cls && at_addr)
    || (has (b_mask b) BRKP_STORE && is_dev_store cls && at_addr)
  else
    (has (b_mask b) BRKP_EXEC && (b_addr b =? pc))
    || (has (b_mask b) BRKP_LOAD && is_mem_load cls && at_addr)
    || (has (b_mask b) BRKP_STORE && is_mem_store cls && at_addr).

(** Read of [brkps[i]] (255 entries). *)
Definition tab_get (d : dbg) (i : Z) : res brkp :=
  if in_bounds 255 i then Ok (d_tab d i) else Fault (OobRead i).

(** core.c:136-197: the first [k] entries starting at [i]. *)
Fixpoint find_brkp (k : nat) (i : Z) (d : dbg) (started : bool) (pc : Z) (v : vm)
  (cls : opclass) (a1 a2 : Z) : res Z :=
  match k with
  | O => Ok BRKP_NONE
  | S k' =>
      rbind (tab_get d i) (fun b =>
      if brkp_matches b started pc v cls a1 a2 then Ok i
      else find_brkp k' (i + 1) d started pc v cls a1 a2)
  end.

(** core.c:86-198. *)
Definition match_brkp (d : dbg) (started : bool) (pc : Z) (v : vm) : res Z :=
  if d_mask d =? 0 then Ok BRKP_NONE
  else
    rbind (if has (d_mask d) (Z.lor BRKP_LOAD BRKP_STORE) then decode pc v
           else Ok (ClsOther, 0, 0)) (fun '(cls, a1, a2) =>
    find_brkp (Z.to_nat (d_n d)) 0 d started pc v cls a1 a2).

(** The integers [a], [a+1], ..., [k] of them. *)
Fixpoint upto (k : nat) (a : Z) : list Z :=
  match k with O => [] | S k' => a :: upto k' (a + 1) end.

(** core.c:279-285: the trimming loop, from index [k-1] down; the result is
    [i + 1]. *)
Fixpoint trim (k : nat) (tab : Z -> brkp) : Z :=
  match k with
  | O => 0
  | S k' => if b_mask (tab (Z.of_nat k')) =? 0 then trim k' tab else Z.of_nat k' + 1
  end.

(** core.c:273-298 BRKP_SET.  [tab] indices are below 255 here because [id] is a
    uint8_t other than 255. *)
Definition brkp_set (d : dbg) (id : Z) (b : brkp) : res dbg :=
  if id =? BRKP_NONE then Ok d
  else if negb (in_bounds 255 id) then Fault (OobWrite id)
  else
    let tab := fun i => if i =? id then b else d_tab d i in
    let n := u8 (if b_mask b =? 0 then trim (Z.to_nat (d_n d)) tab
                 else if d_n d <=? id then id + 1 else d_n d) in
    let mask := fold_left (fun m i => u8 (Z.lor m (b_mask (tab i)))) (upto (Z.to_nat n) 0) 0 in
    Ok (mkDbg (d_executing d) (d_type d) (d_rsp d) n mask tab).

Section Core.
Variable W : Type.
Variable dei : Z -> vm -> W -> res (Z * vm * W).
Variable deo : Z -> vm -> W -> res (vm * W).

(** core.c:299-304 DEV_READ: [k] ports left, counter [i]. *)
Fixpoint dev_read_loop (k : nat) (i addr : Z) (v : vm) (w : W) : res (list Z * vm * W) :=
  match k with
  | O => Ok ([], v, w)
  | S k' =>
      rbind (dei (u8 (addr + i)) v w) (fun '(b, v1, w1) =>
      rbind (dev_read_loop k' (i + 1) addr v1 w1) (fun '(l, v2, w2) =>
      Ok (u8 b :: l, v2, w2)))
  end.

(** [values[i]] of a write command. *)
Definition value_at (values : list Z) (i : Z) : res Z :=
  match nth_error values (Z.to_nat i) with Some b => Ok b | None => Fault (OobRead i) end.

(** core.c:305-311 DEV_WRITE. *)
Fixpoint dev_write_loop (k : nat) (i addr : Z) (values : list Z) (v : vm) (w : W)
  : res (vm * W) :=
  match k with
  | O => Ok (v, w)
  | S k' =>
      let a := u8 (addr + i) in
      rbind (value_at values i) (fun b =>
      rbind (aset 256 (vm_dev v) a b) (fun d =>
      rbind (deo a (vm_set_dev v d) w) (fun '(v1, w1) =>
      dev_write_loop k' (i + 1) addr values v1 w1)))
  end.

(** core.c:312-317 MEM_READ. *)
Fixpoint mem_read_loop (k : nat) (i addr : Z) (v : vm) : res (list Z) :=
  match k with
  | O => Ok []
  | S k' =>
      rbind (aget (vm_msize v) (vm_mem v) (u16 (addr + i))) (fun b =>
      rbind (mem_read_loop k' (i + 1) addr v) (fun l => Ok (b :: l)))
  end.

(** core.c:318-323 MEM_WRITE. *)
Fixpoint mem_write_loop (k : nat) (i addr : Z) (values : list Z) (v : vm) : res vm :=
  match k with
  | O => Ok v
  | S k' =>
      rbind (value_at values i) (fun b =>
      rbind (aset (vm_msize v) (vm_mem v) (u16 (addr + i)) b) (fun m =>
      mem_write_loop k' (i + 1) addr values (vm_set_mem v m)))
  end.

(** core.c:227-324: the switch over one command.  The boolean is the new value
    of [should_pause]. *)
Definition serve (pc : Z) (c : cmd) (v : vm) (d : dbg) (w : W)
  : res (bool * reply * vm * dbg * W) :=
  match c with
  | CmdInfo InfoPc => (* 230-232 *) Ok (true, RPc pc, v, d, w)
  | CmdInfo InfoWst => (* 233-236 *) Ok (true, RStack (vm_wsp v) (map (vm_ws v) (upto 256 0)), v, d, w)
  | CmdInfo InfoRst => (* 237-240 *) Ok (true, RStack (vm_rsp v) (map (vm_rs v) (upto 256 0)), v, d, w)
  | CmdInfo InfoNbrkps => (* 241-243 *) Ok (true, RCount (d_n d), v, d, w)
  | CmdInfo InfoOther => Ok (true, RNone, v, d, w)
  | CmdResume => (* 246-249 *) Ok (false, RNone, v, set_type d StExecute, w)
  | CmdStepIn => (* 250-253 *) Ok (false, RNone, v, set_type d StPause, w)
  | CmdStepOver => (* 254-258 *) Ok (false, RNone, v, set_type_rsp d StStepOver (vm_rsp v), w)
  | CmdStepOut => (* 259-267 *)
      Ok (false, RNone, v,
          (if 0 <? vm_rsp v then set_type_rsp d StStepOut (vm_rsp v) else set_type d StExecute), w)
  | CmdBrkpGet id => (* 268-272 *)
      if id =? BRKP_NONE then Ok (true, RNone, v, d, w)
      else rbind (tab_get d id) (fun b => Ok (true, RBrkp b, v, d, w))
  | CmdBrkpSet id b => rbind (brkp_set d id b) (fun d' => Ok (true, RNone, v, d', w))
  | CmdDevRead addr size =>
      rbind (dev_read_loop (Z.to_nat size) 0 addr v w) (fun '(l, v', w') =>
      Ok (true, RBytes l, v', d, w'))
  | CmdDevWrite addr size values =>
      rbind (dev_write_loop (Z.to_nat size) 0 addr values v w) (fun '(v', w') =>
      Ok (true, RNone, v', d, w'))
  | CmdMemRead addr size =>
      rbind (mem_read_loop (Z.to_nat size) 0 addr v) (fun l => Ok (true, RBytes l, v, d, w))
  | CmdMemWrite addr size values =>
      rbind (mem_write_loop (Z.to_nat size) 0 addr values v) (fun v' => Ok (true, RNone, v', d, w))
  | CmdOther => Ok (true, RNone, v, d, w)
  end.

(** core.c:223-325: the command loop of a pause. *)
Fixpoint pause_loop (input : list cmd) (pc : Z) (log : list event) (v : vm) (d : dbg) (w : W)
  : res (vm * dbg * W * list cmd * list event) :=
  match input with
  | [] =>
      rbind (serve pc CmdResume v d w) (fun '(_, r, v', d', w') =>
      Ok (v', d', w', [], log ++ [EvCmd CmdResume r]))
  | c :: rest =>
      rbind (serve pc c v d w) (fun '(go_on, r, v', d', w') =>
      let log' := log ++ [EvCmd c r] in
      if go_on then pause_loop rest pc log' v' d' w' else Ok (v', d', w', rest, log'))
  end.

(** core.c:205-218: the standing command. *)
Definition standing_pause (d : dbg) (v : vm) : bool :=
  match d_type d with
  | StExecute => false
  | StPause => true
  | StStepOut => vm_rsp v <? d_rsp d
  | StStepOver => vm_rsp v =? d_rsp d
  end.

(** core.c:71-334 [buxn_dbg_hook]. *)
Definition dbg_hook (pc : Z) (v : vm) (s : W * dbg_side) : res (vm * (W * dbg_side)) :=
  let '(w, mkSide d0 input log0) := s in
  let started := negb (d_executing d0) in                               (* 77 *)
  let d := set_executing d0 true in                                     (* 78 *)
  let log1 := if started then log0 ++ [EvBeginExec pc] else log0 in     (* 80 *)
  rbind (match_brkp d started pc v) (fun id =>                          (* 86-198 *)
  rbind (if id =? BRKP_NONE then Ok false
         else rbind (tab_get d id) (fun b => Ok (has (b_mask b) BRKP_PAUSE))) (fun p => (* 200-203 *)
  let should_pause := p || standing_pause d v in                        (* 205-218 *)
  rbind (if should_pause || negb (id =? BRKP_NONE) then                 (* 220 *)
           let log2 := log1 ++ [EvBeginBreak id] in                     (* 221 *)
           rbind (if should_pause then pause_loop input pc log2 v d w
                  else Ok (v, d, w, input, log2)) (fun '(v', d', w', input', log3) =>
           Ok (v', d', w', input', log3 ++ [EvEndBreak]))               (* 327 *)
         else Ok (v, d, w, input, log1)) (fun '(v', d', w', input', log4) =>
  rbind (aget (vm_msize v') (vm_mem v') pc) (fun op =>                  (* 330 *)
  if op =? 0 then
    Ok (v', (w', mkSide (set_executing d' false) input' (log4 ++ [EvEndExec]))) (* 331-332 *)
  else Ok (v', (w', mkSide d' input' log4)))))).

End Core.
