(** Model of the virtual machine: src/vm/vm.c, src/vm/exec.h,
    include/buxn/vm/vm.h, include/buxn/vm/opcodes.h.

    Simplifications: the preprocessor expansion is done by hand (the K_, R_, S_
    macro arguments become boolean arguments), computed goto becomes a table
    lookup, [restrict] is ignored, the config pointer [userdata] is not
    modelled (the host state is the abstract world [W]).  Each C expression that
    truncates has an explicit [u8]/[u16]. *)
From Verif Require Import Base.

(** include/buxn/vm/vm.h:58-68 [struct buxn_vm_s]; [memory_size] of the config
    (line 54) is kept, the hook (line 55) is an argument of [execute]. *)
Record vm : Type := mkVm {
  vm_wsp : Z;
  vm_rsp : Z;
  vm_ws : arr;
  vm_rs : arr;
  vm_dev : arr;
  vm_mem : arr;
  vm_msize : Z
}.

(** Field updates ([vm->wsp = x] and so on). *)
Definition vm_set_ptrs (v : vm) (w r : Z) : vm :=
  mkVm w r (vm_ws v) (vm_rs v) (vm_dev v) (vm_mem v) (vm_msize v).
Definition vm_set_ws (v : vm) (s : arr) : vm :=
  mkVm (vm_wsp v) (vm_rsp v) s (vm_rs v) (vm_dev v) (vm_mem v) (vm_msize v).
Definition vm_set_rs (v : vm) (s : arr) : vm :=
  mkVm (vm_wsp v) (vm_rsp v) (vm_ws v) s (vm_dev v) (vm_mem v) (vm_msize v).
Definition vm_set_dev (v : vm) (d : arr) : vm :=
  mkVm (vm_wsp v) (vm_rsp v) (vm_ws v) (vm_rs v) d (vm_mem v) (vm_msize v).
Definition vm_set_mem (v : vm) (m : arr) : vm :=
  mkVm (vm_wsp v) (vm_rsp v) (vm_ws v) (vm_rs v) (vm_dev v) m (vm_msize v).

(** include/buxn/vm/vm.h:86-91 [buxn_vm_load2]: two bytes, big endian, both
    addresses masked.  The mask is given as a modulus (all uses are 2^n-1). *)
Definition load2 (m : arr) (addr modulus : Z) : Z :=
  Z.lor (Z.shiftl (m ((addr + 0) mod modulus)) 8) (m ((addr + 1) mod modulus)).

(** include/buxn/vm/vm.h:98-101,119-122 [buxn_vm_mem_load2],
    [buxn_vm_dev_load2]; the [uint16_t]/[uint8_t] parameter truncates [addr]. *)
Definition mem_load2 (v : vm) (addr : Z) : Z := load2 (vm_mem v) (u16 addr) 65536.
Definition dev_load2 (v : vm) (addr : Z) : Z := load2 (vm_dev v) (u8 addr) 256.

(** include/buxn/vm/vm.h:76-84 [buxn_device_id], [buxn_device_port]. *)
Definition device_id (a : Z) : Z := Z.land a 240.
Definition device_port (a : Z) : Z := Z.land a 15.

(** ** Opcodes: include/buxn/vm/opcodes.h *)

(** opcodes.h:7-37, the polymorphic rows of BUXN_OPCODE_DISPATCH. *)
Inductive base : Type :=
| INC | POP | NIP | SWP | ROT | DUP | OVR | EQU | NEQ | GTH | LTH
| JMP | JCN | JSR | STH | LDZ | STZ | LDR | STR | LDA | STA | DEI | DEO
| ADD | SUB | MUL | DIV | AND | ORA | EOR | SFT.

(** opcodes.h:5-41, the labels the table jumps to. [LITop r s] are the four
    LIT labels (opcodes.h:57-65). *)
Inductive label : Type :=
| BRK | JCI | JMI | JSI
| LITop (r s : bool)
| Poly (b : base) (k r s : bool).

(** opcodes.h:75-79 BUXN_OPCODE_VALUE. *)
Definition opcode_value (b : Z) (k r s : bool) : Z :=
  Z.lor (Z.lor (Z.lor b (if k then 128 else 0)) (if r then 64 else 0))
        (if s then 32 else 0).

(** opcodes.h:47-55 BUXN_OPCODE_DISPATCH_POLY. *)
Definition dispatch_poly (b : base) (v : Z) : list (label * Z) :=
  [ (Poly b false false false, opcode_value v false false false);
    (Poly b false false true,  opcode_value v false false true);
    (Poly b false true  false, opcode_value v false true  false);
    (Poly b false true  true,  opcode_value v false true  true);
    (Poly b true  false false, opcode_value v true  false false);
    (Poly b true  false true,  opcode_value v true  false true);
    (Poly b true  true  false, opcode_value v true  true  false);
    (Poly b true  true  true,  opcode_value v true  true  true) ].

(** opcodes.h:57-65 BUXN_OPCODE_DISPATCH_KEEP for LIT. *)
Definition dispatch_lit : list (label * Z) :=
  [ (LITop false false, opcode_value 128 true false false);
    (LITop false true,  opcode_value 128 true false true);
    (LITop true  false, opcode_value 128 true true  false);
    (LITop true  true,  opcode_value 128 true true  true) ].

(** opcodes.h:5-41 BUXN_OPCODE_DISPATCH. *)
Definition dispatch_table : list (label * Z) :=
  [(BRK, 0)]
  ++ dispatch_poly INC 1  ++ dispatch_poly POP 2  ++ dispatch_poly NIP 3
  ++ dispatch_poly SWP 4  ++ dispatch_poly ROT 5  ++ dispatch_poly DUP 6
  ++ dispatch_poly OVR 7  ++ dispatch_poly EQU 8  ++ dispatch_poly NEQ 9
  ++ dispatch_poly GTH 10 ++ dispatch_poly LTH 11 ++ dispatch_poly JMP 12
  ++ dispatch_poly JCN 13 ++ dispatch_poly JSR 14 ++ dispatch_poly STH 15
  ++ dispatch_poly LDZ 16 ++ dispatch_poly STZ 17 ++ dispatch_poly LDR 18
  ++ dispatch_poly STR 19 ++ dispatch_poly LDA 20 ++ dispatch_poly STA 21
  ++ dispatch_poly DEI 22 ++ dispatch_poly DEO 23 ++ dispatch_poly ADD 24
  ++ dispatch_poly SUB 25 ++ dispatch_poly MUL 26 ++ dispatch_poly DIV 27
  ++ dispatch_poly AND 28 ++ dispatch_poly ORA 29 ++ dispatch_poly EOR 30
  ++ dispatch_poly SFT 31
  ++ [(JCI, 32); (JMI, 64); (JSI, 96)]
  ++ dispatch_lit.

(** exec.h:25-39 the 256-entry dispatch table; [None] is a hole of the C table
    (a jump to a null label). *)
Definition dispatch (op : Z) : option label :=
  match find (fun e => snd e =? op) dispatch_table with
  | Some e => Some (fst e)
  | None => None
  end.

(** ** Micro-operations: src/vm/exec.h *)

Section Exec.
(** Host state and the host callbacks [buxn_vm_dei]/[buxn_vm_deo]
    (vm.h:126-130).  They may change the VM arbitrarily and may themselves
    fault. *)
Variable W : Type.
Variable dei : Z -> vm -> W -> res (Z * vm * W).
Variable deo : Z -> vm -> W -> res (vm * W).
(** exec.h:161-163: the order of the two [buxn_vm_dei] calls of DEI2 is
    unspecified in C; [true] is "high byte first". *)
Variable dei2_hi_first : bool.

(** exec.h:429-438: the locals of BUXN_VM_EXECUTE. *)
Record st : Type := mkSt {
  s_vm : vm;
  s_wsp : Z;
  s_rsp : Z;
  s_kwsp : Z;
  s_krsp : Z;
  s_pc : Z;
  s_w : W
}.

Definition M (A : Type) : Type := st -> res (A * st).
Definition ret {A} (a : A) : M A := fun s => Ok (a, s).
Definition bind {A B} (m : M A) (k : A -> M B) : M B :=
  fun s => match m s with Ok (a, s') => k a s' | Fault f => Fault f end.
Notation "x <- m ;; k" := (bind m (fun x => k)) (at level 61, m at next level, right associativity).
Notation "m ;;; k" := (bind m (fun _ => k)) (at level 61, right associativity).

Definition getpc : M Z := fun s => Ok (s_pc s, s).
Definition setpc (p : Z) : M unit := fun s =>
  Ok (tt, mkSt (s_vm s) (s_wsp s) (s_rsp s) (s_kwsp s) (s_krsp s) p (s_w s)).

(** exec.h:5-9 BUXN_LOAD_STATE *)
Definition load_state : M unit := fun s =>
  Ok (tt, mkSt (s_vm s) (vm_wsp (s_vm s)) (vm_rsp (s_vm s)) (s_kwsp s) (s_krsp s) (s_pc s) (s_w s)).
(** exec.h:11-15 BUXN_SAVE_STATE *)
Definition save_state : M unit := fun s =>
  Ok (tt, mkSt (vm_set_ptrs (s_vm s) (s_wsp s) (s_rsp s))
               (s_wsp s) (s_rsp s) (s_kwsp s) (s_krsp s) (s_pc s) (s_w s)).

(** exec.h:84-91: which pointer variable a POP variant uses. *)
Definition getptr (k r : bool) (s : st) : Z :=
  match k, r with
  | false, false => s_wsp s
  | false, true => s_rsp s
  | true, false => s_kwsp s
  | true, true => s_krsp s
  end.
Definition setptr (k r : bool) (p : Z) (s : st) : st :=
  match k, r with
  | false, false => mkSt (s_vm s) p (s_rsp s) (s_kwsp s) (s_krsp s) (s_pc s) (s_w s)
  | false, true => mkSt (s_vm s) (s_wsp s) p (s_kwsp s) (s_krsp s) (s_pc s) (s_w s)
  | true, false => mkSt (s_vm s) (s_wsp s) (s_rsp s) p (s_krsp s) (s_pc s) (s_w s)
  | true, true => mkSt (s_vm s) (s_wsp s) (s_rsp s) (s_kwsp s) p (s_pc s) (s_w s)
  end.
Definition getstack (r : bool) (s : st) : arr :=
  if r then vm_rs (s_vm s) else vm_ws (s_vm s).
Definition setstack (r : bool) (x : arr) (s : st) : st :=
  mkSt (if r then vm_set_rs (s_vm s) x else vm_set_ws (s_vm s) x)
       (s_wsp s) (s_rsp s) (s_kwsp s) (s_krsp s) (s_pc s) (s_w s).

(** exec.h:63-72: the prologue of the keep variants. *)
Definition keep_prologue (k r : bool) : M unit := fun s =>
  if k then Ok (tt, setptr true r (getptr false r s) s) else Ok (tt, s).

(** Stack cells are arrays of 256 (vm.h:64-65). *)
Definition stack_read (r : bool) (i : Z) : M Z := fun s =>
  match aget 256 (getstack r s) i with Ok v => Ok (v, s) | Fault f => Fault f end.
Definition stack_write (r : bool) (i v : Z) : M unit := fun s =>
  match aset 256 (getstack r s) i v with Ok x => Ok (tt, setstack r x s) | Fault f => Fault f end.

(** exec.h:92 BUXN_UOP_POP1X *)
Definition pop1 (k r : bool) : M Z := fun s =>
  let p := u8 (getptr k r s - 1) in stack_read r (u8 p) (setptr k r p s).
(** exec.h:93-94 BUXN_UOP_POP2X *)
Definition pop2 (k r : bool) : M Z := fun s =>
  let p := u8 (getptr k r s - 2) in
  (hi <- stack_read r p ;;
   lo <- stack_read r (u8 (p + 1)) ;;
   ret (Z.lor (Z.shiftl hi 8) lo)) (setptr k r p s).
(** exec.h:77-83 BUXN_POLY_POP; the result is stored in a uint16_t temporary. *)
Definition pop (k r s : bool) : M Z :=
  x <- (if s then pop2 k r else pop1 k r) ;; ret (u16 x).

(** exec.h:107 BUXN_UOP_PUSH1X *)
Definition push1 (r : bool) (v : Z) : M unit := fun s =>
  let p := getptr false r s in
  (stack_write r p (u8 v)) (setptr false r (u8 (p + 1)) s).
(** exec.h:108-113 BUXN_UOP_PUSH2X *)
Definition push2 (r : bool) (v : Z) : M unit := fun s =>
  let p := getptr false r s in
  (stack_write r p (u8 (Z.shiftr v 8)) ;;;
   stack_write r (u8 (p + 1)) (u8 v) ;;;
   fun s => Ok (tt, setptr false r (u8 (p + 2)) s)) s.
(** exec.h:97-102 BUXN_POLY_PUSH *)
Definition push (r s : bool) (v : Z) : M unit := if s then push2 r v else push1 r v.

(** exec.h:125 BUXN_PC_REL *)
Definition pc_rel (pc off : Z) : Z := u16 (pc + s8 off).
(** exec.h:122-124 BUXN_POLY_JMP *)
Definition jump (s : bool) (v : Z) : M unit :=
  pc <- getpc ;; setpc (if s then v else pc_rel pc v).

(** Memory accesses against the allocated [memory_size] (vm.h:54,67). *)
Definition mem_read (a : Z) : M Z := fun s =>
  match aget (vm_msize (s_vm s)) (vm_mem (s_vm s)) a with
  | Ok v => Ok (v, s) | Fault f => Fault f end.
Definition mem_write (a v : Z) : M unit := fun s =>
  match aset (vm_msize (s_vm s)) (vm_mem (s_vm s)) a v with
  | Ok m => Ok (tt, mkSt (vm_set_mem (s_vm s) m) (s_wsp s) (s_rsp s) (s_kwsp s) (s_krsp s) (s_pc s) (s_w s))
  | Fault f => Fault f end.

(** exec.h:146-149 BUXN_UOP_LOAD{1,2}_GEN; [md] is mask+1. *)
Definition load (md : Z) (s : bool) (addr : Z) : M Z :=
  if s then
    hi <- mem_read (addr mod md) ;;
    lo <- mem_read ((addr + 1) mod md) ;;
    ret (Z.lor (Z.shiftl hi 8) lo)
  else mem_read (addr mod md).
(** exec.h:150-156 BUXN_UOP_STORE{1,2}_GEN *)
Definition store (md : Z) (s : bool) (addr v : Z) : M unit :=
  if s then
    mem_write (addr mod md) (u8 (Z.shiftr v 8)) ;;;
    mem_write ((addr + 1) mod md) (u8 v)
  else mem_write (addr mod md) (u8 v).

(** exec.h:160 BUXN_UOP_DEV_IN1; the uint8_t parameter and result truncate. *)
Definition dev_in1 (addr : Z) : M Z := fun s =>
  match dei (u8 addr) (s_vm s) (s_w s) with
  | Ok (v, vm', w') => Ok (u8 v, mkSt vm' (s_wsp s) (s_rsp s) (s_kwsp s) (s_krsp s) (s_pc s) w')
  | Fault f => Fault f
  end.
(** exec.h:159-163 BUXN_POLY_DEV_IN *)
Definition dev_in (s : bool) (addr : Z) : M Z :=
  if s then
    if dei2_hi_first then
      hi <- dev_in1 addr ;; lo <- dev_in1 (addr + 1) ;; ret (Z.lor (Z.shiftl hi 8) lo)
    else
      lo <- dev_in1 (addr + 1) ;; hi <- dev_in1 addr ;; ret (Z.lor (Z.shiftl hi 8) lo)
  else dev_in1 addr.

Definition dev_write (a v : Z) : M unit := fun s =>
  match aset 256 (vm_dev (s_vm s)) a v with
  | Ok d => Ok (tt, mkSt (vm_set_dev (s_vm s) d) (s_wsp s) (s_rsp s) (s_kwsp s) (s_krsp s) (s_pc s) (s_w s))
  | Fault f => Fault f end.
Definition call_deo (addr : Z) : M unit := fun s =>
  match deo (u8 addr) (s_vm s) (s_w s) with
  | Ok (vm', w') => Ok (tt, mkSt vm' (s_wsp s) (s_rsp s) (s_kwsp s) (s_krsp s) (s_pc s) w')
  | Fault f => Fault f
  end.
(** exec.h:165-177 BUXN_POLY_DEV_OUT *)
Definition dev_out (s : bool) (addr v : Z) : M unit :=
  if s then
    dev_write (addr mod 256) (u8 (Z.shiftr v 8)) ;;;
    dev_write ((addr + 1) mod 256) (u8 v) ;;;
    call_deo addr ;;;
    call_deo (addr + 1)
  else
    dev_write (addr mod 256) (u8 v) ;;;
    call_deo addr.

Definition lift {A} (r : res A) : M A := fun s =>
  match r with Ok a => Ok (a, s) | Fault f => Fault f end.

(** exec.h:260-266 BUXN_POLY_CMP_OP *)
Definition cmp_op (f : Z -> Z -> bool) (k r s : bool) : M unit :=
  b <- pop k r s ;; a <- pop k r s ;; push r false (u16 (b2z (f a b))).
(** exec.h:396-402 BUXN_POLY_BIN_OP; operands are promoted to int. *)
Definition bin_op (f : Z -> Z -> res Z) (k r s : bool) : M unit :=
  b <- pop k r s ;; a <- pop k r s ;; c <- lift (f a b) ;; push r s (u16 c).

(** exec.h:182-402: the polymorphic opcodes BUXN_POLY_OP_*. *)
Definition poly_op (o : base) (k r s : bool) : M unit :=
  match o with
  | INC => (* 182-188 *) a <- pop k r s ;; push r s (u16 (a + 1))
  | POP => (* 191-195 *) _a <- pop k r s ;; ret tt
  | NIP => (* 198-204 *) b <- pop k r s ;; _a <- pop k r s ;; push r s b
  | SWP => (* 207-214 *) b <- pop k r s ;; a <- pop k r s ;; push r s b ;;; push r s a
  | ROT => (* 217-226 *)
      c <- pop k r s ;; b <- pop k r s ;; a <- pop k r s ;;
      push r s b ;;; push r s c ;;; push r s a
  | DUP => (* 229-235 *) a <- pop k r s ;; push r s a ;;; push r s a
  | OVR => (* 238-246 *)
      b <- pop k r s ;; a <- pop k r s ;; push r s a ;;; push r s b ;;; push r s a
  | EQU => cmp_op (fun a b => a =? b) k r s
  | NEQ => cmp_op (fun a b => negb (a =? b)) k r s
  | GTH => cmp_op (fun a b => b <? a) k r s
  | LTH => cmp_op (fun a b => a <? b) k r s
  | JMP => (* 269-273 *) a <- pop k r s ;; jump s a
  | JCN => (* 276-283 *)
      b <- pop k r s ;; a <- pop k r false ;;
      if negb (a =? 0) then jump s b else ret tt
  | JSR => (* 286-291 *)
      pc <- getpc ;; push (negb r) true pc ;;; a <- pop k r s ;; jump s a
  | STH => (* 294-298 *) a <- pop k r s ;; push (negb r) s a
  | LDZ => (* 304-309 *) a <- pop k r false ;; b <- load 256 s a ;; push r s (u16 b)
  | STZ => (* 312-317 *) a <- pop k r false ;; b <- pop k r s ;; store 256 s a b
  | LDR => (* 320-325 *)
      a <- pop k r false ;; pc <- getpc ;; b <- load 65536 s (pc_rel pc a) ;; push r s (u16 b)
  | STR => (* 328-333 *)
      a <- pop k r false ;; b <- pop k r s ;; pc <- getpc ;; store 65536 s (pc_rel pc a) b
  | LDA => (* 336-341 *) a <- pop k r true ;; b <- load 65536 s a ;; push r s (u16 b)
  | STA => (* 344-349 *) a <- pop k r true ;; b <- pop k r s ;; store 65536 s a b
  | DEI => (* 352-359 *)
      a <- pop k r false ;; save_state ;;; b <- dev_in s a ;; load_state ;;; push r s (u16 b)
  | DEO => (* 362-369 *)
      a <- pop k r false ;; b <- pop k r s ;; save_state ;;; dev_out s a b ;;; load_state
  | ADD => (* 372 *) bin_op (fun a b => int32 (a + b)) k r s
  | SUB => (* 373 *) bin_op (fun a b => int32 (a - b)) k r s
  | MUL => (* 374 *) bin_op (fun a b => int32 (a * b)) k r s
  | DIV => (* 378-385 *)
      bin_op (fun a b => if negb (b =? 0) then cdiv a b else Ok 0) k r s
  | AND => (* 375 *) bin_op (fun a b => Ok (Z.land a b)) k r s
  | ORA => (* 376 *) bin_op (fun a b => Ok (Z.lor a b)) k r s
  | EOR => (* 377 *) bin_op (fun a b => Ok (Z.lxor a b)) k r s
  | SFT => (* 388-394 *)
      b <- pop k r false ;; a <- pop k r s ;;
      c <- lift (int32 (Z.shiftl (Z.shiftr a (Z.land b 15)) (Z.shiftr (Z.land b 240) 4))) ;;
      push r s (u16 c)
  end.

(** exec.h:443-516: the body behind one label; [false] is the return at BRK. *)
Definition exec_label (l : label) : M bool :=
  match l with
  | BRK => (* 443 *) save_state ;;; ret false
  | Poly o k r s => (* 444-474 *) keep_prologue k r ;;; poly_op o k r s ;;; ret true
  | JCI => (* 475-484 *)
      a <- pop false false false ;; pc <- getpc ;;
      (if negb (a =? 0) then
         b <- load 65536 true pc ;; setpc (u16 (pc + (u16 b + 2)))
       else setpc (u16 (pc + 2))) ;;; ret true
  | JMI => (* 485-489 *)
      pc <- getpc ;; a <- load 65536 true pc ;; setpc (u16 (pc + (u16 a + 2))) ;;; ret true
  | JSI => (* 490-495 *)
      pc <- getpc ;; push2 true (pc + 2) ;;;
      a <- load 65536 true pc ;; setpc (u16 (pc + (u16 a + 2))) ;;; ret true
  | LITop r s => (* 497-516 *)
      pc <- getpc ;; a <- load 65536 s pc ;; setpc (u16 (pc + (if s then 2 else 1))) ;;;
      push r s (u16 a) ;;; ret true
  end.

(** exec.h:34-39 BUXN_NEXT_OPCODE without hook: fetch and dispatch. *)
Definition step : M bool :=
  pc <- getpc ;;
  op <- mem_read pc ;;
  setpc (u16 (pc + 1)) ;;;
  match dispatch op with
  | Some l => exec_label l
  | None => fun _ => Fault Uninit
  end.

(** vm.c:54: BUXN_SAVE_STATE and the call of the hook; the locals [wsp] and
    [rsp] are not reloaded afterwards. *)
Definition call_hook (hook : Z -> vm -> W -> res (vm * W)) : M unit := fun s =>
  let v := vm_set_ptrs (s_vm s) (s_wsp s) (s_rsp s) in
  match hook (s_pc s) v (s_w s) with
  | Ok (v', w') => Ok (tt, mkSt v' (s_wsp s) (s_rsp s) (s_kwsp s) (s_krsp s) (s_pc s) w')
  | Fault f => Fault f
  end.

Definition hook_fn : Type := Z -> vm -> W -> res (vm * W).

(** exec.h:34-39 with the hook of vm.c:54 or the empty hook of vm.c:46. *)
Definition next_opcode (hook : option hook_fn) : M bool :=
  match hook with
  | None => step
  | Some h => call_hook h ;;; step
  end.

Inductive outcome : Type :=
| Done (v : vm) (w : W)
| Crash (f : fault)
| OutOfFuel.

(** exec.h:441-519: the interpreter loop, with fuel. *)
Fixpoint run (hook : option hook_fn) (fuel : nat) (s : st) : outcome :=
  match fuel with
  | O => OutOfFuel
  | S n =>
      match next_opcode hook s with
      | Fault f => Crash f
      | Ok (true, s') => run hook n s'
      | Ok (false, s') => Done (s_vm s') (s_w s')
      end
  end.

(** vm.c:33-44 [buxn_vm_execute] and exec.h:428-439; [kw], [kr] are the
    indeterminate initial values of [kwsp], [krsp]. *)
Definition initial (kw kr : Z) (pc : Z) (v : vm) (w : W) : st :=
  mkSt v (vm_wsp v) (vm_rsp v) kw kr pc w.
Definition execute (hook : option hook_fn) (kw kr : Z) (fuel : nat) (pc : Z) (v : vm) (w : W)
  : outcome :=
  if pc =? 0 then Done v w else run hook fuel (initial kw kr pc v w).

End Exec.

(** vm.h:27-37 reset flags. *)
Definition RESET_ZERO_PAGE : Z := 2.
Definition RESET_HIGH_MEM : Z := 4.
Definition RESET_DEVICE : Z := 8.
Definition RESET_STACK : Z := 16.
Definition RESET_ALL : Z := Z.lor (Z.lor (Z.lor RESET_ZERO_PAGE RESET_HIGH_MEM) RESET_DEVICE) RESET_STACK.
Definition RESET_SOFT : Z := Z.lor RESET_HIGH_MEM RESET_STACK.

(** [memset(m + start, v, n)] on an array, bounds not checked here (callers
    check); n = 0 writes nothing. *)
Definition memset (m : arr) (start v n : Z) : arr :=
  fun i => if (start <=? i) && (i <? start + n) then v else m i.

(** vm.c:11-31 [buxn_vm_reset].  memset of line 29 gets
    [memory_size - 0x100] converted to size_t; a memory_size below 0x100 would
    wrap, so this is a fault in the model. *)
Definition reset (v : vm) (flags : Z) : res vm :=
  let has f := 0 <? Z.land flags f in
  let v1 := if has RESET_STACK
            then mkVm 0 0 (memset (vm_ws v) 0 0 256) (memset (vm_rs v) 0 0 256)
                      (vm_dev v) (vm_mem v) (vm_msize v)
            else v in
  let v2 := if has RESET_DEVICE then vm_set_dev v1 (memset (vm_dev v1) 0 0 256) else v1 in
  rbind (if has RESET_ZERO_PAGE
         then if vm_msize v2 <? 256 then Fault (OobWrite 255)
              else Ok (vm_set_mem v2 (memset (vm_mem v2) 0 0 256))
         else Ok v2) (fun v3 =>
  if has RESET_HIGH_MEM
  then if vm_msize v3 <? 256 then Fault (OobWrite 256)
       else Ok (vm_set_mem v3 (memset (vm_mem v3) 256 0 (vm_msize v3 - 256)))
  else Ok v3).
