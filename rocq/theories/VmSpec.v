(** Reference semantics of one Uxn instruction, written from the Uxn opcode
    reference (a table of operand widths and results as numbers), independently
    of the macros of exec.h.  From VmModel only the names of the opcodes (the
    enumeration [base]) are used. *)
From Verif Require Import Base.
From Verif Require VmModel.
Import VmModel(base(..)).

(** A circular stack of 256 cells: [depth] is the pointer modulo 256. *)
Record stack := mkStack { depth : Z; cell : Z -> Z }.

Record machine := mkMachine {
  wst : stack;
  rst : stack;
  ram : Z -> Z;
  devp : Z -> Z;
  ip : Z
}.

(** Operand sizes in bytes. *)
Definition width (short : bool) : Z := if short then 2 else 1.

(** The number stored in [w] (1 or 2) consecutive cells, big endian. *)
Definition peek (f : Z -> Z) (md a w : Z) : Z :=
  if w =? 2 then 256 * f (a mod md) + f ((a + 1) mod md) else f (a mod md).

(** The operands of an instruction: [ws] are the widths, deepest first.  [off]
    is the distance of the deepest operand from the top. *)
Fixpoint operands_at (st : stack) (off : Z) (ws : list Z) : list Z :=
  match ws with
  | [] => []
  | w :: rest => peek (cell st) 256 (depth st - off) w :: operands_at st (off - w) rest
  end.
Definition total (ws : list Z) : Z := fold_right Z.add 0 ws.
Definition operands (st : stack) (ws : list Z) : list Z := operands_at st (total ws) ws.

(** A result is a number and its width; the bytes it leaves, high byte first. *)
Definition bytes_of (x : Z * Z) : list Z :=
  let '(w, v) := x in if w =? 2 then [(v / 256) mod 256; v mod 256] else [v mod 256].
Definition flatten (xs : list (Z * Z)) : list Z := flat_map bytes_of xs.

(** [place st d bs]: cells d, d+1, ... (circularly) hold [bs], all other cells
    are those of [st], and the pointer is behind the last byte. *)
Definition place (st : stack) (d : Z) (bs : list Z) : stack :=
  mkStack ((d + Z.of_nat (length bs)) mod 256)
          (fun i => let j := (i - d) mod 256 in
                    if j <? Z.of_nat (length bs) then nth (Z.to_nat j) bs 0 else cell st i).

(** What an instruction does besides consuming its operands. *)
Record effect := mkEffect {
  pushes : list (Z * Z);         (* on the same stack *)
  pushes_other : list (Z * Z);   (* on the other stack *)
  stores : list (Z * Z);         (* memory address, byte *)
  goto : Z                       (* next instruction *)
}.

Definition signed (x : Z) : Z := if x <? 128 then x else x - 256.

(** Operand widths, deepest first. *)
Definition operand_widths (o : base) (short : bool) : list Z :=
  let n := width short in
  match o with
  | INC | POP | DUP | JMP | JSR | STH => [n]
  | NIP | SWP | OVR | EQU | NEQ | GTH | LTH
  | ADD | SUB | MUL | DIV | AND | ORA | EOR => [n; n]
  | ROT => [n; n; n]
  | JCN => [1; n]
  | SFT => [n; 1]
  | LDZ | LDR | DEI => [1]
  | LDA => [2]
  | STZ | STR | DEO => [n; 1]
  | STA => [n; 2]
  end.

Definition target (short : bool) (next a : Z) : Z :=
  if short then a else (next + signed a) mod 65536.

(** Bytes stored by writing [v] of width [w] at [a], addresses wrapping at [md]. *)
Definition store_bytes (md w a v : Z) : list (Z * Z) :=
  if w =? 2 then [(a mod md, (v / 256) mod 256); ((a + 1) mod md, v mod 256)]
  else [(a mod md, v mod 256)].

(** The reference table; [next] is the address behind the opcode.  DEI and DEO
    are treated separately because they call the host. *)
Definition reference (o : base) (short : bool) (next : Z) (mem : Z -> Z) (args : list Z)
  : effect :=
  let n := width short in
  let out l := mkEffect l [] [] next in
  match o, args with
  | INC, [a] => out [(n, a + 1)]
  | POP, [a] => out []
  | NIP, [a; b] => out [(n, b)]
  | SWP, [a; b] => out [(n, b); (n, a)]
  | ROT, [a; b; c] => out [(n, b); (n, c); (n, a)]
  | DUP, [a] => out [(n, a); (n, a)]
  | OVR, [a; b] => out [(n, a); (n, b); (n, a)]
  | EQU, [a; b] => out [(1, if a =? b then 1 else 0)]
  | NEQ, [a; b] => out [(1, if a =? b then 0 else 1)]
  | GTH, [a; b] => out [(1, if a >? b then 1 else 0)]
  | LTH, [a; b] => out [(1, if a <? b then 1 else 0)]
  | JMP, [a] => mkEffect [] [] [] (target short next a)
  | JCN, [c; a] => mkEffect [] [] [] (if c =? 0 then next else target short next a)
  | JSR, [a] => mkEffect [] [(2, next)] [] (target short next a)
  | STH, [a] => mkEffect [] [(n, a)] [] next
  | LDZ, [a] => out [(n, peek mem 256 a n)]
  | STZ, [v; a] => mkEffect [] [] (store_bytes 256 n a v) next
  | LDR, [a] => out [(n, peek mem 65536 (next + signed a) n)]
  | STR, [v; a] => mkEffect [] [] (store_bytes 65536 n (next + signed a) v) next
  | LDA, [a] => out [(n, peek mem 65536 a n)]
  | STA, [v; a] => mkEffect [] [] (store_bytes 65536 n a v) next
  | ADD, [a; b] => out [(n, a + b)]
  | SUB, [a; b] => out [(n, a - b)]
  | MUL, [a; b] => out [(n, a * b)]
  | DIV, [a; b] => out [(n, if b =? 0 then 0 else a / b)]
  | AND, [a; b] => out [(n, Z.land a b)]
  | ORA, [a; b] => out [(n, Z.lor a b)]
  | EOR, [a; b] => out [(n, Z.lxor a b)]
  | SFT, [a; s] => out [(n, (a / 2 ^ (s mod 16)) * 2 ^ (s / 16))]
  | _, _ => out []
  end.

(** Apply stores in order. *)
Definition apply_stores (mem : Z -> Z) (l : list (Z * Z)) : Z -> Z :=
  fold_left (fun m x => fun i => if i =? fst x then snd x else m i) l mem.

(** A polymorphic instruction with its three mode flags. *)
Definition spec_poly (o : base) (keep return_ short : bool) (m : machine) : machine :=
  let here := if return_ then rst m else wst m in
  let other := if return_ then wst m else rst m in
  let widths := operand_widths o short in
  let next := (ip m + 1) mod 65536 in
  let e := reference o short next (ram m) (operands here widths) in
  let base_depth := if keep then depth here else (depth here - total widths) mod 256 in
  let here' := place here base_depth (flatten (pushes e)) in
  let other' := place other (depth other) (flatten (pushes_other e)) in
  mkMachine (if return_ then other' else here') (if return_ then here' else other')
            (apply_stores (ram m) (stores e)) (devp m) (goto e).

(** The immediate instructions. *)
Definition spec_jci (m : machine) : machine :=
  let next := ip m + 1 in
  let c := peek (cell (wst m)) 256 (depth (wst m) - 1) 1 in
  mkMachine (place (wst m) ((depth (wst m) - 1) mod 256) []) (rst m) (ram m) (devp m)
            (if c =? 0 then (next + 2) mod 65536
             else (next + 2 + peek (ram m) 65536 next 2) mod 65536).
Definition spec_jmi (m : machine) : machine :=
  let next := ip m + 1 in
  mkMachine (wst m) (rst m) (ram m) (devp m)
            ((next + 2 + peek (ram m) 65536 next 2) mod 65536).
Definition spec_jsi (m : machine) : machine :=
  let next := ip m + 1 in
  mkMachine (wst m) (place (rst m) (depth (rst m)) (flatten [(2, next + 2)])) (ram m) (devp m)
            ((next + 2 + peek (ram m) 65536 next 2) mod 65536).
Definition spec_lit (return_ short : bool) (m : machine) : machine :=
  let next := ip m + 1 in
  let n := width short in
  let v := flatten [(n, peek (ram m) 65536 next n)] in
  mkMachine (if return_ then wst m else place (wst m) (depth (wst m)) v)
            (if return_ then place (rst m) (depth (rst m)) v else rst m)
            (ram m) (devp m) ((next + n) mod 65536).

(** The operation encoded in the low five bits (1..31). *)
Definition operation (n : Z) : base :=
  nth (Z.to_nat n)
    [ INC (* unused *); INC; POP; NIP; SWP; ROT; DUP; OVR; EQU; NEQ; GTH; LTH; JMP; JCN; JSR; STH;
      LDZ; STZ; LDR; STR; LDA; STA; DEI; DEO; ADD; SUB; MUL; DIV; AND; ORA; EOR; SFT ] INC.
Definition flag (op bit : Z) : bool := Z.odd (op / bit).

(** One instruction that is neither BRK nor a device instruction. *)
Definition spec_step (op : Z) (m : machine) : machine :=
  if op mod 32 =? 0 then
    if op =? 32 then spec_jci m
    else if op =? 64 then spec_jmi m
    else if op =? 96 then spec_jsi m
    else spec_lit (flag op 64) (flag op 32) m
  else spec_poly (operation (op mod 32)) (flag op 128) (flag op 64) (flag op 32) m.

Definition is_brk (op : Z) : Prop := op = 0.
Definition is_device_op (op : Z) : Prop := op mod 32 = 22 \/ op mod 32 = 23.

(** The only instruction whose C implementation is undefined: short
    multiplication with a product that does not fit an [int]. *)
Definition mul_overflows (op : Z) (m : machine) : Prop :=
  op mod 32 = 26 /\ flag op 32 = true /\
  let here := if flag op 64 then rst m else wst m in
  exists a b, operands here [2; 2] = [a; b] /\ a * b > 2147483647.

(** Pointwise equality of machines on the cells that exist. *)
Definition stack_eq (a b : stack) : Prop :=
  depth a = depth b /\ forall i, 0 <= i < 256 -> cell a i = cell b i.
Definition machine_eq (a b : machine) : Prop :=
  stack_eq (wst a) (wst b) /\ stack_eq (rst a) (rst b) /\
  (forall i, ram a i = ram b i) /\
  (forall i, 0 <= i < 256 -> devp a i = devp b i) /\ ip a = ip b.

(** ** Device instructions *)

(** The machine a VM record with up to date stack pointers stands for. *)
Definition machine_of (v : VmModel.vm) (pc : Z) : machine :=
  mkMachine (mkStack (VmModel.vm_wsp v) (VmModel.vm_ws v))
            (mkStack (VmModel.vm_rsp v) (VmModel.vm_rs v))
            (VmModel.vm_mem v) (VmModel.vm_dev v) pc.

(** Operands removed from the stack [return_] before the host is called,
    unless keep mode is on. *)
Definition consume (v : VmModel.vm) (keep return_ : bool) (n : Z) : VmModel.vm :=
  if keep then v
  else if return_ then VmModel.vm_set_ptrs v (VmModel.vm_wsp v) ((VmModel.vm_rsp v - n) mod 256)
  else VmModel.vm_set_ptrs v ((VmModel.vm_wsp v - n) mod 256) (VmModel.vm_rsp v).

Section Host.
Variable W : Type.
Variable dei : Z -> VmModel.vm -> W -> res (Z * VmModel.vm * W).
Variable deo : Z -> VmModel.vm -> W -> res (VmModel.vm * W).
Variable hi_first : bool.

(** Input: ask the host for the port, and for the next port (modulo 256) in
    short mode; the value is assembled big endian. *)
Definition host_in (short : bool) (port : Z) (v : VmModel.vm) (w : W)
  : res (Z * VmModel.vm * W) :=
  if short then
    let first := if hi_first then port else (port + 1) mod 256 in
    let second := if hi_first then (port + 1) mod 256 else port in
    rbind (dei first v w) (fun '(a, v1, w1) =>
    rbind (dei second v1 w1) (fun '(b, v2, w2) =>
    Ok (if hi_first then 256 * (a mod 256) + b mod 256 else 256 * (b mod 256) + a mod 256, v2, w2)))
  else rbind (dei port v w) (fun '(a, v1, w1) => Ok (a mod 256, v1, w1)).

(** Output: store the value in the device page first, then notify the port and,
    in short mode, the next port. *)
Definition host_out (short : bool) (port val : Z) (v : VmModel.vm) (w : W)
  : res (VmModel.vm * W) :=
  let v0 := VmModel.vm_set_dev v
              (apply_stores (VmModel.vm_dev v) (store_bytes 256 (width short) port val)) in
  rbind (deo port v0 w) (fun '(v1, w1) =>
  if short then deo ((port + 1) mod 256) v1 w1 else Ok (v1, w1)).

(** The result of an input instruction is pushed where the stack pointer is
    after the host was called. *)
Definition push_value (return_ short : bool) (val : Z) (m : machine) : machine :=
  let b := flatten [(width short, val)] in
  mkMachine (if return_ then wst m else place (wst m) (depth (wst m)) b)
            (if return_ then place (rst m) (depth (rst m)) b else rst m)
            (ram m) (devp m) (ip m).
End Host.

(** Well-typed C data: every cell of a uint8_t array is a byte, and the host
    allocated at least one bank of memory. *)
Definition well_typed (v : VmModel.vm) : Prop :=
  is_byte (VmModel.vm_wsp v) /\ is_byte (VmModel.vm_rsp v) /\
  (forall i, 0 <= i < 256 -> is_byte (VmModel.vm_ws v i)) /\
  (forall i, 0 <= i < 256 -> is_byte (VmModel.vm_rs v i)) /\
  (forall i, 0 <= i < 256 -> is_byte (VmModel.vm_dev v i)) /\
  (forall i, 0 <= i < VmModel.vm_msize v -> is_byte (VmModel.vm_mem v i)) /\
  65536 <= VmModel.vm_msize v.

(** Callbacks that return well-typed machines (any C callback does). *)
Definition host_well_typed {W} (dei : Z -> VmModel.vm -> W -> res (Z * VmModel.vm * W))
  (deo : Z -> VmModel.vm -> W -> res (VmModel.vm * W)) : Prop :=
  (forall a v w b v' w', is_byte a -> well_typed v -> dei a v w = Ok (b, v', w') -> well_typed v') /\
  (forall a v w v' w', is_byte a -> well_typed v -> deo a v w = Ok (v', w') -> well_typed v').
