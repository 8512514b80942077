(** Model of the system device: src/devices/system.c.

    Simplification: the three host functions the device calls
    (set_metadata, theme_changed, debug; system.h:22-31) are arguments. *)
From Verif Require Import Base VmModel.

(** system.c:5-9 [buxn_system_exit_code] *)
Definition exit_code (v : vm) : Z :=
  let state := vm_dev v 15 in if state =? 0 then -1 else Z.land state 127.

(** system.c:11-18 [buxn_system_dei] *)
Definition system_dei (v : vm) (address : Z) : Z :=
  if address =? 4 then vm_wsp v
  else if address =? 5 then vm_rsp v
  else vm_dev v address.

(** [memset(memory + start, value, n)] with the bounds of the allocation; a call
    with n = 0 touches nothing. *)
Definition mem_fill (v : vm) (start value n : Z) : res vm :=
  if n =? 0 then Ok v
  else if (0 <=? start) && (start + n <=? vm_msize v)
  then Ok (vm_set_mem v (memset (vm_mem v) start value n))
  else Fault (OobWrite (start + n - 1)).

(** One iteration [memory[d] = memory[s]]. *)
Definition mem_move1 (v : vm) (d s : Z) : res vm :=
  rbind (aget (vm_msize v) (vm_mem v) s) (fun b =>
  rbind (aset (vm_msize v) (vm_mem v) d b) (fun m => Ok (vm_set_mem v m))).

(** system.c:56-59: [n] iterations left, [i] is the loop variable. *)
Fixpoint copy_up (n : nat) (i dst src : Z) (v : vm) : res vm :=
  match n with
  | O => Ok v
  | S k => rbind (mem_move1 v (u32 (dst + i)) (u32 (src + i))) (copy_up k (i + 1) dst src)
  end.
(** system.c:61-63 *)
Fixpoint copy_down (n : nat) (i dst src length : Z) (v : vm) : res vm :=
  match n with
  | O => Ok v
  | S k => rbind (mem_move1 v (u32 (dst + length - i)) (u32 (src + length - i)))
                 (copy_down k (i + 1) dst src length)
  end.

(** system.c:32,46,51: [bank * 65536 + addr], clamped to the last byte. *)
Definition clamp_addr (v : vm) (bank addr : Z) : Z :=
  let a := u32 (bank * 65536 + addr) in
  if a <? vm_msize v then a else u32 (vm_msize v - 1).
(** system.c:35-36,54-55: [end], clamped. *)
Definition clamp_end (v : vm) (start length : Z) : Z :=
  let e := u32 (start + length) in if e <=? vm_msize v then e else vm_msize v.

(** system.c:23-69, case 0x03 *)
Definition expansion (v : vm) : res vm :=
  let op_addr := dev_load2 v 2 in
  rbind (aget (vm_msize v) (vm_mem v) op_addr) (fun op =>
  let length := mem_load2 v (op_addr + 1) in
  if op =? 0 then
    let bank := mem_load2 v (op_addr + 3) in
    let addr := mem_load2 v (op_addr + 5) in
    let start := clamp_addr v bank addr in
    let end_ := clamp_end v start length in
    (* line 38: the index is an int, it is not masked *)
    rbind (aget (vm_msize v) (vm_mem v) (op_addr + 7)) (fun value =>
    mem_fill v start value (u32 (end_ - start)))
  else if (op =? 1) || (op =? 2) then
    let src := clamp_addr v (mem_load2 v (op_addr + 3)) (mem_load2 v (op_addr + 5)) in
    let dst := clamp_addr v (mem_load2 v (op_addr + 7)) (mem_load2 v (op_addr + 9)) in
    let max := if src >? dst then src else dst in
    let end_ := clamp_end v max length in
    let length := u32 (end_ - max) in
    if op =? 1 then copy_up (Z.to_nat length) 0 dst src v
    else copy_down (Z.to_nat length) 1 dst src length v
  else Ok v).

Section Host.
Variable W : Type.
Variable set_metadata : Z -> vm -> W -> res (vm * W).
Variable theme_changed : vm -> W -> res (vm * W).
Variable debug : Z -> vm -> W -> res (vm * W).

(** system.c:20-86 [buxn_system_deo] *)
Definition system_deo (address : Z) (v : vm) (w : W) : res (vm * W) :=
  if address =? 3 then rbind (expansion v) (fun v' => Ok (v', w))
  else if address =? 4 then Ok (vm_set_ptrs v (vm_dev v address) (vm_rsp v), w)
  else if address =? 5 then Ok (vm_set_ptrs v (vm_wsp v) (vm_dev v address), w)
  else if address =? 7 then set_metadata (dev_load2 v 6) v w
  else if (address =? 9) || (address =? 11) || (address =? 13) then theme_changed v w
  else if address =? 14 then
    if negb (vm_dev v address =? 0) then debug (vm_dev v address) v w else Ok (v, w)
  else Ok (v, w).
End Host.

(** system.c:88-94 [buxn_make_rgba]; the parameters are uint8_t. *)
Definition make_rgba (r g b : Z) : Z :=
  u32 (Z.lor (Z.lor (Z.lor (Z.lor (Z.lor (Z.lor 4278190080
    (Z.shiftl (u8 b) 20)) (Z.shiftl (u8 b) 16)) (Z.shiftl (u8 g) 12)) (Z.shiftl (u8 g) 8))
    (Z.shiftl (u8 r) 4)) (Z.shiftl (u8 r) 0)).

(** system.c:96-106 [buxn_system_palette]: entry [i] (0..3). *)
Definition palette (v : vm) (i : Z) : Z :=
  let r := dev_load2 v 8 in let g := dev_load2 v 10 in let b := dev_load2 v 12 in
  let sh := 12 - 4 * i in
  make_rgba (Z.land (Z.shiftr r sh) 15) (Z.land (Z.shiftr g sh) 15) (Z.land (Z.shiftr b sh) 15).
