(** What the system expansion port, the exit status and the palette promise,
    written without the helpers of SystemModel. *)
From Verif Require Import Base.
From Verif Require Import VmModel.

(** A big endian short in an address space of [md] cells. *)
Definition word (m : Z -> Z) (md a : Z) : Z := 256 * m (a mod md) + m ((a + 1) mod md).

(** The command block the program points to with System/expansion. *)
Definition command (v : vm) : Z := word (vm_dev v) 256 2.
Definition cmd_byte (v : vm) (k : Z) : Z := vm_mem v (command v + k).
Definition cmd_word (v : vm) (k : Z) : Z := word (vm_mem v) 65536 (command v + k).

(** Everything but the memory is unchanged. *)
Definition only_memory (v v' : vm) : Prop :=
  vm_wsp v' = vm_wsp v /\ vm_rsp v' = vm_rsp v /\ vm_ws v' = vm_ws v /\ vm_rs v' = vm_rs v /\
  vm_dev v' = vm_dev v /\ vm_msize v' = vm_msize v.

(** The first address of a range given by bank and address. *)
Definition linear (bank addr : Z) : Z := 65536 * bank + addr.

(** Outcome of a fill command. *)
Definition fill_spec (v v' : vm) : Prop :=
  let len := cmd_word v 1 in
  let start := linear (cmd_word v 3) (cmd_word v 5) in
  let value := cmd_byte v 7 in
  only_memory v v' /\
  forall i, vm_mem v' i =
    if start <? vm_msize v then
      if (start <=? i) && (i <? Z.min (start + len) (vm_msize v)) then value else vm_mem v i
    else (* deviation: the last byte of memory *)
      if (i =? vm_msize v - 1) && (0 <? len) then value else vm_mem v i.

(** Source, destination and clipped length of a copy command; addresses
    outside memory are replaced by its last byte. *)
Definition copy_src (v : vm) : Z := Z.min (linear (cmd_word v 3) (cmd_word v 5)) (vm_msize v - 1).
Definition copy_dst (v : vm) : Z := Z.min (linear (cmd_word v 7) (cmd_word v 9)) (vm_msize v - 1).
Definition copy_len (v : vm) : Z :=
  Z.min (cmd_word v 1) (vm_msize v - Z.max (copy_src v) (copy_dst v)).

(** Which old byte ends up at destination offset [i] (0 <= i < len) when bytes are
    moved one by one from the first to the last: a gap [dst - src] that is
    positive and shorter than the range repeats the first [dst - src] bytes. *)
Definition up_source (src dst i : Z) : Z :=
  if src <? dst then src + i mod (dst - src) else src + i.
(** ... and from the last to the first: with src > dst the last
    [src - dst] bytes are repeated downwards. *)
Definition down_source (src dst len i : Z) : Z :=
  if dst <? src then src + len - 1 - (len - 1 - i) mod (src - dst) else src + i.

Definition copy_spec (v v' : vm) (source : Z -> Z) : Prop :=
  only_memory v v' /\
  forall i, vm_mem v' i =
    if (copy_dst v <=? i) && (i <? copy_dst v + copy_len v)
    then vm_mem v (source (i - copy_dst v)) else vm_mem v i.

(** Nibble [k] (0 = most significant) of a 16 bit colour register. *)
Definition nibble (x k : Z) : Z := (x / 16 ^ (3 - k)) mod 16.
Definition channel (rgba k : Z) : Z := (rgba / 256 ^ k) mod 256.
