(** Model of the hash function src/asm/chibihash64.h and of the string pool of the
    assembler with the characters in memory, src/asm/asm.c:720-760 with
    src/asm/hamt.h:28-49.  HamtModel has the same trie for keys without memory and
    an arbitrary hash. *)
From Verif Require Import Base.

(** ** chibihash64.h.  The object that may be read is exactly the [len] bytes of
    the string; [s i] is [keyIn[i]].  [p] is the offset of the pointer. *)

(** chibihash64.h:12-16 [chibihash64__load32le] *)
Definition load32 (len : Z) (s : arr) (p : Z) : res Z :=
  rbind (aget len s p) (fun a => rbind (aget len s (p + 1)) (fun b =>
  rbind (aget len s (p + 2)) (fun c => rbind (aget len s (p + 3)) (fun d =>
  Ok (Z.lor (Z.lor (Z.lor (u64 (Z.shiftl a 0)) (u64 (Z.shiftl b 8))) (u64 (Z.shiftl c 16))) (u64 (Z.shiftl d 24))))))).
(** chibihash64.h:17-20 [chibihash64__load64le] *)
Definition load64 (len : Z) (s : arr) (p : Z) : res Z :=
  rbind (load32 len s p) (fun lo => rbind (load32 len s (p + 4)) (fun hi => Ok (Z.lor lo (u64 (Z.shiftl hi 32))))).
(** chibihash64.h:21-24 [chibihash64__rotl]; [n] is between 1 and 63 at every call. *)
Definition rotl (x n : Z) : Z := Z.lor (u64 (Z.shiftl x n)) (Z.shiftr x (Z.land (- n) 63)).

(** chibihash64.h:32 *)
Definition HASH_K : Z := 3133965575612453543.

(** chibihash64.h:33-34: the array h *)
Definition hash_start (seed : Z) : arr :=
  let seed2 := u64 (rotl (u64 (seed - HASH_K)) 15 + rotl (u64 (seed - HASH_K)) 47) in
  upd (upd (upd (upd (fun _ => 0) 0 seed) 1 (u64 (seed + HASH_K))) 2 seed2)
    3 (u64 (seed2 + Z.lxor (u64 (HASH_K * HASH_K)) HASH_K)).

(** chibihash64.h:45-49: the inner loop, [n] rounds from [i] on *)
Fixpoint stripes (len : Z) (s : arr) (n : nat) (i p : Z) (h : arr) : res arr :=
  match n with
  | O => Ok h
  | S n' =>
      rbind (load64 len s p) (fun stripe =>
      let h := upd h i (u64 (u64 (stripe + h i) * HASH_K)) in
      let j := Z.land (i + 1) 3 in
      stripes len s n' (i + 1) (p + 8) (upd h j (u64 (h j + rotl stripe 27))))
  end.
(** chibihash64.h:44-50; the result has the l and p of afterwards.  [fuel] is a
    bound on the rounds; with none left the result is a fault. *)
Fixpoint loop32 (fuel : nat) (len : Z) (s : arr) (l p : Z) (h : arr) : res (Z * Z * arr) :=
  if l >=? 32 then
    match fuel with
    | O => Fault Uninit
    | S fuel' => rbind (stripes len s 4 0 p h) (fun h => loop32 fuel' len s (l - 32) (p + 32) h)
    end
  else Ok (l, p, h).
(** chibihash64.h:52-55 *)
Fixpoint loop8 (fuel : nat) (len : Z) (s : arr) (l p : Z) (h : arr) : res (Z * Z * arr) :=
  if l >=? 8 then
    match fuel with
    | O => Fault Uninit
    | S fuel' =>
        rbind (load32 len s (p + 0)) (fun a =>
        let h := upd h 0 (u64 (Z.lxor (h 0) a * HASH_K)) in
        rbind (load32 len s (p + 4)) (fun b =>
        let h := upd h 1 (u64 (Z.lxor (h 1) b * HASH_K)) in
        loop8 fuel' len s (l - 8) (p + 8) h))
    end
  else Ok (l, p, h).
(** chibihash64.h:57-63 *)
Definition tail (len : Z) (s : arr) (l p : Z) (h : arr) : res arr :=
  if l >=? 4 then
    rbind (load32 len s p) (fun a =>
    let h := upd h 2 (Z.lxor (h 2) a) in
    rbind (load32 len s (p + l - 4)) (fun b => Ok (upd h 3 (Z.lxor (h 3) b))))
  else if l >? 0 then
    rbind (aget len s (p + 0)) (fun a =>
    let h := upd h 2 (Z.lxor (h 2) a) in
    rbind (aget len s (p + Z.quot l 2)) (fun b => rbind (aget len s (p + (l - 1))) (fun c =>
    Ok (upd h 3 (Z.lxor (h 3) (Z.lor b (u64 (Z.shiftl c 8))))))))
  else Ok h.
(** chibihash64.h:65-79 *)
Definition finish (len seed : Z) (h : arr) : Z :=
  let h := upd h 0 (u64 (h 0 + Z.lxor (rotl (u64 (h 2 * HASH_K)) 31) (Z.shiftr (h 2) 31))) in
  let h := upd h 1 (u64 (h 1 + Z.lxor (rotl (u64 (h 3 * HASH_K)) 31) (Z.shiftr (h 3) 31))) in
  let h := upd h 0 (u64 (h 0 * HASH_K)) in
  let h := upd h 0 (Z.lxor (h 0) (Z.shiftr (h 0) 31)) in
  let h := upd h 1 (u64 (h 1 + h 0)) in
  let x := u64 (u64 len * HASH_K) in
  let x := Z.lxor x (rotl x 29) in
  let x := u64 (x + seed) in
  let x := Z.lxor x (h 1) in
  let x := Z.lxor x (Z.lxor (rotl x 15) (rotl x 42)) in
  let x := u64 (x * HASH_K) in
  Z.lxor x (Z.lxor (rotl x 13) (rotl x 31)).
(** chibihash64.h:26-82 [chibihash64] *)
Definition chibihash64 (s : arr) (len seed : Z) : res Z :=
  rbind (loop32 (Z.to_nat len) len s len 0 (hash_start seed)) (fun '(l, p, h) =>
  rbind (loop8 (Z.to_nat len) len s l p h) (fun '(l, p, h) =>
  rbind (tail len s l p h) (fun h => Ok (finish len seed h)))).

(** ** asm.c: the pool.  A node is its address, its key (the pointer to the
    characters and the length, asm.c:61-64 and 68-73) and its four children; the
    characters are in the memory [m].  The fields of the nodes are not in [m];
    a node takes the first 56 bytes of its block, which has room for the larger
    node of the symbol table (64-bit machines: 16 + 32 + 8 and 184 bytes). *)
Inductive ptrie : Type :=
| PNull
| PNode (addr chars len : Z) (c0 c1 c2 c3 : ptrie).
Definition PSTR_SIZE : Z := 56.
Definition SYMTAB_NODE_SIZE : Z := 184.

(** memcmp *)
Fixpoint same_bytes (m : arr) (a b : Z) (n : nat) : bool :=
  match n with O => true | S n' => (m a =? m b) && same_bytes m (a + 1) (b + 1) n' end.
(** asm.c:720-724 [buxn_asm_str_eq] *)
Definition str_eq (m : arr) (chars len chars' len' : Z) : bool :=
  (len =? len') && same_bytes m chars chars' (Z.to_nat len).
Definition pchild (i : Z) (c0 c1 c2 c3 : ptrie) : ptrie :=
  if i =? 0 then c0 else if i =? 1 then c1 else if i =? 2 then c2 else c3.
(** hamt.h:28-43 BHAMT_SEARCH *)
Fixpoint psearch (m : arr) (t : ptrie) (hash chars len : Z) : option Z * list Z :=
  match t with
  | PNull => (None, [])
  | PNode a ch n c0 c1 c2 c3 =>
      if str_eq m ch n chars len then (Some a, [])
      else let i := Z.land hash 3 in
        let '(r, path) := psearch m (pchild i c0 c1 c2 c3) (Z.shiftr hash 2) chars len in (r, i :: path)
  end.
(** [*itr = node] *)
Fixpoint pstore (t : ptrie) (path : list Z) (addr chars len : Z) : ptrie :=
  match path with
  | [] => PNode addr chars len PNull PNull PNull PNull
  | i :: path' =>
      match t with
      | PNull => PNull
      | PNode a ch n c0 c1 c2 c3 =>
          if i =? 0 then PNode a ch n (pstore c0 path' addr chars len) c1 c2 c3
          else if i =? 1 then PNode a ch n c0 (pstore c1 path' addr chars len) c2 c3
          else if i =? 2 then PNode a ch n c0 c1 (pstore c2 path' addr chars len) c3
          else PNode a ch n c0 c1 c2 (pstore c3 path' addr chars len)
      end
  end.
(** memcpy *)
Fixpoint copy (m : arr) (src dst : Z) (n : nat) : arr :=
  match n with O => m | S n' => copy (upd m dst (m src)) (src + 1) (dst + 1) n' end.

(** asm.c:726-751 [buxn_asm_strintern]; [block] is what the host returns for a
    request of [SYMTAB_NODE_SIZE + len + 1] bytes; writing behind them is a fault. *)
Definition strintern (m : arr) (t : ptrie) (chars len block : Z) : res (arr * ptrie * Z) :=
  rbind (chibihash64 (fun i => m (chars + i)) len 0) (fun hash =>
  match psearch m t hash chars len with
  | (Some a, _) => Ok (m, t, a)
  | (None, path) =>
      let dst := block + PSTR_SIZE in
      if in_bounds (SYMTAB_NODE_SIZE + len + 1) (PSTR_SIZE + len) then
        let m := copy m chars dst (Z.to_nat len) in
        Ok (upd m (dst + len) 0, pstore t path block dst len, block)
      else Fault (OobWrite (dst + len))
  end).
(** asm.c:753-759 [buxn_asm_strfind] *)
Definition strfind (m : arr) (t : ptrie) (chars len : Z) : res (option Z) :=
  rbind (chibihash64 (fun i => m (chars + i)) len 0) (fun hash => Ok (fst (psearch m t hash chars len))).
