(** Model of the hash array mapped trie, src/asm/hamt.h, and of the string pool
    and symbol table that use it, src/asm/asm.c:704-845. *)
From Verif Require Import Base.

Section Trie.
(** The keys with the comparison KEYEQ, which decides equality: of pointers
    (asm.c:716) or of length and bytes (asm.c:721). *)
Context {K : Type} (eq_dec : forall a b : K, {a = b} + {a <> b}).

(** A pointer to a node: NULL, or the key, the identity of the node (its
    address) and the BHAMT_NUM_CHILDREN = 4 children. *)
Inductive trie : Type :=
| Null
| Node (key : K) (addr : Z) (c0 c1 c2 c3 : trie).

Definition child (i : Z) (c0 c1 c2 c3 : trie) : trie :=
  if i =? 0 then c0 else if i =? 1 then c1 else if i =? 2 then c2 else c3.

(** hamt.h:25-26: BHAMT_MASK. *)
Definition slot (hash : Z) : Z := Z.land hash 3.

(** hamt.h:28-43 BHAMT_SEARCH: the node found, or the children followed to the
    NULL pointer at which the search ended. *)
Fixpoint search (t : trie) (hash : Z) (key : K) : option Z * list Z :=
  match t with
  | Null => (None, [])
  | Node k a c0 c1 c2 c3 =>
      if eq_dec k key then (Some a, [])
      else
        let '(r, path) := search (child (slot hash) c0 c1 c2 c3) (Z.shiftr hash 2) key in
        (r, slot hash :: path)
  end.

(** hamt.h:45-49 BHAMT_GET. *)
Definition get (t : trie) (hash : Z) (key : K) : option Z := fst (search t hash key).

(** [*itr = node] with a node that has no children (asm.c:735-748, 819-827):
    the pointer at the end of [path] is overwritten. *)
Fixpoint store (t : trie) (path : list Z) (key : K) (addr : Z) : trie :=
  match path with
  | [] => Node key addr Null Null Null Null
  | i :: path' =>
      match t with
      | Null => Null
      | Node k a c0 c1 c2 c3 =>
          if i =? 0 then Node k a (store c0 path' key addr) c1 c2 c3
          else if i =? 1 then Node k a c0 (store c1 path' key addr) c2 c3
          else if i =? 2 then Node k a c0 c1 (store c2 path' key addr) c3
          else Node k a c0 c1 c2 (store c3 path' key addr)
      end
  end.

(** asm.c:727-751 [buxn_asm_strintern], and the same steps in
    [buxn_asm_find_or_create_symbol] (810-837) and [buxn_asm_process_include]
    (2102-2121): the node of the key, created at the address [fresh] if there is
    none. *)
Definition intern (hash : K -> Z) (fresh : Z) (t : trie) (key : K) : trie * Z :=
  match search t (hash key) key with
  | (Some a, _) => (t, a)
  | (None, path) => (store t path key fresh, fresh)
  end.
End Trie.
Arguments trie : clear implicits.
