(** Model of the symbol files: src/dbg/symtab.c, include/buxn/dbg/symtab.h.

    A file is the value written with the serialisation library (bserial, not
    part of the repository).  The assumptions about it are those of ProtoModel:
    reading finds the values that were written, an integer outside the range of
    the variable is malformed, a record delivers its fields in the order of the
    stream and skips unknown ones.  In addition there are arrays and tables,
    each with a declared length followed by its items. *)
From Verif Require Import Base.

(** The keys of symtab.c; any other key is [SkOther]. *)
Inductive skey : Type :=
| SkNumSymbols | SkNumStrings | SkPoolSize
| SkStrpool | SkSymtab
| SkType | SkId | SkMin | SkMax | SkFile
| SkStartLine | SkStartCol | SkStartByte | SkEndLine | SkEndCol | SkEndByte
| SkOther.

Definition skey_dec (a b : skey) : {a = b} + {a <> b}.
Proof. decide equality. Defined.

Inductive sval : Type :=
| SvInt (z : Z)
| SvBlob (bytes : list Z)
| SvArr (declared : Z) (items : list sval)
| SvTab (declared : Z) (rows : list sval)
| SvRec (fields : list (skey * sval)).

(** How an operation ends: normally, with a status other than BSERIAL_OK, or
    never. *)
Inductive sres (A : Type) : Type :=
| SOk (a : A)
| SMalformed
| SIo
| SHang.
Arguments SOk {A}. Arguments SMalformed {A}. Arguments SIo {A}. Arguments SHang {A}.

Definition sbind {A B} (r : sres A) (f : A -> sres B) : sres B :=
  match r with SOk a => f a | SMalformed => SMalformed | SIo => SIo | SHang => SHang end.

(** [bserial_any_int] on a variable with the range [lo, hi). [None] when
    writing, [Some v] when [v] has been found on the stream. *)
Definition rint (lo hi : Z) (i : option sval) (x : Z) : sres (sval * Z) :=
  match i with
  | None => SOk (SvInt x, x)
  | Some (SvInt y) => if (lo <=? y) && (y <? hi) then SOk (SvInt y, y) else SMalformed
  | Some _ => SMalformed
  end.

Section Record.
Context {C : Type}.
Definition sfield : Type := skey * (option sval -> C -> sres (sval * C)).

Fixpoint put_fields (fs : list sfield) (c : C) : sres (list (skey * sval) * C) :=
  match fs with
  | [] => SOk ([], c)
  | (k, f) :: fs' =>
      sbind (f None c) (fun '(v, c) =>
      sbind (put_fields fs' c) (fun '(kvs, c) => SOk ((k, v) :: kvs, c)))
  end.

Fixpoint sfield_of (fs : list sfield) (k : skey) : option (option sval -> C -> sres (sval * C)) :=
  match fs with
  | [] => None
  | (k', f) :: fs' => if skey_dec k k' then Some f else sfield_of fs' k
  end.

Fixpoint get_fields (fs : list sfield) (kvs : list (skey * sval)) (c : C) : sres C :=
  match kvs with
  | [] => SOk c
  | (k, v) :: kvs' =>
      match sfield_of fs k with
      | Some f => sbind (f (Some v) c) (fun '(_, c) => get_fields fs kvs' c)
      | None => get_fields fs kvs' c
      end
  end.

Definition record (fs : list sfield) (i : option sval) (c : C) : sres (sval * C) :=
  match i with
  | None => sbind (put_fields fs c) (fun '(kvs, c) => SOk (SvRec kvs, c))
  | Some (SvRec kvs) => sbind (get_fields fs kvs c) (fun c => SOk (SvRec kvs, c))
  | Some _ => SMalformed
  end.
End Record.

(** symtab.h:25-31 [buxn_dbg_sym_t] with asm.h:14-23,38-41.  [y_file] is the
    pointer to the file name: an address in the memory of the writer (0 is
    NULL), and for the reader the number of the string in its pool. *)
Record sym : Type := mkSym {
  y_type : Z; y_id : Z; y_min : Z; y_max : Z; y_file : Z;
  y_sl : Z; y_sc : Z; y_sb : Z; y_el : Z; y_ec : Z; y_eb : Z
}.
Definition set_type (y : sym) v := mkSym v (y_id y) (y_min y) (y_max y) (y_file y) (y_sl y) (y_sc y) (y_sb y) (y_el y) (y_ec y) (y_eb y).
Definition set_id (y : sym) v := mkSym (y_type y) v (y_min y) (y_max y) (y_file y) (y_sl y) (y_sc y) (y_sb y) (y_el y) (y_ec y) (y_eb y).
Definition set_min (y : sym) v := mkSym (y_type y) (y_id y) v (y_max y) (y_file y) (y_sl y) (y_sc y) (y_sb y) (y_el y) (y_ec y) (y_eb y).
Definition set_max (y : sym) v := mkSym (y_type y) (y_id y) (y_min y) v (y_file y) (y_sl y) (y_sc y) (y_sb y) (y_el y) (y_ec y) (y_eb y).
Definition set_file (y : sym) v := mkSym (y_type y) (y_id y) (y_min y) (y_max y) v (y_sl y) (y_sc y) (y_sb y) (y_el y) (y_ec y) (y_eb y).
Definition set_sl (y : sym) v := mkSym (y_type y) (y_id y) (y_min y) (y_max y) (y_file y) v (y_sc y) (y_sb y) (y_el y) (y_ec y) (y_eb y).
Definition set_sc (y : sym) v := mkSym (y_type y) (y_id y) (y_min y) (y_max y) (y_file y) (y_sl y) v (y_sb y) (y_el y) (y_ec y) (y_eb y).
Definition set_sb (y : sym) v := mkSym (y_type y) (y_id y) (y_min y) (y_max y) (y_file y) (y_sl y) (y_sc y) v (y_el y) (y_ec y) (y_eb y).
Definition set_el (y : sym) v := mkSym (y_type y) (y_id y) (y_min y) (y_max y) (y_file y) (y_sl y) (y_sc y) (y_sb y) v (y_ec y) (y_eb y).
Definition set_ec (y : sym) v := mkSym (y_type y) (y_id y) (y_min y) (y_max y) (y_file y) (y_sl y) (y_sc y) (y_sb y) (y_el y) v (y_eb y).
Definition set_eb (y : sym) v := mkSym (y_type y) (y_id y) (y_min y) (y_max y) (y_file y) (y_sl y) (y_sc y) (y_sb y) (y_el y) (y_ec y) v.

(** ** The hash table of file names *)
(** symtab.c:42-47 [buxn_msi]: [idx] is an int32_t, the sum is unsigned. *)
Definition msi (hash exp idx : Z) : Z :=
  let mask := u32 (Z.shiftl 1 exp) - 1 in
  let step := u32 (Z.lor (Z.shiftr hash (64 - exp)) 1) in
  Z.land (u32 (u32 idx + step)) mask.

(** symtab.c:50-58 [buxn_splittable64]. *)
Definition splittable64 (x : Z) : Z :=
  let x := Z.lxor x (Z.shiftr x 30) in
  let x := u64 (x * 13787848793156543929) in
  let x := Z.lxor x (Z.shiftr x 27) in
  let x := u64 (x * 10723151780598845931) in
  Z.lxor x (Z.shiftr x 31).

(** The probing loops of symtab.c:263-272 and 335-345: from the index [idx],
    the first slot at which [stop] holds.  [None] if it is not found within
    [fuel] steps. *)
Fixpoint probe (fuel : nat) (hash exp idx : Z) (stop : Z -> bool) : option Z :=
  match fuel with
  | O => None
  | S fuel' =>
      let i := msi hash exp idx in
      if stop i then Some i else probe fuel' hash exp i stop
  end.

(** symtab.c:13-18 [buxn_dbg_symtab_strpool_t] without the indices, which are
    [rank] below; 0 is NULL. *)
Record pool : Type := mkPool { p_exp : Z; p_strings : Z -> Z }.

(** The loops never end if the slot is not found in one round of the table
    (SymtabProofs.probe_stuck). *)
Definition slots (exp : Z) : nat := Z.to_nat (2 ^ exp).

Definition hash_of (f : Z) : Z := splittable64 (u64 f).

(** symtab.c:331-345: enter one file name; the boolean tells whether it is
    new. *)
Definition enter (p : pool) (f : Z) : sres (pool * bool) :=
  match probe (slots (p_exp p)) (hash_of f) (p_exp p) (s32 (hash_of f))
          (fun i => (p_strings p i =? 0) || (p_strings p i =? f)) with
  | Some i =>
      if p_strings p i =? 0 then SOk (mkPool (p_exp p) (upd (p_strings p) i f), true)
      else SOk (p, false)
  | None => SHang
  end.

(** symtab.c:329-346: all file names; the sum of their sizes, in 32 bits. *)
Fixpoint enter_all (content : Z -> list Z) (fs : list Z) (p : pool) (size : Z) : sres (pool * Z) :=
  match fs with
  | [] => SOk (p, size)
  | f :: fs' =>
      sbind (enter p f) (fun '(p, new) =>
      enter_all content fs' p (if new then u32 (size + u32 (Z.of_nat (length (content f))) + 1) else size))
  end.

(** The slots in use, in order (symtab.c:215-224, 347-353). *)
Fixpoint used_from (k : nat) (i : Z) (p : pool) : list Z :=
  match k with
  | O => []
  | S k' => (if p_strings p i =? 0 then [] else [p_strings p i]) ++ used_from k' (i + 1) p
  end.
Definition used (p : pool) : list Z := used_from (slots (p_exp p)) 0 p.
(** [indices[i]]: the number of used slots before slot [i]. *)
Definition rank (p : pool) (i : Z) : Z := Z.of_nat (length (used_from (Z.to_nat i) 0 p)).

(** symtab.c:263-272: the number of the name [f]. *)
Definition find (p : pool) (f : Z) : sres Z :=
  match probe (slots (p_exp p)) (hash_of f) (p_exp p) (s32 (hash_of f)) (fun i => p_strings p i =? f) with
  | Some i => SOk (rank p i)
  | None => SHang
  end.

(** symtab.c:60-105 [buxn_dbg_symtab_writer_layout]: the exponent.  The loop
    does not end for more than 2^31 files, because [strhash_size] becomes 0. *)
Fixpoint table_exp (fuel : nat) (size exp num : Z) : sres Z :=
  match fuel with
  | O => SHang
  | S fuel' => if size <? num then table_exp fuel' (u32 (Z.shiftl size 1)) (exp + 1) num else SOk exp
  end.
(** symtab.c:98-102: the table starts empty. *)
Definition make_pool (num_files : Z) : sres pool :=
  sbind (table_exp 40 2 1 num_files) (fun exp => SOk (mkPool exp (fun _ => 0))).

(** ** The two halves of the file *)
(** symtab.c:7-11 *)
Record header : Type := mkHeader { h_symbols : Z; h_strings : Z; h_pool : Z }.

Definition INT_RANGE_LO : Z := -2147483648.
Definition INT_RANGE_HI : Z := 2147483648.

(** symtab.c:169-190 [buxn_dbg_serialize_symtab_header]; the array of length 2
    around both halves is in [write_symtab] and [read_symtab]. *)
Definition header_fields : list (@sfield header) :=
  [(SkNumSymbols, fun i h => sbind (rint 0 4294967296 i (h_symbols h)) (fun '(v, x) => SOk (v, mkHeader x (h_strings h) (h_pool h))));
   (SkNumStrings, fun i h => sbind (rint 0 4294967296 i (h_strings h)) (fun '(v, x) => SOk (v, mkHeader (h_symbols h) x (h_pool h))));
   (SkPoolSize, fun i h => sbind (rint 0 4294967296 i (h_pool h)) (fun '(v, x) => SOk (v, mkHeader (h_symbols h) (h_strings h) x)))].

(** The string pool the body works with: the one of the writer, or the number
    of strings of the reader. *)
Inductive side : Type :=
| Writer (p : pool)
| Reader (num : Z).

Definition fld (lo hi : Z) (get : sym -> Z) (set : sym -> Z -> sym)
  (i : option sval) (y : sym) : sres (sval * sym) :=
  sbind (rint lo hi i (get y)) (fun '(v, x) => SOk (v, set y x)).

(** symtab.c:255-277: the key filename. *)
Definition file_field (sd : side) (num_symbols : Z) (i : option sval) (y : sym) : sres (sval * sym) :=
  match i, sd with
  | Some v, Reader num =>
      sbind (rint 0 4294967296 (Some v) 0) (fun '(v, str_id) =>
      if num <=? str_id then SMalformed else SOk (v, set_file y str_id))
  | None, Writer p =>
      sbind (find p (y_file y)) (fun str_id =>
      if num_symbols <=? str_id then SMalformed
      else sbind (rint 0 4294967296 None str_id) (fun '(v, _) => SOk (v, y)))
  | _, _ => SMalformed
  end.

(** symtab.c:233-303: one symbol. *)
Definition sym_fields (sd : side) (num_symbols : Z) : list (@sfield sym) :=
  [(SkType, fld 0 256 y_type set_type);
   (SkId, fld 0 65536 y_id set_id);
   (SkMin, fld 0 65536 y_min set_min);
   (SkMax, fld 0 65536 y_max set_max);
   (SkFile, file_field sd num_symbols);
   (SkStartLine, fld INT_RANGE_LO INT_RANGE_HI y_sl set_sl);
   (SkStartCol, fld INT_RANGE_LO INT_RANGE_HI y_sc set_sc);
   (SkStartByte, fld INT_RANGE_LO INT_RANGE_HI y_sb set_sb);
   (SkEndLine, fld INT_RANGE_LO INT_RANGE_HI y_el set_el);
   (SkEndCol, fld INT_RANGE_LO INT_RANGE_HI y_ec set_ec);
   (SkEndByte, fld INT_RANGE_LO INT_RANGE_HI y_eb set_eb)].

Fixpoint put_rows (sd : side) (n : Z) (ys : list sym) : sres (list sval) :=
  match ys with
  | [] => SOk []
  | y :: ys' =>
      sbind (record (sym_fields sd n) None y) (fun '(v, _) =>
      sbind (put_rows sd n ys') (fun vs => SOk (v :: vs)))
  end.

(** The symbol array of the reader is not initialised: [junk]. *)
Fixpoint get_rows (sd : side) (n : Z) (k : nat) (i : Z) (junk : Z -> sym) (rows : list sval) : sres (list sym) :=
  match k with
  | O => SOk []
  | S k' =>
      match rows with
      | [] => SIo
      | v :: rows' =>
          sbind (record (sym_fields sd n) (Some v) (junk i)) (fun '(_, y) =>
          sbind (get_rows sd n k' (i + 1) junk rows') (fun ys => SOk (y :: ys)))
      end
  end.

(** symtab.c:205-213 with btmp_buf.h:12-38: the strings are stored in a buffer
    of which [room] bytes are left.  Lengths near 2^64, for which the sum in
    [btmp_buf_alloc_str] wraps around, are not modelled. *)
Fixpoint get_strings (k : nat) (room : Z) (items : list sval) : sres (list (list Z)) :=
  match k with
  | O => SOk []
  | S k' =>
      match items with
      | SvBlob s :: items' =>
          let size := Z.of_nat (length s) + 1 in
          if size <=? room
          then sbind (get_strings k' (room - size) items') (fun l => SOk (s :: l))
          else SMalformed
      | [] => SIo
      | _ :: _ => SMalformed
      end
  end.

(** What the body of the reader fills in. *)
Record body : Type := mkBody { b_strings : list (list Z); b_symbols : list sym }.

(** symtab.c:200-226, the key strpool. *)
Definition strpool_field (content : Z -> list Z) (sd : side) (room : Z)
  (i : option sval) (b : body) : sres (sval * body) :=
  match i, sd with
  | None, Writer p => SOk (SvArr (Z.of_nat (length (used p))) (map (fun f => SvBlob (content f)) (used p)), b)
  | Some (SvArr n items), Reader num =>
      if negb (n =? num) then SMalformed
      else sbind (get_strings (Z.to_nat n) room items) (fun l =>
           SOk (SvArr n items, mkBody l (b_symbols b)))
  | _, _ => SMalformed
  end.

(** symtab.c:228-305, the key symtab. *)
Definition symtab_field (sd : side) (num_symbols : Z) (junk : Z -> sym)
  (i : option sval) (b : body) : sres (sval * body) :=
  match i with
  | None =>
      sbind (put_rows sd num_symbols (b_symbols b)) (fun rows => SOk (SvTab num_symbols rows, b))
  | Some (SvTab n rows) =>
      if negb (n =? num_symbols) then SMalformed
      else sbind (get_rows sd num_symbols (Z.to_nat n) 0 junk rows) (fun ys =>
           SOk (SvTab n rows, mkBody (b_strings b) ys))
  | Some _ => SMalformed
  end.

(** symtab.c:192-308 [buxn_dbg_serialize_symtab_body].  A second occurrence of
    a key starts again from the state before the body. *)
Definition body_fields (content : Z -> list Z) (sd : side) (room num_symbols : Z) (junk : Z -> sym)
  : list (@sfield body) :=
  [(SkStrpool, strpool_field content sd room); (SkSymtab, symtab_field sd num_symbols junk)].

(** symtab.c:321-370 [buxn_dbg_write_symtab] on a writer just made
    (symtab.c:315-319) for [num_files] files. *)
Definition write_symtab (content : Z -> list Z) (num_files : Z) (ys : list sym) : sres sval :=
  sbind (make_pool num_files) (fun p =>
  sbind (enter_all content (map y_file ys) p 0) (fun '(p, size) =>
  let num := u32 (Z.of_nat (length ys)) in
  sbind (record header_fields None (mkHeader num (Z.of_nat (length (used p))) size)) (fun '(hv, _) =>
  sbind (record (body_fields content (Writer p) 0 num (fun _ => mkSym 0 0 0 0 0 0 0 0 0 0 0)) None (mkBody [] ys))
    (fun '(bv, _) => SOk (SvArr 2 [hv; bv]))))).

(** symtab.c:383-406 [buxn_dbg_read_symtab_header] and [buxn_dbg_read_symtab];
    the header of a new reader is zero (symtab.c:127). *)
Definition read_symtab (junk : Z -> sym) (file : sval) : sres body :=
  match file with
  | SvArr n items =>
      if negb (n =? 2) then SMalformed
      else match items with
           | hv :: rest =>
               sbind (record header_fields (Some hv) (mkHeader 0 0 0)) (fun '(_, h) =>
               match rest with
               | bv :: _ =>
                   sbind (record (body_fields (fun _ => []) (Reader (h_strings h)) (h_pool h) (h_symbols h) junk)
                            (Some bv) (mkBody [] [])) (fun '(_, b) => SOk b)
               | [] => SIo
               end)
           | [] => SIo
           end
  | _ => SMalformed
  end.
