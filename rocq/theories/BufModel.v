(** Model of src/dbg/btmp_buf.h and of the loop in src/dbg/symtab.c that reads the
    strings of a symbol file into such a buffer.

    Pointers are addresses; [intptr_t] and [size_t] have 64 bits.  The buffer is the
    object of [total] bytes at [base].  A blob of the stream is the length in its
    header with the bytes that follow, at most that many; [bserial_blob_body] stores
    what there is and fails if some are missing. *)
From Verif Require Import Base.

(** Signed arithmetic of 64 bits, and the conversion of [size_t] to [intptr_t]. *)
Definition int64 (x : Z) : res Z :=
  if (-9223372036854775808 <=? x) && (x <=? 9223372036854775807) then Ok x else Fault (SignedOverflow x).
Definition s64 (x : Z) : Z := let y := u64 x in if y <? 9223372036854775808 then y else y - 18446744073709551616.

(** btmp_buf.h:7-10 *)
Record tmp_buf : Type := mkBuf { t_mem : Z; t_size : Z }.

(** btmp_buf.h:12-29 [btmp_buf_alloc], [buf] is not null *)
Definition buf_alloc (buf : tmp_buf) (size alignment : Z) : res (option (Z * tmp_buf)) :=
  let buf_ptr := t_mem buf in
  let int_alignment := s64 alignment in
  rbind (int64 (buf_ptr + int_alignment)) (fun x =>
  rbind (int64 (x - 1)) (fun x =>
  let aligned_ptr := Z.land x (- int_alignment) in
  let int_size := s64 size in
  rbind (int64 (aligned_ptr + int_size)) (fun new_ptr =>
  rbind (int64 (buf_ptr + s64 (t_size buf))) (fun buf_end =>
  if new_ptr <=? buf_end then
    rbind (int64 (new_ptr - buf_ptr)) (fun used =>
    Ok (Some (aligned_ptr, mkBuf new_ptr (u64 (t_size buf - u64 used)))))
  else Ok None)))).

Section Buffer.
Variables base total : Z.
(** A store to an address of the buffer. *)
Definition store (m : arr) (a v : Z) : res arr :=
  if in_bounds total (a - base) then Ok (upd m a v) else Fault (OobWrite (a - base)).
Fixpoint store_all (m : arr) (a : Z) (bytes : list Z) : res arr :=
  match bytes with
  | [] => Ok m
  | b :: bytes => rbind (store m a b) (fun m => store_all m (a + 1) bytes)
  end.

(** btmp_buf.h:31-37 [btmp_buf_alloc_str] *)
Definition alloc_str (buf : tmp_buf) (len : Z) (m : arr) : res (option (Z * tmp_buf) * arr) :=
  rbind (buf_alloc buf (u64 (len + 1)) 1) (fun r =>
  match r with
  | None => Ok (None, m)
  | Some (str, buf) => rbind (store m (str + len) 0) (fun m => Ok (Some (str, buf), m))
  end).

(** symtab.c:205-213: the loop; the result is the strings and the memory. *)
Inductive strings : Type := Strings (ptrs : list Z) | Malformed | IoError.
Fixpoint read_strings (blobs : list (Z * list Z)) (buf : tmp_buf) (m : arr) : res (strings * arr) :=
  match blobs with
  | [] => Ok (Strings [], m)
  | (len, bytes) :: blobs =>
      rbind (alloc_str buf len m) (fun '(r, m) =>
      match r with
      | None => Ok (Malformed, m)
      | Some (str, buf) =>
          rbind (store_all m str bytes) (fun m =>
          if Z.of_nat (length bytes) <? len then Ok (IoError, m) else
          rbind (read_strings blobs buf m) (fun '(r, m) =>
          Ok (match r with Strings ptrs => Strings (str :: ptrs) | r => r end, m)))
      end)
  end.
End Buffer.
