(** What a symbol file promises, without the hash table that produces it. *)
From Verif Require Import Base SymtabModel.

(** The file names of the symbols, each once. *)
Definition names (ys : list sym) : list Z := nodup Z.eq_dec (map y_file ys).

Definition int_ok (x : Z) : Prop := -2147483648 <= x < 2147483648.

(** The fields fit their C types; the file name is not NULL. *)
Definition sym_ok (y : sym) : Prop :=
  0 <= y_type y < 256 /\ 0 <= y_id y < 65536 /\ 0 <= y_min y < 65536 /\ 0 <= y_max y < 65536 /\
  0 < y_file y < 2 ^ 64 /\
  int_ok (y_sl y) /\ int_ok (y_sc y) /\ int_ok (y_sb y) /\
  int_ok (y_el y) /\ int_ok (y_ec y) /\ int_ok (y_eb y).

(** The bytes the names take up, each with its terminator. *)
Definition total (content : Z -> list Z) (l : list Z) : Z :=
  fold_right (fun f n => Z.of_nat (length (content f)) + 1 + n) 0 l.

(** A symbol table that the writer has been prepared for: no more names than
    files announced, and all sizes fit the 32 bit header. *)
Definition writable (content : Z -> list Z) (num_files : Z) (ys : list sym) : Prop :=
  Forall sym_ok ys /\
  Z.of_nat (length (names ys)) <= num_files <= 2 ^ 30 /\
  Z.of_nat (length ys) < 2 ^ 32 /\
  total content (names ys) < 2 ^ 32.

(** The same symbol: all numbers are equal, and the name it had in the memory
    of the writer is the string it now refers to. *)
Definition same_symbol (content : Z -> list Z) (strings : list (list Z)) (y y' : sym) : Prop :=
  y_type y' = y_type y /\ y_id y' = y_id y /\ y_min y' = y_min y /\ y_max y' = y_max y /\
  0 <= y_file y' /\ nth_error strings (Z.to_nat (y_file y')) = Some (content (y_file y)) /\
  y_sl y' = y_sl y /\ y_sc y' = y_sc y /\ y_sb y' = y_sb y /\
  y_el y' = y_el y /\ y_ec y' = y_ec y /\ y_eb y' = y_eb y.
