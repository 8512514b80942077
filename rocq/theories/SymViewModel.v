(** Model of /repo/src/asm/sym-view.c: the program that prints a .sym file.
    A run can go on for ever, so it has fuel; [None] is running out of it. *)
From Verif Require Import Base.
Open Scope list_scope.

(** [fgetc]: EOF is -1 and comes again with every further call. *)
Definition fgetc (l : list Z) : Z * list Z := match l with [] => (-1, []) | c :: l => (c, l) end.

(** [printf("%02x", ch)] for a byte or EOF, which is printed as an unsigned int. *)
Definition hex_digit (d : Z) : Z := if d <? 10 then 48 + d else 87 + d.
Fixpoint hex_digits (k : nat) (n : Z) : list Z :=
  match k with O => [] | S k => hex_digits k (n / 16) ++ [hex_digit (n mod 16)] end.
Definition put_hex (ch : Z) : list Z := let n := u32 ch in if n <? 256 then hex_digits 2 n else hex_digits 8 n.

(** sym-view.c:13-15: the characters printed and the rest of the file. *)
Fixpoint name_loop (fuel : nat) (l out : list Z) : option (list Z * list Z) :=
  match fuel with
  | O => None
  | S fuel =>
      let '(ch, l) := fgetc l in
      if negb (ch =? 0) then name_loop fuel l (out ++ [u8 ch]) else Some (out, l)
  end.

(** sym-view.c:7-17 *)
Fixpoint view (fuel : nat) (l out : list Z) : option (list Z) :=
  match fuel with
  | O => None
  | S fuel =>
      let '(ch, l) := fgetc l in
      if ch =? -1 then Some out
      else
        let out := out ++ put_hex ch in
        let '(ch, l) := fgetc l in
        let out := out ++ put_hex ch ++ [32] in
        match name_loop fuel l out with
        | None => None
        | Some (out, l) => view fuel l (out ++ [10])
        end
  end.

(** sym-view.c:3-20: the file may be missing. *)
Definition view_main (fuel : nat) (file : option (list Z)) : res (option (list Z)) :=
  match file with None => Fault BadHandle | Some l => Ok (view fuel l []) end.
