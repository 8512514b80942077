(** Model of the excerpt of the source that the assembler prints under a report:
    print_file_region, /repo/src/asm.c:175-256.  The library utf8proc is not in
    the repository: [iterate] stands for utf8proc_iterate, from the bytes that
    are left to the number of bytes of the first character (negative: they are
    no UTF-8) and its code point, [width] for utf8proc_charwidth.  The file is
    the list of its bytes; it can be read.  The fixed text before both lines is
    left out. *)
From Verif Require Import Base AsmModel.
Open Scope list_scope.

Section Model.
Variable iterate : list Z -> Z * Z.
Variable width : Z -> Z.

(** src/asm.c:188, 200: the two characters that end a line. *)
Definition is_nl (ch : Z) : bool := (ch =? 13) || (ch =? 10).

(** src/asm.c:180-193: back from the byte [i] to the start of a line.  The first
    byte of the file is not looked at, behind the end of the file [ch] stays 0. *)
Fixpoint line_start (c : list Z) (i : nat) : nat :=
  match i with
  | O => O
  | S k => if is_nl (nth i c 0) then S i else line_start c k
  end.

(** src/asm.c:195-206: the line, up to its end or that of the file. *)
Fixpoint take_line (l : list Z) : list Z :=
  match l with
  | [] => []
  | ch :: l => if is_nl ch then [] else ch :: take_line l
  end.

(** utf8proc_iterate(line_buf + offset, line_len - offset, &codepoint): before
    the buffer is undefined, and so is behind it, where the length is negative
    and stands for a text up to a zero byte. *)
Definition decode (line : list Z) (offset : Z) : res (Z * Z) :=
  if (offset <? 0) || (len line <? offset) then Fault (OobRead offset) else Ok (iterate (skipn (Z.to_nat offset) line)).

(** src/asm.c:208-228: the offset of the caret and the blanks before it.  None:
    no end within [fuel] rounds. *)
Fixpoint blanks (fuel : nat) (line : list Z) (start offset : Z) : option (res (Z * list Z)) :=
  match fuel with
  | O => None
  | S k =>
    match decode line offset with
    | Fault f => Some (Fault f)
    | Ok (n, codepoint) =>
      if n <? 0 then Some (Ok (offset, []))
      else if offset + n >=? start then Some (Ok (offset, []))
      else
        let offset := offset + n in
        if offset >=? len line then Some (Ok (offset, []))
        else match blanks k line start offset with
             | Some (Ok (o, l)) => Some (Ok (o, (if codepoint =? 9 then [9] else repeat 32 (Z.to_nat (width codepoint))) ++ l))
             | x => x
             end
    end
  end.

(** src/asm.c:243-254: the tildes after the first character of the region. *)
Fixpoint tildes (fuel : nat) (line : list Z) (stop offset : Z) : option (res (list Z)) :=
  match fuel with
  | O => None
  | S k =>
    if (offset <? stop) && (offset <? len line) then
      match decode line offset with
      | Fault f => Some (Fault f)
      | Ok (n, codepoint) =>
        let offset := offset + n in
        if n <? 0 then Some (Ok [])
        else if offset >=? stop then Some (Ok [])
        else match tildes k line stop offset with
             | Some (Ok l) => Some (Ok (repeat 126 (Z.to_nat (width codepoint)) ++ l))
             | x => x
             end
      end
    else Some (Ok [])
  end.

(** src/asm.c:230-241: the caret, with tildes if its character is wide; then the
    rest of the region.  The offset moves even if there is no character. *)
Definition caret (fuel : nat) (line : list Z) (stop offset : Z) : option (res (list Z)) :=
  match decode line offset with
  | Fault f => Some (Fault f)
  | Ok (n, codepoint) =>
    match tildes fuel line stop (offset + n) with
    | Some (Ok l) => Some (Ok (94 :: repeat 126 (Z.to_nat (width codepoint - 1)) ++ l))
    | x => x
    end
  end.

(** src/asm.c:175-256: the line of the source and the line below it. *)
Definition print_file_region (c : list Z) (r : region) : option (res (list Z * list Z)) :=
  let line := take_line (skipn (line_start c (Z.to_nat (byte (r_start r)))) c) in
  let fuel := (4 + List.length line)%nat in
  match blanks fuel line (col (r_start r)) 0 with
  | Some (Ok (offset, before)) =>
    match caret fuel line (col (r_end r)) offset with
    | Some (Ok l) => Some (Ok (line, before ++ l))
    | Some (Fault f) => Some (Fault f)
    | None => None
    end
  | Some (Fault f) => Some (Fault f)
  | None => None
  end.
End Model.
