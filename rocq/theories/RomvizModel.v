(** The ROM viewer, src/romviz.c: which symbol it shows for a byte, how the
    keys move the cursor and the view, and which part of the source it prints.

    Not modelled: the terminal library (what is printed is a list of cells),
    opening and reading the files, the colours.  Symbols are those of
    FrontModel; positions are unbounded (C: int, and all are below the size of
    a file). *)
From Verif Require Import Base AsmModel FrontModel.
Open Scope list_scope.

(** romviz.c:33-57 [find_symbol].  [index] counts from the start of the
    symbols; [rest] are those from [index] on.  The result is the symbol and
    the new index. *)
Fixpoint find_from (address : Z) (rest : list dsym) (index : Z) : option dsym * Z :=
  match rest with
  | [] => (None, index)
  | s :: rest' =>
      if d_type s =? DBG_LABEL then find_from address rest' (index + 1)
      else if (d_min s <=? address) && (address <=? d_max s) then (Some s, index)
      else if d_min s >? address then (None, index)
      else find_from address rest' (index + 1)
  end.
Definition find_symbol (address current : Z) (syms : list dsym) : option dsym * Z :=
  find_from (u16 address) (skipn (Z.to_nat current) syms) current.

(** A cell that is drawn: the position in the ROM and the symbol. *)
Definition cell : Type := Z * option dsym.

(** romviz.c:163-195: the cells of the positions [from, from + n), row by row;
    nothing is drawn from [rom_size] on. *)
Fixpoint draw (n : nat) (from rom_size current : Z) (syms : list dsym) : list cell :=
  match n with
  | O => []
  | S n' =>
      if from >=? rom_size then []
      else let '(s, current) := find_symbol (from + 256) current syms in
           (from, s) :: draw n' (from + 1) rom_size current syms
  end.

(** romviz.c:19-20 *)
Definition SPACE_PER_BYTE : Z := 3.
Definition HEADER_LINES : Z := 3.

(** romviz.c:149 *)
Definition bytes_per_row (width : Z) : Z := Z.quot (Z.quot width SPACE_PER_BYTE) 4 * 4.

(** romviz.c:151-158: the new line_offset. *)
Definition scroll (view_pos line_offset width height : Z) : res Z :=
  rbind (cdiv view_pos (bytes_per_row width)) (fun focus =>
  let line_offset := if focus <? line_offset then focus else line_offset in
  let last := line_offset + height - HEADER_LINES - 1 in
  Ok (if focus >? last then line_offset + (focus - last) else line_offset)).

(** romviz.c:141-195: one frame: the new line_offset and the cells.  The rows
    follow each other without a gap, so the positions are consecutive. *)
Definition frame (view_pos line_offset width height rom_size : Z) (syms : list dsym) : res (Z * list cell) :=
  rbind (scroll view_pos line_offset width height) (fun line_offset =>
  let n := bytes_per_row width in
  Ok (line_offset, draw (Z.to_nat ((height - HEADER_LINES) * n)) (line_offset * n) rom_size 0 syms)).

(** romviz.c:167-169: the symbol of the cursor. *)
Definition focused (view_pos : Z) (cells : list cell) : option dsym :=
  match find (fun c => fst c =? view_pos) cells with Some (_, s) => s | None => None end.

(** romviz.c:272-286: the part [start, start + count) of a source of [size]
    bytes that is printed for a symbol. *)
Definition text_range (size start_byte end_byte : Z) : Z * Z :=
  let start := if start_byte >=? size then size - 1 else start_byte in
  let en := if end_byte >=? size then size - 1 else end_byte in
  let start := if start <? 0 then 0 else start in
  let en := if en <? start then start else en in
  (start, en - start).

(** romviz.c:303-343: the keys. *)
Inductive key : Type := KRight | KLeft | KUp | KDown | KEnter.

(** romviz.c:330-339: the first label with the id. *)
Fixpoint follow (id : Z) (syms : list dsym) : option Z :=
  match syms with
  | [] => None
  | s :: syms' =>
      if (d_type s =? DBG_LABEL) && (d_id s =? id) && (d_min s >=? 256) then Some (d_min s - 256)
      else follow id syms'
  end.

Definition press (k : key) (view_pos n rom_size : Z) (focus : option dsym) (syms : list dsym) : Z :=
  match k with
  | KRight => if view_pos + 1 <? rom_size then view_pos + 1 else view_pos
  | KLeft => if view_pos - 1 >=? 0 then view_pos - 1 else view_pos
  | KUp => if view_pos - n >=? 0 then view_pos - n else 0
  | KDown => if view_pos + n <? rom_size then view_pos + n else rom_size - 1
  | KEnter =>
      match focus with
      | Some s => if d_type s =? DBG_LABEL_REF
                  then match follow (d_id s) syms with Some p => p | None => view_pos end
                  else view_pos
      | None => view_pos
      end
  end.
