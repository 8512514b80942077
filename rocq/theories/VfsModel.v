(** Model of the files of the interactive assembler, /repo/src/repl.c:36-70,
    313-449: texts in memory, lines that are typed, files of the file system.

    [char_signed]: whether the type char of the machine is signed, as it is on
    x86.  Not modelled: the line editor bestline (what is typed is a parameter,
    each line without its final zero), allocation. *)
From Verif Require Import Base TransportModel.
From Coq Require Import Ascii String.
Open Scope list_scope.

(** include/buxn/asm/asm.h:8-9 *)
Definition IO_EOF : Z := -1.
Definition IO_ERROR : Z := -2.

Section Files.
Variable char_signed : bool.

(** A byte that is read through a char and returned as an int. *)
Definition char_int (b : Z) : Z := if char_signed && (128 <=? b) then b - 256 else b.

(** repl.c:317-325: the character and the next position. *)
Definition mem_getc (content : list Z) (pos : Z) : Z * Z :=
  if pos >=? Z.of_nat (List.length content) then (IO_EOF, pos)
  else (char_int (nth (Z.to_nat pos) content 0), pos + 1).

(** repl.c:416-428; [None] is a failing read. *)
Definition pass_getc (read : option (list Z)) : Z :=
  match read with
  | None => IO_ERROR
  | Some [] => IO_EOF
  | Some (b :: _) => char_int b
  end.

(** repl.c:51-64 *)
Inductive rl_state : Type := ROpen | REol | REof.
Record rl : Type := mkRl { r_state : rl_state; r_line : option (list Z); r_pos : Z }.
(** repl.c:400-412 *)
Definition rl_opened : rl := mkRl ROpen None 0.

(** The lines that are still to be typed (then the end of input), the prompts
    that have been shown, and repl->terminated. *)
Record desk : Type := mkDesk { k_lines : list (list Z); k_prompts : list str; k_terminated : bool }.

(** repl.c:363-370; the buffer has 14 bytes. *)
Definition prompt (depth : Z) : str :=
  if 0 <? depth then firstn 13 (bytes "[" ++ decimal 20 depth ++ bytes "> ") else bytes "> ".

(** repl.c:383-391; the line has a zero behind its last character. *)
Definition next_char (f : rl) (k : desk) : res (Z * rl * desk) :=
  match r_line f with
  | None => Fault BadHandle
  | Some line =>
      if (0 <=? r_pos f) && (r_pos f <=? Z.of_nat (List.length line)) then
        let ch := nth (Z.to_nat (r_pos f)) line 0 in
        if ch =? 0 then Ok (10, mkRl REol None (r_pos f + 1), k)
        else Ok (char_int ch, mkRl (r_state f) (Some line) (r_pos f + 1), k)
      else Fault (OobRead (r_pos f))
  end.

(** repl.c:361-381 *)
Definition open_case (depth : Z) (f : rl) (k : desk) : res (Z * rl * desk) :=
  match r_line f with
  | Some _ => next_char f k
  | None =>
      let shown := k_prompts k ++ [prompt depth] in
      match k_lines k with
      | [] => Ok (IO_EOF, mkRl REof None 0, mkDesk [] shown true)
      | line :: lines => next_char (mkRl (r_state f) (Some line) 0) (mkDesk lines shown (k_terminated k))
      end
  end.

(** repl.c:346-392; [depth] is mark_depth at the time of the call. *)
Definition rl_getc (depth : Z) (f : rl) (k : desk) : res (Z * rl * desk) :=
  match r_state f with
  | REof => Ok (IO_EOF, f, k)
  | REol => if 0 <? depth then open_case depth (mkRl ROpen (r_line f) (r_pos f)) k else Ok (IO_EOF, f, k)
  | ROpen => open_case depth f k
  end.

(** One call for each depth. *)
Fixpoint rl_calls (depths : list Z) (f : rl) (k : desk) : res (list Z * rl * desk) :=
  match depths with
  | [] => Ok ([], f, k)
  | d :: depths =>
      rbind (rl_getc d f k) (fun '(c, f, k) =>
      rbind (rl_calls depths f k) (fun '(cs, f, k) => Ok (c :: cs, f, k)))
  end.

(** Reading a text in memory to its end, as asm.c does it; fuel is one more than
    the length. *)
Fixpoint mem_text (fuel : nat) (content : list Z) (pos : Z) : list Z :=
  match fuel with
  | O => []
  | S fuel => let '(c, pos) := mem_getc content pos in if c =? IO_EOF then [] else c :: mem_text fuel content pos
  end.
End Files.
