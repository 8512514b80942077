(** Model of the main function of the assembler, /repo/src/asm.c:483-734, with
    files that may fail.  FrontModel.v has the callbacks; here is the order in
    which the three files are made, what happens when one of them cannot be
    made, and the exit code.

    The command line is parsed by a library (barg) that is not in the
    repository: [rom_given] says whether there is a second word, [chess] is the
    answer of buxn_chess_end, None without --chess.  Messages are one event. *)
From Verif Require Import Base AsmModel FrontModel.
Open Scope list_scope.

(** The three files that are named after the ROM, src/asm.c:641, 660, 712. *)
Inductive out : Type := Rom | Sym | Dbg.

(** What the host answers: whether fopen (src/asm.c:487, 642, 661), fwrite
    (src/asm.c:501), fflush (src/asm.c:507, 726) and the writer of the debug
    file (src/asm.c:674-694) succeed. *)
Record host : Type := mkHost {
  opens : out -> bool; rom_writes : bool; flushes : out -> bool; dbg_writes : bool
}.

(** Contents of a file: the bytes of the ROM and .sym files, the symbols given
    to the writer of the debug file, or what a failed write leaves. *)
Inductive content : Type := Bytes (l : list Z) | Symbols (l : list dsym) | Remains.

(** What the program does to the files.  Opening with mode wb makes an empty file. *)
Inductive act : Type := AOpen (f : out) | AWrite (f : out) (c : content) | AClose (f : out) | AComplain | AInfo.

(** src/asm.c:483-517 [write_rom]. *)
Definition write_rom_file (h : host) (bytes : list Z) : bool * list act :=
  if negb (opens h Rom) then (false, [AComplain])
  else if negb (len bytes =? 0) && negb (rom_writes h) then (false, [AOpen Rom; AWrite Rom Remains; AComplain; AClose Rom])
  else if negb (flushes h Rom) then (false, [AOpen Rom; AWrite Rom Remains; AComplain; AClose Rom])
  else (true, [AOpen Rom; AWrite Rom (Bytes bytes); AClose Rom]).

(** src/asm.c:658-700: the debug file; no outcome of it changes [success]. *)
Definition write_dbg_file (h : host) (syms : list dsym) : list act :=
  if opens h Dbg
  then AOpen Dbg :: (if dbg_writes h then [AWrite Dbg (Symbols syms)] else [AWrite Dbg Remains; AComplain]) ++ [AClose Dbg]
  else [AComplain].

(** How the program ends. *)
Inductive mend : Type := MEnd (exit_code : Z) (acts : list act) | MUndefined (f : fault) | MAborted.

(** src/asm.c:527-734.  The .sym file is written by the callbacks; without it
    nothing else changes (src/asm.c:94), so the run of FrontModel is used with
    or without it.  [reopened] are the files that were opened once more to print
    excerpts (src/asm.c:163-173, [open_file]), false for a null pointer; they are
    all closed (src/asm.c:704-706). *)
Definition main (h : host) (rom_given : bool) (chess : option bool) (success : bool) (evs : list event) (reopened : list bool) : mend :=
  let sym := rom_given && opens h Sym in
  let start := if rom_given then (if sym then [AOpen Sym] else [AComplain]) else [] in
  match front_run front0 evs with
  | FFault f => MUndefined f
  | FAssert => MAborted
  | FOk x =>
      let success := match chess with Some v => if success then v else success | None => success end in
      let dbg := if success && rom_given then write_dbg_file h (debug_symbols x) else [] in
      if negb (forallb (fun opened => opened) reopened) then MUndefined BadHandle
      else
        let '(success, rom) := if success && rom_given then write_rom_file h (write_rom x) else (success, []) in
        let info := if success && rom_given then [AInfo] else [] in
        let finish := if sym then AWrite Sym (if flushes h Sym then Bytes (x_sym x) else Remains)
                                    :: (if flushes h Sym then [] else [AComplain]) ++ [AClose Sym] else [] in
        MEnd (if success then 0 else 1) (start ++ dbg ++ rom ++ info ++ finish)
  end.
