(** Model of the front end of the assembler, src/asm.c: what its callbacks do
    with the calls of buxn_asm (the events of AsmModel.v), the symbols it gives
    to the writer of the debug file and the ROM file it writes.

    Not modelled: the type checker (src/asm.c:106-108 and --chess), printing of
    reports, options, and failures of the host's files. *)
From Verif Require Import Base AsmModel.
From Coq Require Import String.
Open Scope list_scope.

(** symtab.h:17-23 *)
Definition DBG_OPCODE : Z := 0.
Definition DBG_LABEL_REF : Z := 1.
Definition DBG_NUMBER : Z := 2.
Definition DBG_TEXT : Z := 3.
Definition DBG_LABEL : Z := 4.

(** symtab.h:25-31 *)
Record dsym : Type := mkDsym { d_type : Z; d_id : Z; d_min : Z; d_max : Z; d_reg : region }.

(** asm.c:25-45 of the front end.  [x_rom] has UINT16_MAX cells.  [x_sym] is
    what has been written to the .sym file.  [x_dbg] is debug_symbols, newest
    first; [x_cur] is current_symbol, [None] while its region is zero: no
    token has line 0, so the test [region.range.start.line != 0] and the test
    for the name, which is then NULL, come to this. *)
Record front : Type := mkFront {
  x_rom : arr; x_size : Z; x_macros : Z; x_labels : Z; x_files : Z;
  x_sym : list Z; x_dbg : list dsym; x_cur : option dsym
}.

(** asm.c:637 of the front end: everything zero. *)
Definition front0 : front := mkFront (fun _ => 0) 0 0 0 0 [] [] None.

(** How a callback ends: normally, with undefined behaviour or with a failed assert. *)
Inductive fres : Type := FOk (x : front) | FFault (f : fault) | FAssert.

(** asm.c:47-73 of the front end [buxn_asm_put_dbg_sym].  Names of files are
    interned, so comparing the pointers compares the names. *)
Definition put_dbg_sym (x : front) (type addr : Z) (s : symbol) : front :=
  let fresh := mkDsym type (s_id s) addr addr (s_reg s) in
  let new (d : list dsym) := mkFront (x_rom x) (x_size x) (x_macros x) (x_labels x) (x_files x) (x_sym x) d (Some fresh) in
  match x_cur x with
  | None => new (x_dbg x)
  | Some c =>
      if (type =? d_type c) && str_eqb (r_file (s_reg s)) (r_file (d_reg c))
         && (byte (r_start (s_reg s)) =? byte (r_start (d_reg c)))
         && (byte (r_end (s_reg s)) =? byte (r_end (d_reg c)))
      then mkFront (x_rom x) (x_size x) (x_macros x) (x_labels x) (x_files x) (x_sym x) (x_dbg x)
             (Some (mkDsym (d_type c) (d_id c) (d_min c) addr (d_reg c)))
      else new (c :: x_dbg x)
  end.

(** asm.c:80-86 of the front end [buxn_asm_put_rom]; [rom_size] is a uint16_t. *)
Definition put_rom (x : front) (addr v : Z) : fres :=
  let offset := u16 (addr - 256) in
  match aset 65535 (x_rom x) offset v with
  | Fault f => FFault f
  | Ok rom =>
      FOk (mkFront rom (u16 (if x_size x <? offset + 1 then offset + 1 else x_size x))
             (x_macros x) (x_labels x) (x_files x) (x_sym x) (x_dbg x) (x_cur x))
  end.

(** The bytes of a C string with its terminator. *)
Fixpoint c_string (s : str) : list Z :=
  match s with
  | [] => [0]
  | c :: s' => if c =? 0 then [0] else c :: c_string s'
  end.

(** asm.c:94-104 of the front end: one entry of the .sym file. *)
Definition sym_entry (addr : Z) (name : str) : list Z := [Z.shiftr addr 8; Z.land addr 255] ++ c_string name.

(** asm.c:88-130 of the front end [buxn_asm_put_symbol]; with a .sym file. *)
Definition front_symbol (x : front) (addr : Z) (s : symbol) : fres :=
  match s_type s with
  | SMacro => FOk (mkFront (x_rom x) (x_size x) (u16 (x_macros x + 1)) (x_labels x) (x_files x) (x_sym x) (x_dbg x) (x_cur x))
  | SLabel =>
      match s_name s with
      | None => FFault BadHandle
      | Some n =>
          let x := mkFront (x_rom x) (x_size x) (x_macros x) (u16 (x_labels x + 1)) (x_files x)
                     (x_sym x ++ sym_entry addr n) (x_dbg x) (x_cur x) in
          if s_id s =? 0 then FAssert else FOk (put_dbg_sym x DBG_LABEL addr s)
      end
  | SOpcode => FOk (put_dbg_sym x DBG_OPCODE addr s)
  | SLabelRef => if s_id s =? 0 then FAssert else FOk (put_dbg_sym x DBG_LABEL_REF addr s)
  | SText => FOk (put_dbg_sym x DBG_TEXT addr s)
  | SNumber => FOk (put_dbg_sym x DBG_NUMBER addr s)
  | SComment | SMacroRef | SMark | SInclude => FOk x
  end.

(** asm.c:132-136 of the front end [buxn_asm_fopen].  The model of the
    assembler has the event only for files that exist; a file that does not
    makes the assembler fail. *)
Definition front_open (x : front) : front :=
  mkFront (x_rom x) (x_size x) (x_macros x) (x_labels x) (u32 (x_files x + 1)) (x_sym x) (x_dbg x) (x_cur x).

Definition front_event (x : front) (e : event) : fres :=
  match e with
  | EPut a v => put_rom x a v
  | ESym a s => front_symbol x a s
  | EOpen _ => FOk (front_open x)
  | _ => FOk x
  end.

Fixpoint front_run (x : front) (evs : list event) : fres :=
  match evs with
  | [] => FOk x
  | e :: evs' => match front_event x e with FOk x => front_run x evs' | r => r end
  end.

(** asm.c:650-655 of the front end: the symbols given to the writer. *)
Definition debug_symbols (x : front) : list dsym :=
  rev (match x_cur x with Some c => c :: x_dbg x | None => x_dbg x end).

(** asm.c:494-498 of the front end: the loop that drops trailing zeros; [n] is
    rom_size, so no read is outside for [n] up to 65535. *)
Fixpoint trim (n : nat) (rom : arr) : nat :=
  match n with
  | O => O
  | S k => if rom (Z.of_nat k) =? 0 then trim k rom else n
  end.

(** asm.c:483-516 of the front end: the bytes of the ROM file. *)
Definition write_rom (x : front) : list Z :=
  let n := trim (Z.to_nat (x_size x)) (x_rom x) in
  map (fun i => x_rom x (Z.of_nat i)) (seq 0 n).

(** asm.c:640-713 of the front end: the files that a run leaves behind, [None]
    for a file that is not written.  The .sym file is written as the assembler
    goes. *)
Record outputs : Type := mkOutputs { o_rom : option (list Z); o_dbg : option (list dsym); o_symfile : list Z }.

Inductive fend : Type := FEnd (exit_code : Z) (o : outputs) | FUndefined (f : fault) | FAborted.

Definition front_main (success : bool) (evs : list event) : fend :=
  match front_run front0 evs with
  | FFault f => FUndefined f
  | FAssert => FAborted
  | FOk x =>
      if success
      then FEnd 0 (mkOutputs (Some (write_rom x)) (Some (debug_symbols x)) (x_sym x))
      else FEnd 1 (mkOutputs None None (x_sym x))
  end.
