(** Model of the assembler, src/asm/asm.c and include/buxn/asm/asm.h.

    - Strings are lists of bytes.  Interned strings are represented by their
      contents: comparing the pointers is comparing the contents
      (Props_Hamt.C38_pointers_compare_strings).  The tries are association
      lists in the order of creation.
    - The host functions are: a finite set of files for [buxn_asm_fopen] and
      [buxn_asm_fgetc] (which gives the bytes of a file, or BUXN_ASM_IO_ERROR
      in their place, then BUXN_ASM_IO_EOF forever), and a log of events for
      the others.  [buxn_asm_alloc] succeeds.
    - Positions are unbounded (C: int).
    - The texts of a report, apart from the kind of message, and the "related"
      region are not modelled. *)
From Verif Require Import Base.
From Coq Require Import Ascii String.

Definition str : Type := list Z.
Definition str_dec (a b : str) : {a = b} + {a <> b} := list_eq_dec Z.eq_dec a b.
Definition str_eqb (a b : str) : bool := if str_dec a b then true else false.

(** Literals of the source. *)
Fixpoint bytes (s : string) : str :=
  match s with EmptyString => [] | String c s' => Z.of_nat (nat_of_ascii c) :: bytes s' end.
Definition chr (c : ascii) : Z := Z.of_nat (nat_of_ascii c).

(** asm.h:8-9 *)
Definition IO_EOF : Z := -1.
Definition IO_ERROR : Z := -2.
(** asm.c:10-14 *)
Definition MAX_TOKEN_LEN : Z := 47.
Definition MAX_LONG_STRING_LEN : Z := 1024.
Definition DEFAULT_LABEL_SCOPE : str := bytes "RESET".
Definition RESET_VECTOR : Z := 256.
Definition MAX_PREPROCESSOR_DEPTH : Z := 32.

Definition len (s : str) : Z := Z.of_nat (List.length s).

(** asm.h:14-23,38-41 *)
Record pos : Type := mkPos { line : Z; col : Z; byte : Z }.
Record region : Type := mkRegion { r_file : str; r_start : pos; r_end : pos }.
Definition no_pos : pos := mkPos 0 0 0.

(** asm.c:83-86 *)
Record token : Type := mkTok { t_lex : str; t_reg : region }.

(** asm.h:25-36,43-49.  [s_name] is [None] for NULL. *)
Inductive sym_type : Type :=
| SMacro | SMacroRef | SInclude | SComment | SMark | SLabel | SLabelRef | SOpcode | SNumber | SText.
Record symbol : Type := mkSymbol {
  s_type : sym_type; s_gen : bool; s_id : Z; s_name : option str; s_reg : region
}.

(** The messages of the reports. *)
Inductive message : Type :=
| MIoError | MTokenTooLong | MUnterminatedString | MStringTooLong | MExpandedTooLong
| MNameEmpty | MNameRunic | MNameOpcode | MNameNumeric | MDuplicate | MNameTooLong | MRefEmpty
| MZeroPage | MPastZeroPage | MTooFar | MNoAtLabel | MRefRunic | MInvalidRef
| MUnbalancedLambda | MUnreferencedAt | MUnresolved | MUnknownSymbol | MUnreferenced
| MUnbalancedComment | MInvalidRunic | MMacroBrace | MNestedMacro | MMacroUnbalanced | MConflict
| MNumberEmpty | MNumberLong | MNumberChar | MNumberBig | MNumberDigits
| MPadding | MPaddingUndeclared | MPaddingInvalid | MPaddingWrap
| MDepth | MRecursion | MNoArgument | MInMacro | MRedundantFlag | MUnknownType | MText | MInInclude
| MUnexpectedRune | MCannotOpen.

(** What the host sees, and four events that are not calls of the host: [ETok]
    marks that [process_unit] (asm.c:2147) is about to handle a token; [EEnter]
    and [ELeave] mark the begin and end of the expansion of a macro
    (asm.c:1961-1973); [EOverrun] is a byte written past the end of the array
    [lambda_name] (asm.c:1644, 1662). *)
Inductive event : Type :=
| ETok (scope : str) (addr : Z) (lex : str)
| EPut (addr : Z) (value : Z)
| ESym (addr : Z) (sym : symbol)
| EReport (error : bool) (msg : message) (reg : option region)
| EOpen (name : str)
| EClose (name : str)
| EEnter (name : str)
| ELeave (name : str)
| EOverrun.

(** asm.c:172-181 *)
Inductive ref_type : Type := RZero | RAbs | RRel.
Inductive ref_size : Type := RByte | RShort.

(** asm.c:183-191 [buxn_asm_forward_ref_t]; the links are list positions. *)
Record fref : Type := mkRef {
  f_tok : token; f_label : Z; f_lambda : Z; f_addr : Z; f_type : ref_type; f_size : ref_size
}.

(** asm.c:118-123,129-137,139-153: what a symbol is, [EUnknown] when just
    created.  Of a macro, [current] and [argument] are in the unit being read,
    since a macro is not read twice at the same time ([expanding]). *)
Inductive entry : Type :=
| EnUnknown
| EnMacro (id : Z) (toks : list token) (expanding : bool)
| EnLabel (id : Z) (addr : Z)
| EnForward (id : Z) (refs : list fref).
Record node : Type := mkNode { n_def : token; n_referenced : bool; n_entry : entry }.

(** Failures of the model itself: a failed assert, or a loop that has not ended
    within its fuel. *)
Inductive afault : Type := AssertFailed | OutOfFuel.

(** asm.c:205-230 [buxn_asm_t]; the name buffers and the string pool are
    gone.  [b_buf] is read_buf and has_read_buf.  [b_out] is newest first. *)
Record basm : Type := mkBasm {
  b_addr : Z; b_depth : Z; b_buf : option Z; b_success : bool;
  b_labels : Z; b_nlambdas : Z; b_macros : Z;
  b_includes : list str; b_symtab : list (str * node); b_scope : str;
  b_lambdas : list fref; b_ats : list fref; b_deferred : list (str * token);
  b_fault : option afault; b_out : list event
}.

Definition set_addr (b : basm) (v : Z) : basm :=
  mkBasm v (b_depth b) (b_buf b) (b_success b) (b_labels b) (b_nlambdas b) (b_macros b) (b_includes b) (b_symtab b) (b_scope b) (b_lambdas b) (b_ats b) (b_deferred b) (b_fault b) (b_out b).
Definition set_depth (b : basm) (v : Z) : basm :=
  mkBasm (b_addr b) v (b_buf b) (b_success b) (b_labels b) (b_nlambdas b) (b_macros b) (b_includes b) (b_symtab b) (b_scope b) (b_lambdas b) (b_ats b) (b_deferred b) (b_fault b) (b_out b).
Definition set_buf (b : basm) (v : option Z) : basm :=
  mkBasm (b_addr b) (b_depth b) v (b_success b) (b_labels b) (b_nlambdas b) (b_macros b) (b_includes b) (b_symtab b) (b_scope b) (b_lambdas b) (b_ats b) (b_deferred b) (b_fault b) (b_out b).
Definition set_success (b : basm) (v : bool) : basm :=
  mkBasm (b_addr b) (b_depth b) (b_buf b) v (b_labels b) (b_nlambdas b) (b_macros b) (b_includes b) (b_symtab b) (b_scope b) (b_lambdas b) (b_ats b) (b_deferred b) (b_fault b) (b_out b).
Definition set_labels (b : basm) (v : Z) : basm :=
  mkBasm (b_addr b) (b_depth b) (b_buf b) (b_success b) v (b_nlambdas b) (b_macros b) (b_includes b) (b_symtab b) (b_scope b) (b_lambdas b) (b_ats b) (b_deferred b) (b_fault b) (b_out b).
Definition set_nlambdas (b : basm) (v : Z) : basm :=
  mkBasm (b_addr b) (b_depth b) (b_buf b) (b_success b) (b_labels b) v (b_macros b) (b_includes b) (b_symtab b) (b_scope b) (b_lambdas b) (b_ats b) (b_deferred b) (b_fault b) (b_out b).
Definition set_macros (b : basm) (v : Z) : basm :=
  mkBasm (b_addr b) (b_depth b) (b_buf b) (b_success b) (b_labels b) (b_nlambdas b) v (b_includes b) (b_symtab b) (b_scope b) (b_lambdas b) (b_ats b) (b_deferred b) (b_fault b) (b_out b).
Definition set_includes (b : basm) (v : list str) : basm :=
  mkBasm (b_addr b) (b_depth b) (b_buf b) (b_success b) (b_labels b) (b_nlambdas b) (b_macros b) v (b_symtab b) (b_scope b) (b_lambdas b) (b_ats b) (b_deferred b) (b_fault b) (b_out b).
Definition set_symtab (b : basm) (v : list (str * node)) : basm :=
  mkBasm (b_addr b) (b_depth b) (b_buf b) (b_success b) (b_labels b) (b_nlambdas b) (b_macros b) (b_includes b) v (b_scope b) (b_lambdas b) (b_ats b) (b_deferred b) (b_fault b) (b_out b).
Definition set_scope (b : basm) (v : str) : basm :=
  mkBasm (b_addr b) (b_depth b) (b_buf b) (b_success b) (b_labels b) (b_nlambdas b) (b_macros b) (b_includes b) (b_symtab b) v (b_lambdas b) (b_ats b) (b_deferred b) (b_fault b) (b_out b).
Definition set_lambdas (b : basm) (v : list fref) : basm :=
  mkBasm (b_addr b) (b_depth b) (b_buf b) (b_success b) (b_labels b) (b_nlambdas b) (b_macros b) (b_includes b) (b_symtab b) (b_scope b) v (b_ats b) (b_deferred b) (b_fault b) (b_out b).
Definition set_ats (b : basm) (v : list fref) : basm :=
  mkBasm (b_addr b) (b_depth b) (b_buf b) (b_success b) (b_labels b) (b_nlambdas b) (b_macros b) (b_includes b) (b_symtab b) (b_scope b) (b_lambdas b) v (b_deferred b) (b_fault b) (b_out b).
Definition set_deferred (b : basm) (v : list (str * token)) : basm :=
  mkBasm (b_addr b) (b_depth b) (b_buf b) (b_success b) (b_labels b) (b_nlambdas b) (b_macros b) (b_includes b) (b_symtab b) (b_scope b) (b_lambdas b) (b_ats b) v (b_fault b) (b_out b).
Definition set_fault (b : basm) (v : afault) : basm :=
  mkBasm (b_addr b) (b_depth b) (b_buf b) (b_success b) (b_labels b) (b_nlambdas b) (b_macros b) (b_includes b) (b_symtab b) (b_scope b) (b_lambdas b) (b_ats b) (b_deferred b) (Some v) (b_out b).
Definition log (b : basm) (e : event) : basm :=
  mkBasm (b_addr b) (b_depth b) (b_buf b) (b_success b) (b_labels b) (b_nlambdas b) (b_macros b) (b_includes b) (b_symtab b) (b_scope b) (b_lambdas b) (b_ats b) (b_deferred b) (b_fault b) (e :: b_out b).

(** The C functions return a bool and change the state. *)
Definition ret : Type := bool * basm.
(** [if (!f()) { return false; }  g()] *)
Definition andthen (r : ret) (g : basm -> ret) : ret :=
  let '(ok, b) := r in if ok then g b else (false, b).
Notation "r ;; b => g" := (andthen r (fun b => g)) (at level 70, b name, g at level 70, right associativity).

(** [assert(c)], then [g]. *)
Definition check (c : bool) (b : basm) (g : ret) : ret := if c then g else (false, set_fault b AssertFailed).
Definition stuck (b : basm) : ret := (false, set_fault b OutOfFuel).

(** asm.c:241-298 *)
Definition error_ex (b : basm) (m : message) (r : option region) : basm :=
  log (set_success b false) (EReport true m r).
Definition error (b : basm) (t : token) (m : message) : ret := (false, error_ex b m (Some (t_reg t))).
Definition warning (b : basm) (t : token) (m : message) : basm := log b (EReport false m (Some (t_reg t))).
Definition put_symbol (b : basm) (addr : Z) (s : symbol) : basm := log b (ESym (u16 addr) s).

(** ** Characters *)
(** asm.c:359-372 *)
Definition is_runic (c : Z) : bool := existsb (Z.eqb c) (bytes "{}[]()|$#""@&/,_.-;=!?%~").
(** asm.c:407-409 *)
Definition is_uppercased (c : Z) : bool := (65 <=? c) && (c <=? 90).
(** asm.c:412-419: space, \n, \t, \r, \f, \v *)
Definition is_sep (c : Z) : bool := existsb (Z.eqb c) [32; 10; 9; 13; 12; 11].
Definition is_digit (c : Z) : bool := (48 <=? c) && (c <=? 57).
Definition is_hex (c : Z) : bool := is_digit c || ((97 <=? c) && (c <=? 102)).

(** asm.c:380-381, 1738-1739: the number of leading '+', at most two. *)
Definition pluses (s : str) : Z :=
  match s with
  | 43 :: 43 :: _ => 2
  | 43 :: _ => 1
  | _ => 0
  end.

(** asm.c:375-404 *)
Definition is_number (s : str) : bool :=
  match s with
  | [] => false
  | _ => if 0 <? pluses s then forallb is_digit (skipn (Z.to_nat (pluses s)) s) else forallb is_hex s
  end.

(** asm.c:21-22 BUXN_OP_REF_CODE; char is signed. *)
Definition ref_code (a b c : Z) : Z :=
  Z.lor (Z.lor (u32 (Z.shiftl (u32 (s8 a)) 16)) (u32 (Z.shiftl (u32 (s8 b)) 8))) (u32 (s8 c)).
Definition code_of (s : string) : Z := match bytes s with [a; b; c] => ref_code a b c | _ => 0 end.
(** asm.c:24-57 *)
Definition BASE_OPCODES : list Z :=
  map code_of ["LIT"; "INC"; "POP"; "NIP"; "SWP"; "ROT"; "DUP"; "OVR";
               "EQU"; "NEQ"; "GTH"; "LTH"; "JMP"; "JCN"; "JSR"; "STH";
               "LDZ"; "STZ"; "LDR"; "STR"; "LDA"; "STA"; "DEI"; "DEO";
               "ADD"; "SUB"; "MUL"; "DIV"; "AND"; "ORA"; "EOR"; "SFT"]%string.
Fixpoint index_of (x : Z) (l : list Z) (i : Z) : option Z :=
  match l with
  | [] => None
  | y :: l' => if y =? x then Some i else index_of x l' (i + 1)
  end.

(** asm.c:455-478: the flags; [None] for an unknown one. *)
Fixpoint op_flags (s : str) (opcode : Z) (redundant : bool) : option (Z * bool) :=
  match s with
  | [] => Some (opcode, redundant)
  | c :: s' =>
      let flag f := op_flags s' (Z.lor opcode f) (redundant || (0 <? Z.land opcode f)) in
      if c =? 50 then flag 32 else if c =? 114 then flag 64 else if c =? 107 then flag 128 else None
  end.

(** asm.c:427-484 *)
Definition parse_opcode (w : str) : option (Z * bool) :=
  match w with
  | a :: b :: c :: fl =>
      let code := ref_code a b c in
      if code =? code_of "BRK" then
        match fl with [] => Some (0, false) | _ => None end
      else match index_of code BASE_OPCODES 0 with
           | None => None
           | Some i => op_flags fl (if i =? 0 then 128 else i) false
           end
  | _ => None
  end.

(** ** Reading *)
(** asm.c:95-99 with the rest of the file, 101-108 with the rest of the tokens;
    the argument is [None] when its length is 0. *)
Inductive unit_ : Type :=
| UFile (path : str) (inp : list Z) (p : pos)
| UMacro (rest : list token) (arg : option token).

Definition file_region (path : str) (s e : pos) : region := mkRegion path s e.

(** asm.c:305-323 [buxn_asm_peek_char]: after an error it returns [false], that
    is 0, while the error stays in the buffer. *)
Definition peek_char (b : basm) (path : str) (inp : list Z) : Z * basm * list Z :=
  match b_buf b with
  | Some c => (c, b, inp)
  | None =>
      let '(c, inp') := match inp with [] => (IO_EOF, []) | x :: r => (x, r) end in
      let b' := set_buf b (Some c) in
      if c =? IO_ERROR then (0, error_ex b' MIoError (Some (file_region path no_pos no_pos)), inp')
      else (c, b', inp')
  end.

(** asm.c:326-328 *)
Definition consume_char (b : basm) : basm := set_buf b None.

(** asm.c:331-356 [buxn_asm_get_char] *)
Definition get_char (b : basm) (path : str) (inp : list Z) (p : pos) : Z * basm * list Z * pos :=
  let '(ch, b, inp) := peek_char b path inp in
  let b := consume_char b in
  let p := mkPos (line p) (col p + 1) (byte p + 1) in
  if (ch =? IO_ERROR) || (ch =? IO_EOF) then (ch, b, inp, p)
  else if ch =? 10 then (ch, b, inp, mkPos (line p + 1) 1 (byte p))
  else if ch =? 13 then
    let '(next, b, inp) := peek_char b path inp in
    let b := if next =? 10 then consume_char b else b in
    (next, b, inp, mkPos (line p + 1) 1 (byte p))
  else (ch, b, inp, p).

(** An upper bound of the number of characters still to be read (with the
    buffer, and those read twice after a lone '\r'). *)
Definition char_fuel (inp : list Z) : nat := 2 * List.length inp + 4.

(** The result of looking for a token: the token, if any. *)
Definition scan : Type := option token * basm * unit_.

(** asm.c:487-530 [buxn_asm_scan_regular_token]; [buf] is the token so far,
    reversed. *)
Fixpoint scan_regular (fuel : nat) (b : basm) (path : str) (inp : list Z) (p : pos)
  (start fin : pos) (ch : Z) (buf : str) : scan :=
  match fuel with
  | O => (None, set_fault b OutOfFuel, UFile path inp p)
  | S fuel' =>
      if len buf <? MAX_TOKEN_LEN then
        let buf := u8 ch :: buf in
        let fin := p in
        let '(ch, b, inp, p) := get_char b path inp p in
        if ch =? IO_ERROR then (None, b, UFile path inp p)
        else if (ch =? IO_EOF) || is_sep ch then
          (Some (mkTok (rev buf) (file_region path start fin)), b, UFile path inp p)
        else scan_regular fuel' b path inp p start fin ch buf
      else (None, error_ex b MTokenTooLong (Some (file_region path start fin)), UFile path inp p)
  end.

(** asm.c:545-587, the loop of [buxn_asm_scan_long_string]. *)
Fixpoint scan_long_loop (fuel : nat) (b : basm) (path : str) (inp : list Z) (p start : pos) (buf : str) : scan :=
  match fuel with
  | O => (None, set_fault b OutOfFuel, UFile path inp p)
  | S fuel' =>
      let fin := p in
      let '(ch, b, inp, p) := get_char b path inp p in
      if ch =? IO_ERROR then (None, b, UFile path inp p)
      else if ch =? IO_EOF then
        (None, error_ex b MUnterminatedString (Some (file_region path start fin)), UFile path inp p)
      else if ch =? 34 then
        (Some (mkTok (rev buf) (file_region path start fin)), b, UFile path inp p)
      else if len buf <? MAX_LONG_STRING_LEN then
        scan_long_loop fuel' b path inp p start (u8 ch :: buf)
      else (None, error_ex b MStringTooLong (Some (file_region path start fin)), UFile path inp p)
  end.

(** asm.c:533-588 *)
Definition scan_long_string (b : basm) (path : str) (inp : list Z) (p start : pos) : scan :=
  let '(_, b, inp, p) := get_char b path inp p in
  scan_long_loop (char_fuel inp) b path inp p start [34].

(** asm.c:591-613 [buxn_asm_next_token_in_file] *)
Fixpoint next_in_file (fuel : nat) (b : basm) (path : str) (inp : list Z) (p : pos) : scan :=
  match fuel with
  | O => (None, set_fault b OutOfFuel, UFile path inp p)
  | S fuel' =>
      let start := p in
      let '(ch, b, inp, p) := get_char b path inp p in
      if (ch =? IO_ERROR) || (ch =? IO_EOF) then (None, b, UFile path inp p)
      else if is_sep ch then next_in_file fuel' b path inp p
      else if ch =? 34 then
        let '(c, b, inp) := peek_char b path inp in
        if c =? 32 then scan_long_string b path inp p start
        else scan_regular (char_fuel inp) b path inp p start start ch []
      else scan_regular (char_fuel inp) b path inp p start start ch []
  end.

(** asm.c:632-665: copying the template, replacing '^'; [None] if it is too
    long. *)
Fixpoint expand (template arg : str) (buf : str) (expanded : bool) : option (str * bool) :=
  match template with
  | [] => Some (buf, expanded)
  | c :: t' =>
      if c =? 94 then
        if MAX_LONG_STRING_LEN <? len buf + len arg then None
        else expand t' arg (buf ++ arg) true
      else
        if MAX_LONG_STRING_LEN <? len buf + 1 then None
        else expand t' arg (buf ++ [c]) expanded
  end.

(** asm.c:616-688 [buxn_asm_next_token_in_macro] *)
Definition next_in_macro (b : basm) (rest : list token) (arg : option token) : scan :=
  match rest with
  | [] => (None, b, UMacro rest arg)
  | t :: rest' =>
      match arg with
      | None => (Some t, b, UMacro rest' arg)
      | Some a =>
          match expand (t_lex t) (t_lex a) [] false with
          | None => (None, error_ex b MExpandedTooLong (Some (t_reg t)), UMacro rest arg)
          | Some (buf, expanded) =>
              let limit := if hd 0 buf =? 34 then MAX_LONG_STRING_LEN else MAX_TOKEN_LEN in
              if limit <? len buf then (None, error_ex b MExpandedTooLong (Some (t_reg t)), UMacro rest arg)
              else (Some (if expanded then mkTok buf (t_reg t) else t), b, UMacro rest' arg)
          end
      end
  end.

(** asm.c:691-700 *)
Definition next_token (b : basm) (u : unit_) : scan :=
  match u with
  | UFile path inp p => next_in_file (char_fuel inp) b path inp p
  | UMacro rest arg => next_in_macro b rest arg
  end.

(** A bound for the number of tokens a unit still has. *)
Definition unit_fuel (u : unit_) : nat :=
  match u with UFile _ inp _ => char_fuel inp | UMacro rest _ => List.length rest + 4 end.

(** ** Symbols *)
(** asm.c:707-713 *)
Definition pop_front (s : str) : str := tl s.

Fixpoint lookup (n : str) (l : list (str * node)) : option node :=
  match l with
  | [] => None
  | (k, v) :: l' => if str_dec k n then Some v else lookup n l'
  end.
(** Changing a node through its pointer. *)
Fixpoint update (n : str) (v : node) (l : list (str * node)) : list (str * node) :=
  match l with
  | [] => []
  | (k, w) :: l' => if str_dec k n then (k, v) :: l' else (k, w) :: update n v l'
  end.
Definition set_node (b : basm) (n : str) (v : node) : basm := set_symtab b (update n v (b_symtab b)).
Definition set_entry (v : node) (e : entry) : node := mkNode (n_def v) (n_referenced v) e.
Definition set_referenced (v : node) (r : bool) : node := mkNode (n_def v) r (n_entry v).

(** asm.c:785-838 [buxn_asm_find_or_create_symbol]: the node, [None] for NULL. *)
Definition find_or_create (b : basm) (t : token) (name : str) : option node * basm :=
  match name with
  | [] => (None, snd (error b t MNameEmpty))
  | c :: _ =>
      if is_runic c then (None, snd (error b t MNameRunic))
      else match parse_opcode name with
           | Some _ => (None, snd (error b t MNameOpcode))
           | None =>
               if is_number name then (None, snd (error b t MNameNumeric))
               else match lookup name (b_symtab b) with
                    | Some v => (Some v, b)
                    | None =>
                        let v := mkNode t false EnUnknown in
                        (Some v, set_symtab b (b_symtab b ++ [(name, v)]))
                    end
           end
  end.

(** ** Code *)
(** asm.c:1002-1010 *)
Definition emit (b : basm) (t : token) (v : Z) : ret :=
  let addr := b_addr b in
  let b := set_addr b (u16 (addr + 1)) in
  if addr <? RESET_VECTOR then error b t MZeroPage
  else (true, log b (EPut addr (u8 v))).

(** asm.c:1013-1018 *)
Definition emit2 (b : basm) (t : token) (v : Z) : ret :=
  emit b t (Z.shiftr v 8) ;; b => emit b t (Z.land v 255).

(** asm.c:996-999 *)
Definition put_symbol2 (b : basm) (addr : Z) (s : symbol) : basm :=
  put_symbol (put_symbol b addr s) (addr + 1) s.

(** asm.c:1026-1031: only the rune; 1046-1050 and others: all but the rune. *)
Definition rune_region (r : region) (is_runic : bool) : region :=
  if is_runic then mkRegion (r_file r) (r_start r) (mkPos (line (r_start r)) (col (r_start r) + 1) (byte (r_start r) + 1))
  else r.
Definition word_region (r : region) (is_runic : bool) : region :=
  if is_runic then mkRegion (r_file r) (mkPos (line (r_start r)) (col (r_start r) + 1) (byte (r_start r) + 1)) (r_end r)
  else r.

(** asm.c:1021-1039 *)
Definition emit_opcode (b : basm) (t : token) (opcode : Z) (is_runic : bool) : ret :=
  let addr := b_addr b in
  emit b t opcode ;; b =>
  (true, put_symbol b addr (mkSymbol SOpcode false opcode None (rune_region (t_reg t) is_runic))).

(** asm.c:1042-1058 *)
Definition emit_byte (b : basm) (t : token) (v : Z) (is_runic : bool) : ret :=
  let addr := b_addr b in
  emit b t v ;; b =>
  (true, put_symbol b addr (mkSymbol SNumber false v None (word_region (t_reg t) is_runic))).

(** asm.c:1061-1077 *)
Definition emit_short (b : basm) (t : token) (v : Z) (is_runic : bool) : ret :=
  let addr := b_addr b in
  emit2 b t v ;; b =>
  (true, put_symbol2 b addr (mkSymbol SNumber false v None (word_region (t_reg t) is_runic))).

(** asm.c:1080-1113 [buxn_asm_emit_addr_placeholder]; the symbol is [None] for a
    lambda, otherwise its name and id. *)
Definition emit_placeholder (b : basm) (t : token) (size : ref_size) (s : option (str * Z)) (is_runic : bool) : ret :=
  let '(name, id, b) :=
    match s with
    | Some (n, id) => (Some n, id, b)
    | None => let id := u16 (b_labels b + 1) in (None, id, set_labels b id)
    end in
  let sym := mkSymbol SLabelRef false id name (word_region (t_reg t) is_runic) in
  let addr := b_addr b in
  match size with
  | RByte => emit b t 1 ;; b => (true, put_symbol b addr sym)
  | RShort => emit2 b t 1 ;; b => (true, put_symbol2 b addr sym)
  end.

(** asm.c:1116-1146 [buxn_asm_emit_forward_ref] for the symbol [name], which is
    [v]. *)
Definition emit_forward_ref (b : basm) (t : token) (ty : ref_type) (size : ref_size)
  (name : str) (v : node) (is_runic : bool) : ret :=
  let '(v, b) :=
    match n_entry v with
    | EnUnknown =>
        let id := u16 (b_labels b + 1) in
        let v := set_entry v (EnForward id []) in
        (v, set_node (set_labels b id) name v)
    | _ => (v, b)
    end in
  match n_entry v with
  | EnForward id refs =>
      let addr := b_addr b in
      emit_placeholder b t size (Some (name, id)) is_runic ;; b =>
      (true, set_node b name (set_entry v (EnForward id (mkRef t 0 0 addr ty size :: refs))))
  | _ => (false, set_fault b AssertFailed)
  end.

(** asm.c:1149-1175 [buxn_asm_emit_lambda_ref] *)
Definition emit_lambda_ref (b : basm) (t : token) (ty : ref_type) (size : ref_size) (is_runic : bool) : ret :=
  let addr := b_addr b in
  emit_placeholder b t size None is_runic ;; b =>
  (true, set_lambdas (set_nlambdas b (u16 (b_nlambdas b + 1)))
           (mkRef t (b_labels b) (b_nlambdas b) addr ty size :: b_lambdas b)).

(** asm.c:1178-1202 [buxn_asm_calculate_addr] *)
Definition calculate_addr (b : basm) (t : token) (ty : ref_type) (from to : Z) : Z * basm :=
  match ty with
  | RZero => (Z.land to 255, if 255 <? to then warning b t MPastZeroPage else b)
  | RAbs => (to, b)
  | RRel => (to - (from + 2), b)
  end.

(** asm.c:1205-1237 [buxn_asm_emit_addr] *)
Definition emit_addr (b : basm) (t : token) (ty : ref_type) (size : ref_size) (addr : Z) (sym : option symbol) : ret :=
  let write_addr := b_addr b in
  match size with
  | RByte =>
      if match ty with RRel => (127 <? addr) || (addr <? -128) | _ => false end
      then error b t MTooFar
      else
        emit b t (Z.land (u16 addr) 255) ;; b =>
        (true, match sym with Some s => put_symbol b write_addr s | None => b end)
  | RShort =>
      emit2 b t (u16 addr) ;; b =>
      (true, match sym with Some s => put_symbol2 b write_addr s | None => b end)
  end.

(** asm.c:1240-1278 [buxn_asm_emit_backward_ref] to the label at [to]; its name
    is [None] for an @-label. *)
Definition emit_backward_ref (b : basm) (t : token) (ty : ref_type) (size : ref_size)
  (name : option str) (id to : Z) (with_symbol is_runic : bool) : ret :=
  let '(addr, b) := calculate_addr b t ty (b_addr b) to in
  let sym := mkSymbol SLabelRef false id name (word_region (t_reg t) is_runic) in
  emit_addr b t ty size addr (if with_symbol then Some sym else None).

(** asm.c:912-927: patching the references made so far.  The results are
    ignored. *)
Fixpoint patch (b : basm) (refs : list fref) (name : str) (id to : Z) : basm :=
  match refs with
  | [] => b
  | r :: refs' =>
      let '(_, b) := emit_backward_ref (set_addr b (f_addr r)) (f_tok r) (f_type r) (f_size r) (Some name) id to false false in
      patch b refs' name id to
  end.

(** asm.c:907-937: the symbol [v] becomes a label. *)
Definition define_label (b : basm) (t : token) (name : str) (v : node) (id : Z) (refs : list fref) : ret :=
  let addr := b_addr b in
  let b := set_node b name (set_entry v (EnLabel id addr)) in
  let b := patch b refs name id addr in
  let b := set_node b name (mkNode (n_def v) (match refs with [] => false | _ => true end) (EnLabel id addr)) in
  let b := set_addr b addr in
  (true, put_symbol b addr (mkSymbol SLabel false id (Some name) (t_reg t))).

(** asm.c:885-946 [buxn_asm_register_label]; true if it does not return NULL. *)
Definition register_label (b : basm) (t : token) (name : str) : ret :=
  match find_or_create b t name with
  | (None, b) => (false, b)
  | (Some v, b) =>
      match n_entry v with
      | EnUnknown => let id := u16 (b_labels b + 1) in define_label (set_labels b id) t name v id []
      | EnForward id refs => define_label b t name v id refs
      | _ => error b t MDuplicate
      end
  end.

(** asm.c:949-968 [buxn_asm_resolve_local_name]; [None] if it fails. *)
Definition resolve_local_name (b : basm) (t : token) (local : str) : option str * basm :=
  if MAX_TOKEN_LEN <? len local + len (b_scope b) + 1 then (None, snd (error b t MNameTooLong))
  else (Some (b_scope b ++ 47 :: local), b).

(** asm.c:971-989 [buxn_asm_resolve_label_ref] *)
Definition resolve_label_ref (b : basm) (t : token) (r : str) : option str * basm :=
  match r with
  | [] => (None, snd (error b t MRefEmpty))
  | c :: _ => if (c =? 38) || (c =? 47) then resolve_local_name b t (pop_front r) else (Some r, b)
  end.

(** asm.c:1281-1288 *)
Definition pop_at_label (b : basm) : option fref * basm :=
  match b_ats b with
  | [] => (None, b)
  | l :: rest => (Some l, set_ats b rest)
  end.

(** asm.c:1291-1350 [buxn_asm_emit_label_ref] *)
Definition emit_label_ref (b : basm) (t : token) (ty : ref_type) (size : ref_size) (name : str) (is_runic_ : bool) : ret :=
  if str_eqb name [123] then emit_lambda_ref b t ty size is_runic_
  else match resolve_label_ref b t name with
       | (None, b) => (false, b)
       | (Some full, b) =>
           if str_eqb full [64] then
             match pop_at_label b with
             | (Some l, b) => emit_backward_ref b t ty size None (f_label l) (f_addr l) true is_runic_
             | (None, b) => error b t MNoAtLabel
             end
           else match full with
                | [] => error b t MRefEmpty
                | c :: _ =>
                    if is_runic c then error b t MRefRunic
                    else match find_or_create b t full with
                         | (None, b) => (false, b)
                         | (Some v, b) =>
                             match n_entry v with
                             | EnLabel id addr =>
                                 let b := set_node b full (set_referenced v true) in
                                 emit_backward_ref b t ty size (Some full) id addr true is_runic_
                             | EnUnknown | EnForward _ _ => emit_forward_ref b t ty size full v is_runic_
                             | EnMacro _ _ _ => error b t MInvalidRef
                             end
                         end
                end
       end.

(** asm.c:1353-1361 *)
Definition emit_jsi (b : basm) (t : token) : ret :=
  emit_opcode b t 96 false ;; b => emit_label_ref b t RRel RShort (t_lex t) false.

(** ** The pieces of the language *)
(** asm.c:1456-1471, the loop of [buxn_asm_process_comment]; [None] if it ends
    before the comment does. *)
Fixpoint comment_loop (fuel : nat) (b : basm) (u : unit_) (depth : Z) : bool * basm * unit_ :=
  match fuel with
  | O => (false, set_fault b OutOfFuel, u)
  | S fuel' =>
      if depth <=? 0 then (true, b, u)
      else match next_token b u with
           | (None, b, u) => (false, b, u)
           | (Some t, b, u) =>
               match t_lex t with
               | [] => (false, set_fault b AssertFailed, u)
               | _ =>
                   let b := put_symbol b (b_addr b) (mkSymbol SComment false (u16 depth) (Some (t_lex t)) (t_reg t)) in
                   let depth := if str_eqb (t_lex t) [40] then depth + 1
                                else if str_eqb (t_lex t) [41] then depth - 1 else depth in
                   comment_loop fuel' b u depth
               end
           end
  end.

(** asm.c:1443-1483 [buxn_asm_process_comment] *)
Definition process_comment (b : basm) (start : token) (u : unit_) : bool * basm * unit_ :=
  let b := put_symbol b (b_addr b) (mkSymbol SComment false 0 (Some (t_lex start)) (t_reg start)) in
  let '(closed, b, u) := comment_loop (unit_fuel u) b u 1 in
  if closed then (true, b, u)
  else (false, error_ex b MUnbalancedComment (Some (t_reg start)), u).

(** asm.c:1486-1492 *)
Definition process_mark (b : basm) (t : token) : basm :=
  put_symbol b (b_addr b) (mkSymbol SMark false 0 (Some (t_lex t)) (t_reg t)).

(** asm.c:1511-1541: looking for the opening brace. *)
Fixpoint macro_open (fuel : nat) (b : basm) (start : token) (u : unit_) : bool * basm * unit_ :=
  match fuel with
  | O => (false, set_fault b OutOfFuel, u)
  | S fuel' =>
      match next_token b u with
      | (None, b, u) => (false, snd (error b start MMacroBrace), u)
      | (Some t, b, u) =>
          let c := hd 0 (t_lex t) in
          if c =? 40 then
            let '(ok, b, u) := process_comment b t u in
            if ok then macro_open fuel' b start u else (false, b, u)
          else if c =? 91 then macro_open fuel' (process_mark b t) start u
          else if c =? 93 then
            if len (t_lex t) =? 1 then macro_open fuel' (process_mark b t) start u
            else (false, snd (error b t MInvalidRunic), u)
          else if c =? 123 then
            if len (t_lex t) =? 1 then (true, b, u)
            else (false, snd (error b t MMacroBrace), u)
          else (false, snd (error b t MMacroBrace), u)
      end
  end.

(** asm.c:1566-1581: a rune followed by an opening brace. *)
Definition opens_lambda (s : str) : bool :=
  match s with
  | [c; 123] => existsb (Z.eqb c) (bytes ",_.-;=!?")
  | _ => false
  end.

(** asm.c:1551-1604: the body; the tokens are collected in reverse. *)
Fixpoint macro_body (fuel : nat) (b : basm) (start : token) (u : unit_) (depth : Z) (toks : list token)
  : option (list token) * basm * unit_ :=
  match fuel with
  | O => (None, set_fault b OutOfFuel, u)
  | S fuel' =>
      if depth <=? 0 then (Some (rev toks), b, u)
      else match next_token b u with
           | (None, b, u) => (None, error_ex b MMacroUnbalanced (Some (t_reg start)), u)
           | (Some t, b, u) =>
               match t_lex t with
               | [] => (None, set_fault b AssertFailed, u)
               | c :: _ =>
                   if c =? 37 then (None, snd (error b t MNestedMacro), u)
                   else
                     let depth := if str_eqb (t_lex t) [125] then depth - 1
                                  else if opens_lambda (t_lex t) then depth + 1 else depth in
                     macro_body fuel' b start u depth (if 0 <? depth then t :: toks else toks)
               end
           end
  end.

(** asm.c:1495-1614 [buxn_asm_create_macro].  On failure the type of the symbol
    has changed already; nothing looks at it any more. *)
Definition create_macro (b : basm) (start : token) (u : unit_) (name : str) (v : node) : bool * basm * unit_ :=
  let id := u16 (b_macros b + 1) in
  let b := set_macros b id in
  let b := put_symbol b 0 (mkSymbol SMacro false id (Some name) (t_reg start)) in
  let '(found, b, u) := macro_open (unit_fuel u) b start u in
  if found then
    match macro_body (unit_fuel u) b start u 1 [] with
    | (Some toks, b, u) => (true, set_node b name (set_entry v (EnMacro id toks false)), u)
    | (None, b, u) => (false, b, u)
    end
  else (false, b, u).

(** asm.c:1617-1638 *)
Definition process_macro (b : basm) (start : token) (u : unit_) : bool * basm * unit_ :=
  let name := pop_front (t_lex start) in
  match find_or_create b start name with
  | (None, b) => (false, b, u)
  | (Some v, b) =>
      match n_entry v with
      | EnUnknown => create_macro b start u name v
      | _ => (false, snd (error b start MConflict), u)
      end
  end.

(** asm.c:1641-1666 [buxn_asm_make_lambda_name]: '@' and at least two lower case
    hexadecimal digits.  The terminator of a name with four digits is written
    past the array. *)
Definition hex_digit (d : Z) : Z := if d <? 10 then 48 + d else 97 + (d - 10).
Definition lambda_name (id : Z) : str :=
  64 :: (if 4096 <=? id then [hex_digit (Z.land (Z.shiftr id 12) 15)] else []) ++
        (if 256 <=? id then [hex_digit (Z.land (Z.shiftr id 8) 15)] else []) ++
        [hex_digit (Z.land (Z.shiftr id 4) 15); hex_digit (Z.land id 15)].
Definition make_lambda_name (b : basm) (id : Z) : str * basm :=
  (lambda_name id, if 4096 <=? id then log b EOverrun else b).

(** asm.c:1700-1703: up to the first slash. *)
Fixpoint up_to_slash (s : str) : str :=
  match s with [] => [] | c :: s' => if c =? 47 then [] else c :: up_to_slash s' end.

(** asm.c:1669-1712 *)
Definition process_global_label (b : basm) (start : token) : ret :=
  let name := pop_front (t_lex start) in
  if str_eqb name [64] then
    let id := u16 (b_labels b + 1) in
    let l := mkRef start id (b_nlambdas b) (b_addr b) RZero RByte in
    let b := set_ats (set_nlambdas (set_labels b id) (u16 (b_nlambdas b + 1))) (l :: b_ats b) in
    let '(n, b) := make_lambda_name b id in
    (true, put_symbol b (f_addr l) (mkSymbol SLabel true id (Some n) (t_reg start)))
  else
    register_label b start name ;; b => (true, set_scope b (up_to_slash name)).

(** asm.c:1715-1723 *)
Definition process_local_label (b : basm) (start : token) : ret :=
  match resolve_local_name b start (pop_front (t_lex start)) with
  | (None, b) => (false, b)
  | (Some name, b) => register_label b start name
  end.

Definition hex_value (c : Z) : Z := if is_digit c then c - 48 else c - 97 + 10.

(** asm.c:1741-1760: from the last digit to the first; [None] at a character
    that is not a digit. *)
Fixpoint parse_hex (rs : str) (i : Z) (number : Z) : option Z :=
  match rs with
  | [] => Some number
  | c :: rs' => if is_hex c then parse_hex rs' (i + 1) (u16 (Z.lor number (Z.shiftl (hex_value c) (i * 4)))) else None
  end.

(** asm.c:1766-1778 *)
Fixpoint parse_dec (s : str) (limit number : Z) : message + Z :=
  match s with
  | [] => inr number
  | c :: s' =>
      if is_digit c then
        let number := u32 (u32 (number * 10) + (c - 48)) in
        if limit <? number then inl MNumberBig else parse_dec s' limit number
      else inl MNumberChar
  end.

(** asm.c:1726-1784 [buxn_asm_parse_number]: the number and its size, or the
    error. *)
Definition parse_number (s : str) : message + Z * Z :=
  match s with
  | [] => inl MNumberEmpty
  | _ =>
      let start := pluses s in
      if start =? 0 then
        if 4 <? len s then inl MNumberLong
        else match parse_hex (rev s) 0 0 with
             | Some n => inr (n, if len s <=? 2 then 1 else 2)
             | None => inl MNumberChar
             end
      else match parse_dec (skipn (Z.to_nat start) s) (if start =? 1 then 255 else 65535) 0 with
           | inr n => inr (u16 n, start)
           | inl m => inl m
           end
  end.

(** asm.c:1787-1834 [buxn_asm_resolve_padding] *)
Definition resolve_padding (b : basm) (t : token) : option Z * basm :=
  let s := pop_front (t_lex t) in
  match s with
  | [] => (None, snd (error b t MPadding))
  | _ =>
      if is_number s then
        match parse_number s with
        | inr (n, _) => (Some n, b)
        | inl m => (None, snd (error b t m))
        end
      else match resolve_label_ref b t s with
           | (None, b) => (None, b)
           | (Some label, b) =>
               if str_eqb label [64] then
                 match pop_at_label b with
                 | (None, b) => (None, snd (error b t MNoAtLabel))
                 | (Some l, b) => (Some (f_addr l), b)
                 end
               else match lookup label (b_symtab b) with
                    | None => (None, snd (error b t MPaddingUndeclared))
                    | Some v =>
                        match n_entry v with
                        | EnLabel id addr => (Some addr, set_node b label (set_referenced v true))
                        | _ => (None, snd (error b t MPaddingInvalid))
                        end
                    end
           end
  end.

(** asm.c:1837-1845 *)
Definition process_abs_padding (b : basm) (t : token) : ret :=
  match resolve_padding b t with
  | (None, b) => (false, b)
  | (Some n, b) => (true, set_addr b n)
  end.

(** asm.c:1848-1861 *)
Definition process_rel_padding (b : basm) (t : token) : ret :=
  match resolve_padding b t with
  | (None, b) => (false, b)
  | (Some n, b) =>
      let old := b_addr b in
      let new := u16 (old + n) in
      let b := set_addr b new in
      (true, if new <? old then warning b t MPaddingWrap else b)
  end.

(** asm.c:1868-1874, 1897-1903 *)
Definition literal (s : str) : message + Z * Z :=
  match s with
  | [] => inl MNumberEmpty
  | c :: _ =>
      if negb (c =? 43) && negb (len s =? 2) && negb (len s =? 4) then inl MNumberDigits
      else parse_number s
  end.

(** asm.c:1864-1890 *)
Definition process_lit_number (b : basm) (t : token) : ret :=
  match literal (pop_front (t_lex t)) with
  | inl m => error b t m
  | inr (n, size) =>
      if size =? 1 then emit_opcode b t 128 true ;; b => emit_byte b t (u8 n) true
      else emit_opcode b t 160 true ;; b => emit_short b t n true
  end.

(** asm.c:1893-1917 *)
Definition process_raw_number (b : basm) (t : token) : ret :=
  match literal (t_lex t) with
  | inl m => error b t m
  | inr (n, size) => if size =? 1 then emit_byte b t (u8 n) false else emit_short b t n false
  end.

(** asm.c:1986-2023 [buxn_asm_process_lambda_close] *)
Definition process_lambda_close (b : basm) (t : token) : ret :=
  match b_lambdas b with
  | [] => error b t MUnbalancedLambda
  | r :: rest =>
      let current := b_addr b in
      let '(addr, b) := calculate_addr b (f_tok r) (f_type r) (f_addr r) current in
      emit_addr (set_addr b (f_addr r)) (f_tok r) (f_type r) (f_size r) addr None ;; b =>
      let b := set_addr b current in
      let '(n, b) := make_lambda_name b (f_lambda r) in
      let b := put_symbol b current (mkSymbol SLabel true (f_label r) (Some n) (t_reg t)) in
      (true, set_lambdas b rest)
  end.

(** asm.c:2087-2092 *)
Fixpoint emit_text (b : basm) (t : token) (sym : symbol) (addr : Z) (s : str) : ret :=
  match s with
  | [] => (true, b)
  | c :: s' => emit b t c ;; b => emit_text (put_symbol b addr sym) t sym (addr + 1) s'
  end.
(** asm.c:2075-2094 *)
Definition process_text (b : basm) (t : token) : ret :=
  if len (t_lex t) <=? 1 then error b t MText
  else emit_text b t (mkSymbol SText false (u16 (len (t_lex t))) None (t_reg t)) (b_addr b) (pop_front (t_lex t)).

(** ** Units.  [pu] is [buxn_asm_process_unit] on a nested unit. *)
Definition files : Type := list (str * list Z).
Fixpoint find_file (fs : files) (n : str) : option (list Z) :=
  match fs with
  | [] => None
  | (k, c) :: fs' => if str_dec k n then Some c else find_file fs' n
  end.

Section Nested.
Variable fs : files.
Variable pu : basm -> unit_ -> ret.

(** asm.c:2366-2394 *)
Definition process_file (b : basm) (path : str) : ret :=
  match find_file fs path with
  | None => (false, error_ex b MCannotOpen (Some (file_region path no_pos no_pos)))
  | Some c =>
      let b := log b (EOpen path) in
      let '(ok, b) := pu b (UFile path c (mkPos 1 1 0)) in
      (ok, log b (EClose path))
  end.

(** asm.c:2097-2141 *)
Definition process_include (b : basm) (name : str) (t : token) : ret :=
  if existsb (str_eqb name) (b_includes b) then (true, b)
  else
    let b := set_includes b (name :: b_includes b) in
    let b := set_depth b (b_depth b + 1) in
    let '(ok, b) := process_file b name in
    let b := set_depth b (b_depth b - 1) in
    if ok then (true, b) else error b (mkTok name (t_reg t)) MInInclude.

(** asm.c:1961-1982: reading the macro with its argument. *)
Definition run_macro (b : basm) (t : token) (name : str) (v : node) (id : Z) (toks : list token)
  (arg : option token) (u : unit_) : bool * basm * unit_ :=
  let b := set_node b name (set_entry v (EnMacro id toks true)) in
  let b := set_depth b (b_depth b + 1) in
  let '(ok, b) := pu (log b (EEnter name)) (UMacro toks arg) in
  let b := log b (ELeave name) in
  let b := set_depth b (b_depth b - 1) in
  let b := set_node b name (set_entry v (EnMacro id toks false)) in
  (ok, if ok then b else error_ex b MInMacro (Some (t_reg t)), u).

(** asm.c:1920-1983 [buxn_asm_expand_macro] *)
Definition expand_macro (b : basm) (t : token) (name : str) (v : node) (id : Z) (toks : list token) (expanding : bool)
  (u : unit_) : bool * basm * unit_ :=
  if MAX_PREPROCESSOR_DEPTH <=? b_depth b then (false, snd (error b t MDepth), u)
  else if expanding then (false, snd (error b t MRecursion), u)
  else
    let b := put_symbol b 0 (mkSymbol SMacroRef false id (Some name) (t_reg t)) in
    if last name 0 =? 58 then
      match next_token b u with
      | (None, b, u) =>
          (false, if b_success b then snd (error b t MNoArgument) else b, u)
      | (Some arg, b, u) => run_macro b t name v id toks (Some arg) u
      end
    else run_macro b t name v id toks None u.

Definition keep (r : ret) (u : unit_) : bool * basm * unit_ := let '(ok, b) := r in (ok, b, u).

(** asm.c:2026-2072 *)
Definition process_word (b : basm) (t : token) (u : unit_) : bool * basm * unit_ :=
  if is_runic (hd 0 (t_lex t)) then (false, set_fault b AssertFailed, u)
  else match parse_opcode (t_lex t) with
       | Some (op, redundant) =>
           let b := if redundant then warning b t MRedundantFlag else b in
           keep (emit_opcode b t op false) u
       | None =>
           match find_or_create b t (t_lex t) with
           | (None, b) => (false, b, u)
           | (Some v, b) =>
               match n_entry v with
               | EnMacro id toks expanding =>
                   let v := set_referenced v true in
                   expand_macro (set_node b (t_lex t) v) t (t_lex t) v id toks expanding u
               | EnLabel id addr =>
                   let b := set_node b (t_lex t) (set_referenced v true) in
                   keep (emit_opcode b t 96 false ;; b =>
                         emit_backward_ref b t RRel RShort (Some (t_lex t)) id addr true false) u
               | EnUnknown | EnForward _ _ =>
                   keep (emit_opcode b t 96 false ;; b =>
                         emit_forward_ref b t RRel RShort (t_lex t) v false) u
               end
           end
       end.

(** asm.c:2170-2223, the rune '~'. *)
Definition process_tilde (b : basm) (t : token) : ret :=
  if MAX_PREPROCESSOR_DEPTH <=? b_depth b then error b t MDepth
  else
    let name := pop_front (t_lex t) in
    let deferred := hd 0 name =? 126 in
    let name := if deferred then pop_front name else name in
    let b := put_symbol b (b_addr b) (mkSymbol SInclude false 0 (Some name) (t_reg t)) in
    if deferred then
      if existsb (str_eqb name) (b_includes b) then (true, b)
      else (true, set_deferred b (b_deferred b ++ [(name, t)]))
    else process_include b name t.

(** asm.c:2150-2358: one token. *)
Definition process_token (b : basm) (t : token) (u : unit_) : bool * basm * unit_ :=
  let lex := t_lex t in
  let name := pop_front lex in
  let c := hd 0 lex in
  let opcode op (k : basm -> ret) := keep (emit_opcode b t op true ;; b => k b) u in
  if c =? chr "(" then process_comment b t u
  else if c =? chr ")" then keep (error b t MUnexpectedRune) u
  else if c =? chr "[" then (true, process_mark b t, u)
  else if c =? chr "]" then
    if len lex =? 1 then (true, process_mark b t, u) else keep (error b t MInvalidRunic) u
  else if c =? chr "~" then keep (process_tilde b t) u
  else if c =? chr "%" then process_macro b t u
  else if c =? chr "@" then keep (process_global_label b t) u
  else if c =? chr "&" then keep (process_local_label b t) u
  else if c =? chr "!" then opcode 64 (fun b => emit_label_ref b t RRel RShort name true)
  else if c =? chr "?" then opcode 32 (fun b => emit_label_ref b t RRel RShort name true)
  else if c =? chr "}" then
    if len lex =? 1 then keep (process_lambda_close b t) u else keep (error b t MInvalidRunic) u
  else if c =? chr "{" then
    if len lex =? 1 then keep (emit_jsi b t) u else keep (error b t MInvalidRunic) u
  else if c =? chr "/" then keep (emit_jsi b t) u
  else if c =? chr "|" then keep (process_abs_padding b t) u
  else if c =? chr "$" then keep (process_rel_padding b t) u
  else if c =? chr "#" then keep (process_lit_number b t) u
  else if c =? chr "." then opcode 128 (fun b => emit_label_ref b t RZero RByte name true)
  else if c =? chr "-" then keep (emit_label_ref b t RZero RByte name true) u
  else if c =? chr "," then opcode 128 (fun b => emit_label_ref b t RRel RByte name true)
  else if c =? chr "_" then keep (emit_label_ref b t RRel RByte name true) u
  else if c =? chr ";" then opcode 160 (fun b => emit_label_ref b t RAbs RShort name true)
  else if c =? chr "=" then keep (emit_label_ref b t RAbs RShort name true) u
  else if c =? 34 then keep (process_text b t) u
  else if is_number lex then keep (process_raw_number b t) u
  else process_word b t u.

(** asm.c:2144-2363 [buxn_asm_process_unit] *)
Fixpoint unit_loop (fuel : nat) (b : basm) (u : unit_) : ret :=
  match fuel with
  | O => stuck b
  | S fuel' =>
      match next_token b u with
      | (None, b, _) => (b_success b, b)
      | (Some t, b, u) =>
          match t_lex t with
          | [] => (false, set_fault b AssertFailed)
          | _ =>
              let b := log b (ETok (b_scope b) (b_addr b) (t_lex t)) in
              let '(ok, b, u) := process_token b t u in
              if ok then unit_loop fuel' b u else (false, b)
          end
      end
  end.
End Nested.

(** Units nested at most [d] deep. *)
Fixpoint process_unit (fs : files) (d : nat) (b : basm) (u : unit_) : ret :=
  match d with
  | O => stuck b
  | S d' => unit_loop fs (process_unit fs d') (unit_fuel u) b u
  end.

(** More than the assembler allows (MAX_PREPROCESSOR_DEPTH). *)
Definition DEPTH : nat := 40.

(** asm.c:1372-1384: the deferred includes from the [i]-th on; the list can
    grow. *)
Fixpoint deferred_loop (fs : files) (fuel : nat) (i : nat) (b : basm) : ret :=
  match fuel with
  | O => stuck b
  | S fuel' =>
      match nth_error (b_deferred b) i with
      | None => (true, b)
      | Some (name, t) =>
          process_include fs (process_unit fs DEPTH) b name t ;; b =>
          deferred_loop fs fuel' (S i) b
      end
  end.

(** asm.c:1386-1404 *)
Definition report_lambdas (b : basm) : basm :=
  fold_left (fun b r => error_ex b MUnbalancedLambda (Some (t_reg (f_tok r)))) (b_lambdas b) b.
Definition report_ats (b : basm) : basm :=
  fold_left (fun b r => warning b (f_tok r) MUnreferencedAt) (b_ats b) b.

(** asm.c:1411-1433 *)
Definition report_symbol (b : basm) (nv : str * node) : basm :=
  let '(n, v) := nv in
  match n_entry v with
  | EnForward _ refs => fold_left (fun b r => error_ex b MUnresolved (Some (t_reg (f_tok r)))) refs b
  | EnUnknown => snd (error b (n_def v) MUnknownSymbol)
  | EnMacro _ _ _ | EnLabel _ _ =>
      if negb (n_referenced v)
         && negb (match n with c :: _ => is_uppercased c | [] => false end)
         && negb (match n_entry v with EnLabel _ a => a =? RESET_VECTOR | _ => false end)
      then warning b (n_def v) MUnreferenced else b
  end.

(** asm.c:1371-1438 [buxn_asm_resolve] *)
Definition resolve (fs : files) (fuel : nat) (b : basm) : ret :=
  deferred_loop fs fuel 0 b ;; b =>
  let b := report_ats (report_lambdas b) in
  let b := fold_left report_symbol (b_symtab b) b in
  (b_success b, b).

(** asm.c:2398-2406 *)
Definition start : basm :=
  mkBasm RESET_VECTOR 0 None true 0 0 0 [] [] DEFAULT_LABEL_SCOPE [] [] [] None [].

(** asm.c:2397-2421 [buxn_asm]; the state is returned for its log. *)
Definition asm (fs : files) (fuel : nat) (filename : str) : ret :=
  let '(ok, b) := process_file fs (process_unit fs DEPTH) start filename in
  if negb ok then (b_success b, b)
  else
    let '(ok, b) := resolve fs fuel b in
    (b_success b, b).
