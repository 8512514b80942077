(** Model of the interactive assembler, src/repl.c.  It assembles
    src/repl.tal again and again; the text of the line that the user has typed
    and a signature with what is on the stacks are included in it.

    Not modelled: reading of the characters of a line (repl.c:342-390, the file
    [/repl/line] holds what was typed, with the line ends, up to the point at
    which the reader says it ends), the logs (repl.c:476-510, 601-632), the
    setup of the file system. *)
From Verif Require Import Base VmModel AsmModel ChessModel.
From Coq Require Import ZifyBool String.
Open Scope list_scope.
Ltac Zify.zify_post_hook ::= Z.div_mod_to_equations.

(** ** Text *)

(** include/buxn/asm/chess.h:44-60: what is shown of a value.  The names are
    made by the type checker; its model has no names. *)
Record shown : Type := mkShown { n_name : str; n_addr : bool; n_short : bool }.
(** include/buxn/asm/chess.h:70-74; the values from the bottom, and the size in
    bytes as the type checker counts it. *)
Record shown_stack : Type := mkSS { p_vals : list shown; p_size : Z }.

(** chess.c:286-309: the length of a formatted string is a uint8_t. *)
Definition printed (s : str) : str := firstn (Z.to_nat (u8 (Z.of_nat (List.length s)))) s.
(** chess.c:311-326 *)
Definition format_value (v : shown) : str :=
  printed ([32] ++ (if n_addr v then [91] else []) ++ n_name v ++ (if n_addr v then [93] else []) ++ (if n_short v then [42] else [])).
(** chess.c:328-353 *)
Definition format_stack (l : list shown) : str :=
  printed (List.concat (map format_value (firstn MAX_ARGS l)) ++ (if Nat.ltb MAX_ARGS (List.length l) then bytes " ..." else [])).

(** printf: [%*s] *)
Definition pad (n : Z) (s : str) : str := repeat 32 (Z.to_nat (n - Z.of_nat (List.length s))) ++ s.
(** printf: [%02x], [%04x] and [%02hhX] of numbers in the range *)
Definition low_digit (d : Z) : Z := if d <? 10 then 48 + d else 87 + d.
Definition up_digit (d : Z) : Z := if d <? 10 then 48 + d else 55 + d.
Definition hex02 (n : Z) : str := [low_digit (n / 16 mod 16); low_digit (n mod 16)].
Definition hex04 (n : Z) : str := [low_digit (n / 4096 mod 16); low_digit (n / 256 mod 16); low_digit (n / 16 mod 16); low_digit (n mod 16)].
Definition HEX02 (n : Z) : str := [up_digit (n / 16 mod 16); up_digit (n mod 16)].

Section Print.
(** repl.c:70-88: the columns that a string takes on the terminal, from
    utf8proc. *)
Variable columns : str -> Z.

(** repl.c:103-105 *)
Definition min_size (v : shown) : Z := if n_short v then 4 else 2.
(** repl.c:108: [|%*.*s] *)
Definition head (v : shown) : str := [124] ++ pad (min_size v) (format_value v).
(** repl.c:109 *)
Definition column (v : shown) : Z :=
  let w := columns (format_value v) in if min_size v <=? w then w else min_size v.
(** An element of the array of 256 bytes of the machine. *)
Definition cell (a : arr) (i : Z) : res Z := if (0 <=? i) && (i <? 256) then Ok (a i) else Fault (OobRead i).
(** repl.c:114-128; [offset] is a uint8_t, [offset + 1] an int. *)
Fixpoint cells_row (a : arr) (offset : Z) (l : list shown) : res str :=
  match l with
  | [] => Ok []
  | v :: l =>
      rbind (if n_short v
             then rbind (cell a offset) (fun hi => rbind (cell a (offset + 1)) (fun lo =>
                  Ok (hex04 (Z.lor (Z.shiftl hi 8) lo), u8 (offset + 2))))
             else rbind (cell a offset) (fun b => Ok (hex02 b, u8 (offset + 1)))) (fun '(s, offset) =>
      rbind (cells_row a offset l) (fun t => Ok ([124] ++ pad (column v) s ++ t)))
  end.
(** repl.c:133-135 *)
Fixpoint raw_row (a : arr) (i : Z) (n : nat) : str :=
  match n with O => [] | S n => [32] ++ HEX02 (a i) ++ raw_row a (i + 1) n end.
(** repl.c:90-138 [buxn_repl_print_stack]; [name] is WST or RST. *)
Definition print_stack (name : str) (k : shown_stack) (a : arr) (size : Z) : res str :=
  if size =? p_size k then
    rbind (cells_row a 0 (p_vals k)) (fun row =>
    Ok (name ++ [58] ++ List.concat (map head (p_vals k)) ++ [124; 10] ++ pad (Z.of_nat (List.length name)) [] ++ [32] ++ row ++ [124; 10]))
  else Ok (name ++ [58] ++ raw_row a 0 (Z.to_nat size) ++ [10]).
End Print.

(** repl.c:521-546: the file [/repl/signature]. *)
Definition signature_text (w r : list shown) : str :=
  bytes "(" ++ format_stack w ++ bytes " ." ++ format_stack r ++ bytes " -> )".

(** ** The files *)
Definition main_name : str := bytes "/repl/main".
Definition signature_name : str := bytes "/repl/signature".
Definition line_name : str := bytes "/repl/line".
(** src/repl.tal; the comments that are no annotation are left out. *)
Definition main_text : str := bytes "|0100 @repl/main ~/repl/signature ~/repl/line #2b0e DEO BRK @\reset ( -- ) #ff0e DEO JMP2r @\stack ( -- ) JMP2r".
(** repl.c:512-552: the three files of the tool come before those of the disk. *)
Definition line_files (disk : files) (w r : list shown) (line : str) : files :=
  (main_name, main_text) :: (signature_name, signature_text w r) :: (line_name, line) :: disk.

(** ** The type checker, with the places of its errors *)

(** repl.c:470-472 *)
Definition from_line (e : event) : bool :=
  match e with ESym _ s => str_eqb (r_file (s_reg s)) line_name | _ => false end.
(** chess.c:2596-2608: the file of the label of a routine; 2504-2506 for the one
    at 0100. *)
Fixpoint label_file (evs : list event) (a : Z) (f : str) : str :=
  match evs with
  | [] => f
  | ESym b s :: evs =>
      match s_type s with
      | SLabel => if (b =? a) && negb (s_gen s) then label_file evs a (r_file (s_reg s)) else label_file evs a f
      | _ => label_file evs a f
      end
  | _ :: evs => label_file evs a f
  end.
(** repl.c:651-658: an error counts unless it is in the prelude. *)
Definition counts (file : str) (r : report) : Z :=
  match r with RError _ => if str_eqb file main_name then 0 else 1 | _ => 0 end.
(** repl.c:580-595: the stacks at the place where [#2b0e DEO] was analysed. *)
Definition noted (r : report) (k : option (stack * stack)) : option (stack * stack) :=
  match r with RDeo w r v p => if (p =? 14) && (v =? 43) then Some (w, r) else k | _ => k end.

Definition h_of_config (c : config) : option chess :=
  match c with Idle h => Some h | Running x => Some (x_h x) | Finished h => Some h | Broken _ => None end.
Definition reports_of (c : config) : list report := match h_of_config c with Some h => h_reports h | None => [] end.
(** chess.c:424-430, 1929-1934, 1965, 2012: the symbol to which a report
    belongs: the opcode that is executed, or the one before it. *)
Definition current (cur : option csym) (c : config) : option csym :=
  match c with
  | Idle h => match h_list h with [] => None | e :: _ => h_syms h (e_address e) end
  | Running x =>
      if x_term x || (negb (x_inner x) && (x_pc x <? 256)) then cur else
      match h_infos (x_h x) (x_pc x) with
      | Some (mkInfo true (Some _) _ _ _) => if x_pc x =? x_info x then if is_code (h_syms (x_h x) (x_pc x)) then h_syms (x_h x) (x_pc x) else cur else cur
      | _ => if is_code (h_syms (x_h x) (x_pc x)) then h_syms (x_h x) (x_pc x) else cur
      end
  | _ => cur
  end.
Definition owner (c : config) : Z :=
  match c with Idle h => match h_list h with [] => 256 | e :: _ => e_info e end | Running x => x_info x | _ => 256 end.
(** chess.c:2508-2516 with what repl.c keeps of it: the number of errors that
    count and the stacks that were noted. *)
Fixpoint watch (fuel : nat) (evs : list event) (cur : option csym) (c : config) (n : Z) (k : option (stack * stack)) : option (chess * Z * option (stack * stack)) :=
  match fuel with
  | O => None
  | S fuel =>
      match c with
      | Finished h => Some (h, n, k)
      | Broken _ => None
      | _ =>
          let c' := cstep c in
          let cur := current cur c in
          let file := match cur with Some y => r_file (y_reg y) | None => label_file evs (owner c) (bytes "RESET") end in
          let new := skipn (List.length (reports_of c)) (reports_of c') in
          watch fuel evs cur c' (fold_left (fun n r => n + counts file r) new n) (fold_left (fun k r => noted r k) new k)
      end
  end.
(** chess.c:2518-2551: routines without an end. *)
Definition endless (evs : list event) (h : chess) : Z :=
  fold_left (fun n a => if missing_end h a then n + counts (label_file evs a (bytes "RESET")) (RError CNoTermination) else n) (h_order h) 0.
(** repl.c:198-199 [buxn_chess_end]: the errors that count, and the stacks that
    were noted.  [None]: the reader aborts or the analysis faults or does not end. *)
Definition check_line (fuel : nat) (mem : Z -> Z) (evs : list event) : option (Z * option (stack * stack)) :=
  match read_symbols (reader0 mem) evs with
  | None => None
  | Some z =>
      match watch fuel evs None (Idle (add_reset (z_h z))) 0 None with
      | Some (h, n, k) => Some (n + endless evs h, k)
      | None => None
      end
  end.

(** ** The loop *)
Section Loop.
Variable W : Type.
Variable dei : Z -> vm -> W -> res (Z * vm * W).
Variable deo : Z -> vm -> W -> res (vm * W).
Variable hi_first : bool.
Variables kw kr : Z.
Variable disk : files.
(** repl.c:311-316: the program has written ff to System/debug. *)
Variable wants_reset : W -> bool.
Variable cleared : W -> W.
Variable columns : str -> Z.
(** The name that the checker gives to the value at a place of a stack, in a
    round of the loop. *)
Variable naming : nat -> bool -> nat -> str.

(** repl.c:19-27.  [q_handle] says where the names of the noted stacks are: in
    which of the two arenas, and how often it had been reset before. *)
Record repl : Type := mkRepl {
  q_vm : vm; q_world : W; q_wst : shown_stack; q_rst : shown_stack;
  q_handle : bool * nat; q_arena : bool; q_resets : bool -> nat; q_round : nat
}.
Definition nothing : shown_stack := mkSS [] 0.
(** repl.c:170-186 *)
Definition repl0 (v : vm) (w : W) : repl := mkRepl v w nothing nothing (false, 0%nat) false (fun _ => 0%nat) 0.

Definition content (k : stack) : list value := map (fun i => k_at k (Z.of_nat i)) (seq 0 (Z.to_nat (k_len k))).
Fixpoint show_from (name : nat -> str) (i : nat) (l : list value) : list shown :=
  match l with [] => [] | v :: l => mkShown (name i) (v_addr v) (v_short v) :: show_from name (S i) l end.
Definition show (name : nat -> str) (k : stack) : shown_stack := mkSS (show_from name 0 (content k)) (k_size k).

Inductive shell : Type :=
| Prompt (q : repl) (out : str)    (* ready for the next line *)
| Freed                            (* a name is read in an arena that was reset *)
| Aborted                          (* the checker or the assembler goes wrong *)
| Crashed (f : fault)
| Waiting.                         (* out of fuel *)

(** repl.c:190-195: the arena of the round, and how often each was reset. *)
Definition arena (q : repl) : bool := negb (q_arena q).
Definition resets (q : repl) (b : bool) : nat := if Bool.eqb b (arena q) then S (q_resets q b) else q_resets q b.
(** repl.c:521-546: the names are read when the signature is opened. *)
Definition stale (q : repl) : bool :=
  negb (Nat.eqb (List.length (p_vals (q_wst q) ++ p_vals (q_rst q))) 0) && negb (Nat.eqb (resets q (fst (q_handle q))) (snd (q_handle q))).
(** repl.c:462-465: the bytes of the program go to the memory of the machine. *)
Definition loaded (evs : list event) (q : repl) : vm := vm_set_mem (q_vm q) (rom_of evs (vm_mem (q_vm q))).
(** repl.c:580-595: the stacks, and where their names are, after the check. *)
Definition noting (q : repl) (k : option (stack * stack)) : shown_stack * shown_stack * (bool * nat) :=
  match k with
  | Some (kw, kr) => (show (naming (q_round q) false) kw, show (naming (q_round q) true) kr, (arena q, resets q (arena q)))
  | None => (q_wst q, q_rst q, q_handle q)
  end.
Definition next (q : repl) (v : vm) (w : W) (n : shown_stack * shown_stack * (bool * nat)) : repl :=
  let '(wst, rst, handle) := n in mkRepl v w wst rst handle (arena q) (resets q) (S (q_round q)).
(** repl.c:204-227 *)
Definition after_run (q : repl) (n : shown_stack * shown_stack * (bool * nat)) (o : VmModel.outcome W) : shell :=
  match o with
  | VmModel.Done _ v w =>
      if wants_reset w then
        match VmModel.reset v RESET_SOFT with
        | Ok v => Prompt (next q v (cleared w) (nothing, nothing, snd n)) []
        | Fault f => Crashed f
        end
      else
        match print_stack columns (bytes "WST") (fst (fst n)) (vm_ws v) (vm_wsp v), print_stack columns (bytes "RST") (snd (fst n)) (vm_rs v) (vm_rsp v) with
        | Ok a, Ok b => Prompt (next q v w n) (a ++ b)
        | Fault f, _ => Crashed f
        | _, Fault f => Crashed f
        end
  | VmModel.Crash _ f => Crashed f
  | VmModel.OutOfFuel _ => Waiting
  end.
(** repl.c:189-227: one round of the loop. *)
Definition round (fuel : nat) (line : str) (q : repl) : shell :=
  if stale q then Freed
  else
  let '(ok, b) := asm (line_files disk (p_vals (q_wst q)) (p_vals (q_rst q)) line) fuel main_name in
  match b_fault b with
  | Some _ => Aborted
  | None =>
      let evs := rev (b_out b) in
      let v := loaded evs q in
      if ok && existsb from_line evs then
        match check_line fuel (vm_mem v) evs with
        | None => Aborted
        | Some (errors, k) =>
            if errors =? 0
            then after_run q (noting q k) (VmModel.execute W dei deo hi_first None kw kr fuel 256 v (q_world q))
            else Prompt (next q v (q_world q) (noting q k)) []
        end
      else Prompt (next q v (q_world q) (noting q None)) []
  end.
End Loop.
