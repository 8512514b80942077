(** Model of what the interactive assembler tells its user about a line,
    src/repl.c:476-510 and 601-681.

    Not modelled: the text and colours of an entry of the log (blog), the token,
    the number of the trace and the related place shown with a message, and the
    warnings about annotations that are shown while symbols are read. *)
From Verif Require Import Base VmModel AsmModel ChessModel ReplModel.
From Coq Require Import String.
Open Scope list_scope.

(** blog's levels that are used. *)
Inductive level : Type := LError | LWarn.
Inductive what : Type := FromAsm (m : message) | FromCheck (m : msg).
(** An entry of the log; the place has the line only if the assembler speaks. *)
Record said : Type := mkSaid { d_level : level; d_file : str; d_line : option Z; d_what : what }.

(** repl.c:478-510 [buxn_asm_report]: the level is picked by the kind, then
    everything in the prelude is dropped.  A report of the assembler has always a
    region (asm.c:241-298), [None] is not met. *)
Definition asm_said (e : event) : list said :=
  match e with
  | EReport err m (Some r) =>
      let level := if err then LError else LWarn in
      if str_eqb (r_file r) main_name then []
      else [mkSaid level (r_file r) (Some (line (r_start r))) (FromAsm m)]
  | _ => []
  end.

(** repl.c:661-681 [buxn_chess_report] with 618-659 [buxn_chess_log]. *)
Definition check_said (file : str) (r : report) : list said :=
  match r with
  | RWarning m => [mkSaid LWarn file None (FromCheck m)]
  | RError m => if str_eqb file main_name then [] else [mkSaid LError file None (FromCheck m)]
  | _ => []
  end.

(** chess.c:2508-2516 with what repl.c shows of it; as [ReplModel.watch]. *)
Fixpoint watch_said (fuel : nat) (evs : list event) (cur : option csym) (c : config) : option (chess * list said) :=
  match fuel with
  | O => None
  | S fuel =>
      match c with
      | Finished h => Some (h, [])
      | Broken _ => None
      | _ =>
          let c' := cstep c in
          let cur := current cur c in
          let file := match cur with Some y => r_file (y_reg y) | None => label_file evs (owner c) (bytes "RESET") end in
          let new := skipn (List.length (reports_of c)) (reports_of c') in
          match watch_said fuel evs cur c' with
          | Some (h, l) => Some (h, List.concat (map (check_said file) new) ++ l)
          | None => None
          end
      end
  end.
(** chess.c:2518-2551: routines without an end. *)
Definition endless_said (evs : list event) (h : chess) : list said :=
  List.concat (map (fun a => if missing_end h a then check_said (label_file evs a (bytes "RESET")) (RError CNoTermination) else []) (h_order h)).
(** repl.c:190-193 [buxn_chess_end] *)
Definition check_log (fuel : nat) (mem : Z -> Z) (evs : list event) : option (list said) :=
  match read_symbols (reader0 mem) evs with
  | None => None
  | Some z =>
      match watch_said fuel evs None (Idle (add_reset (z_h z))) with
      | Some (h, l) => Some (l ++ endless_said evs h)
      | None => None
      end
  end.

(** repl.c:188-193: all that is shown in a round, from the result of the
    assembler, its events and the memory after them. *)
Definition line_log (fuel : nat) (mem : Z -> Z) (ok : bool) (evs : list event) : option (list said) :=
  let first := List.concat (map asm_said evs) in
  if ok && existsb from_line evs then
    match check_log fuel mem evs with Some l => Some (first ++ l) | None => None end
  else Some first.
