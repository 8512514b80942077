(** Model of the main function of rom2exe: its command line, the path of the
    runner and what is freed at the end, /repo/src/rom2exe.c:19-129.  What is
    done with the files is BootModel.rom2exe. *)
From Verif Require Import Base BootModel TransportModel.
From Coq Require Import Ascii String.
Open Scope list_scope.

(** Where a string is: on the command line, a constant of the program, or in
    memory from malloc. *)
Inductive ptr : Type := Arg (s : str) | Literal (s : str) | Heap (s : str).
Definition chars (p : ptr) : str := match p with Arg s | Literal s | Heap s => s end.

(** src/rom2exe.c:31-36: from the last character back to a slash. *)
Fixpoint slash_pos (n : nat) (s : str) : option nat :=
  match n with
  | O => None
  | S k => if (nth k s 0 =? 47) || (nth k s 0 =? 92) then Some k else slash_pos k s
  end.

(** src/rom2exe.c:29-45 [find_relative_path]: without a slash the argument
    itself is returned. *)
Definition find_relative_path (exe_path file : str) : ptr :=
  match slash_pos (List.length exe_path) exe_path with
  | None => Literal file
  | Some k => Heap (firstn (S k) exe_path ++ file)
  end.

(** src/rom2exe.c:52-66: the options; get_arg (src/rom2exe.c:19-27) is the same
    function as parse_flag.  The arguments that are left. *)
Fixpoint options (runner : ptr) (args : list str) : ptr * list str :=
  match args with
  | [] => (runner, [])
  | a :: l =>
      match parse_flag a (bytes "-runner=") with
      | Some v => options (Arg v) l
      | None => if str_eqb a (bytes "--") then (runner, l) else (runner, args)
      end
  end.

(** src/rom2exe.c:71-78, outside Windows, where the names end with .exe.  The
    flag: is it the pointer [runner] itself? *)
Definition runner_path (exe_path : str) (runner : ptr) : ptr * bool :=
  if str_eqb (chars runner) (bytes "cli") then (find_relative_path exe_path (bytes "buxn-cli"), false)
  else if str_eqb (chars runner) (bytes "gui") then (find_relative_path exe_path (bytes "buxn-gui"), false)
  else (runner, true).

(** How the program ends: with the message about its usage, with an exit code
    and the output file (None if it is not made), or with undefined behaviour
    when the files have been closed.  [Overlap]: the output is also the input or
    the runner; the model says nothing about it.  [OutOfFuel] does not happen
    (C108_found): it is BootModel.Stuck. *)
Inductive outcome : Type :=
| Usage
| Ends (code : Z) (output : option (list Z))
| Crashes (f : fault) (output : option (list Z))
| Overlap
| OutOfFuel.

(** src/rom2exe.c:127: only memory from malloc can be freed. *)
Definition release (path : ptr * bool) (code : Z) (output : option (list Z)) : outcome :=
  if snd path then Ends code output
  else match fst path with Heap _ => Ends code output | _ => Crashes BadHandle output end.

(** src/rom2exe.c:47-129; [fs] are the files, [can_create] and [room] are for
    the output.  Undefined behaviour while the files are open leaves no output
    that anything is said about. *)
Definition exe_main (exe_path : str) (args : list str) (fs : str -> option (list Z)) (can_create : bool) (room : Z) : outcome :=
  let '(runner, words) := options (Literal (bytes "cli")) args in
  match words with
  | [input; output] =>
      let path := runner_path exe_path runner in
      if str_eqb input output || str_eqb (chars (fst path)) output then Overlap
      else match rom2exe (fs (chars (fst path))) (fs input) can_create room with
           | Ok (Exit code out) => release path code out
           | Ok Stuck => OutOfFuel
           | Fault f => Crashes f None
           end
  | _ => Usage
  end.
