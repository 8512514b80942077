(** What a run of the assembler leaves on the disk. *)
From Verif Require Import Base AsmModel FrontModel MainModel.
Open Scope list_scope.

(** The three files of a program, None for a file that does not exist.  A new
    file has no bytes. *)
Definition disk : Type := out -> option content.
Definition same_out (a b : out) : bool :=
  match a, b with Rom, Rom | Sym, Sym | Dbg, Dbg => true | _, _ => false end.
Definition set_file (d : disk) (f : out) (c : content) : disk := fun g => if same_out f g then Some c else d g.
Definition step (d : disk) (a : act) : disk :=
  match a with
  | AOpen f => set_file d f (Bytes [])
  | AWrite f c => set_file d f c
  | _ => d
  end.
Definition after (d : disk) (l : list act) : disk := fold_left step l d.

(** Every file that is opened is closed once, and written in between only. *)
Inductive orderly : list out -> list act -> Prop :=
| O_end : orderly [] []
| O_open open f l : ~ In f open -> orderly (f :: open) l -> orderly open (AOpen f :: l)
| O_write open f c l : In f open -> orderly open l -> orderly open (AWrite f c :: l)
| O_close before f rest l : orderly (before ++ rest) l -> orderly (before ++ f :: rest) (AClose f :: l)
| O_complain open l : orderly open l -> orderly open (AComplain :: l)
| O_info open l : orderly open l -> orderly open (AInfo :: l).
