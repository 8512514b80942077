(** Which labels and macros of a program are unused, read off the symbols that
    the assembler reports and the tokens that it handles. *)
From Verif Require Import Base AsmModel.
Open Scope list_scope.

(** The name that a reference stands for: "&name" and "/name" are labels inside
    the label of the scope. *)
Definition full_name (scope ref : str) : str :=
  match ref with
  | c :: l => if (c =? 38) || (c =? 47) then scope ++ 47 :: l else ref
  | [] => []
  end.

(** The symbol [s] is that of the definition of the label or macro [n]. *)
Definition defines (s : symbol) (n : str) : Prop :=
  s_name s = Some n /\ (s_type s = SMacro \/ s_type s = SLabel /\ s_gen s = false).

(** The program refers to [n]: a symbol says so, or it is the operand of a
    padding, "|n" or "$n", for which there is no symbol. *)
Definition refers_to (evs : list event) (n : str) : Prop :=
  (exists a s, In (ESym a s) evs /\ (s_type s = SLabelRef \/ s_type s = SMacroRef) /\ s_name s = Some n) \/
  (exists scope a c ref, In (ETok scope a (c :: ref)) evs /\ (c = 124 \/ c = 36) /\ full_name scope ref = n).

(** Names that start with a capital letter, like those of devices, may be
    unused. *)
Definition capitalised (n : str) : Prop := exists c l, n = c :: l /\ 65 <= c <= 90.
