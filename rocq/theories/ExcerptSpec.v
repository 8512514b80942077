(** What the excerpt of a source line under a report should look like. *)
From Verif Require Import Base AsmModel.
Open Scope list_scope.

(** A character: its bytes and its code point. *)
Definition char : Type := list Z * Z.
Definition bytes_of (l : list char) : list Z := List.concat (map fst l).

(** The decoder knows the character, whatever comes after it. *)
Definition is_char (iterate : list Z -> Z * Z) (x : char) : Prop :=
  fst x <> [] /\ forall l, iterate (fst x ++ l) = (len (fst x), snd x).

(** The columns that a text takes on the screen. *)
Definition columns (width : Z -> Z) (l : list char) : Z := fold_right (fun x n => width (snd x) + n) 0 l.

(** Blanks of the same size: a tab below a tab, spaces below all else. *)
Definition space_below (width : Z -> Z) (l : list char) : list Z :=
  flat_map (fun x => if snd x =? 9 then [9] else repeat 32 (Z.to_nat (width (snd x)))) l.

(** The line below a line of which the part [marked] comes after [before]: the
    marks take the same columns as that part, and start with a caret. *)
Definition underlined (width : Z -> Z) (before marked : list char) : list Z :=
  space_below width before ++ 94 :: repeat 126 (Z.to_nat (columns width marked - 1)).

(** Ends of lines. *)
Definition newline (x : Z) : Prop := x = 10 \/ x = 13.

(** Characters of ASCII that take one column each. *)
Definition printable (x : Z) : Prop := 32 <= x < 127.
(** The decoder and the widths are right about ASCII. *)
Definition knows_ascii (iterate : list Z -> Z * Z) (width : Z -> Z) : Prop :=
  (forall x l, 0 <= x < 128 -> iterate (x :: l) = (1, x)) /\ (forall x, printable x -> width x = 1).
