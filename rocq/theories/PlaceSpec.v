(** Places in a source text: what the positions in symbols and reports should
    be.  Nothing here depends on how the assembler counts. *)
From Verif Require Import Base AsmModel.
Open Scope list_scope.

(** The number of newlines in a text. *)
Definition newlines (l : list Z) : Z := Z.of_nat (count_occ Z.eq_dec l 10).

(** [before] is the text up to the position [p]: [lines] are the complete lines
    and [cur] is what comes after them.  Lines and columns count from 1, bytes
    from 0. *)
Definition ends_at (before : list Z) (p : pos) : Prop :=
  exists lines cur, before = lines ++ cur /\ (lines = [] \/ exists l, lines = l ++ [10]) /\ ~ In 10 cur /\
    line p = 1 + newlines lines /\ col p = 1 + len cur /\ byte p = len before.

(** A position in the text [c]. *)
Definition is_place (c : list Z) (p : pos) : Prop := exists before after, c = before ++ after /\ ends_at before p.

(** The part of the text [c] that a region covers. *)
Definition text (c : list Z) (r : region) : list Z :=
  firstn (Z.to_nat (byte (r_end r) - byte (r_start r))) (skipn (Z.to_nat (byte (r_start r))) c).

(** The region is a part of the file that it names. *)
Definition region_in (fs : files) (r : region) (c : list Z) : Prop :=
  find_file fs (r_file r) = Some c /\ is_place c (r_start r) /\ is_place c (r_end r) /\ byte (r_start r) <= byte (r_end r).

(** Files of bytes, read without errors, that end their lines with a newline
    only. *)
Definition plain (fs : files) : Prop := forall path c, find_file fs path = Some c -> Forall (fun x => 0 <= x < 256 /\ x <> 13) c.

(** A file contains the character. *)
Definition occurs (fs : files) (x : Z) : Prop := exists path c, find_file fs path = Some c /\ In x c.
