(** What the interactive assembler shows: the vocabulary of C95 to C97; nothing
    here is a part of the model except the values that it is given. *)
From Verif Require Import Base VmModel AsmModel ChessModel SigSpec ReplModel.
From Coq Require Import ZifyBool String.
Open Scope list_scope.

(** Two hexadecimal digits. *)
Definition two_digits (alphabet : str) (b : Z) (s : str) : Prop :=
  exists i j c d, nth_error alphabet i = Some c /\ nth_error alphabet j = Some d /\ s = [c; d] /\ b = 16 * Z.of_nat i + Z.of_nat j.
Definition low_hex : str := bytes "0123456789abcdef".
Definition up_hex : str := bytes "0123456789ABCDEF".

(** The bytes of a stack, from the bottom, cut into the values on it. *)
Inductive fields : list Z -> list shown -> list str -> Prop :=
| fields_nil : fields [] [] []
| fields_byte : forall v b s bs l ss, n_short v = false -> two_digits low_hex b s -> fields bs l ss -> fields (b :: bs) (v :: l) (s :: ss)
| fields_short : forall v hi lo s t bs l ss, n_short v = true -> two_digits low_hex hi s -> two_digits low_hex lo t -> fields bs l ss ->
    fields (hi :: lo :: bs) (v :: l) ((s ++ t) :: ss).
(** A text with blanks in front of it, at least [n] long. *)
Definition right_aligned (n : Z) (s t : str) : Prop :=
  exists k, t = repeat 32 k ++ s /\ Z.of_nat (List.length t) = Z.max n (Z.of_nat (List.length s)).
(** The name of a value as it is written in a program. *)
Definition word_of (v : shown) : str :=
  (if n_addr v then bytes "[" else []) ++ n_name v ++ (if n_addr v then bytes "]" else []) ++ (if n_short v then bytes "*" else []).
Definition least (v : shown) : Z := if n_short v then 4 else 2.
(** A row of the table: a bar before each field and one at the end. *)
Definition row (l : list str) : str := List.concat (map (fun s => bytes "|" ++ s) l) ++ bytes "|" ++ [10].
(** The [n] bytes of a stack. *)
Definition stack_bytes (a : arr) (n : nat) : list Z := map (fun i => a (Z.of_nat i)) (seq 0 n).
Fixpoint width (l : list shown) : Z := match l with [] => 0 | v :: l => (if n_short v then 2 else 1) + width l end.
(** Names that fit: a blank and the name have less than 256 characters. *)
Definition fits (v : shown) : Prop := (List.length (word_of v) <= 254)%nat.

(** The words of a text with one blank between them. *)
Definition spaced (l : list str) : str := match l with [] => [] | w :: l => w ++ List.concat (map (fun s => bytes " " ++ s) l) end.
(** A name of a value that can be written: it has neither a star at the end nor
    brackets around it, which are put there for shorts and addresses, and it is
    not one of the signs of a signature. *)
Definition plain (v : shown) : Prop :=
  ~ last_is 42 (n_name v) /\ (forall b, n_name v <> [91] ++ b ++ [93]) /\ is_name (word_of v).
Definition carried (v : shown) (x : value) : Prop := v_short x = n_short v /\ v_addr x = n_addr v /\ v_const x = false.
(** The characters of the values of a stack in the text. *)
Fixpoint characters (l : list shown) : Z := match l with [] => 0 | v :: l => 1 + Z.of_nat (List.length (word_of v)) + characters l end.
