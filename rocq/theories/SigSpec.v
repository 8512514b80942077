(** What the comments after a label or an opcode say: the vocabulary of C89 and
    C90; nothing here is a part of the model. *)
From Verif Require Import Base VmModel AsmModel ChessModel ValueSpec.
From Coq Require Import ZifyBool String.
Open Scope list_scope.

(** The words of a comment that are not the name of a value. *)
Definition dot : str := bytes ".".
Definition bang : str := bytes "!".
Definition to_caller : str := bytes "--".
Definition to_vector : str := bytes "->".
Definition is_name (w : str) : Prop := w <> dot /\ w <> bang /\ w <> to_caller /\ w <> to_vector.

(** At most eight names. *)
Definition names (l : list str) : Prop := (List.length l <= 8)%nat /\ Forall is_name l.
(** The text of the values on both stacks: [w], or [w . r]. *)
Definition both (text w r : list str) : Prop := names w /\ names r /\ (text = w /\ r = [] \/ text = w ++ [dot] ++ r).
(** The characters of the words, with one more for each. *)
Fixpoint text_size (l : list str) : Z := match l with [] => 0 | w :: l => Z.of_nat (List.length w) + 1 + text_size l end.

(** A signature: [w . r -- w' . r'], with an arrow for a vector, and a mark at
    the end if it is to be trusted. *)
Definition is_signature (text w r w' r' : list str) (vector trusted : bool) : Prop :=
  exists ins outs, both ins w r /\ both outs w' r' /\
    text = ins ++ [if vector then to_vector else to_caller] ++ outs ++ (if trusted then [bang] else []) /\
    text_size ins <= 528.
(** A cast: [w . r !]. *)
Definition is_cast (text w r : list str) : Prop :=
  exists ins, both ins w r /\ text = ins ++ [bang] /\ text_size ins <= 528.

(** What a name says of the value: a star at the end is a short, brackets are
    an address, a capital letter in front makes it a type. *)
Definition last_is (c : Z) (w : str) : Prop := exists b, w = b ++ [c].
Definition reads_as (w : str) (v : value) : Prop :=
  exists base inner (short address : bool),
    w = inner ++ (if short then [42] else []) /\ (short = false -> ~ last_is 42 w) /\
    inner = (if address then [91] ++ base ++ [93] else base) /\ (address = false -> ~ exists b, inner = [91] ++ b ++ [93]) /\
    let type := match w with c :: _ => (65 <=? c) && (c <=? 90) | [] => false end in
    v = mkV short false address false false type false false false (if type then base else []) None 0.

(** A comment in the stream of the assembler: an opening parenthesis, the
    words at the first level, the closing parenthesis. *)
Definition comment_word (id : Z) (w : str) (e : event) : Prop :=
  match e with ESym _ s => s_type s = SComment /\ s_id s = id /\ s_name s = Some w | _ => False end.
Definition is_comment (text : list str) (evs : list event) : Prop :=
  exists o ws c, evs = o :: ws ++ [c] /\ comment_word 0 (bytes "(") o /\ Forall2 (comment_word 1) text ws /\ comment_word 1 (bytes ")") c /\
    Forall (fun w => w <> bytes ")" /\ (1 <= List.length w <= 255)%nat) text.

(** A value is an address to return to. *)
Definition return_address : value := mkV true false true true false false false false false [] None 0.
(** The names of the parts of the text are what the signature has. *)
Definition says (w r w' r' : list str) (vector : bool) (s : signature) : Prop :=
  Forall2 reads_as w (g_win s) /\ Forall2 reads_as r (g_rin s) /\ Forall2 reads_as w' (g_wout s) /\ Forall2 reads_as r' (g_rout s) /\
  g_type s = if vector then Vector else Subroutine.
(** The analysis of the routine at [a] starts with the inputs on the stacks, the
    last ones on top; a routine that returns has the address to return to
    under them. *)
Definition starts_as (e : entry) (a : Z) (s : signature) : Prop :=
  e_info e = a /\ e_address e = a /\ vals (e_wst e) = rev (g_win s) /\
  vals (e_rst e) = rev ((match g_type s with Subroutine => [return_address] | Vector => [] end) ++ g_rin s).
