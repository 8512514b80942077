(** What the type checker says about the values that a routine is given and
    those it leaves.  This is the vocabulary of C92; nothing here is a part of
    the model. *)
From Verif Require Import Base VmModel AsmModel ChessModel ChessProofs ValueSpec.
From Coq Require Import ZifyBool.
Open Scope list_scope.
Ltac Zify.zify_post_hook ::= Z.div_mod_to_equations.

(** A value of the named type [Suit/Heart] can be used where [Suit/] is asked
    for.  What a routine leaves may also have no named type: it gets one there. *)
Definition fits (leaving : bool) (want got : value) : Prop :=
  (v_nom got = true /\ exists t, v_type got = v_type want ++ t) \/ (leaving = true /\ v_nom got = false).
(** [l] is the report [r] if [P] holds, and nothing if not. *)
Definition said (P : Prop) (r : report) (l : list report) : Prop := (P /\ l = [r]) \/ (~ P /\ l = []).
(** What is said about one value. *)
Definition complaint (leaving : bool) (want got : value) (l : list report) : Prop :=
  exists a b c, l = a ++ b ++ c /\
    said (v_addr want = true /\ v_addr got = false /\ v_const got = false) (RWarning WNotAddress) a /\
    said (v_rout want = true /\ v_rout got = false) (RError CNotRoutine) b /\
    said (v_nom want = true /\ ~ fits leaving want got) (RError CNotAssignable) c.
(** What is said about all of them, from the top of the stack down. *)
Inductive complaints (leaving : bool) : list value -> list value -> list report -> Prop :=
| complain_end : complaints leaving [] [] []
| complain_next w g l ws gs m :
    complaint leaving w g l -> complaints leaving ws gs m -> complaints leaving (w :: ws) (g :: gs) (l ++ m).
(** There is an error among the reports. *)
Definition error_in (l : list report) : Prop := exists m, In (RError m) l.
(** The values have the sizes that are asked for. *)
Definition same_sizes (want got : list value) : Prop := Forall2 (fun w g => v_short w = v_short g) want got.
(** A stack knows how many bytes are on it. *)
Definition sized (k : stack) : Prop := k_size k = width (vals k).
(** Both stacks are looked at, the working stack first; after an error the other
    one is not. *)
Definition both (leaving : bool) (ww wr gw gr : list value) (l : list report) : Prop :=
  exists lw lr, l = lw ++ lr /\ complaints leaving ww gw lw /\ (~ error_in lw /\ complaints leaving wr gr lr \/ error_in lw /\ lr = []).

(** The checker is about to look at the opcode [op], to which no cast belongs. *)
Definition at_opcode (x : ctx) (op : Z) : Prop :=
  256 <= x_pc x < 65536 /\ h_rom (x_h x) (x_pc x) = op /\ h_casts (x_h x) (x_pc x) = None /\
  exists y, h_syms (x_h x) (x_pc x) = Some y /\ y_type y = SOpcode.
(** The two bytes that follow are one reference to the address [t]. *)
Definition refers_to (x : ctx) (t : Z) : Prop :=
  x_pc x <= 65532 /\
  (exists y z, h_syms (x_h x) (x_pc x + 1) = Some y /\ h_syms (x_h x) (x_pc x + 2) = Some z /\ y_id y = y_id z /\ y_type y = SLabelRef) /\
  is_byte (h_rom (x_h x) (x_pc x + 1)) /\ is_byte (h_rom (x_h x) (x_pc x + 2)) /\
  t = (x_pc x + 3 + 256 * h_rom (x_h x) (x_pc x + 1) + h_rom (x_h x) (x_pc x + 2)) mod 65536.
(** There is a routine with this signature at [t]. *)
Definition signed (x : ctx) (t : Z) (sig : signature) : Prop := exists m e f, h_infos (x_h x) t = Some (mkInfo true (Some sig) m e f).
(** The routine that is being analysed has this signature. *)
Definition within (x : ctx) (sig : signature) : Prop := signed x (x_info x) sig.
Definition sizes_known (x : ctx) : Prop := sized (x_w x) /\ sized (x_r x).
(** The mark of the caller: the address a routine returns to. *)
Definition return_mark (v : value) : Prop := v_short v = true /\ v_addr v = true /\ v_ret v = true.
