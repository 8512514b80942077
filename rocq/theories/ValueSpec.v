(** When the abstract stacks of the type checker are right about a machine.
    This is the vocabulary of C87 and C88; nothing here is a part of the model. *)
From Verif Require Import Base VmModel AsmModel ChessModel.
From Coq Require Import ZifyBool.
Open Scope list_scope.
Ltac Zify.zify_post_hook ::= Z.div_mod_to_equations.

(** The values on a stack of the checker, from the top down. *)
Definition vals (k : stack) : list value :=
  map (fun i => k_at k (k_len k - 1 - Z.of_nat i)) (seq 0 (Z.to_nat (k_len k))).
(** The bytes they stand for. *)
Fixpoint width (l : list value) : Z := match l with [] => 0 | v :: l => vsize v + width l end.

(** [v] is right about what is below the stack pointer [sp] in the cells [f] of
    a machine: if it is a constant, the machine holds this constant there. *)
Definition right_at (v : value) (f : arr) (sp : Z) : Prop :=
  v_const v = true ->
  if v_short v then v_val v = 256 * f ((sp - 2) mod 256) + f ((sp - 1) mod 256)
  else v_val v mod 256 = f ((sp - 1) mod 256).
(** All values of a stack are right, each at its place. *)
Fixpoint right_about (l : list value) (f : arr) (sp : Z) : Prop :=
  match l with
  | [] => True
  | v :: l => right_at v f sp /\ right_about l f (sp - vsize v)
  end.

(** The constant has the range of its size. *)
Definition in_range (v : value) : Prop := v_const v = true -> 0 <= v_val v < (if v_short v then 65536 else 256).

(** A value that is the upper or the lower half of a short refers to the short
    it was cut from; this short is still there, and this is its half. *)
Definition half_ok (h : chess) (v : value) : Prop :=
  v_hi v = true \/ v_lo v = true ->
  v_short v = false /\ v_hi v && v_lo v = false /\
  forall n, v_whole v = Some n ->
    n < h_next h /\ ~ In n (h_pool h) /\
    v_short (h_node h n) = true /\ v_hi (h_node h n) = false /\ v_lo (h_node h n) = false /\
    (v_const (h_node h n) = true -> 0 <= v_val (h_node h n) < 65536 /\ v_const v = true /\
       v_val v = if v_hi v then v_val (h_node h n) / 256 else v_val (h_node h n) mod 256).
(** No value is a half. *)
Definition whole (v : value) : Prop := v_hi v = false /\ v_lo v = false.

Section Machine.
Variable W : Type.
Definition cells (r : bool) (s : st W) : arr := if r then vm_rs (s_vm W s) else vm_ws (s_vm W s).
Definition pointer (r : bool) (s : st W) : Z := if r then s_rsp W s else s_wsp W s.
Definition astack (r : bool) (x : ctx) : stack := if r then x_r x else x_w x.

(** The checker is right about the machine: it is at the same opcode and all its
    constants, on both stacks, are what the machine holds. *)
Definition right (x : ctx) (s : st W) : Prop :=
  x_pc x = s_pc W s /\ forall r, right_about (vals (astack r x)) (cells r s) (pointer r s).
(** The same for an entry of the list of paths that are still to be taken. *)
Definition right_entry (e : entry) (s : st W) : Prop :=
  e_address e = s_pc W s /\
  right_about (vals (e_wst e)) (cells false s) (pointer false s) /\
  right_about (vals (e_rst e)) (cells true s) (pointer true s).

Definition all_values (P : value -> Prop) (x : ctx) : Prop := forall r, Forall P (vals (astack r x)).

(** The stacks of a machine hold bytes. *)
Definition byte_cells (s : st W) : Prop := forall r i, is_byte (cells r s i).
(** The machine runs the program the checker looks at: the opcode and the two
    bytes after it are those of the program. *)
Definition same_code (x : ctx) (s : st W) : Prop :=
  0 <= s_pc W s < 65536 /\ forall i, 0 <= i <= 2 -> vm_mem (s_vm W s) ((s_pc W s + i) mod 65536) = h_rom (x_h x) ((s_pc W s + i) mod 65536)
    /\ is_byte (vm_mem (s_vm W s) ((s_pc W s + i) mod 65536)).
(** The address is the start of a routine with a signature: there the checker
    looks at the signature instead of going on. *)
Definition is_routine (x : ctx) (a : Z) : Prop :=
  exists sig m t e, h_infos (x_h x) a = Some (mkInfo true (Some sig) m t e).
End Machine.
Arguments cells {W} _ _. Arguments pointer {W} _ _. Arguments right {W} _ _. Arguments right_entry {W} _ _.
Arguments byte_cells {W} _. Arguments same_code {W} _ _.
