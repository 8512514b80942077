(** When a run of the machine stays in the code of one vector, and what is asked
    of the analysis of this vector.  This is the vocabulary of C91; nothing here
    is a part of the model. *)
From Verif Require Import Base VmModel AsmModel ChessModel ValueSpec.
From Coq Require Import ZifyBool.
Open Scope list_scope.
Ltac Zify.zify_post_hook ::= Z.div_mod_to_equations.

(** A routine with a signature starts at this address. *)
Definition routine_at (h : chess) (a : Z) : Prop :=
  exists sig m t e, h_infos h a = Some (mkInfo true (Some sig) m t e).
(** The checker sets out to look at the routine at [a], and this is its signature. *)
Definition routine_with (h : chess) (a : Z) (sig : signature) : Prop :=
  In (entry_of a sig) (h_list h) /\ exists m t e, h_infos h a = Some (mkInfo true (Some sig) m t e).
(** The values a signature takes and leaves on a stack; [true] is the return stack. *)
Definition taken (r : bool) (sig : signature) : list value := if r then g_rin sig else g_win sig.
Definition leaves (r : bool) (sig : signature) : list value := if r then g_rout sig else g_wout sig.

(** ** The machine *)
Section Runs.
Variable W : Type.
Variable dei : Z -> vm -> W -> res (Z * vm * W).
Variable deo : Z -> vm -> W -> res (vm * W).
Variable hi_first : bool.
(** The opcode at which the machine is, and the two bytes after it, are those of
    the program: it has not changed this part of its own code. *)
Definition in_code (rom : Z -> Z) (s : st W) : Prop :=
  0 <= s_pc W s < 65536 /\
  forall i, 0 <= i <= 2 -> vm_mem (s_vm W s) ((s_pc W s + i) mod 65536) = rom ((s_pc W s + i) mod 65536)
    /\ is_byte (vm_mem (s_vm W s) ((s_pc W s + i) mod 65536)).
(** An instruction moves a stack pointer by less than 128 bytes: this is by how many. *)
Definition shifted (a b : Z) : Z := (b - a + 128) mod 256 - 128.
(** [run rom R s0 d0 n s d]: [n] instructions after [s0] the machine is at [s].
    It was in the code of the program all the time and did not come to an
    address of [R].  [d] is how many bytes there are on each stack if there are
    [d0] at the start; nothing wraps here. *)
Inductive run (rom : Z -> Z) (R : Z -> Prop) (s0 : st W) (d0 : bool -> Z) : nat -> st W -> (bool -> Z) -> Prop :=
| run_start : in_code rom s0 -> run rom R s0 d0 0 s0 d0
| run_step n s d s' :
    run rom R s0 d0 n s d -> VmModel.step W dei deo hi_first s = Ok (true, s') ->
    in_code rom s' -> ~ R (s_pc W s') ->
    run rom R s0 d0 (S n) s' (fun r => d r + shifted (pointer r s) (pointer r s')).
End Runs.

(** ** The analysis *)
(** [seen h a k x]: after [k] steps of the analysis that starts with [h] the
    checker is at [x], on a path of the routine at [a] that goes on. *)
Definition seen (h : chess) (a : Z) (k : nat) (x : ctx) : Prop :=
  csteps k (Idle h) = Running x /\ x_term x = false /\ x_info x = a.
(** [y] is where the checker is after the opcode, before a cast that follows it. *)
Definition opcode_alone (x y : ctx) : Prop :=
  exists l, dispatch (h_rom (x_h x) (x_pc x)) = Some l /\ run_label l (fetch_op (h_rom (x_h x) (x_pc x)) x) = COk (tt, y).
(** On this path the constants have the range of their size, halves belong to
    shorts that are still there and the stacks have room.  If there is a cast
    after the opcode, the path is not at its end before it, and the constants
    have their range there too. *)
Definition tidy (x : ctx) : Prop :=
  all_values in_range x /\ all_values (half_ok (x_h x)) x /\
  (forall r, width (vals (astack r x)) <= 249 /\ k_size (astack r x) <= 249) /\
  (h_casts (x_h x) (x_pc x) = None \/ forall y, opcode_alone x y -> x_term y = false /\ all_values in_range y).
(** [k2] says no more than [k1]: the same sizes, and a constant only where [k1]
    has the same. *)
Definition looser (k1 k2 : ChessModel.stack) : Prop :=
  k_size k2 = k_size k1 /\
  Forall2 (fun v w => v_short w = v_short v /\ (v_const w = true -> v_const v = true /\ v_val v = v_val w)) (vals k1) (vals k2).
(** The checker does not follow a jump a second time.  A loop is looked at well
    enough if the checker has been at the same place, on a path that goes on,
    knowing no more than when it comes back. *)
Definition repeats_covered (h : chess) (a : Z) : Prop :=
  forall k x x' l, seen h a k x -> exec_op x = COk (tt, x') -> h_reports (x_h x') = h_reports (x_h x) ++ l -> In RRepeat l ->
    exists k2 y, seen h a k2 y /\ x_pc y = x_pc x' /\ forall r, looser (astack r x') (astack r y).
