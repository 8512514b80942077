(** C51, C52, C59 to C63: the type checker (src/asm/chess.c).

    Vocabulary.  [evs] is the stream of calls the assembler makes;
    [type_check fuel evs] is the verdict of the checker on it.
    [checking evs x]: [x] is a state of the checker while it analyses [evs].
    In a state, [x_w] and [x_r] are the abstract stacks, [k_size] their size in
    bytes, [x_pc] the address of the next opcode, [x_term] whether the path has
    ended.  [vm_after]: the VM after some instructions. *)
From Verif Require Import Base VmModel VmSpec AsmModel AsmSpec Props_Asm Props_Front ChessModel ChessProofs ChessSize ChessDelta ChessJump ChessVm ChessReports.
From Coq Require Import ZifyBool String.
Open Scope list_scope.
Ltac Zify.zify_post_hook ::= Z.div_mod_to_equations.

Definition checking (evs : list event) (x : ctx) : Prop :=
  exists z n, read_symbols (reader0 (rom_of evs (fun _ => 0))) evs = Some z /\
    csteps n (Idle (add_reset (z_h z))) = Running x.

Lemma checking_ok evs x : checking evs x -> xok x.
Proof.
  intros (z & n & R & E). assert (Z : zok z) by (eapply zok_symbols; [apply zok_reader0|exact R]).
  assert (K : cok (csteps n (Idle (add_reset (z_h z))))).
  { apply cok_steps. cbn. apply hok_reset, Z. }
  rewrite E in K. exact K.
Qed.

(** ** C51 *)
(** The opcodes that set the program counter, and BRK. *)
Definition jumps (op : Z) : Prop := op = 32 \/ op = 64 \/ op = 96 \/ (op mod 32 = 12 \/ op mod 32 = 13 \/ op mod 32 = 14).
(** The checker follows a jump: it notes an arc (the pair of addresses) that it has not seen. *)
Definition follows (x x' : ctx) : Prop := exists key, h_jumps (x_h x) key = false /\ h_jumps (x_h x') key = true.

(** The widths in bytes of the operands of an opcode, from the reference of the VM. *)
Definition operand_bytes (op : Z) : Z :=
  if op =? 32 then 1 else if op mod 32 =? 0 then 0 else total (operand_widths (operation (op mod 32)) (flag op 32)).
Definition operand_stack (op : Z) (x : ctx) : ChessModel.stack := if (op mod 32 =? 0) then x_w x else if flag op 64 then x_r x else x_w x.

Definition kind_ok (e : label * Z) : bool :=
  let '(l, op) := e in
  match l with
  | BRK => op =? 0
  | JCI => op =? 32 | JMI => op =? 64 | JSI => op =? 96
  | LITop r s => (op mod 32 =? 0) && negb (op =? 0) && negb (op =? 32) && negb (op =? 64) && negb (op =? 96)
  | Poly b k r s =>
      negb (op mod 32 =? 0) && Bool.eqb (straight b) (negb ((op mod 32 =? 12) || (op mod 32 =? 13) || (op mod 32 =? 14)))
      && (takes b s =? total (operand_widths (operation (op mod 32)) (flag op 32)))
      && Bool.eqb r (flag op 64) 
  end.
Lemma dispatch_kind op l : dispatch op = Some l -> kind_ok (l, op) = true.
Proof.
  unfold dispatch. destruct (find _ _) as [[l' n]|] eqn:F; [|discriminate]. apply find_some in F as [I E].
  intros H. injection H as <-. cbn in E. apply Z.eqb_eq in E as <-.
  assert (A : forallb kind_ok dispatch_table = true) by (vm_compute; reflexivity).
  rewrite forallb_forall in A. apply A. exact I.
Qed.

(** One opcode with its casts. *)
Lemma exec_shift x u x' l : xok x -> x_term x = false -> exec_op x = COk (u, x') -> x_term x' = false ->
  dispatch (h_rom (x_h x) (x_pc x)) = Some l -> straight_label l = true \/ (jump_label l = true /\ arc x x') ->
  forall r, label_need (h_rom (x_h x) (x_pc x)) l (Stk (fk (h_rom (x_h x) (x_pc x))) r) <= size_of (Stk false r) x /\
    size_of (Stk false r) x' = u8 (size_of (Stk false r) x + label_delta (h_rom (x_h x) (x_pc x)) l (Stk false r)).
Proof.
  intros Hx T H T' D K. unfold exec_op, cbind, get_rom in H. destruct (x_pc x <? 256); [discriminate|].
  set (op := h_rom (x_h x) (x_pc x)) in *. cbv beta in H. destruct (is_code _); [|inj H; discriminate T'].
  rewrite D in H. unfold act in H at 1. cbv beta iota in H. set (y0 := fetch_op op x) in *.
  destruct (run_label l y0) as [[u1 y1]|] eqn:E1; [|discriminate].
  assert (X0 : xok y0) by (apply xok_fetch, Hx).
  assert (X1 : xok y1) by (eapply tr_label; eauto).
  assert (CO : ok_step (match h_casts (x_h x) (x_pc x) with Some c => apply_cast false (c_wst c) ;;; apply_cast true (c_rst c) | None => cret tt end)).
  { destruct (h_casts _ _); ok_tac. }
  assert (T1 : x_term y1 = false).
  { destruct (x_term y1) eqn:T1; auto. pose proof (CO _ _ _ (ok_own _ X1) H) as G. rewrite (g_term _ _ G T1) in T'. discriminate. }
  assert (O1 : x_op y1 = op).
  { pose proof (ok_label l _ _ _ (ok_own _ X0) E1) as G. rewrite (g_op _ _ G). reflexivity. }
  assert (CS : sh op (match h_casts (x_h x) (x_pc x) with Some c => apply_cast false (c_wst c) ;;; apply_cast true (c_rst c) | None => cret tt end) zero zero any).
  { destruct (h_casts (x_h x) (x_pc x)) as [c|] eqn:Ec; [|apply sh_rett]. destruct (ok_casts _ (ok_h _ Hx) _ _ Ec) as [D1 D2].
    apply sh_then; [apply sh_apply_cast, D1|intros; apply sh_apply_cast, D2|eapply tr_any, tr_apply_cast, D1|ok_tac|intros; ok_tac]. }
  destruct (CS _ _ _ X1 O1 T1 H T') as (_ & C2 & _ & C4).
  assert (S0 : forall k r, size_of (Stk k r) y0 = size_of (Stk false r) x) by (intros [] []; reflexivity).
  assert (R : (forall p, label_need op l p <= size_of p y0) /\ (forall p, size_of p y1 = u8 (size_of p y0 + label_delta op l p))).
  { destruct K as [S|[J A]].
    - destruct (sh_label op l S _ _ _ X0 eq_refl T E1 T1) as (A1 & A2 & _ & _). auto.
    - apply (sj_label op l J D _ _ _ X0 eq_refl T E1 T1). destruct A as (key & K1 & K2). exists key. split; [exact K1|].
      rewrite <- C4. exact K2. }
  destruct R as [R1 R2]. intros r. split.
  - rewrite <- (S0 (fk op) r). apply R1.
  - rewrite C2, R2, S0. unfold zero, u8. lia.
Qed.

Section Agree.
Variable W : Type.
Variable dei : Z -> vm -> W -> res (Z * vm * W).
Variable deo : Z -> vm -> W -> res (vm * W).
Variable hi_first : bool.
Hypothesis Q : quiet W dei deo.

Lemma moves_delta op l r : dispatch op = Some l -> label_moves l (Stk false r) = label_delta op l (Stk false r).
Proof.
  intros D. apply dispatch_flags in D. destruct l as [| | | |r1 s1|b k r1 s1]; cbn [label_moves label_delta]; try reflexivity.
  - unfold flags_ok in D. cbn [fst snd] in D. unfold lit_moves. replace r1 with (fr op) by (destruct r1, (fr op); easy).
    replace s1 with (f2 op) by (destruct s1, (f2 op), r1, (fr op); easy). reflexivity.
  - unfold flags_ok in D. cbn [fst snd] in D.
    assert (k = fk op /\ r1 = fr op /\ s1 = f2 op) as (-> & -> & ->).
    { destruct k, r1, s1, (fk op), (fr op), (f2 op); try discriminate D; auto. }
    unfold moves, delta, same_stack. cbn [shadow ret_stack]. destruct (fk op), (fr op), r; cbn; lia.
Qed.

Definition sp (r : bool) (s : st W) : Z := if r then s_rsp W s else s_wsp W s.
Definition size (r : bool) (x : ctx) : Z := k_size (if r then x_r x else x_w x).

(** The checker is at an opcode of a program, and the VM is at the same
    opcode, in any state (its stacks need not be those of the checker).  If the
    checker takes the opcode without an error that ends the path, and the opcode
    is no jump or a jump that the checker follows, then both stacks of the
    checker grow and shrink as those of the VM, modulo 256. *)
Theorem C51_depth_change_agrees evs x x' s s' :
  checking evs x -> x_term x = false -> exec_op x = COk (tt, x') -> x_term x' = false ->
  vm_mem (s_vm W s) (s_pc W s) = h_rom (x_h x) (x_pc x) ->
  VmModel.step W dei deo hi_first s = Ok (true, s') ->
  ~ jumps (vm_mem (s_vm W s) (s_pc W s)) \/ follows x x' ->
  forall r, (sp r s' - sp r s) mod 256 = (size r x' - size r x) mod 256.
Proof.
  intros C T E T' M S J r. pose proof (checking_ok _ _ C) as X.
  unfold VmModel.step, VmModel.bind, getpc, mem_read, setpc in S. unfold aget in S. destruct (in_bounds _ _) eqn:B; [|discriminate]. cbn [s_vm s_wsp s_rsp s_kwsp s_krsp s_pc s_w] in S.
  rewrite M in *. set (op := h_rom (x_h x) (x_pc x)) in *.
  destruct (dispatch op) as [l|] eqn:D; [|discriminate].
  pose proof (dispatch_kind _ _ D) as Kk.
  pose proof (exec_moves W dei deo hi_first Q _ _ _ _ S r) as V. rewrite (moves_delta op l r D) in V.
  assert (K : straight_label l = true \/ (jump_label l = true /\ arc x x')).
  { destruct l as [| | | |r1 s1|b k r1 s1]; cbn [straight_label jump_label].
    - discriminate S.
    - right. split; [reflexivity|]. destruct J as [J|J]; [|exact J]. exfalso. apply J. unfold kind_ok in Kk. unfold jumps. lia.
    - right. split; [reflexivity|]. destruct J as [J|J]; [|exact J]. exfalso. apply J. unfold kind_ok in Kk. unfold jumps. lia.
    - right. split; [reflexivity|]. destruct J as [J|J]; [|exact J]. exfalso. apply J. unfold kind_ok in Kk. unfold jumps. lia.
    - left; reflexivity.
    - destruct (straight b) eqn:Sb; [left; reflexivity|right]. split; [destruct b; try discriminate Sb; reflexivity|].
      destruct J as [J|J]; [|exact J]. exfalso. apply J. unfold kind_ok in Kk. rewrite Sb in Kk. unfold jumps. lia. }
  destruct (exec_shift x tt x' l X T E T' D K r) as [_ R]. fold op in R.
  pose proof (size_byte (Stk false r) x X). unfold size_of, is_byte, u8 in *.
  assert (P : forall y, ptr W (Stk false r) y = sp r y) by (intros; destruct r; reflexivity).
  rewrite !P in V. 
  assert (P' : forall y, k_size (get_stack (Stk false r) y) = size r y) by (intros; destruct r; reflexivity).
  rewrite !P' in R. change (sp r (mkSt W (s_vm W s) (s_wsp W s) (s_rsp W s) (s_kwsp W s) (s_krsp W s) (u16 (s_pc W s + 1)) (s_w W s))) with (sp r s) in V.
  lia.
Qed.
End Agree.
Print Assumptions C51_depth_change_agrees.

(** The opcode was taken, so its operands were there: the checker does not go
    past an opcode whose operands, by the reference of the VM, are not on its
    stack. *)
Lemma dispatch_byte op : is_byte op -> dispatch op <> None.
Proof.
  intros B. assert (A : forallb (fun n => match dispatch (Z.of_nat n) with Some _ => true | None => false end) (seq 0 256) = true) by (vm_compute; reflexivity).
  rewrite forallb_forall in A. specialize (A (Z.to_nat op)). unfold is_byte in B. rewrite Z2Nat.id in A by lia.
  destruct (dispatch op); [discriminate|]. intros _. discriminate A. apply in_seq. lia.
Qed.
Theorem C51_operands_present evs x x' :
  checking evs x -> x_term x = false -> exec_op x = COk (tt, x') -> x_term x' = false ->
  is_byte (h_rom (x_h x) (x_pc x)) ->
  ~ jumps (h_rom (x_h x) (x_pc x)) \/ follows x x' ->
  operand_bytes (h_rom (x_h x) (x_pc x)) <= k_size (operand_stack (h_rom (x_h x) (x_pc x)) x).
Proof.
  intros C T E T' B J. pose proof (checking_ok _ _ C) as X. set (op := h_rom (x_h x) (x_pc x)) in *.
  pose proof (size_byte (Stk false false) x X) as Bw. pose proof (size_byte (Stk false true) x X) as Br.
  unfold size_of, is_byte in Bw, Br. cbn [get_stack] in Bw, Br.
  destruct (dispatch op) as [l|] eqn:D; [|destruct (dispatch_byte op B D)].
  pose proof (dispatch_kind _ _ D) as Kk. pose proof (dispatch_flags _ _ D) as Kf.
  assert (O : op = 0 \/ op <> 0) by lia. destruct O as [O|O].
  { rewrite O. change (0 <= k_size (x_w x)). lia. }
  assert (K : straight_label l = true \/ (jump_label l = true /\ arc x x')).
  { destruct l as [| | | |r1 s1|b k r1 s1]; cbn [straight_label jump_label].
    - unfold kind_ok in Kk. lia.
    - right. split; [reflexivity|]. destruct J as [J|J]; [|exact J]. exfalso. apply J. unfold kind_ok in Kk. unfold jumps. lia.
    - right. split; [reflexivity|]. destruct J as [J|J]; [|exact J]. exfalso. apply J. unfold kind_ok in Kk. unfold jumps. lia.
    - right. split; [reflexivity|]. destruct J as [J|J]; [|exact J]. exfalso. apply J. unfold kind_ok in Kk. unfold jumps. lia.
    - left; reflexivity.
    - destruct (straight b) eqn:Sb; [left; reflexivity|right]. split; [destruct b; try discriminate Sb; reflexivity|].
      destruct J as [J|J]; [|exact J]. exfalso. apply J. unfold kind_ok in Kk. rewrite Sb in Kk. unfold jumps. lia. }
  pose proof (exec_shift x tt x' l X T E T' D K) as R. fold op in R.
  unfold kind_ok in Kk. destruct l as [| | | |r1 s1|b k r1 s1].
  - lia.
  - destruct (R false) as [R0 _]. assert (op = 32) as -> by lia. exact R0.
  - assert (op = 64) as -> by lia. change (0 <= k_size (x_w x)). lia.
  - assert (op = 96) as -> by lia. change (0 <= k_size (x_w x)). lia.
  - unfold operand_bytes, operand_stack. replace (op =? 32) with false by lia. replace (op mod 32 =? 0) with true by lia. lia.
  - assert (op mod 32 <> 0) by lia. unfold operand_bytes, operand_stack. replace (op =? 32) with false by lia. replace (op mod 32 =? 0) with false by lia.
    assert (takes b s1 = total (operand_widths (operation (op mod 32)) (flag op 32))) as <- by lia.
    assert (r1 = flag op 64) as <- by (destruct r1, (flag op 64); try reflexivity; cbn in Kk; lia).
    unfold flags_ok in Kf. cbn [fst snd] in Kf.
    assert (r1 = fr op /\ s1 = f2 op) as [Hr Hs] by (destruct k, r1, s1, (fk op), (fr op), (f2 op); try discriminate Kf; auto).
    destruct (R r1) as [R0 _]. cbn [label_need] in R0. unfold need in R0. rewrite <- Hr, <- Hs in R0.
    unfold at_ in R0. destruct (fk op), r1; exact R0.
Qed.
Print Assumptions C51_operands_present.

(** A state of the checker in the middle of a program, for which all this is
    not vacuous: it has one short on its stack and is about to swap its bytes. *)
Definition swap_evs : list event := evs_of (bytes "#1234 SWP POP2 BRK").
Definition is_running (c : config) : bool := match c with Running _ => true | _ => false end.
Definition state_after (n : nat) (evs : list event) : option ctx :=
  match read_symbols (reader0 (rom_of evs (fun _ => 0))) evs with
  | Some z => match csteps n (Idle (add_reset (z_h z))) with Running x => Some x | _ => None end
  | None => None
  end.
Lemma state_checking n evs x : state_after n evs = Some x -> checking evs x.
Proof.
  unfold state_after, checking. destruct (read_symbols _ evs) as [z|]; [|discriminate]. destruct (csteps n _) eqn:E; try discriminate.
  intros H. inversion H; subst. exists z, n. auto.
Qed.
Definition goes_on (x : ctx) : bool :=
  match exec_op x with COk (_, x') => negb (x_term x) && negb (x_term x') | CFault _ => false end.
Example C51_case : match state_after 2 swap_evs with
  | Some x => (h_rom (x_h x) (x_pc x) =? 4) && (size false x =? 2) && goes_on x
  | None => false end = true.
Proof. vm_compute. reflexivity. Qed.

(** ** C52 *)
(** [buxn_chess_push] reports an overflow exactly if the counter is 255 and the
    value is a short; otherwise the counter wraps. *)
Theorem C52_reported_only_at_255 evs x x' r v :
  checking evs x -> x_term x = false -> push_ex r v x = COk (tt, x') ->
  (h_reports (x_h x') = h_reports (x_h x) ++ [RError COverflow] <-> size r x = 255 /\ v_short v = true) /\
  (x_term x' = true <-> size r x = 255 /\ v_short v = true) /\
  (x_term x' = false -> (v_hi v || v_lo v = true -> v_short v = false) ->
    size r x' = (size r x + (if v_short v then 2 else 1)) mod 256).
Proof.
  intros C T H. pose proof (checking_ok _ _ C) as X. pose proof (size_byte (Stk false r) x X) as B. unfold size_of, is_byte in B.
  assert (P : forall y, k_size (get_stack (Stk false r) y) = size r y) by (intros; destruct r; reflexivity).
  unfold push_ex in H. rewrite T in H. rewrite !P in *. cbv zeta in H. unfold vsize in H.
  destruct (256 <? _) eqn:E; inj H.
  - assert (size r x = 255 /\ v_short v = true) as F by (destruct (v_short v); lia).
    split; [split; [auto|reflexivity]|]. split; [split; [auto|reflexivity]|]. intros K. discriminate K.
  - assert (~ (size r x = 255 /\ v_short v = true)) as F by (intros [F1 F2]; rewrite F2 in E; lia).
    assert (R : forall k, h_reports (x_h (set_stack (Stk false r) x k)) = h_reports (x_h x)) by (intros; destruct r; reflexivity).
    assert (S : forall k, x_term (set_stack (Stk false r) x k) = x_term x) by (intros; destruct r; reflexivity).
    rewrite R, S, T. split; [split|split; [split|]].
    + intros K. exfalso. apply (f_equal (@List.length report)) in K. rewrite app_length in K. cbn in K. lia.
    + intros K. destruct (F K).
    + discriminate.
    + intros K. destruct (F K).
    + intros _ V. assert (Q : forall k, size r (set_stack (Stk false r) x k) = k_size k) by (intros; destruct r; reflexivity).
      rewrite Q. unfold push_value, vsize. destruct (rejoins _ v) as [n|] eqn:J; cbn [k_size].
      * unfold rejoins in J. destruct (v_lo v) eqn:L; [|discriminate J]. rewrite V by (rewrite Bool.orb_true_r; reflexivity). unfold u8. rewrite P. reflexivity.
      * unfold u8. rewrite P. destruct (v_short v); reflexivity.
Qed.
Print Assumptions C52_reported_only_at_255.

(** So a value of one byte is never too much for the checker. *)
Corollary C52_byte_never_reported evs x x' r v :
  checking evs x -> x_term x = false -> v_short v = false -> push_ex r v x = COk (tt, x') ->
  h_reports (x_h x') = h_reports (x_h x).
Proof.
  intros C T S H. pose proof (size_byte (Stk false r) x (checking_ok _ _ C)) as B. unfold size_of, is_byte in B.
  unfold push_ex, vsize in H. rewrite T, S in H. replace (256 <? _) with false in H by lia. inj H. destruct r; reflexivity.
Qed.
Print Assumptions C52_byte_never_reported.

(** *** Runs of the VM from the start of a program *)
Section Runs.
Variable W : Type.
Variable dei : Z -> vm -> W -> res (Z * vm * W).
Variable deo : Z -> vm -> W -> res (vm * W).
Variable hi_first : bool.
(** An instruction moves a stack pointer by less than 128 bytes: this is by how many. *)
Definition moved (a b : Z) : Z := (b - a + 128) mod 256 - 128.
(** The state after [n] instructions, with the number of bytes on both stacks. *)
Fixpoint after (n : nat) (s : st W) (dw dr : Z) : option (st W * Z * Z) :=
  match n with
  | O => Some (s, dw, dr)
  | S n => match VmModel.step W dei deo hi_first s with
    | Ok (true, s') => after n s' (dw + moved (s_wsp W s) (s_wsp W s')) (dr + moved (s_rsp W s) (s_rsp W s'))
    | _ => None
    end
  end.
(** The bytes of the program in memory, everything else zero. *)
Definition boot (evs : list event) (w : W) : st W :=
  mkSt W (mkVm 0 0 (fun _ => 0) (fun _ => 0) (fun _ => 0) (byte_at evs) 65536) 0 0 0 0 256 w.
(** After [n] instructions there are [k] bytes on the working stack. *)
Definition holds (evs : list event) (w : W) (n : nat) (k : Z) : bool :=
  match after n (boot evs w) 0 0 with Some (_, dw, _) => dw =? k | None => false end.
(** After [n] instructions comes one that takes more bytes than there are. *)
Definition underflow_at (evs : list event) (w : W) (n : nat) : bool :=
  match after n (boot evs w) 0 0 with
  | Some (s, dw, dr) =>
      let op := vm_mem (s_vm W s) (s_pc W s) in
      (if negb (op mod 32 =? 0) && flag op 64 then dr else dw) <? operand_bytes op
  | None => false
  end.
End Runs.

(** The text assembles, and the checker returns true without a message other
    than the end of an analysis. *)
Definition passes (s : str) : Prop :=
  assembles (one s) (bytes "a") true (evs_of s) /\
  exists fuel l, type_check fuel (evs_of s) = Some (Verdict true l) /\ forallb (fun r => ends r || match r with RRepeat => true | _ => false end) l = true.
Ltac passing n := split; [assembled|exists n; eexists; split; [vm_compute; reflexivity|vm_compute; reflexivity]].

Fixpoint copies (n : nat) (s : str) : str := match n with O => [] | S n => s ++ copies n s end.
Definition many_shorts : str := copies 256 (bytes "#0000 ") ++ bytes "BRK".
(** A program that puts 512 bytes on the stack passes. *)
Theorem C52_overflow_unnoticed_refuted :
  passes many_shorts /\ forall W dei deo hi w, holds W dei deo hi (evs_of many_shorts) w 256 512 = true.
Proof.
  split; [passing 1000%nat|]. intros. vm_compute. reflexivity.
Qed.
Print Assumptions C52_overflow_unnoticed_refuted.
(** At 256 bytes the counter says 0 while the stack of the checker holds 128
    shorts; 128 bytes later the stack has more than 255 entries and its length
    wraps too.  Then the checker reads in front of its array. *)
Definition long_stack : str := copies 128 (bytes "#0000 ") ++ copies 128 (bytes "#00 ") ++ bytes "POP BRK".
Theorem C52_reads_outside_refuted :
  assembles (one long_stack) (bytes "a") true (evs_of long_stack) /\
  type_check 1000 (evs_of long_stack) = Some (VFault (CRead (-1))).
Proof. split; [assembled|vm_compute; reflexivity]. Qed.
Print Assumptions C52_reads_outside_refuted.

(** ** C59 *)
(** What one would like: a program that passes never takes a byte from an empty
    stack.  Three programs that pass and do. *)
Definition underflows (s : str) (n : nat) : Prop :=
  passes s /\ forall W dei deo hi w, underflow_at W dei deo hi (evs_of s) w n = true.
(** A jump is only followed once, even if it comes back with another stack: the
    second path, which has popped its byte, is not looked at. *)
Definition second_path : str := bytes "#05 #00 ?{ POP } !end @end POP BRK".
(** The return address of a routine is still one after INC2. *)
Definition wrong_return : str := bytes "go BRK @go ( -- ) INC2r JMP2r".
(** The sum of two bytes is not reduced to a byte. *)
Definition big_byte : str := bytes "#02 #ff INC JMP2 |0200 POP BRK |0300 BRK".
Theorem C59_passing_program_underflows_refuted :
  underflows second_path 5 /\ underflows wrong_return 3 /\ underflows big_byte 4.
Proof.
  split; [|split]; (split; [passing 200%nat|intros; vm_compute; reflexivity]).
Qed.
Print Assumptions C59_passing_program_underflows_refuted.

(** ** C60 *)
(** What one would like: the checker returns.  It does not on this program, of
    which it analyses the same five opcodes again and again. *)
Definition endless : str := bytes "@a/l ;a/l STH2 !go @go ( -- ) JMP2r".
Lemma csteps_plus n m c : csteps (n + m) c = csteps m (csteps n c).
Proof. revert c. induction n; cbn; auto. Qed.
Definition at_rest (c : config) : bool := match c with Finished _ | Broken _ => true | _ => false end.
Lemma rest_stays n c : at_rest c = true -> csteps n c = c.
Proof. destruct c; try discriminate; intros _; induction n; auto. Qed.
Definition endless_h : chess := Eval vm_compute in
  match state_after 1 (evs_of endless) with Some x => x_h x | None => chess_begin (fun _ => 0) end.
(** The state of the checker at the start of a round; the contents of the empty
    stacks and the last opcode are what the round before left. *)
Definition round_start (f g : Z -> value) (sw sr : ChessModel.stack) (op : Z) : config :=
  Running (mkCtx endless_h 256 (mkStk 0 0 f) (mkStk 0 0 g) sw sr [] 256 op false false false).
Definition in_round (c : config) : Prop := exists f g sw sr op, c = round_start f g sw sr op.
Lemma endless_round c : in_round c -> in_round (csteps 3 c).
Proof.
  intros (f & g & sw & sr & op & ->).
  match goal with |- in_round ?t => let r := eval vm_compute in t in assert (E : t = r) by (vm_compute; reflexivity) end.
  rewrite E. unfold in_round, round_start. do 5 eexists. reflexivity.
Qed.
Lemma endless_rounds k c : in_round c -> in_round (csteps (k * 3) c).
Proof.
  revert c. induction k; [auto|]. intros c H. cbn [Nat.mul]. rewrite csteps_plus. apply IHk, endless_round, H.
Qed.
Lemma Some_eq {A} (a b : A) : Some a = Some b -> a = b.
Proof. intros H. inversion H. reflexivity. Qed.
Theorem C60_checker_never_returns_refuted :
  assembles (one endless) (bytes "a") true (evs_of endless) /\
  forall fuel, type_check fuel (evs_of endless) = Some VOutOfFuel.
Proof.
  split; [assembled|]. intros fuel. unfold type_check.
  destruct (read_symbols (reader0 (rom_of (evs_of endless) (fun _ => 0))) (evs_of endless)) as [z|] eqn:R;
    [|exfalso; revert R; vm_compute; discriminate].
  assert (S : in_round (csteps 1 (Idle (add_reset (z_h z))))).
  { assert (E : Some (csteps 1 (Idle (add_reset (z_h z)))) =
      option_map (fun z => csteps 1 (Idle (add_reset (z_h z)))) (read_symbols (reader0 (rom_of (evs_of endless) (fun _ => 0))) (evs_of endless))) by (rewrite R; reflexivity).
    match type of E with _ = ?t => let r := eval vm_compute in t in assert (F : t = r) by (vm_compute; reflexivity) end.
    rewrite F in E. apply Some_eq in E. rewrite E. unfold in_round, round_start. do 5 eexists. reflexivity. }
  unfold chess_end. destruct (at_rest (csteps fuel (Idle (add_reset (z_h z))))) eqn:A.
  - exfalso. pose proof (endless_rounds fuel _ S) as K. rewrite <- csteps_plus in K.
    replace (1 + fuel * 3)%nat with (fuel + (1 + fuel * 2))%nat in K by lia. rewrite csteps_plus in K.
    rewrite rest_stays in K by exact A. destruct K as (f & g & sw & sr & op & K). rewrite K in A. discriminate.
  - destruct (csteps fuel _); try discriminate A; reflexivity.
Qed.
Print Assumptions C60_checker_never_returns_refuted.

(** ** C61 *)
(** What one would like: whatever the program, the checker stays inside its
    arrays and computes without signed overflow.  The first program makes
    it read the ROM at address 0; the array begins at address 256.  The second
    one multiplies 65535 by itself as an int. *)
Definition reads_before : str := bytes "#0000 STH2 @go ( -- ) JMP2r".
Definition multiplies : str := bytes "#ffff #ffff MUL2 POP2 BRK".
Theorem C61_undefined_behaviour_refuted :
  (assembles (one reads_before) (bytes "a") true (evs_of reads_before) /\
   type_check 100 (evs_of reads_before) = Some (VFault (CRead (-256)))) /\
  (assembles (one multiplies) (bytes "a") true (evs_of multiplies) /\
   type_check 100 (evs_of multiplies) = Some (VFault CIntOverflow)).
Proof. split; (split; [assembled|vm_compute; reflexivity]). Qed.
Print Assumptions C61_undefined_behaviour_refuted.

(** ** C62 *)
(** The end of the analysis of a routine is always announced as a failure,
    whatever the program and however the routine ends. *)
Theorem C62_trace_end_always_failure fuel evs b l e :
  type_check fuel evs = Some (Verdict b l) -> In (REnd e) l -> e = false.
Proof. intros H. apply (proj2 (type_check_fair _ _ _ _ H)). Qed.
Print Assumptions C62_trace_end_always_failure.
(** The same program, without a fault of any kind: the verdict is true and the trace says false. *)
Example C62_case : exists l, type_check 100 swap_evs = Some (Verdict true l) /\ In (REnd false) l.
Proof. eexists. split; [vm_compute; reflexivity|]. cbn. auto. Qed.

(** ** C63 *)
(** For every program on which the checker returns: it returns false exactly if
    it reported an error. *)
Theorem C63_failure_iff_error fuel evs b l : type_check fuel evs = Some (Verdict b l) ->
  (b = false <-> exists m, In (RError m) l).
Proof.
  intros H. destruct (type_check_fair _ _ _ _ H) as [-> _]. split.
  - intros E. destruct (existsb is_error l) eqn:X; [|discriminate]. apply existsb_exists in X as (r & I & Y).
    destruct r; try discriminate Y. eauto.
  - intros (m & I). replace (existsb is_error l) with true; [reflexivity|]. symmetry. apply existsb_exists. exists (RError m). auto.
Qed.
Print Assumptions C63_failure_iff_error.
(** Both happen. *)
Example C63_cases :
  (exists l, type_check 100 swap_evs = Some (Verdict true l)) /\
  (exists l, type_check 100 (evs_of (bytes "POP BRK")) = Some (Verdict false (RError CUnderflow :: l))).
Proof. split; eexists; vm_compute; reflexivity. Qed.
