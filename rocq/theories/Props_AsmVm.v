(** Property C44: what the assembler makes of jumps and calls, run by the VM.

    The state [x] of the interpreter loop (VmModel) has the ROM in its memory,
    and its pc is at the token.  [alone] says that no other token puts a byte at
    the same place. *)
From Verif Require Import Base AsmModel AsmSound AsmRun AsmSpec AsmWords AsmProg AsmFacts AsmAddr Props_Asm.
From Verif Require VmModel VmSpec VmProofs VmStep Props_VM.
From Coq Require Import ZifyBool Ascii String.
Open Scope list_scope.
Ltac Zify.zify_post_hook ::= Z.div_mod_to_equations.

Import VmSpec(mkStack, mkMachine, depth, cell, wst, rst, ram, ip, stack_eq, machine_eq).

Definition holds {W} (evs : list event) (x : VmModel.st W) : Prop :=
  forall a v, rom evs a = Some v -> VmModel.vm_mem (VmModel.s_vm W x) a = v.
(** The byte on top of the working stack. *)
Definition top {W} (x : VmModel.st W) : Z :=
  VmModel.vm_ws (VmModel.s_vm W x) ((VmModel.s_wsp W x - 1) mod 256).
(** JMP2r, as subroutines end, executed at any place with this return stack,
    continues at [a] with [d] bytes on the return stack. *)
Definition returns_to {W} dei deo hi_first (x : VmModel.st W) (a d : Z) : Prop :=
  forall y, VmProofs.wf_st W y -> VmStep.opcode_at W y = 108 -> stack_eq (rst (VmProofs.abs W y)) (rst (VmProofs.abs W x)) ->
  exists y', VmModel.step W dei deo hi_first y = Ok (true, y') /\ VmModel.s_pc W y' = a /\ VmModel.s_rsp W y' = d.

Lemma vm_step W dei deo hi (x : VmModel.st W) op : VmProofs.wf_st W x -> VmStep.opcode_at W x = op -> op <> 0 ->
  op mod 32 <> 22 -> op mod 32 <> 23 -> op mod 32 <> 26 ->
  exists x', VmModel.step W dei deo hi x = Ok (true, x') /\ machine_eq (VmProofs.abs W x') (VmSpec.spec_step op (VmProofs.abs W x)) /\ VmProofs.wf_st W x'.
Proof.
  intros WF E N1 N2 N3 N4. destruct (Props_VM.C01_instruction_semantics W dei deo hi x WF) as (x' & S & M & _ & _ & WF').
  - unfold VmSpec.is_brk. congruence.
  - unfold VmSpec.is_device_op. rewrite E. tauto.
  - intros (H & _). rewrite E in H. contradiction.
  - exists x'. rewrite E in M. auto.
Qed.

(** The stack after pushing. *)
Lemma place_top s s0 bs k : stack_eq s (VmSpec.place s0 (depth s0) bs) -> 0 <= depth s0 < 256 -> Z.of_nat (List.length bs) <= 256 ->
  1 <= k <= Z.of_nat (List.length bs) ->
  cell s ((depth s - k) mod 256) = nth (List.length bs - Z.to_nat k) bs 0.
Proof.
  intros [D C] R L K. rewrite C by (apply Z.mod_pos_bound; lia). rewrite D. cbn [VmSpec.place depth cell].
  set (n := Z.of_nat (List.length bs)) in *.
  assert (E : ((((depth s0 + n) mod 256 - k) mod 256) - depth s0) mod 256 = n - k).
  { rewrite (Zminus_mod_idemp_l (depth s0 + n) k 256), Zminus_mod_idemp_l.
    replace (depth s0 + n - k - depth s0) with (n - k) by lia. apply Z.mod_small. lia. }
  rewrite E. destruct (Z.ltb_spec (n - k) n); [|lia]. f_equal. lia.
Qed.
Lemma place_below s s0 bs k : stack_eq s (VmSpec.place s0 (depth s0) bs) -> 0 <= depth s0 < 256 ->
  Z.of_nat (List.length bs) < k <= 256 ->
  cell s ((depth s - k) mod 256) = cell s0 ((depth s0 + Z.of_nat (List.length bs) - k) mod 256).
Proof.
  intros [D C] R K. rewrite C by (apply Z.mod_pos_bound; lia). rewrite D. cbn [VmSpec.place depth cell].
  set (n := Z.of_nat (List.length bs)) in *.
  assert (E1 : ((depth s0 + n) mod 256 - k) mod 256 = (depth s0 + n - k) mod 256) by (apply Zminus_mod_idemp_l).
  rewrite E1.
  assert (E : ((depth s0 + n - k) mod 256 - depth s0) mod 256 = (n - k) mod 256) by (rewrite Zminus_mod_idemp_l; f_equal; lia).
  rewrite E. assert ((n - k) mod 256 >= n) by lia. destruct (Z.ltb_spec ((n - k) mod 256) n); [lia|reflexivity].
Qed.

Lemma pushed_short s s0 v : stack_eq s (VmSpec.place s0 (depth s0) [(v / 256) mod 256; v mod 256]) -> 0 <= depth s0 < 256 -> 0 <= v < 65536 ->
  VmSpec.peek (cell s) 256 (depth s - 2) 2 = v /\ (depth s - 2) mod 256 = depth s0.
Proof.
  intros E R V.
  assert (P2 : cell s ((depth s - 2) mod 256) = (v / 256) mod 256) by exact (place_top _ _ _ 2 E R ltac:(cbn; lia) ltac:(cbn; lia)).
  assert (P1 : cell s ((depth s - 1) mod 256) = v mod 256) by exact (place_top _ _ _ 1 E R ltac:(cbn; lia) ltac:(cbn; lia)).
  unfold VmSpec.peek. change (2 =? 2) with true. cbv iota. replace (depth s - 2 + 1) with (depth s - 1) by lia. rewrite P1, P2. split; [lia|].
  destruct E as [D _]. rewrite D. cbn [VmSpec.place depth List.length]. lia.
Qed.

Lemma returns W dei deo hi (x : VmModel.st W) s0 v : stack_eq (rst (VmProofs.abs W x)) (VmSpec.place s0 (depth s0) [(v / 256) mod 256; v mod 256]) ->
  0 <= depth s0 < 256 -> 0 <= v < 65536 -> returns_to dei deo hi x v (depth s0).
Proof.
  intros E R V y WF O E'. destruct (vm_step W dei deo hi y 108 WF O ltac:(vm_compute; discriminate) ltac:(vm_compute; discriminate) ltac:(vm_compute; discriminate) ltac:(vm_compute; discriminate)) as (y' & S & M & _).
  exists y'. split; auto. destruct M as (_ & [M2 _] & _ & _ & M5).
  assert (E2 : stack_eq (rst (VmProofs.abs W y)) (VmSpec.place s0 (depth s0) [(v / 256) mod 256; v mod 256])).
  { destruct E as [A B], E' as [A' B']. split; [congruence|]. intros i I. rewrite B' by auto. auto. }
  destruct (pushed_short _ _ _ E2 R V) as [P1 P2]. split.
  - change (VmModel.s_pc W y') with (ip (VmProofs.abs W y')). rewrite M5. exact P1.
  - change (VmModel.s_rsp W y') with (depth (rst (VmProofs.abs W y'))). rewrite M2.
    change (((depth (rst (VmProofs.abs W y)) - 2) mod 256 + 0) mod 256 = depth s0). rewrite Z.add_0_r, Zmod_mod. exact P2.
Qed.

(** What the ROM says about the three bytes of an immediate instruction. *)
Lemma immediate_bytes fs file evs l2 o l1 v r l (W : Type) (x : VmModel.st W) : assembles fs file true evs -> trace evs = l2 ++ o :: l1 ->
  refers_to evs l2 o l1 (Some v) Far l -> is_short l ->
  (forall i, 0 <= i <= 2 -> alone l2 o l1 (o_addr o + i)) -> holds evs x -> VmModel.s_pc W x = o_addr o ->
  r = VmProofs.abs W x ->
  VmStep.opcode_at W x = v /\ (ip r + 1 + 2 + VmSpec.peek (ram r) 65536 (ip r + 1) 2) mod 65536 = l /\
  256 <= o_addr o /\ o_addr o + 3 <= 65536.
Proof.
  intros A T (B1 & B2 & B3 & bs & E & B4) L AL H PC ->. cbn [lead AsmSpec.width] in *.
  assert (X0 : rom evs (o_addr o) = Some v).
  { apply B3; auto. specialize (AL 0 ltac:(lia)). rewrite Z.add_0_r in AL. exact AL. }
  cbn [encode] in E. injection E as <-. set (d := (l - (o_addr o + 1 + 2)) mod 65536) in *.
  assert (X1 : rom evs (o_addr o + 1) = Some (d / 256)).
  { pose proof (B4 0%nat _ eq_refl) as Y. change (Z.of_nat 0) with 0 in Y. rewrite Z.add_0_r in Y. apply Y. apply AL. lia. }
  assert (X2 : rom evs (o_addr o + 2) = Some (d mod 256)).
  { pose proof (B4 1%nat _ eq_refl) as Y. change (Z.of_nat 1) with 1 in Y. replace (o_addr o + 1 + 1) with (o_addr o + 2) in Y by lia. apply Y. apply AL. lia. }
  apply H in X0, X1, X2. split; [unfold VmStep.opcode_at; rewrite PC; exact X0|]. split; [|lia].
  cbn [VmProofs.abs ip ram]. rewrite PC. unfold VmSpec.peek. change (2 =? 2) with true. cbv iota.
  rewrite (Z.mod_small (o_addr o + 1)) by lia. replace (o_addr o + 1 + 1) with (o_addr o + 2) by lia. rewrite (Z.mod_small (o_addr o + 2)) by lia.
  rewrite X1, X2. unfold is_short in L. assert (0 <= d < 65536) by (unfold d; lia).
  replace (256 * (d / 256) + d mod 256) with d by lia. unfold d. rewrite Zplus_mod_idemp_r. 
  replace (o_addr o + 1 + 2 + (l - (o_addr o + 1 + 2))) with l by lia. apply Z.mod_small. lia.
Qed.

Lemma points_short fs file evs l2 o l1 r l : assembles fs file true evs -> trace evs = l2 ++ o :: l1 -> points_to l2 o l1 r l -> is_short l.
Proof.
  intros A T P. destruct P as [l4 d l3 _ _ E _ _|l4 d l3 _ E _ _|l4 d l3 _ E _ _]; eapply success_addr; eauto; rewrite T.
  - rewrite E. apply in_or_app. right. left. auto.
  - rewrite E. apply in_or_app. left. apply in_or_app. right. left. auto.
  - rewrite E. apply in_or_app. right. right. apply in_or_app. right. left. auto.
Qed.

(** "!r" jumps to what r points to, ... *)
Theorem C44_jump fs file evs l2 o l1 r : assembles fs file true evs -> trace evs = l2 ++ o :: l1 -> o_lex o = chr "!" :: r ->
  (forall i, 0 <= i <= 2 -> alone l2 o l1 (o_addr o + i)) ->
  exists l, points_to l2 o l1 r l /\
  forall W dei deo hi_first (x : VmModel.st W), VmProofs.wf_st W x -> holds evs x -> VmModel.s_pc W x = o_addr o ->
  exists x', VmModel.step W dei deo hi_first x = Ok (true, x') /\ VmModel.s_pc W x' = l /\
    stack_eq (wst (VmProofs.abs W x')) (wst (VmProofs.abs W x)) /\ stack_eq (rst (VmProofs.abs W x')) (rst (VmProofs.abs W x)).
Proof.
  intros A T L AL. assert (WR : writes (macro_names l1) (o_lex o) (Some 64) Far r) by (rewrite L; constructor).
  destruct (C41_references _ _ _ _ _ _ _ _ _ A T WR) as (l & P & RF). exists l. split; auto.
  intros W dei deo hi x WF H PC. pose proof (points_short _ _ _ _ _ _ _ _ A T P) as SH.
  destruct (immediate_bytes _ _ _ _ _ _ _ _ _ W x A T RF SH AL H PC eq_refl) as (O & E & B1 & B2).
  destruct (vm_step W dei deo hi x 64 WF O ltac:(vm_compute; discriminate) ltac:(vm_compute; discriminate) ltac:(vm_compute; discriminate) ltac:(vm_compute; discriminate)) as (x' & S & M & _).
  exists x'. split; auto. destruct M as (M1 & M2 & _ & _ & M5). split; [|auto].
  change (VmModel.s_pc W x') with (ip (VmProofs.abs W x')). rewrite M5. exact E.
Qed.
Print Assumptions C44_jump.

(** ... "?r" does if the byte it takes from the stack is not zero, else it goes
    on behind the instruction, ... *)
Theorem C44_conditional_jump fs file evs l2 o l1 r : assembles fs file true evs -> trace evs = l2 ++ o :: l1 -> o_lex o = chr "?" :: r ->
  (forall i, 0 <= i <= 2 -> alone l2 o l1 (o_addr o + i)) ->
  exists l, points_to l2 o l1 r l /\
  forall W dei deo hi_first (x : VmModel.st W), VmProofs.wf_st W x -> holds evs x -> VmModel.s_pc W x = o_addr o ->
  exists x', VmModel.step W dei deo hi_first x = Ok (true, x') /\
    VmModel.s_pc W x' = (if top x =? 0 then (o_addr o + 3) mod 65536 else l) /\
    VmModel.s_wsp W x' = (VmModel.s_wsp W x - 1) mod 256.
Proof.
  intros A T L AL. assert (WR : writes (macro_names l1) (o_lex o) (Some 32) Far r) by (rewrite L; constructor).
  destruct (C41_references _ _ _ _ _ _ _ _ _ A T WR) as (l & P & RF). exists l. split; auto.
  intros W dei deo hi x WF H PC. pose proof (points_short _ _ _ _ _ _ _ _ A T P) as SH.
  destruct (immediate_bytes _ _ _ _ _ _ _ _ _ W x A T RF SH AL H PC eq_refl) as (O & E & B1 & B2).
  destruct (vm_step W dei deo hi x 32 WF O ltac:(vm_compute; discriminate) ltac:(vm_compute; discriminate) ltac:(vm_compute; discriminate) ltac:(vm_compute; discriminate)) as (x' & S & M & _).
  exists x'. split; auto. destruct M as ([M1 _] & _ & _ & _ & M5). split.
  - change (VmModel.s_pc W x') with (ip (VmProofs.abs W x')). rewrite M5.
    change (ip (VmSpec.spec_step 32 (VmProofs.abs W x))) with (if top x =? 0 then (VmModel.s_pc W x + 1 + 2) mod 65536 else 
      (ip (VmProofs.abs W x) + 1 + 2 + VmSpec.peek (ram (VmProofs.abs W x)) 65536 (ip (VmProofs.abs W x) + 1) 2) mod 65536).
    rewrite E, PC. replace (o_addr o + 1 + 2) with (o_addr o + 3) by lia. reflexivity.
  - change (VmModel.s_wsp W x') with (depth (wst (VmProofs.abs W x'))). rewrite M1.
    change (((VmModel.s_wsp W x - 1) mod 256 + 0) mod 256 = (VmModel.s_wsp W x - 1) mod 256). rewrite Z.add_0_r, Zmod_mod. reflexivity.
Qed.
Print Assumptions C44_conditional_jump.

(** ... and a name, "/name" or "{" alone calls it, and a JMP2r returns behind
    the instruction. *)
Theorem C44_call fs file evs l2 o l1 r : assembles fs file true evs -> trace evs = l2 ++ o :: l1 ->
  writes (macro_names l1) (o_lex o) (Some 96) Far r ->
  (forall i, 0 <= i <= 2 -> alone l2 o l1 (o_addr o + i)) ->
  exists l, points_to l2 o l1 r l /\
  forall W dei deo hi_first (x : VmModel.st W), VmProofs.wf_st W x -> holds evs x -> VmModel.s_pc W x = o_addr o ->
  exists x', VmModel.step W dei deo hi_first x = Ok (true, x') /\ VmModel.s_pc W x' = l /\
    stack_eq (wst (VmProofs.abs W x')) (wst (VmProofs.abs W x)) /\
    returns_to dei deo hi_first x' ((o_addr o + 3) mod 65536) (VmModel.s_rsp W x).
Proof.
  intros A T WR AL.
  destruct (C41_references _ _ _ _ _ _ _ _ _ A T WR) as (l & P & RF). exists l. split; auto.
  intros W dei deo hi x WF H PC. pose proof (points_short _ _ _ _ _ _ _ _ A T P) as SH.
  destruct (immediate_bytes _ _ _ _ _ _ _ _ _ W x A T RF SH AL H PC eq_refl) as (O & E & B1 & B2).
  destruct (vm_step W dei deo hi x 96 WF O ltac:(vm_compute; discriminate) ltac:(vm_compute; discriminate) ltac:(vm_compute; discriminate) ltac:(vm_compute; discriminate)) as (x' & S & M & _).
  exists x'. split; auto. destruct M as (M1 & M2 & _ & _ & M5). split; [|split; auto].
  - change (VmModel.s_pc W x') with (ip (VmProofs.abs W x')). rewrite M5. exact E.
  - pose proof (VmProofs.wfs_rsp _ _ WF) as RB.
    apply (returns W dei deo hi x' (rst (VmProofs.abs W x))); [|exact RB|lia].
    assert (E2 : rst (VmSpec.spec_step 96 (VmProofs.abs W x)) =
      VmSpec.place (rst (VmProofs.abs W x)) (depth (rst (VmProofs.abs W x))) [((VmModel.s_pc W x + 1 + 2) / 256) mod 256; (VmModel.s_pc W x + 1 + 2) mod 256]) by reflexivity.
    rewrite E2 in M2. rewrite PC in M2.
    replace (((o_addr o + 3) mod 65536) / 256 mod 256) with ((o_addr o + 1 + 2) / 256 mod 256) by lia.
    replace (((o_addr o + 3) mod 65536) mod 256) with ((o_addr o + 1 + 2) mod 256) by lia. exact M2.
Qed.
Print Assumptions C44_call.

(** ** An address as a literal, then a jump *)
(** The literal is pushed. *)
Lemma literal_step W dei deo hi (x : VmModel.st W) (short : bool) : VmProofs.wf_st W x ->
  VmStep.opcode_at W x = (if short then 160 else 128) ->
  let v := VmSpec.peek (ram (VmProofs.abs W x)) 65536 (VmModel.s_pc W x + 1) (if short then 2 else 1) in
  exists x1, VmModel.step W dei deo hi x = Ok (true, x1) /\ VmProofs.wf_st W x1 /\
    VmModel.s_pc W x1 = (VmModel.s_pc W x + (if short then 3 else 2)) mod 65536 /\
    (forall i, VmModel.vm_mem (VmModel.s_vm W x1) i = VmModel.vm_mem (VmModel.s_vm W x) i) /\
    stack_eq (wst (VmProofs.abs W x1)) (VmSpec.place (wst (VmProofs.abs W x)) (depth (wst (VmProofs.abs W x)))
       (if short then [(v / 256) mod 256; v mod 256] else [v mod 256])) /\
    stack_eq (rst (VmProofs.abs W x1)) (rst (VmProofs.abs W x)).
Proof.
  intros WF O v. destruct short.
  - destruct (vm_step W dei deo hi x 160 WF O ltac:(vm_compute; discriminate) ltac:(vm_compute; discriminate) ltac:(vm_compute; discriminate) ltac:(vm_compute; discriminate)) as (x1 & S & (M1 & M2 & M3 & _ & M5) & WF').
    exists x1. split; auto. split; auto. split; [|split; [exact M3|split; [exact M1|exact M2]]].
    change (VmModel.s_pc W x1) with (ip (VmProofs.abs W x1)). rewrite M5. change ((VmModel.s_pc W x + 1 + 2) mod 65536 = (VmModel.s_pc W x + 3) mod 65536). f_equal. lia.
  - destruct (vm_step W dei deo hi x 128 WF O ltac:(vm_compute; discriminate) ltac:(vm_compute; discriminate) ltac:(vm_compute; discriminate) ltac:(vm_compute; discriminate)) as (x1 & S & (M1 & M2 & M3 & _ & M5) & WF').
    exists x1. split; auto. split; auto. split; [|split; [exact M3|split; [exact M1|exact M2]]].
    change (VmModel.s_pc W x1) with (ip (VmProofs.abs W x1)). rewrite M5. change ((VmModel.s_pc W x + 1 + 1) mod 65536 = (VmModel.s_pc W x + 2) mod 65536). f_equal. lia.
Qed.

(** Where the jump at the end goes. *)
Definition JUMP : list string := ["JMP"; "JCN"; "JSR"]%string.
Definition suffix (short : bool) : str := if short then bytes "2" else [].
Inductive jumps_by {W} dei deo hi_first (x x2 : VmModel.st W) (next l : Z) : str -> Prop :=
| by_jump : VmModel.s_pc W x2 = l -> VmModel.s_wsp W x2 = VmModel.s_wsp W x -> jumps_by dei deo hi_first x x2 next l (bytes "JMP")
| by_condition : VmModel.s_pc W x2 = (if top x =? 0 then next else l) -> VmModel.s_wsp W x2 = (VmModel.s_wsp W x - 1) mod 256 ->
    jumps_by dei deo hi_first x x2 next l (bytes "JCN")
| by_call : VmModel.s_pc W x2 = l -> VmModel.s_wsp W x2 = VmModel.s_wsp W x -> returns_to dei deo hi_first x2 next (VmModel.s_rsp W x) ->
    jumps_by dei deo hi_first x x2 next l (bytes "JSR").

Lemma jump_step W dei deo hi (x x1 : VmModel.st W) (short : bool) v (l : Z) name :
  In name (map bytes JUMP) ->
  VmProofs.wf_st W x1 -> is_byte (VmModel.s_wsp W x) -> is_byte (VmModel.s_rsp W x) ->
  (if short then 0 <= v < 65536 else 0 <= v < 256) ->
  stack_eq (wst (VmProofs.abs W x1)) (VmSpec.place (wst (VmProofs.abs W x)) (depth (wst (VmProofs.abs W x)))
       (if short then [(v / 256) mod 256; v mod 256] else [v mod 256])) ->
  stack_eq (rst (VmProofs.abs W x1)) (rst (VmProofs.abs W x)) ->
  mnemonic (name ++ suffix short) = Some (VmStep.opcode_at W x1) ->
  let next := (VmModel.s_pc W x1 + 1) mod 65536 in
  VmSpec.target short next v = l ->
  exists x2, VmModel.step W dei deo hi x1 = Ok (true, x2) /\ jumps_by dei deo hi x x2 next l name.
Proof.
  intros IN WF B B2 V ST RS MN next TG. set (n := if short then 2 else 1).
  assert (DX : 0 <= depth (wst (VmProofs.abs W x)) < 256) by exact B.
  (* the operands *)
  assert (P : VmSpec.peek (cell (wst (VmProofs.abs W x1))) 256 (depth (wst (VmProofs.abs W x1)) - n) n = v /\
              (depth (wst (VmProofs.abs W x1)) - n) mod 256 = depth (wst (VmProofs.abs W x))).
  { destruct short; [apply pushed_short; auto|]. unfold n, VmSpec.peek. change (1 =? 2) with false. cbv iota. split.
    - rewrite (place_top _ _ _ 1 ST DX) by (cbn; lia). cbn [List.length Z.to_nat Pos.to_nat Pos.iter_op Nat.sub nth]. apply Z.mod_small. lia.
    - destruct ST as [D _]. rewrite D. cbn [VmSpec.place depth List.length]. lia. }
  assert (Q : VmSpec.peek (cell (wst (VmProofs.abs W x1))) 256 (depth (wst (VmProofs.abs W x1)) - (n + 1)) 1 = top x).
  { unfold VmSpec.peek. change (1 =? 2) with false. cbv iota.
    rewrite (place_below _ _ _ (n + 1) ST DX) by (unfold n; destruct short; cbn; lia).
    unfold top. change (VmModel.s_wsp W x) with (depth (wst (VmProofs.abs W x))).
    replace (depth (wst (VmProofs.abs W x)) + Z.of_nat (List.length (if short then [(v / 256) mod 256; v mod 256] else [v mod 256])) - (n + 1))
      with (depth (wst (VmProofs.abs W x)) - 1) by (unfold n; destruct short; cbn [List.length]; lia). reflexivity. }
  destruct P as [P1 P2].
  set (st1 := wst (VmProofs.abs W x1)) in *.
  assert (DR : 0 <= depth (rst (VmProofs.abs W x)) < 256) by exact B2.
  assert (NX : 0 <= next < 65536) by (unfold next; lia).
  assert (GO : forall o, VmSpec.goto (VmSpec.reference o short next (ram (VmProofs.abs W x1)) (VmSpec.operands st1 (VmSpec.operand_widths o short))) =
     match o with VmModel.JMP | VmModel.JSR => l | VmModel.JCN => if top x =? 0 then next else l | _ => VmSpec.goto (VmSpec.reference o short next (ram (VmProofs.abs W x1)) (VmSpec.operands st1 (VmSpec.operand_widths o short))) end).
  { intros o. destruct o; auto; unfold VmSpec.operands; cbn [VmSpec.operand_widths VmSpec.operands_at VmSpec.total fold_right VmSpec.reference VmSpec.goto].
    - change (VmSpec.width short) with n. rewrite Z.add_0_r, P1. exact TG.
    - change (VmSpec.width short) with n. rewrite Z.add_0_r. replace (1 + n) with (n + 1) by lia. rewrite Q.
      replace (depth st1 - (n + 1 - 1)) with (depth st1 - n) by lia. rewrite P1, TG. reflexivity.
    - change (VmSpec.width short) with n. rewrite Z.add_0_r, P1. exact TG. }
  assert (PL : forall s k, VmSpec.place s (k mod 256) [] = mkStack ((k mod 256 + 0) mod 256) (cell (VmSpec.place s (k mod 256) []))) by reflexivity.
  destruct IN as [<-|[<-|[<-|[]]]].
  - assert (OP : VmStep.opcode_at W x1 = if short then 44 else 12) by (assert (K : mnemonic (bytes "JMP" ++ suffix short) = Some (if short then 44 else 12)) by (destruct short; reflexivity); rewrite K in MN; injection MN; auto).
    destruct (vm_step W dei deo hi x1 (if short then 44 else 12) WF OP) as (x2 & S & (M1 & M2 & _ & _ & M5) & _); [destruct short; vm_compute; discriminate..|].
    assert (SP : VmSpec.spec_step (if short then 44 else 12) (VmProofs.abs W x1) = VmSpec.spec_poly VmModel.JMP false false short (VmProofs.abs W x1)) by (destruct short; reflexivity).
    rewrite SP in *. exists x2. split; auto. apply by_jump.
    + exact (eq_trans M5 (GO VmModel.JMP)).
    + destruct M1 as [M1 _]. refine (eq_trans M1 _).
      change (((depth st1 - (n + 0)) mod 256 + 0) mod 256 = depth (wst (VmProofs.abs W x))). rewrite !Z.add_0_r, Zmod_mod. exact P2.
  - assert (OP : VmStep.opcode_at W x1 = if short then 45 else 13) by (assert (K : mnemonic (bytes "JCN" ++ suffix short) = Some (if short then 45 else 13)) by (destruct short; reflexivity); rewrite K in MN; injection MN; auto).
    destruct (vm_step W dei deo hi x1 (if short then 45 else 13) WF OP) as (x2 & S & (M1 & M2 & _ & _ & M5) & _); [destruct short; vm_compute; discriminate..|].
    assert (SP : VmSpec.spec_step (if short then 45 else 13) (VmProofs.abs W x1) = VmSpec.spec_poly VmModel.JCN false false short (VmProofs.abs W x1)) by (destruct short; reflexivity).
    rewrite SP in *. exists x2. split; auto. apply by_condition.
    + exact (eq_trans M5 (GO VmModel.JCN)).
    + destruct M1 as [M1 _]. refine (eq_trans M1 _).
      change (((depth st1 - (1 + (n + 0))) mod 256 + 0) mod 256 = (depth (wst (VmProofs.abs W x)) - 1) mod 256). rewrite !Z.add_0_r, Zmod_mod.
      rewrite <- P2, Zminus_mod_idemp_l. f_equal. lia.
  - assert (OP : VmStep.opcode_at W x1 = if short then 46 else 14) by (assert (K : mnemonic (bytes "JSR" ++ suffix short) = Some (if short then 46 else 14)) by (destruct short; reflexivity); rewrite K in MN; injection MN; auto).
    destruct (vm_step W dei deo hi x1 (if short then 46 else 14) WF OP) as (x2 & S & (M1 & M2 & _ & _ & M5) & _); [destruct short; vm_compute; discriminate..|].
    assert (SP : VmSpec.spec_step (if short then 46 else 14) (VmProofs.abs W x1) = VmSpec.spec_poly VmModel.JSR false false short (VmProofs.abs W x1)) by (destruct short; reflexivity).
    rewrite SP in *. exists x2. split; auto. apply by_call.
    + exact (eq_trans M5 (GO VmModel.JSR)).
    + destruct M1 as [M1 _]. refine (eq_trans M1 _).
      change (((depth st1 - (n + 0)) mod 256 + 0) mod 256 = depth (wst (VmProofs.abs W x))). rewrite !Z.add_0_r, Zmod_mod. exact P2.
    + apply (returns W dei deo hi x2 (rst (VmProofs.abs W x))); auto.
      assert (M2' : stack_eq (rst (VmProofs.abs W x2)) (VmSpec.place (rst (VmProofs.abs W x1)) (depth (rst (VmProofs.abs W x1))) [(next / 256) mod 256; next mod 256])) by exact M2.
      destruct M2' as [D1 D2], RS as [R1 R2]. rewrite R1 in *. split; [exact D1|]. intros i I. rewrite D2 by auto. cbn [VmSpec.place cell].
      destruct (_ <? _); auto.
Qed.

(** ",r JMP", ";r JMP2" and so on: the two tokens after one another. *)
Theorem C44_literal_jumps fs file evs l2 j o l1 (short : bool) r name : assembles fs file true evs -> trace evs = l2 ++ j :: o :: l1 ->
  o_lex o = (if short then chr ";" else chr ",") :: r -> In name (map bytes JUMP) -> o_lex j = name ++ suffix short ->
  (forall i, 0 <= i <= (if short then 2 else 1) -> alone (l2 ++ [j]) o l1 (o_addr o + i)) -> alone l2 j (o :: l1) (o_addr j) ->
  exists l, points_to (l2 ++ [j]) o l1 r l /\
  forall W dei deo hi_first (x : VmModel.st W), VmProofs.wf_st W x -> holds evs x -> VmModel.s_pc W x = o_addr o ->
  exists x1 x2, VmModel.step W dei deo hi_first x = Ok (true, x1) /\ VmModel.step W dei deo hi_first x1 = Ok (true, x2) /\
    jumps_by dei deo hi_first x x2 ((o_addr j + 1) mod 65536) l name.
Proof.
  intros A T L IN LJ AL AJ.
  assert (T' : trace evs = (l2 ++ [j]) ++ o :: l1) by (rewrite T, <- app_assoc; reflexivity).
  assert (WR : writes (macro_names l1) (o_lex o) (Some (if short then 160 else 128)) (if short then Whole else Near) r) by (rewrite L; destruct short; constructor).
  destruct (C41_references _ _ _ _ _ _ _ _ _ A T' WR) as (l & P & RF). exists l. split; auto.
  pose proof (points_short _ _ _ _ _ _ _ _ A T' P) as SH.
  pose proof (success_next _ _ _ _ _ _ _ _ _ _ A T WR) as NX.
  assert (SJ : is_short (o_addr j)).
  { eapply success_addr; eauto. rewrite T. apply in_or_app. right. left. auto. }
  intros W dei deo hi x WF H PC.
  destruct RF as (B1 & B2 & B3 & bs & E & B4).
  assert (X0 : rom evs (o_addr o) = Some (if short then 160 else 128)).
  { apply B3; auto. specialize (AL 0 ltac:(destruct short; lia)). rewrite Z.add_0_r in AL. exact AL. }
  assert (MN : mnemonic (o_lex j) <> None).
  { rewrite LJ. destruct IN as [<-|[<-|[<-|[]]]]; destruct short; vm_compute; discriminate. }
  destruct (mnemonic (o_lex j)) as [op|] eqn:EM; [|congruence].
  pose proof (C42_encoding _ _ _ _ _ _ _ A T EM AJ) as XJ.
  assert (O0 : VmStep.opcode_at W x = if short then 160 else 128) by (unfold VmStep.opcode_at; rewrite PC; apply H; exact X0).
  destruct (literal_step W dei deo hi x short WF O0) as (x1 & S1 & WF1 & PC1 & MEM & ST1 & RS1). exists x1.
  assert (PJ : VmModel.s_pc W x1 = o_addr j).
  { rewrite PC1, PC, NX. destruct short; cbn [lead AsmSpec.width]; f_equal; lia. }
  assert (OJ : VmStep.opcode_at W x1 = op).
  { unfold VmStep.opcode_at. rewrite MEM, PJ. apply H. exact XJ. }
  set (v := VmSpec.peek _ _ _ _) in ST1.
  pose proof (VmProofs.wfs_wsp _ _ WF) as BW. pose proof (VmProofs.wfs_rsp _ _ WF) as BR.
  assert (VT : (if short then 0 <= v < 65536 else 0 <= v < 256) /\ VmSpec.target short ((VmModel.s_pc W x1 + 1) mod 65536) v = l).
  { unfold v. cbn [VmProofs.abs ram]. rewrite PC, PJ. unfold is_short in SH, SJ. destruct short; cbn [lead AsmSpec.width] in *.
    - cbn [encode] in E. injection E as <-.
      assert (X1 : VmModel.vm_mem (VmModel.s_vm W x) (o_addr o + 1) = l / 256).
      { apply H. pose proof (B4 0%nat _ eq_refl) as Y. change (Z.of_nat 0) with 0 in Y. rewrite Z.add_0_r in Y. apply Y. apply AL. lia. }
      assert (X2 : VmModel.vm_mem (VmModel.s_vm W x) (o_addr o + 2) = l mod 256).
      { apply H. pose proof (B4 1%nat _ eq_refl) as Y. change (Z.of_nat 1) with 1 in Y. replace (o_addr o + 1 + 1) with (o_addr o + 2) in Y by lia. apply Y. apply AL. lia. }
      unfold VmSpec.peek. change (2 =? 2) with true. cbv iota. rewrite (Z.mod_small (o_addr o + 1)) by lia.
      replace (o_addr o + 1 + 1) with (o_addr o + 2) by lia. rewrite (Z.mod_small (o_addr o + 2)) by lia. rewrite X1, X2.
      unfold VmSpec.target. lia.
    - cbn [encode] in E. destruct (_ && _) eqn:RG; [|discriminate]. injection E as <-. set (d := l - (o_addr o + 1 + 2)) in *.
      assert (X1 : VmModel.vm_mem (VmModel.s_vm W x) (o_addr o + 1) = d mod 256).
      { apply H. pose proof (B4 0%nat _ eq_refl) as Y. change (Z.of_nat 0) with 0 in Y. rewrite Z.add_0_r in Y. apply Y. apply AL. lia. }
      unfold VmSpec.peek. change (1 =? 2) with false. cbv iota. rewrite (Z.mod_small (o_addr o + 1)) by lia. rewrite X1. split; [lia|].
      unfold VmSpec.target, VmSpec.signed. rewrite NX. rewrite Zplus_mod_idemp_l.
      assert (SG : (if d mod 256 <? 128 then d mod 256 else d mod 256 - 256) = d) by (destruct (Z.ltb_spec (d mod 256) 128); lia).
      rewrite SG, <- Z.add_assoc, Zplus_mod_idemp_l. replace (o_addr o + 1 + 1 + (1 + d)) with l by (unfold d; lia). apply Z.mod_small. lia. }
  destruct VT as [V1 V2].
  rewrite <- PJ.
  destruct (jump_step W dei deo hi x x1 short v l name IN WF1 BW BR V1 ST1 RS1) as (x2 & S2 & J).
  - rewrite <- LJ, OJ. exact EM.
  - exact V2.
  - exists x2. auto.
Qed.
Print Assumptions C44_literal_jumps.

(** A program with several of them, and the program counters of its run. *)
Definition C44_source : str := bytes "!main @sub ,&back JMP &back JMP2r @main sub #01 ?on BRK @on #00 ;main JCN2 {  JMP2r } BRK".
Definition C44_vm : VmModel.st (list Z) :=
  Props_VM.ex_st 0 [] (map (fun i => match rom (evs_of C44_source) (256 + Z.of_nat i) with Some v => v | None => 0 end) (seq 0 40)).
Fixpoint pcs (n : nat) (x : VmModel.st (list Z)) : list Z :=
  match n with
  | O => []
  | S n' => VmModel.s_pc _ x :: match Props_VM.ex_step x with Ok (true, x') => pcs n' x' | _ => [] end
  end.
Example C44_case :
  assembles (Props_Asm.one C44_source) (bytes "a") true (evs_of C44_source) /\
  map (fun o => (o_lex o, o_addr o)) (filter (fun o => hd 0 (o_lex o) =? 64) (trace (evs_of C44_source))) =
    [(bytes "@on", 272); (bytes "@main", 263); (bytes "@sub", 259)] /\
  VmProofs.wf_st _ C44_vm /\
  pcs 14 C44_vm = [256; 263; 259; 261; 262; 266; 268; 272; 274; 277; 278; 282].
Proof.
  split; [assembled|]. split; [vm_compute; reflexivity|]. split; [|vm_compute; reflexivity].
  unfold C44_vm. apply Props_VM.ex_wf; [unfold is_byte; lia|constructor|].
  assert (H : forallb (fun v => (0 <=? v) && (v <? 256)) (map (fun i => match rom (evs_of C44_source) (256 + Z.of_nat i) with Some v => v | None => 0 end) (seq 0 40)) = true) by (vm_compute; reflexivity).
  rewrite forallb_forall in H. apply Forall_forall. intros v I. apply H in I. unfold is_byte. lia.
Qed.
