(** Address wrap-around and reset. *)
From Verif Require Import Base VmModel VmSpec VmProofs VmStep VmRun.
From Coq Require Import ZifyBool.
Ltac Zify.zify_post_hook ::= Z.div_mod_to_equations.

(** The stack an opcode works on, and the numbers on top of a stack. *)
Definition here (op : Z) (m : machine) : stack := if flag op 64 then rst m else wst m.
Definition top_byte (q : stack) : Z := cell q ((depth q - 1) mod 256).
Definition top_short (q : stack) : Z :=
  256 * cell q ((depth q - 2) mod 256) + cell q ((depth q - 1) mod 256).
(** The number below the top byte / the top short. *)
Definition short_below (q : stack) (n : Z) : Z :=
  256 * cell q ((depth q - n - 2) mod 256) + cell q ((depth q - n - 1) mod 256).

(** [accesses op m a md]: opcode [op] in machine [m] addresses [a] in an
    address space of [md] bytes; zero page, relative and absolute forms start
    at opcode number [n]. *)
Definition accesses (n op : Z) (m : machine) (a md : Z) : Prop :=
  (op mod 32 = n /\ a = top_byte (here op m) /\ md = 256) \/
  (op mod 32 = n + 2 /\ a = ip m + 1 + signed (top_byte (here op m)) /\ md = 65536) \/
  (op mod 32 = n + 4 /\ a = top_short (here op m) /\ md = 65536).

Lemma top_short_place q d hi lo p :
  is_byte hi -> is_byte lo -> stack_eq p (place q d [hi; lo]) ->
  top_short p = 256 * hi + lo.
Proof.
  intros H1 H2 [E1 E2]. unfold top_short. rewrite !E2 by lia. rewrite E1.
  cbn [place depth cell length]. cbv zeta.
  change (Z.of_nat 2) with 2.
  replace ((((d + 2) mod 256 - 2) mod 256 - d) mod 256) with 0 by lia.
  replace ((((d + 2) mod 256 - 1) mod 256 - d) mod 256) with 1 by lia.
  reflexivity.
Qed.

Lemma peek_top_short q : peek (cell q) 256 (depth q - 2) 2 = top_short q.
Proof.
  unfold peek, top_short. cbn [Z.eqb Pos.eqb].
  replace (depth q - 2 + 1) with (depth q - 1) by lia. reflexivity.
Qed.
Lemma peek_short_below q n : peek (cell q) 256 (depth q - n - 2) 2 = short_below q n.
Proof.
  unfold peek, short_below. cbn [Z.eqb Pos.eqb].
  replace (depth q - n - 2 + 1) with (depth q - n - 1) by lia. reflexivity.
Qed.

Ltac eval_op :=
  repeat match goal with |- context [operation ?n] =>
    let o := eval vm_compute in (operation n) in change (operation n) with o end.

Section Addr.
Variable W : Type.
Variable dei : Z -> vm -> W -> res (Z * vm * W).
Variable deo : Z -> vm -> W -> res (vm * W).
Variable hi_first : bool.
Notation st := (st W).
Notation abs := (abs W).
Notation wf_st := (wf_st W).
Notation step := (step W dei deo hi_first).
Notation opcode_at := (opcode_at W).

Lemma plain_step x : wf_st x ->
  let op := opcode_at x in
  op <> 0 -> op mod 32 <> 22 -> op mod 32 <> 23 -> op mod 32 <> 26 ->
  exists x', step x = Ok (true, x') /\ machine_eq (abs x') (spec_step op (abs x)).
Proof.
  intros Hw op H1 H2 H3 H4.
  destruct (step_refines W dei deo hi_first x Hw) as (x' & E1 & E2 & _).
  - exact H1.
  - unfold is_device_op. fold op. lia.
  - unfold mul_overflows. fold op. lia.
  - eauto.
Qed.

Lemma load_wraps x a md : wf_st x ->
  let op := opcode_at x in let m := abs x in
  accesses 16 op m a md -> flag op 32 = true ->
  exists x', step x = Ok (true, x') /\
    top_short (here op (abs x')) = 256 * ram m (a mod md) + ram m ((a + 1) mod md).
Proof.
  intros Hw op m HA HF.
  assert (Hm : 0 < md <= 65536) by (unfold accesses in HA; lia).
  destruct (plain_step x Hw) as (x' & E & Q); fold op; try (unfold accesses in HA; lia).
  exists x'. split; auto. fold op m in Q.
  assert (V : spec_step op m = spec_poly (operation (op mod 32)) (flag op 128) (flag op 64) true m).
  { unfold spec_step. replace (op mod 32 =? 0) with false by (unfold accesses in HA; lia). rewrite HF. auto. }
  rewrite V in Q. clear V.
  set (q := here op m).
  assert (B : forall i, 0 <= i < 65536 -> is_byte (ram m i)) by (apply (wf_abs W x Hw)).
  assert (P : pushes (reference (operation (op mod 32)) true ((ip m + 1) mod 65536) (ram m)
     (operands q (operand_widths (operation (op mod 32)) true))) = [(2, peek (ram m) md a 2)]).
  { destruct HA as [(-> & -> & ->)|[(-> & -> & ->)|(-> & -> & ->)]]; eval_op;
    cbn [operand_widths]; rewrite operands1; cbn [reference pushes width]; unfold width.
    - reflexivity.
    - do 2 f_equal. apply peek_mod; [|lia]. fold q. unfold top_byte.
      change (peek (cell q) 256 (depth q - 1) 1) with (cell q ((depth q - 1) mod 256)). lia.
    - rewrite peek_top_short. reflexivity. }
  assert (S : stack_eq (here op (abs x')) (place q
     (if flag op 128 then depth q else (depth q - total (operand_widths (operation (op mod 32)) true)) mod 256)
     [ram m (a mod md); ram m ((a + 1) mod md)])).
  { assert (F : flatten [(2, peek (ram m) md a 2)] = [ram m (a mod md); ram m ((a + 1) mod md)]).
    { unfold flatten, flat_map, bytes_of, peek. change (2 =? 2) with true. cbv iota. cbn [app].
      pose proof (B (a mod md) ltac:(lia)) as B1. pose proof (B ((a + 1) mod md) ltac:(lia)) as B2.
      unfold is_byte in *. set (b1 := ram m (a mod md)) in *. set (b2 := ram m ((a + 1) mod md)) in *.
      replace ((256 * b1 + b2) / 256 mod 256) with b1 by lia.
      replace ((256 * b1 + b2) mod 256) with b2 by lia. reflexivity. }
    rewrite <- F, <- P. unfold here, q, here. destruct Q as (Q1 & Q2 & _).
    unfold spec_poly in Q1, Q2. destruct (flag op 64); [exact Q2|exact Q1]. }
  eapply top_short_place; [| |exact S]; apply B; lia.
Qed.

Lemma store_wraps x a md : wf_st x ->
  let op := opcode_at x in let m := abs x in
  accesses 17 op m a md -> flag op 32 = true ->
  exists x', step x = Ok (true, x') /\
    let v := short_below (here op m) (if op mod 32 =? 21 then 2 else 1) in
    forall i, ram (abs x') i =
      (if i =? (a + 1) mod md then v mod 256 else if i =? a mod md then v / 256 else ram m i).
Proof.
  intros Hw op m HA HF.
  assert (Hm : 0 < md <= 65536) by (unfold accesses in HA; lia).
  destruct (plain_step x Hw) as (x' & E & Q); fold op; try (unfold accesses in HA; lia).
  exists x'. split; auto. fold op m in Q. intros v i.
  destruct Q as (_ & _ & Q & _). rewrite Q. clear Q.
  assert (V : spec_step op m = spec_poly (operation (op mod 32)) (flag op 128) (flag op 64) true m).
  { unfold spec_step. replace (op mod 32 =? 0) with false by (unfold accesses in HA; lia). rewrite HF. auto. }
  rewrite V. clear V.
  set (q := here op m) in *.
  change (ram (spec_poly (operation (op mod 32)) (flag op 128) (flag op 64) true m)) with
    (apply_stores (ram m) (stores (reference (operation (op mod 32)) true ((ip m + 1) mod 65536) (ram m)
       (operands q (operand_widths (operation (op mod 32)) true))))).
  assert (Hc : bytes_on 256 (cell q)).
  { unfold q, here. destruct (flag op 64); apply (wf_abs W x Hw). }
  assert (Hv : is_short v).
  { subst v. unfold short_below.
    assert (G : forall j, is_byte (cell q (j mod 256))) by (intros; apply Hc; lia).
    pose proof (G (depth q - (if op mod 32 =? 21 then 2 else 1) - 2)).
    pose proof (G (depth q - (if op mod 32 =? 21 then 2 else 1) - 1)). unfold is_byte, is_short in *. lia. }
  assert (P : stores (reference (operation (op mod 32)) true ((ip m + 1) mod 65536) (ram m)
     (operands q (operand_widths (operation (op mod 32)) true))) = store_bytes md 2 a v).
  { subst v. destruct HA as [(-> & -> & ->)|[(-> & -> & ->)|(-> & -> & ->)]];
    eval_op; cbn [Z.add Pos.add Pos.succ Z.eqb Pos.eqb];
    cbn [operand_widths]; rewrite operands2; cbn [reference stores]; unfold width.
    - rewrite peek_short_below. reflexivity.
    - rewrite peek_short_below. apply store_bytes_mod; [lia|]. fold q. unfold top_byte.
      change (peek (cell q) 256 (depth q - 1) 1) with (cell q ((depth q - 1) mod 256)). lia.
    - rewrite peek_short_below, peek_top_short. reflexivity. }
  rewrite P. unfold store_bytes. cbn [Z.eqb Pos.eqb apply_stores fold_left fst snd].
  replace (v / 256 mod 256) with (v / 256) by (unfold is_short in Hv; lia). reflexivity.
Qed.

(** JMP, JCN (taken), JSR in byte mode; immediate jumps. *)
Lemma jump_wraps x : wf_st x ->
  let op := opcode_at x in let m := abs x in
  ((op mod 32 = 12 \/ op mod 32 = 14 \/
    (op mod 32 = 13 /\ cell (here op m) ((depth (here op m) - 2) mod 256) <> 0)) /\ flag op 32 = false ->
   exists x', step x = Ok (true, x') /\
     s_pc _ x' = (s_pc _ x + 1 + signed (top_byte (here op m))) mod 65536) /\
  ((op = 64 \/ op = 96 \/ (op = 32 /\ top_byte (wst m) <> 0)) ->
   exists x', step x = Ok (true, x') /\
     s_pc _ x' = (s_pc _ x + 3 +
        (256 * ram m ((s_pc _ x + 1) mod 65536) + ram m ((s_pc _ x + 2) mod 65536))) mod 65536).
Proof.
  intros Hw op m. split.
  - intros [HA HF].
    destruct (plain_step x Hw) as (x' & E & Q); fold op; try lia.
    exists x'. split; auto. fold op m in Q.
    destruct Q as (_ & _ & _ & _ & Q). change (s_pc W x') with (ip (abs x')). rewrite Q.
    unfold spec_step. replace (op mod 32 =? 0) with false by lia. rewrite HF.
    unfold spec_poly. cbn [ip]. fold (here op m). set (q := here op m) in *.
    change (s_pc W x) with (ip m).
    assert (T : peek (cell q) 256 (depth q - 1) 1 = top_byte q) by reflexivity.
    destruct HA as [-> |[-> |[-> HC]]]; eval_op;
    cbn [operand_widths]; rewrite ?operands1, ?operands2; cbn [reference goto]; unfold target; change (width false) with 1; rewrite T.
    + lia.
    + lia.
    + change (peek (cell q) 256 (depth q - 1 - 1) 1) with (cell q ((depth q - 1 - 1) mod 256)).
      replace (depth q - 1 - 1) with (depth q - 2) by lia.
      replace (_ =? 0) with false by lia. lia.
  - intros HA.
    destruct (plain_step x Hw) as (x' & E & Q); fold op; try lia.
    exists x'. split; auto. fold op m in Q.
    destruct Q as (_ & _ & _ & _ & Q). change (s_pc W x') with (ip (abs x')). rewrite Q.
    change (s_pc W x) with (ip m).
    assert (T : peek (ram m) 65536 (ip m + 1) 2 =
      256 * ram m ((ip m + 1) mod 65536) + ram m ((ip m + 2) mod 65536)).
    { unfold peek. cbn [Z.eqb Pos.eqb]. replace (ip m + 1 + 1) with (ip m + 2) by lia. reflexivity. }
    clearbody op. destruct HA as [-> |[-> |[-> HC]]].
    + change (spec_step 64 m) with (spec_jmi m). unfold spec_jmi. cbn [ip]. rewrite T. f_equal. lia.
    + change (spec_step 96 m) with (spec_jsi m). unfold spec_jsi. cbn [ip]. rewrite T. f_equal. lia.
    + change (spec_step 32 m) with (spec_jci m). unfold spec_jci. cbn [ip].
      change (peek (cell (wst m)) 256 (depth (wst m) - 1) 1) with (top_byte (wst m)).
      replace (top_byte (wst m) =? 0) with false by lia. rewrite T. f_equal. lia.
Qed.
End Addr.

(** ** Reset *)

(** Which cells a reset with [flags] clears. *)
Definition has_bit (flags n : Z) : bool := Z.testbit flags n.

Record reset_spec (flags : Z) (v v' : vm) : Prop := {
  rs_size : vm_msize v' = vm_msize v;
  rs_ptrs : vm_wsp v' = (if has_bit flags 4 then 0 else vm_wsp v) /\
            vm_rsp v' = (if has_bit flags 4 then 0 else vm_rsp v);
  rs_stacks : forall i, 0 <= i < 256 ->
     vm_ws v' i = (if has_bit flags 4 then 0 else vm_ws v i) /\
     vm_rs v' i = (if has_bit flags 4 then 0 else vm_rs v i);
  rs_dev : forall i, 0 <= i < 256 -> vm_dev v' i = if has_bit flags 3 then 0 else vm_dev v i;
  rs_zero_page : forall i, 0 <= i < 256 -> vm_mem v' i = if has_bit flags 1 then 0 else vm_mem v i;
  rs_rest : forall i, 256 <= i < vm_msize v -> vm_mem v' i = if has_bit flags 2 then 0 else vm_mem v i
}.

Lemma land_bit flags n : 0 <= flags -> 0 <= n -> (0 <? Z.land flags (2 ^ n)) = Z.testbit flags n.
Proof.
  intros Hf Hn. rewrite Z.land_comm.
  destruct (Z.testbit flags n) eqn:E.
  - assert (H : Z.testbit (Z.land (2 ^ n) flags) n = true).
    { rewrite Z.land_spec, E, Z.pow2_bits_true by lia. reflexivity. }
    assert (0 <= Z.land (2 ^ n) flags) by (apply Z.land_nonneg; lia).
    destruct (Z.eq_dec (Z.land (2 ^ n) flags) 0) as [Z0|]; [|lia].
    rewrite Z0, Z.bits_0 in H. discriminate.
  - assert (H : Z.land (2 ^ n) flags = 0).
    { apply Z.bits_inj'. intros i Hi. rewrite Z.land_spec, Z.bits_0.
      destruct (Z.eq_dec i n) as [->|].
      - rewrite E, andb_false_r. auto.
      - rewrite Z.pow2_bits_false by lia. auto. }
    rewrite H. reflexivity.
Qed.

Lemma reset_correct v flags : 0 <= flags -> 256 <= vm_msize v ->
  exists v', reset v flags = Ok v' /\ reset_spec flags v v'.
Proof.
  intros Hf Hs. unfold reset.
  change RESET_ZERO_PAGE with (2 ^ 1). change RESET_HIGH_MEM with (2 ^ 2).
  change RESET_DEVICE with (2 ^ 3). change RESET_STACK with (2 ^ 4).
  cbv zeta. rewrite !land_bit by lia.
  assert (Z0 : forall f i n, 0 <= i < n -> memset f 0 0 n i = 0).
  { intros. unfold memset. replace (_ && _) with true by lia. auto. }
  assert (Z1 : forall f i n, 256 <= i < n -> memset f 256 0 (n - 256) i = 0).
  { intros. unfold memset. replace (_ && _) with true by lia. auto. }
  assert (Z2 : forall f i n, 0 <= i < 256 -> memset f 256 0 n i = f i).
  { intros. unfold memset. replace (_ && _) with false by lia. auto. }
  assert (Z3 : forall f i, 256 <= i -> memset f 0 0 256 i = f i).
  { intros. unfold memset. replace (_ && _) with false by lia. auto. }
  destruct v as [wsp rsp ws rs dev mem msz]. cbn in Hs.
  unfold has_bit.
  destruct (Z.testbit flags 1) eqn:B1, (Z.testbit flags 2) eqn:B2, (Z.testbit flags 3) eqn:B3,
    (Z.testbit flags 4) eqn:B4; cbn [rbind vm_msize vm_set_dev vm_set_mem vm_mem];
  replace (msz <? 256) with false by lia; cbn [rbind vm_msize vm_set_dev vm_set_mem vm_mem];
  replace (msz <? 256) with false by lia;
  eexists; (split; [reflexivity|]); constructor; unfold has_bit; rewrite ?B1, ?B2, ?B3, ?B4; cbn; auto;
  intros i Hi; rewrite ?Z0, ?Z1, ?Z2, ?Z3 by lia; auto;
  rewrite ?Z0, ?Z1, ?Z2, ?Z3 by lia; auto.
Qed.
