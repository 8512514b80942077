(** Whole-instruction lemmas: refinement, preservation of well-formedness,
    exact characterisation of faults. *)
From Verif Require Import Base VmModel VmSpec VmProofs.
From Coq Require Import ZifyBool.
Ltac Zify.zify_post_hook ::= Z.div_mod_to_equations.

Record wf_machine (m : machine) : Prop := {
  wm_w : is_byte (depth (wst m));
  wm_r : is_byte (depth (rst m));
  wm_wc : bytes_on 256 (cell (wst m));
  wm_rc : bytes_on 256 (cell (rst m));
  wm_ram : bytes_on 65536 (ram m);
  wm_ip : is_short (ip m)
}.

Lemma bytes_of_bytes x b : In b (bytes_of x) -> is_byte b.
Proof.
  destruct x as [w v]. unfold bytes_of, is_byte. destruct (w =? 2); cbn; intros H;
  repeat destruct H as [<-|H]; try contradiction; lia.
Qed.

Lemma flatten_bytes l b : In b (flatten l) -> is_byte b.
Proof.
  unfold flatten. rewrite in_flat_map. intros (x & _ & H). eapply bytes_of_bytes; eauto.
Qed.

Lemma place_wf q d bs :
  (forall b, In b bs -> is_byte b) -> bytes_on 256 (cell q) ->
  is_byte (depth (place q d bs)) /\ bytes_on 256 (cell (place q d bs)).
Proof.
  intros Hb Hc. split.
  - cbn. unfold is_byte. lia.
  - intros i Hi. cbn. destruct (_ <? _) eqn:E; auto.
    apply Hb. apply nth_In. lia.
Qed.

Lemma apply_stores_byte mem l i :
  (forall a v, In (a, v) l -> is_byte v) -> is_byte (mem i) -> is_byte (apply_stores mem l i).
Proof.
  revert mem. induction l as [|[a v] l IH]; intros mem Hl Hm; cbn; auto.
  apply IH.
  - intros; eapply Hl; right; eauto.
  - cbn. destruct (i =? a); auto. eapply Hl; left; eauto.
Qed.

Lemma store_bytes_bytes md w a v x y : In (x, y) (store_bytes md w a v) -> is_byte y.
Proof.
  unfold store_bytes, is_byte. destruct (w =? 2); cbn; intros H;
  repeat (destruct H as [E|H]; [injection E as <- <-; lia|]); contradiction.
Qed.

Lemma store_bytes_addr md w a v x y : 0 < md -> In (x, y) (store_bytes md w a v) -> 0 <= x < md.
Proof.
  intros Hm. unfold store_bytes. destruct (w =? 2); cbn; intros H;
  repeat (destruct H as [E|H]; [injection E as <- <-; apply Z.mod_pos_bound; lia|]); contradiction.
Qed.

(** Stores of the reference table are bytes inside the 64 KiB address space. *)
Lemma reference_stores o s next mem args a v :
  In (a, v) (stores (reference o s next mem args)) -> 0 <= a < 65536 /\ is_byte v.
Proof.
  unfold reference.
  destruct o; cbv zeta;
  repeat match goal with |- context [match ?l with [] => _ | _ :: _ => _ end] => destruct l end;
  cbn [stores]; intros H; try contradiction;
  (split; [eapply store_bytes_addr in H; lia | eapply store_bytes_bytes; eauto]).
Qed.

Lemma goto_range o s m q :
  bytes_on 256 (cell q) ->
  is_short (goto (reference o s ((ip m + 1) mod 65536) (ram m) (operands q (operand_widths o s)))).
Proof.
  intros H. unfold is_short.
  destruct o; cbn [operand_widths]; rewrite ?operands1, ?operands2, ?operands3;
    cbn [reference goto]; try lia.
  all: unfold target; try destruct (_ =? 0); try lia; destruct s; try lia.
  all: apply (peek_short _ _ true); auto.
Qed.

Lemma spec_poly_wf o k r s m : wf_machine m -> wf_machine (spec_poly o k r s m).
Proof.
  intros [H1 H2 H3 H4 H5 H6]. unfold spec_poly. cbv zeta.
  set (here := if r then rst m else wst m).
  set (other := if r then wst m else rst m).
  assert (Hh : bytes_on 256 (cell here)) by (unfold here; destruct r; auto).
  assert (Ho : bytes_on 256 (cell other)) by (unfold other; destruct r; auto).
  set (e := reference _ _ _ _ _).
  pose proof (fun d => place_wf here d (flatten (pushes e)) (flatten_bytes _) Hh) as P1.
  pose proof (fun d => place_wf other d (flatten (pushes_other e)) (flatten_bytes _) Ho) as P2.
  constructor; cbn [wst rst ram ip].
  - destruct r; [apply P2|apply P1].
  - destruct r; [apply P1|apply P2].
  - destruct r; [apply P2|apply P1].
  - destruct r; [apply P1|apply P2].
  - intros i Hi. apply apply_stores_byte; auto.
    intros a v Hin. eapply reference_stores; eauto.
  - apply goto_range; auto.
Qed.

Lemma spec_step_wf op m : wf_machine m -> wf_machine (spec_step op m).
Proof.
  intros H. unfold spec_step.
  destruct (op mod 32 =? 0); [|apply spec_poly_wf; auto].
  destruct H as [H1 H2 H3 H4 H5 H6].
  destruct (op =? 32); [|destruct (op =? 64); [|destruct (op =? 96)]].
  - unfold spec_jci. cbv zeta.
    destruct (place_wf (wst m) ((depth (wst m) - 1) mod 256) [] ltac:(cbn; tauto) H3).
    constructor; cbn [wst rst ram ip]; auto.
    unfold is_short. destruct (_ =? 0); lia.
  - constructor; cbn [wst rst ram ip spec_jmi]; auto. unfold is_short; lia.
  - destruct (place_wf (rst m) (depth (rst m)) (flatten [(2, ip m + 1 + 2)]) (flatten_bytes _) H4).
    constructor; cbn [wst rst ram ip spec_jsi]; auto. unfold is_short; lia.
  - unfold spec_lit. cbv zeta. set (v := flatten _).
    destruct (place_wf (rst m) (depth (rst m)) v (flatten_bytes _) H4).
    destruct (place_wf (wst m) (depth (wst m)) v (flatten_bytes _) H3).
    destruct (flag op 64); constructor; cbn [wst rst ram ip]; auto; unfold is_short; lia.
Qed.

Lemma mul_overflows_spec op m :
  mul_overflows op m <->
  (operation (op mod 32) = MUL /\ op mod 32 <> 0 /\ flag op 32 = true /\
   let q := if flag op 64 then rst m else wst m in
   INT_MAX < peek (cell q) 256 (depth q - 2 - 2) 2 * peek (cell q) 256 (depth q - 2) 2).
Proof.
  unfold mul_overflows, INT_MAX. cbv zeta. rewrite operands2. split.
  - intros (H1 & H2 & a & b & E & Ho). injection E as <- <-. rewrite H1.
    repeat split; auto; lia.
  - intros (H1 & H2 & H3 & Ho). repeat split; auto.
    + assert (Hr : 0 <= op mod 32 < 32) by lia.
      revert H1 H2. generalize (op mod 32) Hr. intros n Hn.
      assert (E : In n (map Z.of_nat (seq 0 32))).
      { apply in_map_iff. exists (Z.to_nat n). split; [lia|apply in_seq; lia]. }
      cbn in E. repeat destruct E as [<-|E]; try contradiction; cbn; intros; try discriminate; lia.
    + eexists _, _. split; [reflexivity|]. lia.
Qed.

Set Default Proof Using "Type".
Section Step.
Variable W : Type.

Notation st := (st W).
Notation abs := (abs W).
Notation wf_st := (wf_st W).
Notation same_rest := (same_rest W).

Lemma wf_abs x : wf_st x -> wf_machine (abs x).
Proof.
  intros [H1 H2 H3 H4]. constructor; cbn; auto; try apply H1.
  intros i Hi. apply (wf_mem _ H1). pose proof (wf_msize _ H1). lia.
Qed.

(** All memory cells beyond 64 KiB are outside the reach of the reference. *)
Lemma apply_stores_frame mem l i :
  (forall a v, In (a, v) l -> a <> i) -> apply_stores mem l i = mem i.
Proof.
  revert mem. induction l as [|[a v] l IH]; intros mem H; cbn; auto.
  unfold apply_stores in IH. rewrite IH.
  - cbn. replace (i =? a) with false; auto.
    specialize (H a v (or_introl eq_refl)). lia.
  - intros; eapply H; right; eauto.
Qed.

Lemma spec_step_high op m i : ~ (0 <= i < 65536) -> ram (spec_step op m) i = ram m i.
Proof.
  intros Hi. unfold spec_step.
  destruct (op mod 32 =? 0).
  - destruct (op =? 32); [|destruct (op =? 64); [|destruct (op =? 96)]]; reflexivity.
  - unfold spec_poly; cbn [ram]. apply apply_stores_frame.
    intros a v H E. apply reference_stores in H. lia.
Qed.

Lemma wf_of_machine_eq x x' op :
  wf_st x -> same_rest x x' -> machine_eq (abs x') (spec_step op (abs x)) -> wf_st x'.
Proof.
  intros Hw (Hs1 & Hs2 & Hs3 & Hs4) ((E1 & E2) & (E3 & E4) & E5 & E6 & E7).
  pose proof (spec_step_wf op _ (wf_abs _ Hw)) as [M1 M2 M3 M4 M5 M6].
  destruct Hw as [Hv Ha Hb Hc].
  cbn in E1, E2, E3, E4, E5, E6, E7.
  constructor; [constructor| | |].
  - rewrite Hs3. apply Hv.
  - rewrite Hs4. apply Hv.
  - intros i Hi. rewrite E2 by auto. auto.
  - intros i Hi. rewrite E4 by auto. auto.
  - intros i Hi. rewrite E6 by auto.
    replace (devp (spec_step op (abs x)) i) with (devp (abs x) i).
    + apply Hv; auto.
    + unfold spec_step. destruct (op mod 32 =? 0); auto.
      destruct (op =? 32); [|destruct (op =? 64); [|destruct (op =? 96)]]; reflexivity.
  - intros i Hi. rewrite Hs2 in Hi. rewrite E5.
    destruct (Z_lt_dec i 65536).
    + apply M5. lia.
    + rewrite spec_step_high by lia. apply (wf_mem _ Hv). auto.
  - rewrite Hs2. apply Hv.
  - rewrite E1. auto.
  - rewrite E3. auto.
  - rewrite E7. auto.
Qed.

(** Fetch. *)
Definition fetched (x : st) : st :=
  mkSt W (s_vm _ x) (s_wsp _ x) (s_rsp _ x) (s_kwsp _ x) (s_krsp _ x) (u16 (s_pc _ x + 1)) (s_w _ x).
Definition opcode_at (x : st) : Z := vm_mem (s_vm _ x) (s_pc _ x).

Lemma opcode_byte x : wf_st x -> is_byte (opcode_at x).
Proof.
  intros [Hv _ _ Hp]. apply (wf_mem _ Hv). pose proof (wf_msize _ Hv).
  unfold is_short in Hp. lia.
Qed.

Variable dei : Z -> vm -> W -> res (Z * vm * W).
Variable deo : Z -> vm -> W -> res (vm * W).
Variable hi_first : bool.
Notation step := (step W dei deo hi_first).
Notation exec_label := (exec_label W dei deo hi_first).

Lemma step_fetch x : wf_st x ->
  step x = exec_label (spec_label (opcode_at x)) (fetched x).
Proof.
  intros Hw. unfold VmModel.step, bind, getpc, setpc.
  rewrite mem_read_eq by apply Hw.
  fold (opcode_at x). rewrite dispatch_spec by (apply opcode_byte; auto). reflexivity.
Qed.

Lemma wf_fetched x : wf_st x -> wf_st (fetched x).
Proof.
  intros [Hv H1 H2 Hp]. constructor; cbn; auto. apply u16_range.
Qed.

Lemma at_label_fetched x : at_label W (fetched x) (abs x).
Proof. reflexivity. Qed.

(** Non-device polymorphic instructions. *)
Lemma poly_refines o k r s x m :
  o <> DEI -> o <> DEO -> no_mul_overflow o r s m ->
  wf_st x -> at_label W x m ->
  refines W (poly W dei deo hi_first o k r s) (spec_poly o k r s) x m.
Proof.
  intros H1 H2 H3 Hw Ha.
  destruct o; try congruence;
  first [ apply poly_refines_A; auto; cbn; tauto
        | apply poly_refines_cmp; auto; cbn; tauto
        | apply poly_refines_bin; auto; cbn; tauto
        | apply poly_refines_MUL; auto
        | apply poly_refines_SFT; auto
        | apply poly_refines_JCN; auto
        | apply poly_refines_jump; auto; cbn; tauto
        | apply poly_refines_rel; auto; cbn; tauto ].
Qed.

Lemma exec_poly o k r s x :
  exec_label (Poly o k r s) x =
  match poly W dei deo hi_first o k r s x with Ok (_, x') => Ok (true, x') | Fault f => Fault f end.
Proof.
  cbn [VmModel.exec_label]. unfold poly, bind.
  destruct (keep_prologue W k r x) as [[[] y]|]; auto.
Qed.


(** Two pops of short operands, for the overflow of MUL2. *)
Lemma poly_MUL_overflow (k r : bool) x m :
  let q := if r then rst m else wst m in
  INT_MAX < peek (cell q) 256 (depth q - 2 - 2) 2 * peek (cell q) 256 (depth q - 2) 2 ->
  wf_st x -> at_label W x m ->
  poly W dei deo hi_first MUL k r true x =
  Fault (SignedOverflow (peek (cell q) 256 (depth q - 2 - 2) 2 * peek (cell q) 256 (depth q - 2) 2)).
Proof.
  cbv zeta. intros Ho Hw Hm.
  destruct x as [[vwsp vrsp ws rs dev mem msz] wsp rsp kwsp krsp pc w].
  destruct m as [[wd wc] [rd rc] rm dv ipm]. unfold at_label, VmProofs.abs in Hm. cbn in Hm.
  injection Hm as -> -> -> -> -> -> ->.
  destruct Hw as [Hv Hws Hrs Hpc]. cbn in Hws, Hrs, Hpc.
  pose proof (wf_ws _ Hv) as Hb; pose proof (wf_rs _ Hv) as Hc; cbn in Hb, Hc.
  unfold poly, bind.
  assert (F : forall v : Z, INT_MAX < v -> int32 v = Fault (SignedOverflow v)).
  { intros v H. unfold int32, in_int. replace (_ && _) with false; auto. lia. }
  destruct k, r; cbn [keep_prologue VmModel.poly_op bin_op]; unfold bin_op, bind, lift;
  rewrite pop_eq by assumption;
  rewrite pop_eq by (rewrite getstack_setptr; assumption);
  rewrite ?getstack_setptr;
  cbn [getstack setptr getptr s_vm s_wsp s_rsp s_kwsp s_krsp vm_ws vm_rs width rst wst cell depth] in *;
  rewrite ?peek_mod_sub; rewrite F by assumption; reflexivity.
Qed.

(** The immediate instructions. *)
Lemma imm_refines l sp (x : st) m :
  (l = JCI /\ sp = spec_jci \/ l = JMI /\ sp = spec_jmi \/ l = JSI /\ sp = spec_jsi \/
   exists r s, l = LITop r s /\ sp = spec_lit r s) ->
  wf_st x -> at_label W x m ->
  exists x', exec_label l x = Ok (true, x') /\ machine_eq (abs x') (sp m) /\ same_rest x x'.
Proof.
  intros Hl Hw Hm.
  destruct x as [[vwsp vrsp ws rs dev mem msz] wsp rsp kwsp krsp pc w].
  destruct m as [[wd wc] [rd rc] rm dv ipm]. unfold at_label, VmProofs.abs in Hm. cbn in Hm.
  injection Hm as -> -> -> -> -> -> ->.
  destruct Hw as [Hv Hws Hrs Hpc]. cbn in Hws, Hrs, Hpc.
  pose proof (wf_ws _ Hv) as Hb; pose proof (wf_rs _ Hv) as Hc; cbn in Hb, Hc.
  assert (P : forall w, peek rm 65536 ((ipm + 1) mod 65536) w = peek rm 65536 (ipm + 1) w).
  { intros. apply peek_mod; lia. }
  assert (R : 0 <= peek rm 65536 (ipm + 1) 2 < 65536).
  { apply (peek_range rm 65536 (ipm + 1) true); [lia|].
    intros i Hi. apply (wf_mem _ Hv). pose proof (wf_msize _ Hv). cbn in *. lia. }
  assert (R1 : 0 <= peek rm 65536 (ipm + 1) 1 < 256).
  { apply (peek_range rm 65536 (ipm + 1) false); [lia|].
    intros i Hi. apply (wf_mem _ Hv). pose proof (wf_msize _ Hv). cbn in *. lia. }
  destruct Hl as [[-> ->]|[[-> ->]|[[-> ->]|(r & s & -> & ->)]]];
  cbn [VmModel.exec_label]; unfold bind, getpc, setpc.
  - rewrite pop_eq by assumption. cbn [setptr s_pc getptr getstack s_wsp s_vm vm_ws].
    change (width false) with 1.
    unfold spec_jci. cbn [wst rst ram devp ip depth cell].
    destruct (peek wc 256 (wd - 1) 1 =? 0) eqn:E; cbn [negb].
    + eexists; split; [reflexivity|]. split; [|repeat split].
      split; [|split; [|split; [|split]]]; cbn; auto.
      * apply stack_eq_place0. lia.
      * apply stack_eq_refl.
      * unfold u16. rewrite Zplus_mod_idemp_l. f_equal; lia.
    + rewrite load_eq by (try exact Hv; lia). cbn [s_vm vm_mem width]. unfold ret.
      eexists; split; [reflexivity|]. split; [|repeat split].
      split; [|split; [|split; [|split]]]; cbn -[peek]; auto.
      * apply stack_eq_place0. lia.
      * apply stack_eq_refl.
      * unfold u16. rewrite P. lia.
  - rewrite load_eq by (try exact Hv; lia). cbn [s_vm vm_mem width]. unfold ret.
    eexists; split; [reflexivity|]. split; [|repeat split].
    split; [|split; [|split; [|split]]]; cbn -[peek]; auto using stack_eq_refl.
    unfold u16. rewrite P. lia.
  - change (push2 W true) with (push W true true).
    rewrite push_eq by assumption.
    cbn [setptr getptr setstack getstack s_pc s_vm vm_rs s_rsp vm_set_rs s_wsp s_kwsp s_krsp s_w vm_mem vm_msize vm_wsp vm_rsp vm_ws vm_dev width].
    rewrite load_eq'; [|split; apply Hv|lia].
    cbn [s_vm vm_mem width]. unfold ret.
    eexists; split; [reflexivity|]. split; [|repeat split].
    split; [|split; [|split; [|split]]]; cbn -[peek flatten wr]; auto using stack_eq_refl.
    + cbn [flatten flat_map]. rewrite app_nil_r.
      eapply stack_eq_wr'; [apply bytes_of_length2|lia| |lia|lia].
      apply (bytes_of_mod true). lia.
    + unfold u16. rewrite P. lia.
  - rewrite load_eq by (try exact Hv; lia). cbn [s_vm vm_mem s_wsp s_rsp s_kwsp s_krsp s_w].
    rewrite push_eq by (destruct r; assumption).
    rewrite P. unfold spec_lit. unfold ret.
    eexists; split; [reflexivity|]. split; [|destruct r; repeat split].
    rewrite bytes_of_u16.
    assert (Hn : (if s then 2 else 1) = width s) by (destruct s; auto). rewrite Hn.
    cbn [wst rst ram devp ip depth cell flatten flat_map]. rewrite app_nil_r.
    assert (Hl : Z.of_nat (length (bytes_of (width s, peek rm 65536 (ipm + 1) (width s)))) = width s)
      by apply bytes_of_length.
    pose proof (width_cases s).
    destruct r; cbn [setptr setstack getptr getstack s_vm vm_rs vm_ws s_wsp s_rsp VmProofs.abs];
    (split; [|split; [|split; [|split]]]); cbn [wst rst ram devp ip vm_mem vm_dev s_vm s_pc vm_set_rs vm_set_ws abs s_wsp s_rsp vm_ws vm_rs]; auto using stack_eq_refl;
    try (eapply stack_eq_wr'; [exact Hl|lia|reflexivity|lia|lia]);
    cbn [s_pc setstack]; unfold u16; lia.
Qed.

(** One instruction that is neither BRK nor a device access. *)
Lemma step_refines x :
  wf_st x ->
  let op := opcode_at x in
  ~ is_brk op -> ~ is_device_op op -> ~ mul_overflows op (abs x) ->
  exists x', step x = Ok (true, x') /\ machine_eq (abs x') (spec_step op (abs x)) /\
             same_rest x x' /\ wf_st x'.
Proof.
  intros Hw op Hb Hd Hm. pose proof (opcode_byte x Hw) as Hop. fold op in Hop.
  cut (exists x', exec_label (spec_label op) (fetched x) = Ok (true, x') /\
        machine_eq (abs x') (spec_step op (abs x)) /\ same_rest (fetched x) x').
  { intros (x' & E1 & E2 & E3). exists x'. rewrite step_fetch by auto. fold op.
    split; auto. split; auto.
    assert (S : same_rest x x') by exact E3.
    split; auto. eapply wf_of_machine_eq; eauto. }
  unfold spec_label, spec_step, is_brk, is_device_op in *.
  destruct (op mod 32 =? 0) eqn:E0.
  - replace (op =? 0) with false by lia.
    destruct (op =? 32); [|destruct (op =? 64); [|destruct (op =? 96)]];
    (eapply imm_refines; [|apply wf_fetched; auto|apply at_label_fetched]); eauto 8.
  - assert (HD : operation (op mod 32) <> DEI /\ operation (op mod 32) <> DEO).
    { assert (Hr : 0 <= op mod 32 < 32) by lia.
      assert (E : In (op mod 32) (map Z.of_nat (seq 0 32))).
      { apply in_map_iff. exists (Z.to_nat (op mod 32)). split; [lia|apply in_seq; lia]. }
      revert E Hd. generalize (op mod 32). intros n E Hd.
      cbn in E. repeat destruct E as [<-|E]; try contradiction; cbn; (split; try discriminate); lia. }
    destruct HD as [HD1 HD2].
    destruct (poly_refines (operation (op mod 32)) (flag op 128) (flag op 64) (flag op 32)
                (fetched x) (abs x)) as (x' & P1 & P2 & P3); auto.
    + intros H1 H2. cbv zeta.
      destruct (Z_le_gt_dec (peek (cell (if flag op 64 then rst (abs x) else wst (abs x))) 256
        (depth (if flag op 64 then rst (abs x) else wst (abs x)) - 2 - 2) 2 *
        peek (cell (if flag op 64 then rst (abs x) else wst (abs x))) 256
        (depth (if flag op 64 then rst (abs x) else wst (abs x)) - 2) 2) INT_MAX); auto.
      exfalso. apply Hm. apply mul_overflows_spec. repeat split; auto; cbv zeta; lia.
    + apply wf_fetched; auto.
    + apply at_label_fetched.
    + exists x'. rewrite exec_poly, P1. auto.
Qed.

Lemma step_mul_overflow x :
  wf_st x -> mul_overflows (opcode_at x) (abs x) ->
  exists v, v > 2147483647 /\ step x = Fault (SignedOverflow v).
Proof.
  intros Hw Hm. apply mul_overflows_spec in Hm as (H1 & H2 & H3 & H4).
  rewrite step_fetch by auto. unfold spec_label.
  replace (opcode_at x mod 32 =? 0) with false by lia.
  rewrite H1, H3, exec_poly.
  erewrite poly_MUL_overflow; [|exact H4|apply wf_fetched; auto|apply at_label_fetched].
  eexists. split; [|reflexivity]. cbv zeta in H4. unfold INT_MAX in H4. lia.
Qed.

Lemma step_brk x :
  wf_st x -> is_brk (opcode_at x) ->
  exists x', step x = Ok (false, x') /\ s_w _ x' = s_w _ x /\
    s_vm _ x' = vm_set_ptrs (s_vm _ x) (s_wsp _ x) (s_rsp _ x).
Proof.
  intros Hw Hb. rewrite step_fetch by auto. rewrite Hb. 
  eexists. split; [reflexivity|]. split; reflexivity.
Qed.

End Step.
