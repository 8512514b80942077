(** Device instructions and whole runs. *)
From Verif Require Import Base VmModel VmSpec VmProofs VmStep.
From Coq Require Import ZifyBool.
Ltac Zify.zify_post_hook ::= Z.div_mod_to_equations.

Lemma wf_well_typed v : wf_vm v <-> well_typed v.
Proof.
  unfold well_typed. split.
  - intros [? ? ? ? ? ? ?]. tauto.
  - intros (? & ? & ? & ? & ? & ? & ?). constructor; auto.
Qed.

(** Sub-conditions on device instructions of the reference. *)
Definition port_of (r : bool) (m : machine) : Z :=
  let q := if r then rst m else wst m in peek (cell q) 256 (depth q - 1) 1.
Definition value_of (r s : bool) (m : machine) : Z :=
  let q := if r then rst m else wst m in peek (cell q) 256 (depth q - 1 - width s) (width s).

Lemma device_op_label op : is_byte op -> is_device_op op ->
  spec_label op = Poly (if op mod 32 =? 22 then DEI else DEO) (flag op 128) (flag op 64) (flag op 32).
Proof.
  intros _ H. unfold spec_label, is_device_op in *.
  replace (op mod 32 =? 0) with false by lia.
  destruct H as [H|H]; rewrite H; reflexivity.
Qed.

Lemma mul_overflows_dec op m : mul_overflows op m \/ ~ mul_overflows op m.
Proof.
  rewrite mul_overflows_spec. cbv zeta.
  destruct (Z_lt_dec INT_MAX
    (peek (cell (if flag op 64 then rst m else wst m)) 256
       (depth (if flag op 64 then rst m else wst m) - 2 - 2) 2 *
     peek (cell (if flag op 64 then rst m else wst m)) 256
       (depth (if flag op 64 then rst m else wst m) - 2) 2)); [|tauto].
  destruct (flag op 32); [|right; intros (?&?&?&?); discriminate].
  destruct (Z.eq_dec (op mod 32) 0); [tauto|].
  destruct (operation (op mod 32)); try (right; intros (?&?&?&?); discriminate). auto.
Qed.

Set Default Proof Using "Type".
Section Run.
Variable W : Type.
Notation st := (st W).
Notation abs := (abs W).
Notation wf_st := (wf_st W).
Notation fetched := (fetched W).
Notation opcode_at := (opcode_at W).

(** The VM with up to date stack pointers. *)
Definition sync (x : st) : vm := vm_set_ptrs (s_vm _ x) (s_wsp _ x) (s_rsp _ x).

Lemma sync_wf x : wf_st x -> wf_vm (sync x).
Proof. intros [H1 H2 H3 H4]. destruct H1. constructor; cbn; auto. Qed.

Lemma abs_sync x : abs x = machine_of (sync x) (s_pc _ x).
Proof. reflexivity. Qed.

Lemma consume_wf v k r n : wf_vm v -> wf_vm (consume v k r n).
Proof.
  intros [H1 H2 H3 H4 H5 H6 H7]. destruct k, r; constructor; cbn; auto; unfold is_byte; lia.
Qed.

Lemma u8_mod x : u8 x mod 256 = u8 x.
Proof. unfold u8. lia. Qed.

Lemma set_dev_stores_wf v s p x :
  wf_vm v -> wf_vm (vm_set_dev v (apply_stores (vm_dev v) (store_bytes 256 (width s) p x))).
Proof.
  intros [H1 H2 H3 H4 H5 H6 H7]. constructor; cbn [vm_set_dev vm_wsp vm_rsp vm_ws vm_rs vm_dev vm_mem vm_msize]; auto.
  intros i Hi. apply apply_stores_byte; auto. intros; eapply store_bytes_bytes; eauto.
Qed.

Lemma push_spec (r s : bool) v (x : st) : wf_st x ->
  exists x', push W r s (u16 v) x = Ok (tt, x') /\
    machine_eq (abs x') (push_value r s v (abs x)) /\
    s_w _ x' = s_w _ x /\ vm_msize (s_vm _ x') = vm_msize (s_vm _ x) /\ wf_st x'.
Proof.
  intros Hw.
  destruct x as [[vwsp vrsp ws rs dev mem msz] wsp rsp kwsp krsp pc w].
  destruct Hw as [[T1 T2 T3 T4 T5 T6 T7] Hws Hrs Hpc].
  cbn in Hws, Hrs, Hpc, T1, T2, T3, T4, T5, T6, T7.
  assert (Hp : is_byte (if r then rsp else wsp)) by (destruct r; auto).
  rewrite push_eq by (destruct r; assumption). rewrite bytes_of_u16.
  pose proof (bytes_of_length s v) as Hl. pose proof (width_cases s) as Hs.
  eexists. split; [reflexivity|].
  unfold push_value. cbn [flatten flat_map]. rewrite app_nil_r.
  set (bs := bytes_of (width s, v)) in *.
  assert (Hbs : forall b, In b bs -> is_byte b) by (apply bytes_of_bytes).
  assert (Q : forall c p, is_byte p -> stack_eq
     (mkStack ((p + width s) mod 256) (wr c p bs)) (place (mkStack p c) p bs)).
  { intros c p Hpp. eapply stack_eq_wr'; [exact Hl|lia|reflexivity|lia|lia]. }
  assert (C : forall c p, is_byte p -> bytes_on 256 c -> bytes_on 256 (wr c p bs)).
  { intros c p Hpp Hc i Hi. destruct (Q c p Hpp) as [_ Q2]. cbn [cell] in Q2. rewrite Q2 by auto.
    apply (place_wf (mkStack p c) p bs Hbs Hc). auto. }
  assert (N : is_byte (((if r then rsp else wsp) + width s) mod 256)) by (unfold is_byte; lia).
  destruct r; (split; [|split; [reflexivity|split; [reflexivity|]]]).
  - split; [|split; [|split; [|split]]]; cbn; auto using stack_eq_refl.
  - constructor; [constructor| | |]; cbn; auto.
  - split; [|split; [|split; [|split]]]; cbn; auto using stack_eq_refl.
  - constructor; [constructor| | |]; cbn; auto.
Qed.

Variable dei : Z -> vm -> W -> res (Z * vm * W).
Variable deo : Z -> vm -> W -> res (vm * W).
Variable hi_first : bool.
Notation step := (step W dei deo hi_first).
Notation exec_label := (exec_label W dei deo hi_first).

Lemma dev_out_eq s p v (x : st) : is_byte p ->
  dev_out W deo s p v x =
  match host_out W deo s p v (s_vm _ x) (s_w _ x) with
  | Ok (v', w') => Ok (tt, mkSt W v' (s_wsp _ x) (s_rsp _ x) (s_kwsp _ x) (s_krsp _ x) (s_pc _ x) w')
  | Fault f => Fault f
  end.
Proof.
  intros Hp. unfold dev_out, host_out.
  assert (D : forall (a v : Z) (y : st), dev_write W (a mod 256) v y =
     Ok (tt, mkSt W (vm_set_dev (s_vm _ y) (upd (vm_dev (s_vm _ y)) (a mod 256) v)) (s_wsp _ y) (s_rsp _ y)
                  (s_kwsp _ y) (s_krsp _ y) (s_pc _ y) (s_w _ y))).
  { intros. unfold dev_write, aset. rewrite in_bounds_true; auto. apply Z.mod_pos_bound; reflexivity. }
  destruct s; unfold bind, call_deo; rewrite !D;
  cbn [s_vm s_wsp s_rsp s_kwsp s_krsp s_pc s_w width store_bytes Z.eqb Pos.eqb apply_stores fold_left].
  - rewrite u8_id by auto.
    change (u8 (p + 1)) with ((p + 1) mod 256).
    replace (u8 (Z.shiftr v 8)) with (v / 256 mod 256) by (rewrite Z.shiftr_div_pow2 by discriminate; reflexivity).
    change (u8 v) with (v mod 256).
    match goal with |- context [deo p ?a (s_w W x)] => set (v1 := a) end.
    match goal with |- context [rbind (deo p ?a (s_w W x))] => change a with v1 end.
    destruct (deo p v1 (s_w W x)) as [[v2 w2]|]; reflexivity.
  - rewrite u8_id by auto.
    change (u8 v) with (v mod 256).
    match goal with |- context [deo p ?a (s_w W x)] => set (v1 := a) end.
    match goal with |- context [rbind (deo p ?a (s_w W x))] => change a with v1 end.
    destruct (deo p v1 (s_w W x)) as [[v2 w2]|]; reflexivity.
Qed.

Lemma dev_in_eq s p (x : st) : is_byte p ->
  dev_in W dei hi_first s p x =
  match host_in W dei hi_first s p (s_vm _ x) (s_w _ x) with
  | Ok (b, v', w') => Ok (b, mkSt W v' (s_wsp _ x) (s_rsp _ x) (s_kwsp _ x) (s_krsp _ x) (s_pc _ x) w')
  | Fault f => Fault f
  end.
Proof.
  intros Hp. unfold dev_in, host_in.
  assert (J : forall a b, Z.lor (Z.shiftl (u8 a) 8) (u8 b) = 256 * (a mod 256) + b mod 256).
  { intros. apply join_eq; apply u8_range. }
  assert (U : u8 p = p) by (apply u8_id; auto).
  destruct s.
  - destruct hi_first; unfold bind, dev_in1, ret; rewrite U;
    change (u8 (p + 1)) with ((p + 1) mod 256).
    + destruct (dei p (s_vm W x) (s_w W x)) as [[[a v1] w1]|]; [|reflexivity].
      cbn [rbind s_vm s_wsp s_rsp s_kwsp s_krsp s_pc s_w].
      destruct (dei ((p + 1) mod 256) v1 w1) as [[[b v2] w2]|]; [|reflexivity].
      cbn [rbind]. rewrite J. reflexivity.
    + destruct (dei ((p + 1) mod 256) (s_vm W x) (s_w W x)) as [[[a v1] w1]|]; [|reflexivity].
      cbn [rbind s_vm s_wsp s_rsp s_kwsp s_krsp s_pc s_w].
      destruct (dei p v1 w1) as [[[b v2] w2]|]; [|reflexivity].
      cbn [rbind]. rewrite J. reflexivity.
  - unfold dev_in1. rewrite U.
    destruct (dei p (s_vm W x) (s_w W x)) as [[[a v1] w1]|]; reflexivity.
Qed.

Lemma exec_DEO (k r s : bool) (x : st) :
  wf_st x ->
  exec_label (Poly DEO k r s) x =
  match host_out W deo s (port_of r (abs x)) (value_of r s (abs x))
          (consume (sync x) k r (1 + width s)) (s_w _ x) with
  | Ok (v, w) =>
      Ok (true, mkSt W v (vm_wsp v) (vm_rsp v)
           (if k then if r then s_kwsp _ x else (s_wsp _ x - (1 + width s)) mod 256 else s_kwsp _ x)
           (if k then if r then (s_rsp _ x - (1 + width s)) mod 256 else s_krsp _ x else s_krsp _ x)
           (s_pc _ x) w)
  | Fault f => Fault f
  end.
Proof.
  intros Hw.
  destruct x as [[vwsp vrsp ws rs dev mem msz] wsp rsp kwsp krsp pc w].
  destruct Hw as [Hv Hws Hrs Hpc]. cbn in Hws, Hrs, Hpc.
  pose proof (wf_ws _ Hv) as Hb; pose proof (wf_rs _ Hv) as Hc; cbn in Hb, Hc.
  rewrite exec_poly. unfold poly, bind.
  assert (E : forall d, ((d - 1) mod 256 - width s) mod 256 = (d - (1 + width s)) mod 256).
  { intros. rewrite Zminus_mod_idemp_l. f_equal; lia. }
  destruct k, r; cbn [keep_prologue setptr getptr s_wsp s_rsp s_vm s_kwsp s_krsp s_pc s_w VmModel.poly_op];
  unfold bind; rewrite pop_eq by assumption; cbn [setptr getptr s_wsp s_rsp s_vm s_kwsp s_krsp s_pc s_w];
  rewrite pop_eq by assumption; cbn [getstack save_state setptr getptr s_wsp s_rsp s_vm s_kwsp s_krsp s_pc s_w vm_ws vm_rs];
  rewrite dev_out_eq by (apply peek_byte; assumption);
  change (width false) with 1; rewrite peek_mod_sub;
  unfold port_of, value_of, sync, consume, vm_set_ptrs;
  cbn [VmProofs.abs wst rst cell depth s_vm vm_ws vm_rs vm_set_ptrs vm_dev vm_mem vm_msize vm_wsp vm_rsp s_vm s_wsp s_rsp s_w s_kwsp s_krsp s_pc];
  rewrite ?E;
  match goal with |- context [host_out W deo s ?p ?v ?a w] => destruct (host_out W deo s p v a w) as [[v1 w1]|] end;
  reflexivity.
Qed.

Lemma exec_DEI (k r s : bool) (x : st) :
  wf_st x ->
  match host_in W dei hi_first s (port_of r (abs x)) (consume (sync x) k r 1) (s_w _ x) with
  | Ok (b, v, w) =>
      well_typed v ->
      exists x', exec_label (Poly DEI k r s) x = Ok (true, x') /\
        machine_eq (abs x') (push_value r s b (machine_of v (s_pc _ x))) /\
        s_w _ x' = w /\ vm_msize (s_vm _ x') = vm_msize v /\ wf_st x'
  | Fault f => exec_label (Poly DEI k r s) x = Fault f
  end.
Proof.
  intros Hw.
  destruct x as [[vwsp vrsp ws rs dev mem msz] wsp rsp kwsp krsp pc w].
  destruct Hw as [Hv Hws Hrs Hpc]. cbn in Hws, Hrs, Hpc.
  pose proof (wf_ws _ Hv) as Hb; pose proof (wf_rs _ Hv) as Hc; cbn in Hb, Hc.
  rewrite exec_poly. unfold poly, bind.
  destruct k, r; cbn [keep_prologue setptr getptr s_wsp s_rsp s_vm s_kwsp s_krsp s_pc s_w VmModel.poly_op];
  unfold bind; rewrite pop_eq by assumption; cbn [setptr getptr s_wsp s_rsp s_vm s_kwsp s_krsp s_pc s_w];
  cbn [getstack save_state setptr getptr s_wsp s_rsp s_vm s_kwsp s_krsp s_pc s_w vm_ws vm_rs];
  rewrite dev_in_eq by (apply peek_byte; assumption);
  change (width false) with 1; 
  unfold port_of, value_of, sync, consume, vm_set_ptrs;
  cbn [VmProofs.abs wst rst cell depth s_vm vm_ws vm_rs vm_set_ptrs vm_dev vm_mem vm_msize vm_wsp vm_rsp s_vm s_wsp s_rsp s_w s_kwsp s_krsp s_pc];
  match goal with |- context [host_in W dei hi_first s ?p ?a w] => destruct (host_in W dei hi_first s p a w) as [[[b v1] w1]|] end;
  try reflexivity.
  all: intros Ht; apply wf_well_typed in Ht;
    cbn [load_state s_vm s_kwsp s_krsp s_pc s_w].
  all: match goal with |- context [push W ?r ?s0 (u16 ?b0) ?y] =>
    destruct (push_spec r s0 b0 y) as (x' & E1 & E2 & E3 & E4 & E5);
    [constructor; cbn; auto; apply Ht|];
    rewrite E1; exists x';
    exact (conj eq_refl (conj E2 (conj E3 (conj E4 E5)))) end.
Qed.

(** ** One instruction, all cases *)

Set Default Proof Using "All".

Definition callback_fault (f : fault) : Prop :=
  exists a v w, is_byte a /\ well_typed v /\ (dei a v w = Fault f \/ deo a v w = Fault f).

Lemma host_in_cases s p v w : is_byte p -> well_typed v -> host_well_typed dei deo ->
  match host_in W dei hi_first s p v w with
  | Ok (_, v', _) => well_typed v'
  | Fault f => callback_fault f
  end.
Proof.
  intros Hp Hv [HI _]. unfold host_in, callback_fault.
  assert (Hq : is_byte ((p + 1) mod 256)) by (unfold is_byte; lia).
  destruct s; [destruct hi_first|].
  - destruct (dei p v w) as [[[a v1] w1]|f] eqn:E; cbn [rbind].
    + pose proof (HI _ _ _ _ _ _ Hp Hv E) as H1.
      destruct (dei ((p + 1) mod 256) v1 w1) as [[[b v2] w2]|f] eqn:E2; cbn [rbind].
      * eapply HI; [| |exact E2]; auto.
      * eauto 8.
    + eauto 8.
  - destruct (dei ((p + 1) mod 256) v w) as [[[a v1] w1]|f] eqn:E; cbn [rbind].
    + pose proof (HI _ _ _ _ _ _ Hq Hv E) as H1.
      destruct (dei p v1 w1) as [[[b v2] w2]|f] eqn:E2; cbn [rbind].
      * eapply HI; [| |exact E2]; auto.
      * eauto 8.
    + eauto 8.
  - destruct (dei p v w) as [[[a v1] w1]|f] eqn:E; cbn [rbind]; eauto 8.
Qed.

Lemma host_out_cases s p x v w : is_byte p -> well_typed v -> host_well_typed dei deo ->
  match host_out W deo s p x v w with
  | Ok (v', _) => well_typed v'
  | Fault f => callback_fault f
  end.
Proof.
  intros Hp Hv [_ HO]. unfold host_out, callback_fault.
  assert (Hq : is_byte ((p + 1) mod 256)) by (unfold is_byte; lia).
  assert (Hv0 : well_typed (vm_set_dev v (apply_stores (vm_dev v) (store_bytes 256 (width s) p x)))).
  { apply wf_well_typed, set_dev_stores_wf, wf_well_typed, Hv. }
  cbv zeta. set (v0 := vm_set_dev v _) in *.
  destruct (deo p v0 w) as [[v1 w1]|f] eqn:E; cbn [rbind]; [|eauto 8].
  pose proof (HO _ _ _ _ _ Hp Hv0 E) as H1.
  destruct s; auto.
  destruct (deo ((p + 1) mod 256) v1 w1) as [[v2 w2]|f] eqn:E2; eauto 8.
Qed.

Lemma port_of_byte r (x : st) : wf_st x -> is_byte (port_of r (abs x)).
Proof.
  intros [Hv _ _ _]. unfold port_of. apply peek_byte. destruct r; apply Hv.
Qed.

(** The outcomes of one instruction when the callbacks are well typed. *)
Lemma step_cases x : host_well_typed dei deo -> wf_st x ->
  match step x with
  | Ok (true, x') => wf_st x' /\ ~ is_brk (opcode_at x)
  | Ok (false, x') => is_brk (opcode_at x) /\ s_vm _ x' = sync x /\ s_w _ x' = s_w _ x
  | Fault f =>
      (mul_overflows (opcode_at x) (abs x) /\ exists v, v > 2147483647 /\ f = SignedOverflow v)
      \/ (is_device_op (opcode_at x) /\ callback_fault f)
  end.
Proof.
  intros HH Hw. pose proof (opcode_byte _ x Hw) as Hop.
  set (op := opcode_at x) in *.
  assert (Hbrk : is_brk op \/ ~ is_brk op) by (unfold is_brk; lia).
  destruct Hbrk as [Hb|Hb].
  { destruct (step_brk W dei deo hi_first x Hw Hb) as (x' & E1 & E2 & E3). rewrite E1. auto. }
  assert (Hdev : is_device_op op \/ ~ is_device_op op) by (unfold is_device_op; lia).
  destruct Hdev as [Hd|Hd].
  - rewrite step_fetch by auto. fold op. rewrite device_op_label by auto.
    pose proof (wf_fetched _ x Hw) as Hf.
    pose proof (port_of_byte (flag op 64) _ Hf) as Hp.
    assert (Hc : forall n, well_typed (consume (sync (fetched x)) (flag op 128) (flag op 64) n)).
    { intros. apply wf_well_typed, consume_wf, sync_wf, Hf. }
    destruct (op mod 32 =? 22).
    + pose proof (exec_DEI (flag op 128) (flag op 64) (flag op 32) (fetched x) Hf) as H.
      pose proof (host_in_cases (flag op 32) _ _ (s_w _ (fetched x)) Hp (Hc 1) HH) as C.
      destruct (host_in _ _ _ _ _ _ _) as [[[b v] w]|f].
      * destruct (H C) as (x' & E1 & _ & _ & _ & E5). rewrite E1. auto.
      * rewrite H. auto.
    + pose proof (exec_DEO (flag op 128) (flag op 64) (flag op 32) (fetched x) Hf) as H.
      pose proof (host_out_cases (flag op 32) _ (value_of (flag op 64) (flag op 32) (abs (fetched x))) _
        (s_w _ (fetched x)) Hp (Hc (1 + width (flag op 32))) HH) as C.
      destruct (host_out _ _ _ _ _ _ _) as [[v w]|f]; rewrite H.
      * apply wf_well_typed in C. split; auto.
        constructor; cbn; auto; apply C || apply Hf.
      * auto.
  - destruct (mul_overflows_dec op (abs x)) as [Hm|Hm].
    + destruct (step_mul_overflow W dei deo hi_first x Hw Hm) as (v & Hv & E). rewrite E. eauto.
    + destruct (step_refines W dei deo hi_first x Hw Hb Hd Hm) as (x' & E & _ & _ & E2).
      rewrite E. auto.
Qed.

(** ** Runs *)

Definition hook_fault (h : option (hook_fn W)) (f : fault) : Prop :=
  match h with
  | None => False
  | Some g => exists pc v w, is_short pc /\ well_typed v /\ g pc v w = Fault f
  end.

Definition hook_well_typed (h : option (hook_fn W)) : Prop :=
  match h with
  | None => True
  | Some g => forall pc v w v' w', is_short pc -> well_typed v -> g pc v w = Ok (v', w') -> well_typed v'
  end.

Lemma next_cases h x : host_well_typed dei deo -> hook_well_typed h -> wf_st x ->
  match next_opcode W dei deo hi_first h x with
  | Ok (true, x') => wf_st x'
  | Ok (false, x') => well_typed (s_vm _ x')
  | Fault f => (exists v, v > 2147483647 /\ f = SignedOverflow v) \/ callback_fault f \/ hook_fault h f
  end.
Proof.
  intros HH Hh Hw.
  assert (S : forall y, wf_st y -> match step y with
     | Ok (true, x') => wf_st x' | Ok (false, x') => well_typed (s_vm _ x')
     | Fault f => (exists v, v > 2147483647 /\ f = SignedOverflow v) \/ callback_fault f \/ hook_fault h f end).
  { intros y Hy. pose proof (step_cases y HH Hy) as H.
    destruct (step y) as [[[] x']|f]; try tauto.
    destruct H as (_ & -> & _). apply wf_well_typed, sync_wf, Hy. }
  destruct h as [g|]; cbn [next_opcode]; [|exact (S x Hw)].
  unfold bind, call_hook. cbn [hook_well_typed hook_fault] in *.
  assert (Ht : well_typed (vm_set_ptrs (s_vm W x) (s_wsp W x) (s_rsp W x)))
    by (apply wf_well_typed, sync_wf, Hw).
  destruct (g (s_pc W x) _ (s_w W x)) as [[v' w']|f] eqn:E.
  - apply S. destruct Hw as [w1 w2 w3 w4]. constructor; cbn; auto.
    apply wf_well_typed. eapply Hh; [|exact Ht|exact E]. auto.
  - right; right. exists (s_pc W x), (vm_set_ptrs (s_vm W x) (s_wsp W x) (s_rsp W x)), (s_w W x).
    split; [apply Hw|auto].
Qed.

Lemma run_cases h fuel : forall x, host_well_typed dei deo -> hook_well_typed h -> wf_st x ->
  match run W dei deo hi_first h fuel x with
  | Done _ v _ => well_typed v
  | Crash _ f => (exists v, v > 2147483647 /\ f = SignedOverflow v) \/ callback_fault f \/ hook_fault h f
  | OutOfFuel _ => True
  end.
Proof.
  induction fuel as [|n IH]; intros x HH Hh Hw; cbn [run]; auto.
  pose proof (next_cases h x HH Hh Hw) as H.
  destruct (next_opcode W dei deo hi_first h x) as [[[] x']|f]; auto.
  exact (IH x' HH Hh H).
Qed.

Lemma wf_initial kw kr pc v w : well_typed v -> is_short pc -> wf_st (initial W kw kr pc v w).
Proof.
  intros Hv Hp. apply wf_well_typed in Hv. constructor; cbn; auto; apply Hv.
Qed.

(** Memory above 64 KiB. *)
Definition high_kept (v v' : vm) : Prop :=
  vm_msize v' = vm_msize v /\ forall i, 65536 <= i -> vm_mem v' i = vm_mem v i.

Definition host_keeps_high : Prop :=
  (forall a v w b v' w', is_byte a -> well_typed v -> dei a v w = Ok (b, v', w') -> high_kept v v') /\
  (forall a v w v' w', is_byte a -> well_typed v -> deo a v w = Ok (v', w') -> high_kept v v').

Lemma high_kept_trans a b c : high_kept a b -> high_kept b c -> high_kept a c.
Proof. intros [H1 H2] [H3 H4]. split; [congruence|]. intros. rewrite H4, H2; auto. Qed.

Lemma host_in_high s p v w : is_byte p -> well_typed v -> host_well_typed dei deo -> host_keeps_high ->
  match host_in W dei hi_first s p v w with
  | Ok (_, v', _) => high_kept v v'
  | Fault f => True
  end.
Proof.
  intros Hp Hv [HI _] [HK _]. unfold host_in.
  assert (Hq : is_byte ((p + 1) mod 256)) by (unfold is_byte; lia).
  assert (G : forall p q, is_byte p -> is_byte q ->
     match rbind (dei p v w) (fun '(a, v1, w1) => rbind (dei q v1 w1) (fun '(b, v2, w2) =>
       Ok (if hi_first then 256 * (a mod 256) + b mod 256 else 256 * (b mod 256) + a mod 256, v2, w2))) with
     | Ok (_, v', _) => high_kept v v' | Fault _ => True end).
  { intros p' q' Hp' Hq'. destruct (dei p' v w) as [[[a v1] w1]|f] eqn:E; cbn [rbind]; auto.
    destruct (dei q' v1 w1) as [[[b v2] w2]|f] eqn:E2; cbn [rbind]; auto.
    eapply high_kept_trans; [exact (HK _ _ _ _ _ _ Hp' Hv E)|].
    exact (HK _ _ _ _ _ _ Hq' (HI _ _ _ _ _ _ Hp' Hv E) E2). }
  destruct s; [destruct hi_first; apply G; auto|].
  destruct (dei p v w) as [[[a v1] w1]|f] eqn:E; cbn [rbind]; eauto.
Qed.

Lemma host_out_high s p x v w : is_byte p -> well_typed v -> host_well_typed dei deo -> host_keeps_high ->
  match host_out W deo s p x v w with
  | Ok (v', _) => high_kept v v'
  | Fault f => True
  end.
Proof.
  intros Hp Hv [_ HO] [_ HK]. unfold host_out.
  assert (Hq : is_byte ((p + 1) mod 256)) by (unfold is_byte; lia).
  assert (Hv0 : well_typed (vm_set_dev v (apply_stores (vm_dev v) (store_bytes 256 (width s) p x)))).
  { apply wf_well_typed, set_dev_stores_wf, wf_well_typed, Hv. }
  cbv zeta. 
  assert (H0 : forall v', high_kept (vm_set_dev v (apply_stores (vm_dev v) (store_bytes 256 (width s) p x))) v' -> high_kept v v') by (intros v' H; exact H).
  set (v0 := vm_set_dev v _) in *.
  destruct (deo p v0 w) as [[v1 w1]|f] eqn:E; cbn [rbind]; [|eauto 8].
  pose proof (HO _ _ _ _ _ Hp Hv0 E) as H1. pose proof (HK _ _ _ _ _ Hp Hv0 E) as H2.
  destruct s; auto.
  destruct (deo ((p + 1) mod 256) v1 w1) as [[v2 w2]|f] eqn:E2; auto.
  apply H0. eapply high_kept_trans; [exact H2|]. eapply HK; [| |exact E2]; auto.
Qed.

Lemma consume_high v k r n : high_kept v (consume v k r n).
Proof. destruct k, r; split; reflexivity. Qed.

(** A CPU instruction never changes memory above 64 KiB. *)
Lemma step_high x : wf_st x -> host_well_typed dei deo -> (is_device_op (opcode_at x) -> host_keeps_high) ->
  forall b x', step x = Ok (b, x') -> high_kept (s_vm _ x) (s_vm _ x').
Proof.
  intros Hw HH HK b x' E. pose proof (opcode_byte _ x Hw) as Hop.
  pose proof (step_cases x HH Hw) as SC.
  set (op := opcode_at x) in *.
  assert (Hbrk : is_brk op \/ ~ is_brk op) by (unfold is_brk; lia).
  destruct Hbrk as [Hb|Hb].
  { destruct (step_brk W dei deo hi_first x Hw Hb) as (x1 & E1 & E2 & E3). rewrite E in E1.
    injection E1 as -> ->. rewrite E3. split; reflexivity. }
  assert (Hdev : is_device_op op \/ ~ is_device_op op) by (unfold is_device_op; lia).
  destruct Hdev as [Hd|Hd].
  - specialize (HK Hd). rewrite step_fetch in E by auto. fold op in E. rewrite device_op_label in E by auto.
    pose proof (wf_fetched _ x Hw) as Hf.
    pose proof (port_of_byte (flag op 64) _ Hf) as Hp.
    assert (Hc : forall n, well_typed (consume (sync (fetched x)) (flag op 128) (flag op 64) n)).
    { intros. apply wf_well_typed, consume_wf, sync_wf, Hf. }
    assert (Hcc : forall n v, high_kept (consume (sync (fetched x)) (flag op 128) (flag op 64) n) v ->
       high_kept (s_vm _ x) v).
    { intros n v H. apply (high_kept_trans _ (sync (fetched x))); [split; reflexivity|].
      eapply high_kept_trans; [apply consume_high|exact H]. }
    destruct (op mod 32 =? 22).
    + pose proof (exec_DEI (flag op 128) (flag op 64) (flag op 32) (fetched x) Hf) as H.
      pose proof (host_in_cases (flag op 32) _ _ (s_w _ (fetched x)) Hp (Hc 1) HH) as C.
      pose proof (host_in_high (flag op 32) _ _ (s_w _ (fetched x)) Hp (Hc 1) HH HK) as D.
      destruct (host_in _ _ _ _ _ _ _) as [[[c v] w]|f].
      * destruct (H C) as (x1 & E1 & E2 & _ & E4 & E5). rewrite E in E1. injection E1 as -> ->.
        apply Hcc in D. destruct D as [D1 D2]. split; [congruence|].
        intros i Hi. destruct E2 as (_ & _ & E2 & _). cbn in E2. rewrite E2. auto.
      * congruence.
    + pose proof (exec_DEO (flag op 128) (flag op 64) (flag op 32) (fetched x) Hf) as H.
      pose proof (host_out_high (flag op 32) _ (value_of (flag op 64) (flag op 32) (abs (fetched x))) _
        (s_w _ (fetched x)) Hp (Hc (1 + width (flag op 32))) HH HK) as C.
      destruct (host_out _ _ _ _ _ _ _) as [[v w]|f]; rewrite H in E; [|discriminate].
      injection E as <- <-. apply Hcc in C. exact C.
  - destruct (step x) as [[[] x1]|] eqn:E1; try discriminate; injection E as <- <-.
    + assert (Hm : ~ mul_overflows op (abs x)).
      { intros Hm. destruct (step_mul_overflow W dei deo hi_first x Hw Hm) as (v & Hv & E). congruence. }
      destruct (step_refines W dei deo hi_first x Hw Hb Hd Hm) as (x2 & E & E2 & (E3 & E4 & E5) & _).
      rewrite E1 in E. injection E as <-.
      split; [exact E4|]. intros i Hi.
      destruct E2 as (_ & _ & E2 & _). cbn in E2. rewrite E2.
      rewrite spec_step_high by lia. reflexivity.
    + destruct SC as [SC _]. contradiction.
Qed.

Lemma run_high fuel : forall x, wf_st x -> host_well_typed dei deo -> host_keeps_high ->
  forall v w, run W dei deo hi_first None fuel x = Done W v w -> high_kept (s_vm _ x) v.
Proof.
  induction fuel as [|n IH]; intros x Hw HH HK v w; cbn [run]; [discriminate|].
  pose proof (step_cases x HH Hw) as C.
  pose proof (step_high x Hw HH (fun _ => HK)) as G. cbn [next_opcode].
  destruct (step x) as [[[] x']|f]; try discriminate.
  - intros H. eapply high_kept_trans; [eapply G; eauto|]. eapply IH; eauto. tauto.
  - intros H. injection H as <- <-. eapply G; eauto.
Qed.

(** Reachability by single instructions. *)
Inductive steps : nat -> st -> st -> Prop :=
| steps_0 x : steps 0 x x
| steps_S n x y z : step x = Ok (true, y) -> steps n y z -> steps (S n) x z.

Lemma run_done_iff fuel : forall x, host_well_typed dei deo -> wf_st x ->
  forall v w, run W dei deo hi_first None fuel x = Done W v w <->
  exists n y, (n < fuel)%nat /\ steps n x y /\ is_brk (opcode_at y) /\ v = sync y /\ w = s_w _ y.
Proof.
  induction fuel as [|n IH]; intros x HH Hw v w; cbn [run].
  - split; [discriminate|]. intros (n & y & H & _). lia.
  - pose proof (step_cases x HH Hw) as C. cbn [next_opcode].
    destruct (step x) as [[[] x']|f] eqn:E.
    + rewrite IH by tauto. split.
      * intros (m & y & H1 & H2 & H3). exists (S m), y. split; [lia|]. split; auto.
        econstructor; eauto.
      * intros (m & y & H1 & H2 & H3 & H4). inversion H2; subst.
        -- destruct C as [_ C]. contradiction.
        -- assert (y0 = x') by congruence. subst. exists n0, y. split; [lia|auto].
    + destruct C as (C1 & C2 & C3). split.
      * intros H. injection H as <- <-. exists 0%nat, x. split; [lia|]. split; [constructor|auto].
      * intros (m & y & H1 & H2 & H3 & -> & ->). inversion H2; subst; [|congruence].
        congruence.
    + split; [discriminate|].
      intros (m & y & H1 & H2 & H3 & H4). inversion H2; subst; [|congruence].
      destruct (step_brk W dei deo hi_first y Hw H3) as (? & ? & _). congruence.
Qed.

Lemma run_fuel h fuel k : forall x v w,
  run W dei deo hi_first h fuel x = Done W v w -> run W dei deo hi_first h (fuel + k) x = Done W v w.
Proof.
  induction fuel as [|n IH]; intros x v w; cbn [run Nat.add]; [discriminate|].
  destruct (next_opcode W dei deo hi_first h x) as [[[] x']|f]; auto.
Qed.

End Run.
