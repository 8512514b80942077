(** Keep mode, return mode, address wrap-around and reset. *)
From Verif Require Import Base VmModel VmSpec VmProofs VmStep VmRun.
From Coq Require Import ZifyBool.
Ltac Zify.zify_post_hook ::= Z.div_mod_to_equations.

(** Exchange of the two stacks. *)
Definition swap_machine (m : machine) : machine :=
  mkMachine (rst m) (wst m) (ram m) (devp m) (ip m).
Definition swap_vm (v : vm) : vm :=
  mkVm (vm_rsp v) (vm_wsp v) (vm_rs v) (vm_ws v) (vm_dev v) (vm_mem v) (vm_msize v).

(** Keep versus plain variant on the stack the instruction works on: the same
    result bytes, above the operands instead of in their place. *)
Definition keep_vs_plain (n : Z) (q plain kept : stack) : Prop :=
  exists bs, Z.of_nat (length bs) <= 6 /\
    stack_eq plain (place q ((depth q - n) mod 256) bs) /\
    stack_eq kept (place q (depth q) bs) /\
    forall i, 1 <= i <= n -> cell kept ((depth q - i) mod 256) = cell q ((depth q - i) mod 256).

Definition check_bytes (f : Z -> bool) : bool := forallb f all_bytes.
Lemma check_bytes_spec f : check_bytes f = true -> forall op, is_byte op -> f op = true.
Proof. intros H op Hop. unfold check_bytes in H. rewrite forallb_forall in H. apply H, all_bytes_in, Hop. Qed.

Lemma flags_keep op : 0 <= op < 128 ->
  flag op 128 = false /\ flag (op + 128) 128 = true /\ flag (op + 128) 64 = flag op 64 /\
  flag (op + 128) 32 = flag op 32 /\ (op + 128) mod 32 = op mod 32.
Proof.
  intros H.
  assert (E : check_bytes (fun op => if op <? 128 then
    negb (flag op 128) && flag (op + 128) 128 && Bool.eqb (flag (op + 128) 64) (flag op 64) &&
    Bool.eqb (flag (op + 128) 32) (flag op 32) && ((op + 128) mod 32 =? op mod 32) else true) = true)
  by (vm_compute; reflexivity).
  pose proof (check_bytes_spec _ E op ltac:(unfold is_byte; lia)) as F. cbv beta in F.
  replace (op <? 128) with true in F by lia.
  rewrite !andb_true_iff, negb_true_iff, !eqb_true_iff in F. repeat split; try apply F. lia.
Qed.

Lemma flags_return op : is_byte op -> flag op 64 = false -> is_byte (op + 64) /\
  flag (op + 64) 64 = true /\ flag (op + 64) 128 = flag op 128 /\
  flag (op + 64) 32 = flag op 32 /\ (op + 64) mod 32 = op mod 32.
Proof.
  intros H H1.
  assert (E : check_bytes (fun op => if negb (flag op 64) then
    flag (op + 64) 64 && Bool.eqb (flag (op + 64) 128) (flag op 128) && (op + 64 <? 256) &&
    Bool.eqb (flag (op + 64) 32) (flag op 32) && ((op + 64) mod 32 =? op mod 32) else true) = true)
  by (vm_compute; reflexivity).
  pose proof (check_bytes_spec _ E op H) as F. cbv beta in F. rewrite H1 in F. cbn [negb] in F.
  rewrite !andb_true_iff, !eqb_true_iff in F. unfold is_byte in *.
  repeat split; try apply F; lia.
Qed.

Lemma flatten_length_le (o : base) s next mem args :
  Z.of_nat (length (flatten (pushes (reference o s next mem args)))) <= 6.
Proof.
  unfold reference. cbv zeta. destruct o;
  repeat match goal with |- context [match ?l with [] => _ | _ :: _ => _ end] => destruct l end;
  cbn [pushes flatten flat_map]; rewrite ?app_length, ?Nat2Z.inj_add, ?bytes_of_length, ?bytes_of_length1;
  cbn [length]; pose proof (width_cases s); lia.
Qed.

Lemma operand_total o s : 0 <= total (operand_widths o s) <= 6.
Proof. destruct o, s; cbn; lia. Qed.

Lemma stack_eq_sym a b : stack_eq a b -> stack_eq b a.
Proof. intros [H1 H2]. split; auto. intros. symmetry. auto. Qed.
Lemma stack_eq_trans a b c : stack_eq a b -> stack_eq b c -> stack_eq a c.
Proof. intros [H1 H2] [H3 H4]. split; [congruence|]. intros. rewrite H2; auto. Qed.

Lemma place_below q bs i n : Z.of_nat (length bs) <= 6 -> 0 <= n <= 6 -> 1 <= i <= n ->
  cell (place q (depth q) bs) ((depth q - i) mod 256) = cell q ((depth q - i) mod 256).
Proof.
  intros. cbn. replace (((depth q - i) mod 256 - depth q) mod 256 <? Z.of_nat (length bs)) with false; auto.
  symmetry. apply Z.ltb_ge. lia.
Qed.

(** Reference: the two modes of the same operation. *)
Lemma spec_poly_keep o r s m :
  let p := spec_poly o false r s m in
  let k := spec_poly o true r s m in
  (if r then wst p else rst p) = (if r then wst k else rst k) /\
  ram p = ram k /\ devp p = devp k /\ ip p = ip k /\
  exists bs, Z.of_nat (length bs) <= 6 /\
   (if r then rst p else wst p) = place (if r then rst m else wst m)
      ((depth (if r then rst m else wst m) - total (operand_widths o s)) mod 256) bs /\
   (if r then rst k else wst k) = place (if r then rst m else wst m)
      (depth (if r then rst m else wst m)) bs.
Proof.
  cbv zeta. unfold spec_poly; destruct r; cbn [wst rst ram devp ip]; repeat split; auto;
  eexists; (split; [apply flatten_length_le|split; reflexivity]).
Qed.

Lemma spec_poly_swap o k s m :
  spec_poly o k true s (swap_machine m) = swap_machine (spec_poly o k false s m).
Proof. reflexivity. Qed.

Set Default Proof Using "Type".
Section Modes.
Variable W : Type.
Variable dei : Z -> vm -> W -> res (Z * vm * W).
Variable deo : Z -> vm -> W -> res (vm * W).
Variable hi_first : bool.
Set Default Proof Using "All".

(** The part of an instruction behind the fetch (exec.h:36-39). *)
Definition exec_byte (op : Z) : M W bool :=
  match dispatch op with
  | Some l => exec_label W dei deo hi_first l
  | None => fun _ => Fault Uninit
  end.

Notation st := (st W).
Notation abs := (abs W).
Notation wf_st := (wf_st W).

(** The machine before the fetch, for a state behind it. *)
Definition before_fetch (x : st) : machine :=
  mkMachine (wst (abs x)) (rst (abs x)) (ram (abs x)) (devp (abs x)) ((s_pc _ x - 1) mod 65536).

Lemma at_before x : wf_st x -> at_label W x (before_fetch x).
Proof.
  intros [_ _ _ H]. unfold at_label, before_fetch. destruct x as [[] ? ? ? ? pc ?]. cbn in *.
  unfold is_short in H. f_equal. unfold VmProofs.abs; cbn. f_equal. lia.
Qed.

Lemma op_not_device op : ~ is_device_op op -> op mod 32 <> 0 ->
  operation (op mod 32) <> DEI /\ operation (op mod 32) <> DEO.
Proof.
  intros Hd H0. unfold is_device_op in Hd.
  assert (Hr : 0 <= op mod 32 < 32) by lia.
  assert (E : In (op mod 32) (map Z.of_nat (seq 0 32))).
  { apply in_map_iff. exists (Z.to_nat (op mod 32)). split; [lia|apply in_seq; lia]. }
  revert E Hd. generalize (op mod 32). intros n E Hd.
  cbn in E. repeat destruct E as [<-|E]; try contradiction; cbn; (split; try discriminate); lia.
Qed.

Lemma exec_byte_poly op x : is_byte op -> op mod 32 <> 0 -> ~ is_device_op op ->
  wf_st x ->
  ~ mul_overflows op (abs x) ->
  exists x', exec_byte op x = Ok (true, x') /\
    machine_eq (abs x') (spec_poly (operation (op mod 32)) (flag op 128) (flag op 64) (flag op 32) (before_fetch x)) /\
    same_rest W x x'.
Proof.
  intros Hop H0 Hd Hw Hm. unfold exec_byte. rewrite dispatch_spec by auto.
  unfold spec_label. replace (op mod 32 =? 0) with false by lia.
  destruct (op_not_device op Hd H0).
  destruct (poly_refines W dei deo hi_first (operation (op mod 32)) (flag op 128) (flag op 64) (flag op 32)
    x (before_fetch x)) as (x' & P1 & P2 & P3); auto.
  - intros HM1 HM2. cbv zeta.
    match goal with |- ?a <= INT_MAX => destruct (Z_le_gt_dec a INT_MAX); auto end.
    exfalso. apply Hm. apply mul_overflows_spec. repeat split; auto. cbv zeta.
    unfold before_fetch in *. cbn [wst rst] in *. lia.
  - apply at_before; auto.
  - exists x'. rewrite exec_poly, P1. auto.
Qed.

Lemma keep_mode op x : 0 <= op < 128 -> op mod 32 <> 0 -> ~ is_device_op op ->
  wf_st x -> ~ mul_overflows op (abs x) ->
  exists xp xk, exec_byte op x = Ok (true, xp) /\ exec_byte (op + 128) x = Ok (true, xk) /\
    let r := flag op 64 in
    keep_vs_plain (total (operand_widths (operation (op mod 32)) (flag op 32)))
      (if r then rst (abs x) else wst (abs x))
      (if r then rst (abs xp) else wst (abs xp)) (if r then rst (abs xk) else wst (abs xk)) /\
    stack_eq (if r then wst (abs xp) else rst (abs xp)) (if r then wst (abs xk) else rst (abs xk)) /\
    (forall i, ram (abs xp) i = ram (abs xk) i) /\
    (forall i, 0 <= i < 256 -> devp (abs xp) i = devp (abs xk) i) /\
    ip (abs xp) = ip (abs xk) /\ s_w _ xp = s_w _ x /\ s_w _ xk = s_w _ x.
Proof.
  intros Hop H0 Hd Hw Hm.
  destruct (flags_keep op Hop) as (F1 & F2 & F3 & F4 & F5).
  destruct (exec_byte_poly op x) as (xp & E1 & (E2a & E2b & E2c & E2d & E2e) & E3); auto.
  { unfold is_byte; lia. }
  destruct (exec_byte_poly (op + 128) x) as (xk & G1 & (G2a & G2b & G2c & G2d & G2e) & G3); auto.
  { unfold is_byte; lia. } { lia. }
  { unfold is_device_op in *. rewrite F5. auto. }
  { unfold mul_overflows in *. rewrite F3, F4, F5. auto. }
  exists xp, xk. split; auto. split; auto. cbv zeta.
  rewrite F1 in *. rewrite F2, F3, F4, F5 in *.
  set (o := operation (op mod 32)) in *. set (r := flag op 64) in *. set (s := flag op 32) in *.
  destruct (spec_poly_keep o r s (before_fetch x)) as (K1 & K2 & K3 & K4 & bs & K5 & K6 & K7).
  assert (HB : (if r then rst (before_fetch x) else wst (before_fetch x)) =
               (if r then rst (abs x) else wst (abs x))) by (destruct r; reflexivity).
  rewrite HB in *.
  assert (Q : stack_eq (if r then rst (abs xk) else wst (abs xk))
    (place (if r then rst (abs x) else wst (abs x)) (depth (if r then rst (abs x) else wst (abs x))) bs)).
  { rewrite <- K7. destruct r; auto. }
  split; [|split; [|split; [|split; [|split; [|split]]]]].
  - exists bs. split; [auto|]. split; [rewrite <- K6; destruct r; auto|]. split; [exact Q|].
    intros i Hi. destruct Q as [_ Q]. rewrite Q by lia.
    eapply place_below; eauto. apply operand_total.
  - destruct r.
    + eapply stack_eq_trans; [exact E2a|]. rewrite K1. apply stack_eq_sym. auto.
    + eapply stack_eq_trans; [exact E2b|]. rewrite K1. apply stack_eq_sym. auto.
  - intros. rewrite E2c, G2c, K2. auto.
  - intros. rewrite E2d, G2d, K3 by auto. auto.
  - congruence.
  - apply E3.
  - apply G3.
Qed.

(** Return mode. *)
Definition swap_st (x : st) : st :=
  mkSt W (swap_vm (s_vm _ x)) (s_rsp _ x) (s_wsp _ x) (s_krsp _ x) (s_kwsp _ x) (s_pc _ x) (s_w _ x).

Lemma swap_wf x : wf_st x -> wf_st (swap_st x).
Proof. intros [[] H2 H3 H4]. constructor; [constructor| | |]; cbn; auto. Qed.

(** Outcomes that correspond under the exchange of the stacks. *)
Definition swapped (a b : res (bool * st)) : Prop :=
  match a, b with
  | Ok (u, x), Ok (u', y) =>
      u = u' /\ machine_eq (abs y) (swap_machine (abs x)) /\ s_w _ y = s_w _ x /\
      vm_msize (s_vm _ y) = vm_msize (s_vm _ x)
  | Fault f, Fault g => f = g
  | _, _ => False
  end.

Lemma machine_eq_sym a b : machine_eq a b -> machine_eq b a.
Proof.
  intros (H1 & H2 & H3 & H4 & H5). split; [apply stack_eq_sym; auto|].
  split; [apply stack_eq_sym; auto|]. repeat split; intros; symmetry; auto.
Qed.
Lemma machine_eq_trans a b c : machine_eq a b -> machine_eq b c -> machine_eq a c.
Proof.
  intros (H1 & H2 & H3 & H4 & H5) (G1 & G2 & G3 & G4 & G5).
  split; [eapply stack_eq_trans; eauto|]. split; [eapply stack_eq_trans; eauto|].
  split; [intros; rewrite H3; auto|]. split; [intros; rewrite H4; auto|]. congruence.
Qed.
Lemma machine_eq_swap a b : machine_eq a b -> machine_eq (swap_machine a) (swap_machine b).
Proof. intros (H1 & H2 & H3 & H4 & H5). repeat split; cbn; auto; try apply H1; try apply H2. Qed.

(** The callbacks treat both stacks alike. *)
Definition host_symmetric : Prop :=
  (forall a v w, dei a (swap_vm v) w =
     match dei a v w with Ok (b, v', w') => Ok (b, swap_vm v', w') | Fault f => Fault f end) /\
  (forall a v w, deo a (swap_vm v) w =
     match deo a v w with Ok (v', w') => Ok (swap_vm v', w') | Fault f => Fault f end).

Lemma mul_overflow_exec op x :
  is_byte op -> wf_st x -> mul_overflows op (abs x) ->
  let q := if flag op 64 then rst (abs x) else wst (abs x) in
  exec_byte op x = Fault (SignedOverflow (peek (cell q) 256 (depth q - 2 - 2) 2 * peek (cell q) 256 (depth q - 2) 2)).
Proof.
  cbv zeta. intros Hop Hw Hm. apply mul_overflows_spec in Hm as (H1 & H2 & H3 & H4).
  unfold exec_byte. rewrite dispatch_spec by auto. unfold spec_label.
  replace (op mod 32 =? 0) with false by lia.
  rewrite H1, H3, exec_poly.
  rewrite (poly_MUL_overflow W dei deo hi_first (flag op 128) (flag op 64) x (before_fetch x) H4 Hw
             (at_before x Hw)).
  reflexivity.
Qed.

Lemma host_in_swap s p v w : host_symmetric ->
  host_in W dei hi_first s p (swap_vm v) w =
  match host_in W dei hi_first s p v w with Ok (b, v', w') => Ok (b, swap_vm v', w') | Fault f => Fault f end.
Proof.
  intros [HI _]. unfold host_in. destruct s; [destruct hi_first|].
  - rewrite HI. destruct (dei p v w) as [[[a v1] w1]|]; cbn [rbind]; auto.
    rewrite HI. destruct (dei _ v1 w1) as [[[b v2] w2]|]; auto.
  - rewrite HI. destruct (dei _ v w) as [[[a v1] w1]|]; cbn [rbind]; auto.
    rewrite HI. destruct (dei _ v1 w1) as [[[b v2] w2]|]; auto.
  - rewrite HI. destruct (dei p v w) as [[[a v1] w1]|]; cbn [rbind]; auto.
Qed.
Lemma host_out_swap s p x v w : host_symmetric ->
  host_out W deo s p x (swap_vm v) w =
  match host_out W deo s p x v w with Ok (v', w') => Ok (swap_vm v', w') | Fault f => Fault f end.
Proof.
  intros [_ HO]. unfold host_out. cbv zeta.
  change (vm_set_dev (swap_vm v) (apply_stores (vm_dev (swap_vm v)) (store_bytes 256 (width s) p x)))
    with (swap_vm (vm_set_dev v (apply_stores (vm_dev v) (store_bytes 256 (width s) p x)))).
  rewrite HO. destruct (deo p _ w) as [[v1 w1]|]; cbn [rbind]; auto.
  destruct s; auto.
Qed.

Lemma return_mode op x : is_byte op -> flag op 64 = false ->
  (op mod 32 <> 0 \/ op = 128 \/ op = 160) ->
  (is_device_op op -> host_symmetric /\ host_well_typed dei deo) -> wf_st x ->
  swapped (exec_byte op x) (exec_byte (op + 64) (swap_st x)).
Proof.
  intros Hop F0 HL HS Hw.
  destruct (flags_return op Hop F0) as (Hop' & F1 & F2 & F3 & F4).
  pose proof (swap_wf x Hw) as Hw'.
  assert (HL' : op mod 32 <> 0 \/ (op mod 32 = 0 /\ (op = 128 \/ op = 160))) by lia. clear HL.
  destruct HL' as [H0|[H0 HL]].
  - assert (Hdev : is_device_op op \/ ~ is_device_op op) by (unfold is_device_op; lia).
    destruct Hdev as [Hd|Hd].
    + destruct (HS Hd) as [Hsym Hty]. unfold exec_byte. rewrite !dispatch_spec by auto.
      rewrite !device_op_label; auto; [|unfold is_device_op in *; rewrite F4; auto].
      rewrite F0, F1, F2, F3, F4.
      destruct (op mod 32 =? 22).
      * pose proof (exec_DEI W dei deo hi_first (flag op 128) false (flag op 32) x Hw) as HA.
        pose proof (exec_DEI W dei deo hi_first (flag op 128) true (flag op 32) (swap_st x) Hw') as HB.
        replace (consume (sync W (swap_st x)) (flag op 128) true 1) with
          (swap_vm (consume (sync W x) (flag op 128) false 1)) in HB by (destruct (flag op 128); reflexivity).
        change (port_of true (abs (swap_st x))) with (port_of false (abs x)) in HB.
        rewrite host_in_swap in HB by auto. change (s_w W (swap_st x)) with (s_w W x) in HB.
        assert (Hwt : well_typed (consume (sync W x) (flag op 128) false 1))
          by (apply wf_well_typed, consume_wf, sync_wf, Hw).
        pose proof (host_in_cases W dei deo hi_first (flag op 32) _ _ (s_w _ x)
           (port_of_byte W dei deo hi_first false x Hw) Hwt Hty) as HC.
        destruct (host_in _ _ _ _ _ _ _) as [[[b v] w]|f].
        -- destruct (HA HC) as (x1 & A1 & A2 & A3 & A4 & A5).
           destruct HB as (y1 & B1 & B2 & B3 & B4 & B5).
           { destruct HC as (?&?&?&?&?&?&?). unfold well_typed, swap_vm; cbn. tauto. }
           rewrite A1, B1. unfold swap_vm in B4; cbn [vm_msize] in B4. cbn. split; auto. split; [|split; congruence].
           eapply machine_eq_trans; [exact B2|].
           eapply machine_eq_trans; [|apply machine_eq_swap, machine_eq_sym, A2].
           repeat split.
        -- rewrite HA, HB. reflexivity.
      * pose proof (exec_DEO W dei deo hi_first (flag op 128) false (flag op 32) x Hw) as HA.
        pose proof (exec_DEO W dei deo hi_first (flag op 128) true (flag op 32) (swap_st x) Hw') as HB.
        replace (consume (sync W (swap_st x)) (flag op 128) true (1 + width (flag op 32))) with
          (swap_vm (consume (sync W x) (flag op 128) false (1 + width (flag op 32)))) in HB
          by (destruct (flag op 128); reflexivity).
        change (port_of true (abs (swap_st x))) with (port_of false (abs x)) in HB.
        change (value_of true (flag op 32) (abs (swap_st x))) with (value_of false (flag op 32) (abs x)) in HB.
        rewrite host_out_swap in HB by auto. change (s_w W (swap_st x)) with (s_w W x) in HB.
        destruct (host_out _ _ _ _ _ _ _) as [[v w]|f]; rewrite HA, HB; cbn; auto.
        repeat split.
    + assert (Hm : mul_overflows op (abs x) \/ ~ mul_overflows op (abs x)).
      { rewrite mul_overflows_spec. cbv zeta.
        match goal with |- context [INT_MAX < ?a] => destruct (Z_lt_dec INT_MAX a); [|tauto] end.
        destruct (flag op 32); [|right; intros (?&?&?&?); discriminate].
        destruct (operation (op mod 32)); try (right; intros (?&?&?&?); discriminate). auto. }
      assert (HmE : mul_overflows (op + 64) (abs (swap_st x)) <-> mul_overflows op (abs x)).
      { unfold mul_overflows. rewrite F1, F3, F4, F0. reflexivity. }
      destruct Hm as [Hm|Hm].
      * pose proof (mul_overflow_exec op x Hop Hw Hm) as A. cbv zeta in A.
        pose proof (mul_overflow_exec (op + 64) (swap_st x) Hop' Hw' (proj2 HmE Hm)) as B. cbv zeta in B.
        rewrite A, B, F0, F1. reflexivity.
      * destruct (exec_byte_poly op x) as (xp & E1 & E2 & E3); auto.
        destruct (exec_byte_poly (op + 64) (swap_st x)) as (xk & G1 & G2 & G3); auto.
        { lia. } { unfold is_device_op in *. rewrite F4. auto. } { rewrite HmE. auto. }
        rewrite E1, G1. cbn. split; auto.
        destruct E3 as (E3 & E4 & _), G3 as (G3 & G4 & _).
        split; [|split; [cbn in *; congruence|cbn in *; congruence]].
        eapply machine_eq_trans; [exact G2|].
        rewrite F0, F1, F2, F3, F4 in *.
        change (before_fetch (swap_st x)) with (swap_machine (before_fetch x)).
        rewrite spec_poly_swap. apply machine_eq_swap, machine_eq_sym, E2.
  - assert (HD : forall y r s, wf_st y ->
       exists y', exec_label W dei deo hi_first (LITop r s) y = Ok (true, y') /\
       machine_eq (abs y') (spec_lit r s (before_fetch y)) /\ same_rest W y y').
    { intros y r s Hy. destruct (imm_refines W dei deo hi_first (LITop r s) (spec_lit r s) y (before_fetch y))
        as (y' & Q1 & Q2 & Q3); eauto 10. apply at_before; auto. }
    assert (exists s, dispatch op = Some (LITop false s) /\ dispatch (op + 64) = Some (LITop true s)) as (s & D1 & D2).
    { destruct HL as [-> | ->]; eexists; split; reflexivity. }
    unfold exec_byte. rewrite D1, D2.
    destruct (HD x false s Hw) as (x' & A1 & A2 & A3).
    destruct (HD (swap_st x) true s Hw') as (y' & B1 & B2 & B3).
    rewrite A1, B1. cbn. split; auto.
    destruct A3 as (A3 & A4 & _), B3 as (B3 & B4 & _).
    split; [|split; [cbn in *; congruence|cbn in *; congruence]].
    eapply machine_eq_trans; [exact B2|].
    eapply machine_eq_trans; [|apply machine_eq_swap, machine_eq_sym, A2]. repeat split.
Qed.

End Modes.
