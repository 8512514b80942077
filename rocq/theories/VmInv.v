(** Whole runs with devices whose state [w] satisfies an invariant: if every
    device callback keeps the invariant and fails only with faults in [F], then
    so does every run.  This composes the device models with the VM. *)
From Verif Require Import Base VmModel VmSpec VmProofs VmStep VmRun.
From Coq Require Import ZifyBool.
Ltac Zify.zify_post_hook ::= Z.div_mod_to_equations.

(** [good N I F r]: the outcome of a callback in a machine with [N] bytes of memory. *)
Definition good_out {W} (N : Z) (I : W -> Prop) (F : fault -> Prop) (r : res (vm * W)) : Prop :=
  match r with
  | Ok (v, w) => well_typed v /\ vm_msize v = N /\ I w
  | Fault f => F f
  end.
Definition good_in {W} (N : Z) (I : W -> Prop) (F : fault -> Prop) (r : res (Z * vm * W)) : Prop :=
  match r with
  | Ok (_, v, w) => well_typed v /\ vm_msize v = N /\ I w
  | Fault f => F f
  end.
Definition host_good {W} (N : Z) (I : W -> Prop) (F : fault -> Prop)
  (dei : Z -> vm -> W -> res (Z * vm * W)) (deo : Z -> vm -> W -> res (vm * W)) : Prop :=
  (forall a v w, is_byte a -> well_typed v -> vm_msize v = N -> I w -> good_in N I F (dei a v w)) /\
  (forall a v w, is_byte a -> well_typed v -> vm_msize v = N -> I w -> good_out N I F (deo a v w)).

Set Default Proof Using "All".
Section Inv.
Variable W : Type.
Variable dei : Z -> vm -> W -> res (Z * vm * W).
Variable deo : Z -> vm -> W -> res (vm * W).
Variable hi_first : bool.
Variable N : Z.
Variable I : W -> Prop.
Variable F : fault -> Prop.
Variable HG : host_good N I F dei deo.

Lemma host_in_good s p v w : is_byte p -> well_typed v -> vm_msize v = N -> I w ->
  good_in N I F (host_in W dei hi_first s p v w).
Proof.
  intros Hp Hv Hn Hi. destruct HG as [HI _]. unfold host_in.
  assert (Hq : is_byte ((p + 1) mod 256)) by (unfold is_byte; lia).
  assert (G : forall p q (k : Z -> Z -> Z), is_byte p -> is_byte q ->
     good_in N I F (rbind (dei p v w) (fun '(a, v1, w1) => rbind (dei q v1 w1) (fun '(b, v2, w2) =>
       Ok (k a b, v2, w2))))).
  { intros p' q' k Hp' Hq'. pose proof (HI p' v w Hp' Hv Hn Hi) as G1.
    destruct (dei p' v w) as [[[a v1] w1]|f]; cbn [rbind]; [|exact G1].
    destruct G1 as (G1 & G2 & G3). pose proof (HI q' v1 w1 Hq' G1 G2 G3) as G4.
    destruct (dei q' v1 w1) as [[[b v2] w2]|f]; cbn [rbind]; exact G4. }
  destruct s; [destruct hi_first|].
  - apply (G p ((p + 1) mod 256) (fun a b => 256 * (a mod 256) + b mod 256)); auto.
  - apply (G ((p + 1) mod 256) p (fun a b => 256 * (b mod 256) + a mod 256)); auto.
  - pose proof (HI p v w Hp Hv Hn Hi) as G1.
    destruct (dei p v w) as [[[a v1] w1]|f]; cbn [rbind]; exact G1.
Qed.

Lemma host_out_good s p x v w : is_byte p -> well_typed v -> vm_msize v = N -> I w ->
  good_out N I F (host_out W deo s p x v w).
Proof.
  intros Hp Hv Hn Hi. destruct HG as [_ HO]. unfold host_out.
  assert (Hq : is_byte ((p + 1) mod 256)) by (unfold is_byte; lia).
  assert (Hv0 : well_typed (vm_set_dev v (apply_stores (vm_dev v) (store_bytes 256 (width s) p x)))).
  { apply wf_well_typed, set_dev_stores_wf, wf_well_typed, Hv. }
  cbv zeta. pose proof (HO p _ w Hp Hv0 Hn Hi) as G. set (v0 := vm_set_dev v _) in *.
  destruct (deo p v0 w) as [[v1 w1]|f]; cbn [rbind]; [|exact G].
  destruct s; [|exact G]. destruct G as (G1 & G2 & G3).
  exact (HO _ v1 w1 Hq G1 G2 G3).
Qed.

Definition good_st (x : st W) : Prop := wf_st W x /\ vm_msize (s_vm W x) = N /\ I (s_w W x).

Lemma consume_size v k r n : vm_msize (consume v k r n) = vm_msize v.
Proof. destruct k, r; reflexivity. Qed.

Lemma step_good x : good_st x ->
  match step W dei deo hi_first x with
  | Ok (true, x') => good_st x'
  | Ok (false, x') => well_typed (s_vm W x') /\ vm_msize (s_vm W x') = N /\ I (s_w W x')
  | Fault f => (exists n, n > 2147483647 /\ f = SignedOverflow n) \/ F f
  end.
Proof.
  intros (Hw & Hn & Hi). pose proof (opcode_byte _ x Hw) as Hop.
  set (op := opcode_at W x) in *.
  assert (Hbrk : is_brk op \/ ~ is_brk op) by (unfold is_brk; lia).
  destruct Hbrk as [Hb|Hb].
  { destruct (step_brk W dei deo hi_first x Hw Hb) as (x' & E1 & E2 & E3). rewrite E1, E2, E3.
    split; [apply wf_well_typed, sync_wf, Hw|auto]. }
  assert (Hdev : is_device_op op \/ ~ is_device_op op) by (unfold is_device_op; lia).
  destruct Hdev as [Hd|Hd].
  - rewrite step_fetch by auto. fold op. rewrite device_op_label by auto.
    pose proof (wf_fetched _ x Hw) as Hf.
    pose proof (port_of_byte W dei deo hi_first (flag op 64) _ Hf) as Hp.
    assert (Hc : forall n, well_typed (consume (sync W (fetched W x)) (flag op 128) (flag op 64) n)).
    { intros. apply wf_well_typed, consume_wf, sync_wf, Hf. }
    assert (Hz : forall n, vm_msize (consume (sync W (fetched W x)) (flag op 128) (flag op 64) n) = N).
    { intros. rewrite consume_size. exact Hn. }
    destruct (op mod 32 =? 22).
    + pose proof (exec_DEI W dei deo hi_first (flag op 128) (flag op 64) (flag op 32) (fetched W x) Hf) as H.
      pose proof (host_in_good (flag op 32) _ _ (s_w _ (fetched W x)) Hp (Hc 1) (Hz 1) Hi) as C.
      destruct (host_in _ _ _ _ _ _ _) as [[[b v] w]|f].
      * destruct C as (C1 & C2 & C3). destruct (H C1) as (x' & E1 & _ & E3 & E4 & E5). rewrite E1.
        split; [exact E5|]. split; congruence.
      * rewrite H. auto.
    + pose proof (exec_DEO W dei deo hi_first (flag op 128) (flag op 64) (flag op 32) (fetched W x) Hf) as H.
      pose proof (host_out_good (flag op 32) _ (value_of (flag op 64) (flag op 32) (abs W (fetched W x))) _
        (s_w _ (fetched W x)) Hp (Hc (1 + width (flag op 32))) (Hz (1 + width (flag op 32))) Hi) as C.
      destruct (host_out _ _ _ _ _ _ _) as [[v w]|f]; rewrite H.
      * destruct C as (C1 & C2 & C3). apply wf_well_typed in C1. split; [|split; auto].
        constructor; cbn; auto; apply C1 || apply Hf.
      * auto.
  - destruct (mul_overflows_dec op (abs W x)) as [Hm|Hm].
    + destruct (step_mul_overflow W dei deo hi_first x Hw Hm) as (v & Hv & E). rewrite E. eauto.
    + destruct (step_refines W dei deo hi_first x Hw Hb Hd Hm) as (x' & E & _ & (E1 & E2 & _) & E3).
      rewrite E. split; [auto|]. split; congruence.
Qed.

Lemma run_good fuel : forall x, good_st x ->
  match run W dei deo hi_first None fuel x with
  | Done _ v w => well_typed v /\ vm_msize v = N /\ I w
  | Crash _ f => (exists n, n > 2147483647 /\ f = SignedOverflow n) \/ F f
  | OutOfFuel _ => True
  end.
Proof.
  induction fuel as [|n IH]; intros x H; cbn [run]; auto.
  pose proof (step_good x H) as S. cbn [next_opcode].
  destruct (step W dei deo hi_first x) as [[[] x']|f]; auto. exact (IH x' S).
Qed.

Lemma execute_good fuel kw kr pc v w : well_typed v -> is_short pc -> vm_msize v = N -> I w ->
  match execute W dei deo hi_first None kw kr fuel pc v w with
  | Done _ v' w' => well_typed v' /\ vm_msize v' = N /\ I w'
  | Crash _ f => (exists n, n > 2147483647 /\ f = SignedOverflow n) \/ F f
  | OutOfFuel _ => True
  end.
Proof.
  intros Hv Hp Hn Hi. unfold execute. destruct (pc =? 0); auto.
  apply run_good. split; [apply (wf_initial W dei deo hi_first); auto|split; auto].
Qed.
End Inv.
