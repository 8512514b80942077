(** How the stack pointers of the VM move in one instruction. *)
From Verif Require Import Base VmModel ChessModel ChessSize ChessDelta.
From Coq Require Import ZifyBool.
Open Scope list_scope.
Ltac Zify.zify_post_hook ::= Z.div_mod_to_equations.

Section Vm.
Variable W : Type.
Variable dei : Z -> vm -> W -> res (Z * vm * W).
Variable deo : Z -> vm -> W -> res (vm * W).
Variable hi_first : bool.

(** Devices that leave the stack pointers alone. *)
Definition quiet : Prop :=
  (forall a v w b v' w', dei a v w = Ok (b, v', w') -> vm_wsp v' = vm_wsp v /\ vm_rsp v' = vm_rsp v) /\
  (forall a v w v' w', deo a v w = Ok (v', w') -> vm_wsp v' = vm_wsp v /\ vm_rsp v' = vm_rsp v).
Hypothesis Q : quiet.

Notation st := (st W).
Notation M := (M W).
Definition ptr (p : which) (s : st) : Z := getptr W (shadow p) (ret_stack p) s.
(** Every pointer moves by [d], modulo 256. *)
Definition vs {A} (m : M A) (d : shift) : Prop :=
  forall s a s', m s = Ok (a, s') -> forall p, (ptr p s' - ptr p s - d p) mod 256 = 0.

Lemma vs_bind {A B} (m : M A) (k : A -> M B) d1 d2 : vs m d1 -> (forall a, vs (k a) d2) -> vs (bind W m k) (then_d d1 d2).
Proof.
  intros H K s b s' E p. unfold bind in E. destruct (m s) as [[a y]|] eqn:Em; [|discriminate].
  specialize (H _ _ _ Em p). specialize (K _ _ _ _ E p). unfold then_d. lia.
Qed.
Lemma vs_same {A} (m : M A) : (forall s a s', m s = Ok (a, s') -> forall p, ptr p s' = ptr p s) -> vs m zero.
Proof. intros H s a s' E p. rewrite (H _ _ _ E p). unfold zero. replace (_ - _ - 0) with 0 by lia. reflexivity. Qed.
Lemma vs_weaken {A} (m : M A) d d' : vs m d -> (forall p, d p = d' p) -> vs m d'.
Proof. intros H D s a s' E p. rewrite <- D. eauto. Qed.
Lemma ptr_set k r n s p : ptr p (setptr W k r n s) = if same_stack p (Stk k r) then n else ptr p s.
Proof. destruct p as [[] []], k, r; reflexivity. Qed.
Lemma vs_ret {A} (a : A) : vs (ret W a) zero.
Proof. apply vs_same. intros s b s' E p. inversion E; subst. reflexivity. Qed.
Lemma vs_read r i : vs (stack_read W r i) zero.
Proof. apply vs_same. unfold stack_read. intros s b s' E p. destruct (aget _ _ _); inversion E; subst. reflexivity. Qed.
Lemma ptr_setstack r f s p : ptr p (setstack W r f s) = ptr p s.
Proof. destruct p as [[] []]; reflexivity. Qed.
Lemma vs_write r i v : vs (stack_write W r i v) zero.
Proof. apply vs_same. unfold stack_write. intros s b s' E p. destruct (aset _ _ _ _); inversion E; subst. apply ptr_setstack. Qed.
Lemma at_refl k r n : at_ (Stk k r) n (Stk k r) = n.
Proof. unfold at_. destruct k, r; reflexivity. Qed.
Lemma vs_pop1 k r : vs (pop1 W k r) (at_ (Stk k r) (-1)).
Proof.
  intros s a s' E p. unfold pop1 in E. pose proof (vs_read _ _ _ _ _ E p) as H. rewrite ptr_set in H.
  unfold zero, at_ in *. destruct (same_stack p (Stk k r)) eqn:S; [|lia].
  apply same_stack_spec in S. subst. change (ptr (Stk k r) s) with (getptr W k r s) in *. unfold u8 in H. lia.
Qed.
Lemma vs_pop2 k r : vs (pop2 W k r) (at_ (Stk k r) (-2)).
Proof.
  intros s a s' E p. unfold pop2 in E.
  assert (V : vs (bind W (stack_read W r (u8 (getptr W k r s - 2))) (fun hi => bind W (stack_read W r (u8 (u8 (getptr W k r s - 2) + 1)))
     (fun lo => ret W (Z.lor (Z.shiftl hi 8) lo)))) (then_d zero (then_d zero zero))).
  { apply vs_bind; [apply vs_read|intros]. apply vs_bind; [apply vs_read|intros; apply vs_ret]. }
  pose proof (V _ _ _ E p) as H. rewrite ptr_set in H.
  unfold then_d, zero, at_ in *. destruct (same_stack p (Stk k r)) eqn:S; [|lia].
  apply same_stack_spec in S. subst. change (ptr (Stk k r) s) with (getptr W k r s) in *. unfold u8 in H. lia.
Qed.
Lemma vs_pop k r s : vs (pop W k r s) (at_ (Stk k r) (- wbytes s)).
Proof.
  unfold pop. eapply vs_weaken; [apply vs_bind with (d2 := zero); [|intros; apply vs_ret]|].
  - instantiate (1 := at_ (Stk k r) (- wbytes s)). destruct s; [apply vs_pop2|apply vs_pop1].
  - intros p. unfold then_d, zero. lia.
Qed.
Lemma Ok_inj {A B} (a b : A) (x y : B) : Ok (a, x) = Ok (b, y) -> a = b /\ x = y.
Proof. intros H. injection H. auto. Qed.
Lemma vs_push r s v : vs (push W r s v) (at_ (Stk false r) (wbytes s)).
Proof.
  destruct s; intros x a x' E p; unfold push in E; [unfold push2, bind in E|unfold push1 in E].
  - destruct (stack_write W r _ _ x) as [[u y]|] eqn:E1; [|discriminate].
    destruct (stack_write W r _ _ y) as [[u' z]|] eqn:E2; [|discriminate]. apply Ok_inj in E as [_ <-].
    pose proof (vs_write _ _ _ _ _ _ E1 p). pose proof (vs_write _ _ _ _ _ _ E2 p). rewrite ptr_set.
    unfold zero, at_ in *. destruct (same_stack p (Stk false r)) eqn:S; [|lia].
    apply same_stack_spec in S. subst. change (ptr (Stk false r) x) with (getptr W false r x) in *. unfold u8, wbytes. lia.
  - pose proof (vs_write _ _ _ _ _ _ E p) as H. rewrite ptr_set in H.
    unfold zero, at_ in *. destruct (same_stack p (Stk false r)) eqn:S; [|lia].
    apply same_stack_spec in S. subst. change (ptr (Stk false r) x) with (getptr W false r x) in *. unfold u8, wbytes in *. lia.
Qed.
Lemma vs_getpc : vs (getpc W) zero.
Proof. apply vs_same. intros s a s' E p. inversion E; subst. reflexivity. Qed.
Lemma vs_setpc n : vs (setpc W n) zero.
Proof. apply vs_same. intros s a s' E p. inversion E; subst. destruct p as [[] []]; reflexivity. Qed.
Lemma vs_jump s v : vs (jump W s v) zero.
Proof.
  unfold jump. eapply vs_weaken; [apply vs_bind; [apply vs_getpc|intros; apply vs_setpc]|].
  intros p. reflexivity.
Qed.
Lemma vs_mem_read a : vs (mem_read W a) zero.
Proof. apply vs_same. unfold mem_read. intros s b s' E p. destruct (aget _ _ _); inversion E; subst. reflexivity. Qed.
Lemma vs_mem_write a v : vs (mem_write W a v) zero.
Proof. apply vs_same. unfold mem_write. intros s b s' E p. destruct (aset _ _ _ _); inversion E; subst. destruct p as [[] []]; reflexivity. Qed.
Lemma vs_lift {A} (r : res A) : vs (lift W r) zero.
Proof. apply vs_same. unfold lift. intros s b s' E p. destruct r; inversion E; subst. reflexivity. Qed.
Lemma vs_zero_bind {A B} (m : M A) (k : A -> M B) d : vs m zero -> (forall a, vs (k a) d) -> vs (bind W m k) d.
Proof. intros. eapply vs_weaken; [apply vs_bind; eauto|]. intros p. unfold then_d, zero. lia. Qed.
Lemma vs_load md s a : vs (load W md s a) zero.
Proof.
  unfold load. destruct s; [|apply vs_mem_read].
  apply vs_zero_bind; [apply vs_mem_read|intros]. apply vs_zero_bind; [apply vs_mem_read|intros; apply vs_ret].
Qed.
Lemma vs_store md s a v : vs (store W md s a v) zero.
Proof. unfold store. destruct s; [|apply vs_mem_write]. apply vs_zero_bind; [|intros]; apply vs_mem_write. Qed.

(** The pointers kept in the VM record do not change either. *)
Definition still {A} (m : M A) : Prop := forall s a s', m s = Ok (a, s') ->
  vm_wsp (s_vm W s') = vm_wsp (s_vm W s) /\ vm_rsp (s_vm W s') = vm_rsp (s_vm W s) /\
  s_wsp W s' = s_wsp W s /\ s_rsp W s' = s_rsp W s /\ s_kwsp W s' = s_kwsp W s /\ s_krsp W s' = s_krsp W s.
Lemma still_bind {A B} (m : M A) (k : A -> M B) : still m -> (forall a, still (k a)) -> still (bind W m k).
Proof.
  intros H K s b s' E. unfold bind in E. destruct (m s) as [[a y]|] eqn:Em; [|discriminate].
  destruct (H _ _ _ Em) as (A1 & A2 & A3 & A4 & A5 & A6). destruct (K _ _ _ _ E) as (B1 & B2 & B3 & B4 & B5 & B6).
  repeat split; congruence.
Qed.
Lemma still_ret {A} (a : A) : still (ret W a).
Proof. intros s b s' E. inversion E; subst. repeat split. Qed.
Lemma still_dei a : still (dev_in1 W dei a).
Proof.
  intros s b s' E. unfold dev_in1 in E. destruct (dei _ _ _) as [[[v vm'] w']|] eqn:D; inversion E; subst.
  destruct (proj1 Q _ _ _ _ _ _ D). cbn. repeat split; auto.
Qed.
Lemma still_deo a : still (call_deo W deo a).
Proof.
  intros s b s' E. unfold call_deo in E. destruct (deo _ _ _) as [[vm' w']|] eqn:D; inversion E; subst.
  destruct (proj2 Q _ _ _ _ _ D). cbn. repeat split; auto.
Qed.
Lemma still_write a v : still (dev_write W a v).
Proof. intros s b s' E. unfold dev_write in E. destruct (aset _ _ _ _); inversion E; subst. repeat split. Qed.
Lemma still_in s a : still (dev_in W dei hi_first s a).
Proof.
  unfold dev_in. destruct s; [destruct hi_first|apply still_dei];
    (apply still_bind; [apply still_dei|intros]; apply still_bind; [apply still_dei|intros; apply still_ret]).
Qed.
Lemma still_out s a v : still (dev_out W deo s a v).
Proof.
  unfold dev_out. destruct s.
  - apply still_bind; [apply still_write|intros]. apply still_bind; [apply still_write|intros].
    apply still_bind; [apply still_deo|intros; apply still_deo].
  - apply still_bind; [apply still_write|intros; apply still_deo].
Qed.
Lemma vs_host {A B} (m : M A) (k : A -> M B) d : still m -> (forall a, vs (k a) d) ->
  vs (bind W (save_state W) (fun _ => bind W m (fun a => bind W (load_state W) (fun _ => k a)))) d.
Proof.
  intros H K s b s' E p. unfold bind, save_state, load_state in E.
  destruct (m _) as [[a y]|] eqn:Em; [|discriminate].
  destruct (H _ _ _ Em) as (A1 & A2 & A3 & A4 & A5 & A6). cbn in A1, A2, A3, A4, A5, A6.
  specialize (K _ _ _ _ E p). destruct p as [[] []]; cbn in K |- *; rewrite ?A1, ?A2, ?A5, ?A6 in K; exact K.
Qed.

Ltac vs_leaf := lazymatch goal with
  | |- vs (pop _ _ _ _) _ => apply vs_pop
  | |- vs (push _ _ _ _) _ => apply vs_push
  | |- vs (getpc _) _ => apply vs_getpc
  | |- vs (setpc _ _) _ => apply vs_setpc
  | |- vs (jump _ _ _) _ => apply vs_jump
  | |- vs (load _ _ _ _) _ => apply vs_load
  | |- vs (store _ _ _ _ _) _ => apply vs_store
  | |- vs (lift _ _) _ => apply vs_lift
  | |- vs (ret _ _) _ => apply vs_ret
  end.
Ltac vs_tac := lazymatch goal with
  | |- vs (bind _ (save_state _) _) _ => idtac
  | |- vs (bind _ _ _) _ => eapply vs_bind; [vs_leaf|intros; vs_tac]
  | |- _ => vs_leaf end.
Definition moves (b : base) (k r s : bool) : shift := fun p =>
  (if same_stack p (Stk k r) then - takes b s else 0) +
  (if shadow p then 0 else if Bool.eqb (ret_stack p) r then puts b s else sends b s).
Ltac vfin := let p := fresh "p" in intros p; unfold moves, takes, puts, sends, then_d, at_, zero, wbytes, same_stack;
  destruct p as [[] []]; cbn [shadow ret_stack]; repeat match goal with |- context [if ?b then _ else _] => is_var b; destruct b | |- context [Bool.eqb _ ?b] => is_var b; destruct b | |- context [negb ?b] => is_var b; destruct b end; vm_compute; reflexivity.
Lemma vs_poly_op b k r s : vs (poly_op W dei deo hi_first b k r s) (moves b k r s).
Proof.
  destruct b; unfold poly_op, cmp_op, VmModel.bin_op.
  all: try (eapply vs_weaken; [solve [vs_tac]|vfin]).
  - (* JCN *) eapply vs_weaken; [apply vs_bind; [apply vs_pop|intros]; eapply vs_bind with (d2 := zero); [apply vs_pop|]|vfin].
    intros c. destruct (negb _); [apply vs_jump|apply vs_ret].
  - (* DEI *) eapply vs_weaken; [apply vs_bind; [apply vs_pop|intros; apply vs_host; [apply still_in|intros; apply vs_push]]|vfin].
  - (* DEO *) eapply vs_weaken.
    + apply vs_bind; [apply vs_pop|intros]. apply vs_bind with (d2 := zero); [apply vs_pop|intros].
      intros x u x' E p. refine (vs_host (dev_out W deo s a a0) (fun _ => ret W tt) zero _ _ x tt x' _ p).
      * apply still_out.
      * intros; apply vs_ret.
      * unfold bind, save_state, load_state, ret in *. destruct (dev_out _ _ _ _ _ _) as [[w y]|]; [|discriminate]. inversion E. reflexivity.
    + vfin.
Qed.
(** The shadow pointer of the stack the opcode does not use, and without the
    keep flag both, are left alone; only the real pointers matter afterwards. *)
Definition lit_moves (r s : bool) : shift := at_ (Stk false r) (wbytes s).
Definition label_moves (l : label) : shift :=
  match l with
  | BRK | JMI => zero
  | JCI => at_ (Stk false false) (-1)
  | JSI => at_ (Stk false true) 2
  | LITop r s => lit_moves r s
  | Poly b k r s => moves b k r s
  end.
Lemma ptr_keep k r p s : shadow p = false -> forall u s', keep_prologue W k r s = Ok (u, s') -> ptr p s' = ptr p s.
Proof.
  intros P u s' E. unfold keep_prologue in E. destruct k; inversion E; subst; auto.
  destruct p as [[] []], r; try discriminate P; reflexivity.
Qed.
Lemma exec_moves l s b s' : exec_label W dei deo hi_first l s = Ok (b, s') ->
  forall r, (ptr (Stk false r) s' - ptr (Stk false r) s - label_moves l (Stk false r)) mod 256 = 0.
Proof.
  intros E r. destruct l as [| | | |r1 s1|b1 k1 r1 s1]; cbn [exec_label label_moves] in *.
  - unfold bind, save_state, ret in E. inversion E; subst. destruct r; unfold zero, ptr; cbn; rewrite Z.sub_0_r, Z.sub_diag; reflexivity.
  - refine (vs_weaken _ _ _ _ _ s b s' E (Stk false r)).
    + apply vs_bind; [apply vs_pop|intros]. apply vs_bind; [apply vs_getpc|intros].
      apply vs_bind with (d1 := zero) (d2 := zero); [|intros; apply vs_ret].
      destruct (negb _); [apply vs_zero_bind; [apply vs_load|intros; apply vs_setpc]|apply vs_setpc].
    + vfin.
  - refine (vs_weaken _ _ _ _ _ s b s' E (Stk false r)).
    + vs_tac.
    + vfin.
  - refine (vs_weaken _ _ _ _ _ s b s' E (Stk false r)).
    + apply vs_bind; [apply vs_getpc|intros]. apply vs_bind; [apply (vs_push true true)|intros]. vs_tac.
    + vfin.
  - refine (vs_weaken _ _ _ _ _ s b s' E (Stk false r)).
    + vs_tac.
    + unfold lit_moves. vfin.
  - unfold bind at 1 in E. destruct (keep_prologue W k1 r1 s) as [[u y]|] eqn:Ek; [|discriminate].
    rewrite <- (ptr_keep k1 r1 (Stk false r) s eq_refl u y Ek).
    assert (V : vs (bind W (poly_op W dei deo hi_first b1 k1 r1 s1) (fun _ => ret W true)) (moves b1 k1 r1 s1)).
    { eapply vs_weaken; [apply vs_bind; [apply vs_poly_op|intros; apply vs_ret]|]. intros p. unfold then_d, zero. lia. }
    exact (V _ _ _ E (Stk false r)).
Qed.
End Vm.
