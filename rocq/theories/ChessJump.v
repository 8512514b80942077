(** The net effect of the jumps that the checker follows, and of whole labels. *)
From Verif Require Import Base VmModel AsmModel ChessModel ChessProofs ChessSize ChessDelta.
From Coq Require Import ZifyBool.
Open Scope list_scope.
Ltac Zify.zify_post_hook ::= Z.div_mod_to_equations.

(** ** Steps that record no jump *)
Definition nj {A} (m : C A) : Prop := forall x a x', m x = COk (a, x') -> h_jumps (x_h x') = h_jumps (x_h x).
Lemma nj_ret {A} (a : A) : nj (cret a).
Proof. intros x b x' H. inj H. reflexivity. Qed.
Lemma nj_get {A} (f : ctx -> A) : nj (get f).
Proof. intros x b x' H. inj H. reflexivity. Qed.
Lemma nj_bind {A B} (m : C A) (k : A -> C B) : nj m -> (forall a, nj (k a)) -> nj (cbind m k).
Proof.
  intros H K x b x' E. unfold cbind in E. destruct (m x) as [[a y]|] eqn:Em; [|discriminate].
  rewrite (K _ _ _ _ E). eauto.
Qed.
Lemma nj_act f : (forall x, h_jumps (x_h (f x)) = h_jumps (x_h x)) -> nj (act f).
Proof. intros F x b x' H. inj H. apply F. Qed.
Lemma nj_if {A} (b : bool) (m k : C A) : nj m -> nj k -> nj (if b then m else k).
Proof. destruct b; auto. Qed.
Lemma jumps_own x b : h_jumps (x_h (set_own_term x b)) = h_jumps (x_h x).
Proof. reflexivity. Qed.
Lemma jumps_error m x : h_jumps (x_h (error m x)) = h_jumps (x_h x).
Proof. reflexivity. Qed.
Lemma nj_err m : nj (err m).
Proof. apply nj_act. reflexivity. Qed.
Lemma nj_err_if b m : nj (err_if b m).
Proof. unfold err_if. destruct b; [apply nj_err|apply nj_ret]. Qed.
Lemma nj_warn_if b m : nj (warn_if b m).
Proof. unfold warn_if, warn. destruct b; [apply nj_act; reflexivity|apply nj_ret]. Qed.
Lemma jumps_set p x k : h_jumps (x_h (set_stack p x k)) = h_jumps (x_h x).
Proof. rewrite set_h. reflexivity. Qed.
Lemma nj_pop_byte p : nj (pop_byte p).
Proof.
  intros x v x' H. unfold pop_byte in H. destruct (_ <? 1); [inj H; apply jumps_error|].
  destruct (top_of _) as [top|]; [|discriminate]. destruct (v_short top).
  - pose proof (alloc_same x top) as A. destruct (alloc_node x top) as [n y]. cbn in A. inj H. rewrite jumps_set. apply A.
  - inj H. apply jumps_set.
Qed.
Lemma nj_pop p two : nj (pop_from p two).
Proof.
  unfold pop_from. destruct two; [|apply nj_pop_byte]. intros x v x' H. unfold pop_short in H.
  destruct (k_size _ <? 2); [inj H; apply jumps_error|].
  destruct (top_of _) as [top|]; [|discriminate]. destruct (v_short top); [inj H; apply jumps_set|].
  destruct (k_len _ <? 2); [discriminate|].
  destruct (pop_byte p x) as [[lo y]|] eqn:E1; [|discriminate].
  destruct (pop_byte p y) as [[hi z]|] eqn:E2; [|discriminate]. inj H.
  rewrite (nj_pop_byte _ _ _ _ E2). exact (nj_pop_byte _ _ _ _ E1).
Qed.
Lemma nj_push_ex r v : nj (push_ex r v).
Proof.
  intros x u x' H. unfold push_ex in H. destruct (x_term x); [inj H; reflexivity|]. destruct (256 <? _); inj H; [apply jumps_error|apply jumps_set].
Qed.
Lemma nj_check_values out r l : nj (check_values out r l).
Proof.
  induction l as [|v l IH]; cbn [check_values]; [apply nj_ret|]. apply nj_bind; [apply nj_pop|intros a]. apply nj_bind; [|intros; exact IH].
  unfold check_value. apply nj_bind; [apply nj_warn_if|intros _].
  repeat first [apply nj_bind; [first [apply nj_warn_if|apply nj_err_if]|intros _] | apply nj_warn_if | apply nj_err_if | apply nj_if | apply nj_ret].
Qed.
Lemma nj_check_stack out r l : nj (check_stack out r l).
Proof.
  intros x a x' H. unfold check_stack in H.
  set (y := if (if out then k_size (get_stack (Stk false r) x) =? sig_size l else sig_size l <=? k_size (get_stack (Stk false r) x)) then x else error CSizeMismatch x) in H.
  assert (G : h_jumps (x_h y) = h_jumps (x_h x)) by (unfold y; destruct (if out then _ else _); reflexivity).
  destruct (x_term y); [inj H; exact G|]. rewrite (nj_check_values _ _ _ _ _ _ H). exact G.
Qed.
Lemma nj_check_return : nj check_return.
Proof.
  intros x a x' H. unfold check_return in H. revert H. generalize (own_sig x). intros s H.
  refine (nj_bind _ _ _ _ x a x' H); [|intros]; apply nj_check_stack.
Qed.
Lemma nj_abs_jmp a : nj (abs_jmp a).
Proof.
  unfold abs_jmp. apply nj_if; [|apply nj_if].
  - apply nj_bind; [apply nj_get|intros]. apply nj_bind; [apply nj_err_if|intros]. apply nj_bind; [apply nj_act; intros; apply jumps_own|intros].
    apply nj_bind; [apply nj_check_return|intros]. apply nj_bind; [apply nj_act; reflexivity|intros; apply nj_ret].
  - apply nj_bind; [apply nj_act; reflexivity|intros; apply nj_ret].
  - apply nj_bind; [apply nj_err|intros; apply nj_ret].
Qed.
Lemma nj_push_all r l : nj (push_all r l).
Proof. induction l; cbn [push_all]; [apply nj_ret|]. apply nj_bind; [apply nj_push_ex|intros; auto]. Qed.
Lemma nj_short_circuit key sig : nj (short_circuit key sig).
Proof.
  unfold short_circuit. apply nj_bind; [apply nj_get|intros own]. apply nj_if; [apply nj_err|].
  apply nj_bind; [apply nj_check_stack|intros _]. apply nj_bind; [apply nj_check_stack|intros _].
  apply nj_bind; [apply nj_push_all|intros _]. apply nj_bind; [apply nj_push_all|intros _].
  apply nj_if.
  - apply nj_bind; [apply nj_get|intros r]. apply nj_if; [|apply nj_err].
    apply nj_bind; [apply nj_pop|intros a]. apply nj_bind; [apply nj_abs_jmp|intros b]. apply nj_if; [|apply nj_ret].
    apply nj_act. intros; apply jumps_own.
  - apply nj_bind; [apply nj_check_return|intros _]. apply nj_bind; [apply nj_act; reflexivity|intros _].
    apply nj_act. intros; apply jumps_own.
Qed.

(** A jump is recorded. *)
Definition arc (x x' : ctx) : Prop := exists key, h_jumps (x_h x) key = false /\ h_jumps (x_h x') key = true.
(** Like [sh], for executions in which a jump is recorded. *)
Definition sj (op : Z) {A} (m : C A) (d n : shift) : Prop :=
  forall x a x', xok x -> x_op x = op -> x_term x = false -> m x = COk (a, x') -> x_term x' = false -> arc x x' ->
    (forall p, n p <= size_of p x) /\ (forall p, size_of p x' = u8 (size_of p x + d p)).

Lemma sj_bind op {A B} (m : C A) (k : A -> C B) d1 n1 d2 n2 P :
  sh op m d1 n1 P -> (forall a, P a -> sj op (k a) d2 n2) -> tr m any -> ok_step m -> (forall a, ok_step (k a)) ->
  (forall p, (- n1 p <= d1 p <= 0) \/ n2 p <= 0) ->
  sj op (cbind m k) (then_d d1 d2) (then_n n1 d1 n2).
Proof.
  intros Hm Hk TM OM OK Side x b x' Hx O T H T' Arc. unfold cbind in H.
  destruct (m x) as [[a y]|] eqn:E; [|discriminate].
  pose proof (OM _ _ _ (ok_own _ Hx) E) as G1. pose proof (goes_has _ _ G1 (ok_own _ Hx)) as Hy.
  pose proof (OK _ _ _ _ Hy H) as G2.
  assert (Ty : x_term y = false).
  { destruct (x_term y) eqn:Ty; auto. rewrite (g_term _ _ G2 Ty) in T'. discriminate. }
  destruct (TM _ _ _ Hx E) as [Xy _].
  destruct (Hm _ _ _ Hx O T E Ty) as (A1 & A2 & A3 & A4).
  assert (Oy : x_op y = op) by (rewrite (g_op _ _ G1); exact O).
  assert (Arc' : arc y x') by (destruct Arc as (key & K1 & K2); exists key; rewrite A4; auto).
  destruct (Hk _ A3 _ _ _ Xy Oy Ty H T' Arc') as (B1 & B2).
  split; intros p; specialize (A1 p); specialize (A2 p); specialize (B1 p); specialize (B2 p);
    specialize (Side p); unfold then_d, then_n; pose proof (size_byte p x Hx); unfold is_byte, u8 in *.
  - destruct (n2 p <=? 0) eqn:N; [exact A1|]. lia.
  - lia.
Qed.
Lemma sj_weaken op {A} (m : C A) d n d' n' : sj op m d n ->
  (forall p, d p = d' p) -> (forall p, n' p <= n p) -> sj op m d' n'.
Proof.
  intros H D N x a x' Hx O T E T' Arc. destruct (H _ _ _ Hx O T E T' Arc) as (A1 & A2).
  split; intros p; [specialize (A1 p); specialize (N p); lia|]. rewrite <- D. apply A2.
Qed.
Lemma arc_irrefl x x' : h_jumps (x_h x') = h_jumps (x_h x) -> ~ arc x x'.
Proof. intros E (key & A & B). congruence. Qed.

Lemma sh_abs_jmp op a : sh op (abs_jmp a) zero zero any.
Proof.
  unfold abs_jmp. destruct (v_addr a && v_ret a).
  - intros x b x' Hx O T H T'. exfalso. revert H. unfold cbind.
    destruct (get own_sig x) as [[s y1]|]; [|discriminate]. cbv iota beta.
    destruct (err_if _ _ y1) as [[? y2]|]; [|discriminate]. cbv iota beta.
    destruct (act _ y2) as [[? y3]|]; [|discriminate]. cbv iota beta.
    destruct (check_return y3) as [[? y4]|]; [|discriminate]. unfold act, cret. intros H. inj H. discriminate T'.
  - destruct (v_const a).
    + apply sh_then; [|intros; apply sh_rett|apply tr_act; intros x Hx; destruct Hx; constructor; auto|ok_tac|intros; ok_tac].
      apply sh_act; [intros x p; destruct p as [[] []]|]; reflexivity.
    + apply sh_then; [exact (sh_err_if op true CUnknownJump)|intros; apply sh_rett|apply tr_err|ok_tac|intros; ok_tac].
Qed.
Lemma sj_cjump op a : sj op (cjump a) zero zero.
Proof.
  intros x u x' Hx O T H T' Arc. unfold cjump in H. rewrite T in H. cbv zeta in H.
  set (m1 := if v_short a then abs_jmp a ;;; cret tt else if v_const a then act (fun x => with_pc x (u16 (x_pc x + s8 (v_val a)))) else err CUnknownJump) in H.
  assert (S : sh op m1 zero zero any).
  { unfold m1. destruct (v_short a); [|destruct (v_const a)].
    - apply sh_then; [apply sh_abs_jmp|intros; apply sh_rett|eapply tr_any; apply tr_abs_jmp|ok_tac|intros; ok_tac].
    - apply sh_act; [intros y p; destruct p as [[] []]|]; reflexivity.
    - exact (sh_err_if op true CUnknownJump). }
  assert (N : nj m1).
  { unfold m1. destruct (v_short a); [|destruct (v_const a)].
    - apply nj_bind; [apply nj_abs_jmp|intros; apply nj_ret].
    - apply nj_act. reflexivity.
    - apply nj_err. }
  unfold cbind in H at 1. destruct (m1 x) as [[w y]|] eqn:E; [|discriminate]. clearbody m1.
  destruct (x_term y) eqn:Ty.
  { inj H. congruence. }
  destruct (S _ _ _ Hx O T E Ty) as (S1 & S2 & _ & S4). split; [exact S1|].
  assert (K : forall k, h_jumps (x_h y) k = h_jumps (x_h x) k) by (intros; rewrite (N _ _ _ E); reflexivity).
  assert (G : (if h_jumps (x_h y) (Z.lor (Z.shiftl (x_pc x) 16) (x_pc y))
    then COk (tt, terminate (with_h y (h_report (x_h y) RRepeat)))
    else COk (tt, with_h y (h_with_jump (x_h y) (Z.lor (Z.shiftl (x_pc x) 16) (x_pc y))))) = COk (u, x') ->
    forall p, size_of p x' = u8 (size_of p x + zero p)).
  { intros H'. destruct (h_jumps (x_h y) _); inj H'; [discriminate T'|].
    intros p. rewrite <- S2. destruct p as [[] []]; reflexivity. }
  assert (Gs : forall key sig, short_circuit key sig y = COk (u, x') -> False).
  { intros key sig H'. apply (arc_irrefl _ _ (eq_trans (nj_short_circuit _ _ _ _ _ H') (N _ _ _ E)) Arc). }
  destruct (h_infos (x_h y) (x_pc y)) as [[[] [sig|] ? ? ?]|]; auto; exfalso; eauto.
Qed.
Lemma sj_jump_conditional op c a : sj op (jump_conditional c a) zero zero.
Proof.
  unfold jump_conditional. destruct (v_const c && v_fork c).
  - destruct (v_val c =? 0); [|apply sj_cjump]. intros x u x' Hx O T H T' Arc. inj H. destruct (arc_irrefl x' x' eq_refl Arc).
  - eapply sj_weaken; [eapply sj_bind; [apply sh_fork|intros; apply sj_cjump|apply tr_fork; auto|ok_tac|intros; ok_tac|shift_tac]|shift_tac|shift_tac].
Qed.
Lemma sj_jump_stash op a r : sj op (jump_stash a r) (at_ (Stk false (negb r)) 2) zero.
Proof.
  unfold jump_stash. eapply sj_weaken.
  - eapply sj_bind; [apply sh_gett| |tr_tac|ok_tac|intros; ok_tac|].
    + intros pc _. eapply sj_bind; [apply (sh_push_ex op _ _ 2); [apply vok_lo; reflexivity|reflexivity]|intros; apply sj_cjump|apply tr_push_ex, vok_lo; reflexivity|ok_tac|intros; ok_tac|].
      intros p. right. unfold zero. lia.
    + intros p. right. destruct r, p as [[] []]; vm_compute; discriminate.
  - intros p. unfold then_d, zero. lia.
  - intros p. destruct r, p as [[] []]; vm_compute; discriminate.
Qed.

(** ** Whole labels *)
Definition label_delta (op : Z) (l : label) : shift :=
  match l with
  | BRK | JMI => zero
  | JCI => at_ (Stk false false) (-1)
  | JSI => at_ (Stk false true) 2
  | LITop _ _ => at_ (Stk false (fr op)) (wbytes (f2 op))
  | Poly b _ _ _ => delta op b
  end.
Definition label_need (op : Z) (l : label) : shift :=
  match l with
  | BRK | JMI | JSI | LITop _ _ => zero
  | JCI => at_ (Stk false false) 1
  | Poly b _ _ _ => need op b
  end.
Definition straight_label (l : label) : bool :=
  match l with LITop _ _ => true | Poly b _ _ _ => straight b | _ => false end.
Definition jump_label (l : label) : bool :=
  match l with JCI | JMI | JSI | Poly (JMP | JCN | JSR) _ _ _ => true | _ => false end.
Lemma sh_label op l : straight_label l = true -> sh op (run_label l) (label_delta op l) (label_need op l) any.
Proof.
  intros S. destruct l; try discriminate S; cbn [run_label label_delta label_need].
  - apply sh_LIT.
  - apply sh_poly, S.
Qed.
Lemma sh_jump_target op : sh op jump_target zero zero any.
Proof.
  unfold jump_target. apply sh_then; [apply sh_next_pc|intros|apply tr_next_pc|ok_tac|intros; ok_tac].
  apply sh_then; [apply sh_next_pc|intros|apply tr_next_pc|ok_tac|intros; ok_tac].
  apply sh_then; [apply sh_gett|intros|tr_tac|ok_tac|intros; ok_tac].
  destruct (_ && _).
  - apply sh_then; [apply sh_get_rom|intros|apply tr_get_rom|ok_tac|intros; ok_tac].
    apply sh_then; [apply sh_get_rom|intros|apply tr_get_rom|ok_tac|intros; ok_tac].
    apply sh_then; [apply sh_gett|intros; apply sh_rett|tr_tac|ok_tac|intros; ok_tac].
  - apply sh_then; [exact (sh_err_if op true CBadJumpTarget)|intros; apply sh_rett|apply tr_err|ok_tac|intros; ok_tac].
Qed.
Lemma sj_then op {A B} (m : C A) (k : A -> C B) d n : sh op m zero zero any -> (forall a, sj op (k a) d n) ->
  tr m any -> ok_step m -> (forall a, ok_step (k a)) -> sj op (cbind m k) d n.
Proof.
  intros. eapply sj_weaken; [eapply sj_bind; eauto| |].
  - intros p. unfold zero. lia.
  - intros p. reflexivity.
  - intros p. unfold then_n, zero. destruct (n p <=? 0) eqn:E; lia.
Qed.
(** The flags of a label are those of its opcode. *)
Definition flags_ok (e : label * Z) : bool :=
  match fst e with
  | Poly _ k r s => Bool.eqb k (fk (snd e)) && Bool.eqb r (fr (snd e)) && Bool.eqb s (f2 (snd e))
  | LITop r s => Bool.eqb r (fr (snd e)) && Bool.eqb s (f2 (snd e))
  | _ => negb (fk (snd e))
  end.
Lemma dispatch_flags op l : dispatch op = Some l -> flags_ok (l, op) = true.
Proof.
  unfold dispatch. destruct (find _ _) as [[l' n]|] eqn:F; [|discriminate]. apply find_some in F as [I E].
  intros H. injection H as <-. cbn in E. apply Z.eqb_eq in E as <-.
  assert (A : forallb flags_ok dispatch_table = true) by (vm_compute; reflexivity).
  rewrite forallb_forall in A. apply A. exact I.
Qed.
Lemma sj_label op l : jump_label l = true -> dispatch op = Some l -> sj op (run_label l) (label_delta op l) (label_need op l).
Proof.
  intros J D. apply dispatch_flags in D. destruct l as [| | | | |b k r s]; try discriminate J; cbn [run_label label_delta label_need].
  - assert (K : fk op = false) by (unfold flags_ok in D; cbn [fst snd] in D; apply Bool.negb_true_iff; exact D).
    apply sj_then; [apply sh_jump_target|intros a|eapply tr_any, tr_jump_target|ok_tac|intros; ok_tac].
    eapply sj_weaken; [eapply sj_bind; [apply sh_pop_ex|intros; apply sj_jump_conditional|eapply tr_any, tr_pop_ex|ok_tac|intros; ok_tac|]| |].
    + intros p. right. unfold zero. lia.
    + intros p; rewrite ?K; destruct p as [[] []]; reflexivity.
    + intros p; rewrite ?K; destruct p as [[] []]; vm_compute; discriminate.
  - apply sj_then; [apply sh_jump_target|intros a; apply sj_cjump|eapply tr_any, tr_jump_target|ok_tac|intros; ok_tac].
  - apply sj_then; [apply sh_jump_target|intros a; apply (sj_jump_stash op a false)|eapply tr_any, tr_jump_target|ok_tac|intros; ok_tac].
  - destruct b; try discriminate J; unfold poly.
    + eapply sj_weaken; [eapply sj_bind; [apply sh_cpop|intros; apply sj_cjump|solve [eapply tr_any; tr_tac]|ok_tac|intros; ok_tac|shift_tac]|fin|fin].
    + eapply sj_weaken; [eapply sj_bind; [apply sh_cpop| |solve [eapply tr_any; tr_tac]|ok_tac|intros; ok_tac|]| |].
      * intros a _. eapply sj_bind; [apply sh_flagr| |tr_tac|ok_tac|intros; ok_tac|].
        -- intros r' ->. eapply sj_bind; [apply sh_pop_ex|intros; apply sj_jump_conditional|solve [eapply tr_any; tr_tac]|ok_tac|intros; ok_tac|shift_tac].
        -- shift_tac.
      * shift_tac.
      * fin.
      * fin.
    + eapply sj_weaken; [eapply sj_bind; [apply sh_cpop| |solve [eapply tr_any; tr_tac]|ok_tac|intros; ok_tac|]| |].
      * intros a _. eapply sj_bind; [apply sh_flagr| |tr_tac|ok_tac|intros; ok_tac|].
        -- intros r' ->. apply sj_jump_stash.
        -- shift_tac.
      * shift_tac.
      * fin.
      * fin.
Qed.
