(** The net effect of an opcode on the sizes of the stacks of the checker. *)
From Verif Require Import Base VmModel AsmModel ChessModel ChessProofs ChessSize.
From Coq Require Import ZifyBool.
Open Scope list_scope.
Ltac Zify.zify_post_hook ::= Z.div_mod_to_equations.

(** [sh op m d n Q]: if [m] goes through while the opcode is [op], every stack
    [p] had at least [n p] bytes and its size changes by [d p]; [Q] holds of
    the result. *)
Definition shift := which -> Z.
Definition sh (op : Z) {A} (m : C A) (d n : shift) (Q : A -> Prop) : Prop :=
  forall x a x', xok x -> x_op x = op -> x_term x = false -> m x = COk (a, x') -> x_term x' = false ->
    (forall p, n p <= size_of p x) /\
    (forall p, size_of p x' = u8 (size_of p x + d p)) /\
    Q a /\ h_jumps (x_h x') = h_jumps (x_h x).
Definition zero : shift := fun _ => 0.
Definition then_d (d1 d2 : shift) : shift := fun p => d1 p + d2 p.
Definition then_n (n1 d1 n2 : shift) : shift := fun p => if n2 p <=? 0 then n1 p else Z.max (n1 p) (n2 p - d1 p).

Lemma size_byte p x : xok x -> is_byte (size_of p x).
Proof. intros H. apply (xok_get p x H). Qed.

Section Op.
Variable op : Z.
Lemma sh_ret {A} (a : A) (Q : A -> Prop) : Q a -> sh op (cret a) zero zero Q.
Proof.
  intros Ha x b x' Hx O T H T'. inj H. split; [|split; [|split]]; auto; intros p; pose proof (size_byte p x' Hx);
  unfold is_byte, zero, u8 in *; lia.
Qed.
Lemma sh_get {A} (f : ctx -> A) (Q : A -> Prop) : (forall x, xok x -> x_op x = op -> Q (f x)) -> sh op (get f) zero zero Q.
Proof.
  intros Ha x b x' Hx O T H T'. inj H. split; [|split; [|split]]; auto; intros p; pose proof (size_byte p x' Hx);
  unfold is_byte, zero, u8 in *; lia.
Qed.
Lemma sh_act f : (forall x p, get_stack p (f x) = get_stack p x) -> (forall x, h_jumps (x_h (f x)) = h_jumps (x_h x)) ->
  sh op (act f) zero zero any.
Proof.
  intros F J x b x' Hx O T H T'. inj H. split; [|split; [|split; [exact I|apply J]]]; intros p; unfold size_of;
    try rewrite F; pose proof (size_byte p x Hx); unfold is_byte, zero, u8, size_of in *; lia.
Qed.
Lemma sh_bind {A B} (m : C A) (k : A -> C B) d1 n1 d2 n2 P Q :
  sh op m d1 n1 P -> (forall a, P a -> sh op (k a) d2 n2 Q) -> tr m any -> ok_step m -> (forall a, ok_step (k a)) ->
  (forall p, (- n1 p <= d1 p <= 0) \/ n2 p <= 0) ->
  sh op (cbind m k) (then_d d1 d2) (then_n n1 d1 n2) Q.
Proof.
  intros Hm Hk TM OM OK Side x b x' Hx O T H T'. unfold cbind in H.
  destruct (m x) as [[a y]|] eqn:E; [|discriminate].
  pose proof (OM _ _ _ (ok_own _ Hx) E) as G1. pose proof (goes_has _ _ G1 (ok_own _ Hx)) as Hy.
  pose proof (OK _ _ _ _ Hy H) as G2.
  assert (Ty : x_term y = false).
  { destruct (x_term y) eqn:Ty; auto. rewrite (g_term _ _ G2 Ty) in T'. discriminate. }
  destruct (TM _ _ _ Hx E) as [Xy _].
  destruct (Hm _ _ _ Hx O T E Ty) as (A1 & A2 & A3 & A4).
  assert (Oy : x_op y = op) by (rewrite (g_op _ _ G1); exact O).
  destruct (Hk _ A3 _ _ _ Xy Oy Ty H T') as (B1 & B2 & B3 & B4).
  split; [|split; [|split; [exact B3|congruence]]]; intros p; specialize (A1 p); specialize (A2 p); specialize (B1 p); specialize (B2 p);
    specialize (Side p); unfold then_d, then_n; pose proof (size_byte p x Hx); unfold is_byte, u8 in *.
  - destruct (n2 p <=? 0) eqn:N; [exact A1|]. lia.
  - lia.
Qed.
Lemma sh_weaken {A} (m : C A) d n d' n' Q : sh op m d n Q ->
  (forall p, d p = d' p) -> (forall p, n' p <= n p) -> sh op m d' n' Q.
Proof.
  intros H D N x a x' Hx O T E T'. destruct (H _ _ _ Hx O T E T') as (A1 & A2 & A3 & A4).
  split; [|split; [|split; [exact A3|exact A4]]]; intros p; [specialize (A1 p); specialize (N p); lia|].
  rewrite <- D. apply A2.
Qed.

Definition f2 : bool := Z.testbit op 5.
Definition fr : bool := Z.testbit op 6.
Definition fk : bool := Z.testbit op 7.
Definition same_stack (p q : which) : bool := Bool.eqb (shadow p) (shadow q) && Bool.eqb (ret_stack p) (ret_stack q).
Lemma same_stack_spec p q : same_stack p q = true <-> p = q.
Proof. destruct p as [[] []], q as [[] []]; cbn; split; intros H; try reflexivity; try discriminate. Qed.
Definition at_ (p : which) (n : Z) : which -> Z := fun q => if same_stack q p then n else 0.

Lemma sh_pop_ex two r : sh op (pop_ex two r) (at_ (Stk fk r) (- wbytes two)) (at_ (Stk fk r) (wbytes two))
  (fun v => vok v /\ v_short v = two).
Proof.
  intros x v x' Hx O T H T'. pose proof (pop_ex_size _ _ _ _ _ Hx T H T') as ((P1 & P2 & P3) & Q1 & Q2 & Q3).
  destruct (tr_pop_ex _ _ _ _ _ Hx H) as [_ V].
  assert (K : flag_k x = fk) by (unfold flag_k, fk; congruence). rewrite K in *.
  split; [|split; [|split; [split; [exact V|]|exact Q2]]].
  - intros p. unfold at_. destruct (same_stack p _) eqn:E; [|apply (size_byte p x Hx)].
    apply same_stack_spec in E. subst. exact P1.
  - intros p. unfold at_. pose proof (size_byte p x Hx). destruct (same_stack p _) eqn:E.
    + apply same_stack_spec in E. subst. rewrite P2. f_equal.
    + unfold size_of in *. rewrite P3; [unfold u8, is_byte in *; lia|]. intros ->.
      assert (same_stack (Stk fk r) (Stk fk r) = true) by (apply same_stack_spec; reflexivity). congruence.
  - unfold pop_ex in H. rewrite T in H. eapply pop_from_short; eauto.
Qed.
Lemma sh_cpop : sh op cpop (at_ (Stk fk fr) (- wbytes f2)) (at_ (Stk fk fr) (wbytes f2)) (fun v => vok v /\ v_short v = f2).
Proof.
  intros x v x' Hx O T H T'. unfold cpop in H.
  replace (flag_2 x) with f2 in H by (unfold flag_2, f2; congruence).
  replace (flag_r x) with fr in H by (unfold flag_r, fr; congruence).
  exact (sh_pop_ex _ _ _ _ _ Hx O T H T').
Qed.
Lemma sh_push_ex r v n : vok v -> vsize v = n -> sh op (push_ex r v) (at_ (Stk false r) n) zero any.
Proof.
  intros V S x u x' Hx O T H T'. destruct (push_ex_size _ _ _ _ _ V T H T') as ((P1 & P2) & Q1 & Q2).
  split; [intros p; apply (size_byte p x Hx)|]. split; [|split; [exact I|congruence]].
  intros p. unfold at_. pose proof (size_byte p x Hx). destruct (same_stack p _) eqn:E.
  - apply same_stack_spec in E. subst. exact P1.
  - unfold size_of in *. rewrite P2; [unfold u8, is_byte in *; lia|]. intros ->.
    assert (same_stack (real r) (Stk false r) = true) by (apply same_stack_spec; reflexivity). congruence.
Qed.
Lemma sh_cpush v n : vok v -> vsize v = n -> sh op (cpush v) (at_ (Stk false fr) n) zero any.
Proof.
  intros V S x u x' Hx O T H T'. unfold cpush in H.
  replace (flag_r x) with fr in H by (unfold flag_r, fr; congruence).
  exact (sh_push_ex _ _ _ V S _ _ _ Hx O T H T').
Qed.
Lemma sh_flag2 : sh op (get flag_2) zero zero (fun b => b = f2).
Proof. apply sh_get. intros x _ O. unfold flag_2, f2. congruence. Qed.
Lemma sh_flagr : sh op (get flag_r) zero zero (fun b => b = fr).
Proof. apply sh_get. intros x _ O. unfold flag_r, fr. congruence. Qed.
Lemma sh_gett {A} (f : ctx -> A) : sh op (get f) zero zero any.
Proof. apply sh_get. intros; exact I. Qed.
Lemma sh_rett {A} (a : A) : sh op (cret a) zero zero any.
Proof. apply sh_ret. exact I. Qed.
Lemma sh_warn_if b m : sh op (warn_if b m) zero zero any.
Proof.
  unfold warn_if, warn. destruct b; [|apply sh_rett].
  apply sh_act; [intros x p; destruct p as [[] []]; reflexivity|reflexivity].
Qed.
Lemma sh_warn m : sh op (warn m) zero zero any.
Proof. exact (sh_warn_if true m). Qed.
Lemma sh_fork f : sh op (fork f) zero zero any.
Proof. apply sh_act; [intros x p; destruct p as [[] []]; reflexivity|reflexivity]. Qed.
Lemma sh_report a v : sh op (report_deo a v) zero zero any.
Proof.
  apply sh_act; [intros x p|intros x]; cbv beta; destruct (v_const a && v_const v), (v_short v);
    try destruct p as [[] []]; reflexivity.
Qed.
Lemma sh_err_if b m : sh op (err_if b m) zero zero any.
Proof.
  intros x a x' Hx O T H T'. unfold err_if in H. destruct b; [inj H; discriminate T'|].
  exact (sh_rett tt _ _ _ Hx O T H T').
Qed.
Lemma wb_size v two : v_short v = two -> vsize v = wbytes two.
Proof. intros <-. reflexivity. Qed.
Lemma side_zero (n1 d1 : shift) : (forall p, (- n1 p <= d1 p <= 0) \/ zero p <= 0).
Proof. intros p. right. unfold zero. lia. Qed.
End Op.

Ltac sh_leaf :=
  first [ apply sh_cpop | apply sh_pop_ex | apply sh_flag2 | apply sh_flagr | apply sh_gett
        | apply sh_rett | apply sh_warn_if | apply sh_warn | apply sh_fork | apply sh_report | apply sh_err_if ].
Ltac sh_push := first [eapply sh_cpush | eapply sh_push_ex]; [solve [eauto with trdb | apply vok_lo; reflexivity]|solve [apply wb_size; eassumption | apply wb_size; cbn [v_short]; reflexivity | reflexivity]].
Ltac shift_tac := let p := fresh "p" in intros p; unfold then_d, then_n, at_, zero, wbytes, vsize, same_stack; cbn [v_short];
  destruct p as [[] []]; repeat match goal with |- context [fk ?o] => destruct (fk o) | |- context [fr ?o] => destruct (fr o) | |- context [f2 ?o] => destruct (f2 o) end;
  vm_compute; first [reflexivity | intuition (try discriminate; try congruence)].
Ltac sh_tac :=
  lazymatch goal with
  | |- sh _ (cbind _ _) _ _ _ =>
      eapply sh_bind; [first [sh_leaf|sh_push] | intros ? ?; cbv beta in *; try subst; repeat match goal with H : vok _ /\ _ |- _ => destruct H end; sh_tac
        | solve [eapply tr_any; tr_tac] | solve [ok_tac] | intros; solve [ok_tac] | shift_tac]
  | |- _ => first [sh_leaf|sh_push]
  end.

(** Bytes an opcode takes from its own stack, puts on it, and puts on the
    other one. *)
Definition takes (b : base) (two : bool) : Z :=
  let n := wbytes two in
  match b with
  | INC | POP | DUP | JMP | JSR | STH => n
  | NIP | SWP | OVR | EQU | NEQ | GTH | LTH | ADD | SUB | MUL | DIV | AND | ORA | EOR => 2 * n
  | ROT => 3 * n
  | JCN | SFT | STZ | STR | DEO => n + 1
  | LDZ | LDR | DEI => 1
  | LDA => 2
  | STA => n + 2
  end.
Definition puts (b : base) (two : bool) : Z :=
  let n := wbytes two in
  match b with
  | INC | NIP | LDZ | LDR | LDA | DEI | ADD | SUB | MUL | DIV | AND | ORA | EOR | SFT => n
  | SWP | DUP => 2 * n
  | ROT | OVR => 3 * n
  | EQU | NEQ | GTH | LTH => 1
  | POP | JMP | JCN | JSR | STH | STZ | STR | STA | DEO => 0
  end.
Definition sends (b : base) (two : bool) : Z :=
  match b with JSR => 2 | STH => wbytes two | _ => 0 end.
Definition delta (op : Z) (b : base) : shift := fun p =>
  let 'Stk s r := p in
  (if Bool.eqb s (fk op) && Bool.eqb r (fr op) then - takes b (f2 op) else 0)
  + (if s then 0 else if Bool.eqb r (fr op) then puts b (f2 op) else sends b (f2 op)).
Definition need (op : Z) (b : base) : shift := fun p => at_ (Stk (fk op) (fr op)) (takes b (f2 op)) p.

Ltac fin := let p := fresh "p" in intros p; unfold delta, need, takes, puts, sends, then_d, then_n, at_, zero, wbytes, vsize, same_stack; cbn [v_short];
  destruct p as [[] []]; repeat match goal with |- context [fk ?o] => destruct (fk o) | |- context [fr ?o] => destruct (fr o) | |- context [f2 ?o] => destruct (f2 o) end;
  vm_compute; first [reflexivity | discriminate].

Lemma sh_boolean op f : sh op (boolean_op f)
  (fun p => at_ (Stk (fk op) (fr op)) (- (2 * wbytes (f2 op))) p + at_ (Stk false (fr op)) 1 p)
  (at_ (Stk (fk op) (fr op)) (2 * wbytes (f2 op))) any.
Proof.
  unfold boolean_op. eapply sh_weaken.
  - eapply sh_bind; [sh_leaf| |solve [eapply tr_any; tr_tac]|ok_tac|intros; ok_tac|].
    + intros b Hb. eapply sh_bind; [sh_leaf| |solve [eapply tr_any; tr_tac]|ok_tac|intros; ok_tac|].
      * intros a Ha. cbv zeta. destruct (v_const a && v_const b && v_fork a && v_fork b).
        -- eapply sh_weaken with (d' := at_ (Stk false (fr op)) 1) (n' := zero); [sh_tac|shift_tac|shift_tac].
        -- eapply sh_weaken.
           ++ eapply sh_bind; [sh_leaf| |solve [eapply tr_any; tr_tac]|ok_tac|intros; ok_tac|].
              ** intros r ->. eapply sh_bind; [apply sh_fork| | |ok_tac|intros; ok_tac|].
                 --- intros _ _. sh_tac.
                 --- apply tr_fork. intros e K1 K2. destruct (fr op); cbn; split; auto; split; auto;
                     apply kok_raw; auto; apply vok_lo; reflexivity.
                 --- shift_tac.
              ** shift_tac.
           ++ shift_tac.
           ++ shift_tac.
      * shift_tac.
    + shift_tac.
  - fin.
  - fin.
Qed.

Lemma sh_if_term op {A} (a : A) (m : C A) d n Q : sh op m d n Q -> sh op (fun x => if x_term x then COk (a, x) else m x) d n Q.
Proof. intros H x b x' Hx O T E T'. rewrite T in E. eapply H; eauto. Qed.
Lemma sh_lookup op f g w : sh op (fun x => match h_infos (x_h x) (f x) with
    | Some i => COk (info_value i, x)
    | None => (warn_if (g x) w ;;; cret v0) x end) zero zero (fun v => v_lo v = false).
Proof.
  intros x v x' Hx O T H T'. destruct (h_infos (x_h x) (f x)).
  - exact (sh_ret op (info_value i) (fun v => v_lo v = false) eq_refl x _ _ Hx O T H T').
  - assert (S : sh op (warn_if (g x) w ;;; cret v0) (then_d zero zero) (then_n zero zero zero) (fun v => v_lo v = false)).
    { eapply sh_bind; [apply sh_warn_if|intros _ _; apply sh_ret; reflexivity|apply tr_warn_if|ok_tac|intros; ok_tac|shift_tac]. }
    eapply sh_weaken in S; [eapply S; eauto| |]; shift_tac.
Qed.
Lemma tr_lookup f g w : tr (fun x => match h_infos (x_h x) (f x) with
    | Some i => COk (info_value i, x)
    | None => (warn_if (g x) w ;;; cret v0) x end) any.
Proof.
  intros x v x' Hx H. destruct (h_infos (x_h x) (f x)); [inj H; split; [auto|exact I]|].
  revert H Hx. generalize (g x). intros b H Hx. revert H. unfold cbind. destruct (warn_if b w x) as [[u y]|] eqn:E; [|discriminate].
  intros H. inj H. split; [|exact I]. eapply tr_warn_if; eauto.
Qed.
Lemma ok_lookup f g w : ok_step (fun x => match h_infos (x_h x) (f x) with
    | Some i => COk (info_value i, x)
    | None => (warn_if (g x) w ;;; cret v0) x end).
Proof.
  intros x v x' Hx H. destruct (h_infos (x_h x) (f x)); [inj H; apply goes_refl|].
  unfold cbind in H. destruct (warn_if (g x) w x) as [[u y]|] eqn:E; [|discriminate].
  inj H. eapply ok_warn_if; eauto.
Qed.
Lemma sh_cload op a : sh op (cload a) (at_ (Stk false (fr op)) (wbytes (f2 op))) zero any.
Proof.
  unfold cload. apply sh_if_term. eapply sh_weaken.
  - eapply sh_bind; [apply sh_warn_if| |apply tr_warn_if|ok_tac| |].
    + intros _ _. eapply (sh_bind op _ _ zero zero _ _ (fun v => v_lo v = false)).
      * destruct (v_const a); [|apply sh_ret; reflexivity].
        exact (sh_lookup op (fun _ => v_val a) (fun x => is_code (h_syms (x_h x) (v_val a))) WLoadCode).
      * intros v Hv. eapply sh_bind; [apply sh_flag2| |tr_tac|ok_tac|intros; ok_tac|].
        -- intros two ->. apply (sh_cpush op _ (wbytes (f2 op))); [apply vok_set_short, Hv|reflexivity].
        -- shift_tac.
      * apply tr_if; [|apply tr_rett].
        exact (tr_lookup (fun _ => v_val a) (fun x => is_code (h_syms (x_h x) (v_val a))) WLoadCode).
      * apply ok_if; [|ok_tac].
        exact (ok_lookup (fun _ => v_val a) (fun x => is_code (h_syms (x_h x) (v_val a))) WLoadCode).
      * intros; ok_tac.
      * shift_tac.
    + intros _. apply ok_bind; [|intros; ok_tac]. apply ok_if; [|ok_tac].
        exact (ok_lookup (fun _ => v_val a) (fun x => is_code (h_syms (x_h x) (v_val a))) WLoadCode).
    + shift_tac.
  - shift_tac.
  - shift_tac.
Qed.
Lemma sh_cstore op a : sh op (cstore a) zero zero any.
Proof.
  unfold cstore. apply sh_if_term. 
  assert (S : sh op (fun x : ctx => match h_infos (x_h x) (v_val a) with
      | Some _ => COk (tt, x) | None => warn_if (is_code (h_syms (x_h x) (v_val a))) WStoreCode x end) zero zero any).
  { intros x v x' Hx O T H T'. destruct (h_infos (x_h x) (v_val a)).
    - exact (sh_rett op tt x _ _ Hx O T H T').
    - exact (sh_warn_if op _ _ x _ _ Hx O T H T'). }
  assert (K : ok_step (fun x : ctx => match h_infos (x_h x) (v_val a) with
      | Some _ => COk (tt, x) | None => warn_if (is_code (h_syms (x_h x) (v_val a))) WStoreCode x end)).
  { intros x v x' Hx H. destruct (h_infos (x_h x) (v_val a)); [inj H; apply goes_refl|eapply ok_warn_if; eauto]. }
  eapply sh_weaken.
  - eapply sh_bind; [apply sh_warn_if| |apply tr_warn_if|ok_tac| |].
    + intros _ _. destruct (v_const a); [exact S|apply sh_rett].
    + intros _. destruct (v_const a); [exact K|apply ok_ret].
    + shift_tac.
  - shift_tac.
  - shift_tac.
Qed.
Lemma sh_compute op f (b : bool) : sh op (if b then fun x => match f with COk n => COk (u16 n, x) | CFault e => CFault e end else cret 0) zero zero any.
Proof.
  intros x v x' Hx O T H T'. destruct b; [|exact (sh_rett op 0 x _ _ Hx O T H T')].
  destruct f; [|discriminate]. exact (sh_rett op (u16 a) x _ _ Hx O T H T').
Qed.
Lemma sh_bin op b f : sh op (bin_op b f)
  (fun p => at_ (Stk (fk op) (fr op)) (- (2 * wbytes (f2 op))) p + at_ (Stk false (fr op)) (wbytes (f2 op)) p)
  (at_ (Stk (fk op) (fr op)) (2 * wbytes (f2 op))) any.
Proof.
  unfold bin_op.
  assert (K : forall (c : bool) (r : cres Z), ok_step (if c then fun x : ctx => match r with COk n => COk (u16 n, x) | CFault e => CFault e end else cret 0)).
  { intros c r. destruct c; [|ok_tac]. intros x v x' Hx H. destruct r; [inj H; apply goes_refl|discriminate]. }
  assert (TT : forall (c : bool) (r : cres Z), tr (if c then fun x : ctx => match r with COk n => COk (u16 n, x) | CFault e => CFault e end else cret 0) any).
  { intros c r. destruct c; [|tr_tac]. intros x v x' Hx H. destruct r; [inj H; split; [auto|exact I]|discriminate]. }
  eapply sh_weaken.
  - eapply sh_bind; [sh_leaf| |solve [eapply tr_any; tr_tac]|ok_tac|intros; apply (ok_bin_op b f) || idtac|].
    + intros v Hv. eapply sh_bind; [sh_leaf| |solve [eapply tr_any; tr_tac]|ok_tac| |].
      * intros a Ha. eapply sh_bind; [apply sh_flag2| |tr_tac|ok_tac| |].
        -- intros two ->. eapply sh_bind; [apply sh_compute| |apply TT|apply K|intros; ok_tac|].
           ++ intros n _. apply (sh_cpush op _ (wbytes (f2 op))); [apply vok_lo; reflexivity|reflexivity].
           ++ shift_tac.
        -- intros. apply ok_bind; [apply K|intros; ok_tac].
        -- shift_tac.
      * intros. apply ok_bind; [ok_tac|intros]. apply ok_bind; [apply K|intros; ok_tac].
      * shift_tac.
    + apply ok_bind; [ok_tac|intros]. apply ok_bind; [ok_tac|intros]. apply ok_bind; [apply K|intros; ok_tac].
    + shift_tac.
  - fin.
  - fin.
Qed.

Definition straight (b : base) : bool := match b with JMP | JCN | JSR => false | _ => true end.
Lemma sh_then_load op two (g : value -> C unit) :
  (forall a, sh op (g a) (at_ (Stk false (fr op)) (wbytes (f2 op))) zero any) -> (forall a, ok_step (g a)) ->
  sh op (r <- get flag_r ;; a <- pop_ex two r ;; g a)
    (fun p => at_ (Stk (fk op) (fr op)) (- wbytes two) p + at_ (Stk false (fr op)) (wbytes (f2 op)) p)
    (at_ (Stk (fk op) (fr op)) (wbytes two)) any.
Proof.
  intros G K. eapply sh_weaken.
  - eapply sh_bind; [apply sh_flagr| |solve [eapply tr_any; tr_tac]|ok_tac|intros; ok_tac|].
    + intros r ->. eapply sh_bind; [apply sh_pop_ex| |solve [eapply tr_any; tr_tac]|ok_tac|intros; ok_tac|].
      * intros a _. apply G.
      * destruct two; shift_tac.
    + destruct two; shift_tac.
  - destruct two; fin.
  - destruct two; fin.
Qed.
Lemma sh_then_store op two (g : value -> C unit) :
  (forall a, sh op (g a) zero zero any) -> (forall a, ok_step (g a)) ->
  sh op (r <- get flag_r ;; a <- pop_ex two r ;; cpop ;;; g a)
    (fun p => at_ (Stk (fk op) (fr op)) (- (wbytes two + wbytes (f2 op))) p)
    (at_ (Stk (fk op) (fr op)) (wbytes two + wbytes (f2 op))) any.
Proof.
  intros G K. eapply sh_weaken.
  - eapply sh_bind; [apply sh_flagr| |solve [eapply tr_any; tr_tac]|ok_tac|intros; ok_tac|].
    + intros r ->. eapply sh_bind; [apply sh_pop_ex| |solve [eapply tr_any; tr_tac]|ok_tac|intros; ok_tac|].
      * intros a _. eapply sh_bind; [apply sh_cpop| |solve [eapply tr_any; tr_tac]|ok_tac|intros; ok_tac|].
        -- intros _ _. apply G.
        -- shift_tac.
      * destruct two; shift_tac.
    + destruct two; shift_tac.
  - destruct two; fin.
  - destruct two; fin.
Qed.
Lemma sh_then op {A B} (m : C A) (k : A -> C B) d n Q : sh op m zero zero any -> (forall a, sh op (k a) d n Q) ->
  tr m any -> ok_step m -> (forall a, ok_step (k a)) -> sh op (cbind m k) d n Q.
Proof.
  intros. eapply sh_weaken; [eapply sh_bind; eauto| |].
  - intros p. unfold zero. lia.
  - intros p. reflexivity.
  - intros p. unfold then_n, zero. destruct (n p <=? 0) eqn:E; lia.
Qed.
Lemma vok_inc v : vok (inc_value v).
Proof. apply vok_lo. reflexivity. Qed.
Lemma vok_plain b : vok (plain b).
Proof. apply vok_lo. reflexivity. Qed.
Lemma sh_poly op b : straight b = true -> sh op (poly b) (delta op b) (need op b) any.
Proof.
  intros S. destruct b; try discriminate S; unfold poly;
  try (eapply sh_weaken; [first [apply sh_boolean|apply sh_bin]|fin|fin]).
  - eapply sh_weaken; [eapply sh_bind; [apply sh_cpop| |solve [eapply tr_any; tr_tac]|ok_tac|intros; ok_tac|]| |].
    + intros v [V W]. eapply sh_cpush; [apply vok_inc|apply wb_size; exact W].
    + shift_tac.
    + fin.
    + fin.
  - eapply sh_weaken; [sh_tac|fin|fin].
  - eapply sh_weaken; [sh_tac|fin|fin].
  - eapply sh_weaken; [sh_tac|fin|fin].
  - eapply sh_weaken; [sh_tac|fin|fin].
  - eapply sh_weaken; [sh_tac|fin|fin].
  - eapply sh_weaken; [sh_tac|fin|fin].
  - eapply sh_weaken; [sh_tac|fin|fin].
  - eapply sh_weaken; [apply (sh_then_load op false cload); [intros; apply sh_cload|intros; ok_tac]|fin|fin].
  - eapply sh_weaken; [apply (sh_then_store op false cstore); [intros; apply sh_cstore|intros; ok_tac]|fin|fin].
  - eapply sh_weaken; [apply (sh_then_load op false (fun a => pc <- get x_pc ;; cload (relative pc a)))|fin|fin].
    + intros a. apply sh_then; [apply sh_gett|intros; apply sh_cload|tr_tac|ok_tac|intros; ok_tac].
    + intros; ok_tac.
  - eapply sh_weaken; [apply (sh_then_store op false (fun a => pc <- get x_pc ;; cstore (relative pc a)))|fin|fin].
    + intros a. apply sh_then; [apply sh_gett|intros; apply sh_cstore|tr_tac|ok_tac|intros; ok_tac].
    + intros; ok_tac.
  - eapply sh_weaken; [apply (sh_then_load op true cload); [intros; apply sh_cload|intros; ok_tac]|fin|fin].
  - eapply sh_weaken; [apply (sh_then_store op true cstore); [intros; apply sh_cstore|intros; ok_tac]|fin|fin].
  - eapply sh_weaken; [sh_tac|fin|fin].
  - eapply sh_weaken; [sh_tac|fin|fin].
  - eapply sh_weaken; [sh_tac|fin|fin].
Qed.

(** ** Literals *)
Lemma sh_next_pc op : sh op next_pc zero zero any.
Proof.
  intros x a x' Hx O T H T'. unfold next_pc in H. inj H. split; [|split; [|split; [exact I|reflexivity]]]; intros p;
    change (size_of p (with_pc x (u16 (x_pc x + 1)))) with (size_of p x); pose proof (size_byte p x Hx);
    unfold is_byte, zero, u8 in *; lia.
Qed.
Lemma sh_get_rom op a : sh op (get_rom a) zero zero any.
Proof.
  intros x n x' Hx O T H T'. unfold get_rom in H. destruct (a <? 256); [discriminate|].
  exact (sh_rett op _ x _ _ Hx O T H T').
Qed.
Lemma sh_post op {A} (m : C A) d n (Q R : A -> Prop) : sh op m d n Q -> (forall a, Q a -> R a) -> sh op m d n R.
Proof.
  intros H K x a x' Hx O T E T'. destruct (H _ _ _ Hx O T E T') as (A1 & A2 & A3 & A4). auto.
Qed.
Definition a_byte (v : value) : Prop := vok v /\ v_short v = false.
Lemma sh_lit_byte op a s : sh op (make_lit_byte a s) zero zero a_byte.
Proof.
  unfold make_lit_byte. destruct s as [y|].
  - apply sh_then; [apply sh_get_rom| |apply tr_get_rom|ok_tac|].
    + intros n. destruct (y_type y); apply sh_ret; try (split; [apply vok_lo; reflexivity|reflexivity]).
      destruct (n <=? 255); split; try apply vok_lo; reflexivity.
    + intros n. destruct (y_type y); ok_tac.
  - apply sh_then; [apply sh_warn|intros; apply sh_ret; split; [apply vok_lo; reflexivity|reflexivity]|apply tr_warn|ok_tac|intros; ok_tac].
Qed.
Lemma sh_push_byte op v : a_byte v -> sh op (cpush v) (at_ (Stk false (fr op)) 1) zero any.
Proof. intros [V S]. apply sh_cpush; auto. unfold vsize. rewrite S. reflexivity. Qed.
Lemma sh_push_lo op v : v_lo v = false -> sh op (cpush v) (at_ (Stk false (fr op)) (vsize v)) zero any.
Proof. intros V. apply sh_cpush; auto. apply vok_lo, V. Qed.
Lemma info_byte i : a_byte (info_value i).
Proof. split; [apply vok_info|reflexivity]. Qed.
Lemma sh_seq op {A} (m : C A) (k : A -> C unit) c1 c2 P r : sh op m (at_ (Stk false r) c1) zero P ->
  (forall a, P a -> sh op (k a) (at_ (Stk false r) c2) zero any) -> tr m any -> ok_step m -> (forall a, ok_step (k a)) ->
  sh op (cbind m k) (at_ (Stk false r) (c1 + c2)) zero any.
Proof.
  intros. eapply sh_weaken; [eapply sh_bind; eauto| |].
  - intros p. unfold zero. lia.
  - intros p. unfold then_d, at_. destruct (same_stack _ _); lia.
  - intros p. unfold then_n, zero. cbn. lia.
Qed.
Lemma at_zero p q : at_ p 0 q = zero q.
Proof. unfold at_. destruct (same_stack _ _); reflexivity. Qed.
Lemma sh_zero_at op {A} (m : C A) p Q : sh op m zero zero Q -> sh op m (at_ p 0) zero Q.
Proof. intros H. eapply sh_weaken; [exact H|intros q; symmetry; apply at_zero|intros; lia]. Qed.
Lemma tr_byte_any a s : tr (make_lit_byte a s) any.
Proof. eapply tr_any. apply tr_lit_byte. Qed.
Lemma sh_lit_short op a b s : sh op (lit_short a b s) (at_ (Stk false (fr op)) 2) zero any.
Proof.
  unfold lit_short.
  assert (W : sh op (warn WLiteral ;;; cpush (plain true)) (at_ (Stk false (fr op)) 2) zero any).
  { apply sh_then; [apply sh_warn|intros; apply (sh_push_lo op (plain true)); reflexivity|apply tr_warn|ok_tac|intros; ok_tac]. }
  assert (N : forall f : Z -> Z -> value, (forall h l, v_short (f h l) = true /\ v_lo (f h l) = false) ->
    sh op (hi <- get_rom a ;; lo <- get_rom b ;; cpush (f hi lo)) (at_ (Stk false (fr op)) 2) zero any).
  { intros f F. apply sh_then; [apply sh_get_rom| |apply tr_get_rom|ok_tac|intros; ok_tac]. intros h.
    apply sh_then; [apply sh_get_rom| |apply tr_get_rom|ok_tac|intros; ok_tac]. intros l. destruct (F h l) as [F1 F2].
    apply sh_cpush; [apply vok_lo, F2|]. unfold vsize. rewrite F1. reflexivity. }
  destruct s as [y|]; [|exact W].
  destruct (y_type y); first [exact W | eapply N; intros; split; reflexivity].
Qed.
Ltac ok_lit := ok_tac; repeat (match goal with |- ok_step (match ?t with _ => _ end) => destruct t end; ok_tac).
Lemma sh_LIT op : sh op op_LIT (at_ (Stk false (fr op)) (wbytes (f2 op))) zero any.
Proof.
  unfold op_LIT. 
  eapply sh_weaken; [eapply (sh_bind op _ _ zero zero (at_ (Stk false (fr op)) (wbytes (f2 op))) zero (fun b => b = f2 op) any); [apply sh_flag2| |tr_tac|ok_tac|intros; ok_lit|intros; right; unfold zero; lia]| |].
  - intros two ->.
    apply sh_then; [apply sh_gett|intros syms|tr_tac|ok_tac|intros; ok_lit].
    apply sh_then; [apply sh_gett|intros infos|tr_tac|ok_tac|intros; ok_lit].
    destruct (f2 op); cbn [negb wbytes].
    + apply sh_then; [apply sh_next_pc|intros hi|apply tr_next_pc|ok_tac|intros; ok_lit].
      apply sh_then; [apply sh_next_pc|intros lo|apply tr_next_pc|ok_tac|intros; ok_lit].
      destruct (infos hi) as [i|].
      * destruct (infos lo) as [j|]; [|destruct (syms lo) as [s|]].
        -- apply (sh_seq op _ _ 1 1 any); [apply sh_push_byte, info_byte|intros; apply sh_push_byte, info_byte|tr_tac|ok_tac|intros; ok_tac].
        -- apply (sh_seq op _ _ 1 1 any); [apply sh_push_byte, info_byte| |tr_tac|ok_tac|intros; ok_tac].
           intros _ _. apply (sh_seq op _ _ 0 1 a_byte); [apply sh_zero_at, sh_lit_byte|intros; apply sh_push_byte; auto|apply tr_byte_any|ok_tac|intros; ok_tac].
        -- apply (sh_push_lo op (set_short true (info_value i))). reflexivity.
      * destruct (same_sym _ _); [apply sh_lit_short|].
        apply (sh_seq op _ _ 0 2 a_byte); [apply sh_zero_at, sh_lit_byte|intros v V|apply tr_byte_any|ok_tac|intros; ok_tac].
        apply (sh_seq op _ _ 1 1 any); [apply sh_push_byte, V| |apply tr_cpush, V|ok_tac|intros; ok_tac].
        intros _ _. apply (sh_seq op _ _ 0 1 a_byte); [apply sh_zero_at, sh_lit_byte|intros; apply sh_push_byte; auto|apply tr_byte_any|ok_tac|intros; ok_tac].
    + apply sh_then; [apply sh_next_pc|intros a|apply tr_next_pc|ok_tac|intros; ok_lit].
      apply (sh_seq op _ _ 0 1 a_byte); [|intros; apply sh_push_byte; auto| |ok_lit|intros; ok_tac].
      * apply sh_zero_at. destruct (infos a); [apply sh_ret, info_byte|]. destruct (syms a); [apply sh_lit_byte|].
        apply sh_ret. split; [apply vok_lo|]; reflexivity.
      * destruct (infos a); [tr_tac|]. destruct (syms a); [apply tr_byte_any|tr_tac].
  - intros p. unfold then_d, zero. lia.
  - intros p. unfold then_n, zero. cbn. lia.
Qed.

(** ** Casts *)
Definition bytes_of (l : list value) : Z := fold_right (fun v n => vsize v + n) 0 l.
Lemma bytes_pos l : 0 <= bytes_of l.
Proof. induction l as [|v l IH]; [cbn; lia|]. change (bytes_of (v :: l)) with (vsize v + bytes_of l). unfold vsize. destruct (v_short v); lia. Qed.
Lemma bytes_app a b : bytes_of (a ++ b) = bytes_of a + bytes_of b.
Proof. induction a as [|v a IH]; [reflexivity|]. change (vsize v + bytes_of (a ++ b) = vsize v + bytes_of a + bytes_of b). lia. Qed.
Lemma bytes_rev l : bytes_of (rev l) = bytes_of l.
Proof.
  induction l as [|v l IH]; [reflexivity|]. cbn [rev]. rewrite bytes_app, IH.
  change (bytes_of l + (vsize v + 0) = vsize v + bytes_of l). lia.
Qed.
Lemma sh_pop_real op r two : sh op (pop_from (Stk false r) two) (at_ (Stk false r) (- wbytes two)) (at_ (Stk false r) (wbytes two)) any.
Proof.
  intros x v x' Hx O T H T'.
  destruct (pop_from_size _ _ _ _ _ (size_byte _ _ Hx) H T' (ok_own _ Hx)) as ((P1 & P2 & P3) & Q1 & Q2 & Q3).
  split; [|split; [|split; [exact I|exact Q2]]].
  - intros p. unfold at_. destruct (same_stack p _) eqn:E; [|apply (size_byte p x Hx)].
    apply same_stack_spec in E. subst. exact P1.
  - intros p. unfold at_. pose proof (size_byte p x Hx). destruct (same_stack p _) eqn:E.
    + apply same_stack_spec in E. subst. rewrite P2. f_equal.
    + unfold size_of in *. rewrite P3; [unfold u8, is_byte in *; lia|]. intros ->.
      assert (same_stack (Stk false r) (Stk false r) = true) by (apply same_stack_spec; reflexivity). congruence.
Qed.
Lemma sh_pop_inputs op r l : sh op (pop_inputs r l) (at_ (Stk false r) (- bytes_of l)) (at_ (Stk false r) (bytes_of l))
  (fun i => List.length i = List.length l).
Proof.
  induction l as [|v l IH]; cbn [pop_inputs].
  - eapply sh_weaken; [apply sh_ret; reflexivity| |]; intros p; unfold at_, zero; destruct (same_stack _ _); reflexivity || lia.
  - eapply sh_weaken.
    + eapply sh_bind; [apply sh_pop_real| |solve [eapply tr_any; tr_tac]|ok_tac|intros; ok_tac|].
      * intros a _. eapply sh_bind; [apply IH| |eapply tr_any; apply tr_pop_inputs|ok_tac|intros; ok_tac|].
        -- intros t Ht. apply sh_ret. cbn. rewrite Ht. reflexivity.
        -- intros p. right. unfold zero. lia.
      * intros p. unfold then_n, at_, zero, wbytes. left. destruct (same_stack _ _), (v_short v); lia.
    + intros p. unfold then_d, at_, zero. cbn [bytes_of fold_right]. change (fold_right _ 0 l) with (bytes_of l).
      destruct (same_stack _ _); [|lia]. unfold wbytes, vsize. destruct (v_short v); lia.
    + intros p. unfold then_n, at_, zero. cbn [bytes_of fold_right]. change (fold_right _ 0 l) with (bytes_of l).
      pose proof (bytes_pos l). change (0 <=? 0) with true. cbv iota.
      unfold wbytes, vsize. destruct (same_stack _ _), (v_short v), (bytes_of l <=? 0) eqn:E; cbn [Z.leb Z.compare]; lia.
Qed.
Lemma sh_push_outputs op r l : forall i, List.length i = List.length l -> Forall declared l -> fits l i ->
  sh op (push_outputs r i l) (at_ (Stk false r) (bytes_of l)) zero any.
Proof.
  induction l as [|v l IH]; intros [|a i] L D F; try discriminate L; cbn [push_outputs].
  - apply sh_zero_at, sh_rett.
  - inversion D; subst. inversion F; subst.
    apply (sh_seq op _ _ (vsize v) (bytes_of l) any).
    + intros x u x' Hx O T H T'. unfold act in H. inj H. split; [intros p; apply (size_byte p x Hx)|].
      split; [|split; [exact I|rewrite set_h; reflexivity]].
      intros p. unfold at_, size_of. pose proof (size_byte p x Hx) as B. destruct (same_stack p _) eqn:E.
      * apply same_stack_spec in E. subst. rewrite get_set. reflexivity.
      * rewrite get_set_other; [unfold size_of, u8, is_byte in *; lia|]. intros ->.
        assert (same_stack (Stk false r) (Stk false r) = true) by (apply same_stack_spec; reflexivity). congruence.
    + intros _ _. apply IH; auto.
    + apply tr_act. intros x Hx. apply xok_stack; auto. apply kok_raw; [apply xok_get; auto|].
      unfold vok. cbn. match goal with H : declared v |- _ => destruct H as (_ & -> & _) end. auto.
    + ok_tac.
    + intros; ok_tac.
Qed.
Lemma sh_tr op {A} (m : C A) d n (Q R : A -> Prop) : sh op m d n Q -> tr m R -> sh op m d n (fun a => Q a /\ R a).
Proof.
  intros H K x a x' Hx O T E T'. destruct (H _ _ _ Hx O T E T') as (A1 & A2 & A3 & A4). destruct (K _ _ _ Hx E). auto.
Qed.
Lemma sh_apply_cast op r l : Forall declared l -> sh op (apply_cast r l) zero zero any.
Proof.
  intros D. unfold apply_cast. apply sh_then; [apply sh_gett|intros k|tr_tac|ok_tac|intros; ok_tac].
  destruct (sig_size l <=? k_size k); [|exact (sh_err_if op true CCastMismatch)].
  eapply sh_weaken.
  - eapply sh_bind; [apply sh_tr; [apply sh_pop_inputs|apply tr_pop_fits]| |eapply tr_any; apply tr_pop_fits|ok_tac|intros; ok_tac|].
    + intros i [L F]. apply sh_push_outputs; [rewrite rev_length, L; apply rev_length|exact D|].
      replace l with (rev (rev l)) by apply rev_involutive. apply fits_rev. exact F.
    + intros p. right. unfold zero. lia.
  - intros p. unfold then_d, at_, zero. rewrite bytes_rev. destruct (same_stack _ _); lia.
  - intros p. unfold then_n, zero, at_. cbn [Z.leb Z.compare]. pose proof (bytes_pos (rev l)). destruct (same_stack _ _); lia.
Qed.
