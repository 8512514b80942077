(** The type checker stays right about the machine when it applies a cast. *)
From Verif Require Import Base VmModel AsmModel ChessModel ChessProofs ChessSize ValueSpec ChessValue.
From Coq Require Import ZifyBool.
Open Scope list_scope.
Ltac Zify.zify_post_hook ::= Z.div_mod_to_equations.

(** The values of [l] from the bottom up, the first above [sp]. *)
Fixpoint right_up (l : list value) (f : arr) (sp : Z) : Prop :=
  match l with
  | [] => True
  | v :: l => right_at v f (sp + vsize v) /\ right_up l f (sp + vsize v)
  end.
Lemma right_up_app l l' f : forall sp, right_up (l ++ l') f sp <-> right_up l f sp /\ right_up l' f (sp + width l).
Proof.
  induction l as [|v l IH]; intros sp; cbn [app right_up width].
  - rewrite Z.add_0_r. tauto.
  - rewrite IH. replace (sp + vsize v + width l) with (sp + (vsize v + width l)) by lia. tauto.
Qed.
Lemma width_app l l' : width (l ++ l') = width l + width l'.
Proof. induction l as [|v l IH]; cbn [app width]; lia. Qed.
Lemma width_rev l : width (rev l) = width l.
Proof. induction l as [|v l IH]; cbn [rev width]; [reflexivity|]. rewrite width_app. cbn [width]. lia. Qed.
Lemma right_up_rev l f : forall sp, right_about l f sp -> right_up (rev l) f (sp - width l).
Proof.
  induction l as [|v l IH]; intros sp; cbn [right_about rev width right_up]; [auto|]. intros [R1 R2].
  apply right_up_app. rewrite width_rev. split.
  - replace (sp - (vsize v + width l)) with (sp - vsize v - width l) by lia. apply IH, R2.
  - cbn [right_up]. replace (sp - (vsize v + width l) + width l + vsize v) with sp by lia. auto.
Qed.

(** What is kept of a state on the stack [r]; the other stack is the same. *)
Record fine (r : bool) (f : arr) (sp : Z) (x : ctx) : Prop := {
  f_pool : pool_ok x;
  f_info : has_info x;
  f_len : is_byte (k_len (astack r x));
  f_half : Forall (half_ok (x_h x)) (vals (astack r x));
  f_right : right_about (vals (astack r x)) f sp
}.
Record kept (r : bool) (x x' : ctx) : Prop := {
  k_other : astack (negb r) x' = astack (negb r) x;
  k_halves : forall w, half_ok (x_h x) w -> half_ok (x_h x') w;
  k_state : x_pc x' = x_pc x /\ h_list (x_h x') = h_list (x_h x) /\ x_op x' = x_op x
}.
Lemma kept_refl r x : kept r x x.
Proof. constructor; auto. Qed.
Lemma kept_trans r x y z : kept r x y -> kept r y z -> kept r x z.
Proof. intros [A1 A2 (A3 & A4 & A5)] [B1 B2 (B3 & B4 & B5)]. constructor; [congruence|auto|]. split; [congruence|split; congruence]. Qed.
Lemma astack_get r x : astack r x = get_stack (Stk false r) x.
Proof. destruct r; reflexivity. Qed.

Lemma pop_inputs_spec r f : (forall i, is_byte (f i)) -> forall l x ins x' sp, fine r f sp x -> Forall in_range (vals (astack r x)) ->
  pop_inputs r l x = COk (ins, x') -> x_term x' = false ->
  fine r f (sp - width ins) x' /\ kept r x x' /\ right_about ins f sp /\
  Forall2 (fun i v => v_short i = v_short v) ins l /\ Forall (half_ok (x_h x')) ins /\
  width (vals (astack r x)) = width ins + width (vals (astack r x')).
Proof.
  intros Bf l. induction l as [|v l IH]; intros x ins x' sp F R E T.
  - apply COk_inj in E as [<- <-]. cbn [width]. rewrite Z.sub_0_r. split; [exact F|]. split; [apply kept_refl|]. cbn. auto.
  - cbn [pop_inputs] in E. unfold cbind at 1 in E. destruct (pop_from (Stk false r) (v_short v) x) as [[a y]|] eqn:E1; [|discriminate].
    unfold cbind in E. destruct (pop_inputs r l y) as [[t z]|] eqn:E2; [|discriminate]. apply COk_inj in E as [<- ->].
    destruct F as [F1 F2 F3 F4 F5]. rewrite astack_get in F3, F4, F5, R.
    pose proof (ok_pop_from _ _ _ _ _ F2 E1) as G1. pose proof (goes_has _ _ G1 F2) as Hy.
    assert (Ty : x_term y = false) by exact (pop_term _ _ _ _ (ok_pop_inputs r l) Hy E2 T).
    destruct (pop_from_spec _ _ _ _ _ F1 F2 F3 F4 R E1 Ty) as [P1 P2 P3 (P4 & P5 & P6 & P7) P8 [P9 P10] (P11 & P12 & P13) P14 P15].
    destruct (P15 f sp Bf F5) as [Q1 Q2].
    assert (Vs : vsize a = wbytes (v_short v)) by (unfold vsize; rewrite P13; destruct (v_short v); reflexivity).
    destruct (IH y t x' (sp - wbytes (v_short v))) as (I1 & I2 & I3 & I4 & I5 & I6); [|rewrite astack_get; exact P10|exact E2|exact T|].
    { constructor; auto; rewrite astack_get; auto. }
    cbn [width right_about]. rewrite Vs.
    replace (sp - (wbytes (v_short v) + width t)) with (sp - wbytes (v_short v) - width t) by lia.
    split; [exact I1|]. split.
    { eapply kept_trans; [|exact I2]. constructor; [rewrite !astack_get; apply P1; intros X; injection X; destruct r; discriminate|exact P3|auto]. }
    split; [split; [|exact I3]|].
    { intros C. specialize (Q1 C). rewrite P13. destruct (v_short v); cbn [num] in Q1; rewrite Q1; [reflexivity|].
      pose proof (Bf ((sp - 1) mod 256)) as B1. unfold is_byte in B1. lia. }
    split; [constructor; auto|]. split; [constructor; [apply (k_halves _ _ _ I2), P11|exact I5]|].
    rewrite !astack_get in *. lia.
Qed.

Lemma cast_vsize i o : v_short i = v_short o -> vsize (cast_value i o) = vsize i.
Proof. intros E. unfold vsize. cbn. rewrite E. reflexivity. Qed.
Lemma cast_right i o f sp : v_short i = v_short o -> declared o -> right_at i f sp -> right_at (cast_value i o) f sp.
Proof.
  intros E (D1 & D2 & D3 & _) R C. cbn in *. rewrite D3 in C. cbn in C. specialize (R C). rewrite C. rewrite <- E. exact R.
Qed.
Lemma cast_half h i o : v_short i = v_short o -> declared o -> half_ok h i -> half_ok h (cast_value i o).
Proof.
  intros E (D1 & D2 & D3 & _) H X. cbn in X. rewrite D1, D2 in X. cbn in X. destruct (H X) as (H1 & H2 & H3). cbn. rewrite D1, D2. cbn.
  split; [congruence|]. split; [exact H2|]. intros n. replace (v_hi i || v_lo i) with true by (destruct (v_hi i), (v_lo i), X; auto; discriminate).
  intros Hn. destruct (H3 n Hn) as (K1 & K2 & K3 & K4 & K5 & K6). split; [exact K1|]. split; [exact K2|]. split; [exact K3|]. split; [exact K4|]. split; [exact K5|].
  intros C. destruct (K6 C) as (M1 & M2 & M3). split; [exact M1|]. rewrite D3, M2. auto.
Qed.

Lemma push_outputs_spec r f : forall l ins x u x' sp, fine r f sp x ->
  right_up ins f sp -> Forall2 (fun i v => v_short i = v_short v) ins l -> Forall declared l -> Forall (half_ok (x_h x)) ins ->
  push_outputs r ins l x = COk (u, x') ->
  fine r f (sp + width ins) x' /\ kept r x x' /\ width (vals (astack r x')) <= width (vals (astack r x)) + width ins.
Proof.
  intros l. induction l as [|o l IH]; intros ins x u x' sp F R Z D H E; inversion Z as [|i o' t l' E1 Z']; subst.
  - apply COk_inj in E as [_ <-]. cbn [width]. rewrite !Z.add_0_r. split; [exact F|]. split; [apply kept_refl|lia].
  - cbn [push_outputs] in E. unfold cbind, act in E. inversion D; subst. inversion H; subst. cbn [right_up] in R. destruct R as [R1 R2].
    destruct F as [F1 F2 F3 F4 F5]. rewrite astack_get in *.
    destruct (raw_push_spec (x_h x) (get_stack (Stk false r) x) (cast_value i o) f sp) as (Q1 & Q2 & Q3 & Q4); auto.
    { apply cast_half; auto. }
    { rewrite cast_vsize by auto. apply cast_right; auto. }
    rewrite (cast_vsize i o E1) in *.
    set (x1 := set_stack (Stk false r) x (raw_push (get_stack (Stk false r) x) (cast_value i o))) in *.
    assert (A1 : x_h x1 = x_h x) by (unfold x1; destruct r; reflexivity).
    assert (A2 : get_stack (Stk false r) x1 = raw_push (get_stack (Stk false r) x) (cast_value i o)) by (unfold x1; destruct r; reflexivity).
    destruct (IH t x1 u x' (sp + vsize i)) as (I1 & I2 & I3); auto.
    { constructor; rewrite ?astack_get, ?A2, ?A1; auto; unfold x1; destruct r; auto. }
    { rewrite A1. auto. }
    cbn [width]. replace (sp + (vsize i + width t)) with (sp + vsize i + width t) by lia. split; [exact I1|]. split.
    { eapply kept_trans; [|exact I2]. constructor; [unfold x1; destruct r; reflexivity|rewrite A1; auto|unfold x1; destruct r; auto]. }
    rewrite !astack_get in *. rewrite A2 in I3. lia.
Qed.

Lemma apply_cast_spec r l f sp x u x' : (forall i, is_byte (f i)) -> Forall declared l -> fine r f sp x -> Forall in_range (vals (astack r x)) ->
  apply_cast r l x = COk (u, x') -> x_term x' = false ->
  fine r f sp x' /\ kept r x x' /\ width (vals (astack r x')) <= width (vals (astack r x)).
Proof.
  intros Bf D F R E T. unfold apply_cast, cbind at 1, get in E. destruct (_ <=? _).
  - unfold cbind in E. destruct (pop_inputs r (rev l) x) as [[ins y]|] eqn:E1; [|discriminate].
    pose proof (goes_has _ _ (ok_pop_inputs _ _ _ _ _ (f_info _ _ _ _ F) E1) (f_info _ _ _ _ F)) as Hy.
    assert (Ty : x_term y = false) by exact (pop_term _ _ _ _ (ok_push_outputs r (rev ins) l) Hy E T).
    destruct (pop_inputs_spec r f Bf _ _ _ _ sp F R E1 Ty) as (I1 & I2 & I3 & I4 & I5 & I6).
    assert (Z : Forall2 (fun i v => v_short i = v_short v) (rev ins) l).
    { clear - I4. remember (rev l) as m. assert (l = rev m) as -> by (subst; rewrite rev_involutive; reflexivity). clear Heqm.
      induction I4 as [|i v t m H I IH]; cbn [rev]; [constructor|]. apply Forall2_app; [exact IH|constructor; [exact H|constructor]]. }
    destruct (push_outputs_spec r f _ _ _ _ _ _ I1 (right_up_rev _ _ _ I3) Z D (Forall_rev I5) E) as (J1 & J2 & J3).
    rewrite width_rev in J1, J3. replace (sp - width ins + width ins) with sp in J1 by lia. split; [exact J1|]. split; [eapply kept_trans; eauto|lia].
  - unfold err, act, cret in E. apply COk_inj in E as [_ <-]. discriminate T.
Qed.
