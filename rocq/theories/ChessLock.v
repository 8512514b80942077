(** The type checker and the machine in lockstep: popping and pushing. *)
From Verif Require Import Base VmModel AsmModel ChessModel ChessProofs ChessSize ChessDelta ValueSpec VmProofs ChessValue.
From Coq Require Import ZifyBool.
Open Scope list_scope.
Ltac Zify.zify_post_hook ::= Z.div_mod_to_equations.

Section Lock.
Variable W : Type.
Definition same_stacks (v v' : vm) : Prop :=
  vm_ws v' = vm_ws v /\ vm_rs v' = vm_rs v /\ vm_wsp v' = vm_wsp v /\ vm_rsp v' = vm_rsp v.
(** Devices that leave the stacks alone. *)
Definition aloof (dei : Z -> vm -> W -> res (Z * vm * W)) (deo : Z -> vm -> W -> res (vm * W)) : Prop :=
  (forall a v w b v' w', dei a v w = Ok (b, v', w') -> same_stacks v v') /\
  (forall a v w v' w', deo a v w = Ok (v', w') -> same_stacks v v').

Notation st := (st W).
Notation M := (M W).
Notation bind := (bind W).
Notation getptr := (getptr W).
Notation getstack := (getstack W).

(** ** The machine *)

Lemma Ok_pair {A B} (a b : A) (x y : B) : Ok (a, x) = Ok (b, y) -> b = a /\ y = x.
Proof. intros E. split; congruence. Qed.
Lemma getstack_setptr r k q n s : getstack r (setptr W k q n s) = getstack r s.
Proof. destruct k, q, r; reflexivity. Qed.
Lemma getptr_setptr k r q n s : getptr k r (setptr W k q n s) = if Bool.eqb r q then n else getptr k r s.
Proof. destruct k, q, r; reflexivity. Qed.
Lemma getptr_shadow r q n s : getptr false r (setptr W true q n s) = getptr false r s.
Proof. destruct q, r; reflexivity. Qed.
Lemma pc_setptr k r n s : s_pc W (setptr W k r n s) = s_pc W s.
Proof. destruct k, r; reflexivity. Qed.
Lemma m_read r i s n s' : stack_read W r i s = Ok (n, s') -> s' = s /\ n = getstack r s i.
Proof.
  unfold stack_read, aget. destruct (in_bounds _ _); [|discriminate]. intros E. inversion E; auto.
Qed.
Lemma m_pop k r two s n s' : byte_cells s -> pop W k r two s = Ok (n, s') ->
  s' = setptr W k r (u8 (getptr k r s - wbytes two)) s /\ n = num two (getstack r s) (getptr k r s).
Proof.
  intros B E. unfold pop, bind in E. destruct two.
  - unfold pop2, bind in E. destruct (stack_read W r _ _) as [[hi s1]|] eqn:E1; [|discriminate].
    apply m_read in E1 as [-> ->]. destruct (stack_read W r _ _) as [[lo s2]|] eqn:E2; [|discriminate].
    apply m_read in E2 as [-> ->]. cbn [ret] in E. unfold ret in E. inversion E; subst; clear E.
    split; [reflexivity|]. rewrite !getstack_setptr. unfold num.
    pose proof (B r (u8 (getptr k r s - 2))) as B1. pose proof (B r (u8 (u8 (getptr k r s - 2) + 1))) as B2.
    change (cells r s) with (getstack r s) in *.
    rewrite join_eq by (unfold is_byte in *; lia). unfold is_byte, u16, u8 in *.
    replace (((getptr k r s - 2) mod 256 + 1) mod 256) with ((getptr k r s - 1) mod 256) in * by lia. lia.
  - unfold pop1 in E. destruct (stack_read W r _ _) as [[b s1]|] eqn:E1; [|discriminate].
    apply m_read in E1 as [-> ->]. unfold ret in E. inversion E; subst; clear E. split; [reflexivity|].
    rewrite getstack_setptr. unfold num. pose proof (B r (u8 (u8 (getptr k r s - 1)))) as B1. change (cells r s) with (getstack r s) in *.
    unfold is_byte, u16, u8 in *. rewrite Z.mod_mod in * by lia. lia.
Qed.
Lemma m_write r i v s u s' : stack_write W r i v s = Ok (u, s') -> s' = setstack W r (upd (getstack r s) i v) s /\ 0 <= i < 256.
Proof.
  unfold stack_write, aset. destruct (in_bounds 256 i) eqn:E0; [|discriminate]. intros E. inversion E. split; [reflexivity|]. unfold in_bounds in E0. lia.
Qed.
Lemma getstack_set r q f s : getstack r (setstack W q f s) = if Bool.eqb r q then f else getstack r s.
Proof. destruct r, q; reflexivity. Qed.
Lemma getptr_setstack k r q f s : getptr k r (setstack W q f s) = getptr k r s.
Proof. destruct k, r, q; reflexivity. Qed.
Lemma pc_setstack r f s : s_pc W (setstack W r f s) = s_pc W s.
Proof. destruct r; reflexivity. Qed.

Record m_pushed (r two : bool) (n : Z) (s s' : st) : Prop := {
  mp_pc : s_pc W s' = s_pc W s;
  mp_ptr : getptr false r s' = u8 (getptr false r s + wbytes two);
  mp_ptr' : getptr false (negb r) s' = getptr false (negb r) s;
  mp_stack' : getstack (negb r) s' = getstack (negb r) s;
  mp_stack : pushed two n (getstack r s) (getstack r s') (getptr false r s);
  mp_bytes : byte_cells s -> byte_cells s'
}.
Lemma byte_upd f i v : (forall j, is_byte (f j)) -> forall j, is_byte (upd f i (u8 v) j).
Proof. intros H j. unfold upd. destruct (_ =? _); [apply u8_byte|apply H]. Qed.
Lemma bytes_setstack r f s : (forall j, is_byte (f j)) -> byte_cells s -> byte_cells (setstack W r f s).
Proof. intros F H q i. change (cells q (setstack W r f s)) with (getstack q (setstack W r f s)). rewrite getstack_set. destruct (Bool.eqb q r); [apply F|apply H]. Qed.
Lemma m_push r two n s u s' : push W r two n s = Ok (u, s') -> m_pushed r two n s s'.
Proof.
  intros E. destruct two; unfold push in E.
  - unfold push2, bind in E. destruct (stack_write W r _ _ _) as [[u1 s1]|] eqn:E1; [|discriminate].
    destruct (stack_write W r (u8 _) _ _) as [[u2 s2]|] eqn:E2; [|discriminate].
    apply m_write in E1 as [-> I1]. apply m_write in E2 as [-> I2]. apply Ok_pair in E as [_ ->].
    set (p := getptr false r s) in *. rewrite getstack_set, Bool.eqb_reflx.
    constructor.
    + rewrite pc_setptr, !pc_setstack. reflexivity.
    + rewrite getptr_setptr, Bool.eqb_reflx. reflexivity.
    + rewrite getptr_setptr, !getptr_setstack. destruct r; reflexivity.
    + rewrite getstack_setptr, !getstack_set. destruct r; reflexivity.
    + rewrite getstack_setptr, getstack_set, Bool.eqb_reflx. unfold pushed, u8 in *. fold p. split; [split|].
      * unfold upd. replace (p mod 256) with p by lia. replace (p =? (p + 1) mod 256) with false by lia. rewrite Z.eqb_refl.
        rewrite Z.shiftr_div_pow2 by lia. reflexivity.
      * unfold upd. rewrite Z.eqb_refl. reflexivity.
      * intros i Hi. cbn in Hi. unfold upd. replace ((p - i) mod 256 =? (p + 1) mod 256) with false by lia.
        replace ((p - i) mod 256 =? p) with false by lia. reflexivity.
    + intros B q i. change (is_byte (getstack q (setptr W false r (u8 (p + 2)) (setstack W r (upd (upd (getstack r s) p (u8 (Z.shiftr n 8))) (u8 (p + 1)) (u8 n)) (setstack W r (upd (getstack r s) p (u8 (Z.shiftr n 8))) s))) i)).
      rewrite getstack_setptr, !getstack_set. destruct (Bool.eqb q r); [|apply B]. apply byte_upd, byte_upd. apply (B r).
  - unfold push1 in E. apply m_write in E as [-> I1]. set (p := getptr false r s) in *. rewrite getstack_setptr.
    constructor.
    + rewrite pc_setstack, pc_setptr. reflexivity.
    + rewrite getptr_setstack, getptr_setptr, Bool.eqb_reflx. reflexivity.
    + rewrite getptr_setstack, getptr_setptr. destruct r; reflexivity.
    + rewrite getstack_set, getstack_setptr. destruct r; reflexivity.
    + rewrite getstack_set, Bool.eqb_reflx. unfold pushed, u8 in *. fold p. split.
      * unfold upd. replace (p mod 256) with p by lia. rewrite Z.eqb_refl. reflexivity.
      * intros i Hi. cbn in Hi. unfold upd. replace ((p - i) mod 256 =? p) with false by lia. reflexivity.
    + intros B q i. change (is_byte (getstack q (setstack W r (upd (getstack r s) p (u8 n)) (setptr W false r (u8 (p + 1)) s)) i)).
      rewrite getstack_set, getstack_setptr. destruct (Bool.eqb q r); [|apply B]. apply byte_upd. apply (B r).
Qed.

(** ** The relation *)

Section Op.
Variable op : Z.
Variable x0 : ctx.

Definition sok (p : which) (x : ctx) (s : st) : Prop :=
  is_byte (k_len (get_stack p x)) /\ Forall (half_ok (x_h x)) (vals (get_stack p x)) /\
  right_about (vals (get_stack p x)) (getstack (ret_stack p) s) (getptr (shadow p) (ret_stack p) s).
(** [held] are the values that were popped, [m] bounds the bytes on a stack. *)
Record core (L : list entry) (held : list value) (m : Z) (x : ctx) (s : st) : Prop := {
  c_goes : goes x0 x;
  c_op : x_op x = op;
  c_info : has_info x;
  c_pc : x_pc x = s_pc W s;
  c_list : h_list (x_h x) = L;
  c_pool : pool_ok x;
  c_held : Forall (half_ok (x_h x)) held;
  c_bytes : byte_cells s;
  c_stk : forall r, sok (Stk false r) x s;
  c_width : forall r, width (vals (get_stack (Stk false r) x)) <= m
}.
(** No operand was pushed yet. *)
Definition ready (L : list entry) (held : list value) (m : Z) (x : ctx) (s : st) : Prop :=
  core L held m x s /\ sok (Stk (fk op) (fr op)) x s /\ Forall in_range (vals (get_stack (Stk (fk op) (fr op)) x)).

Lemma ready_pop L held m x s two v x' n s' : ready L held m x s -> x_term x' = false ->
  pop_ex two (fr op) x = COk (v, x') -> pop W (fk op) (fr op) two s = Ok (n, s') ->
  ready L (v :: held) m x' s' /\ v_short v = two /\ in_range v /\ (v_const v = true -> v_val v = n) /\ 0 <= n < (if two then 65536 else 256)
  /\ h_reports (x_h x') = h_reports (x_h x).
Proof.
  intros [[C0 C1 C2 C3 C4 C5 C6 C7 C8 C9] [(S1 & S2 & S3) R]] T E F.
  pose proof (ok_pop_ex _ _ _ _ _ C2 E) as G.
  pose proof (pop_term _ _ _ _ (ok_pop_ex two (fr op)) C2 E T) as Tx.
  unfold pop_ex in E. rewrite Tx in E. assert (Fk : flag_k x = fk op) by (unfold flag_k; rewrite C1; reflexivity). rewrite Fk in E.
  destruct (pop_from_spec _ _ _ _ _ C5 C2 S1 S2 R E T) as [P1 P2 P3 P4 P5 [P6 P6'] P7 P8 P9].
  apply m_pop in F as [Es En]; [|exact C7]. set (p := Stk (fk op) (fr op)) in *.
  change (right_about (vals (get_stack p x)) (getstack (fr op) s) (getptr (fk op) (fr op) s)) in S3.
  destruct (P9 _ _ (C7 (fr op)) S3) as [Q1 Q2]. destruct P4 as (O1 & O2 & O3 & O4).
  assert (Bs : byte_cells s').
  { intros r i. subst s'. change (is_byte (getstack r (setptr W (fk op) (fr op) (u8 (getptr (fk op) (fr op) s - wbytes two)) s) i)).
    rewrite getstack_setptr. apply C7. }
  assert (Sp : sok p x' s').
  { split; [exact P5|split; [exact P6|]]. subst s'.
    change (right_about (vals (get_stack p x')) (getstack (fr op) (setptr W (fk op) (fr op) (u8 (getptr (fk op) (fr op) s - wbytes two)) s))
      (getptr (fk op) (fr op) (setptr W (fk op) (fr op) (u8 (getptr (fk op) (fr op) s - wbytes two)) s))). rewrite getstack_setptr.
    rewrite getptr_setptr, Bool.eqb_reflx. eapply right_mod; [|exact Q2]. unfold u8. rewrite Z.mod_mod by lia. reflexivity. }
  split; [split; [constructor|split; [exact Sp|exact P6']]|split; [apply P7|split; [apply P7|split; [subst n; exact Q1|split; [|exact O4]]]]].
  - eapply goes_trans; eauto.
  - congruence.
  - eapply goes_has; eauto.
  - rewrite O2, C3. subst s'. rewrite pc_setptr. reflexivity.
  - congruence.
  - exact P2.
  - constructor; [apply P7|]. eapply Forall_impl; [exact P3|exact C6].
  - exact Bs.
  - intros r. destruct (same_stack (Stk false r) p) eqn:Sm.
    + apply same_stack_spec in Sm. rewrite Sm. exact Sp.
    + assert (Ne : Stk false r <> p) by (intros X; rewrite X, same_stack_refl in Sm; discriminate).
      destruct (C8 r) as (D1 & D2 & D3). unfold sok. rewrite P1 by exact Ne. split; [exact D1|]. split; [eapply Forall_impl; [exact P3|exact D2]|].
      cbn [ret_stack shadow] in *. subst s'. rewrite getstack_setptr. destruct (fk op) eqn:Ek.
      * rewrite getptr_shadow. exact D3.
      * rewrite getptr_setptr. destruct (Bool.eqb r (fr op)) eqn:Er; [|exact D3]. apply Bool.eqb_prop in Er. subst r. exfalso. apply Ne. reflexivity.
  - intros r. destruct (same_stack (Stk false r) p) eqn:Sm.
    + apply same_stack_spec in Sm. rewrite Sm. specialize (C9 r). rewrite Sm in C9. rewrite P8 in C9. unfold wbytes in C9; destruct two; lia.
    + rewrite P1; [apply C9|]. intros X. rewrite X, same_stack_refl in Sm. discriminate.
  - subst n. unfold num. pose proof (C7 (fr op) ((getptr (fk op) (fr op) s - 1) mod 256)) as B1.
    pose proof (C7 (fr op) ((getptr (fk op) (fr op) s - 2) mod 256)) as B2.
    change (cells (fr op) s) with (getstack (fr op) s) in *. unfold is_byte in *. destruct two; lia.
Qed.

Lemma core_push L held m x s r v n x' s' u u' : core L held m x s -> m <= 254 -> x_term x' = false ->
  half_ok (x_h x) v -> means v n -> push_ex r v x = COk (u, x') -> push W r (v_short v) n s = Ok (u', s') ->
  core L held (m + 2) x' s' /\ h_reports (x_h x') = h_reports (x_h x) /\ x_h x' = x_h x.
Proof.
  intros [C0 C1 C2 C3 C4 C5 C6 C7 C8 C9] Hm T Hv Mn E F.
  pose proof (ok_push_ex _ _ _ _ _ C2 E) as G.
  pose proof (pop_term _ _ _ _ (ok_push_ex r v) C2 E T) as Tx.
  unfold push_ex in E. rewrite Tx in E. destruct (256 <? _); [inj E; discriminate T|]. inj E.
  apply m_push in F as [F1 F2 F3 F4 F5 F6].
  destruct (C8 r) as (D1 & D2 & D3). cbn [ret_stack shadow] in D3.
  assert (V : vsize v = wbytes (v_short v)) by (unfold vsize; destruct (v_short v); reflexivity).
  pose proof (C9 r) as Cw.
  destruct (push_value_spec x _ v _ _ _ n D1 D2 Hv F5 Mn) as (A1 & A2 & A3 & A4); [unfold vsize; destruct (v_short v); lia|apply C7|exact D3|].
  set (k' := push_value _ _ _) in *. destruct (set_same (Stk false r) x k') as (S1 & S2 & S3 & S4 & S5).
  split; [constructor|rewrite S1; auto]; rewrite ?S1; auto; try congruence.
  - eapply goes_trans; eauto.
  - eapply goes_has; eauto.
  - apply pool_set, C5.
  - intros q. unfold sok. rewrite S1, get_set. destruct (Bool.eqb q r) eqn:Eq.
    + apply Bool.eqb_prop in Eq. subst q. rewrite same_stack_refl. split; [exact A1|]. split; [exact A2|]. cbn [ret_stack shadow].
      rewrite F2. eapply right_mod; [|exact A3]. rewrite V. unfold u8. rewrite Z.mod_mod by lia. reflexivity.
    + assert (q = negb r) by (destruct q, r; try discriminate Eq; reflexivity). subst q.
      rewrite same_stack_ne by (intros X; injection X; destruct r; discriminate). destruct (C8 (negb r)) as (G1 & G2 & G3).
      split; [exact G1|]. split; [exact G2|]. cbn [ret_stack shadow] in *. rewrite F3, F4. exact G3.
  - intros q. rewrite get_set. destruct (same_stack _ _); [|specialize (C9 q); lia]. unfold vsize in *. destruct (v_short v); lia.
Qed.
End Op.
End Lock.
