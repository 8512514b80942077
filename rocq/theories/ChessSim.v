(** The type checker and the machine in lockstep: the opcodes. *)
From Verif Require Import Base VmModel AsmModel ChessModel ChessProofs ChessSize ChessDelta ChessJump ValueSpec VmProofs ChessValue ChessLock.
From Coq Require Import ZifyBool.
Open Scope list_scope.
Ltac Zify.zify_post_hook ::= Z.div_mod_to_equations.
Local Notation "x <- m ;; k" := (cbind m (fun x => k)) (at level 61, m at next level, right associativity).
Local Notation "m ;;; k" := (cbind m (fun _ => k)) (at level 61, right associativity).

Section Sim.
Variable W : Type.
Variable dei : Z -> vm -> W -> res (Z * vm * W).
Variable deo : Z -> vm -> W -> res (vm * W).
Variable hi_first : bool.
Hypothesis HA : aloof W dei deo.
Notation st := (st W).
Notation M := (M W).
Notation bind := (bind W).
Notation getptr := (getptr W).
Notation getstack := (getstack W).

Section Op.
Variable op : Z.
Variable x0 : ctx.
Variable L0 : list entry.
Notation core := (core W op x0).
Notation ready := (ready W op x0).

Definition rel {A B} (P : ctx -> st -> Prop) (m : C A) (n : M B) (Q : A -> B -> ctx -> st -> Prop) : Prop :=
  forall x s a x' b s', P x s -> m x = COk (a, x') -> n s = Ok (b, s') -> x_term x' = false -> Q a b x' s'.

(** What holds after the opcode: the checker is right, or a path it has put
    aside is. *)
Definition post (x : ctx) (s : st) : Prop :=
  (exists L held m, m <= 256 /\ core L held m x s) \/ (exists l e, h_list (x_h x) = l ++ e :: L0 /\ right_entry e s).
Definition postQ {A B} (_ : A) (_ : B) : ctx -> st -> Prop := post.
Lemma post_core {A B} L held m (a : A) (b : B) x s : m <= 256 -> core L held m x s -> postQ a b x s.
Proof. intros H C. left. eauto. Qed.

Lemma ready_core L held m x s : ready L held m x s -> core L held m x s.
Proof. intros [H _]. exact H. Qed.
Lemma rel_core {A B} L held m (k : C A) (n : M B) Q : rel (core L held m) k n Q -> rel (ready L held m) k n Q.
Proof. intros H x s a x' b s' P. apply H. apply ready_core, P. Qed.

Definition facts (v : value) (n : Z) (two : bool) : Prop :=
  v_short v = two /\ in_range v /\ (v_const v = true -> v_val v = n) /\ 0 <= n < (if two then 65536 else 256).
Lemma rel_pop {A B} L held m two (k : value -> C A) (k' : Z -> M B) Q :
  (forall v, ok_step (k v)) ->
  (forall v n, facts v n two -> rel (ready L (v :: held) m) (k v) (k' n) Q) ->
  rel (ready L held m) (v <- pop_ex two (fr op) ;; k v) (bind (pop W (fk op) (fr op) two) k') Q.
Proof.
  intros O H x s a x' b s' P E F T. unfold cbind in E. unfold VmModel.bind in F.
  destruct (pop_ex two (fr op) x) as [[v y]|] eqn:E1; [|discriminate].
  destruct (pop W _ _ _ s) as [[n t]|] eqn:F1; [|discriminate].
  pose proof (c_info _ _ _ _ _ _ _ _ (ready_core _ _ _ _ _ P)) as Hi.
  pose proof (goes_has _ _ (ok_pop_ex _ _ _ _ _ Hi E1) Hi) as Hy.
  pose proof (pop_term _ _ _ _ (O v) Hy E T) as Ty.
  edestruct ready_pop as (R & R1 & R2 & R3 & R4 & _); [exact P|exact Ty|exact E1|exact F1|].
  eapply H; eauto. red. auto.
Qed.
Lemma flag2 x : x_op x = op -> flag_2 x = f2 op.
Proof. intros H. unfold flag_2. rewrite H. reflexivity. Qed.
Lemma flagr x : x_op x = op -> flag_r x = fr op.
Proof. intros H. unfold flag_r. rewrite H. reflexivity. Qed.
Lemma rel_ext {A B} (P : ctx -> st -> Prop) (k k2 : C A) (n : M B) Q :
  (forall x s, P x s -> k x = k2 x) -> rel P k2 n Q -> rel P k n Q.
Proof. intros E H x s a x' b s' HP. rewrite (E x s HP). apply H. exact HP. Qed.
Lemma ready_op L held m x s : ready L held m x s -> x_op x = op.
Proof. intros H. eapply c_op, ready_core, H. Qed.
Lemma rel_cpop {A B} L held m (k : value -> C A) (k' : Z -> M B) Q :
  (forall v, ok_step (k v)) ->
  (forall v n, facts v n (f2 op) -> rel (ready L (v :: held) m) (k v) (k' n) Q) ->
  rel (ready L held m) (v <- cpop ;; k v) (bind (pop W (fk op) (fr op) (f2 op)) k') Q.
Proof.
  intros O H. eapply rel_ext; [|apply rel_pop; eauto]. intros x s P. unfold cbind, cpop.
  rewrite (flag2 x), (flagr x) by (eapply ready_op, P). reflexivity.
Qed.
Lemma rel_get {A B T} (P : ctx -> st -> Prop) (f : ctx -> T) c (k : T -> C A) (n : M B) Q :
  (forall x s, P x s -> f x = c) -> rel P (k c) n Q -> rel P (v <- get f ;; k v) n Q.
Proof. intros E H. eapply rel_ext; [|exact H]. intros x s HP. unfold cbind, get. rewrite (E x s HP). reflexivity. Qed.
Lemma rel_flagr {A B} L held m (k : bool -> C A) (n : M B) Q :
  rel (ready L held m) (k (fr op)) n Q -> rel (ready L held m) (v <- get flag_r ;; k v) n Q.
Proof. apply rel_get. intros x s P. apply flagr. eapply ready_op, P. Qed.
Lemma rel_flag2 {A B} L held m (k : bool -> C A) (n : M B) Q :
  rel (ready L held m) (k (f2 op)) n Q -> rel (ready L held m) (v <- get flag_2 ;; k v) n Q.
Proof. apply rel_get. intros x s P. apply flag2. eapply ready_op, P. Qed.

(** A value is a half only if it was one before. *)
Definition fine (held : list value) (v : value) : Prop := In v held \/ whole v.
Lemma fine_half L held m x s v : core L held m x s -> fine held v -> half_ok (x_h x) v.
Proof.
  intros H [I|[A B]].
  - pose proof (c_held _ _ _ _ _ _ _ _ H) as F. rewrite Forall_forall in F. auto.
  - intros [X|X]; congruence.
Qed.
Lemma rel_push_ex L held m r v n two : m <= 254 -> fine held v -> means v n -> v_short v = two ->
  rel (core L held m) (push_ex r v) (push W r two n) (fun _ _ => core L held (m + 2)).
Proof.
  intros Hm Fv Mn <- x s a x' b s' P E F T.
  edestruct core_push as [R _]; [exact P|exact Hm|exact T|exact (fine_half _ _ _ _ _ _ P Fv)|exact Mn|exact E|exact F|]. exact R.
Qed.
Lemma rel_cpush L held m v n two : m <= 254 -> fine held v -> means v n -> v_short v = two ->
  rel (core L held m) (cpush v) (push W (fr op) two n) (fun _ _ => core L held (m + 2)).
Proof.
  intros. eapply rel_ext; [|apply rel_push_ex; eauto]. intros x s P. unfold cpush. rewrite flagr by (eapply c_op, P). reflexivity.
Qed.
Lemma rel_seq {A A' B B'} (P : ctx -> st -> Prop) (k1 : C A) (k2 : A -> C A') (n1 : M B) (n2 : B -> M B') R Q :
  (forall x s, P x s -> has_info x) -> ok_step k1 -> (forall a, ok_step (k2 a)) ->
  rel P k1 n1 R -> (forall a b, rel (R a b) (k2 a) (n2 b) Q) -> rel P (v <- k1 ;; k2 v) (bind n1 n2) Q.
Proof.
  intros HI O1 O2 H1 H2 x s a x' b s' HP E F T. unfold cbind in E. unfold VmModel.bind in F.
  destruct (k1 x) as [[v y]|] eqn:E1; [|discriminate]. destruct (n1 s) as [[n t]|] eqn:F1; [|discriminate].
  pose proof (goes_has _ _ (O1 _ _ _ (HI _ _ HP) E1) (HI _ _ HP)) as Hy.
  pose proof (pop_term _ _ _ _ (O2 v) Hy E T) as Ty. eapply H2; eauto.
Qed.
Lemma core_info L held m x s : core L held m x s -> has_info x.
Proof. apply c_info. Qed.
Lemma rel_weaken {A B} (P : ctx -> st -> Prop) (k : C A) (n : M B) (Q R : A -> B -> ctx -> st -> Prop) :
  rel P k n Q -> (forall a b x s, Q a b x s -> R a b x s) -> rel P k n R.
Proof. intros H I x s a x' b s' HP E F T. eauto. Qed.
Lemma rel_push1 L held m v n two : m <= 254 -> fine held v -> means v n -> v_short v = two ->
  rel (core L held m) (cpush v) (push W (fr op) two n) postQ.
Proof. intros. eapply rel_weaken; [apply rel_cpush; eauto|]. intros a b x s HC. eapply post_core; [|exact HC]. lia. Qed.
Lemma rel_push2 L held m v1 n1 v2 n2 two : m <= 252 -> fine held v1 -> means v1 n1 -> v_short v1 = two ->
  fine held v2 -> means v2 n2 -> v_short v2 = two ->
  rel (core L held m) (cpush v1 ;;; cpush v2) (bind (push W (fr op) two n1) (fun _ => push W (fr op) two n2)) postQ.
Proof.
  intros. eapply rel_seq; [apply core_info|ok_tac|intros; ok_tac|apply rel_cpush; auto; lia|].
  intros a b. cbv beta. apply rel_push1; auto; lia.
Qed.
Lemma rel_push3 L held m v1 n1 v2 n2 v3 n3 two : m <= 250 -> fine held v1 -> means v1 n1 -> v_short v1 = two ->
  fine held v2 -> means v2 n2 -> v_short v2 = two -> fine held v3 -> means v3 n3 -> v_short v3 = two ->
  rel (core L held m) (cpush v1 ;;; cpush v2 ;;; cpush v3)
    (bind (push W (fr op) two n1) (fun _ => bind (push W (fr op) two n2) (fun _ => push W (fr op) two n3))) postQ.
Proof.
  intros. eapply rel_seq; [apply core_info|ok_tac|intros; ok_tac|apply rel_cpush; auto; lia|].
  intros a b. cbv beta. apply rel_push2; auto; lia.
Qed.
Lemma facts_means v n two : facts v n two -> means v n.
Proof.
  intros (S & R & E & B) C. rewrite (E C), S. destruct two; [lia|reflexivity].
Qed.
Lemma means_eq v n : (v_const v = true -> v_val v = n /\ 0 <= n < 65536) -> means v n.
Proof. intros H C. destruct (H C) as [-> B]. destruct (v_short v); [lia|reflexivity]. Qed.
Lemma means_not v n : v_const v = false -> means v n.
Proof. intros H C. congruence. Qed.

(** ** Steps of one side only *)

Definition idle (s s' : st) : Prop :=
  s_pc W s' = s_pc W s /\ (forall r, getstack r s' = getstack r s) /\ (forall k r, getptr k r s' = getptr k r s).
Lemma idle_refl s : idle s s.
Proof. repeat split. Qed.
Lemma idle_trans a b c : idle a b -> idle b c -> idle a c.
Proof. intros (H1 & H2 & H3) (K1 & K2 & K3). split; [congruence|]. split; intros; [rewrite K2, H2|rewrite K3, H3]; reflexivity. Qed.
Lemma core_idle L held m x s s' : core L held m x s -> idle s s' -> core L held m x s'.
Proof.
  intros [C0 C1 C2 C3 C4 C5 C6 C7 C8 C9] (I1 & I2 & I3). constructor; auto.
  - congruence.
  - intros r i. change (is_byte (getstack r s' i)). rewrite I2. apply C7.
  - intros r. destruct (C8 r) as (D1 & D2 & D3). split; [exact D1|split; [exact D2|]]. cbn [ret_stack shadow] in *. rewrite I2, I3. exact D3.
Qed.
Lemma ready_idle L held m x s s' : ready L held m x s -> idle s s' -> ready L held m x s'.
Proof.
  intros [H [(S1 & S2 & S3) R]] J. split; [eapply core_idle; eauto|]. split; [|exact R].
  split; [exact S1|split; [exact S2|]]. cbn [ret_stack shadow] in *. destruct J as (I1 & I2 & I3). rewrite I2, I3. exact S3.
Qed.
Lemma rel_idle_core {A B B'} L held m (k : C A) (n1 : M B) (n2 : B -> M B') Q :
  (forall s b s', n1 s = Ok (b, s') -> idle s s') -> (forall b, rel (core L held m) k (n2 b) Q) ->
  rel (core L held m) k (bind n1 n2) Q.
Proof.
  intros I H x s a x' b s' P E F T. unfold VmModel.bind in F. destruct (n1 s) as [[c t]|] eqn:F1; [|discriminate].
  refine (H c x t a x' b s' _ E F T). eapply core_idle; eauto.
Qed.
Lemma rel_idle {A B B'} L held m (k : C A) (n1 : M B) (n2 : B -> M B') Q :
  (forall s b s', n1 s = Ok (b, s') -> idle s s') -> (forall b, rel (ready L held m) k (n2 b) Q) ->
  rel (ready L held m) k (bind n1 n2) Q.
Proof.
  intros I H x s a x' b s' P E F T. unfold VmModel.bind in F. destruct (n1 s) as [[c t]|] eqn:F1; [|discriminate].
  refine (H c x t a x' b s' _ E F T). eapply ready_idle; eauto.
Qed.
(** Reports change nothing here. *)
Lemma core_report L held m x s r : ends r = false -> is_error r = false -> core L held m x s -> core L held m (with_h x (h_report (x_h x) r)) s.
Proof.
  intros N1 N2 [C0 C1 C2 C3 C4 C5 C6 C7 C8 C9]. constructor; auto.
  - eapply goes_trans; [exact C0|]. apply goes_with_h, later_report; auto.
Qed.
Lemma ready_report L held m x s r : ends r = false -> is_error r = false -> ready L held m x s -> ready L held m (with_h x (h_report (x_h x) r)) s.
Proof. intros N1 N2 [H K]. split; [apply core_report; auto|exact K]. Qed.
Lemma rel_warn {A B} (P : ctx -> st -> Prop) b w (k : C A) (n : M B) Q :
  (forall x s, P x s -> P (warning w x) s) -> rel P k n Q -> rel P (warn_if b w ;;; k) n Q.
Proof.
  intros HP H x s a x' c s' P0 E F T. unfold cbind, warn_if in E. destruct b; cbn in E; [|eapply H; eauto].
  unfold warn, act in E. eapply (H (warning w x)); eauto.
Qed.
Lemma core_warning L held m w x s : core L held m x s -> core L held m (warning w x) s.
Proof. apply core_report; reflexivity. Qed.
Lemma ready_warning L held m w x s : ready L held m x s -> ready L held m (warning w x) s.
Proof. apply ready_report; reflexivity. Qed.

(** ** Memory and devices *)

Lemma idle_mem_read a s n s' : mem_read W a s = Ok (n, s') -> idle s s'.
Proof. unfold mem_read. destruct (aget _ _ _); [|discriminate]. intros E. apply Ok_pair in E as [_ ->]. apply idle_refl. Qed.
Lemma idle_mem_write a v s n s' : mem_write W a v s = Ok (n, s') -> idle s s'.
Proof.
  unfold mem_write. destruct (aset _ _ _ _); [|discriminate]. intros E. apply Ok_pair in E as [_ ->].
  split; [reflexivity|]. split; [intros []; reflexivity|intros [] []; reflexivity].
Qed.
Lemma idle_load md two a s n s' : load W md two a s = Ok (n, s') -> idle s s'.
Proof.
  unfold load. destruct two; [|apply idle_mem_read]. unfold VmModel.bind.
  destruct (mem_read W (a mod md) s) as [[h t]|] eqn:E1; [|discriminate].
  destruct (mem_read W _ t) as [[l t']|] eqn:E2; [|discriminate]. intros E. apply Ok_pair in E as [_ ->].
  eapply idle_trans; eapply idle_mem_read; eauto.
Qed.
Lemma idle_store md two a v s n s' : store W md two a v s = Ok (n, s') -> idle s s'.
Proof.
  unfold store. destruct two; [|apply idle_mem_write]. unfold VmModel.bind.
  destruct (mem_write W (a mod md) _ s) as [[h t]|] eqn:E1; [|discriminate]. intros E.
  eapply idle_trans; eapply idle_mem_write; eauto.
Qed.

Definition calm (s s' : st) : Prop :=
  s_pc W s' = s_pc W s /\ s_wsp W s' = s_wsp W s /\ s_rsp W s' = s_rsp W s /\ s_kwsp W s' = s_kwsp W s /\ s_krsp W s' = s_krsp W s /\
  same_stacks (s_vm W s) (s_vm W s').
Lemma calm_trans a b c : calm a b -> calm b c -> calm a c.
Proof.
  intros (A1 & A2 & A3 & A4 & A5 & A6 & A7 & A8 & A9) (B1 & B2 & B3 & B4 & B5 & B6 & B7 & B8 & B9).
  unfold calm, same_stacks. repeat split; congruence.
Qed.
Lemma calm_in1 a s n s' : dev_in1 W dei a s = Ok (n, s') -> calm s s'.
Proof.
  unfold dev_in1. destruct (dei _ _ _) as [[[b v] w]|] eqn:E; [|discriminate]. intros F. apply Ok_pair in F as [_ ->].
  destruct HA as [H _]. apply H in E. unfold calm. cbn. auto 10.
Qed.
Lemma calm_in two a s n s' : dev_in W dei hi_first two a s = Ok (n, s') -> calm s s'.
Proof.
  unfold dev_in. destruct two; [|apply calm_in1]. destruct hi_first; unfold VmModel.bind;
    (destruct (dev_in1 W dei _ s) as [[h t]|] eqn:E1; [|discriminate]);
    (destruct (dev_in1 W dei _ t) as [[l t']|] eqn:E2; [|discriminate]); intros E; apply Ok_pair in E as [_ ->];
    eapply calm_trans; eapply calm_in1; eauto.
Qed.
Lemma calm_write a v s n s' : dev_write W a v s = Ok (n, s') -> calm s s'.
Proof.
  unfold dev_write. destruct (aset _ _ _ _); [|discriminate]. intros F. apply Ok_pair in F as [_ ->]. unfold calm, same_stacks. cbn. auto 10.
Qed.
Lemma calm_deo a s n s' : call_deo W deo a s = Ok (n, s') -> calm s s'.
Proof.
  unfold call_deo. destruct (deo _ _ _) as [[v w]|] eqn:E; [|discriminate]. intros F. apply Ok_pair in F as [_ ->].
  destruct HA as [_ H]. apply H in E. unfold calm. cbn. auto 10.
Qed.
Lemma calm_out two a v s n s' : dev_out W deo two a v s = Ok (n, s') -> calm s s'.
Proof.
  unfold dev_out. destruct two; unfold VmModel.bind.
  - destruct (dev_write W (a mod 256) _ s) as [[u1 s1]|] eqn:E1; [|discriminate].
    destruct (dev_write W _ _ s1) as [[u2 s2]|] eqn:E2; [|discriminate].
    destruct (call_deo W deo a s2) as [[u3 s3]|] eqn:E3; [|discriminate]. intros E4.
    eapply calm_trans; [eapply calm_write, E1|]. eapply calm_trans; [eapply calm_write, E2|].
    eapply calm_trans; eapply calm_deo; eauto.
  - destruct (dev_write W (a mod 256) _ s) as [[u1 s1]|] eqn:E1; [|discriminate]. intros E2.
    eapply calm_trans; [eapply calm_write, E1|]. eapply calm_deo; eauto.
Qed.
Lemma idle_saved s u1 s1 s2 u2 s3 : save_state W s = Ok (u1, s1) -> calm s1 s2 -> load_state W s2 = Ok (u2, s3) -> idle s s3.
Proof.
  intros E C F. apply Ok_pair in E as [_ ->]. apply Ok_pair in F as [_ ->]. destruct C as (A1 & A2 & A3 & A4 & A5 & A6 & A7 & A8 & A9).
  cbn in *. split; [exact A1|]. split; [intros []; assumption|]. intros [] []; assumption.
Qed.

(** ** Comparisons *)

Definition result (n : Z) : value := mkV false true false false false false true false false [] None n.
Lemma rel_boolean L held m f : m <= 250 -> L = L0 ->
  rel (ready L held m) (boolean_op f) (cmp_op W f (fk op) (fr op) (f2 op)) postQ.
Proof.
  intros Hm ->. unfold boolean_op, cmp_op. apply rel_cpop; [intros; ok_tac|]. intros b nb Fb.
  apply rel_cpop; [intros; ok_tac|]. intros a na Fa. apply rel_core.
  destruct (v_const a && v_const b && v_fork a && v_fork b) eqn:K.
  - destruct Fb as (_ & _ & Eb & _), Fa as (_ & _ & Ea & _).
    destruct (v_const a); [|discriminate K]. destruct (v_const b); [|discriminate K]. rewrite Ea, Eb by reflexivity.
    apply rel_push1; [lia|right; split; reflexivity| |reflexivity].
    apply means_eq. intros _. cbn. unfold u16. destruct (f na nb); cbn; lia.
  - intros x s u x' u' s' P E F T. unfold cbind, get, fork, act in E. cbn beta iota in E.
    rewrite (flagr x) in E by (eapply c_op, P).
    set (e := if fr op then _ else _) in E. set (y := with_h x (h_with_list (x_h x) (e :: h_list (x_h x)))) in E.
    pose proof P as [C0 C1 C2 C3 C4 C5 C6 C7 C8 C9].
    assert (Py : core (e :: L0) (a :: b :: held) m y s).
    { constructor; auto.
      - eapply goes_trans; [exact C0|]. apply (ok_fork (fun _ => e) x tt y C2 eq_refl).
      - cbn. congruence. }
    destruct (f na nb) eqn:Ef.
    + left. exists (e :: L0), (a :: b :: held), (m + 2). split; [lia|].
      eapply (rel_cpush (e :: L0) (a :: b :: held) m (result 1) 1 false); [lia|right; split; reflexivity| |reflexivity|exact Py|exact E|exact F|exact T].
      apply means_eq. intros _. cbn. lia.
    + right. exists [], e. split.
      * assert (X : x_h x' = x_h y).
        { pose proof (pop_term _ _ _ _ (ok_cpush (result 1)) (c_info _ _ _ _ _ _ _ _ Py) E T) as Ty.
          unfold cpush, push_ex in E. change (x_term y) with (x_term x) in *. rewrite Ty in E. destruct (256 <? _); [inj E; discriminate T|].
          inj E. apply set_same. }
        rewrite X. cbn. congruence.
      * apply (m_push W) in F as [F1 F2 F3 F4 F5 F6].
        destruct (C8 (fr op)) as (D1 & D2 & D3). destruct (C8 (negb (fr op))) as (G1 & G2 & G3). cbn [ret_stack shadow] in D3, G3.
        assert (Mr : means (result 0) (u16 (b2z false))) by (intros _; reflexivity).
        pose proof (C9 (fr op)) as Cw.
        assert (Rr : right_about (vals (raw_push (get_stack (Stk false (fr op)) x) (result 0))) (getstack (fr op) s') (getptr false (fr op) s')).
        { assert (Wd : width (vals (get_stack (Stk false (fr op)) x)) + vsize (result 0) <= 256) by (change (vsize (result 0)) with 1; lia).
          pose proof (right_pushed _ _ _ _ (result 0) _ F5 Mr Wd D3) as [R1 R2].
          destruct (raw_push_spec (x_h x) (get_stack (Stk false (fr op)) x) (result 0) (getstack (fr op) s') (getptr false (fr op) s) D1 D2) as (_ & _ & RR & _).
          - intros [X|X]; discriminate X.
          - exact R1.
          - eapply right_mod; [|exact R2]. f_equal. lia.
          - eapply right_mod; [|exact RR]. rewrite F2. unfold u8. rewrite Z.mod_mod by lia. reflexivity. }
        rewrite <- F3, <- F4 in G3. unfold right_entry. split; [|split].
        -- rewrite F1, <- C3. unfold e. destruct (fr op); reflexivity.
        -- unfold e. change (cells false s') with (getstack false s'). change (pointer false s') with (getptr false false s').
           destruct (fr op); [exact G3|exact Rr].
        -- unfold e. change (cells true s') with (getstack true s'). change (pointer true s') with (getptr false true s').
           destruct (fr op); [exact Rr|exact G3].
Qed.

(** ** Arithmetic *)

Lemma rel_bin L held m p f g : m <= 250 ->
  (forall a b c d, f a b = Ok c -> g a b = COk d -> c = d) ->
  rel (ready L held m) (ChessModel.bin_op p g) (VmModel.bin_op W f (fk op) (fr op) (f2 op)) postQ.
Proof.
  intros Hm H. unfold ChessModel.bin_op, VmModel.bin_op. apply rel_cpop; [intros; ok_tac; intros x n x' Hi HH; destruct (g _ _); [|discriminate]; inversion HH; apply goes_refl|]. intros b nb Fb.
  apply rel_cpop; [intros; ok_tac; intros x n x' Hi HH; destruct (g _ _); [|discriminate]; inversion HH; apply goes_refl|]. intros a na Fa. apply rel_flag2. apply rel_core.
  intros x s u x' u' s' P E F T. unfold cbind at 1 in E. unfold VmModel.bind at 1, lift in F.
  destruct (f na nb) as [c|] eqn:Ef; [|discriminate].
  assert (G : exists n, (v_const a && v_const b = true -> n = u16 c) /\
    cpush (mkV (f2 op) (v_const a && v_const b) (p && (v_addr a || v_addr b)) false false false false false false [] None n) x = COk (u, x')).
  { destruct Fb as (_ & _ & Eb & _), Fa as (_ & _ & Ea & _).
    destruct (v_const a && v_const b) eqn:K.
    - destruct (v_const a); [|discriminate K]. destruct (v_const b); [|discriminate K]. rewrite Ea, Eb in E by reflexivity.
      destruct (g na nb) as [d|] eqn:Eg; [|discriminate]. cbn beta iota in E. rewrite (H _ _ _ _ Ef Eg). eauto.
    - cbn in E. exists 0. split; [discriminate|exact E]. }
  destruct G as (n & Gn & GE).
  eapply (rel_push1 L _ m (mkV (f2 op) (v_const a && v_const b) (p && (v_addr a || v_addr b)) false false false false false false [] None n) (u16 c) (f2 op));
    [lia|right; split; reflexivity| |reflexivity|exact P|exact GE|exact F|exact T].
  apply means_eq. cbn. intros K. rewrite Gn by exact K. unfold u16. lia.
Qed.

(** ** Jumps *)

Definition wpc (p : Z) (s : st) : st := mkSt W (s_vm W s) (s_wsp W s) (s_rsp W s) (s_kwsp W s) (s_krsp W s) p (s_w W s).
Lemma core_pc L held m x s p : core L held m x s -> core L held m (with_pc x p) (wpc p s).
Proof.
  intros [C0 C1 C2 C3 C4 C5 C6 C7 C8 C9]. constructor; auto.
  - eapply goes_trans; [exact C0|]. apply (ok_pc (fun _ => p)). exact C2.
Qed.
Lemma ready_pc L held m x s p : ready L held m x s -> ready L held m (with_pc x p) (wpc p s).
Proof.
  intros [H [(S1 & S2 & S3) R]]. split; [apply core_pc, H|].
  assert (G : get_stack (Stk (fk op) (fr op)) (with_pc x p) = get_stack (Stk (fk op) (fr op)) x) by (destruct (fk op), (fr op); reflexivity).
  unfold sok. rewrite G. split; [|exact R]. split; [exact S1|split; [exact S2|]]. cbn [ret_stack shadow] in *.
  replace (getstack (fr op) (wpc p s)) with (getstack (fr op) s) by (destruct (fr op); reflexivity).
  replace (getptr (fk op) (fr op) (wpc p s)) with (getptr (fk op) (fr op) s) by (destruct (fk op), (fr op); reflexivity). exact S3.
Qed.
Lemma routine_back L held m x s a sig mk t e : core L held m x s -> h_infos (x_h x) a = Some (mkInfo true (Some sig) mk t e) -> is_routine x0 a.
Proof.
  intros H E. pose proof (l_infos _ _ (g_h _ _ (c_goes _ _ _ _ _ _ _ _ H)) a) as S. rewrite E in S.
  unfold is_routine. destruct (h_infos (x_h x0) a) as [[r g mm tt' ee]|]; [|contradiction]. cbn in S. destruct S as (-> & -> & _). eauto.
Qed.
Lemma abs_jmp_true a x x' : abs_jmp a x = COk (true, x') -> x_term x' = true.
Proof.
  unfold abs_jmp. destruct (v_addr a && v_ret a).
  - unfold cbind at 1 2 3 4 5. unfold get. destruct (err_if _ _ _) as [[? y1]|]; [|discriminate].
    unfold act. destruct (check_return _) as [[? y2]|]; [|discriminate]. intros E. inj E. reflexivity.
  - destruct (v_const a); unfold cbind, act, err, cret; intros E; inversion E.
Qed.
Lemma cjump_core L held m x s a n two u x' u' s' : core L held m x s -> facts a n two ->
  cjump a x = COk (u, x') -> x_term x' = false -> jump W two n s = Ok (u', s') -> ~ is_routine x0 (s_pc W s') ->
  core L held m x' s'.
Proof.
  intros P (Sa & Ra & Ea & Ba) E T F NR.
  pose proof (pop_term _ _ _ _ (ok_cjump a) (c_info _ _ _ _ _ _ _ _ P) E T) as Tx.
  unfold cjump in E. rewrite Tx in E. unfold cbind at 1 in E.
  set (K := if v_short a then _ else _) in E.
  assert (OK : ok_step K) by (unfold K; ok_tac).
  destruct (K x) as [[u1 y]|] eqn:EK; [|discriminate].
  assert (Ty : x_term y = false).
  { destruct (x_term y) eqn:Ty; [|reflexivity]. inj E. congruence. }
  rewrite Ty in E.
  assert (Q : core L held m y s').
  { unfold jump, VmModel.bind, getpc, setpc in F. apply Ok_pair in F as [_ ->]. unfold K in EK. rewrite Sa in EK. destruct two.
    - unfold cbind in EK. destruct (abs_jmp a x) as [[b z]|] eqn:EA; [|discriminate]. cbn in EK. apply COk_inj in EK as [_ ->].
      destruct b; [apply abs_jmp_true in EA; congruence|].
      unfold abs_jmp in EA. destruct (v_addr a && v_ret a).
      + unfold cbind, get, act in EA. destruct (err_if _ _ _) as [[? y1]|]; [|discriminate].
        destruct (check_return _) as [[? y2]|]; [|discriminate]. inversion EA.
      + destruct (v_const a) eqn:Ca; cbn in EA; unfold cbind, act, err in EA; apply COk_inj in EA as [_ <-]; [|discriminate Ty].
        rewrite (Ea eq_refl). apply core_pc, P.
    - destruct (v_const a) eqn:Ca; unfold act, err, act in EK; apply COk_inj in EK as [_ <-]; [|discriminate Ty].
      rewrite (Ea eq_refl), (c_pc _ _ _ _ _ _ _ _ P). apply core_pc, P. }
  assert (NI : forall sig mk t e, h_infos (x_h y) (x_pc y) <> Some (mkInfo true (Some sig) mk t e)).
  { intros sig mk t e X. apply NR. rewrite <- (c_pc _ _ _ _ _ _ _ _ Q). eapply routine_back; eauto. }
  assert (D : (if h_jumps (x_h y) (Z.lor (Z.shiftl (x_pc x) 16) (x_pc y)) then COk (tt, terminate (with_h y (h_report (x_h y) RRepeat)))
           else COk (tt, with_h y (h_with_jump (x_h y) (Z.lor (Z.shiftl (x_pc x) 16) (x_pc y))))) = COk (u, x')).
  { destruct (h_infos (x_h y) (x_pc y)) as [[[] [sig|] mk t e]|]; try exact E. exfalso. eapply NI; reflexivity. }
  destruct (h_jumps _ _); [inj D; discriminate T|]. inj D.
  destruct Q as [C0 C1 C2 C3 C4 C5 C6 C7 C8 C9]. constructor; auto.
  eapply goes_trans; [exact C0|]. apply goes_with_h. later_tac.
Qed.
(** What holds after a jump that is not a jump to a routine with a signature. *)
Definition postJ {A B} (_ : A) (_ : B) (x : ctx) (s : st) : Prop := ~ is_routine x0 (s_pc W s) -> post x s.
Lemma rel_postJ {A B} P (k : C A) (n : M B) : rel P k n postQ -> rel P k n postJ.
Proof. intros H. eapply rel_weaken; [exact H|]. intros a b x s X _. exact X. Qed.
Lemma rel_jump L held m a n two : m <= 256 -> facts a n two -> rel (core L held m) (cjump a) (jump W two n) postJ.
Proof.
  intros Hm Fa x s u x' u' s' P E F T NR. left. exists L, held, m. split; [exact Hm|]. eapply cjump_core; eauto.
Qed.
Lemma right_here L held m x s : core L held m x s -> right_entry (mkEntry (x_info x) (x_w x) (x_r x) (x_pc x)) s.
Proof.
  intros [C0 C1 C2 C3 C4 C5 C6 C7 C8 C9]. split; [exact C3|]. split; [apply (C8 false)|apply (C8 true)].
Qed.
Lemma rel_conditional L held m c nc a n two : m <= 256 -> L = L0 -> facts c nc false -> facts a n two ->
  rel (core L held m) (jump_conditional c a) (if negb (nc =? 0) then jump W two n else VmModel.ret W tt) postJ.
Proof.
  intros Hm -> Fc Fa. unfold jump_conditional. destruct (v_const c && v_fork c) eqn:K.
  - destruct Fc as (_ & _ & Ec & _). destruct (v_const c); [|discriminate K]. rewrite Ec by reflexivity.
    destruct (nc =? 0); cbn [negb].
    + intros x s u x' u' s' P E F T _. inj E. apply Ok_pair in F as [_ ->]. left. eauto.
    + apply rel_jump; auto.
  - intros x s u x' u' s' P E F T. unfold cbind, fork, act in E.
    set (e := mkEntry (x_info x) (x_w x) (x_r x) (x_pc x)) in E. set (y := with_h x (h_with_list (x_h x) (e :: h_list (x_h x)))) in E.
    pose proof P as [C0 C1 C2 C3 C4 C5 C6 C7 C8 C9].
    assert (Py : core (e :: L0) held m y s).
    { constructor; auto.
      - eapply goes_trans; [exact C0|]. apply (ok_fork (fun e => e) x tt y C2 eq_refl).
      - cbn. congruence. }
    destruct (nc =? 0); cbn [negb] in F.
    + intros _. right. apply Ok_pair in F as [_ ->].
      destruct (l_list _ _ (g_h _ _ (ok_cjump _ _ _ _ (c_info _ _ _ _ _ _ _ _ Py) E))) as [l El].
      exists l, e. split; [|eapply right_here, P]. rewrite El. cbn. congruence.
    + exact (rel_jump _ _ _ _ _ _ Hm Fa _ _ _ _ _ _ Py E F T).
Qed.

(** ** Loads and stores *)

Lemma warn_if_core L held m b w x s u x' : core L held m x s -> warn_if b w x = COk (u, x') -> core L held m x' s.
Proof.
  intros P E. unfold warn_if in E. destruct b; [|inj E; exact P]. unfold warn, act in E. inj E. apply core_warning, P.
Qed.
Lemma rel_cload L held m a n : m <= 250 -> rel (core L held m) (cload a) (push W (fr op) (f2 op) n) postQ.
Proof.
  intros Hm x s u x' u' s' P E F T.
  pose proof (pop_term _ _ _ _ (ok_cload a) (c_info _ _ _ _ _ _ _ _ P) E T) as Tx.
  unfold cload in E. rewrite Tx in E. unfold cbind at 1 in E.
  destruct (warn_if _ _ x) as [[u1 y]|] eqn:E1; [|discriminate].
  pose proof (warn_if_core _ _ _ _ _ _ _ _ _ P E1) as Py. unfold cbind at 1 in E.
  set (K := if v_const a then _ else _) in E. destruct (K y) as [[v z]|] eqn:EK; [|discriminate].
  assert (Q : core L held m z s /\ v_const v = false /\ whole v).
  { unfold K in EK. destruct (v_const a); [|inj EK; split; [exact Py|split; [reflexivity|split; reflexivity]]].
    destruct (h_infos (x_h y) (v_val a)); [inj EK; split; [exact Py|split; [reflexivity|split; reflexivity]]|].
    unfold cbind in EK. destruct (warn_if _ _ y) as [[u2 z']|] eqn:E2; [|discriminate]. inj EK.
    split; [eapply warn_if_core; eauto|split; [reflexivity|split; reflexivity]]. }
  destruct Q as (Pz & Cv & Wv). unfold cbind, get in E. rewrite (flag2 z) in E by (eapply c_op, Pz).
  eapply (rel_push1 L held m (set_short (f2 op) v) n (f2 op)); [lia|right; exact Wv|apply means_not; exact Cv|reflexivity|exact Pz|exact E|exact F|exact T].
Qed.
Lemma rel_cstore L held m a md two b n : m <= 256 -> rel (core L held m) (cstore a) (store W md two b n) postQ.
Proof.
  intros Hm x s u x' u' s' P E F T. apply idle_store in F.
  enough (core L held m x' s) by (eapply post_core; [exact Hm|eapply core_idle; eauto]).
  pose proof (pop_term _ _ _ _ (ok_cstore a) (c_info _ _ _ _ _ _ _ _ P) E T) as Tx.
  unfold cstore in E. rewrite Tx in E. unfold cbind at 1 in E.
  destruct (warn_if _ _ x) as [[u1 y]|] eqn:E1; [|discriminate].
  pose proof (warn_if_core _ _ _ _ _ _ _ _ _ P E1) as Py.
  destruct (v_const a); [|inj E; exact Py].
  destruct (h_infos (x_h y) (v_val a)); [inj E; exact Py|]. eapply warn_if_core; eauto.
Qed.

(** ** Calls: the machine stores the return address before it takes the target *)

Lemma jsr_swap r k two pc s u s' :
  bind (push W (negb r) true pc) (fun _ => bind (pop W k r two) (fun a => jump W two a)) s = Ok (u, s') ->
  bind (pop W k r two) (fun a => bind (push W (negb r) true pc) (fun _ => jump W two a)) s = Ok (u, s').
Proof.
  assert (A : forall f i, aget 256 f (u8 i) = Ok (f (u8 i))).
  { intros f i. unfold aget, in_bounds, u8. replace ((0 <=? i mod 256) && (i mod 256 <? 256)) with true by lia. reflexivity. }
  unfold VmModel.bind, push, push2, pop, pop1, pop2, VmModel.bind, stack_write, stack_read, VmModel.ret.
  destruct k, r, two; cbn [negb getstack setstack getptr setptr s_vm s_wsp s_rsp s_kwsp s_krsp s_pc s_w VmModel.getstack VmModel.setstack VmModel.getptr VmModel.setptr vm_set_rs vm_set_ws vm_rs vm_ws];
    rewrite ?A; repeat (destruct (aset _ _ _ _); [cbn [negb s_vm s_wsp s_rsp s_kwsp s_krsp s_pc s_w VmModel.getstack VmModel.setstack VmModel.getptr VmModel.setptr vm_set_rs vm_set_ws vm_rs vm_ws]; rewrite ?A|intros X; discriminate X]); try exact (fun E => E).
Qed.

Lemma fine_in held v : In v held -> fine held v.
Proof. left. assumption. Qed.
Ltac fin_tac := first [left; cbn [In]; solve [auto 6] | right; split; reflexivity].
Ltac mean_tac := first [eapply facts_means; eassumption | apply means_not; reflexivity].
Ltac short_tac := first [reflexivity | match goal with H : facts ?v _ _ |- v_short ?v = _ => exact (proj1 H) end].
Ltac side := first [fin_tac | mean_tac | short_tac | lia].

Lemma int32_same a c : int32 a = Ok c -> c = a.
Proof. unfold int32. destruct (in_int a); congruence. Qed.

Lemma rel_drop {A B} (P P' : ctx -> st -> Prop) (c : C A) (n : VmModel.M W B) Q :
  rel P c n Q -> rel (fun x s => P x s /\ P' x s) c n Q.
Proof. intros H x s u x' u' s' [X _]. apply H, X. Qed.
Definition base_jump (b : base) : bool := match b with JMP | JCN | JSR => true | _ => false end.
Lemma rel_poly L m b : m <= 250 -> L = L0 -> rel (fun x s => ready L [] m x s /\ 0 <= x_pc x < 65536) (ChessModel.poly b) (poly_op W dei deo hi_first b (fk op) (fr op) (f2 op)) postJ.
Proof.
  intros Hm HL. destruct (base_jump b) eqn:Hb.
  { destruct b; try discriminate Hb; unfold ChessModel.poly, poly_op; clear Hb.
  - (* JMP *) apply rel_drop. apply rel_cpop; [intros; ok_tac|]. intros a na Fa. apply rel_core, rel_jump; [lia|exact Fa].
  - (* JCN *) apply rel_drop. apply rel_cpop; [intros; ok_tac|]. intros a na Fa. apply rel_flagr. apply rel_pop; [intros; ok_tac|]. intros c nc Fc.
    apply rel_core, rel_conditional; auto. lia.
  - (* JSR *) intros x s u x' u' s' [P Hpc] E F T. unfold VmModel.bind at 1, getpc in F. apply jsr_swap in F.
    pose proof (c_pc _ _ _ _ _ _ _ _ (ready_core _ _ _ _ _ P)) as Pc. rewrite <- Pc in F.
    unfold cbind at 1 in E. unfold VmModel.bind at 1 in F.
    destruct (cpop x) as [[a y]|] eqn:E1; [|discriminate]. destruct (pop W _ _ _ s) as [[na t]|] eqn:F1; [|discriminate].
    pose proof (c_info _ _ _ _ _ _ _ _ (ready_core _ _ _ _ _ P)) as Hi.
    pose proof (goes_has _ _ (ok_cpop _ _ _ Hi E1) Hi) as Hy.
    assert (Ok2 : ok_step (r <- get flag_r ;; jump_stash a r)) by ok_tac.
    pose proof (pop_term _ _ _ _ Ok2 Hy E T) as Ty.
    unfold cpop, cbind, get in E1. rewrite (flag2 x), (flagr x) in E1 by (eapply ready_op, P).
    edestruct ready_pop as (R & R1 & R2 & R3 & R4 & _); [exact P|exact Ty|exact E1|exact F1|].
    assert (Fa : facts a na (f2 op)) by (red; auto).
    assert (Py : x_pc y = x_pc x).
    { pose proof (c_pc _ _ _ _ _ _ _ _ (ready_core _ _ _ _ _ R)) as X.
      apply (m_pop W) in F1 as [-> _]; [|eapply c_bytes, ready_core, P]. rewrite pc_setptr in X. congruence. }
    unfold cbind at 1, get in E. rewrite (flagr y) in E by (eapply ready_op, R). unfold jump_stash, cbind at 1, get in E. rewrite Py in E.
    revert E F T. eapply (rel_seq (core L [a] m) (push_ex (negb (fr op)) (return_sub (x_pc x))) (fun _ => cjump a) (push W (negb (fr op)) true (x_pc x)) (fun _ => jump W (f2 op) na) (fun _ _ => core L [a] (m + 2)) postJ);
      [apply core_info|ok_tac|intros; ok_tac| | |apply ready_core, R].
    + apply rel_push_ex; [lia|right; split; reflexivity| |reflexivity]. intros _. cbn. rewrite Z.mod_small by lia. reflexivity.
    + intros c d. cbv beta. apply rel_jump; [lia|exact Fa].
  }
  intros x s u x' u' s' [P _] E F T. intros _. revert x s u x' u' s' P E F T.
  change (rel (ready L [] m) (ChessModel.poly b) (poly_op W dei deo hi_first b (fk op) (fr op) (f2 op)) postQ).
  destruct b; try discriminate Hb; unfold ChessModel.poly, poly_op; clear Hb.
  - (* INC *) apply rel_cpop; [intros; ok_tac|]. intros a n Fa. apply rel_core.
    apply rel_push1; [lia|right; split; reflexivity| |exact (proj1 Fa)].
    apply means_eq. cbn. intros C. rewrite C. destruct Fa as (_ & _ & Ea & _). rewrite (Ea C). unfold u16. lia.
  - (* POP *) apply rel_cpop; [intros; ok_tac|]. intros a n Fa x s u x' u' s' P E F T. inj E. apply Ok_pair in F as [_ ->].
    eapply post_core; [|apply ready_core, P]. lia.
  - (* NIP *) apply rel_cpop; [intros; ok_tac|]. intros b n Fb. apply rel_cpop; [intros; ok_tac|]. intros a na Fa. apply rel_core.
    apply rel_push1; side.
  - (* SWP *) apply rel_cpop; [intros; ok_tac|]. intros b n Fb. apply rel_cpop; [intros; ok_tac|]. intros a na Fa. apply rel_core.
    apply rel_push2; side.
  - (* ROT *) apply rel_cpop; [intros; ok_tac|]. intros c nc Fc. apply rel_cpop; [intros; ok_tac|]. intros b n Fb. apply rel_cpop; [intros; ok_tac|]. intros a na Fa. apply rel_core.
    apply rel_push3; side.
  - (* DUP *) apply rel_cpop; [intros; ok_tac|]. intros a na Fa. apply rel_core. apply rel_push2; side.
  - (* OVR *) apply rel_cpop; [intros; ok_tac|]. intros b n Fb. apply rel_cpop; [intros; ok_tac|]. intros a na Fa. apply rel_core.
    apply rel_push3; side.
  - apply rel_boolean; auto.
  - apply rel_boolean; auto.
  - apply rel_boolean; auto.
  - apply rel_boolean; auto.
  - (* STH *) apply rel_cpop; [intros; ok_tac|]. intros a na Fa. apply rel_flagr, rel_core.
    eapply rel_weaken; [apply rel_push_ex; side|]. intros u u' x s Hx. eapply post_core; [|exact Hx]. lia.
  - (* LDZ *) apply rel_flagr. apply rel_pop; [intros; ok_tac|]. intros a na Fa. apply rel_idle; [apply idle_load|]. intros b.
    apply rel_core, rel_cload; lia.
  - (* STZ *) apply rel_flagr. apply rel_pop; [intros; ok_tac|]. intros a na Fa. apply rel_cpop; [intros; ok_tac|]. intros b nb Fb.
    apply rel_core, rel_cstore; lia.
  - (* LDR *) apply rel_flagr. apply rel_pop; [intros; ok_tac|]. intros a na Fa.
    intros x s u x' u' s' P E F T. unfold cbind at 1, get in E. revert P E F T. revert x s u x' u' s'.
    intros x s u x' u' s' P E F T. unfold VmModel.bind at 1, getpc in F. revert P E F T.
    apply (rel_idle L [a] m (cload (relative (x_pc x) a)) _ _ postQ); [apply idle_load|]. intros b. apply rel_core, rel_cload; lia.
  - (* STR *) apply rel_flagr. apply rel_pop; [intros; ok_tac|]. intros a na Fa. apply rel_cpop; [intros; ok_tac|]. intros b nb Fb.
    intros x s u x' u' s' P E F T. unfold cbind at 1, get in E. unfold VmModel.bind at 1, getpc in F.
    eapply (rel_cstore L _ m (relative (x_pc x) a)); [|apply ready_core, P|exact E|exact F|exact T]. lia.
  - (* LDA *) apply rel_flagr. apply rel_pop; [intros; ok_tac|]. intros a na Fa. apply rel_idle; [apply idle_load|]. intros b.
    apply rel_core, rel_cload; lia.
  - (* STA *) apply rel_flagr. apply rel_pop; [intros; ok_tac|]. intros a na Fa. apply rel_cpop; [intros; ok_tac|]. intros b nb Fb.
    apply rel_core, rel_cstore; lia.
  - (* DEI *) apply rel_flagr. apply rel_pop; [intros; ok_tac|]. intros a na Fa. apply rel_warn; [apply ready_warning|]. apply rel_flag2.
    intros x s u x' u' s' P E F T. unfold VmModel.bind in F.
    destruct (save_state W s) as [[u1 s1]|] eqn:F1; [|discriminate]. destruct (dev_in W dei hi_first _ _ s1) as [[b s2]|] eqn:F2; [|discriminate].
    destruct (load_state W s2) as [[u3 s3]|] eqn:F3; [|discriminate].
    pose proof (idle_saved _ _ _ _ _ _ F1 (calm_in _ _ _ _ _ F2) F3) as J.
    eapply (rel_push1 L [a] m (plain (f2 op))); [lia|right; split; reflexivity|apply means_not; reflexivity|reflexivity| |exact E|exact F|exact T].
    apply ready_core. eapply ready_idle; eauto.
  - (* DEO *) apply rel_flagr. apply rel_pop; [intros; ok_tac|]. intros a na Fa. apply rel_cpop; [intros; ok_tac|]. intros b nb Fb.
    apply rel_warn; [apply ready_warning|].
    intros x s u x' u' s' P E F T. unfold VmModel.bind in F.
    destruct (save_state W s) as [[u1 s1]|] eqn:F1; [|discriminate]. destruct (dev_out W deo _ _ _ s1) as [[u2 s2]|] eqn:F2; [|discriminate].
    pose proof (idle_saved _ _ _ _ _ _ F1 (calm_out _ _ _ _ _ _ F2) F) as J.
    apply (post_core L [b; a] m); [lia|]. eapply core_idle; [|exact J].
    apply ready_core in P. unfold report_deo, act in E. cbv beta zeta in E.
    destruct (v_const a && v_const b); [|inj E; exact P]. destruct (v_short b); inj E.
    + apply core_report; [reflexivity|reflexivity|]. apply core_report; auto.
    + apply core_report; auto.
  - apply rel_bin; [lia|]. intros a b c d H K. apply int32_same in H. congruence.
  - apply rel_bin; [lia|]. intros a b c d H K. apply int32_same in H. congruence.
  - apply rel_bin; [lia|]. intros a b c d H K. apply int32_same in H. unfold op_mul in K. destruct (in_int _); [congruence|discriminate].
  - apply rel_bin; [lia|]. intros a b c d H K. destruct (b =? 0); cbn in H, K; [congruence|]. unfold cdiv in H. destruct (b =? 0); congruence.
  - apply rel_bin; [lia|]. intros a b c d H K. congruence.
  - apply rel_bin; [lia|]. intros a b c d H K. congruence.
  - apply rel_bin; [lia|]. intros a b c d H K. congruence.
  - (* SFT *) apply rel_flagr. apply rel_pop; [intros; ok_tac|]. intros b nb Fb. apply rel_cpop; [intros; ok_tac|]. intros a na Fa. apply rel_flag2.
    apply rel_core. intros x s u x' u' s' P E F T. unfold VmModel.bind, lift in F.
    destruct (int32 _) as [c|] eqn:Ec; [|discriminate]. apply int32_same in Ec.
    eapply (rel_push1 L _ m _ (u16 c) (f2 op)); [| | | |exact P|exact E|exact F|exact T]; [lia|right; split; reflexivity| |reflexivity].
    apply means_eq. cbn. intros K. rewrite K. destruct Fa as (_ & _ & Ea & _), Fb as (_ & _ & Eb & _).
    destruct (v_const a); [|discriminate K]. destruct (v_const b); [|discriminate K]. rewrite Ea, Eb by reflexivity. subst c. unfold u16. lia.
Qed.

(** ** The bytes after the opcode *)

(** The two bytes at the program counter are those of the program. *)
Definition near (x : ctx) (s : st) : Prop :=
  0 <= s_pc W s < 65536 /\ forall i, 0 <= i <= 1 -> vm_mem (s_vm W s) ((s_pc W s + i) mod 65536) = h_rom (x_h x) ((s_pc W s + i) mod 65536)
    /\ is_byte (vm_mem (s_vm W s) ((s_pc W s + i) mod 65536)).

Lemma m_mem a s n s' : mem_read W a s = Ok (n, s') -> s' = s /\ n = vm_mem (s_vm W s) a.
Proof. unfold mem_read, aget. destruct (in_bounds _ _); [|discriminate]. intros E. apply Ok_pair in E as [-> ->]. auto. Qed.
Lemma m_load two a s n s' : load W 65536 two a s = Ok (n, s') -> s' = s /\
  n = if two then Z.lor (Z.shiftl (vm_mem (s_vm W s) (a mod 65536)) 8) (vm_mem (s_vm W s) ((a + 1) mod 65536)) else vm_mem (s_vm W s) (a mod 65536).
Proof.
  unfold load. destruct two; [|apply m_mem]. unfold VmModel.bind.
  destruct (mem_read W (a mod 65536) s) as [[h t]|] eqn:E1; [|discriminate]. apply m_mem in E1 as [-> ->].
  destruct (mem_read W ((a + 1) mod 65536) s) as [[l t]|] eqn:E2; [|discriminate]. apply m_mem in E2 as [-> ->].
  intros E. apply Ok_pair in E as [-> ->]. auto.
Qed.
Lemma pop_wpc k r two p s n t : pop W k r two s = Ok (n, t) -> pop W k r two (wpc p s) = Ok (n, wpc p t).
Proof.
  unfold pop, pop1, pop2, VmModel.bind, stack_read, VmModel.ret.
  destruct k, r, two; cbn;
    repeat (destruct (aget _ _ _); [|intros X; discriminate X]; cbn); intros X; apply Ok_pair in X as [-> ->]; reflexivity.
Qed.
Lemma push_wpc r two n p s u t : push W r two n s = Ok (u, t) -> push W r two n (wpc p s) = Ok (u, wpc p t).
Proof.
  unfold push, push1, push2, VmModel.bind, stack_write.
  destruct r, two; cbn; repeat (destruct (aset _ _ _ _); [|intros X; discriminate X]; cbn); intros X; apply Ok_pair in X as [-> ->]; reflexivity.
Qed.
Lemma push_mem r two n s u t : push W r two n s = Ok (u, t) -> vm_mem (s_vm W t) = vm_mem (s_vm W s) /\ s_pc W t = s_pc W s.
Proof.
  unfold push, push1, push2, VmModel.bind, stack_write.
  destruct r, two; cbn; repeat (destruct (aset _ _ _ _); [|intros X; discriminate X]; cbn); intros X; apply Ok_pair in X as [-> ->]; split; reflexivity.
Qed.
Lemma pop_mem k r two s n t : pop W k r two s = Ok (n, t) -> vm_mem (s_vm W t) = vm_mem (s_vm W s) /\ s_pc W t = s_pc W s.
Proof.
  unfold pop, pop1, pop2, VmModel.bind, stack_read, VmModel.ret.
  destruct k, r, two; cbn;
    repeat (destruct (aget _ _ _); [|intros X; discriminate X]; cbn); intros X; apply Ok_pair in X as [-> ->]; split; reflexivity.
Qed.
Lemma push_split r n s u s' : push W r true n s = Ok (u, s') ->
  bind (push W r false (Z.shiftr n 8)) (fun _ => push W r false n) s = Ok (u, s').
Proof.
  unfold push, push1, push2, VmModel.bind, stack_write.
  assert (H : forall p, u8 (u8 (p + 1) + 1) = u8 (p + 2)) by (intros p; unfold u8; lia).
  destruct r; cbn; (destruct (aset _ _ _ _); [|intros X; discriminate X]; cbn); (destruct (aset _ _ _ _); [|intros X; discriminate X]; cbn);
    rewrite H; auto.
Qed.

(** The target of an immediate jump. *)
Definition goal_of (s : st) : Z :=
  u16 (s_pc W s + (u16 (Z.lor (Z.shiftl (vm_mem (s_vm W s) (s_pc W s mod 65536)) 8) (vm_mem (s_vm W s) ((s_pc W s + 1) mod 65536))) + 2)).
Lemma target_spec L held m x s a y : core L held m x s -> near x s -> ChessModel.jump_target x = COk (a, y) -> x_term y = false ->
  a = return_sub (goal_of s) /\ y = with_pc x (u16 (s_pc W s + 2)).
Proof.
  intros P [Hp Hn] E T. unfold ChessModel.jump_target, cbind, next_pc, get in E. cbn [x_pc x_h with_pc] in E.
  rewrite (c_pc _ _ _ _ _ _ _ _ P) in E. destruct (_ && _); [|unfold err, act, cret in E; apply COk_inj in E as [_ <-]; discriminate T].
  unfold get_rom in E. cbn [x_pc x_h with_pc] in E. destruct (_ <? _); [discriminate|]. destruct (_ <? _); [discriminate|].
  apply COk_inj in E as [<- <-]. destruct (Hn 0) as [M0 _]; [lia|]. destruct (Hn 1) as [M1 _]; [lia|]. unfold goal_of.
  rewrite Z.add_0_r in M0. rewrite M0, M1. unfold u16. rewrite (Z.mod_small (s_pc W s)) by lia. split.
  - cbn [x_h x_pc with_pc]. f_equal. set (X := Z.lor _ _). generalize X. intros z. clear. lia.
  - replace (((s_pc W s + 1) mod 65536 + 1) mod 65536) with ((s_pc W s + 2) mod 65536) by lia. reflexivity.
Qed.
Lemma goal_facts s : facts (return_sub (goal_of s)) (goal_of s) true.
Proof. unfold facts, in_range, goal_of, u16. cbn. lia. Qed.
Lemma jump_wpc n p s : jump W true n (wpc p s) = Ok (tt, wpc n s).
Proof. reflexivity. Qed.

Lemma rel_JMI L m : m <= 250 -> rel (fun x s => core L [] m x s /\ near x s) (run_label JMI) (exec_label W dei deo hi_first JMI) postJ.
Proof.
  intros Hm x s u x' u' s' [P N] E F T. cbn [run_label exec_label] in E, F. unfold cbind in E.
  destruct (ChessModel.jump_target x) as [[a y]|] eqn:E1; [|discriminate].
  pose proof (c_info _ _ _ _ _ _ _ _ P) as Hi.
  assert (Oj : ok_step ChessModel.jump_target) by ok_tac.
  pose proof (pop_term _ _ _ _ (ok_cjump a) (goes_has _ _ (Oj _ _ _ Hi E1) Hi) E T) as Ty.
  destruct (target_spec _ _ _ _ _ _ _ P N E1 Ty) as [-> ->].
  unfold VmModel.bind, getpc in F. destruct (load W _ _ _ s) as [[b t]|] eqn:F1; [|discriminate]. apply m_load in F1 as [-> ->].
  unfold setpc in F. apply Ok_pair in F as [_ ->].
  eapply (rel_jump L [] m _ (goal_of s) true); [lia|apply goal_facts|apply core_pc, P|exact E|apply (jump_wpc _ (u16 (s_pc W s + 2)))|exact T].
Qed.
Lemma rel_JCI L m : m <= 250 -> L = L0 -> fk op = false -> fr op = false ->
  rel (fun x s => ready L [] m x s /\ near x s) (run_label JCI) (exec_label W dei deo hi_first JCI) postJ.
Proof.
  intros Hm HL Hk Hr x s u x' u' s' [P N] E F T. cbn [run_label exec_label] in E, F. unfold cbind at 1 in E.
  destruct (ChessModel.jump_target x) as [[a y]|] eqn:E1; [|discriminate].
  pose proof (c_info _ _ _ _ _ _ _ _ (ready_core _ _ _ _ _ P)) as Hi.
  assert (Oj : ok_step ChessModel.jump_target) by ok_tac.
  assert (Ok2 : ok_step (c <- pop_ex false false ;; jump_conditional c a)) by ok_tac.
  pose proof (pop_term _ _ _ _ Ok2 (goes_has _ _ (Oj _ _ _ Hi E1) Hi) E T) as Ty.
  destruct (target_spec _ _ _ _ _ _ _ (ready_core _ _ _ _ _ P) N E1 Ty) as [-> ->].
  set (p := u16 (s_pc W s + 2)) in *.
  assert (G : bind (pop W (fk op) (fr op) false) (fun nc => if negb (nc =? 0) then jump W true (goal_of s) else VmModel.ret W tt) (wpc p s) = Ok (tt, s')).
  { rewrite Hk, Hr. unfold VmModel.bind at 1 in F. destruct (pop W false false false s) as [[nc t]|] eqn:F1; [|discriminate].
    unfold VmModel.bind at 1. rewrite (pop_wpc _ _ _ p _ _ _ F1). apply pop_mem in F1 as [M1 M2].
    unfold VmModel.bind, getpc in F. destruct (negb (nc =? 0)).
    - destruct (load W _ _ _ t) as [[b t']|] eqn:F2; [|discriminate]. apply m_load in F2 as [-> ->].
      unfold setpc in F. apply Ok_pair in F as [_ ->]. rewrite jump_wpc, M1, M2. reflexivity.
    - unfold setpc in F. apply Ok_pair in F as [_ ->]. rewrite M2. reflexivity. }
  replace (pop_ex false false) with (pop_ex false (fr op)) in E by (rewrite Hr; reflexivity). pose proof (ready_pc _ _ _ _ _ p P) as P'.
  assert (R : rel (ready L [] m) (c <- pop_ex false (fr op) ;; jump_conditional c (return_sub (goal_of s)))
    (bind (pop W (fk op) (fr op) false) (fun nc => if negb (nc =? 0) then jump W true (goal_of s) else VmModel.ret W tt)) postJ).
  { apply rel_pop; [intros; ok_tac|]. intros c nc Fc. apply rel_core.
    apply rel_conditional; [lia|exact HL|exact Fc|apply goal_facts]. }
  exact (R _ _ _ _ _ _ P' E G T).
Qed.
Lemma rel_JSI L m : m <= 250 -> rel (fun x s => core L [] m x s /\ near x s) (run_label JSI) (exec_label W dei deo hi_first JSI) postJ.
Proof.
  intros Hm x s u x' u' s' [P N] E F T. cbn [run_label exec_label] in E, F. unfold cbind at 1 in E.
  destruct (ChessModel.jump_target x) as [[a y]|] eqn:E1; [|discriminate].
  pose proof (c_info _ _ _ _ _ _ _ _ P) as Hi.
  assert (Oj : ok_step ChessModel.jump_target) by ok_tac.
  assert (Ok2 : ok_step (jump_stash a false)) by ok_tac.
  pose proof (pop_term _ _ _ _ Ok2 (goes_has _ _ (Oj _ _ _ Hi E1) Hi) E T) as Ty.
  destruct (target_spec _ _ _ _ _ _ _ P N E1 Ty) as [-> ->].
  set (p := u16 (s_pc W s + 2)) in *.
  assert (G : bind (push W true true (s_pc W s + 2)) (fun _ => jump W true (goal_of s)) (wpc p s) = Ok (tt, s')).
  { unfold VmModel.bind, getpc in F. change (push2 W true (s_pc W s + 2) s) with (push W true true (s_pc W s + 2) s) in F.
    destruct (push W true true _ s) as [[u1 t]|] eqn:F1; [|discriminate].
    unfold VmModel.bind at 1. rewrite (push_wpc _ _ _ p _ _ _ F1). apply push_mem in F1 as [M1 M2].
    destruct (load W _ _ _ t) as [[b t']|] eqn:F2; [|discriminate]. apply m_load in F2 as [-> ->].
    unfold setpc in F. apply Ok_pair in F as [_ ->]. rewrite jump_wpc, M1. unfold goal_of. reflexivity. }
  unfold jump_stash, cbind at 1, get in E. cbn [x_pc with_pc] in E.
  pose proof (core_pc _ _ _ _ _ p P) as P'.
  refine (rel_seq (core L [] m) (push_ex (negb false) (return_sub p)) (fun _ => cjump (return_sub (goal_of s))) (push W true true (s_pc W s + 2)) (fun _ => jump W true (goal_of s)) (fun _ _ => core L [] (m + 2)) postJ _ _ _ _ _ _ _ _ _ _ _ P' E G T);
    [apply core_info|ok_tac|intros; ok_tac| |].
  + apply rel_push_ex; [lia|right; split; reflexivity| |reflexivity]. intros _. reflexivity.
  + intros c d. cbv beta. apply rel_jump; [lia|apply goal_facts].
Qed.

(** ** Literals *)

Lemma lit_byte_spec L held m x s a sy v y : core L held m x s -> make_lit_byte a sy x = COk (v, y) ->
  core L held m y s /\ whole v /\ v_short v = false /\ (v_const v = true -> v_val v = h_rom (x_h x) a).
Proof.
  intros P E. unfold make_lit_byte in E. destruct sy as [z|].
  - unfold cbind, get_rom in E. destruct (a <? 256); [discriminate|].
    destruct (y_type z); unfold cret in E; apply COk_inj in E as [<- <-];
      try (split; [exact P|split; [split; reflexivity|split; [reflexivity|intros _; reflexivity]]]).
    destruct (_ <=? 255); (split; [exact P|split; [split; reflexivity|split; [reflexivity|intros _; reflexivity]]]).
  - unfold cbind, warn, act, cret in E. apply COk_inj in E as [<- <-].
    split; [apply core_warning, P|split; [split; reflexivity|split; [reflexivity|intros X; discriminate X]]].
Qed.
Lemma means_byte v n b : v_short v = false -> (v_const v = true -> v_val v = b) -> b mod 256 = n mod 256 -> means v n.
Proof. intros S H Hb C. rewrite S, H by exact C. exact Hb. Qed.
Lemma rel_two L m v1 w2 n s x u u' x' s' :
  m <= 250 -> core L [] m x s -> whole v1 -> v_short v1 = false -> means v1 (Z.shiftr n 8) ->
  ok_step w2 -> (forall y z w, core L [] (m + 2) y z -> h_rom (x_h y) = h_rom (x_h x) -> forall y', w2 y = COk (w, y') ->
     core L [] (m + 2) y' z /\ whole w /\ v_short w = false /\ means w n) ->
  (cpush v1 ;;; w <- w2 ;; cpush w) x = COk (u, x') -> push W (fr op) true n s = Ok (u', s') -> x_term x' = false -> post x' s'.
Proof.
  intros Hm P Wv Sv Mv O2 H2 E F T. apply push_split in F.
  revert E F T. unfold cbind at 1, VmModel.bind. intros E F T.
  destruct (cpush v1 x) as [[u1 y]|] eqn:E1; [|discriminate]. destruct (push W _ _ _ s) as [[u2 t]|] eqn:F1; [|discriminate].
  pose proof (c_info _ _ _ _ _ _ _ _ P) as Hi.
  assert (O1 : ok_step (cpush v1)) by ok_tac.
  pose proof (O1 _ _ _ Hi E1) as G1. pose proof (goes_has _ _ G1 Hi) as Hy.
  assert (O3 : ok_step (w <- w2 ;; cpush w)) by ok_tac.
  pose proof (pop_term _ _ _ _ O3 Hy E T) as Ty.
  assert (Py : core L [] (m + 2) y t).
  { eapply (rel_cpush L [] m v1 (Z.shiftr n 8) false); [lia|right; exact Wv|exact Mv|exact Sv|exact P|exact E1|exact F1|exact Ty]. }
  unfold cbind in E. destruct (w2 y) as [[w z]|] eqn:E2; [|discriminate].
  destruct (H2 _ _ _ Py (l_rom _ _ (g_h _ _ G1)) _ E2) as (Pz & Ww & Sw & Mw).
  eapply (rel_push1 L [] (m + 2) w n false); [lia|right; exact Ww|exact Mw|exact Sw|exact Pz|exact E|exact F|exact T].
Qed.
Lemma rel_LIT L m r two : m <= 250 -> r = fr op -> two = f2 op ->
  rel (fun x s => core L [] m x s /\ near x s) (run_label (LITop r two)) (exec_label W dei deo hi_first (LITop r two)) postQ.
Proof.
  intros Hm -> -> x s u x' u' s' [P [Hp Hn]] E F T. cbn [run_label exec_label] in E, F.
  unfold VmModel.bind, getpc in F. destruct (load W _ _ _ s) as [[n t]|] eqn:F1; [|discriminate]. apply m_load in F1 as [-> En].
  unfold setpc in F. fold (wpc (u16 (s_pc W s + (if f2 op then 2 else 1))) s) in F.
  destruct (push W (fr op) (f2 op) (u16 n) _) as [[u1 t]|] eqn:F2; [|discriminate]. apply Ok_pair in F as [_ ->]. rename F2 into F.
  unfold op_LIT, cbind at 1 2 3, get in E. rewrite flag2 in E by (eapply c_op, P).
  destruct (Hn 0) as [M0 B0]; [lia|]. destruct (Hn 1) as [M1 B1]; [lia|]. rewrite Z.add_0_r, (Z.mod_small (s_pc W s)) in M0, B0 by lia.
  rewrite (Z.mod_small (s_pc W s)) in En by lia.
  pose proof (c_pc _ _ _ _ _ _ _ _ P) as Pc.
  destruct (f2 op) eqn:E2; cbn [negb] in E.
  - set (p := u16 (s_pc W s + 2)) in *. pose proof (core_pc _ _ _ _ _ p P) as P'.
    set (hi := vm_mem (s_vm W s) (s_pc W s)) in *. set (lo := vm_mem (s_vm W s) ((s_pc W s + 1) mod 65536)) in *.
    assert (Ej : n = 256 * hi + lo) by (rewrite En; rewrite join_eq by (unfold is_byte in *; lia); lia). clear En.
    assert (Er : u16 n = n) by (unfold u16, is_byte in *; lia). rewrite Er in F.
    assert (Eh : Z.shiftr n 8 = hi) by (rewrite Z.shiftr_div_pow2 by lia; unfold is_byte in *; lia).
    unfold cbind at 1, next_pc in E. unfold cbind at 1 in E. cbn [x_pc x_h with_pc] in E. rewrite Pc in E.
    change (u16 (s_pc W s + 1)) with ((s_pc W s + 1) mod 65536) in E.
    replace (u16 ((s_pc W s + 1) mod 65536 + 1)) with p in E by (unfold p, u16; lia).
    change (with_pc (with_pc x ((s_pc W s + 1) mod 65536)) p) with (with_pc x p) in E.
    assert (Lo : forall sy y z w, core L [] (m + 2) y z -> h_rom (x_h y) = h_rom (x_h (with_pc x p)) -> forall y',
       make_lit_byte ((s_pc W s + 1) mod 65536) sy y = COk (w, y') -> core L [] (m + 2) y' z /\ whole w /\ v_short w = false /\ means w n).
    { intros sy y z w Py Hr y' Ey. destruct (lit_byte_spec _ _ _ _ _ _ _ _ _ Py Ey) as (Q1 & Q2 & Q3 & Q4).
      split; [exact Q1|split; [exact Q2|split; [exact Q3|]]]. eapply means_byte; [exact Q3|exact Q4|]. rewrite Hr. cbn [x_h with_pc]. rewrite <- M1.
      unfold is_byte in *. lia. }
    assert (Inf : forall i : info, whole (info_value i) /\ v_short (info_value i) = false /\ forall k, means (info_value i) k).
    { intros i. split; [split; reflexivity|]. split; [reflexivity|]. intros k. apply means_not. reflexivity. }
    destruct (h_infos (x_h x) (s_pc W s)) as [i|].
    + destruct (Inf i) as (I1 & I2 & I3). destruct (h_infos (x_h x) ((s_pc W s + 1) mod 65536)) as [j|].
      * destruct (Inf j) as (J1 & J2 & J3).
        eapply (rel_two L m (info_value i) (cret (info_value j)) n (wpc p s) (with_pc x p)); [exact Hm|exact P'|exact I1|exact I2|apply I3|ok_tac| |exact E|exact F|exact T].
        intros y z w Py _ y' Ey. apply COk_inj in Ey as [<- <-]. auto.
      * destruct (h_syms (x_h x) ((s_pc W s + 1) mod 65536)) as [sy|] eqn:Es.
        -- eapply (rel_two L m (info_value i) (make_lit_byte _ _) n (wpc p s) (with_pc x p)); [exact Hm|exact P'|exact I1|exact I2|apply I3|ok_tac| |exact E|exact F|exact T].
           intros y z w Py Hr y' Ey. eapply Lo; eauto.
        -- eapply (rel_push1 L [] m (set_short true (info_value i)) n true); [lia|right; split; reflexivity|apply means_not; reflexivity|reflexivity|exact P'|exact E|exact F|exact T].
    + destruct (same_sym _ _).
      * unfold lit_short in E.
        assert (Wn : forall w0, (warn w0 ;;; cpush (plain true)) (with_pc x p) = COk (u, x') -> post x' t).
        { intros w0 E0. unfold cbind, warn, act in E0.
          eapply (rel_push1 L [] m (plain true) n true); [lia|right; split; reflexivity|apply means_not; reflexivity|reflexivity|apply core_warning, P'|exact E0|exact F|exact T]. }
        assert (Cn : forall ad, (hi <- get_rom (s_pc W s) ;; lo <- get_rom ((s_pc W s + 1) mod 65536) ;;
            cpush (mkV true true ad false false false false false false [] None (u16 (Z.lor (Z.shiftl hi 8) lo)))) (with_pc x p) = COk (u, x') -> post x' t).
        { intros ad E0. unfold cbind, get_rom in E0. destruct (_ <? _); [discriminate|]. destruct (_ <? _); [discriminate|]. cbn [x_h with_pc] in E0.
          rewrite <- M0, <- M1 in E0. eapply (rel_push1 L [] m _ n true); [lia| | | |exact P'|exact E0|exact F|exact T];
            [right; split; reflexivity| |reflexivity].
          apply means_eq. cbn. intros _. rewrite join_eq by (unfold is_byte in *; lia). rewrite Ej. unfold u16, is_byte in *. clearbody hi lo. clear - B0 B1. lia. }
        destruct (h_syms (x_h x) (s_pc W s)) as [z|]; [|eapply Wn; exact E].
        destruct (y_type z); solve [eapply Wn; exact E|eapply Cn; exact E].
      * unfold cbind at 1 in E. destruct (make_lit_byte (s_pc W s) _ _) as [[v y]|] eqn:E1; [|discriminate].
        destruct (lit_byte_spec _ _ _ _ _ _ _ _ _ P' E1) as (Q1 & Q2 & Q3 & Q4).
        assert (Hr : h_rom (x_h y) = h_rom (x_h x)).
        { assert (Oy : ok_step (make_lit_byte (s_pc W s) (h_syms (x_h x) (s_pc W s)))) by ok_tac.
          exact (l_rom _ _ (g_h _ _ (Oy _ _ _ (c_info _ _ _ _ _ _ _ _ P') E1))). }
        eapply (rel_two L m v (make_lit_byte _ _) n (wpc p s) y); [exact Hm|exact Q1|exact Q2|exact Q3| |ok_tac| |exact E|exact F|exact T].
        -- eapply means_byte; [exact Q3|exact Q4|]. cbn [x_h with_pc]. rewrite <- M0, Eh. reflexivity.
        -- intros y0 z w Py Hr0 y' Ey. eapply Lo; [exact Py| |exact Ey]. rewrite Hr0, Hr. reflexivity.
  - set (p := u16 (s_pc W s + 1)) in *. pose proof (core_pc _ _ _ _ _ p P) as P'.
    unfold cbind at 1, next_pc in E. rewrite Pc in E. fold p in E. unfold cbind at 1 in E.
    set (K := match h_infos (x_h x) (s_pc W s) with Some _ => _ | None => _ end) in E.
    destruct (K (with_pc x p)) as [[v y]|] eqn:EK; [|discriminate].
    assert (Q : core L [] m y (wpc p s) /\ whole v /\ v_short v = false /\ (v_const v = true -> v_val v = n)).
    { unfold K in EK. destruct (h_infos (x_h x) (s_pc W s)) as [i|].
      - apply COk_inj in EK as [<- <-]. split; [exact P'|split; [split; reflexivity|split; [reflexivity|intros X; discriminate X]]].
      - destruct (h_syms (x_h x) (s_pc W s)) as [sy|].
        + rewrite En, M0. exact (lit_byte_spec _ _ _ _ _ _ _ _ _ P' EK).
        + apply COk_inj in EK as [<- <-]. split; [exact P'|split; [split; reflexivity|split; [reflexivity|intros X; discriminate X]]]. }
    destruct Q as (Q1 & Q2 & Q3 & Q4).
    eapply (rel_push1 L [] m v (u16 n) false); [lia|right; exact Q2| |exact Q3|exact Q1|exact E|exact F|exact T].
    eapply means_byte; [exact Q3|exact Q4|]. unfold u16. lia.
Qed.

End Op.
End Sim.
