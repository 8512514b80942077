(** A vector of a program whose analysis ends without an error: the machine
    follows the paths of the checker. *)
From Verif Require Import Base VmModel VmSpec AsmModel AsmSpec Props_Asm Props_Front ChessModel ChessProofs ChessSize ChessDelta ChessJump ChessVm ChessReports
  ValueSpec ChessValue ChessLock ChessSim ChessPool ChessStep ChessClean ChessGo Props_Chess SoundSpec.
From Coq Require Import ZifyBool.
Open Scope list_scope.
Ltac Zify.zify_post_hook ::= Z.div_mod_to_equations.

(** ** The cells of the stacks stay bytes *)
Section Cells.
Variable W : Type.
Variable dei : Z -> vm -> W -> res (Z * vm * W).
Variable deo : Z -> vm -> W -> res (vm * W).
Variable hi_first : bool.
Hypothesis HA : aloof W dei deo.
Notation st := (st W).
Definition bc {A} (m : M W A) : Prop := forall s a s', byte_cells s -> m s = Ok (a, s') -> byte_cells s'.
Lemma bc_bind {A B} (m : M W A) (k : A -> M W B) : bc m -> (forall a, bc (k a)) -> bc (VmModel.bind W m k).
Proof. intros H K s b s' C E. unfold VmModel.bind in E. destruct (m s) as [[a y]|] eqn:Em; [|discriminate]. eapply K; [eapply H; eauto|exact E]. Qed.
Lemma bc_cells {A} (m : M W A) : (forall s a s', m s = Ok (a, s') -> forall r, cells r s' = cells r s) -> bc m.
Proof. intros H s a s' C E r i. rewrite (H _ _ _ E). apply C. Qed.
Lemma bc_ret {A} (a : A) : bc (VmModel.ret W a).
Proof. apply bc_cells. intros s b s' E r. apply Ok_pair in E as [_ ->]. reflexivity. Qed.
Lemma cells_ptr k q n s r : cells r (setptr W k q n s) = cells r s.
Proof. destruct k, q, r; reflexivity. Qed.
Lemma bc_read r i : bc (stack_read W r i).
Proof. apply bc_cells. unfold stack_read. intros s b s' E q. destruct (aget _ _ _); [|discriminate]. apply Ok_pair in E as [_ ->]. reflexivity. Qed.
Lemma bc_write r i v : is_byte v -> bc (stack_write W r i v).
Proof.
  intros V s b s' C E. unfold stack_write in E. unfold aset in E. destruct (in_bounds _ _); [|discriminate]. apply Ok_pair in E as [_ ->].
  intros q j. specialize (C q j). destruct r, q; cbn in *; auto; unfold upd; destruct (_ =? _); auto.
Qed.
Lemma bc_ptr s k q n : byte_cells s -> byte_cells (setptr W k q n s).
Proof. intros C r i. rewrite cells_ptr. apply C. Qed.
Lemma bc_pop k r two : bc (pop W k r two).
Proof.
  unfold pop. apply bc_bind; [|intros; apply bc_ret]. destruct two.
  - intros s a s' C E. unfold pop2 in E. eapply bc_bind; [| |apply (bc_ptr s k r); exact C|exact E]; [apply bc_read|].
    intros hi. apply bc_bind; [apply bc_read|intros; apply bc_ret].
  - intros s a s' C E. unfold pop1 in E. eapply bc_read; [apply (bc_ptr s k r); exact C|exact E].
Qed.
Lemma bc_push r two v : bc (push W r two v).
Proof.
  destruct two; intros s a s' C E; unfold push in E; [unfold push2 in E|unfold push1 in E].
  - assert (B : bc (VmModel.bind W (stack_write W r (getptr W false r s) (u8 (Z.shiftr v 8))) (fun _ => VmModel.bind W (stack_write W r (u8 (getptr W false r s + 1)) (u8 v)) (fun _ t => Ok (tt, setptr W false r (u8 (getptr W false r s + 2)) t))))).
    { apply bc_bind; [apply bc_write; unfold is_byte, u8; lia|intros _]. apply bc_bind; [apply bc_write; unfold is_byte, u8; lia|intros _].
      intros t b t' Ct Et. apply Ok_pair in Et as [_ ->]. apply bc_ptr, Ct. }
    exact (B _ _ _ C E).
  - eapply bc_write; [|apply (bc_ptr s); exact C|exact E]. unfold is_byte, u8. lia.
Qed.
Lemma bc_getpc : bc (getpc W).
Proof. apply bc_cells. intros s b s' E r. apply Ok_pair in E as [_ ->]. reflexivity. Qed.
Lemma bc_setpc n : bc (setpc W n).
Proof. apply bc_cells. intros s b s' E r. apply Ok_pair in E as [_ ->]. reflexivity. Qed.
Lemma bc_jump two v : bc (jump W two v).
Proof. unfold jump. apply bc_bind; [apply bc_getpc|intros; apply bc_setpc]. Qed.
Lemma bc_mem_read a : bc (mem_read W a).
Proof. apply bc_cells. unfold mem_read. intros s b s' E q. destruct (aget _ _ _); [|discriminate]. apply Ok_pair in E as [_ ->]. reflexivity. Qed.
Lemma bc_mem_write a v : bc (mem_write W a v).
Proof. apply bc_cells. unfold mem_write. intros s b s' E q. destruct (aset _ _ _ _); [|discriminate]. apply Ok_pair in E as [_ ->]. reflexivity. Qed.
Lemma bc_lift {A} (x : res A) : bc (lift W x).
Proof. apply bc_cells. unfold lift. intros s b s' E q. destruct x; [|discriminate]. apply Ok_pair in E as [_ ->]. reflexivity. Qed.
Lemma bc_load md two a : bc (load W md two a).
Proof. unfold load. destruct two; [|apply bc_mem_read]. apply bc_bind; [apply bc_mem_read|intros]. apply bc_bind; [apply bc_mem_read|intros; apply bc_ret]. Qed.
Lemma bc_store md two a v : bc (store W md two a v).
Proof. unfold store. destruct two; [|apply bc_mem_write]. apply bc_bind; [|intros]; apply bc_mem_write. Qed.
Lemma bc_save : bc (save_state W).
Proof. apply bc_cells. intros s b s' E r. apply Ok_pair in E as [_ ->]. reflexivity. Qed.
Lemma bc_load_state : bc (load_state W).
Proof. apply bc_cells. intros s b s' E r. apply Ok_pair in E as [_ ->]. reflexivity. Qed.
Lemma bc_dev1 a : bc (dev_in1 W dei a).
Proof.
  apply bc_cells. intros s b s' E r. unfold dev_in1 in E. destruct (dei _ _ _) as [[[v vm'] w']|] eqn:D; [|discriminate]. apply Ok_pair in E as [_ ->].
  destruct (proj1 HA _ _ _ _ _ _ D) as (A1 & A2 & _). destruct r; assumption.
Qed.
Lemma bc_deo a : bc (call_deo W deo a).
Proof.
  apply bc_cells. intros s b s' E r. unfold call_deo in E. destruct (deo _ _ _) as [[vm' w']|] eqn:D; [|discriminate]. apply Ok_pair in E as [_ ->].
  destruct (proj2 HA _ _ _ _ _ D) as (A1 & A2 & _). destruct r; assumption.
Qed.
Lemma bc_dev_write a v : bc (dev_write W a v).
Proof. apply bc_cells. unfold dev_write. intros s b s' E q. destruct (aset _ _ _ _); [|discriminate]. apply Ok_pair in E as [_ ->]. reflexivity. Qed.
Lemma bc_in two a : bc (dev_in W dei hi_first two a).
Proof. unfold dev_in. destruct two; [destruct hi_first|apply bc_dev1]; (apply bc_bind; [apply bc_dev1|intros]; apply bc_bind; [apply bc_dev1|intros; apply bc_ret]). Qed.
Lemma bc_out two a v : bc (dev_out W deo two a v).
Proof.
  unfold dev_out. destruct two.
  - apply bc_bind; [apply bc_dev_write|intros]. apply bc_bind; [apply bc_dev_write|intros]. apply bc_bind; [apply bc_deo|intros; apply bc_deo].
  - apply bc_bind; [apply bc_dev_write|intros; apply bc_deo].
Qed.
Lemma bc_keep k r : bc (keep_prologue W k r).
Proof. intros s a s' C E. unfold keep_prologue in E. destruct k; apply Ok_pair in E as [_ ->]; [apply bc_ptr, C|exact C]. Qed.
Ltac bc_leaf := first [apply bc_pop | apply bc_push | apply bc_ret | apply bc_getpc | apply bc_setpc | apply bc_jump | apply bc_load | apply bc_store
  | apply bc_lift | apply bc_save | apply bc_load_state | apply bc_in | apply bc_out | apply bc_keep].
Ltac bc_tac := repeat first [bc_leaf | apply bc_bind; [|intros] | match goal with |- bc (if ?b then _ else _) => destruct b end].
Lemma bc_poly b k r two : bc (poly_op W dei deo hi_first b k r two).
Proof. destruct b; unfold poly_op, cmp_op, VmModel.bin_op; bc_tac. Qed.
Lemma bc_label l : bc (exec_label W dei deo hi_first l).
Proof.
  destruct l; cbn [exec_label]; bc_tac; try apply bc_poly.
  all: try (match goal with |- bc (push2 W ?r ?v) => exact (bc_push r true v) | |- bc (push1 W ?r ?v) => exact (bc_push r false v) end).
  all: idtac.
Qed.
Lemma bc_step : bc (VmModel.step W dei deo hi_first).
Proof.
  unfold VmModel.step. apply bc_bind; [apply bc_getpc|intros pc]. apply bc_bind; [apply bc_mem_read|intros o]. apply bc_bind; [apply bc_setpc|intros _].
  destruct (dispatch o); [apply bc_label|]. intros s a s' C E. discriminate E.
Qed.
End Cells.

(** ** The analysis goes on to its end *)
Definition h_of (c : config) : option chess :=
  match c with Idle h | Finished h => Some h | Running x => Some (x_h x) | Broken _ => None end.
(** What stays: the program, its symbols, the signatures; reports are only added. *)
Record onward (h h' : chess) : Prop := {
  o_rom : h_rom h' = h_rom h;
  o_syms : h_syms h' = h_syms h;
  o_infos : forall a, same_info (h_infos h a) (h_infos h' a);
  o_reports : exists l, h_reports h' = h_reports h ++ l }.
Lemma onward_refl h : onward h h.
Proof. constructor; auto using same_info_refl. exists []. rewrite app_nil_r. reflexivity. Qed.
Lemma onward_trans a b c : onward a b -> onward b c -> onward a c.
Proof.
  intros [A1 A0 A2 (l & A3)] [B1 B0 B2 (m & B3)]. constructor; [congruence|congruence|intros; eapply same_info_trans; eauto|].
  exists (l ++ m). rewrite B3, A3, app_assoc. reflexivity.
Qed.
Lemma later_onward h h' : later h h' -> onward h h'.
Proof. intros L. constructor; [apply (l_rom _ _ L)|apply (l_syms _ _ L)|apply (l_infos _ _ L)|]. destruct (l_reports _ _ L) as (l & E & _). eauto. Qed.
Lemma onward_step c h : cok c -> h_of c = Some h -> h_of (cstep c) = None \/ exists h', h_of (cstep c) = Some h' /\ onward h h'.
Proof.
  destruct c as [g|x|g|f]; cbn [cstep h_of]; intros K E; inversion E; subst.
  - right. destruct (h_list h) as [|e l] eqn:El; [exists h; split; [reflexivity|apply onward_refl]|].
    unfold begin_entry. destruct (h_syms _ _).
    + eexists. split; [reflexivity|]. constructor; cbn; auto using same_info_refl. exists []. rewrite app_nil_r. reflexivity.
    + eexists. split; [reflexivity|]. match goal with |- onward _ (x_h (error _ ?y)) => eapply (onward_trans _ (x_h y)) end.
      * constructor; cbn; auto using same_info_refl. exists []. rewrite app_nil_r. reflexivity.
      * apply later_onward. match goal with |- later _ (x_h (error ?m ?y)) => apply (g_h y (error m y)), ok_error end.
        unfold has_info. cbn. destruct K as [_ _ _ L]. rewrite El in L. inversion L as [|? ? (L1 & L2 & L3)]; subst. exact L3.
  - destruct (x_term x).
    + right. eexists. split; [reflexivity|]. constructor; cbn; auto using same_info_refl. eexists. reflexivity.
    + destruct (exec_round x) as [[u y]|] eqn:Ex; [|left; reflexivity]. right. exists (x_h y). split; [reflexivity|].
      apply later_onward. apply (r_h _ _ (round_round _ _ _ (ok_own _ K) Ex)).
  - right. exists h. split; [reflexivity|apply onward_refl].
Qed.
Lemma onward_steps n : forall c h h', cok c -> h_of c = Some h -> h_of (csteps n c) = Some h' -> onward h h'.
Proof.
  induction n as [|n IH]; cbn [csteps]; intros c h h' K E F; [rewrite E in F; inversion F; apply onward_refl|].
  destruct (onward_step c h K E) as [B|(g & B & O)].
  - exfalso. assert (X : forall m d, h_of d = None -> h_of (csteps m d) = None).
    { induction m; cbn [csteps]; intros d D; [exact D|]. apply IHm. destruct d; try discriminate D. reflexivity. }
    rewrite (X n _ B) in F. discriminate.
  - eapply onward_trans; [exact O|]. eapply (IH (cstep c)); [apply cok_step, K|exact B|exact F].
Qed.

(** A path that is put aside is taken up. *)
Definition waits (c : config) (l : list entry) : Prop :=
  match c with Idle h => h_list h = l | Running x => h_list (x_h x) = l | _ => False end.
Lemma taken_up n : forall c l e rest hF, cok c -> waits c (l ++ e :: rest) -> csteps n c = Finished hF ->
  exists k h, (k < n)%nat /\ csteps k c = Idle h /\ h_list h = e :: rest.
Proof.
  induction n as [|n IH]; intros c l e rest hF K Wt E; cbn [csteps] in E; [destruct c; try contradiction Wt; discriminate E|].
  assert (Go : forall l', waits (cstep c) (l' ++ e :: rest) -> exists k h, (k < S n)%nat /\ csteps k c = Idle h /\ h_list h = e :: rest).
  { intros l' Hw. destruct (IH (cstep c) l' e rest hF (cok_step _ K) Hw E) as (k & h & A & B & C). exists (S k), h. split; [lia|]. split; [exact B|exact C]. }
  destruct c as [h|x|h|f]; try contradiction Wt; cbn [waits] in Wt.
  - destruct l as [|a l].
    + exists 0%nat, h. split; [lia|]. split; [reflexivity|exact Wt].
    + apply (Go l). cbn [cstep]. rewrite Wt. cbn [app]. unfold begin_entry. destruct (h_syms _ _); cbn [waits]; [reflexivity|].
      match goal with |- h_list (x_h (error ?m ?y)) = _ => change (h_list (x_h (error m y))) with (h_list (x_h y)) end. reflexivity.
  - cbn [cstep] in *. destruct (x_term x); [apply (Go l); exact Wt|].
    destruct (exec_round x) as [[u y]|] eqn:Ex.
    + destruct (l_list _ _ (r_h _ _ (round_round _ _ _ (ok_own _ K) Ex))) as (l2 & L2). apply (Go (l2 ++ l)). cbn [waits]. rewrite L2, Wt, app_assoc. reflexivity.
    + exfalso. rewrite (rest_stays n (Broken f)) in E by reflexivity. discriminate E.
Qed.

Lemma right_looser l1 l2 f : Forall2 (fun v w : value => v_short w = v_short v /\ (v_const w = true -> v_const v = true /\ v_val v = v_val w)) l1 l2 ->
  forall sp, right_about l1 f sp -> right_about l2 f sp.
Proof.
  induction 1 as [|v w l1 l2 [H1 H2] _ IH]; intros sp R; [exact Logic.I|]. destruct R as [R1 R2]. split.
  - intros Cw. destruct (H2 Cw) as [Cv Ev]. specialize (R1 Cv). rewrite H1, <- Ev. exact R1.
  - unfold vsize in *. rewrite H1. apply IH, R2.
Qed.

(** The widths of operands and what opcodes do to the sizes, over the table. *)
Definition on_return (op : Z) : bool := negb (op mod 32 =? 0) && flag op 64.
Definition row_ok (e : label * Z) : bool :=
  let '(l, op) := e in
  (operand_bytes op <=? label_need op l (Stk (fk op) (on_return op))) &&
  forallb (fun r => (0 <=? label_need op l (Stk (fk op) r) + label_delta op l (Stk false r)) && (-100 <? label_delta op l (Stk false r)) && (label_delta op l (Stk false r) <=? 6)) [false; true].
Lemma row op l : dispatch op = Some l -> operand_bytes op <= label_need op l (Stk (fk op) (on_return op)) /\
  forall r, 0 <= label_need op l (Stk (fk op) r) + label_delta op l (Stk false r) /\ -100 < label_delta op l (Stk false r) <= 6.
Proof.
  unfold dispatch. destruct (find _ _) as [[l' n]|] eqn:F; [|discriminate]. apply find_some in F as [I E].
  intros H. injection H as ->. cbn in E. apply Z.eqb_eq in E as <-.
  assert (A : forallb row_ok dispatch_table = true) by (vm_compute; reflexivity).
  rewrite forallb_forall in A. specialize (A _ I). unfold row_ok in A. apply andb_prop in A as [A1 A2]. split; [lia|].
  rewrite forallb_forall in A2. intros r. specialize (A2 r). assert (In r [false; true]) by (destruct r; cbn; auto). specialize (A2 H). lia.
Qed.
Lemma label_true W dei deo hi l s b s' : exec_label W dei deo hi l s = Ok (b, s') -> l <> BRK -> b = true.
Proof.
  intros E N. destruct l; [congruence|..]; cbn [exec_label] in E; unfold VmModel.bind, getpc, setpc, VmModel.ret in E;
    repeat match type of E with context [match ?m with Ok _ => _ | Fault _ => _ end] => destruct m as [[? ?]|] end; try discriminate E; apply Ok_pair in E as [E _]; auto.
Qed.

(** ** The machine follows the checker *)
Section Follow.
Variable W : Type.
Variable dei : Z -> vm -> W -> res (Z * vm * W).
Variable deo : Z -> vm -> W -> res (vm * W).
Variable hi_first : bool.
Hypothesis HA : aloof W dei deo.
Notation st := (st W).
Variable h0 hF : chess.
Variable N : nat.
Variable a : Z.
Variable sig : signature.
Hypothesis K0 : hok h0.
Hypothesis P0 : pool_h h0.
Hypothesis Fin : csteps N (Idle h0) = Finished hF.
Hypothesis NoE : existsb is_error (h_reports hF) = false.
Hypothesis Rw : routine_with h0 a sig.
Hypothesis Vec : g_type sig = Vector.
Hypothesis Td : forall k x, seen h0 a k x -> tidy x.

Lemma quiet_aloof : quiet W dei deo.
Proof. destruct HA as [A B]. split; intros; [apply A in H|apply B in H]; destruct H as (_ & _ & ? & ?); auto. Qed.
Lemma at_ok k x : csteps k (Idle h0) = Running x -> xok x.
Proof. intros E. pose proof (cok_steps k (Idle h0) K0) as C. rewrite E in C. exact C. Qed.
Lemma at_pool k x : csteps k (Idle h0) = Running x -> pool_ok x.
Proof. intros E. pose proof (pool_steps k (Idle h0) P0) as C. rewrite E in C. exact C. Qed.
Lemma at_onward k x : csteps k (Idle h0) = Running x -> onward h0 (x_h x).
Proof. intros E. eapply (onward_steps k (Idle h0)); [exact K0|reflexivity|rewrite E; reflexivity]. Qed.
Lemma before_end k c : csteps k (Idle h0) = c -> at_rest c = false -> (k < N)%nat /\ csteps (N - k) c = Finished hF.
Proof using Fin.
  clear - Fin.
  intros E R. assert (L : (k < N)%nat).
  { destruct (Nat.lt_ge_cases k N) as [|G]; [assumption|]. exfalso.
    replace k with (N + (k - N))%nat in E by lia. rewrite csteps_plus, Fin, rest_stays in E by reflexivity. subst c. discriminate R. }
  split; [exact L|]. rewrite <- E, <- csteps_plus. replace (k + (N - k))%nat with N by lia. exact Fin.
Qed.
Lemma to_end k c h : csteps k (Idle h0) = c -> h_of c = Some h -> existsb is_error (h_reports h) = false.
Proof using K0 Fin NoE.
  clear - K0 Fin NoE. intros E H. destruct (at_rest c) eqn:R.
  - destruct (Nat.le_ge_cases k N) as [L|L].
    + assert (c = Finished hF) as ->.
      { replace N with (k + (N - k))%nat in Fin by lia. rewrite csteps_plus, E, rest_stays in Fin by exact R. exact Fin. }
      inversion H; subst. exact NoE.
    + replace k with (N + (k - N))%nat in E by lia. rewrite csteps_plus, Fin, rest_stays in E by reflexivity. subst c. inversion H; subst. exact NoE.
  - destruct (before_end k c E R) as [_ F]. assert (C : cok c) by (rewrite <- E; apply cok_steps; exact K0).
    destruct (o_reports _ _ (onward_steps (N - k) c h hF C H ltac:(rewrite F; reflexivity))) as (l & El).
    rewrite El, existsb_app in NoE. apply Bool.orb_false_iff in NoE. apply NoE.
Qed.
Lemma still_routine k x b : csteps k (Idle h0) = Running x -> (routine_at h0 b <-> is_routine x b).
Proof.
  intros E. pose proof (o_infos _ _ (at_onward _ _ E) b) as S. unfold same_info in S. unfold routine_at, is_routine.
  split; intros (g & m & t & e & H); rewrite H in S.
  - destruct (h_infos (x_h x) b) as [[r' s' m' t' e']|]; [|contradiction]. cbn in S. destruct S as (S1 & S2 & S3). subst. eauto 6.
  - destruct (h_infos h0 b) as [[r' s' m' t' e']|]; [|contradiction]. cbn in S. destruct S as (S1 & S2 & S3). subst. eauto 6.
Qed.
Lemma seen_sig k x : seen h0 a k x -> own_sig x = sig.
Proof.
  intros (E & _ & I). destruct Rw as (_ & m & t & e & H). pose proof (o_infos _ _ (at_onward _ _ E) a) as S. rewrite H in S.
  unfold own_sig, own_info. rewrite I. unfold same_info in S. destruct (h_infos (x_h x) a) as [j|]; [|contradiction]. cbn in S. destruct S as (_ & S2 & _).
  rewrite <- S2. reflexivity.
Qed.
Lemma begun k h e rest : csteps k (Idle h0) = Idle h -> h_list h = e :: rest ->
  exists x, csteps (S k) (Idle h0) = Running x /\ x_term x = false /\ x_info x = e_info e /\ x_pc x = e_address e /\ x_w x = e_wst e /\ x_r x = e_rst e /\
    begin_entry (h_with_list h rest) e = Running x.
Proof using K0 Fin NoE.
  clear - K0 Fin NoE.
  intros E L. assert (E1 : csteps (S k) (Idle h0) = begin_entry (h_with_list h rest) e).
  { replace (S k) with (k + 1)%nat by lia. rewrite csteps_plus, E. cbn [csteps cstep]. rewrite L. reflexivity. }
  unfold begin_entry in *. destruct (h_syms _ _).
  - eexists. split; [exact E1|]. repeat split.
  - exfalso. assert (X := to_end _ _ _ E1 eq_refl).
    match type of X with existsb _ (h_reports (x_h (error ?m ?y))) = _ => change (h_reports (x_h (error m y))) with (h_reports (x_h y) ++ [RError m]) in X end.
    rewrite existsb_app in X. cbn in X. rewrite Bool.orb_true_r in X. discriminate X.
Qed.
(** A path put aside is seen later. *)
Lemma later_seen k x l e : csteps k (Idle h0) = Running x -> h_list (x_h x) = l ++ e :: (tl (skipn (length l) (h_list (x_h x)))) -> e_info e = a ->
  exists k' y, (k < k')%nat /\ seen h0 a k' y /\ x_pc y = e_address e /\ x_w y = e_wst e /\ x_r y = e_rst e.
Proof.
  intros E L I. destruct (before_end k _ E eq_refl) as [Lk F].
  assert (C : cok (Running x)) by (rewrite <- E; apply cok_steps; exact K0).
  destruct (taken_up (N - k) (Running x) l e _ hF C L F) as (j & h & J1 & J2 & J3).
  assert (E1 : csteps (k + j) (Idle h0) = Idle h) by (rewrite csteps_plus, E; exact J2).
  destruct (begun _ _ _ _ E1 J3) as (y & Y1 & Y2 & Y3 & Y4 & Y5 & Y6 & _). exists (S (k + j)), y. split; [lia|].
  split; [split; [exact Y1|split; [exact Y2|congruence]]|]. auto.
Qed.

(** The invariant: the machine is on a path that the checker has seen. *)
Definition on_path (k : nat) (s : st) (d : bool -> Z) : Prop :=
  exists x, seen h0 a k x /\ right x s /\ byte_cells s /\ (forall r, k_size (astack r x) = d r) /\ (s_pc W s = a \/ ~ routine_at h0 (s_pc W s)).

Lemma path_before k x s : seen h0 a k x -> right x s -> byte_cells s -> in_code W (h_rom h0) s -> before W x s.
Proof.
  intros Sn R B Ic. pose proof (Td _ _ Sn) as (T1 & T2 & T3 & T4). destruct Sn as (E & T & I). pose proof (at_ok _ _ E) as X.
  constructor; auto.
  - apply ok_own, X.
  - eapply at_pool, E.
  - intros [|]; [apply (ok_r _ X)|apply (ok_w _ X)].
  - intros r. destruct (T3 r). lia.
  - destruct Ic as [I1 I2]. split; [exact I1|]. intros i Hi. rewrite (o_rom _ _ (at_onward _ _ E)). apply I2, Hi.
Qed.
(** The next step of the checker. *)
Lemma path_next k x s : seen h0 a k x -> right x s -> (s_pc W s = a \/ ~ routine_at h0 (s_pc W s)) ->
  exists x', exec_op x = COk (tt, x') /\ csteps (S k) (Idle h0) = Running x' /\ no_error x x'.
Proof using K0 Fin NoE.
  clear - K0 Fin NoE. intros (E & T & I) [Rp _] O. assert (E1 : csteps (S k) (Idle h0) = cstep (Running x)) by (replace (S k) with (k + 1)%nat by lia; rewrite csteps_plus, E; reflexivity).
  cbn [cstep] in E1. rewrite T in E1.
  assert (Er : exec_round x = exec_op x \/ exec_round x = COk (tt, error CZeroPage x)).
  { unfold exec_round. destruct (_ && _); [right; reflexivity|left]. destruct (h_infos (x_h x) (x_pc x)) as [[[] [g|] ? ? ?]|] eqn:Hi; try reflexivity.
    destruct (x_pc x =? x_info x) eqn:Q; [reflexivity|]. exfalso. destruct O as [O|O]; [lia|]. apply O. apply (still_routine _ _ _ E).
    rewrite <- Rp. red. eauto 6. }
  destruct Er as [Er|Er]; rewrite Er in E1.
  - destruct (exec_op x) as [[[] x']|f] eqn:Ex.
    + exists x'. split; [reflexivity|]. split; [exact E1|]. intros l Hl. pose proof (to_end _ _ _ E1 eq_refl) as X. cbn [h_of] in X. rewrite Hl, existsb_app in X.
      apply Bool.orb_false_iff in X. apply X.
    + exfalso. destruct (Nat.le_ge_cases (S k) N) as [L|L].
      * replace N with (S k + (N - S k))%nat in Fin by lia. rewrite csteps_plus, E1, rest_stays in Fin by reflexivity. discriminate Fin.
      * replace (S k) with (N + (S k - N))%nat in E1 by lia. rewrite csteps_plus, Fin, rest_stays in E1 by reflexivity. discriminate E1.
  - exfalso. pose proof (to_end _ _ _ E1 eq_refl) as X. cbn [h_of] in X. change (h_reports (x_h (error CZeroPage x))) with (h_reports (x_h x) ++ [RError CZeroPage]) in X.
    rewrite existsb_app in X. cbn in X. rewrite Bool.orb_true_r in X. discriminate X.
Qed.

Lemma step_label s b s' : VmModel.step W dei deo hi_first s = Ok (b, s') -> exists l, dispatch (vm_mem (s_vm W s) (s_pc W s)) = Some l /\
  exec_label W dei deo hi_first l (wpc W (u16 (s_pc W s + 1)) s) = Ok (b, s').
Proof.
  intros S. unfold VmModel.step, VmModel.bind, getpc, mem_read, setpc in S. unfold aget in S. destruct (in_bounds _ _) eqn:B; [|discriminate].
  destruct (dispatch _) as [l|]; [|discriminate]. exists l. split; [reflexivity|exact S].
Qed.

(** One instruction. *)
Lemma path_step k s d s' : on_path k s d -> in_code W (h_rom h0) s -> VmModel.step W dei deo hi_first s = Ok (true, s') ->
  operand_bytes (vm_mem (s_vm W s) (s_pc W s)) <= d (on_return (vm_mem (s_vm W s) (s_pc W s))) /\
  (~ routine_at h0 (s_pc W s') -> exists k' e, (e = false /\ (k < k')%nat \/ e = true /\ exists x x' l, seen h0 a k x /\ exec_op x = COk (tt, x') /\ h_reports (x_h x') = h_reports (x_h x) ++ l /\ In RRepeat l) /\
   ((e = true -> repeats_covered h0 a) -> exists k'', (e = false -> k'' = k') /\ on_path k'' s' (fun r => d r + shifted (pointer r s) (pointer r s')))).
Proof.
  intros (x & Sn & R & B & Sz & O) Ic Stp.
  pose proof (path_before _ _ _ Sn R B Ic) as Bf. pose proof (Td _ _ Sn) as (T1 & T2 & T3 & T4). pose proof Sn as (E & T & I).
  pose proof (at_ok _ _ E) as X. destruct (path_next _ _ _ Sn R O) as (x' & Ex & E' & Ne).
  assert (V : is_sub (g_type (own_sig x)) = false) by (rewrite (seen_sig _ _ Sn), Vec; reflexivity).
  destruct (one_step W dei deo hi_first HA x x' s s' Bf X T T4 Ex Stp Ne V) as (op & l & Eo & D & F & Nd & Out).
  assert (Eop : vm_mem (s_vm W s) (s_pc W s) = op).
  { destruct Ic as [I1 I2]. destruct (I2 0 ltac:(lia)) as [M _]. rewrite Z.add_0_r, Z.mod_small in M by lia. rewrite M, Eo.
    rewrite (o_rom _ _ (at_onward _ _ E)). destruct R as [Rp _]. rewrite Rp. reflexivity. }
  rewrite Eop. destruct (row _ _ D) as [Rw1 Rw2].
  assert (Sd : forall r, size_of (Stk false r) x = d r) by (intros r; rewrite <- Sz; destruct r; reflexivity).
  split; [specialize (Nd (on_return op)); rewrite Sd in Nd; lia|]. intros NR.
  assert (NRx : ~ is_routine x (s_pc W s')) by (intros Q; apply NR; apply (still_routine _ _ _ E); exact Q). specialize (Out NRx).
  assert (Dd : forall r, u8 (size_of (Stk false r) x + label_delta op l (Stk false r)) = d r + shifted (pointer r s) (pointer r s')).
  { intros r. pose proof (exec_moves W dei deo hi_first quiet_aloof _ _ _ _ F r) as Mv. rewrite (moves_delta op l r D) in Mv.
    assert (Pt : forall t, ptr W (Stk false r) t = pointer r t) by (intros; destruct r; reflexivity). rewrite !Pt in Mv.
    replace (pointer r (wpc W (u16 (s_pc W s + 1)) s)) with (pointer r s) in Mv by (destruct r; reflexivity).
    destruct (Rw2 r) as [Q1 Q2]. specialize (Nd r). rewrite Sd in Nd |- *. destruct (T3 r) as [_ Q3]. rewrite Sz in Q3.
    unfold shifted, u8. lia. }
  assert (Bc : byte_cells s') by (eapply bc_step; [exact HA|exact B|exact Stp]).
  pose proof (round_exec _ _ _ (ok_own _ X) Ex) as Rd.
  destruct Out as [(Z1 & Z2 & [[Z3 Z4]|[Z3 Z4]])|(l0 & e0 & Y1 & Y2 & Y3 & Y4)].
  - exists (S k), false. split; [left; split; [reflexivity|lia]|]. intros _. exists (S k). split; [reflexivity|]. exists x'. split.
    { split; [exact E'|]. split; [exact Z3|]. rewrite (r_info _ _ Rd). exact I. }
    split; [exact Z2|]. split; [exact Bc|]. split; [|auto]. intros r. rewrite <- Dd, <- Z1. destruct r; reflexivity.
  - destruct Z4 as (rl & R1 & R2). exists k, true. split; [right; split; [reflexivity|exists x, x', rl; auto]|]. intros Cv. specialize (Cv eq_refl).
    destruct (Cv k x x' rl Sn Ex R1 R2) as (k2 & y & Sy & Py & Ly). exists k2. split; [discriminate|]. exists y. split; [exact Sy|]. split; [|split; [exact Bc|split; [|auto]]].
    + destruct Z2 as [Zp Zr]. split; [congruence|]. intros r. destruct (Ly r) as [_ Lv]. eapply right_looser; [exact Lv|apply Zr].
    + intros r. destruct (Ly r) as [Ls _]. rewrite Ls, <- Dd, <- Z1. destruct r; reflexivity.
  - assert (Y1' : h_list (x_h x') = l0 ++ e0 :: tl (skipn (length l0) (h_list (x_h x')))).
    { rewrite Y1 at 2. rewrite skipn_app, Nat.sub_diag, skipn_all. exact Y1. }
    destruct (later_seen (S k) x' l0 e0 E' Y1' ltac:(congruence)) as (k' & y & K1 & K2 & K3 & K4 & K5).
    exists k', false. split; [left; split; [reflexivity|lia]|]. intros _. exists k'. split; [reflexivity|]. exists y. split; [exact K2|].
    destruct Y2 as (R1 & R2 & R3). split; [split; [congruence|intros [|]; cbn [astack]; congruence]|]. split; [exact Bc|]. split; [|auto].
    intros r. rewrite <- Dd, <- Y4. unfold entry_size. destruct r; cbn [astack]; congruence.
Qed.

(** What is executed is an opcode of the program. *)
Lemma path_code k s d : on_path k s d -> 256 <= s_pc W s /\ is_code (h_syms h0 (s_pc W s)) = true.
Proof.
  intros (x & Sn & R & B & Sz & O). pose proof Sn as (E & T & I).
  destruct (path_next _ _ _ Sn R O) as (x' & Ex & E' & Ne). destruct R as [Rp _]. rewrite <- Rp.
  rewrite <- (o_syms _ _ (at_onward _ _ E)).
  unfold exec_op, cbind at 1, get_rom in Ex. destruct (x_pc x <? 256) eqn:Q; [discriminate|]. split; [lia|].
  destruct (is_code _); [reflexivity|exfalso; apply COk_inj in Ex as [_ <-]; eapply error_bad, Ne].
Qed.
Lemma brk_ends x u y : op_BRK x = COk (u, y) -> x_term y = true.
Proof.
  unfold op_BRK, cbind, get, act. intros E. repeat match type of E with match ?m with _ => _ end = _ => destruct m as [[? ?]|]; [|discriminate E] end.
  inj E. reflexivity.
Qed.
(** BRK. *)
Lemma path_brk k s d s' : on_path k s d -> in_code W (h_rom h0) s -> VmModel.step W dei deo hi_first s = Ok (false, s') ->
  forall r, d r = sig_size (leaves r sig).
Proof.
  intros (x & Sn & R & B & Sz & O) Ic S r. pose proof Sn as (E & T & I). pose proof (Td _ _ Sn) as (T1 & T2 & T3 & T4).
  pose proof (at_ok _ _ E) as X. destruct (path_next _ _ _ Sn R O) as (x' & Ex & E' & Ne).
  destruct (step_label _ _ _ S) as (l & D & F). destruct l as [| | | |rr two|b kk rr two]; try (apply label_true in F; [discriminate F|discriminate]).
  destruct Ic as [I1 I2]. destruct (I2 0 ltac:(lia)) as [M _]. rewrite Z.add_0_r, Z.mod_small in M by lia. rewrite M in D.
  assert (Eo : h_rom h0 (s_pc W s) = h_rom (x_h x) (x_pc x)) by (rewrite (o_rom _ _ (at_onward _ _ E)); destruct R as [Rp _]; rewrite Rp; reflexivity).
  rewrite Eo in D. unfold exec_op, cbind at 1, get_rom in Ex. destruct (x_pc x <? 256); [discriminate|].
  destruct (is_code _); [|exfalso; apply COk_inj in Ex as [_ <-]; eapply error_bad, Ne].
  set (op := h_rom (x_h x) (x_pc x)) in *. rewrite D in Ex. unfold cbind at 1, act in Ex. unfold cbind at 1 in Ex. cbn [run_label] in Ex.
  destruct (op_BRK (fetch_op op x)) as [[u y]|] eqn:Eb; [|discriminate].
  assert (T5 : h_casts (x_h x) (x_pc x) = None).
  { destruct T4 as [T4|T4]; [exact T4|]. exfalso. destruct u. destruct (T4 y) as [Ty _]; [exists BRK; split; [exact D|exact Eb]|].
    rewrite (brk_ends _ _ _ Eb) in Ty. discriminate Ty. }
  rewrite T5 in Ex. apply COk_inj in Ex as [_ ->].
  assert (Ne' : no_error (fetch_op op x) x') by exact Ne.
  assert (Hi : has_info (fetch_op op x)) by exact (ok_own _ X).
  destruct (brk_sizes _ _ _ Hi T Eb Ne') as [Q1 Q2]. change (own_sig (fetch_op op x)) with (own_sig x) in Q1, Q2. rewrite (seen_sig _ _ Sn) in Q1, Q2.
  rewrite <- Sz. destruct r; cbn [astack leaves]; assumption.
Qed.
End Follow.

(** ** The reader leaves the program alone *)
Notation zr z := (h_rom (z_h z)).
Lemma zr_give w z : zr (give_up w z) = zr z.
Proof. reflexivity. Qed.
Lemma zr_sig_arg z n : zr (sig_arg z n) = zr z.
Proof. unfold sig_arg. cases. Qed.
Lemma zr_cast_arg z n : zr (cast_arg z n) = zr z.
Proof. unfold cast_arg. destruct (z_state z) eqn:E; cbv zeta; (destruct (Nat.ltb _ _); [|reflexivity]); cbn; rewrite ?E; reflexivity. Qed.
Lemma zr_sig_token z n : zr (sig_token z n) = zr z.
Proof.
  unfold sig_token. destruct (z_sealed z); cbv zeta; repeat (destruct (str_eqb _ _); [cases|]); destruct (is_bang n); try reflexivity; cases; try apply zr_sig_arg.
  rewrite zr_sig_arg. reflexivity.
Qed.
Lemma zr_cast_token z n : zr (cast_token z n) = zr z.
Proof.
  unfold cast_token. destruct (z_sealed z); cbv zeta; (destruct (str_eqb _ _); [cases|]); (destruct (is_bang n); [reflexivity|]);
    (destruct (is_arrow n); [reflexivity|]); rewrite zr_cast_arg; reflexivity.
Qed.
Lemma zr_replay f l : (forall z n, zr (f z n) = zr z) -> forall z, zr (replay f l z) = zr z.
Proof.
  intros H. induction l as [|t l IH]; intros z; cbn [replay]; [reflexivity|]. destruct (z_hand z); try reflexivity; rewrite IH, H; reflexivity.
Qed.
Lemma zr_first z n b s f : (forall z n, zr (f z n) = zr z) -> zr (parse_first z n b s f) = zr z.
Proof.
  intros H. unfold parse_first. destruct b; [|cases]. cbv zeta. set (y := replay _ _ _).
  assert (E : zr y = zr z) by (unfold y; rewrite zr_replay by exact H; reflexivity).
  destruct (z_hand y); rewrite ?H; exact E.
Qed.
Lemma zr_anno z n : zr (anno_token z n) = zr z.
Proof.
  unfold anno_token. destruct (z_hand z); try reflexivity; try apply zr_sig_token; try apply zr_cast_token;
    rewrite zr_first by (intros; apply zr_sig_token || apply zr_cast_token); cases.
Qed.
Lemma zr_anno_end z : zr (anno_end z) = zr z.
Proof. unfold anno_end, sig_end, cast_end. cases. Qed.
Lemma zr_comment z i n : zr (read_comment z i n) = zr z.
Proof.
  unfold read_comment. destruct (i =? 0); [cases|]. destruct (_ && _); [apply zr_anno_end|]. destruct (i =? 1); [apply zr_anno|reflexivity].
Qed.
Lemma zr_byte z a s : zr (read_byte z a s) = zr z.
Proof. unfold read_byte. destruct (match z_last z with Some _ => _ | None => _ end). reflexivity. Qed.
Lemma zr_ensure h a : h_rom (ensure_info h a) = h_rom h.
Proof. unfold ensure_info. cases. Qed.
Lemma zr_symbol z a s z' : read_symbol z a s = Some z' -> zr z' = zr z.
Proof.
  unfold read_symbol. destruct (s_type s) eqn:Et.
  all: lazymatch type of Et with
  | _ = SComment => destruct (s_name s) as [[|c n]|]; intros E; inversion E; apply zr_comment
  | _ = SLabel => destruct (s_gen s); intros E; inversion E; [reflexivity|apply zr_ensure]
  | _ => try (destruct (a <? 256); [discriminate|]); intros E; inversion E; rewrite ?zr_byte; reflexivity
  end.
Qed.
Lemma zr_symbols evs : forall z z', read_symbols z evs = Some z' -> zr z' = zr z.
Proof.
  induction evs as [|[] evs IH]; cbn [read_symbols]; intros z z' E; eauto.
  - inversion E. reflexivity.
  - destruct (read_symbol z _ _) as [y|] eqn:Ey; [|discriminate]. destruct (z_bad y); [discriminate|].
    rewrite (IH _ _ E). eapply zr_symbol; eauto.
Qed.
Lemma zr_reset h : h_rom (add_reset h) = h_rom h.
Proof.
  unfold add_reset. rewrite <- (zr_ensure h 256). cbv zeta. destruct (h_infos (ensure_info h 256) 256) as [[? [] ? ? ?]|]; reflexivity.
Qed.

(** ** The symbols of the reader are those of the program *)
Notation zs z := (h_syms (z_h z)).
Lemma zs_give w z : zs (give_up w z) = zs z.
Proof. reflexivity. Qed.
Lemma zs_sig_arg z n : zs (sig_arg z n) = zs z.
Proof. unfold sig_arg. cases. Qed.
Lemma zs_cast_arg z n : zs (cast_arg z n) = zs z.
Proof. unfold cast_arg. destruct (z_state z) eqn:E; cbv zeta; (destruct (Nat.ltb _ _); [|reflexivity]); cbn; rewrite ?E; reflexivity. Qed.
Lemma zs_sig_token z n : zs (sig_token z n) = zs z.
Proof.
  unfold sig_token. destruct (z_sealed z); cbv zeta; repeat (destruct (str_eqb _ _); [cases|]); destruct (is_bang n); try reflexivity; cases; try apply zs_sig_arg.
  rewrite zs_sig_arg. reflexivity.
Qed.
Lemma zs_cast_token z n : zs (cast_token z n) = zs z.
Proof.
  unfold cast_token. destruct (z_sealed z); cbv zeta; (destruct (str_eqb _ _); [cases|]); (destruct (is_bang n); [reflexivity|]);
    (destruct (is_arrow n); [reflexivity|]); rewrite zs_cast_arg; reflexivity.
Qed.
Lemma zs_replay f l : (forall z n, zs (f z n) = zs z) -> forall z, zs (replay f l z) = zs z.
Proof.
  intros H. induction l as [|t l IH]; intros z; cbn [replay]; [reflexivity|]. destruct (z_hand z); try reflexivity; rewrite IH, H; reflexivity.
Qed.
Lemma zs_first z n b s f : (forall z n, zs (f z n) = zs z) -> zs (parse_first z n b s f) = zs z.
Proof.
  intros H. unfold parse_first. destruct b; [|cases]. cbv zeta. set (y := replay _ _ _).
  assert (E : zs y = zs z) by (unfold y; rewrite zs_replay by exact H; reflexivity).
  destruct (z_hand y); rewrite ?H; exact E.
Qed.
Lemma zs_anno z n : zs (anno_token z n) = zs z.
Proof.
  unfold anno_token. destruct (z_hand z); try reflexivity; try apply zs_sig_token; try apply zs_cast_token;
    rewrite zs_first by (intros; apply zs_sig_token || apply zs_cast_token); cases.
Qed.
Lemma zs_anno_end z : zs (anno_end z) = zs z.
Proof. unfold anno_end, sig_end, cast_end. cases. Qed.
Lemma zs_comment z i n : zs (read_comment z i n) = zs z.
Proof.
  unfold read_comment. destruct (i =? 0); [cases|]. destruct (_ && _); [apply zs_anno_end|]. destruct (i =? 1); [apply zs_anno|reflexivity].
Qed.
Lemma zs_ensure h a : h_syms (ensure_info h a) = h_syms h.
Proof. unfold ensure_info. cases. Qed.
Lemma zs_reset h : h_syms (add_reset h) = h_syms h.
Proof.
  unfold add_reset. rewrite <- (zs_ensure h 256). cbv zeta. destruct (h_infos (ensure_info h 256) 256) as [[? [] ? ? ?]|]; reflexivity.
Qed.
Lemma type_eqb_true a b : type_eqb a b = true -> a = b.
Proof. destruct a, b; cbn; intros H; try discriminate H; reflexivity. Qed.
Lemma zs_byte z a s b y : zs (read_byte z a s) b = Some y -> zs z b = Some y \/ b = a /\ y_type y = s_type s.
Proof.
  unfold read_byte. destruct (match z_last z with Some _ => _ | None => _ end) as [w ids] eqn:E. cbn. destruct (b =? a) eqn:Q; [|auto].
  intros H. inversion H. subst w. right. split; [lia|]. destruct (z_last z) as [w|].
  - destruct (type_eqb _ _) eqn:T; cbn [andb] in E; [destruct (same_region _ _)|]; inversion E; subst; cbn; try reflexivity. symmetry. apply type_eqb_true, T.
  - inversion E. reflexivity.
Qed.
Lemma zs_symbol z a s z' b y : read_symbol z a s = Some z' -> zs z' b = Some y -> zs z b = Some y \/ b = a /\ y_type y = s_type s.
Proof.
  unfold read_symbol. destruct (s_type s) eqn:Et; rewrite <- ?Et.
  all: lazymatch type of Et with
  | _ = SComment => destruct (s_name s) as [[|c n]|]; intros E; inversion E; rewrite zs_comment; auto
  | _ = SLabel => destruct (s_gen s); intros E; inversion E; cbn; rewrite ?zs_ensure; auto
  | _ => try (destruct (a <? 256); [discriminate|]); intros E; inversion E; try (intros H; apply zs_byte in H; cbn in H; rewrite ?Et in *; exact H); auto
  end.
Qed.
Lemma zs_symbols evs : forall z z' b y, read_symbols z evs = Some z' -> zs z' b = Some y -> zs z b = Some y \/ exists s, In (ESym b s) evs /\ s_type s = y_type y.
Proof.
  induction evs as [|e evs IH]; cbn [read_symbols]; intros z z' b y E H; [inversion E; subst; auto|].
  assert (K : forall z, read_symbols z evs = Some z' -> zs z b = Some y \/ exists s, In (ESym b s) (e :: evs) /\ s_type s = y_type y).
  { intros z1 E1. destruct (IH _ _ _ _ E1 H) as [Q|(s & Q1 & Q2)]; [auto|right; exists s; cbn; auto]. }
  destruct e as [| |a s| | | | | |]; eauto.
  destruct (read_symbol z _ _) as [z1|] eqn:Ey; [|discriminate]. destruct (z_bad z1); [discriminate|].
  destruct (K _ E) as [Q|Q]; [|auto]. destruct (zs_symbol _ _ _ _ _ _ Ey Q) as [Q1|[-> Q2]]; [auto|]. right. exists s. cbn. auto.
Qed.

(** ** The verdict *)
Lemma final_reports h : exists l, h_reports (final_check h) = h_reports h ++ l.
Proof.
  unfold final_check. generalize (h_order h). intros o. revert h. induction o as [|b o IH]; intros h; cbn [fold_left]; [exists []; rewrite app_nil_r; reflexivity|].
  destruct (IH (if missing_end h b then h_fail (h_report h (RError CNoTermination)) else h)) as (l & E). rewrite E.
  destruct (missing_end h b); [|eauto]. cbn [h_fail h_report h_reports]. exists ([RError CNoTermination] ++ l). rewrite app_assoc. reflexivity.
Qed.
Lemma verdict_end fuel evs l z : type_check fuel evs = Some (Verdict true l) -> read_symbols (reader0 (rom_of evs (fun _ => 0))) evs = Some z ->
  exists hF m, csteps fuel (Idle (add_reset (z_h z))) = Finished hF /\ l = h_reports hF ++ m /\ existsb is_error (h_reports hF) = false.
Proof.
  intros V R. pose proof (type_check_fair _ _ _ _ V) as [F _]. unfold type_check in V. rewrite R in V. unfold chess_end in V.
  destruct (csteps fuel _) as [|x|hF|f]; try discriminate V.
  assert (El : l = h_reports (final_check hF)) by congruence. subst l. destruct (final_reports hF) as (m & Em).
  exists hF, m. split; [reflexivity|]. split; [exact Em|]. rewrite Em, existsb_app in F. destruct (existsb is_error (h_reports hF)); [discriminate F|reflexivity].
Qed.
Lemma declared_right l f sp : Forall declared l -> right_about l f sp.
Proof.
  revert sp. induction l as [|v l IH]; intros sp H; [exact Logic.I|]. inversion H as [|? ? D]; subst. split; [|apply IH; assumption].
  intros X. destruct D as (_ & _ & D & _). congruence.
Qed.
Lemma pushed_size l : forall k, k_size (fold_left raw_push l k) = match l with [] => k_size k | _ => (k_size k + width l) mod 256 end.
Proof.
  induction l as [|v l IH]; intros k; [reflexivity|]. cbn [fold_left width]. rewrite IH, raw_size. unfold u8.
  destruct l; [cbn [width]; rewrite Z.add_0_r; reflexivity|]. cbn [width]. lia.
Qed.
