(** The nodes of the type checker: the pool and the nodes in use are apart, in
    every state of an analysis. *)
From Verif Require Import Base VmModel AsmModel ChessModel ChessProofs ValueSpec ChessValue.
From Coq Require Import ZifyBool Permutation.
Open Scope list_scope.
Local Notation "x <- m ;; k" := (cbind m (fun x => k)) (at level 61, m at next level, right associativity).
Local Notation "m ;;; k" := (cbind m (fun _ => k)) (at level 61, right associativity).

Definition kp {A} (m : C A) : Prop := forall x a x', pool_ok x -> m x = COk (a, x') -> pool_ok x'.
Definition kf (f : ctx -> ctx) : Prop := forall x, pool_ok x -> pool_ok (f x).

Lemma kp_ret {A} (a : A) : kp (cret a).
Proof. intros x b x' H E. inj E. exact H. Qed.
Lemma kp_get {A} (f : ctx -> A) : kp (get f).
Proof. intros x b x' H E. inj E. exact H. Qed.
Lemma kp_bind {A B} (m : C A) (k : A -> C B) : kp m -> (forall a, kp (k a)) -> kp (cbind m k).
Proof.
  intros Hm Hk x b x' H E. unfold cbind in E. destruct (m x) as [[a y]|] eqn:E1; [|discriminate]. exact (Hk a y b x' (Hm x a y H E1) E).
Qed.
Lemma kp_act f : kf f -> kp (act f).
Proof. intros Hf x b x' H E. inj E. apply Hf, H. Qed.
Lemma kp_if {A} (b : bool) (m k : C A) : kp m -> kp k -> kp (if b then m else k).
Proof. destruct b; auto. Qed.
Lemma kf_error m : kf (error m).
Proof. exact (fun x H => H). Qed.
Lemma kf_own_term f : kf (fun x => set_own_term x (f x)).
Proof. exact (fun x H => H). Qed.
Lemma kf_terminate : kf terminate.
Proof. exact (fun x H => H). Qed.
Lemma kf_pc f : kf (fun x => with_pc x (f x)).
Proof. exact (fun x H => H). Qed.
Lemma kf_stack p f : kf (fun x => set_stack p x (f x)).
Proof. intros x H. apply pool_set, H. Qed.
Lemma kf_warning m : kf (warning m).
Proof. exact (fun x H => H). Qed.
Lemma kp_fork f : kp (fork f).
Proof. apply kp_act. exact (fun x H => H). Qed.
Lemma kp_pop_byte p : kp (pop_byte p).
Proof.
  intros x v x' H E. unfold pop_byte in E. destruct (k_size (get_stack p x) <? 1); [inj E; exact H|].
  destruct (top_of _) as [top|]; [|discriminate]. destruct (v_short top).
  - destruct (alloc_node x top) as [n y] eqn:EA. inj E. apply pool_set. eapply alloc_pool; eauto.
  - inj E. apply pool_set, H.
Qed.
Lemma kp_pop_from p two : kp (pop_from p two).
Proof.
  unfold pop_from. destruct two; [|apply kp_pop_byte].
  intros x v x' H E. unfold pop_short in E. destruct (k_size (get_stack p x) <? 2); [inj E; exact H|].
  destruct (top_of _) as [top|]; [|discriminate]. destruct (v_short top); [inj E; apply pool_set, H|].
  destruct (k_len _ <? 2); [discriminate|].
  destruct (pop_byte p x) as [[lo y]|] eqn:E1; [|discriminate]. destruct (pop_byte p y) as [[hi z]|] eqn:E2; [|discriminate].
  inj E. eapply kp_pop_byte; [|exact E2]. eapply kp_pop_byte; eauto.
Qed.
Lemma kp_pop_ex two r : kp (pop_ex two r).
Proof.
  intros x v x' H E. unfold pop_ex in E. destruct (x_term x); [inj E; exact H|]. eapply kp_pop_from; eauto.
Qed.
Lemma kp_cpop : kp cpop.
Proof. intros x v x' H E. eapply kp_pop_ex; eauto. Qed.
Lemma kp_push_ex r v : kp (push_ex r v).
Proof.
  intros x u x' H E. unfold push_ex in E. destruct (x_term x); [inj E; exact H|]. destruct (256 <? _); inj E; [exact H|apply pool_set, H].
Qed.
Lemma kp_cpush v : kp (cpush v).
Proof. intros x u x' H E. eapply kp_push_ex; eauto. Qed.
Lemma kp_err m : kp (err m).
Proof. apply kp_act, kf_error. Qed.
Lemma kp_warn m : kp (warn m).
Proof. apply kp_act, kf_warning. Qed.
Lemma kp_err_if b m : kp (err_if b m).
Proof. apply kp_if; [apply kp_err|apply kp_ret]. Qed.
Lemma kp_warn_if b m : kp (warn_if b m).
Proof. apply kp_if; [apply kp_warn|apply kp_ret]. Qed.

Create HintDb kpdb.
#[export] Hint Resolve kp_ret kp_get kp_pop_from kp_pop_ex kp_cpop kp_push_ex kp_cpush kp_err kp_warn kp_err_if kp_warn_if
  kp_fork kf_own_term kf_terminate kf_pc kf_stack kf_error kf_warning kp_act : kpdb.
#[export] Hint Opaque kp : kpdb.
Ltac kp_tac := repeat first
  [ progress intros
  | solve [eauto 2 with kpdb]
  | apply kp_bind
  | apply kp_if
  | apply kp_act; solve [eauto with kpdb]
  | solve [eauto with kpdb] ].
Lemma kp_fn {A} (f : ctx -> C A) : (forall x, kp (f x)) -> kp (fun x => f x x).
Proof. intros H x a x' Hi E. eapply H; eauto. Qed.
Lemma kp_if_term {A} (a : A) (m : C A) : kp m -> kp (fun x => if x_term x then COk (a, x) else m x).
Proof. intros H x b x' Hi E. destruct (x_term x); [inj E; exact Hi|eauto]. Qed.
Lemma kp_check_values out r l : kp (check_values out r l).
Proof. induction l; cbn [check_values]; unfold check_value; kp_tac. Qed.
#[export] Hint Resolve kp_check_values : kpdb.
Lemma kp_check_stack out r l : kp (check_stack out r l).
Proof.
  intros x a x' Hi H. unfold check_stack in H.
  set (y := if (if out then k_size (get_stack (Stk false r) x) =? sig_size l else sig_size l <=? k_size (get_stack (Stk false r) x)) then x else error CSizeMismatch x) in H.
  assert (G : pool_ok y) by (unfold y; destruct (if out then _ else _); exact Hi).
  destruct (x_term y); [inj H; exact G|]. eapply kp_check_values; eauto.
Qed.
#[export] Hint Resolve kp_check_stack : kpdb.
Lemma kp_check_return : kp check_return.
Proof. unfold check_return. intros x a x' Hi H. revert H. apply kp_bind; eauto with kpdb. Qed.
#[export] Hint Resolve kp_check_return : kpdb.
Lemma kp_BRK : kp op_BRK.
Proof. unfold op_BRK. kp_tac. Qed.
Lemma kp_boolean op : kp (boolean_op op).
Proof. unfold boolean_op. kp_tac. Qed.
Lemma kf_const_term b : kf (fun x => set_own_term x b).
Proof. exact (fun x H => H). Qed.
#[export] Hint Resolve kf_const_term : kpdb.
Lemma kp_abs_jmp a : kp (abs_jmp a).
Proof. unfold abs_jmp. kp_tac. Qed.
Lemma kp_push_all r l : kp (push_all r l).
Proof. induction l; cbn [push_all]; kp_tac. Qed.
#[export] Hint Resolve kp_BRK kp_boolean kp_abs_jmp kp_push_all : kpdb.
Lemma kp_short_circuit key sig : kp (short_circuit key sig).
Proof. unfold short_circuit. kp_tac. Qed.
#[export] Hint Resolve kp_short_circuit : kpdb.
Lemma kp_cjump a : kp (cjump a).
Proof.
  unfold cjump. apply kp_if_term. intros x.
  revert x. apply (kp_fn (fun x0 => cbind _ _)). intros x0.
  apply kp_bind.
  - kp_tac.
  - intros _. apply kp_if_term. intros x u x' Hi H.
    destruct (h_infos (x_h x) (x_pc x)) as [[[] [sig|] ? ? ?]|].
    1: eapply kp_short_circuit; eauto.
    all: destruct (h_jumps _ _); inj H; exact Hi.
Qed.
#[export] Hint Resolve kp_cjump : kpdb.
Lemma kp_jump_stash a r : kp (jump_stash a r).
Proof. unfold jump_stash. kp_tac. Qed.
Lemma kp_jump_conditional c a : kp (jump_conditional c a).
Proof. unfold jump_conditional. kp_tac. Qed.
#[export] Hint Resolve kp_jump_stash kp_jump_conditional : kpdb.
Lemma kp_cload a : kp (cload a).
Proof.
  unfold cload. apply kp_if_term. kp_tac.
  intros x v x' Hi H. destruct (h_infos (x_h x) (v_val a)); [inj H; exact Hi|]. revert H. apply kp_bind; kp_tac.
Qed.
Lemma kp_cstore a : kp (cstore a).
Proof.
  unfold cstore. apply kp_if_term. kp_tac.
  intros x v x' Hi H. destruct (h_infos (x_h x) (v_val a)); [inj H; exact Hi|]. revert H. apply kp_warn_if; auto.
Qed.
Lemma kp_report_deo a v : kp (report_deo a v).
Proof.
  apply kp_act. intros x Hi. cbv beta. destruct (v_const a && v_const v); [|exact Hi]. destruct (v_short v); exact Hi.
Qed.
#[export] Hint Resolve kp_cload kp_cstore kp_report_deo : kpdb.
Lemma kp_bin_op b op : kp (ChessModel.bin_op b op).
Proof.
  unfold ChessModel.bin_op. kp_tac. intros x n x' Hi H. destruct (op _ _); [|discriminate]. inj H. exact Hi.
Qed.
#[export] Hint Resolve kp_bin_op : kpdb.
Lemma kp_poly b : kp (ChessModel.poly b).
Proof. destruct b; unfold ChessModel.poly; kp_tac. Qed.
Lemma kp_get_rom a : kp (get_rom a).
Proof. intros x n x' Hi H. unfold get_rom in H. destruct (a <? 256); [discriminate|]. inj H. exact Hi. Qed.
Lemma kp_next_pc : kp next_pc.
Proof. intros x n x' Hi H. inj H. exact Hi. Qed.
#[export] Hint Resolve kp_poly kp_get_rom kp_next_pc : kpdb.
Lemma kp_jump_target : kp ChessModel.jump_target.
Proof. unfold ChessModel.jump_target. kp_tac. Qed.
Lemma kp_lit_byte a s : kp (make_lit_byte a s).
Proof. unfold make_lit_byte. destruct s; kp_tac. destruct (y_type c); kp_tac. Qed.
Lemma kp_lit_short a b s : kp (lit_short a b s).
Proof. unfold lit_short. destruct s as [c|]; [destruct (y_type c)|]; kp_tac. Qed.
#[export] Hint Resolve kp_jump_target kp_lit_byte kp_lit_short : kpdb.
Lemma kp_LIT : kp op_LIT.
Proof.
  unfold op_LIT. kp_tac.
  - destruct (a1 a2); kp_tac. destruct (a0 a2); kp_tac.
  - destruct (a1 a2); kp_tac. destruct (a1 a3); [|destruct (a0 a3)]; kp_tac.
Qed.
#[export] Hint Resolve kp_LIT : kpdb.
Lemma kp_label l : kp (run_label l).
Proof. destruct l; cbn [run_label]; kp_tac. Qed.
Lemma kp_pop_inputs r l : kp (pop_inputs r l).
Proof. induction l; cbn [pop_inputs]; kp_tac. Qed.
Lemma kp_push_outputs r i o : kp (push_outputs r i o).
Proof. revert o. induction i as [|v i IH]; intros [|w o]; cbn [push_outputs]; kp_tac. Qed.
#[export] Hint Resolve kp_label kp_pop_inputs kp_push_outputs : kpdb.
Lemma kp_apply_cast r l : kp (apply_cast r l).
Proof. unfold apply_cast. kp_tac. Qed.
#[export] Hint Resolve kp_apply_cast : kpdb.
Lemma kp_exec_op : kp exec_op.
Proof.
  intros x u x' H E. unfold exec_op, cbind at 1, get_rom in E. destruct (x_pc x <? 256); [discriminate|].
  destruct (is_code _); [|inj E; exact H]. set (op := h_rom (x_h x) (x_pc x)) in E.
  revert E. apply (kp_bind (act (fetch_op op))).
  - apply kp_act. exact (fun x H => H).
  - intros _. apply kp_bind; [destruct (dispatch op); kp_tac|]. intros _. destruct (h_casts _ _); kp_tac.
  - exact H.
Qed.
Lemma kp_exec_round : kp exec_round.
Proof.
  intros x u x' H E. unfold exec_round in E. destruct (_ && _); [inj E; exact H|].
  destruct (h_infos _ _) as [[[] [sig|] ? ? ?]|]; try (eapply kp_exec_op; eauto; fail).
  destruct (_ =? _); [eapply kp_exec_op; eauto|]. eapply (kp_short_circuit (x_pc x) sig (with_inner x true)); [exact H|exact E].
Qed.

Definition pool_h (h : chess) : Prop := NoDup (h_pool h) /\ forall n, In n (h_pool h) -> n < h_next h.
Lemma fold_cons {A} (l p : list A) : Permutation (fold_left (fun p n => n :: p) l p) (p ++ l).
Proof.
  revert p. induction l as [|a l IH]; intros p; cbn; [rewrite app_nil_r; reflexivity|]. rewrite IH. apply Permutation_cons_app. reflexivity.
Qed.
Lemma pool_end x : pool_ok x -> pool_h (end_entry x).
Proof.
  intros [N B]. unfold pool_h, end_entry. cbn. pose proof (fold_cons (x_values x) (h_pool (x_h x))) as P. split.
  - eapply Permutation_NoDup; [symmetry; exact P|exact N].
  - intros n I. apply B. eapply Permutation_in; [exact P|exact I].
Qed.
Definition pool_c (c : config) : Prop :=
  match c with Idle h => pool_h h | Running x => pool_ok x | _ => True end.
Lemma pool_step c : pool_c c -> pool_c (cstep c).
Proof.
  destruct c as [h|x|h|f]; cbn [cstep pool_c]; auto.
  - intros [N B]. destruct (h_list h) as [|e l]; [exact Logic.I|]. unfold begin_entry. destruct (h_syms _ _); cbn [pool_c].
    + unfold pool_ok. cbn. rewrite app_nil_r. auto.
    + exact (conj N B).
  - intros H. destruct (x_term x); [apply pool_end, H|]. destruct (exec_round x) as [[u y]|] eqn:E; [|exact Logic.I]. eapply kp_exec_round; eauto.
Qed.
Lemma pool_steps n c : pool_c c -> pool_c (csteps n c).
Proof. revert c. induction n; intros c H; cbn [csteps]; auto using pool_step. Qed.

(** ** The reader leaves the pool empty *)

Notation zp z := (h_pool (z_h z)).
Ltac cases := repeat match goal with
  | |- context [match ?x with _ => _ end] => destruct x
  end; try reflexivity.
Lemma zp_give w z : zp (give_up w z) = zp z.
Proof. reflexivity. Qed.
Lemma zp_sig_arg z n : zp (sig_arg z n) = zp z.
Proof. unfold sig_arg. cases. Qed.
Lemma zp_cast_arg z n : zp (cast_arg z n) = zp z.
Proof. unfold cast_arg. destruct (z_state z) eqn:E; cbv zeta; (destruct (Nat.ltb _ _); [|reflexivity]); cbn; rewrite ?E; reflexivity. Qed.
Lemma zp_sig_token z n : zp (sig_token z n) = zp z.
Proof.
  unfold sig_token. destruct (z_sealed z); cbv zeta; repeat (destruct (str_eqb _ _); [cases|]); destruct (is_bang n); try reflexivity; cases; try apply zp_sig_arg.
  rewrite zp_sig_arg. reflexivity.
Qed.
Lemma zp_cast_token z n : zp (cast_token z n) = zp z.
Proof.
  unfold cast_token. destruct (z_sealed z); cbv zeta; (destruct (str_eqb _ _); [cases|]); (destruct (is_bang n); [reflexivity|]);
    (destruct (is_arrow n); [reflexivity|]); rewrite zp_cast_arg; reflexivity.
Qed.
Lemma zp_replay f l : (forall z n, zp (f z n) = zp z) -> forall z, zp (replay f l z) = zp z.
Proof.
  intros H. induction l as [|t l IH]; intros z; cbn [replay]; [reflexivity|]. destruct (z_hand z); try reflexivity; rewrite IH, H; reflexivity.
Qed.
Lemma zp_first z n b s f : (forall z n, zp (f z n) = zp z) -> zp (parse_first z n b s f) = zp z.
Proof.
  intros H. unfold parse_first. destruct b; [|cases]. cbv zeta. set (y := replay _ _ _).
  assert (E : zp y = zp z) by (unfold y; rewrite zp_replay by exact H; reflexivity).
  destruct (z_hand y); rewrite ?H; exact E.
Qed.
Lemma zp_anno z n : zp (anno_token z n) = zp z.
Proof.
  unfold anno_token. destruct (z_hand z); try reflexivity; try apply zp_sig_token; try apply zp_cast_token;
    rewrite zp_first by (intros; apply zp_sig_token || apply zp_cast_token); cases.
Qed.
Lemma zp_anno_end z : zp (anno_end z) = zp z.
Proof. unfold anno_end, sig_end, cast_end. cases. Qed.
Lemma zp_comment z i n : zp (read_comment z i n) = zp z.
Proof.
  unfold read_comment. destruct (i =? 0); [cases|]. destruct (_ && _); [apply zp_anno_end|]. destruct (i =? 1); [apply zp_anno|reflexivity].
Qed.
Lemma zp_byte z a s : zp (read_byte z a s) = zp z.
Proof. unfold read_byte. destruct (match z_last z with Some _ => _ | None => _ end). reflexivity. Qed.
Lemma zp_ensure h a : h_pool (ensure_info h a) = h_pool h.
Proof. unfold ensure_info. cases. Qed.
Lemma zp_symbol z a s z' : read_symbol z a s = Some z' -> zp z' = zp z.
Proof.
  unfold read_symbol. destruct (s_type s) eqn:Et.
  all: lazymatch type of Et with
  | _ = SComment => destruct (s_name s) as [[|c n]|]; intros E; inversion E; apply zp_comment
  | _ = SLabel => destruct (s_gen s); intros E; inversion E; [reflexivity|apply zp_ensure]
  | _ => try (destruct (a <? 256); [discriminate|]); intros E; inversion E; rewrite ?zp_byte; reflexivity
  end.
Qed.
Lemma zp_symbols evs : forall z z', read_symbols z evs = Some z' -> zp z' = zp z.
Proof.
  induction evs as [|[] evs IH]; cbn [read_symbols]; intros z z' E; eauto.
  - inversion E. reflexivity.
  - destruct (read_symbol z _ _) as [y|] eqn:Ey; [|discriminate]. destruct (z_bad y); [discriminate|].
    rewrite (IH _ _ E). eapply zp_symbol; eauto.
Qed.
Lemma zp_reset h : h_pool (add_reset h) = h_pool h.
Proof.
  unfold add_reset. rewrite <- (zp_ensure h 256). cbv zeta. destruct (h_infos (ensure_info h 256) 256) as [[? [] ? ? ?]|]; reflexivity.
Qed.
Lemma pool_start rom evs z : read_symbols (reader0 rom) evs = Some z -> pool_h (add_reset (z_h z)).
Proof.
  intros E. unfold pool_h. rewrite zp_reset, (zp_symbols _ _ _ E). cbn. split; [constructor|contradiction].
Qed.
