(** Basic facts about the model of the type checker: what every operation
    leaves alone, and how the sizes of the stacks change. *)
From Verif Require Import Base VmModel AsmModel ChessModel.
From Coq Require Import ZifyBool.
Open Scope list_scope.
Ltac Zify.zify_post_hook ::= Z.div_mod_to_equations.

(** ** What never changes, or only grows *)

(** The parts of an info that the analysis does not touch. *)
Definition same_info (a b : option info) : Prop :=
  match a, b with
  | None, None => True
  | Some i, Some j => i_rout i = i_rout j /\ i_sig i = i_sig j /\ i_marked i = i_marked j
  | _, _ => False
  end.
Lemma same_info_refl a : same_info a a.
Proof. destruct a; cbn; auto. Qed.
Lemma same_info_trans a b c : same_info a b -> same_info b c -> same_info a c.
Proof.
  destruct a, b, c; cbn; intuition; congruence.
Qed.

(** [h'] comes after [h]. *)
Definition ends (r : report) : bool := match r with REnd _ => true | _ => false end.
Definition is_error (r : report) : bool := match r with RError _ => true | _ => false end.
(** [l] is what was reported in between, and the analysis fails iff there is an
    error among it. *)
Definition reported (h h' : chess) : Prop := exists l, h_reports h' = h_reports h ++ l /\
  existsb ends l = false /\ h_success h' = h_success h && negb (existsb is_error l).
Lemma reported_nil h h' : h_reports h' = h_reports h -> h_success h' = h_success h -> reported h h'.
Proof. intros E F. exists []. rewrite app_nil_r, E, F. cbn. rewrite Bool.andb_true_r. auto. Qed.
Record later (h h' : chess) : Prop := {
  l_rom : h_rom h' = h_rom h;
  l_syms : h_syms h' = h_syms h;
  l_casts : h_casts h' = h_casts h;
  l_order : h_order h' = h_order h;
  l_infos : forall a, same_info (h_infos h a) (h_infos h' a);
  l_list : exists l, h_list h' = l ++ h_list h;
  l_reports : reported h h'
}.
Lemma later_refl h : later h h.
Proof.
  constructor; auto using same_info_refl.
  - exists []; reflexivity.
  - apply reported_nil; reflexivity.
Qed.
Lemma later_trans a b c : later a b -> later b c -> later a c.
Proof.
  intros H K. destruct H, K. constructor; try congruence; auto.
  - intros x. eapply same_info_trans; eauto.
  - destruct l_list0 as [l E], l_list1 as [m F]. exists (m ++ l). rewrite F, E, app_assoc. reflexivity.
  - destruct l_reports0 as (l & E & E1 & E2), l_reports1 as (m & F & F1 & F2). exists (l ++ m).
    rewrite F, E, app_assoc, !existsb_app, E1, F1, F2, E2, Bool.negb_orb, Bool.andb_assoc. auto.
Qed.

Record goes (x x' : ctx) : Prop := {
  g_h : later (x_h x) (x_h x');
  g_info : x_info x' = x_info x;
  g_op : x_op x' = x_op x;
  g_term : x_term x = true -> x_term x' = true;
  g_inner : x_inner x' = x_inner x;
  g_success : x_success x' = true -> x_success x = true
}.
Lemma goes_refl x : goes x x.
Proof. constructor; auto using later_refl. Qed.
Lemma goes_trans a b c : goes a b -> goes b c -> goes a c.
Proof. intros [] []. constructor; try congruence; eauto using later_trans. Qed.

Lemma COk_inj {A} (a b : A) (x y : ctx) : COk (a, x) = COk (b, y) -> a = b /\ x = y.
Proof. intros H. inversion H; auto. Qed.
Ltac inj H := apply COk_inj in H as [? ?]; subst.

(** The analysis always belongs to an existing info. *)
Definition has_info (x : ctx) : Prop := h_infos (x_h x) (x_info x) <> None.
Lemma goes_has x x' : goes x x' -> has_info x -> has_info x'.
Proof.
  intros G H. unfold has_info in *. rewrite (g_info _ _ G).
  pose proof (l_infos _ _ (g_h _ _ G) (x_info x)) as S.
  destruct (h_infos (x_h x) (x_info x)); [|congruence].
  destruct (h_infos (x_h x') (x_info x)); [discriminate|contradiction].
Qed.

Definition ok_step {A} (m : C A) : Prop := forall x a x', has_info x -> m x = COk (a, x') -> goes x x'.
Definition ok_fun (f : ctx -> ctx) : Prop := forall x, has_info x -> goes x (f x).

Lemma ok_ret {A} (a : A) : ok_step (cret a).
Proof. intros x b x' _ H. inversion H. apply goes_refl. Qed.
Lemma ok_get {A} (f : ctx -> A) : ok_step (get f).
Proof. intros x b x' _ H. inversion H. apply goes_refl. Qed.
Lemma ok_bind {A B} (m : C A) (k : A -> C B) : ok_step m -> (forall a, ok_step (k a)) -> ok_step (cbind m k).
Proof.
  intros Hm Hk x b x' Hi H. unfold cbind in H. destruct (m x) as [[a y]|] eqn:E; [|discriminate].
  pose proof (Hm _ _ _ Hi E) as G.
  eapply goes_trans; [exact G|eapply Hk; eauto]. eapply goes_has; eauto.
Qed.
Lemma ok_act f : ok_fun f -> ok_step (act f).
Proof. intros Hf x b x' Hi H. inversion H. apply Hf, Hi. Qed.
Lemma ok_if {A} (b : bool) (m k : C A) : ok_step m -> ok_step k -> ok_step (if b then m else k).
Proof. destruct b; auto. Qed.

Lemma goes_with_h x h : later (x_h x) h -> goes x (with_h x h).
Proof. intros H. constructor; auto. Qed.
Lemma later_report h r : ends r = false -> is_error r = false -> later h (h_report h r).
Proof.
  intros E F. constructor; auto using same_info_refl; [exists []; reflexivity|].
  exists [r]. cbn. rewrite E, F, Bool.andb_true_r. auto.
Qed.
Lemma same_upd f a i j b : f a = Some j -> same_info (Some j) (Some i) -> same_info (f b) (upd_info f a i b).
Proof.
  intros H K. unfold upd_info. destruct (b =? a) eqn:E; [|apply same_info_refl].
  assert (b = a) by lia. subst. rewrite H. exact K.
Qed.
Lemma same_own x t e : has_info x -> forall a, same_info (h_infos (x_h x) a)
  (upd_info (h_infos (x_h x)) (x_info x) (mkInfo (i_rout (own_info x)) (i_sig (own_info x)) (i_marked (own_info x)) t e) a).
Proof.
  intros H a. unfold has_info in H. unfold own_info.
  destruct (h_infos (x_h x) (x_info x)) as [i|] eqn:E; [|congruence].
  eapply same_upd; eauto. cbn; auto.
Qed.

Ltac later_tac := constructor; cbn; auto using same_info_refl; try (exists []; reflexivity); try (apply reported_nil; reflexivity).

Lemma ok_error m : ok_fun (error m).
Proof.
  intros x Hi. constructor; auto; [|discriminate]. later_tac.
  - apply same_own, Hi.
  - exists [RError m]. cbn. rewrite Bool.andb_false_r. auto.
Qed.
Lemma ok_own_term b : ok_fun (fun x => set_own_term x b).
Proof.
  intros x Hi. apply goes_with_h. later_tac. apply same_own, Hi.
Qed.
Lemma ok_terminate : ok_fun terminate.
Proof. intros x _. constructor; auto using later_refl. Qed.
Lemma ok_pc f : ok_fun (fun x => with_pc x (f x)).
Proof. intros x _. constructor; auto using later_refl. Qed.
Lemma goes_stack p x k : goes x (set_stack p x k).
Proof. destruct p as [[] []]; constructor; auto using later_refl. Qed.
Lemma ok_set_stack p f : ok_fun (fun x => set_stack p x (f x)).
Proof. intros x _. apply goes_stack. Qed.
Lemma ok_warning m : ok_fun (warning m).
Proof. intros x _. apply goes_with_h, later_report; reflexivity. Qed.
Lemma ok_fork f : ok_step (fork f).
Proof.
  apply ok_act. intros x _. apply goes_with_h. later_tac.
  eexists [_]. reflexivity.
Qed.
Lemma goes_alloc x v : goes x (snd (alloc_node x v)).
Proof.
  unfold alloc_node. destruct (h_pool (x_h x)); cbn; constructor; cbn; auto; later_tac.
Qed.

Lemma ok_pop_byte p : ok_step (pop_byte p).
Proof.
  intros x v x' Hi H. unfold pop_byte in H.
  destruct (k_size (get_stack p x) <? 1); [inversion H; apply ok_error, Hi|].
  destruct (top_of _) as [top|]; [|discriminate].
  destruct (v_short top).
  - destruct (alloc_node x top) as [n y] eqn:E. inversion H.
    eapply goes_trans; [|apply goes_stack]. pose proof (goes_alloc x top) as G. rewrite E in G. exact G.
  - inversion H. apply goes_stack.
Qed.
Lemma ok_pop_from p two : ok_step (pop_from p two).
Proof.
  unfold pop_from. destruct two; [|apply ok_pop_byte].
  intros x v x' Hi H. unfold pop_short in H.
  destruct (k_size (get_stack p x) <? 2); [inversion H; apply ok_error, Hi|].
  destruct (top_of _) as [top|]; [|discriminate].
  destruct (v_short top); [inversion H; apply goes_stack|].
  destruct (k_len _ <? 2); [discriminate|].
  destruct (pop_byte p x) as [[lo y]|] eqn:E1; [|discriminate].
  destruct (pop_byte p y) as [[hi z]|] eqn:E2; [|discriminate].
  inversion H; subst. pose proof (ok_pop_byte _ _ _ _ Hi E1) as G1.
  eapply goes_trans; [exact G1|]. eapply ok_pop_byte; eauto. eapply goes_has; eauto.
Qed.
Lemma ok_pop_ex two r : ok_step (pop_ex two r).
Proof.
  intros x v x' Hi H. unfold pop_ex in H. destruct (x_term x); [inversion H; apply goes_refl|].
  eapply ok_pop_from; eauto.
Qed.
Lemma ok_cpop : ok_step cpop.
Proof. intros x v x' Hi H. eapply ok_pop_ex; eauto. Qed.
Lemma ok_push_ex r v : ok_step (push_ex r v).
Proof.
  intros x u x' Hi H. unfold push_ex in H. destruct (x_term x); [inversion H; apply goes_refl|].
  destruct (256 <? _); inj H; [apply ok_error, Hi|apply goes_stack].
Qed.
Lemma ok_cpush v : ok_step (cpush v).
Proof. intros x u x' Hi H. eapply ok_push_ex; eauto. Qed.
Lemma ok_err m : ok_step (err m).
Proof. apply ok_act, ok_error. Qed.
Lemma ok_warn m : ok_step (warn m).
Proof. apply ok_act, ok_warning. Qed.
Lemma ok_err_if b m : ok_step (err_if b m).
Proof. apply ok_if; [apply ok_err|apply ok_ret]. Qed.
Lemma ok_warn_if b m : ok_step (warn_if b m).
Proof. apply ok_if; [apply ok_warn|apply ok_ret]. Qed.

Create HintDb okdb.
#[export] Hint Resolve ok_ret ok_get ok_pop_from ok_pop_ex ok_cpop ok_push_ex ok_cpush ok_err ok_warn ok_err_if ok_warn_if
  ok_fork ok_own_term ok_terminate ok_pc ok_set_stack ok_error ok_warning ok_act : okdb.
#[export] Hint Opaque ok_step : okdb.
Ltac ok_tac := repeat first
  [ progress intros
  | solve [eauto 2 with okdb]
  | apply ok_bind
  | apply ok_if
  | apply ok_act; solve [eauto with okdb]
  | solve [eauto with okdb] ].

Lemma ok_fn {A} (f : ctx -> C A) : (forall x, ok_step (f x)) -> ok_step (fun x => f x x).
Proof. intros H x a x' Hi E. eapply H; eauto. Qed.
Lemma ok_if_term {A} (a : A) (m : C A) : ok_step m -> ok_step (fun x => if x_term x then COk (a, x) else m x).
Proof. intros H x b x' Hi E. destruct (x_term x); [inversion E; apply goes_refl|eauto]. Qed.

Lemma ok_check_values out r l : ok_step (check_values out r l).
Proof. induction l; cbn [check_values]; unfold check_value; ok_tac. Qed.
#[export] Hint Resolve ok_check_values : okdb.
Lemma ok_check_stack out r l : ok_step (check_stack out r l).
Proof.
  intros x a x' Hi H. unfold check_stack in H.
  set (y := if (if out then k_size (get_stack (Stk false r) x) =? sig_size l else sig_size l <=? k_size (get_stack (Stk false r) x)) then x else error CSizeMismatch x) in H.
  assert (G : goes x y) by (unfold y; destruct (if out then _ else _); [apply goes_refl|apply ok_error, Hi]).
  destruct (x_term y); [inversion H; subst; exact G|].
  eapply goes_trans; [exact G|]. eapply ok_check_values; eauto. eapply goes_has; eauto.
Qed.
#[export] Hint Resolve ok_check_stack : okdb.
Lemma ok_check_return : ok_step check_return.
Proof. unfold check_return. intros x a x' Hi H. revert H. apply ok_bind; eauto with okdb. Qed.
#[export] Hint Resolve ok_check_return : okdb.
Lemma ok_BRK : ok_step op_BRK.
Proof. unfold op_BRK. ok_tac. Qed.
Lemma ok_boolean op : ok_step (boolean_op op).
Proof. unfold boolean_op. ok_tac. Qed.
Lemma ok_abs_jmp a : ok_step (abs_jmp a).
Proof. unfold abs_jmp. ok_tac. Qed.
Lemma ok_push_all r l : ok_step (push_all r l).
Proof. induction l; cbn [push_all]; ok_tac. Qed.
#[export] Hint Resolve ok_BRK ok_boolean ok_abs_jmp ok_push_all : okdb.
Lemma ok_own_term' f : ok_fun (fun x => set_own_term x (f x)).
Proof. intros x Hi. apply (ok_own_term (f x) x Hi). Qed.
#[export] Hint Resolve ok_own_term' : okdb.
Lemma ok_short_circuit key sig : ok_step (short_circuit key sig).
Proof. unfold short_circuit. ok_tac. Qed.
#[export] Hint Resolve ok_short_circuit : okdb.
Lemma ok_cjump a : ok_step (cjump a).
Proof.
  unfold cjump. apply ok_if_term. intros x. 
  revert x. apply (ok_fn (fun x0 => cbind _ _)). intros x0.
  apply ok_bind.
  - ok_tac.
  - intros _. apply ok_if_term. intros x u x' Hi H.
    destruct (h_infos (x_h x) (x_pc x)) as [[[] [sig|] ? ? ?]|].
    1: eapply ok_short_circuit; eauto.
    all: destruct (h_jumps _ _); inversion H; clear H;
      [eapply goes_trans; [|apply ok_terminate; exact Hi]; apply goes_with_h, later_report; reflexivity
      |apply goes_with_h; later_tac].
Qed.
#[export] Hint Resolve ok_cjump : okdb.
Lemma ok_jump_stash a r : ok_step (jump_stash a r).
Proof. unfold jump_stash. ok_tac. Qed.
Lemma ok_jump_conditional c a : ok_step (jump_conditional c a).
Proof. unfold jump_conditional. ok_tac. Qed.
#[export] Hint Resolve ok_jump_stash ok_jump_conditional : okdb.
Lemma ok_cload a : ok_step (cload a).
Proof.
  unfold cload. apply ok_if_term. ok_tac.
  intros x v x' Hi H. destruct (h_infos (x_h x) (v_val a)); [inversion H; apply goes_refl|].
  revert H. apply ok_bind; ok_tac.
Qed.
Lemma ok_cstore a : ok_step (cstore a).
Proof.
  unfold cstore. apply ok_if_term. ok_tac.
  intros x v x' Hi H. destruct (h_infos (x_h x) (v_val a)); [inversion H; apply goes_refl|].
  revert H. apply ok_warn_if; auto.
Qed.
Lemma ok_report_deo a v : ok_step (report_deo a v).
Proof.
  apply ok_act. intros x Hi. cbv beta.
  destruct (v_const a && v_const v); [|apply goes_refl].
  destruct (v_short v).
  - eapply goes_trans; apply goes_with_h, later_report; reflexivity.
  - apply goes_with_h, later_report; reflexivity.
Qed.
#[export] Hint Resolve ok_cload ok_cstore ok_report_deo : okdb.
Lemma ok_bin_op b op : ok_step (bin_op b op).
Proof.
  unfold bin_op. ok_tac. intros x n x' Hi H. destruct (op _ _); [|discriminate]. inversion H. apply goes_refl.
Qed.
#[export] Hint Resolve ok_bin_op : okdb.
Lemma ok_poly b : ok_step (poly b).
Proof.
  destruct b; unfold poly; ok_tac.
Qed.
Lemma ok_get_rom a : ok_step (get_rom a).
Proof. intros x n x' Hi H. unfold get_rom in H. destruct (a <? 256); [discriminate|]. inversion H. apply goes_refl. Qed.
Lemma ok_next_pc : ok_step next_pc.
Proof. intros x n x' Hi H. inversion H. apply (ok_pc (fun x => u16 (x_pc x + 1))). exact Hi. Qed.
#[export] Hint Resolve ok_poly ok_get_rom ok_next_pc : okdb.
Lemma ok_jump_target : ok_step jump_target.
Proof. unfold jump_target. ok_tac. Qed.
Lemma ok_lit_byte a s : ok_step (make_lit_byte a s).
Proof. unfold make_lit_byte. destruct s; ok_tac. destruct (y_type c); ok_tac. Qed.
Lemma ok_lit_short a b s : ok_step (lit_short a b s).
Proof. unfold lit_short. destruct s as [c|]; [destruct (y_type c)|]; ok_tac. Qed.
#[export] Hint Resolve ok_jump_target ok_lit_byte ok_lit_short : okdb.
Lemma ok_LIT : ok_step op_LIT.
Proof.
  unfold op_LIT. ok_tac.
  - destruct (a1 a2); ok_tac. destruct (a0 a2); ok_tac.
  - destruct (a1 a2); ok_tac. destruct (a1 a3); [|destruct (a0 a3)]; ok_tac.
Qed.
#[export] Hint Resolve ok_LIT : okdb.
Lemma ok_label l : ok_step (run_label l).
Proof. destruct l; cbn [run_label]; ok_tac. Qed.
Lemma ok_pop_inputs r l : ok_step (pop_inputs r l).
Proof. induction l; cbn [pop_inputs]; ok_tac. Qed.
Lemma ok_push_outputs r i o : ok_step (push_outputs r i o).
Proof.
  revert o. induction i as [|v i IH]; intros [|w o]; cbn [push_outputs]; ok_tac.
Qed.
#[export] Hint Resolve ok_label ok_pop_inputs ok_push_outputs : okdb.
Lemma ok_apply_cast r l : ok_step (apply_cast r l).
Proof. unfold apply_cast. ok_tac. Qed.
#[export] Hint Resolve ok_apply_cast : okdb.
