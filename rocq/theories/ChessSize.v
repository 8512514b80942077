(** The sizes of the stacks of the type checker. *)
From Verif Require Import Base VmModel AsmModel ChessModel ChessProofs.
From Coq Require Import ZifyBool.
Open Scope list_scope.
Ltac Zify.zify_post_hook ::= Z.div_mod_to_equations.

(** ** Well-formed states *)

(** A value marked as a low half is a byte. *)
Definition vok (v : value) : Prop := v_short v = true -> v_lo v = false.
(** A value of a signature or a cast carries no knowledge of its own. *)
Definition declared (v : value) : Prop :=
  v_hi v = false /\ v_lo v = false /\ v_const v = false /\ v_ret v = false /\ v_fork v = false.
Definition kok (k : stack) : Prop :=
  is_byte (k_len k) /\ is_byte (k_size k) /\ forall i, vok (k_at k i).
Definition sig_declared (s : signature) : Prop :=
  Forall declared (g_win s) /\ Forall declared (g_rin s) /\ Forall declared (g_wout s) /\ Forall declared (g_rout s).
Record hok (h : chess) : Prop := {
  ok_nodes : forall n, vok (h_node h n);
  ok_sigs : forall a i s, h_infos h a = Some i -> i_sig i = Some s -> sig_declared s;
  ok_casts : forall a c, h_casts h a = Some c -> Forall declared (c_wst c) /\ Forall declared (c_rst c);
  ok_list : Forall (fun e => kok (e_wst e) /\ kok (e_rst e) /\ h_infos h (e_info e) <> None) (h_list h)
}.
Record xok (x : ctx) : Prop := {
  ok_h : hok (x_h x);
  ok_own : has_info x;
  ok_w : kok (x_w x); ok_r : kok (x_r x); ok_sw : kok (x_sw x); ok_sr : kok (x_sr x)
}.

Definition tr {A} (m : C A) (Q : A -> Prop) : Prop := forall x a x', xok x -> m x = COk (a, x') -> xok x' /\ Q a.
Definition any {A} (_ : A) : Prop := True.

Lemma tr_ret {A} (a : A) (Q : A -> Prop) : Q a -> tr (cret a) Q.
Proof. intros H x b x' Hx E. inj E. auto. Qed.
Lemma tr_get {A} (f : ctx -> A) : tr (get f) any.
Proof. intros x b x' Hx E. inj E. split; [auto|exact I]. Qed.
Lemma tr_get' {A} (f : ctx -> A) (Q : A -> Prop) : (forall x, xok x -> Q (f x)) -> tr (get f) Q.
Proof. intros H x b x' Hx E. inj E. auto. Qed.
Lemma tr_bind {A B} (m : C A) (k : A -> C B) (P : A -> Prop) (Q : B -> Prop) :
  tr m P -> (forall a, P a -> tr (k a) Q) -> tr (cbind m k) Q.
Proof.
  intros Hm Hk x b x' Hx H. unfold cbind in H. destruct (m x) as [[a y]|] eqn:E; [|discriminate].
  destruct (Hm _ _ _ Hx E) as [Hy Pa]. eapply Hk; eauto.
Qed.
Lemma tr_if {A} (b : bool) (m k : C A) Q : tr m Q -> tr k Q -> tr (if b then m else k) Q.
Proof. destruct b; auto. Qed.
Lemma tr_weaken {A} (m : C A) (P Q : A -> Prop) : tr m P -> (forall a, P a -> Q a) -> tr m Q.
Proof. intros H K x a x' Hx E. destruct (H _ _ _ Hx E). auto. Qed.
Lemma tr_any {A} (m : C A) P : tr m P -> tr m any.
Proof. intros H. eapply tr_weaken; eauto. intros; exact I. Qed.
Definition tf (f : ctx -> ctx) : Prop := forall x, xok x -> xok (f x).
Lemma tr_act f : tf f -> tr (act f) any.
Proof. intros Hf x b x' Hx E. inj E. split; [auto|exact I]. Qed.

Lemma hok_infos h f a i : hok h ->
  (forall s, i_sig i = Some s -> sig_declared s) -> h_infos h a <> None ->
  f = upd_info (h_infos h) a i -> hok (h_with_infos h f).
Proof.
  intros [N S K L] Hi Ha ->. constructor; cbn; auto.
  - intros b j s. unfold upd_info. destruct (b =? a); [|apply S]. intros E. inversion E; subst. auto.
  - eapply Forall_impl; [|exact L]. cbn. intros e (H1 & H2 & H3). split; [auto|split; [auto|]].
    unfold upd_info. destruct (_ =? _); [discriminate|auto].
Qed.
Lemma own_declared x : xok x -> forall s, i_sig (own_info x) = Some s -> sig_declared s.
Proof.
  intros Hx s. unfold own_info. destruct (h_infos (x_h x) (x_info x)) eqn:E; [|discriminate].
  eapply ok_sigs; eauto using ok_h.
Qed.
Lemma hok_report h r : hok h -> hok (h_report h r).
Proof. intros []. constructor; auto. Qed.
Lemma hok_fail h : hok h -> hok (h_fail h).
Proof. intros []. constructor; auto. Qed.

Lemma upd_has f a i b : f b <> None -> upd_info f a i b <> None.
Proof. unfold upd_info. destruct (_ =? _); [discriminate|auto]. Qed.
Lemma tf_own_term b : tf (fun x => set_own_term x b).
Proof.
  intros x Hx. pose proof (own_declared x Hx) as D. destruct Hx as [H O W R SW SR]. constructor; auto.
  - eapply hok_infos; [exact H| |exact O|reflexivity]. exact D.
  - apply upd_has, O.
Qed.
Lemma tf_error m : tf (error m).
Proof.
  intros x Hx. pose proof (own_declared x Hx) as D. destruct Hx as [H O W R SW SR]. constructor; auto.
  - cbn. eapply (hok_infos (h_fail (h_report (x_h x) (RError m)))); [apply hok_fail, hok_report, H| |exact O|reflexivity].
    auto.
  - apply upd_has, O.
Qed.
Lemma tf_with_h x h : xok x -> hok h -> h_infos h = h_infos (x_h x) -> xok (with_h x h).
Proof.
  intros [H O W R SW SR] Hh E. constructor; auto. unfold has_info in *. cbn. congruence.
Qed.
Lemma tf_warning m : tf (warning m).
Proof. intros x Hx. apply tf_with_h; auto. apply hok_report, ok_h, Hx. Qed.
Lemma tf_terminate : tf terminate.
Proof. intros x []. constructor; auto. Qed.
Lemma tf_pc f : tf (fun x => with_pc x (f x)).
Proof. intros x []. constructor; auto. Qed.
Lemma xok_stack p x k : xok x -> kok k -> xok (set_stack p x k).
Proof. intros [] Hk. destruct p as [[] []]; constructor; auto. Qed.
Lemma xok_get p x : xok x -> kok (get_stack p x).
Proof. intros []. destruct p as [[] []]; auto. Qed.

Lemma put_vok f i v : (forall j, vok (f j)) -> vok v -> forall j, vok (put_at f i v j).
Proof. intros H Hv j. unfold put_at. destruct (j =? i); auto. Qed.
Lemma vok_v0 : vok v0.
Proof. intros H. discriminate H. Qed.
Lemma vok_lo v : v_lo v = false -> vok v.
Proof. intros H _. exact H. Qed.
Lemma u8_byte n : is_byte (u8 n).
Proof. unfold is_byte, u8. lia. Qed.

Lemma xok_alloc x v : xok x -> vok v -> xok (snd (alloc_node x v)).
Proof.
  intros [[N S K L] O W R SW SR] Hv. unfold alloc_node.
  destruct (h_pool (x_h x)); cbn; constructor; cbn; auto; constructor; cbn; auto; apply put_vok; auto.
Qed.
Lemma get_alloc p x v : get_stack p (snd (alloc_node x v)) = get_stack p x.
Proof. unfold alloc_node. destruct (h_pool (x_h x)), p as [[] []]; reflexivity. Qed.

Lemma top_vok k v : kok k -> top_of k = COk v -> vok v.
Proof.
  intros (_ & _ & H) E. unfold top_of in E. destruct (k_len k =? 0); [discriminate|]. inversion E; subst. apply H.
Qed.
Lemma tr_pop_byte p : tr (pop_byte p) (fun v => v_short v = false).
Proof.
  intros x v x' Hx H. unfold pop_byte in H. pose proof (xok_get p x Hx) as K.
  destruct (k_size (get_stack p x) <? 1); [inj H; split; [apply tf_error, Hx|reflexivity]|].
  destruct (top_of _) as [top|] eqn:E; [|discriminate].
  pose proof (top_vok _ _ K E) as V. destruct K as (K1 & K2 & K3).
  destruct (v_short top) eqn:S.
  - pose proof (xok_alloc x top Hx V) as X. destruct (alloc_node x top) as [n y]. cbn in X.
    inj H. split; [|reflexivity]. apply xok_stack; [exact X|].
    split; [exact K1|split; [apply u8_byte|]]. cbn. apply put_vok; auto. apply vok_lo. reflexivity.
  - inj H. split; [|assumption]. apply xok_stack; [assumption|].
    split; [|split; [apply u8_byte|exact K3]]. unfold top_of in E.
    destruct (k_len _ =? 0) eqn:E0; [discriminate|]. cbn. unfold is_byte in *. lia.
Qed.
Lemma tr_pop_from p two : tr (pop_from p two) vok.
Proof.
  unfold pop_from. destruct two.
  2: { eapply tr_weaken; [apply tr_pop_byte|]. intros v H. unfold vok. congruence. }
  intros x v x' Hx H. unfold pop_short in H. pose proof (xok_get p x Hx) as K.
  destruct (k_size (get_stack p x) <? 2); [inj H; split; [apply tf_error, Hx|apply vok_v0]|].
  destruct (top_of _) as [top|] eqn:E; [|discriminate].
  pose proof (top_vok _ _ K E) as V. destruct K as (K1 & K2 & K3).
  destruct (v_short top) eqn:S.
  - inj H. split; [|assumption]. apply xok_stack; [assumption|].
    split; [|split; [apply u8_byte|exact K3]]. unfold top_of in E.
    destruct (k_len _ =? 0) eqn:E0; [discriminate|]. cbn. unfold is_byte in *. lia.
  - destruct (k_len _ <? 2); [discriminate|].
    destruct (pop_byte p x) as [[lo y]|] eqn:E1; [|discriminate].
    destruct (pop_byte p y) as [[hi z]|] eqn:E2; [|discriminate].
    inj H. apply tr_pop_byte in E1; auto. destruct E1 as [E1 _].
    apply tr_pop_byte in E2; auto. destruct E2 as [E2 _]. split; auto. apply vok_lo. reflexivity.
Qed.
(** The size of what is popped is what was asked for, if nothing went wrong. *)
Lemma pop_from_short p two x v x' : pop_from p two x = COk (v, x') -> x_term x = false ->
  x_term x' = false -> v_short v = two.
Proof.
  unfold pop_from. intros H T0 T. destruct two.
  - unfold pop_short in H. destruct (_ <? 2); [inj H; discriminate T|].
    destruct (top_of _) as [top|]; [|discriminate].
    destruct (v_short top) eqn:S; [inj H; exact S|].
    destruct (_ <? 2); [discriminate|].
    destruct (pop_byte p x) as [[lo y]|] eqn:E1; [|discriminate].
    destruct (pop_byte p y) as [[hi z]|] eqn:E2; [|discriminate].
    inj H. reflexivity.
  - unfold pop_byte in H. destruct (_ <? 1); [inj H; reflexivity|].
    destruct (top_of _) as [top|]; [|discriminate].
    destruct (v_short top) eqn:S; [|inj H; exact S].
    destruct (alloc_node x top). inj H. reflexivity.
Qed.
Lemma tr_pop_ex two r : tr (pop_ex two r) vok.
Proof.
  intros x v x' Hx H. unfold pop_ex in H. destruct (x_term x); [inj H; split; [auto|apply vok_v0]|].
  eapply tr_pop_from; eauto.
Qed.
Lemma tr_cpop : tr cpop vok.
Proof. intros x v x' Hx H. eapply tr_pop_ex; eauto. Qed.
Lemma kok_push node k v : (forall n, vok (node n)) -> kok k -> vok v -> kok (push_value node k v).
Proof.
  intros N (K1 & K2 & K3) V. unfold push_value. destruct (rejoins _ _).
  - split; [exact K1|split; [apply u8_byte|]]. apply put_vok; auto.
  - split; [apply u8_byte|split; [apply u8_byte|]]. apply put_vok; auto.
Qed.
Lemma tr_push_ex r v : vok v -> tr (push_ex r v) any.
Proof.
  intros V x u x' Hx H. split; [|exact I]. unfold push_ex in H. destruct (x_term x); [inj H; auto|].
  destruct (256 <? _); inj H; [apply tf_error, Hx|].
  apply xok_stack; auto. apply kok_push; auto using xok_get. apply ok_nodes, ok_h, Hx.
Qed.
Lemma tr_cpush v : vok v -> tr (cpush v) any.
Proof. intros V x u x' Hx H. eapply tr_push_ex; eauto. Qed.
Lemma kok_raw k v : kok k -> vok v -> kok (raw_push k v).
Proof.
  intros (K1 & K2 & K3) V. split; [apply u8_byte|split; [apply u8_byte|]]. apply put_vok; auto.
Qed.
Lemma tr_fork f :
  (forall e, kok (e_wst e) -> kok (e_rst e) -> kok (e_wst (f e)) /\ kok (e_rst (f e)) /\ e_info (f e) = e_info e) ->
  tr (fork f) any.
Proof.
  intros Hf. apply tr_act. intros x Hx. apply tf_with_h; auto.
  destruct Hx as [[N S K L] O W R SW SR]. constructor; cbn; auto.
  constructor; [|exact L].
  destruct (Hf (mkEntry (x_info x) (x_w x) (x_r x) (x_pc x)) W R) as (F1 & F2 & F3).
  split; [exact F1|split; [exact F2|]]. rewrite F3. exact O.
Qed.

Create HintDb trdb.
Lemma tr_err m : tr (err m) any.
Proof. apply tr_act, tf_error. Qed.
Lemma tr_warn m : tr (warn m) any.
Proof. apply tr_act, tf_warning. Qed.
Lemma tr_err_if b m : tr (err_if b m) any.
Proof. apply tr_if; [apply tr_err|apply tr_ret; exact I]. Qed.
Lemma tr_warn_if b m : tr (warn_if b m) any.
Proof. apply tr_if; [apply tr_warn|apply tr_ret; exact I]. Qed.
Lemma tr_rett {A} (a : A) : tr (cret a) any.
Proof. apply tr_ret. exact I. Qed.
#[export] Hint Opaque tr vok : trdb.
#[export] Hint Resolve tr_rett tr_get tr_pop_from tr_pop_ex tr_cpop tr_push_ex tr_cpush tr_err tr_warn tr_err_if tr_warn_if
  tf_own_term tf_terminate tf_pc tf_error tf_warning tr_act vok_v0 vok_lo : trdb.
Ltac tr_tac := repeat first
  [ progress intros
  | lazymatch goal with
    | |- tr (cbind _ _) _ => eapply tr_bind
    | |- tr (if _ then _ else _) _ => apply tr_if
    | |- tr (act _) _ => apply tr_act; solve [auto with trdb]
    | |- _ => solve [eauto 3 with trdb]
    end ].

Lemma tr_check_value out v a : tr (check_value out v a) any.
Proof. unfold check_value. tr_tac. Qed.
#[export] Hint Resolve tr_check_value : trdb.
Lemma tr_check_values out r l : tr (check_values out r l) any.
Proof. induction l; cbn [check_values]; tr_tac. Qed.
#[export] Hint Resolve tr_check_values : trdb.
Lemma tr_check_stack out r l : tr (check_stack out r l) any.
Proof.
  intros x a x' Hx H. unfold check_stack in H.
  set (y := if (if out then k_size (get_stack (Stk false r) x) =? sig_size l else sig_size l <=? k_size (get_stack (Stk false r) x)) then x else error CSizeMismatch x) in H.
  assert (G : xok y) by (unfold y; destruct (if out then _ else _); [auto|apply tf_error, Hx]).
  destruct (x_term y); [inj H; split; [exact G|exact I]|].
  eapply tr_check_values; eauto.
Qed.
#[export] Hint Resolve tr_check_stack : trdb.
Lemma tr_check_return : tr check_return any.
Proof. unfold check_return. intros x a x' Hx H. revert H. eapply tr_bind; eauto with trdb. Qed.
#[export] Hint Resolve tr_check_return : trdb.
Lemma tr_BRK : tr op_BRK any.
Proof. unfold op_BRK. tr_tac. Qed.
Lemma tr_boolean op : tr (boolean_op op) any.
Proof.
  unfold boolean_op. tr_tac. apply tr_fork. intros e K1 K2. destruct a1; cbn; split; auto; split; auto;
  apply kok_raw; auto; apply vok_lo; reflexivity.
Qed.
Lemma tr_abs_jmp a : tr (abs_jmp a) any.
Proof. unfold abs_jmp. tr_tac. Qed.
Lemma declared_vok v : declared v -> vok v.
Proof. intros (_ & H & _). apply vok_lo, H. Qed.
Lemma tr_push_all r l : Forall declared l -> tr (push_all r l) any.
Proof. induction 1; cbn [push_all]; tr_tac. apply tr_push_ex, declared_vok; auto. Qed.
#[export] Hint Resolve tr_BRK tr_boolean tr_abs_jmp tr_push_all : trdb.
Lemma tf_own_term' f : tf (fun x => set_own_term x (f x)).
Proof. intros x Hx. apply (tf_own_term (f x) x Hx). Qed.
#[export] Hint Resolve tf_own_term' : trdb.
Lemma tr_short_circuit key sig : sig_declared sig -> tr (short_circuit key sig) any.
Proof. intros (D1 & D2 & D3 & D4). unfold short_circuit. tr_tac. Qed.
#[export] Hint Resolve tr_short_circuit : trdb.
Lemma tr_if_term {A} (a : A) (m : C A) (Q : A -> Prop) : Q a -> tr m Q -> tr (fun x => if x_term x then COk (a, x) else m x) Q.
Proof. intros Ha H x b x' Hx E. destruct (x_term x); [inj E; auto|eauto]. Qed.
Lemma tr_fn {A} (f : ctx -> C A) (Q : A -> Prop) : (forall x, tr (f x) Q) -> tr (fun x => f x x) Q.
Proof. intros H x a x' Hx E. eapply H; eauto. Qed.
Lemma tr_cjump a : tr (cjump a) any.
Proof.
  unfold cjump. apply tr_if_term; [exact I|]. apply (tr_fn (fun x0 => cbind _ _)). intros x0.
  eapply tr_bind.
  - tr_tac.
  - intros _ _. apply tr_if_term; [exact I|]. intros x u x' Hx H.
    destruct (h_infos (x_h x) (x_pc x)) as [[[] [sig|] ? ? ?]|] eqn:E.
    1: { eapply tr_short_circuit; eauto. eapply (ok_sigs _ (ok_h _ Hx)); eauto. }
    all: split; [|exact I]; destruct (h_jumps _ _); inj H;
      [apply tf_terminate, tf_with_h; auto; apply hok_report, ok_h, Hx
      |apply tf_with_h; auto; destruct (ok_h _ Hx); constructor; auto].
Qed.
#[export] Hint Resolve tr_cjump : trdb.
Lemma tr_jump_stash a r : tr (jump_stash a r) any.
Proof. unfold jump_stash. tr_tac. Qed.
Lemma tr_jump_conditional c a : tr (jump_conditional c a) any.
Proof. unfold jump_conditional. tr_tac. apply tr_fork. auto. Qed.
#[export] Hint Resolve tr_jump_stash tr_jump_conditional : trdb.
Lemma vok_set_short b v : v_lo v = false -> vok (set_short b v).
Proof. intros H. apply vok_lo. exact H. Qed.
Lemma tr_cload a : tr (cload a) any.
Proof.
  unfold cload. apply tr_if_term; [exact I|]. eapply tr_bind; [eauto with trdb|]. intros _ _.
  eapply (tr_bind _ _ (fun v => v_lo v = false)).
  - apply tr_if; [|apply tr_ret; reflexivity].
    intros x v x' Hx H. destruct (h_infos (x_h x) (v_val a)); [inj H; auto|].
    revert H. revert Hx. revert x v x'. 
    enough (T : forall b, tr (warn_if b WLoadCode ;;; cret v0) (fun v => v_lo v = false)) by (intros; eapply T; eauto).
    intros b. eapply tr_bind; [eauto with trdb|]. intros; apply tr_ret; reflexivity.
  - tr_tac.
Qed.
Lemma tr_cstore a : tr (cstore a) any.
Proof.
  unfold cstore. apply tr_if_term; [exact I|]. tr_tac.
  intros x v x' Hx HH. destruct (h_infos (x_h x) (v_val a)); [inj HH; split; [auto|exact I]|].
  revert HH. apply tr_warn_if; auto.
Qed.
Lemma tr_report_deo a v : tr (report_deo a v) any.
Proof.
  apply tr_act. intros x Hx. cbv beta.
  destruct (v_const a && v_const v); [|auto].
  destruct (v_short v).
  - apply tf_with_h; [|do 2 apply hok_report; apply ok_h, Hx|reflexivity].
    apply tf_with_h; [assumption|apply hok_report, ok_h, Hx|reflexivity].
  - apply tf_with_h; [assumption|apply hok_report, ok_h, Hx|reflexivity].
Qed.
#[export] Hint Resolve tr_cload tr_cstore tr_report_deo : trdb.
Lemma tr_bin_op b op : tr (bin_op b op) any.
Proof.
  unfold bin_op. tr_tac.
  intros x n x' Hx HH. destruct (op _ _); [|discriminate]. inj HH. split; [auto|exact I].
Qed.
#[export] Hint Resolve tr_bin_op : trdb.
Lemma tr_poly b : tr (poly b) any.
Proof. destruct b; unfold poly; tr_tac. Qed.
Lemma tr_get_rom a : tr (get_rom a) any.
Proof. intros x n x' Hx H. unfold get_rom in H. destruct (a <? 256); [discriminate|]. inj H. split; [auto|exact I]. Qed.
Lemma tr_next_pc : tr next_pc any.
Proof.
  intros x n x' Hx H. unfold next_pc in H. inj H. split; [|exact I].
  apply (tf_pc (fun x => u16 (x_pc x + 1))). exact Hx.
Qed.
#[export] Hint Resolve tr_poly tr_get_rom tr_next_pc : trdb.
Lemma tr_jump_target : tr jump_target any.
Proof. unfold jump_target. tr_tac. Qed.
Lemma tr_lit_byte a s : tr (make_lit_byte a s) vok.
Proof.
  unfold make_lit_byte. destruct s; [|tr_tac; apply tr_ret, vok_v0].
  tr_tac. destruct (y_type c); apply tr_ret; try (apply vok_lo; reflexivity).
  destruct (_ <=? _); apply vok_lo; reflexivity.
Qed.
Lemma tr_lit_short a b s : tr (lit_short a b s) any.
Proof. unfold lit_short. destruct s as [c|]; [destruct (y_type c)|]; tr_tac. Qed.
#[export] Hint Resolve tr_jump_target tr_lit_byte tr_lit_short : trdb.
Lemma vok_info i : vok (info_value i).
Proof. apply vok_lo. reflexivity. Qed.
#[export] Hint Resolve vok_info : trdb.
Lemma tr_LIT : tr op_LIT any.
Proof.
  unfold op_LIT. eapply tr_bind; [apply tr_get|]. intros two _. eapply tr_bind; [apply tr_get|]. intros a0 _.
  eapply tr_bind; [apply tr_get|]. intros a1 _. apply tr_if; (eapply tr_bind; [apply tr_next_pc|]; intros a2 _);
    [apply (tr_bind _ _ vok)|eapply tr_bind; [apply tr_next_pc|]; intros a3 _].
  - destruct (a1 a2); [apply tr_ret, vok_info|].
    destruct (a0 a2); [apply tr_lit_byte|apply tr_ret, vok_v0].
  - auto with trdb.
  - destruct (a1 a2); tr_tac; destruct (a1 a3); [|destruct (a0 a3)]; tr_tac.
Qed.
#[export] Hint Resolve tr_LIT : trdb.
Lemma tr_label l : tr (run_label l) any.
Proof. destruct l; cbn [run_label]; tr_tac. Qed.
#[export] Hint Resolve tr_label : trdb.

(** Casts: what is pushed has the sizes of what was popped. *)
Lemma tr_pop_inputs r l : tr (pop_inputs r l) (Forall vok).
Proof. induction l; cbn [pop_inputs]; tr_tac; apply tr_ret; auto. Qed.
Lemma pop_inputs_shorts r l : forall x i x', pop_inputs r l x = COk (i, x') -> x_term x = false -> x_term x' = false -> has_info x ->
  map v_short i = map v_short l.
Proof.
  induction l as [|v l IH]; cbn [pop_inputs]; intros x i x' H T T' Hi.
  - inj H. reflexivity.
  - unfold cbind in H. destruct (pop_from _ _ _) as [[a y]|] eqn:E1; [|discriminate].
    destruct (pop_inputs r l y) as [[t z]|] eqn:E2; [|discriminate]. inj H.
    pose proof (ok_pop_from _ _ _ _ _ Hi E1) as G1.
    pose proof (goes_has _ _ G1 Hi) as Hy.
    pose proof (ok_pop_inputs _ _ _ _ _ Hy E2) as G2.
    assert (Ty : x_term y = false).
    { destruct (x_term y) eqn:Ty; auto. rewrite (g_term _ _ G2 Ty) in T'. discriminate. }
    cbn. f_equal; [eapply pop_from_short; eauto|eapply IH; eauto].
Qed.
(** Whatever happened before, a cast only adds values that are no low halves of
    a short. *)
Lemma pop_byte_byte p x v x' : pop_byte p x = COk (v, x') -> v_short v = false.
Proof.
  unfold pop_byte. intros H. destruct (_ <? 1); [inj H; reflexivity|].
  destruct (top_of _) as [top|]; [|discriminate]. destruct (v_short top) eqn:S.
  - destruct (alloc_node _ _). inj H. reflexivity.
  - inj H. exact S.
Qed.
Definition fits (l i : list value) : Prop := Forall2 (fun v a => v_short v = true -> v_lo a = false) l i.
Lemma pop_from_fits p v x a x' : xok x -> pop_from p (v_short v) x = COk (a, x') -> v_short v = true -> v_lo a = false.
Proof.
  intros Hx H S. rewrite S in H. cbn [pop_from] in H. unfold pop_from, pop_short in H.
  destruct (_ <? 2); [inj H; reflexivity|].
  destruct (top_of _) as [top|] eqn:E; [|discriminate].
  destruct (v_short top) eqn:St.
  - inj H. eapply top_vok; eauto. apply xok_get, Hx.
  - destruct (_ <? 2); [discriminate|].
    destruct (pop_byte p x) as [[lo y]|] eqn:E1; [|discriminate].
    destruct (pop_byte p y) as [[hi z]|] eqn:E2; [|discriminate]. inj H. reflexivity.
Qed.
Lemma tr_pop_fits r l : tr (pop_inputs r l) (fits l).
Proof.
  induction l as [|v l IH]; cbn [pop_inputs].
  - apply tr_ret. constructor.
  - intros x i x' Hx H. unfold cbind in H. destruct (pop_from _ _ _) as [[a y]|] eqn:E1; [|discriminate].
    destruct (pop_inputs r l y) as [[t z]|] eqn:E2; [|discriminate]. inj H.
    destruct (tr_pop_from _ _ _ _ _ Hx E1) as [Hy _]. destruct (IH _ _ _ Hy E2) as [Hz F].
    split; [exact Hz|]. constructor; [eapply pop_from_fits; [exact Hx|exact E1]|exact F].
Qed.
Lemma fits_rev l i : fits l i -> fits (rev l) (rev i).
Proof.
  unfold fits. induction 1; cbn; [constructor|]. apply Forall2_app; auto.
Qed.
Lemma tr_push_outputs r l : forall i, Forall declared l -> fits l i -> tr (push_outputs r i l) any.
Proof.
  induction l as [|v l IH]; intros i D F; inversion F as [|? a ? i' S F']; subst; cbn [push_outputs]; [apply tr_rett|].
  inversion D as [|? ? D1 D2]; subst. eapply tr_bind; [|intros _ _; apply IH; auto].
  apply tr_act. intros x Hx. apply xok_stack; [exact Hx|]. apply kok_raw; [apply xok_get, Hx|].
  unfold vok. cbn. destruct D1 as (_ & -> & _). exact S.
Qed.
Lemma tr_apply_cast r l : Forall declared l -> tr (apply_cast r l) any.
Proof.
  intros D. unfold apply_cast. tr_tac; [apply tr_pop_fits|].
  apply tr_push_outputs; [exact D|]. replace l with (rev (rev l)) by apply rev_involutive. apply fits_rev. assumption.
Qed.

Lemma xok_fetch op x : xok x -> xok (fetch_op op x).
Proof. intros []. constructor; auto. Qed.
Lemma tr_exec_op : tr exec_op any.
Proof.
  unfold exec_op. intros x u x' Hx H. revert H. 
  set (pc := x_pc x). set (casts := h_casts (x_h x)).
  assert (HC : forall a c, casts a = Some c -> Forall declared (c_wst c) /\ Forall declared (c_rst c)) by (apply ok_casts, ok_h, Hx).
  intros H. unfold cbind at 1 in H. unfold get_rom in H. destruct (pc <? 256); [discriminate|].
  destruct (is_code _); [|inj H; split; [apply tf_error, Hx|exact I]].
  revert H. fold casts.
  unfold cbind at 1, act. intros H. revert H. generalize (xok_fetch (h_rom (x_h x) pc) x Hx). clear Hx.
  generalize (fetch_op (h_rom (x_h x) pc) x). intros y Hy.
  revert y u x' Hy.
  change (tr (cbind (match dispatch (h_rom (x_h x) pc) with Some l => run_label l | None => cret tt end)
    (fun _ => match casts pc with Some c => apply_cast false (c_wst c) ;;; apply_cast true (c_rst c) | None => cret tt end)) any).
  eapply tr_bind; [destruct (dispatch _); eauto with trdb|]. intros _ _.
  destruct (casts pc) eqn:E; [|apply tr_rett]. destruct (HC _ _ E). eapply tr_bind; [apply tr_apply_cast; auto|].
  intros _ _. apply tr_apply_cast; auto.
Qed.
Lemma tr_exec_round : tr exec_round any.
Proof.
  intros x u x' Hx H. unfold exec_round in H.
  destruct (negb (x_inner x) && (x_pc x <? 256)); [inj H; split; [apply tf_error, Hx|exact I]|].
  destruct (h_infos (x_h x) (x_pc x)) as [[[] [sig|] ? ? ?]|] eqn:E; try (eapply tr_exec_op; eassumption).
  destruct (x_pc x =? x_info x); [eapply tr_exec_op; eassumption|].
  eapply tr_short_circuit; [|exact (ltac:(destruct Hx; constructor; auto) : xok (with_inner x true))|exact H].
  eapply (ok_sigs _ (ok_h _ Hx)); eauto.
Qed.

(** ** Every state of an analysis is well formed *)
Definition cok (c : config) : Prop :=
  match c with
  | Idle h | Finished h => hok h
  | Running x => xok x
  | Broken _ => True
  end.
Lemma kok_empty : kok empty_stack.
Proof. split; [|split]; [unfold is_byte; cbn; lia|unfold is_byte; cbn; lia|intros i; apply vok_v0]. Qed.
Lemma cok_begin h e l : hok h -> h_list h = e :: l -> cok (begin_entry (h_with_list h l) e).
Proof.
  intros H E. destruct H as [N S K L]. rewrite E in L. inversion L as [|? ? (L1 & L2 & L3) L4]; subst.
  assert (X : xok (mkCtx (h_with_list h l) (e_info e) (e_wst e) (e_rst e) empty_stack empty_stack [] (e_address e) 0 false false false)).
  { constructor; cbn; auto using kok_empty. constructor; auto. }
  unfold begin_entry. destruct (h_syms _ _); cbn [cok]; [exact X|].
  apply (ok_h _ (tf_error CNonOpcode _ X)).
Qed.
Lemma cok_step c : cok c -> cok (cstep c).
Proof.
  destruct c as [h|x|h|f]; cbn [cstep cok]; auto.
  - intros H. destruct (h_list h) eqn:E; [exact H|]. apply cok_begin; auto.
  - intros H. destruct (x_term x).
    + cbn. destruct H as [[N S K L] O W R SW SR]. constructor; auto.
    + destruct (exec_round x) as [[u y]|] eqn:E; [|exact I]. eapply tr_exec_round; eauto.
Qed.
Lemma cok_steps n : forall c, cok c -> cok (csteps n c).
Proof. induction n; cbn [csteps]; auto using cok_step. Qed.

Lemma kok_fold l k : Forall declared l -> kok k -> kok (fold_left raw_push l k).
Proof.
  intros D. revert k. induction D; cbn; auto. intros k Hk. apply IHD, kok_raw; auto using declared_vok.
Qed.
Lemma hok_mark h a sig : hok h -> sig_declared sig -> h_infos h a <> None -> hok (mark_routine h a sig).
Proof.
  intros H D A. unfold mark_routine. destruct (h_infos h a) as [i|] eqn:E; [|congruence].
  eapply (hok_infos (h_with_list h (entry_of a sig :: h_list h))); [| | |reflexivity].
  - destruct H as [N S K L]. constructor; auto. cbn. constructor; [|exact L].
    destruct D as (D1 & D2 & D3 & D4). split; [apply kok_fold; auto using kok_empty|].
    split; [|cbn; congruence]. apply kok_fold; auto. destruct (is_sub _); [apply kok_raw|]; auto using kok_empty.
    apply vok_lo. reflexivity.
  - cbn. intros s Es. eapply ok_sigs; eauto.
  - cbn. congruence.
Qed.
Lemma hok_ensure h a : hok h -> hok (ensure_info h a).
Proof.
  intros H. unfold ensure_info. destruct (h_infos h a) eqn:E; auto.
  destruct H as [N S K L]. constructor; cbn; auto.
  - intros b i s. unfold upd_info. destruct (b =? a); [|apply S]. intros X. inversion X. subst. discriminate.
  - eapply Forall_impl; [|exact L]. cbn. intros e (H1 & H2 & H3). split; [auto|split; [auto|]].
    apply upd_has, H3.
Qed.
Lemma ensure_has h a : h_infos (ensure_info h a) a <> None.
Proof.
  unfold ensure_info. destruct (h_infos h a) eqn:E; [congruence|]. cbn. unfold upd_info.
  rewrite Z.eqb_refl. discriminate.
Qed.
Lemma hok_reset h : hok h -> hok (add_reset h).
Proof.
  intros H. unfold add_reset. pose proof (hok_ensure h 256 H) as H'. pose proof (ensure_has h 256) as A.
  destruct (h_infos (ensure_info h 256) 256) as [[b [s|] m t e]|] eqn:E; auto.
  assert (D : sig_declared reset_sig) by (repeat split; constructor).
  apply hok_mark; auto.
  - eapply hok_infos; [exact H'| | |reflexivity]; [|congruence]. cbn. intros s X. inversion X; subst. exact D.
  - cbn. unfold upd_info. cbn. discriminate.
Qed.

(** ** The reader *)
Lemma declared_parse name : declared (parse_value name).
Proof. repeat split. Qed.
Record zok (z : reader) : Prop := {
  zk_h : hok (z_h z);
  zk_sig : sig_declared (z_sig z);
  zk_cast : Forall declared (c_wst (z_cast z)) /\ Forall declared (c_rst (z_cast z));
  zk_cur : forall t a, z_cur z = Some (t, a) -> t = SLabel -> h_infos (z_h z) a <> None;
  zk_hand : z_hand z = HSig1 \/ z_hand z = HSig2 -> forall t a, z_cur z = Some (t, a) -> t = SLabel
}.
Lemma zok_give m z : zok z -> zok (give_up m z).
Proof. intros []. constructor; auto; [apply hok_report; auto|]. cbn. intros [X|X]; discriminate X. Qed.
Lemma zok_none z : zok z -> zok (z_with_hand z HNone).
Proof. intros []. constructor; auto. cbn. intros [X|X]; discriminate X. Qed.
Lemma zok_hand z d : zok z -> (d = HSig1 \/ d = HSig2 -> forall t a, z_cur z = Some (t, a) -> t = SLabel) -> zok (z_with_hand z d).
Proof. intros [] H. constructor; auto. Qed.
Lemma zok_state z p b : zok z -> zok (z_with_state z p b).
Proof. intros []. constructor; auto. Qed.
Lemma zok_tokens z l : zok z -> zok (z_with_tokens z l).
Proof. intros []. constructor; auto. Qed.
Lemma zok_sig z s : zok z -> sig_declared s -> zok (z_with_sig z s).
Proof. intros [] D. constructor; auto. Qed.
Lemma zok_bad z b : zok z -> zok (z_with_bad z b).
Proof. intros []. constructor; auto. Qed.
Lemma zok_cast z c : zok z -> Forall declared (c_wst c) /\ Forall declared (c_rst c) -> zok (z_with_cast z c).
Proof. intros [] D. constructor; auto. Qed.
Lemma forall_snoc l name : Forall declared l -> Forall declared (l ++ [parse_value name]).
Proof. intros H. apply Forall_app. split; auto. constructor; auto. apply declared_parse. Qed.
Lemma zok_sig_arg z name : zok z -> zok (sig_arg z name).
Proof.
  intros H. unfold sig_arg.
  destruct (Nat.ltb _ _); [|apply zok_give, H].
  apply zok_sig; [apply zok_bad, H|]. destruct (zk_sig _ H) as (D1 & D2 & D3 & D4).
  destruct (z_state z); (split; [|split; [|split]]); cbn; auto using forall_snoc.
Qed.
Lemma zok_sig_token z name : zok z -> zok (sig_token z name).
Proof.
  intros H0. unfold sig_token. set (y := if z_sealed z then give_up WSealed z else z).
  assert (H : zok y) by (unfold y; destruct (z_sealed z); auto using zok_give). clearbody y. clear H0.
  assert (A : forall t, zok (match z_state y with
    | PWstIn | PRstIn =>
        z_with_state (z_with_sig y (mkSig (g_win (z_sig y)) (g_rin (z_sig y)) (g_wout (z_sig y)) (g_rout (z_sig y)) t)) PWstOut (z_sealed y)
    | _ => give_up WToken y
    end)).
  { intros t. destruct (z_state y); try (apply zok_give, H); apply zok_state, zok_sig; auto; exact (zk_sig _ H). }
  destruct (AsmModel.str_eqb name _); [destruct (z_state y); auto using zok_give, zok_state|].
  destruct (is_bang name); [apply zok_state, H|].
  destruct (AsmModel.str_eqb name _); [apply A|].
  destruct (AsmModel.str_eqb name _); [apply A|apply zok_sig_arg, H].
Qed.
Lemma zok_sig_end z : zok z -> (forall t a, z_cur z = Some (t, a) -> t = SLabel) -> zok (sig_end z).
Proof.
  intros H T. unfold sig_end. destruct (z_cur z) as [[t a]|] eqn:E; auto.
  pose proof (T _ _ eq_refl) as ->.
  pose proof (zk_cur _ H _ _ E eq_refl) as I. destruct (h_infos (z_h z) a) as [i|] eqn:EI; [|congruence].
  destruct (i_rout i).
  - destruct H. constructor; auto. apply hok_report; auto.
  - assert (K : hok (h_with_infos (z_h z) (upd_info (h_infos (z_h z)) a
             (mkInfo true (Some (z_sig z)) (i_marked i) (i_term i) (i_err i))))).
    { eapply hok_infos; [apply H| | |reflexivity]; [|congruence]. cbn. intros s X. inversion X; subst. apply H. }
    destruct H as [H D1 D2 D3 D4].
    constructor; cbn; auto.
    + destruct (z_sealed z); auto. apply hok_mark; auto. cbn. unfold upd_info. rewrite Z.eqb_refl. discriminate.
    + intros t b Eb Et. pose proof (D3 _ _ Eb Et) as X.
      destruct (z_sealed z); cbn; repeat apply upd_has; exact X.
Qed.
Lemma zok_cast_arg z name : zok z -> zok (cast_arg z name).
Proof.
  intros H. unfold cast_arg. pose proof (zk_cast _ H) as [D1 D2].
  destruct (z_state z); (destruct (Nat.ltb _ _); [|try apply zok_give; try apply zok_none; exact H]);
    (apply zok_cast; [apply zok_bad; try apply zok_none; exact H|]); cbn; destruct (z_state z); cbn; auto using forall_snoc.
Qed.
Lemma zok_cast_token z name : zok z -> zok (cast_token z name).
Proof.
  intros H0. unfold cast_token. set (y := if z_sealed z then give_up WSealed z else z).
  assert (H : zok y) by (unfold y; destruct (z_sealed z); auto using zok_give). clearbody y.
  destruct (AsmModel.str_eqb name _); [destruct (z_state y); auto using zok_give, zok_state|].
  destruct (is_bang name); [apply zok_state, H|].
  destruct (is_arrow name); [apply zok_give, H|apply zok_cast_arg, H].
Qed.
Lemma zok_cast_end z : zok z -> zok (cast_end z).
Proof.
  intros H. unfold cast_end. destruct (z_cur z) as [[t a]|] eqn:E; auto.
  destruct (h_casts (z_h z) a) eqn:EC.
  - destruct H. constructor; auto. apply hok_report; auto.
  - destruct H as [H D1 D2 D3 D4]. constructor; auto. destruct H as [N S K L]. constructor; auto. cbn.
    intros b c. destruct (b =? a); [|apply K]. intros X. inversion X; subst. exact D2.
Qed.
Lemma zok_replay f l : (forall z t, zok z -> zok (f z t)) -> forall z, zok z -> zok (replay f l z).
Proof.
  intros Hf. induction l as [|t l IH]; cbn [replay]; auto. intros z H. destruct (z_hand z); auto.
Qed.
Lemma zok_parse z name b d f : (forall z t, zok z -> zok (f z t)) -> zok z ->
  (d = HSig1 \/ d = HSig2 -> forall t a, z_cur z = Some (t, a) -> t = SLabel) -> zok (parse_first z name b d f).
Proof.
  intros Hf H Hd. unfold parse_first. destruct b.
  - set (y := replay _ _ _). assert (zok y) by (apply zok_replay; [exact Hf|apply zok_hand; [apply zok_state, H|exact Hd]]).
    destruct (z_hand y); auto.
  - destruct (Nat.ltb _ _); [destruct (_ <? _)|]; auto using zok_none, zok_tokens.
Qed.
Lemma zok_anno z name : zok z -> zok (anno_token z name).
Proof.
  intros H. unfold anno_token. destruct (z_hand z) eqn:Eh; auto using zok_sig_token, zok_cast_token.
  - apply zok_parse; [apply zok_sig_token| |].
    + destruct (is_arrow name); auto. apply zok_sig; auto. repeat split; constructor.
    + intros _. destruct (is_arrow name); apply (zk_hand _ H); auto.
  - apply zok_parse; [apply zok_cast_token| |].
    + destruct (is_bang name); auto. apply zok_cast; auto. repeat split; constructor.
    + intros [X|X]; discriminate X.
Qed.
Lemma zok_end z : zok z -> zok (anno_end z).
Proof.
  intros H. unfold anno_end. destruct (z_hand z) eqn:E; auto; [|apply zok_cast_end, H].
  apply zok_sig_end; auto. apply (zk_hand _ H). auto.
Qed.
Lemma zok_comment z id name : zok z -> zok (read_comment z id name).
Proof.
  intros H. unfold read_comment. destruct (id =? 0).
  - destruct name as [|c [|]]; auto. destruct (z_cur z) as [[t a]|] eqn:E; auto.
    destruct t; auto using zok_tokens; apply zok_hand; auto using zok_tokens; cbn; rewrite E; intros X u b Y; inversion Y; subst; auto;
      destruct X as [X|X]; discriminate X.
  - destruct ((id =? 1) && _); [apply zok_none, zok_end, H|].
    destruct (id =? 1); [apply zok_anno, H|apply zok_none, H].
Qed.
Lemma zok_byte z addr s : zok z -> zok (read_byte z addr s).
Proof.
  intros H. unfold read_byte. destruct (match z_last z with Some y => _ | None => _ end) as [y ids].
  destruct H as [H D1 D2 D3 D4]. constructor; auto. destruct H. constructor; auto.
Qed.
Lemma zok_symbol z addr s z' : zok z -> read_symbol z addr s = Some z' -> zok z'.
Proof.
  intros H E. unfold read_symbol in E. destruct (s_type s) eqn:Et.
  all: lazymatch type of Et with
  | _ = SComment => destruct (s_name s) as [[|c n]|]; inversion E; subst; apply zok_comment, H
  | _ = SLabel => destruct (s_gen s); inversion E; subst; auto;
      destruct H as [H D1 D2 D3 D4]; constructor; cbn; auto using hok_ensure;
      [intros t a X _; inversion X; subst; apply ensure_has|intros [X|X]; discriminate X]
  | _ = SOpcode => destruct (addr <? 256); [discriminate|]; inversion E; subst; apply zok_byte;
      destruct H as [H D1 D2 D3 D4]; constructor; cbn; auto;
      [intros t a X Y; inversion X; subst; discriminate|intros [X|X]; discriminate X]
  | _ = SMacro => inversion E; subst; destruct H as [H D1 D2 D3 D4]; constructor; auto; cbn; intros; discriminate
  | _ => try (destruct (addr <? 256); [discriminate|]); inversion E; subst; auto using zok_byte
  end.
Qed.
Lemma zok_symbols evs : forall z z', zok z -> read_symbols z evs = Some z' -> zok z'.
Proof.
  induction evs as [|[] evs IH]; cbn [read_symbols]; intros z z' H E; eauto.
  - inversion E; subst; auto.
  - destruct (read_symbol z _ _) as [y|] eqn:Ey; [|discriminate]. destruct (z_bad y); [discriminate|].
    eapply IH; [eapply zok_symbol|]; eauto.
Qed.
Lemma zok_reader0 rom : zok (reader0 rom).
Proof.
  constructor.
  - constructor; cbn; try (intros; discriminate); constructor.
  - repeat split; constructor.
  - repeat split; constructor.
  - cbn. intros; discriminate.
  - cbn. intros; discriminate.
Qed.

(** ** How the sizes change *)

Definition size_of (p : which) (x : ctx) : Z := k_size (get_stack p x).
Definition real (r : bool) : which := Stk false r.
Definition wbytes (two : bool) : Z := if two then 2 else 1.

(** The stack [p] loses [n] bytes, the others stay. *)
Definition popped (p : which) (n : Z) (x x' : ctx) : Prop :=
  n <= size_of p x /\ size_of p x' = u8 (size_of p x - n) /\
  (forall q, q <> p -> get_stack q x' = get_stack q x).

Lemma get_set p x k : get_stack p (set_stack p x k) = k.
Proof. destruct p as [[] []]; reflexivity. Qed.
Lemma get_set_other p q x k : q <> p -> get_stack q (set_stack p x k) = get_stack q x.
Proof. intros H. destruct p as [[] []], q as [[] []]; try reflexivity; congruence. Qed.
Lemma set_term p x k : x_term (set_stack p x k) = x_term x.
Proof. destruct p as [[] []]; reflexivity. Qed.
Lemma set_h p x k : x_h (set_stack p x k) = x_h x.
Proof. destruct p as [[] []]; reflexivity. Qed.
Lemma set_pc p x k : x_pc (set_stack p x k) = x_pc x.
Proof. destruct p as [[] []]; reflexivity. Qed.
Lemma set_op p x k : x_op (set_stack p x k) = x_op x.
Proof. destruct p as [[] []]; reflexivity. Qed.
Lemma alloc_same x v : let y := snd (alloc_node x v) in
  x_term y = x_term x /\ x_pc y = x_pc x /\ x_op y = x_op x /\ h_jumps (x_h y) = h_jumps (x_h x) /\ h_infos (x_h y) = h_infos (x_h x).
Proof. unfold alloc_node. destruct (h_pool (x_h x)); cbn; auto. Qed.

Lemma pop_byte_size p x v x' : pop_byte p x = COk (v, x') -> x_term x' = false ->
  popped p 1 x x' /\ x_pc x' = x_pc x /\ h_jumps (x_h x') = h_jumps (x_h x) /\ h_infos (x_h x') = h_infos (x_h x).
Proof.
  unfold pop_byte, popped, size_of. intros H T. destruct (_ <? 1) eqn:E; [inj H; discriminate T|].
  destruct (top_of _) as [top|]; [|discriminate]. destruct (v_short top).
  - pose proof (alloc_same x top) as A. pose proof (get_alloc) as G. destruct (alloc_node x top) as [n y] eqn:Ea. cbn in A.
    assert (G' : forall q, get_stack q y = get_stack q x) by (intros q; specialize (G q x top); rewrite Ea in G; exact G).
    destruct A as (A1 & A2 & A3 & A4 & A5).
    inj H. rewrite get_set, set_pc, set_h. cbn. split; [|auto]. split; [lia|split; [reflexivity|]].
    intros q Hq. rewrite get_set_other; auto.
  - inj H. rewrite get_set, set_pc, set_h. cbn. split; [|auto]. split; [lia|split; [reflexivity|]].
    intros q Hq. rewrite get_set_other; auto.
Qed.
Lemma pop_from_size p two x v x' : is_byte (size_of p x) -> pop_from p two x = COk (v, x') -> x_term x' = false ->
  has_info x ->
  popped p (wbytes two) x x' /\ x_pc x' = x_pc x /\ h_jumps (x_h x') = h_jumps (x_h x) /\ h_infos (x_h x') = h_infos (x_h x).
Proof.
  intros B. unfold pop_from. intros H T Hi. destruct two; [|apply pop_byte_size in H; auto].
  unfold pop_short in H. destruct (_ <? 2) eqn:E; [inj H; discriminate T|].
  destruct (top_of _) as [top|]; [|discriminate]. unfold popped, size_of in *. destruct (v_short top) eqn:S.
  - inj H. rewrite get_set, set_pc, set_h. cbn. split; [|auto]. split; [lia|split; [reflexivity|]].
    intros q Hq. rewrite get_set_other; auto.
  - destruct (k_len (get_stack p x) <? 2); [discriminate|].
    destruct (pop_byte p x) as [[lo y]|] eqn:E1; [|discriminate].
    destruct (pop_byte p y) as [[hi z]|] eqn:E2; [|discriminate]. inj H.
    assert (Ty : x_term y = false).
    { destruct (x_term y) eqn:Ty; auto. pose proof (ok_pop_byte _ _ _ _ Hi E1) as G1.
      pose proof (ok_pop_byte _ _ _ _ (goes_has _ _ G1 Hi) E2) as G2. rewrite (g_term _ _ G2 Ty) in T. discriminate. }
    apply pop_byte_size in E1 as ((P1 & P2 & P3) & Q1 & Q2 & Q3); auto.
    apply pop_byte_size in E2 as ((P4 & P5 & P6) & Q4 & Q5 & Q6); auto.
    unfold size_of, is_byte, u8 in *. cbn. split; [|split; [congruence|split; congruence]].
    split; [lia|]. split; [lia|]. intros q Hq. rewrite P6, P3; auto.
Qed.

Lemma pop_ex_size two r x v x' : xok x -> x_term x = false -> pop_ex two r x = COk (v, x') -> x_term x' = false ->
  popped (Stk (flag_k x) r) (wbytes two) x x' /\ x_pc x' = x_pc x /\ h_jumps (x_h x') = h_jumps (x_h x) /\ h_infos (x_h x') = h_infos (x_h x).
Proof.
  intros Hx T0 H T. unfold pop_ex in H. rewrite T0 in H.
  eapply pop_from_size; eauto using ok_own. apply (xok_get _ x Hx).
Qed.

(** The stack [p] gains [n] bytes. *)
Definition pushed (p : which) (n : Z) (x x' : ctx) : Prop :=
  size_of p x' = u8 (size_of p x + n) /\ (forall q, q <> p -> get_stack q x' = get_stack q x).
Lemma push_ex_size r v x u x' : vok v -> x_term x = false -> push_ex r v x = COk (u, x') -> x_term x' = false ->
  pushed (real r) (vsize v) x x' /\ x_pc x' = x_pc x /\ x_h x' = x_h x.
Proof.
  intros V T0 H T. unfold push_ex in H. rewrite T0 in H. destruct (256 <? _); [inj H; discriminate T|].
  inj H. rewrite set_pc, set_h. split; [|auto]. unfold pushed, size_of, real. rewrite get_set.
  split; [|intros; apply get_set_other; auto].
  unfold push_value. destruct (rejoins _ _) as [n|] eqn:E; [|reflexivity]. cbn.
  replace (vsize v) with 1; [reflexivity|]. unfold vsize. unfold rejoins in E.
  destruct (v_short v) eqn:S; auto. rewrite (V S) in E. discriminate.
Qed.
