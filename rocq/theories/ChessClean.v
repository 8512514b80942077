(** What the opcodes of the type checker do when no error is reported: the path
    goes on, and what is put aside has the size of what goes on. *)
From Verif Require Import Base VmModel AsmModel ChessModel ChessProofs ChessSize ChessDelta ChessJump ValueSpec VmProofs ChessValue ChessLock ChessSim ChessStep.
From Coq Require Import ZifyBool.
Open Scope list_scope.
Ltac Zify.zify_post_hook ::= Z.div_mod_to_equations.
Local Notation "x <- m ;; k" := (cbind m (fun x => k)) (at level 61, m at next level, right associativity).
Local Notation "m ;;; k" := (cbind m (fun _ => k)) (at level 61, right associativity).

(** ** No error, no end *)

Definition cl {A} (m : C A) : Prop := forall x a x', has_info x -> x_term x = false -> m x = COk (a, x') -> no_error x x' -> x_term x' = false.
Lemma cl_ret {A} (a : A) : cl (cret a).
Proof. intros x b x' Hi T E N. inj E. exact T. Qed.
Lemma cl_get {A} (f : ctx -> A) : cl (get f).
Proof. intros x b x' Hi T E N. inj E. exact T. Qed.
Lemma cl_bind {A B} (m : C A) (k : A -> C B) : ok_step m -> (forall a, ok_step (k a)) -> cl m -> (forall a, cl (k a)) -> cl (cbind m k).
Proof.
  intros Om Ok Hm Hk x b x' Hi T E N. unfold cbind in E. destruct (m x) as [[a y]|] eqn:E1; [|discriminate].
  pose proof (Om _ _ _ Hi E1) as G1. pose proof (goes_has _ _ G1 Hi) as Hy. pose proof (Ok _ _ _ _ Hy E) as G2.
  destruct (no_error_back _ _ _ G1 G2 N) as [N1 N2]. eapply Hk; eauto.
Qed.
Lemma cl_if {A} (b : bool) (m k : C A) : cl m -> cl k -> cl (if b then m else k).
Proof. destruct b; auto. Qed.
Lemma cl_act f : (forall x, x_term (f x) = x_term x) -> cl (act f).
Proof. intros H x b x' Hi T E N. inj E. rewrite H. exact T. Qed.
Lemma cl_pop_ex two r : cl (pop_ex two r).
Proof. intros x v x' Hi T E N. eapply pop_ex_clean; eauto. Qed.
Lemma cl_cpop : cl cpop.
Proof. intros x v x' Hi T E N. eapply pop_ex_clean; eauto. Qed.
Lemma cl_push_ex r v : cl (push_ex r v).
Proof.
  intros x u x' Hi T E N. unfold push_ex in E. rewrite T in E. destruct (256 <? _).
  - apply COk_inj in E as [_ <-]. exfalso. eapply error_bad, N.
  - apply COk_inj in E as [_ <-]. rewrite set_term. exact T.
Qed.
Lemma cl_cpush v : cl (cpush v).
Proof. intros x u x' Hi T E N. eapply cl_push_ex; eauto. Qed.
Lemma cl_warn m : cl (warn m).
Proof. apply cl_act. reflexivity. Qed.
Lemma cl_warn_if b m : cl (warn_if b m).
Proof. apply cl_if; [apply cl_warn|apply cl_ret]. Qed.
Lemma cl_fork f : cl (fork f).
Proof. apply cl_act. reflexivity. Qed.
Lemma cl_next_pc : cl next_pc.
Proof. intros x b x' Hi T E N. inj E. exact T. Qed.
Lemma cl_get_rom a : cl (get_rom a).
Proof. intros x b x' Hi T E N. unfold get_rom in E. destruct (_ <? _); [discriminate|]. inj E. exact T. Qed.
Lemma cl_compute f (b : bool) : cl (if b then fun x => match f with COk n => COk (u16 n, x) | CFault e => CFault e end else cret 0).
Proof. apply cl_if; [|apply cl_ret]. intros x a x' Hi T E N. destruct f; [|discriminate]. inj E. exact T. Qed.
Lemma cl_report a v : cl (report_deo a v).
Proof. apply cl_act. intros x. destruct (v_const a && v_const v); [destruct (v_short v)|]; reflexivity. Qed.
Lemma cl_lookup f g w : cl (fun x => match h_infos (x_h x) (f x) with
  | Some i => COk (g i, x) | None => (warn_if (is_code (h_syms (x_h x) (f x))) w ;;; cret v0) x end).
Proof.
  intros x v x' Hi T E N. destruct (h_infos _ _); [inj E; exact T|].
  revert E. unfold cbind, warn_if, warn, act, cret. destruct (is_code _); intros E; inj E; exact T.
Qed.
Lemma cl_cload a : cl (cload a).
Proof.
  intros x u x' Hi T E N. unfold cload in E. rewrite T in E. revert x u x' Hi T E N.
  match goal with |- forall x u x', _ -> _ -> ?m x = _ -> _ -> _ => change (cl m) end.
  assert (O : ok_step (if v_const a then
             fun x => match h_infos (x_h x) (v_val a) with
               | Some i => COk (info_value i, x)
               | None => (warn_if (is_code (h_syms (x_h x) (v_val a))) WLoadCode ;;; cret v0) x
               end
           else cret v0)) by (destruct (v_const a); [apply (ok_lookup (fun _ => v_val a))|ok_tac]).
  apply cl_bind; [ok_tac|intros; apply ok_bind; [exact O|intros; ok_tac]|apply cl_warn_if|intros _].
  apply cl_bind; [exact O|intros; ok_tac| |].
  - apply cl_if; [apply (cl_lookup (fun _ => v_val a))|apply cl_ret].
  - intros v. apply cl_bind; [ok_tac|intros; ok_tac|apply cl_get|intros; apply cl_cpush].
Qed.
Lemma cl_cstore a : cl (cstore a).
Proof.
  intros x u x' Hi T E N. unfold cstore in E. rewrite T in E. unfold cbind, warn_if, warn, act, cret in E.
  destruct (negb (is_address a)), (v_const a); cbv beta iota in E;
    repeat (destruct (h_infos _ _) in E || destruct (is_code _) in E); inj E; exact T.
Qed.
Lemma cl_lit_byte a s : cl (make_lit_byte a s).
Proof.
  unfold make_lit_byte. destruct s as [y|]; [|apply cl_bind; [ok_tac|intros; ok_tac|apply cl_warn|intros; apply cl_ret]].
  apply cl_bind; [ok_tac|intros; destruct (y_type y); ok_tac|apply cl_get_rom|]. intros n. destruct (y_type y); apply cl_ret.
Qed.
Ltac cl_tac := first
  [ apply cl_ret | apply cl_get | apply cl_pop_ex | apply cl_cpop | apply cl_push_ex | apply cl_cpush | apply cl_warn | apply cl_warn_if | apply cl_fork
  | apply cl_next_pc | apply cl_get_rom | apply cl_compute | apply cl_report | apply cl_cload | apply cl_cstore | apply cl_lit_byte
  | apply cl_bind; [solve [ok_tac]|intros; solve [ok_tac]|cl_tac|intros; cl_tac]
  | apply cl_if; cl_tac ].
Lemma cl_lit_short a b s : cl (lit_short a b s).
Proof.
  unfold lit_short. destruct s as [y|]; [|cl_tac]. destruct (y_type y); cl_tac.
Qed.
Lemma ok_info infos syms a : ok_step (match infos a with Some i => cret (info_value i)
         | None => match syms a with Some _ => make_lit_byte a (syms a) | None => cret v0 end end).
Proof. destruct (infos a : option info); [ok_tac|]. destruct (syms a : option csym); ok_tac. Qed.
Lemma cl_info infos syms a : cl (match infos a with Some i => cret (info_value i)
         | None => match syms a with Some _ => make_lit_byte a (syms a) | None => cret v0 end end).
Proof. destruct (infos a : option info); [cl_tac|]. destruct (syms a : option csym); cl_tac. Qed.
Definition lit_pair (infos : Z -> option info) (syms : Z -> option csym) (hi_a lo_a : Z) : C unit :=
  match infos hi_a with
  | Some i =>
      match infos lo_a, syms lo_a with
      | None, None => cpush (set_short true (info_value i))
      | Some j, _ => cpush (info_value i) ;;; cpush (info_value j)
      | None, Some _ => cpush (info_value i) ;;; v <- make_lit_byte lo_a (syms lo_a) ;; cpush v
      end
  | None =>
      if same_sym (syms hi_a) (syms lo_a) then lit_short hi_a lo_a (syms hi_a)
      else
        v <- make_lit_byte hi_a (syms hi_a) ;; cpush v ;;;
        w <- make_lit_byte lo_a (syms lo_a) ;; cpush w
  end.
Lemma lit_is : op_LIT = (two <- get flag_2 ;;
  syms <- get (fun x => h_syms (x_h x)) ;;
  infos <- get (fun x => h_infos (x_h x)) ;;
  if negb two then
    a <- next_pc ;;
    v <- match infos a with
         | Some i => cret (info_value i)
         | None => match syms a with Some _ => make_lit_byte a (syms a) | None => cret v0 end
         end ;;
    cpush v
  else hi_a <- next_pc ;; lo_a <- next_pc ;; lit_pair infos syms hi_a lo_a).
Proof. reflexivity. Qed.
Lemma ok_pair infos syms a b : ok_step (lit_pair infos syms a b).
Proof.
  unfold lit_pair. destruct (infos a); [|destruct (same_sym _ _); ok_tac].
  destruct (infos b); [ok_tac|]. destruct (syms b); ok_tac.
Qed.
Lemma cl_pair infos syms a b : cl (lit_pair infos syms a b).
Proof.
  unfold lit_pair. destruct (infos a); [|destruct (same_sym _ _); [apply cl_lit_short|cl_tac]].
  destruct (infos b); [cl_tac|]. destruct (syms b); cl_tac.
Qed.
Lemma cl_LIT : cl op_LIT.
Proof.
  rewrite lit_is.
  assert (O1 : forall infos syms, ok_step (a <- next_pc ;; v <- match infos a with Some i => cret (info_value i)
         | None => match syms a with Some _ => make_lit_byte a (syms a) | None => cret v0 end end ;; cpush v)).
  { intros. apply ok_bind; [ok_tac|]. intros a. apply ok_bind; [apply ok_info|intros; ok_tac]. }
  assert (O2 : forall infos syms, ok_step (hi_a <- next_pc ;; lo_a <- next_pc ;; lit_pair infos syms hi_a lo_a)).
  { intros. apply ok_bind; [ok_tac|]. intros a. apply ok_bind; [ok_tac|]. intros b. apply ok_pair. }
  assert (O : forall two infos syms, ok_step (if negb two then a <- next_pc ;; v <- match infos a with Some i => cret (info_value i)
         | None => match syms a with Some _ => make_lit_byte a (syms a) | None => cret v0 end end ;; cpush v
         else hi_a <- next_pc ;; lo_a <- next_pc ;; lit_pair infos syms hi_a lo_a)) by (intros; apply ok_if; auto).
  apply cl_bind; [ok_tac| |cl_tac|].
  { intros two. apply ok_bind; [ok_tac|intros syms]. apply ok_bind; [ok_tac|intros infos; apply O]. }
  intros two. apply cl_bind; [ok_tac| |cl_tac|].
  { intros syms. apply ok_bind; [ok_tac|intros infos; apply O]. }
  intros syms. apply cl_bind; [ok_tac|intros infos; apply O|cl_tac|]. intros infos. apply cl_if.
  - apply cl_bind; [ok_tac| |cl_tac|]; [intros a; apply ok_bind; [apply ok_info|intros; ok_tac]|].
    intros a. apply cl_bind; [apply ok_info|intros; ok_tac|apply cl_info|intros; cl_tac].
  - apply cl_bind; [ok_tac| |cl_tac|]; [intros a; apply ok_bind; [ok_tac|intros; apply ok_pair]|].
    intros a. apply cl_bind; [ok_tac|intros; apply ok_pair|cl_tac|intros; apply cl_pair].
Qed.
Lemma cl_boolean f : cl (boolean_op f).
Proof. unfold boolean_op. cl_tac. Qed.
Lemma cl_bin p f : cl (ChessModel.bin_op p f).
Proof.
  unfold ChessModel.bin_op.
  assert (O : forall b g, ok_step (if b : bool then fun x => match g with COk n => COk (u16 n, x) | CFault e => CFault e end else cret 0)).
  { intros [] g; [|ok_tac]. intros x n x' Hi E. destruct g; [|discriminate]. inj E. apply goes_refl. }
  assert (O1 : forall (b two : bool) g h, (forall n, ok_step (h n)) -> ok_step (n <- (if b then fun x => match g with COk n => COk (u16 n, x) | CFault e => CFault e end else cret 0) ;; (h n : C unit))).
  { intros. apply ok_bind; [apply O|auto]. }
  apply cl_bind; [ok_tac| |cl_tac|].
  { intros b. apply ok_bind; [ok_tac|]. intros a. apply ok_bind; [ok_tac|]. intros two. apply ok_bind; [apply O|intros; ok_tac]. }
  intros b. apply cl_bind; [ok_tac| |cl_tac|].
  { intros a. apply ok_bind; [ok_tac|]. intros two. apply ok_bind; [apply O|intros; ok_tac]. }
  intros a. apply cl_bind; [ok_tac| |cl_tac|].
  { intros two. apply ok_bind; [apply O|intros; ok_tac]. }
  intros two. apply cl_bind; [apply O|intros; ok_tac|apply cl_compute|intros; cl_tac].
Qed.
Lemma cl_straight l : straight_label l = true -> cl (run_label l).
Proof.
  destruct l as [| | | |r s|b k r s]; try discriminate; intros S; [apply cl_LIT|].
  destruct b; try discriminate S; cbn [run_label ChessModel.poly]; try apply cl_boolean; try apply cl_bin; cl_tac.
Qed.

(** ** What is put aside *)

Definition entry_size (r : bool) (e : entry) : Z := k_size (if r then e_rst e else e_wst e).
(** Every path put aside by [m] has the sizes that the stacks have after it. *)
Definition aside {A} (m : C A) : Prop := forall x a x', m x = COk (a, x') -> x_term x' = false ->
  has_info x -> forall l e, h_list (x_h x') = l ++ e :: h_list (x_h x) -> e_info e = x_info x /\ forall r, entry_size r e = size_of (Stk false r) x'.
Lemma aside_klist {A} (m : C A) : klist m -> aside m.
Proof.
  intros K x a x' E _ _ l e H. rewrite (K _ _ _ E) in H. apply (f_equal (@List.length _)) in H. rewrite app_length in H. cbn in H. lia.
Qed.
Lemma klist_cpop : klist cpop.
Proof. intros x v x' E. unfold cpop, pop_ex in E. destruct (x_term x); [inj E; reflexivity|]. eapply klist_pop_from; eauto. Qed.
Lemma klist_pop_ex two r : klist (pop_ex two r).
Proof. intros x v x' E. unfold pop_ex in E. destruct (x_term x); [inj E; reflexivity|]. eapply klist_pop_from; eauto. Qed.
Lemma klist_cpush v : klist (cpush v).
Proof. intros x u x' E. eapply klist_push_ex; eauto. Qed.
Lemma klist_warn m : klist (warn m).
Proof. apply klist_act. reflexivity. Qed.
Lemma klist_next_pc : klist next_pc.
Proof. intros x b x' E. inj E. reflexivity. Qed.
Lemma klist_get_rom a : klist (get_rom a).
Proof. intros x b x' E. unfold get_rom in E. destruct (_ <? _); [discriminate|]. inj E. reflexivity. Qed.
Lemma klist_compute f (b : bool) : klist (if b then fun x => match f with COk n => COk (u16 n, x) | CFault e => CFault e end else cret 0).
Proof. apply klist_if; [|apply klist_ret]. intros x a x' E. destruct f; [|discriminate]. inj E. reflexivity. Qed.
Lemma klist_report a v : klist (report_deo a v).
Proof. apply klist_act. intros x. destruct (v_const a && v_const v); [destruct (v_short v)|]; reflexivity. Qed.
Lemma klist_lookup f g w : klist (fun x => match h_infos (x_h x) (f x) with
  | Some i => COk (g i, x) | None => (warn_if (is_code (h_syms (x_h x) (f x))) w ;;; cret v0) x end).
Proof.
  intros x v x' E. destruct (h_infos _ _); [inj E; reflexivity|].
  revert E. unfold cbind, warn_if, warn, act, cret. destruct (is_code _); intros E; inj E; reflexivity.
Qed.
Lemma klist_cload a : klist (cload a).
Proof.
  intros x u x' E. unfold cload in E. destruct (x_term x); [inj E; reflexivity|]. revert x u x' E.
  match goal with |- forall x u x', ?m x = _ -> _ => change (klist m) end.
  apply klist_bind; [apply klist_warn_if|intros _]. apply klist_bind.
  - apply klist_if; [apply (klist_lookup (fun _ => v_val a))|apply klist_ret].
  - intros v. apply klist_bind; [apply klist_get|intros; apply klist_cpush].
Qed.
Lemma klist_cstore a : klist (cstore a).
Proof.
  intros x u x' E. unfold cstore in E. destruct (x_term x); [inj E; reflexivity|]. unfold cbind, warn_if, warn, act, cret in E.
  destruct (negb (is_address a)), (v_const a); cbv beta iota in E;
    repeat (destruct (h_infos _ _) in E || destruct (is_code _) in E); inj E; reflexivity.
Qed.
Lemma klist_lit_byte a s : klist (make_lit_byte a s).
Proof.
  unfold make_lit_byte. destruct s as [y|]; [|apply klist_bind; [apply klist_warn|intros; apply klist_ret]].
  apply klist_bind; [apply klist_get_rom|]. intros n. destruct (y_type y); apply klist_ret.
Qed.
Ltac kl_tac := first
  [ apply klist_ret | apply klist_get | apply klist_pop_ex | apply klist_cpop | apply klist_push_ex | apply klist_cpush | apply klist_warn | apply klist_warn_if
  | apply klist_next_pc | apply klist_get_rom | apply klist_compute | apply klist_report | apply klist_cload | apply klist_cstore | apply klist_lit_byte
  | apply klist_bind; [kl_tac|intros; kl_tac]
  | apply klist_if; kl_tac ].
Lemma klist_lit_short a b s : klist (lit_short a b s).
Proof. unfold lit_short. destruct s as [y|]; [|kl_tac]. destruct (y_type y); kl_tac. Qed.
Lemma klist_pair infos syms a b : klist (lit_pair infos syms a b).
Proof.
  unfold lit_pair. destruct (infos a); [|destruct (same_sym _ _); [apply klist_lit_short|kl_tac]].
  destruct (infos b); [kl_tac|]. destruct (syms b); kl_tac.
Qed.
Lemma klist_LIT : klist op_LIT.
Proof.
  rewrite lit_is. apply klist_bind; [kl_tac|intros two]. apply klist_bind; [kl_tac|intros syms]. apply klist_bind; [kl_tac|intros infos]. apply klist_if.
  - apply klist_bind; [kl_tac|intros a]. apply klist_bind; [|intros; kl_tac].
    destruct (infos a); [kl_tac|]. destruct (syms a); kl_tac.
  - apply klist_bind; [kl_tac|intros a]. apply klist_bind; [kl_tac|intros b]. apply klist_pair.
Qed.
Lemma raw_size k v : k_size (raw_push k v) = u8 (k_size k + vsize v).
Proof. reflexivity. Qed.
Lemma aside_boolean f : aside (boolean_op f).
Proof.
  intros x u x' E T Hi l e H. unfold boolean_op in E. unfold cbind at 1 in E.
  destruct (cpop x) as [[b y]|] eqn:E1; [|discriminate]. unfold cbind at 1 in E. destruct (cpop y) as [[a z]|] eqn:E2; [|discriminate].
  pose proof (ok_cpop _ _ _ Hi E1) as G1. pose proof (goes_has _ _ G1 Hi) as Hy. pose proof (ok_cpop _ _ _ Hy E2) as G2. pose proof (goes_has _ _ G2 Hy) as Hz.
  pose proof (klist_cpop _ _ _ E1) as L1. pose proof (klist_cpop _ _ _ E2) as L2.
  assert (I : x_info z = x_info x) by (rewrite (g_info _ _ G2), (g_info _ _ G1); reflexivity).
  cbv zeta in E. destruct (v_const a && v_const b && v_fork a && v_fork b).
  { exfalso. rewrite (klist_cpush _ _ _ _ E), L2, L1 in H. apply (f_equal (@List.length _)) in H. rewrite app_length in H. cbn in H. lia. }
  unfold cbind, get, fork, act in E. set (e0 := if flag_r z then _ else _) in E.
  set (y0 := with_h z (h_with_list (x_h z) (e0 :: h_list (x_h z)))) in E.
  assert (Le : h_list (x_h x') = e0 :: h_list (x_h x)) by (rewrite (klist_cpush _ _ _ _ E); cbn; congruence).
  assert (e = e0).
  { rewrite Le in H. destruct l as [|e1 l]; [cbn in H; congruence|]. apply (f_equal (@List.length _)) in H. cbn in H. rewrite app_length in H. cbn in H. lia. }
  subst e. clear Le H.
  assert (Tz : x_term z = false).
  { assert (Hy0 : has_info y0) by exact Hz. exact (pop_term _ _ _ _ (ok_cpush _) Hy0 E T). }
  unfold cpush, push_ex in E. change (x_term y0) with (x_term z) in E. rewrite Tz in E. destruct (256 <? _); [inj E; discriminate T|]. inj E.
  change (flag_r y0) with (flag_r z) in *. split; [unfold e0; destruct (flag_r z); exact I|].
  intros r. unfold size_of. rewrite get_set. unfold e0, entry_size. destruct r, (flag_r z); try reflexivity.
Qed.
Lemma aside_straight l : straight_label l = true -> aside (run_label l).
Proof.
  destruct l as [| | | |r s|b k r s]; try discriminate; intros S; [apply aside_klist, klist_LIT|].
  destruct b; try discriminate S; cbn [run_label ChessModel.poly]; try apply aside_boolean; try (apply aside_klist; unfold ChessModel.bin_op; kl_tac).
Qed.
