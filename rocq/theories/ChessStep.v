(** The type checker and the machine in lockstep: one opcode. *)
From Verif Require Import Base VmModel AsmModel ChessModel ChessProofs ChessSize ChessDelta ChessJump ValueSpec VmProofs ChessValue ChessLock ChessSim.
From Coq Require Import ZifyBool.
Open Scope list_scope.
Ltac Zify.zify_post_hook ::= Z.div_mod_to_equations.
Local Notation "x <- m ;; k" := (cbind m (fun x => k)) (at level 61, m at next level, right associativity).
Local Notation "m ;;; k" := (cbind m (fun _ => k)) (at level 61, right associativity).

(** ** A jump puts nothing aside *)

Definition klist {A} (m : C A) : Prop := forall x a x', m x = COk (a, x') -> h_list (x_h x') = h_list (x_h x).
Lemma klist_bind {A B} (m : C A) (k : A -> C B) : klist m -> (forall a, klist (k a)) -> klist (cbind m k).
Proof.
  intros Hm Hk x b x' E. unfold cbind in E. destruct (m x) as [[a y]|] eqn:E1; [|discriminate]. rewrite (Hk _ _ _ _ E). eapply Hm; eauto.
Qed.
Lemma klist_ret {A} (a : A) : klist (cret a).
Proof. intros x b x' E. inj E. reflexivity. Qed.
Lemma klist_get {A} (f : ctx -> A) : klist (get f).
Proof. intros x b x' E. inj E. reflexivity. Qed.
Lemma klist_act f : (forall x, h_list (x_h (f x)) = h_list (x_h x)) -> klist (act f).
Proof. intros H x b x' E. inj E. apply H. Qed.
Lemma klist_if {A} (b : bool) (m k : C A) : klist m -> klist k -> klist (if b then m else k).
Proof. destruct b; auto. Qed.
Lemma klist_err m : klist (err m).
Proof. apply klist_act. reflexivity. Qed.
Lemma klist_err_if b m : klist (err_if b m).
Proof. apply klist_if; [apply klist_err|apply klist_ret]. Qed.
Lemma klist_warn_if b m : klist (warn_if b m).
Proof. apply klist_if; [apply klist_act; reflexivity|apply klist_ret]. Qed.
Lemma alloc_list x v : h_list (x_h (snd (alloc_node x v))) = h_list (x_h x).
Proof. unfold alloc_node. destruct (h_pool (x_h x)); reflexivity. Qed.
Lemma klist_pop_byte p : klist (pop_byte p).
Proof.
  intros x v x' E. unfold pop_byte in E. destruct (_ <? 1); [inj E; reflexivity|]. destruct (top_of _) as [top|]; [|discriminate].
  destruct (v_short top).
  - pose proof (alloc_list x top) as A. destruct (alloc_node x top) as [n y]. inj E. rewrite set_h. exact A.
  - inj E. rewrite set_h. reflexivity.
Qed.
Lemma klist_pop_from p two : klist (pop_from p two).
Proof.
  unfold pop_from. destruct two; [|apply klist_pop_byte]. intros x v x' E. unfold pop_short in E. destruct (_ <? 2); [inj E; reflexivity|].
  destruct (top_of _) as [top|]; [|discriminate]. destruct (v_short top); [inj E; rewrite set_h; reflexivity|]. destruct (_ <? 2); [discriminate|].
  destruct (pop_byte p x) as [[lo y]|] eqn:E1; [|discriminate]. destruct (pop_byte p y) as [[hi z]|] eqn:E2; [|discriminate]. inj E.
  rewrite (klist_pop_byte _ _ _ _ E2). eapply klist_pop_byte; eauto.
Qed.
Lemma klist_push_ex r v : klist (push_ex r v).
Proof.
  intros x u x' E. unfold push_ex in E. destruct (x_term x); [inj E; reflexivity|]. destruct (256 <? _); inj E; [reflexivity|rewrite set_h; reflexivity].
Qed.
Lemma klist_check_values out r l : klist (check_values out r l).
Proof.
  induction l as [|v l IH]; cbn [check_values]; [apply klist_ret|]. apply klist_bind; [apply klist_pop_from|]. intros a.
  apply klist_bind; [|intros _; exact IH]. unfold check_value. apply klist_bind; [apply klist_warn_if|]. intros _.
  apply klist_bind; [|intros _]; apply klist_err_if.
Qed.
Lemma klist_check_stack out r l : klist (check_stack out r l).
Proof.
  intros x a x' H. unfold check_stack in H. destruct (if out then _ else _).
  - destruct (x_term x); [inj H; reflexivity|eapply klist_check_values; eauto].
  - cbn in H. inj H. reflexivity.
Qed.
Lemma klist_check_return : klist check_return.
Proof.
  intros x a x' H. revert H. unfold check_return. apply klist_bind; [apply klist_check_stack|intros; apply klist_check_stack].
Qed.
Lemma klist_push_all r l : klist (push_all r l).
Proof. induction l; cbn [push_all]; [apply klist_ret|]. apply klist_bind; [apply klist_push_ex|intros _; assumption]. Qed.
Lemma klist_abs_jmp a : klist (abs_jmp a).
Proof.
  unfold abs_jmp. repeat (apply klist_if || (apply klist_bind; [|intros]) || apply klist_get || apply klist_err_if || apply klist_err || apply klist_check_return || apply klist_ret || (apply klist_act; reflexivity)).
Qed.
Lemma klist_short_circuit key sig : klist (short_circuit key sig).
Proof.
  unfold short_circuit. repeat (apply klist_if || (apply klist_bind; [|intros]) || apply klist_get || apply klist_err || apply klist_check_stack || apply klist_push_all
    || apply klist_abs_jmp || apply klist_pop_from || apply klist_check_return || apply klist_ret || (apply klist_act; reflexivity)).
Qed.
Lemma list_cjump a x u x' : cjump a x = COk (u, x') -> h_list (x_h x') = h_list (x_h x).
Proof.
  unfold cjump. destruct (x_term x); [intros E; inj E; reflexivity|]. revert u x'.
  assert (K : forall key, klist ((if v_short a then abs_jmp a ;;; cret tt else if v_const a then act (fun x => with_pc x (u16 (x_pc x + s8 (v_val a)))) else err CUnknownJump) ;;;
     fun x => if x_term x then COk (tt, x) else match h_infos (x_h x) (x_pc x) with
       | Some (mkInfo true (Some sig) _ _ _) => short_circuit (x_pc x) sig x
       | _ => if h_jumps (x_h x) (Z.lor (Z.shiftl key 16) (x_pc x)) then COk (tt, terminate (with_h x (h_report (x_h x) RRepeat)))
              else COk (tt, with_h x (h_with_jump (x_h x) (Z.lor (Z.shiftl key 16) (x_pc x)))) end)).
  { intros key. apply klist_bind.
    - repeat (apply klist_abs_jmp || apply klist_if || (apply klist_bind; [|intros]) || apply klist_err || apply klist_ret || (apply klist_act; reflexivity)).
    - intros _ y u y' E. destruct (x_term y); [inj E; reflexivity|].
      destruct (h_infos (x_h y) (x_pc y)) as [[[] [sig|] ? ? ?]|]; [eapply klist_short_circuit; eauto|..];
        destruct (h_jumps _ _); inj E; reflexivity. }
  intros u x' E. eapply (K (x_pc x)); exact E.
Qed.

Section Step.
Variable W : Type.
Variable dei : Z -> vm -> W -> res (Z * vm * W).
Variable deo : Z -> vm -> W -> res (vm * W).
Variable hi_first : bool.
Hypothesis HA : aloof W dei deo.
Notation st := (st W).

Lemma dispatch_JCI op : dispatch op = Some JCI -> fr op = false.
Proof.
  unfold dispatch. destruct (find _ _) as [[l' n]|] eqn:F; [|discriminate]. apply find_some in F as [I E].
  intros H. injection H as ->. cbn in E. apply Z.eqb_eq in E as <-.
  assert (A : forallb (fun e => match fst e with JCI => negb (fr (snd e)) | _ => true end) dispatch_table = true) by (vm_compute; reflexivity).
  rewrite forallb_forall in A. specialize (A _ I). apply Bool.negb_true_iff. exact A.
Qed.

(** What the theorem asks of the state before the opcode. *)
Record before (x : ctx) (s : st) : Prop := {
  b_info : has_info x;
  b_pool : pool_ok x;
  b_len : forall r, is_byte (k_len (astack r x));
  b_right : right x s;
  b_range : all_values in_range x;
  b_half : all_values (half_ok (x_h x)) x;
  b_width : forall r, width (vals (astack r x)) <= 250;
  b_bytes : byte_cells s;
  b_code : same_code x s
}.

Lemma before_core x s op : before x s ->
  core W op (fetch_op op x) (h_list (x_h x)) [] 250 (fetch_op op x) (wpc W (u16 (s_pc W s + 1)) s).
Proof.
  intros [B1 B2 B3 [B4 B4'] B5 B6 B7 B8 B9]. constructor; auto.
  - apply goes_refl.
  - cbn. rewrite B4. reflexivity.
  - intros r. split; [|split].
    + destruct r; [exact (B3 true)|exact (B3 false)].
    + destruct r; [exact (B6 true)|exact (B6 false)].
    + destruct r; [exact (B4' true)|exact (B4' false)].
Qed.
Lemma before_ready x s op k r t u : before x s -> k = fk op -> r = fr op ->
  keep_prologue W k r (wpc W (u16 (s_pc W s + 1)) s) = Ok (u, t) ->
  ready W op (fetch_op op x) (h_list (x_h x)) [] 250 (fetch_op op x) t /\ s_pc W t = u16 (s_pc W s + 1) /\ s_vm W t = s_vm W s /\ s_w W t = s_w W s.
Proof.
  intros H -> -> E. pose proof (before_core _ _ op H) as C. destruct H as [B1 B2 B3 [B4 B4'] B5 B6 B7 B8 B9].
  unfold keep_prologue in E. destruct (fk op) eqn:K; apply Ok_pair in E as [_ ->].
  - split; [|destruct (fr op); split; reflexivity || (split; reflexivity)].
    set (s1 := wpc W (u16 (s_pc W s + 1)) s) in *.
    split; [|split].
    + destruct C as [C0 C1 C2 C3 C4 C5 C6 C7 C8 C9]. constructor; auto.
      * rewrite pc_setptr. exact C3.
      * intros q i. change (is_byte (VmModel.getstack W q (VmModel.setptr W true (fr op) (VmModel.getptr W false (fr op) s1) s1) i)). rewrite getstack_setptr. apply C7.
      * intros q. destruct (C8 q) as (D1 & D2 & D3). split; [exact D1|split; [exact D2|]]. cbn [ret_stack shadow] in *. rewrite getstack_setptr, getptr_shadow. exact D3.
    + rewrite K. split; [destruct (fr op); [exact (B3 true)|exact (B3 false)]|split; [destruct (fr op); [exact (B6 true)|exact (B6 false)]|]]. cbn [ret_stack shadow].
      rewrite getstack_setptr, getptr_setptr, Bool.eqb_reflx. destruct (fr op); [exact (B4' true)|exact (B4' false)].
    + rewrite K. destruct (fr op); [exact (B5 true)|exact (B5 false)].
  - split; [|repeat split]. split; [exact C|split].
    + rewrite K. apply (c_stk _ _ _ _ _ _ _ _ C).
    + rewrite K. destruct (fr op); [exact (B5 true)|exact (B5 false)].
Qed.

Definition no_error (x x' : ctx) : Prop := forall l, h_reports (x_h x') = h_reports (x_h x) ++ l -> existsb is_error l = false.
Lemma error_bad m x : ~ no_error x (error m x).
Proof. intros H. specialize (H [RError m] eq_refl). discriminate H. Qed.
(** The casts at an address, after its opcode. *)
Definition casts_at (x : ctx) (pc : Z) : C unit :=
  match h_casts (x_h x) pc with
  | Some c => apply_cast false (c_wst c) ;;; apply_cast true (c_rst c)
  | None => cret tt
  end.
Lemma split_cast x x' s s' : before x s -> x_term x = false ->
  exec_op x = COk (tt, x') -> step W dei deo hi_first s = Ok (true, s') -> x_term x' = false \/ no_error x x' ->
  exists op l u y, op = h_rom (x_h x) (x_pc x) /\ dispatch op = Some l /\ run_label l (fetch_op op x) = COk (u, y) /\
    casts_at x (x_pc x) y = COk (tt, x') /\
    exec_label W dei deo hi_first l (wpc W (u16 (s_pc W s + 1)) s) = Ok (true, s').
Proof.
  intros H T0 E F T. pose proof H as [B1 B2 B3 [B4 B4'] B5 B6 B7 B8 [Bp B9]].
  unfold exec_op, cbind at 1, get_rom in E. destruct (x_pc x <? 256); [discriminate|]. set (op := h_rom (x_h x) (x_pc x)) in *.
  destruct (is_code _); [|exfalso; apply COk_inj in E as [_ <-]; destruct T as [T|T]; [discriminate T|eapply error_bad, T]].
  unfold step, VmModel.bind, getpc in F. destruct (mem_read W _ s) as [[o t]|] eqn:F1; [|discriminate]. apply m_mem in F1 as [-> ->].
  destruct (B9 0) as [M0 _]; [lia|]. rewrite Z.add_0_r, Z.mod_small in M0 by lia. rewrite M0 in F.
  replace (h_rom (x_h x) (s_pc W s)) with op in F by (unfold op; rewrite B4; reflexivity). unfold setpc in F.
  destruct (dispatch op) as [l|] eqn:D; [|discriminate].
  unfold cbind at 1, act in E. unfold cbind at 1 in E. destruct (run_label l (fetch_op op x)) as [[u y]|] eqn:E1; [|discriminate].
  exists op, l, u, y. split; [reflexivity|split; [exact D|]]. split; [exact E1|]. split; [exact E|exact F].
Qed.
Lemma split_step x x' s s' : before x s -> x_term x = false -> h_casts (x_h x) (x_pc x) = None ->
  exec_op x = COk (tt, x') -> step W dei deo hi_first s = Ok (true, s') -> x_term x' = false \/ no_error x x' ->
  exists op l u, op = h_rom (x_h x) (x_pc x) /\ dispatch op = Some l /\ run_label l (fetch_op op x) = COk (u, x') /\
    exec_label W dei deo hi_first l (wpc W (u16 (s_pc W s + 1)) s) = Ok (true, s').
Proof.
  intros H T0 Hc E F T. destruct (split_cast _ _ _ _ H T0 E F T) as (op & l & u & y & A & B & C & D & G). exists op, l, u.
  unfold casts_at in D. rewrite Hc in D. apply COk_inj in D as [_ ->]. auto.
Qed.

Lemma near_next x s op : before x s -> near W (fetch_op op x) (wpc W (u16 (s_pc W s + 1)) s).
Proof.
  intros H. destruct (b_code _ _ H) as [Bp B9]. unfold near. cbn [s_pc wpc s_vm x_h fetch_op]. split; [unfold u16; lia|].
  intros i Hi. specialize (B9 (i + 1) ltac:(lia)). replace ((u16 (s_pc W s + 1) + i) mod 65536) with ((s_pc W s + (i + 1)) mod 65536) by (unfold u16; lia).
  exact B9.
Qed.

Lemma label_post op l u x x' s s' : before x s -> dispatch op = Some l -> run_label l (fetch_op op x) = COk (u, x') ->
  exec_label W dei deo hi_first l (wpc W (u16 (s_pc W s + 1)) s) = Ok (true, s') ->
  x_term x' = false -> ~ is_routine x (s_pc W s') ->
  post W op (fetch_op op x) (h_list (x_h x)) x' s'.
Proof.
  intros H D E1 F1 T NR. pose proof (b_code _ _ H) as [Bp _]. pose proof (dispatch_flags _ _ D) as Fl. unfold flags_ok in Fl. cbn [fst snd] in Fl.
  pose proof (before_core _ _ op H) as C. pose proof (near_next _ _ op H) as N.
  assert (NR' : ~ is_routine (fetch_op op x) (s_pc W s')) by exact NR.
  assert (Rd : fk op = false -> ready W op (fetch_op op x) (h_list (x_h x)) [] 250 (fetch_op op x) (wpc W (u16 (s_pc W s + 1)) s)).
  { intros K. eapply (before_ready _ _ op false (fr op)); [exact H|auto|reflexivity|reflexivity]. }
  destruct l as [| | | | r two|b k r two].
  - unfold exec_label, VmModel.bind, save_state, VmModel.ret in F1. discriminate F1.
  - eapply rel_JCI; [ | | | |split; [apply Rd|exact N]|exact E1|exact F1|exact T|exact NR']; [lia|reflexivity| |apply dispatch_JCI, D|];
      apply Bool.negb_true_iff; exact Fl.
  - eapply rel_JMI; [ |split; [exact C|exact N]|exact E1|exact F1|exact T|exact NR']; lia.
  - eapply rel_JSI; [ |split; [exact C|exact N]|exact E1|exact F1|exact T|exact NR']; lia.
  - eapply rel_LIT; [ | | |split; [exact C|exact N]|exact E1|exact F1|exact T]; [lia| |]; destruct r, two, (fr op), (f2 op); try discriminate Fl; reflexivity.
  - assert (Ek : k = fk op /\ r = fr op /\ two = f2 op) by (destruct k, r, two, (fk op), (fr op), (f2 op); try discriminate Fl; auto).
    destruct Ek as (Ek & Er & Et). unfold exec_label, VmModel.bind in F1. destruct (keep_prologue W k r _) as [[u1 t]|] eqn:F2; [|discriminate].
    destruct (before_ready _ _ op k r t u1 H Ek Er F2) as (R & _). subst k r two.
    destruct (poly_op W dei deo hi_first b _ _ _ t) as [[u2 t']|] eqn:F3; [|discriminate]. apply Ok_pair in F1 as [_ ->].
    eapply rel_poly; [exact HA| | |split; [exact R|]|exact E1|exact F3|exact T|exact NR']; [lia|reflexivity|].
    cbn. unfold u16. lia.
Qed.
Lemma step_post x x' s s' : before x s -> x_term x = false -> h_casts (x_h x) (x_pc x) = None ->
  exec_op x = COk (tt, x') -> step W dei deo hi_first s = Ok (true, s') -> x_term x' = false -> ~ is_routine x (s_pc W s') ->
  post W (h_rom (x_h x) (x_pc x)) (fetch_op (h_rom (x_h x) (x_pc x)) x) (h_list (x_h x)) x' s'.
Proof.
  intros H T0 Hc E F T NR. destruct (split_step _ _ _ _ H T0 Hc E F (or_introl T)) as (op & l & u & -> & D & E1 & F1).
  eapply label_post; eauto.
Qed.

(** ** A conditional jump that is not taken *)

Lemma no_error_back x y z : goes x y -> goes y z -> no_error x z -> no_error x y /\ no_error y z.
Proof.
  intros G1 G2 H. destruct (l_reports _ _ (g_h _ _ G1)) as (l1 & E1 & _). destruct (l_reports _ _ (g_h _ _ G2)) as (l2 & E2 & _).
  specialize (H (l1 ++ l2)). rewrite E2, E1, <- app_assoc in H. specialize (H eq_refl). rewrite existsb_app in H. apply Bool.orb_false_iff in H as [H1 H2].
  split; intros l El; [rewrite E1 in El|rewrite E2 in El]; apply app_inv_head in El; subst l; assumption.
Qed.
Lemma pop_byte_clean p x v y : x_term x = false -> pop_byte p x = COk (v, y) -> no_error x y -> x_term y = false.
Proof.
  intros T E N. unfold pop_byte in E. destruct (_ <? 1); [inj E; exfalso; eapply error_bad, N|].
  destruct (top_of _) as [top|]; [|discriminate]. destruct (v_short top).
  - pose proof (ChessSize.alloc_same x top) as A. destruct (alloc_node x top) as [n z]. inj E. rewrite set_term. cbn in A. destruct A. congruence.
  - inj E. rewrite set_term. exact T.
Qed.
Lemma pop_ex_clean two r x v y : has_info x -> x_term x = false -> pop_ex two r x = COk (v, y) -> no_error x y -> x_term y = false.
Proof.
  intros Hi T E N. unfold pop_ex in E. rewrite T in E. set (p := Stk (flag_k x) r) in E. unfold pop_from in E. destruct two; [|eapply pop_byte_clean; eauto].
  unfold pop_short in E. destruct (_ <? 2); [inj E; exfalso; eapply error_bad, N|].
  destruct (top_of _) as [top|]; [|discriminate]. destruct (v_short top); [inj E; rewrite set_term; exact T|].
  destruct (_ <? 2); [discriminate|]. destruct (pop_byte p x) as [[lo a]|] eqn:E1; [|discriminate]. destruct (pop_byte p a) as [[hi b]|] eqn:E2; [|discriminate]. inj E.
  pose proof (ok_pop_byte _ _ _ _ Hi E1) as G1. pose proof (ok_pop_byte _ _ _ _ (goes_has _ _ G1 Hi) E2) as G2.
  destruct (no_error_back _ _ _ G1 G2 N) as [N1 N2]. eapply pop_byte_clean; [eapply pop_byte_clean; eauto|exact E2|exact N2].
Qed.

Lemma pop_w k r two s n t : pop W k r two s = Ok (n, t) -> s_w W t = s_w W s.
Proof.
  unfold pop, pop1, pop2, VmModel.bind, stack_read, VmModel.ret.
  destruct k, r, two; cbn;
    repeat (destruct (aget _ _ _); [|intros X; discriminate X]; cbn); intros X; apply Ok_pair in X as [-> ->]; reflexivity.
Qed.
Lemma fall_conditional op x0 L0 m held c nc a n two x s u x' u' s' : m <= 256 ->
  core W op x0 L0 held m x s -> facts c nc false -> jump_conditional c a x = COk (u, x') ->
  (if negb (nc =? 0) then jump W two n else VmModel.ret W tt) s = Ok (u', s') -> s_pc W s' = s_pc W s -> h_list (x_h x') <> L0 ->
  exists l e, h_list (x_h x') = l ++ e :: L0 /\ right_entry e s'.
Proof.
  intros Hm P Fc E F Ep Nl. unfold jump_conditional in E. destruct (v_const c && v_fork c).
  - assert (Q : x' = x \/ goes x x' /\ cjump a x = COk (u, x')).
    { destruct (v_val c =? 0); [inj E; auto|]. right. split; [eapply ok_cjump; [eapply c_info, P|exact E]|exact E]. }
    exfalso. apply Nl. destruct Q as [-> | [_ Q]]; [eapply c_list, P|]. rewrite (list_cjump _ _ _ _ Q). eapply c_list, P.
  - unfold cbind, fork, act in E.
    set (e := mkEntry (x_info x) (x_w x) (x_r x) (x_pc x)) in E. set (y := with_h x (h_with_list (x_h x) (e :: h_list (x_h x)))) in E.
    exists [], e. split.
    + rewrite (list_cjump _ _ _ _ E). cbn. rewrite (c_list _ _ _ _ _ _ _ _ P). reflexivity.
    + destruct (right_here _ _ _ _ _ _ _ _ P) as (R1 & R2 & R3).
      destruct (nc =? 0); cbn [negb] in F.
      * apply Ok_pair in F as [_ ->]. split; [exact R1|split; assumption].
      * unfold jump, VmModel.bind, getpc, setpc in F. apply Ok_pair in F as [_ ->]. cbn [s_pc] in Ep.
        split; [cbn; rewrite Ep; exact R1|split; [exact R2|exact R3]].
Qed.

Lemma clean_goes x y z : goes x y -> goes y z -> no_error x z -> no_error y z.
Proof. intros G1 G2 N. eapply no_error_back; eauto. Qed.

Lemma fall_pops op x0 L0 m x s k' two n u x' u' s' a : m <= 250 ->
  ready W op x0 L0 [] m x s -> x_term x = false -> fr op = k' ->
  (c <- pop_ex false k' ;; jump_conditional c a) x = COk (u, x') ->
  VmModel.bind W (pop W (fk op) (fr op) false) (fun nc => if negb (nc =? 0) then jump W two n else VmModel.ret W tt) s = Ok (u', s') ->
  s_pc W s' = s_pc W s -> no_error x x' -> h_list (x_h x') <> L0 ->
  exists l e, h_list (x_h x') = l ++ e :: L0 /\ right_entry e s'.
Proof.
  intros Hm P T <- E F Ep N Nl. unfold cbind at 1 in E. unfold VmModel.bind at 1 in F.
  destruct (pop_ex false (fr op) x) as [[c y]|] eqn:E1; [|discriminate]. destruct (pop W (fk op) (fr op) false s) as [[nc t]|] eqn:F1; [|discriminate].
  pose proof (c_info _ _ _ _ _ _ _ _ (ready_core _ _ _ _ _ _ _ _ P)) as Hi.
  pose proof (ok_pop_ex _ _ _ _ _ Hi E1) as G1. pose proof (ok_jump_conditional _ _ _ _ _ (goes_has _ _ G1 Hi) E) as G2.
  destruct (no_error_back _ _ _ G1 G2 N) as [N1 N2]. pose proof (pop_ex_clean _ _ _ _ _ Hi T E1 N1) as Ty.
  edestruct ready_pop as (R & R1 & R2 & R3 & R4 & _); [exact P|exact Ty|exact E1|exact F1|].
  pose proof (pop_mem _ _ _ _ _ _ _ F1) as [_ Mp].
  eapply fall_conditional; [|apply ready_core, R|red; eauto|exact E|exact F|congruence|exact Nl]. lia.
Qed.

Lemma step_fall x x' s s' l : before x s -> x_term x = false -> h_casts (x_h x) (x_pc x) = None ->
  exec_op x = COk (tt, x') -> step W dei deo hi_first s = Ok (true, s') -> no_error x x' ->
  dispatch (h_rom (x_h x) (x_pc x)) = Some l -> (l = JCI \/ exists k r two, l = Poly JCN k r two) ->
  s_pc W s' = u16 (s_pc W s + (match l with JCI => 3 | _ => 1 end)) -> h_list (x_h x') <> h_list (x_h x) ->
  exists l e, h_list (x_h x') = l ++ e :: h_list (x_h x) /\ right_entry e s'.
Proof.
  intros H T0 Hc E F N D Hl Ep Nl. destruct (split_step _ _ _ _ H T0 Hc E F (or_intror N)) as (op & l' & u & Eo & D' & E1 & F1).
  rewrite <- Eo in D. assert (l' = l) by congruence. subst l'. clear D'.
  pose proof (dispatch_flags _ _ D) as Fl. unfold flags_ok in Fl. cbn [fst snd] in Fl.
  pose proof (before_core _ _ op H) as C. pose proof (near_next _ _ op H) as Nr.
  assert (N' : no_error (fetch_op op x) x') by exact N.
  destruct Hl as [-> | (k & r & two & ->)].
  - assert (Fk : fk op = false) by (apply Bool.negb_true_iff; exact Fl). pose proof (dispatch_JCI _ D) as Fr.
    assert (R : ready W op (fetch_op op x) (h_list (x_h x)) [] 250 (fetch_op op x) (wpc W (u16 (s_pc W s + 1)) s)).
    { eapply (before_ready _ _ op false (fr op)); [exact H|auto|reflexivity|reflexivity]. }
    cbn [run_label exec_label] in E1, F1. unfold cbind at 1 in E1.
    destruct (ChessModel.jump_target (fetch_op op x)) as [[a y]|] eqn:E2; [|discriminate].
    assert (Oj : ok_step ChessModel.jump_target) by ok_tac.
    assert (Ok2 : ok_step (c <- pop_ex false false ;; jump_conditional c a)) by ok_tac.
    pose proof (c_info _ _ _ _ _ _ _ _ C) as Hi. pose proof (Oj _ _ _ Hi E2) as G1. pose proof (Ok2 _ _ _ (goes_has _ _ G1 Hi) E1) as G2.
    destruct (no_error_back _ _ _ G1 G2 N') as [N1 N2].
    assert (Ty : x_term y = false).
    { unfold ChessModel.jump_target, cbind, next_pc, get in E2. destruct (_ && _) in E2.
      - unfold get_rom in E2. destruct (_ <? _); [discriminate|]. destruct (_ <? _); [discriminate|]. apply COk_inj in E2 as [_ <-]. exact T0.
      - unfold err, act, cret in E2. apply COk_inj in E2 as [_ <-]. exfalso. specialize (N1 [RError CBadJumpTarget] eq_refl). discriminate N1. }
    destruct (target_spec _ _ _ _ _ _ _ _ _ _ C Nr E2 Ty) as [-> ->].
    set (s1 := wpc W (u16 (s_pc W s + 1)) s) in *. set (p := u16 (s_pc W s1 + 2)) in *.
    assert (G : VmModel.bind W (pop W (fk op) (fr op) false) (fun nc => if negb (nc =? 0) then jump W true (goal_of W s1) else VmModel.ret W tt) (wpc W p s1) = Ok (tt, s')).
    { rewrite Fk, Fr. unfold VmModel.bind at 1 in F1. destruct (pop W false false false s1) as [[nc t]|] eqn:F2; [|discriminate].
      unfold VmModel.bind at 1. rewrite (pop_wpc _ _ _ _ p _ _ _ F2). apply pop_mem in F2 as [M1 M2].
      unfold VmModel.bind, getpc in F1. destruct (negb (nc =? 0)).
      - destruct (load W _ _ _ t) as [[b t']|] eqn:F3; [|discriminate]. apply m_load in F3 as [-> ->].
        unfold setpc in F1. apply Ok_pair in F1 as [_ ->]. rewrite jump_wpc, M1, M2. reflexivity.
      - unfold setpc in F1. apply Ok_pair in F1 as [_ ->]. rewrite M2. reflexivity. }
    eapply (fall_pops op (fetch_op op x) (h_list (x_h x)) 250); [lia|apply ready_pc, R|exact T0|exact Fr|exact E1|exact G| |exact N2|exact Nl].
    rewrite Ep. cbn. unfold p, s1. cbn. unfold u16. lia.
  - assert (Ek : k = fk op /\ r = fr op /\ two = f2 op) by (destruct k, r, two, (fk op), (fr op), (f2 op); try discriminate Fl; auto).
    destruct Ek as (Ek & Er & Et). unfold exec_label, VmModel.bind at 1 in F1. destruct (keep_prologue W k r _) as [[u1 t]|] eqn:F2; [|discriminate].
    destruct (before_ready _ _ op k r t u1 H Ek Er F2) as (R & Pt & _). subst k r two.
    unfold VmModel.bind at 1 in F1. destruct (poly_op W dei deo hi_first JCN _ _ _ t) as [[u2 t']|] eqn:F3; [|discriminate]. apply Ok_pair in F1 as [_ ->].
    cbn [run_label ChessModel.poly poly_op] in E1, F3. unfold cbind at 1 in E1. unfold VmModel.bind at 1 in F3.
    destruct (cpop (fetch_op op x)) as [[a y]|] eqn:E2; [|discriminate]. destruct (pop W (fk op) (fr op) (f2 op) t) as [[na t2]|] eqn:F4; [|discriminate].
    assert (Ok2 : ok_step (r <- get flag_r ;; c <- pop_ex false r ;; jump_conditional c a)) by ok_tac.
    pose proof (c_info _ _ _ _ _ _ _ _ C) as Hi. pose proof (ok_cpop _ _ _ Hi E2) as G1. pose proof (Ok2 _ _ _ (goes_has _ _ G1 Hi) E1) as G2.
    destruct (no_error_back _ _ _ G1 G2 N') as [N1 N2].
    unfold cpop in E2. change (flag_2 (fetch_op op x)) with (f2 op) in E2. change (flag_r (fetch_op op x)) with (fr op) in E2.
    pose proof (pop_ex_clean _ _ _ _ _ Hi T0 E2 N1) as Ty.
    edestruct ready_pop as (R' & R1 & R2 & R3 & R4 & _); [exact R|exact Ty|exact E2|exact F4|].
    pose proof (pop_mem _ _ _ _ _ _ _ F4) as [_ Mp].
    unfold cbind at 1, get in E1. rewrite (flagr op y) in E1 by (eapply ready_op, R').
    unfold cbind at 1 in E1. unfold VmModel.bind at 1 in F3.
    destruct (pop_ex false (fr op) y) as [[c z]|] eqn:E3; [|discriminate]. destruct (pop W (fk op) (fr op) false t2) as [[nc t3]|] eqn:F5; [|discriminate].
    pose proof (goes_has _ _ G1 Hi) as Hy. pose proof (ok_pop_ex _ _ _ _ _ Hy E3) as G3. pose proof (ok_jump_conditional _ _ _ _ _ (goes_has _ _ G3 Hy) E1) as G4.
    destruct (no_error_back _ _ _ G3 G4 N2) as [N3 N4]. pose proof (pop_ex_clean _ _ _ _ _ Hy Ty E3 N3) as Tz.
    edestruct ready_pop as (R'' & Q1 & Q2 & Q3 & Q4 & _); [exact R'|exact Tz|exact E3|exact F5|].
    pose proof (pop_mem _ _ _ _ _ _ _ F5) as [_ Mp'].
    eapply fall_conditional; [|apply ready_core, R''|red; eauto|exact E1|exact F3|congruence|exact Nl]. lia.
Qed.

(** ** Device writes *)

Definition deo_reports (two : bool) (a b : value) (x : ctx) : list report :=
  if v_const a && v_const b
  then if two then [RDeo (x_w x) (x_r x) (u8 (Z.shiftr (v_val b) 8)) (u8 (v_val a)); RDeo (x_w x) (x_r x) (u8 (Z.land (v_val b) 255)) (u8 (v_val a + 1))]
       else [RDeo (x_w x) (x_r x) (u8 (Z.land (v_val b) 255)) (u8 (v_val a))]
  else [].
Definition is_write (r : report) : bool := match r with RDeo _ _ _ _ => true | _ => false end.

Lemma deo_spec op x0 L0 m x s u x' u' s' : m <= 250 -> ready W op x0 L0 [] m x s -> x_term x' = false ->
  ChessModel.poly DEO x = COk (u, x') -> poly_op W dei deo hi_first DEO (fk op) (fr op) (f2 op) s = Ok (u', s') ->
  exists a b y z na nb s1 u1 s2, facts a na false /\ facts b nb (f2 op) /\
    pop_ex false (fr op) x = COk (a, y) /\ x_term y = false /\ pop_ex (f2 op) (fr op) y = COk (b, z) /\ x_term z = false /\ x_op y = x_op x /\
    s_w W s1 = s_w W s /\ dev_out W deo (f2 op) na nb s1 = Ok (u1, s2) /\ s_w W s' = s_w W s2 /\
    exists l, h_reports (x_h x') = h_reports (x_h x) ++ l ++ deo_reports (f2 op) a b z /\ existsb is_write l = false.
Proof.
  intros Hm P T E F. cbn [ChessModel.poly poly_op] in E, F. unfold cbind at 1, get in E.
  rewrite (flagr op x) in E by (eapply ready_op, P). unfold cbind at 1 in E. unfold VmModel.bind at 1 in F.
  destruct (pop_ex false (fr op) x) as [[a y]|] eqn:E1; [|discriminate]. destruct (pop W (fk op) (fr op) false s) as [[na t]|] eqn:F1; [|discriminate].
  pose proof (c_info _ _ _ _ _ _ _ _ (ready_core _ _ _ _ _ _ _ _ P)) as Hi. pose proof (ok_pop_ex _ _ _ _ _ Hi E1) as G1. pose proof (goes_has _ _ G1 Hi) as Hy.
  assert (Ok2 : ok_step (v <- cpop ;; warn_if (negb (is_address a)) WDeo ;;; report_deo a v)) by ok_tac.
  pose proof (pop_term _ _ _ _ Ok2 Hy E T) as Ty.
  edestruct ready_pop as (R & R1 & R2 & R3 & R4 & R5); [exact P|exact Ty|exact E1|exact F1|].
  unfold cbind at 1 in E. unfold VmModel.bind at 1 in F.
  destruct (cpop y) as [[b z]|] eqn:E2; [|discriminate]. destruct (pop W (fk op) (fr op) (f2 op) t) as [[nb t2]|] eqn:F2; [|discriminate].
  unfold cpop in E2. rewrite (flagr op y), (flag2 op y) in E2 by (eapply ready_op, R).
  pose proof (ok_pop_ex _ _ _ _ _ Hy E2) as G2. pose proof (goes_has _ _ G2 Hy) as Hz.
  assert (Ok3 : ok_step (warn_if (negb (is_address a)) WDeo ;;; report_deo a b)) by ok_tac.
  pose proof (pop_term _ _ _ _ Ok3 Hz E T) as Tz.
  edestruct ready_pop as (R' & Q1 & Q2 & Q3 & Q4 & Q5); [exact R|exact Tz|exact E2|exact F2|].
  unfold VmModel.bind in F. destruct (save_state W t2) as [[u3 s3]|] eqn:F3; [|discriminate].
  destruct (dev_out W deo (f2 op) na nb s3) as [[u4 s4]|] eqn:F4; [|discriminate].
  exists a, b, y, z, na, nb, s3, u4, s4. split; [red; auto|]. split; [red; auto|]. split; [reflexivity|]. split; [exact Ty|]. split; [exact E2|]. split; [exact Tz|].
  split; [rewrite (g_op _ _ G1); reflexivity|]. split.
  { unfold save_state in F3. apply Ok_pair in F3 as [_ ->]. cbn. pose proof (pop_w _ _ _ _ _ _ F1). pose proof (pop_w _ _ _ _ _ _ F2). congruence. }
  split; [exact F4|]. split; [unfold load_state in F; apply Ok_pair in F as [_ ->]; reflexivity|].
  unfold cbind, warn_if in E. exists (if negb (is_address a) then [RWarning WDeo] else []).
  rewrite <- R5, <- Q5. unfold deo_reports. rewrite <- Q1.
  destruct (negb (is_address a)); unfold warn, act, cret, report_deo, act in E; cbv beta zeta in E;
    (split; [|reflexivity]); destruct (v_const a && v_const b); [destruct (v_short b)| |destruct (v_short b)|]; apply COk_inj in E as [_ <-];
    cbn [x_h with_h h_reports h_report warning x_w x_r]; rewrite <- ?app_assoc, ?app_nil_r; reflexivity.
Qed.
End Step.
