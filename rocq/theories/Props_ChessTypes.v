(** C92 and C93: calls and returns are checked against the signatures
    (src/asm/chess.c:725-871, 1049-1155).

    Vocabulary, from TypeSpec.v: [complaint leaving want got l] says which
    reports there are about one value, [complaints] about the values of a stack
    and [both] about both stacks, always from the top down.  A signature lists
    its values from the bottom up. *)
From Verif Require Import Base VmModel VmSpec VmProofs AsmModel AsmSpec Props_Asm Props_Front ChessModel ChessProofs ChessSize ChessDelta ChessJump ChessVm ChessReports
  ValueSpec ChessValue ChessLock Props_Chess Props_ChessValue TypeSpec ChessTypes.
From Coq Require Import ZifyBool String.
Open Scope list_scope.
Ltac Zify.zify_post_hook ::= Z.div_mod_to_equations.

Lemma good_of x : xok x -> sizes_known x -> good false x /\ good true x.
Proof. intros [_ _ (A1 & A2 & _) (B1 & B2 & _) _ _] [S1 S2]. split; split; assumption. Qed.
Lemma declared_of x t sig : xok x -> signed x t sig -> sig_declared sig.
Proof. intros X (m & e & f & E). exact (ok_sigs _ (ok_h _ X) _ _ _ E eq_refl). Qed.
Lemma own_of x sig : within x sig -> own_sig x = sig.
Proof. intros (m & e & f & E). unfold own_sig, own_info. rewrite E. reflexivity. Qed.

(** One opcode without a cast. *)
Lemma exec_at x op l : at_opcode x op -> dispatch op = Some l -> exec_op x = (run_label l ;;; cret tt) (fetch_op op x).
Proof.
  intros (P & R & Ca & y & Sy & Ty) D. unfold exec_op. cbv zeta. unfold cbind at 1, get_rom. replace (x_pc x <? 256) with false by lia.
  rewrite Sy. unfold is_code. rewrite Ty, R. unfold cbind at 1, act. rewrite D, Ca. reflexivity.
Qed.
Lemma ret_right (m : C unit) x : (m ;;; cret tt) x = m x.
Proof. unfold cbind, cret. destruct (m x) as [[[] y]|]; reflexivity. Qed.
Lemma target_at x op t : at_opcode x op -> refers_to x t ->
  ChessModel.jump_target (fetch_op op x) = COk (return_sub t, with_pc (fetch_op op x) (x_pc x + 3)).
Proof.
  intros (P & _) (L & (y & z & Sy & Sz & I & Ty) & B1 & B2 & Et). unfold ChessModel.jump_target, cbind, next_pc, ChessModel.get, u16. cbn [x_pc with_pc fetch_op x_h]. unfold u16.
  rewrite (Z.mod_small (x_pc x + 1)) by lia. rewrite (Z.mod_small (x_pc x + 1 + 1)) by lia. replace (x_pc x + 1 + 1) with (x_pc x + 2) by lia.
  rewrite (Z.mod_small (x_pc x + 2 + 1)) by lia. replace (x_pc x + 2 + 1) with (x_pc x + 3) by lia.
  cbn [x_h with_pc fetch_op]. rewrite Sy, Sz. unfold same_sym, is_ref. rewrite I, Z.eqb_refl, Ty. cbn [andb]. unfold get_rom. replace (x_pc x + 1 <? 256) with false by lia. replace (x_pc x + 2 <? 256) with false by lia.
  cbn [x_pc x_h]. unfold cret. f_equal. f_equal. rewrite Et. cbn [with_pc x_h fetch_op x_pc]. rewrite join_eq by (unfold is_byte in *; lia).
  unfold is_byte in *. f_equal. lia.
Qed.

(** ** C92 *)
Lemma jump_signed t sig x : x_term x = false -> signed x t sig -> cjump (return_sub t) x = short_circuit t sig (with_pc x t).
Proof.
  intros T (m & e & f & E). unfold cjump. rewrite T. cbv zeta. unfold return_sub at 1. cbn [v_short]. unfold cbind at 1 2, abs_jmp. cbn [v_addr v_ret return_sub andb v_const v_val].
  unfold cbind, act, cret. cbn [x_term with_pc]. rewrite T. cbn [x_h x_pc with_pc]. rewrite E. reflexivity.
Qed.

(** The checker is at a call of a subroutine whose signature has nothing on the
    return stack, and the values on the working stack have the sizes of its
    inputs.  The reports are those about the inputs.  If there is no error among
    them, the checker goes on behind the call, with the outputs in the place of
    the inputs. *)
Theorem C92_call_is_checked evs x t sig args rest :
  checking evs x -> x_term x = false -> sizes_known x -> at_opcode x 96 -> refers_to x t -> signed x t sig ->
  g_type sig = Subroutine -> g_rin sig = [] -> g_rout sig = [] ->
  vals (x_w x) = args ++ rest -> same_sizes (rev (g_win sig)) args ->
  width rest + width (g_wout sig) <= 255 -> width (vals (x_r x)) <= 253 ->
  exists x' l, exec_op x = COk (tt, x') /\ h_reports (x_h x') = h_reports (x_h x) ++ l /\ complaints false (rev (g_win sig)) args l /\
    (error_in l -> x_term x' = true) /\
    (~ error_in l -> x_term x' = false /\ x_pc x' = x_pc x + 3 /\ vals (x_w x') = rev (g_wout sig) ++ rest /\ vals (x_r x') = vals (x_r x) /\
      sizes_known x' /\ h_list (x_h x') = h_list (x_h x)).
Proof.
  intros Ck T Sk At Rf Sg Ts Ri Ro V F R1 R2. pose proof (checking_ok _ _ Ck) as X. destruct (good_of x X Sk) as [Gw Gr]. pose proof (declared_of _ _ _ X Sg) as D.
  rewrite (exec_at x 96 JSI At eq_refl), ret_right. cbn [run_label]. unfold cbind at 1. rewrite (target_at _ _ _ At Rf).
  set (y := with_pc (fetch_op 96 x) (x_pc x + 3)). unfold jump_stash, cbind at 1, ChessModel.get. change (x_pc y) with (x_pc x + 3). cbn [negb].
  assert (Gy : good true y) by (destruct Gr; split; assumption). assert (Gyw : good false y) by (destruct Gw; split; assumption).
  destruct (push_all_says true [return_sub (x_pc x + 3)] y Gy T) as (z & Ez & Oz & Gz & Vz & Tz); [repeat constructor| |].
  { rewrite (gd_sized _ _ Gy). cbn [width]. change (vsize (return_sub (x_pc x + 3))) with 2. change (get_stack (Stk false true) y) with (x_r x). lia. }
  cbn [push_all] in Ez. rewrite ret_right in Ez. unfold cbind at 1. rewrite Ez. change (vals (get_stack (Stk false true) y)) with (vals (x_r x)) in Vz. cbn [rev app get_stack] in Vz.
  assert (Sz : signed z t sig).
  { unfold push_ex in Ez. change (x_term y) with (x_term x) in Ez. rewrite T in Ez. destruct (256 <? _) in Ez; [|apply COk_inj in Ez as [_ <-]; exact Sg].
    apply COk_inj in Ez as [_ <-]. discriminate Tz. }
  rewrite (jump_signed t sig z Tz Sz).
  set (q := with_pc z t). unfold short_circuit, cbind at 1, ChessModel.get. rewrite Ts. cbn [is_sub negb]. rewrite andb_false_r.
  assert (Gq : good true q) by (destruct Gz; split; assumption).
  pose proof (on_other _ _ _ _ Oz) as Wz. cbn [negb get_stack] in Wz. change (x_w y) with (x_w x) in Wz.
  assert (Gqw : good false q) by (destruct Gyw as [A1 A2 A3]; split; change (get_stack (Stk false false) q) with (x_w z); rewrite Wz; assumption).
  edestruct (effect_says sig q args rest [] (vals (x_r q))) as (p & l & E & P & B & Gp & K); [exact D|exact Gqw|exact Gq|exact Tz|change (x_w q) with (x_w z); rewrite Wz; exact V|exact F|reflexivity|rewrite Ri; constructor|exact R1|
    rewrite Ro; change (x_r q) with (x_r z); rewrite Vz; cbn [width]; change (vsize (return_sub (x_pc x + 3))) with 2; lia|].
  rewrite E. clear E.
  assert (C1 : complaints false (rev (g_win sig)) args l).
  { destruct B as (lw & lr & -> & C1 & [[_ C2]|[_ ->]]); [|rewrite app_nil_r; exact C1]. rewrite Ri in C2. inversion C2; subst. rewrite app_nil_r. exact C1. }
  assert (Rp : good true p /\ vals (x_r p) = return_sub (x_pc x + 3) :: vals (x_r x)).
  { destruct (error_dec l) as [Er|Er].
    - pose proof (K Er Ri) as Kr. change (x_r q) with (x_r z) in Kr. split; [destruct Gz as [A1 A2 A3]; split; cbn [get_stack]; rewrite Kr; assumption|rewrite Kr; exact Vz].
    - destruct (Gp Er) as (_ & A2 & _ & A4). split; [exact A2|]. rewrite A4, Ro. exact Vz. }
  destruct Rp as [Gpr Vp]. unfold cbind at 1.
  replace (2 <=? k_size (x_r p)) with true.
  2: { pose proof (gd_sized _ _ Gpr) as S. cbn [get_stack] in S. unfold sized in S. rewrite Vp in S. cbn [width] in S. change (vsize (return_sub (x_pc x + 3))) with 2 in S. pose proof (width_nn (vals (x_r x))). lia. }
  destruct (pop_top true p (return_sub (x_pc x + 3)) (vals (x_r x)) (gd_len _ _ Gpr) (gd_size _ _ Gpr) (gd_sized _ _ Gpr) Vp) as (k & Ek & Vk & Sk2 & Lk & Bk).
  change (v_short (return_sub (x_pc x + 3))) with true in Ek. unfold cbind at 1. rewrite Ek. unfold cbind at 1, abs_jmp. cbn [return_sub v_addr v_ret v_const v_val andb]. unfold cbind, act, cret.
  eexists. exists l. split; [reflexivity|].
  assert (Rq : h_reports (x_h q) = h_reports (x_h x)) by (change (x_h q) with (x_h z); rewrite (on_reports _ _ _ _ Oz), app_nil_r; reflexivity).
  split; [cbn; rewrite (sp_reports _ _ _ P), Rq; reflexivity|]. split; [exact C1|].
  split; [intros Er; cbn; apply (sp_term _ _ _ P); auto|].
  intros Er. split; [cbn; destruct (x_term p) eqn:Q; [|reflexivity]; apply (sp_term _ _ _ P) in Q as [Q|Q]; [change (x_term q) with (x_term z) in Q; congruence|contradiction]|].
  split; [reflexivity|]. destruct (Gp Er) as (A1 & _ & A3 & _).
  split; [exact A3|]. split; [exact Vk|]. split; [split; [exact (gd_sized _ _ A1)|exact Sk2]|].
  cbn. rewrite (sp_list _ _ _ P). change (x_h q) with (x_h z). rewrite (on_list _ _ _ _ Oz). reflexivity.
Qed.
Print Assumptions C92_call_is_checked.

(** There is too little on the stack for the inputs: that is the one error. *)
Theorem C92_call_with_too_little evs x t sig :
  checking evs x -> x_term x = false -> sizes_known x -> at_opcode x 96 -> refers_to x t -> signed x t sig ->
  g_type sig = Subroutine -> g_rin sig = [] -> width (g_win sig) <= 255 ->
  width (vals (x_w x)) < width (g_win sig) -> width (vals (x_r x)) <= 253 ->
  exists x', exec_op x = COk (tt, x') /\ h_reports (x_h x') = h_reports (x_h x) ++ [RError CSizeMismatch] /\ x_term x' = true.
Proof.
  intros Ck T Sk At Rf Sg Ts Ri Wi Few R2. pose proof (checking_ok _ _ Ck) as X. destruct (good_of x X Sk) as [Gw Gr].
  rewrite (exec_at x 96 JSI At eq_refl), ret_right. cbn [run_label]. unfold cbind at 1. rewrite (target_at _ _ _ At Rf).
  set (y := with_pc (fetch_op 96 x) (x_pc x + 3)). unfold jump_stash, cbind at 1, ChessModel.get. change (x_pc y) with (x_pc x + 3). cbn [negb].
  assert (Gy : good true y) by (destruct Gr; split; assumption).
  destruct (push_all_says true [return_sub (x_pc x + 3)] y Gy T) as (z & Ez & Oz & Gz & Vz & Tz); [repeat constructor| |].
  { rewrite (gd_sized _ _ Gy). cbn [width]. change (vsize (return_sub (x_pc x + 3))) with 2. change (get_stack (Stk false true) y) with (x_r x). lia. }
  cbn [push_all] in Ez. rewrite ret_right in Ez. unfold cbind at 1. rewrite Ez. change (vals (get_stack (Stk false true) y)) with (vals (x_r x)) in Vz. cbn [rev app get_stack] in Vz.
  assert (Sz : signed z t sig).
  { unfold push_ex in Ez. change (x_term y) with (x_term x) in Ez. rewrite T in Ez. destruct (256 <? _) in Ez; [|apply COk_inj in Ez as [_ <-]; exact Sg].
    apply COk_inj in Ez as [_ <-]. discriminate Tz. }
  rewrite (jump_signed t sig z Tz Sz).
  set (q := with_pc z t). unfold short_circuit, cbind at 1, ChessModel.get. rewrite Ts. cbn [is_sub negb]. rewrite andb_false_r.
  pose proof (on_other _ _ _ _ Oz) as Wz. cbn [negb get_stack] in Wz. change (x_w y) with (x_w x) in Wz.
  unfold cbind at 1. rewrite (check_stack_short false false (g_win sig) q Tz).
  2: { cbn [get_stack]. change (x_w q) with (x_w z). rewrite Wz, sig_size_width. pose proof (gd_sized _ _ Gw) as S. cbn [get_stack] in S. rewrite S. unfold u8. pose proof (width_nn (vals (x_w x))). rewrite Z.mod_small by lia. exact Few. }
  unfold cbind at 1. rewrite (check_stack_term false true (g_rin sig)); [|reflexivity|rewrite Ri; cbn [get_stack]; pose proof (gd_size _ _ Gz) as B; cbn [get_stack] in B; change (sig_size []) with 0; unfold is_byte in B; exact (proj1 B)].
  unfold cbind at 1. rewrite push_all_term by reflexivity. unfold cbind at 1. rewrite push_all_term by reflexivity. set (e := error CSizeMismatch q). unfold cbind at 1.
  assert (Ge : good true e) by (destruct Gz; split; assumption). assert (Ve : vals (x_r e) = return_sub (x_pc x + 3) :: vals (x_r x)) by exact Vz.
  replace (2 <=? k_size (x_r e)) with true.
  2: { pose proof (gd_sized _ _ Ge) as S. cbn [get_stack] in S. unfold sized in S. rewrite Ve in S. cbn [width] in S. change (vsize (return_sub (x_pc x + 3))) with 2 in S. pose proof (width_nn (vals (x_r x))). lia. }
  destruct (pop_top true e (return_sub (x_pc x + 3)) (vals (x_r x)) (gd_len _ _ Ge) (gd_size _ _ Ge) (gd_sized _ _ Ge) Ve) as (k & Ek & _).
  change (v_short (return_sub (x_pc x + 3))) with true in Ek. unfold cbind at 1. rewrite Ek. unfold cbind at 1, abs_jmp. cbn [return_sub v_addr v_ret v_const v_val andb]. unfold cbind, act, cret.
  eexists. split; [reflexivity|]. split; [|reflexivity].
  cbn. rewrite (on_reports _ _ _ _ Oz), app_nil_r. reflexivity.
Qed.
Print Assumptions C92_call_with_too_little.

(** A subroutine does not go over into a vector. *)
Theorem C92_subroutine_into_vector x sig own :
  x_term x = false -> 256 <= x_pc x -> x_pc x <> x_info x -> signed x (x_pc x) sig -> within x own -> g_type own = Subroutine -> g_type sig = Vector ->
  exists x', exec_round x = COk (tt, x') /\ h_reports (x_h x') = h_reports (x_h x) ++ [RError CSubIntoVector] /\ x_term x' = true.
Proof.
  intros T P N (m & e & f & E) Ow To Ts. unfold exec_round. replace (x_pc x <? 256) with false by lia. rewrite andb_false_r, E. replace (x_pc x =? x_info x) with false by lia.
  unfold short_circuit, cbind, ChessModel.get. change (own_sig (with_inner x true)) with (own_sig x). rewrite (own_of _ _ Ow), To, Ts. cbn [is_sub negb andb].
  unfold err, act. eexists. split; [reflexivity|]. split; reflexivity.
Qed.
Print Assumptions C92_subroutine_into_vector.

(** A vector that goes over into another one ends there: the inputs of the other
    one are checked, and if nothing is wrong with them, its outputs and what lies
    beneath must be what the first one has to leave. *)
Theorem C92_goes_over_into_vector evs x sig own aw rw ar rr :
  checking evs x -> x_term x = false -> sizes_known x -> 256 <= x_pc x -> x_pc x <> x_info x -> signed x (x_pc x) sig -> within x own ->
  g_type own = Vector -> g_type sig = Vector ->
  vals (x_w x) = aw ++ rw -> same_sizes (rev (g_win sig)) aw -> vals (x_r x) = ar ++ rr -> same_sizes (rev (g_rin sig)) ar ->
  width rw + width (g_wout sig) <= 255 -> width rr + width (g_rout sig) <= 255 -> width (g_wout own) <= 255 -> width (g_rout own) <= 255 ->
  same_sizes (rev (g_wout own)) (rev (g_wout sig) ++ rw) /\ same_sizes (rev (g_rout own)) (rev (g_rout sig) ++ rr) \/
    width (rev (g_wout sig) ++ rw) <> width (g_wout own) ->
  exists x' l m, exec_round x = COk (tt, x') /\ h_reports (x_h x') = h_reports (x_h x) ++ l ++ m /\ x_term x' = true /\
    both false (rev (g_win sig)) (rev (g_rin sig)) aw ar l /\
    (~ error_in l -> same_sizes (rev (g_wout own)) (rev (g_wout sig) ++ rw) -> same_sizes (rev (g_rout own)) (rev (g_rout sig) ++ rr) ->
      both true (rev (g_wout own)) (rev (g_rout own)) (rev (g_wout sig) ++ rw) (rev (g_rout sig) ++ rr) m) /\
    (~ error_in l -> width (rev (g_wout sig) ++ rw) <> width (g_wout own) -> In (RError CSizeMismatch) m).
Proof.
  intros Ck T Sk P N Sg Ow To Ts Vw Fw Vr Fr R1 R2 L1 L2 H. pose proof (checking_ok _ _ Ck) as X. destruct (good_of x X Sk) as [Gw Gr]. pose proof (declared_of _ _ _ X Sg) as D.
  destruct Sg as (m0 & e0 & f0 & E). unfold exec_round. replace (x_pc x <? 256) with false by lia. rewrite andb_false_r, E. replace (x_pc x =? x_info x) with false by lia.
  set (q := with_inner x true). unfold short_circuit, cbind at 1, ChessModel.get. change (own_sig q) with (own_sig x). rewrite (own_of _ _ Ow), To, Ts. cbn [is_sub negb andb].
  edestruct (effect_says sig q aw rw ar rr) as (p & l & Ee & Pl & B & Gp & _); [exact D|destruct Gw; split; assumption|destruct Gr; split; assumption|exact T|exact Vw|exact Fw|exact Vr|exact Fr|exact R1|exact R2|].
  rewrite Ee. clear Ee. assert (Op : own_sig p = own) by (rewrite (sp_sig _ _ _ Pl); apply own_of, Ow).
  assert (Rp : h_reports (x_h p) = h_reports (x_h x) ++ l) by (rewrite (sp_reports _ _ _ Pl); reflexivity).
  destruct (error_dec l) as [Er|Er].
  - destruct (check_return_total p) as (z & k & Ez & Pz & Tz); [apply (sp_term _ _ _ Pl); auto|]. unfold cbind. rewrite Ez. unfold act. eexists. exists l, k. split; [reflexivity|].
    split; [cbn; rewrite (sp_reports _ _ _ Pz), Rp, app_assoc; reflexivity|]. split; [reflexivity|]. split; [exact B|]. tauto.
  - assert (Tp : x_term p = false) by (destruct (x_term p) eqn:Q; [|reflexivity]; apply (sp_term _ _ _ Pl) in Q as [Q|Q]; [change (x_term q) with (x_term x) in Q; congruence|contradiction]).
    destruct (Gp Er) as (G1 & G2 & V1 & V2).
    assert (Tot : exists z k, check_return p = COk (tt, z) /\ same_place p z k /\
       (same_sizes (rev (g_wout own)) (rev (g_wout sig) ++ rw) -> same_sizes (rev (g_rout own)) (rev (g_rout sig) ++ rr) ->
        both true (rev (g_wout own)) (rev (g_rout own)) (rev (g_wout sig) ++ rw) (rev (g_rout sig) ++ rr) k) /\
       (width (rev (g_wout sig) ++ rw) <> width (g_wout own) -> In (RError CSizeMismatch) k)).
    { rewrite <- V1, <- V2 in *. destruct H as [[F1 F2]|W].
      - destruct (leave_says p own Op G1 G2 Tp F1 F2) as (z & k & Ez & Pz & Bz). exists z, k. split; [exact Ez|]. split; [exact Pz|]. split; [auto|]. intros Nz. exfalso. apply Nz. rewrite <- (width_same _ _ F1). apply width_rev.
      - destruct (leave_wrong p own Op G1 G2 Tp L1 L2 (or_introl W)) as (z & k & Ez & Pz & Iz). exists z, k. split; [exact Ez|]. split; [exact Pz|]. split; [|auto]. intros F1. exfalso. apply W. rewrite <- (width_same _ _ F1). apply width_rev. }
    destruct Tot as (z & k & Ez & Pz & Q1 & Q2). unfold cbind. rewrite Ez. unfold act. eexists. exists l, k. split; [reflexivity|].
    split; [cbn; rewrite (sp_reports _ _ _ Pz), Rp, app_assoc; reflexivity|]. split; [reflexivity|]. auto.
Qed.
Print Assumptions C92_goes_over_into_vector.

(** ** C93 *)
Lemma return_at x mark rr : xok x -> x_term x = false -> sizes_known x -> at_opcode x 108 -> vals (x_r x) = mark :: rr -> return_mark mark ->
  exists p, same_place (fetch_op 108 x) p [] /\ good false p /\ good true p /\ x_w p = x_w x /\ vals (x_r p) = rr /\
    exec_op x = (err_if (negb (is_sub (g_type (own_sig x)))) CVectorReturn ;;; act (fun x => set_own_term x true) ;;; check_return ;;; act terminate) p.
Proof.
  intros X T Sk At V (M1 & M2 & M3). destruct (good_of x X Sk) as [Gw Gr].
  rewrite (exec_at x 108 (Poly JMP false true true) At eq_refl), ret_right. cbn [run_label ChessModel.poly]. set (y := fetch_op 108 x).
  assert (Gy : good true y) by (destruct Gr; split; assumption). assert (Gyw : good false y) by (destruct Gw; split; assumption).
  destruct (pop_top true y mark rr (gd_len _ _ Gy) (gd_size _ _ Gy) (gd_sized _ _ Gy) V) as (k & Ek & Vk & Sk2 & Lk & Bk). rewrite M1 in Ek.
  set (p := set_stack (Stk false true) y k) in *. exists p.
  split; [apply (place_only true), only_set|]. split; [destruct Gyw; split; assumption|]. split; [split; assumption|]. split; [reflexivity|]. split; [exact Vk|].
  unfold cbind at 1, cpop, pop_ex. change (x_term y) with (x_term x). rewrite T. change (flag_2 y) with true. change (flag_r y) with true. change (flag_k y) with false. rewrite Ek.
  unfold cjump. change (x_term p) with (x_term x). rewrite T, M1. cbv zeta. unfold abs_jmp. rewrite M2, M3. cbn [andb]. unfold cbind at 1 2 3, ChessModel.get. change (own_sig p) with (own_sig x).
  assert (Q : forall z, x_term (terminate z) = true) by reflexivity. unfold err_if, err, act, cbind, cret.
  destruct (negb (is_sub (g_type (own_sig x)))).
  - destruct (check_return (set_own_term (error CVectorReturn p) true)) as [[u z]|]; [rewrite Q; reflexivity|reflexivity].
  - destruct (check_return (set_own_term p true)) as [[u z]|]; [rewrite Q; reflexivity|reflexivity].
Qed.
Lemma good_term r x b : good r x -> good r (set_own_term x b).
Proof. intros [A B D]. split; assumption. Qed.
Lemma sig_place x p own : own_sig x = own -> same_place (fetch_op 108 x) p [] -> own_sig (set_own_term p true) = own.
Proof. intros O P. rewrite (sp_sig _ _ _ (place_term p true)), (sp_sig _ _ _ P). exact O. Qed.

(** JMP2r with the mark of the caller on the return stack: a subroutine is at its
    end, and what it leaves is checked against its outputs. *)
Theorem C93_return_is_checked evs x own mark rr :
  checking evs x -> x_term x = false -> sizes_known x -> at_opcode x 108 -> within x own -> g_type own = Subroutine ->
  vals (x_r x) = mark :: rr -> return_mark mark ->
  same_sizes (rev (g_wout own)) (vals (x_w x)) -> same_sizes (rev (g_rout own)) rr ->
  exists x' l, exec_op x = COk (tt, x') /\ h_reports (x_h x') = h_reports (x_h x) ++ l /\ x_term x' = true /\
    both true (rev (g_wout own)) (rev (g_rout own)) (vals (x_w x)) rr l.
Proof.
  intros Ck T Sk At Ow To V M F1 F2. destruct (return_at x mark rr (checking_ok _ _ Ck) T Sk At V M) as (p & P & G1 & G2 & Wp & Vp & E).
  rewrite E, (own_of _ _ Ow), To. cbn [is_sub negb err_if]. unfold cbind at 1, cret. unfold cbind at 1, act at 1.
  assert (Tp : x_term p = false) by (destruct (x_term p) eqn:Q; [|reflexivity]; apply (sp_term _ _ _ P) in Q as [Q|Q]; [change (x_term (fetch_op 108 x)) with (x_term x) in Q; congruence|destruct (error_nil Q)]).
  destruct (leave_says (set_own_term p true) own (sig_place _ _ _ (own_of _ _ Ow) P) (good_term _ _ _ G1) (good_term _ _ _ G2) Tp) as (z & l & Ez & Pz & B);
    [change (x_w (set_own_term p true)) with (x_w p); rewrite Wp; exact F1|change (x_r (set_own_term p true)) with (x_r p); rewrite Vp; exact F2|].
  unfold cbind. rewrite Ez. eexists. exists l. split; [reflexivity|]. split; [|split; [reflexivity|]].
  - cbn. rewrite (sp_reports _ _ _ Pz). cbn. rewrite (sp_reports _ _ _ P), app_nil_r. reflexivity.
  - change (x_w (set_own_term p true)) with (x_w p) in B. change (x_r (set_own_term p true)) with (x_r p) in B. rewrite Wp, Vp in B. exact B.
Qed.
Print Assumptions C93_return_is_checked.
(** It leaves too much or too little. *)
Theorem C93_return_of_wrong_size evs x own mark rr :
  checking evs x -> x_term x = false -> sizes_known x -> at_opcode x 108 -> within x own -> g_type own = Subroutine ->
  vals (x_r x) = mark :: rr -> return_mark mark -> width (g_wout own) <= 255 -> width (g_rout own) <= 255 ->
  width (vals (x_w x)) <> width (g_wout own) \/ same_sizes (rev (g_wout own)) (vals (x_w x)) /\ width rr <> width (g_rout own) ->
  exists x' l, exec_op x = COk (tt, x') /\ h_reports (x_h x') = h_reports (x_h x) ++ l /\ x_term x' = true /\ In (RError CSizeMismatch) l.
Proof.
  intros Ck T Sk At Ow To V M L1 L2 H. destruct (return_at x mark rr (checking_ok _ _ Ck) T Sk At V M) as (p & P & G1 & G2 & Wp & Vp & E).
  rewrite E, (own_of _ _ Ow), To. cbn [is_sub negb err_if]. unfold cbind at 1, cret. unfold cbind at 1, act at 1.
  assert (Tp : x_term p = false) by (destruct (x_term p) eqn:Q; [|reflexivity]; apply (sp_term _ _ _ P) in Q as [Q|Q]; [change (x_term (fetch_op 108 x)) with (x_term x) in Q; congruence|destruct (error_nil Q)]).
  destruct (leave_wrong (set_own_term p true) own (sig_place _ _ _ (own_of _ _ Ow) P) (good_term _ _ _ G1) (good_term _ _ _ G2) Tp L1 L2) as (z & l & Ez & Pz & B);
    [change (x_w (set_own_term p true)) with (x_w p); change (x_r (set_own_term p true)) with (x_r p); rewrite Wp, Vp; exact H|].
  unfold cbind. rewrite Ez. eexists. exists l. split; [reflexivity|]. split; [|split; [reflexivity|exact B]].
  cbn. rewrite (sp_reports _ _ _ Pz). cbn. rewrite (sp_reports _ _ _ P), app_nil_r. reflexivity.
Qed.
Print Assumptions C93_return_of_wrong_size.
Lemma break_at x : x_term x = false -> at_opcode x 0 ->
  exec_op x = (err_if (is_sub (g_type (own_sig x))) CSubBrk ;;; act (fun x => set_own_term x true) ;;; check_return ;;; act terminate) (fetch_op 0 x).
Proof. intros T At. rewrite (exec_at x 0 BRK At eq_refl), ret_right. reflexivity. Qed.
(** BRK is the end of a vector, and what it leaves is checked against its outputs. *)
Theorem C93_break_is_checked evs x own :
  checking evs x -> x_term x = false -> sizes_known x -> at_opcode x 0 -> within x own -> g_type own = Vector ->
  same_sizes (rev (g_wout own)) (vals (x_w x)) -> same_sizes (rev (g_rout own)) (vals (x_r x)) ->
  exists x' l, exec_op x = COk (tt, x') /\ h_reports (x_h x') = h_reports (x_h x) ++ l /\ x_term x' = true /\
    both true (rev (g_wout own)) (rev (g_rout own)) (vals (x_w x)) (vals (x_r x)) l.
Proof.
  intros Ck T Sk At Ow To F1 F2. destruct (good_of x (checking_ok _ _ Ck) Sk) as [[A1 A2 A3] [B1 B2 B3]].
  rewrite (break_at x T At), (own_of _ _ Ow), To. cbn [is_sub negb err_if]. unfold cbind at 1, cret. unfold cbind at 1, act at 1. set (y := set_own_term (fetch_op 0 x) true).
  destruct (leave_says y own) as (z & l & Ez & Pz & B); [unfold y; rewrite (sp_sig _ _ _ (place_term _ _)); apply (own_of _ _ Ow)|split; assumption|split; assumption|exact T|exact F1|exact F2|].
  unfold cbind. rewrite Ez. eexists. exists l. split; [reflexivity|]. split; [cbn; rewrite (sp_reports _ _ _ Pz); reflexivity|]. split; [reflexivity|exact B].
Qed.
Print Assumptions C93_break_is_checked.
Theorem C93_break_of_wrong_size evs x own :
  checking evs x -> x_term x = false -> sizes_known x -> at_opcode x 0 -> within x own -> g_type own = Vector -> width (g_wout own) <= 255 -> width (g_rout own) <= 255 ->
  width (vals (x_w x)) <> width (g_wout own) \/ same_sizes (rev (g_wout own)) (vals (x_w x)) /\ width (vals (x_r x)) <> width (g_rout own) ->
  exists x' l, exec_op x = COk (tt, x') /\ h_reports (x_h x') = h_reports (x_h x) ++ l /\ x_term x' = true /\ In (RError CSizeMismatch) l.
Proof.
  intros Ck T Sk At Ow To L1 L2 H. destruct (good_of x (checking_ok _ _ Ck) Sk) as [[A1 A2 A3] [B1 B2 B3]].
  rewrite (break_at x T At), (own_of _ _ Ow), To. cbn [is_sub negb err_if]. unfold cbind at 1, cret. unfold cbind at 1, act at 1. set (y := set_own_term (fetch_op 0 x) true).
  destruct (leave_wrong y own) as (z & l & Ez & Pz & B); [unfold y; rewrite (sp_sig _ _ _ (place_term _ _)); apply (own_of _ _ Ow)|split; assumption|split; assumption|exact T|exact L1|exact L2|exact H|].
  unfold cbind. rewrite Ez. eexists. exists l. split; [reflexivity|]. split; [cbn; rewrite (sp_reports _ _ _ Pz); reflexivity|]. split; [reflexivity|exact B].
Qed.
Print Assumptions C93_break_of_wrong_size.
(** A subroutine does not end with BRK. *)
Theorem C93_subroutine_does_not_break x own :
  x_term x = false -> at_opcode x 0 -> within x own -> g_type own = Subroutine ->
  exists x' l, exec_op x = COk (tt, x') /\ h_reports (x_h x') = h_reports (x_h x) ++ RError CSubBrk :: l /\ x_term x' = true.
Proof.
  intros T At Ow To. rewrite (break_at x T At), (own_of _ _ Ow), To. cbn [is_sub negb err_if]. unfold cbind at 1, err, act at 1. unfold cbind at 1, act at 1.
  destruct (check_return_total (set_own_term (error CSubBrk (fetch_op 0 x)) true) eq_refl) as (z & l & Ez & Pz & _). unfold cbind. rewrite Ez. eexists. exists l. split; [reflexivity|]. split; [|reflexivity].
  cbn. rewrite (sp_reports _ _ _ Pz). cbn. rewrite <- app_assoc. reflexivity.
Qed.
Print Assumptions C93_subroutine_does_not_break.

(** ** The cases are not empty *)
Ltac computed := vm_compute; repeat split; try reflexivity; try (intros; discriminate).
Ltac at_computed := split; [computed|split; [vm_compute; reflexivity|split; [vm_compute; reflexivity|eexists; split; vm_compute; reflexivity]]].
Ltac refers_computed := split; [computed|split; [do 2 eexists; split; [vm_compute; reflexivity|split; [vm_compute; reflexivity|split; vm_compute; reflexivity]]|split; [computed|split; [computed|vm_compute; reflexivity]]]].
(** The example of the manual: the arguments are in the wrong order. *)
Definition wrong_evs : list event := evs_of (bytes "#02 suit card POP BRK @card ( Suit value -- Card ) ADD JMP2r @suit ( -- Suit ) #01 JMP2r").
Definition card_sig : signature :=
  mkSig [mkV false false false false false true false false false (bytes "Suit") None 0; mkV false false false false false false false false false [] None 0] []
        [mkV false false false false false true false false false (bytes "Card") None 0] [] Subroutine.
Example C92_case : let x := the_x 2 wrong_evs in
  checking wrong_evs x /\ x_term x = false /\ sizes_known x /\ at_opcode x 96 /\ refers_to x 266 /\ signed x 266 card_sig /\
  same_sizes (rev (g_win card_sig)) (vals (x_w x)) /\ x_pc x = 261 /\ width (vals (x_r x)) = 0 /\
  exists x', exec_op x = COk (tt, x') /\ h_reports (x_h x') = h_reports (x_h x) ++ [RError CNotAssignable].
Proof.
  cbv zeta. split; [apply is_reached; vm_compute; reflexivity|]. split; [vm_compute; reflexivity|]. split; [split; vm_compute; reflexivity|].
  split; [at_computed|]. split; [refers_computed|]. split; [do 3 eexists; vm_compute; reflexivity|]. split; [vm_compute; repeat constructor|].
  split; [vm_compute; reflexivity|]. split; [vm_compute; reflexivity|]. eexists. split; vm_compute; reflexivity.
Qed.
(** In the right order: the checker goes on with a card. *)
Definition right_evs : list event := evs_of (bytes "suit #02 card POP BRK @card ( Suit value -- Card ) ADD JMP2r @suit ( -- Suit ) #01 JMP2r").
Example C92_right_case : let x := the_x 2 right_evs in
  checking right_evs x /\ x_term x = false /\ sizes_known x /\ at_opcode x 96 /\ refers_to x 266 /\ signed x 266 card_sig /\
  same_sizes (rev (g_win card_sig)) (vals (x_w x)) /\
  exists x', exec_op x = COk (tt, x') /\ h_reports (x_h x') = h_reports (x_h x) /\ x_pc x' = 264 /\ map v_type (vals (x_w x')) = [bytes "Card"].
Proof.
  cbv zeta. split; [apply is_reached; vm_compute; reflexivity|]. split; [vm_compute; reflexivity|]. split; [split; vm_compute; reflexivity|].
  split; [at_computed|]. split; [refers_computed|]. split; [do 3 eexists; vm_compute; reflexivity|]. split; [vm_compute; repeat constructor|].
  eexists. split; [vm_compute; reflexivity|]. split; [vm_compute; reflexivity|]. split; vm_compute; reflexivity.
Qed.
(** A call with one input too few. *)
Definition few_evs : list event := evs_of (bytes "#01 card POP BRK @card ( Suit value -- Card ) ADD JMP2r").
Example C92_few_case : let x := the_x 1 few_evs in
  checking few_evs x /\ x_term x = false /\ sizes_known x /\ at_opcode x 96 /\ refers_to x 263 /\ signed x 263 card_sig /\
  width (vals (x_w x)) = 1 /\ width (g_win card_sig) = 2 /\ width (vals (x_r x)) = 0.
Proof.
  cbv zeta. split; [apply is_reached; vm_compute; reflexivity|]. split; [vm_compute; reflexivity|]. split; [split; vm_compute; reflexivity|].
  split; [at_computed|]. split; [refers_computed|]. split; [do 3 eexists; vm_compute; reflexivity|]. repeat split; vm_compute; reflexivity.
Qed.
(** The start goes over into a vector that takes two bytes and leaves one. *)
Definition over_evs : list event := evs_of (bytes "#01 #02 @next ( a b -> c ) POP2 #03 BRK").
Definition any_byte : value := mkV false false false false false false false false false [] None 0.
Example C92_over_case : let x := the_x 2 over_evs in let sig := mkSig [any_byte; any_byte] [] [any_byte] [] Vector in
  checking over_evs x /\ x_term x = false /\ sizes_known x /\ x_pc x = 260 /\ x_info x = 256 /\ signed x 260 sig /\ within x reset_sig /\
  same_sizes (rev (g_win sig)) (vals (x_w x)) /\ vals (x_r x) = [] /\
  exists x', exec_round x = COk (tt, x') /\ h_reports (x_h x') = h_reports (x_h x) ++ [RError CSizeMismatch].
Proof.
  cbv zeta. split; [apply is_reached; vm_compute; reflexivity|]. split; [vm_compute; reflexivity|]. split; [split; vm_compute; reflexivity|].
  split; [vm_compute; reflexivity|]. split; [vm_compute; reflexivity|]. split; [do 3 eexists; vm_compute; reflexivity|]. split; [do 3 eexists; vm_compute; reflexivity|].
  split; [vm_compute; repeat constructor|]. split; [vm_compute; reflexivity|]. eexists. split; vm_compute; reflexivity.
Qed.
(** The subroutine of the manual at its end, with a byte that becomes a card. *)
Example C93_return_case : let x := the_x 12 right_evs in
  checking right_evs x /\ x_term x = false /\ sizes_known x /\ at_opcode x 108 /\ within x card_sig /\
  (exists mark, vals (x_r x) = [mark] /\ return_mark mark) /\ same_sizes (rev (g_wout card_sig)) (vals (x_w x)) /\
  exists x', exec_op x = COk (tt, x') /\ h_reports (x_h x') = h_reports (x_h x).
Proof.
  cbv zeta. split; [apply is_reached; vm_compute; reflexivity|]. split; [vm_compute; reflexivity|]. split; [split; vm_compute; reflexivity|].
  split; [at_computed|]. split; [do 3 eexists; vm_compute; reflexivity|]. split; [eexists; split; [vm_compute; reflexivity|repeat split]|]. split; [vm_compute; repeat constructor|].
  eexists. split; vm_compute; reflexivity.
Qed.
(** A suit is left where a card is asked for, and two bytes where one is. *)
Definition leave_evs : list event := evs_of (bytes "BRK @sub ( Suit -- Card ) JMP2r").
Definition more_evs : list event := evs_of (bytes "BRK @sub ( Suit -- Card ) #01 JMP2r").
Example C93_wrong_case :
  (let x := the_x 3 leave_evs in checking leave_evs x /\ at_opcode x 108 /\ x_term x = false /\
    exists x', exec_op x = COk (tt, x') /\ h_reports (x_h x') = h_reports (x_h x) ++ [RError CNotAssignable]) /\
  (let x := the_x 4 more_evs in checking more_evs x /\ sizes_known x /\ at_opcode x 108 /\ x_term x = false /\ width (vals (x_w x)) = 2 /\
    exists x', exec_op x = COk (tt, x') /\ h_reports (x_h x') = h_reports (x_h x) ++ [RError CSizeMismatch]).
Proof.
  cbv zeta. split.
  - split; [apply is_reached; vm_compute; reflexivity|]. split; [at_computed|]. split; [vm_compute; reflexivity|]. eexists. split; vm_compute; reflexivity.
  - split; [apply is_reached; vm_compute; reflexivity|]. split; [split; vm_compute; reflexivity|]. split; [at_computed|]. split; [vm_compute; reflexivity|]. split; [vm_compute; reflexivity|]. eexists. split; vm_compute; reflexivity.
Qed.
(** A vector that leaves one byte, as it says. *)
Example C93_break_case : let x := the_x 7 over_evs in
  checking over_evs x /\ x_term x = false /\ sizes_known x /\ at_opcode x 0 /\ within x (mkSig [any_byte; any_byte] [] [any_byte] [] Vector) /\
  same_sizes [any_byte] (vals (x_w x)) /\ vals (x_r x) = [] /\ exists x', exec_op x = COk (tt, x') /\ h_reports (x_h x') = h_reports (x_h x).
Proof.
  cbv zeta. split; [apply is_reached; vm_compute; reflexivity|]. split; [vm_compute; reflexivity|]. split; [split; vm_compute; reflexivity|].
  split; [at_computed|]. split; [do 3 eexists; vm_compute; reflexivity|]. split; [vm_compute; repeat constructor|]. split; [vm_compute; reflexivity|]. eexists. split; vm_compute; reflexivity.
Qed.
(** A subroutine that ends with BRK, and one that goes over into a vector. *)
Definition sub_evs : list event := evs_of (bytes "BRK @sub ( -- ) #01 POP @vec ( -> ) JMP2r @wrong ( -- a ) BRK").
Example C93_subroutine_case :
  (let x := the_x 3 sub_evs in x_term x = false /\ at_opcode x 0 /\ within x (mkSig [] [] [any_byte] [] Subroutine)) /\
  (let x := the_x 11 sub_evs in x_term x = false /\ x_pc x = 260 /\ x_info x = 257 /\ signed x 260 (mkSig [] [] [] [] Vector) /\ within x (mkSig [] [] [] [] Subroutine)).
Proof.
  cbv zeta. split.
  - split; [vm_compute; reflexivity|]. split; [at_computed|do 3 eexists; vm_compute; reflexivity].
  - split; [vm_compute; reflexivity|]. split; [vm_compute; reflexivity|]. split; [vm_compute; reflexivity|]. split; do 3 eexists; vm_compute; reflexivity.
Qed.
