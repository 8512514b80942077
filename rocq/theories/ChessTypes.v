(** The checks of the values at calls and returns. *)
From Verif Require Import Base VmModel AsmModel ChessModel ChessProofs ChessSize ValueSpec ChessValue TypeSpec.
From Coq Require Import ZifyBool.
Open Scope list_scope.
Ltac Zify.zify_post_hook ::= Z.div_mod_to_equations.

Lemma width_app a b : width (a ++ b) = width a + width b.
Proof. induction a as [|v a IH]; cbn [width app]; lia. Qed.
Lemma width_nn a : 0 <= width a.
Proof. induction a as [|v a IH]; cbn [width]; unfold vsize in *; [lia|]. destruct (v_short v); lia. Qed.
Lemma width_rev a : width (rev a) = width a.
Proof. induction a as [|v a IH]; cbn [width rev]; [reflexivity|]. rewrite width_app. cbn [width]. lia. Qed.
Lemma width_same a b : same_sizes a b -> width a = width b.
Proof. induction 1 as [|v w a b E _ IH]; cbn [width]; [reflexivity|]. unfold vsize. rewrite E, IH. reflexivity. Qed.
Lemma sig_size_width l : sig_size l = u8 (width l).
Proof.
  unfold sig_size. f_equal. assert (Q : forall q n, fold_left (fun n v => n + vsize v) q n = n + width q).
  { induction q as [|v q IH]; intros n; cbn [fold_left width]; [lia|]. rewrite IH. lia. }
  rewrite Q. lia.
Qed.

(** Everything but one of the stacks and the reports. *)
Record only (r : bool) (x x' : ctx) (l : list report) : Prop := {
  on_reports : h_reports (x_h x') = h_reports (x_h x) ++ l;
  on_other : get_stack (Stk false (negb r)) x' = get_stack (Stk false (negb r)) x;
  on_pc : x_pc x' = x_pc x; on_info : x_info x' = x_info x; on_op : x_op x' = x_op x;
  on_term : x_term x' = true <-> x_term x = true \/ error_in l;
  on_sig : own_sig x' = own_sig x; on_node : h_node (x_h x') = h_node (x_h x); on_list : h_list (x_h x') = h_list (x_h x);
  on_cast : h_casts (x_h x') = h_casts (x_h x)
}.
Lemma error_nil : ~ error_in [].
Proof. intros (m & []). Qed.
Lemma error_app a b : error_in (a ++ b) <-> error_in a \/ error_in b.
Proof.
  split; [intros (m & H); apply in_app_or in H as [H|H]; [left|right]; exists m; exact H|].
  intros [(m & H)|(m & H)]; exists m; apply in_or_app; auto.
Qed.
Lemma only_refl r x : only r x x [].
Proof. split; try reflexivity; [rewrite app_nil_r; reflexivity|]. split; [auto|intros [H|H]; [exact H|destruct (error_nil H)]]. Qed.
Lemma only_trans r x y z l m : only r x y l -> only r y z m -> only r x z (l ++ m).
Proof.
  intros [A1 A2 A3 A4 A5 A6 A7 A8 A9 A10] [B1 B2 B3 B4 B5 B6 B7 B8 B9 B10]. split; try congruence; [rewrite B1, A1, app_assoc; reflexivity|].
  rewrite B6, A6, error_app. tauto.
Qed.
Lemma own_sig_error m x : own_sig (error m x) = own_sig x.
Proof. unfold own_sig, own_info, error. cbn. unfold upd_info. rewrite Z.eqb_refl. reflexivity. Qed.
Lemma only_error r m x : only r x (error m x) [RError m].
Proof. split; try reflexivity; [|apply own_sig_error]. split; [intros _; right; exists m; left; reflexivity|reflexivity]. Qed.
Lemma only_warning r m x : only r x (warning m x) [RWarning m].
Proof. split; try reflexivity. split; [intros H; left; exact H|intros [H|(q & [H|[]])]; [exact H|discriminate H]]. Qed.
Lemma stack_error p m x : get_stack p (error m x) = get_stack p x.
Proof. destruct p as [[|] [|]]; reflexivity. Qed.
Lemma stack_warning p m x : get_stack p (warning m x) = get_stack p x.
Proof. destruct p as [[|] [|]]; reflexivity. Qed.

(** ** One value *)
Lemma streq a b : str_eqb a b = true <-> a = b.
Proof. unfold str_eqb. destruct (str_dec a b); split; congruence. Qed.
Lemma starts_with_ok t a : starts_with t a = true <-> exists s, a = t ++ s.
Proof.
  unfold starts_with. rewrite andb_true_iff, streq. split.
  - intros [_ H]. exists (skipn (List.length t) a). rewrite <- H at 1. symmetry. apply firstn_skipn.
  - intros [s ->]. rewrite app_length. split; [apply Nat.leb_le; lia|]. rewrite firstn_app, Nat.sub_diag, firstn_all. cbn. apply app_nil_r.
Qed.
Lemma assignable_ok out w g : assignable out w g = true <-> fits out w g.
Proof.
  unfold assignable, fits. rewrite orb_true_iff, !andb_true_iff, negb_true_iff, starts_with_ok. tauto.
Qed.
Definition says {A} (r : bool) (m : C A) (a : A) (x : ctx) (P : list report -> Prop) : Prop :=
  exists x' l, m x = COk (a, x') /\ only r x x' l /\ P l /\ get_stack (Stk false r) x' = get_stack (Stk false r) x.
Lemma said_err r b P m x : (b = true <-> P) -> says r (err_if b m) tt x (said P (RError m)).
Proof.
  intros H. destruct b; unfold err_if.
  - exists (error m x), [RError m]. split; [reflexivity|]. split; [apply only_error|]. split; [left; split; [apply H|]; reflexivity|apply stack_error].
  - exists x, []. split; [reflexivity|]. split; [apply only_refl|]. split; [right; split; [|reflexivity]|reflexivity]. intros Q. apply H in Q. discriminate Q.
Qed.
Lemma said_warn r b P m x : (b = true <-> P) -> says r (warn_if b m) tt x (said P (RWarning m)).
Proof.
  intros H. destruct b; unfold warn_if.
  - exists (warning m x), [RWarning m]. split; [reflexivity|]. split; [apply only_warning|]. split; [left; split; [apply H|]; reflexivity|apply stack_warning].
  - exists x, []. split; [reflexivity|]. split; [apply only_refl|]. split; [right; split; [|reflexivity]|reflexivity]. intros Q. apply H in Q. discriminate Q.
Qed.
Lemma check_value_says r out w g x : says r (check_value out w g) tt x (complaint out w g).
Proof.
  unfold check_value.
  destruct (said_warn r (v_addr w && (negb (v_addr g) && negb (v_const g))) (v_addr w = true /\ v_addr g = false /\ v_const g = false) WNotAddress x) as (x1 & l1 & E1 & O1 & S1 & G1).
  { rewrite !andb_true_iff, !negb_true_iff. tauto. }
  destruct (said_err r (v_rout w && negb (v_rout g)) (v_rout w = true /\ v_rout g = false) CNotRoutine x1) as (x2 & l2 & E2 & O2 & S2 & G2).
  { rewrite andb_true_iff, negb_true_iff. tauto. }
  destruct (said_err r (v_nom w && negb (assignable out w g)) (v_nom w = true /\ ~ fits out w g) CNotAssignable x2) as (x3 & l3 & E3 & O3 & S3 & G3).
  { rewrite andb_true_iff, negb_true_iff, <- assignable_ok. destruct (assignable out w g); intuition congruence. }
  exists x3, (l1 ++ l2 ++ l3). unfold cbind. rewrite E1, E2, E3. split; [reflexivity|].
  split; [eapply only_trans; [exact O1|eapply only_trans; eauto]|]. split; [exists l1, l2, l3; auto|congruence].
Qed.

(** ** The values of a stack *)
Lemma get_set p x k : get_stack p (set_stack p x k) = k.
Proof. destruct p as [[|] [|]]; reflexivity. Qed.
Lemma only_set r x k : only r x (set_stack (Stk false r) x k) [].
Proof. destruct r; split; try reflexivity; try (rewrite app_nil_r; reflexivity); cbn; (split; [auto|intros [H|H]; [exact H|destruct (error_nil H)]]). Qed.
Lemma pop_top r x v rest : is_byte (k_len (get_stack (Stk false r) x)) -> is_byte (k_size (get_stack (Stk false r) x)) -> sized (get_stack (Stk false r) x) ->
  vals (get_stack (Stk false r) x) = v :: rest ->
  exists k, pop_from (Stk false r) (v_short v) x = COk (v, set_stack (Stk false r) x k) /\ vals k = rest /\ sized k /\ is_byte (k_len k) /\ is_byte (k_size k).
Proof.
  set (s := get_stack (Stk false r) x). intros L B S V. unfold sized in S. rewrite V in S. cbn [width] in S. pose proof (width_nn rest) as N.
  destruct (Z_le_gt_dec (k_len s) 0) as [Q|Q]; [rewrite vals_nil in V by exact Q; discriminate V|].
  pose proof (vals_cons s ltac:(lia) (u8 (k_size s - vsize v))) as V'. rewrite V in V'.
  assert (Ev : v = k_at s (k_len s - 1)) by (injection V'; auto). assert (Er : rest = vals (mkStk (k_len s - 1) (u8 (k_size s - vsize v)) (k_at s))) by (injection V'; auto).
  exists (mkStk (k_len s - 1) (u8 (k_size s - vsize v)) (k_at s)).
  split; [|split; [symmetry; exact Er|split; [unfold sized; rewrite <- Er; cbn [k_size]; unfold u8, is_byte, vsize in *; destruct (v_short v); lia|unfold is_byte, u8 in *; cbn [k_len k_size]; lia]]].
  unfold pop_from, pop_short, pop_byte, vsize in *. fold s. unfold top_of. replace (k_len s =? 0) with false by lia. rewrite <- Ev.
  destruct (v_short v) eqn:Sh; [replace (k_size s <? 2) with false by lia|replace (k_size s <? 1) with false by lia]; rewrite ?Sh; reflexivity.
Qed.
Lemma check_values_says r out l : forall x args rest, is_byte (k_len (get_stack (Stk false r) x)) -> is_byte (k_size (get_stack (Stk false r) x)) -> sized (get_stack (Stk false r) x) ->
  vals (get_stack (Stk false r) x) = args ++ rest -> same_sizes l args ->
  exists x' rp, check_values out r l x = COk (tt, x') /\ only r x x' rp /\ complaints out l args rp /\ vals (get_stack (Stk false r) x') = rest /\ sized (get_stack (Stk false r) x') /\
    is_byte (k_len (get_stack (Stk false r) x')) /\ is_byte (k_size (get_stack (Stk false r) x')).
Proof.
  induction l as [|w l IH]; intros x args rest L B S V F; inversion F as [|? g ? gs E F']; subst.
  - exists x, []. cbn [check_values]. split; [reflexivity|]. split; [apply only_refl|]. split; [constructor|]. auto.
  - cbn [app] in V. cbn [check_values]. destruct (pop_top r x g (gs ++ rest) L B S V) as (k & P & Vk & Sk & Lk & Bk). unfold cbind at 1. rewrite E, P.
    destruct (check_value_says r out w g (set_stack (Stk false r) x k)) as (y & rp & C1 & C2 & C3 & C4). unfold cbind. rewrite C1. rewrite get_set in C4.
    destruct (IH y gs rest) as (z & rq & D1 & D2 & D3 & D4); [rewrite C4; assumption..|exact F'|].
    exists z, (rp ++ rq). split; [exact D1|]. split; [|split; [constructor; assumption|exact D4]].
    change (rp ++ rq) with (([] ++ rp) ++ rq). eapply only_trans; [|exact D2]. eapply only_trans; [apply only_set|exact C2].
Qed.
(** A whole stack, when there is enough on it. *)
Lemma check_stack_says r out l x args rest : is_byte (k_len (get_stack (Stk false r) x)) -> is_byte (k_size (get_stack (Stk false r) x)) -> sized (get_stack (Stk false r) x) ->
  x_term x = false -> vals (get_stack (Stk false r) x) = args ++ rest -> same_sizes (rev l) args -> (out = true -> rest = []) ->
  exists x' rp, check_stack out r l x = COk (tt, x') /\ only r x x' rp /\ complaints out (rev l) args rp /\ vals (get_stack (Stk false r) x') = rest /\ sized (get_stack (Stk false r) x') /\
    is_byte (k_len (get_stack (Stk false r) x')) /\ is_byte (k_size (get_stack (Stk false r) x')).
Proof.
  intros L B S T V F O. unfold check_stack. cbv zeta.
  assert (Sz : k_size (get_stack (Stk false r) x) = width l + width rest) by (rewrite S, V, width_app, <- (width_same _ _ F), width_rev; reflexivity).
  pose proof (width_nn l). pose proof (width_nn rest).
  assert (Q : (if out then k_size (get_stack (Stk false r) x) =? sig_size l else sig_size l <=? k_size (get_stack (Stk false r) x)) = true).
  { rewrite sig_size_width, Sz. unfold is_byte, u8 in *. destruct out; [rewrite (O eq_refl); cbn [width]|]; lia. }
  rewrite Q, T. eapply check_values_says; eauto.
Qed.
(** And when there is not. *)
Lemma check_stack_short r (out : bool) l x : x_term x = false ->
  (if out then k_size (get_stack (Stk false r) x) <> sig_size l else k_size (get_stack (Stk false r) x) < sig_size l) ->
  check_stack out r l x = COk (tt, error CSizeMismatch x).
Proof.
  intros T H. unfold check_stack. cbv zeta. 
  assert (Q : (if out then k_size (get_stack (Stk false r) x) =? sig_size l else sig_size l <=? k_size (get_stack (Stk false r) x)) = false) by (destruct out; lia).
  rewrite Q. reflexivity.
Qed.

(** ** What a routine leaves *)
Record good (r : bool) (x : ctx) : Prop := {
  gd_len : is_byte (k_len (get_stack (Stk false r) x)); gd_size : is_byte (k_size (get_stack (Stk false r) x)); gd_sized : sized (get_stack (Stk false r) x)
}.
Lemma good_other r x x' l : only r x x' l -> good (negb r) x -> good (negb r) x'.
Proof. intros O [A B C]. split; rewrite (on_other _ _ _ _ O); assumption. Qed.
Lemma len_width l : Z.of_nat (List.length l) <= width l.
Proof. induction l as [|v l IH]; cbn [List.length width]; [lia|]. unfold vsize. destruct (v_short v); lia. Qed.
Lemma vals_length k : 0 <= k_len k -> Z.of_nat (List.length (vals k)) = k_len k.
Proof. intros H. unfold vals. rewrite map_length, seq_length. lia. Qed.
Lemma push_all_says r l : forall x, good r x -> x_term x = false -> Forall (fun v => v_lo v = false) l ->
  k_size (get_stack (Stk false r) x) + width l <= 255 ->
  exists x', push_all r l x = COk (tt, x') /\ only r x x' [] /\ good r x' /\ vals (get_stack (Stk false r) x') = rev l ++ vals (get_stack (Stk false r) x) /\ x_term x' = false.
Proof.
  induction l as [|v l IH]; intros x G T F S; cbn [push_all].
  - exists x. split; [reflexivity|]. split; [apply only_refl|]. auto.
  - inversion F as [|? ? F1 F2]; subst. cbn [width] in S. pose proof (width_nn l) as N. destruct G as [G1 G2 G3].
    set (k := get_stack (Stk false r) x) in *. unfold cbind, push_ex. fold k. rewrite T. replace (256 <? k_size k + vsize v) with false by lia.
    unfold push_value. cbv zeta. unfold rejoins. rewrite F1. cbn [andb].
    assert (Lk : k_len k < 255).
    { rewrite <- (vals_length k) by (unfold is_byte in G1; lia). pose proof (len_width (vals k)). unfold sized in G3. unfold vsize in S. destruct (v_short v); lia. }
    set (k' := mkStk _ _ _).
    assert (Vk : vals k' = v :: vals k).
    { unfold k', u8. rewrite Z.mod_small by (unfold is_byte in G1; lia). rewrite (vals_put _ _ _ (k_size k)) by (unfold is_byte in G1; lia). destruct k; reflexivity. }
    assert (Sk : k_size k' = k_size k + vsize v) by (unfold k', u8; cbn [k_size]; unfold is_byte, vsize in *; destruct (v_short v); lia).
    destruct (IH (set_stack (Stk false r) x k')) as (x' & E & O & G' & V & T'); [|destruct r; exact T|exact F2|rewrite get_set; lia|].
    { split; rewrite get_set; [apply u8_byte|apply u8_byte|]. unfold sized. rewrite Vk, Sk. cbn [width]. unfold sized in G3. lia. }
    exists x'. split; [exact E|]. split; [change (@nil report) with (@nil report ++ []); eapply only_trans; [apply only_set|exact O]|]. split; [exact G'|]. split; [|exact T'].
    rewrite V, get_set, Vk. cbn [rev]. rewrite <- app_assoc. reflexivity.
Qed.
Lemma push_all_term r l : forall x, x_term x = true -> push_all r l x = COk (tt, x).
Proof. induction l as [|v l IH]; intros x T; cbn [push_all]; [reflexivity|]. unfold cbind, push_ex. rewrite T. apply IH, T. Qed.
Lemma check_stack_term (out : bool) r l x : x_term x = true -> (if out then k_size (get_stack (Stk false r) x) = sig_size l else sig_size l <= k_size (get_stack (Stk false r) x)) ->
  check_stack out r l x = COk (tt, x).
Proof.
  intros T H. unfold check_stack. cbv zeta.
  assert (Q : (if out then k_size (get_stack (Stk false r) x) =? sig_size l else sig_size l <=? k_size (get_stack (Stk false r) x)) = true) by (destruct out; lia).
  rewrite Q, T. reflexivity.
Qed.

(** What does not change between two points of one opcode. *)
Record same_place (x x' : ctx) (l : list report) : Prop := {
  sp_reports : h_reports (x_h x') = h_reports (x_h x) ++ l;
  sp_pc : x_pc x' = x_pc x; sp_info : x_info x' = x_info x; sp_op : x_op x' = x_op x;
  sp_term : x_term x' = true <-> x_term x = true \/ error_in l;
  sp_sig : own_sig x' = own_sig x; sp_list : h_list (x_h x') = h_list (x_h x); sp_cast : h_casts (x_h x') = h_casts (x_h x)
}.
Lemma place_only r x x' l : only r x x' l -> same_place x x' l.
Proof. intros []. split; assumption. Qed.
Lemma place_trans x y z l m : same_place x y l -> same_place y z m -> same_place x z (l ++ m).
Proof. intros [A1 A3 A4 A5 A6 A7 A9 A10] [B1 B3 B4 B5 B6 B7 B9 B10]. split; try congruence; [rewrite B1, A1, app_assoc; reflexivity|]. rewrite B6, A6, error_app. tauto. Qed.
Lemma place_refl x : same_place x x [].
Proof. apply (place_only false), only_refl. Qed.

Lemma error_dec l : error_in l \/ ~ error_in l.
Proof.
  induction l as [|r l IH]; [right; apply error_nil|]. destruct IH as [IH|IH]; [left; destruct IH as (m & H); exists m; right; exact H|].
  destruct r; [left; exists m; left; reflexivity|..]; right; intros (q & [H|H]); try discriminate H; apply IH; exists q; exact H.
Qed.
Lemma both_says out lw lr x aw rw ar rr : good false x -> good true x -> x_term x = false ->
  vals (x_w x) = aw ++ rw -> same_sizes (rev lw) aw -> vals (x_r x) = ar ++ rr -> same_sizes (rev lr) ar -> (out = true -> rw = [] /\ rr = []) ->
  exists x' l, (check_stack out false lw ;;; check_stack out true lr) x = COk (tt, x') /\ same_place x x' l /\ both out (rev lw) (rev lr) aw ar l /\
    (~ error_in l -> good false x' /\ good true x' /\ vals (x_w x') = rw /\ vals (x_r x') = rr) /\ (error_in l -> lr = [] -> x_r x' = x_r x).
Proof.
  intros Gw Gr T Vw Fw Vr Fr O.
  destruct (check_stack_says false out lw x aw rw (gd_len _ _ Gw) (gd_size _ _ Gw) (gd_sized _ _ Gw) T Vw Fw (fun q => proj1 (O q))) as (y & l1 & E1 & O1 & C1 & V1 & S1 & L1 & B1).
  pose proof (good_other _ _ _ _ O1 Gr) as Gy. cbn [negb] in Gy. pose proof (on_other _ _ _ _ O1) as Ry. cbn [negb get_stack] in Ry. unfold cbind. rewrite E1.
  destruct (error_dec l1) as [Er|Er].
  - assert (Ty : x_term y = true) by (apply (on_term _ _ _ _ O1); auto).
    assert (Sz : k_size (x_r x) = width lr + width rr) by (rewrite (gd_sized _ _ Gr : sized (x_r x)), Vr, width_app, <- (width_same _ _ Fr), width_rev; reflexivity).
    pose proof (gd_size _ _ Gr) as Bz. cbn [get_stack] in Bz. pose proof (width_nn lr). pose proof (width_nn rr).
    rewrite check_stack_term; [|exact Ty|rewrite sig_size_width; cbn [get_stack]; rewrite Ry, Sz; unfold u8, is_byte in *; destruct out; [rewrite (proj2 (O eq_refl)); cbn [width]|]; lia].
    exists y, l1. split; [reflexivity|]. split; [apply (place_only false), O1|]. split; [exists l1, []; rewrite app_nil_r; auto|]. split; [tauto|]. intros _ _. exact Ry.
  - assert (Ty : x_term y = false).
    { destruct (x_term y) eqn:Q; [|reflexivity]. apply (on_term _ _ _ _ O1) in Q as [Q|Q]; [congruence|contradiction]. }
    destruct (check_stack_says true out lr y ar rr (gd_len _ _ Gy) (gd_size _ _ Gy) (gd_sized _ _ Gy) Ty ltac:(cbn [get_stack]; rewrite Ry; exact Vr) Fr (fun q => proj2 (O q))) as (z & l2 & E2 & O2 & C2 & V2 & S2 & L2 & B2).
    rewrite E2. exists z, (l1 ++ l2). split; [reflexivity|]. split; [eapply place_trans; eapply place_only; eauto|]. split; [exists l1, l2; auto|].
    pose proof (on_other _ _ _ _ O2) as Wz. cbn [negb get_stack] in Wz. cbn [get_stack] in *.
    split; [intros _; split; [split; cbn [get_stack]; rewrite Wz; assumption|split; [split; assumption|split; [rewrite Wz; exact V1|exact V2]]]|].
    intros Ee ->. exfalso. cbn [rev] in Fr. inversion Fr; subst. cbn [rev] in C2. inversion C2; subst. rewrite app_nil_r in Ee. contradiction.
Qed.
(** The inputs are taken and the outputs are put there. *)
Lemma effect_says sig x aw rw ar rr (k : C unit) : sig_declared sig -> good false x -> good true x -> x_term x = false ->
  vals (x_w x) = aw ++ rw -> same_sizes (rev (g_win sig)) aw -> vals (x_r x) = ar ++ rr -> same_sizes (rev (g_rin sig)) ar ->
  width rw + width (g_wout sig) <= 255 -> width rr + width (g_rout sig) <= 255 ->
  exists y l, (check_stack false false (g_win sig) ;;; check_stack false true (g_rin sig) ;;; push_all false (g_wout sig) ;;; push_all true (g_rout sig) ;;; k) x = k y /\
    same_place x y l /\ both false (rev (g_win sig)) (rev (g_rin sig)) aw ar l /\
    (~ error_in l -> good false y /\ good true y /\ vals (x_w y) = rev (g_wout sig) ++ rw /\ vals (x_r y) = rev (g_rout sig) ++ rr) /\
    (error_in l -> g_rin sig = [] -> x_r y = x_r x).
Proof.
  intros (_ & _ & D1 & D2) Gw Gr T Vw Fw Vr Fr S1 S2.
  assert (Lo : forall l, Forall declared l -> Forall (fun v => v_lo v = false) l) by (intros l; apply Forall_impl; intros v (_ & H & _); exact H).
  destruct (both_says false (g_win sig) (g_rin sig) x aw rw ar rr Gw Gr T Vw Fw Vr Fr ltac:(discriminate)) as (y & l & E & P & B & G & K).
  unfold cbind in *. destruct (check_stack false false (g_win sig) x) as [[u1 x1]|]; [|discriminate E]. rewrite E.
  destruct (error_dec l) as [Er|Er].
  - assert (Ty : x_term y = true) by (apply (sp_term _ _ _ P); auto). rewrite !push_all_term by exact Ty. exists y, l. split; [reflexivity|]. split; [exact P|]. split; [exact B|]. split; [tauto|exact K].
  - assert (Ty : x_term y = false).
    { destruct (x_term y) eqn:Q; [|reflexivity]. apply (sp_term _ _ _ P) in Q as [Q|Q]; [congruence|contradiction]. }
    destruct (G Er) as (G1 & G2 & V1 & V2).
    destruct (push_all_says false (g_wout sig) y G1 Ty (Lo _ D1)) as (z & E1 & O1 & Gz & Vz & Tz); [rewrite (gd_sized _ _ G1); cbn [get_stack]; rewrite V1; exact S1|].
    rewrite E1. pose proof (good_other _ _ _ _ O1 G2) as G2z. cbn [negb] in G2z. pose proof (on_other _ _ _ _ O1) as Rz. cbn [negb get_stack] in Rz, Vz.
    destruct (push_all_says true (g_rout sig) z G2z Tz (Lo _ D2)) as (t & E2 & O2 & Gt & Vt & Tt); [rewrite (gd_sized _ _ G2z); cbn [get_stack]; rewrite Rz, V2; exact S2|].
    rewrite E2. exists t, l. split; [reflexivity|]. split; [|split; [exact B|]].
    { pose proof (place_trans _ _ _ _ _ (place_trans _ _ _ _ _ P (place_only _ _ _ _ O1)) (place_only _ _ _ _ O2)) as Q. rewrite !app_nil_r in Q. exact Q. }
    pose proof (good_other _ _ _ _ O2 Gz) as Gt2. cbn [negb] in Gt2. pose proof (on_other _ _ _ _ O2) as Wt. cbn [negb get_stack] in Wt, Vt.
    split; [|tauto]. intros _. split; [exact Gt2|]. split; [exact Gt|]. rewrite Wt, Vz, Vt, Rz, V1, V2. auto.
Qed.

(** ** The end of a routine *)
Lemma place_term x b : same_place x (set_own_term x b) [].
Proof.
  split; try reflexivity; [cbn; rewrite app_nil_r; reflexivity|cbn; split; [auto|intros [H|H]; [exact H|destruct (error_nil H)]]|].
  unfold own_sig, own_info, set_own_term. cbn. unfold upd_info. rewrite Z.eqb_refl. reflexivity.
Qed.
Lemma leave_says x own : own_sig x = own -> good false x -> good true x -> x_term x = false ->
  same_sizes (rev (g_wout own)) (vals (x_w x)) -> same_sizes (rev (g_rout own)) (vals (x_r x)) ->
  exists x' l, check_return x = COk (tt, x') /\ same_place x x' l /\ both true (rev (g_wout own)) (rev (g_rout own)) (vals (x_w x)) (vals (x_r x)) l.
Proof.
  intros O Gw Gr T Fw Fr. unfold check_return. rewrite O.
  destruct (both_says true (g_wout own) (g_rout own) x (vals (x_w x)) [] (vals (x_r x)) [] Gw Gr T ltac:(rewrite app_nil_r; reflexivity) Fw ltac:(rewrite app_nil_r; reflexivity) Fr ltac:(auto)) as (x' & l & E & P & B & _).
  exists x', l. auto.
Qed.
Lemma sized_sig l k : sized k -> is_byte (k_size k) -> width l <= 255 -> (k_size k =? sig_size l) = (width (vals k) =? width l).
Proof. intros S B L. rewrite sig_size_width. pose proof (width_nn l). unfold u8, sized, is_byte in *. rewrite Z.mod_small by lia. rewrite S. reflexivity. Qed.
(** One of the stacks has the wrong size. *)
Lemma check_stack_total out r l x : x_term x = true -> exists x' q, check_stack out r l x = COk (tt, x') /\ same_place x x' q /\ x_term x' = true.
Proof.
  intros T. unfold check_stack. cbv zeta. set (b := if out then _ else _). destruct b.
  - rewrite T. exists x, []. split; [reflexivity|]. split; [apply place_refl|exact T].
  - cbn [error x_term]. exists (error CSizeMismatch x), [RError CSizeMismatch]. split; [reflexivity|]. split; [apply (place_only r), only_error|reflexivity].
Qed.
Lemma leave_wrong x own : own_sig x = own -> good false x -> good true x -> x_term x = false -> width (g_wout own) <= 255 -> width (g_rout own) <= 255 ->
  (width (vals (x_w x)) <> width (g_wout own) \/ same_sizes (rev (g_wout own)) (vals (x_w x)) /\ width (vals (x_r x)) <> width (g_rout own)) ->
  exists x' l, check_return x = COk (tt, x') /\ same_place x x' l /\ In (RError CSizeMismatch) l.
Proof.
  intros O Gw Gr T Lw Lr H. unfold check_return. rewrite O.
  pose proof (sized_sig _ _ (gd_sized _ _ Gw) (gd_size _ _ Gw) Lw) as Qw. pose proof (sized_sig _ _ (gd_sized _ _ Gr) (gd_size _ _ Gr) Lr) as Qr. cbn [get_stack] in Qw, Qr.
  destruct (Z.eq_dec (width (vals (x_w x))) (width (g_wout own))) as [Ew|Nw].
  - destruct H as [H|[F Nr]]; [contradiction|].
    destruct (check_stack_says false true (g_wout own) x (vals (x_w x)) [] (gd_len _ _ Gw) (gd_size _ _ Gw) (gd_sized _ _ Gw) T ltac:(rewrite app_nil_r; reflexivity) F ltac:(auto)) as (y & lw & E1 & O1 & C1 & _).
    pose proof (on_other _ _ _ _ O1) as Ry. cbn [negb get_stack] in Ry. unfold cbind. rewrite E1.
    assert (E2 : check_stack true true (g_rout own) y = COk (tt, error CSizeMismatch y)).
    { unfold check_stack. cbv zeta. cbn [get_stack]. rewrite Ry, Qr. replace (width (vals (x_r x)) =? width (g_rout own)) with false by lia. reflexivity. }
    rewrite E2. exists (error CSizeMismatch y), (lw ++ [RError CSizeMismatch]). split; [reflexivity|].
    split; [eapply place_trans; [eapply place_only, O1|apply (place_only true), only_error]|]. apply in_or_app. right. left. reflexivity.
  - unfold cbind. rewrite (check_stack_short false true (g_wout own) x T) by (cbn [get_stack]; lia).
    destruct (check_stack_total true true (g_rout own) (error CSizeMismatch x) eq_refl) as (x' & q & E & P & _). rewrite E.
    exists x', ([RError CSizeMismatch] ++ q). split; [reflexivity|]. split; [eapply place_trans; [apply (place_only false), only_error|exact P]|].
    left. reflexivity.
Qed.
Lemma check_return_total x : x_term x = true -> exists x' q, check_return x = COk (tt, x') /\ same_place x x' q /\ x_term x' = true.
Proof.
  intros T. unfold check_return. generalize (own_sig x). intros s. unfold cbind.
  destruct (check_stack_total true false (g_wout s) x T) as (y & q & E & P & Ty). rewrite E.
  destruct (check_stack_total true true (g_rout s) y Ty) as (z & q2 & E2 & P2 & Tz). rewrite E2.
  exists z, (q ++ q2). split; [reflexivity|]. split; [eapply place_trans; eauto|exact Tz].
Qed.
