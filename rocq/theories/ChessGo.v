(** One opcode of the type checker and of the machine, with the sizes of the
    stacks, when the checker reports no error. *)
From Verif Require Import Base VmModel AsmModel ChessModel ChessProofs ChessSize ChessDelta ChessJump ValueSpec VmProofs ChessValue ChessLock ChessSim ChessStep ChessClean ChessCast SoundSpec.
From Coq Require Import ZifyBool.
Open Scope list_scope.
Ltac Zify.zify_post_hook ::= Z.div_mod_to_equations.
Local Notation "x <- m ;; k" := (cbind m (fun x => k)) (at level 61, m at next level, right associativity).
Local Notation "m ;;; k" := (cbind m (fun _ => k)) (at level 61, right associativity).

(** The jump was seen before. *)
Definition repeated (x x' : ctx) : Prop := exists l, h_reports (x_h x') = h_reports (x_h x) ++ l /\ In RRepeat l.

(** ** Casts *)
Lemma cl_pop_real r two : cl (pop_from (Stk false r) two).
Proof.
  intros x v y Hi T E N. set (p := Stk false r) in E. unfold pop_from in E. destruct two; [|eapply pop_byte_clean; eauto].
  unfold pop_short in E. destruct (_ <? 2); [inj E; exfalso; eapply error_bad, N|].
  destruct (top_of _) as [top|]; [|discriminate]. destruct (v_short top); [inj E; rewrite set_term; exact T|].
  destruct (_ <? 2); [discriminate|]. destruct (pop_byte p x) as [[lo a]|] eqn:E1; [|discriminate]. destruct (pop_byte p a) as [[hi b]|] eqn:E2; [|discriminate]. inj E.
  pose proof (ok_pop_byte _ _ _ _ Hi E1) as G1. pose proof (ok_pop_byte _ _ _ _ (goes_has _ _ G1 Hi) E2) as G2.
  destruct (no_error_back _ _ _ G1 G2 N) as [N1 N2]. eapply pop_byte_clean; [eapply pop_byte_clean; eauto|exact E2|exact N2].
Qed.
Lemma cl_pop_inputs r l : cl (pop_inputs r l).
Proof.
  induction l as [|v l IH]; cbn [pop_inputs]; [apply cl_ret|].
  apply cl_bind; [ok_tac|intros; ok_tac|apply cl_pop_real|intros a]. apply cl_bind; [ok_tac|intros; ok_tac|exact IH|intros t; apply cl_ret].
Qed.
Lemma cl_push_outputs r l : forall i, cl (push_outputs r i l).
Proof.
  induction l as [|v l IH]; intros [|a i]; cbn [push_outputs]; try apply cl_ret.
  apply cl_bind; [ok_tac|intros; ok_tac|apply cl_act; intros x; apply set_term|intros _; apply IH].
Qed.
Lemma cl_apply_cast r l : cl (apply_cast r l).
Proof.
  unfold apply_cast. apply cl_bind; [ok_tac|intros; ok_tac|apply cl_get|intros k]. apply cl_if.
  - apply cl_bind; [ok_tac|intros; ok_tac|apply cl_pop_inputs|intros i; apply cl_push_outputs].
  - intros x u y Hi T E N. unfold err, act in E. inj E. exfalso. eapply error_bad, N.
Qed.
Lemma klist_apply_cast r l : klist (apply_cast r l).
Proof.
  unfold apply_cast. apply klist_bind; [apply klist_get|]. intros kk. apply klist_if; [|apply klist_err].
  apply klist_bind; [|].
  - generalize (rev l). intros l1. induction l1 as [|v l1 IH]; cbn [pop_inputs]; [apply klist_ret|].
    apply klist_bind; [apply klist_pop_from|]. intros a. apply klist_bind; [exact IH|]. intros t. apply klist_ret.
  - intros ins. generalize (rev ins). intros i1. revert i1. induction l as [|v l1 IH]; intros [|i i1]; cbn [push_outputs]; try apply klist_ret.
    apply klist_bind; [apply klist_act; intros q; destruct r; reflexivity|]. intros _. apply IH.
Qed.
(** What a cast needs of the path. *)
Definition sound (x : ctx) : Prop :=
  pool_ok x /\ has_info x /\ (forall r, is_byte (k_len (astack r x))) /\ all_values (half_ok (x_h x)) x.

Section Go.
Variable W : Type.
Variable dei : Z -> vm -> W -> res (Z * vm * W).
Variable deo : Z -> vm -> W -> res (vm * W).
Variable hi_first : bool.
Hypothesis HA : aloof W dei deo.
Notation st := (st W).

Section Op.
Variable op : Z.
Variable x0 : ctx.
Variable L0 : list entry.
Notation core := (core W op x0).
Notation ready := (ready W op x0).

(** Where a jump goes if it does not go to a routine. *)
Lemma cjump_goes L held m y s a n two u x' u' s' : core L held m y s -> facts a n two -> x_term y = false ->
  cjump a y = COk (u, x') -> no_error y x' -> is_sub (g_type (own_sig y)) = false ->
  jump W two n s = Ok (u', s') -> ~ is_routine x0 (s_pc W s') ->
  (forall r, astack r x' = astack r y) /\ right x' s' /\
  (x_term x' = false /\ core L held m x' s' \/ x_term x' = true /\ repeated y x').
Proof.
  intros P (Sa & Ra & Ea & Ba) T E N V F NR. unfold cjump in E. rewrite T in E. unfold cbind at 1 in E.
  set (K := if v_short a then _ else _) in E.
  assert (OK : ok_step K) by (unfold K; ok_tac).
  destruct (K y) as [[u1 z]|] eqn:EK; [|discriminate].
  pose proof (c_info _ _ _ _ _ _ _ _ P) as Hi. pose proof (OK _ _ _ Hi EK) as G1. pose proof (goes_has _ _ G1 Hi) as Hz.
  assert (OK2 : ok_step (fun x => if x_term x then COk (tt, x) else match h_infos (x_h x) (x_pc x) with
      | Some (mkInfo true (Some sig) _ _ _) => short_circuit (x_pc x) sig x
      | _ => if h_jumps (x_h x) (Z.lor (Z.shiftl (x_pc y) 16) (x_pc x)) then COk (tt, terminate (with_h x (h_report (x_h x) RRepeat)))
             else COk (tt, with_h x (h_with_jump (x_h x) (Z.lor (Z.shiftl (x_pc y) 16) (x_pc x)))) end)).
  { intros q v q' Hq Eq. destruct (x_term q); [inj Eq; apply goes_refl|].
    assert (D : (if h_jumps (x_h q) (Z.lor (Z.shiftl (x_pc y) 16) (x_pc q)) then COk (tt, terminate (with_h q (h_report (x_h q) RRepeat)))
           else COk (tt, with_h q (h_with_jump (x_h q) (Z.lor (Z.shiftl (x_pc y) 16) (x_pc q))))) = COk (v, q') -> goes q q').
    { destruct (h_jumps (x_h q) _); intros X; inj X.
      - eapply goes_trans; [|apply ok_terminate; exact Hq]. apply goes_with_h, later_report; reflexivity.
      - apply goes_with_h. constructor; cbn; auto using same_info_refl; [exists []; reflexivity|apply reported_nil; reflexivity]. }
    destruct (h_infos (x_h q) (x_pc q)) as [[[] [sig|] ? ? ?]|]; auto. eapply ok_short_circuit; eauto. }
  pose proof (OK2 _ _ _ Hz E) as G2. destruct (no_error_back _ _ _ G1 G2 N) as [N1 N2].
  assert (Q : z = with_pc y (s_pc W s') /\ s' = wpc W (s_pc W s') s).
  { unfold jump, VmModel.bind, getpc, setpc in F. apply Ok_pair in F as [_ ->]. split; [|reflexivity]. cbn [s_pc].
    unfold K in EK. rewrite Sa in EK. destruct two.
    - unfold cbind in EK. destruct (abs_jmp a y) as [[b q]|] eqn:EA; [|discriminate]. cbn in EK. apply COk_inj in EK as [_ ->].
      unfold abs_jmp in EA. destruct (v_addr a && v_ret a).
      + exfalso. unfold cbind, get, act in EA. rewrite V in EA. cbn [negb err_if] in EA. unfold err, act in EA.
        set (y1 := error CVectorReturn y) in EA. assert (H1 : has_info (set_own_term y1 true)).
        { eapply goes_has; [|exact Hi]. eapply goes_trans; [apply ok_error, Hi|]. apply ok_own_term. eapply goes_has; [apply ok_error, Hi|exact Hi]. }
        destruct (check_return (set_own_term y1 true)) as [[u2 y2]|] eqn:EC; [|discriminate]. apply COk_inj in EA as [_ <-].
        pose proof (ok_check_return _ _ _ H1 EC) as GC. eapply (error_bad CVectorReturn y).
        eapply (proj1 (no_error_back y y1 (terminate y2) (ok_error _ _ Hi) _ N1)).
        Unshelve. eapply goes_trans; [apply ok_own_term; eapply goes_has; [apply ok_error, Hi|exact Hi]|]. eapply goes_trans; [exact GC|].
        apply ok_terminate. eapply goes_has; eauto.
      + destruct (v_const a) eqn:Ca; cbn in EA; unfold cbind, act, err, cret in EA; apply COk_inj in EA as [_ <-]; [|exfalso; eapply error_bad, N1].
        rewrite (Ea eq_refl). reflexivity.
    - destruct (v_const a) eqn:Ca; unfold act, err, act in EK; apply COk_inj in EK as [_ <-]; [|exfalso; eapply error_bad, N1].
      rewrite (Ea eq_refl), (c_pc _ _ _ _ _ _ _ _ P). reflexivity. }
  destruct Q as [-> Es].
  assert (Pz : core L held m (with_pc y (s_pc W s')) s') by (rewrite Es at 2; apply core_pc, P).
  set (z := with_pc y (s_pc W s')) in *. change (x_term z) with (x_term y) in E. rewrite T in E.
  assert (NI : forall sig mk t e, h_infos (x_h z) (x_pc z) <> Some (mkInfo true (Some sig) mk t e)).
  { intros sig mk t e X. apply NR. change (s_pc W s') with (x_pc z). eapply routine_back; eauto. }
  assert (D : (if h_jumps (x_h z) (Z.lor (Z.shiftl (x_pc y) 16) (x_pc z)) then COk (tt, terminate (with_h z (h_report (x_h z) RRepeat)))
           else COk (tt, with_h z (h_with_jump (x_h z) (Z.lor (Z.shiftl (x_pc y) 16) (x_pc z))))) = COk (u, x')).
  { destruct (h_infos (x_h z) (x_pc z)) as [[[] [sig|] mk t e]|]; try exact E. exfalso. eapply NI; reflexivity. }
  assert (Rz : right z s').
  { split; [apply (c_pc _ _ _ _ _ _ _ _ Pz)|]. intros r. destruct (c_stk _ _ _ _ _ _ _ _ Pz r) as (_ & _ & R). destruct r; exact R. }
  destruct (h_jumps (x_h z) _); inj D.
  - split; [intros []; reflexivity|]. split; [destruct Rz as [R1 R2]; split; [exact R1|intros []; [apply (R2 true)|apply (R2 false)]]|].
    right. split; [reflexivity|]. exists [RRepeat]. split; [reflexivity|left; reflexivity].
  - split; [intros []; reflexivity|]. split; [destruct Rz as [R1 R2]; split; [exact R1|intros []; [apply (R2 true)|apply (R2 false)]]|].
    left. split; [exact T|]. destruct Pz as [C0 C1 C2 C3 C4 C5 C6 C7 C8 C9]. constructor; auto.
    eapply goes_trans; [exact C0|]. apply goes_with_h. constructor; cbn; auto using same_info_refl; [exists []; reflexivity|apply reported_nil; reflexivity].
Qed.

(** What holds after the last part of a jump, which starts in [y]. *)
Definition ending (y x' : ctx) (s' : st) : Prop :=
  ((forall r, astack r x' = astack r y) /\ right x' s' /\
   (x_term x' = false /\ (exists L held m, m <= 256 /\ core L held m x' s') \/ x_term x' = true /\ repeated y x'))
  \/ (exists l e, h_list (x_h x') = l ++ e :: L0 /\ right_entry e s' /\ e_info e = x_info y /\ forall r, entry_size r e = k_size (astack r y)).

Lemma conditional_goes held m y s c nc a n two u x' u' s' : m <= 256 -> core L0 held m y s -> facts c nc false -> facts a n two -> x_term y = false ->
  jump_conditional c a y = COk (u, x') -> no_error y x' -> is_sub (g_type (own_sig y)) = false ->
  (if negb (nc =? 0) then jump W two n else VmModel.ret W tt) s = Ok (u', s') -> ~ is_routine x0 (s_pc W s') ->
  ending y x' s'.
Proof.
  intros Hm P Fc Fa T E N V F NR. unfold jump_conditional in E. destruct (v_const c && v_fork c) eqn:K.
  - destruct Fc as (_ & _ & Ec & _). destruct (v_const c); [|discriminate K]. rewrite Ec in E by reflexivity.
    destruct (nc =? 0); cbn [negb] in F.
    + inj E. apply Ok_pair in F as [_ ->]. left. split; [reflexivity|]. split; [|left; split; [exact T|eauto]].
      split; [apply (c_pc _ _ _ _ _ _ _ _ P)|]. intros r. destruct (c_stk _ _ _ _ _ _ _ _ P r) as (_ & _ & R). destruct r; exact R.
    + destruct (cjump_goes _ _ _ _ _ _ _ _ _ _ _ _ P Fa T E N V F NR) as (A1 & A2 & A3). left. split; [exact A1|]. split; [exact A2|].
      destruct A3 as [[A3 A4]|A3]; [left; eauto 6|right; exact A3].
  - unfold cbind, fork, act in E.
    set (e := mkEntry (x_info y) (x_w y) (x_r y) (x_pc y)) in E. set (z := with_h y (h_with_list (x_h y) (e :: h_list (x_h y)))) in E.
    destruct (nc =? 0); cbn [negb] in F.
    + right. apply Ok_pair in F as [_ ->]. exists [], e. split; [|split; [eapply right_here, P|split; [reflexivity|intros []; reflexivity]]].
      rewrite (list_cjump _ _ _ _ E). cbn. rewrite (c_list _ _ _ _ _ _ _ _ P). reflexivity.
    + assert (Pz : core (e :: L0) held m z s).
      { destruct P as [C0 C1 C2 C3 C4 C5 C6 C7 C8 C9]. constructor; auto.
        - eapply goes_trans; [exact C0|]. apply (ok_fork (fun e => e) y tt z C2 eq_refl).
        - cbn. congruence. }
      assert (Nz : no_error z x') by exact N.
      destruct (cjump_goes _ _ _ _ _ _ _ _ _ _ _ _ Pz Fa T E Nz V F NR) as (A1 & A2 & A3). left.
      split; [intros r; rewrite (A1 r); destruct r; reflexivity|]. split; [exact A2|].
      destruct A3 as [[A3 A4]|A3]; [left; eauto 6|right; exact A3].
Qed.

(** An operand is taken. *)
Lemma takes_pop L held m two x s v y n t x' : ready L held m x s -> xok x -> x_term x = false ->
  pop_ex two (fr op) x = COk (v, y) -> pop W (fk op) (fr op) two s = Ok (n, t) -> goes y x' -> no_error x x' ->
  ready L (v :: held) m y t /\ facts v n two /\ xok y /\ x_term y = false /\ no_error y x' /\ h_reports (x_h y) = h_reports (x_h x) /\ own_sig y = own_sig x /\
  x_info y = x_info x /\ x_pc y = x_pc x /\ s_pc W t = s_pc W s /\
  (forall p, size_of p y = u8 (size_of p x + at_ (Stk (fk op) (fr op)) (- wbytes two) p)) /\
  (forall p, at_ (Stk (fk op) (fr op)) (wbytes two) p <= size_of p x).
Proof.
  intros R X T E F G N. pose proof (ready_core _ _ _ _ _ _ _ _ R) as P. pose proof (c_info _ _ _ _ _ _ _ _ P) as Hi.
  pose proof (ok_pop_ex _ _ _ _ _ Hi E) as G1. destruct (no_error_back _ _ _ G1 G N) as [N1 N2].
  pose proof (pop_ex_clean _ _ _ _ _ Hi T E N1) as Ty.
  edestruct ready_pop as (R' & R1 & R2 & R3 & R4 & R5); [exact R|exact Ty|exact E|exact F|].
  destruct (tr_pop_ex two (fr op) _ _ _ X E) as [Xy _].
  destruct (sh_pop_ex op two (fr op) _ _ _ X (c_op _ _ _ _ _ _ _ _ P) T E Ty) as (A1 & A2 & _).
  pose proof (ready_core _ _ _ _ _ _ _ _ R') as Py. pose proof (pop_mem _ _ _ _ _ _ _ F) as [_ Mp].
  split; [exact R'|]. split; [red; auto|]. split; [exact Xy|]. split; [exact Ty|]. split; [exact N2|]. split; [exact R5|].
  split; [|split; [apply (g_info _ _ G1)|split; [|split; [exact Mp|split; [exact A2|exact A1]]]]].
  - unfold own_sig, own_info. pose proof (l_infos _ _ (g_h _ _ G1) (x_info x)) as S. rewrite (g_info _ _ G1).
    destruct (h_infos (x_h x) (x_info x)), (h_infos (x_h y) (x_info x)); cbn in S; try contradiction; [|reflexivity]. destruct S as (_ & -> & _). reflexivity.
  - rewrite (c_pc _ _ _ _ _ _ _ _ Py), (c_pc _ _ _ _ _ _ _ _ P). exact Mp.
Qed.

(** A return address is put. *)
Lemma gives_push L held m r v x s y n u t u' x' : core L held m x s -> xok x -> x_term x = false -> m <= 254 -> v_hi v = false -> v_lo v = false -> means v n ->
  push_ex r v x = COk (u, y) -> push W r (v_short v) n s = Ok (u', t) -> goes y x' -> no_error x x' ->
  core L held (m + 2) y t /\ xok y /\ x_term y = false /\ no_error y x' /\ h_reports (x_h y) = h_reports (x_h x) /\ own_sig y = own_sig x /\ x_info y = x_info x /\
  (forall p, size_of p y = u8 (size_of p x + at_ (Stk false r) (vsize v) p)).
Proof.
  intros P X T Hm V1 V2 Mn E F G N. pose proof (c_info _ _ _ _ _ _ _ _ P) as Hi.
  pose proof (ok_push_ex _ _ _ _ _ Hi E) as G1. destruct (no_error_back _ _ _ G1 G N) as [N1 N2].
  pose proof (cl_push_ex _ _ _ _ _ Hi T E N1) as Ty.
  assert (Hv : half_ok (x_h x) v) by (intros [A|A]; congruence).
  destruct (core_push _ _ _ _ _ _ _ _ _ _ _ _ _ _ _ P Hm Ty Hv Mn E F) as (P' & R1 & R2).
  assert (Vk : vok v) by (intros _; exact V2).
  destruct (tr_push_ex r v Vk _ _ _ X E) as [Xy _].
  destruct (sh_push_ex op r v (vsize v) Vk eq_refl _ _ _ X (c_op _ _ _ _ _ _ _ _ P) T E Ty) as (_ & A2 & _).
  split; [exact P'|]. split; [exact Xy|]. split; [exact Ty|]. split; [exact N2|]. split; [exact R1|]. split; [|split; [apply (g_info _ _ G1)|exact A2]].
  unfold own_sig, own_info. rewrite R2, (g_info _ _ G1). reflexivity.
Qed.
End Op.

Lemma core_sound op x0 L held m x s : core W op x0 L held m x s -> sound x.
Proof.
  intros P. split; [apply (c_pool _ _ _ _ _ _ _ _ P)|]. split; [apply (c_info _ _ _ _ _ _ _ _ P)|]. split; intros r.
  - destruct (c_stk _ _ _ _ _ _ _ _ P r) as (A & _). destruct r; exact A.
  - destruct (c_stk _ _ _ _ _ _ _ _ P r) as (_ & A & _). destruct r; exact A.
Qed.
(** What holds after an opcode of a path without error: [Z] are the sizes. *)
Definition outcome (x x' : ctx) (s' : st) (Z : bool -> Z) : Prop :=
  ((forall r, size_of (Stk false r) x' = Z r) /\ right x' s' /\ (x_term x' = false /\ byte_cells s' /\ sound x' \/ x_term x' = true /\ repeated x x'))
  \/ (exists l e, h_list (x_h x') = l ++ e :: h_list (x_h x) /\ right_entry e s' /\ e_info e = x_info x /\ forall r, entry_size r e = Z r).

Lemma ending_outcome op x0 y x' s' x (Z : bool -> Z) : h_reports (x_h y) = h_reports (x_h x) -> x_info y = x_info x ->
  (forall r, size_of (Stk false r) y = Z r) -> ending op x0 (h_list (x_h x)) y x' s' -> outcome x x' s' Z.
Proof.
  intros Er Ei Hs [(A1 & A2 & A3)|(l & e & B1 & B2 & B3 & B4)].
  - left. split; [intros r; rewrite <- Hs; unfold size_of; specialize (A1 r); destruct r; cbn [astack] in A1; cbn [get_stack]; congruence|].
    split; [exact A2|]. destruct A3 as [(T & L & held & m & Hm & P)|(T & l & R1 & R2)].
    + left. split; [exact T|]. split; [apply (c_bytes _ _ _ _ _ _ _ _ P)|apply (core_sound _ _ _ _ _ _ _ P)].
    + right. split; [exact T|]. exists l. rewrite R1, Er. auto.
  - right. exists l, e. split; [exact B1|]. split; [exact B2|]. split; [congruence|]. intros r. rewrite B4, <- Hs. destruct r; reflexivity.
Qed.
Lemma cjump_ending op x0 L held m y s a n two u x' u' s' : m <= 256 -> core W op x0 L held m y s -> facts a n two -> x_term y = false ->
  cjump a y = COk (u, x') -> no_error y x' -> is_sub (g_type (own_sig y)) = false ->
  jump W two n s = Ok (u', s') -> ~ is_routine x0 (s_pc W s') -> forall L0, ending op x0 L0 y x' s'.
Proof.
  intros Hm P Fa T E N V F NR L0. destruct (cjump_goes _ _ _ _ _ _ _ _ _ _ _ _ _ _ P Fa T E N V F NR) as (A1 & A2 & A3).
  left. split; [exact A1|]. split; [exact A2|]. destruct A3 as [[A3 A4]|A3]; [left; eauto 6|right; exact A3].
Qed.

Lemma jump_step op l u x x' s s' : before W x s -> xok x -> x_term x = false -> dispatch op = Some l -> jump_label l = true ->
  run_label l (fetch_op op x) = COk (u, x') -> exec_label W dei deo hi_first l (wpc W (u16 (s_pc W s + 1)) s) = Ok (true, s') ->
  no_error x x' -> is_sub (g_type (own_sig x)) = false ->
  (forall r, label_need op l (Stk (fk op) r) <= size_of (Stk false r) x) /\
  (~ is_routine x (s_pc W s') -> outcome x x' s' (fun r => u8 (size_of (Stk false r) x + label_delta op l (Stk false r)))).
Proof.
  intros H X T D J E F N V. pose proof (b_code _ _ _ H) as [Bp _].
  pose proof (dispatch_flags _ _ D) as Fl. unfold flags_ok in Fl. cbn [fst snd] in Fl.
  pose proof (before_core _ _ _ op H) as Co. pose proof (near_next _ _ _ op H) as Nr.
  set (x0 := fetch_op op x) in *. set (s0 := wpc W (u16 (s_pc W s + 1)) s) in *.
  assert (X0 : xok x0) by (apply xok_fetch, X). assert (T0 : x_term x0 = false) by exact T. assert (N0 : no_error x0 x') by exact N.
  assert (V0 : is_sub (g_type (own_sig x0)) = false) by exact V.
  assert (S0 : forall k r, size_of (Stk k r) x0 = size_of (Stk false r) x) by (intros [] []; reflexivity).
  assert (Sb : forall r, 0 <= size_of (Stk false r) x < 256) by (intros r; apply (size_byte (Stk false r) x X)).
  pose proof (c_info _ _ _ _ _ _ _ _ Co) as Hi.
  (* the target after the opcode *)
  assert (Tg : forall (k : value -> C unit), (forall a, ok_step (k a)) -> cbind ChessModel.jump_target k x0 = COk (u, x') ->
     k (return_sub (goal_of W s0)) (with_pc x0 (u16 (s_pc W s0 + 2))) = COk (u, x')).
  { intros k Ok Ek. unfold cbind in Ek. destruct (ChessModel.jump_target x0) as [[a y]|] eqn:E2; [|discriminate].
    pose proof (ok_jump_target _ _ _ Hi E2) as G1. pose proof (Ok _ _ _ _ (goes_has _ _ G1 Hi) Ek) as G2.
    destruct (no_error_back _ _ _ G1 G2 N0) as [N1 N2].
    assert (Ty : x_term y = false).
    { unfold ChessModel.jump_target, cbind, next_pc, get in E2. destruct (_ && _) in E2.
      - unfold get_rom in E2. destruct (_ <? _); [discriminate|]. destruct (_ <? _); [discriminate|]. apply COk_inj in E2 as [_ <-]. exact T.
      - unfold err, act, cret in E2. apply COk_inj in E2 as [_ <-]. exfalso. specialize (N1 [RError CBadJumpTarget] eq_refl). discriminate N1. }
    destruct (target_spec _ _ _ _ _ _ _ _ _ _ Co Nr E2 Ty) as [-> ->]. exact Ek. }
  set (p := u16 (s_pc W s0 + 2)) in *. set (x1 := with_pc x0 p) in *.
  assert (X1 : xok x1) by (apply (tf_pc (fun _ => p)), X0).
  assert (S1 : forall q, size_of q x1 = size_of q x0) by (intros [[] []]; reflexivity).
  destruct l as [| | | | r two|b k r two]; try discriminate J.
  - (* JCI *)
    assert (Fk : fk op = false) by (apply Bool.negb_true_iff; exact Fl). pose proof (dispatch_JCI _ D) as Fr.
    assert (R : ready W op x0 (h_list (x_h x)) [] 250 x0 s0) by (eapply (before_ready _ _ _ op false (fr op)); [exact H|auto|reflexivity|reflexivity]).
    cbn [run_label exec_label] in E, F. apply (Tg (fun a => c <- pop_ex false false ;; jump_conditional c a)) in E; [|intros; ok_tac].
    assert (G : VmModel.bind W (pop W (fk op) (fr op) false) (fun nc => if negb (nc =? 0) then jump W true (goal_of W s0) else VmModel.ret W tt) (wpc W p s0) = Ok (tt, s')).
    { rewrite Fk, Fr. unfold VmModel.bind at 1 in F. destruct (pop W false false false s0) as [[nc t]|] eqn:F2; [|discriminate].
      unfold VmModel.bind at 1. rewrite (pop_wpc _ _ _ _ p _ _ _ F2). apply pop_mem in F2 as [M1 M2].
      unfold VmModel.bind, getpc in F. destruct (negb (nc =? 0)).
      - destruct (load W _ _ _ t) as [[b t']|] eqn:F3; [|discriminate]. apply m_load in F3 as [-> ->].
        unfold setpc in F. apply Ok_pair in F as [_ ->]. rewrite jump_wpc, M1, M2. reflexivity.
      - unfold setpc in F. apply Ok_pair in F as [_ ->]. rewrite M2. reflexivity. }
    replace (pop_ex false false) with (pop_ex false (fr op)) in E by (rewrite Fr; reflexivity).
    pose proof (ready_pc _ _ _ _ _ _ _ _ p R) as R1. fold x1 in R1. unfold cbind at 1 in E. unfold VmModel.bind at 1 in G.
    destruct (pop_ex false (fr op) x1) as [[c y]|] eqn:E1; [|discriminate]. destruct (pop W (fk op) (fr op) false (wpc W p s0)) as [[nc t]|] eqn:F1; [|discriminate].
    pose proof (ok_pop_ex _ _ _ _ _ (c_info _ _ _ _ _ _ _ _ (ready_core _ _ _ _ _ _ _ _ R1)) E1) as G1.
    pose proof (ok_jump_conditional _ _ _ _ _ (goes_has _ _ G1 (c_info _ _ _ _ _ _ _ _ (ready_core _ _ _ _ _ _ _ _ R1))) E) as G2.
    assert (T1 : x_term x1 = false) by exact T. assert (N1 : no_error x1 x') by exact N.
    destruct (takes_pop _ _ _ _ _ _ _ _ _ _ _ _ _ R1 X1 T1 E1 F1 G2 N1) as (R2 & Fc & Xy & Ty & Ny & Ry & Oy & Iy & Py & Pt & Zy & Needy).
    split.
    + intros q. specialize (Needy (Stk (fk op) q)). rewrite S1, S0 in Needy. cbn [label_need]. rewrite Fk, Fr in *. exact Needy.
    + intros NR0; eapply (ending_outcome op x0 y); [exact Ry|exact Iy| |eapply conditional_goes with (m := 250) (nc := nc) (a := return_sub (goal_of W s0)); [lia|apply ready_core; exact R2|exact Fc|apply goal_facts|exact Ty|exact E|exact Ny| |exact G|exact NR0]].
      * intros q. rewrite Zy, S1, S0. cbn [label_delta]. rewrite Fk, Fr. reflexivity.
      * rewrite Oy. exact V.
  - (* JMI *)
    cbn [run_label exec_label] in E, F. apply (Tg cjump) in E; [|intros; ok_tac].
    unfold VmModel.bind, getpc in F. destruct (load W _ _ _ s0) as [[b t]|] eqn:F1; [|discriminate]. apply m_load in F1 as [-> ->].
    unfold setpc in F. apply Ok_pair in F as [_ ->].
    split; [intros q; cbn [label_need]; unfold zero; specialize (Sb q); lia|].
    intros NR0; eapply (ending_outcome op x0 x1); [reflexivity|reflexivity| |].
    + intros q. rewrite S1, S0. cbn [label_delta]. unfold zero. rewrite Z.add_0_r. unfold u8. rewrite Z.mod_small by apply Sb. reflexivity.
    + eapply (cjump_ending op x0 _ [] 250 x1 (wpc W p s0) (return_sub (goal_of W s0)) (goal_of W s0) true); [lia|apply core_pc, Co|apply goal_facts|exact T|exact E|exact N|exact V|apply jump_wpc|exact NR0].
  - (* JSI *)
    cbn [run_label exec_label] in E, F. apply (Tg (fun a => jump_stash a false)) in E; [|intros; ok_tac].
    assert (G : VmModel.bind W (push W true true (s_pc W s0 + 2)) (fun _ => jump W true (goal_of W s0)) (wpc W p s0) = Ok (tt, s')).
    { unfold VmModel.bind, getpc in F. change (push2 W true (s_pc W s0 + 2) s0) with (push W true true (s_pc W s0 + 2) s0) in F.
      destruct (push W true true _ s0) as [[u1 t]|] eqn:F1; [|discriminate].
      unfold VmModel.bind at 1. rewrite (push_wpc _ _ _ _ p _ _ _ F1). apply push_mem in F1 as [M1 M2].
      destruct (load W _ _ _ t) as [[b t']|] eqn:F2; [|discriminate]. apply m_load in F2 as [-> ->].
      unfold setpc in F. apply Ok_pair in F as [_ ->]. rewrite jump_wpc, M1. unfold goal_of. reflexivity. }
    unfold jump_stash, cbind at 1, get in E. change (x_pc x1) with p in E. unfold cbind in E. unfold VmModel.bind in G. cbn [negb] in E.
    destruct (push_ex true (return_sub p) x1) as [[u1 y]|] eqn:E1; [|discriminate]. destruct (push W true true _ (wpc W p s0)) as [[u2 t]|] eqn:F1; [|discriminate].
    pose proof (core_pc _ _ _ _ _ _ _ _ p Co) as C1. fold x1 in C1.
    pose proof (ok_push_ex _ _ _ _ _ (c_info _ _ _ _ _ _ _ _ C1) E1) as G1. pose proof (ok_cjump _ _ _ _ (goes_has _ _ G1 (c_info _ _ _ _ _ _ _ _ C1)) E) as G2.
    assert (T1 : x_term x1 = false) by exact T. assert (N1 : no_error x1 x') by exact N.
    edestruct (gives_push op x0 (h_list (x_h x)) [] 250 true (return_sub p) x1 (wpc W p s0)) as (C2 & Xy & Ty & Ny & Ry & Oy & Iy & Zy);
      [exact C1|exact X1|exact T1|lia|reflexivity|reflexivity| |exact E1|exact F1|exact G2|exact N1|].
    { intros _. reflexivity. }
    split; [intros q; cbn [label_need]; unfold zero; specialize (Sb q); lia|].
    intros NR0; eapply (ending_outcome op x0 y); [exact Ry|exact Iy| |].
    + intros q. rewrite Zy, S1, S0. reflexivity.
    + eapply (cjump_ending op x0 _ [] (250 + 2) y t (return_sub (goal_of W s0)) (goal_of W s0) true); [lia|exact C2|apply goal_facts|exact Ty|exact E|exact Ny|rewrite Oy; exact V|exact G|exact NR0].
  - (* JMP, JCN, JSR *)
    assert (Ek : k = fk op /\ r = fr op /\ two = f2 op) by (destruct k, r, two, (fk op), (fr op), (f2 op); try discriminate Fl; auto).
    destruct Ek as (Ek & Er & Et). unfold exec_label, VmModel.bind at 1 in F. destruct (keep_prologue W k r _) as [[u1 t]|] eqn:F2; [|discriminate].
    destruct (before_ready _ _ _ op k r t u1 H Ek Er F2) as (R & Pt & _). subst k r two. fold x0 in R.
    unfold VmModel.bind at 1 in F. destruct (poly_op W dei deo hi_first b _ _ _ t) as [[u2 t']|] eqn:F3; [|discriminate]. apply Ok_pair in F as [_ ->].
    assert (Fx : flag_2 x0 = f2 op) by reflexivity. assert (Fr : flag_r x0 = fr op) by reflexivity.
    destruct b; try discriminate J; cbn [run_label ChessModel.poly poly_op] in E, F3.
    + (* JMP *)
      unfold cbind at 1 in E. unfold VmModel.bind at 1 in F3. destruct (cpop x0) as [[a y]|] eqn:E1; [|discriminate]. unfold cpop in E1. rewrite Fx, Fr in E1.
      destruct (pop W _ _ _ t) as [[na t1]|] eqn:F1; [|discriminate].
      pose proof (ok_pop_ex _ _ _ _ _ Hi E1) as G1. pose proof (ok_cjump _ _ _ _ (goes_has _ _ G1 Hi) E) as G2.
      destruct (takes_pop _ _ _ _ _ _ _ _ _ _ _ _ _ R X0 T0 E1 F1 G2 N0) as (R2 & Fa & Xy & Ty & Ny & Ry & Oy & Iy & Py & Pt1 & Zy & Needy).
      split; [intros q; specialize (Needy (Stk (fk op) q)); rewrite S0 in Needy; exact Needy|].
      intros NR0; eapply (ending_outcome op x0 y); [exact Ry|exact Iy| |].
      * intros q. rewrite Zy, S0. unfold label_delta, delta, at_. f_equal. f_equal.
        destruct (fk op), (fr op), q; cbn; unfold wbytes; try destruct (f2 op); cbn; lia.
      * eapply (cjump_ending op x0 _ _ 250); [lia|apply ready_core; exact R2|exact Fa|exact Ty|exact E|exact Ny|rewrite Oy; exact V|exact F3|exact NR0].
    + (* JCN *)
      unfold cbind at 1 in E. unfold VmModel.bind at 1 in F3. destruct (cpop x0) as [[a y]|] eqn:E1; [|discriminate]. unfold cpop in E1. rewrite Fx, Fr in E1.
      destruct (pop W _ _ _ t) as [[na t1]|] eqn:F1; [|discriminate].
      assert (Ok2 : ok_step (r <- get flag_r ;; c <- pop_ex false r ;; jump_conditional c a)) by ok_tac.
      pose proof (ok_pop_ex _ _ _ _ _ Hi E1) as G1. pose proof (goes_has _ _ G1 Hi) as Hy. pose proof (Ok2 _ _ _ Hy E) as G2.
      destruct (takes_pop _ _ _ _ _ _ _ _ _ _ _ _ _ R X0 T0 E1 F1 G2 N0) as (R2 & Fa & Xy & Ty & Ny & Ry & Oy & Iy & Py & Pt1 & Zy & Needy).
      unfold cbind at 1, get in E. rewrite (flagr op y) in E by (eapply ready_op, R2). unfold cbind at 1 in E. unfold VmModel.bind at 1 in F3.
      destruct (pop_ex false (fr op) y) as [[c z]|] eqn:E2; [|discriminate]. destruct (pop W (fk op) (fr op) false t1) as [[nc t2]|] eqn:F4; [|discriminate].
      pose proof (ok_pop_ex _ _ _ _ _ Hy E2) as G3. pose proof (ok_jump_conditional _ _ _ _ _ (goes_has _ _ G3 Hy) E) as G4.
      destruct (takes_pop _ _ _ _ _ _ _ _ _ _ _ _ _ R2 Xy Ty E2 F4 G4 Ny) as (R3 & Fc & Xz & Tz & Nz & Rz & Oz & Iz & Pz & Pt2 & Zz & Needz).
      assert (Sx : 0 <= size_of (Stk (fk op) (fr op)) x0 < 256) by (apply (size_byte _ _ X0)).
      split.
      * intros q. cbn [label_need]. unfold need. specialize (Needy (Stk (fk op) (fr op))). specialize (Needz (Stk (fk op) (fr op))). rewrite Zy in Needz.
        unfold at_ in *. rewrite same_stack_refl in Needy, Needz. specialize (Sb q). rewrite S0 in *.
        destruct (same_stack (Stk (fk op) q) (Stk (fk op) (fr op))) eqn:Sm; [|lia]. apply same_stack_spec in Sm. injection Sm as ->.
        unfold takes. unfold wbytes, u8 in *. destruct (f2 op); lia.
      * intros NR0; eapply (ending_outcome op x0 z); [rewrite Rz, Ry; reflexivity|rewrite Iz, Iy; reflexivity| |].
        -- intros q. rewrite Zz, Zy, S0. specialize (Sb q). unfold label_delta, delta, at_. unfold same_stack. cbn [shadow ret_stack].
           destruct (fk op), (fr op), q; cbn; unfold wbytes, u8; try destruct (f2 op); cbn; lia.
        -- eapply (conditional_goes op x0 (h_list (x_h x)) _ 250); [lia|apply ready_core; exact R3|exact Fc|exact Fa|exact Tz|exact E|exact Nz|rewrite Oz, Oy; exact V|exact F3|exact NR0].
    + (* JSR *)
      unfold VmModel.bind at 1, getpc in F3. apply jsr_swap in F3. pose proof (c_pc _ _ _ _ _ _ _ _ (ready_core _ _ _ _ _ _ _ _ R)) as Pc. rewrite <- Pc in F3.
      unfold cbind at 1 in E. unfold VmModel.bind at 1 in F3. destruct (cpop x0) as [[a y]|] eqn:E1; [|discriminate]. unfold cpop in E1. rewrite Fx, Fr in E1.
      destruct (pop W _ _ _ t) as [[na t1]|] eqn:F1; [|discriminate].
      assert (Ok2 : ok_step (r <- get flag_r ;; jump_stash a r)) by ok_tac.
      pose proof (ok_pop_ex _ _ _ _ _ Hi E1) as G1. pose proof (goes_has _ _ G1 Hi) as Hy. pose proof (Ok2 _ _ _ Hy E) as G2.
      destruct (takes_pop _ _ _ _ _ _ _ _ _ _ _ _ _ R X0 T0 E1 F1 G2 N0) as (R2 & Fa & Xy & Ty & Ny & Ry & Oy & Iy & Py & Pt1 & Zy & Needy).
      unfold cbind at 1, get in E. rewrite (flagr op y) in E by (eapply ready_op, R2). unfold jump_stash, cbind at 1, get in E. rewrite Py in E.
      unfold cbind in E. unfold VmModel.bind in F3.
      destruct (push_ex (negb (fr op)) (return_sub (x_pc x0)) y) as [[u3 z]|] eqn:E2; [|discriminate].
      destruct (push W (negb (fr op)) true (x_pc x0) t1) as [[u4 t2]|] eqn:F4; [|discriminate].
      pose proof (ok_push_ex _ _ _ _ _ Hy E2) as G3. pose proof (ok_cjump _ _ _ _ (goes_has _ _ G3 Hy) E) as G4.
      edestruct (gives_push op x0 (h_list (x_h x)) [a] 250 (negb (fr op)) (return_sub (x_pc x0)) y t1) as (C3 & Xz & Tz & Nz & Rz & Oz & Iz & Zz);
        [apply ready_core; exact R2|exact Xy|exact Ty|lia|reflexivity|reflexivity| |exact E2|exact F4|exact G4|exact Ny|].
      { intros _. cbn. rewrite Z.mod_small; [reflexivity|]. unfold u16. lia. }
      split; [intros q; specialize (Needy (Stk (fk op) q)); rewrite S0 in Needy; exact Needy|].
      intros NR0; eapply (ending_outcome op x0 z); [rewrite Rz, Ry; reflexivity|rewrite Iz, Iy; reflexivity| |].
      * intros q. rewrite Zz, Zy, S0. specialize (Sb q). unfold label_delta, delta, at_. unfold same_stack. cbn [shadow ret_stack].
        destruct (fk op), (fr op), q; cbn; unfold wbytes, u8; try destruct (f2 op); cbn; lia.
      * eapply (cjump_ending op x0 _ _ (250 + 2)); [lia|exact C3|exact Fa|exact Tz|exact E|exact Nz|rewrite Oz, Oy; exact V|exact F3|exact NR0].
Qed.

(** Any opcode but BRK, without the casts after it. *)
Lemma label_step op l u x x' s s' : before W x s -> xok x -> x_term x = false -> dispatch op = Some l ->
  run_label l (fetch_op op x) = COk (u, x') -> exec_label W dei deo hi_first l (wpc W (u16 (s_pc W s + 1)) s) = Ok (true, s') ->
  no_error x x' -> is_sub (g_type (own_sig x)) = false ->
  (forall r, label_need op l (Stk (fk op) r) <= size_of (Stk false r) x) /\
  (~ is_routine x (s_pc W s') -> outcome x x' s' (fun r => u8 (size_of (Stk false r) x + label_delta op l (Stk false r)))).
Proof.
  intros H X T D E1 F1 N V.
  destruct (straight_label l) eqn:S.
  - assert (X0 : xok (fetch_op op x)) by (apply xok_fetch, X). assert (N0 : no_error (fetch_op op x) x') by exact N.
    pose proof (cl_straight l S _ _ _ (ok_own _ X0) T E1 N0) as T'.
    destruct (sh_label op l S _ _ _ X0 eq_refl T E1 T') as (A1 & A2 & _).
    split; [intros r; specialize (A1 (Stk (fk op) r)); replace (size_of (Stk (fk op) r) (fetch_op op x)) with (size_of (Stk false r) x) in A1 by (destruct (fk op), r; reflexivity); exact A1|].
    assert (S0 : forall r, size_of (Stk false r) x' = u8 (size_of (Stk false r) x + label_delta op l (Stk false r))).
    { intros r. rewrite A2. destruct r; reflexivity. }
    intros NR. destruct (label_post W dei deo hi_first HA op l u x x' s s' H D E1 F1 T' NR) as [(L & held & m & Hm & P)|(k & e & P1 & P2)].
    + left. split; [exact S0|]. split; [split; [apply (c_pc _ _ _ _ _ _ _ _ P)|]|left; split; [exact T'|split; [apply (c_bytes _ _ _ _ _ _ _ _ P)|apply (core_sound _ _ _ _ _ _ _ P)]]].
      intros r. destruct (c_stk _ _ _ _ _ _ _ _ P r) as (_ & _ & R). destruct r; exact R.
    + right. exists k, e. split; [exact P1|]. split; [exact P2|].
      destruct (aside_straight l S _ _ _ E1 T' (ok_own _ X0) k e P1) as [Q1 Q2]. split; [exact Q1|]. intros r. rewrite Q2. apply S0.
  - destruct (jump_label l) eqn:J; [eapply jump_step; eauto|]. exfalso. destruct l as [| | | |r two|b k r two]; try discriminate.
    destruct b; discriminate.
Qed.

(** One cast. *)
Lemma one_cast r l x u x' (s' : st) : xok x -> sound x -> x_term x = false -> Forall declared l -> byte_cells s' -> right x s' -> Forall in_range (vals (astack r x)) ->
  apply_cast r l x = COk (u, x') -> no_error x x' ->
  xok x' /\ sound x' /\ x_term x' = false /\ right x' s' /\ (forall q, size_of (Stk false q) x' = size_of (Stk false q) x) /\
  astack (negb r) x' = astack (negb r) x.
Proof.
  intros X (S1 & S2 & S3 & S4) T D B [R1 R2] Ra E N. pose proof (cl_apply_cast _ _ _ _ _ S2 T E N) as T'.
  assert (Fi : fine r (cells r s') (pointer r s') x) by (constructor; auto).
  destruct (apply_cast_spec r l _ _ _ _ _ (B r) D Fi Ra E T') as ([G1 G2 G3 G4 G5] & [K1 K2 (K3 & K4 & K5)] & _).
  destruct (tr_apply_cast r l D _ _ _ X E) as [X' _].
  destruct (sh_apply_cast (x_op x) r l D _ _ _ X eq_refl T E T') as (_ & A2 & _).
  assert (Both : forall q, q = r \/ q = negb r) by (intros [|]; destruct r; auto).
  split; [exact X'|]. split; [|split; [exact T'|split; [|split; [|exact K1]]]].
  - split; [exact G1|]. split; [exact G2|]. split; intros q; destruct (Both q) as [-> | ->]; auto; rewrite K1; auto. eapply Forall_impl; [exact K2|apply S4].
  - split; [congruence|]. intros q. destruct (Both q) as [-> | ->]; auto. rewrite K1. auto.
  - intros q. rewrite A2. unfold zero. rewrite Z.add_0_r. pose proof (size_byte (Stk false q) x X) as Bs. unfold u8, is_byte in *. rewrite Z.mod_small; [reflexivity|lia].
Qed.

(** Any opcode but BRK. *)
Lemma one_step x x' s s' : before W x s -> xok x -> x_term x = false ->
  (h_casts (x_h x) (x_pc x) = None \/ forall y, opcode_alone x y -> x_term y = false /\ all_values in_range y) ->
  exec_op x = COk (tt, x') -> step W dei deo hi_first s = Ok (true, s') -> no_error x x' ->
  is_sub (g_type (own_sig x)) = false ->
  exists op l, op = h_rom (x_h x) (x_pc x) /\ dispatch op = Some l /\
    exec_label W dei deo hi_first l (wpc W (u16 (s_pc W s + 1)) s) = Ok (true, s') /\
    (forall r, label_need op l (Stk (fk op) r) <= size_of (Stk false r) x) /\
    (~ is_routine x (s_pc W s') -> outcome x x' s' (fun r => u8 (size_of (Stk false r) x + label_delta op l (Stk false r)))).
Proof.
  intros H X T Hc E F N V. destruct (split_cast W dei deo hi_first _ _ _ _ H T E F (or_intror N)) as (op & l & u & y & Eo & D & E1 & E2 & F1).
  exists op, l. split; [exact Eo|]. split; [exact D|]. split; [exact F1|].
  unfold casts_at in E2. destruct (h_casts (x_h x) (x_pc x)) as [c|] eqn:Ec; [|apply COk_inj in E2 as [_ ->]; eapply label_step; eauto].
  destruct Hc as [Hc|Hc]; [discriminate Hc|]. destruct u. destruct (Hc y) as [Ty Ry]; [exists l; rewrite <- Eo; auto|].
  assert (X0 : xok (fetch_op op x)) by (apply xok_fetch, X).
  destruct (tr_label l _ _ _ X0 E1) as [Xy _]. pose proof (ok_own _ Xy) as Hy.
  destruct (ok_casts _ (ok_h _ X) _ _ Ec) as [D1 D2].
  unfold cbind in E2. destruct (apply_cast false (c_wst c) y) as [[u1 z]|] eqn:E3; [|discriminate].
  pose proof (ok_label l _ _ _ (ok_own _ X0) E1) as G1. pose proof (ok_apply_cast _ _ _ _ _ Hy E3) as G2. pose proof (goes_has _ _ G2 Hy) as Hz.
  pose proof (ok_apply_cast _ _ _ _ _ Hz E2) as G3.
  assert (N0 : no_error (fetch_op op x) x') by exact N.
  destruct (no_error_back _ _ _ G1 (goes_trans _ _ _ G2 G3) N0) as [N1 N2]. destruct (no_error_back _ _ _ G2 G3 N2) as [N3 N4].
  assert (N1' : no_error x y) by exact N1.
  destruct (label_step _ _ _ _ _ _ _ H X T D E1 F1 N1' V) as [Nd Out]. split; [exact Nd|]. intros NR.
  destruct (Out NR) as [(Z1 & Z2 & [(Z3 & Z4 & Z5)|[Z3 _]])|(k & e & P1 & P2)]; [|congruence|].
  - left. destruct (one_cast false _ _ _ _ _ Xy Z5 Ty D1 Z4 Z2 (Ry false) E3 N3) as (A1 & A2 & A3 & A4 & A5 & A6).
    assert (Rz : Forall in_range (vals (astack true z))) by (cbn [negb] in A6; rewrite A6; apply Ry).
    destruct (one_cast true _ _ _ _ _ A1 A2 A3 D2 Z4 A4 Rz E2 N4) as (B1 & B2 & B3 & B4 & B5 & B6).
    split; [intros r; rewrite B5, A5; apply Z1|]. split; [exact B4|]. left. auto.
  - right. exists k, e. split; [|exact P2]. rewrite (klist_apply_cast _ _ _ _ _ E2), (klist_apply_cast _ _ _ _ _ E3). exact P1.
Qed.

End Go.

(** BRK: the pops of one stack leave the other alone. *)
Definition rsame {A} (m : C A) : Prop := forall x a x', m x = COk (a, x') -> k_size (x_r x') = k_size (x_r x) /\ own_sig x' = own_sig x.
Lemma rsame_bind {A B} (m : C A) (k : A -> C B) : rsame m -> (forall a, rsame (k a)) -> rsame (cbind m k).
Proof.
  intros H K x b x' E. unfold cbind in E. destruct (m x) as [[a y]|] eqn:Em; [|discriminate].
  destruct (H _ _ _ Em) as [A1 A2]. destruct (K _ _ _ _ E) as [B1 B2]. split; congruence.
Qed.
Lemma own_sig_error m x : own_sig (error m x) = own_sig x.
Proof.
  unfold own_sig, own_info, error. cbn. unfold upd_info. rewrite Z.eqb_refl. reflexivity.
Qed.
Lemma rsame_byte : rsame (pop_byte (Stk false false)).
Proof.
  intros x v x' E. unfold pop_byte in E. destruct (_ <? _); [inj E; split; [reflexivity|apply own_sig_error]|].
  destruct (top_of _) as [top|]; [|discriminate]. destruct (v_short top).
  - unfold alloc_node in E. destruct (h_pool (x_h x)); cbv zeta in E; inj E; split; reflexivity.
  - inj E. split; reflexivity.
Qed.
Lemma rsame_pop two : rsame (pop_from (Stk false false) two).
Proof.
  destruct two; [|apply rsame_byte]. intros x v x' E. cbn [pop_from] in E. unfold pop_short in E. destruct (_ <? _); [inj E; split; [reflexivity|apply own_sig_error]|].
  destruct (top_of _) as [top|]; [|discriminate]. destruct (v_short top); [inj E; split; reflexivity|].
  destruct (_ <? _); [discriminate|]. destruct (pop_byte _ x) as [[lo y]|] eqn:E1; [|discriminate]. destruct (pop_byte _ y) as [[hi z]|] eqn:E2; [|discriminate].
  inj E. destruct (rsame_byte _ _ _ E1), (rsame_byte _ _ _ E2). split; congruence.
Qed.
Lemma rsame_warn_if b m : rsame (warn_if b m).
Proof. intros x v x' E. unfold warn_if, warn, act, cret in E. destruct b; inj E; split; reflexivity. Qed.
Lemma rsame_err_if b m : rsame (err_if b m).
Proof. intros x v x' E. unfold err_if, err, act, cret in E. destruct b; inj E; split; try reflexivity. apply own_sig_error. Qed.
Lemma rsame_ret {A} (a : A) : rsame (cret a).
Proof. intros x v x' E. inj E. split; reflexivity. Qed.
Lemma rsame_if {A} (b : bool) (m k : C A) : rsame m -> rsame k -> rsame (if b then m else k).
Proof. destruct b; auto. Qed.
Lemma rsame_values out l : rsame (check_values out false l).
Proof.
  induction l as [|v l IH]; cbn [check_values]; [apply rsame_ret|].
  apply rsame_bind; [apply rsame_pop|intros a]. apply rsame_bind; [|intros _; exact IH].
  unfold check_value. apply rsame_bind; [apply rsame_warn_if|intros _]. apply rsame_bind; [apply rsame_err_if|intros _; apply rsame_err_if].
Qed.

Lemma brk_sizes x u x' : has_info x -> x_term x = false -> op_BRK x = COk (u, x') -> no_error x x' ->
  k_size (x_w x) = sig_size (g_wout (own_sig x)) /\ k_size (x_r x) = sig_size (g_rout (own_sig x)).
Proof.
  intros Hi T E N. unfold op_BRK, cbind at 1, get in E. unfold cbind at 1 in E. unfold err_if in E.
  destruct (is_sub _).
  - exfalso. unfold err, act in E. set (y := error CSubBrk x) in E. eapply (error_bad CSubBrk x).
    assert (Ok1 : ok_step (act (fun x => set_own_term x true) ;;; check_return ;;; act terminate)) by ok_tac.
    assert (Hy : has_info y) by (eapply goes_has; [apply ok_error, Hi|exact Hi]).
    apply (proj1 (no_error_back x y x' (ok_error _ _ Hi) (Ok1 _ _ _ Hy E) N)).
  - unfold cret in E. unfold cbind at 1, act in E. set (y := set_own_term x true) in *.
    assert (Oy : own_sig y = own_sig x).
    { unfold y, own_sig, own_info. cbn. unfold upd_info. rewrite Z.eqb_refl. reflexivity. }
    assert (Hy : has_info y) by (eapply goes_has; [apply ok_own_term, Hi|exact Hi]).
    assert (Ny : no_error y x') by exact N. assert (Ty : x_term y = false) by exact T.
    unfold cbind at 1, check_return in E. rewrite Oy in E. unfold cbind at 1 in E.
    destruct (check_stack true false _ y) as [[u1 z]|] eqn:E1; [|discriminate]. destruct (check_stack true true _ z) as [[u2 w]|] eqn:E2; [|discriminate].
    pose proof (ok_check_stack _ _ _ _ _ _ Hy E1) as G1. pose proof (goes_has _ _ G1 Hy) as Hz. pose proof (ok_check_stack _ _ _ _ _ _ Hz E2) as G2. pose proof (goes_has _ _ G2 Hz) as Hw.
    unfold act in E. apply COk_inj in E as [_ <-]. pose proof (ok_terminate w Hw) as G3.
    destruct (no_error_back _ _ _ G1 (goes_trans _ _ _ G2 G3) Ny) as [N1 N2]. destruct (no_error_back _ _ _ G2 G3 N2) as [N3 _].
    assert (K : forall r l p v q, has_info p -> check_stack true r l p = COk (v, q) -> no_error p q -> k_size (get_stack (Stk false r) p) = sig_size l).
    { intros r l p v q Hp Ec Nc. unfold check_stack in Ec. destruct (_ =? _) eqn:Q in Ec; [lia|]. exfalso. cbn [x_term error] in Ec. apply COk_inj in Ec as [_ <-]. eapply error_bad, Nc. }
    split; [exact (K _ _ _ _ _ Hy E1 N1)|]. rewrite <- (K _ _ _ _ _ Hz E2 N3). cbn [get_stack shadow ret_stack].
    unfold check_stack in E1. change (k_size (x_r x)) with (k_size (x_r y)). symmetry.
    destruct (_ =? _) in E1; [|cbn [x_term error] in E1; inj E1; reflexivity]. rewrite Ty in E1. apply (rsame_values _ _ _ _ _ E1).
Qed.
