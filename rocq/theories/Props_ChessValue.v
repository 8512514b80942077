(** C87 and C88: the constants of the type checker (src/asm/chess.c).

    Vocabulary, from ValueSpec.v: [right x s] says that the state [x] of the
    checker and the machine [s] are at the same opcode and that every value on a
    stack of the checker that is marked as a constant is what the machine has at
    this place of its stack; [right_entry] says the same of a path that the
    checker has put aside.  [checking evs x] (Props_Chess.v): [x] is a state
    of the checker while it analyses [evs]. *)
From Verif Require Import Base VmModel VmSpec AsmModel AsmSpec Props_Asm Props_Front ChessModel ChessProofs ChessSize ChessDelta ChessJump ChessVm ChessReports
  ValueSpec ChessValue ChessLock ChessSim ChessPool ChessStep ChessCast Props_Chess.
From Coq Require Import ZifyBool String.
Open Scope list_scope.
Ltac Zify.zify_post_hook ::= Z.div_mod_to_equations.

Section Values.
Variable W : Type.
Variable dei : Z -> vm -> W -> res (Z * vm * W).
Variable deo : Z -> vm -> W -> res (vm * W).
Variable hi_first : bool.
(** The devices do not touch the stacks. *)
Hypothesis HA : aloof W dei deo.

(** The checker agrees with the machine: it is right, its constants have the
    range of their size, its halves belong to shorts that are still there, its
    stacks have room, and the machine, whose stacks hold bytes, has the program
    in its memory. *)
Definition agrees (x : ctx) (s : st W) : Prop :=
  right x s /\ all_values in_range x /\ all_values (half_ok (x_h x)) x /\ (forall r, width (vals (astack r x)) <= 250) /\
  byte_cells s /\ same_code x s.

Lemma checking_pool evs x : checking evs x -> pool_ok x.
Proof.
  intros (z & n & R & E). pose proof (pool_steps n (Idle (add_reset (z_h z)))) as P. rewrite E in P. apply P. exact (pool_start _ _ _ R).
Qed.
Lemma checking_before evs x s : checking evs x -> agrees x s -> before W x s.
Proof.
  intros C (A1 & A2 & A3 & A4 & A5 & A6). pose proof (checking_ok _ _ C) as X. constructor; auto.
  - apply ok_own, X.
  - eapply checking_pool, C.
  - intros [|]; [apply (ok_r _ X)|apply (ok_w _ X)].
Qed.
Lemma core_right op x0 L held m x s : core W op x0 L held m x s -> right x s /\ all_values (half_ok (x_h x)) x /\ byte_cells s.
Proof.
  intros C. split; [split; [apply (c_pc _ _ _ _ _ _ _ _ C)|]|split].
  - intros r. destruct (c_stk _ _ _ _ _ _ _ _ C r) as (_ & _ & R). destruct r; exact R.
  - intros r. destruct (c_stk _ _ _ _ _ _ _ _ C r) as (_ & R & _). destruct r; exact R.
  - apply (c_bytes _ _ _ _ _ _ _ _ C).
Qed.

(** ** C87 *)
(** Checker and machine take an opcode.  The checker does not end the path, and
    the opcode does not lead into a routine with a signature, which the checker
    does not enter.  Then the checker is right again, or it has put aside a
    path that is. *)
Theorem C87_opcode_keeps_constants_right evs x x' s s' :
  checking evs x -> x_term x = false -> agrees x s -> h_casts (x_h x) (x_pc x) = None ->
  exec_op x = COk (tt, x') -> x_term x' = false -> VmModel.step W dei deo hi_first s = Ok (true, s') ->
  ~ is_routine x (s_pc W s') ->
  (right x' s' /\ all_values (half_ok (x_h x')) x' /\ byte_cells s') \/
  (exists l e, h_list (x_h x') = l ++ e :: h_list (x_h x) /\ right_entry e s').
Proof.
  intros C T A Hc E T' S NR. pose proof (checking_before _ _ _ C A) as B.
  destruct (step_post W dei deo hi_first HA x x' s s' B T Hc E S T' NR) as [(L & held & m & Hm & P)|P]; [left|right; exact P].
  eapply core_right, P.
Qed.

(** The same for an opcode with a cast after it, if the values are in range
    before the cast too. *)
Definition opcode_only (x : ctx) : cres (unit * ctx) :=
  let op := h_rom (x_h x) (x_pc x) in
  match dispatch op with Some l => run_label l (fetch_op op x) | None => COk (tt, x) end.
Theorem C87_cast_keeps_constants_right evs x y x' s s' :
  checking evs x -> x_term x = false -> agrees x s ->
  opcode_only x = COk (tt, y) -> all_values in_range y ->
  exec_op x = COk (tt, x') -> x_term x' = false -> VmModel.step W dei deo hi_first s = Ok (true, s') ->
  ~ is_routine x (s_pc W s') ->
  (right x' s' /\ all_values (half_ok (x_h x')) x' /\ byte_cells s') \/
  (exists l e, h_list (x_h x') = l ++ e :: h_list (x_h x) /\ right_entry e s').
Proof.
  intros C T A Eo Ry E T' S NR. pose proof (checking_before _ _ _ C A) as B.
  destruct (split_cast W dei deo hi_first x x' s s' B T E S (or_introl T')) as (op & l & u & y' & Hop & D & E1 & E2 & F).
  unfold opcode_only in Eo. rewrite <- Hop, D, E1 in Eo. apply COk_inj in Eo as [_ ->].
  assert (Hi : has_info y) by (assert (Hf : has_info (fetch_op op x)) by exact (b_info _ _ _ B); exact (goes_has _ _ (ok_label l _ _ _ Hf E1) Hf)).
  unfold casts_at in E2. destruct (h_casts (x_h x) (x_pc x)) as [c|] eqn:Hc.
  - destruct (ok_casts _ (ok_h _ (checking_ok _ _ C)) _ _ Hc) as [D1 D2].
    unfold cbind in E2. destruct (apply_cast false (c_wst c) y) as [[u1 z]|] eqn:E3; [|discriminate].
    pose proof (goes_has _ _ (ok_apply_cast _ _ _ _ _ Hi E3) Hi) as Hz.
    pose proof (pop_term _ _ _ _ (ok_apply_cast true (c_rst c)) Hz E2 T') as Tz.
    pose proof (pop_term _ _ _ _ (ok_apply_cast false (c_wst c)) Hi E3 Tz) as Ty.
    destruct (label_post W dei deo hi_first HA op l u x y s s' B D E1 F Ty NR) as [(L & held & m & Hm & P)|(k & e & P1 & P2)].
    + left. destruct (core_right _ _ _ _ _ _ _ P) as ([R1 R2] & R3 & R4).
      assert (Fw : fine false (cells false s') (pointer false s') y).
      { constructor; [apply (c_pool _ _ _ _ _ _ _ _ P)|exact Hi|exact (proj1 (c_stk _ _ _ _ _ _ _ _ P false))|exact (R3 false)|exact (R2 false)]. }
      destruct (apply_cast_spec false (c_wst c) _ _ _ _ _ (R4 false) D1 Fw (Ry false) E3 Tz) as (G1 & [K1 K2 (K3 & K4 & K5)] & _).
      cbn [negb astack] in K1.
      assert (Fr : fine true (cells true s') (pointer true s') z).
      { constructor; [apply (f_pool _ _ _ _ G1)|exact Hz| | |]; cbn [astack]; rewrite K1.
        - exact (proj1 (c_stk _ _ _ _ _ _ _ _ P true)).
        - eapply Forall_impl; [exact K2|exact (R3 true)].
        - exact (R2 true). }
      assert (Rz : Forall in_range (vals (astack true z))) by (cbn [astack]; rewrite K1; exact (Ry true)).
      destruct (apply_cast_spec true (c_rst c) _ _ _ _ _ (R4 true) D2 Fr Rz E2 T') as (G2 & [M1 M2 (M3 & M4 & M5)] & _). cbn [negb astack] in M1.
      split; [|split; [|exact R4]].
      * split; [congruence|]. intros [|]; [apply (f_right _ _ _ _ G2)|cbn [astack]; rewrite M1; apply (f_right _ _ _ _ G1)].
      * intros [|]; [apply (f_half _ _ _ _ G2)|cbn [astack]; rewrite M1; eapply Forall_impl; [exact M2|apply (f_half _ _ _ _ G1)]].
    + right. exists k, e. split; [|exact P2].
      assert (K : forall r l a u b, apply_cast r l a = COk (u, b) -> h_list (x_h b) = h_list (x_h a)).
      { intros r l0. change (klist (apply_cast r l0)). unfold apply_cast. apply klist_bind; [apply klist_get|]. intros kk. apply klist_if; [|apply klist_err].
        apply klist_bind; [|].
        - generalize (rev l0). intros l1. induction l1 as [|v l1 IH]; cbn [pop_inputs]; [apply klist_ret|].
          apply klist_bind; [apply klist_pop_from|]. intros a. apply klist_bind; [exact IH|]. intros t. apply klist_ret.
        - intros ins. generalize (rev ins). intros i1. revert i1. induction l0 as [|v l1 IH]; intros [|i i1]; cbn [push_outputs]; try apply klist_ret.
          apply klist_bind; [apply klist_act; intros q; destruct r; reflexivity|]. intros _. apply IH. }
      rewrite (K _ _ _ _ _ E2), (K _ _ _ _ _ E3). exact P1.
  - apply COk_inj in E2 as [_ ->].
    destruct (label_post W dei deo hi_first HA op l u x x' s s' B D E1 F T' NR) as [(L & held & m & Hm & P)|P]; [left; eapply core_right, P|right; exact P].
Qed.

(** A conditional jump.  Whatever becomes of the path that the checker follows,
    the path it puts aside is right when the machine does not jump, unless the
    checker reports an error. *)
Theorem C87_untaken_branch_is_put_aside evs x x' s s' op :
  checking evs x -> x_term x = false -> agrees x s -> h_casts (x_h x) (x_pc x) = None ->
  op = h_rom (x_h x) (x_pc x) -> op = 32 \/ op mod 32 = 13 ->
  exec_op x = COk (tt, x') -> (forall l, h_reports (x_h x') = h_reports (x_h x) ++ l -> existsb is_error l = false) ->
  VmModel.step W dei deo hi_first s = Ok (true, s') ->
  s_pc W s' = u16 (s_pc W s + if op =? 32 then 3 else 1) ->
  h_list (x_h x') <> h_list (x_h x) ->
  exists l e, h_list (x_h x') = l ++ e :: h_list (x_h x) /\ right_entry e s'.
Proof.
  intros C T A Hc -> Ho E N S Ep Nl. pose proof (checking_before _ _ _ C A) as B.
  destruct (split_step W dei deo hi_first x x' s s' B T Hc E S (or_intror N)) as (op & l & u & Eo & D & E1 & F). rewrite <- Eo in *.
  assert (Hl : l = JCI /\ op = 32 \/ (op =? 32) = false /\ exists k r two, l = Poly JCN k r two).
  { assert (K : forallb (fun e => match fst e with
        | JCI => snd e =? 32
        | Poly JCN _ _ _ => negb (snd e =? 32)
        | _ => negb ((snd e =? 32) || (snd e mod 32 =? 13)) end) dispatch_table = true) by (vm_compute; reflexivity).
    unfold dispatch in D. destruct (find _ _) as [[l' n]|] eqn:Fd; [|discriminate]. apply find_some in Fd as [I1 I2]. cbn in I2.
    injection D as ->. apply Z.eqb_eq in I2 as ->. rewrite forallb_forall in K. specialize (K _ I1). cbn in K.
    destruct l as [| | | | |b k r two]; try (exfalso; lia); [left; split; [reflexivity|lia]|].
    destruct b; try (exfalso; lia). right. split; [lia|eauto]. }
  eapply (step_fall W dei deo hi_first x x' s s' l B T Hc E S N); [rewrite <- Eo; exact D| | |exact Nl].
  - destruct Hl as [[-> _]|[_ Hl]]; auto.
  - destruct Hl as [[-> ->]|[K (k & r & two & ->)]]; [exact Ep|rewrite K in Ep; exact Ep].
Qed.

(** When such a path is taken up, the checker is right about it. *)
Theorem C87_path_taken_up h e x (s : st W) : begin_entry h e = Running x -> right_entry e s -> right x s.
Proof.
  unfold begin_entry. destruct (h_syms h (e_address e)); [|discriminate]. intros E (R1 & R2 & R3).
  assert (Ei : forall a b, Running a = Running b -> b = a) by (intros a b X; congruence). apply Ei in E. subst x.
  split; [exact R1|]. intros [|]; [exact R3|exact R2].
Qed.
(** A routine is taken up with what its signature says; this holds for every
    machine at its start, and no value is a half or out of range. *)
Theorem C87_routine_taken_up h a sig x s :
  Forall (fun v => v_const v = false /\ whole v) (g_win sig ++ g_rin sig) ->
  begin_entry h (entry_of a sig) = Running x -> s_pc W s = a ->
  right x s /\ all_values in_range x /\ all_values (half_ok (x_h x)) x.
Proof.
  intros F E Ep. unfold begin_entry in E. destruct (h_syms h _); [|discriminate].
  assert (Ei : forall a b, Running a = Running b -> b = a) by (intros p q X; congruence). apply Ei in E. subst x.
  set (P := fun v : value => v_const v = false /\ whole v) in *.
  assert (Pf : forall l k, is_byte (k_len k) -> Forall P l -> Forall P (vals k) -> is_byte (k_len (fold_left raw_push l k)) /\ Forall P (vals (fold_left raw_push l k))).
  { induction l as [|v l IH]; intros k Hk Hl Hv; [split; assumption|]. inversion Hl; subst. cbn [fold_left]. apply IH; auto.
    - unfold raw_push; cbn. unfold is_byte, u8. lia.
    - unfold raw_push. cbn. assert (K : k_len k < 255 \/ k_len k = 255) by (unfold is_byte in Hk; lia). destruct K as [K|K].
      + replace (u8 (k_len k + 1)) with (k_len k + 1) by (unfold u8, is_byte in *; lia).
        rewrite (vals_put (k_at k) (k_len k) _ (k_size k)) by (unfold is_byte in Hk; lia). rewrite <- (vals_size k). constructor; auto.
      + rewrite vals_nil; [constructor|]. cbn. rewrite K. reflexivity. }
  apply Forall_app in F as [F1 F2].
  assert (G : forall r, Forall P (vals (astack r (mkCtx h (e_info (entry_of a sig)) (e_wst (entry_of a sig)) (e_rst (entry_of a sig)) empty_stack empty_stack [] (e_address (entry_of a sig)) 0 false false false)))).
  { intros [|]; cbn [astack x_r x_w entry_of e_rst e_wst].
    - apply Pf; [| exact F2|]; destruct (is_sub _); cbn; try (unfold is_byte, u8; lia); repeat constructor.
    - apply Pf; [cbn; unfold is_byte; lia|exact F1|constructor]. }
  assert (R : forall l f sp, Forall P l -> right_about l f sp).
  { induction l as [|v l IH]; intros f sp Hl; [exact Logic.I|]. inversion Hl as [|? ? [Hc _] Ht]; subst. split; [|apply IH, Ht].
    intros X. congruence. }
  split; [|split].
  - split; [cbn; congruence|]. intros r. apply R, G.
  - intros r. eapply Forall_impl; [|apply G]. intros v [Hc _] X. congruence.
  - intros r. eapply Forall_impl; [|apply G]. intros v [_ [H1 H2]] [X|X]; congruence.
Qed.

(** A stretch of code, in which the checker puts no path aside. *)
Inductive together : ctx -> st W -> ctx -> st W -> Prop :=
| together_here x s : together x s x s
| together_step x s x1 s1 x' s' :
    x_term x = false -> h_casts (x_h x) (x_pc x) = None ->
    exec_op x = COk (tt, x1) -> x_term x1 = false -> h_list (x_h x1) = h_list (x_h x) ->
    VmModel.step W dei deo hi_first s = Ok (true, s1) -> ~ is_routine x (s_pc W s1) ->
    same_code x1 s1 -> all_values in_range x1 -> (forall r, width (vals (astack r x1)) <= 250) ->
    together x1 s1 x' s' -> together x s x' s'.
Theorem C87_stretch_keeps_constants_right evs x s x' s' : checking evs x -> agrees x s ->
  together x s x' s' -> agrees x' s'.
Proof.
  intros C A K. pose proof (checking_before _ _ _ C A) as B. clear C.
  assert (G : before W x' s').
  { clear A. induction K as [|x s x1 s1 x' s' T Hc E T1 Hl S NR Sc Ri Wd K IH]; [exact B|]. apply IH.
    destruct (step_post W dei deo hi_first HA x x1 s s1 B T Hc E S T1 NR) as [(L & held & m & Hm & P)|(l & e & P & _)].
    - destruct (core_right _ _ _ _ _ _ _ P) as (R1 & R3 & R4). constructor; auto.
      + apply (c_info _ _ _ _ _ _ _ _ P).
      + apply (c_pool _ _ _ _ _ _ _ _ P).
      + intros r. rewrite astack_get. apply (c_stk _ _ _ _ _ _ _ _ P r).
    - exfalso. rewrite Hl in P. apply (f_equal (@List.length _)) in P. rewrite app_length in P. cbn in P. lia. }
  destruct G. unfold agrees. tauto.
Qed.
End Values.
Print Assumptions C87_opcode_keeps_constants_right.
Print Assumptions C87_cast_keeps_constants_right.
Print Assumptions C87_untaken_branch_is_put_aside.
Print Assumptions C87_path_taken_up.
Print Assumptions C87_routine_taken_up.
Print Assumptions C87_stretch_keeps_constants_right.

(** ** The cases are not empty *)
Definition quiet_dei (a : Z) (v : vm) (w : list (Z * Z)) : res (Z * vm * list (Z * Z)) := Ok (0, v, w).
(** The devices write down what they are given. *)
Definition note (a : Z) (v : vm) (w : list (Z * Z)) : res (vm * list (Z * Z)) := Ok (v, w ++ [(a, vm_dev v a)]).
Lemma note_aloof : aloof _ quiet_dei note.
Proof. split; intros; [unfold quiet_dei in H|unfold note in H]; inversion H; subst; repeat split. Qed.
Definition machine_after (n : nat) (evs : list event) : option (st (list (Z * Z))) :=
  match after _ quiet_dei note true n (boot _ evs []) 0 0 with Some (s, _, _) => Some s | None => None end.
Definition idle_x : ctx := mkCtx (chess_begin (fun _ => 0)) 0 empty_stack empty_stack empty_stack empty_stack [] 0 0 false false false.
Definition the_x (n : nat) (evs : list event) : ctx := match state_after (S n) evs with Some x => x | None => idle_x end.
Definition machine_at (evs : list event) (pc : Z) (ws : arr) (sp : Z) : st (list (Z * Z)) :=
  mkSt _ (mkVm 0 0 ws (fun _ => 0) (fun _ => 0) (byte_at evs) 65536) sp 0 0 0 pc [].
Lemma is_reached n evs : match state_after (S n) evs with Some _ => true | None => false end = true -> checking evs (the_x n evs).
Proof. unfold the_x. destruct (state_after (S n) evs) as [x|] eqn:E; [|discriminate]. intros _. eapply state_checking, E. Qed.
Lemma cells_upd f i v : is_byte v -> (forall j, is_byte (f j)) -> forall j, is_byte (upd f i v j).
Proof. intros Hv Hf j. unfold upd. destruct (_ =? _); auto. Qed.
Definition half_okb (h : chess) (v : value) : bool :=
  negb (v_hi v || v_lo v) ||
  (negb (v_short v) && negb (v_hi v && v_lo v) &&
   match v_whole v with
   | None => true
   | Some n => let w := h_node h n in
       (n <? h_next h) && negb (existsb (Z.eqb n) (h_pool h)) && v_short w && negb (v_hi w) && negb (v_lo w) &&
       (negb (v_const w) || (0 <=? v_val w) && (v_val w <? 65536) && v_const v && (v_val v =? if v_hi v then v_val w / 256 else v_val w mod 256))
   end).
Lemma half_okb_ok h v : half_okb h v = true -> half_ok h v.
Proof.
  unfold half_okb. intros H X. replace (v_hi v || v_lo v) with true in H by (destruct (v_hi v), (v_lo v), X; auto; discriminate).
  cbn [negb orb] in H. apply andb_prop in H as [H H1]. apply andb_prop in H as [H2 H3].
  split; [destruct (v_short v); [discriminate|reflexivity]|]. split; [destruct (v_hi v && v_lo v); [discriminate|reflexivity]|].
  intros n Hn. rewrite Hn in H1. cbv zeta in H1. set (w := h_node h n) in *.
  repeat (apply andb_prop in H1 as [H1 ?]). split; [lia|]. split.
  { intros Hp. assert (K : existsb (Z.eqb n) (h_pool h) = true) by (apply existsb_exists; exists n; split; [exact Hp|apply Z.eqb_refl]). rewrite K in *. discriminate. }
  split; [assumption|]. split; [destruct (v_hi w); [discriminate|reflexivity]|]. split; [destruct (v_lo w); [discriminate|reflexivity]|].
  intros C. rewrite C in *. cbn [negb orb] in *. repeat match goal with H : _ && _ = true |- _ => apply andb_prop in H as [H ?] end.
  split; [lia|]. split; [assumption|]. apply Z.eqb_eq. assumption.
Qed.
Lemma halves_ok x : (forall r, forallb (half_okb (x_h x)) (vals (astack r x)) = true) -> all_values (half_ok (x_h x)) x.
Proof.
  intros H r. apply Forall_forall. intros v Hv. apply half_okb_ok. specialize (H r). rewrite forallb_forall in H. apply H, Hv.
Qed.
Ltac case_agrees := unfold agrees, right, same_code, byte_cells;
  split; [split; [vm_compute; reflexivity|intros [|]; vm_compute; repeat split; intros; reflexivity]|
  split; [intros [|]; vm_compute; repeat constructor; intros; discriminate|
  split; [apply halves_ok; intros [|]; vm_compute; reflexivity|
  split; [intros [|]; vm_compute; discriminate|
  split; [intros [|]; cbn [cells machine_at s_vm vm_ws vm_rs]; repeat apply cells_upd; try (intros i); unfold is_byte; lia|
  split; [vm_compute; split; [discriminate|reflexivity]|
    intros i Hi; assert (i = 0 \/ i = 1 \/ i = 2) as [-> | [-> | ->]] by lia; vm_compute; repeat split; discriminate]]]]]].
(** Two bytes that are the halves of a short are swapped back and join. *)
Definition case_evs : list event := evs_of (bytes "#1234 SWP SWP POP2 BRK").
Example C87_case : let x := the_x 2 case_evs in let s := machine_at case_evs 260 (upd (upd (fun _ => 0) 0 52) 1 18) 2 in
  checking case_evs x /\ x_term x = false /\ h_casts (x_h x) (x_pc x) = None /\
  map (fun v => (v_val v, v_hi v, v_lo v)) (vals (x_w x)) = [(18, true, false); (52, false, true)] /\ agrees _ x s /\
  exists x' s', exec_op x = COk (tt, x') /\ x_term x' = false /\ VmModel.step _ quiet_dei note true s = Ok (true, s') /\
    h_infos (x_h x) (s_pc _ s') = None /\ map (fun v => (v_short v, v_const v, v_val v)) (vals (x_w x')) = [(true, true, 4660)].
Proof.
  cbv zeta. split; [apply is_reached; vm_compute; reflexivity|]. split; [vm_compute; reflexivity|]. split; [vm_compute; reflexivity|]. split; [vm_compute; reflexivity|]. split.
  - case_agrees.
  - eexists. eexists. split; [vm_compute; reflexivity|]. split; [vm_compute; reflexivity|]. split; [vm_compute; reflexivity|]. split; vm_compute; reflexivity.
Qed.
(** A sum that is cast. *)
Definition cast_evs : list event := evs_of (bytes "#12 #34 ADD ( X ! ) POP BRK").
Example C87_cast_case : let x := the_x 2 cast_evs in let s := machine_at cast_evs 260 (upd (upd (fun _ => 0) 0 18) 1 52) 2 in
  checking cast_evs x /\ x_term x = false /\ agrees _ x s /\
  exists y x' s', opcode_only x = COk (tt, y) /\ all_values in_range y /\
    exec_op x = COk (tt, x') /\ x_term x' = false /\ VmModel.step _ quiet_dei note true s = Ok (true, s') /\
    h_infos (x_h x) (s_pc _ s') = None /\ map (fun v => (v_type v, v_const v, v_val v)) (vals (x_w x')) = [(bytes "X", true, 70)].
Proof.
  cbv zeta. split; [apply is_reached; vm_compute; reflexivity|]. split; [vm_compute; reflexivity|]. split.
  - case_agrees.
  - eexists. eexists. eexists. split; [vm_compute; reflexivity|]. split; [intros [|]; vm_compute; repeat constructor; discriminate|]. split; [vm_compute; reflexivity|]. split; [vm_compute; reflexivity|]. split; [vm_compute; reflexivity|]. split; vm_compute; reflexivity.
Qed.
(** A jump that is not taken. *)
Definition branch_evs : list event := evs_of (bytes "#12 #00 ?{ POP BRK } POP BRK").
Example C87_branch_case : let x := the_x 2 branch_evs in let s := machine_at branch_evs 260 (upd (upd (fun _ => 0) 0 18) 1 0) 2 in
  checking branch_evs x /\ x_term x = false /\ agrees _ x s /\ h_casts (x_h x) (x_pc x) = None /\ h_rom (x_h x) (x_pc x) = 32 /\
  exists x' s', exec_op x = COk (tt, x') /\ h_reports (x_h x') = h_reports (x_h x) /\ VmModel.step _ quiet_dei note true s = Ok (true, s') /\
    s_pc _ s' = 263 /\ x_pc x' = 265 /\ map (fun e => (e_address e, map v_val (vals (e_wst e)))) (h_list (x_h x')) = [(263, [18])] /\ h_list (x_h x) = [].
Proof.
  cbv zeta. split; [apply is_reached; vm_compute; reflexivity|]. split; [vm_compute; reflexivity|]. split.
  - case_agrees.
  - split; [vm_compute; reflexivity|]. split; [vm_compute; reflexivity|]. eexists. eexists. split; [vm_compute; reflexivity|]. split; [vm_compute; reflexivity|]. split; [vm_compute; reflexivity|].
    split; [vm_compute; reflexivity|]. split; [vm_compute; reflexivity|]. split; vm_compute; reflexivity.
Qed.

(** The two conditions on the constants are needed.  What the checker reports
    of the device ports (C88) shows it: [writes] are the ports and values it
    reports, [machine_after] is the machine after some instructions, with the
    ports and values it has written. *)
Definition writes (l : list report) : list (Z * Z) :=
  flat_map (fun r => match r with RDeo _ _ v p => [(p, v)] | _ => [] end) l.
(** A byte constant is not reduced to a byte: ff + 1, divided by 2, is 80 for
    the checker and 0 for the machine. *)
Definition wide_byte : str := bytes "#ff INC #02 DIV #18 DEO BRK".
(** A path that was put aside has the halves of a short; the record of this
    short is released with the path that made it and used again for abcd.  The
    halves join to abcd. *)
Definition stale_half : str := bytes "#1234 SWP #00 ?{ #abcd POP POP SWP #10 DEO2 BRK } POP2 BRK".
Theorem C87_wrong_constants_refuted :
  (assembles (one wide_byte) (bytes "a") true (evs_of wide_byte) /\
   (exists l, type_check 100 (evs_of wide_byte) = Some (Verdict true l) /\ writes l = [(24, 128)]) /\
   option_map (s_w _) (machine_after 6 (evs_of wide_byte)) = Some [(24, 0)]) /\
  (assembles (one stale_half) (bytes "a") true (evs_of stale_half) /\
   (exists l, type_check 100 (evs_of stale_half) = Some (Verdict true l) /\ writes l = [(16, 171); (17, 205)]) /\
   option_map (s_w _) (machine_after 10 (evs_of stale_half)) = Some [(16, 18); (17, 52)]).
Proof.
  split; (split; [assembled|split; [eexists; split; [vm_compute; reflexivity|vm_compute; reflexivity]|vm_compute; reflexivity]]).
Qed.
Print Assumptions C87_wrong_constants_refuted.

(** ** C88 *)
Lemma pop_byte_const p x v x' : is_byte (k_len (get_stack p x)) -> Forall (fun v => v_const v = true) (vals (get_stack p x)) ->
  pop_byte p x = COk (v, x') -> x_term x' = false -> v_const v = true /\ Forall (fun v => v_const v = true) (vals (get_stack p x')) /\ is_byte (k_len (get_stack p x')).
Proof.
  intros L H E T. unfold pop_byte in E. destruct (k_size (get_stack p x) <? 1); [apply COk_inj in E as [_ <-]; discriminate T|].
  unfold top_of in E. destruct (k_len (get_stack p x) =? 0) eqn:L0; [discriminate|].
  set (k := get_stack p x) in *. assert (Lp : 0 < k_len k) by (unfold is_byte in L; lia).
  rewrite (vals_cons k Lp 0) in H. inversion H as [|? ? H1 H2]; subst.
  destruct (v_short _) eqn:S.
  - destruct (alloc_node x _) as [n y] eqn:A. apply COk_inj in E as [<- <-]. split; [exact H1|]. rewrite get_set, same_stack_refl.
    rewrite (vals_put_top k _ 0) by exact Lp. split; [constructor; [exact H1|exact H2]|exact L].
  - apply COk_inj in E as [<- <-]. split; [exact H1|]. rewrite get_set, same_stack_refl. split; [exact H2|unfold is_byte in *; cbn; lia].
Qed.
Lemma pop_from_const p two x v x' : is_byte (k_len (get_stack p x)) -> Forall (fun v => v_const v = true) (vals (get_stack p x)) -> has_info x ->
  pop_from p two x = COk (v, x') -> x_term x' = false -> v_const v = true /\ Forall (fun v => v_const v = true) (vals (get_stack p x')) /\ is_byte (k_len (get_stack p x')).
Proof.
  intros L H Hi E T. destruct two; [|eapply pop_byte_const; eauto]. unfold pop_from, pop_short in E.
  destruct (k_size (get_stack p x) <? 2); [apply COk_inj in E as [_ <-]; discriminate T|].
  unfold top_of in E. destruct (k_len (get_stack p x) =? 0) eqn:L0; [discriminate|].
  destruct (v_short _) eqn:S.
  - apply COk_inj in E as [<- <-]. set (k := get_stack p x) in *. assert (Lp : 0 < k_len k) by (unfold is_byte in L; lia).
    rewrite (vals_cons k Lp 0) in H. inversion H as [|? ? H1 H2]; subst. split; [exact H1|]. rewrite get_set, same_stack_refl.
    split; [exact H2|unfold is_byte in *; cbn; lia].
  - destruct (_ <? 2); [discriminate|]. destruct (pop_byte p x) as [[lo y]|] eqn:E1; [|discriminate]. destruct (pop_byte p y) as [[hi z]|] eqn:E2; [|discriminate].
    apply COk_inj in E as [<- ->].
    assert (Hy : has_info y) by (exact (goes_has _ _ (ok_pop_from p false _ _ _ Hi E1) Hi)).
    pose proof (pop_term _ _ _ _ (ok_pop_from p false) Hy E2 T) as Ty.
    destruct (pop_byte_const _ _ _ _ L H E1 Ty) as (A1 & A2 & A3). destruct (pop_byte_const _ _ _ _ A3 A2 E2 T) as (B1 & B2 & B3).
    split; [cbn; rewrite A1, B1; reflexivity|auto].
Qed.

(** Checker and machine take a DEO or DEO2, in any mode.  The checker reports
    nothing of the write, or exactly the ports and values that the machine
    writes, in this order; it reports it if all values on the stack are
    constants. *)
Theorem C88_reported_writes_happen dei hi_first evs x x' s s' op :
  aloof _ dei note -> checking evs x -> x_term x = false -> agrees _ x s -> h_casts (x_h x) (x_pc x) = None ->
  op = h_rom (x_h x) (x_pc x) -> op mod 32 = 23 ->
  exec_op x = COk (tt, x') -> x_term x' = false -> VmModel.step _ dei note hi_first s = Ok (true, s') ->
  exists l, h_reports (x_h x') = h_reports (x_h x) ++ l /\
    (writes l = [] \/ s_w _ s' = s_w _ s ++ writes l) /\
    (Forall (fun v => v_const v = true) (vals (astack (flag op 64) x)) -> writes l <> []).
Proof.
  intros HA C T A Hc -> Ho E T' S. pose proof (checking_before _ _ _ _ C A) as B.
  destruct (split_step _ dei note hi_first x x' s s' B T Hc E S (or_introl T')) as (op & l & u & Eo & D & E1 & F). rewrite <- Eo in *.
  assert (Hl : exists k r two, l = Poly DEO k r two).
  { assert (K : forallb (fun e => match fst e with Poly DEO _ _ _ => true | _ => negb (snd e mod 32 =? 23) end) dispatch_table = true) by (vm_compute; reflexivity).
    unfold dispatch in D. destruct (find _ _) as [[l' n]|] eqn:Fd; [|discriminate]. apply find_some in Fd as [I1 I2]. cbn in I2.
    injection D as ->. apply Z.eqb_eq in I2 as ->. rewrite forallb_forall in K. specialize (K _ I1). cbn in K.
    destruct l as [| | | | |b k r two]; try (exfalso; lia). destruct b; try (exfalso; lia). eauto. }
  destruct Hl as (k & r & two & ->). pose proof (dispatch_flags _ _ D) as Fl. unfold flags_ok in Fl. cbn [fst snd] in Fl.
  assert (Ek : k = fk op /\ r = fr op /\ two = f2 op) by (destruct k, r, two, (fk op), (fr op), (f2 op); try discriminate Fl; auto).
  destruct Ek as (Ek & Er & Et). unfold exec_label, VmModel.bind at 1 in F. destruct (keep_prologue _ k r _) as [[u1 t]|] eqn:F2; [|discriminate].
  destruct (before_ready _ _ _ op k r t u1 B Ek Er F2) as (R & _ & _ & Wt). subst k r two.
  unfold VmModel.bind in F. destruct (poly_op _ dei note hi_first DEO _ _ _ t) as [[u2 t']|] eqn:F3; [|discriminate]. apply Ok_pair in F as [_ ->].
  destruct (deo_spec _ dei note hi_first op _ _ 250 _ _ _ _ _ _ ltac:(lia) R T' E1 F3) as (a & b & y & z & na & nb & s1 & u3 & s2 & Fa & Fb & P1 & P2 & P3 & P4 & P5 & P6 & P7 & P8 & l & P9 & P10).
  assert (Wn : forall q q', writes (q ++ q') = writes q ++ writes q') by (intros; apply flat_map_app).
  assert (W0 : writes l = []).
  { clear - P10. induction l as [|q l IH]; [reflexivity|]. cbn in P10. apply Bool.orb_false_iff in P10 as [K1 K2]. unfold writes in *. cbn [flat_map]. rewrite (IH K2). destruct q; try discriminate K1; reflexivity. }
  exists (l ++ deo_reports (f2 op) a b z). split; [exact P9|]. rewrite Wn, W0. cbn [app]. split.
  - unfold deo_reports. destruct (v_const a && v_const b) eqn:Cc; [right|left; reflexivity].
    apply Bool.andb_true_iff in Cc as [Ca Cb]. destruct Fa as (Fa1 & Fa2 & Fa3 & Fa4). destruct Fb as (Fb1 & Fb2 & Fb3 & Fb4).
    specialize (Fa3 Ca). specialize (Fb3 Cb). rewrite Fa3, Fb3, P8. rewrite <- Wt. replace (s_w _ t) with (s_w _ s1) by exact P6.
    change 255 with (Z.ones 8). rewrite Z.land_ones by lia. change (2 ^ 8) with 256.
    unfold dev_out in P7. destruct (f2 op).
    + unfold VmModel.bind, dev_write, aset in P7. destruct (in_bounds 256 (na mod 256)); [|discriminate P7]. cbn [s_vm vm_dev vm_set_dev] in P7.
      destruct (in_bounds 256 ((na + 1) mod 256)); [|discriminate P7].
      unfold call_deo, note in P7. apply Ok_pair in P7 as [_ ->]. cbn [s_w s_vm vm_dev vm_set_dev writes flat_map app]. rewrite <- app_assoc. cbn [app]. f_equal.
      unfold upd, u8. replace (na mod 256 =? (na + 1) mod 256) with false by lia. rewrite !Z.eqb_refl. rewrite Z.mod_mod by lia. reflexivity.
    + unfold VmModel.bind, dev_write, aset in P7. destruct (in_bounds 256 (na mod 256)); [|discriminate P7].
      unfold call_deo, note in P7. apply Ok_pair in P7 as [_ ->]. cbn [s_w s_vm vm_dev vm_set_dev writes flat_map app]. f_equal.
      unfold upd, u8. rewrite !Z.eqb_refl. rewrite Z.mod_mod by lia. reflexivity.
  - intros Hk. assert (Hf : astack (flag op 64) x = get_stack (Stk (fk op) (fr op)) (fetch_op op x)).
    { assert (K : flag op 64 = fr op) by (pose proof (dispatch_kind _ _ D) as K; unfold kind_ok in K; destruct (flag op 64), (fr op); try reflexivity; cbn in K; lia). rewrite K. destruct (fk op), (fr op); reflexivity. }
    rewrite Hf in Hk.
    assert (Lb : is_byte (k_len (get_stack (Stk (fk op) (fr op)) (fetch_op op x)))).
    { rewrite <- Hf. apply (b_len _ _ _ B). }
    assert (Hi : has_info (fetch_op op x)) by exact (b_info _ _ _ B).
    unfold pop_ex in P1. change (x_term (fetch_op op x)) with (x_term x) in P1. rewrite T in P1. change (flag_k (fetch_op op x)) with (fk op) in P1.
    destruct (pop_from_const _ _ _ _ _ Lb Hk Hi P1 P2) as (K1 & K2 & K3).
    unfold pop_ex in P3. rewrite P2 in P3. replace (flag_k y) with (fk op) in P3 by (unfold flag_k; rewrite P5; reflexivity).
    destruct (pop_from_const _ _ _ _ _ K3 K2 (goes_has _ _ (ok_pop_from _ _ _ _ _ Hi P1) Hi) P3 P4) as (K4 & _).
    unfold deo_reports. rewrite K1, K4. cbn [andb]. destruct (f2 op); discriminate.
Qed.
Print Assumptions C88_reported_writes_happen.
Definition deo_evs : list event := evs_of (bytes "#1234 #20 DEO2 BRK").
Example C88_case : let x := the_x 2 deo_evs in let s := machine_at deo_evs 261 (upd (upd (upd (fun _ => 0) 0 18) 1 52) 2 32) 3 in
  checking deo_evs x /\ x_term x = false /\ agrees _ x s /\ h_casts (x_h x) (x_pc x) = None /\ h_rom (x_h x) (x_pc x) = 55 /\
  exists x' s', exec_op x = COk (tt, x') /\ x_term x' = false /\ VmModel.step _ quiet_dei note true s = Ok (true, s') /\ s_w _ s' = [(32, 18); (33, 52)] /\
    writes (h_reports (x_h x')) = [(32, 18); (33, 52)].
Proof.
  cbv zeta. split; [apply is_reached; vm_compute; reflexivity|]. split; [vm_compute; reflexivity|]. split.
  - case_agrees.
  - split; [vm_compute; reflexivity|]. split; [vm_compute; reflexivity|]. eexists. eexists. split; [vm_compute; reflexivity|]. split; [vm_compute; reflexivity|]. split; [vm_compute; reflexivity|].
    split; vm_compute; reflexivity.
Qed.
