(** A hook that does not write the VM is unobservable. *)
From Verif Require Import Base VmModel VmSpec VmProofs VmStep VmRun.

(** Only BRK ends a run, and it saves the pointers. *)
Lemma step_false W dei deo hi (x x1 : st W) :
  step W dei deo hi x = Ok (false, x1) -> s_vm _ x1 = sync _ x1.
Proof.
  unfold step, bind, getpc, setpc.
  destruct (mem_read W (s_pc W x) x) as [[op x0]|]; [|discriminate].
  destruct (dispatch op) as [l|]; [|discriminate].
  assert (N : forall A (m : M W A) y, bind W m (fun _ => ret W true) y = Ok (false, x1) -> s_vm _ x1 = sync _ x1).
  { intros A m y. unfold bind, ret. destruct (m y) as [[? ?]|]; discriminate. }
  assert (B : forall A B (m : M W A) (k : A -> M W B) y z, bind W m k y = Ok z -> exists a y', k a y' = Ok z).
  { intros A B m k y z. unfold bind. destruct (m y) as [[? ?]|]; [eauto|discriminate]. }
  destruct l; cbn [exec_label]; intros H.
  - cbn in H. injection H as <-. reflexivity.
  - apply B in H as (? & ? & H). apply B in H as (? & ? & H). eauto.
  - apply B in H as (? & ? & H). apply B in H as (? & ? & H). eauto.
  - apply B in H as (? & ? & H). apply B in H as (? & ? & H).
    apply B in H as (? & ? & H). eauto.
  - apply B in H as (? & ? & H). apply B in H as (? & ? & H). apply B in H as (? & ? & H). eauto.
  - apply B in H as (? & ? & H). eauto.
Qed.

Section Hook.
Variables W L : Type.
Variable dei : Z -> vm -> W -> res (Z * vm * W).
Variable deo : Z -> vm -> W -> res (vm * W).
Variable hi_first : bool.
Variable observe : Z -> vm -> W -> L -> L.

(** The same host beside the private state [L] of the hook. *)
Definition dei_l (a : Z) (v : vm) (w : W * L) : res (Z * vm * (W * L)) :=
  match dei a v (fst w) with
  | Ok (b, v', w') => Ok (b, v', (w', snd w))
  | Fault f => Fault f
  end.
Definition deo_l (a : Z) (v : vm) (w : W * L) : res (vm * (W * L)) :=
  match deo a v (fst w) with
  | Ok (v', w') => Ok (v', (w', snd w))
  | Fault f => Fault f
  end.
(** A hook that only changes its private state. *)
Definition passive (pc : Z) (v : vm) (w : W * L) : res (vm * (W * L)) :=
  Ok (v, (fst w, observe pc v (fst w) (snd w))).

(** The states in which an unhooked run fetches an opcode. *)
Fixpoint visited (fuel : nat) (x : st W) : list (st W) :=
  match fuel with
  | O => []
  | S n => x :: match step W dei deo hi_first x with
                | Ok (true, y) => visited n y
                | _ => []
                end
  end.

Record R (l : L) (x : st W) (y : st (W * L)) : Prop := {
  R_vm : vm_set_ptrs (s_vm _ x) 0 0 = vm_set_ptrs (s_vm _ y) 0 0;
  R_wsp : s_wsp _ x = s_wsp _ y;
  R_rsp : s_rsp _ x = s_rsp _ y;
  R_kwsp : s_kwsp _ x = s_kwsp _ y;
  R_krsp : s_krsp _ x = s_krsp _ y;
  R_pc : s_pc _ x = s_pc _ y;
  R_w : s_w _ y = (s_w _ x, l)
}.

Definition rel {A} l (a : res (A * st W)) (b : res (A * st (W * L))) : Prop :=
  match a, b with
  | Ok (r, x), Ok (r', y) => r = r' /\ R l x y
  | Fault f, Fault g => f = g
  | _, _ => False
  end.

Definition sim {A} (a : M W A) (b : M (W * L) A) : Prop :=
  forall l x y, R l x y -> rel l (a x) (b y).

Lemma sim_bind A B (m : M W A) m' (k : A -> M W B) k' :
  sim m m' -> (forall a, sim (k a) (k' a)) -> sim (bind W m k) (bind _ m' k').
Proof.
  intros H K l x y HR. specialize (H l x y HR). unfold bind, rel in *.
  destruct (m x) as [[a x']|], (m' y) as [[a' y']|]; try contradiction; auto.
  destruct H as [-> H]. apply K; auto.
Qed.
Lemma sim_ret A (a : A) : sim (ret W a) (ret _ a).
Proof. intros l x y HR. split; auto. Qed.
Lemma sim_fault A f : sim (fun _ : st W => @Fault (A * st W) f) (fun _ => Fault f).
Proof. intros l x y HR. reflexivity. Qed.

(** Both states as records, with the hidden pointer fields generalised. *)
Ltac open_R :=
  let l := fresh "l" in
  intros l [[a1 a2 ws rs dev mem msz] wsp rsp kwsp krsp pc w]
         [[b1 b2 ws' rs' dev' mem' msz'] wsp' rsp' kwsp' krsp' pc' w'] [H1 H2 H3 H4 H5 H6 H7];
  cbn in H1, H2, H3, H4, H5, H6, H7;
  injection H1 as H10 H11 H12 H13 H14; subst.

Ltac close_R := cbn; try reflexivity; try (split; [reflexivity|constructor; reflexivity]).

Lemma sim_getpc : sim (getpc W) (getpc _).
Proof. open_R. close_R. Qed.
Lemma sim_setpc p : sim (setpc W p) (setpc _ p).
Proof. open_R. close_R. Qed.
Lemma sim_keep k r : sim (keep_prologue W k r) (keep_prologue _ k r).
Proof. open_R. destruct k, r; close_R. Qed.
Lemma sim_setptr k r p l x y : R l x y -> R l (setptr W k r p x) (setptr _ k r p y).
Proof. intros []. destruct k, r; constructor; cbn; auto. Qed.
Lemma sim_getptr k r l x y : R l x y -> getptr W k r x = getptr _ k r y.
Proof. intros []. destruct k, r; cbn; auto. Qed.
Lemma sim_stack_read r i : sim (stack_read W r i) (stack_read _ r i).
Proof. open_R. unfold stack_read, aget. destruct r; cbn; destruct (in_bounds 256 i); close_R. Qed.
Lemma sim_stack_write r i v : sim (stack_write W r i v) (stack_write _ r i v).
Proof. open_R. unfold stack_write, aset. destruct r; cbn; destruct (in_bounds 256 i); close_R. Qed.
Lemma sim_mem_read i : sim (mem_read W i) (mem_read _ i).
Proof. open_R. unfold mem_read, aget. cbn. destruct (in_bounds _ i); close_R. Qed.
Lemma sim_mem_write i v : sim (mem_write W i v) (mem_write _ i v).
Proof. open_R. unfold mem_write, aset. cbn. destruct (in_bounds _ i); close_R. Qed.
Lemma sim_lift A (r : res A) : sim (lift W r) (lift _ r).
Proof. intros l x y H. unfold lift. destruct r; cbn; auto. Qed.
Lemma sim_pop1 k r : sim (pop1 W k r) (pop1 _ k r).
Proof.
  intros l x y H. unfold pop1. rewrite (sim_getptr k r l x y H).
  apply sim_stack_read. apply sim_setptr; auto.
Qed.
Lemma sim_pop2 k r : sim (pop2 W k r) (pop2 _ k r).
Proof.
  intros l x y H. unfold pop2. rewrite (sim_getptr k r l x y H).
  apply sim_bind; [apply sim_stack_read| |apply sim_setptr; auto].
  intros. apply sim_bind; [apply sim_stack_read|]. intros. apply sim_ret.
Qed.
Lemma sim_pop k r s : sim (pop W k r s) (pop _ k r s).
Proof.
  apply sim_bind; [destruct s; auto using sim_pop1, sim_pop2|]. intros; apply sim_ret.
Qed.
Lemma sim_push1 r v : sim (push1 W r v) (push1 _ r v).
Proof.
  intros l x y H. unfold push1. rewrite (sim_getptr false r l x y H).
  apply sim_stack_write. apply sim_setptr; auto.
Qed.
Lemma sim_push2 r v : sim (push2 W r v) (push2 _ r v).
Proof.
  intros l x y H. unfold push2. rewrite (sim_getptr false r l x y H).
  apply sim_bind; auto using sim_stack_write. intros.
  apply sim_bind; auto using sim_stack_write. intros _ l' x' y' H'.
  split; auto. apply sim_setptr; auto.
Qed.
Lemma sim_push r s v : sim (push W r s v) (push _ r s v).
Proof. destruct s; [apply sim_push2|apply sim_push1]. Qed.
Lemma sim_jump s v : sim (jump W s v) (jump _ s v).
Proof. apply sim_bind; [apply sim_getpc|]. intros. apply sim_setpc. Qed.
Lemma sim_load md s a : sim (load W md s a) (load _ md s a).
Proof.
  destruct s; [|apply sim_mem_read].
  apply sim_bind; [apply sim_mem_read|]. intros.
  apply sim_bind; [apply sim_mem_read|]. intros. apply sim_ret.
Qed.
Lemma sim_store md s a v : sim (store W md s a v) (store _ md s a v).
Proof.
  destruct s; [|apply sim_mem_write].
  apply sim_bind; [apply sim_mem_write|]. intros. apply sim_mem_write.
Qed.

(** Between SAVE_STATE and LOAD_STATE the pointer fields agree as well. *)
Record R' (l : L) (x : st W) (y : st (W * L)) : Prop := {
  R'_R : R l x y;
  R'_vm : s_vm _ x = s_vm _ y
}.
Definition sim' {A} (a : M W A) (b : M (W * L) A) : Prop :=
  forall l x y, R' l x y ->
  match a x, b y with
  | Ok (r, x), Ok (r', y) => r = r' /\ R' l x y
  | Fault f, Fault g => f = g
  | _, _ => False
  end.
Lemma sim'_bind A B (m : M W A) m' (k : A -> M W B) k' :
  sim' m m' -> (forall a, sim' (k a) (k' a)) -> sim' (bind W m k) (bind _ m' k').
Proof.
  intros H K l x y HR. specialize (H l x y HR). unfold bind in *.
  destruct (m x) as [[a x']|], (m' y) as [[a' y']|]; try contradiction; auto.
  destruct H as [-> H]. apply K; auto.
Qed.
Ltac open_R' :=
  let l := fresh "l" in
  intros l [vv wsp rsp kwsp krsp pc w]
         [vv' wsp' rsp' kwsp' krsp' pc' w'] [[H1 H2 H3 H4 H5 H6 H7] H8];
  cbn in H1, H2, H3, H4, H5, H6, H7, H8; subst.
Lemma sim'_ret A (a : A) : sim' (ret W a) (ret _ a).
Proof. intros l x y HR. split; auto. Qed.
Lemma sim'_dei a : sim' (dev_in1 W dei a) (dev_in1 _ dei_l a).
Proof.
  open_R'. unfold dev_in1, dei_l. cbn. destruct (dei (u8 a) vv' w) as [[[b v1] w1]|]; auto.
  split; auto. constructor; auto. constructor; auto.
Qed.
Lemma sim'_deo a : sim' (call_deo W deo a) (call_deo _ deo_l a).
Proof.
  open_R'. unfold call_deo, deo_l. cbn. destruct (deo (u8 a) vv' w) as [[v1 w1]|]; auto.
  split; auto. constructor; auto. constructor; auto.
Qed.
Lemma sim'_dev_write a v : sim' (dev_write W a v) (dev_write _ a v).
Proof.
  open_R'. unfold dev_write, aset. cbn. destruct (in_bounds 256 a); auto.
  split; auto. constructor; auto. constructor; auto.
Qed.
Lemma sim'_dev_in s a : sim' (dev_in W dei hi_first s a) (dev_in _ dei_l hi_first s a).
Proof.
  unfold dev_in. destruct s; [destruct hi_first|]; try apply sim'_dei;
  (apply sim'_bind; [apply sim'_dei|]; intros; apply sim'_bind; [apply sim'_dei|]; intros; apply sim'_ret).
Qed.
Lemma sim'_dev_out s a v : sim' (dev_out W deo s a v) (dev_out _ deo_l s a v).
Proof.
  unfold dev_out. destruct s; repeat (apply sim'_bind; [apply sim'_dev_write || apply sim'_deo|intros]);
  apply sim'_deo.
Qed.
Lemma save_R' l x y : R l x y ->
  match save_state W x, save_state _ y with
  | Ok (r, x), Ok (r', y) => r = r' /\ R' l x y
  | _, _ => False
  end.
Proof.
  revert l x y. open_R. cbn. split; auto. constructor; [constructor|]; reflexivity.
Qed.
Lemma load_R' l x y : R' l x y -> rel l (load_state W x) (load_state _ y).
Proof.
  revert l x y. open_R'. cbn. split; auto. constructor; reflexivity.
Qed.
Lemma sim_save_host A (m : M W A) m' B (k : A -> M W B) k' :
  sim' m m' -> (forall a, sim (k a) (k' a)) ->
  sim (bind W (save_state W) (fun _ => bind W m (fun b => bind W (load_state W) (fun _ => k b))))
      (bind _ (save_state _) (fun _ => bind _ m' (fun b => bind _ (load_state _) (fun _ => k' b)))).
Proof.
  intros Hm Hk l x y H. apply save_R' in H. unfold bind.
  destruct (save_state W x) as [[[] x1]|], (save_state _ y) as [[[] y1]|]; try contradiction.
  destruct H as [_ H]. specialize (Hm _ _ _ H).
  destruct (m x1) as [[b x2]|], (m' y1) as [[b' y2]|]; try contradiction; auto.
  destruct Hm as [-> Hm]. apply load_R' in Hm. unfold rel in Hm.
  destruct (load_state W x2) as [[[] x3]|], (load_state _ y2) as [[[] y3]|]; try contradiction; auto.
  destruct Hm as [_ Hm]. apply Hk; auto.
Qed.
Lemma sim_ext A (a a' : M W A) b b' :
  (forall x, a x = a' x) -> (forall y, b y = b' y) -> sim a b -> sim a' b'.
Proof. intros H1 H2 H l x y HR. rewrite <- H1, <- H2. auto. Qed.

Lemma sim_poly_op o k r s : sim (poly_op W dei deo hi_first o k r s) (poly_op _ dei_l deo_l hi_first o k r s).
Proof.
  destruct o; cbn [poly_op]; unfold cmp_op, bin_op;
  repeat first
    [ apply sim_pop | apply sim_push | apply sim_jump | apply sim_load | apply sim_store | apply sim_getpc
    | apply sim_ret | apply sim_lift
    | (apply sim_save_host; [apply sim'_dev_in|])
    | (apply sim_bind; [first [apply sim_pop | apply sim_push | apply sim_jump | apply sim_load
                              | apply sim_store | apply sim_getpc | apply sim_ret | apply sim_lift]|])
    | progress intros
    | match goal with |- sim (if ?b then _ else _) _ => destruct b end ].
  (* DEO *)
  eapply sim_ext; [| |apply (sim_save_host unit (dev_out W deo s a a0) (dev_out _ deo_l s a a0) unit
     (fun _ => ret W tt) (fun _ => ret _ tt)); [apply sim'_dev_out|intros; apply sim_ret]].
  - intros x. unfold bind. destruct (save_state W x) as [[[] x1]|]; [|reflexivity].
    destruct (dev_out W deo s a a0 x1) as [[[] x2]|]; reflexivity.
  - intros x. unfold bind. destruct (save_state _ x) as [[[] x1]|]; [|reflexivity].
    destruct (dev_out _ deo_l s a a0 x1) as [[[] x2]|]; reflexivity.
Qed.

Lemma sim_save : sim (save_state W) (save_state _).
Proof. open_R. close_R. Qed.

Lemma sim_exec l0 : sim (exec_label W dei deo hi_first l0) (exec_label _ dei_l deo_l hi_first l0).
Proof.
  destruct l0; cbn [exec_label];
  repeat first
    [ apply sim_pop | apply sim_push | apply sim_push2 | apply sim_jump | apply sim_load | apply sim_store
    | apply sim_getpc | apply sim_setpc
    | apply sim_ret | apply sim_lift | apply sim_keep | apply sim_poly_op | apply sim_save
    | (apply sim_bind; [|]) | progress intros
    | match goal with |- sim (if ?b then _ else _) _ => destruct b end ].
Qed.

Lemma sim_step : sim (step W dei deo hi_first) (step _ dei_l deo_l hi_first).
Proof.
  apply sim_bind; [apply sim_getpc|]. intros pc.
  apply sim_bind; [apply sim_mem_read|]. intros op.
  apply sim_bind; [apply sim_setpc|]. intros _.
  destruct (dispatch op); [apply sim_exec|apply sim_fault].
Qed.

Lemma R_sync l x y : R l x y -> sync _ x = sync _ y.
Proof.
  revert l x y. open_R. reflexivity.
Qed.

(** Outcome of the hooked run in terms of the unhooked one. *)
Definition with_log (o : outcome W) (l : L) : outcome (W * L) :=
  match o with
  | Done _ v w => Done _ v (w, l)
  | Crash _ f => Crash _ f
  | OutOfFuel _ => OutOfFuel _
  end.
Definition log_of (xs : list (st W)) (l : L) : L :=
  fold_left (fun l y => observe (s_pc _ y) (sync _ y) (s_w _ y) l) xs l.

Lemma hook_sim fuel : forall x y l, R l x y ->
  run _ dei_l deo_l hi_first (Some passive) fuel y =
  with_log (run _ dei deo hi_first None fuel x) (log_of (visited fuel x) l).
Proof.
  induction fuel as [|n IH]; intros x y l H; cbn [run visited]; auto.
  cbn [next_opcode]. unfold bind at 1. unfold call_hook, passive.
  pose proof (R_sync l x y H) as S. unfold sync in S. rewrite <- S.
  destruct H as [H1 H2 H3 H4 H5 H6 H7].
  rewrite H7. cbn [fst snd].
  set (l' := observe (s_pc (W * L) y) _ _ l).
  set (y' := mkSt (W * L) _ _ _ _ _ _ _).
  assert (HR : R l' x y').
  { constructor; cbn; auto. }
  pose proof (sim_step l' x y' HR) as E. unfold rel in E.
  cbn [log_of fold_left].
  change (observe (s_pc W x) (sync W x) (s_w W x) l) with (observe (s_pc W x) (sync W x) (s_w W x) l).
  assert (El : observe (s_pc W x) (sync W x) (s_w W x) l = l') by (unfold l', sync; rewrite H6; auto).
  rewrite El.
  destruct (step W dei deo hi_first x) as [[b x1]|] eqn:E1,
           (step _ dei_l deo_l hi_first y') as [[b' y1]|] eqn:E2; try contradiction.
  - destruct E as [<- E]. destruct b.
    + apply IH; auto.
    + cbn [with_log fold_left]. rewrite (R_w _ _ _ E). f_equal.
      rewrite (step_false _ _ _ _ _ _ E1), (step_false _ _ _ _ _ _ E2).
      symmetry. eapply R_sync; eauto.
  - cbn. congruence.
Qed.

(** At the entry of [buxn_vm_execute]. *)
Lemma hook_execute fuel kw kr pc v w l :
  execute _ dei_l deo_l hi_first (Some passive) kw kr fuel pc v (w, l) =
  with_log (execute _ dei deo hi_first None kw kr fuel pc v w)
           (if pc =? 0 then l else log_of (visited fuel (initial _ kw kr pc v w)) l).
Proof.
  unfold execute. destruct (pc =? 0); auto.
  apply hook_sim. constructor; reflexivity.
Qed.
End Hook.
