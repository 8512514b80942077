(** Two hosts whose callbacks are related give related runs: the VM uses the
    host state only through the callbacks. *)
From Verif Require Import Base VmModel.

Lemma u8_byte a : is_byte (u8 a).
Proof. apply Z.mod_pos_bound. reflexivity. Qed.

Section World.
Variables W V : Type.
Variable P : W -> V -> Prop.
Variable dei : Z -> vm -> W -> res (Z * vm * W).
Variable deo : Z -> vm -> W -> res (vm * W).
Variable dei' : Z -> vm -> V -> res (Z * vm * V).
Variable deo' : Z -> vm -> V -> res (vm * V).
Variable hi_first : bool.

Definition rel_in (a : res (Z * vm * W)) (b : res (Z * vm * V)) : Prop :=
  match a, b with
  | Ok (x, v, w), Ok (x', v', w') => x = x' /\ v = v' /\ P w w'
  | Fault f, Fault g => f = g
  | _, _ => False
  end.
Definition rel_out (a : res (vm * W)) (b : res (vm * V)) : Prop :=
  match a, b with
  | Ok (v, w), Ok (v', w') => v = v' /\ P w w'
  | Fault f, Fault g => f = g
  | _, _ => False
  end.
Definition hosts_related : Prop :=
  (forall a v w w', is_byte a -> P w w' -> rel_in (dei a v w) (dei' a v w')) /\
  (forall a v w w', is_byte a -> P w w' -> rel_out (deo a v w) (deo' a v w')).
Hypothesis HH : hosts_related.

Record R (x : st W) (y : st V) : Prop := {
  R_vm : s_vm _ x = s_vm _ y;
  R_wsp : s_wsp _ x = s_wsp _ y;
  R_rsp : s_rsp _ x = s_rsp _ y;
  R_kwsp : s_kwsp _ x = s_kwsp _ y;
  R_krsp : s_krsp _ x = s_krsp _ y;
  R_pc : s_pc _ x = s_pc _ y;
  R_w : P (s_w _ x) (s_w _ y)
}.
Definition rel {A} (a : res (A * st W)) (b : res (A * st V)) : Prop :=
  match a, b with
  | Ok (r, x), Ok (r', y) => r = r' /\ R x y
  | Fault f, Fault g => f = g
  | _, _ => False
  end.
Definition sim {A} (a : M W A) (b : M V A) : Prop := forall x y, R x y -> rel (a x) (b y).

Lemma sim_bind A B (m : M W A) m' (k : A -> M W B) k' :
  sim m m' -> (forall a, sim (k a) (k' a)) -> sim (bind W m k) (bind _ m' k').
Proof using.
  intros H K x y HR. specialize (H x y HR). unfold bind, rel in *.
  destruct (m x) as [[a x']|], (m' y) as [[a' y']|]; try contradiction; auto.
  destruct H as [-> H]. apply K; auto.
Qed.
Lemma sim_ret A (a : A) : sim (ret W a) (ret _ a).
Proof using. intros x y HR. split; auto. Qed.
Lemma sim_fault A f : sim (fun _ : st W => @Fault (A * st W) f) (fun _ => Fault f).
Proof using. intros x y HR. reflexivity. Qed.

Ltac open_R :=
  intros [vv wsp rsp kwsp krsp pc w] [vv' wsp' rsp' kwsp' krsp' pc' w'] [H1 H2 H3 H4 H5 H6 H7];
  cbn in H1, H2, H3, H4, H5, H6, H7; subst.
Ltac close_R := cbn; try reflexivity; try (split; [reflexivity|constructor; cbn; auto]).

Lemma sim_getpc : sim (getpc W) (getpc _).
Proof using. open_R. close_R. Qed.
Lemma sim_setpc p : sim (setpc W p) (setpc _ p).
Proof using. open_R. close_R. Qed.
Lemma sim_load_state : sim (load_state W) (load_state _).
Proof using. open_R. close_R. Qed.
Lemma sim_save_state : sim (save_state W) (save_state _).
Proof using. open_R. close_R. Qed.
Lemma sim_keep k r : sim (keep_prologue W k r) (keep_prologue _ k r).
Proof using. open_R. destruct k, r; close_R. Qed.
Lemma sim_setptr k r p x y : R x y -> R (setptr W k r p x) (setptr _ k r p y).
Proof using. intros []. destruct k, r; constructor; cbn; auto. Qed.
Lemma sim_getptr k r x y : R x y -> getptr W k r x = getptr _ k r y.
Proof using. intros []. destruct k, r; cbn; auto. Qed.
Lemma sim_stack_read r i : sim (stack_read W r i) (stack_read _ r i).
Proof using. open_R. unfold stack_read, aget. destruct r; cbn; destruct (in_bounds 256 i); close_R. Qed.
Lemma sim_stack_write r i v : sim (stack_write W r i v) (stack_write _ r i v).
Proof using. open_R. unfold stack_write, aset. destruct r; cbn; destruct (in_bounds 256 i); close_R. Qed.
Lemma sim_mem_read i : sim (mem_read W i) (mem_read _ i).
Proof using. open_R. unfold mem_read, aget. cbn. destruct (in_bounds _ i); close_R. Qed.
Lemma sim_mem_write i v : sim (mem_write W i v) (mem_write _ i v).
Proof using. open_R. unfold mem_write, aset. cbn. destruct (in_bounds _ i); close_R. Qed.
Lemma sim_dev_write i v : sim (dev_write W i v) (dev_write _ i v).
Proof using. open_R. unfold dev_write, aset. cbn. destruct (in_bounds _ i); close_R. Qed.
Lemma sim_lift A (r : res A) : sim (lift W r) (lift _ r).
Proof using. intros x y H. unfold lift. destruct r; cbn; auto. Qed.
Lemma sim_pop1 k r : sim (pop1 W k r) (pop1 _ k r).
Proof using.
  intros x y H. unfold pop1. rewrite (sim_getptr k r x y H).
  apply sim_stack_read. apply sim_setptr; auto.
Qed.
Lemma sim_pop2 k r : sim (pop2 W k r) (pop2 _ k r).
Proof using.
  intros x y H. unfold pop2. rewrite (sim_getptr k r x y H).
  apply sim_bind; [apply sim_stack_read| |apply sim_setptr; auto].
  intros. apply sim_bind; [apply sim_stack_read|]. intros. apply sim_ret.
Qed.
Lemma sim_pop k r s : sim (pop W k r s) (pop _ k r s).
Proof using.
  apply sim_bind; [destruct s; auto using sim_pop1, sim_pop2|]. intros; apply sim_ret.
Qed.
Lemma sim_push1 r v : sim (push1 W r v) (push1 _ r v).
Proof using.
  intros x y H. unfold push1. rewrite (sim_getptr false r x y H).
  apply sim_stack_write. apply sim_setptr; auto.
Qed.
Lemma sim_push2 r v : sim (push2 W r v) (push2 _ r v).
Proof using.
  intros x y H. unfold push2. rewrite (sim_getptr false r x y H).
  apply sim_bind; auto using sim_stack_write. intros.
  apply sim_bind; auto using sim_stack_write. intros _ x' y' H'.
  split; auto. apply sim_setptr; auto.
Qed.
Lemma sim_push r s v : sim (push W r s v) (push _ r s v).
Proof using. destruct s; [apply sim_push2|apply sim_push1]. Qed.
Lemma sim_jump s v : sim (jump W s v) (jump _ s v).
Proof using. apply sim_bind; [apply sim_getpc|]. intros. apply sim_setpc. Qed.
Lemma sim_load md s a : sim (load W md s a) (load _ md s a).
Proof using.
  destruct s; [|apply sim_mem_read].
  apply sim_bind; [apply sim_mem_read|]. intros.
  apply sim_bind; [apply sim_mem_read|]. intros. apply sim_ret.
Qed.
Lemma sim_store md s a v : sim (store W md s a v) (store _ md s a v).
Proof using.
  destruct s; [|apply sim_mem_write].
  apply sim_bind; [apply sim_mem_write|]. intros. apply sim_mem_write.
Qed.
Lemma sim_dei a : sim (dev_in1 W dei a) (dev_in1 _ dei' a).
Proof using HH.
  open_R. unfold dev_in1. cbn. pose proof (proj1 HH (u8 a) vv' w w' (u8_byte a) H7) as E. unfold rel_in in E.
  destruct (dei (u8 a) vv' w) as [[[b v1] w1]|], (dei' (u8 a) vv' w') as [[[b' v1'] w1']|]; try contradiction; auto.
  destruct E as (-> & -> & E). close_R.
Qed.
Lemma sim_deo a : sim (call_deo W deo a) (call_deo _ deo' a).
Proof using HH.
  open_R. unfold call_deo. cbn. pose proof (proj2 HH (u8 a) vv' w w' (u8_byte a) H7) as E. unfold rel_out in E.
  destruct (deo (u8 a) vv' w) as [[v1 w1]|], (deo' (u8 a) vv' w') as [[v1' w1']|]; try contradiction; auto.
  destruct E as (-> & E). close_R.
Qed.
Lemma sim_dev_in s a : sim (dev_in W dei hi_first s a) (dev_in V dei' hi_first s a).
Proof using HH.
  unfold dev_in. destruct s, hi_first; try apply sim_dei;
  (apply sim_bind; [apply sim_dei|]; intros; apply sim_bind; [apply sim_dei|]; intros; apply sim_ret).
Qed.
Lemma sim_dev_out s a v : sim (dev_out W deo s a v) (dev_out V deo' s a v).
Proof using HH.
  unfold dev_out. destruct s; repeat (apply sim_bind; [first [apply sim_dev_write|apply sim_deo]|intros]); apply sim_deo.
Qed.

Ltac sims := repeat first
  [ match goal with |- sim (if ?b then _ else _) _ => destruct b end
  | apply sim_pop | apply sim_push | apply sim_ret | apply sim_jump | apply sim_load
  | apply sim_store | apply sim_getpc | apply sim_setpc | apply sim_lift | apply sim_dev_in | apply sim_dev_out
  | apply sim_load_state | apply sim_save_state | apply sim_keep | apply sim_push2 | apply sim_mem_read
  | apply sim_fault | apply sim_bind; [|intros] ].

Lemma sim_poly o k r s : sim (poly_op W dei deo hi_first o k r s) (poly_op V dei' deo' hi_first o k r s).
Proof using HH.
  destruct o; cbn [poly_op]; unfold cmp_op, bin_op; sims.
Qed.
Lemma sim_exec l : sim (exec_label W dei deo hi_first l) (exec_label V dei' deo' hi_first l).
Proof using HH.
  destruct l; cbn [exec_label]; sims; try apply sim_poly.
Qed.
Lemma sim_step : sim (step W dei deo hi_first) (step V dei' deo' hi_first).
Proof using HH.
  unfold step. sims. destruct (dispatch _); [apply sim_exec|apply sim_fault].
Qed.

Definition rel_outcome (a : outcome W) (b : outcome V) : Prop :=
  match a, b with
  | Done _ v w, Done _ v' w' => v = v' /\ P w w'
  | Crash _ f, Crash _ g => f = g
  | OutOfFuel _, OutOfFuel _ => True
  | _, _ => False
  end.
Lemma run_related fuel : forall x y, R x y ->
  rel_outcome (run W dei deo hi_first None fuel x) (run V dei' deo' hi_first None fuel y).
Proof using HH.
  induction fuel as [|n IH]; intros x y HR; cbn [run]; [exact Logic.I|].
  cbn [next_opcode]. pose proof (sim_step x y HR) as S. unfold rel in S.
  destruct (step W dei deo hi_first x) as [[b x']|], (step V dei' deo' hi_first y) as [[b' y']|];
    try contradiction; auto.
  destruct S as [-> S]. destruct b'; auto. destruct S. split; auto.
Qed.
Lemma execute_related fuel kw kr pc v w w' : P w w' ->
  rel_outcome (execute W dei deo hi_first None kw kr fuel pc v w)
              (execute V dei' deo' hi_first None kw kr fuel pc v w').
Proof using HH.
  intros H. unfold execute. destruct (pc =? 0); [split; auto|].
  apply run_related. constructor; cbn; auto.
Qed.
End World.
