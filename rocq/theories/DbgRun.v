(** Safety of the debugger hook, whole vectors under the debugger, and the
    effect of the commands (C33-C35). *)
From Verif Require Import Base VmModel VmSpec VmProofs VmStep VmRun VmHook DbgModel DbgSpec DbgProofs DbgHits DbgSteps.
From Coq Require Import ZifyBool.
Ltac Zify.zify_post_hook ::= Z.div_mod_to_equations.

Lemma set_mem_typed v a b : well_typed v -> is_byte b -> well_typed (vm_set_mem v (upd (vm_mem v) a b)).
Proof.
  intros (H1 & H2 & H3 & H4 & H5 & H6 & H7) Hb. unfold well_typed. cbn.
  split; [auto|]. split; [auto|]. split; [auto|]. split; [auto|]. split; [auto|]. split; auto.
  intros i Hi. unfold upd. destruct (i =? a); auto.
Qed.
Lemma set_dev_typed v a b : well_typed v -> is_byte b -> well_typed (vm_set_dev v (upd (vm_dev v) a b)).
Proof.
  intros (H1 & H2 & H3 & H4 & H5 & H6 & H7) Hb. unfold well_typed. cbn.
  split; [auto|]. split; [auto|]. split; [auto|]. split; [auto|]. split; auto.
  intros i Hi. unfold upd. destruct (i =? a); auto.
Qed.

Lemma value_at_ok values i : 0 <= i < Z.of_nat (length values) -> Forall is_byte values ->
  value_at values i = Ok (nth (Z.to_nat i) values 0) /\ is_byte (nth (Z.to_nat i) values 0).
Proof.
  intros Hi Hf. unfold value_at.
  assert (Hn : (Z.to_nat i < length values)%nat) by lia.
  rewrite (nth_error_nth' values 0 Hn). split; auto.
  rewrite Forall_forall in Hf. apply Hf. apply nth_In. auto.
Qed.

Lemma upto_length k a : length (upto k a) = k.
Proof. revert a. induction k; intros; cbn; auto. Qed.
Lemma upto_nth k : forall a j, (j < k)%nat -> nth j (upto k a) 0 = a + Z.of_nat j.
Proof.
  induction k as [|k IH]; intros a j Hj; [lia|]. destruct j as [|j]; cbn [upto nth]; [lia|].
  rewrite IH by lia. lia.
Qed.

(** ** Memory windows *)
Lemma mem_read_spec v : 65536 <= vm_msize v -> forall k i addr,
  exists l, mem_read_loop k i addr v = Ok l /\ length l = k /\
    forall j, (j < k)%nat -> nth j l 0 = vm_mem v ((addr + i + Z.of_nat j) mod 65536).
Proof.
  intros Hm. induction k as [|k IH]; intros i addr; cbn [mem_read_loop].
  - exists []. split; auto. split; auto. intros; lia.
  - unfold aget at 1. rewrite in_bounds_true by (unfold u16; lia). cbn [rbind].
    destruct (IH (i + 1) addr) as (l & E & HL & HN). rewrite E. cbn [rbind].
    eexists. split; [reflexivity|]. split; [cbn; lia|]. intros j Hj. destruct j as [|j]; cbn [nth].
    + unfold u16. f_equal. f_equal. lia.
    + rewrite HN by lia. f_equal. f_equal. lia.
Qed.

Lemma mem_write_spec values : Forall is_byte values -> forall k i addr v, well_typed v ->
  0 <= i -> i + Z.of_nat k <= Z.of_nat (length values) -> i + Z.of_nat k <= 65536 ->
  exists v', mem_write_loop k i addr values v = Ok v' /\ well_typed v' /\
    (exists m, v' = vm_set_mem v m) /\
    forall a, vm_mem v' a =
      if (0 <=? a) && (a <? 65536) && (i <=? (a - addr) mod 65536) && ((a - addr) mod 65536 <? i + Z.of_nat k)
      then nth (Z.to_nat ((a - addr) mod 65536)) values 0 else vm_mem v a.
Proof.
  intros Hf. induction k as [|k IH]; intros i addr v Hv Hi Hl Hs; cbn [mem_write_loop].
  - exists v. split; auto. split; auto. split; [exists (vm_mem v); destruct v; reflexivity|].
    intros a. destruct ((_ && _) && _) eqn:E; auto. exfalso. lia.
  - destruct (value_at_ok values i) as [E Hb]; [lia|auto|]. rewrite E. cbn [rbind].
    assert (Hm : 65536 <= vm_msize v) by apply Hv.
    unfold aset. rewrite in_bounds_true by (unfold u16; lia). cbn [rbind].
    pose proof (set_mem_typed v (u16 (addr + i)) _ Hv Hb) as Hv1.
    destruct (IH (i + 1) addr _ Hv1) as (v' & E1 & Hv' & (m & Em) & HM); try lia.
    exists v'. split; auto. split; auto. split; [exists m; rewrite Em; reflexivity|].
    intros a. rewrite HM. cbn [vm_mem vm_set_mem]. unfold upd.
    destruct (a =? u16 (addr + i)) eqn:Ea.
    + unfold u16 in Ea.
      replace ((a - addr) mod 65536) with i by lia.
      replace ((0 <=? a) && (a <? 65536) && (i <=? i) && (i <? i + Z.of_nat (S k))) with true by lia.
      replace ((0 <=? a) && (a <? 65536) && (i + 1 <=? i) && (i <? i + 1 + Z.of_nat k)) with false by lia.
      reflexivity.
    + set (x := (a - addr) mod 65536) in *.
      assert (Hx : 0 <= a < 65536 -> x <> i) by (unfold x, u16 in *; lia).
      replace ((0 <=? a) && (a <? 65536) && (i + 1 <=? x) && (x <? i + 1 + Z.of_nat k)) with
        ((0 <=? a) && (a <? 65536) && (i <=? x) && (x <? i + Z.of_nat (S k))) by lia.
      reflexivity.
Qed.

Section Run.
Variable W : Type.
Variable dei : Z -> vm -> W -> res (Z * vm * W).
Variable deo : Z -> vm -> W -> res (vm * W).
Notation serve := (serve W dei deo).
Notation pause_loop := (pause_loop W dei deo).
Notation dbg_hook := (dbg_hook W dei deo).
Notation is_call := (is_call W dei deo).
Notation calls := (calls W dei deo).
Notation reachable := (reachable W dei deo).
Notation callback_fault := (callback_fault W dei deo).

(** ** Commands *)
Lemma dev_read_cases : host_well_typed dei deo -> forall k i addr v w, well_typed v ->
  match dev_read_loop W dei k i addr v w with
  | Ok (l, v', _) => well_typed v' /\ length l = k /\ Forall is_byte l
  | Fault f => callback_fault f
  end.
Proof.
  intros HH. induction k as [|k IH]; intros i addr v w Hv; cbn [dev_read_loop]; auto.
  assert (Hp : is_byte (u8 (addr + i))) by (unfold is_byte, u8; lia).
  destruct (dei (u8 (addr + i)) v w) as [[[b v1] w1]|f] eqn:E; cbn [rbind].
  - assert (H1 : well_typed v1) by (exact (proj1 HH _ _ _ _ _ _ Hp Hv E)).
    specialize (IH (i + 1) addr v1 w1 H1).
    destruct (dev_read_loop W dei k (i + 1) addr v1 w1) as [[[l v2] w2]|f]; cbn [rbind]; auto.
    destruct IH as (H2 & H3 & H4). split; auto. split; [cbn; lia|].
    constructor; auto. unfold is_byte, u8; lia.
  - exists (u8 (addr + i)), v, w. auto.
Qed.

Lemma dev_write_cases values : host_well_typed dei deo -> Forall is_byte values ->
  forall k i addr v w, well_typed v -> 0 <= i -> i + Z.of_nat k <= Z.of_nat (length values) ->
  match dev_write_loop W deo k i addr values v w with
  | Ok (v', _) => well_typed v'
  | Fault f => callback_fault f
  end.
Proof.
  intros HH Hf. induction k as [|k IH]; intros i addr v w Hv Hi Hl; cbn [dev_write_loop]; auto.
  assert (Hp : is_byte (u8 (addr + i))) by (unfold is_byte, u8; lia).
  destruct (value_at_ok values i) as [E Hb]; [lia|auto|]. rewrite E. cbn [rbind].
  unfold aset. rewrite in_bounds_true by (unfold is_byte in Hp; lia). cbn [rbind].
  pose proof (set_dev_typed v (u8 (addr + i)) _ Hv Hb) as Hv1.
  destruct (deo _ _ w) as [[v1 w1]|f] eqn:E1; cbn [rbind].
  - apply IH; try lia. exact (proj2 HH _ _ _ _ _ Hp Hv1 E1).
  - eexists _, _, _. split; [exact Hp|]. split; [exact Hv1|]. right. exact E1.
Qed.

Lemma serve_cases pc c v d w : host_well_typed dei deo -> cmd_ok c -> well_typed v ->
  match serve pc c v d w with
  | Ok (_, _, v', _, _) => well_typed v'
  | Fault f => callback_fault f
  end.
Proof.
  intros HH Hc Hv. destruct c as [[]| | | | |id|id b|addr size|addr size values|addr size|addr size values|];
    cbn [DbgModel.serve]; auto.
  - cbn in Hc. unfold BRKP_NONE. destruct (Z.eqb_spec id 255); auto.
    unfold tab_get. rewrite in_bounds_true by (unfold is_byte in Hc; lia). auto.
  - cbn in Hc. unfold brkp_set, BRKP_NONE. destruct (Z.eqb_spec id 255); auto.
    rewrite in_bounds_true by (unfold is_byte in Hc; lia). auto.
  - pose proof (dev_read_cases HH (Z.to_nat size) 0 addr v w Hv) as H.
    destruct (dev_read_loop _ _ _ _ _ _ _) as [[[l v'] w']|f]; cbn [rbind]; tauto.
  - destruct Hc as (H1 & H2 & H3 & H4). unfold is_byte in H2.
    pose proof (dev_write_cases values HH H4 (Z.to_nat size) 0 addr v w Hv ltac:(lia) ltac:(lia)) as H.
    destruct (dev_write_loop _ _ _ _ _ _ _) as [[v' w']|f]; cbn [rbind]; auto.
  - destruct (mem_read_spec v ltac:(apply Hv) (Z.to_nat size) 0 addr) as (l & E & _). rewrite E. auto.
  - destruct Hc as (H1 & H2 & H3 & H4). unfold is_short in H2.
    destruct (mem_write_spec values H4 (Z.to_nat size) 0 addr v Hv) as (v' & E & H & _); try lia.
    rewrite E. auto.
Qed.

Lemma pause_cases pc : host_well_typed dei deo -> forall input log v d w, Forall cmd_ok input -> well_typed v ->
  match pause_loop input pc log v d w with
  | Ok (v', _, _, _, _) => well_typed v'
  | Fault f => callback_fault f
  end.
Proof.
  intros HH. induction input as [|c rest IH]; intros log v d w Hok Hv; cbn [DbgModel.pause_loop].
  - auto.
  - inversion Hok; subst. pose proof (serve_cases pc c v d w HH H1 Hv) as H.
    destruct (serve pc c v d w) as [[[[[g r] v1] d1] w1]|f]; cbn [rbind]; auto.
    destruct g; auto. apply IH; auto.
Qed.

(** The hook faults only when a device callback does. *)
Lemma hook_safe pc v w s : host_well_typed dei deo -> reachable s -> is_short pc -> well_typed v ->
  match dbg_hook pc v (w, s) with
  | Ok (v', _) => well_typed v'
  | Fault f => callback_fault f
  end.
Proof.
  intros HH HR Hp Hv. apply reachable_T in HR as [(HI & _) Hin]. destruct s as [d0 input log0].
  cbn [ds_dbg ds_in] in *. cbn [DbgModel.dbg_hook].
  assert (HI' : tab_inv (set_executing d0 true)) by (eapply tab_inv_ext; [| | |exact HI]; auto).
  destruct (match_brkp_range _ (negb (d_executing d0)) pc v HI' Hv Hp) as (id & E & Hid).
  rewrite E. cbn [rbind]. pose proof (ti_n _ HI') as Hn.
  assert (Hb : exists p, (if id =? BRKP_NONE then Ok false
         else rbind (tab_get (set_executing d0 true) id) (fun b => Ok (has (b_mask b) BRKP_PAUSE))) = Ok p).
  { unfold BRKP_NONE. destruct (Z.eqb_spec id 255); [eauto|].
    unfold tab_get. rewrite in_bounds_true by lia. cbn. eauto. }
  destruct Hb as (p & ->). cbn [rbind].
  set (log1 := if negb (d_executing d0) then log0 ++ [EvBeginExec pc] else log0).
  set (stop := p || standing_pause (set_executing d0 true) v).
  assert (A : forall v' (d' : dbg) (w' : W) i l, well_typed v' ->
    match rbind (aget (vm_msize v') (vm_mem v') pc) (fun op =>
      if op =? 0 then Ok (v', (w', mkSide (set_executing d' false) i (l ++ [EvEndExec])))
      else Ok (v', (w', mkSide d' i l))) with
    | Ok (v', _) => well_typed v' | Fault f => callback_fault f end).
  { intros v' d' w' i l Hv'. assert (65536 <= vm_msize v') by apply Hv'.
    unfold aget. rewrite in_bounds_true by (unfold is_short in Hp; lia). cbn [rbind].
    destruct (_ =? 0); auto. }
  destruct (stop || negb (id =? BRKP_NONE)).
  - destruct stop.
    + pose proof (pause_cases pc HH input (log1 ++ [EvBeginBreak id]) v (set_executing d0 true) w Hin Hv) as H.
      destruct (pause_loop _ _ _ _ _ _) as [[[[[v' d'] w'] i'] l']|f]; cbn [rbind]; auto.
      apply (A v' d' w' i' _ H).
    + cbn [rbind]. apply (A v _ w _ _ Hv).
  - cbn [rbind]. apply (A v _ w _ _ Hv).
Qed.

(** ** Whole vectors *)
Definition run_dbg (hi : bool) := run (W * dbg_side) (dei_l W dbg_side dei) (deo_l W dbg_side deo) hi (Some dbg_hook).
Definition exec_dbg (hi : bool) := execute (W * dbg_side) (dei_l W dbg_side dei) (deo_l W dbg_side deo) hi (Some dbg_hook).

Lemma host_l_typed : host_well_typed dei deo ->
  host_well_typed (dei_l W dbg_side dei) (deo_l W dbg_side deo).
Proof.
  intros [H1 H2]. split.
  - intros a v [w l] b v' w' Ha Hv. unfold dei_l. cbn. destruct (dei a v w) as [[[? ?] ?]|] eqn:E; [|discriminate].
    intros H. injection H as -> -> <-. eauto.
  - intros a v [w l] v' w' Ha Hv. unfold deo_l. cbn. destruct (deo a v w) as [[? ?]|] eqn:E; [|discriminate].
    intros H. injection H as -> <-. eauto.
Qed.

(** The calls made by one run.  All but the last find an opcode other than BRK. *)
Fixpoint one_vector (l : list call) : Prop :=
  match l with
  | [] => False
  | [c] => vm_mem (c_vm' c) (c_pc c) = 0
  | c :: rest => vm_mem (c_vm' c) (c_pc c) <> 0 /\ one_vector rest
  end.

(** The host beside the private state leaves that alone. *)
Lemma step_side hi (x x' : st (W * dbg_side)) b :
  step _ (dei_l W dbg_side dei) (deo_l W dbg_side deo) hi x = Ok (b, x') ->
  snd (s_w _ x') = snd (s_w _ x).
Proof.
  intros E.
  set (x0 := mkSt W (s_vm _ x) (s_wsp _ x) (s_rsp _ x) (s_kwsp _ x) (s_krsp _ x) (s_pc _ x) (fst (s_w _ x))).
  assert (HR : R W dbg_side (snd (s_w _ x)) x0 x).
  { constructor; cbn; auto. destruct (s_w _ x); reflexivity. }
  pose proof (sim_step W dbg_side dei deo hi _ _ _ HR) as H. unfold rel in H. rewrite E in H.
  destruct (step W dei deo hi x0) as [[b0 y]|]; [|contradiction].
  destruct H as [_ H]. rewrite (R_w _ _ _ _ _ H). reflexivity.
Qed.

Lemma run_calls hi : host_well_typed dei deo -> forall fuel x v' w' s',
  wf_st _ x -> reachable (snd (s_w _ x)) ->
  run_dbg hi fuel x = Done _ v' (w', s') ->
  exists l, calls (snd (s_w _ x)) l s' /\ one_vector l /\
    match l with c :: _ => c_pc c = s_pc _ x /\ c_vm c = sync _ x | [] => False end.
Proof.
  intros HH. induction fuel as [|n IH]; intros x v' w' s' Hw HR; unfold run_dbg; cbn [run]; [discriminate|].
  cbn [next_opcode]. unfold bind, call_hook. fold (sync _ x).
  destruct (s_w _ x) as [w s] eqn:Ew. cbn [snd] in *.
  pose proof (sync_wf _ x Hw) as Hs. apply wf_well_typed in Hs.
  assert (Hp : is_short (s_pc _ x)) by apply Hw.
  pose proof (hook_safe (s_pc _ x) (sync _ x) w s HH HR Hp Hs) as Hsafe.
  destruct (dbg_hook (s_pc _ x) (sync _ x) (w, s)) as [[v1 [w1 s1]]|f] eqn:E; [|discriminate].
  set (y := mkSt _ v1 _ _ _ _ _ _).
  set (c := mkCall (s_pc _ x) (sync _ x) s v1 s1).
  assert (Hc : is_call c) by (split; [auto|split; [auto|exists w, w1; exact E]]).
  assert (HR1 : reachable s1) by (apply (reachable_call W dei deo c); auto).
  assert (Hy : wf_st _ y).
  { destruct Hw. constructor; cbn; auto. apply wf_well_typed. auto. }
  pose proof (step_cases _ _ _ hi y (host_l_typed HH) Hy) as Hst.
  destruct (step _ (dei_l W dbg_side dei) (deo_l W dbg_side deo) hi y) as [[[] z]|f] eqn:Ez; [| |discriminate].
  - intros H. destruct Hst as [Hz Hb]. pose proof (step_side hi y z true Ez) as Es. cbn in Es.
    fold (run_dbg hi) in H.
    assert (HR2 : reachable (snd (s_w _ z))) by (rewrite Es; auto).
    destruct (IH z v' w' s' Hz HR2 H) as (l & L1 & L2 & L3). exists (c :: l).
    split; [|split].
    + cbn [DbgSpec.calls c_side c_side']. split; auto. split; auto. rewrite Es in L1. auto.
    + destruct l as [|c' l]; [contradiction|]. split; auto.
    + auto.
  - intros H. injection H as _ H. destruct Hst as (Hb & _ & Hq). rewrite Hq in H. cbn in H. injection H as _ <-.
    exists [c]. cbn [DbgSpec.calls c_side c_side']. split; [auto|]. split; [exact Hb|]. split; reflexivity.
Qed.

(** What a run tells the wire. *)
Lemma vector_log l : forall s s' closed g pc, reachable s -> calls s l s' -> one_vector l ->
  d_executing (ds_dbg s) = true -> break_groups g -> ds_log s = closed ++ EvBeginExec pc :: g ->
  d_executing (ds_dbg s') = false /\ exists e, ds_log s' = closed ++ e /\ session pc e.
Proof.
  induction l as [|c l IH]; intros s s' closed g pc HR HC HV Hx Hg HL; [contradiction|].
  cbn in HC. destruct HC as (<- & Hc & HC).
  pose proof (reachable_T _ _ _ _ HR) as [(HI & _) _].
  destruct (call_view W dei deo c HI Hc) as (id & ev & V).
  pose proof (vw_emits _ _ _ V) as He. unfold emits, opening, closing in He. rewrite Hx, HL in He. cbn [app] in He.
  pose proof (vw_executing _ _ _ V) as He'. pose proof (view_group _ _ _ V) as HG.
  assert (HR' : reachable (c_side' c)) by (eapply reachable_call; eauto).
  destruct l as [|c' l].
  - cbn in HC, HV. subst s'. rewrite HV in *. cbn in He', He. split; auto.
    eexists. split; [rewrite He, <- app_assoc; reflexivity|].
    exists (g ++ ev). split; [apply groups_app; auto|]. cbn. rewrite <- app_assoc. reflexivity.
  - destruct HV as [Hn HV]. replace (vm_mem (c_vm' c) (c_pc c) =? 0) with false in * by lia.
    rewrite app_nil_r in He. cbn in He'.
    apply (IH (c_side' c) s' closed (g ++ ev) pc); auto.
    + apply groups_app; auto.
    + rewrite He, <- app_assoc. reflexivity.
Qed.

Lemma vector_session l s s' c rest : reachable s -> calls s l s' -> one_vector l -> l = c :: rest ->
  d_executing (ds_dbg s) = false ->
  d_executing (ds_dbg s') = false /\ exists e, ds_log s' = ds_log s ++ e /\ session (c_pc c) e.
Proof.
  intros HR HC HV -> Hx. cbn in HC. destruct HC as (<- & Hc & HC).
  pose proof (reachable_T _ _ _ _ HR) as [(HI & _) _].
  destruct (call_view W dei deo c HI Hc) as (id & ev & V).
  pose proof (vw_emits _ _ _ V) as He. unfold emits, opening, closing in He. rewrite Hx in He.
  pose proof (vw_executing _ _ _ V) as He'. pose proof (view_group _ _ _ V) as HG.
  assert (HR' : reachable (c_side' c)) by (eapply reachable_call; eauto).
  destruct rest as [|c' l].
  - cbn in HC, HV. subst s'. rewrite HV in *. cbn in He', He. split; auto.
    eexists. split; [rewrite He; reflexivity|]. exists ev. auto.
  - destruct HV as [Hn HV]. replace (vm_mem (c_vm' c) (c_pc c) =? 0) with false in * by lia.
    rewrite app_nil_r in He. cbn [app] in He. cbn in He'.
    eapply (vector_log _ _ _ _ ev (c_pc c)); eauto.
Qed.

Lemma execute_session hi fuel kw kr pc v w s v' w' s' :
  host_well_typed dei deo -> reachable s -> well_typed v -> is_short pc -> pc <> 0 ->
  d_executing (ds_dbg s) = false ->
  exec_dbg hi kw kr fuel pc v (w, s) = Done _ v' (w', s') ->
  reachable s' /\ d_executing (ds_dbg s') = false /\
  exists e, ds_log s' = ds_log s ++ e /\ session pc e.
Proof.
  intros HH HR Hv Hp H0 Hx. unfold exec_dbg, execute. replace (pc =? 0) with false by lia. intros H.
  destruct (run_calls hi HH fuel (initial _ kw kr pc v (w, s)) v' w' s'
    (wf_initial _ (dei_l W dbg_side dei) (deo_l W dbg_side deo) hi _ _ _ _ _ Hv Hp) HR H) as (l & L1 & L2 & L3).
  cbn [s_w initial snd] in L1. destruct l as [|c rest]; [contradiction|]. destruct L3 as [L3 _].
  split; [eapply calls_reachable; eauto|].
  cbn [s_pc initial] in L3. rewrite <- L3. eapply vector_session; eauto.
Qed.

(** ** Transparency *)
Definition looking (s : dbg_side) : Prop := reachable s /\ Forall (fun c => inspecting c = true) (ds_in s).

Lemma serve_inspecting pc c v d w g r v' d' w' : inspecting c = true ->
  serve pc c v d w = Ok (g, r, v', d', w') -> v' = v /\ w' = w.
Proof.
  intros Hi. destruct c as [[]| | | | | | | | | | |]; try discriminate Hi; cbn [DbgModel.serve]; intros H;
  try (injection H as <- <- <- <- <-; auto; fail).
  - destruct (id =? BRKP_NONE); [injection H as <- <- <- <- <-; auto|].
    apply rbind_ok in H as (b & _ & H). injection H as <- <- <- <- <-; auto.
  - apply rbind_ok in H as (b' & E & H). injection H as <- <- <- <- <-; auto.
  - apply rbind_ok in H as (l & _ & H). injection H as <- <- <- <- <-; auto.
Qed.

Lemma serve_inspecting_ok pc c v d w : inspecting c = true -> cmd_ok c -> well_typed v ->
  exists x, serve pc c v d w = Ok x.
Proof.
  intros Hi Hc Hv. destruct c as [[]| | | | |id|id b| | |addr size| |]; try discriminate Hi; cbn [DbgModel.serve]; eauto.
  - cbn in Hc. unfold BRKP_NONE. destruct (Z.eqb_spec id 255); eauto.
    unfold tab_get. rewrite in_bounds_true by (unfold is_byte in Hc; lia). cbn. eauto.
  - cbn in Hc. unfold brkp_set, BRKP_NONE. destruct (Z.eqb_spec id 255); [cbn; eauto|].
    rewrite in_bounds_true by (unfold is_byte in Hc; lia). cbn. eauto.
  - destruct (mem_read_spec v ltac:(apply Hv) (Z.to_nat size) 0 addr) as (l & E & _). rewrite E. cbn. eauto.
Qed.

Lemma pause_inspecting pc v w : well_typed v -> forall input log d, Forall cmd_ok input ->
  Forall (fun c => inspecting c = true) input ->
  exists d' input' log', pause_loop input pc log v d w = Ok (v, d', w, input', log').
Proof.
  intros Hv. induction input as [|c rest IH]; intros log d Hok Hin; cbn [DbgModel.pause_loop].
  - cbn. eauto.
  - inversion Hok; inversion Hin; subst.
    destruct (serve_inspecting_ok pc c v d w) as ([[[[g r] v1] d1] w1] & E); auto. rewrite E. cbn [rbind].
    apply serve_inspecting in E as [-> ->]; auto. destruct g; eauto.
Qed.

Lemma hook_looking pc v w s : looking s -> is_short pc -> well_typed v ->
  exists s', dbg_hook pc v (w, s) = Ok (v, (w, s')) /\ looking s'.
Proof.
  intros [HR Hin] Hp Hv.
  assert (E : exists s', dbg_hook pc v (w, s) = Ok (v, (w, s'))).
  { pose proof (reachable_T _ _ _ _ HR) as [(HI & _) Hok]. destruct s as [d0 input log0].
    cbn [ds_dbg ds_in] in *. cbn [DbgModel.dbg_hook].
    assert (HI' : tab_inv (set_executing d0 true)) by (eapply tab_inv_ext; [| | |exact HI]; auto).
    destruct (match_brkp_range _ (negb (d_executing d0)) pc v HI' Hv Hp) as (id & E & Hid).
    rewrite E. cbn [rbind]. pose proof (ti_n _ HI') as Hn.
    assert (Hb : exists p, (if id =? BRKP_NONE then Ok false
           else rbind (tab_get (set_executing d0 true) id) (fun b => Ok (has (b_mask b) BRKP_PAUSE))) = Ok p).
    { unfold BRKP_NONE. destruct (Z.eqb_spec id 255); [eauto|].
      unfold tab_get. rewrite in_bounds_true by lia. cbn. eauto. }
    destruct Hb as (p & ->). cbn [rbind].
    set (log1 := if negb (d_executing d0) then log0 ++ [EvBeginExec pc] else log0).
    set (stop := p || standing_pause (set_executing d0 true) v).
    assert (Hop : in_bounds (vm_msize v) pc = true).
    { assert (65536 <= vm_msize v) by apply Hv. apply in_bounds_true. unfold is_short in Hp. lia. }
    destruct (stop || negb (id =? BRKP_NONE)).
    - destruct stop.
      + destruct (pause_inspecting pc v w Hv input (log1 ++ [EvBeginBreak id]) (set_executing d0 true) Hok Hin)
          as (d' & input' & log' & E'). rewrite E'. cbn [rbind]. unfold aget. rewrite Hop. cbn [rbind].
        destruct (_ =? 0); eauto.
      + cbn [rbind]. unfold aget. rewrite Hop. cbn [rbind]. destruct (_ =? 0); eauto.
    - cbn [rbind]. unfold aget. rewrite Hop. cbn [rbind]. destruct (_ =? 0); eauto. }
  destruct E as (s' & E). exists s'. split; auto.
  assert (Hc : is_call (mkCall pc v s v s')) by (split; [auto|split; [auto|exists w, w; exact E]]).
  split; [exact (reachable_call W dei deo (mkCall pc v s v s') HR Hc)|].
  pose proof (reachable_T _ _ _ _ HR) as [(HI & _) Hok].
  destruct s as [d0 input log0]. apply hook_cases in E. cbv zeta in E.
  destruct E as (id & d' & log4 & _ & E2 & _). destruct (stop_now _ _ _).
  - destruct E2 as (log3 & E2 & _). apply pause_shape in E2 as (? & ? & ? & ? & _ & _ & _ & _ & _ & pre & E2).
    cbn [ds_in] in Hin. rewrite E2 in Hin. apply Forall_app in Hin. tauto.
  - destruct E2 as (_ & _ & _ & -> & _). auto.
Qed.

Lemma run_looking hi : host_well_typed dei deo -> forall fuel x y l, R W dbg_side l x y -> wf_st _ x -> looking l ->
  exists l', run_dbg hi fuel y = with_log W dbg_side (run W dei deo hi None fuel x) l' /\ looking l'.
Proof.
  intros HH. induction fuel as [|n IH]; intros x y l H Hw HL; unfold run_dbg; cbn [run]; [exists l; auto|].
  cbn [next_opcode]. unfold bind at 1. unfold call_hook.
  pose proof (R_sync W dbg_side l x y H) as S. unfold sync in S. rewrite <- S. fold (sync _ x).
  destruct H as [H1 H2 H3 H4 H5 H6 H7].
  rewrite H7. pose proof (sync_wf _ x Hw) as Hs. apply wf_well_typed in Hs.
  assert (Hp : is_short (s_pc _ y)) by (rewrite <- H6; apply Hw).
  destruct (hook_looking (s_pc _ y) (sync _ x) (s_w _ x) l HL Hp Hs) as (l' & E & HL').
  rewrite E.
  set (y' := mkSt (W * dbg_side) _ _ _ _ _ _ _).
  assert (HR : R W dbg_side l' x y') by (constructor; cbn; auto).
  pose proof (sim_step W dbg_side dei deo hi l' x y' HR) as Es. unfold rel in Es.
  pose proof (step_cases W dei deo hi x HH Hw) as Hc.
  destruct (step W dei deo hi x) as [[b x1]|] eqn:E1,
           (step _ (dei_l W dbg_side dei) (deo_l W dbg_side deo) hi y') as [[b' y1]|] eqn:E2; try contradiction.
  - destruct Es as [<- Es]. destruct b.
    + eapply IH; eauto. apply Hc.
    + exists l'. split; [|exact HL']. cbn [with_log]. rewrite (R_w _ _ _ _ _ Es). f_equal.
      rewrite (step_false _ _ _ _ _ _ E1), (step_false _ _ _ _ _ _ E2).
      symmetry. eapply R_sync; eauto.
  - exists l'. split; [|exact HL']. cbn. congruence.
Qed.

Lemma execute_looking hi fuel kw kr pc v w s : host_well_typed dei deo -> looking s ->
  well_typed v -> is_short pc ->
  exists s', exec_dbg hi kw kr fuel pc v (w, s) =
    with_log W dbg_side (execute W dei deo hi None kw kr fuel pc v w) s' /\ looking s'.
Proof.
  intros HH HL Hv Hp. unfold exec_dbg, execute. destruct (pc =? 0); [exists s; split; [reflexivity|auto]|].
  eapply run_looking; eauto.
  - constructor; reflexivity.
  - apply (wf_initial W dei deo hi); auto.
Qed.

(** Depth of the return stack over a pause without device commands. *)
Definition no_device (e : event) : Prop :=
  match e with EvCmd (CmdDevRead _ _) _ | EvCmd (CmdDevWrite _ _ _) _ => False | _ => True end.

Lemma serve_rsp pc c v d w g r v' d' w' : serve pc c v d w = Ok (g, r, v', d', w') ->
  cmd_ok c -> well_typed v -> no_device (EvCmd c r) ->
  vm_rsp v' = vm_rsp v /\ vm_wsp v' = vm_wsp v /\ vm_ws v' = vm_ws v /\ vm_rs v' = vm_rs v /\
  vm_dev v' = vm_dev v /\ w' = w.
Proof.
  intros H Hc Hv Hn. destruct c as [[]| | | | | | | | | |addr size values|]; cbn [DbgModel.serve] in H; try contradiction;
  try (injection H as <- <- <- <- <-; repeat split; auto; fail).
  - destruct (id =? BRKP_NONE); [injection H as <- <- <- <- <-; repeat split; auto|].
    apply rbind_ok in H as (b & _ & H). injection H as <- <- <- <- <-; repeat split; auto.
  - apply rbind_ok in H as (b' & E & H). injection H as <- <- <- <- <-; repeat split; auto.
  - apply rbind_ok in H as (l & _ & H). injection H as <- <- <- <- <-; repeat split; auto.
  - apply rbind_ok in H as (v1 & E & H). injection H as <- <- <- <- <-.
    destruct Hc as (H1 & H2 & H3 & H4). unfold is_short in H2.
    destruct (mem_write_spec values H4 (Z.to_nat size) 0 addr v Hv) as (v2 & E2 & _ & (m & Em) & _); try lia.
    rewrite E in E2. injection E2 as <-. rewrite Em. repeat split; auto.
Qed.

Lemma pause_rsp pc : host_well_typed dei deo -> forall input log v d w v' d' w' input' log',
  Forall cmd_ok input -> well_typed v ->
  pause_loop input pc log v d w = Ok (v', d', w', input', log') ->
  exists ev, log' = log ++ ev /\ (Forall no_device ev -> vm_rsp v' = vm_rsp v).
Proof.
  intros HH. induction input as [|c rest IH]; intros log v d w v' d' w' input' log' Hok Hv; cbn [DbgModel.pause_loop].
  - cbn. intros H. injection H as <- <- <- <- <-. eauto.
  - intros H. apply rbind_ok in H as ([[[[g r] v1] d1] w1] & E & H). inversion Hok; subst.
    pose proof (serve_cases pc c v d w HH H2 Hv) as Hv1. rewrite E in Hv1.
    destruct g.
    + destruct (IH _ _ _ _ _ _ _ _ _ H3 Hv1 H) as (ev & -> & Hr).
      exists (EvCmd c r :: ev). rewrite <- app_assoc. split; auto.
      intros Hn. inversion Hn; subst. rewrite Hr by auto. eapply serve_rsp; eauto.
    + injection H as <- <- <- <- <-. exists [EvCmd c r]. split; auto.
      intros Hn. inversion Hn; subst. eapply serve_rsp; eauto.
Qed.

Lemma call_rsp c : host_well_typed dei deo -> reachable (c_side c) -> is_call c ->
  (forall ev, emits c ev -> Forall no_device ev) -> vm_rsp (c_vm' c) = vm_rsp (c_vm c).
Proof.
  destruct c as [pc v s v' s']. intros HH HR (Hp & Hv & w & w' & H) Hn.
  cbn [c_pc c_vm c_side c_vm' c_side'] in *. apply reachable_T in HR as [_ Hok].
  destruct s as [d0 input log0]. apply hook_cases in H. cbv zeta in H.
  destruct H as (id & d' & log4 & _ & E2 & _ & E4). destruct (stop_now _ _ _).
  - destruct E2 as (log3 & E2 & ->).
    destruct (pause_rsp pc HH _ _ _ _ _ _ _ _ _ _ Hok Hv E2) as (ev & -> & Hr).
    apply Hr. unfold emits in Hn. cbn [c_side c_side' ds_log] in Hn. rewrite E4 in Hn.
    rewrite <- !app_assoc in Hn. specialize (Hn _ eq_refl).
    apply Forall_app in Hn as [_ Hn]. apply Forall_app in Hn as [_ Hn]. apply Forall_app in Hn as [Hn _]. auto.
  - destruct E2 as (-> & _). reflexivity.
Qed.

End Run.
