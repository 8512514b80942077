(** Lemmas about the debugger core. *)
From Verif Require Import Base VmModel VmSpec VmProofs VmStep VmRun DbgModel DbgSpec.
From Coq Require Import ZifyBool.
Ltac Zify.zify_post_hook ::= Z.div_mod_to_equations.

Lemma rbind_ok {A B} (r : res A) (k : A -> res B) b :
  rbind r k = Ok b -> exists a, r = Ok a /\ k a = Ok b.
Proof. destruct r; cbn; [eauto|discriminate]. Qed.

(** ** The table *)
Definition mask_of (d : dbg) (id : Z) : Z := b_mask (d_tab d id).

Record tab_inv (d : dbg) : Prop := {
  ti_n : 0 <= d_n d <= 255;
  ti_ok : forall id, 0 <= id < 255 -> brkp_ok (d_tab d id);
  ti_high : forall id, d_n d <= id < 255 -> mask_of d id = 0;
  ti_last : d_n d = 0 \/ mask_of d (d_n d - 1) <> 0;
  ti_mask_byte : is_byte (d_mask d);
  ti_mask : forall k, 0 <= k -> Z.testbit (d_mask d) k = true <->
              exists id, 0 <= id < d_n d /\ Z.testbit (mask_of d id) k = true
}.

Lemma tab_inv_init : tab_inv dbg_init.
Proof.
  constructor; cbn; try lia; auto.
  - intros. split; cbn; unfold is_short, is_byte; lia.
  - unfold is_byte; lia.
  - intros k Hk. rewrite Z.testbit_0_l. split; [discriminate|]. intros (id & H & _). lia.
Qed.

Lemma tab_inv_ext d d' : d_n d' = d_n d -> d_mask d' = d_mask d -> d_tab d' = d_tab d ->
  tab_inv d -> tab_inv d'.
Proof.
  intros E1 E2 E3 [H1 H2 H3 H4 H5 H6].
  constructor; unfold mask_of in *; rewrite ?E1, ?E2, ?E3; auto.
Qed.

Lemma upto_In k a x : In x (upto k a) <-> a <= x < a + Z.of_nat k.
Proof.
  revert a. induction k as [|k IH]; intros a; cbn [upto In].
  - lia.
  - rewrite IH. lia.
Qed.

Lemma lor_byte a b : is_byte a -> is_byte b -> is_byte (Z.lor a b).
Proof.
  intros Ha Hb. unfold is_byte in *. split; [apply Z.lor_nonneg; lia|].
  destruct (Z.eq_dec (Z.lor a b) 0) as [->|Hn]; [lia|].
  assert (Hp : 0 < Z.lor a b) by (pose proof (Z.lor_nonneg a b); lia).
  apply Z.log2_lt_pow2 with (b := 8); auto.
  rewrite Z.log2_lor by lia.
  assert (La : Z.log2 a < 8).
  { destruct (Z.eq_dec a 0) as [->|]; [cbn; lia|]. apply Z.log2_lt_pow2; lia. }
  assert (Lb : Z.log2 b < 8).
  { destruct (Z.eq_dec b 0) as [->|]; [cbn; lia|]. apply Z.log2_lt_pow2; lia. }
  lia.
Qed.

Lemma fold_mask (f : Z -> Z) (l : list Z) m : (forall i, In i l -> is_byte (f i)) -> is_byte m ->
  let r := fold_left (fun m i => u8 (Z.lor m (f i))) l m in
  is_byte r /\ forall k, 0 <= k -> Z.testbit r k = true <->
    Z.testbit m k = true \/ exists i, In i l /\ Z.testbit (f i) k = true.
Proof.
  cbv zeta. revert m. induction l as [|x l IH]; intros m Hf Hm; cbn [fold_left].
  - split; auto. intros k Hk. split; auto. intros [H|(i & [] & _)]; auto.
  - assert (E : u8 (Z.lor m (f x)) = Z.lor m (f x)).
    { apply u8_id. apply lor_byte; auto. apply Hf. left; auto. }
    rewrite E. destruct (IH (Z.lor m (f x))) as [B T].
    + intros; apply Hf; right; auto.
    + apply lor_byte; auto. apply Hf; left; auto.
    + split; auto. intros k Hk. rewrite T by auto. rewrite Z.lor_spec, orb_true_iff. split.
      * intros [[H|H]|(i & Hi & H)]; auto; right; [exists x|exists i]; cbn; auto.
      * intros [H|(i & [<-|Hi] & H)]; auto. right. eauto.
Qed.

Lemma trim_spec k tab :
  0 <= trim k tab <= Z.of_nat k /\
  (forall i, trim k tab <= i < Z.of_nat k -> b_mask (tab i) = 0) /\
  (trim k tab = 0 \/ b_mask (tab (trim k tab - 1)) <> 0).
Proof.
  induction k as [|k IH]; cbn [trim].
  - split; [lia|]. split; [intros; lia|auto].
  - destruct (Z.eqb_spec (b_mask (tab (Z.of_nat k))) 0) as [E|E].
    + destruct IH as (I1 & I2 & I3). split; [lia|]. split; auto.
      intros i Hi. destruct (Z.eq_dec i (Z.of_nat k)) as [->|]; auto. apply I2. lia.
    + split; [lia|]. split; [intros; lia|]. right.
      replace (Z.of_nat k + 1 - 1) with (Z.of_nat k) by lia. auto.
Qed.

Lemma brkp_set_inv d id b d' : tab_inv d -> is_byte id -> brkp_ok b -> brkp_set d id b = Ok d' ->
  tab_inv d' /\
  (forall i, 0 <= i < 255 -> d_tab d' i = if id =? i then b else d_tab d i) /\
  d_executing d' = d_executing d /\ d_type d' = d_type d /\ d_rsp d' = d_rsp d.
Proof.
  intros HI Hid Hb. unfold brkp_set, BRKP_NONE.
  destruct (Z.eqb_spec id 255) as [->|Hne].
  { intros H. injection H as <-. split; auto. split; auto. intros i Hi.
    replace (255 =? i) with false by lia. auto. }
  rewrite in_bounds_true by (unfold is_byte in *; lia). cbn [negb].
  intros H. injection H as <-. cbn [d_tab d_executing d_type d_rsp].
  split; [|split; auto].
  2:{ intros i Hi. rewrite Z.eqb_sym. reflexivity. }
  destruct HI as [H1 H2 H3 H4 H5 H6].
  set (tab := fun i => if i =? id then b else d_tab d i).
  set (n0 := if b_mask b =? 0 then trim (Z.to_nat (d_n d)) tab
             else if d_n d <=? id then id + 1 else d_n d).
  assert (Hn : 0 <= n0 <= 255 /\ (forall i, n0 <= i < 255 -> b_mask (tab i) = 0) /\
               (n0 = 0 \/ b_mask (tab (n0 - 1)) <> 0)).
  { unfold n0. destruct (Z.eqb_spec (b_mask b) 0) as [Em|Em].
    - pose proof (trim_spec (Z.to_nat (d_n d)) tab) as (T1 & T2 & T3).
      split; [lia|]. split; auto. intros i Hi.
      destruct (Z_lt_dec i (d_n d)); [apply T2; lia|].
      unfold tab. destruct (i =? id); auto. apply H3. lia.
    - unfold is_byte in Hid. destruct (Z.leb_spec (d_n d) id).
      + split; [lia|]. split.
        * intros i Hi. unfold tab. replace (i =? id) with false by lia. apply H3. lia.
        * right. unfold tab. replace (id + 1 - 1 =? id) with true by lia. auto.
      + split; [lia|]. split.
        * intros i Hi. unfold tab. replace (i =? id) with false by lia. apply H3. lia.
        * right. unfold tab. destruct (d_n d - 1 =? id); auto. destruct H4; auto. lia. }
  assert (En : u8 n0 = n0) by (apply u8_id; unfold is_byte; lia).
  rewrite En. destruct Hn as (N1 & N2 & N3).
  assert (Hok : forall i, 0 <= i < 255 -> brkp_ok (tab i)).
  { intros i Hi. unfold tab. destruct (i =? id); auto. }
  destruct (fold_mask (fun i => b_mask (tab i)) (upto (Z.to_nat n0) 0) 0) as [M1 M2].
  { intros i Hi. apply upto_In in Hi. apply Hok. lia. }
  { unfold is_byte; lia. }
  constructor; unfold mask_of; cbn [d_n d_tab d_mask]; auto.
  intros k Hk. etransitivity; [exact (M2 k Hk)|]. rewrite Z.testbit_0_l. split.
  - intros [H|(i & Hi & H)]; [discriminate|]. apply upto_In in Hi. exists i. split; [lia|auto].
  - intros (i & Hi & H). right. exists i. split; auto. apply upto_In. lia.
Qed.

(** ** One command *)
Section Core.
Variable W : Type.
Variable dei : Z -> vm -> W -> res (Z * vm * W).
Variable deo : Z -> vm -> W -> res (vm * W).
Notation serve := (serve W dei deo).
Notation pause_loop := (pause_loop W dei deo).
Notation dbg_hook := (dbg_hook W dei deo).

(** The debugger and the reply after a command. *)
Definition standing_after (go : cmd) (rsp : Z) (d : dbg) : dbg :=
  match go with
  | CmdStepIn => set_type d StPause
  | CmdStepOver => set_type_rsp d StStepOver rsp
  | CmdStepOut => if 0 <? rsp then set_type_rsp d StStepOut rsp else set_type d StExecute
  | _ => set_type d StExecute
  end.

Lemma serve_go pc c v d w g r v' d' w' : serve pc c v d w = Ok (g, r, v', d', w') ->
  g = negb (is_go c) /\
  (is_go c = true -> v' = v /\ w' = w /\ d' = standing_after c (vm_rsp v) d) /\
  (is_go c = false -> d_executing d' = d_executing d).
Proof.
  destruct c as [[]| | | | | | | | | | |]; cbn [DbgModel.serve is_go negb]; intros H;
  try (injection H as <- <- <- <- <-; repeat split; (discriminate || auto); fail).
  - destruct (id =? BRKP_NONE); [injection H as <- <- <- <- <-; repeat split; discriminate || auto|].
    apply rbind_ok in H as (b & _ & H). injection H as <- <- <- <- <-; repeat split; discriminate || auto.
  - apply rbind_ok in H as (b' & E & H). injection H as <- <- <- <- <-.
    repeat split; try discriminate. intros _.
    unfold brkp_set in E. destruct (id =? BRKP_NONE); [congruence|].
    destruct (negb _); [discriminate|]. injection E as <-. reflexivity.
  - apply rbind_ok in H as ([[l v1] w1] & _ & H). injection H as <- <- <- <- <-; repeat split; discriminate || auto.
  - apply rbind_ok in H as ([v1 w1] & _ & H). injection H as <- <- <- <- <-; repeat split; discriminate || auto.
  - apply rbind_ok in H as (l & _ & H). injection H as <- <- <- <- <-; repeat split; discriminate || auto.
  - apply rbind_ok in H as (l & _ & H). injection H as <- <- <- <- <-; repeat split; discriminate || auto.
Qed.

(** Induction over a pause: [Q] is kept by every command. *)
Lemma pause_induct (Q : list event -> vm -> dbg -> W -> Prop) pc :
  forall input log v d w v' d' w' input' log',
  Forall cmd_ok input ->
  (forall c log v d w g r v' d' w', cmd_ok c -> Q log v d w -> serve pc c v d w = Ok (g, r, v', d', w') ->
     Q (log ++ [EvCmd c r]) v' d' w') ->
  Q log v d w ->
  pause_loop input pc log v d w = Ok (v', d', w', input', log') ->
  Q log' v' d' w'.
Proof.
  induction input as [|c rest IH]; intros log v d w v' d' w' input' log' Hok HQ H0; cbn [DbgModel.pause_loop].
  - intros H. apply rbind_ok in H as ([[[[g r] v1] d1] w1] & E & H). injection H as <- <- <- <- <-.
    eapply HQ; eauto. exact I.
  - intros H. apply rbind_ok in H as ([[[[g r] v1] d1] w1] & E & H).
    inversion Hok; subst.
    pose proof (HQ _ _ _ _ _ _ _ _ _ _ H3 H0 E) as H1.
    destruct g.
    + eapply IH; eauto.
    + injection H as <- <- <- <- <-. auto.
Qed.

(** Shape of the log and of the final command. *)
Lemma pause_shape pc : forall input log v d w v' d' w' input' log',
  pause_loop input pc log v d w = Ok (v', d', w', input', log') ->
  exists asked go r d1,
    log' = log ++ asked ++ [EvCmd go r] /\
    Forall (fun e => exists c r, e = EvCmd c r /\ is_go c = false) asked /\
    is_go go = true /\ d' = standing_after go (vm_rsp v') d1 /\
    d_executing d1 = d_executing d /\
    (exists pre, input = pre ++ input').
Proof.
  induction input as [|c rest IH]; intros log v d w v' d' w' input' log'; cbn [DbgModel.pause_loop].
  - intros H. cbn in H. injection H as <- <- <- <- <-.
    exists [], CmdResume, RNone, d. cbn. repeat split; auto. exists []. reflexivity.
  - intros H. apply rbind_ok in H as ([[[[g r] v1] d1] w1] & E & H).
    pose proof (serve_go _ _ _ _ _ _ _ _ _ _ E) as (Eg & G1 & G2).
    destruct (is_go c) eqn:Ec; cbn in Eg; subst g.
    + injection H as <- <- <- <- <-. destruct (G1 eq_refl) as (-> & -> & ->).
      exists [], c, r, d. cbn. repeat split; auto. exists [c]. reflexivity.
    + apply IH in H as (asked & go & r' & d2 & -> & Ha & Hg & -> & E2 & pre & ->).
      exists (EvCmd c r :: asked), go, r', d2. rewrite <- !app_assoc. cbn.
      repeat split; auto.
      * constructor; auto. eauto.
      * rewrite E2, G2; auto.
      * exists (c :: pre). reflexivity.
Qed.

(** ** The hook, taken apart *)
Definition stop_now (d : dbg) (v : vm) (id : Z) : bool :=
  (negb (id =? BRKP_NONE) && has (b_mask (d_tab d id)) BRKP_PAUSE) || standing_pause d v.

Lemma hook_cases pc v w d0 input log0 v' w' s' :
  dbg_hook pc v (w, mkSide d0 input log0) = Ok (v', (w', s')) ->
  let started := negb (d_executing d0) in
  let d := set_executing d0 true in
  let log1 := log0 ++ (if started then [EvBeginExec pc] else []) in
  exists id d' log4,
    match_brkp d started pc v = Ok id /\
    (if stop_now d v id then
       exists log3, pause_loop input pc (log1 ++ [EvBeginBreak id]) v d w =
                      Ok (v', d', w', ds_in s', log3) /\ log4 = log3 ++ [EvEndBreak]
     else v' = v /\ d' = d /\ w' = w /\ ds_in s' = input /\
          log4 = log1 ++ (if id =? BRKP_NONE then [] else [EvBeginBreak id; EvEndBreak])) /\
    ds_dbg s' = (if vm_mem v' pc =? 0 then set_executing d' false else d') /\
    ds_log s' = log4 ++ (if vm_mem v' pc =? 0 then [EvEndExec] else []).
Proof.
  cbn [DbgModel.dbg_hook]. intros H. apply rbind_ok in H as (id & E1 & H).
  apply rbind_ok in H as (p & E2 & H). apply rbind_ok in H as ([[[[v1 d1] w1] in1] log4] & E3 & H).
  apply rbind_ok in H as (op & E4 & H).
  cbv zeta.
  assert (Ep : p = negb (id =? BRKP_NONE) && has (b_mask (d_tab d0 id)) BRKP_PAUSE).
  { destruct (id =? BRKP_NONE); [injection E2 as <-; reflexivity|].
    apply rbind_ok in E2 as (b & E2 & E5). unfold tab_get in E2.
    destruct (in_bounds 255 id); [|discriminate]. injection E2 as <-. injection E5 as <-. reflexivity. }
  assert (Eo : op = vm_mem v1 pc).
  { unfold aget in E4. destruct (in_bounds _ _); [|discriminate]. congruence. }
  assert (Ev : v1 = v' /\ w1 = w').
  { destruct (op =? 0); injection H as <- <- _; auto. }
  destruct Ev as [-> ->]. exists id, d1, log4. split; auto.
  assert (El : (if negb (d_executing d0) then log0 ++ [EvBeginExec pc] else log0) =
          log0 ++ (if negb (d_executing d0) then [EvBeginExec pc] else [])).
  { destruct (negb _); auto. rewrite app_nil_r. auto. }
  rewrite El in E3.
  split.
  2:{ rewrite <- Eo. destruct (op =? 0); injection H as <-; cbn; auto. rewrite app_nil_r. auto. }
  assert (Ei : ds_in s' = in1) by (destruct (op =? 0); injection H as <-; reflexivity).
  unfold stop_now. cbn [d_tab set_executing]. rewrite <- Ep.
  unfold standing_pause in *. cbn [d_type d_rsp set_executing] in *.
  fold (standing_pause d0 v) in *.
  destruct (p || standing_pause d0 v) eqn:Es.
  - cbn [orb] in E3. apply rbind_ok in E3 as ([[[[v2 d2] w2] in2] log3] & E5 & E6).
    injection E6 as <- <- <- <- <-. rewrite Ei. eauto.
  - cbn [orb] in E3. destruct (id =? BRKP_NONE); cbn [negb] in E3.
    + injection E3 as <- <- <- <- <-. rewrite app_nil_r. auto.
    + cbn in E3. injection E3 as <- <- <- <- <-. rewrite <- app_assoc. auto.
Qed.

(** ** C31 *)
Definition log_table (d : dbg) (log : list event) : Prop :=
  forall id, 0 <= id < 255 -> d_tab d id = table log id.

Lemma last_set_app l1 l2 id b : last_set (l1 ++ l2) id b = last_set l2 id (last_set l1 id b).
Proof.
  revert b. induction l1 as [|e l1 IH]; intros b; cbn; auto.
  destruct e as [| |[]| |]; auto.
Qed.

Lemma table_app_other l e id : (forall i b r, e <> EvCmd (CmdBrkpSet i b) r) ->
  table (l ++ [e]) id = table l id.
Proof.
  intros H. unfold table. rewrite last_set_app. cbn. destruct e as [| |[]| |]; auto.
  exfalso. eapply H. reflexivity.
Qed.

(** Truthful answers about the table. *)
Definition table_reply (log : list event) (c : cmd) (r : reply) : Prop :=
  match c with
  | CmdBrkpGet id => if id =? 255 then r = RNone else r = RBrkp (table log id)
  | CmdInfo InfoNbrkps => exists n, r = RCount n /\ count_is log n
  | _ => True
  end.
Definition replies_ok (log : list event) : Prop :=
  forall pre c r post, log = pre ++ EvCmd c r :: post -> table_reply pre c r.

Lemma replies_snoc log e : replies_ok log ->
  (forall c r, e = EvCmd c r -> table_reply log c r) -> replies_ok (log ++ [e]).
Proof.
  intros H1 H2 pre c r post E.
  destruct post as [|e' post'] using rev_ind.
  - apply app_inj_tail in E as [-> ->]. apply H2. reflexivity.
  - clear IHpost'. rewrite app_comm_cons, app_assoc in E. apply app_inj_tail in E as [E ->].
    eapply H1; eauto.
Qed.

Definition T (log : list event) (d : dbg) : Prop :=
  tab_inv d /\ log_table d log /\ replies_ok log.

Lemma T_count log d : T log d -> count_is log (d_n d).
Proof.
  intros ([H1 H2 H3 H4 H5 H6] & HL & _). split; [lia|]. split.
  - intros id Hid. rewrite <- HL by lia. apply H3. auto.
  - destruct H4 as [|H4]; auto. destruct (Z.eq_dec (d_n d) 0); auto. right.
    rewrite <- HL by lia. auto.
Qed.

Lemma T_other log d e d' : T log d -> (forall c r, e <> EvCmd c r) ->
  d_n d' = d_n d -> d_mask d' = d_mask d -> d_tab d' = d_tab d -> T (log ++ [e]) d'.
Proof.
  intros (H1 & H2 & H3) He E1 E2 E3. split; [eapply tab_inv_ext; eauto|]. split.
  - intros id Hid. rewrite E3, table_app_other; auto.
  - apply replies_snoc; auto. intros c r E. exfalso. eapply He; eauto.
Qed.

Lemma T_same log d d' : T log d ->
  d_n d' = d_n d -> d_mask d' = d_mask d -> d_tab d' = d_tab d -> T log d'.
Proof.
  intros (H1 & H2 & H3) E1 E2 E3. split; [eapply tab_inv_ext; eauto|]. split; auto.
  intros id Hid. rewrite E3. auto.
Qed.

Lemma standing_after_tab go r d :
  d_n (standing_after go r d) = d_n d /\ d_mask (standing_after go r d) = d_mask d /\
  d_tab (standing_after go r d) = d_tab d /\ d_executing (standing_after go r d) = d_executing d.
Proof. destruct go; cbn; auto. destruct (0 <? r); auto. Qed.

Lemma T_serve pc c log v d w g r v' d' w' : cmd_ok c -> T log d ->
  serve pc c v d w = Ok (g, r, v', d', w') -> T (log ++ [EvCmd c r]) d'.
Proof.
  intros Hc HT. pose proof HT as (H1 & H2 & H3).
  assert (A : forall d', d_n d' = d_n d -> d_mask d' = d_mask d -> d_tab d' = d_tab d ->
    (forall i b, c <> CmdBrkpSet i b) -> table_reply log c r -> T (log ++ [EvCmd c r]) d').
  { intros d1 E1 E2 E3 Hn Hr. split; [eapply tab_inv_ext; eauto|]. split.
    - intros id Hid. rewrite E3, table_app_other; auto. intros i b r' E. injection E as -> _.
      eapply Hn; eauto.
    - apply replies_snoc; auto. intros c' r' E. injection E as <- <-. auto. }
  intros H. pose proof (serve_go _ _ _ _ _ _ _ _ _ _ H) as (_ & G & _).
  destruct c as [[]| | | | | | | | | | |]; cbn [DbgModel.serve] in H;
  try (injection H as <- <- <- <- <-; apply A; auto; try discriminate; exact I).
  - injection H as <- <- <- <- <-; apply A; auto; try discriminate.
    cbn. eexists. split; [reflexivity|]. apply T_count; auto.
  - injection H as <- <- <- <- <-. destruct (0 <? vm_rsp v); apply A; auto; try discriminate; exact I.
  - destruct (Z.eqb_spec id BRKP_NONE) as [E|E]; unfold BRKP_NONE in *.
    + injection H as <- <- <- <- <-; apply A; auto; try discriminate. cbn. rewrite E. reflexivity.
    + apply rbind_ok in H as (b & Eb & H). injection H as <- <- <- <- <-; apply A; auto; try discriminate.
      cbn. replace (id =? 255) with false by lia. unfold tab_get in Eb.
      destruct (in_bounds 255 id) eqn:Ei; [|discriminate]. injection Eb as <-.
      rewrite H2; auto. unfold in_bounds in Ei. lia.
  - apply rbind_ok in H as (d1 & E & H). injection H as <- <- <- <- <-.
    destruct Hc as [Hid Hb].
    destruct (brkp_set_inv d id b d1 H1 Hid Hb E) as (I1 & I2 & _).
    split; auto. split.
    + intros i Hi. rewrite I2 by auto. unfold table. rewrite last_set_app. cbn.
      destruct (id =? i); auto. apply H2. auto.
    + apply replies_snoc; auto. intros c r E'. injection E' as <- <-. exact I.
  - apply rbind_ok in H as ([[l v1] w1] & _ & H). injection H as <- <- <- <- <-. apply A; auto; try discriminate; exact I.
  - apply rbind_ok in H as ([v1 w1] & _ & H). injection H as <- <- <- <- <-. apply A; auto; try discriminate; exact I.
  - apply rbind_ok in H as (l & _ & H). injection H as <- <- <- <- <-. apply A; auto; try discriminate; exact I.
  - apply rbind_ok in H as (l & _ & H). injection H as <- <- <- <- <-. apply A; auto; try discriminate; exact I.
Qed.

Lemma T_hook pc v w s v' w' s' : Forall cmd_ok (ds_in s) -> T (ds_log s) (ds_dbg s) ->
  dbg_hook pc v (w, s) = Ok (v', (w', s')) ->
  T (ds_log s') (ds_dbg s') /\ Forall cmd_ok (ds_in s').
Proof.
  destruct s as [d0 input log0]. cbn [ds_in ds_log ds_dbg]. intros Hok HT H.
  apply hook_cases in H. cbv zeta in H.
  destruct H as (id & d' & log4 & E1 & E2 & E3 & E4).
  set (d := set_executing d0 true) in *.
  set (log1 := log0 ++ _) in *.
  assert (HT1 : T log1 d).
  { unfold log1. destruct (negb _).
    - apply T_other with (d := d0); auto; discriminate.
    - rewrite app_nil_r. apply T_same with (d := d0); auto. }
  assert (HT4 : T log4 d' /\ Forall cmd_ok (ds_in s')).
  { destruct (stop_now d v id).
    - destruct E2 as (log3 & E2 & ->). split.
      + apply T_other with (d := d'); auto; try discriminate.
        revert E2. apply (pause_induct (fun log _ d _ => T log d)); auto.
        * intros. eapply T_serve; eauto.
        * apply T_other with (d := d); auto; discriminate.
      + apply pause_shape in E2 as (? & ? & ? & ? & _ & _ & _ & _ & _ & pre & E2).
        rewrite E2 in Hok. apply Forall_app in Hok. tauto.
    - destruct E2 as (-> & -> & -> & -> & ->). split; auto.
      destruct (id =? BRKP_NONE).
      + rewrite app_nil_r. auto.
      + change [EvBeginBreak id; EvEndBreak] with ([EvBeginBreak id] ++ [EvEndBreak]).
        rewrite app_assoc. apply T_other with (d := d); auto; try discriminate.
        apply T_other with (d := d); auto; discriminate. }
  destruct HT4 as [HT4 Hin]. split; auto.
  rewrite E3, E4. destruct (vm_mem v' pc =? 0).
  - apply T_other with (d := d'); auto; discriminate.
  - rewrite app_nil_r. auto.
Qed.

Lemma reachable_T s : reachable W dei deo s ->
  T (ds_log s) (ds_dbg s) /\ Forall cmd_ok (ds_in s).
Proof.
  induction 1 as [input Hin|s _ [IH1 IH2]|c _ [IH1 IH2] (_ & _ & w & w' & H)].
  - cbn. split; auto. split; [apply tab_inv_init|]. split.
    + intros id _. reflexivity.
    + intros pre c r post E. destruct pre; discriminate.
  - cbn. split; auto. eapply T_same; eauto.
  - eapply T_hook; eauto.
Qed.

Lemma hook_wanted s : reachable W dei deo s ->
  should_hook (ds_dbg s) = true <->
  d_type (ds_dbg s) <> StExecute \/ exists id, 0 <= id < 255 /\ b_mask (table (ds_log s) id) <> 0.
Proof.
  intros H. apply reachable_T in H as [(H1 & H2 & _) _].
  unfold should_hook. rewrite orb_true_iff, !negb_true_iff, Z.eqb_neq.
  destruct H1 as [A1 A2 A3 A4 A5 A6].
  assert (B : d_n (ds_dbg s) <> 0 <-> exists id, 0 <= id < 255 /\ b_mask (table (ds_log s) id) <> 0).
  { split.
    - intros Hn. destruct A4 as [A4|A4]; [contradiction|].
      exists (d_n (ds_dbg s) - 1). split; [lia|]. rewrite <- H2 by lia. auto.
    - intros (id & Hid & Hm) E. apply Hm. rewrite <- H2 by lia. apply A3. lia. }
  rewrite B. destruct (d_type (ds_dbg s)); cbn; split; intros [C|C]; auto; try discriminate; try (left; congruence).
Qed.
End Core.
