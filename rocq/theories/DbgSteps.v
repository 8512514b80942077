(** The hook call by call: stops, reports, nesting and runs (C32-C35). *)
From Verif Require Import Base VmModel VmSpec VmProofs VmStep VmRun VmHook DbgModel DbgSpec DbgProofs DbgHits.
From Coq Require Import ZifyBool.
Ltac Zify.zify_post_hook ::= Z.div_mod_to_equations.

Lemma emits_inj c e1 e2 : emits c e1 -> emits c e2 -> e1 = e2.
Proof. unfold emits. intros H1 H2. rewrite H1 in H2. apply app_inv_head in H2. auto. Qed.

(** The breakpoint search never faults and stays inside the table. *)
Lemma match_brkp_range d started pc v : tab_inv d -> well_typed v -> is_short pc ->
  exists id, match_brkp d started pc v = Ok id /\ (id = 255 \/ 0 <= id < d_n d).
Proof.
  intros HI Hv Hp. pose proof (ti_n _ HI) as Hn. unfold match_brkp.
  destruct (d_mask d =? 0); [exists 255; auto|].
  assert (Hd : exists x, (if has (d_mask d) (Z.lor BRKP_LOAD BRKP_STORE) then decode pc v
                          else Ok (ClsOther, 0, 0)) = Ok x).
  { destruct (has _ _); [|eauto]. destruct (decode_ok v pc Hv Hp) as (cls & a1 & E & _). eauto. }
  destruct Hd as ([[cls a1] a2] & ->). cbn [rbind].
  destruct (find_spec d started pc v cls a1 a2 (Z.to_nat (d_n d)) 0) as (id & E & H); try lia.
  exists id. split; auto. cbv zeta in H. rewrite Z2Nat.id in H by lia. destruct H as [[H _]|[H _]]; auto.
Qed.

Section Steps.
Variable W : Type.
Variable dei : Z -> vm -> W -> res (Z * vm * W).
Variable deo : Z -> vm -> W -> res (vm * W).
Notation serve := (serve W dei deo).
Notation pause_loop := (pause_loop W dei deo).
Notation dbg_hook := (dbg_hook W dei deo).
Notation is_call := (is_call W dei deo).
Notation calls := (calls W dei deo).
Notation reachable := (reachable W dei deo).

(** ** One call *)
Definition opening (c : call) : list event :=
  if d_executing (ds_dbg (c_side c)) then [] else [EvBeginExec (c_pc c)].
Definition closing (c : call) : list event :=
  if vm_mem (c_vm' c) (c_pc c) =? 0 then [EvEndExec] else [].

Record view (c : call) (id : Z) (ev : list event) : Prop := {
  vw_id : match_brkp (set_executing (ds_dbg (c_side c)) true) (negb (d_executing (ds_dbg (c_side c))))
            (c_pc c) (c_vm c) = Ok id;
  vw_range : id = 255 \/ 0 <= id < 255;
  vw_emits : emits c (opening c ++ ev ++ closing c);
  vw_executing : d_executing (ds_dbg (c_side' c)) = negb (vm_mem (c_vm' c) (c_pc c) =? 0);
  vw_case :
    (stop_now (ds_dbg (c_side c)) (c_vm c) id = true /\
     exists asked go r d1,
      ev = EvBeginBreak id :: asked ++ [EvCmd go r; EvEndBreak] /\
      Forall (fun e => exists c r, e = EvCmd c r /\ is_go c = false) asked /\
      is_go go = true /\
      d_type (ds_dbg (c_side' c)) = d_type (standing_after go (vm_rsp (c_vm' c)) d1) /\
      d_rsp (ds_dbg (c_side' c)) = d_rsp (standing_after go (vm_rsp (c_vm' c)) d1)) \/
    (stop_now (ds_dbg (c_side c)) (c_vm c) id = false /\
     ev = (if id =? 255 then [] else [EvBeginBreak id; EvEndBreak]) /\
     c_vm' c = c_vm c /\ ds_in (c_side' c) = ds_in (c_side c) /\
     d_type (ds_dbg (c_side' c)) = d_type (ds_dbg (c_side c)) /\
     d_rsp (ds_dbg (c_side' c)) = d_rsp (ds_dbg (c_side c)))
}.

Lemma stop_now_executing d v id : stop_now (set_executing d true) v id = stop_now d v id.
Proof. reflexivity. Qed.

Lemma call_view c : tab_inv (ds_dbg (c_side c)) -> is_call c -> exists id ev, view c id ev.
Proof.
  destruct c as [pc v [d0 input log0] v' s']. cbn [c_side ds_dbg].
  intros HI (Hp & Hv & w & w' & H). cbn [c_pc c_vm c_side c_vm' c_side'] in *.
  apply hook_cases in H. cbv zeta in H. destruct H as (id & d' & log4 & E1 & E2 & E3 & E4).
  assert (HI' : tab_inv (set_executing d0 true)) by (eapply tab_inv_ext; [| | |exact HI]; auto).
  assert (Hr : id = 255 \/ 0 <= id < 255).
  { destruct (match_brkp_range (set_executing d0 true) (negb (d_executing d0)) pc v HI' Hv Hp) as (id' & E & H).
    rewrite E1 in E. injection E as <-. pose proof (ti_n _ HI'). lia. }
  rewrite stop_now_executing in E2.
  assert (O : forall e, (log0 ++ (if negb (d_executing d0) then [EvBeginExec pc] else [])) ++ e =
     log0 ++ opening (mkCall pc v (mkSide d0 input log0) v' s') ++ e).
  { intros e. unfold opening. cbn. destruct (d_executing d0); cbn; rewrite <- ?app_assoc; auto. }
  assert (X : d_executing (ds_dbg s') = negb (vm_mem v' pc =? 0) \/ d_executing d' = false).
  { rewrite E3. destruct (vm_mem v' pc =? 0); cbn; auto. destruct (d_executing d'); auto. }
  destruct (stop_now d0 v id) eqn:Es.
  - destruct E2 as (log3 & E2 & ->).
    apply pause_shape in E2 as (asked & go & r & d1 & -> & Ha & Hg & -> & Hd1 & _).
    exists id, (EvBeginBreak id :: asked ++ [EvCmd go r; EvEndBreak]).
    constructor; cbn [c_pc c_vm c_side c_vm' c_side' ds_dbg]; auto.
    + unfold emits. cbn [c_side c_side' ds_log]. rewrite E4. rewrite !(app_assoc log0), <- app_assoc.
      change (EvBeginBreak id :: asked ++ [EvCmd go r; EvEndBreak]) with
        ([EvBeginBreak id] ++ asked ++ [EvCmd go r] ++ [EvEndBreak]).
      unfold closing. cbn [c_vm' c_pc]. rewrite !O. rewrite !app_assoc. rewrite <- !app_assoc. reflexivity.
    + destruct X as [X|X]; auto. destruct (standing_after_tab go (vm_rsp v') d1) as (_ & _ & _ & S).
      rewrite S, Hd1 in X. discriminate.
    + left. split; auto. exists asked, go, r, d1. rewrite E3.
      destruct (vm_mem v' pc =? 0); cbn; auto 6.
  - destruct E2 as (-> & -> & -> & E5 & ->).
    exists id, (if id =? 255 then [] else [EvBeginBreak id; EvEndBreak]).
    constructor; cbn [c_pc c_vm c_side c_vm' c_side' ds_dbg]; auto.
    + unfold emits. cbn [c_side c_side' ds_log]. rewrite E4. rewrite <- app_assoc, O. reflexivity.
    + destruct X as [X|X]; auto. discriminate.
    + right. split; auto. split; auto. split; auto. split; auto. rewrite E3. destruct (vm_mem v pc =? 0); auto.
Qed.

(** The break group between opening and closing, with its markers removed. *)
Lemma view_in c id ev e : view c id ev -> In e (opening c ++ ev ++ closing c) ->
  (e = EvBeginExec (c_pc c) /\ d_executing (ds_dbg (c_side c)) = false) \/ e = EvEndExec \/ In e ev.
Proof.
  intros V H. rewrite !in_app_iff in H. unfold opening, closing in H.
  destruct H as [H|[H|H]]; auto.
  - destruct (d_executing _); [contradiction|]. destruct H as [<-|[]]; auto.
  - destruct (_ =? 0); [|contradiction]. destruct H as [<-|[]]; auto.
Qed.

Lemma view_reported c id ev : view c id ev -> forall i, reported c i <-> i = id /\ id <> 255.
Proof.
  intros V i. pose proof (vw_emits _ _ _ V) as He.
  split.
  - intros (e & E & H & Hn). rewrite (emits_inj _ _ _ E He) in H.
    apply (view_in c id ev _ V) in H as [[H _]|[H|H]]; try discriminate.
    destruct (vw_case _ _ _ V) as [(_ & asked & go & r & d1 & -> & Ha & _)|(_ & -> & _)].
    + destruct H as [H|H]; [injection H as ->; auto|]. exfalso.
      rewrite in_app_iff in H. destruct H as [H|[H|[H|[]]]]; try discriminate.
      rewrite Forall_forall in Ha. apply Ha in H as (? & ? & H & _). discriminate.
    + destruct (id =? 255); [contradiction|]. destruct H as [H|[H|[]]]; [injection H as ->; auto|discriminate].
  - intros [-> Hn]. exists (opening c ++ ev ++ closing c). split; auto. split; auto.
    rewrite !in_app_iff. right; left.
    destruct (vw_case _ _ _ V) as [(_ & asked & go & r & d1 & -> & Ha & _)|(_ & -> & _)].
    + left; auto.
    + replace (id =? 255) with false by lia. left; auto.
Qed.

Lemma view_starts c id ev : view c id ev -> starts c <-> d_executing (ds_dbg (c_side c)) = false.
Proof.
  intros V. pose proof (vw_emits _ _ _ V) as He. unfold starts. split.
  - intros (e & E). rewrite <- (emits_inj _ _ _ E He) in He. pose proof (emits_inj _ _ _ E (vw_emits _ _ _ V)) as X.
    unfold opening in X. destruct (d_executing _); auto. cbn [app] in X.
    destruct (vw_case _ _ _ V) as [(_ & asked & go & r & d1 & -> & Ha & _)|(_ & -> & _)]; [discriminate|].
    destruct (id =? 255); cbn in X; [|discriminate]. unfold closing in X. destruct (_ =? 0); discriminate.
  - intros E. unfold opening in He. rewrite E in He. eauto.
Qed.

Lemma view_stops c id ev : view c id ev -> stops c <-> stop_now (ds_dbg (c_side c)) (c_vm c) id = true.
Proof.
  intros V. pose proof (vw_emits _ _ _ V) as He. unfold stops.
  destruct (vw_case _ _ _ V) as [(-> & asked & go & r & d1 & -> & Ha & _)|(-> & -> & _)].
  - split; auto. intros _. eexists _, go, r. split; [exact He|].
    rewrite !in_app_iff. right; left. right. rewrite in_app_iff. right. left. auto.
  - split; [|discriminate]. intros (e & cm & r & E & H). exfalso.
    rewrite (emits_inj _ _ _ E He) in H.
    apply (view_in c id _ _ V) in H as [[H _]|[H|H]]; try discriminate.
    destruct (id =? 255); [contradiction|]. destruct H as [H|[H|[]]]; discriminate.
Qed.

Lemma pausing_iff c id ev : reachable (c_side c) -> view c id ev ->
  pausing_hit c <-> id <> 255 /\ has (b_mask (d_tab (ds_dbg (c_side c)) id)) BRKP_PAUSE = true.
Proof.
  intros HR V. apply reachable_T in HR as [(HI & HL & _) _].
  unfold pausing_hit. setoid_rewrite (view_reported c id ev V).
  rewrite (has_bit _ 1 BRKP_PAUSE) by (auto; lia).
  destruct (vw_range _ _ _ V) as [->|Hr].
  - split; [intros (i & [-> H] & _); congruence|intros [H _]; congruence].
  - rewrite HL by auto. split.
    + intros (i & [-> H] & E); auto.
    + intros [H E]. exists id. auto.
Qed.

Lemma stops_iff c id ev : reachable (c_side c) -> view c id ev ->
  stops c <-> pausing_hit c \/ standing_pause (ds_dbg (c_side c)) (c_vm c) = true.
Proof.
  intros HR V. rewrite (view_stops c id ev V), (pausing_iff c id ev HR V).
  unfold stop_now, BRKP_NONE. rewrite orb_true_iff, andb_true_iff, negb_true_iff, Z.eqb_neq. tauto.
Qed.

(** C32 *)
Lemma report_spec (P : brkp -> Prop) c id ev : reachable (c_side c) -> view c id ev ->
  match_spec (set_executing (ds_dbg (c_side c)) true) P id ->
  forall i, reported c i <-> lowest (table (ds_log (c_side c))) P i.
Proof.
  intros HR V HM i. rewrite (view_reported c id ev V).
  apply reachable_T in HR as [(_ & HL & _) _].
  assert (HE : forall j, lowest (table (ds_log (c_side c))) P j <-> lowest (d_tab (ds_dbg (c_side c))) P j).
  { intros j. unfold lowest. split; intros (H1 & H2 & H3); (split; [auto|]); (split; [|]).
    - rewrite HL; auto.
    - intros k Hk. rewrite HL by lia. auto.
    - rewrite <- HL; auto.
    - intros k Hk. rewrite <- HL by lia. auto. }
  rewrite HE. destruct HM as [[-> HN]|HL2].
  - split; [intros [_ H]; congruence|]. intros (H1 & H2 & _). exfalso. eapply HN; eauto.
  - split.
    + intros [-> _]; auto.
    + intros HL3. destruct HL2 as (A1 & A2 & A3), HL3 as (B1 & B2 & B3).
      cbn [d_tab set_executing] in *.
      split; [|lia]. destruct (Ztrichotomy i id) as [H|[H|H]]; auto; exfalso.
      * apply (A3 i); auto. lia.
      * apply (B3 id); auto. lia.
Qed.

Lemma hit_theorem c : reachable (c_side c) -> is_call c ->
  (wrapping_access (c_vm c) (c_pc c) -> forall id, 0 <= id < 255 ->
     b_addr (table (ds_log (c_side c)) id) <> 0 /\ b_addr (table (ds_log (c_side c)) id) <> 256) ->
  forall started, (started = true <-> starts c) ->
  forall id, reported c id <->
    lowest (table (ds_log (c_side c))) (fun b => names b started (c_vm c) (c_pc c)) id.
Proof.
  intros HR HC Hx started Hst. pose proof (reachable_T _ _ _ _ HR) as [(HI & HL & _) _].
  destruct (call_view c HI HC) as (id & ev & V).
  apply (report_spec _ c id ev HR V).
  rewrite (view_starts c id ev V) in Hst.
  assert (Es : negb (d_executing (ds_dbg (c_side c))) = started).
  { destruct (d_executing _), started; cbn; auto; [destruct Hst as [Hst _]|destruct Hst as [_ Hst]];
    (discriminate (Hst eq_refl) || (specialize (Hst eq_refl); discriminate)). }
  destruct HC as (Hp & Hv & _).
  destruct (match_brkp_spec (set_executing (ds_dbg (c_side c)) true) started (c_pc c) (c_vm c)) as (id' & E & H); auto.
  { eapply tab_inv_ext; [| | |exact HI]; auto. }
  { intros i Hi Hw. cbn [d_tab set_executing]. rewrite HL by auto. auto. }
  pose proof (vw_id _ _ _ V) as E'. rewrite Es, E in E'. injection E' as <-. auto.
Qed.

Lemma wrapping_theorem c : reachable (c_side c) -> is_call c -> wrapping_access (c_vm c) (c_pc c) ->
  forall started, (started = true <-> starts c) ->
  forall id, reported c id <->
    lowest (table (ds_log (c_side c))) (fun b => misnames b started (c_vm c) (c_pc c)) id.
Proof.
  intros HR HC Hx started Hst. pose proof (reachable_T _ _ _ _ HR) as [(HI & HL & _) _].
  destruct (call_view c HI HC) as (id & ev & V).
  apply (report_spec _ c id ev HR V).
  rewrite (view_starts c id ev V) in Hst.
  assert (Es : negb (d_executing (ds_dbg (c_side c))) = started).
  { destruct (d_executing _), started; cbn; auto; [destruct Hst as [Hst _]|destruct Hst as [_ Hst]];
    (discriminate (Hst eq_refl) || (specialize (Hst eq_refl); discriminate)). }
  destruct HC as (Hp & Hv & _).
  destruct (match_brkp_wrapping (set_executing (ds_dbg (c_side c)) true) started (c_pc c) (c_vm c)) as (id' & E & H); auto.
  { eapply tab_inv_ext; [| | |exact HI]; auto. }
  pose proof (vw_id _ _ _ V) as E'. rewrite Es, E in E'. injection E' as <-. auto.
Qed.

(** ** Sequences of calls *)
Lemma calls_app l1 : forall s l2 s', calls s (l1 ++ l2) s' <-> exists s1, calls s l1 s1 /\ calls s1 l2 s'.
Proof.
  induction l1 as [|c l1 IH]; intros s l2 s'; cbn [app DbgSpec.calls].
  - split; [eauto|]. intros (s1 & -> & H); auto.
  - rewrite IH. split.
    + intros (H1 & H2 & s1 & H3 & H4). eauto 6.
    + intros (s1 & (H1 & H2 & H3) & H4). eauto 6.
Qed.

Lemma calls_reachable l : forall s s', reachable s -> calls s l s' -> reachable s'.
Proof.
  induction l as [|c l IH]; intros s s' HR H; cbn in H.
  - subst; auto.
  - destruct H as (<- & H2 & H3). eapply IH; [|exact H3]. eapply reachable_call; eauto.
Qed.

(** Nothing stops: the standing command stays. *)
Lemma calls_quiet l : forall s s', reachable s -> calls s l s' -> Forall (fun c => ~ stops c) l ->
  d_type (ds_dbg s') = d_type (ds_dbg s) /\ d_rsp (ds_dbg s') = d_rsp (ds_dbg s).
Proof.
  induction l as [|c l IH]; intros s s' HR H HF; cbn in H.
  - subst; auto.
  - destruct H as (<- & H2 & H3). inversion HF; subst.
    destruct (call_view c) as (id & ev & V); auto.
    { apply reachable_T in HR as [(HI & _) _]. auto. }
    assert (HR' : reachable (c_side' c)) by (eapply reachable_call; eauto).
    destruct (IH _ _ HR' H3 H4) as [-> ->].
    rewrite (view_stops c id ev V) in H1.
    destruct (vw_case _ _ _ V) as [(E & _)|(_ & _ & _ & _ & E)]; [contradiction|]. auto.
Qed.

Lemma wanted_iff go rsp d v : is_go go = true -> 0 <= vm_rsp v ->
  standing_pause (standing_after go rsp d) v = true <-> wanted go rsp (vm_rsp v).
Proof.
  intros Hg Hv. destruct go; try discriminate; cbn; try (split; (discriminate || tauto)); try lia.
  destruct (Z.ltb_spec 0 rsp); cbn; lia.
Qed.

Lemma ended_view c id ev go : view c id ev -> ended_by c go ->
  exists d1, d_type (ds_dbg (c_side' c)) = d_type (standing_after go (vm_rsp (c_vm' c)) d1) /\
             d_rsp (ds_dbg (c_side' c)) = d_rsp (standing_after go (vm_rsp (c_vm' c)) d1).
Proof.
  intros V (pre & r & post & E & Hg).
  pose proof (emits_inj _ _ _ E (vw_emits _ _ _ V)) as X.
  assert (Hin : In (EvCmd go r) (opening c ++ ev ++ closing c)).
  { rewrite <- X. rewrite in_app_iff. right; left; auto. }
  apply (view_in c id ev _ V) in Hin as [[H _]|[H|H]]; try discriminate.
  destruct (vw_case _ _ _ V) as [(_ & asked & go' & r' & d1 & -> & Ha & Hg' & C1 & C2)|(_ & -> & _)].
  - destruct H as [H|H]; [discriminate|]. rewrite in_app_iff in H.
    rewrite Forall_forall in Ha.
    destruct H as [H|[H|[H|[]]]]; try discriminate.
    + apply Ha in H as (c0 & r0 & H & Hn). injection H as <- <-. congruence.
    + injection H as <- <-. eauto.
  - destruct (id =? 255); [contradiction|]. destruct H as [H|[H|[]]]; discriminate.
Qed.

Lemma step_theorem s l pre a mid b post s' go :
  reachable s -> l = pre ++ a :: mid ++ b :: post -> calls s l s' ->
  ended_by a go -> Forall (fun c => ~ stops c) mid ->
  stops b <-> pausing_hit b \/ wanted go (vm_rsp (c_vm' a)) (vm_rsp (c_vm b)).
Proof.
  intros HR -> HC He Hm.
  apply calls_app in HC as (s1 & C1 & C2). pose proof (calls_reachable _ _ _ HR C1) as R1.
  cbn in C2. destruct C2 as (<- & Ca & C2). apply calls_app in C2 as (s2 & C3 & C4).
  assert (R2 : reachable (c_side' a)) by (eapply reachable_call; eauto).
  pose proof (calls_reachable _ _ _ R2 C3) as R3.
  cbn in C4. destruct C4 as (<- & Cb & _).
  destruct (call_view a) as (ida & eva & Va); auto.
  { apply reachable_T in R1 as [(HI & _) _]. auto. }
  destruct (call_view b) as (idb & evb & Vb); auto.
  { apply reachable_T in R3 as [(HI & _) _]. auto. }
  rewrite (stops_iff b idb evb R3 Vb).
  destruct (ended_view a ida eva go Va He) as (d1 & E1 & E2).
  destruct (calls_quiet _ _ _ R2 C3 Hm) as [E3 E4].
  assert (Hg : is_go go = true) by (destruct He as (? & ? & ? & _ & Hg); auto).
  assert (Hv : 0 <= vm_rsp (c_vm b)) by (destruct Cb as (_ & Hv & _); destruct Hv as (_ & Hv & _); unfold is_byte in Hv; lia).
  rewrite <- (wanted_iff go (vm_rsp (c_vm' a)) d1 (c_vm b) Hg Hv).
  assert (X : standing_pause (ds_dbg (c_side b)) (c_vm b) =
              standing_pause (standing_after go (vm_rsp (c_vm' a)) d1) (c_vm b)).
  { unfold standing_pause. rewrite E3, E4, E1, E2. reflexivity. }
  rewrite X. tauto.
Qed.

(** Before the first pause, and right after a pause request. *)
Lemma first_stop s l mid b post s' : reachable s -> l = mid ++ b :: post -> calls s l s' ->
  Forall (fun c => ~ stops c) mid ->
  (d_type (ds_dbg s) = StExecute -> (stops b <-> pausing_hit b)) /\
  (d_type (ds_dbg s) = StPause -> stops b).
Proof.
  intros HR -> HC Hm. apply calls_app in HC as (s1 & C1 & C2).
  pose proof (calls_reachable _ _ _ HR C1) as R1. cbn in C2. destruct C2 as (<- & Cb & _).
  destruct (call_view b) as (idb & evb & Vb); auto.
  { apply reachable_T in R1 as [(HI & _) _]. auto. }
  destruct (calls_quiet _ _ _ HR C1 Hm) as [E3 E4].
  rewrite (stops_iff b idb evb R1 Vb). unfold standing_pause. rewrite E3. split; intros ->.
  - split; [intros [H|H]; [auto|discriminate]|auto].
  - auto.
Qed.

(** ** C34: nesting *)
Lemma view_group c id ev : view c id ev -> break_groups ev.
Proof.
  intros V. destruct (vw_case _ _ _ V) as [(_ & asked & go & r & d1 & -> & Ha & Hg & _)|(_ & -> & _)].
  - rewrite <- (app_nil_r (_ :: _)). apply groups_cons; [|constructor]. apply group_pause; auto.
  - destruct (Z.eqb_spec id 255); [constructor|].
    rewrite <- (app_nil_r (_ :: _)). apply groups_cons; [|constructor]. apply group_notice; auto.
Qed.

Lemma groups_app a b : break_groups a -> break_groups b -> break_groups (a ++ b).
Proof.
  induction 1 as [|g rest H1 H2 IH]; intros Hb; cbn; auto.
  rewrite <- app_assoc. apply groups_cons; auto.
Qed.

Lemma sessions_snoc a pc s : sessions a -> session pc s -> sessions (a ++ s).
Proof.
  induction 1 as [|pc' s' rest H1 H2 IH]; intros Hb; cbn.
  - rewrite <- (app_nil_r s). eapply sessions_cons; eauto. constructor.
  - rewrite <- app_assoc. eapply sessions_cons; eauto.
Qed.

Definition nested (s : dbg_side) : Prop :=
  exists closed, sessions closed /\
    if d_executing (ds_dbg s) then exists pc rest, open_session pc rest /\ ds_log s = closed ++ rest
    else ds_log s = closed.

Lemma nested_call c id ev : view c id ev -> nested (c_side c) -> nested (c_side' c).
Proof.
  intros V (closed & HS & H). pose proof (vw_emits _ _ _ V) as He. unfold emits in He.
  pose proof (view_group _ _ _ V) as HG.
  unfold nested. rewrite (vw_executing _ _ _ V). unfold opening, closing in He.
  destruct (d_executing (ds_dbg (c_side c))).
  - destruct H as (pc & rest & (g & Hg & ->) & E). rewrite E in He.
    destruct (vm_mem _ _ =? 0); cbn [negb].
    + exists (closed ++ (EvBeginExec pc :: (g ++ ev) ++ [EvEndExec])). split.
      * eapply sessions_snoc; eauto. exists (g ++ ev). split; auto. apply groups_app; auto.
      * rewrite He. cbn [app]. rewrite <- !app_assoc. reflexivity.
    + exists closed. split; auto. exists pc, (EvBeginExec pc :: g ++ ev). split.
      * exists (g ++ ev). split; auto. apply groups_app; auto.
      * rewrite He. cbn [app]. rewrite app_nil_r, <- app_assoc. reflexivity.
  - rewrite H in He. destruct (vm_mem _ _ =? 0); cbn [negb].
    + exists (closed ++ (EvBeginExec (c_pc c) :: ev ++ [EvEndExec])). split.
      * eapply sessions_snoc; eauto. exists ev. auto.
      * rewrite He. reflexivity.
    + exists closed. split; auto. exists (c_pc c), (EvBeginExec (c_pc c) :: ev). split.
      * exists ev. auto.
      * rewrite He. cbn [app]. rewrite app_nil_r. reflexivity.
Qed.

Lemma reachable_nested s : reachable s -> nested s.
Proof.
  induction 1 as [input Hin|s HR IH|c HR IH H].
  - exists []. split; [constructor|reflexivity].
  - exact IH.
  - destruct (call_view c) as (id & ev & V); auto.
    { apply reachable_T in HR as [(HI & _) _]. auto. }
    eapply nested_call; eauto.
Qed.
End Steps.
