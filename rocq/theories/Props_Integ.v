(** C101: what attaching a debugger does to a program. *)
From Verif Require Import Base VmModel VmSpec VmProofs VmStep VmRun VmHook DbgModel DbgSpec DbgProofs DbgHits DbgSteps DbgRun IntegModel Props_VM.
From Coq Require Import ZifyBool.
Ltac Zify.zify_post_hook ::= Z.div_mod_to_equations.

(** ** Specification *)
Section Spec.
Variable W : Type.
Variable dei : Z -> vm -> W -> res (Z * vm * W).
Variable deo : Z -> vm -> W -> res (vm * W).
Variable hi_first : bool.
Variables kw kr : Z.
Variable fuel : nat.

(** The program without a debugger, except that the [k]-th update runs the mouse
    vector if the [k]-th mark says so. *)
Definition vector (pc : Z) (v : vm) (w : W) : outcome W := execute W dei deo hi_first None kw kr fuel pc v w.
Fixpoint marked (marks : list bool) (l : list (gstep W)) (v : vm) (w : W) : outcome W :=
  match l with
  | [] => Done _ v w
  | x :: l =>
      let '(o, marks) :=
        match x, marks with
        | Tick _ _, true :: marks => (vector (256 * vm_dev v 144 + vm_dev v 145) v w, marks)
        | Tick _ _, _ :: marks => (Done _ v w, marks)
        | Tick _ _, [] => (Done _ v w, [])
        | Vector _ pc, marks => (vector pc v w, marks)
        | Change _ f, marks => (Done _ (fst (f v w)) (snd (f v w)), marks)
        end in
      match o with Done _ v w => marked marks l v w | Crash _ f => Crash _ f | OutOfFuel _ => OutOfFuel _ end
  end.
(** For each update, whether [poll] reported something. *)
Definition polls (l : list (gstep W)) : list bool := flat_map (fun x => match x with Tick _ b => [b] | _ => [] end) l.
(** The machine and the host are the same; the debugger is left out. *)
Definition same (o : outcome (W * integ)) (p : outcome W) : Prop :=
  match o, p with
  | Done _ v (w, _), Done _ v' w' => v = v' /\ w = w'
  | Crash _ f, Crash _ f' => f = f'
  | OutOfFuel _, OutOfFuel _ => True
  | _, _ => False
  end.
(** Vectors are addresses, and what the host does keeps C types. *)
Definition proper (x : gstep W) : Prop :=
  match x with
  | Tick _ _ => True
  | Vector _ pc => is_short pc
  | Change _ f => forall v w, well_typed v -> well_typed (fst (f v w))
  end.
(** A debugger whose client only looks, steps and sets breakpoints. *)
Definition looks (i : integ) : Prop := reachable W dei deo (i_side i) /\ Forall (fun c => inspecting c = true) (ds_in (i_side i)).
(** The program is to be stopped at once, later, or at some breakpoint. *)
Definition wanted (s : dbg_side) : Prop :=
  d_type (ds_dbg s) <> StExecute \/ exists id, 0 <= id < 255 /\ b_mask (table (ds_log s) id) <> 0.
End Spec.

(** ** Facts *)
Section Facts.
Variable W : Type.
Variable dei : Z -> vm -> W -> res (Z * vm * W).
Variable deo : Z -> vm -> W -> res (vm * W).
Variable hi_first : bool.
Variables kw kr : Z.
Variable fuel : nat.
Hypothesis HH : host_well_typed dei deo.
Notation vector := (vector W dei deo hi_first kw kr fuel).
Notation session := (session W dei deo hi_first kw kr fuel).
Notation integ_run := (integ_run W dei deo hi_first kw kr fuel).
Notation marked := (marked W dei deo hi_first kw kr fuel).
Notation looks := (looks W dei deo).

Lemma vector_typed pc v w v' w' : well_typed v -> is_short pc -> vector pc v w = Done _ v' w' -> well_typed v'.
Proof.
  intros V P. unfold Props_Integ.vector, execute. destruct (pc =? 0); [intros [= <- <-]; auto|]. intros E.
  pose proof (run_cases W dei deo hi_first None fuel (initial W kw kr pc v w) HH Logic.I (wf_initial W dei deo hi_first kw kr pc v w V P)) as C.
  rewrite E in C. exact C.
Qed.
Definition with_integ (o : outcome W) (i : integ) : outcome (W * integ) :=
  match o with Done _ v w => Done _ v (w, i) | Crash _ f => Crash _ f | OutOfFuel _ => OutOfFuel _ end.
Lemma run_transparent i pc v w : looks i \/ i_hook i = false -> well_typed v -> is_short pc ->
  exists i', integ_run i pc v w = with_integ (vector pc v w) i' /\ i_vm i' = i_vm i /\ i_hook i' = i_hook i /\
    (looks i -> looks i') /\ (i_hook i = false -> i' = i).
Proof.
  intros L V P. unfold IntegModel.integ_run. destruct (i_hook i) eqn:K.
  - destruct L as [L|L]; [|discriminate].
    destruct (execute_looking W dei deo hi_first fuel kw kr pc v w (i_side i) HH L V P) as (s & E & L').
    exists (mkInteg (i_vm i) true s). split; [|split; [reflexivity|split; [reflexivity|split; [auto|discriminate]]]].
    change (dei_i W dei) with (dei_l W dbg_side dei). change (deo_i W deo) with (deo_l W dbg_side deo). fold (vector pc v w) in E.
    unfold exec_dbg in E. rewrite E. fold (vector pc v w). destruct (vector pc v w); reflexivity.
  - exists i. split; [|auto]. fold (vector pc v w). destruct (vector pc v w); reflexivity.
Qed.

Lemma mouse_eq v : well_typed v -> mouse_vector v = 256 * vm_dev v 144 + vm_dev v 145.
Proof.
  intros V. unfold mouse_vector. rewrite SystemProofs.dev_load2_word by auto. reflexivity.
Qed.
Lemma mouse_short v : well_typed v -> is_short (256 * vm_dev v 144 + vm_dev v 145).
Proof. intros V. destruct V as (_ & _ & _ & _ & D & _). pose proof (D 144 ltac:(lia)) as A. pose proof (D 145 ltac:(lia)) as B. unfold is_byte, is_short in *. lia. Qed.

Definition fitting (i : integ) : Prop := if i_vm i then looks i else i_hook i = false.
Lemma fitting_or i : fitting i -> looks i \/ i_hook i = false.
Proof. unfold fitting. destruct (i_vm i); auto. Qed.

Lemma pause_fits s : reachable W dei deo s -> reachable W dei deo (mkSide (request_pause (ds_dbg s)) (ds_in s) (ds_log s)).
Proof. apply reachable_pause. Qed.
Lemma update_fits ready i : fitting i -> fitting (snd (integ_update ready i)) /\ i_vm (snd (integ_update ready i)) = i_vm i.
Proof.
  unfold fitting, integ_update. destruct (i_vm i) eqn:V; [|cbn [snd]; rewrite V; auto]. intros [R F].
  assert (L : reachable W dei deo (fd_update ready (i_side i)) /\ Forall (fun c => inspecting c = true) (ds_in (fd_update ready (i_side i)))).
  { unfold fd_update. destruct ready; [|auto]. split; [apply pause_fits, R|exact F]. }
  destruct (should_hook _); cbn [snd i_vm]; auto.
Qed.
Lemma update_true ready i : i_vm i = true -> ready = true -> fst (integ_update ready i) = true.
Proof. intros V ->. unfold integ_update. rewrite V. reflexivity. Qed.
Lemma update_off ready i : i_vm i = false -> integ_update ready i = (false, i).
Proof. unfold integ_update. now intros ->. Qed.

Lemma session_marks l : Forall (proper W) l -> forall i v w, fitting i -> well_typed v ->
  exists marks, same W (session l i v w) (marked marks l v w) /\
    Forall2 (fun ready m => (i_vm i = false -> m = false) /\ (i_vm i = true -> ready = true -> m = true)) (polls W l) marks.
Proof.
  induction l as [|x l IH]; intros PR i v w F V.
  - exists []. split; [cbn; auto|constructor].
  - inversion PR as [|? ? P1 P2]; subst. specialize (IH P2). destruct x as [ready|pc|f].
    + cbn [IntegModel.session integ_step]. unfold tick.
      pose proof (update_fits ready i F) as [F' V']. pose proof (update_true ready i) as UT. pose proof (update_off ready i) as UO.
      destruct (integ_update ready i) as [h i']. cbn [fst snd] in *. destruct h.
      * assert (ON : i_vm i = true) by (destruct (i_vm i); [auto|]; specialize (UO eq_refl); discriminate).
        assert (E : exists i2, integ_mouse W dei deo hi_first kw kr fuel i' v w = with_integ (vector (256 * vm_dev v 144 + vm_dev v 145) v w) i2 /\ fitting i2 /\ i_vm i2 = true).
        { unfold integ_mouse. rewrite mouse_eq by auto. destruct (_ =? 0) eqn:Z0.
          - exists i'. split; [|split; [auto|congruence]]. unfold Props_Integ.vector, execute. rewrite Z0. reflexivity.
          - destruct (run_transparent i' _ v w (fitting_or _ F') V (mouse_short v V)) as (i2 & E & A & B & C & D). exists i2. split; [exact E|].
            split; [|congruence]. unfold fitting in *. rewrite A, V', ON in *. auto. }
        destruct E as (i2 & -> & F2 & ON2). destruct (vector _ v w) as [v2 w2|e|] eqn:EV; cbn [with_integ].
        -- destruct (IH i2 v2 w2 F2 (vector_typed _ _ _ _ _ V (mouse_short v V) EV)) as (marks & S & M). exists (true :: marks). split.
           ++ cbn [Props_Integ.marked]. rewrite EV. exact S.
           ++ cbn [polls flat_map app]. constructor; [split; [congruence|auto]|]. assert (EI : i_vm i2 = i_vm i) by congruence. rewrite EI in M. exact M.
        -- exists (true :: map (fun _ => true) (polls W l)). split; [cbn [Props_Integ.marked]; rewrite EV; reflexivity|].
           cbn [polls flat_map app]. constructor; [split; [congruence|auto]|]. fold (polls W l). clear - ON.
           induction (polls W l); constructor; [split; [congruence|auto]|auto].
        -- exists (true :: map (fun _ => true) (polls W l)). split; [cbn [Props_Integ.marked]; rewrite EV; exact Logic.I|].
           cbn [polls flat_map app]. constructor; [split; [congruence|auto]|]. fold (polls W l). clear - ON.
           induction (polls W l); constructor; [split; [congruence|auto]|auto].
      * destruct (IH i' v w F' V) as (marks & S & M). exists (false :: marks). split; [exact S|].
        cbn [polls flat_map app]. constructor; [|rewrite <- V'; exact M]. split; [auto|]. intros ON R. specialize (UT ON R). discriminate.
    + cbn [proper] in P1. destruct (run_transparent i pc v w (fitting_or _ F) V P1) as (i2 & E & A & B & C & D).
      cbn [IntegModel.session integ_step]. rewrite E. destruct (vector pc v w) as [v2 w2|e|] eqn:EV; cbn [with_integ].
      * assert (F2 : fitting i2). { unfold fitting in *. rewrite A, B. destruct (i_vm i); auto. }
        destruct (IH i2 v2 w2 F2 (vector_typed _ _ _ _ _ V P1 EV)) as (marks & S & M). exists marks. split.
        -- cbn [Props_Integ.marked]. destruct marks; rewrite EV; exact S.
        -- rewrite A in M. exact M.
      * exists (map (fun _ => i_vm i) (polls W l)). split; [cbn [Props_Integ.marked]; destruct (map _ _); rewrite EV; reflexivity|].
        change (polls W (Vector W pc :: l)) with (polls W l). clear. induction (polls W l); constructor; [auto|auto].
      * exists (map (fun _ => i_vm i) (polls W l)). split; [cbn [Props_Integ.marked]; destruct (map _ _); rewrite EV; exact Logic.I|].
        change (polls W (Vector W pc :: l)) with (polls W l). clear. induction (polls W l); constructor; [auto|auto].
    + cbn [IntegModel.session integ_step]. destruct (f v w) as [v2 w2] eqn:EF. cbn [proper] in P1. specialize (P1 v w V). rewrite EF in P1. cbn [fst] in P1.
      destruct (IH i v2 w2 F P1) as (marks & S & M). exists marks. split; [|exact M].
      cbn [Props_Integ.marked]. destruct marks; rewrite EF; exact S.
Qed.
End Facts.

(** ** C101 *)
(** One update: without a debugger nothing happens; with one, the mouse vector
    runs with the hook installed exactly if [poll] reports something (a pause is
    requested then) or the client wants to be called; otherwise the hook is taken
    away. *)
Theorem C101_update :
  forall W dei deo hi_first kw kr fuel (ready : bool) i v (w : W), well_typed v -> (i_vm i = true -> reachable W dei deo (i_side i)) ->
  let s := if ready then mkSide (mkDbg (d_executing (ds_dbg (i_side i))) StPause (d_rsp (ds_dbg (i_side i))) (d_n (ds_dbg (i_side i))) (d_mask (ds_dbg (i_side i))) (d_tab (ds_dbg (i_side i)))) (ds_in (i_side i)) (ds_log (i_side i)) else i_side i in
  let go := tick W dei deo hi_first kw kr fuel ready i v w in
  (i_vm i = false -> go = Done _ v (w, i)) /\
  (i_vm i = true -> ready = true \/ wanted s -> go = integ_mouse W dei deo hi_first kw kr fuel (mkInteg true true s) v w) /\
  (i_vm i = true -> ready = false -> ~ wanted s -> go = Done _ v (w, mkInteg true false s)).
Proof.
  intros W dei deo hf kw kr fuel ready i v w V R s go. subst go. unfold tick, integ_update.
  assert (FS : fd_update ready (i_side i) = s) by (subst s; destruct ready; reflexivity). destruct (i_vm i) eqn:O.
  2:{ split; [auto|split; discriminate]. }
  specialize (R eq_refl). rewrite FS. split; [discriminate|].
  assert (RS : reachable W dei deo s) by (subst s; destruct ready; [apply reachable_pause, R|exact R]).
  pose proof (hook_wanted W dei deo s RS) as HW. fold (wanted s) in HW. split; intros _.
  - intros K. assert (SH : should_hook (ds_dbg s) = true). { destruct K as [->|K]; [reflexivity|now apply HW]. } rewrite SH. reflexivity.
  - intros _ K. destruct (should_hook (ds_dbg s)) eqn:SH; [exfalso; apply K, HW; reflexivity|reflexivity].
Qed.
Print Assumptions C101_update.

(** A client that only looks, steps and sets breakpoints changes the program in
    one way: some updates run the mouse vector.  Without a debugger none does,
    with one all those do for which [poll] reports something. *)
Theorem C101_session :
  forall W dei deo hi_first kw kr fuel l i v (w : W), host_well_typed dei deo -> Forall (proper W) l -> well_typed v ->
  (if i_vm i then looks W dei deo i else i_hook i = false) ->
  exists marks,
    same W (session W dei deo hi_first kw kr fuel l i v w) (marked W dei deo hi_first kw kr fuel marks l v w) /\
    Forall2 (fun ready m => (i_vm i = false -> m = false) /\ (i_vm i = true -> ready = true -> m = true)) (polls W l) marks.
Proof. intros. apply session_marks; auto. Qed.
Print Assumptions C101_session.

(** The states at the start: no debugger, or one that has just been attached. *)
Theorem C101_start : forall W (dei : Z -> vm -> W -> res (Z * vm * W)) (deo : Z -> vm -> W -> res (vm * W)),
  i_vm integ0 = false /\ i_hook integ0 = false /\
  forall input, Forall cmd_ok input -> Forall (fun c => inspecting c = true) input ->
    i_vm (integ_init input) = true /\ looks W dei deo (integ_init input) /\ d_type (ds_dbg (i_side (integ_init input))) = StPause.
Proof.
  intros W dei deo. split; [reflexivity|]. split; [reflexivity|]. intros input O F. split; [reflexivity|]. split; [|reflexivity].
  split; [|exact F]. exact (reachable_pause W dei deo _ (reachable_init W dei deo input O)).
Qed.
Print Assumptions C101_start.

(** An attached client that has let the program go, has no breakpoint and is
    quiet is as good as none: the program and the debugger are left alone. *)
Theorem C101_quiet :
  forall W dei deo hi_first kw kr fuel l i v (w : W), Forall (fun b => b = false) (polls W l) ->
  i_vm i = true -> i_hook i = false -> reachable W dei deo (i_side i) -> ~ wanted (i_side i) ->
  session W dei deo hi_first kw kr fuel l i v w = with_integ W (marked W dei deo hi_first kw kr fuel [] l v w) i.
Proof.
  intros W dei deo hf kw kr fuel l i v w P O K R N.
  assert (SH : should_hook (ds_dbg (i_side i)) = false).
  { destruct (should_hook _) eqn:E; auto. apply (hook_wanted W dei deo _ R) in E. contradiction. }
  revert v w P. induction l as [|x l IH]; intros v w P; [reflexivity|]. destruct x as [ready|pc|f]; cbn [session integ_step marked].
  - inversion P as [|? ? P1 P2]; subst. unfold tick, integ_update. rewrite O. cbn [fd_update]. rewrite SH.
    replace (mkInteg true false (i_side i)) with i by (destruct i; cbn in *; congruence). apply IH, P2.
  - unfold integ_run. rewrite K. fold (vector W dei deo hf kw kr fuel pc v w). destruct (vector _ _ _ _ _ _ _ pc v w); cbn [with_integ]; auto.
  - destruct (f v w) as [v2 w2]. cbn [fst snd]. apply IH. exact P.
Qed.
Print Assumptions C101_quiet.

(** *** A concrete session *)
(** #0108 #90 DEO2 BRK, and the mouse vector: #01 #18 DEO BRK.  The client sets a
    breakpoint that is never hit and lets the program go. *)
Definition c101_vm : vm := ex_vm 0 [] [160; 1; 8; 128; 144; 55; 0; 0; 128; 1; 128; 24; 23; 0].
Definition c101_client : list cmd := [CmdBrkpSet 0 (mkBrkp 20480 6); CmdResume].
Definition c101_steps : list (gstep (list Z)) := [Vector _ 256; Tick _ false; Tick _ false].
Definition c101_log (o : outcome (list Z * integ)) : list Z := match o with Done _ _ (w, _) => w | _ => [-1] end.

Lemma c101_typed : well_typed c101_vm.
Proof. apply wf_well_typed, (ex_wf 0 []); bytes. Qed.

(** Without a debugger two bytes of a port are written, with one the mouse vector
    runs twice although nothing was asked of it; a client that does not set the
    breakpoint leaves the program alone. *)
Example C101_case :
  well_typed c101_vm /\ Forall cmd_ok c101_client /\ Forall (fun c => inspecting c = true) c101_client /\ Forall (proper _) c101_steps /\
  c101_log (session _ ex_dei ex_deo true 0 0 100 c101_steps integ0 c101_vm []) = [145; 144] /\
  c101_log (session _ ex_dei ex_deo true 0 0 100 c101_steps (integ_init c101_client) c101_vm []) = [24; 24; 145; 144] /\
  c101_log (session _ ex_dei ex_deo true 0 0 100 c101_steps (integ_init [CmdResume]) c101_vm []) = [145; 144] /\
  c101_log (session _ ex_dei ex_deo true 0 0 100 [Vector _ 256; Tick _ true; Tick _ false] (integ_init [CmdResume; CmdResume]) c101_vm []) = [24; 145; 144].
Proof.
  split; [exact c101_typed|]. split; [repeat constructor; cbn; unfold brkp_ok, is_byte, is_short; cbn; lia|].
  split; [repeat constructor|]. split; [repeat constructor; cbn; unfold is_short; lia|]. vm_compute. auto.
Qed.

(** One would like to look at a program without changing what it does, but a
    breakpoint that is never hit makes every update run the mouse vector. *)
Theorem C101_debugging_is_invisible_refuted :
  ~ (forall W dei deo hi_first kw kr fuel l input v (w : W), host_well_typed dei deo -> Forall (proper W) l -> well_typed v ->
     Forall cmd_ok input -> Forall (fun c => inspecting c = true) input -> Forall (fun b => b = false) (polls W l) ->
     same W (session W dei deo hi_first kw kr fuel l (integ_init input) v w) (marked W dei deo hi_first kw kr fuel [] l v w)).
Proof.
  intros H. destruct C101_case as (V & K & L & P & _).
  specialize (H (list Z) ex_dei ex_deo true 0 0 100%nat c101_steps c101_client c101_vm [] ex_host_wt P V K L).
  specialize (H ltac:(repeat constructor)).
  remember (session _ _ _ _ _ _ _ _ _ _ _) as o eqn:EO. remember (marked _ _ _ _ _ _ _ _ _ _ _) as p eqn:EP.
  assert (A : c101_log o = [24; 24; 145; 144]) by (rewrite EO; vm_compute; reflexivity).
  assert (B : match p with Done _ _ w => w | _ => [] end = [145; 144]) by (rewrite EP; vm_compute; reflexivity).
  destruct o as [v1 [w1 i1]| |]; cbn in A; try discriminate A. destruct p as [v2 w2| |]; cbn in B; try discriminate B. cbn in H. destruct H as [_ H]. congruence.
Qed.
Print Assumptions C101_debugging_is_invisible_refuted.
