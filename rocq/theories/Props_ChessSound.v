(** C91: what the verdict of the type checker (src/asm/chess.c) says about a
    vector.

    Vocabulary, from SoundSpec.v: [run rom R s0 d0 n s d] is a run of the machine
    of [n] instructions from [s0] to [s] that stays in the code of the program
    and does not come to an address of [R]; [d] counts the bytes on both stacks
    and does not wrap.  [routine_with h a sig]: the checker sets out to look at
    the routine at [a], whose signature is [sig].  [seen], [tidy] and
    [repeats_covered] speak about the states of the checker on the paths of this
    routine. *)
From Verif Require Import Base VmModel VmSpec AsmModel AsmSpec Props_Asm Props_Front ChessModel ChessProofs ChessSize ChessDelta ChessJump ChessVm ChessReports
  ValueSpec ChessValue ChessLock ChessSim ChessPool ChessStep ChessClean ChessGo Props_Chess SoundSpec ChessRun Props_ChessValue.
From Coq Require Import ZifyBool String.
Open Scope list_scope.
Ltac Zify.zify_post_hook ::= Z.div_mod_to_equations.

(** The bytes of the program. *)
Definition program (evs : list event) : Z -> Z := rom_of evs (fun _ => 0).
(** The symbols of the program have been read, and the analysis starts with [h]. *)
Definition analysis_of (evs : list event) (h : chess) : Prop :=
  exists z, read_symbols (reader0 (program evs)) evs = Some z /\ h = add_reset (z_h z).

Section Sound.
Variable W : Type.
Variable dei : Z -> vm -> W -> res (Z * vm * W).
Variable deo : Z -> vm -> W -> res (vm * W).
Variable hi_first : bool.
(** The devices do not touch the stacks. *)
Hypothesis HA : aloof W dei deo.
Notation run := (run W dei deo hi_first).
Notation step := (VmModel.step W dei deo hi_first).
Definition opcode (s : st W) : Z := vm_mem (s_vm W s) (s_pc W s).
(** The program has an opcode at the address [pc]. *)
Definition opcode_at (evs : list event) (pc : Z) : Prop := 256 <= pc /\ exists y, In (ESym pc y) evs /\ s_type y = SOpcode.
(** The bytes that the signature promises on a stack at the start, and asks for at the end. *)
Definition at_start (sig : signature) (r : bool) : Z := width (taken r sig) mod 256.
Definition at_end (sig : signature) (r : bool) : Z := width (leaves r sig) mod 256.

Lemma run_code rom R s0 d0 n s d : run rom R s0 d0 n s d -> in_code W rom s.
Proof. intros H. destruct H; assumption. Qed.

Section One.
Variables (evs : list event) (fuel : nat) (l : list report) (h : chess) (a : Z) (sig : signature) (s0 : st W).
Hypothesis V : type_check fuel evs = Some (Verdict true l).
Hypothesis An : analysis_of evs h.
Hypothesis Rw : routine_with h a sig.
Hypothesis Ve : g_type sig = Vector.
Hypothesis Td : forall k x, seen h a k x -> tidy x.
Hypothesis Pc : s_pc W s0 = a.
Hypothesis Bc : byte_cells s0.

Lemma facts_of : hok h /\ pool_h h /\ h_rom h = program evs /\
  exists hF m, csteps fuel (Idle h) = Finished hF /\ l = h_reports hF ++ m /\ existsb is_error (h_reports hF) = false.
Proof using V An.
  clear Td Rw. destruct An as (z & R & ->). pose proof (zok_symbols _ _ _ (zok_reader0 _) R) as Z. split; [apply hok_reset, Z|]. split; [exact (pool_start _ _ _ R)|].
  split; [rewrite zr_reset, (zr_symbols _ _ _ R); reflexivity|]. exact (verdict_end _ _ _ _ V R).
Qed.
Lemma on_path_start : exists k, on_path W h a k s0 (at_start sig).
Proof using V An Rw Ve Pc Bc.
  destruct facts_of as (K0 & P0 & Er & hF & m & Fin & El & NoE). pose proof Rw as [In1 (mm & t & e & Hi)].
  destruct (in_split _ _ In1) as (l1 & l2 & L).
  destruct (taken_up fuel (Idle h) l1 (entry_of a sig) l2 hF K0 L Fin) as (k & g & K1 & K2 & K3).
  destruct (begun h hF fuel K0 Fin NoE k g _ _ K2 K3) as (x & X1 & X2 & X3 & X4 & X5 & X6 & X7).
  exists (S k), x. split; [split; [exact X1|split; [exact X2|exact X3]]|].
  destruct (ok_sigs _ K0 _ _ _ Hi eq_refl) as (D1 & D2 & _).
  assert (F : Forall (fun v => v_const v = false /\ whole v) (g_win sig ++ g_rin sig)).
  { apply Forall_app. split; [eapply Forall_impl; [|exact D1]|eapply Forall_impl; [|exact D2]]; intros v (Q1 & Q2 & Q3 & _); repeat split; auto. }
  destruct (C87_routine_taken_up W _ a sig x s0 F X7 Pc) as [R _].
  split; [exact R|]. split; [exact Bc|]. split; [|left; exact Pc].
  intros r. unfold at_start, taken. destruct r; cbn [astack]; [rewrite X6|rewrite X5]; cbn [entry_of e_rst e_wst].
  - rewrite Ve. cbn [is_sub]. rewrite pushed_size. destruct (g_rin sig); reflexivity.
  - rewrite pushed_size. destruct (g_win sig); reflexivity.
Qed.
Lemma reported_repeat k x x' rl : seen h a k x -> csteps (S k) (Idle h) = Running x' -> h_reports (x_h x') = h_reports (x_h x) ++ rl -> In RRepeat rl -> In RRepeat l.
Proof using V An.
  intros Sn E R I. destruct facts_of as (K0 & P0 & Er & hF & m & Fin & El & NoE).
  destruct (before_end h hF fuel Fin (S k) _ E eq_refl) as [_ F].
  assert (C : cok (Running x')) by (rewrite <- E; apply cok_steps; exact K0).
  destruct (o_reports _ _ (onward_steps (fuel - S k) (Running x') (x_h x') hF C eq_refl ltac:(rewrite F; reflexivity))) as (q & Eq).
  rewrite El, Eq, R. apply in_or_app; left. apply in_or_app; left. apply in_or_app; right. exact I.
Qed.

Lemma on_path_run n s d : repeats_covered h a -> run (program evs) (routine_at h) s0 (at_start sig) n s d -> exists k, on_path W h a k s d.
Proof using HA V An Rw Ve Td Pc Bc.
  intros Cv H. destruct facts_of as (K0 & P0 & Er & hF & m & Fin & El & NoE). rewrite <- Er in H.
  induction H as [Ic|n s d s' H IH St Ic NR]; [apply on_path_start|]. destruct IH as (k & P).
  destruct (path_step W dei deo hi_first HA h hF fuel a sig K0 P0 Fin NoE Rw Ve Td k s d s' P (run_code _ _ _ _ _ _ _ H) St) as [_ Q].
  destruct (Q NR) as (k' & e & _ & G). destruct (G (fun _ => Cv)) as (k'' & _ & P'). eauto.
Qed.
(** With no jump that was not followed, every instruction of the machine takes
    the analysis further. *)
Lemma on_path_bound n s d : ~ In RRepeat l -> run (program evs) (routine_at h) s0 (at_start sig) n s d -> exists k, (n <= k)%nat /\ on_path W h a k s d.
Proof using HA V An Rw Ve Td Pc Bc.
  intros NRep H. destruct facts_of as (K0 & P0 & Er & hF & m & Fin & El & NoE). rewrite <- Er in H.
  induction H as [Ic|n s d s' H IH St Ic NR]; [destruct on_path_start as (k & P); exists k; split; [lia|exact P]|]. destruct IH as (k & Lk & P).
  destruct (path_step W dei deo hi_first HA h hF fuel a sig K0 P0 Fin NoE Rw Ve Td k s d s' P (run_code _ _ _ _ _ _ _ H) St) as [_ Q].
  destruct (Q NR) as (k' & e & [[-> Lt]|[-> (x & x' & rl & Sn & Ex & R1 & R2)]] & G).
  - destruct (G ltac:(discriminate)) as (k'' & Ek & P'). rewrite (Ek eq_refl) in P'. exists k'. split; [lia|exact P'].
  - exfalso. apply NRep. destruct P as (y & Sy & Ry & _ & _ & Oy). assert (y = x) as -> by (destruct Sy as [Ey _], Sn as [Ex' _]; congruence).
    destruct (path_next W h hF fuel a K0 Fin NoE k x s Sy Ry Oy) as (x2 & Ex2 & E2 & _). assert (x2 = x') as -> by congruence.
    eapply reported_repeat; eauto.
Qed.
Lemma path_facts k n s d : on_path W h a k s d -> run (program evs) (routine_at h) s0 (at_start sig) n s d ->
  opcode_at evs (s_pc W s) /\ (forall r, 0 <= d r <= 249) /\
  (forall s', step s = Ok (true, s') -> operand_bytes (opcode s) <= d (on_return (opcode s))) /\
  (forall s', step s = Ok (false, s') -> forall r, d r = at_end sig r).
Proof using HA V An Rw Ve Td.
  intros P H. destruct facts_of as (K0 & P0 & Er & hF & m & Fin & El & NoE). rewrite <- Er in H. pose proof (run_code _ _ _ _ _ _ _ H) as Ic.
  split; [|split; [|split]].
  - destruct (path_code W hi_first h hF fuel a K0 Fin NoE Td k s d P) as [Q1 Q2]. split; [exact Q1|].
    destruct An as (z & R & Eh). rewrite Eh, zs_reset in Q2. destruct (h_syms (z_h z) (s_pc W s)) as [y|] eqn:Ey; [|discriminate].
    destruct (zs_symbols _ _ _ _ _ R Ey) as [Q|(y0 & Q3 & Q4)]; [discriminate|]. exists y0. split; [exact Q3|]. rewrite Q4. unfold is_code in Q2. destruct (y_type y); try discriminate Q2. reflexivity.
  - intros r. destruct P as (x & Sn & _ & _ & Sz & _). destruct (Td _ _ Sn) as (_ & _ & T3 & _). rewrite <- Sz. split; [|apply T3].
    pose proof (at_ok h K0 _ _ (proj1 Sn)) as X. destruct r; cbn [astack]; [destruct (ok_r _ X) as (_ & B & _)|destruct (ok_w _ X) as (_ & B & _)]; apply B.
  - intros s' St. apply (path_step W dei deo hi_first HA h hF fuel a sig K0 P0 Fin NoE Rw Ve Td k s d s' P Ic St).
  - intros s' St r. rewrite (path_brk W dei deo hi_first h hF fuel a sig K0 Fin NoE Rw Td k s d s' P Ic St r).
    unfold sig_size, at_end, leaves, u8. assert (Q : forall q n, fold_left (fun n v => n + vsize v) q n = n + width q).
    { induction q as [|v q IH]; intros n0; cbn [fold_left width]; [lia|]. rewrite IH. lia. }
    destruct r; rewrite Q; reflexivity.
Qed.
End One.

(** ** C91 *)
(** The program passes, and the checker has looked at the vector [a].  Then as
    long as the machine runs in this vector: it executes opcodes of the program
    text, never data; no stack runs out of bytes, none runs over, and when the vector ends, what is on the stacks is what its
    signature says. *)
Theorem C91_vector_keeps_its_signature evs fuel l h a sig s0 n s d :
  type_check fuel evs = Some (Verdict true l) -> analysis_of evs h ->
  routine_with h a sig -> g_type sig = Vector ->
  (forall k x, seen h a k x -> tidy x) -> repeats_covered h a ->
  s_pc W s0 = a -> byte_cells s0 ->
  run (program evs) (routine_at h) s0 (at_start sig) n s d ->
  opcode_at evs (s_pc W s) /\ (forall r, 0 <= d r <= 249) /\
  (forall s', step s = Ok (true, s') -> operand_bytes (opcode s) <= d (on_return (opcode s))) /\
  (forall s', step s = Ok (false, s') -> forall r, d r = at_end sig r).
Proof.
  intros V An Rw Ve Td Cv Pc Bc H. destruct (on_path_run evs fuel l h a sig s0 V An Rw Ve Td Pc Bc n s d Cv H) as (k & P).
  eapply path_facts; eauto.
Qed.
(** If the checker has followed every jump, the vector ends: it takes fewer
    instructions than the analysis took steps. *)
Theorem C91_vector_ends evs fuel l h a sig s0 n s d :
  type_check fuel evs = Some (Verdict true l) -> ~ In RRepeat l -> analysis_of evs h ->
  routine_with h a sig -> g_type sig = Vector ->
  (forall k x, seen h a k x -> tidy x) ->
  s_pc W s0 = a -> byte_cells s0 ->
  run (program evs) (routine_at h) s0 (at_start sig) n s d ->
  (n < fuel)%nat /\ opcode_at evs (s_pc W s) /\ (forall r, 0 <= d r <= 249) /\
  (forall s', step s = Ok (true, s') -> operand_bytes (opcode s) <= d (on_return (opcode s))) /\
  (forall s', step s = Ok (false, s') -> forall r, d r = at_end sig r).
Proof.
  intros V NRep An Rw Ve Td Pc Bc H. destruct (on_path_bound evs fuel l h a sig s0 V An Rw Ve Td Pc Bc n s d NRep H) as (k & Lk & P).
  split; [|eapply path_facts; eauto]. destruct P as (x & (E & _) & _). destruct (facts_of evs fuel l h V An) as (K0 & P0 & Er & hF & m & Fin & El & NoE).
  destruct (before_end h hF fuel Fin k _ E eq_refl) as [L _]. lia.
Qed.
(** The code at 0100 is such a vector, without values before and after it, if
    it has no signature. *)
Theorem C91_start_is_a_vector evs h z :
  read_symbols (reader0 (program evs)) evs = Some z -> h = add_reset (z_h z) ->
  match h_infos (z_h z) 256 with Some i => i_sig i = None | None => True end ->
  routine_with h 256 reset_sig /\ g_type reset_sig = Vector /\ forall r, at_start reset_sig r = 0 /\ at_end reset_sig r = 0.
Proof.
  intros R -> N. split; [|split; [reflexivity|intros [|]; split; reflexivity]].
  unfold add_reset, ensure_info. destruct (h_infos (z_h z) 256) as [[rt [g|] m t e]|] eqn:E; cbv zeta; [discriminate N| |].
  - rewrite E. split; [left; reflexivity|]. cbn. unfold upd_info. rewrite Z.eqb_refl. eauto.
  - cbn [h_infos]. unfold upd_info at 1. rewrite Z.eqb_refl. unfold info0. split; [left; reflexivity|]. cbn. unfold upd_info. rewrite Z.eqb_refl. eauto.
Qed.
End Sound.
Print Assumptions C91_vector_keeps_its_signature.
Print Assumptions C91_vector_ends.
Print Assumptions C91_start_is_a_vector.

(** ** The cases are not empty *)
(** The conditions on the analysis can be computed. *)
Definition in_rangeb (v : value) : bool := negb (v_const v) || (0 <=? v_val v) && (v_val v <? if v_short v then 65536 else 256).
Definition tidyb (x : ctx) : bool :=
  forallb (fun r => forallb in_rangeb (vals (astack r x)) && forallb (half_okb (x_h x)) (vals (astack r x)) &&
    (width (vals (astack r x)) <=? 249) && (k_size (astack r x) <=? 249)) [false; true] &&
  match h_casts (x_h x) (x_pc x), dispatch (h_rom (x_h x) (x_pc x)) with
  | Some _, Some l => match run_label l (fetch_op (h_rom (x_h x) (x_pc x)) x) with
    | COk (_, y) => negb (x_term y) && forallb (fun r => forallb in_rangeb (vals (astack r y))) [false; true]
    | CFault _ => true
    end
  | _, _ => true
  end.
Lemma in_rangeb_ok l : forallb in_rangeb l = true -> Forall in_range l.
Proof.
  intros H. apply Forall_forall. intros v Hv C. rewrite forallb_forall in H. specialize (H v Hv). unfold in_rangeb in H. rewrite C in H. cbn [negb orb] in H. lia.
Qed.
Lemma tidyb_ok x : tidyb x = true -> tidy x.
Proof.
  unfold tidyb. intros H. apply andb_prop in H as [H H1]. rewrite forallb_forall in H.
  assert (A : forall r, In r [false; true]) by (intros [|]; cbn; auto).
  assert (B : forall r, forallb in_rangeb (vals (astack r x)) = true /\ forallb (half_okb (x_h x)) (vals (astack r x)) = true /\ width (vals (astack r x)) <= 249 /\ k_size (astack r x) <= 249).
  { intros r. specialize (H r (A r)). apply andb_prop in H as [H H4]. apply andb_prop in H as [H H3]. apply andb_prop in H as [H H2]. repeat split; auto; lia. }
  split; [intros r; apply in_rangeb_ok, B|split; [apply halves_ok; intros r; apply B|split; [intros r; split; apply B|]]].
  destruct (h_casts _ _) as [c|]; [|left; reflexivity]. right. intros y (l & D & E). rewrite D, E in H1. apply andb_prop in H1 as [H1 H2].
  split; [destruct (x_term y); [discriminate H1|reflexivity]|]. rewrite forallb_forall in H2. intros r. apply in_rangeb_ok, H2, A.
Qed.
(** The states of the checker on the paths of [a], in the first [n] steps. *)
Fixpoint states (n : nat) (a : Z) (c : config) : list ctx :=
  match n with
  | O => []
  | S n => match c with Running x => if negb (x_term x) && (x_info x =? a) then [x] else [] | _ => [] end ++ states n a (cstep c)
  end.
Lemma states_all n a : forall c k x, at_rest (csteps n c) = true -> csteps k c = Running x -> x_term x = false -> x_info x = a -> In x (states n a c).
Proof.
  induction n as [|n IH]; intros c k x R E T I.
  - exfalso. cbn in R. rewrite rest_stays in E by exact R. subst c. discriminate R.
  - cbn [states]. apply in_or_app. destruct k as [|k].
    + cbn in E. subst c. left. rewrite T, I, Z.eqb_refl. left. reflexivity.
    + right. eapply IH; [exact R|exact E|exact T|exact I].
Qed.
Lemma states_seen n a : forall c x, In x (states n a c) -> exists k, csteps k c = Running x /\ x_term x = false /\ x_info x = a.
Proof.
  induction n as [|n IH]; intros c x H; [contradiction|]. cbn [states] in H. apply in_app_or in H as [H|H].
  - destruct c as [g|y|g|f]; try contradiction. destruct (negb (x_term y) && (x_info y =? a)) eqn:Q; [|contradiction]. destruct H as [->|[]].
    exists 0%nat. apply andb_prop in Q as [Q1 Q2]. split; [reflexivity|]. split; [destruct (x_term x); [discriminate|reflexivity]|lia].
  - destruct (IH _ _ H) as (k & K). exists (S k). exact K.
Qed.
Definition is_repeat (r : report) : bool := match r with RRepeat => true | _ => false end.
Fixpoint all2 {A B} (f : A -> B -> bool) (l : list A) (m : list B) : bool :=
  match l, m with [], [] => true | x :: l, y :: m => f x y && all2 f l m | _, _ => false end.
Lemma all2_ok {A B} (f : A -> B -> bool) (P : A -> B -> Prop) : (forall x y, f x y = true -> P x y) -> forall l m, all2 f l m = true -> Forall2 P l m.
Proof. intros H. induction l as [|x l IH]; intros [|y m] E; try discriminate E; constructor; cbn in E; apply andb_prop in E as [E1 E2]; auto. Qed.
Definition looserb (k1 k2 : ChessModel.stack) : bool :=
  (k_size k2 =? k_size k1) && all2 (fun v w => Bool.eqb (v_short w) (v_short v) && (negb (v_const w) || v_const v && (v_val v =? v_val w))) (vals k1) (vals k2).
Lemma looserb_ok k1 k2 : looserb k1 k2 = true -> looser k1 k2.
Proof.
  unfold looserb. intros H. apply andb_prop in H as [H1 H2]. split; [lia|]. revert H2. apply all2_ok. intros v w H. apply andb_prop in H as [H2 H3].
  split; [apply Bool.eqb_prop, H2|]. intros C. rewrite C in H3. cbn [negb orb] in H3. apply andb_prop in H3 as [H3 H4]. split; [exact H3|lia].
Qed.
Definition coveredb (l : list ctx) : bool :=
  forallb (fun x => match exec_op x with
    | COk (_, x') =>
        negb (existsb is_repeat (skipn (List.length (h_reports (x_h x))) (h_reports (x_h x')))) ||
        existsb (fun y => (x_pc y =? x_pc x') && forallb (fun r => looserb (astack r x') (astack r y)) [false; true]) l
    | CFault _ => true
    end) l.
Definition analysis_good (n : nat) (a : Z) (h : chess) : bool :=
  let l := states n a (Idle h) in
  at_rest (csteps n (Idle h)) && forallb tidyb l && coveredb l.
Lemma analysis_good_ok n a h : analysis_good n a h = true -> (forall k x, seen h a k x -> tidy x) /\ repeats_covered h a.
Proof.
  unfold analysis_good. cbv zeta. intros H. apply andb_prop in H as [H H3]. apply andb_prop in H as [H1 H2].
  assert (A : forall k x, seen h a k x -> In x (states n a (Idle h))) by (intros k x (E & T & I); eapply states_all; eauto).
  split.
  - intros k x S. apply tidyb_ok. rewrite forallb_forall in H2. apply H2. eapply A, S.
  - intros k x x' l S Ex R I. unfold coveredb in H3. rewrite forallb_forall in H3. specialize (H3 x (A _ _ S)). rewrite Ex, R, skipn_app, Nat.sub_diag, skipn_all in H3. cbn [app skipn] in H3.
    replace (existsb is_repeat l) with true in H3 by (symmetry; apply existsb_exists; exists RRepeat; auto). cbn [negb orb] in H3.
    apply existsb_exists in H3 as (y & Y1 & Y2). apply andb_prop in Y2 as [Y2 Y3]. destruct (states_seen _ _ _ _ Y1) as (k2 & Y4).
    exists k2, y. split; [exact Y4|]. split; [lia|]. intros r. apply looserb_ok. rewrite forallb_forall in Y3. apply Y3. destruct r; cbn; auto.
Qed.

(** A run that can be computed. *)
Section Computed.
Variable W : Type.
Variable dei : Z -> vm -> W -> res (Z * vm * W).
Variable deo : Z -> vm -> W -> res (vm * W).
Definition in_codeb (rom : Z -> Z) (s : st W) : bool :=
  (0 <=? s_pc W s) && (s_pc W s <? 65536) &&
  forallb (fun i => let b := vm_mem (s_vm W s) ((s_pc W s + i) mod 65536) in (b =? rom ((s_pc W s + i) mod 65536)) && (0 <=? b) && (b <? 256)) [0; 1; 2].
Lemma in_codeb_ok rom s : in_codeb rom s = true -> in_code W rom s.
Proof using W.
  clear dei deo.
  unfold in_codeb. intros H. apply andb_prop in H as [H H1]. split; [lia|]. intros i Hi. rewrite forallb_forall in H1.
  assert (In i [0; 1; 2]) as I by (cbn; lia). specialize (H1 _ I). cbv zeta in H1. unfold is_byte. lia.
Qed.
Definition routineb (h : chess) (a : Z) : bool := match h_infos h a with Some (mkInfo true (Some _) _ _ _) => true | _ => false end.
Lemma routineb_ok h a : routineb h a = false -> ~ routine_at h a.
Proof using. clear dei deo. unfold routineb. intros H (sig & m & t & e & E). rewrite E in H. discriminate H. Qed.
Fixpoint runs_on (h : chess) (rom : Z -> Z) (n : nat) (s : st W) (dw dr : Z) : option (st W * Z * Z) :=
  if in_codeb rom s then
    match n with
    | O => Some (s, dw, dr)
    | S n => match VmModel.step W dei deo true s with
      | Ok (true, s') => if routineb h (s_pc W s') then None
          else runs_on h rom n s' (dw + shifted (pointer false s) (pointer false s')) (dr + shifted (pointer true s) (pointer true s'))
      | _ => None
      end
    end
  else None.
Lemma runs_on_ok h rom s0 d0 n : forall k s d s' dw' dr' dw dr, run W dei deo true rom (routine_at h) s0 d0 k s d -> (forall r, d r = if r then dr else dw) ->
  runs_on h rom n s dw dr = Some (s', dw', dr') -> exists d', run W dei deo true rom (routine_at h) s0 d0 (k + n) s' d' /\ forall r, d' r = if r then dr' else dw'.
Proof.
  induction n as [|n IH]; intros k s d s' dw' dr' dw dr R D E; cbn [runs_on] in E; destruct (in_codeb rom s) eqn:Ic; try discriminate E.
  - assert (Ei : s' = s /\ dw' = dw /\ dr' = dr) by (inversion E; auto). destruct Ei as (-> & -> & ->). exists d. rewrite Nat.add_0_r. auto.
  - destruct (VmModel.step W dei deo true s) as [[[|] t]|] eqn:St; try discriminate E. destruct (routineb h (s_pc W t)) eqn:Rt; [discriminate E|].
    replace (k + S n)%nat with (S k + n)%nat by lia. eapply IH; [|..|exact E].
    + eapply run_step; [exact R|exact St| |apply routineb_ok, Rt]. destruct n; cbn [runs_on] in E; (destruct (in_codeb rom t) eqn:It; [apply in_codeb_ok, It|discriminate E]).
    + intros [|]; cbn [pointer]; rewrite D; reflexivity.
Qed.
End Computed.

(** A program that installs a vector.  The vector reads a byte, says what it is
    with a cast, doubles it with a routine without a signature, and counts down
    to zero. *)
Definition looping : str := bytes ";key #80 DEO2 BRK @key ( -> ) #82 DEI ( Count ! ) dbl &loop #01 SUB DUP ?&loop POP BRK @dbl DUP ADD JMP2r".
Definition looping_evs : list event := Eval vm_compute in evs_of looping.
Definition looping_h : chess := match read_symbols (reader0 (program looping_evs)) looping_evs with Some z => add_reset (z_h z) | None => chess_begin (fun _ => 0) end.
Definition one_dei (a : Z) (v : vm) (w : list (Z * Z)) : res (Z * vm * list (Z * Z)) := Ok (1, v, w).
Definition key_at : Z := 263.
Definition key_sig : signature := mkSig [] [] [] [] Vector.
Example C91_case :
  assembles (one looping) (bytes "a") true looping_evs /\
  (exists l, type_check 100 looping_evs = Some (Verdict true l) /\ In RRepeat l) /\
  analysis_of looping_evs looping_h /\ routine_with looping_h key_at key_sig /\ g_type key_sig = Vector /\
  (exists k x, seen looping_h key_at k x /\ h_casts (x_h x) (x_pc x) <> None) /\
  (forall k x, seen looping_h key_at k x -> tidy x) /\ repeats_covered looping_h key_at /\
  aloof _ one_dei note /\
  let s0 := machine_at looping_evs key_at (fun _ => 0) 7 in
  s_pc _ s0 = key_at /\ byte_cells s0 /\
  exists s d, run _ one_dei note true (program looping_evs) (routine_at looping_h) s0 (at_start key_sig) 15 s d /\
    (forall r, d r = 0) /\ exists s', VmModel.step _ one_dei note true s = Ok (false, s').
Proof.
  split; [assembled|]. split; [eexists; split; [vm_compute; reflexivity|vm_compute; auto 20]|].
  split; [unfold analysis_of, looping_h; destruct (read_symbols (reader0 (program looping_evs)) looping_evs) as [z|] eqn:E; [exists z; auto|vm_compute in E; discriminate E]|].
  split; [split; [vm_compute; auto|do 3 eexists; vm_compute; reflexivity]|]. split; [reflexivity|].
  assert (G : analysis_good 100 key_at looping_h = true) by (vm_compute; reflexivity). apply analysis_good_ok in G as [G1 G2].
  split.
  { destruct (csteps 8 (Idle looping_h)) as [|x| |] eqn:Q; try (vm_compute in Q; discriminate Q).
    assert (Y : match csteps 8 (Idle looping_h) with Running x => negb (x_term x) && (x_info x =? key_at) && match h_casts (x_h x) (x_pc x) with Some _ => true | None => false end | _ => false end = true) by (vm_compute; reflexivity).
    rewrite Q in Y. apply andb_prop in Y as [Y Y3]. apply andb_prop in Y as [Y1 Y2]. exists 8%nat, x.
    split; [split; [exact Q|split; [destruct (x_term x); [discriminate Y1|reflexivity]|lia]]|destruct (h_casts _ _); [discriminate|discriminate Y3]]. }
  split; [exact G1|]. split; [exact G2|].
  split; [split; intros; [unfold one_dei in H|unfold note in H]; inversion H; subst; repeat split|].
  cbv zeta. split; [reflexivity|]. split; [intros [|] i; cbn; unfold is_byte; lia|].
  destruct (runs_on _ one_dei note looping_h (program looping_evs) 15 (machine_at looping_evs key_at (fun _ => 0) 7) 0 0) as [[[s dw] dr]|] eqn:E; [|vm_compute in E; discriminate E].
  assert (X : dw = 0 /\ dr = 0 /\ match VmModel.step _ one_dei note true s with Ok (false, _) => true | _ => false end = true).
  { assert (Y : match runs_on _ one_dei note looping_h (program looping_evs) 15 (machine_at looping_evs key_at (fun _ => 0) 7) 0 0 with
       Some (s, dw, dr) => (dw =? 0) && (dr =? 0) && match VmModel.step _ one_dei note true s with Ok (false, _) => true | _ => false end | None => false end = true) by (vm_compute; reflexivity).
    rewrite E in Y. apply andb_prop in Y as [Y Y3]. apply andb_prop in Y as [Y1 Y2]. repeat split; [lia|lia|exact Y3]. }
  destruct X as (-> & -> & X).
  assert (R0 : run _ one_dei note true (program looping_evs) (routine_at looping_h) (machine_at looping_evs key_at (fun _ => 0) 7) (at_start key_sig) 0 (machine_at looping_evs key_at (fun _ => 0) 7) (at_start key_sig))
    by (apply run_start; apply in_codeb_ok; vm_compute; reflexivity).
  destruct (runs_on_ok _ one_dei note looping_h _ _ _ 15 0 _ _ _ _ _ 0 0 R0 ltac:(intros [|]; reflexivity) E) as (d & R & D). exists s, d. split; [exact R|]. split; [intros [|]; apply D|].
  destruct (VmModel.step _ one_dei note true s) as [[[|] s']|]; try discriminate X. eauto.
Qed.

(** A program without loops: the start itself, with both sides of a branch. *)
Definition forking : str := bytes "#82 DEI ?{ #01 POP BRK } #0203 POP2 BRK".
Definition forking_evs : list event := Eval vm_compute in evs_of forking.
Definition forking_h : chess := match read_symbols (reader0 (program forking_evs)) forking_evs with Some z => add_reset (z_h z) | None => chess_begin (fun _ => 0) end.
Example C91_ends_case :
  assembles (one forking) (bytes "a") true forking_evs /\
  (exists l, type_check 30 forking_evs = Some (Verdict true l) /\ ~ In RRepeat l) /\
  analysis_of forking_evs forking_h /\ routine_with forking_h 256 reset_sig /\
  (forall k x, seen forking_h 256 k x -> tidy x) /\
  let s0 := machine_at forking_evs 256 (fun _ => 0) 0 in
  s_pc _ s0 = 256 /\ byte_cells s0 /\
  exists s d, run _ one_dei note true (program forking_evs) (routine_at forking_h) s0 (at_start reset_sig) 5 s d /\
    exists s', VmModel.step _ one_dei note true s = Ok (false, s').
Proof.
  split; [assembled|]. split; [eexists; split; [vm_compute; reflexivity|intros Hc; vm_compute in Hc; repeat destruct Hc as [Hc|Hc]; try discriminate Hc; contradiction]|].
  split; [unfold analysis_of, forking_h; destruct (read_symbols (reader0 (program forking_evs)) forking_evs) as [z|] eqn:E; [exists z; auto|vm_compute in E; discriminate E]|].
  split; [unfold forking_h; destruct (read_symbols (reader0 (program forking_evs)) forking_evs) as [z|] eqn:E; [|vm_compute in E; discriminate E]; eapply C91_start_is_a_vector;
    [exact E|reflexivity|assert (Y : match read_symbols (reader0 (program forking_evs)) forking_evs with Some z => match h_infos (z_h z) 256 with None => true | _ => false end | None => false end = true) by (vm_compute; reflexivity);
     rewrite E in Y; destruct (h_infos (z_h z) 256); [discriminate Y|exact Logic.I]]|].
  assert (G : analysis_good 40 256 forking_h = true) by (vm_compute; reflexivity). apply analysis_good_ok in G as [G1 _].
  split; [exact G1|]. cbv zeta. split; [reflexivity|]. split; [intros [|] i; cbn; unfold is_byte; lia|].
  destruct (runs_on _ one_dei note forking_h (program forking_evs) 5 (machine_at forking_evs 256 (fun _ => 0) 0) 0 0) as [[[s dw] dr]|] eqn:E; [|vm_compute in E; discriminate E].
  assert (X : match VmModel.step _ one_dei note true s with Ok (false, _) => true | _ => false end = true).
  { assert (Y : match runs_on _ one_dei note forking_h (program forking_evs) 5 (machine_at forking_evs 256 (fun _ => 0) 0) 0 0 with
       Some (s, dw, dr) => match VmModel.step _ one_dei note true s with Ok (false, _) => true | _ => false end | None => false end = true) by (vm_compute; reflexivity).
    rewrite E in Y. exact Y. }
  assert (R0 : run _ one_dei note true (program forking_evs) (routine_at forking_h) (machine_at forking_evs 256 (fun _ => 0) 0) (at_start reset_sig) 0 (machine_at forking_evs 256 (fun _ => 0) 0) (at_start reset_sig))
    by (apply run_start; apply in_codeb_ok; vm_compute; reflexivity).
  destruct (runs_on_ok _ one_dei note forking_h _ _ _ 5 0 _ _ _ _ _ 0 0 R0 ltac:(intros [|]; reflexivity) E) as (d & R & D). exists s, d. split; [exact R|].
  destruct (VmModel.step _ one_dei note true s) as [[[|] s']|]; try discriminate X. eauto.
Qed.
