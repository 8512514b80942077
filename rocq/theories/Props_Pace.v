(** Property C113: the pace of the GUI, and its standard input. *)
From Verif Require Import Base PaceModel.
From Coq Require Import QArith Qround Lqa Lia ZArith.
Open Scope Q_scope.

(** ** The pace *)
Definition total (l : list Q) : Q := fold_right Qplus 0 l.
Definition updates_in (l : list (nat * bool)) : nat := fold_right (fun x n => (fst x + n)%nat) O l.
Definition sixtieth : Q := 50000 # 3.

Lemma frame_time : FRAME_TIME == sixtieth.
Proof. reflexivity. Qed.
Lemma due_some : forall n accum, 0 <= accum -> accum < inject_Z (Z.of_nat n) * FRAME_TIME ->
  exists m a, run_due n accum = Some (m, a) /\ accum == inject_Z (Z.of_nat m) * FRAME_TIME + a /\ 0 <= a < FRAME_TIME.
Proof.
  pose proof frame_time as FT. unfold sixtieth in FT. induction n as [|n IH]; intros accum A B.
  - change (inject_Z (Z.of_nat 0)) with 0 in B. lra.
  - cbn [run_due]. destruct (Qle_bool FRAME_TIME accum) eqn:E.
    + apply Qle_bool_iff in E. rewrite Nat2Z.inj_succ in B. unfold Z.succ in B. rewrite inject_Z_plus in B. change (inject_Z 1) with 1 in B.
      destruct (IH (accum - FRAME_TIME)) as (m & a & R & S' & T); [lra|lra|]. rewrite R. exists (S m), a. split; [reflexivity|]. split; [|exact T].
      rewrite Nat2Z.inj_succ. unfold Z.succ. rewrite inject_Z_plus. change (inject_Z 1) with 1. lra.
    + exists O, accum. split; [reflexivity|]. change (inject_Z (Z.of_nat 0)) with 0. split; [lra|]. split; [exact A|]. apply Qnot_le_lt. intros X. apply Qle_bool_iff in X. congruence.
Qed.
Lemma due_more : forall n k accum x, run_due n accum = Some x -> run_due (n + k) accum = Some x.
Proof.
  induction n as [|n IH]; intros k accum x R; [discriminate R|]. cbn [run_due Nat.add] in *. destruct (Qle_bool _ _); [|exact R].
  destruct (run_due n _) as [[m a]|] eqn:E; [|discriminate R]. rewrite (IH k _ _ E). exact R.
Qed.
Lemma due_is : forall fuel accum n a, run_due fuel accum = Some (n, a) -> accum == inject_Z (Z.of_nat n) * FRAME_TIME + a /\ a < FRAME_TIME /\ (FRAME_TIME <= accum <-> (0 < n)%nat).
Proof.
  induction fuel as [|fuel IH]; intros accum n a R; [discriminate R|]. cbn [run_due] in R. destruct (Qle_bool FRAME_TIME accum) eqn:E.
  - destruct (run_due fuel _) as [[m b]|] eqn:X; [|discriminate R]. injection R as <- <-. destruct (IH _ _ _ X) as (A & B & _). apply Qle_bool_iff in E.
    split; [|split; [exact B|split; [lia|intros _; exact E]]]. rewrite Nat2Z.inj_succ. unfold Z.succ. rewrite inject_Z_plus. change (inject_Z 1) with 1. lra.
  - injection R as <- <-. change (inject_Z (Z.of_nat 0)) with 0. split; [lra|]. assert (L : accum < FRAME_TIME) by (apply Qnot_le_lt; intros X; apply Qle_bool_iff in X; congruence).
    split; [exact L|]. split; [lra|lia].
Qed.
(** Every frame ends: however long it is since the last one, some number of
    rounds of the loop is enough. *)
Theorem C113_ends : forall accum diff, 0 <= accum -> 0 <= diff -> exists fuel n r a, pace fuel accum diff = Some (n, r, a) /\ 0 <= a < sixtieth.
Proof.
  intros accum diff A D. pose proof frame_time as FT. unfold sixtieth in *. set (f := Z.to_nat (Qceiling (accum + diff) + 1)).
  assert (C : accum + diff < inject_Z (Z.of_nat f) * FRAME_TIME).
  { pose proof (Qle_ceiling (accum + diff)) as C. assert (P : (0 <= Qceiling (accum + diff))%Z) by (change 0%Z with (Qceiling (inject_Z 0)); apply Qceiling_resp_le; change (inject_Z 0) with 0; lra).
    unfold f. rewrite Z2Nat.id by lia. rewrite inject_Z_plus. change (inject_Z 1) with 1. rewrite FT.
    assert (Q0 : 0 <= inject_Z (Qceiling (accum + diff))) by lra. lra. }
  destruct (due_some f (accum + diff)) as (m & a & R & _ & T); [lra|exact C|]. exists f. unfold pace. cbv zeta. rewrite R. eexists _, _, _. split; [reflexivity|]. lra.
Qed.
Print Assumptions C113_ends.

Lemma floor_is : forall q z, inject_Z z <= q -> q < inject_Z z + 1 -> Qfloor q = z.
Proof.
  intros q z A B. pose proof (Qfloor_le q) as F. pose proof (Qlt_floor q) as G. rewrite inject_Z_plus in G. change (inject_Z 1) with 1 in G.
  assert (X : (Qfloor q < z + 1)%Z). { rewrite Zlt_Qlt. rewrite inject_Z_plus. change (inject_Z 1) with 1. lra. }
  assert (Y : (z < Qfloor q + 1)%Z). { rewrite Zlt_Qlt. rewrite inject_Z_plus. change (inject_Z 1) with 1. lra. }
  lia.
Qed.
Lemma paces_is : forall fuel l accum ns a, paces fuel accum l = Some (ns, a) ->
  accum + total l == inject_Z (Z.of_nat (updates_in ns)) * FRAME_TIME + a /\ List.length ns = List.length l.
Proof.
  intros fuel. induction l as [|d l IH]; intros accum ns a R; cbn [paces] in R.
  - injection R as <- <-. cbn [updates_in total fold_right]. change (inject_Z (Z.of_nat 0)) with 0. split; [lra|reflexivity].
  - destruct (pace fuel accum d) as [[[n r] b]|] eqn:P; [|discriminate R]. destruct (paces fuel b l) as [[ns' a']|] eqn:Q; [|discriminate R]. injection R as <- <-.
    unfold pace in P. destruct (run_due fuel (accum + d)) as [[m c]|] eqn:D; [|discriminate P]. injection P as -> <- ->.
    destruct (due_is _ _ _ _ D) as (A & _ & _). destruct (IH _ _ _ Q) as (B & L). change (total (d :: l)) with (d + total l). match goal with |- context [updates_in (?x :: ns')] => change (updates_in (x :: ns')) with (fst x + updates_in ns')%nat end. cbn [fst].
    split; [|cbn [List.length]; rewrite L; reflexivity]. rewrite Nat2Z.inj_add, inject_Z_plus. lra.
Qed.
Lemma paces_left : forall fuel l accum ns a, l <> nil -> paces fuel accum l = Some (ns, a) -> a < FRAME_TIME.
Proof.
  intros fuel. induction l as [|d l IH]; intros accum ns a N R; [contradiction|]. cbn [paces] in R.
  destruct (pace fuel accum d) as [[[n r] b]|] eqn:P; [|discriminate R]. destruct (paces fuel b l) as [[ns' a']|] eqn:Q; [|discriminate R]. injection R as <- <-.
  unfold pace in P. destruct (run_due fuel (accum + d)) as [[m c]|] eqn:D; [|discriminate P]. injection P as -> <- ->.
  destruct l as [|e l]; [|eapply IH; [discriminate|exact Q]]. injection Q as _ <-. apply (due_is _ _ _ _ D).
Qed.
Lemma due_nonneg : forall fuel accum n a, 0 <= accum -> run_due fuel accum = Some (n, a) -> 0 <= a.
Proof.
  induction fuel as [|fuel IH]; intros accum n a A R; [discriminate R|]. cbn [run_due] in R. destruct (Qle_bool FRAME_TIME accum) eqn:E.
  - destruct (run_due fuel _) as [[m b]|] eqn:X; [|discriminate R]. injection R as <- <-. apply Qle_bool_iff in E. apply (fun A' => IH _ _ _ A' X). lra.
  - injection R as <- <-. exact A.
Qed.
Lemma paces_nonneg : forall fuel l accum ns a, 0 <= accum -> Forall (Qle 0) l -> paces fuel accum l = Some (ns, a) -> 0 <= a.
Proof.
  intros fuel. induction l as [|d l IH]; intros accum ns a A F R; cbn [paces] in R.
  - injection R as <- <-. exact A.
  - inversion F as [|x y D F']; subst. destruct (pace fuel accum d) as [[[n r] b]|] eqn:P; [|discriminate R]. destruct (paces fuel b l) as [[ns' a']|] eqn:Q; [|discriminate R]. injection R as <- <-.
    unfold pace in P. destruct (run_due fuel (accum + d)) as [[m c]|] eqn:E; [|discriminate P]. injection P as -> <- ->. apply (IH b ns' a'); [|exact F'|exact Q].
    apply (fun A' => due_nonneg _ _ _ _ A' E). lra.
Qed.
(** However the time is divided into frames, the screen vector has been due once
    at the start and then once for every full sixtieth of a second; nothing is
    lost or made up by late or early frames. *)
Theorem C113_pace : forall fuel l ns a, Forall (Qle 0) l -> l <> nil -> paces fuel accum0 l = Some (ns, a) ->
  Z.of_nat (updates_in ns) = (1 + Qfloor (total l / sixtieth))%Z /\ List.length ns = List.length l.
Proof.
  intros fuel l ns a F N R. pose proof frame_time as FT. destruct (paces_is _ _ _ _ _ R) as (E & L). split; [|exact L].
  pose proof (paces_left _ _ _ _ _ N R) as B. assert (A0 : 0 <= accum0) by (vm_compute; discriminate). pose proof (paces_nonneg _ _ _ _ _ A0 F R) as A.
  unfold accum0 in E. rewrite FT in E, B. unfold sixtieth in *.
  assert (X : Qfloor (total l / (50000 # 3)) = (Z.of_nat (updates_in ns) - 1)%Z); [|lia]. apply floor_is.
  - apply Qle_shift_div_l; [reflexivity|]. unfold Z.sub. rewrite inject_Z_plus. change (inject_Z (- (1))) with (-1). lra.
  - apply Qlt_shift_div_r; [reflexivity|]. unfold Z.sub. rewrite inject_Z_plus. change (inject_Z (- (1))) with (-1). lra.
Qed.
Print Assumptions C113_pace.
(** The screen is drawn in exactly the frames with an update. *)
Theorem C113_drawn : forall fuel l accum ns a, paces fuel accum l = Some (ns, a) -> Forall (fun x => snd x = true <-> (0 < fst x)%nat) ns.
Proof.
  intros fuel. induction l as [|d l IH]; intros accum ns a R; cbn [paces] in R; [injection R as <- _; constructor|].
  destruct (pace fuel accum d) as [[[n r] b]|] eqn:P; [|discriminate R]. destruct (paces fuel b l) as [[ns' a']|] eqn:Q; [|discriminate R]. injection R as <- <-.
  constructor; [|apply (IH _ _ _ Q)]. unfold pace in P. destruct (run_due fuel (accum + d)) as [[m c]|] eqn:D; [|discriminate P]. injection P as -> <- ->. cbn [fst snd].
  rewrite Qle_bool_iff. apply (due_is _ _ _ _ D).
Qed.
Print Assumptions C113_drawn.
(** There is no limit to what a frame makes up for: after a break of [n]
    sixtieths (the computer was asleep) the vector is run [n] times in a row. *)
Theorem C113_bounded_refuted : forall n, exists fuel r a, pace fuel 0 (inject_Z (Z.of_nat n) * sixtieth) = Some (n, r, a).
Proof.
  intros n. assert (P : 0 <= inject_Z (Z.of_nat n)) by (change 0 with (inject_Z 0); rewrite <- Zle_Qle; lia). pose proof frame_time as FT.
  destruct (C113_ends 0 (inject_Z (Z.of_nat n) * sixtieth)) as (fuel & m & r & a & E & A); [lra|unfold sixtieth; lra|]. exists fuel, r, a. rewrite E.
  unfold pace in E. destruct (run_due fuel _) as [[m' a']|] eqn:D; [|discriminate E]. injection E as -> _ ->. destruct (due_is _ _ _ _ D) as (B & _ & _). rewrite FT in B.
  assert (X : Qfloor (inject_Z (Z.of_nat n)) = Z.of_nat m). { unfold sixtieth in *. apply floor_is; lra. } rewrite Qfloor_Z in X. apply Nat2Z.inj in X. subst m. reflexivity.
Qed.
Print Assumptions C113_bounded_refuted.

(** ** Standard input *)
Close Scope Q_scope.
Open Scope Z_scope.
Open Scope list_scope.
(** The bytes read, all of them, in order. *)
Definition sends (reads : list (list Z)) : list sent := map Input (List.concat reads).
Definition all_read (reads : list (list Z)) : Prop := Forall (fun l => l <> []) reads.
Lemma input_reads : forall reads rest, all_read reads ->
  frame_input false (map Bytes reads ++ rest) = match frame_input false rest with Through out c r => Through (sends reads ++ out) c r | Busy out => Busy (sends reads ++ out) end.
Proof.
  induction reads as [|l reads IH]; intros rest A; [cbn [map List.app]; destruct (frame_input false rest); reflexivity|].
  inversion A as [|x y N A']; subst. cbn [map List.app frame_input poll_stdin].
  assert (P : 0 < Z.of_nat (List.length l)) by (destruct l; [contradiction|cbn [List.length]; lia]).
  rewrite (proj2 (Z.eqb_neq (Z.of_nat (List.length l)) 0)) by lia. rewrite (proj2 (Z.eqb_neq (Z.of_nat (List.length l)) 0)) by lia. rewrite (proj2 (Z.ltb_ge (Z.of_nat (List.length l)) 0)) by lia.
  rewrite Nat2Z.id, firstn_all, (IH rest A'). unfold sends. cbn [List.concat]. rewrite map_app.
  destruct (frame_input false rest); rewrite <- app_assoc; reflexivity.
Qed.
(** A frame sends everything that there is to read, in order, and goes on when
    there is nothing more. *)
Theorem C113_input : forall reads rest, all_read reads ->
  frame_input false (map Bytes reads ++ Nothing :: rest) = Through (sends reads) false rest.
Proof. intros reads rest A. rewrite input_reads by exact A. cbn. rewrite app_nil_r. reflexivity. Qed.
Print Assumptions C113_input.
(** At the end of the input, or if reading fails, the program is told the end. *)
Theorem C113_end : forall reads rest e, all_read reads -> e = Bytes [] \/ e = Fails ->
  frame_input false (map Bytes reads ++ e :: rest) = Through (sends reads ++ [InputEnd]) true rest.
Proof. intros reads rest e A [-> | ->]; rewrite input_reads by exact A; reflexivity. Qed.
Print Assumptions C113_end.

Lemma frame_shape : forall closed answers, match frame_input closed answers with
  | Through out c rest => (exists l, out = map Input l ++ (if closed then [] else if c then [InputEnd] else [])) /\ (closed = true -> out = [] /\ c = true /\ rest = answers)
  | Busy out => closed = false /\ exists l, out = map Input l end.
Proof.
  intros closed answers. revert closed. induction answers as [|a answers IH]; intros closed; cbn [frame_input]; destruct closed; auto.
  - split; [exists []; reflexivity|auto].
  - split; [reflexivity|exists []; reflexivity].
  - split; [exists []; reflexivity|auto].
  - destruct (poll_stdin a) as [n buf]. destruct (n =? 0); [split; [exists []; reflexivity|discriminate]|]. destruct (n <? 0); [split; [eexists; reflexivity|discriminate]|].
    specialize (IH false). destruct (frame_input false answers) as [out c rest|out].
    + destruct IH as [(l & ->) _]. split; [|discriminate]. eexists. rewrite app_assoc, <- map_app. reflexivity.
    + destruct IH as [_ (l & ->)]. split; [reflexivity|]. eexists. rewrite <- map_app. reflexivity.
Qed.
(** In any number of frames, whatever the system answers, what a program gets is
    bytes and then, at most once and at last, the end. *)
Theorem C113_once : forall k answers, exists l, fst (frames_input k false answers) = map Input l ++ (if snd (frames_input k false answers) then [InputEnd] else []).
Proof.
  assert (C : forall k answers, frames_input k true answers = ([], true)).
  { induction k as [|k IH]; intros answers; [reflexivity|]. cbn [frames_input]. destruct answers; cbn [frame_input]; rewrite IH; reflexivity. }
  induction k as [|k IH]; intros answers; [exists []; reflexivity|]. cbn [frames_input]. pose proof (frame_shape false answers) as F.
  destruct (frame_input false answers) as [out c rest|out].
  - destruct F as [(l & ->) _]. destruct c.
    + rewrite C. cbn [fst snd]. rewrite app_nil_r. exists l. reflexivity.
    + destruct (IH rest) as (l' & E). destruct (frames_input k false rest) as [s c]. cbn [fst snd] in *. subst s. exists (l ++ l'). rewrite app_nil_r, app_assoc, <- map_app. reflexivity.
  - destruct F as [_ (l & ->)]. exists l. cbn [fst snd]. rewrite app_nil_r. reflexivity.
Qed.
Print Assumptions C113_once.
(** After the end the system is not asked again. *)
Theorem C113_closed : forall answers, frame_input true answers = Through [] true answers.
Proof. intros [|a answers]; reflexivity. Qed.
Print Assumptions C113_closed.

(** As long as there is input the frame does not go on: the screen is neither
    updated nor drawn while another program writes without a pause. *)
Theorem C113_starves_refuted : forall reads, all_read reads -> frame_input false (map Bytes reads) = Busy (sends reads).
Proof. intros reads A. rewrite <- (app_nil_r (map Bytes reads)), input_reads by exact A. cbn. rewrite app_nil_r. reflexivity. Qed.
Print Assumptions C113_starves_refuted.
(** A read that fails once (a signal, EAGAIN) ends the input for good: what comes
    after it is never sent. *)
Theorem C113_failure_passes_refuted : forall k rest, frames_input (S k) false (Fails :: rest) = ([InputEnd], true).
Proof.
  assert (C : forall k answers, frames_input k true answers = ([], true)).
  { induction k as [|k IH]; intros answers; [reflexivity|]. cbn [frames_input]. destruct answers; cbn [frame_input]; rewrite IH; reflexivity. }
  intros k rest. cbn [frames_input frame_input poll_stdin]. cbn. rewrite C. reflexivity.
Qed.
Print Assumptions C113_failure_passes_refuted.

Example C113_case :
  (exists a, paces 100 accum0 [(10000 # 1)%Q; (10000 # 1)%Q; (100000 # 1)%Q; (0 # 1)%Q] = Some ([(1%nat, true); (1%nat, true); (6%nat, true); (0%nat, false)], a)) /\
  frames_input 3 false [Bytes [104; 105]; Nothing; Bytes [33]; Bytes []; Bytes [1]] = ([Input 104; Input 105; Input 33; InputEnd], true).
Proof. split; [eexists|]; vm_compute; reflexivity. Qed.
