(** What the type checker reports: the verdict is the absence of errors. *)
From Verif Require Import Base VmModel AsmModel ChessModel ChessProofs ChessSize.
From Coq Require Import ZifyBool.
Open Scope list_scope.

(** The verdict so far agrees with what was reported so far, and no routine
    was reported to have ended well. *)
Definition fair (h : chess) : Prop :=
  h_success h = negb (existsb is_error (h_reports h)) /\ (forall b, In (REnd b) (h_reports h) -> b = false).
Lemma fair_later h h' : fair h -> later h h' -> fair h'.
Proof.
  intros [F G] L. destruct (l_reports _ _ L) as (l & E & E1 & E2). split.
  - rewrite E2, E, F, existsb_app, Bool.negb_orb. reflexivity.
  - rewrite E. intros b I. apply in_app_or in I as [I|I]; [apply G, I|]. exfalso.
    assert (existsb ends l = true) by (apply existsb_exists; exists (REnd b); auto). congruence.
Qed.

(** One round of the loop, without the parts of [goes] that fetching an opcode changes. *)
Record round (x x' : ctx) : Prop := {
  r_h : later (x_h x) (x_h x'); r_info : x_info x' = x_info x;
  r_term : x_term x = true -> x_term x' = true;
  r_success : x_success x' = true -> x_success x = true }.
Lemma goes_round x x' : goes x x' -> round x x'.
Proof. intros []. constructor; auto. Qed.
Lemma round_exec x u x' : has_info x -> exec_op x = COk (u, x') -> round x x'.
Proof.
  intros Hi H. unfold exec_op, cbind, get_rom in H. destruct (x_pc x <? 256); [discriminate|].
  destruct (is_code _); [|inj H; apply goes_round, ok_error, Hi].
  unfold act in H at 1. set (op := h_rom (x_h x) (x_pc x)) in *. set (y := fetch_op op x) in *.
  assert (G : goes y x').
  { refine ((_ : ok_step (cbind (match dispatch op with Some l => run_label l | None => cret tt end)
       (fun _ => match h_casts (x_h x) (x_pc x) with Some c => apply_cast false (c_wst c) ;;; apply_cast true (c_rst c) | None => cret tt end))) y u x' Hi H).
    apply ok_bind; [destruct (dispatch op); eauto with okdb|]. intros _. destruct (h_casts _ _); ok_tac. }
  destruct G as [G1 G2 G3 G4 G5 G6]. constructor; auto.
Qed.
Lemma round_round x u x' : has_info x -> exec_round x = COk (u, x') -> round x x'.
Proof.
  intros Hi H. unfold exec_round in H.
  destruct (negb (x_inner x) && (x_pc x <? 256)); [inj H; apply goes_round, ok_error, Hi|].
  destruct (h_infos (x_h x) (x_pc x)) as [[[] [sig|] ? ? ?]|] eqn:E; try (eapply round_exec; eassumption).
  destruct (x_pc x =? x_info x); [eapply round_exec; eassumption|].
  destruct (ok_short_circuit _ _ _ _ _ (Hi : has_info (with_inner x true)) H) as [G1 G2 G3 G4 G5 G6].
  constructor; auto.
Qed.

Definition fairc (c : config) : Prop :=
  match c with
  | Idle h | Finished h => fair h
  | Running x => fair (x_h x) /\ x_success x = false
  | Broken _ => True
  end.
Lemma fair_end h b : fair h -> b = false -> fair (h_report h (REnd b)).
Proof.
  intros [F G] ->. split; cbn.
  - rewrite existsb_app. cbn. rewrite Bool.orb_false_r. exact F.
  - intros b I. apply in_app_or in I as [I|[I|[]]]; [auto|]. inversion I. reflexivity.
Qed.
Lemma fairc_step c : cok c -> fairc c -> fairc (cstep c).
Proof.
  destruct c as [h|x|h|f]; cbn [cstep fairc]; auto.
  - intros K F. destruct (h_list h) as [|e l] eqn:E; [exact F|].
    unfold begin_entry. destruct (h_syms _ _); cbn [fairc x_h x_success]; [split; [exact F|reflexivity]|].
    match goal with |- fair (x_h (error _ ?y)) =>
      refine (fair_later (x_h y) _ F (g_h _ _ (ok_error CNonOpcode y _))) end.
    unfold has_info. cbn. destruct K as [_ _ _ L]. rewrite E in L. inversion L as [|? ? (L1 & L2 & L3)]; subst. exact L3.
  - intros K [F S]. destruct (x_term x).
    + destruct (fair_end _ _ F S) as [A B]. split; [exact A|exact B].
    + destruct (exec_round x) as [[u y]|] eqn:E; [|exact I].
      pose proof (round_round _ _ _ (ok_own _ K) E) as [R1 R2 R3 R4].
      split; [eapply fair_later; eauto|]. destruct (x_success y); auto. rewrite R4 in S; auto.
Qed.
Lemma fairc_steps n : forall c, cok c -> fairc c -> fairc (csteps n c).
Proof. induction n; cbn [csteps]; auto using cok_step, fairc_step. Qed.

Lemma fair_final h : fair h -> fair (final_check h).
Proof.
  unfold final_check. generalize (h_order h). intros l. revert h.
  induction l as [|a l IH]; cbn [fold_left]; auto. intros h [F G]. apply IH.
  destruct (missing_end h a); [|split; auto]. split; cbn.
  - rewrite existsb_app. cbn. rewrite Bool.orb_true_r. reflexivity.
  - intros b I. apply in_app_or in I as [I|[I|[]]]; [auto|discriminate].
Qed.
Lemma fair_same h h' : h_success h' = h_success h -> h_reports h' = h_reports h -> fair h -> fair h'.
Proof. intros E F [A B]. split; rewrite ?E, F; auto. Qed.
Lemma fair_ensure h a : fair h -> fair (ensure_info h a).
Proof. intros F. unfold ensure_info. destruct (h_infos h a); auto. Qed.
Lemma fair_reset h : fair h -> fair (add_reset h).
Proof.
  intros F. unfold add_reset. pose proof (fair_ensure h 256 F) as G.
  destruct (h_infos (ensure_info h 256) 256) as [[b [s|] m t e]|]; auto.
Qed.

(** The reader only warns. *)
Lemma fair_warn h m : fair h -> fair (h_report h (RWarning m)).
Proof.
  intros [F G]. split; cbn.
  - rewrite existsb_app. cbn. rewrite Bool.orb_false_r. exact F.
  - intros b I. apply in_app_or in I as [I|[I|[]]]; [auto|discriminate].
Qed.
Definition fairz (z : reader) : Prop := fair (z_h z).
Lemma fairz_give m z : fairz z -> fairz (give_up m z).
Proof. apply fair_warn. Qed.
Lemma fairz_sig_token z name : fairz z -> fairz (sig_token z name).
Proof.
  intros H. unfold sig_token, sig_arg. cbv zeta.
  repeat (match goal with |- context [if ?b then _ else _] => destruct b | |- context [match ?b with PWstIn => _ | _ => _ end] => destruct b end);
    try exact H; repeat (apply fairz_give); try exact H; try (apply (fairz_give WSealed z), H).
Qed.
Lemma fairz_cast_token z name : fairz z -> fairz (cast_token z name).
Proof.
  intros H. unfold cast_token. set (y := if z_sealed z then give_up WSealed z else z).
  assert (K : fairz y) by (unfold y; destruct (z_sealed z); auto using fairz_give). clearbody y.
  destruct (str_eqb name _); [destruct (z_state y); auto using fairz_give|].
  destruct (is_bang name); [exact K|]. destruct (is_arrow name); [apply fairz_give, K|].
  unfold cast_arg. destruct (z_state y); destruct (Nat.ltb _ _); auto using fairz_give.
Qed.
Lemma fairz_sig_end z : fairz z -> fairz (sig_end z).
Proof.
  intros H. unfold sig_end. destruct (z_cur z) as [[t a]|]; auto.
  destruct (i_rout _); [apply fair_warn, H|]. destruct (z_sealed z); exact H.
Qed.
Lemma fairz_cast_end z : fairz z -> fairz (cast_end z).
Proof.
  intros H. unfold cast_end. destruct (z_cur z) as [[t a]|]; auto.
  destruct (h_casts _ _); [apply fair_warn, H|exact H].
Qed.
Lemma fairz_replay f l : (forall z t, fairz z -> fairz (f z t)) -> forall z, fairz z -> fairz (replay f l z).
Proof. intros Hf. induction l as [|t l IH]; cbn [replay]; auto. intros z H. destruct (z_hand z); auto. Qed.
Lemma fairz_parse z name b d f : (forall z t, fairz z -> fairz (f z t)) -> fairz z -> fairz (parse_first z name b d f).
Proof.
  intros Hf H. unfold parse_first. destruct b.
  - set (y := replay _ _ _). assert (fairz y) by (apply fairz_replay; [exact Hf|exact H]). destruct (z_hand y); auto.
  - destruct (Nat.ltb _ _); [destruct (_ <? _)|]; auto.
Qed.
Lemma fairz_anno z name : fairz z -> fairz (anno_token z name).
Proof.
  intros H. unfold anno_token. destruct (z_hand z); auto using fairz_sig_token, fairz_cast_token.
  - apply fairz_parse; [apply fairz_sig_token|]. destruct (is_arrow name); auto.
  - apply fairz_parse; [apply fairz_cast_token|]. destruct (is_bang name); auto.
Qed.
Lemma fairz_comment z id name : fairz z -> fairz (read_comment z id name).
Proof.
  intros H. unfold read_comment. destruct (id =? 0).
  - destruct name as [|c [|]]; auto. destruct (z_cur z) as [[t a]|]; auto. destruct t; exact H.
  - destruct ((id =? 1) && _); [|destruct (id =? 1); [apply fairz_anno, H|exact H]].
    unfold anno_end. destruct (z_hand z); auto; [apply fairz_sig_end, H|apply fairz_cast_end, H].
Qed.
Lemma fairz_byte z addr s : fairz z -> fairz (read_byte z addr s).
Proof.
  intros H. unfold read_byte. destruct (match z_last z with Some y => _ | None => _ end) as [y ids]. exact H.
Qed.
Lemma fairz_symbol z addr s z' : fairz z -> read_symbol z addr s = Some z' -> fairz z'.
Proof.
  intros H E. unfold read_symbol in E. destruct (s_type s) eqn:Et.
  all: lazymatch type of Et with
  | _ = SComment => destruct (s_name s) as [[|c n]|]; inversion E; subst; apply fairz_comment, H
  | _ = SLabel => destruct (s_gen s); inversion E; subst; auto; apply fair_ensure, H
  | _ => try (destruct (addr <? 256); [discriminate|]); inversion E; subst; auto using fairz_byte
  end.
  all: apply fairz_byte; exact H.
Qed.
Lemma fairz_symbols evs : forall z z', fairz z -> read_symbols z evs = Some z' -> fairz z'.
Proof.
  induction evs as [|[] evs IH]; cbn [read_symbols]; intros z z' H E; eauto.
  - inversion E; subst; auto.
  - destruct (read_symbol z _ _) as [y|] eqn:Ey; [|discriminate]. destruct (z_bad y); [discriminate|].
    eapply IH; [eapply fairz_symbol|]; eauto.
Qed.
Lemma fairz_reader0 rom : fairz (reader0 rom).
Proof. split; cbn; [reflexivity|contradiction]. Qed.

Theorem type_check_fair fuel evs b l : type_check fuel evs = Some (Verdict b l) ->
  b = negb (existsb is_error l) /\ (forall e, In (REnd e) l -> e = false).
Proof.
  unfold type_check. destruct (read_symbols _ evs) as [z|] eqn:E; [|discriminate]. unfold chess_end.
  pose proof (fairz_symbols _ _ _ (fairz_reader0 _) E) as F.
  pose proof (zok_symbols _ _ _ (zok_reader0 _) E) as Z.
  intros H. assert (A : fairc (csteps fuel (Idle (add_reset (z_h z))))).
  { apply fairc_steps; [apply hok_reset, Z|]. apply fair_reset, F. }
  destruct (csteps fuel _); inversion H; subst. apply fair_final in A as [A1 A2]. split; auto.
Qed.
