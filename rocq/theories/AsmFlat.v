(** Texts without macros and includes: the assembler accepts exactly those that
    AsmSpec accepts. *)
From Verif Require Import Base AsmModel AsmSound AsmScan AsmRun AsmSpec AsmWords AsmLink AsmSim AsmRefs AsmToken AsmStep AsmProg AsmText AsmAccept AsmFacts.
From Coq Require Import ZifyBool Ascii String.
Open Scope list_scope.
Ltac Zify.zify_post_hook ::= Z.div_mod_to_equations.

Lemma next_text b path inp p : b_buf b = None -> text inp ->
  match first_word (lf inp) with
  | NoWord => exists p', next_token b (UFile path inp p) = (None, b, UFile path [] p')
  | Word w rest => exists reg inp' p', next_token b (UFile path inp p) = (Some (mkTok w reg), b, UFile path inp' p') /\ lf inp' = rest /\ text inp'
  | BadWord => bad (next_token b (UFile path inp p))
  end.
Proof.
  intros BB T. pose proof (next_in_file_text (char_fuel inp) b path inp p BB T ltac:(unfold char_fuel; lia)) as N. cbv zeta in N. cbn [next_token].
  destruct (first_word (lf inp)) as [|w rest|]; auto. destruct N as (reg & inp' & p' & N & E). exists reg, inp', p'. split; auto. rewrite N.
  f_equal. f_equal. destruct b; cbn in *; subst; reflexivity.
Qed.

(** ** Comments *)
Definition delta (w : str) : Z := (if str_dec w (bytes "(") then 1 else 0) - (if str_dec w (bytes ")") then 1 else 0).
Lemma delta_range w : -1 <= delta w <= 1 /\ (delta w = -1 -> w = bytes ")").
Proof.
  unfold delta. destruct (str_dec w (bytes "(")) as [->|]; destruct (str_dec _ (bytes ")")) as [E|]; (split; [lia|]); auto; lia.
Qed.
Lemma parens_cons w ws : parens (w :: ws) = delta w + parens ws.
Proof.
  change (parens (w :: ws)) with (parens ws + (if str_dec w (bytes "(") then 1 else 0) - (if str_dec w (bytes ")") then 1 else 0)).
  unfold delta. lia.
Qed.
(** The end of the innermost [n] comments. *)
Definition inside (n : Z) (s rest : str) : Prop :=
  exists ws, reads s (ws ++ [bytes ")"]) rest /\ parens ws = 1 - n /\ forall ws1 ws2, ws = ws1 ++ ws2 -> - n < parens ws1.
Lemma inside_comment s rest : inside 1 s rest <-> comment s rest.
Proof.
  split; intros (ws & R & P & H); exists ws; (split; [auto|split; [lia|]]); intros ws1 ws2 E; specialize (H ws1 ws2 E); lia.
Qed.
Lemma inside_step n s rest : 1 <= n ->
  (inside n s rest <-> exists w r, first_word s = Word w r /\ if n + delta w =? 0 then rest = r else inside (n + delta w) r rest).
Proof.
  intros N. split.
  - intros (ws & R & P & H). destruct ws as [|w ws]; cbn [app] in R; inversion R as [|? w' r ws' rest' F R']; subst.
    + change (parens []) with 0 in P. exists (bytes ")"), r. split; auto. inversion R'; subst. change (delta (bytes ")")) with (-1).
      destruct (Z.eqb_spec (n + -1) 0); [auto|lia].
    + exists w, r. split; auto. pose proof (H [w] ws eq_refl) as H1. rewrite parens_cons in *. change (parens []) with 0 in H1.
      destruct (Z.eqb_spec (n + delta w) 0); [lia|]. exists ws. split; auto. split; [lia|]. intros ws1 ws2 ->.
      specialize (H (w :: ws1) ws2 eq_refl). rewrite parens_cons in H. lia.
  - intros (w & r & F & H). pose proof (delta_range w) as [DR DW]. destruct (Z.eqb_spec (n + delta w) 0) as [E|NE].
    + subst r. assert (w = bytes ")") by (apply DW; lia). subst w. exists []. split; [econstructor; [exact F|constructor]|]. change (delta (bytes ")")) with (-1) in E.
      split; [change (parens []) with 0; lia|]. intros ws1 ws2 X. symmetry in X. apply app_eq_nil in X as [-> _]. change (parens []) with 0. lia.
    + destruct H as (ws & R & P & H). exists (w :: ws). split; [econstructor; eauto|]. rewrite parens_cons. split; [lia|].
      intros ws1 ws2 X. destruct ws1 as [|w1 ws1]; [change (parens []) with 0; lia|]. injection X as <- ->.
      rewrite parens_cons. specialize (H ws1 ws2 eq_refl). lia.
Qed.

Definition comment_event (e : event) : Prop := match e with ESym _ s => s_type s = SComment | _ => False end.
Definition commented (b b' : basm) : Prop := exists l, Forall comment_event l /\ b_out b' = l ++ b_out b.
Lemma commented_refl b : commented b b.
Proof. exists []. auto. Qed.
Lemma commented_trans a b c : commented a b -> commented b c -> commented a c.
Proof.
  intros (l & F & E) (l' & F' & E'). exists (l' ++ l). split; [apply Forall_app; auto|]. rewrite E', E. apply app_assoc.
Qed.
Lemma commented_put b a d s r : commented b (put_symbol b a (mkSymbol SComment false d s r)).
Proof. eexists [_]. split; [|reflexivity]. repeat constructor. Qed.

Lemma comment_loop_text fuel : forall b path inp p n, b_buf b = None -> text inp -> 1 <= n -> wf b -> (mu b (UFile path inp p) + 1 < fuel)%nat ->
  let r := comment_loop fuel b (UFile path inp p) n in
  (exists b' inp' p', r = (true, b', UFile path inp' p') /\ text inp' /\ inside n (lf inp) (lf inp') /\
     quiet b b' /\ b_success b' = b_success b /\ commented b b' /\ (forall rest, inside n (lf inp) rest -> rest = lf inp')) \/
  (fst (fst r) = false /\ forall rest, ~ inside n (lf inp) rest).
Proof.
  induction fuel as [|fuel IH]; intros b path inp p n BB T N W M r; [lia|]. subst r. cbn [comment_loop].
  destruct (Z.leb_spec n 0); [lia|].
  pose proof (next_text b path inp p BB T) as NT. destruct (first_word (lf inp)) as [|w rest|] eqn:F.
  - destruct NT as (p' & ->). right. split; [reflexivity|]. intros rest I. apply inside_step in I as (w & r & E & _); [congruence|auto].
  - destruct NT as (reg & inp' & p' & NT & E & T'). rewrite NT.
    destruct (next_token_props b (UFile path inp _) _ _ _ W I NT) as [R1 W1 O1 M1 T1 B1 K1]. destruct T1 as [TO TM].
    unfold tok_ok in TO. cbn [t_lex] in *. destruct w as [|c w0] eqn:WE; [congruence|]. rewrite <- WE in *. cbv zeta.
    set (b1 := put_symbol b _ _).
    assert (DE : (if str_eqb w [40] then n + 1 else if str_eqb w [41] then n - 1 else n) = n + delta w).
    { unfold delta, str_eqb. change (bytes "(") with [40]. change (bytes ")") with [41].
      destruct (str_dec w [40]) as [->|]; destruct (str_dec _ [41]) as [X|]; try discriminate; lia. }
    rewrite DE.
    assert (DET : forall rest0, inside n (lf inp) rest0 -> if n + delta w =? 0 then rest0 = rest else inside (n + delta w) rest rest0).
    { intros rest0 J. apply inside_step in J as (w' & r & E' & J); auto. rewrite F in E'. injection E' as <- <-. exact J. }
    assert (MK : forall rest0, (if n + delta w =? 0 then rest0 = rest else inside (n + delta w) rest rest0) -> inside n (lf inp) rest0).
    { intros rest0 J. apply inside_step; auto. exists w, rest. auto. }
    pose proof (delta_range w) as [DR _]. pose proof (commented_put b (b_addr b) (u16 n) (Some w) reg) as CP.
    assert (W1' : wf b1) by (apply wf_log; auto).
    destruct (Z.eqb_spec (n + delta w) 0) as [Z0|NZ].
    + destruct fuel as [|fuel]; [lia|]. cbn [comment_loop]. destruct (Z.leb_spec (n + delta w) 0); [|lia]. left.
      exists b1, inp', p'. split; [reflexivity|]. split; [auto|]. split; [apply MK; auto|]. split; [repeat split|]. split; [reflexivity|]. split; [exact CP|].
      intros rest0 J. rewrite E. apply DET. auto.
    + assert (MU : mu b1 (UFile path inp' p') = mu b (UFile path inp' p')) by reflexivity.
      destruct (IH b1 path inp' p' (n + delta w) BB T' ltac:(lia) W1' ltac:(lia)) as [(b' & inp2 & p2 & X & T2 & IN & Q & SU & C & D)|[X Y]].
      * left. exists b', inp2, p2. split; [exact X|]. split; [auto|]. rewrite E in IN, D. split; [apply MK; auto|].
        split; [exact Q|]. split; [exact SU|]. split; [eapply commented_trans; eauto|]. intros rest0 J. apply D, DET. auto.
      * right. split; [exact X|]. intros rest0 J. apply DET in J. rewrite E in Y. exact (Y rest0 J).
  - destruct NT as [B1 B2]. destruct (next_token b (UFile path inp p)) as [[o b1] u1]. cbn [fst snd] in *. subst o. right. split; [reflexivity|].
    intros rest I. apply inside_step in I as (w & r & E & _); [congruence|auto].
Qed.

Lemma process_comment_text b t path inp p : b_buf b = None -> text inp -> wf b ->
  let r := process_comment b t (UFile path inp p) in
  (exists b' inp' p', r = (true, b', UFile path inp' p') /\ text inp' /\ comment (lf inp) (lf inp') /\
     quiet b b' /\ b_success b' = b_success b /\ commented b b' /\ (forall rest, comment (lf inp) rest -> rest = lf inp')) \/
  (fst (fst r) = false /\ b_success (snd (fst r)) = false /\ forall rest, ~ comment (lf inp) rest).
Proof.
  intros BB T W r. subst r. unfold process_comment. cbv zeta. set (b0 := put_symbol b _ _).
  assert (W0 : wf b0) by (apply wf_log; auto).
  assert (C0 : commented b b0) by apply commented_put.
  destruct (comment_loop_text (unit_fuel (UFile path inp p)) b0 path inp p 1 BB T ltac:(lia) W0) as [(b' & inp' & p' & X & T' & IN & Q & SU & C & D)|[X Y]].
  - change (mu b0 (UFile path inp p)) with (mu b (UFile path inp p)). unfold mu, unit_fuel, char_fuel, bit. rewrite BB. lia.
  - left. rewrite X. exists b', inp', p'. split; [reflexivity|]. split; [auto|]. split; [apply inside_comment; auto|]. split; [exact Q|]. split; [exact SU|].
    split; [eapply commented_trans; eauto|]. intros rest J. apply D, inside_comment. auto.
  - right. destruct (comment_loop (unit_fuel (UFile path inp p)) b0 (UFile path inp p) 1) as [[ok b1] u1]. cbn [fst] in X. subst ok.
    split; [reflexivity|]. split; [reflexivity|]. intros rest J. apply (Y rest), inside_comment. auto.
Qed.

(** ** Labels stay, so that what is within reach at the end always was *)
Lemma effect_address p d lex p' t l : effect p d lex = Some p' -> address p t = Some l -> address p' t = Some l.
Proof.
  intros H. apply effect_changes in H. destruct H as [CL CB _ _ _]. destruct t as [n|k|a]; cbn [address]; auto.
  - destruct CL as [(m & _ & N & ->)|[_ E]]; [|rewrite E; auto]. intros A. rewrite assoc_cons_other; auto. intros X. rewrite <- X in A. pose proof (eq_trans (eq_sym N) A) as Y. discriminate Y.
  - destruct CB as [(_ & _ & _ & _ & E)|[(_ & _ & _ & k' & _ & N & ->)|(_ & _ & _ & _ & E)]]; try (rewrite E; auto).
    intros A. rewrite assoc_cons_other; auto. intros X. rewrite <- X in A. pose proof (eq_trans (eq_sym N) A) as Y. discriminate Y.
Qed.
Lemma run_reach toks : forall p q, run p toks = Some q -> reach q -> reach p.
Proof.
  induction toks as [|[d l] toks IH]; intros p q R X; cbn [run] in R; [injection R as <-; exact X|].
  destruct (step p d l) as [p1|] eqn:S; [|discriminate]. cbn [bind] in R. apply IH in R; auto.
  intros a m t x i y I A. apply (R a m t x i y).
  - unfold step in S. apply effect_changes in S. apply (c_cells _ _ _ S). exact I.
  - unfold step in S. eapply effect_address; [exact S|]. exact A.
Qed.
Lemma sim0_reach b p : sim0 b p -> reach p.
Proof. intros S a m t x i l I A. apply (k_range _ _ _ (AsmSim.i_mem _ _ S) _ _ _ _ _ _ I). destruct t; exact A. Qed.
Lemma complete_reach p : complete p -> reach p.
Proof.
  intros [_ C] a m t x i l I A E. apply (C _ _ I). cbn [cell_byte]. rewrite A, E. reflexivity.
Qed.

Lemma simple_macros p d lex p' : hd 0 lex <> chr "%" -> effect p d lex = Some p' -> p_macros p' = p_macros p.
Proof.
  intros S H. pose proof (effect_changes _ _ _ _ H) as C. rewrite (c_macros _ _ _ C). unfold macro_names. cbn [flat_map o_lex occ_at].
  destruct lex as [|c r]; auto. cbn [hd] in S. destruct (Z.eqb_spec c (chr "%")); [contradiction|reflexivity].
Qed.

(** ** The tokens of one file *)
Section Nested.
Variable fs : files.
Variable pu : basm -> unit_ -> ret.
Variable level : Z.
Hypothesis PU : forall b u, wf b -> unit_ok u -> b_depth b = level + 1 -> level < MAX_PREPROCESSOR_DEPTH -> npost b (pu b u).
Hypothesis PS : forall b u p b', wf b -> unit_ok u -> unitb u -> b_depth b = level + 1 -> level < MAX_PREPROCESSOR_DEPTH ->
  sim b p -> pu b u = (true, b') -> b_success b' = true -> exists p', sim b' p' /\ incl (p_macros p) (p_macros p').

Definition settles (p : prog) (l : list str) (whole : bool) (b : basm) (r : ret) : Prop :=
  (fst r = true -> b_success (snd r) = true -> whole = true /\
     exists p', run p (map (pair level) l) = Some p' /\ sim (snd r) p' /\ known (snd r) /\ b_deferred (snd r) = b_deferred b) /\
  (whole = true -> forall p', run p (map (pair level) l) = Some p' -> reach p' -> fst r = true /\ b_success (snd r) = true).

Lemma flat_loop fuel : forall b path inp pos p l whole,
  wf b -> b_depth b = level -> (mu b (UFile path inp pos) < fuel)%nat -> b_buf b = None -> text inp -> sim b p ->
  b_success b = true -> known b -> p_macros p = [] -> code (lf inp) l whole ->
  settles p l whole b (unit_loop fs pu fuel b (UFile path inp pos)).
Proof.
  induction fuel as [|fuel IH]; intros b path inp pos p l whole W D M BB T S SU K PM C; [lia|]. cbn [unit_loop].
  pose proof (next_text b path inp pos BB T) as NT. destruct (first_word (lf inp)) as [|w rest|] eqn:F.
  - destruct NT as (p' & ->). inversion C; subst; try congruence. split; cbn [fst snd].
    + intros _ _. split; auto. exists p. auto.
    + intros _ p'' R _. auto.
  - destruct NT as (reg & inp' & p' & NT & E & T'). rewrite NT.
    destruct (next_token_props b (UFile path inp _) _ _ _ W I NT) as [R1 W1 O1 M1 T1 B1 K1]. destruct T1 as [TO TM].
    pose proof (readb_next b (UFile path inp pos) I) as RB. rewrite NT in RB. destruct RB as (Q1 & U1 & TB).
    set (t := mkTok w reg) in *.
    assert (EX : exists c w0, w = c :: w0) by (unfold tok_ok in TO; cbn in TO; destruct w as [|c w0]; [congruence|eauto]).
    destruct EX as (c & w0 & WE). change (t_lex t) with w. rewrite WE at 1. cbv zeta.
    set (b2 := log b (ETok (b_scope b) (b_addr b) w)).
    assert (W2 : wf b2) by (apply wf_log; auto).
    set (o := mkOcc level (p_scope p) (p_addr p) w).
    destruct S as [S0 RN].
    assert (S2 : sim0 b2 (with_occ p o)).
    { destruct S0. constructor; auto.
      - unfold b2. rewrite tr_log, i_tr. cbn [trace_step fst snd p_trace with_occ].
        change (b_depth (log b _)) with (b_depth b). unfold o. rewrite <- i_scope, <- i_addr, D. reflexivity.
      - eapply mem_ext; [|exact i_mem]. intros a. unfold b2. rewrite mem_log. reflexivity. }
    assert (K2 : known b2) by exact K.
    assert (TOK : tok_ok t) by exact TO.
    assert (STEP : forall p1, effect (with_occ p o) level w = Some p1 -> forall l', run p (map (pair level) (w :: l')) = run p1 (map (pair level) l')).
    { intros p1 EF l'. cbn [map run]. unfold step. fold o. rewrite EF. reflexivity. }
    pose proof (process_token_props fs pu level PU b2 t (UFile path inp' p') W2 O1 D TOK) as [R3 W3 O3 M3 F3 B3 K3].
    (* the rest, when the token was taken *)
    assert (GO : forall b3 inp3 pos3 p1 l' whole', process_token fs pu b2 t (UFile path inp' p') = (true, b3, UFile path inp3 pos3) ->
       b_success b3 = true -> b_buf b3 = None -> b_deferred b3 = b_deferred b -> known b3 -> text inp3 ->
       effect (with_occ p o) level w = Some p1 -> sim0 b3 p1 -> p_macros p1 = [] -> code (lf inp3) l' whole' ->
       settles p (w :: l') whole' b (unit_loop fs pu fuel b3 (UFile path inp3 pos3))).
    { intros b3 inp3 pos3 p1 l' whole' PT SU3 BB3 DE3 KN3 T3 EF S3 PM1 C3. rewrite PT in R3, W3, O3, M3. cbn [fst snd] in *. specialize (M3 eq_refl).
      assert (S3' : sim b3 p1).
      { split; auto. destruct (effect_grows _ _ _ _ EF) as [G1 G2]. rewrite G1. cbn [p_trace with_occ]. rewrite lexemes_cons, run_app, RN.
        cbn [bind run o_depth o_lex o]. unfold step. fold o. rewrite EF. reflexivity. }
      assert (MU : mu b2 (UFile path inp' p') = mu b (UFile path inp' p')) by reflexivity.
      destruct (IH b3 path inp3 pos3 p1 l' whole') as [A B]; auto; [rewrite (r_depth _ _ R3); exact D|lia|].
      split.
      - intros X Y. destruct (A X Y) as (Z1 & p'' & Z2 & Z3 & Z4 & Z5). split; auto. exists p''. rewrite (STEP _ EF). split; auto. split; auto. split; [auto|congruence].
      - intros X p'' Y Z. rewrite (STEP _ EF) in Y. eapply B; eauto. }
    (* when it was not *)
    assert (NO : forall b3 u3 l' whole', process_token fs pu b2 t (UFile path inp' p') = (false, b3, u3) ->
       (whole' = true -> forall p'', run p (map (pair level) l') = Some p'' -> reach p'' -> False) -> settles p l' whole' b (false, b3)).
    { intros b3 u3 l' whole' PT X. split; [discriminate|]. intros Y p'' Z1 Z2. exfalso. eapply X; eauto. }
    assert (IM : is_macro (with_occ p o) w = false) by (unfold is_macro; cbn [p_macros with_occ]; rewrite PM; reflexivity).
    assert (PT0 : process_token fs pu b2 t (UFile path inp' p') = process_token fs pu b2 t (UFile path inp' p')) by reflexivity.
    inversion C as [? F'|? w' r l' whole' F' SI C'|? w' r rest' l' whole' F' HD CM C'|? F'|? w' r F' HD CM]; subst l whole; rewrite F in F'; try discriminate F';
      injection F' as <- <-.
    + (* a token *)
      destruct (process_token fs pu b2 t (UFile path inp' p')) as [[ok b3] u3] eqn:PT. destruct ok.
      * destruct (b_success b3) eqn:SU3.
        -- destruct (token_sim fs pu level PU PS b2 t (UFile path inp' p') (with_occ p o) b3 u3 W2 O1 U1 TB D S2 PT SU3 TOK) as (p1 & EF & _ & SF & _).
           change (b_depth b2) with (b_depth b) in EF. rewrite D in EF.
           assert (S3 : sim0 b3 p1).
           { apply SF; auto. change (t_lex t) with w. unfold simple in SI. intros X. apply SI. rewrite X. vm_compute. auto. }
           destruct (token_taken fs pu b2 t (UFile path inp' p') (with_occ p o) level p1 S2 SU TB TO SI IM EF (sim0_reach _ _ S3)) as (b3' & PT' & _ & ST).
           rewrite PT in PT'. injection PT' as <- ->. destruct (ST K2) as (X1 & X2 & X3).
           eapply GO; eauto; [exact (eq_trans X1 BB)| |rewrite E; exact C'].
           rewrite (simple_macros _ _ _ _ ltac:(intros X; apply SI; rewrite X; vm_compute; auto) EF). exact PM.
        -- (* an earlier reference is out of reach *)
           assert (NT' : forall p'', run p (map (pair level) (w :: l')) = Some p'' -> reach p'' -> False).
           { intros p'' X Y. cbn [map run] in X. destruct (step p level w) as [p1|] eqn:ST; [|discriminate]. cbn [bind] in X.
             apply run_reach in X; auto. unfold step in ST. fold o in ST.
             destruct (token_taken fs pu b2 t (UFile path inp' p') (with_occ p o) level p1 S2 SU TB TO SI IM ST X) as (b3' & PT' & Z1 & _).
             rewrite PT in PT'. injection PT' as <- _. congruence. }
           cbn [fst snd] in *. specialize (M3 eq_refl).
           split; [|intros _ p'' X Y; exfalso; eauto].
           intros _ Y. exfalso. assert (MU : mu b2 (UFile path inp' p') = mu b (UFile path inp' p')) by reflexivity.
           destruct (unit_loop_props fs pu level PU fuel b3 u3 W3 O3 ltac:(rewrite (r_depth _ _ R3); exact D) ltac:(lia)) as [[R4 _ _ _] _].
           apply (rel_failed _ _ R4) in SU3. congruence.
      * eapply NO; [reflexivity|]. intros _ p'' X Y. cbn [map run] in X. destruct (step p level w) as [p1|] eqn:ST; [|discriminate]. cbn [bind] in X.
        apply run_reach in X; auto. unfold step in ST. fold o in ST.
        destruct (token_taken fs pu b2 t (UFile path inp' p') (with_occ p o) level p1 S2 SU TB TO SI IM ST X) as (b3' & PT' & _ & _). congruence.
    + (* a comment *)
      assert (PC : process_token fs pu b2 t (UFile path inp' p') = process_comment b2 t (UFile path inp' p')).
      { unfold process_token. cbv zeta. change (t_lex t) with w. rewrite HD. reflexivity. }
      destruct (process_comment_text b2 t path inp' p' BB T' W2) as [(b3 & inp3 & pos3 & X & T3 & CM' & Q & SU3 & CO & DET)|(_ & _ & X)];
        [|exfalso; rewrite E in X; eapply X; eauto].
      rewrite PC, X. destruct Q as (Q1' & Q2' & Q3').
      assert (EF : effect (with_occ p o) level w = Some (with_occ p o)).
      { rewrite WE in HD |- *. cbn [hd] in HD. unfold effect. cbv zeta. rewrite HD. reflexivity. }
      apply (GO b3 inp3 pos3 (with_occ p o) l' whole' (eq_trans PC X) (eq_trans SU3 SU) (eq_trans Q1' BB) Q2'); auto.
      * unfold known. rewrite Q3'. exact K.
      * eapply sim0_same; [exact S2|]. pose proof (process_comment_same b2 t (UFile path inp' p') U1) as CS. rewrite X in CS. apply CS.
      * rewrite <- (DET rest'); [exact C'|]. rewrite E. exact CM.
    + (* a comment that is not closed *)
      assert (PC : process_token fs pu b2 t (UFile path inp' p') = process_comment b2 t (UFile path inp' p')).
      { unfold process_token. cbv zeta. change (t_lex t) with w. rewrite HD. reflexivity. }
      destruct (process_comment_text b2 t path inp' p' BB T' W2) as [(b3 & inp3 & pos3 & X & T3 & CM' & Q & SU3 & CO & DET)|(X & _ & _)].
      { exfalso. rewrite E in CM'. eapply CM; eauto. }
      rewrite PC. destruct (process_comment b2 t (UFile path inp' p')) as [[ok b3] u3] eqn:PCE. cbn [fst] in X. subst ok.
      eapply NO; [exact PC|]. discriminate.
  - destruct NT as [N1 N2]. destruct (next_token b (UFile path inp pos)) as [[t b1] u1]. cbn [fst snd] in *. subst t.
    inversion C; subst; try congruence. split; cbn [fst snd]; [congruence|discriminate].
Qed.
End Nested.

(** ** The whole *)
Lemma warnings_success {A} (f : A -> token) m l : forall b, b_success (fold_left (fun b r => warning b (f r) m) l b) = b_success b.
Proof. induction l as [|x l IH]; intros b; cbn [fold_left]; auto. rewrite IH. reflexivity. Qed.
Lemma symbols_success l : forall b, Forall (fun nv => settled (snd nv)) l -> b_success (fold_left report_symbol l b) = b_success b.
Proof.
  induction l as [|[n v] l IH]; intros b F; cbn [fold_left]; auto. inversion F; subst. rewrite IH; auto. cbn [snd] in H1. unfold settled in H1.
  unfold report_symbol. destruct (n_entry v); try contradiction; try (destruct (_ && _); reflexivity). subst. reflexivity.
Qed.
Lemma lookup_in l n v : NoDup (map fst l) -> In (n, v) l -> lookup n l = Some v.
Proof.
  induction l as [|[k w] l IH]; cbn [map]; intros ND I; [destruct I|]. inversion ND; subst. cbn [lookup]. destruct I as [[= <- <-]|I].
  - destruct (str_dec k k); congruence.
  - destruct (str_dec k n) as [->|]; auto. exfalso. apply H1. apply (in_map fst) in I. exact I.
Qed.
Lemma reports_success b p : sim0 b p -> complete p -> known b -> b_success b = true -> b_success (reports b) = true.
Proof.
  intros S [O C] [ND K] SU. unfold reports.
  assert (L : b_lambdas b = []).
  { pose proof (l_open _ _ _ _ _ (AsmSim.i_lams _ _ S)) as LO. rewrite O in LO. inversion LO. reflexivity. }
  rewrite symbols_success.
  - unfold report_ats. rewrite (warnings_success (fun r => f_tok r)). unfold report_lambdas. rewrite L. exact SU.
  - assert (E : b_symtab (report_ats (report_lambdas b)) = b_symtab b).
    { unfold report_ats, report_lambdas. rewrite L. cbn [fold_left]. generalize (b_ats b) at 1. intros l. revert b S ND K SU L. 
      intros b _ _ _ _ _. revert b. induction l as [|x l IH]; intros b; cbn [fold_left]; auto. rewrite IH. reflexivity. }
    rewrite E. apply Forall_forall. intros [n v] I. cbn [snd]. pose proof (lookup_in _ _ _ ND I) as LK.
    pose proof (AsmSim.i_names _ _ S n) as N. unfold name_ok in N. rewrite LK in N. unfold settled.
    specialize (K n v I ltac:(discriminate)). destruct (n_entry v) as [|id toks e|id a|id refs]; auto.
    destruct N as (N1 & N2 & _ & P). destruct refs as [|r refs]; auto. exfalso.
    destruct (P r (or_introl eq_refl)) as (m & M & Q). specialize (Q 0 ltac:(destruct m; cbn; lia)).
    apply (C _ _ Q). cbn [cell_byte address]. rewrite N2. reflexivity.
Qed.

Lemma deferred_failed fs fuel : forall i b b', wf b -> b_depth b = 0 -> deferred_loop fs fuel i b = (false, b') -> b_fault b' = None -> b_success b' = false.
Proof.
  induction fuel as [|fuel IH]; intros i b b' W D H FA; cbn [deferred_loop] in H.
  { injection H as <-. discriminate. }
  destruct (nth_error (b_deferred b) i) as [[name t]|]; [|discriminate].
  pose proof (process_include_unit fs b name t W D) as [R2 W2 _ F2].
  destruct (process_include fs (process_unit fs DEPTH) b name t) as [ok b2]. cbn [fst snd] in *. destruct ok; cbn [andthen] in H.
  - eapply IH; eauto. rewrite (r_depth _ _ R2). auto.
  - injection H as <-. auto.
Qed.

Theorem flat_exact fs file s l whole ok evs :
  find_file fs file = Some s -> text s -> code (lf s) l whole -> assembles fs file ok evs ->
  (ok = true <-> whole = true /\ exists p, run empty (map (pair 0) l) = Some p /\ complete p) /\
  (ok = true -> lexemes (trace evs) = map (pair 0) l).
Proof.
  intros FF T C A. destruct A as [n A]. destruct (A (max n 1)%nat ltac:(lia)) as (b & AS & FA & RE). revert AS.
  set (m := max n 1). assert (M1 : (1 <= m)%nat) by (unfold m; lia). clearbody m. unfold asm, process_file. rewrite FF. cbv zeta.
  set (b0 := log start (EOpen file)). set (u := UFile file s (mkPos 1 1 0)).
  change (process_unit fs DEPTH b0 u) with (unit_loop fs (process_unit fs 39) (unit_fuel u) b0 u).
  assert (W0 : wf b0) by (apply wf_log, wf_start).
  assert (PU : forall b u, wf b -> unit_ok u -> b_depth b = 0 + 1 -> 0 < MAX_PREPROCESSOR_DEPTH -> npost b (process_unit fs 39 b u)).
  { intros b' u' W' U' D' _. apply process_unit_props; auto; rewrite D'; [discriminate|lia]. }
  assert (PS : forall b u p b', wf b -> unit_ok u -> unitb u -> b_depth b = 0 + 1 -> 0 < MAX_PREPROCESSOR_DEPTH ->
    sim b p -> process_unit fs 39 b u = (true, b') -> b_success b' = true -> exists p', sim b' p' /\ incl (p_macros p) (p_macros p')).
  { intros b' u' p' b'' W' U' UB' D' _ S' E' SU'. eapply process_unit_sim; eauto; rewrite D'; [discriminate|lia]. }
  pose proof (flat_loop fs (process_unit fs 39) 0 PU PS (unit_fuel u) b0 file s (mkPos 1 1 0) empty l whole W0 eq_refl) as FL.
  pose proof (unit_loop_props fs (process_unit fs 39) 0 PU (unit_fuel u) b0 u W0 I eq_refl) as [[R1 W1 _ F1] _];
    [unfold mu, u, unit_fuel, char_fuel, bit, b0; cbn; lia|].
  unfold u at 2 in FL. fold u in FL.
  destruct FL as [FL1 FL2]; auto; [unfold mu, u, unit_fuel, char_fuel, bit, b0; cbn; lia|apply sim_open|split; [constructor|intros k v []]|].
  fold u in FL1, FL2. destruct (unit_loop fs (process_unit fs 39) (unit_fuel u) b0 u) as [ok1 b1]. cbn [fst snd] in *.
  destruct ok1; cbn [negb].
  2:{ intros [= <- <-]. change (b_success (log b1 (EClose file))) with (b_success b1). rewrite F1 by reflexivity. split; [|discriminate].
      split; [discriminate|]. intros (WH & p & RU & CO). destruct (FL2 WH p RU (complete_reach _ CO)) as [X _]. discriminate. }
  destruct (b_success b1) eqn:SU1.
  - destruct (FL1 eq_refl eq_refl) as (WH & p & RU & [S1 RN] & K1 & D1).
    unfold resolve. destruct m as [|m']; [lia|]. cbn [deferred_loop]. change (b_deferred (log b1 (EClose file))) with (b_deferred b1). rewrite D1.
    change (b_deferred b0) with (@nil (str * token)). cbn [nth_error andthen]. fold (reports (log b1 (EClose file))).
    set (b2 := log b1 (EClose file)). 
    assert (DP : b_depth b1 = 0) by (rewrite (r_depth _ _ R1); reflexivity).
    assert (S2 : sim0 b2 p).
    { destruct S1. constructor; auto.
      - unfold b2. rewrite tr_log, i_tr. cbn [trace_step fst snd depth_step]. change (b_depth (log b1 (EClose file))) with (b_depth b1). rewrite DP. reflexivity.
      - eapply mem_ext; [|exact i_mem]. intros a. unfold b2. rewrite mem_log. reflexivity. }
    intros [= <- <-].
    assert (TR : lexemes (trace evs) = map (pair 0) l).
    { rewrite <- RE. change (trace (rev (b_out (reports b2)))) with (fst (tr (reports b2))). rewrite (e_tr _ _ (same_reports b2)), (AsmSim.i_tr _ _ S2).
      cbn [fst]. destruct (run_trace _ _ _ RU) as (new & E1 & E2). rewrite E1. cbn [p_trace empty]. rewrite app_nil_r. exact E2. }
    split; [|auto]. split.
    + intros SU. split; auto. exists p. split; auto.
      assert (AA : assembles fs file true evs).
      { rewrite <- RE. exists n. intros k Hk. destruct (A k Hk) as (b' & X1 & X2 & X3). exists b'. rewrite SU in X1. split; auto. split; auto. congruence. }
      destruct (assembles_program fs file evs AA) as (q & Q1 & Q2 & Q3 & _). rewrite TR in Q1. congruence.
    + intros (_ & q & Q1 & Q2). assert (q = p) by congruence. subst q. apply (reports_success b2 p); auto.
  - intros AS. assert (ok = false).
    { destruct (resolve fs m (log b1 (EClose file))) as [ok2 b2] eqn:RS. injection AS as <- <-.
      destruct (b_success b2) eqn:SB; auto. exfalso. unfold resolve in RS.
      destruct (deferred_loop fs m 0 (log b1 (EClose file))) as [ok3 b3] eqn:DL.
      assert (SB3 : b_success b3 = true).
      { destruct ok3; cbn [andthen] in RS; [|injection RS as _ <-; auto]. fold (reports b3) in RS. injection RS as _ <-.
        destruct (b_success b3) eqn:E; auto. apply (rel_failed _ _ (rel_reports b3)) in E. congruence. }
      assert (W2 : wf (log b1 (EClose file))) by (apply wf_log; auto).
      assert (DP : b_depth (log b1 (EClose file)) = 0) by (change (b_depth b1 = 0); rewrite (r_depth _ _ R1); reflexivity).
      destruct ok3.
      - apply deferred_success in DL; auto. change (b_success b1 = true) in DL. congruence.
      - cbn [andthen] in RS. injection RS as _ <-. apply deferred_failed in DL; auto. congruence. }
    subst ok. split; [|discriminate]. split; [discriminate|]. intros (WH & p & RU & CO).
    destruct (FL2 WH p RU (complete_reach _ CO)) as [_ X]. discriminate.
Qed.
