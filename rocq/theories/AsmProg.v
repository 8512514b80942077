(** A successful run of the assembler follows AsmSpec: tokens, units, files, the
    whole. *)
From Verif Require Import Base AsmModel AsmSound AsmScan AsmRun AsmSpec AsmWords AsmLink AsmSim AsmRefs AsmToken AsmStep.
From Coq Require Import ZifyBool Ascii String.
Open Scope list_scope.
Ltac Zify.zify_post_hook ::= Z.div_mod_to_equations.

Lemma mnemonic_byte w v : mnemonic w = Some v -> is_byte v.
Proof.
  unfold mnemonic. destruct (str_dec _ _); [intros [= <-]; unfold is_byte; lia|]. cbv zeta.
  destruct (code_in OPERATIONS (firstn 3 w) 0) as [c|] eqn:C; [|discriminate]. apply code_in_range in C.
  change (Z.of_nat (List.length OPERATIONS)) with 32 in C. destruct (forallb _ _); [|discriminate]. intros [= <-].
  unfold is_byte. destruct (has (chr "2") _), (has (chr "r") _), (_ || _); lia.
Qed.

Lemma place_ref_plain p m n : valid_name n = true -> ~ In n (p_macros p) -> place_ref_to p m n = place_ref p m (Label n).
Proof.
  intros V N. pose proof (valid_name_valid n V) as (NN & _ & _ & R). unfold place_ref_to, find_target.
  destruct (str_dec n (bytes "{")) as [->|]; [vm_compute in R; discriminate|].
  destruct (str_dec n (bytes "@")) as [->|]; [vm_compute in R; discriminate|].
  destruct n as [|c n']; [congruence|]. cbn [hd] in R.
  destruct ((c =? chr "&") || (c =? chr "/")) eqn:E.
  { apply orb_true_iff in E as [E|E]; apply Z.eqb_eq in E; rewrite E in R; vm_compute in R; discriminate. }
  cbn [bind]. rewrite V, is_macro_not by auto. reflexivity.
Qed.

Lemma sim0_back b t p ty sz md n v id a r b' : sim0 b p -> mode_of ty sz = Some md -> lookup n (b_symtab b) = Some v ->
  n_entry v = EnLabel id a -> emit_backward_ref b t ty sz (Some n) id a true r = (true, b') ->
  exists p', place_ref p md (Label n) = Some p' /\ sim0 b' p'.
Proof.
  intros S M L E H. destruct (sim0_entry_label _ _ _ _ _ _ S L E) as [N1 N2].
  apply (emit_backward_writes _ _ _ _ _ _ _ _ _ _ md) in H; auto; [|rewrite (i_addr _ _ S); apply S|eapply (i_labels _ _ S); eauto].
  destruct H as (bs & EN & W). eapply sim0_known; eauto; [discriminate|].
  intros n' [= <-]. exists id, a, v. auto.
Qed.

Lemma sim_same b b' p : sim b p -> same b b' -> sim b' p.
Proof. intros [S R] Q. split; auto. eapply sim0_same; eauto. Qed.

(** ** Entering and leaving a unit *)
Lemma sim0_enter b p e : sim0 b p -> e = EOpen (match e with EOpen n => n | _ => [] end) \/ e = EEnter (match e with EEnter n => n | _ => [] end) ->
  sim0 (log (set_depth b (b_depth b + 1)) e) p.
Proof.
  intros [] E. constructor; auto.
  - rewrite tr_log. change (tr (set_depth b (b_depth b + 1))) with (tr b). rewrite i_tr. destruct E as [-> | ->]; reflexivity.
  - eapply mem_ext; [|exact i_mem]. intros a. rewrite mem_log. destruct E as [-> | ->]; reflexivity.
Qed.
Lemma sim0_leave b p e : sim0 b p -> 1 <= b_depth b -> e = EClose (match e with EClose n => n | _ => [] end) \/ e = ELeave (match e with ELeave n => n | _ => [] end) ->
  sim0 (set_depth (log b e) (b_depth b - 1)) p.
Proof.
  intros [] D E. constructor; auto.
  - change (tr (log b e) = (p_trace p, b_depth b - 1)). rewrite tr_log, i_tr.
    destruct E as [-> | ->]; cbn [trace_step fst snd depth_step]; f_equal; lia.
  - eapply mem_ext; [|exact i_mem]. intros a. change (mem (log b e) a = mem b a). rewrite mem_log. destruct E as [-> | ->]; reflexivity.
Qed.

Section Nested.
Variable fs : files.
Variable pu : basm -> unit_ -> ret.
Variable level : Z.
Hypothesis PU : forall b u, wf b -> unit_ok u -> b_depth b = level + 1 -> level < MAX_PREPROCESSOR_DEPTH -> npost b (pu b u).
Hypothesis PS : forall b u p b', wf b -> unit_ok u -> unitb u -> b_depth b = level + 1 -> level < MAX_PREPROCESSOR_DEPTH ->
  sim b p -> pu b u = (true, b') -> b_success b' = true -> exists p', sim b' p' /\ incl (p_macros p) (p_macros p').

Lemma include_sim b n t p b' : wf b -> b_depth b = level -> level < MAX_PREPROCESSOR_DEPTH -> sim b p ->
  process_include fs pu b n t = (true, b') -> b_success b' = true -> exists p', sim b' p' /\ incl (p_macros p) (p_macros p').
Proof.
  intros W D LM S. unfold process_include. destruct (existsb _ _).
  { intros [= <-] _. exists p. split; auto. apply incl_refl. }
  cbv zeta. set (b1 := set_includes b _). set (b2 := set_depth b1 (b_depth b1 + 1)).
  unfold process_file. destruct (find_file fs n) as [c|]; [|discriminate]. cbv zeta. set (b3 := log b2 (EOpen n)).
  destruct (pu b3 (UFile n c (mkPos 1 1 0))) as [ok b4] eqn:E. destruct ok; [|discriminate]. intros [= <-] SU.
  assert (W3 : wf b3).
  { apply wf_log, wf_set_depth; [apply wf_includes; auto|]. cbn. pose proof (wf_depth _ W). lia. }
  assert (D3 : b_depth b3 = level + 1) by (cbn; lia).
  assert (S3 : sim b3 p).
  { destruct S as [S R]. split; auto. apply (sim0_enter b1 p (EOpen n)); [|left; reflexivity]. eapply sim0_set; eauto. }
  destruct (PS b3 (UFile n c (mkPos 1 1 0)) p b4 W3 I I D3 LM S3 E SU) as (p' & [S4 R4] & I4).
  exists p'. split; auto. split; auto.
  pose proof (PU b3 (UFile n c (mkPos 1 1 0)) W3 I D3 LM) as [R _ _ _]. rewrite E in R. cbn [snd] in R.
  pose proof (r_depth _ _ R) as D4. pose proof (wf_depth _ W).
  apply (sim0_leave b4 p' (EClose n)); auto; lia.
Qed.

Lemma run_macro_sim b t name v id toks arg u p b' u' :
  wf b -> unit_ok (UMacro toks arg) -> unitb (UMacro toks arg) -> b_depth b = level -> level < MAX_PREPROCESSOR_DEPTH ->
  sim b p -> In name (p_macros p) -> run_macro pu b t name v id toks arg u = (true, b', u') -> b_success b' = true ->
  u' = u /\ exists p', sim b' p' /\ incl (p_macros p) (p_macros p').
Proof.
  intros W U UB D LM [S R] IM. unfold run_macro. cbv zeta.
  assert (LK : forall b p, sim0 b p -> In name (p_macros p) -> exists w, lookup name (b_symtab b) = Some w /\
             assoc (Label name) (p_labels p) = None /\ pending (p_cells p) [] (Label name)).
  { clear. intros b p S IM. pose proof (i_names _ _ S name) as N. unfold name_ok in N. destruct (lookup name (b_symtab b)) as [w|]; [|tauto].
    exists w. destruct (n_entry w); tauto. }
  assert (SET : forall b p e, sim0 b p -> In name (p_macros p) -> sim0 (set_node b name (set_entry v (EnMacro id toks e))) p).
  { intros b0 p0 e S0 I0. destruct (LK b0 p0 S0 I0) as (w & L & A & P). eapply sim0_node; eauto. cbn. destruct UB as [UB _]. auto. }
  set (b1 := set_node b name _). set (b2 := set_depth b1 (b_depth b1 + 1)). set (b3 := log b2 (EEnter name)).
  destruct (pu b3 (UMacro toks arg)) as [ok b4] eqn:E. intros [= -> <- <-] SU. split; auto.
  assert (W3 : wf b3).
  { apply wf_log, wf_set_depth; [apply wf_set_node; auto; apply U|]. cbn. pose proof (wf_depth _ W). lia. }
  assert (D3 : b_depth b3 = level + 1) by (cbn; lia).
  assert (S3 : sim b3 p).
  { split; auto. apply (sim0_enter b1 p (EEnter name)); [|right; reflexivity]. apply SET; auto. }
  destruct (PS b3 (UMacro toks arg) p b4 W3 U UB D3 LM S3 E SU) as (p' & [S4 R4] & I4).
  exists p'. split; auto. split; auto. apply SET; auto.
  pose proof (PU b3 (UMacro toks arg) W3 U D3 LM) as [RL _ _ _]. rewrite E in RL. cbn [snd] in RL.
  pose proof (r_depth _ _ RL) as D4. pose proof (wf_depth _ W).
  apply (sim0_leave b4 p' (ELeave name)); auto; lia.
Qed.

Lemma expand_sim b t name v id toks e u p b' u' :
  wf b -> unit_ok u -> unitb u -> Forall tok_ok toks -> Forall tokb toks -> b_depth b = level ->
  sim b p -> In name (p_macros p) -> expand_macro pu b t name v id toks e u = (true, b', u') -> b_success b' = true ->
  level < MAX_PREPROCESSOR_DEPTH /\ unitb u' /\ exists p', sim b' p' /\ incl (p_macros p) (p_macros p').
Proof.
  intros W UO UB TO TB D S IM. unfold expand_macro. destruct (Z.leb_spec MAX_PREPROCESSOR_DEPTH (b_depth b)) as [|LM]; [discriminate|].
  rewrite D in LM. destruct e; [discriminate|]. cbv zeta. set (b1 := put_symbol b 0 _).
  assert (W1 : wf b1) by (apply wf_log; auto).
  assert (S1 : sim b1 p) by (eapply sim_same; [exact S|apply same_put_symbol]).
  destruct (last name 0 =? 58).
  - destruct (next_token b1 u) as [[a b2] u2] eqn:N. destruct a as [a|]; [|discriminate]. intros H SU.
    pose proof (next_token_props _ _ _ _ _ W1 UO N) as [R2 W2 O2 M2 T2 _ _].
    pose proof (readb_next b1 u UB) as RB. rewrite N in RB. destruct RB as (Q2 & U2 & TA).
    apply run_macro_sim with (p := p) in H; auto.
    + destruct H as [-> H]. auto.
    + split; auto. apply T2.
    + split; auto.
    + rewrite (r_depth _ _ R2). auto.
    + eapply sim_same; eauto.
  - intros H SU. apply run_macro_sim with (p := p) in H; auto.
    + destruct H as [-> H]. auto.
    + split; auto.
    + split; auto.
Qed.

(** What a token does. *)
Definition token_ok (b : basm) (p : prog) (lex : str) (b' : basm) (u' : unit_) : Prop :=
  exists p1, effect p (b_depth b) lex = Some p1 /\ unitb u' /\
  (hd 0 lex <> chr "~" -> is_macro p lex = false -> sim0 b' p1) /\
  (run empty (lexemes (p_trace p1)) = Some p1 -> exists p2, sim b' p2 /\ incl (p_macros p1) (p_macros p2)).

Lemma flat b p lex b' u' x : effect p (b_depth b) lex = x -> unitb u' -> (exists p1, x = Some p1 /\ sim0 b' p1) -> token_ok b p lex b' u'.
Proof.
  intros E U (p1 & X & S). exists p1. split; [congruence|]. split; auto. split; auto. intros R. exists p1. split; [split; auto|apply incl_refl].
Qed.

Lemma keep_true r u b' u' : keep r u = (true, b', u') -> r = (true, b') /\ u' = u.
Proof. destruct r as [ok b]. cbn. intros [= -> <- <-]. auto. Qed.

Lemma word_sim b t u p b' u' : wf b -> unit_ok u -> unitb u -> tokb t -> b_depth b = level -> sim0 b p ->
  (forall d, effect p d (t_lex t) = match mnemonic (t_lex t) with
            | Some v => place_byte p v
            | None =>
                if is_macro p (t_lex t) then if d <? MAX_DEPTH then Some p else None
                else bind (place_byte p 96) (fun p => place_ref_to p Far (t_lex t))
            end) ->
  process_word pu b t u = (true, b', u') -> b_success b' = true -> token_ok b p (t_lex t) b' u'.
Proof.
  intros W UO UB TB D S EF. unfold process_word. destruct (is_runic _); [discriminate|].
  pose proof (parse_opcode_spec (t_lex t) TB) as PO. specialize (EF (b_depth b)).
  destruct (parse_opcode (t_lex t)) as [[op red]|]; cbn [option_map fst] in PO; rewrite <- PO in EF.
  { intros H _. apply keep_true in H as [H ->]. eapply flat; [exact EF|auto|].
    set (b1 := if red then warning b t MRedundantFlag else b) in *.
    assert (S1 : sim0 b1 p) by (unfold b1; destruct red; auto; eapply sim0_same; eauto with same).
    apply emit_opcode_writes in H; [|rewrite (i_addr _ _ S1); apply S1].
    symmetry in PO. apply mnemonic_byte in PO. unfold is_byte in PO. rewrite Z.mod_small in H by lia. eapply sim0_byte; eauto. }
  pose proof (find_or_create_props b t (t_lex t) W) as (R1 & W1 & _ & K1).
  destruct (find_or_create b t (t_lex t)) as [[v|] b1] eqn:FC; [|discriminate]. cbn [fst snd] in *. destruct K1 as [K1 _].
  destruct (sim0_find _ _ _ _ _ _ TB S FC) as (V & S1 & L & _ & _ & _).
  assert (CALL : ~ In (t_lex t) (p_macros p) -> forall (g : basm -> ret) b0 b', sim0 b0 p ->
            (forall b2 p2, sim0 b2 p2 -> b_symtab b2 = b_symtab b0 -> g b2 = (true, b') -> p_macros p2 = p_macros p ->
              exists p3, place_ref p2 Far (Label (t_lex t)) = Some p3 /\ sim0 b' p3) ->
            (emit_opcode b0 t 96 false ;; b => g b) = (true, b') -> token_ok b p (t_lex t) b' u).
  { intros NM g b0 b'' S0 G H. eapply flat; [exact EF|auto|]. rewrite is_macro_not by auto.
    apply andthen_true in H as (b2 & H1 & H2). apply emit_opcode_writes in H1; [|rewrite (i_addr _ _ S0); apply S0].
    change (96 mod 256) with 96 in H1. destruct (sim0_byte _ _ _ _ S0 H1) as (p2 & E2 & S2). rewrite E2. cbn [bind].
    assert (PM : p_macros p2 = p_macros p).
    { unfold place_byte in E2. destruct (_ && _); [|discriminate]. injection E2 as <-. reflexivity. }
    rewrite place_ref_plain; auto; [|congruence]. apply (G b2 p2); auto. apply H1. }
  destruct (n_entry v) as [|id toks e|id a|id refs] eqn:EN.
  - intros H _. apply keep_true in H as [H ->]. destruct (sim0_unknown _ _ _ _ S1 L EN) as (N1 & _).
    eapply (CALL N1 _ b1 b' S1); [|exact H]. intros b2 p2 S2 SY H2 _. apply (sim0_forward_ref b2 t p2 RRel RShort Far (t_lex t) v false b'); auto; [rewrite SY; exact L|rewrite EN; exact I].
  - intros H SU. destruct (sim0_entry_macro _ _ _ _ _ _ _ S1 L EN) as (N1 & N2 & N3 & N4).
    assert (S2 : sim0 (set_node b1 (t_lex t) (set_referenced v true)) p).
    { eapply sim0_node; eauto. cbn. rewrite EN. auto. }
    assert (IM : is_macro p (t_lex t) = true) by (apply is_macro_in; auto). rewrite IM in EF.
    exists p.
    assert (X : run empty (lexemes (p_trace p)) = Some p -> level < MAX_PREPROCESSOR_DEPTH /\ unitb u' /\ exists p', sim b' p' /\ incl (p_macros p) (p_macros p')).
    { intros RN. eapply expand_sim with (p := p) in H; eauto.
      - apply wf_set_node; auto. cbn. rewrite EN. exact K1.
      - cbn. rewrite (r_depth _ _ R1). auto.
      - split; auto. }
    assert (Y : level < MAX_PREPROCESSOR_DEPTH /\ unitb u').
    { clear X. unfold expand_macro in H. destruct (Z.leb_spec MAX_PREPROCESSOR_DEPTH (b_depth (set_node b1 (t_lex t) (set_referenced v true)))) as [|LM]; [discriminate|].
      assert (D1 : b_depth b1 = level) by (rewrite (r_depth _ _ R1); auto). cbn [b_depth set_node set_symtab] in LM. split; [lia|].
      destruct e; [discriminate|]. cbv zeta in H.
      assert (RM : forall b arg u b' u', run_macro pu b t (t_lex t) (set_referenced v true) id toks arg u = (true, b', u') -> u' = u).
      { clear. intros b arg u b' u'. unfold run_macro. cbv zeta. destruct (pu _ _) as [ok b4]. intros [= _ _ <-]. reflexivity. }
      destruct (last (t_lex t) 0 =? 58); [|apply RM in H; subst; auto].
      match type of H with context [next_token ?x u] => pose proof (readb_next x u UB) as RB; destruct (next_token x u) as [[a b2] u2] end.
      destruct a as [a|]; [|discriminate]. apply RM in H. subst. apply RB. }
    destruct Y as [Y1 Y2]. split; [|split; [auto|split; [congruence|apply X]]].
    rewrite EF. destruct (Z.ltb_spec (b_depth b) MAX_DEPTH); auto. unfold MAX_PREPROCESSOR_DEPTH, MAX_DEPTH in *. lia.
  - intros H _. apply keep_true in H as [H ->]. destruct (sim0_entry_label _ _ _ _ _ _ S1 L EN) as (N1 & N2).
    set (w := set_referenced v true) in *.
    assert (S2 : sim0 (set_node b1 (t_lex t) w) p) by (eapply sim0_node; eauto; cbn; rewrite EN; auto).
    eapply (CALL N1 _ _ _ S2); [|exact H]. intros b2 p2 S3 SY H2 _. apply (sim0_back b2 t p2 RRel RShort Far (t_lex t) w id a false b'); auto.
    rewrite SY. cbn. rewrite lookup_update, L. destruct (str_dec (t_lex t) (t_lex t)); congruence.
  - intros H _. apply keep_true in H as [H ->]. destruct (sim0_entry_forward _ _ _ _ _ _ S1 L EN) as (N1 & _).
    eapply (CALL N1 _ b1 b' S1); [|exact H]. intros b2 p2 S2 SY H2 _. apply (sim0_forward_ref b2 t p2 RRel RShort Far (t_lex t) v false b'); auto; [rewrite SY; exact L|rewrite EN; exact I].
Qed.

Lemma tilde_sim b t u p b' u' : wf b -> unitb u -> b_depth b = level -> sim0 b p ->
  (forall d, effect p d (t_lex t) = if d <? MAX_DEPTH then Some p else None) -> hd 0 (t_lex t) = chr "~" ->
  keep (process_tilde fs pu b t) u = (true, b', u') -> b_success b' = true -> token_ok b p (t_lex t) b' u'.
Proof.
  intros W UB D S EF HD H SU. apply keep_true in H as [H ->]. unfold process_tilde in H.
  destruct (Z.leb_spec MAX_PREPROCESSOR_DEPTH (b_depth b)) as [|LM]; [discriminate|]. rewrite D in LM. cbv zeta in H.
  exists p. split; [|split; [auto|split; [congruence|]]].
  { rewrite EF. destruct (Z.ltb_spec (b_depth b) MAX_DEPTH); auto. unfold MAX_PREPROCESSOR_DEPTH, MAX_DEPTH in *. lia. }
  intros RN. match type of H with context [put_symbol b ?a ?s] => set (b1 := put_symbol b a s) in * end.
  assert (S1 : sim b1 p) by (split; auto; eapply sim0_same; [exact S|apply same_put_symbol]).
  destruct (_ =? 126).
  - assert (Q : same b1 b').
    { destruct (existsb _ _); injection H as <-; auto with same. apply same_set; reflexivity. }
    exists p. split; [eapply sim_same; eauto|apply incl_refl].
  - apply (include_sim b1 (pop_front (t_lex t)) t p b'); auto. apply wf_log; auto.
Qed.

Lemma token_sim b t u p b' u' : wf b -> unit_ok u -> unitb u -> tokb t -> b_depth b = level -> sim0 b p ->
  process_token fs pu b t u = (true, b', u') -> b_success b' = true -> t_lex t <> [] -> token_ok b p (t_lex t) b' u'.
Proof.
  intros W UO UB TB D S H SU NE. pose proof TB as TB'. unfold tokb in TB'.
  revert H. unfold process_token. cbv zeta. destruct (t_lex t) as [|c r] eqn:LX; [congruence|]. cbn [hd]. set (lex := c :: r) in *.
  assert (PF : pop_front lex = r) by reflexivity. rewrite PF. assert (PF' : pop_front (t_lex t) = r) by (rewrite LX; reflexivity).
  pose proof (Forall_inv_tail TB') as BR.
  assert (LEN : (len lex =? 1) = match r with [] => true | _ => false end).
  { destruct r; [reflexivity|]. unfold lex, len. cbn [List.length]. lia. }
  rewrite LEN.
  assert (SAME : forall x b1 u1, effect p (b_depth b) lex = x -> x = Some p -> same b b1 -> unitb u1 -> token_ok b p lex b1 u1).
  { intros x b1 u1 E X Q U1. eapply flat; eauto. exists p. split; auto. eapply sim0_same; eauto. }
  assert (OP : forall op ty sz md, mode_of ty sz = Some md -> is_byte op ->
      effect p (b_depth b) lex = bind (place_byte p op) (fun p => place_ref_to p md r) ->
      keep (emit_opcode b t op true ;; b => emit_label_ref b t ty sz r true) u = (true, b', u') -> token_ok b p lex b' u').
  { intros op ty sz md M B E H. apply keep_true in H as [H ->]. eapply flat; [exact E|auto|]. eapply sim0_op_ref; eauto. }
  assert (REF : forall ty sz md, mode_of ty sz = Some md -> effect p (b_depth b) lex = place_ref_to p md r ->
      keep (emit_label_ref b t ty sz r true) u = (true, b', u') -> token_ok b p lex b' u').
  { intros ty sz md M E H. apply keep_true in H as [H ->]. eapply flat; [exact E|auto|]. eapply sim0_label_ref; eauto. }
  assert (JSI : effect p (b_depth b) lex = bind (place_byte p 96) (fun p => place_ref_to p Far lex) ->
      keep (emit_jsi b t) u = (true, b', u') -> token_ok b p lex b' u').
  { intros E H. apply keep_true in H as [H ->]. unfold emit_jsi in H. rewrite LX in H. eapply flat; [exact E|auto|].
    eapply (sim0_op_ref b t p 96 RRel RShort Far lex false false); eauto. unfold is_byte. lia. }
  assert (B128 : is_byte 128) by (unfold is_byte; lia). assert (B160 : is_byte 160) by (unfold is_byte; lia).
  assert (B64 : is_byte 64) by (unfold is_byte; lia). assert (B32 : is_byte 32) by (unfold is_byte; lia).
  destruct (ex_intro (fun e => e = effect p) (effect p) eq_refl) as [e EE].
  assert (EFF : forall d, e d lex = effect p d (c :: r)) by (intros; rewrite EE; reflexivity).
  unfold effect in EFF. cbv zeta in EFF. fold lex in EFF. revert EFF.
  destruct (c =? chr "(").
  { intros EFF H. pose proof (process_comment_same b t u UB) as C. rewrite H in C. destruct C as [Q U']. eapply SAME; [rewrite <- EE; apply EFF|reflexivity|auto|auto]. }
  destruct (c =? chr ")"). { intros _ H. apply keep_true in H as [H _]. discriminate. }
  destruct (c =? chr "["). { intros EFF [= <- <-]. eapply SAME; [rewrite <- EE; apply EFF|reflexivity|apply same_put_symbol|auto]. }
  destruct (c =? chr "]").
  { intros EFF H. destruct r; [|apply keep_true in H as [H _]; discriminate]. injection H as <- <-. eapply SAME; [rewrite <- EE; apply EFF|reflexivity|apply same_put_symbol|auto]. }
  destruct (Z.eqb_spec c (chr "~")) as [CT|_].
  { intros EFF H. rewrite <- LX. eapply tilde_sim; eauto; [intros d; rewrite LX; rewrite <- EE; apply EFF|rewrite LX; exact CT]. }
  destruct (c =? chr "%").
  { intros EFF H. destruct (sim0_macro _ _ _ _ _ _ _ S BR PF' UB H) as (p' & E' & S' & U'). eapply flat; [rewrite <- EE; apply EFF|auto|]. eauto. }
  destruct (c =? chr "@").
  { intros EFF H. apply keep_true in H as [H ->]. eapply flat; [rewrite <- EE; apply EFF|auto|]. eapply sim0_global; eauto. }
  destruct (c =? chr "&").
  { intros EFF H. apply keep_true in H as [H ->]. eapply flat; [rewrite <- EE; apply EFF|auto|]. eapply sim0_local; eauto. }
  destruct (c =? chr "!"). { intros EFF H. apply (OP 64 RRel RShort Far); auto. rewrite <- EE. apply EFF. }
  destruct (c =? chr "?"). { intros EFF H. apply (OP 32 RRel RShort Far); auto. rewrite <- EE. apply EFF. }
  destruct (c =? chr "}").
  { intros EFF H. destruct r; [|apply keep_true in H as [H _]; discriminate].
    apply keep_true in H as [H ->]. eapply flat; [rewrite <- EE; apply EFF|auto|].
    destruct (sim0_close _ _ _ _ S H) as (k & l & p' & -> & E & S'). eauto. }
  destruct (c =? chr "{").
  { intros EFF H. destruct r; [|apply keep_true in H as [H _]; discriminate]. apply JSI; auto. rewrite <- EE. apply EFF. }
  destruct (c =? chr "/"). { intros EFF H. apply JSI; auto. rewrite <- EE. apply EFF. }
  destruct (c =? chr "|").
  { intros EFF H. apply keep_true in H as [H ->]. eapply flat; [rewrite <- EE; apply EFF|auto|]. eapply sim0_abs; eauto. }
  destruct (c =? chr "$").
  { intros EFF H. apply keep_true in H as [H ->]. eapply flat; [rewrite <- EE; apply EFF|auto|]. eapply sim0_rel; eauto. }
  destruct (c =? chr "#").
  { intros EFF H. apply keep_true in H as [H ->]. eapply flat; [rewrite <- EE; apply EFF|auto|]. eapply sim0_lit; eauto. }
  destruct (c =? chr "."). { intros EFF H. apply (OP 128 RZero RByte Low); auto. rewrite <- EE. apply EFF. }
  destruct (c =? chr "-"). { intros EFF H. apply (REF RZero RByte Low); auto. rewrite <- EE. apply EFF. }
  destruct (c =? chr ","). { intros EFF H. apply (OP 128 RRel RByte Near); auto. rewrite <- EE. apply EFF. }
  destruct (c =? chr "_"). { intros EFF H. apply (REF RRel RByte Near); auto. rewrite <- EE. apply EFF. }
  destruct (c =? chr ";"). { intros EFF H. apply (OP 160 RAbs RShort Whole); auto. rewrite <- EE. apply EFF. }
  destruct (c =? chr "="). { intros EFF H. apply (REF RAbs RShort Whole); auto. rewrite <- EE. apply EFF. }
  destruct (c =? 34).
  { intros EFF H. apply keep_true in H as [H ->]. eapply flat; [rewrite <- EE; apply EFF|auto|]. eapply sim0_text; eauto. }
  rewrite is_number_spec. pose proof (literal_spec lex) as LS. unfold read_literal in LS.
  destruct (read_number lex) as [| |v n h] eqn:RN.
  - intros EFF H. rewrite <- LX. eapply word_sim; eauto. intros d. rewrite LX. rewrite <- EE. apply EFF.
  - intros EFF H. apply keep_true in H as [H _]. unfold process_raw_number in H. rewrite LX in H. destruct LS as [m LS]. rewrite LS in H. discriminate.
  - intros EFF H. apply keep_true in H as [H ->]. eapply flat; [rewrite <- EE; apply EFF|auto|].
    rewrite <- LX. eapply sim0_raw; eauto.
Qed.

Lemma unit_loop_sim fuel : forall b u p b', wf b -> unit_ok u -> unitb u -> b_depth b = level -> (mu b u < fuel)%nat ->
  sim b p -> unit_loop fs pu fuel b u = (true, b') -> b_success b' = true ->
  exists p', sim b' p' /\ incl (p_macros p) (p_macros p').
Proof.
  induction fuel as [|fuel IH]; intros b u p b' W UO UB D M S H SU; [lia|]. cbn [unit_loop] in H.
  destruct (next_token b u) as [[t b1] u1] eqn:N.
  pose proof (next_token_props _ _ _ _ _ W UO N) as [R1 W1 O1 M1 T1 B1 K1].
  pose proof (readb_next b u UB) as RB. rewrite N in RB. destruct RB as (Q1 & U1 & TB).
  destruct t as [t|].
  2:{ injection H as _ <-. exists p. split; [eapply sim_same; eauto|apply incl_refl]. }
  destruct T1 as [Tok M2]. unfold tok_ok in Tok. destruct (t_lex t) as [|c l] eqn:L; [congruence|]. rewrite <- L in *. clear c l L.
  cbv zeta in H. set (b2 := log b1 (ETok (b_scope b1) (b_addr b1) (t_lex t))) in *.
  assert (W2 : wf b2) by (apply wf_log; auto).
  assert (R2 : rel b1 b2) by (apply rel_log; cbn; auto).
  assert (D2 : b_depth b2 = level) by (rewrite (r_depth _ _ R2), (r_depth _ _ R1); auto).
  destruct S as [S RN]. pose proof (sim0_same _ _ _ S Q1) as S1.
  set (o := mkOcc level (p_scope p) (p_addr p) (t_lex t)).
  assert (S2 : sim0 b2 (with_occ p o)).
  { destruct S1. constructor; auto.
    - unfold b2. rewrite tr_log, i_tr. cbn [trace_step fst snd p_trace with_occ].
      change (b_depth (log b1 _)) with (b_depth b1). unfold o. rewrite <- i_scope, <- i_addr. rewrite <- D2. reflexivity.
    - eapply mem_ext; [|exact i_mem]. intros a. unfold b2. rewrite mem_log. reflexivity. }
  pose proof (process_token_props fs pu level PU b2 t u1 W2 O1 D2 Tok) as [R3 W3 O3 M3 F3 B3 K3].
  destruct (process_token fs pu b2 t u1) as [[ok b3] u3] eqn:PT. cbn [fst snd] in *. destruct ok; [|discriminate].
  assert (D3 : b_depth b3 = level) by (rewrite (r_depth _ _ R3); auto).
  specialize (M3 eq_refl). assert (MU : mu b2 u1 = mu b1 u1) by (destruct u1; reflexivity).
  pose proof (unit_loop_props fs pu level PU fuel b3 u3 W3 O3 D3 ltac:(lia)) as [[R4 _ _ _] _]. rewrite H in R4. cbn [snd] in R4.
  assert (SU3 : b_success b3 = true).
  { destruct (b_success b3) eqn:E; auto. apply (rel_failed _ _ R4) in E. congruence. }
  destruct (token_sim b2 t u1 (with_occ p o) b3 u3 W2 O1 U1 TB D2 S2 PT SU3 Tok) as (p1 & E1 & U3 & _ & X).
  destruct (effect_grows _ _ _ _ E1) as [G1 G2].
  destruct X as (p2 & S3 & I2).
  { rewrite G1. cbn [p_trace with_occ]. rewrite lexemes_cons, run_app, RN. cbn [bind run o_depth o_lex o].
    unfold step. rewrite D2 in E1. fold o. rewrite E1. reflexivity. }
  destruct (IH b3 u3 p2 b' W3 O3 U3 D3 ltac:(lia) S3 H SU) as (p' & S' & I').
  exists p'. split; auto. eapply incl_tran; [|exact I']. eapply incl_tran; [|exact I2]. exact G2.
Qed.
End Nested.

Lemma process_unit_sim fs d : forall b u p b', wf b -> unit_ok u -> unitb u ->
  b_depth b <= MAX_PREPROCESSOR_DEPTH -> 33 <= b_depth b + Z.of_nat d ->
  sim b p -> process_unit fs d b u = (true, b') -> b_success b' = true ->
  exists p', sim b' p' /\ incl (p_macros p) (p_macros p').
Proof.
  induction d as [|d IH]; intros b u p b' W UO UB D1 D2 S H SU; cbn [process_unit] in H.
  - unfold MAX_PREPROCESSOR_DEPTH in *. lia.
  - pose proof (unit_fuel_enough b u) as FU.
    apply (unit_loop_sim fs (process_unit fs d) (b_depth b)) with (fuel := unit_fuel u) (b := b) (u := u); auto; [| |lia].
    + intros b0 u0 W0 U0 D0 L. apply process_unit_props; auto; lia.
    + intros b0 u0 p0 b0' W0 U0 UB0 D0 L S0 E0 SU0. eapply IH; eauto; lia.
Qed.

(** ** The whole *)
Lemma sim_open file : sim (log start (EOpen file)) empty.
Proof.
  split; [|reflexivity].
  assert (NC : forall t, pending [] [] t) by (intros t; split; [intros a md x i []|intros r []]).
  constructor; try reflexivity.
  - cbn. unfold is_short. lia.
  - repeat constructor; unfold is_byte; lia.
  - constructor.
  - intros t l. discriminate.
  - intros n. cbn. auto.
  - constructor; cbn; try constructor; try tauto; try discriminate.
  - constructor; cbn; try tauto; try discriminate.
Qed.

Lemma file_sim fs file b' : process_file fs (process_unit fs DEPTH) start file = (true, b') -> b_success b' = true ->
  exists p, sim b' p /\ wf b' /\ b_depth b' = 0.
Proof.
  intros H SU. pose proof (process_file_unit fs DEPTH start file wf_start ltac:(discriminate) ltac:(unfold DEPTH; cbn; lia)) as [_ D W _ _].
  rewrite H in D, W. cbn [snd] in D, W.
  unfold process_file in H. destruct (find_file fs file) as [c|]; [|discriminate]. cbv zeta in H.
  destruct (process_unit fs DEPTH (log start (EOpen file)) (UFile file c (mkPos 1 1 0))) as [ok b] eqn:E.
  injection H as -> <-. change (b_success b = true) in SU.
  destruct (process_unit_sim fs DEPTH (log start (EOpen file)) (UFile file c (mkPos 1 1 0)) empty b) as (p & [S R] & _);
    try exact I; auto; [apply wf_log, wf_start|discriminate|cbn; unfold DEPTH; lia|apply sim_open|].
  exists p. split; auto. split; auto. change (b_depth b = 0) in D. destruct S. constructor; auto.
  - rewrite tr_log, i_tr. cbn [trace_step fst snd depth_step]. change (b_depth (log b (EClose file))) with (b_depth b). rewrite D. reflexivity.
  - eapply mem_ext; [|exact i_mem]. intros a. rewrite mem_log. reflexivity.
Qed.

Lemma deferred_success fs fuel : forall i b b', wf b -> b_depth b = 0 ->
  deferred_loop fs fuel i b = (true, b') -> b_success b' = true -> b_success b = true.
Proof.
  induction fuel as [|fuel IH]; intros i b b' W D H SU; cbn [deferred_loop] in H; [discriminate|].
  destruct (nth_error (b_deferred b) i) as [[name t]|]; [|injection H as <-; auto].
  pose proof (process_include_unit fs b name t W D) as [R2 W2 _ _].
  destruct (process_include fs (process_unit fs DEPTH) b name t) as [ok b2]. destruct ok; [|discriminate].
  cbn [andthen fst snd] in *. destruct (b_success b) eqn:E; auto. apply (rel_failed _ _ R2) in E.
  rewrite <- E. eapply IH; eauto. rewrite (r_depth _ _ R2). auto.
Qed.

Lemma deferred_sim fs fuel : forall i b p b', sim b p -> wf b -> b_depth b = 0 ->
  deferred_loop fs fuel i b = (true, b') -> b_success b' = true -> exists p', sim b' p'.
Proof.
  assert (PU : forall b u, wf b -> unit_ok u -> b_depth b = 0 + 1 -> 0 < MAX_PREPROCESSOR_DEPTH -> npost b (process_unit fs DEPTH b u)).
  { intros b' u' W' U' D' _. apply process_unit_props; auto; rewrite D'; [discriminate|]. unfold DEPTH. lia. }
  induction fuel as [|fuel IH]; intros i b p b' S W D H SU; cbn [deferred_loop] in H; [discriminate|].
  destruct (nth_error (b_deferred b) i) as [[name t]|]; [|injection H as <-; eauto].
  pose proof (process_include_unit fs b name t W D) as [R1 W1 _ _].
  destruct (process_include fs (process_unit fs DEPTH) b name t) as [ok b1] eqn:P. destruct ok; [|discriminate].
  cbn [andthen fst snd] in *. pose proof (r_depth _ _ R1) as D1. rewrite D in D1.
  assert (SU1 : b_success b1 = true).
  { eapply deferred_success; eauto. }
  destruct (include_sim fs (process_unit fs DEPTH) 0 PU) with (b := b) (n := name) (t := t) (p := p) (b' := b1) as (p1 & S1 & _); auto; [|reflexivity|].
  - intros b0 u0 p0 b0' W0 U0 UB0 D0 _ S0 E0 SU0. eapply process_unit_sim; eauto; rewrite D0; [discriminate|unfold DEPTH; lia].
  - eapply IH; eauto.
Qed.

(** What the reports at the end find. *)
Lemma same_fold {A} (f : basm -> A -> basm) l : (forall b x, same b (f b x)) -> forall b, same b (fold_left f l b).
Proof. intros H. induction l as [|x l IH]; intros b; cbn; auto with same. eapply same_trans; eauto. Qed.
Lemma same_report_symbol b nv : same b (report_symbol b nv).
Proof.
  destruct nv as [n v]. unfold report_symbol. destruct (n_entry v); auto with same.
  - destruct (_ && _); auto with same.
  - destruct (_ && _); auto with same.
  - apply same_fold. auto with same.
Qed.
Lemma same_reports b : same b (reports b).
Proof.
  unfold reports, report_ats, report_lambdas. eapply same_trans; [|apply same_fold; apply same_report_symbol].
  eapply same_trans; [|apply same_fold; auto with same]. apply same_fold. auto with same.
Qed.
Lemma fold_errors {A} (f : A -> region) m l b :
  b_success (fold_left (fun b r => error_ex b m (Some (f r))) l b) = true -> l = [] .
Proof.
  destruct l as [|x l]; auto. cbn [fold_left]. intros H. exfalso.
  assert (R : rel (error_ex b m (Some (f x))) (fold_left (fun b r => error_ex b m (Some (f r))) l (error_ex b m (Some (f x))))) by (apply rel_fold; intros; apply rel_error).
  apply rel_failed in R; [congruence|reflexivity].
Qed.
Definition settled (v : node) : Prop := match n_entry v with EnUnknown => False | EnForward _ refs => refs = [] | _ => True end.
Lemma report_symbols l : forall b, b_success (fold_left report_symbol l b) = true -> Forall (fun nv => settled (snd nv)) l.
Proof.
  induction l as [|[n v] l IH]; intros b H; constructor; cbn [fold_left] in H.
  - assert (SU : b_success (report_symbol b (n, v)) = true).
    { destruct (b_success (report_symbol b (n, v))) eqn:E; auto.
      assert (R : rel (report_symbol b (n, v)) (fold_left report_symbol l (report_symbol b (n, v)))) by (apply rel_fold; intros; apply rel_report_symbol).
      apply rel_failed in R; [congruence|auto]. }
    unfold settled, report_symbol in *. cbn [snd]. destruct (n_entry v); auto; [discriminate|]. eapply (fold_errors (fun r => t_reg (f_tok r))); exact SU.
  - eapply IH; eauto.
Qed.
Lemma lookup_settled l n v : Forall (fun nv : str * node => settled (snd nv)) l -> lookup n l = Some v -> settled v.
Proof.
  induction 1 as [|[k w] l' Hx Hl IH]; cbn; [discriminate|]. destruct (str_dec k n); auto. intros [= <-]. auto.
Qed.
Lemma reports_settled b : b_success (reports b) = true -> b_lambdas b = [] /\ forall n v, lookup n (b_symtab b) = Some v -> settled v.
Proof.
  unfold reports. set (b1 := report_lambdas b). set (b2 := report_ats b1). intros H.
  assert (Q : same b b2).
  { eapply same_trans; [apply (same_fold (fun b r => error_ex b MUnbalancedLambda (Some (t_reg (f_tok r))))); auto with same|]. apply same_fold. auto with same. }
  split.
  - apply (fold_errors (fun r => t_reg (f_tok r)) MUnbalancedLambda _ b). change (b_success b1 = true).
    destruct (b_success b1) eqn:E; auto.
    assert (R : rel b1 (fold_left report_symbol (b_symtab b2) b2)).
    { eapply rel_trans; [|apply rel_fold; intros; apply rel_report_symbol]. apply rel_fold. intros. apply rel_warning. }
    apply rel_failed in R; [congruence|auto].
  - intros n v L. rewrite <- (e_symtab _ _ Q) in L. eapply lookup_settled; [|exact L]. eapply report_symbols; eauto.
Qed.

Lemma cell_byte_in p c : cell_byte p c = byte_in (p_labels p) c.
Proof. destruct c as [v|m t x i]; [reflexivity|]. destruct t; reflexivity. Qed.

(** The main fact about successful runs. *)
Theorem asm_follows fs m file b :
  asm fs m file = (true, b) -> b_fault b = None ->
  exists p, run empty (lexemes (p_trace p)) = Some p /\ p_trace p = trace (rev (b_out b)) /\ complete p /\
    (forall a c, only_at p a c -> rom (rev (b_out b)) a = cell_byte p c) /\
    (forall a, (forall c, ~ In (a, c) (p_cells p)) -> rom (rev (b_out b)) a = None) /\
    (forall a c, In (a, c) (p_cells p) -> 256 <= a <= 65535 /\ rom (rev (b_out b)) a <> None).
Proof.
  unfold asm. destruct (process_file fs (process_unit fs DEPTH) start file) as [ok b0] eqn:PF. destruct ok; cbn [negb].
  2:{ intros [= E <-] _. exfalso.
      pose proof (process_file_unit fs DEPTH start file wf_start ltac:(discriminate) ltac:(unfold DEPTH; cbn; lia)) as [_ _ _ _ F].
      rewrite PF in F. cbn [fst snd] in F. rewrite F in E by reflexivity. discriminate. }
  unfold resolve. destruct (deferred_loop fs m 0 b0) as [ok b1] eqn:DL. destruct ok; cbn [andthen].
  - fold (reports b1). intros [= SU <-] FA.
    assert (SU1 : b_success b1 = true).
    { destruct (b_success b1) eqn:E; auto. apply (rel_failed _ _ (rel_reports b1)) in E. congruence. }
    assert (SU0 : b_success b0 = true).
    { pose proof (process_file_unit fs DEPTH start file wf_start ltac:(discriminate) ltac:(unfold DEPTH; cbn; lia)) as [_ D W _ _].
      rewrite PF in D, W. eapply deferred_success; eauto. }
    destruct (file_sim _ _ _ PF SU0) as (p0 & S0 & W0 & D0).
    destruct (deferred_sim _ _ _ _ _ _ S0 W0 D0 DL SU1) as (p & [S1 R1]).
    destruct (reports_settled b1 SU) as [NL NS].
    pose proof (sim0_same _ _ _ S1 (same_reports b1)) as S2.
    assert (C : complete p).
    { destruct S1. rewrite NL in i_lams. destruct i_lams. inversion l_open. split; auto.
      intros a c I. rewrite cell_byte_in. destruct c as [v|md t x i]; [discriminate|]. cbn [byte_in].
      destruct (k_part _ _ _ i_mem _ _ _ _ _ I) as [_ B].
      assert (A : addr_in (p_labels p) t <> None).
      { destruct t as [n|k|l]; cbn [addr_in].
        - pose proof (i_names n) as N. unfold name_ok in N. destruct (lookup n (b_symtab b1)) as [w|] eqn:L.
          + specialize (NS _ _ L). unfold settled in NS. destruct (n_entry w) as [|id toks e|id a'|id refs].
            * contradiction.
            * destruct N as (_ & _ & [P _] & _). destruct (P _ _ _ _ I) as (r & [] & _).
            * destruct N as [_ ->]. discriminate.
            * destruct N as (_ & _ & [P _]). subst. destruct (P _ _ _ _ I) as (r & [] & _).
          + destruct N as (_ & _ & [P _]). destruct (P _ _ _ _ I) as (r & [] & _).
        - destruct (l_cells _ _ _ _ _ I) as [_ [J|J]]; auto. rewrite <- H in J. destruct J.
        - discriminate. }
      destruct (addr_in (p_labels p) t) as [l|] eqn:AI; [|congruence].
      pose proof (k_range _ _ _ i_mem _ _ _ _ _ _ I AI) as E. destruct (encode md x l) as [bs|] eqn:EB; [|congruence].
      pose proof (encode_len _ _ _ _ EB) as LB. intros NE. apply nth_error_None in NE. unfold len in LB. lia. }
    pose proof (i_mem _ _ S2) as M.
    exists p. split; auto. split; [|split; [auto|split; [|split]]].
    + symmetry. change (fst (tr (reports b1)) = p_trace p). rewrite (i_tr _ _ S2). reflexivity.
    + intros a c O. destruct (cell_byte p c) as [v|] eqn:B.
      * rewrite cell_byte_in in B. eapply (k_mem _ _ _ M); eauto.
      * exfalso. apply only_is_in in O. destruct C as [_ C]. eapply C; eauto.
    + intros a N. apply (k_none _ _ _ M). auto.
    + intros a c I. split; [eapply (k_in _ _ _ M); eauto|eapply (k_some _ _ _ M); eauto].
  - intros [= SU <-] FA. exfalso.
    pose proof (process_file_unit fs DEPTH start file wf_start ltac:(discriminate) ltac:(unfold DEPTH; cbn; lia)) as [_ D W _ _].
    rewrite PF in D, W. cbn [snd] in D, W. clear - DL SU D W FA. revert DL SU D W FA. generalize 0%nat at 1. revert b0.
    induction m as [|m IH]; intros b0 i H SU D W FA; cbn [deferred_loop] in H.
    { injection H as <-. discriminate. }
    destruct (nth_error (b_deferred b0) i) as [[name t]|]; [|discriminate].
    pose proof (process_include_unit fs b0 name t W D) as [R2 W2 _ F2].
    destruct (process_include fs (process_unit fs DEPTH) b0 name t) as [ok b2]. cbn [fst snd] in *. destruct ok; cbn [andthen] in H.
    + eapply IH; eauto. rewrite (r_depth _ _ R2). auto.
    + injection H as <-. rewrite F2 in SU by reflexivity. discriminate.
Qed.
