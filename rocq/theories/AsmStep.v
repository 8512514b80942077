(** Every token without nested units has the effect that AsmSpec gives it. *)
From Verif Require Import Base AsmModel AsmSpec AsmWords AsmLink AsmSim AsmRefs AsmToken.
From Coq Require Import ZifyBool Ascii String.
Open Scope list_scope.
Ltac Zify.zify_post_hook ::= Z.div_mod_to_equations.

Lemma up_to_before s : up_to_slash s = before_slash s.
Proof. reflexivity. Qed.
Lemma before_bytes s : Forall is_byte s -> Forall is_byte (before_slash s).
Proof. induction 1; cbn [before_slash]; auto. destruct (_ =? _); auto. Qed.
Lemma sim0_scope b p s : sim0 b p -> Forall is_byte s -> sim0 (set_scope b s) (with_scope p s).
Proof. intros [] F. constructor; auto. Qed.
Lemma sim0_addr b p a : sim0 b p -> is_short a -> sim0 (set_addr b a) (with_addr p a).
Proof. intros [] F. constructor; auto. Qed.

Lemma sim0_global b t p r b' : sim0 b p -> Forall is_byte r -> pop_front (t_lex t) = r ->
  process_global_label b t = (true, b') -> b_success b' = true ->
  exists p', (if str_dec r (bytes "@") then Some (with_ats p (p_addr p :: p_ats p))
              else bind (define_name p r) (fun p => Some (with_scope p (before_slash r)))) = Some p' /\ sim0 b' p'.
Proof.
  intros S F E. unfold process_global_label. rewrite E. unfold str_eqb. change (bytes "@") with [64].
  destruct (str_dec r [64]) as [->|N].
  - cbv zeta. destruct (make_lambda_name _ _) as [n b1] eqn:ML. intros H _. injection H as <-.
    eexists. split; [reflexivity|].
    assert (Q : forall x, same (set_ats (set_nlambdas (set_labels b (u16 (b_labels b + 1))) (u16 (b_nlambdas b + 1)))
                         (mkRef t (u16 (b_labels b + 1)) (b_nlambdas b) (b_addr b) RZero RByte :: b_ats b)) x ->
              sim0 x (with_ats p (p_addr p :: p_ats p))).
    { intros x X. eapply sim0_same; [|exact X]. destruct S. constructor; auto; cbn; [congruence|constructor; auto]. }
    apply Q. eapply same_trans; [|apply same_put_symbol].
    unfold make_lambda_name in ML. injection ML as <- <-. destruct (4096 <=? _); auto with same. apply same_log. exact I.
  - intros H SU. apply andthen_true in H as (b1 & H1 & H2). injection H2 as <-.
    destruct (sim0_register _ _ _ _ _ S F H1 SU) as (p' & E' & S' & _). rewrite E'. cbn [bind]. eexists. split; [reflexivity|].
    rewrite up_to_before. apply sim0_scope; auto. apply before_bytes; auto.
Qed.

Lemma sim0_local b t p r b' : sim0 b p -> Forall is_byte r -> pop_front (t_lex t) = r ->
  process_local_label b t = (true, b') -> b_success b' = true ->
  exists p', bind (local p r) (define_name p) = Some p' /\ sim0 b' p'.
Proof.
  intros S F E. unfold process_local_label. rewrite E. pose proof (local_spec b t p r S) as L.
  destruct (resolve_local_name b t r) as [[full|] b1]; [|discriminate]. destruct L as [L ->]. intros H SU.
  destruct (local_bytes _ _ _ (i_scopeb _ _ S) F L) as [FF _]. rewrite L. cbn [bind].
  destruct (sim0_register _ _ _ _ _ S FF H SU) as (p' & E' & S' & _). eauto.
Qed.

Lemma sim0_padding b t p r n b1 : sim0 b p -> Forall is_byte r -> pop_front (t_lex t) = r ->
  resolve_padding b t = (Some n, b1) -> exists p', padding p r = Some (n, p') /\ sim0 b1 p' /\ is_short n.
Proof.
  intros S F E. unfold resolve_padding. rewrite E. destruct r as [|c s]; [discriminate|]. set (r := c :: s) in *.
  rewrite is_number_spec. unfold padding. pose proof (parse_number_spec r) as P.
  destruct (read_number r) as [| |v k h].
  - pose proof (resolve_spec b t p r S) as R. destruct (resolve_label_ref b t r) as [[full|] b2]; [|discriminate].
    destruct R as [R ->]. fold (full_name p r). change (bytes "@") with [64]. unfold str_eqb.
    destruct (str_dec full [64]) as [->|N2].
    + rewrite (full_at _ _ _ S F R). destruct (str_dec [64] [64]); [|congruence].
      destruct (pop_at_label b) as [[l|] b2] eqn:PA; [|discriminate]. intros [= <- <-].
      destruct (sim0_pop _ _ _ _ S PA) as (rest & -> & S1 & SH & A). eauto.
    + destruct (str_dec r [64]) as [E64|N3].
      { exfalso. rewrite E64 in R. change (Some [64] = Some full) in R. congruence. }
      rewrite R. cbn [bind]. destruct (lookup full (b_symtab b)) as [v|] eqn:L; [|discriminate].
      destruct (n_entry v) as [|id toks e|id a|id refs] eqn:EN; try discriminate. intros [= <- <-].
      destruct (sim0_entry_label _ _ _ _ _ _ S L EN) as (Q1 & Q2). rewrite Q2. cbn [bind]. eexists. split; [reflexivity|].
      split; [|eapply (i_labels _ _ S); eauto]. eapply sim0_node; eauto. cbn. rewrite EN. auto.
  - destruct P as [m ->]. discriminate.
  - destruct P as (-> & SH & _). intros [= <- <-]. eauto.
Qed.

Lemma sim0_abs b t p r b' : sim0 b p -> Forall is_byte r -> pop_front (t_lex t) = r ->
  process_abs_padding b t = (true, b') ->
  exists p', bind (padding p r) (fun '(v, p) => Some (with_addr p v)) = Some p' /\ sim0 b' p'.
Proof.
  intros S F E. unfold process_abs_padding. destruct (resolve_padding b t) as [[n|] b1] eqn:P; [|discriminate]. intros [= <-].
  destruct (sim0_padding _ _ _ _ _ _ S F E P) as (p1 & -> & S1 & SH). cbn [bind]. eexists. split; [reflexivity|].
  apply sim0_addr; auto.
Qed.
Lemma sim0_rel b t p r b' : sim0 b p -> Forall is_byte r -> pop_front (t_lex t) = r ->
  process_rel_padding b t = (true, b') ->
  exists p', bind (padding p r) (fun '(v, p) => Some (with_addr p ((p_addr p + v) mod 65536))) = Some p' /\ sim0 b' p'.
Proof.
  intros S F E. unfold process_rel_padding. destruct (resolve_padding b t) as [[n|] b1] eqn:P; [|discriminate]. cbv zeta. intros [= <-].
  destruct (sim0_padding _ _ _ _ _ _ S F E P) as (p1 & -> & S1 & SH). cbn [bind]. eexists. split; [reflexivity|].
  eapply (sim0_same (set_addr b1 (u16 (b_addr b1 + n)))).
  - unfold u16. rewrite (i_addr _ _ S1). apply sim0_addr; auto. unfold is_short. lia.
  - destruct (_ <? _); auto with same.
Qed.

Lemma number_writes b t v n r b' : is_short (b_addr b) -> is_short v -> n = 1 /\ is_byte v \/ n = 2 ->
  (if n =? 1 then emit_byte b t (u8 v) r else emit_short b t v r) = (true, b') -> writes b b' (number_bytes (v, n)).
Proof.
  intros A SH [[-> B]| ->]; cbn [number_bytes]; change (1 =? 1) with true; change (2 =? 1) with false; cbv iota; intros H.
  - apply emit_byte_writes in H; auto. unfold u8 in H. rewrite Z.mod_mod in H by lia. exact H.
  - apply emit_short_writes in H; auto.
Qed.

Lemma sim0_raw b t p b' : sim0 b p -> process_raw_number b t = (true, b') ->
  exists p', bind (read_literal (t_lex t)) (fun vn => place_bytes p (number_bytes vn)) = Some p' /\ sim0 b' p'.
Proof.
  intros S. unfold process_raw_number. pose proof (literal_spec (t_lex t)) as L.
  destruct (read_literal (t_lex t)) as [[v n]|].
  - destruct L as (-> & SH & K). intros H. apply number_writes in H; auto; [|rewrite (i_addr _ _ S); apply S].
    cbn [bind]. eapply sim0_bytes; eauto; cbn; destruct (n =? 1); discriminate.
  - destruct L as [m ->]. discriminate.
Qed.
Lemma sim0_lit b t p r b' : sim0 b p -> pop_front (t_lex t) = r -> process_lit_number b t = (true, b') ->
  exists p', bind (read_literal r) (fun vn => place_bytes p ((if snd vn =? 1 then 128 else 160) :: number_bytes vn)) = Some p' /\ sim0 b' p'.
Proof.
  intros S E. unfold process_lit_number. rewrite E. pose proof (literal_spec r) as L.
  destruct (read_literal r) as [[v n]|].
  - destruct L as (-> & SH & K). intros H. cbn [bind snd].
    assert (X : exists b1, emit_opcode b t (if n =? 1 then 128 else 160) true = (true, b1) /\
                (if n =? 1 then emit_byte b1 t (u8 v) true else emit_short b1 t v true) = (true, b')).
    { destruct (n =? 1); apply andthen_true in H as (b1 & H1 & H2); eauto. }
    destruct X as (b1 & H1 & H2). apply emit_opcode_writes in H1; [|rewrite (i_addr _ _ S); apply S].
    assert (A1 : is_short (b_addr b1)) by (rewrite (w_addr _ _ _ H1); unfold is_short; lia).
    apply number_writes in H2; auto.
    replace ((if n =? 1 then 128 else 160) mod 256) with (if n =? 1 then 128 else 160) in H1 by (destruct (n =? 1); reflexivity).
    eapply sim0_bytes; eauto; [discriminate|].
    change (writes b b' ([if n =? 1 then 128 else 160] ++ number_bytes (v, n))). eapply writes_app; eauto.
    cbn. destruct (n =? 1); discriminate.
  - destruct L as [m ->]. discriminate.
Qed.

Lemma emit_text_writes s : forall b t sym a b', s <> [] -> Forall is_byte s -> is_short (b_addr b) ->
  emit_text b t sym a s = (true, b') -> writes b b' s.
Proof.
  induction s as [|c s IH]; intros b t sym a b' N F A H; [congruence|]. cbn [emit_text] in H. inversion F as [|? ? B F']; subst.
  apply andthen_true in H as (b1 & H1 & H2). apply emit_writes in H1; auto. rewrite Z.mod_small in H1 by (unfold is_byte in B; lia).
  pose proof (writes_same _ _ _ _ H1 (same_put_symbol b1 a sym)) as H3.
  destruct s as [|d s].
  - cbn [emit_text] in H2. injection H2 as <-. auto.
  - change (c :: d :: s) with ([c] ++ (d :: s)). eapply writes_app; [exact H3| |discriminate]. eapply IH; [discriminate|auto| |exact H2].
    rewrite (w_addr _ _ _ H3). unfold is_short. lia.
Qed.
Lemma sim0_text b t p c r b' : sim0 b p -> Forall is_byte r -> t_lex t = c :: r -> process_text b t = (true, b') ->
  exists p', match r with [] => None | _ => place_bytes p r end = Some p' /\ sim0 b' p'.
Proof.
  intros S F E. unfold process_text. rewrite E. destruct (len (c :: r) <=? 1) eqn:L; [discriminate|].
  unfold pop_front. cbn [tl]. intros H. destruct r as [|d r]; [cbn in L; discriminate|].
  apply emit_text_writes in H; auto; [|discriminate|rewrite (i_addr _ _ S); apply S]. eapply sim0_bytes; eauto. discriminate.
Qed.

(** ** Macros *)
Lemma name_macro o macros labels cells m n : m <> n ->
  name_ok o macros labels cells m -> name_ok o (n :: macros) labels cells m.
Proof.
  intros N. assert (Q : forall P : Prop, (~ In m macros) /\ P -> (~ In m (n :: macros)) /\ P).
  { intros P [H1 H2]. split; auto. intros [E|E]; congruence. }
  unfold name_ok. destruct o as [v|]; [destruct (n_entry v)|]; auto.
  intros (H1 & H2). split; auto. right. auto.
Qed.

Lemma sim0_macro b t p r u b' u' : sim0 b p -> Forall is_byte r -> pop_front (t_lex t) = r -> unitb u ->
  process_macro b t u = (true, b', u') ->
  exists p', (if valid_name r && negb (is_macro p r) && negb (is_label p (Label r)) then Some (with_macro p r) else None) = Some p' /\
             sim0 b' p' /\ unitb u'.
Proof.
  intros S F E U. unfold process_macro. rewrite E. destruct (find_or_create b t r) as [[v|] b1] eqn:FC; [|discriminate].
  destruct (sim0_find _ _ _ _ _ _ F S FC) as (V & S1 & L & _).
  destruct (n_entry v) as [|id toks e|id a|id refs] eqn:EN; try discriminate.
  destruct (sim0_unknown _ _ _ _ S1 L EN) as (N1 & N2 & N3). rewrite V, is_macro_not, is_label_none by auto. cbn [andb negb].
  unfold create_macro. cbv zeta. set (id := u16 (b_macros b1 + 1)).
  match goal with |- context [macro_open _ ?x _ _] => set (b2 := x) end.
  assert (Q2 : same b1 b2) by (eapply same_trans; [|apply same_put_symbol]; apply same_set; reflexivity).
  pose proof (macro_open_same (unit_fuel u) b2 t u U) as MO.
  destruct (macro_open (unit_fuel u) b2 t u) as [[found b3] u3]. destruct MO as [Q3 U3]. destruct found; [|discriminate].
  pose proof (macro_body_same (unit_fuel u3) b3 t u3 1 [] U3 (Forall_nil _)) as MB.
  destruct (macro_body (unit_fuel u3) b3 t u3 1 []) as [[[toks|] b4] u4]; [|discriminate]. destruct MB as (Q4 & U4 & TB).
  intros [= <- <-]. eexists. split; [reflexivity|]. split; auto.
  assert (Q : same b1 b4) by (eapply same_trans; [exact Q2|]; eapply same_trans; eauto).
  pose proof (sim0_same _ _ _ S1 Q) as S4. destruct Q. rewrite <- e_symtab in L. destruct S4. constructor; auto.
  intros m. change (b_symtab (set_node b4 r (set_entry v (EnMacro id toks false)))) with (update r (set_entry v (EnMacro id toks false)) (b_symtab b4)).
  rewrite lookup_update, L. destruct (str_dec m r) as [->|N].
  - cbn. auto.
  - apply name_macro; auto.
Qed.

(** ** Facts of the specification alone *)
Definition grows (p p' : prog) : Prop := p_trace p' = p_trace p /\ incl (p_macros p) (p_macros p').
Lemma grows_refl p : grows p p.
Proof. split; auto. apply incl_refl. Qed.
Lemma grows_trans p q r : grows p q -> grows q r -> grows p r.
Proof. intros [E1 I1] [E2 I2]. split; [congruence|]. eapply incl_tran; eauto. Qed.
Lemma grows_byte p v p' : place_byte p v = Some p' -> grows p p'.
Proof. unfold place_byte. destruct (_ && _); [|discriminate]. intros [= <-]. split; [reflexivity|apply incl_refl]. Qed.
Lemma grows_bytes l : forall p p', place_bytes p l = Some p' -> grows p p'.
Proof.
  induction l as [|v l IH]; intros p p'; cbn [place_bytes]; [intros [= <-]; apply grows_refl|].
  destruct (place_byte p v) as [p1|] eqn:E; [|discriminate]. cbn [bind]. intros H. eapply grows_trans; [eapply grows_byte; eauto|auto].
Qed.
Lemma grows_ref p m t p' : place_ref p m t = Some p' -> grows p p'.
Proof. unfold place_ref. destruct (_ && _); [|discriminate]. intros [= <-]. split; [reflexivity|apply incl_refl]. Qed.
Lemma grows_target p r t p' : find_target p r = Some (t, p') -> grows p p'.
Proof.
  unfold find_target. destruct (str_dec _ _); [intros [= <- <-]; split; [reflexivity|apply incl_refl]|].
  destruct (str_dec _ _).
  - destruct (p_ats p); [discriminate|]. intros [= <- <-]. split; [reflexivity|apply incl_refl].
  - match goal with |- bind ?x _ = _ -> _ => destruct x as [n'|]; [|discriminate] end. cbn [bind].
    destruct (_ && _); [|discriminate]. intros [= <- <-]. apply grows_refl.
Qed.
Lemma grows_ref_to p m r p' : place_ref_to p m r = Some p' -> grows p p'.
Proof.
  unfold place_ref_to. destruct (find_target p r) as [[t p1]|] eqn:E; [|discriminate]. cbn [bind]. intros H.
  eapply grows_trans; [eapply grows_target|eapply grows_ref]; eauto.
Qed.
Lemma grows_op p v m r p' : bind (place_byte p v) (fun p => place_ref_to p m r) = Some p' -> grows p p'.
Proof.
  destruct (place_byte p v) as [p1|] eqn:E; [|discriminate]. cbn [bind]. intros H.
  eapply grows_trans; [eapply grows_byte|eapply grows_ref_to]; eauto.
Qed.
Lemma grows_define p t p' : define p t = Some p' -> grows p p'.
Proof. unfold define. destruct (is_label p t); [discriminate|]. intros [= <-]. split; [reflexivity|apply incl_refl]. Qed.
Lemma grows_define_name p n p' : define_name p n = Some p' -> grows p p'.
Proof. unfold define_name. destruct (_ && _); [apply grows_define|discriminate]. Qed.
Lemma grows_padding p s v p' : padding p s = Some (v, p') -> grows p p'.
Proof.
  unfold padding. destruct (read_number s).
  - destruct (str_dec _ _).
    + destruct (p_ats p); [discriminate|]. intros [= <- <-]. split; [reflexivity|apply incl_refl].
    + match goal with |- bind ?x _ = _ -> _ => destruct x as [n'|]; [|discriminate] end. cbn [bind].
      destruct (assoc _ _); [|discriminate]. cbn [bind]. intros [= <- <-]. apply grows_refl.
  - discriminate.
  - intros [= <- <-]. apply grows_refl.
Qed.
Lemma effect_grows p d lex p' : effect p d lex = Some p' -> grows p p'.
Proof.
  unfold effect. destruct lex as [|c r]; [discriminate|]. set (lex := c :: r). cbv zeta.
  assert (SAME : forall q : prog, Some p = Some q -> grows p q) by (intros q [= <-]; apply grows_refl).
  do 4 (destruct (c =? _); [try discriminate; try apply SAME; try (destruct r; [apply SAME|discriminate])|]).
  destruct (c =? _); [destruct (_ <? _); [apply SAME|discriminate]|].
  destruct (c =? _). { destruct (_ && _); [|discriminate]. intros [= <-]. split; [reflexivity|]. intros x I. right. exact I. }
  destruct (c =? _).
  { destruct (str_dec _ _); [intros [= <-]; split; [reflexivity|apply incl_refl]|].
    destruct (define_name p r) as [p1|] eqn:E; [|discriminate]. cbn [bind]. intros [= <-].
    apply grows_define_name in E as [E1 E2]. split; auto. }
  destruct (c =? _). { destruct (local p r); [|discriminate]. cbn [bind]. apply grows_define_name. }
  do 2 (destruct (c =? _); [apply grows_op|]).
  destruct (c =? _). { destruct r; [|discriminate]. destruct (p_open p); [discriminate|]. intros H. apply grows_define in H as [E1 E2]. split; auto. }
  destruct (c =? _). { destruct r; [|discriminate]. apply grows_op. }
  destruct (c =? _). { apply grows_op. }
  do 2 (destruct (c =? _); [destruct (padding p r) as [[v p1]|] eqn:E; [|discriminate]; cbn [bind]; intros [= <-];
     apply grows_padding in E as [E1 E2]; split; auto|]).
  destruct (c =? _). { destruct (read_literal r); [|discriminate]. cbn [bind]. apply grows_bytes. }
  destruct (c =? _); [apply grows_op|].
  destruct (c =? _); [apply grows_ref_to|].
  destruct (c =? _); [apply grows_op|].
  destruct (c =? _); [apply grows_ref_to|].
  destruct (c =? _); [apply grows_op|].
  destruct (c =? _); [apply grows_ref_to|].
  destruct (c =? _). { destruct r; [discriminate|]. apply grows_bytes. }
  destruct (read_number lex).
  - destruct (mnemonic lex); [apply grows_byte|]. destruct (is_macro p lex); [destruct (_ <? _); [apply SAME|discriminate]|].
    apply grows_op.
  - discriminate.
  - destruct (read_literal lex); [|discriminate]. cbn [bind]. apply grows_bytes.
Qed.

Lemma lexemes_cons o l : lexemes (o :: l) = lexemes l ++ [(o_depth o, o_lex o)].
Proof. unfold lexemes. cbn [map rev]. reflexivity. Qed.
Lemma run_app l1 : forall p l2, run p (l1 ++ l2) = bind (run p l1) (fun p => run p l2).
Proof.
  induction l1 as [|[d l] l1 IH]; intros p l2; [reflexivity|]. cbn [app run]. destruct (step p d l); [|reflexivity]. cbn [bind]. apply IH.
Qed.

(** The state stands for the program that its tokens describe. *)
Definition sim (b : basm) (p : prog) : Prop := sim0 b p /\ run empty (lexemes (p_trace p)) = Some p.

