(** Whole runs of the assembler, successful or not: the pieces of the language,
    units, includes, termination. *)
From Verif Require Import Base AsmModel AsmSound AsmScan.
From Coq Require Import ZifyBool Ascii String.
Open Scope list_scope.

(** What a function that also reads from the unit does. *)
Record upost (b : basm) (u : unit_) (r : bool * basm * unit_) : Prop := mkUpost {
  u_rel : rel b (snd (fst r));
  u_wf : wf (snd (fst r));
  u_ok : unit_ok (snd r);
  u_mu : fst (fst r) = true -> (mu (snd (fst r)) (snd r) <= mu b u)%nat;
  u_failed : fst (fst r) = false -> b_success (snd (fst r)) = false;
  u_buf : match u with UFile _ _ _ => True | UMacro _ _ => fst (fst r) = true -> bufle b (snd (fst r)) end;
  u_kind : match u, snd r with UFile _ _ _, UFile _ _ _ | UMacro _ _, UMacro _ _ => True | _, _ => False end
}.

Lemma upost_from b u b1 u1 r :
  rel b b1 -> (mu b1 u1 <= mu b u)%nat ->
  match u with UFile _ _ _ => True | UMacro _ _ => bufle b b1 end ->
  match u, u1 with UFile _ _ _, UFile _ _ _ | UMacro _ _, UMacro _ _ => True | _, _ => False end ->
  upost b1 u1 r -> upost b u r.
Proof.
  intros R M B K [R' W' O' M' F' B' K']. constructor; auto.
  - eapply rel_trans; eauto.
  - intros Y. specialize (M' Y). lia.
  - destruct u, u1; try contradiction; auto. intros Y. eapply bufle_trans; eauto.
  - destruct u, u1; try contradiction; auto.
Qed.

Lemma upost_next b u t b1 u1 r : next_post b u t b1 u1 -> upost b1 u1 r -> upost b u r.
Proof.
  intros [R W O M T Bu K] P. apply (upost_from b u b1 u1); auto.
  destruct u; auto. unfold bufle. rewrite Bu. lia.
Qed.
Lemma upost_quiet b u b1 r : rel b b1 -> bufle b b1 -> upost b1 u r -> upost b u r.
Proof.
  intros R B P. apply (upost_from b u b1 u); auto.
  - apply mu_bufle; auto.
  - destruct u; auto.
  - destruct u; auto.
Qed.

Lemma keep_upost b u r : unit_ok u -> post b r -> upost b u (keep r u).
Proof.
  intros U [R W B F]. destruct r as [ok b']. cbn in *. constructor; auto; cbn [fst snd].
  - intros _. apply mu_bufle; auto.
  - destruct u; auto.
  - destruct u; auto.
Qed.
Lemma upost_ret b u b' : unit_ok u -> rel b b' -> wf b' -> bufle b b' -> upost b u (true, b', u).
Proof. intros. apply (keep_upost b u (true, b')); auto. apply post_ok; auto. Qed.
Lemma upost_fail b u b' : unit_ok u -> rel b b' -> wf b' -> b_success b' = false -> upost b u (false, b', u).
Proof. intros. constructor; auto; cbn; try discriminate; destruct u; auto. discriminate. Qed.

Lemma bufle_log b e : bufle b (log b e).
Proof. exact (le_n _). Qed.
Lemma bufle_error b m r : bufle b (error_ex b m r).
Proof. exact (le_n _). Qed.

Lemma comment_loop_props fuel : forall b u depth, wf b -> unit_ok u -> (mu b u + 2 < fuel + 1)%nat ->
  let r := comment_loop fuel b u depth in
  rel b (snd (fst r)) /\ wf (snd (fst r)) /\ unit_ok (snd r) /\ (mu (snd (fst r)) (snd r) <= mu b u)%nat /\
  match u with UFile _ _ _ => True | UMacro _ _ => b_buf (snd (fst r)) = b_buf b end /\
  match u, snd r with UFile _ _ _, UFile _ _ _ | UMacro _ _, UMacro _ _ => True | _, _ => False end.
Proof.
  induction fuel as [|fuel IH]; intros b u depth W U M; [lia|]. cbn [comment_loop].
  destruct (depth <=? 0).
  { cbn. split; [apply rel_refl|]. split; auto. split; auto. split; [lia|]. destruct u; auto. }
  destruct (next_token b u) as [[t b1] u1] eqn:N.
  destruct (next_token_props _ _ _ _ _ W U N) as [R1 W1 O1 M1 T1 B1 K1].
  destruct t as [t|].
  - destruct T1 as [Tok M2]. unfold tok_ok in Tok. destruct (t_lex t) as [|c l] eqn:L; [congruence|]. rewrite <- L in *.
    match goal with |- context [comment_loop fuel ?s u1 ?d] => set (b2 := s); set (dd := d) end.
    assert (M3 : mu b2 u1 = mu b1 u1) by (destruct u1; reflexivity).
    destruct (IH b2 u1 dd) as (R & W' & U' & M' & B' & K'); auto; [apply wf_log; auto|lia|].
    cbn zeta. split; [eapply rel_trans; [exact R1|]; eapply rel_trans; [|exact R]; apply rel_put_symbol; nm|].
    split; auto. split; auto. split; [lia|]. destruct u, u1; try contradiction; split; auto.
    rewrite B'. exact B1.
  - cbn [fst snd]. auto 10.
Qed.

Lemma upost_comment b t u : wf b -> unit_ok u -> upost b u (process_comment b t u).
Proof.
  intros W U. unfold process_comment.
  set (b1 := put_symbol _ _ _).
  assert (R1 : rel b b1) by (apply rel_put_symbol; nm).
  assert (W1 : wf b1) by (apply wf_log; auto).
  assert (M1 : mu b1 u = mu b u) by (destruct u; reflexivity).
  pose proof (unit_fuel_enough b u) as FU.
  destruct (comment_loop_props (unit_fuel u) b1 u 1 W1 U ltac:(lia)) as (R & W' & U' & M' & B' & K').
  destruct (comment_loop (unit_fuel u) b1 u 1) as [[ok b2] u2]. cbn [fst snd] in *.
  destruct ok.
  - constructor; auto; cbn [fst snd].
    + eapply rel_trans; eauto.
    + discriminate.
    + destruct u; auto. intros _. unfold bufle. rewrite B'. cbn. lia.
  - constructor; auto; cbn [fst snd].
    + eapply rel_trans; [exact R1|]. eapply rel_trans; [exact R|apply rel_error].
    + apply wf_error; auto.
    + destruct u; auto. discriminate.
Qed.

Lemma wf_mark b t : wf b -> wf (process_mark b t).
Proof. apply wf_log. Qed.
Lemma rel_mark b t : rel b (process_mark b t).
Proof. apply rel_put_symbol; nm. Qed.

Lemma macro_open_props fuel : forall b start u, wf b -> unit_ok u -> (mu b u + 2 < fuel + 1)%nat ->
  upost b u (macro_open fuel b start u).
Proof.
  induction fuel as [|fuel IH]; intros b start u W U M; [lia|]. cbn [macro_open].
  destruct (next_token b u) as [[t b1] u1] eqn:N.
  pose proof (next_token_props _ _ _ _ _ W U N) as P. eapply upost_next; [exact P|].
  destruct P as [R1 W1 O1 M1 T1 B1 K1].
  assert (ERR : forall t m, upost b1 u1 (false, snd (error b1 t m), u1)).
  { intros. apply upost_fail; auto; cbn; [apply rel_error|apply wf_error; auto]. }
  destruct t as [t|]; [|apply ERR].
  destruct T1 as [_ M2].
  assert (MARK : upost b1 u1 (macro_open fuel (process_mark b1 t) start u1)).
  { eapply upost_quiet; [apply rel_mark|exact (le_n _)|]. apply IH; auto; [apply wf_mark; auto|].
    assert (mu (process_mark b1 t) u1 = mu b1 u1) by (destruct u1; reflexivity). lia. }
  cbn zeta. destruct (_ =? 40).
  - pose proof (upost_comment b1 t u1 W1 O1) as C. destruct (process_comment b1 t u1) as [[ok b2] u2].
    destruct ok; [|exact C]. destruct C as [Rc Wc Oc Mc Fc Bc Kc]. cbn [fst snd] in *. specialize (Mc eq_refl).
    apply (upost_from b1 u1 b2 u2); auto.
    + destruct u1; auto.
    + apply IH; auto. lia.
  - destruct (_ =? 91); [exact MARK|].
    destruct (_ =? 93); [destruct (_ =? 1); [exact MARK|apply ERR]|].
    destruct (_ =? 123); [|apply ERR].
    destruct (_ =? 1); [|apply ERR].
    apply upost_ret; auto using rel_refl, bufle_refl.
Qed.

Definition bpost (b : basm) (u : unit_) (r : option (list token) * basm * unit_) : Prop :=
  upost b u (match fst (fst r) with Some _ => true | None => false end, snd (fst r), snd r) /\
  match fst (fst r) with Some toks => Forall tok_ok toks | None => True end.

Lemma macro_body_props fuel : forall b start u depth toks,
  wf b -> unit_ok u -> (mu b u + 2 < fuel + 1)%nat -> Forall tok_ok toks ->
  bpost b u (macro_body fuel b start u depth toks).
Proof.
  induction fuel as [|fuel IH]; intros b start u depth toks W U M F; [lia|]. cbn [macro_body].
  destruct (depth <=? 0).
  { split; cbn; [apply upost_ret; auto using rel_refl, bufle_refl|]. apply Forall_rev; auto. }
  destruct (next_token b u) as [[t b1] u1] eqn:N.
  pose proof (next_token_props _ _ _ _ _ W U N) as P.
  assert (NX : forall r, bpost b1 u1 r -> bpost b u r).
  { intros r [H1 H2]. split; auto. eapply upost_next; eauto. }
  apply NX. destruct P as [R1 W1 O1 M1 T1 B1 K1].
  destruct t as [t|].
  - destruct T1 as [Tok M2]. pose proof Tok as Tok'. unfold tok_ok in Tok. destruct (t_lex t) as [|c l] eqn:L; [congruence|]. rewrite <- L in *.
    destruct (c =? 37).
    + split; cbn; auto. apply upost_fail; auto using rel_error, wf_error.
    + apply IH; auto; [lia|]. destruct (0 <? _); auto.
  - split; cbn; auto. apply upost_fail; auto using rel_error, wf_error.
Qed.

Lemma upost_macro b t u : wf b -> unit_ok u -> upost b u (process_macro b t u).
Proof.
  intros W U. unfold process_macro.
  pose proof (find_or_create_props b t (pop_front (t_lex t)) W) as (R & W1 & B1 & K).
  pose proof (create_good b t (pop_front (t_lex t))) as GN.
  destruct (find_or_create b t (pop_front (t_lex t))) as [[v|] b1]; cbn [fst snd] in *.
  2:{ apply upost_fail; auto. }
  specialize (GN _ _ eq_refl). eapply (upost_quiet b u b1); [exact R|unfold bufle; rewrite B1; lia|].
  assert (CON : upost b1 u (false, snd (error b1 t MConflict), u)).
  { apply upost_fail; auto; cbn; auto using rel_error, wf_error. }
  destruct (n_entry v); auto. clear CON K.
  unfold create_macro.
  set (b2 := put_symbol _ _ _).
  assert (R2 : rel b1 b2) by (eapply rel_trans; [|apply rel_put_symbol; cbn; eauto]; [quiet]).
  assert (W2 : wf b2) by (apply wf_log, wf_macros; auto).
  eapply (upost_quiet b1 u b2); [exact R2|exact (le_n _)|].
  pose proof (unit_fuel_enough b2 u) as FU.
  pose proof (macro_open_props (unit_fuel u) b2 t u W2 U ltac:(lia)) as O.
  destruct (macro_open (unit_fuel u) b2 t u) as [[ok b3] u3]. destruct ok; [|exact O].
  destruct O as [R3 W3 U3 M3 F3 B3 K3]. cbn [fst snd] in *. specialize (M3 eq_refl).
  pose proof (unit_fuel_enough b3 u3) as FU3.
  destruct (macro_body_props (unit_fuel u3) b3 t u3 1 [] W3 U3 ltac:(lia) (Forall_nil _)) as [Y1 Y2].
  destruct (macro_body (unit_fuel u3) b3 t u3 1 []) as [[[toks|] b4] u4]; cbn [fst snd] in *.
  - apply (upost_from b2 u b3 u3); auto; [destruct u; auto|].
    destruct Y1 as [R4 W4 U4 M4 F4 B4 K4]. cbn [fst snd] in *. constructor; auto; cbn [fst snd].
    + eapply rel_trans; [exact R4|apply rel_set_node].
    + apply wf_set_node; auto.
  - apply (upost_from b2 u b3 u3); auto. destruct u; auto.
Qed.

Lemma make_lambda_props b id : rel b (snd (make_lambda_name b id)) /\ b_buf (snd (make_lambda_name b id)) = b_buf b /\
  (wf b -> wf (snd (make_lambda_name b id))).
Proof.
  cbn. destruct (4096 <=? id); split; auto using rel_refl; try apply rel_log; cbn; auto. split; auto. apply wf_log.
Qed.

Lemma post_global_label b t : wf b -> post b (process_global_label b t).
Proof.
  intros W. unfold process_global_label. destruct (str_eqb _ _).
  - set (l := mkRef _ _ _ _ _ _). set (b1 := set_ats _ _).
    assert (W1 : wf b1).
    { apply wf_set_ats; [apply wf_nlambdas, wf_labels; auto|]. constructor; [apply W|apply W]. }
    pose proof (make_lambda_props b1 (u16 (b_labels b + 1))) as (R2 & B2 & W2).
    assert (N : fst (make_lambda_name b1 (u16 (b_labels b + 1))) = lambda_name (u16 (b_labels b + 1))) by reflexivity.
    destruct (make_lambda_name b1 (u16 (b_labels b + 1))) as [n b2]. cbn [fst snd] in *. subst n.
    apply post_ok.
    + eapply rel_trans; [|apply rel_put_symbol; cbn; eauto]. eapply rel_trans; [|exact R2]. quiet.
    + apply wf_log; auto.
    + unfold bufle. cbn. rewrite B2. cbn. lia.
  - apply (post_then_symbol b (register_label b t _) (fun b => set_scope b _)); [apply post_register_label; auto|].
    intros b'. split; [quiet|]. split; [apply wf_scope|reflexivity].
Qed.

Lemma post_local_label b t : wf b -> post b (process_local_label b t).
Proof.
  intros W. unfold process_local_label.
  pose proof (resolve_local_props b t (pop_front (t_lex t)) W) as (R & W1 & B1 & K).
  destruct (resolve_local_name b t (pop_front (t_lex t))) as [[n|] b1]; cbn [fst snd] in *.
  - eapply post_from; [exact R|bf|]. apply post_register_label; auto.
  - constructor; auto; cbn [fst snd]. bf.
Qed.

(** Numbers fit. *)
Lemma parse_hex_short rs : forall i n v, is_short n -> parse_hex rs i n = Some v -> is_short v.
Proof.
  induction rs as [|c rs IH]; intros i n v S E; cbn [parse_hex] in E; [congruence|].
  destruct (is_hex c); [|discriminate]. eapply IH; [|exact E]. auto.
Qed.
Lemma parse_number_short s n z : parse_number s = inr (n, z) -> is_short n.
Proof.
  unfold parse_number. destruct s as [|c s]; [discriminate|]. set (w := c :: s). cbn zeta.
  destruct (pluses w =? 0).
  - destruct (4 <? len w); [discriminate|]. destruct (parse_hex (rev w) 0 0) eqn:E; [|discriminate].
    intros [= <- _]. eapply parse_hex_short; [|exact E]. unfold is_short; lia.
  - destruct (parse_dec _ _ _); [discriminate|]. intros [= <- _]. auto.
Qed.

Lemma resolve_padding_props b t :
  wf b -> let r := resolve_padding b t in
  rel b (snd r) /\ wf (snd r) /\ b_buf (snd r) = b_buf b /\
  match fst r with None => b_success (snd r) = false | Some n => is_short n end.
Proof.
  intros W. unfold resolve_padding. set (s := pop_front (t_lex t)).
  assert (ERR : forall b t m, wf b -> let r := (@None Z, snd (error b t m)) in
    rel b (snd r) /\ wf (snd r) /\ b_buf (snd r) = b_buf b /\ match fst r with None => b_success (snd r) = false | Some n => is_short n end).
  { intros. cbn. auto using rel_error, wf_error. }
  destruct s as [|c s'] eqn:Es; [apply ERR; auto|]. rewrite <- Es.
  destruct (is_number s).
  - destruct (parse_number s) as [m|[n z]] eqn:P; [apply ERR; auto|].
    cbn. split; [apply rel_refl|]. split; auto. split; auto. eapply parse_number_short; eauto.
  - pose proof (resolve_label_props b t s W) as (R & W1 & B1 & K).
    destruct (resolve_label_ref b t s) as [[label|] b1]; cbn [fst snd] in *.
    2:{ auto. }
    assert (TR : forall r : option Z * basm, (rel b1 (snd r) /\ wf (snd r) /\ b_buf (snd r) = b_buf b1 /\
      match fst r with None => b_success (snd r) = false | Some n => is_short n end) ->
      rel b (snd r) /\ wf (snd r) /\ b_buf (snd r) = b_buf b /\
      match fst r with None => b_success (snd r) = false | Some n => is_short n end).
    { intros r (X1 & X2 & X3 & X4). split; [eapply rel_trans; eauto|]. split; auto. split; [congruence|auto]. }
    cbn zeta. apply TR. destruct (str_eqb label [64]).
    + pose proof (pop_props b1 W1) as (R2 & W2 & B2 & K2). destruct (pop_at_label b1) as [[l|] b2]; cbn [fst snd] in *.
      * auto.
      * destruct (ERR b2 t MNoAtLabel W2) as (X1 & X2 & X3 & X4). cbn [fst snd] in *.
        split; [eapply rel_trans; eauto|]. split; auto. 
    + destruct (lookup label (b_symtab b1)) as [v|] eqn:L; [|apply ERR; auto].
      pose proof (lookup_ok _ _ _ (wf_sym _ W1) L) as V.
      destruct (n_entry v) eqn:En; try (apply ERR; auto).
      cbn. split; [apply rel_set_node|]. split; auto. apply wf_set_node; auto. cbn. rewrite En. auto.
Qed.

Lemma post_abs_padding b t : wf b -> post b (process_abs_padding b t).
Proof.
  intros W. unfold process_abs_padding. pose proof (resolve_padding_props b t W) as (R & W1 & B1 & K).
  destruct (resolve_padding b t) as [[n|] b1]; cbn [fst snd] in *.
  - apply post_ok; [eapply rel_trans; [exact R|quiet]|apply wf_set_addr; auto|bf].
  - constructor; auto; cbn [fst snd]. bf.
Qed.
Lemma post_rel_padding b t : wf b -> post b (process_rel_padding b t).
Proof.
  intros W. unfold process_rel_padding. pose proof (resolve_padding_props b t W) as (R & W1 & B1 & K).
  destruct (resolve_padding b t) as [[n|] b1]; cbn [fst snd] in *.
  - set (b2 := set_addr b1 _).
    assert (P : post b (true, b2)) by (apply post_ok; [eapply rel_trans; [exact R|quiet]|apply wf_set_addr; auto|unfold bufle; cbn; rewrite B1; lia]).
    destruct (_ <? _); auto. eapply post_set; [exact P|apply rel_warning|reflexivity|apply wf_log].
  - constructor; auto; cbn [fst snd]. bf.
Qed.

Lemma post_lit_number b t : wf b -> post b (process_lit_number b t).
Proof.
  intros W. unfold process_lit_number. destruct (literal _) as [m|[n z]]; [apply post_error; auto|].
  destruct (z =? 1); apply post_andthen; auto using post_emit_opcode, post_emit_byte, post_emit_short.
Qed.
Lemma post_raw_number b t : wf b -> post b (process_raw_number b t).
Proof.
  intros W. unfold process_raw_number. destruct (literal _) as [m|[n z]]; [apply post_error; auto|].
  destruct (z =? 1); auto using post_emit_byte, post_emit_short.
Qed.

Lemma post_lambda_close b t : wf b -> post b (process_lambda_close b t).
Proof.
  intros W. unfold process_lambda_close. destruct (b_lambdas b) as [|r rest] eqn:L; [apply post_error; auto|].
  pose proof (wf_lambdas _ W) as F. rewrite L in F. inversion F as [|? ? F1 F2]; subst.
  pose proof (calculate_props b (f_tok r) (f_type r) (f_addr r) (b_addr b) W) as (R1 & W1 & B1).
  destruct (calculate_addr b (f_tok r) (f_type r) (f_addr r) (b_addr b)) as [a b1]. cbn [fst snd] in *.
  eapply post_from; [exact R1|bf|].
  eapply (post_from b1 (set_addr b1 (f_addr r))); [quiet|exact (le_n _)|].
  apply post_andthen; [apply post_emit_addr; [nm|apply wf_set_addr; auto]|].
  intros b2 _ R2 W2 B2.
  pose proof (make_lambda_props (set_addr b2 (b_addr b)) (f_lambda r)) as (R3 & B3 & W3).
  assert (N : fst (make_lambda_name (set_addr b2 (b_addr b)) (f_lambda r)) = lambda_name (f_lambda r)) by reflexivity.
  destruct (make_lambda_name (set_addr b2 (b_addr b)) (f_lambda r)) as [n b3]. cbn [fst snd] in *. subst n.
  apply post_ok.
  - eapply (rel_trans _ (set_addr b2 (b_addr b))); [quiet|]. eapply rel_trans; [exact R3|].
    match goal with |- rel _ (set_lambdas ?x _) => apply (rel_trans _ x); [apply rel_put_symbol; cbn; eauto|quiet] end.
  - apply wf_set_lambdas; auto. apply wf_log, W3, wf_set_addr; auto. apply W.
  - unfold bufle. cbn. rewrite B3. cbn. lia.
Qed.

Lemma post_emit_text s : forall b t sym a, named sym -> wf b -> post b (emit_text b t sym a s).
Proof.
  induction s as [|c s IH]; intros b t sym a N W; cbn [emit_text]; [apply post_ret; auto|].
  apply post_andthen; [apply post_emit; auto|]. intros b1 _ _ W1 _.
  eapply post_from; [apply rel_put_symbol; exact N|exact (le_n _)|]. apply IH; [exact N|]. apply wf_log; auto.
Qed.
Lemma post_text b t : wf b -> post b (process_text b t).
Proof. intros W. unfold process_text. destruct (_ <=? _); [apply post_error; auto|apply post_emit_text; [nm|auto]]. Qed.

(** ** Units *)
(** What a unit does: the buffer is not fuller after a success. *)
Record npost (b : basm) (r : ret) : Prop := mkNpost {
  np_rel : rel b (snd r);
  np_wf : wf (snd r);
  np_buf : fst r = true -> bufle b (snd r);
  np_failed : fst r = false -> b_success (snd r) = false
}.

Lemma post_npost b r : post b r -> npost b r.
Proof. intros [R W B F]. constructor; auto. Qed.
Lemma keep_npost b u r : unit_ok u -> npost b r -> upost b u (keep r u).
Proof.
  intros U [R W B F]. destruct r as [ok b']. cbn [fst snd keep] in *. constructor; auto; cbn [fst snd].
  - intros Y. apply mu_bufle; auto.
  - destruct u; auto.
  - destruct u; auto.
Qed.

(** A unit around a run. *)
Lemma rel_wrap b b' o c :
  b_depth b <= MAX_PREPROCESSOR_DEPTH -> rel (log b o) b' -> nest [o] = 1 -> nest [c] = -1 ->
  rel (set_depth b (b_depth b - 1)) (set_depth (log b' c) (b_depth b' - 1)).
Proof.
  intros D [(e & O & S & P & X) Dp F I] No Nc. constructor; cbn in *; auto; [|lia].
  assert (Eo : is_err o = false /\ ok_put o) by (destruct o; cbn in *; auto; discriminate).
  assert (Ec : is_err c = false /\ ok_put c) by (destruct c; cbn in *; auto; discriminate).
  destruct Eo as [Eo1 Eo2], Ec as [Ec1 Ec2].
  exists (c :: e ++ [o]). split; [|split; [|split]].
  - rewrite O. cbn. rewrite <- app_assoc. reflexivity.
  - rewrite S. change (c :: e ++ [o]) with ([c] ++ e ++ [o]). rewrite !noerr_app. cbn. rewrite Eo1, Ec1. cbn.
    rewrite andb_true_r. reflexivity.
  - constructor; auto. apply Forall_app; auto.
  - apply nested_unit; auto; [lia|]. replace (b_depth b - 1 + 1) with (b_depth b) by lia. auto.
Qed.
(** What reading a file does. *)
Record fpost (b : basm) (r : ret) : Prop := mkFpost {
  fp_rel : rel (set_depth b (b_depth b - 1)) (set_depth (snd r) (b_depth (snd r) - 1));
  fp_depth : b_depth (snd r) = b_depth b;
  fp_wf : wf (snd r);
  fp_buf : fst r = true -> bufle b (snd r);
  fp_failed : fst r = false -> b_success (snd r) = false
}.

Section Nested.
Variable fs : files.
Variable pu : basm -> unit_ -> ret.
(** Nested units behave well up to the maximal depth. *)
Variable level : Z.
Hypothesis PU : forall b u, wf b -> unit_ok u -> b_depth b = level + 1 -> level < MAX_PREPROCESSOR_DEPTH -> npost b (pu b u).

Lemma process_file_props (b : basm) path :
  (forall c, npost (log b (EOpen path)) (pu (log b (EOpen path)) (UFile path c (mkPos 1 1 0)))) ->
  wf b -> b_depth b <= MAX_PREPROCESSOR_DEPTH -> fpost b (process_file fs pu b path).
Proof.
  intros H W D. unfold process_file. destruct (find_file fs path) as [c|].
  2:{ constructor; cbn; auto; try apply wf_error; auto; try discriminate. exact (rel_error (set_depth b (b_depth b - 1)) _ _). }
  destruct (H c) as [R W' B F]. cbn zeta. destruct (pu _ _) as [ok b1]. cbn [fst snd] in *.
  constructor; cbn [fst snd].
  - apply (rel_wrap b b1 (EOpen path) (EClose path)); auto.
  - cbn. rewrite (r_depth _ _ R). reflexivity.
  - apply wf_log; auto.
  - intros Y. specialize (B Y). unfold bufle in *. cbn in *. lia.
  - auto.
Qed.

Lemma process_include_props b n t :
  wf b -> b_depth b = level -> level < MAX_PREPROCESSOR_DEPTH -> npost b (process_include fs pu b n t).
Proof.
  intros W D LM. unfold process_include. destruct (existsb _ _); [apply post_npost, post_ret; auto|].
  set (b1 := set_includes b _). set (b2 := set_depth b1 (b_depth b1 + 1)).
  assert (R1 : rel b b1).
  { constructor; auto; [exists []; cbn; rewrite andb_true_r; auto using nested_nil|]. cbn. intros x Hx. right. auto. }
  assert (W1 : wf b1) by (apply wf_includes; auto).
  assert (W2 : wf b2) by (apply wf_set_depth; auto; pose proof (wf_depth _ W); cbn; lia).
  cbn zeta.
  assert (PF : fpost b2 (process_file fs pu b2 n)).
  { apply process_file_props; auto; [|cbn; lia]. intros c. apply PU; cbn; auto; [apply wf_log; auto|lia]. }
  destruct (process_file fs pu b2 n) as [ok b3]. destruct PF as [R3 D3 W3 B3 F3]. cbn [fst snd] in *.
  assert (R4 : rel b1 (set_depth b3 (b_depth b3 - 1))).
  { eapply rel_trans; [|exact R3]. apply rel_quiet; try reflexivity. cbn. lia. }
  assert (W4 : wf (set_depth b3 (b_depth b3 - 1))).
  { apply wf_set_depth; auto. rewrite D3. cbn. pose proof (wf_depth _ W). lia. }
  destruct ok.
  - constructor; cbn [fst snd].
    + eapply rel_trans; eauto.
    + auto.
    + intros _. specialize (B3 eq_refl). unfold bufle in *. cbn in *. lia.
    + discriminate.
  - constructor; cbn [fst snd].
    + eapply rel_trans; [exact R1|]. eapply rel_trans; [exact R4|]. apply rel_error.
    + apply wf_error; auto.
    + discriminate.
    + auto.
Qed.

Lemma expand_macro_props b t n v id toks ex u :
  wf b -> unit_ok u -> b_depth b = level -> Forall tok_ok toks ->
  upost b u (expand_macro pu b t n v id toks ex u).
Proof.
  intros W U D T. unfold expand_macro.
  destruct (Z.leb_spec MAX_PREPROCESSOR_DEPTH (b_depth b)).
  { apply upost_fail; auto; cbn; auto using rel_error, wf_error. }
  destruct ex. { apply upost_fail; auto; cbn; auto using rel_error, wf_error. }
  set (b1 := put_symbol b 0 _).
  assert (W1 : wf b1) by (apply wf_log; auto).
  apply (upost_quiet b u b1); [apply rel_put_symbol; nm|exact (le_n _)|].
  assert (RUN : forall b arg u, wf b -> unit_ok u -> b_depth b = level -> level < MAX_PREPROCESSOR_DEPTH ->
            match arg with Some a => tok_ok a | None => True end -> upost b u (run_macro pu b t n v id toks arg u)).
  { clear - PU T. intros b arg u W U D LM A. unfold run_macro.
    set (b2 := set_node _ _ _). set (b3 := set_depth b2 _).
    assert (W3 : wf b3).
    { apply wf_set_depth; [apply wf_set_node; auto|]. cbn. pose proof (wf_depth _ W). lia. }
    pose proof (PU (log b3 (EEnter n)) (UMacro toks arg) (wf_log _ _ W3) (conj T A) ltac:(cbn; lia) LM) as [R4 W4 B4 F4].
    destruct (pu (log b3 (EEnter n)) (UMacro toks arg)) as [ok b4]. cbn [fst snd] in *.
    set (b5 := set_depth (log b4 (ELeave n)) _). set (b6 := set_node b5 _ _).
    assert (R6 : rel b b6).
    { eapply (rel_trans _ b2); [apply rel_set_node|]. eapply (rel_trans _ b5); [|apply rel_set_node].
      eapply rel_trans; [|apply (rel_wrap b3 b4 (EEnter n) (ELeave n)); auto; cbn; lia].
      apply rel_quiet; try reflexivity. cbn. lia. }
    assert (W6 : wf b6).
    { apply wf_set_node; auto. apply wf_set_depth; [apply wf_log; auto|]. cbn. rewrite (r_depth _ _ R4). cbn. pose proof (wf_depth _ W). lia. }
    destruct ok.
    - apply upost_ret; [auto|auto|auto|]. specialize (B4 eq_refl). unfold bufle in *. cbn in *. lia.
    - apply upost_fail; auto; [eapply rel_trans; [exact R6|apply rel_error]|apply wf_error; auto]. }
  destruct (last n 0 =? 58).
  - destruct (next_token b1 u) as [[a b2] u2] eqn:N.
    pose proof (next_token_props _ _ _ _ _ W1 U N) as P. eapply upost_next; [exact P|].
    destruct P as [R2 W2 O2 M2 T2 B2 K2].
    destruct a as [a|].
    + apply RUN; auto; [|lia|apply T2]. rewrite (r_depth _ _ R2). cbn. lia.
    + destruct (b_success b2) eqn:S.
      * apply upost_fail; auto; cbn; auto using rel_error, wf_error.
      * apply upost_fail; auto using rel_refl.
  - apply RUN; auto. lia.
Qed.

Lemma process_word_props b t u :
  wf b -> unit_ok u -> b_depth b = level -> is_runic (hd 0 (t_lex t)) = false ->
  upost b u (process_word pu b t u).
Proof.
  intros W U D NR. unfold process_word. rewrite NR.
  destruct (parse_opcode (t_lex t)) as [[op red]|].
  - apply keep_upost; auto. destruct red.
    + eapply post_from; [apply rel_warning|exact (le_n _)|]. apply post_emit_opcode. apply wf_log; auto.
    + apply post_emit_opcode; auto.
  - pose proof (find_or_create_props b t (t_lex t) W) as (R & W1 & B1 & K).
    destruct (find_or_create b t (t_lex t)) as [[v|] b1]; cbn [fst snd] in *.
    2:{ apply upost_fail; auto. }
    destruct K as [V _].
    apply (upost_quiet b u b1); auto; [unfold bufle; rewrite B1; lia|].
    assert (D1 : b_depth b1 = level) by (rewrite (r_depth _ _ R); auto).
    destruct (n_entry v) as [|id toks ex|id a|id refs] eqn:E.
    + apply keep_upost; auto. apply post_andthen; [apply post_emit_opcode; auto|].
      intros b2 _ _ W2 _. apply post_emit_forward_ref; auto; rewrite E; auto.
    + apply (upost_quiet b1 u (set_node b1 (t_lex t) (set_referenced v true))); [apply rel_set_node|exact (le_n _)|].
      apply expand_macro_props; auto. apply wf_set_node; auto. cbn. rewrite E. auto.
    + apply keep_upost; auto.
      eapply (post_from b1 (set_node b1 (t_lex t) (set_referenced v true))); [apply rel_set_node|exact (le_n _)|].
      assert (W2 : wf (set_node b1 (t_lex t) (set_referenced v true))).
      { apply wf_set_node; auto. cbn. rewrite E. auto. }
      apply post_andthen; [apply post_emit_opcode; auto|]. intros; apply post_emit_backward_ref; auto.
    + apply keep_upost; auto. apply post_andthen; [apply post_emit_opcode; auto|].
      intros b2 _ _ W2 _. apply post_emit_forward_ref; auto; rewrite E; auto.
Qed.

Lemma process_tilde_props b t : wf b -> b_depth b = level -> npost b (process_tilde fs pu b t).
Proof.
  intros W D. unfold process_tilde. destruct (Z.leb_spec MAX_PREPROCESSOR_DEPTH (b_depth b)).
  { apply post_npost, post_error; auto. }
  cbn zeta. set (b1 := put_symbol _ _ _).
  assert (R1 : rel b b1) by (apply rel_put_symbol; nm).
  assert (W1 : wf b1) by (apply wf_log; auto).
  destruct (_ =? 126).
  - destruct (existsb _ _); apply post_npost, post_ok; auto; try exact (le_n _).
    + eapply rel_trans; [exact R1|quiet].
    + apply wf_deferred; auto.
  - match goal with |- npost b ?r => assert (Q : npost b1 r) by (apply process_include_props; auto; lia) end.
    destruct Q as [R2 W2 B2 F2].
    constructor; auto. eapply rel_trans; eauto.
Qed.

Lemma process_token_props b t u :
  wf b -> unit_ok u -> b_depth b = level -> tok_ok t -> upost b u (process_token fs pu b t u).
Proof.
  intros W U D T. unfold process_token. cbn zeta.
  assert (ERR : forall m, upost b u (keep (error b t m) u)) by (intros; apply keep_upost; auto; apply post_error; auto).
  assert (OP : forall op k, (forall b', wf b' -> post b' (k b')) -> upost b u (keep (emit_opcode b t op true ;; b => k b) u)).
  { intros op k H. apply keep_upost; auto. apply post_andthen; auto using post_emit_opcode. }
  assert (MARK : upost b u (true, process_mark b t, u)).
  { apply upost_ret; auto using rel_mark, wf_mark. exact (le_n _). }
  assert (REF : forall ty sz n r b', wf b' -> post b' (emit_label_ref b' t ty sz n r)) by (intros; apply post_emit_label_ref; auto).
  destruct (Z.eqb_spec (hd 0 (t_lex t)) (chr "(")) as [Y|N1]; [apply upost_comment; auto|].
  destruct (Z.eqb_spec (hd 0 (t_lex t)) (chr ")")) as [Y|N2]; [apply ERR|].
  destruct (Z.eqb_spec (hd 0 (t_lex t)) (chr "[")) as [Y|N3]; [apply MARK|].
  destruct (Z.eqb_spec (hd 0 (t_lex t)) (chr "]")) as [Y|N4]; [destruct (_ =? 1); [apply MARK|apply ERR]|].
  destruct (Z.eqb_spec (hd 0 (t_lex t)) (chr "~")) as [Y|N5]; [apply keep_npost; auto; apply process_tilde_props; auto|].
  destruct (Z.eqb_spec (hd 0 (t_lex t)) (chr "%")) as [Y|N6]; [apply upost_macro; auto|].
  destruct (Z.eqb_spec (hd 0 (t_lex t)) (chr "@")) as [Y|N7]; [apply keep_upost; auto; apply post_global_label; auto|].
  destruct (Z.eqb_spec (hd 0 (t_lex t)) (chr "&")) as [Y|N8]; [apply keep_upost; auto; apply post_local_label; auto|].
  destruct (Z.eqb_spec (hd 0 (t_lex t)) (chr "!")) as [Y|N9]; [apply OP; auto|].
  destruct (Z.eqb_spec (hd 0 (t_lex t)) (chr "?")) as [Y|N10]; [apply OP; auto|].
  destruct (Z.eqb_spec (hd 0 (t_lex t)) (chr "}")) as [Y|N11];
    [destruct (_ =? 1); [apply keep_upost; auto; apply post_lambda_close; auto|apply ERR]|].
  destruct (Z.eqb_spec (hd 0 (t_lex t)) (chr "{")) as [Y|N12];
    [destruct (_ =? 1); [apply keep_upost; auto; apply post_emit_jsi; auto|apply ERR]|].
  destruct (Z.eqb_spec (hd 0 (t_lex t)) (chr "/")) as [Y|N13]; [apply keep_upost; auto; apply post_emit_jsi; auto|].
  destruct (Z.eqb_spec (hd 0 (t_lex t)) (chr "|")) as [Y|N14]; [apply keep_upost; auto; apply post_abs_padding; auto|].
  destruct (Z.eqb_spec (hd 0 (t_lex t)) (chr "$")) as [Y|N15]; [apply keep_upost; auto; apply post_rel_padding; auto|].
  destruct (Z.eqb_spec (hd 0 (t_lex t)) (chr "#")) as [Y|N16]; [apply keep_upost; auto; apply post_lit_number; auto|].
  destruct (Z.eqb_spec (hd 0 (t_lex t)) (chr ".")) as [Y|N17]; [apply OP; auto|].
  destruct (Z.eqb_spec (hd 0 (t_lex t)) (chr "-")) as [Y|N18]; [apply keep_upost; auto|].
  destruct (Z.eqb_spec (hd 0 (t_lex t)) (chr ",")) as [Y|N19]; [apply OP; auto|].
  destruct (Z.eqb_spec (hd 0 (t_lex t)) (chr "_")) as [Y|N20]; [apply keep_upost; auto|].
  destruct (Z.eqb_spec (hd 0 (t_lex t)) (chr ";")) as [Y|N21]; [apply OP; auto|].
  destruct (Z.eqb_spec (hd 0 (t_lex t)) (chr "=")) as [Y|N22]; [apply keep_upost; auto|].
  destruct (Z.eqb_spec (hd 0 (t_lex t)) 34) as [Y|N23]; [apply keep_upost; auto; apply post_text; auto|].
  destruct (is_number (t_lex t)); [apply keep_upost; auto; apply post_raw_number; auto|].
  apply process_word_props; auto.
  unfold is_runic. generalize dependent (hd 0 (t_lex t)). intros c.
  change (chr "(") with 40. change (chr ")") with 41. change (chr "[") with 91. change (chr "]") with 93.
  change (chr "~") with 126. change (chr "%") with 37. change (chr "@") with 64. change (chr "&") with 38.
  change (chr "!") with 33. change (chr "?") with 63. change (chr "}") with 125. change (chr "{") with 123.
  change (chr "/") with 47. change (chr "|") with 124. change (chr "$") with 36. change (chr "#") with 35.
  change (chr ".") with 46. change (chr "-") with 45. change (chr ",") with 44. change (chr "_") with 95.
  change (chr ";") with 59. change (chr "=") with 61.
  intros. match goal with |- existsb _ ?l = _ => let l' := eval vm_compute in l in change l with l' end.
  cbn [existsb].
  repeat match goal with H : c <> _ |- _ => apply Z.eqb_neq in H end.
  repeat match goal with H : (c =? _) = false |- _ => rewrite H end. reflexivity.
Qed.

Lemma unit_loop_props fuel : forall b u,
  wf b -> unit_ok u -> b_depth b = level -> (mu b u < fuel)%nat ->
  let r := unit_loop fs pu fuel b u in
  npost b r /\ (fst r = true -> match u with UFile _ _ _ => bit (b_buf (snd r)) = 0%nat | _ => True end).
Proof.
  induction fuel as [|fuel IH]; intros b u W U D M; [lia|]. cbn [unit_loop]. cbn zeta.
  destruct (next_token b u) as [[t b1] u1] eqn:N.
  pose proof (next_token_props _ _ _ _ _ W U N) as [R1 W1 O1 M1 T1 B1 K1].
  destruct t as [t|].
  - destruct T1 as [Tok M2]. pose proof Tok as Tok'. unfold tok_ok in Tok.
    destruct (t_lex t) as [|c l] eqn:L; [congruence|]. rewrite <- L in *.
    set (b2 := log b1 _).
    assert (R2 : rel b1 b2) by (apply rel_log; cbn; auto).
    assert (W2 : wf b2) by (apply wf_log; auto).
    assert (D2 : b_depth b2 = level) by (rewrite (r_depth _ _ R2), (r_depth _ _ R1); auto).
    pose proof (process_token_props b2 t u1 W2 O1 D2 Tok') as [R3 W3 O3 M3 F3 B3 K3].
    destruct (process_token fs pu b2 t u1) as [[ok b3] u3]. cbn [fst snd] in *.
    assert (R13 : rel b b3) by (eapply rel_trans; [exact R1|]; eapply rel_trans; eauto).
    destruct ok.
    + specialize (M3 eq_refl). assert (mu b2 u1 = mu b1 u1) by (destruct u1; reflexivity).
      destruct (IH b3 u3) as [[R4 W4 B4 F4] E4]; auto; [rewrite (r_depth _ _ R13); auto|lia|].
      split.
      * constructor; auto; [eapply rel_trans; eauto|]. intros Y. destruct u as [path inp p|rest arg].
        -- specialize (E4 Y). destruct u1; [|contradiction]. destruct u3; [|contradiction]. unfold bufle. rewrite E4. lia.
        -- destruct u1; [contradiction|]. specialize (B4 Y). specialize (B3 eq_refl). unfold bufle in *. cbn in *. rewrite <- B1. lia.
      * intros Y. specialize (E4 Y). destruct u, u1; try contradiction; auto. destruct u3; [auto|contradiction].
    + split; [|discriminate]. constructor; auto. discriminate.
  - cbn [fst snd]. split; [|auto].
    constructor; auto. cbn [fst snd]. intros Y. specialize (T1 Y). destruct u.
    + unfold bufle. rewrite T1. lia.
    + unfold bufle. rewrite B1. lia.
Qed.
End Nested.

Lemma process_unit_props fs d : forall b u,
  wf b -> unit_ok u -> b_depth b <= MAX_PREPROCESSOR_DEPTH -> 33 <= b_depth b + Z.of_nat d ->
  npost b (process_unit fs d b u).
Proof.
  induction d as [|d IH]; intros b u W U D1 D2; cbn [process_unit].
  - unfold MAX_PREPROCESSOR_DEPTH in *. lia.
  - pose proof (unit_fuel_enough b u) as FU.
    apply (unit_loop_props fs (process_unit fs d) (b_depth b)); auto; [|lia].
    intros b' u' W' U' D' L. apply IH; auto; lia.
Qed.

(** ** Deferred includes *)
Lemma str_eqb_eq a b : str_eqb a b = true <-> a = b.
Proof. unfold str_eqb. destruct (str_dec a b); split; auto; discriminate. Qed.
Lemma existsb_str n l : existsb (str_eqb n) l = true <-> In n l.
Proof.
  rewrite existsb_exists. split.
  - intros (x & I & E). apply str_eqb_eq in E. congruence.
  - intros I. exists n. split; auto. apply str_eqb_eq; auto.
Qed.
Lemma existsb_str_false n l : existsb (str_eqb n) l = false <-> ~ In n l.
Proof. rewrite <- existsb_str. destruct (existsb (str_eqb n) l); split; congruence. Qed.

Lemma find_file_in fs n c : find_file fs n = Some c -> In n (map fst fs).
Proof.
  induction fs as [|[k d] fs IH]; cbn; [discriminate|]. destruct (str_dec k n); auto.
Qed.

(** The files not yet included. *)
Definition uncovered (fs : files) (inc : list str) : nat :=
  List.length (filter (fun n => negb (existsb (str_eqb n) inc)) (map fst fs)).

Lemma filter_le {A} (f g : A -> bool) l : (forall x, g x = true -> f x = true) -> (List.length (filter g l) <= List.length (filter f l))%nat.
Proof.
  intros H. induction l as [|x l IH]; cbn; auto. destruct (g x) eqn:G.
  - rewrite (H _ G). cbn. lia.
  - destruct (f x); cbn; lia.
Qed.
Lemma filter_lt {A} (f g : A -> bool) l x :
  (forall y, g y = true -> f y = true) -> In x l -> f x = true -> g x = false ->
  (List.length (filter g l) < List.length (filter f l))%nat.
Proof.
  intros H I F G. induction l as [|y l IH]; [contradiction|]. destruct I as [->|I].
  - cbn. rewrite F, G. cbn. pose proof (filter_le f g l H). lia.
  - specialize (IH I). cbn. destruct (g y) eqn:Gy.
    + rewrite (H _ Gy). cbn. lia.
    + destruct (f y); cbn; lia.
Qed.

Lemma uncovered_le fs i j : incl i j -> (uncovered fs j <= uncovered fs i)%nat.
Proof.
  intros I. apply filter_le. intros x. rewrite !negb_true_iff, !existsb_str_false. auto.
Qed.
Lemma uncovered_lt fs i j n : incl i j -> In n (map fst fs) -> ~ In n i -> In n j -> (uncovered fs j < uncovered fs i)%nat.
Proof.
  intros I M N J. apply (filter_lt _ _ _ n); auto.
  - intros x. rewrite !negb_true_iff, !existsb_str_false. auto.
  - rewrite negb_true_iff, existsb_str_false. auto.
  - rewrite negb_false_iff, existsb_str. auto.
Qed.

Lemma process_file_unit fs d b path :
  wf b -> b_depth b <= MAX_PREPROCESSOR_DEPTH -> 33 <= b_depth b + Z.of_nat d ->
  fpost b (process_file fs (process_unit fs d) b path).
Proof.
  intros W D1 D2. apply process_file_props; auto. intros c. apply process_unit_props; cbn; auto. apply wf_log; auto.
Qed.

Lemma process_include_unit fs b n t :
  wf b -> b_depth b = 0 -> npost b (process_include fs (process_unit fs DEPTH) b n t).
Proof.
  intros W D. apply (process_include_props fs (process_unit fs DEPTH) 0); auto; [|reflexivity].
  intros b' u' W' U' D' _. apply process_unit_props; auto; rewrite D'; [discriminate|]. unfold DEPTH. lia.
Qed.

Lemma include_covers fs b n t b' :
  wf b -> b_depth b = 0 -> process_include fs (process_unit fs DEPTH) b n t = (true, b') ->
  b' = b \/ In n (map fst fs) /\ ~ In n (b_includes b) /\ In n (b_includes b') /\ incl (b_includes b) (b_includes b').
Proof.
  intros W D. unfold process_include. destruct (existsb _ _) eqn:E; [intros [= <-]; auto|].
  apply existsb_str_false in E. set (b1 := set_includes b _). set (b2 := set_depth b1 _).
  assert (W2 : wf b2).
  { apply wf_set_depth; [apply wf_includes; auto|]. cbn. lia. }
  pose proof (process_file_unit fs DEPTH b2 n W2) as P.
  cbn zeta. intros H. right.
  destruct (process_file fs (process_unit fs DEPTH) b2 n) as [ok b3] eqn:PF.
  destruct ok; [|discriminate]. injection H as <-.
  destruct P as [R _ _ _ _]; [cbn; rewrite D; discriminate|cbn; rewrite D; unfold DEPTH; lia|]. cbn [snd] in R.
  pose proof (r_includes _ _ R) as I. cbn [b2 b1 b_includes set_depth set_includes] in I.
  split; [|split; [auto|]; split].
  - unfold process_file in PF. destruct (find_file fs n) eqn:FF; [eapply find_file_in; eauto|discriminate].
  - apply I. left. auto.
  - intros x Hx. apply I. right. auto.
Qed.

Lemma deferred_terminates fs k : forall b i, (uncovered fs (b_includes b) <= k)%nat -> wf b -> b_depth b = 0 ->
  exists n, forall m, (n <= m)%nat -> deferred_loop fs m i b = deferred_loop fs n i b /\ npost b (deferred_loop fs n i b).
Proof.
  induction k as [k IHk] using lt_wf_ind.
  intros b i U W D. remember (List.length (b_deferred b) - i)%nat as rest eqn:Er. revert i Er.
  induction rest as [rest IHr] using lt_wf_ind. intros i Er.
  destruct (nth_error (b_deferred b) i) as [[name t]|] eqn:N.
  2:{ exists 1%nat. intros m M. destruct m as [|m]; [lia|]. cbn [deferred_loop]. rewrite N.
      split; auto. apply post_npost, post_ret; auto. }
  assert (Li : (i < List.length (b_deferred b))%nat) by (apply nth_error_Some; congruence).
  pose proof (process_include_unit fs b name t W D) as [R1 W1 B1 F1].
  destruct (process_include fs (process_unit fs DEPTH) b name t) as [ok b1] eqn:P. cbn [fst snd] in *.
  destruct ok.
  2:{ exists 1%nat. intros m M. destruct m as [|m]; [lia|]. cbn [deferred_loop]. rewrite N, P. cbn.
      split; auto. constructor; auto. }
  assert (D1 : b_depth b1 = 0) by (rewrite (r_depth _ _ R1); auto).
  assert (NX : exists n, forall m, (n <= m)%nat -> deferred_loop fs m (S i) b1 = deferred_loop fs n (S i) b1 /\ npost b1 (deferred_loop fs n (S i) b1)).
  { destruct (include_covers fs b name t b1 W D P) as [->|(I1 & I2 & I3 & I4)].
    - apply (IHr (List.length (b_deferred b) - S i)%nat); auto. lia.
    - pose proof (uncovered_lt fs _ _ name I4 I1 I2 I3). apply (IHk (uncovered fs (b_includes b1))); auto. lia. }
  destruct NX as [n H]. exists (S n). intros m M. destruct m as [|m]; [lia|].
  cbn [deferred_loop]. rewrite N, P. cbn [andthen]. destruct (H m ltac:(lia)) as [E P2]. split; auto.
  destruct P2 as [R2 W2 B2 F2]. constructor; auto.
  - eapply rel_trans; eauto.
  - intros Y. eapply bufle_trans; eauto.
Qed.

(** ** The whole *)
Lemma rel_fold {A} (f : basm -> A -> basm) l : (forall b x, rel b (f b x)) -> forall b, rel b (fold_left f l b).
Proof.
  intros H. induction l as [|x l IH]; intros b; cbn; [apply rel_refl|]. eapply rel_trans; [apply H|apply IH].
Qed.

Lemma rel_report_symbol b nv : rel b (report_symbol b nv).
Proof.
  destruct nv as [n v]. unfold report_symbol. destruct (n_entry v).
  - apply rel_error.
  - destruct (_ && _); auto using rel_refl, rel_warning.
  - destruct (_ && _); auto using rel_refl, rel_warning.
  - apply rel_fold. intros. apply rel_error.
Qed.

Definition reports (b : basm) : basm :=
  let b := report_ats (report_lambdas b) in fold_left report_symbol (b_symtab b) b.

Lemma rel_reports b : rel b (reports b).
Proof.
  unfold reports, report_ats, report_lambdas. eapply rel_trans; [|apply rel_fold; apply rel_report_symbol].
  eapply rel_trans; [|apply rel_fold; intros; apply rel_warning]. apply rel_fold. intros. apply rel_error.
Qed.

Lemma wf_start : wf start.
Proof. constructor; cbn; auto; try constructor; unfold is_short, RESET_VECTOR; try lia. discriminate. Qed.

(** The main fact about any run: enough fuel always exists and from there on the
    run is the same, grown from the initial state without failures of the model. *)
Theorem asm_sound fs file :
  exists n, forall m, (n <= m)%nat ->
  asm fs m file = asm fs n file /\ rel (set_depth start (-1)) (set_depth (snd (asm fs n file)) (-1)) /\ fst (asm fs n file) = b_success (snd (asm fs n file)).
Proof.
  pose proof (process_file_unit fs DEPTH start file wf_start) as P.
  unfold asm. destruct (process_file fs (process_unit fs DEPTH) start file) as [ok b] eqn:E.
  destruct P as [R D W B F]; [discriminate|unfold DEPTH; cbn; lia|]. cbn [fst snd] in *. cbn [b_depth start] in D.
  assert (R0 : rel (set_depth start (-1)) (set_depth b (-1))) by (rewrite D in R; exact R).
  destruct ok; cbn [negb].
  2:{ exists 0%nat. intros m _. auto. }
  destruct (deferred_terminates fs _ b 0 (le_n _) W D) as [n H]. exists n. intros m M.
  destruct (H m M) as [E2 [R2 W2 B2 F2]]. unfold resolve. rewrite E2. split; auto.
  assert (UP : forall b b', rel b b' -> b_depth b = 0 -> rel (set_depth b (-1)) (set_depth b' (-1))).
  { clear. intros b b' [(e & O & S & P & X1 & X2) D F I] D0. constructor; auto. exists e. split; auto. split; auto. split; auto.
    split; auto. intros p s E. specialize (X2 p s E); rewrite D0 in X2; unfold MAX_PREPROCESSOR_DEPTH in *; cbn [b_depth set_depth]; lia. }
  destruct (deferred_loop fs n 0 b) as [ok b2]. cbn [andthen fst snd] in *.
  assert (R3 : rel (set_depth start (-1)) (set_depth b2 (-1))) by (eapply rel_trans; eauto).
  destruct ok.
  - cbn [fst snd]. split; auto. eapply rel_trans; [exact R3|]. apply UP; [apply rel_reports|].
    rewrite (r_depth _ _ R2). auto.
  - cbn [fst snd]. split; auto.
Qed.
