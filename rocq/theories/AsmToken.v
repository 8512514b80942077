(** Every kind of token has the effect that AsmSpec gives it. *)
From Verif Require Import Base AsmModel AsmSpec AsmWords AsmLink AsmSim AsmRefs.
From Coq Require Import ZifyBool Ascii String.
Open Scope list_scope.
Ltac Zify.zify_post_hook ::= Z.div_mod_to_equations.

Arguments tr : simpl never.
Arguments mem : simpl never.
Arguments target_dec : simpl never.
Arguments str_dec : simpl never.
Arguments str_eqb : simpl never.

Lemma assoc_same t l labels : assoc t ((t, l) :: labels) = Some l.
Proof. cbn [assoc]. destruct (target_dec t t); congruence. Qed.
Lemma assoc_other t t' l labels : t <> t' -> assoc t ((t', l) :: labels) = assoc t labels.
Proof. intros N. cbn [assoc]. destruct (target_dec t' t); congruence. Qed.
Lemma is_macro_in p n : is_macro p n = true <-> In n (p_macros p).
Proof.
  unfold is_macro. rewrite existsb_exists. split.
  - intros (x & I & E). apply str_eqb_true in E. congruence.
  - intros I. exists n. split; auto. apply str_eqb_true. reflexivity.
Qed.
Lemma is_macro_not p n : ~ In n (p_macros p) -> is_macro p n = false.
Proof. intros H. destruct (is_macro p n) eqn:E; auto. apply is_macro_in in E. contradiction. Qed.
Lemma is_label_none p t : assoc t (p_labels p) = None -> is_label p t = false.
Proof. unfold is_label. intros ->. reflexivity. Qed.

(** ** Defining a label *)
Lemma mem_patch m m' labels cells t l refs :
  (forall a, t <> At a) -> assoc t labels = None -> mem_ok m labels cells -> pending cells refs t ->
  (forall r, In r refs -> exists bs, encodes r l bs) ->
  (forall a,
    m' a = m a /\ (forall r bs, In r refs -> encodes r l bs -> ~ f_addr r <= a < f_addr r + len bs) \/
    exists r bs, In r refs /\ encodes r l bs /\ f_addr r <= a < f_addr r + len bs /\ m' a = nth_error bs (Z.to_nat (a - f_addr r))) ->
  mem_ok m' ((t, l) :: labels) cells.
Proof.
  intros NA U M [P1 P2] EN W.
  assert (CV : forall a r bs, In r refs -> encodes r l bs -> f_addr r <= a < f_addr r + len bs ->
               exists md, mode_of (f_type r) (f_size r) = Some md /\ encode md (f_addr r) l = Some bs /\
                          In (a, Part md t (f_addr r) (a - f_addr r)) cells).
  { intros a r bs I (md & M1 & M2) R. exists md. split; auto. split; auto. destruct (P2 r I) as (md' & M' & H).
    assert (md' = md) by congruence. subst. pose proof (encode_len _ _ _ _ M2).
    specialize (H (a - f_addr r) ltac:(lia)). replace (f_addr r + (a - f_addr r)) with a in H by lia. auto. }
  apply (mem_define m); auto.
  - intros a md x i I. destruct (P1 _ _ _ _ I) as (r & I' & FA & M1). destruct (EN r I') as (bs & md' & M2 & E).
    rewrite FA in E. assert (md' = md) by congruence. subst. congruence.
  - intros a md x i bs O E. pose proof (only_is_in _ _ _ O) as I. destruct (P1 _ _ _ _ I) as (r & I' & FA & M1).
    destruct (k_part _ _ _ M _ _ _ _ _ I) as [A R]. pose proof (encode_len _ _ _ _ E) as L.
    destruct (W a) as [[K N]|(r' & bs' & I2 & E2 & R2 & K)].
    + exfalso. apply (N r bs); auto; [exists md; split; auto; congruence|lia].
    + destruct (CV a r' bs' I2 E2 R2) as (md' & M2 & E3 & I3). pose proof (only_in _ _ _ _ O I3) as Q. injection Q as -> F1 F2.
      rewrite K. rewrite F1 in *. rewrite E in E3. injection E3 as ->. congruence.
  - intros a N. destruct (W a) as [[K _]|(r' & bs' & I2 & E2 & R2 & K)]; auto.
    destruct (CV a r' bs' I2 E2 R2) as (md' & M2 & E3 & I3). exfalso. eapply N; eauto.
  - intros a H. destruct (W a) as [[K _]|(r' & bs' & I2 & E2 & R2 & K)]; [congruence|].
    rewrite K in H. apply nth_error_None in H. unfold len in R2. lia.
Qed.

Lemma name_label o macros labels cells n t l : t <> Label n ->
  name_ok o macros labels cells n -> name_ok o macros ((t, l) :: labels) cells n.
Proof.
  intros N. unfold name_ok. rewrite assoc_other by congruence. auto.
Qed.

Lemma pending_short cells refs t labels m r : mem_ok m labels cells -> pending cells refs t -> In r refs ->
  mode_of (f_type r) (f_size r) <> None /\ is_short (f_addr r).
Proof.
  intros M [_ P2] I. destruct (P2 r I) as (md & E & H). split; [congruence|].
  assert (W : 0 <= 0 < width md) by (destruct md; cbn; lia). specialize (H 0 W). apply (k_in _ _ _ M) in H. unfold is_short. lia.
Qed.

Lemma sim0_define b t p name v id refs ok b' :
  sim0 b p -> lookup name (b_symtab b) = Some v -> ~ In name (p_macros p) -> assoc (Label name) (p_labels p) = None ->
  pending (p_cells p) refs (Label name) ->
  define_label b t name v id refs = (ok, b') -> b_success b' = true ->
  ok = true /\ sim0 b' (with_label p (Label name)).
Proof.
  intros [] LK NM NL P D S. unfold define_label in D. cbv zeta in D. injection D as <- <-. split; auto.
  set (b1 := set_node b name (set_entry v (EnLabel id (b_addr b)))) in *.
  change (b_success (patch b1 refs name id (b_addr b)) = true) in S.
  destruct (patch_mem refs b1 name id (b_addr b) S) as (Q1 & Q2 & Q3 & Q4 & Q5 & Q6 & Q7 & Q8).
  { rewrite i_addr. auto. }
  { intros r I. eapply pending_short; eauto. }
  set (b2 := patch b1 refs name id (b_addr b)) in *.
  eapply sim0_same; [|apply same_put_symbol].
  constructor; cbn [b_addr b_scope b_ats b_symtab b_lambdas b_depth set_addr set_node set_symtab p_addr p_scope p_ats p_labels p_trace p_macros p_cells p_open p_next with_label]; auto.
  - rewrite Q2. exact i_scope.
  - rewrite Q5. exact i_ats.
  - intros t' l. cbn [assoc]. destruct (target_dec _ t'); [intros [= <-]; auto|apply i_labels].
  - change (tr b2 = (p_trace p, b_depth b2)). rewrite Q6, Q1. exact i_tr.
  - intros m. rewrite Q3. change (b_symtab b1) with (update name (set_entry v (EnLabel id (b_addr b))) (b_symtab b)).
    rewrite !lookup_update, LK. destruct (str_dec name name) as [_|]; [|congruence].
    destruct (str_dec m name) as [->|N].
    + cbn [name_ok n_entry]. split; auto. rewrite assoc_same. congruence.
    + apply name_label; [congruence|apply i_names].
  - rewrite Q4. destruct i_lams. constructor; auto.
  - rewrite <- i_addr. apply (mem_patch (mem b) (mem b2) (p_labels p) (p_cells p) (Label name) (b_addr b) refs); auto. discriminate.
Qed.

Lemma sim0_unknown b p n v : sim0 b p -> lookup n (b_symtab b) = Some v -> n_entry v = EnUnknown ->
  ~ In n (p_macros p) /\ assoc (Label n) (p_labels p) = None /\ pending (p_cells p) [] (Label n).
Proof. intros S L E. pose proof (i_names _ _ S n) as N. rewrite L in N. cbn in N. rewrite E in N. exact N. Qed.
Lemma sim0_entry_forward b p n v id refs : sim0 b p -> lookup n (b_symtab b) = Some v -> n_entry v = EnForward id refs ->
  ~ In n (p_macros p) /\ assoc (Label n) (p_labels p) = None /\ pending (p_cells p) refs (Label n).
Proof. intros S L E. pose proof (i_names _ _ S n) as N. rewrite L in N. cbn in N. rewrite E in N. exact N. Qed.
Lemma sim0_entry_label b p n v id a : sim0 b p -> lookup n (b_symtab b) = Some v -> n_entry v = EnLabel id a ->
  ~ In n (p_macros p) /\ assoc (Label n) (p_labels p) = Some a.
Proof. intros S L E. pose proof (i_names _ _ S n) as N. rewrite L in N. cbn in N. rewrite E in N. exact N. Qed.
Lemma sim0_entry_macro b p n v id toks e : sim0 b p -> lookup n (b_symtab b) = Some v -> n_entry v = EnMacro id toks e ->
  In n (p_macros p) /\ assoc (Label n) (p_labels p) = None /\ pending (p_cells p) [] (Label n) /\ Forall tokb toks.
Proof. intros S L E. pose proof (i_names _ _ S n) as N. rewrite L in N. cbn in N. rewrite E in N. exact N. Qed.

Lemma sim0_set b p b' : sim0 b p ->
  b_addr b' = b_addr b -> b_depth b' = b_depth b -> b_scope b' = b_scope b -> b_symtab b' = b_symtab b ->
  b_lambdas b' = b_lambdas b -> b_ats b' = b_ats b -> b_out b' = b_out b -> sim0 b' p.
Proof. intros S. intros. eapply sim0_same; eauto. apply same_set; auto. Qed.

Lemma sim0_register b t p name b' : sim0 b p -> Forall is_byte name -> register_label b t name = (true, b') ->
  b_success b' = true -> exists p', define_name p name = Some p' /\ sim0 b' p' /\ p' = with_label p (Label name).
Proof.
  intros S F. unfold register_label. destruct (find_or_create b t name) as [[v|] b1] eqn:E; [|discriminate].
  destruct (sim0_find _ _ _ _ _ _ F S E) as (V & S1 & L & _). unfold define_name. rewrite V.
  destruct (n_entry v) as [|id toks e|id a|id refs] eqn:EN; try discriminate; intros D SU.
  - destruct (sim0_unknown _ _ _ _ S1 L EN) as (N1 & N2 & N3).
    rewrite is_macro_not by auto. cbn [andb negb]. unfold define. rewrite is_label_none by auto.
    eapply sim0_define in D as [_ D]; eauto. eapply sim0_set; eauto.
  - destruct (sim0_entry_forward _ _ _ _ _ _ S1 L EN) as (N1 & N2 & N3).
    rewrite is_macro_not by auto. cbn [andb negb]. unfold define. rewrite is_label_none by auto.
    eapply sim0_define in D as [_ D]; eauto.
Qed.

(** ** References *)
Lemma andthen_sim b p op t r g b' : sim0 b p -> is_byte op -> (emit_opcode b t op r ;; b => g b) = (true, b') ->
  exists b1 p1, place_byte p op = Some p1 /\ sim0 b1 p1 /\ g b1 = (true, b').
Proof.
  intros S B H. apply andthen_true in H as (b1 & H1 & H2). apply emit_opcode_writes in H1; [|rewrite (i_addr _ _ S); apply S].
  rewrite Z.mod_small in H1 by (unfold is_byte in B; lia).
  destruct (sim0_byte _ _ _ _ S H1) as (p1 & E & S1). exists b1, p1. auto.
Qed.

Lemma sim0_lambda_ref b t p ty sz md r b' : sim0 b p -> mode_of ty sz = Some md ->
  emit_lambda_ref b t ty sz r = (true, b') ->
  exists p', place_ref (with_open p (p_next p :: p_open p) (p_next p + 1)) md (Lambda (p_next p)) = Some p' /\ sim0 b' p'.
Proof.
  intros S M H. unfold emit_lambda_ref in H. cbv zeta in H. apply andthen_true in H as (b1 & H1 & H2).
  eapply emit_placeholder_writes in H1 as (bs & L & W); eauto; [|rewrite (i_addr _ _ S); apply S].
  injection H2 as <-.
  destruct (sim0_lambda b b1 p md bs (mkRef t (b_labels b1) (b_nlambdas b1) (b_addr b) ty sz) S W L M eq_refl) as (p' & E & S').
  exists p'. split; auto. eapply sim0_set; eauto.
Qed.

Lemma sim0_forward_ref b t p ty sz md n v r b' : sim0 b p -> mode_of ty sz = Some md -> lookup n (b_symtab b) = Some v ->
  match n_entry v with EnUnknown | EnForward _ _ => True | _ => False end ->
  emit_forward_ref b t ty sz n v r = (true, b') ->
  exists p', place_ref p md (Label n) = Some p' /\ sim0 b' p'.
Proof.
  intros S M L EV H. unfold emit_forward_ref in H.
  assert (X : exists b1 v1 id refs, sim0 b1 p /\ lookup n (b_symtab b1) = Some v1 /\ n_entry v1 = EnForward id refs /\
    (let addr := b_addr b1 in
      emit_placeholder b1 t sz (Some (n, id)) r ;; b =>
      (true, set_node b n (set_entry v1 (EnForward id (mkRef t 0 0 addr ty sz :: refs))))) = (true, b')).
  { destruct (n_entry v) as [|id toks e|id a|id refs] eqn:EN; try contradiction.
    - cbn [n_entry set_entry] in H. do 4 eexists. split; [|split; [|split; [|exact H]]].
      + pose proof (sim0_unknown _ _ _ _ S L EN) as N.
        apply (sim0_node _ p n v); [eapply sim0_set; eauto|exact L|exact N].
      + cbn. rewrite lookup_update, L. destruct (str_dec n n); congruence.
      + reflexivity.
    - rewrite EN in H. exists b, v, id, refs. auto. }
  destruct X as (b1 & v1 & id & refs & S1 & L1 & E1 & H1). clear H. cbv zeta in H1. apply andthen_true in H1 as (b2 & H2 & H3).
  eapply emit_placeholder_writes in H2 as (bs & L2 & W); eauto; [|rewrite (i_addr _ _ S1); apply S1].
  injection H3 as <-.
  apply (sim0_forward b1 b2 p md n v1 id refs bs (mkRef t 0 0 (b_addr b1) ty sz)); auto.
Qed.

Lemma sim0_backward_label b t p ty sz md n v id a r b' : sim0 b p -> mode_of ty sz = Some md -> lookup n (b_symtab b) = Some v ->
  n_entry v = EnLabel id a ->
  emit_backward_ref (set_node b n (set_referenced v true)) t ty sz (Some n) id a true r = (true, b') ->
  exists p', place_ref p md (Label n) = Some p' /\ sim0 b' p'.
Proof.
  intros S M L E H. destruct (sim0_entry_label _ _ _ _ _ _ S L E) as [N1 N2].
  set (w := set_referenced v true) in *.
  assert (S1 : sim0 (set_node b n w) p).
  { eapply sim0_node; eauto. cbn. rewrite E. auto. }
  assert (L1 : lookup n (b_symtab (set_node b n w)) = Some w).
  { cbn. rewrite lookup_update, L. destruct (str_dec n n); congruence. }
  apply (emit_backward_writes _ _ _ _ _ _ _ _ _ _ md) in H; auto; [|rewrite (i_addr _ _ S1); apply S1|eapply (i_labels _ _ S); eauto].
  destruct H as (bs & EN & W). eapply sim0_known; eauto; [discriminate|].
  intros n' [= <-]. exists id, a, w. auto.
Qed.

Lemma local_spec b t p n : sim0 b p ->
  match resolve_local_name b t n with
  | (Some full, b') => local p n = Some full /\ b' = b
  | (None, _) => local p n = None
  end.
Proof.
  intros S. unfold resolve_local_name, local. rewrite <- (i_scope _ _ S). unfold MAX_TOKEN_LEN.
  destruct (47 <? len n + len (b_scope b) + 1) eqn:E; destruct (len (b_scope b) + 1 + len n <=? 47) eqn:E2; try lia; auto.
Qed.
Definition full_name (p : prog) (r : str) : option str :=
  match r with
  | c :: n => if (c =? chr "&") || (c =? chr "/") then local p n else Some r
  | [] => None
  end.
Lemma resolve_spec b t p r : sim0 b p ->
  match resolve_label_ref b t r with
  | (Some full, b') => full_name p r = Some full /\ b' = b
  | (None, _) => full_name p r = None
  end.
Proof.
  intros S. unfold resolve_label_ref, full_name. destruct r as [|c n]; auto.
  change (chr "&") with 38. change (chr "/") with 47. destruct (_ || _); auto. apply local_spec; auto.
Qed.
Lemma local_bytes p n full : Forall is_byte (p_scope p) -> Forall is_byte n -> local p n = Some full -> Forall is_byte full /\ full <> [64].
Proof.
  intros F1 F2. unfold local. destruct (_ <=? _); [|discriminate]. intros [= <-]. split.
  - apply Forall_app. split; auto. constructor; auto. unfold is_byte, chr; cbv; split; congruence.
  - destruct (p_scope p) as [|a [|c s]]; cbn; intros H; inversion H.
Qed.
Lemma full_bytes b p r full : sim0 b p -> Forall is_byte r -> full_name p r = Some full -> Forall is_byte full.
Proof.
  intros S F. unfold full_name. destruct r as [|c n]; [discriminate|]. inversion F; subst.
  destruct (_ || _); [|intros [= <-]; auto]. intros H. eapply local_bytes in H; eauto; [tauto|apply S].
Qed.
Lemma full_at p r b : sim0 b p -> Forall is_byte r -> full_name p r = Some [64] -> r = [64].
Proof.
  intros S F. unfold full_name. destruct r as [|c n]; [discriminate|]. inversion F; subst.
  destruct (_ || _); [|congruence]. intros H. eapply local_bytes in H; eauto; [tauto|apply S].
Qed.

Lemma sim0_pop b p l b1 : sim0 b p -> pop_at_label b = (Some l, b1) ->
  exists rest, p_ats p = f_addr l :: rest /\ sim0 b1 (with_ats p rest) /\ is_short (f_addr l) /\ b_addr b1 = b_addr b.
Proof.
  intros [] H. unfold pop_at_label in H. destruct (b_ats b) as [|l' rest] eqn:E; [discriminate|]. injection H as <- <-.
  cbn in i_ats. rewrite <- i_ats in *. inversion i_atshort; subst. exists (map f_addr rest).
  split; auto. split; [|split; auto]. constructor; auto.
Qed.

Lemma valid_not_runic n : valid_name n = true -> match n with [] => False | c :: _ => is_runic c = false end.
Proof. intros H. apply valid_name_valid in H as (H1 & _ & _ & H4). destruct n; auto. Qed.

Lemma sim0_label_ref b t p ty sz md name r b' : sim0 b p -> Forall is_byte name -> mode_of ty sz = Some md ->
  emit_label_ref b t ty sz name r = (true, b') ->
  exists p', place_ref_to p md name = Some p' /\ sim0 b' p'.
Proof.
  intros S F M. unfold emit_label_ref, place_ref_to, find_target. change (bytes "{") with [123]. change (bytes "@") with [64].
  unfold str_eqb at 1. destruct (str_dec name [123]) as [->|N1].
  { intros H. cbn [bind]. eapply sim0_lambda_ref; eauto. }
  pose proof (resolve_spec b t p name S) as R. destruct (resolve_label_ref b t name) as [[full|] b1]; [|discriminate].
  destruct R as [R ->]. fold (full_name p name). unfold str_eqb.
  destruct (str_dec full [64]) as [->|N2].
  { rewrite (full_at _ _ _ S F R). destruct (str_dec [64] [64]) as [_|]; [|congruence].
    destruct (pop_at_label b) as [[l|] b1] eqn:P; [|discriminate]. intros H.
    destruct (sim0_pop _ _ _ _ S P) as (rest & -> & S1 & SH & A). cbn [bind].
    apply (emit_backward_writes _ _ _ _ _ _ _ _ _ _ md) in H; auto; [|rewrite (i_addr _ _ S1); apply S1].
    destruct H as (bs & E & W). eapply sim0_known; eauto; try discriminate. reflexivity. }
  destruct (str_dec name [64]) as [->|N3].
  { exfalso. apply N2. change (Some [64] = Some full) in R. congruence. }
  assert (FF : Forall is_byte full) by (eapply full_bytes; eauto).
  rewrite R. cbn [bind]. destruct full as [|c f]; [discriminate|]. destruct (is_runic c); [discriminate|].
  destruct (find_or_create b t (c :: f)) as [[v|] b1] eqn:E; [|discriminate].
  destruct (sim0_find _ _ _ _ _ _ FF S E) as (V & S1 & L & _). rewrite V.
  destruct (n_entry v) as [|id toks e|id a|id refs] eqn:EN; try discriminate; intros H.
  - destruct (sim0_unknown _ _ _ _ S1 L EN) as (Q1 & Q2 & Q3). rewrite is_macro_not by auto. cbn [negb andb bind].
    eapply sim0_forward_ref; eauto. rewrite EN. exact I.
  - destruct (sim0_entry_label _ _ _ _ _ _ S1 L EN) as (Q1 & Q2). rewrite is_macro_not by auto. cbn [negb andb bind].
    eapply sim0_backward_label; eauto.
  - destruct (sim0_entry_forward _ _ _ _ _ _ S1 L EN) as (Q1 & Q2 & Q3). rewrite is_macro_not by auto. cbn [negb andb bind].
    eapply sim0_forward_ref; eauto. rewrite EN. exact I.
Qed.

(** A word that calls a label. *)
Lemma sim0_op_ref b t p op ty sz md name r r' b' : sim0 b p -> Forall is_byte name -> mode_of ty sz = Some md -> is_byte op ->
  (emit_opcode b t op r ;; b => emit_label_ref b t ty sz name r') = (true, b') ->
  exists p', bind (place_byte p op) (fun p => place_ref_to p md name) = Some p' /\ sim0 b' p'.
Proof.
  intros S F M B H. apply (andthen_sim b p op t r (fun b => emit_label_ref b t ty sz name r')) in H; auto.
  destruct H as (b1 & p1 & E & S1 & H). rewrite E. cbn [bind]. eapply sim0_label_ref; eauto.
Qed.

(** ** Lambdas *)
Lemma emit_addr_frame b t ty sz to sym b' md l : mode_of ty sz = Some md -> is_short l -> is_short to ->
  emit_addr (set_addr b l) t ty sz (distance ty l to) sym = (true, b') ->
  exists bs, encode md l to = Some bs /\ writes (set_addr b l) b' bs.
Proof. intros M A T H. apply (emit_addr_writes (set_addr b l) t ty sz to sym b' md); auto. Qed.

Lemma sim0_close b t p b' : sim0 b p -> process_lambda_close b t = (true, b') ->
  exists k l p', p_open p = k :: l /\ define (with_open p l (p_next p)) (Lambda k) = Some p' /\ sim0 b' p'.
Proof.
  intros S H. unfold process_lambda_close in H. destruct (b_lambdas b) as [|r rest] eqn:E; [discriminate|].
  pose proof (i_lams _ _ S) as LM. rewrite E in LM. destruct LM as [LO LN LU LC LD].
  inversion LO as [|? k ? l P LO' E1 E2]; subst. exists k, l. cbv zeta in H.
  pose proof (calculate_distance b (f_tok r) (f_type r) (f_addr r) (b_addr b)) as [D Q].
  destruct (calculate_addr b (f_tok r) (f_type r) (f_addr r) (b_addr b)) as [d b0]. cbn [fst snd] in D, Q. subst d.
  apply andthen_true in H as (b1 & H1 & H2).
  destruct (pending_short _ _ _ _ _ r (i_mem _ _ S) P (or_introl eq_refl)) as [M SH].
  destruct (mode_of (f_type r) (f_size r)) as [md|] eqn:MD; [|congruence].
  apply (emit_addr_frame b0 _ _ _ (b_addr b) _ b1 md) in H1; auto; [|rewrite (i_addr _ _ S); apply S].
  destruct H1 as (bs & EN & W). rewrite <- E2 in *.
  destruct (LU k (or_introl eq_refl)) as [U1 U2].
  unfold define. rewrite is_label_none by exact U1. eexists. split; auto. split; [reflexivity|].
  set (b2 := set_addr b1 (b_addr b)) in *.
  destruct (make_lambda_name b2 (f_lambda r)) as [n b3] eqn:ML. injection H2 as <-.
  assert (S3 : same b2 b3).
  { unfold make_lambda_name in ML. injection ML as <- <-. destruct (4096 <=? f_lambda r); auto with same. apply same_log. exact I. }
  assert (S4 : same b2 (put_symbol b3 (b_addr b) (mkSymbol SLabel true (f_label r) (Some n) (t_reg t)))) by (eapply same_trans; [exact S3|auto with same]).
  set (b4 := put_symbol b3 _ _) in *.
  destruct S4. destruct W. destruct Q. destruct S.
  cbn in w_depth, w_scope, w_symtab, w_lambdas, w_ats, w_range, w_addr.
  constructor; cbn [b_addr b_scope b_ats b_symtab b_lambdas b_depth set_lambdas p_addr p_scope p_ats p_labels p_trace p_macros p_cells p_open p_next with_label with_open]; auto.
  - rewrite e_addr. exact i_addr.
  - rewrite e_scope. cbn. congruence.
  - rewrite e_ats. cbn. congruence.
  - intros t' l0. cbn [assoc]. destruct (target_dec _ t'); [intros [= <-]; auto|apply i_labels].
  - change (tr b4 = (p_trace p, b_depth b4)). rewrite e_tr, e_depth. change (tr b1 = (p_trace p, b_depth b1)).
    rewrite w_tr, w_depth. change (tr b0 = (p_trace p, b_depth b0)). congruence.
  - intros m. rewrite e_symtab. change (b_symtab b2) with (b_symtab b1). rewrite w_symtab, e_symtab0.
    apply name_label; [discriminate|apply i_names].
  - inversion LN as [|? ? LN1 LN2]; subst. constructor; auto.
    + intros k' I. rewrite assoc_other; [|intros [= <-]; contradiction]. apply LU. right. auto.
    + intros a md' k' x i I. destruct (LC _ _ _ _ _ I) as [C1 C2]. split; auto.
      destruct (Z.eq_dec k' k) as [->|N]; [right; rewrite assoc_same; discriminate|].
      rewrite assoc_other by congruence. destruct C2 as [[C2|C2]|C2]; auto.
    + intros k' l'. destruct (Z.eq_dec k' k) as [->|N]; [auto|]. rewrite assoc_other by congruence. eauto.
  - eapply (mem_patch (mem b) _ _ _ _ _ [r]); eauto; [discriminate| |].
    + intros r' [<-|[]]. exists bs, md. rewrite <- i_addr. auto.
    + intros a. change (mem (set_lambdas b4 rest) a) with (mem b4 a). rewrite e_mem. change (mem b2 a) with (mem b1 a).
      rewrite w_mem. change (b_addr (set_addr b0 (f_addr r))) with (f_addr r). unfold over.
      destruct ((f_addr r <=? a) && (a <? f_addr r + len bs)) eqn:C.
      * right. exists r, bs. split; [left; auto|]. split; [exists md; rewrite <- i_addr; auto|]. split; [lia|auto].
      * left. split; [change (mem b0 a = mem b a); auto|]. intros r' bs' [<-|[]] (md' & M1 & M2).
        rewrite <- i_addr in M2. assert (bs' = bs) by congruence. subst. lia.
Qed.
