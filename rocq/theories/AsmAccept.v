(** The assembler accepts what AsmSpec accepts: tokens without nested units. *)
From Verif Require Import Base AsmModel AsmSound AsmScan AsmRun AsmSpec AsmWords AsmLink AsmSim AsmRefs AsmToken AsmStep AsmProg.
From Coq Require Import ZifyBool Ascii String.
Open Scope list_scope.
Ltac Zify.zify_post_hook ::= Z.div_mod_to_equations.

Definition succeeds (r : ret) : Prop := exists b', r = (true, b') /\ b_success b' = true.
Lemma succeeds_then r g : succeeds r -> (forall b, r = (true, b) -> b_success b = true -> succeeds (g b)) -> succeeds (andthen r g).
Proof. intros (b & -> & S) G. cbn [andthen]. auto. Qed.
Lemma succeeds_ret b : b_success b = true -> succeeds (true, b).
Proof. intros S. exists b. auto. Qed.

(** The references to known targets are within reach. *)
Definition reach (p : prog) : Prop :=
  forall a m t x i l, In (a, Part m t x i) (p_cells p) -> address p t = Some l -> encode m x l <> None.

Lemma emit_accept b t v : b_success b = true -> 256 <= b_addr b -> succeeds (emit b t v).
Proof.
  intros S A. unfold emit. destruct (Z.ltb_spec (b_addr b) RESET_VECTOR) as [L|L]; unfold RESET_VECTOR in L; [lia|].
  apply succeeds_ret. exact S.
Qed.
Lemma emit_addr_next b t v b' : emit b t v = (true, b') -> b_addr b' = u16 (b_addr b + 1).
Proof. unfold emit. destruct (_ <? _); [discriminate|]. intros [= <-]. reflexivity. Qed.
Lemma emit2_accept b t v : b_success b = true -> 256 <= b_addr b -> b_addr b + 2 <= 65536 -> succeeds (emit2 b t v).
Proof.
  intros S A L. unfold emit2. apply succeeds_then; [apply emit_accept; auto|]. intros b1 E S1. apply emit_accept; auto.
  rewrite (emit_addr_next _ _ _ _ E). unfold u16. lia.
Qed.
Lemma emit_opcode_accept b t v r : b_success b = true -> 256 <= b_addr b -> succeeds (emit_opcode b t v r).
Proof. intros S A. unfold emit_opcode. apply succeeds_then; [apply emit_accept; auto|]. intros b1 _ S1. apply succeeds_ret. exact S1. Qed.
Lemma emit_byte_accept b t v r : b_success b = true -> 256 <= b_addr b -> succeeds (emit_byte b t v r).
Proof. intros S A. unfold emit_byte. apply succeeds_then; [apply emit_accept; auto|]. intros b1 _ S1. apply succeeds_ret. exact S1. Qed.
Lemma emit_short_accept b t v r : b_success b = true -> 256 <= b_addr b -> b_addr b + 2 <= 65536 -> succeeds (emit_short b t v r).
Proof. intros S A L. unfold emit_short. apply succeeds_then; [apply emit2_accept; auto|]. intros b1 _ S1. apply succeeds_ret. exact S1. Qed.
Lemma emit_placeholder_accept b t ty sz s r m : mode_of ty sz = Some m -> b_success b = true ->
  256 <= b_addr b -> b_addr b + width m <= 65536 -> succeeds (emit_placeholder b t sz s r).
Proof.
  intros M S A L. unfold emit_placeholder. destruct s as [[n id]|]; cbv zeta;
    (destruct sz; [apply succeeds_then; [apply emit_accept; auto|]|apply succeeds_then; [apply emit2_accept; auto|]];
     [intros b1 _ S1; apply succeeds_ret; exact S1|destruct ty; cbn in M; inversion M; subst; cbn [width] in L; auto|
      intros b1 _ S1; apply succeeds_ret; exact S1]).
Qed.
Lemma emit_addr_accept b t ty sz to sym m : mode_of ty sz = Some m -> b_success b = true ->
  256 <= b_addr b -> b_addr b + width m <= 65536 -> encode m (b_addr b) to <> None ->
  succeeds (emit_addr b t ty sz (distance ty (b_addr b) to) sym).
Proof.
  intros M S A L E. unfold emit_addr. cbv zeta. destruct sz.
  - destruct ty; cbn in M; inversion M; subst m; cbn [width encode] in *.
    + apply succeeds_then; [apply emit_accept; auto|]. intros b1 _ S1. apply succeeds_ret. destruct sym; exact S1.
    + cbn [distance]. cbv zeta in E.
      destruct ((-128 <=? to - (b_addr b + 2)) && (to - (b_addr b + 2) <=? 127)) eqn:C; [|congruence].
      match goal with |- succeeds (if ?c then _ else _) => assert (c = false) as -> by lia end.
      apply succeeds_then; [apply emit_accept; auto|]. intros b1 _ S1. apply succeeds_ret. destruct sym; exact S1.
  - apply succeeds_then; [apply emit2_accept; auto|].
    + destruct ty; cbn in M; inversion M; subst; cbn [width] in L; auto.
    + intros b1 _ S1. apply succeeds_ret. destruct sym; exact S1.
Qed.
Lemma calculate_success b t ty from to : b_success (snd (calculate_addr b t ty from to)) = b_success b.
Proof. destruct ty; cbn [calculate_addr snd]; auto. destruct (255 <? to); auto. Qed.
Lemma emit_backward_accept b t ty sz n id to w r m : mode_of ty sz = Some m -> b_success b = true ->
  256 <= b_addr b -> b_addr b + width m <= 65536 -> encode m (b_addr b) to <> None ->
  succeeds (emit_backward_ref b t ty sz n id to w r).
Proof.
  intros M S A L E. unfold emit_backward_ref. pose proof (calculate_distance b t ty (b_addr b) to) as [D Q].
  pose proof (calculate_success b t ty (b_addr b) to) as CS.
  destruct (calculate_addr b t ty (b_addr b) to) as [d b0]. cbn [fst snd] in *. subst d. destruct Q.
  rewrite <- e_addr in *. apply (emit_addr_accept b0 t ty sz to _ m); auto. congruence.
Qed.

(** ** References *)
Lemma place_ref_facts p m t p' : place_ref p m t = Some p' -> reach p' ->
  256 <= p_addr p /\ p_addr p + width m <= 65536 /\
  forall l, address p t = Some l -> encode m (p_addr p) l <> None.
Proof.
  unfold place_ref. destruct (_ && _) eqn:E; [|discriminate]. intros [= <-] R. split; [lia|]. split; [lia|]. intros l AD.
  apply (R (p_addr p) m t (p_addr p) 0 l); [|destruct t; exact AD]. destruct m; cbn; auto.
Qed.

Lemma forward_ref_accept b t p ty sz md n v r p' : sim0 b p -> b_success b = true -> mode_of ty sz = Some md ->
  match n_entry v with EnUnknown | EnForward _ _ => True | _ => False end ->
  place_ref p md (Label n) = Some p' -> reach p' -> succeeds (emit_forward_ref b t ty sz n v r).
Proof.
  intros S SU M K P R. apply place_ref_facts in P as (P1 & P2 & _); auto. rewrite <- (i_addr _ _ S) in *.
  unfold emit_forward_ref.
  assert (G : forall b0 v0 id refs, b_success b0 = true -> b_addr b0 = b_addr b -> n_entry v0 = EnForward id refs ->
    succeeds (match n_entry v0 with
    | EnForward id refs => emit_placeholder b0 t sz (Some (n, id)) r ;; b1 =>
        (true, set_node b1 n (set_entry v0 (EnForward id (mkRef t 0 0 (b_addr b0) ty sz :: refs))))
    | _ => (false, set_fault b0 AssertFailed) end)).
  { intros b0 v0 id refs S0 A0 E0. rewrite E0. apply succeeds_then; [apply (emit_placeholder_accept _ _ ty _ _ _ md); auto; congruence|].
    intros b1 _ S1. apply succeeds_ret. exact S1. }
  destruct (n_entry v) as [| | |id refs] eqn:EN; try contradiction.
  - cbv zeta. apply (G _ _ (u16 (b_labels b + 1)) []); auto.
  - pose proof (G b v id refs SU eq_refl EN) as X. exact X.
Qed.

Lemma valid_find b t n p : sim0 b p -> Forall is_byte n -> valid_name n = true -> b_success b = true ->
  exists v b1, find_or_create b t n = (Some v, b1) /\ b_success b1 = true.
Proof.
  intros S F V SU. pose proof (find_or_create_spec b t n F) as X.
  destruct (find_or_create b t n) as [[v|] b1] eqn:E.
  - exists v, b1. split; auto. unfold find_or_create in E. destruct n as [|c n]; [discriminate|].
    destruct (is_runic c); [discriminate|]. destruct (parse_opcode (c :: n)); [discriminate|]. destruct (is_number (c :: n)); [discriminate|].
    destruct (lookup (c :: n) (b_symtab b)); injection E as _ <-; auto.
  - rewrite V in X. try discriminate; destruct X; congruence.
Qed.

Lemma label_ref_accept b t p ty sz md name r p' : sim0 b p -> b_success b = true -> Forall is_byte name -> mode_of ty sz = Some md ->
  place_ref_to p md name = Some p' -> reach p' -> succeeds (emit_label_ref b t ty sz name r).
Proof.
  intros S SU F M. unfold emit_label_ref, place_ref_to, find_target. change (bytes "{") with [123]. change (bytes "@") with [64].
  unfold str_eqb at 1. destruct (str_dec name [123]) as [->|N1].
  { cbn [bind]. intros P R. apply place_ref_facts in P as (P1 & P2 & _); auto. cbn [with_open p_addr] in *. rewrite <- (i_addr _ _ S) in *.
    unfold emit_lambda_ref. cbv zeta. apply succeeds_then; [apply (emit_placeholder_accept _ _ ty _ _ _ md); auto|].
    intros b1 _ S1. apply succeeds_ret. exact S1. }
  pose proof (resolve_spec b t p name S) as R. destruct (str_dec name [64]) as [->|N2].
  { destruct (resolve_label_ref b t [64]) as [[full|] b1]; [|discriminate]. destruct R as [R ->]. injection R as <-.
    unfold str_eqb. destruct (str_dec [64] [64]) as [_|]; [|congruence].
    destruct (p_ats p) as [|a l] eqn:PA; [discriminate|]. cbn [bind]. intros P RE.
    apply place_ref_facts in P as (P1 & P2 & P3); auto. cbn [with_ats p_addr] in *. rewrite <- (i_addr _ _ S) in *.
    pose proof (i_ats _ _ S) as IA. rewrite PA in IA. unfold pop_at_label. destruct (b_ats b) as [|x rest]; [discriminate|].
    cbn [map] in IA. injection IA as IA1 IA2. apply (emit_backward_accept _ _ _ _ _ _ _ _ _ md); auto.
    rewrite IA1. apply P3. reflexivity. }
  fold (full_name p name). intros H RE. destruct (full_name p name) as [full|] eqn:FN; [|discriminate]. cbn [bind] in H.
  destruct (resolve_label_ref b t name) as [[f|] b1]; [|discriminate]. destruct R as [[= <-] ->].
  destruct (valid_name full) eqn:V; [|discriminate]. cbn [andb] in H.
  destruct (is_macro p full) eqn:IM; [discriminate|]. cbn [negb bind] in H.
  assert (FF : Forall is_byte full) by (eapply full_bytes; eauto).
  pose proof (valid_not_runic _ V) as NR.
  unfold str_eqb. destruct (str_dec full [64]) as [->|N3]; [vm_compute in V; discriminate|].
  destruct full as [|c f]; [contradiction|]. rewrite NR.
  destruct (valid_find b t (c :: f) p S FF V SU) as (v & b1 & FC & S1). rewrite FC.
  destruct (sim0_find _ _ _ _ _ _ FF S FC) as (_ & S2 & L & _).
  destruct (n_entry v) as [|id toks e|id a|id refs] eqn:EN.
  - eapply (forward_ref_accept _ _ p); eauto. rewrite EN. exact I.
  - exfalso. destruct (sim0_entry_macro _ _ _ _ _ _ _ S2 L EN) as (Q1 & _). apply is_macro_in in Q1. congruence.
  - destruct (sim0_entry_label _ _ _ _ _ _ S2 L EN) as (Q1 & Q2).
    apply place_ref_facts in H as (P1 & P2 & P3); auto. rewrite <- (i_addr _ _ S2) in *.
    apply (emit_backward_accept _ _ _ _ _ _ _ _ _ md); auto.
  - eapply (forward_ref_accept _ _ p); eauto. rewrite EN. exact I.
Qed.

Lemma op_ref_accept b t p op ty sz md name r r' p' : sim0 b p -> b_success b = true -> Forall is_byte name -> mode_of ty sz = Some md -> is_byte op ->
  bind (place_byte p op) (fun p => place_ref_to p md name) = Some p' -> reach p' ->
  succeeds (emit_opcode b t op r ;; b => emit_label_ref b t ty sz name r').
Proof.
  intros S SU F M B H R. destruct (place_byte p op) as [p1|] eqn:P; [|discriminate]. cbn [bind] in H.
  assert (A : 256 <= b_addr b) by (rewrite (i_addr _ _ S); unfold place_byte in P; destruct (_ && _) eqn:E; [lia|discriminate]).
  apply succeeds_then; [apply emit_opcode_accept; auto|]. intros b1 E S1.
  apply emit_opcode_writes in E; [|rewrite (i_addr _ _ S); apply S]. unfold is_byte in B. rewrite Z.mod_small in E by lia.
  destruct (sim0_byte _ _ _ _ S E) as (p2 & P2 & S2). assert (p2 = p1) by congruence. subst.
  eapply label_ref_accept; eauto.
Qed.

(** ** Labels *)
Lemma patch_accept refs : forall b n id to, b_success b = true ->
  (forall r, In r refs -> exists m, mode_of (f_type r) (f_size r) = Some m /\ 256 <= f_addr r /\ f_addr r + width m <= 65536 /\
     encode m (f_addr r) to <> None) -> b_success (patch b refs n id to) = true.
Proof.
  induction refs as [|r refs IH]; intros b n id to S H; cbn [patch]; auto.
  destruct (H r (or_introl eq_refl)) as (m & M & A1 & A2 & E).
  destruct (emit_backward_accept (set_addr b (f_addr r)) (f_tok r) (f_type r) (f_size r) (Some n) id to false false m) as (b1 & EB & S1); auto.
  rewrite EB. apply IH; auto. intros r' I. apply H. right. auto.
Qed.
Lemma define_accept b t p name v id refs : sim0 b p -> b_success b = true -> pending (p_cells p) refs (Label name) ->
  reach (with_label p (Label name)) -> succeeds (define_label b t name v id refs).
Proof.
  intros S SU [_ P] R. unfold define_label. cbv zeta. apply succeeds_ret. cbn. apply patch_accept; auto.
  intros r I. destruct (P r I) as (m & M & C). exists m. split; auto.
  assert (C0 : In (f_addr r + 0, Part m (Label name) (f_addr r) 0) (p_cells p)) by (apply C; destruct m; cbn; lia).
  pose proof (k_in _ _ _ (i_mem _ _ S) _ _ C0). split; [lia|]. split.
  - assert (C1 : In (f_addr r + (width m - 1), Part m (Label name) (f_addr r) (width m - 1)) (p_cells p)) by (apply C; destruct m; cbn; lia).
    pose proof (k_in _ _ _ (i_mem _ _ S) _ _ C1). lia.
  - rewrite (i_addr _ _ S). apply (R _ _ _ _ _ _ C0). cbn [address p_labels with_label]. apply assoc_same.
Qed.
Lemma register_accept b t p name p' : sim0 b p -> b_success b = true -> Forall is_byte name -> define_name p name = Some p' -> reach p' ->
  succeeds (register_label b t name) /\ p' = with_label p (Label name).
Proof.
  intros S SU F D R. unfold define_name in D. destruct (valid_name name) eqn:V; [|discriminate]. destruct (is_macro p name) eqn:IM; [discriminate|].
  cbn [andb negb] in D. unfold define, is_label in D. destruct (assoc (Label name) (p_labels p)) eqn:AL; [discriminate|]. injection D as <-. split; auto.
  unfold register_label. destruct (valid_find b t name p S F V SU) as (v & b1 & FC & S1). rewrite FC.
  destruct (sim0_find _ _ _ _ _ _ F S FC) as (_ & S2 & L & _).
  destruct (n_entry v) as [|id toks e|id a|id refs] eqn:EN.
  - destruct (sim0_unknown _ _ _ _ S2 L EN) as (N1 & N2 & N3). eapply (define_accept _ _ p); eauto. eapply sim0_set; eauto.
  - exfalso. destruct (sim0_entry_macro _ _ _ _ _ _ _ S2 L EN) as (Q1 & _). apply is_macro_in in Q1. congruence.
  - exfalso. destruct (sim0_entry_label _ _ _ _ _ _ S2 L EN) as (_ & Q). congruence.
  - destruct (sim0_entry_forward _ _ _ _ _ _ S2 L EN) as (N1 & N2 & N3). eapply (define_accept _ _ p); eauto.
Qed.

Lemma global_accept b t p r p' : sim0 b p -> b_success b = true -> Forall is_byte r -> pop_front (t_lex t) = r ->
  (if str_dec r (bytes "@") then Some (with_ats p (p_addr p :: p_ats p))
   else bind (define_name p r) (fun p => Some (with_scope p (before_slash r)))) = Some p' -> reach p' ->
  succeeds (process_global_label b t).
Proof.
  intros S SU F E H R. unfold process_global_label. rewrite E. unfold str_eqb. change (bytes "@") with [64] in H.
  destruct (str_dec r [64]) as [->|N].
  - cbv zeta. destruct (make_lambda_name _ _) as [n b1] eqn:ML. apply succeeds_ret. unfold make_lambda_name in ML. injection ML as _ <-.
    destruct (4096 <=? _); exact SU.
  - destruct (define_name p r) as [p1|] eqn:D; [|discriminate]. cbn [bind] in H. injection H as <-.
    destruct (register_accept b t p r p1 S SU F D) as [X _]; [intros a m t0 x i l; exact (R a m t0 x i l)|].
    apply succeeds_then; auto. intros b1 _ S1. apply succeeds_ret. exact S1.
Qed.
Lemma local_accept b t p r p' : sim0 b p -> b_success b = true -> Forall is_byte r -> pop_front (t_lex t) = r ->
  bind (local p r) (define_name p) = Some p' -> reach p' -> succeeds (process_local_label b t).
Proof.
  intros S SU F E H R. unfold process_local_label. rewrite E. pose proof (local_spec b t p r S) as L.
  destruct (local p r) as [full|] eqn:LR; [|discriminate]. cbn [bind] in H.
  destruct (resolve_local_name b t r) as [[f|] b1]; [|discriminate]. destruct L as [[= <-] ->].
  destruct (local_bytes _ _ _ (i_scopeb _ _ S) F LR) as [FF _]. eapply register_accept; eauto.
Qed.
Lemma close_accept b t p k l p' : sim0 b p -> b_success b = true -> p_open p = k :: l -> define (with_open p l (p_next p)) (Lambda k) = Some p' ->
  reach p' -> succeeds (process_lambda_close b t).
Proof.
  intros S SU O D R. unfold process_lambda_close. pose proof (i_lams _ _ S) as LM. destruct LM as [LO LN LU LC LD]. rewrite O in LO.
  inversion LO as [|r ? rest ? P LO' E1 E2]; subst. cbv zeta.
  unfold define in D. destruct (is_label _ _); [discriminate|]. injection D as <-.
  pose proof (calculate_distance b (f_tok r) (f_type r) (f_addr r) (b_addr b)) as [DI Q].
  pose proof (calculate_success b (f_tok r) (f_type r) (f_addr r) (b_addr b)) as CS.
  destruct (calculate_addr b (f_tok r) (f_type r) (f_addr r) (b_addr b)) as [d b0]. cbn [fst snd] in *. subst d.
  destruct P as [_ P]. destruct (P r (or_introl eq_refl)) as (m & M & C).
  assert (C0 : In (f_addr r + 0, Part m (Lambda k) (f_addr r) 0) (p_cells p)) by (apply C; destruct m; cbn; lia).
  assert (C1 : In (f_addr r + (width m - 1), Part m (Lambda k) (f_addr r) (width m - 1)) (p_cells p)) by (apply C; destruct m; cbn; lia).
  pose proof (k_in _ _ _ (i_mem _ _ S) _ _ C0). pose proof (k_in _ _ _ (i_mem _ _ S) _ _ C1).
  apply succeeds_then.
  - apply (emit_addr_accept (set_addr b0 (f_addr r)) _ _ _ (b_addr b) _ m); auto; cbn [b_addr set_addr]; try lia; [change (b_success b0 = true); congruence|].
    rewrite (i_addr _ _ S). apply (R _ _ _ _ _ _ C0). cbn [address p_labels with_label with_open]. apply assoc_same.
  - intros b1 _ S1. destruct (make_lambda_name _ _) as [n b3] eqn:ML. apply succeeds_ret. unfold make_lambda_name in ML. injection ML as _ <-.
    destruct (4096 <=? _); exact S1.
Qed.

(** ** Padding and numbers *)
Lemma padding_accept b t p r v p' : sim0 b p -> b_success b = true -> Forall is_byte r -> pop_front (t_lex t) = r ->
  padding p r = Some (v, p') -> exists b1, resolve_padding b t = (Some v, b1) /\ b_success b1 = true.
Proof.
  intros S SU F E. unfold resolve_padding. rewrite E. destruct r as [|c s]; [discriminate|]. set (r := c :: s) in *.
  rewrite is_number_spec. unfold padding. pose proof (parse_number_spec r) as P.
  destruct (read_number r) as [| |v' k h].
  - fold (full_name p r). pose proof (resolve_spec b t p r S) as R. change (bytes "@") with [64].
    destruct (str_dec r [64]) as [E64|N3].
    + rewrite E64 in *. destruct (resolve_label_ref b t [64]) as [[full|] b1]; [|discriminate]. destruct R as [R ->]. injection R as <-.
      unfold str_eqb. destruct (str_dec [64] [64]) as [_|]; [|congruence].
      pose proof (i_ats _ _ S) as IA. destruct (p_ats p) as [|a l]; [discriminate|]. intros [= <- <-]. unfold pop_at_label.
      destruct (b_ats b) as [|x rest]; [discriminate|]. cbn [map] in IA. injection IA as <- _. eauto.
    + destruct (full_name p r) as [full|] eqn:FN; [|discriminate]. cbn [bind].
      destruct (resolve_label_ref b t r) as [[f|] b1]; [|discriminate]. destruct R as [[= <-] ->].
      destruct (assoc (Label full) (p_labels p)) as [a|] eqn:AS; [|discriminate]. cbn [bind]. intros [= <- <-].
      unfold str_eqb. destruct (str_dec full [64]) as [->|N4]; [exfalso; apply N3; eapply full_at; eauto|].
      pose proof (i_names _ _ S full) as N. unfold name_ok in N. destruct (lookup full (b_symtab b)) as [w|].
      * destruct (n_entry w) as [|id toks e|id a'|id refs].
        -- destruct N as (_ & N & _). congruence.
        -- destruct N as (_ & N & _). congruence.
        -- destruct N as (_ & N). assert (a' = a) by congruence. subst. eauto.
        -- destruct N as (_ & N & _). congruence.
      * destruct N as (_ & N & _). congruence.
  - discriminate.
  - destruct P as (-> & SH & _). intros [= <- <-]. eauto.
Qed.

Lemma place_bytes_range l p p' : l <> [] -> place_bytes p l = Some p' -> 256 <= p_addr p /\ p_addr p + len l <= 65536.
Proof.
  revert p. induction l as [|v l IH]; intros p N H; [congruence|]. cbn [place_bytes] in H.
  unfold place_byte in H. destruct (_ && _) eqn:C; [|discriminate]. cbn [bind] in H.
  destruct l as [|w l]; [change (len [v]) with 1; lia|]. apply IH in H; [|discriminate]. cbn [with_addr p_addr] in H.
  unfold len in *. cbn [List.length] in *. lia.
Qed.
Lemma number_accept b t v n r : b_success b = true -> n = 1 /\ is_byte v \/ n = 2 -> 256 <= b_addr b -> b_addr b + len (number_bytes (v, n)) <= 65536 ->
  succeeds (if n =? 1 then emit_byte b t (u8 v) r else emit_short b t v r).
Proof.
  intros SU [[-> B]| ->] A L.
  - apply emit_byte_accept; auto.
  - apply emit_short_accept; auto.
Qed.
Lemma raw_accept b t p p' : sim0 b p -> b_success b = true ->
  bind (read_literal (t_lex t)) (fun vn => place_bytes p (number_bytes vn)) = Some p' -> succeeds (process_raw_number b t).
Proof.
  intros S SU H. unfold process_raw_number. pose proof (literal_spec (t_lex t)) as L.
  destruct (read_literal (t_lex t)) as [[v n]|]; [|discriminate]. destruct L as (-> & SH & K). cbn [bind] in H.
  apply place_bytes_range in H as [H1 H2]; [|cbn; destruct (n =? 1); discriminate]. rewrite <- (i_addr _ _ S) in *. apply number_accept; auto.
Qed.
Lemma lit_accept b t p r p' : sim0 b p -> b_success b = true -> pop_front (t_lex t) = r ->
  bind (read_literal r) (fun vn => place_bytes p ((if snd vn =? 1 then 128 else 160) :: number_bytes vn)) = Some p' ->
  succeeds (process_lit_number b t).
Proof.
  intros S SU E H. unfold process_lit_number. rewrite E. pose proof (literal_spec r) as L.
  destruct (read_literal r) as [[v n]|]; [|discriminate]. destruct L as (-> & SH & K). cbn [bind snd] in H.
  apply place_bytes_range in H as [H1 H2]; [|discriminate]. rewrite <- (i_addr _ _ S) in *.
  assert (G : forall op, succeeds (emit_opcode b t op true ;; b => if n =? 1 then emit_byte b t (u8 v) true else emit_short b t v true)).
  { intros op. apply succeeds_then; [apply emit_opcode_accept; auto|]. intros b1 EB S1.
    apply emit_opcode_writes in EB; [|rewrite (i_addr _ _ S); apply S]. pose proof (w_addr _ _ _ EB) as WA. change (len [op mod 256]) with 1 in WA.
    assert (LP : 0 < len (number_bytes (v, n))) by (cbn; destruct (n =? 1); cbn; lia).
    replace (len ((if n =? 1 then 128 else 160) :: number_bytes (v, n))) with (1 + len (number_bytes (v, n))) in H2 by (unfold len; cbn [List.length]; lia).
    apply number_accept; auto; rewrite WA; rewrite Z.mod_small; lia. }
  specialize (G (if n =? 1 then 128 else 160)). destruct (n =? 1); exact G.
Qed.
Lemma text_accept b t p c r p' : sim0 b p -> b_success b = true -> t_lex t = c :: r ->
  match r with [] => None | _ => place_bytes p r end = Some p' -> succeeds (process_text b t).
Proof.
  intros S SU E H. unfold process_text. rewrite E. destruct r as [|d r]; [discriminate|].
  replace (len (c :: d :: r) <=? 1) with false by (unfold len; cbn [List.length]; lia). unfold pop_front. cbn [tl].
  apply place_bytes_range in H as [H1 H2]; [|discriminate]. rewrite <- (i_addr _ _ S) in *.
  set (sym := mkSymbol _ _ _ _ _). clearbody sym. generalize (b_addr b) at 1. revert SU H1 H2. generalize (d :: r). clear. intros s. revert b.
  induction s as [|c s IH]; intros b SU H1 H2 a; cbn [emit_text]; [apply succeeds_ret; auto|].
  apply succeeds_then; [apply emit_accept; auto|]. intros b1 EB S1. pose proof (emit_addr_next _ _ _ _ EB) as AN.
  destruct s as [|e s]; [apply succeeds_ret; exact S1|]. unfold len in *. cbn [List.length] in *.
  apply IH; auto; cbn [b_addr put_symbol log]; rewrite AN; unfold u16; rewrite Z.mod_small; lia.
Qed.

(** ** What stays the same *)
Definition quiet (b b' : basm) : Prop := b_buf b' = b_buf b /\ b_deferred b' = b_deferred b /\ b_symtab b' = b_symtab b.
Lemma quiet_refl b : quiet b b.
Proof. repeat split. Qed.
Lemma quiet_trans a b c : quiet a b -> quiet b c -> quiet a c.
Proof. intros (A1 & A2 & A3) (B1 & B2 & B3). repeat split; congruence. Qed.
Lemma quiet_then b r g : quiet b (snd r) -> (forall b1, quiet b1 (snd (g b1))) -> quiet b (snd (andthen r g)).
Proof. destruct r as [[|] b1]; cbn [andthen snd]; auto. intros Q G. eapply quiet_trans; eauto. Qed.
Lemma quiet_emit b t v : quiet b (snd (emit b t v)).
Proof. unfold emit. destruct (_ <? _); repeat split. Qed.
Lemma quiet_emit2 b t v : quiet b (snd (emit2 b t v)).
Proof. unfold emit2. apply quiet_then; intros; apply quiet_emit. Qed.
Lemma quiet_opcode b t v r : quiet b (snd (emit_opcode b t v r)).
Proof. unfold emit_opcode. apply quiet_then; [apply quiet_emit|]. intros. repeat split. Qed.
Lemma quiet_byte b t v r : quiet b (snd (emit_byte b t v r)).
Proof. unfold emit_byte. apply quiet_then; [apply quiet_emit|]. intros. repeat split. Qed.
Lemma quiet_short b t v r : quiet b (snd (emit_short b t v r)).
Proof. unfold emit_short. apply quiet_then; [apply quiet_emit2|]. intros. repeat split. Qed.
Lemma quiet_placeholder b t sz s r : quiet b (snd (emit_placeholder b t sz s r)).
Proof.
  unfold emit_placeholder. destruct s as [[n id]|]; cbv zeta;
    [|apply (quiet_trans _ (set_labels b (u16 (b_labels b + 1)))); [repeat split|]]; destruct sz;
    (apply quiet_then; [first [apply quiet_emit|apply quiet_emit2]|intros; repeat split]).
Qed.
Lemma quiet_lambda b t ty sz r : quiet b (snd (emit_lambda_ref b t ty sz r)).
Proof. unfold emit_lambda_ref. cbv zeta. apply quiet_then; [apply quiet_placeholder|]. intros. repeat split. Qed.
Lemma quiet_calculate b t ty x l : quiet b (snd (calculate_addr b t ty x l)).
Proof. destruct ty; cbn [calculate_addr snd]; try destruct (_ <? _); repeat split. Qed.
Lemma quiet_addr b t ty sz a s : quiet b (snd (emit_addr b t ty sz a s)).
Proof.
  unfold emit_addr. cbv zeta. destruct sz.
  - destruct (match ty with RRel => _ | _ => _ end); [repeat split|]. apply quiet_then; [apply quiet_emit|]. intros. destruct s; repeat split.
  - apply quiet_then; [apply quiet_emit2|]. intros. destruct s; repeat split.
Qed.
Lemma quiet_backward b t ty sz n id l w r : quiet b (snd (emit_backward_ref b t ty sz n id l w r)).
Proof.
  unfold emit_backward_ref. pose proof (quiet_calculate b t ty (b_addr b) l) as Q. destruct (calculate_addr b t ty (b_addr b) l) as [d b1].
  eapply quiet_trans; [exact Q|]. apply quiet_addr.
Qed.
Lemma quiet_patch refs : forall b n id l, quiet b (patch b refs n id l).
Proof.
  induction refs as [|r refs IH]; intros b n id l; cbn [patch]; [apply quiet_refl|].
  pose proof (quiet_backward (set_addr b (f_addr r)) (f_tok r) (f_type r) (f_size r) (Some n) id l false false) as Q.
  destruct (emit_backward_ref _ _ _ _ _ _ _ _ _) as [ok b1]. eapply quiet_trans; [|apply IH]. exact Q.
Qed.
Lemma quiet_text b t : quiet b (snd (process_text b t)).
Proof.
  unfold process_text. destruct (_ <=? 1); [repeat split|]. generalize (b_addr b). generalize (pop_front (t_lex t)).
  intros s. revert b. generalize (mkSymbol SText false (u16 (len (t_lex t))) None (t_reg t)). intros sym.
  induction s as [|c s IH]; intros b a; cbn [emit_text]; [apply quiet_refl|].
  apply quiet_then; [apply quiet_emit|]. intros b1. exact (IH (put_symbol b1 a sym) (a + 1)).
Qed.
Lemma quiet_close b t : quiet b (snd (process_lambda_close b t)).
Proof.
  unfold process_lambda_close. destruct (b_lambdas b) as [|r rest]; [repeat split|]. cbv zeta.
  pose proof (quiet_calculate b (f_tok r) (f_type r) (f_addr r) (b_addr b)) as Q. destruct (calculate_addr _ _ _ _ _) as [d b1].
  eapply quiet_trans; [exact Q|]. apply quiet_then.
  - eapply (quiet_trans _ (set_addr b1 (f_addr r))); [repeat split|apply quiet_addr].
  - intros b2. destruct (make_lambda_name _ _) as [n b3] eqn:ML. unfold make_lambda_name in ML. injection ML as _ <-.
    destruct (4096 <=? _); repeat split.
Qed.
Lemma quiet_number b t v n r : quiet b (snd (if n =? 1 then emit_byte b t (u8 v) r else emit_short b t v r)).
Proof. destruct (n =? 1); [apply quiet_byte|apply quiet_short]. Qed.
Lemma quiet_raw b t : quiet b (snd (process_raw_number b t)).
Proof. unfold process_raw_number. destruct (literal _) as [m|[v n]]; [repeat split|apply quiet_number]. Qed.
Lemma quiet_lit b t : quiet b (snd (process_lit_number b t)).
Proof.
  unfold process_lit_number. destruct (literal _) as [m|[v n]]; [repeat split|].
  destruct (n =? 1); (apply quiet_then; [apply quiet_opcode|]; intros; first [apply quiet_byte|apply quiet_short]).
Qed.

(** The table of symbols has each name once, and nothing unknown, except
    perhaps [n]. *)
Definition known_but (n : option str) (l : list (str * node)) : Prop :=
  NoDup (map fst l) /\ forall k v, In (k, v) l -> Some k <> n -> n_entry v <> EnUnknown.
Definition known (b : basm) : Prop := known_but None (b_symtab b).
Lemma update_keys n v l : map fst (update n v l) = map fst l.
Proof. induction l as [|[k w] l IH]; cbn; auto. destruct (str_dec k n); cbn; congruence. Qed.
Lemma update_in n v l k w : NoDup (map fst l) -> In (k, w) (update n v l) -> k = n /\ w = v \/ k <> n /\ In (k, w) l.
Proof.
  induction l as [|[k' w'] l IH]; cbn [map update]; intros ND I; [destruct I|]. inversion ND; subst.
  destruct (str_dec k' n) as [->|NE].
  - destruct I as [[= <- <-]|I]; [auto|]. right. split; [|right; auto]. intros ->. apply H1. apply (in_map fst) in I. exact I.
  - destruct I as [[= <- <-]|I]; [right; split; auto; left; auto|]. destruct (IH H2 I) as [|[]]; auto. right. split; auto. right. auto.
Qed.
Lemma known_set o n v l : known_but o l -> o = None \/ o = Some n -> n_entry v <> EnUnknown -> known_but None (update n v l).
Proof.
  intros [ND K] O V. split; [rewrite update_keys; auto|]. intros k w I _.
  destruct (update_in _ _ _ _ _ ND I) as [[-> ->]|[NE I']]; auto. apply (K k); auto. destruct O; subst; congruence.
Qed.
Lemma lookup_keys l n : lookup n l = None -> ~ In n (map fst l).
Proof. induction l as [|[k w] l IH]; cbn; [auto|]. destruct (str_dec k n); [discriminate|]. intros H [E|I]; [congruence|]. apply IH; auto. Qed.
Lemma find_known b t n v b' : find_or_create b t n = (Some v, b') -> known b ->
  known_but (Some n) (b_symtab b') /\ b_buf b' = b_buf b /\ b_deferred b' = b_deferred b /\ (n_entry v <> EnUnknown -> known b').
Proof.
  unfold find_or_create. destruct n as [|c n]; [discriminate|]. set (name := c :: n).
  destruct (is_runic c); [discriminate|]. destruct (parse_opcode name); [discriminate|]. destruct (is_number name); [discriminate|].
  destruct (lookup name (b_symtab b)) as [w|] eqn:L; intros [= <- <-] [ND K].
  - split; [split; auto; intros k v I _; apply (K k v I); discriminate|]. split; [auto|]. split; [auto|]. intros _. split; auto.
  - cbn [b_symtab set_symtab b_buf b_deferred]. split; [|split; [auto|split; [auto|]]].
    + split.
      * rewrite map_app. cbn [map fst].
        pose proof (lookup_keys _ _ L) as NI. clear - ND NI. induction (map fst (b_symtab b)) as [|x l IH]; cbn; [repeat constructor; auto|].
        inversion ND; subst. constructor; [|apply IH; auto; cbn in NI; tauto]. rewrite in_app_iff. cbn in *. intuition.
      * intros k v I NE. apply in_app_iff in I as [I|[[= <- <-]|[]]]; [|congruence]. apply (K k v I). discriminate.
    + intros H. cbn in H. congruence.
Qed.

Definition stays (b : basm) (r : ret) : Prop :=
  fst r = true -> known b -> b_buf (snd r) = b_buf b /\ b_deferred (snd r) = b_deferred b /\ known (snd r).
Lemma stays_quiet b r : quiet b (snd r) -> stays b r.
Proof. intros (Q1 & Q2 & Q3) _ K. unfold known. rewrite Q3. auto. Qed.
Lemma stays_from b b1 r : quiet b b1 -> stays b1 r -> stays b r.
Proof.
  intros (Q1 & Q2 & Q3) S T K. destruct (S T) as (A & B & C); [unfold known in *; rewrite Q3; auto|]. split; [congruence|]. split; [congruence|auto].
Qed.
Lemma stays_then b r g : stays b r -> (forall b1, r = (true, b1) -> stays b1 (g b1)) -> stays b (andthen r g).
Proof.
  destruct r as [[|] b1]; cbn [andthen]; intros S G T K; [|discriminate].
  destruct (S eq_refl K) as (A & B & C). destruct (G b1 eq_refl T C) as (A' & B' & C'). cbn [snd] in *. split; [congruence|]; split; [congruence|exact C'].
Qed.
Lemma stays_false b b' : stays b (false, b').
Proof. intros T. discriminate. Qed.

(** The result of [g] on a table where [n] may be unknown. *)
Lemma stays_found b n v b1 g : (n_entry v <> EnUnknown -> known b1) -> known_but (Some n) (b_symtab b1) ->
  b_buf b1 = b_buf b -> b_deferred b1 = b_deferred b ->
  (fst g = true -> b_buf (snd g) = b_buf b1 /\ b_deferred (snd g) = b_deferred b1 /\ known (snd g)) -> stays b g.
Proof. intros _ _ A B G T K. destruct (G T) as (A' & B' & C'). split; [congruence|]; split; [congruence|exact C']. Qed.

Lemma forward_known b t ty sz n v r : known_but (Some n) (b_symtab b) -> let g := emit_forward_ref b t ty sz n v r in
  fst g = true -> b_buf (snd g) = b_buf b /\ b_deferred (snd g) = b_deferred b /\ known (snd g).
Proof.
  intros K g. subst g. unfold emit_forward_ref.
  assert (G : forall b0 v0 o, b_buf b0 = b_buf b -> b_deferred b0 = b_deferred b -> known_but o (b_symtab b0) -> o = None \/ o = Some n ->
    let g := match n_entry v0 with
    | EnForward id refs => emit_placeholder b0 t sz (Some (n, id)) r ;; b1 =>
        (true, set_node b1 n (set_entry v0 (EnForward id (mkRef t 0 0 (b_addr b0) ty sz :: refs))))
    | _ => (false, set_fault b0 AssertFailed) end in
    fst g = true -> b_buf (snd g) = b_buf b /\ b_deferred (snd g) = b_deferred b /\ known (snd g)).
  { intros b0 v0 o B0 D0 K0 O g. subst g. destruct (n_entry v0) as [| | |id refs]; try discriminate.
    pose proof (quiet_placeholder b0 t sz (Some (n, id)) r) as (Q1 & Q2 & Q3).
    destruct (emit_placeholder b0 t sz (Some (n, id)) r) as [[|] b1]; cbn [andthen fst snd] in *; [|discriminate]. intros _.
    cbn [b_buf b_deferred set_node set_symtab]. split; [congruence|]. split; [congruence|].
    unfold known. cbn [b_symtab set_node set_symtab]. rewrite Q3. apply (known_set o); auto. discriminate. }
  destruct (n_entry v) as [|id toks e|id a|id refs] eqn:EN.
  - cbv zeta. apply (G _ (set_entry v (EnForward (u16 (b_labels b + 1)) [])) None); auto.
    cbn [b_symtab set_node set_symtab set_labels]. apply (known_set (Some n)); auto. discriminate.
  - exact (G b v (Some n) eq_refl eq_refl K (or_intror eq_refl)).
  - exact (G b v (Some n) eq_refl eq_refl K (or_intror eq_refl)).
  - exact (G b v (Some n) eq_refl eq_refl K (or_intror eq_refl)).
Qed.

Lemma stays_label_ref b t ty sz n r : stays b (emit_label_ref b t ty sz n r).
Proof.
  unfold emit_label_ref. destruct (str_eqb n [123]); [apply stays_quiet, quiet_lambda|].
  assert (RQ : forall o b1, resolve_label_ref b t n = (o, b1) -> o <> None -> b1 = b).
  { intros o b1. unfold resolve_label_ref, resolve_local_name. destruct n as [|c n]; [intros [= <- <-]; congruence|].
    destruct (_ || _); [destruct (_ <? _)|]; intros [= <- <-]; congruence. }
  destruct (resolve_label_ref b t n) as [[full|] b1]; [|apply stays_false]. rewrite (RQ _ _ eq_refl) by discriminate.
  destruct (str_eqb full [64]).
  - unfold pop_at_label. destruct (b_ats b) as [|l rest]; [apply stays_false|].
    apply stays_quiet. eapply (quiet_trans _ (set_ats b rest)); [repeat split|apply quiet_backward].
  - destruct full as [|c f]; [apply stays_false|]. destruct (is_runic c); [apply stays_false|].
    destruct (find_or_create b t (c :: f)) as [[v|] b2] eqn:FC; [|apply stays_false].
    intros T K. destruct (find_known _ _ _ _ _ FC K) as (K2 & B2 & D2 & KK). revert T. revert K.
    assert (FW : (match n_entry v with EnUnknown | EnForward _ _ => True | _ => False end) -> stays b (emit_forward_ref b2 t ty sz (c :: f) v r)).
    { intros _. eapply stays_found; eauto. apply forward_known. auto. }
    destruct (n_entry v) as [|id toks e|id a|id refs] eqn:EN; intros K T.
    + apply FW; auto.
    + discriminate.
    + assert (K3 : known (set_node b2 (c :: f) (set_referenced v true))).
      { unfold known. cbn [b_symtab set_node set_symtab]. apply (known_set None); auto; [apply KK; discriminate|]. cbn. rewrite EN. discriminate. }
      destruct (stays_quiet _ _ (quiet_backward (set_node b2 (c :: f) (set_referenced v true)) t ty sz (Some (c :: f)) id a true r) T K3) as (A & B & C).
      cbv zeta. split; [exact (eq_trans A B2)|]. split; [exact (eq_trans B D2)|exact C].
    + apply FW; auto.
Qed.
Lemma stays_op_ref b t op ty sz n r r' : stays b (emit_opcode b t op r ;; b => emit_label_ref b t ty sz n r').
Proof. apply stays_then; [apply stays_quiet, quiet_opcode|]. intros. apply stays_label_ref. Qed.

Lemma stays_register b t n : stays b (register_label b t n).
Proof.
  unfold register_label. destruct (find_or_create b t n) as [[v|] b1] eqn:FC; [|apply stays_false].
  intros T K. destruct (find_known _ _ _ _ _ FC K) as (K2 & B2 & D2 & KK). revert T.
  assert (DF : forall b0 id refs, b_buf b0 = b_buf b -> b_deferred b0 = b_deferred b -> b_symtab b0 = b_symtab b1 -> stays b (define_label b0 t n v id refs)).
  { intros b0 id refs B0 D0 S0 _ _. unfold define_label. cbv zeta. cbn [fst snd].
    match goal with |- context [patch ?x refs n id ?a] => pose proof (quiet_patch refs x n id a) as (Q1 & Q2 & Q3) end.
    cbn [b_buf b_deferred put_symbol log set_addr set_node set_symtab b_symtab] in *. split; [congruence|]. split; [congruence|].
    unfold known. cbn [b_symtab put_symbol log set_addr set_node set_symtab]. rewrite Q3. apply (known_set None); auto; [|discriminate].
    apply (known_set (Some n)); auto; [rewrite S0; auto|discriminate]. }
  destruct (n_entry v) as [|id toks e|id a|id refs] eqn:EN; intros T; try discriminate; apply (DF _ _ _) in T; auto.
Qed.
Lemma stays_global b t : stays b (process_global_label b t).
Proof.
  unfold process_global_label. destruct (str_eqb _ _).
  - cbv zeta. destruct (make_lambda_name _ _) as [n b1] eqn:ML. unfold make_lambda_name in ML. injection ML as _ <-.
    apply stays_quiet. destruct (4096 <=? _); repeat split.
  - apply stays_then; [apply stays_register|]. intros b1 _. apply stays_quiet. repeat split.
Qed.
Lemma stays_local b t : stays b (process_local_label b t).
Proof.
  unfold process_local_label, resolve_local_name. destruct (_ <? _); [apply stays_false|apply stays_register].
Qed.
Lemma padding_known b t v b1 : resolve_padding b t = (Some v, b1) -> known b -> b_buf b1 = b_buf b /\ b_deferred b1 = b_deferred b /\ known b1.
Proof.
  unfold resolve_padding. destruct (pop_front (t_lex t)) as [|c s]; [discriminate|].
  destruct (is_number (c :: s)). { destruct (parse_number _) as [m|[x y]]; [discriminate|]. intros [= <- <-]. auto. }
  assert (RQ : forall o b1, resolve_label_ref b t (c :: s) = (o, b1) -> o <> None -> b1 = b).
  { intros o b2. unfold resolve_label_ref, resolve_local_name.
    destruct (_ || _); [destruct (_ <? _)|]; intros [= <- <-]; congruence. }
  destruct (resolve_label_ref b t (c :: s)) as [[full|] b2]; [|discriminate]. rewrite (RQ _ _ eq_refl) by discriminate.
  destruct (str_eqb full [64]).
  - unfold pop_at_label. destruct (b_ats b) as [|l rest]; [discriminate|]. intros [= <- <-]. auto.
  - destruct (lookup full (b_symtab b)) as [w|]; [|discriminate]. destruct (n_entry w) eqn:EN; try discriminate. intros [= <- <-] K.
    cbn [b_buf b_deferred set_node set_symtab]. repeat (split; [reflexivity|]). unfold known. cbn [b_symtab set_node set_symtab].
    apply (known_set None); auto. cbn. rewrite EN. discriminate.
Qed.
Lemma stays_abs b t : stays b (process_abs_padding b t).
Proof.
  unfold process_abs_padding. destruct (resolve_padding b t) as [[v|] b1] eqn:E; [|apply stays_false].
  intros _ K. apply (padding_known _ _ _ _ E K).
Qed.
Lemma stays_rel b t : stays b (process_rel_padding b t).
Proof.
  unfold process_rel_padding. destruct (resolve_padding b t) as [[v|] b1] eqn:E; [|apply stays_false].
  intros _ K. destruct (padding_known _ _ _ _ E K) as (A & B & C). cbv zeta. cbn [snd]. destruct (_ <? _); auto.
Qed.

(** ** One token *)
Section Token.
Variable fs : files.
Variable pu : basm -> unit_ -> ret.

Definition taken (b : basm) (u : unit_) (r : bool * basm * unit_) : Prop :=
  exists b', r = (true, b', u) /\ b_success b' = true /\ (known b -> b_buf b' = b_buf b /\ b_deferred b' = b_deferred b /\ known b').
Lemma keep_taken b r u : succeeds r -> stays b r -> taken b u (keep r u).
Proof. intros (b' & -> & S) T. exists b'. split; [reflexivity|]. split; [exact S|]. exact (T eq_refl). Qed.

Lemma word_taken b t u p p' : sim0 b p -> b_success b = true -> tokb t -> rune (hd 0 (t_lex t)) = false -> t_lex t <> [] ->
  is_macro p (t_lex t) = false ->
  match mnemonic (t_lex t) with
  | Some v => place_byte p v
  | None => bind (place_byte p 96) (fun p => place_ref_to p Far (t_lex t))
  end = Some p' -> reach p' -> taken b u (process_word pu b t u).
Proof.
  intros S SU TB R NE IM H RE. unfold process_word. rewrite rune_runic in R. rewrite R.
  pose proof (parse_opcode_spec (t_lex t) TB) as PO.
  destruct (parse_opcode (t_lex t)) as [[op red]|]; cbn [option_map fst] in PO; rewrite <- PO in H.
  { assert (A : 256 <= b_addr b) by (rewrite (i_addr _ _ S); unfold place_byte in H; destruct (_ && _) eqn:E; [lia|discriminate]).
    apply keep_taken.
    - destruct red; apply emit_opcode_accept; auto.
    - destruct red; apply stays_quiet; [eapply (quiet_trans _ (warning b t MRedundantFlag)); [repeat split|]|]; apply quiet_opcode. }
  destruct (place_byte p 96) as [p1|] eqn:P; [|discriminate]. cbn [bind] in H.
  assert (A : 256 <= b_addr b) by (rewrite (i_addr _ _ S); unfold place_byte in P; destruct (_ && _) eqn:E; [lia|discriminate]).
  assert (PM : p_macros p1 = p_macros p /\ p_labels p1 = p_labels p).
  { unfold place_byte in P. destruct (_ && _); [|discriminate]. injection P as <-. auto. }
  assert (V : valid_name (t_lex t) = true /\ place_ref p1 Far (Label (t_lex t)) = Some p').
  { destruct (t_lex t) as [|c r] eqn:LX; [congruence|]. cbn [hd] in R. unfold place_ref_to, find_target in H.
    destruct (str_dec (c :: r) (bytes "{")) as [E|]; [injection E as -> ->; vm_compute in R; discriminate|].
    destruct (str_dec (c :: r) (bytes "@")) as [E|]; [injection E as -> ->; vm_compute in R; discriminate|].
    destruct ((c =? chr "&") || (c =? chr "/")) eqn:E.
    { apply orb_true_iff in E as [E|E]; apply Z.eqb_eq in E; rewrite E in R; vm_compute in R; discriminate. }
    cbn [bind] in H. destruct (valid_name (c :: r)); [|discriminate]. split; auto. destruct (is_macro p1 (c :: r)); [discriminate|]. exact H. }
  destruct V as [V H']. 
  destruct (valid_find b t (t_lex t) p S TB V SU) as (v & b1 & FC & S1). rewrite FC.
  destruct (sim0_find _ _ _ _ _ _ TB S FC) as (_ & S2 & L & _ & _ & _).
  assert (CALL : forall g b0, b_success b0 = true -> sim0 b0 p ->
     (forall b2, sim0 b2 p1 -> b_success b2 = true -> b_symtab b2 = b_symtab b0 -> succeeds (g b2)) ->
     succeeds (emit_opcode b0 t 96 false ;; b => g b)).
  { intros g b0 SU0 S0 G. apply succeeds_then; [apply emit_opcode_accept; auto; rewrite (i_addr _ _ S0), <- (i_addr _ _ S); auto|].
    intros b2 E S3. apply emit_opcode_writes in E; [|rewrite (i_addr _ _ S0); apply S0]. change (96 mod 256) with 96 in E.
    destruct (sim0_byte _ _ _ _ S0 E) as (p2 & P2 & S4). assert (p2 = p1) by congruence. subst. apply G; auto. apply E. }
  assert (FWD : match n_entry v with EnUnknown | EnForward _ _ => True | _ => False end ->
     taken b u (keep (emit_opcode b1 t 96 false ;; b => emit_forward_ref b t RRel RShort (t_lex t) v false) u)).
  { intros K. apply keep_taken.
    - apply CALL; auto. intros b2 S3 SU3 SY. apply (forward_ref_accept b2 t p1 RRel RShort Far (t_lex t) v false p'); auto.
    - intros T KB. destruct (find_known _ _ _ _ _ FC KB) as (K2 & B2 & D2 & KK).
      pose proof (quiet_opcode b1 t 96 false) as (Q1 & Q2 & Q3). destruct (emit_opcode b1 t 96 false) as [[|] b3]; [|discriminate]. cbn [andthen fst snd] in *.
      rewrite <- B2, <- D2, <- Q1, <- Q2. apply forward_known; auto. rewrite Q3. auto. }
  destruct (n_entry v) as [|id toks e|id a|id refs] eqn:EN.
  - apply FWD. exact I.
  - exfalso. destruct (sim0_entry_macro _ _ _ _ _ _ _ S2 L EN) as (Q1 & _). apply is_macro_in in Q1. congruence.
  - destruct (sim0_entry_label _ _ _ _ _ _ S2 L EN) as (N1 & N2). set (w := set_referenced v true).
    assert (S3 : sim0 (set_node b1 (t_lex t) w) p) by (eapply sim0_node; eauto; cbn; rewrite EN; auto).
    apply keep_taken.
    + apply CALL; auto. intros b2 S4 SU4 SY. apply place_ref_facts in H' as (P1 & P2 & P3); auto. rewrite <- (i_addr _ _ S4) in *.
      apply (emit_backward_accept _ _ _ _ _ _ _ _ _ Far); auto. apply P3. cbn [address]. destruct PM as [_ ->]. exact N2.
    + intros T KB. destruct (find_known _ _ _ _ _ FC KB) as (K2 & B2 & D2 & KK).
      assert (K3 : known (set_node b1 (t_lex t) w)).
      { unfold known. cbn [b_symtab set_node set_symtab]. apply (known_set None); auto; [apply KK; congruence|]. cbn. rewrite EN. discriminate. }
      assert (X : stays (set_node b1 (t_lex t) w) (emit_opcode (set_node b1 (t_lex t) w) t 96 false ;; b => emit_backward_ref b t RRel RShort (Some (t_lex t)) id a true false)).
      { apply stays_then; [apply stays_quiet, quiet_opcode|]. intros. apply stays_quiet, quiet_backward. }
      destruct (X T K3) as (A1 & A2 & A3). split; [exact (eq_trans A1 B2)|]. split; [exact (eq_trans A2 D2)|exact A3].
  - apply FWD. exact I.
Qed.

Lemma token_taken b t u p d p' : sim0 b p -> b_success b = true -> tokb t -> t_lex t <> [] -> simple (t_lex t) -> is_macro p (t_lex t) = false ->
  effect p d (t_lex t) = Some p' -> reach p' -> taken b u (process_token fs pu b t u).
Proof.
  intros S SU TB NE SI IM H RE. pose proof TB as TB'. unfold tokb in TB'.
  revert H. unfold process_token. cbv zeta. destruct (t_lex t) as [|c r] eqn:LX; [congruence|]. cbn [hd].
  assert (PF : pop_front (c :: r) = r) by reflexivity. rewrite PF. assert (PF' : pop_front (t_lex t) = r) by (rewrite LX; reflexivity).
  pose proof (Forall_inv_tail TB') as BR.
  assert (LEN : (len (c :: r) =? 1) = match r with [] => true | _ => false end).
  { destruct r; [reflexivity|]. unfold len. cbn [List.length]. lia. }
  rewrite LEN. unfold simple in SI. cbn [hd] in SI.
  assert (SIP : c <> 40 /\ c <> 126 /\ c <> 37) by (vm_compute in SI; repeat split; intros ->; tauto). clear SI.
  assert (OP : forall op ty sz md, mode_of ty sz = Some md -> is_byte op ->
      bind (place_byte p op) (fun p => place_ref_to p md r) = Some p' ->
      taken b u (keep (emit_opcode b t op true ;; b => emit_label_ref b t ty sz r true) u)).
  { intros op ty sz md M B E. apply keep_taken; [eapply op_ref_accept; eauto|apply stays_op_ref]. }
  assert (REF : forall ty sz md, mode_of ty sz = Some md -> place_ref_to p md r = Some p' ->
      taken b u (keep (emit_label_ref b t ty sz r true) u)).
  { intros ty sz md M E. apply keep_taken; [eapply label_ref_accept; eauto|apply stays_label_ref]. }
  assert (JSI : bind (place_byte p 96) (fun p => place_ref_to p Far (c :: r)) = Some p' -> taken b u (keep (emit_jsi b t) u)).
  { intros E. unfold emit_jsi. rewrite LX. apply keep_taken; [|apply stays_op_ref].
    eapply (op_ref_accept b t p 96 RRel RShort Far (c :: r) false false); eauto. unfold is_byte. lia. }
  assert (MARK : taken b u (true, process_mark b t, u)).
  { exists (process_mark b t). split; [reflexivity|]. split; [exact SU|]. intros K. split; [reflexivity|]. split; [reflexivity|exact K]. }
  assert (PAD : forall v p2, padding p r = Some (v, p2) -> taken b u (keep (process_abs_padding b t) u) /\ taken b u (keep (process_rel_padding b t) u)).
  { intros v p2 E. destruct (padding_accept b t p r v p2 S SU BR PF' E) as (b1 & E1 & S1). split.
    - apply keep_taken; [|apply stays_abs]. unfold process_abs_padding. rewrite E1. apply succeeds_ret. exact S1.
    - apply keep_taken; [|apply stays_rel]. unfold process_rel_padding. rewrite E1. apply succeeds_ret. cbv zeta. destruct (_ <? _); exact S1. }
  assert (B128 : is_byte 128) by (unfold is_byte; lia). assert (B160 : is_byte 160) by (unfold is_byte; lia).
  assert (B64 : is_byte 64) by (unfold is_byte; lia). assert (B32 : is_byte 32) by (unfold is_byte; lia).
  unfold effect. cbv zeta.
  destruct (Z.eqb_spec c (chr "(")) as [Y|N1]; [exfalso; exact (proj1 SIP Y)|].
  destruct (Z.eqb_spec c (chr ")")) as [Y|N2]; [discriminate|].
  destruct (Z.eqb_spec c (chr "[")) as [Y|N3]; [auto|].
  destruct (Z.eqb_spec c (chr "]")) as [Y|N4]; [destruct r; [auto|discriminate]|].
  destruct (Z.eqb_spec c (chr "~")) as [Y|N5]; [exfalso; exact (proj1 (proj2 SIP) Y)|].
  destruct (Z.eqb_spec c (chr "%")) as [Y|N6]; [exfalso; exact (proj2 (proj2 SIP) Y)|].
  destruct (Z.eqb_spec c (chr "@")) as [Y|N7]; [intros H; apply keep_taken; [eapply global_accept; eauto|apply stays_global]|].
  destruct (Z.eqb_spec c (chr "&")) as [Y|N8]; [intros H; apply keep_taken; [eapply local_accept; eauto|apply stays_local]|].
  destruct (Z.eqb_spec c (chr "!")) as [Y|N9]; [intros H; apply (OP 64 RRel RShort Far); auto|].
  destruct (Z.eqb_spec c (chr "?")) as [Y|N10]; [intros H; apply (OP 32 RRel RShort Far); auto|].
  destruct (Z.eqb_spec c (chr "}")) as [Y|N11].
  { destruct r; [|discriminate]. destruct (p_open p) as [|k l] eqn:PO; [discriminate|]. intros H.
    apply keep_taken; [eapply close_accept; eauto|apply stays_quiet, quiet_close]. }
  destruct (Z.eqb_spec c (chr "{")) as [Y|N12]; [destruct r; [auto|discriminate]|].
  destruct (Z.eqb_spec c (chr "/")) as [Y|N13]; [auto|].
  destruct (Z.eqb_spec c (chr "|")) as [Y|N14]; [destruct (padding p r) as [[v p2]|] eqn:E; [|discriminate]; intros _; eapply PAD; eauto|].
  destruct (Z.eqb_spec c (chr "$")) as [Y|N15]; [destruct (padding p r) as [[v p2]|] eqn:E; [|discriminate]; intros _; eapply PAD; eauto|].
  destruct (Z.eqb_spec c (chr "#")) as [Y|N16]; [intros H; apply keep_taken; [eapply lit_accept; eauto|apply stays_quiet, quiet_lit]|].
  destruct (Z.eqb_spec c (chr ".")) as [Y|N17]; [intros H; apply (OP 128 RZero RByte Low); auto|].
  destruct (Z.eqb_spec c (chr "-")) as [Y|N18]; [intros H; apply (REF RZero RByte Low); auto|].
  destruct (Z.eqb_spec c (chr ",")) as [Y|N19]; [intros H; apply (OP 128 RRel RByte Near); auto|].
  destruct (Z.eqb_spec c (chr "_")) as [Y|N20]; [intros H; apply (REF RRel RByte Near); auto|].
  destruct (Z.eqb_spec c (chr ";")) as [Y|N21]; [intros H; apply (OP 160 RAbs RShort Whole); auto|].
  destruct (Z.eqb_spec c (chr "=")) as [Y|N22]; [intros H; apply (REF RAbs RShort Whole); auto|].
  destruct (Z.eqb_spec c 34) as [Y|N23]; [intros H; apply keep_taken; [eapply text_accept; eauto|apply stays_quiet, quiet_text]|].
  rewrite is_number_spec.
  destruct (read_number (c :: r)) as [| |v n h] eqn:RN; [|discriminate|].
  - intros H. eapply word_taken; eauto; rewrite LX; cbn [hd]; [|discriminate|exact IM|rewrite IM in H; exact H].
    rewrite rune_runic. unfold is_runic. clear - N1 N2 N3 N4 N5 N6 N7 N8 N9 N10 N11 N12 N13 N14 N15 N16 N17 N18 N19 N20 N21 N22 N23.
    revert N1 N2 N3 N4 N5 N6 N7 N8 N9 N10 N11 N12 N13 N14 N15 N16 N17 N18 N19 N20 N21 N22 N23.
    change (chr "(") with 40. change (chr ")") with 41. change (chr "[") with 91. change (chr "]") with 93.
    change (chr "~") with 126. change (chr "%") with 37. change (chr "@") with 64. change (chr "&") with 38.
    change (chr "!") with 33. change (chr "?") with 63. change (chr "}") with 125. change (chr "{") with 123.
    change (chr "/") with 47. change (chr "|") with 124. change (chr "$") with 36. change (chr "#") with 35.
    change (chr ".") with 46. change (chr "-") with 45. change (chr ",") with 44. change (chr "_") with 95.
    change (chr ";") with 59. change (chr "=") with 61.
    intros. match goal with |- existsb _ ?l = _ => let l' := eval vm_compute in l in change l with l' end.
    cbn [existsb].
    repeat match goal with H : c <> _ |- _ => apply Z.eqb_neq in H end.
    repeat match goal with H : (c =? _) = false |- _ => rewrite H end. reflexivity.
  - intros H. apply keep_taken; [|apply stays_quiet, quiet_raw]. eapply raw_accept; eauto. rewrite LX. exact H.
Qed.
End Token.
