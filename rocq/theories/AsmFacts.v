(** Consequences of AsmRun and AsmProg in the vocabulary of AsmSpec: every source
    has exactly one result, and what the two passes say about labels, lambdas
    and anonymous labels in terms of the tokens handled. *)
From Verif Require Import Base AsmModel AsmSound AsmScan AsmRun AsmSpec AsmWords AsmStep AsmProg.
From Coq Require Import ZifyBool Ascii String.
Open Scope list_scope.

(** ** Results of the assembler *)
Lemma deferred_more fs k : forall i b, b_fault (snd (deferred_loop fs k i b)) = None ->
  forall m, (k <= m)%nat -> deferred_loop fs m i b = deferred_loop fs k i b.
Proof.
  induction k as [|k IH]; intros i b H m M; cbn [deferred_loop] in *; [discriminate|].
  destruct m as [|m]; [lia|]. cbn [deferred_loop]. destruct (nth_error (b_deferred b) i) as [[n t]|]; auto.
  destruct (process_include fs (process_unit fs DEPTH) b n t) as [[|] b1]; cbn [andthen] in *; auto. apply IH; auto. lia.
Qed.

Lemma asm_more fs k file : b_fault (snd (asm fs k file)) = None -> forall m, (k <= m)%nat -> asm fs m file = asm fs k file.
Proof.
  unfold asm. destruct (process_file fs (process_unit fs DEPTH) start file) as [[|] b]; cbn [negb]; auto.
  unfold resolve. intros H m M. rewrite (deferred_more fs k 0 b); auto.
  destruct (deferred_loop fs k 0 b) as [[|] b1]; cbn [andthen snd] in *; auto.
  fold (reports b1) in H. pose proof (r_fault _ _ (rel_reports b1)) as R. congruence.
Qed.

Lemma assembles_intro fs k file ok b : asm fs k file = (ok, b) -> b_fault b = None -> assembles fs file ok (rev (b_out b)).
Proof.
  intros E F. exists k. intros m M. exists b. rewrite (asm_more fs k file) by (rewrite ?E; auto). auto.
Qed.

Lemma assembles_elim fs file ok evs : assembles fs file ok evs ->
  exists n b, asm fs n file = (ok, b) /\ b_fault b = None /\ rev (b_out b) = evs.
Proof. intros [n H]. destruct (H n (le_n n)) as (b & A & F & E). exists n, b. auto. Qed.

Lemma assembles_exists fs file : exists ok evs, assembles fs file ok evs.
Proof.
  destruct (asm_sound fs file) as [n H]. destruct (H n (le_n n)) as (_ & R & S).
  destruct (asm fs n file) as [ok b] eqn:E. exists ok, (rev (b_out b)). apply (assembles_intro fs n); auto.
  apply r_fault in R. exact R.
Qed.
Lemma assembles_unique fs file ok evs ok' evs' : assembles fs file ok evs -> assembles fs file ok' evs' -> ok = ok' /\ evs = evs'.
Proof.
  intros [n H] [n' H']. destruct (H (max n n')) as (b & A & _ & E); [lia|]. destruct (H' (max n n')) as (b' & A' & _ & E'); [lia|].
  rewrite A in A'. injection A' as <- <-. split; congruence.
Qed.

Lemma assembles_rel fs file ok evs : assembles fs file ok evs ->
  ok = noerr evs /\ Forall ok_put evs /\ nested (-1) (rev evs).
Proof.
  intros [n H]. destruct (asm_sound fs file) as [n' H']. destruct (H (max n n')) as (b & A & _ & E); [lia|].
  destruct (H' (max n n')) as (A' & R & S); [lia|]. rewrite A in A'. rewrite <- A' in *. cbn [fst snd] in *.
  destruct R as [(e & O & SU & P & N) _ _ _]. cbn in O, SU, N. rewrite app_nil_r in O. subst e. subst evs ok. split; [|split].
  - rewrite SU. unfold noerr.
    destruct (forallb (fun e => negb (is_err e)) (rev (b_out b))) eqn:F.
    + rewrite forallb_forall in F. apply forallb_forall. intros x I. apply F. apply -> in_rev. exact I.
    + destruct (forallb (fun e => negb (is_err e)) (b_out b)) eqn:G; auto. rewrite <- F. symmetry. rewrite forallb_forall in G.
      apply forallb_forall. intros x I. apply G. apply in_rev. exact I.
  - apply Forall_rev. auto.
  - rewrite rev_involutive. auto.
Qed.

(** ** Successful results *)
Lemma assembles_program fs file evs : assembles fs file true evs ->
  exists p, run empty (lexemes (trace evs)) = Some p /\ p_trace p = trace evs /\ complete p /\
    (forall a c, only_at p a c -> rom evs a = cell_byte p c) /\
    (forall a, (forall c, ~ In (a, c) (p_cells p)) -> rom evs a = None) /\
    (forall a c, In (a, c) (p_cells p) -> 256 <= a <= 65535 /\ rom evs a <> None).
Proof.
  intros H. apply assembles_elim in H as (n & b & A & F & <-).
  destruct (asm_follows _ _ _ _ A F) as (p & R & T & H). exists p. rewrite <- T. tauto.
Qed.

(** ** Runs *)
Definition occ_at (p : prog) (d : Z) (lex : str) : occ := mkOcc d (p_scope p) (p_addr p) lex.
Lemma step_trace p d lex p' : step p d lex = Some p' -> p_trace p' = occ_at p d lex :: p_trace p.
Proof. unfold step. intros H. apply effect_grows in H as [H _]. exact H. Qed.
Lemma run_trace toks : forall p q, run p toks = Some q -> exists new, p_trace q = new ++ p_trace p /\ lexemes new = toks.
Proof.
  induction toks as [|[d l] toks IH]; intros p q H; cbn [run] in H.
  - injection H as <-. exists []. auto.
  - destruct (step p d l) as [p1|] eqn:S; [|discriminate]. cbn [bind] in H. apply IH in H as (new & T & L).
    exists (new ++ [occ_at p d l]). rewrite T, (step_trace _ _ _ _ S), <- app_assoc. split; auto.
    unfold lexemes in *. rewrite map_app, rev_app_distr, L. reflexivity.
Qed.
Lemma lexemes_app a b : lexemes (a ++ b) = lexemes b ++ lexemes a.
Proof. unfold lexemes. rewrite map_app, rev_app_distr. reflexivity. Qed.
Lemma lexemes_length a : List.length (lexemes a) = List.length a.
Proof. unfold lexemes. rewrite rev_length, map_length. reflexivity. Qed.
Lemma app_same {A} (a b c d : list A) : a ++ b = c ++ d -> List.length a = List.length c -> a = c /\ b = d.
Proof.
  revert c. induction a as [|x a IH]; intros [|y c] E L; cbn in *; try lia; auto.
  injection E as -> E. destruct (IH c E) as [-> ->]; auto.
Qed.

(** The programs around the token [o] of a run. *)
Lemma run_split q l2 o l1 : run empty (lexemes (p_trace q)) = Some q -> p_trace q = l2 ++ o :: l1 ->
  exists p1 p2, run empty (lexemes l1) = Some p1 /\ p_trace p1 = l1 /\ o = occ_at p1 (o_depth o) (o_lex o) /\
    step p1 (o_depth o) (o_lex o) = Some p2 /\ p_trace p2 = o :: l1 /\ run p2 (lexemes l2) = Some q.
Proof.
  intros R T. rewrite T, lexemes_app, lexemes_cons, <- app_assoc, run_app in R.
  destruct (run empty (lexemes l1)) as [p1|] eqn:R1; [|discriminate]. cbn [bind app run] in R.
  destruct (step p1 (o_depth o) (o_lex o)) as [p2|] eqn:S; [|discriminate]. cbn [bind] in R. exists p1, p2.
  pose proof (step_trace _ _ _ _ S) as T2.
  destruct (run_trace _ _ _ R1) as (n1 & T1 & L1). cbn [empty p_trace] in T1. rewrite app_nil_r in T1.
  destruct (run_trace _ _ _ R) as (n2 & T3 & L2).
  rewrite T2, T1, T in T3. apply app_same in T3 as [-> E].
  - injection E as E1 E2. subst l1. rewrite T1, <- E1 in T2. rewrite T1. auto 10.
  - rewrite <- (lexemes_length l2), <- L2. apply lexemes_length.
Qed.

(** ** What a token changes *)
Record kept (p p' : prog) : Prop := mkKept {
  k_labels : p_labels p' = p_labels p;
  k_next : p_next p' = p_next p;
  k_open : p_open p' = p_open p;
  k_ats : p_ats p' = p_ats p;
  k_scope : p_scope p' = p_scope p;
  k_macros : p_macros p' = p_macros p;
  k_cells : incl (p_cells p) (p_cells p')
}.
Lemma kept_refl p : kept p p.
Proof. constructor; auto. apply incl_refl. Qed.
Lemma kept_trans p q r : kept p q -> kept q r -> kept p r.
Proof. intros [] []. constructor; try congruence. eapply incl_tran; eauto. Qed.
Lemma kept_byte p v p' : place_byte p v = Some p' -> kept p p'.
Proof.
  unfold place_byte. destruct (_ && _); [|discriminate]. intros [= <-]. constructor; auto.
  cbn. apply incl_tl, incl_refl.
Qed.
Lemma kept_bytes l : forall p p', place_bytes p l = Some p' -> kept p p'.
Proof.
  induction l as [|v l IH]; intros p p'; cbn [place_bytes]; [intros [= <-]; apply kept_refl|].
  destruct (place_byte p v) as [p1|] eqn:E; [|discriminate]. cbn [bind]. intros H. eapply kept_trans; [eapply kept_byte; eauto|auto].
Qed.
Lemma kept_ref p m t p' : place_ref p m t = Some p' -> kept p p'.
Proof.
  unfold place_ref. destruct (_ && _); [|discriminate]. intros [= <-]. constructor; auto.
  cbn. destruct (width m) as [|[| |]|]; cbn; repeat apply incl_tl; apply incl_refl.
Qed.

(** A reference written [r]: what it refers to, and how the program without its
    cells looks. *)
Inductive refers (p : prog) (r : str) : target -> prog -> Prop :=
| refers_lambda : r = bytes "{" -> refers p r (Lambda (p_next p)) (with_open p (p_next p :: p_open p) (p_next p + 1))
| refers_at a l : r = bytes "@" -> p_ats p = a :: l -> refers p r (At a) (with_ats p l)
| refers_label n : r <> bytes "{" -> r <> bytes "@" ->
    (match r with
     | c :: m => if (c =? chr "&") || (c =? chr "/") then n = p_scope p ++ chr "/" :: m else n = r
     | [] => False
     end) -> valid_name n = true -> is_macro p n = false -> refers p r (Label n) p.
Lemma find_refers p r t p' : find_target p r = Some (t, p') -> refers p r t p'.
Proof.
  unfold find_target. destruct (str_dec _ _) as [->|N1]; [intros [= <- <-]; constructor; auto|].
  destruct (str_dec _ _) as [->|N2].
  - destruct (p_ats p) eqn:E; [discriminate|]. intros [= <- <-]. constructor; auto.
  - destruct r as [|c m]; [discriminate|]. intros H.
    assert (G : forall n, bind (Some n) (fun n => if valid_name n && negb (is_macro p n) then Some (Label n, p) else None) = Some (t, p') ->
      (if (c =? chr "&") || (c =? chr "/") then n = p_scope p ++ chr "/" :: m else n = c :: m) -> refers p (c :: m) t p').
    { intros n. cbn [bind]. destruct (valid_name n && negb (is_macro p n)) eqn:V; [|discriminate]. intros [= <- <-] E.
      apply andb_true_iff in V as [V1 V2]. apply refers_label; auto. destruct (is_macro p n); auto. }
    destruct ((c =? chr "&") || (c =? chr "/")) eqn:L.
    + unfold local in H. destruct (_ <=? 47); [|discriminate]. apply (G _ H). auto.
    + apply (G _ H). auto.
Qed.

(** The effect of such a token. *)
Lemma effect_writes p d lex opc m r p' : writes (p_macros p) lex opc m r -> effect p d lex = Some p' ->
  exists p1 t p2, match opc with Some v => place_byte p v = Some p1 | None => p1 = p end /\
    refers p1 r t p2 /\ place_ref p2 m t = Some p'.
Proof.
  intros W H.
  assert (G : forall p0, place_ref_to p0 m r = Some p' -> exists t p2, refers p0 r t p2 /\ place_ref p2 m t = Some p').
  { intros p0 G. unfold place_ref_to in G. destruct (find_target p0 r) as [[t p2]|] eqn:F; [|discriminate]. cbn [bind] in G.
    exists t, p2. split; auto. apply find_refers. auto. }
  assert (G2 : forall v, bind (place_byte p v) (fun p => place_ref_to p m r) = Some p' ->
    exists p1 t p2, place_byte p v = Some p1 /\ refers p1 r t p2 /\ place_ref p2 m t = Some p').
  { intros v G2. destruct (place_byte p v) as [p1|]; [|discriminate]. cbn [bind] in G2. apply G in G2 as (t & p2 & G2). exists p1, t, p2. tauto. }
  destruct W; try (apply G2 in H; exact H);
    try (apply G in H as (t & p2 & H); exists p, t, p2; tauto).
  destruct w as [|c w]; [congruence|]. cbn [hd] in H1. unfold effect in H.
  assert (NR : forall x, rune x = true -> (c =? x) = false).
  { intros x X. destruct (Z.eqb_spec c x); auto. subst. congruence. }
  rewrite !NR in H by reflexivity. rewrite H2, H3 in H.
  assert (M : is_macro p (c :: w) = false).
  { unfold is_macro. destruct (existsb _ _) eqn:E; auto. apply existsb_str in E. contradiction. }
  rewrite M in H. apply G2 in H. exact H.
Qed.

(** ** All the kinds of tokens *)
Inductive kind (p : prog) (d : Z) : str -> prog -> Prop :=
| k_same lex : lex <> [] ->
    (hd 0 lex = chr "(" \/ hd 0 lex = chr "[" \/ lex = bytes "]" \/ (hd 0 lex = chr "~" /\ d < MAX_DEPTH) \/
     (rune (hd 0 lex) = false /\ read_number lex = NotNumber /\ mnemonic lex = None /\ In lex (p_macros p) /\ d < MAX_DEPTH)) ->
    kind p d lex p
| k_macro r : valid_name r = true -> is_macro p r = false -> is_label p (Label r) = false -> kind p d (chr "%" :: r) (with_macro p r)
| k_at : kind p d (bytes "@@") (with_ats p (p_addr p :: p_ats p))
| k_global r : r <> bytes "@" -> valid_name r = true -> is_macro p r = false -> assoc (Label r) (p_labels p) = None ->
    kind p d (chr "@" :: r) (with_scope (with_label p (Label r)) (before_slash r))
| k_local r : let n := p_scope p ++ chr "/" :: r in
    len n <= 47 -> valid_name n = true -> is_macro p n = false -> assoc (Label n) (p_labels p) = None ->
    kind p d (chr "&" :: r) (with_label p (Label n))
| k_close k l : p_open p = k :: l -> assoc (Lambda k) (p_labels p) = None ->
    kind p d (bytes "}") (with_label (with_open p l (p_next p)) (Lambda k))
| k_abs r v p1 : padding p r = Some (v, p1) -> kind p d (chr "|" :: r) (with_addr p1 v)
| k_rel r v p1 : padding p r = Some (v, p1) -> kind p d (chr "$" :: r) (with_addr p1 ((p_addr p1 + v) mod 65536))
| k_lit r vn p' : read_literal r = Some vn -> place_bytes p ((if snd vn =? 1 then 128 else 160) :: number_bytes vn) = Some p' ->
    kind p d (chr "#" :: r) p'
| k_text r p' : r <> [] -> place_bytes p r = Some p' -> kind p d (34 :: r) p'
| k_number lex vn p' : rune (hd 0 lex) = false -> read_number lex <> NotNumber -> read_literal lex = Some vn ->
    place_bytes p (number_bytes vn) = Some p' -> kind p d lex p'
| k_opcode lex v p' : rune (hd 0 lex) = false -> read_number lex = NotNumber -> mnemonic lex = Some v -> place_byte p v = Some p' ->
    kind p d lex p'
| k_ref lex opc m r p1 t p2 p' : writes (p_macros p) lex opc m r ->
    match opc with Some v => place_byte p v = Some p1 | None => p1 = p end ->
    refers p1 r t p2 -> place_ref p2 m t = Some p' -> kind p d lex p'.

Lemma existsb_false_in n l : existsb (str_eqb n) l = false -> ~ In n l.
Proof. intros H I. apply existsb_str in I. congruence. Qed.

Lemma effect_kind p d lex p' : effect p d lex = Some p' -> kind p d lex p'.
Proof.
  intros H.
  assert (REF : forall opc m r, writes (p_macros p) lex opc m r -> kind p d lex p').
  { intros opc m r W. destruct (effect_writes _ _ _ _ _ _ _ W H) as (p1 & t & p2 & A & B & C). eapply k_ref; eauto. }
  unfold effect in H. destruct lex as [|c r]; [discriminate|]. cbv zeta in H.
  destruct (Z.eqb_spec c (chr "(")) as [->|N1]. { injection H as <-. apply k_same; [discriminate|auto]. }
  destruct (Z.eqb_spec c (chr ")")) as [->|N2]; [discriminate|].
  destruct (Z.eqb_spec c (chr "[")) as [->|N3]. { injection H as <-. apply k_same; [discriminate|auto]. }
  destruct (Z.eqb_spec c (chr "]")) as [->|N4]. { destruct r; [|discriminate]. injection H as <-. apply k_same; [discriminate|auto]. }
  destruct (Z.eqb_spec c (chr "~")) as [->|N5].
  { destruct (Z.ltb_spec d MAX_DEPTH); [|discriminate]. injection H as <-. apply k_same; [discriminate|]. cbn [hd]. auto 6. }
  destruct (Z.eqb_spec c (chr "%")) as [->|N6].
  { destruct (valid_name r) eqn:V; [|discriminate]. destruct (is_macro p r) eqn:M; [discriminate|].
    destruct (is_label p (Label r)) eqn:L; [discriminate|]. injection H as <-. constructor; auto. }
  destruct (Z.eqb_spec c (chr "@")) as [->|N7].
  { destruct (str_dec r (bytes "@")) as [->|N]; [injection H as <-; exact (k_at p d)|].
    unfold define_name, define, is_label in H. destruct (valid_name r) eqn:V; [|discriminate]. destruct (is_macro p r) eqn:M; [discriminate|].
    destruct (assoc (Label r) (p_labels p)) eqn:A; [discriminate|]. injection H as <-. constructor; auto. }
  destruct (Z.eqb_spec c (chr "&")) as [->|N8].
  { unfold local in H. destruct (Z.leb_spec (len (p_scope p) + 1 + len r) 47) as [L|]; [|discriminate]. cbn [bind] in H.
    set (n := p_scope p ++ chr "/" :: r) in *.
    unfold define_name, define, is_label in H. destruct (valid_name n) eqn:V; [|discriminate]. destruct (is_macro p n) eqn:M; [discriminate|].
    destruct (assoc (Label n) (p_labels p)) eqn:A; [discriminate|]. injection H as <-. constructor; auto.
    unfold len in *. rewrite app_length. cbn [List.length]. lia. }
  destruct (Z.eqb_spec c (chr "!")) as [->|N9]; [eapply REF; constructor|].
  destruct (Z.eqb_spec c (chr "?")) as [->|N10]; [eapply REF; constructor|].
  destruct (Z.eqb_spec c (chr "}")) as [->|N11].
  { destruct r; [|discriminate]. destruct (p_open p) as [|k l] eqn:O; [discriminate|]. unfold define, is_label in H.
    cbn [with_open p_labels] in H. destruct (assoc (Lambda k) (p_labels p)) eqn:A; [discriminate|]. injection H as <-.
    exact (k_close p d k l O A). }
  destruct (Z.eqb_spec c (chr "{")) as [->|N12]. { destruct r; [|discriminate]. eapply REF; exact (writes_lambda _). }
  destruct (Z.eqb_spec c (chr "/")) as [->|N13]; [eapply REF; constructor|].
  destruct (Z.eqb_spec c (chr "|")) as [->|N14].
  { destruct (padding p r) as [[v p1]|] eqn:P; [|discriminate]. injection H as <-. constructor; auto. }
  destruct (Z.eqb_spec c (chr "$")) as [->|N15].
  { destruct (padding p r) as [[v p1]|] eqn:P; [|discriminate]. injection H as <-.
    constructor; auto. }
  destruct (Z.eqb_spec c (chr "#")) as [->|N16].
  { destruct (read_literal r) as [vn|] eqn:L; [|discriminate]. eapply k_lit; eauto. }
  destruct (Z.eqb_spec c (chr ".")) as [->|N17]; [eapply REF; constructor|].
  destruct (Z.eqb_spec c (chr "-")) as [->|N18]; [eapply REF; constructor|].
  destruct (Z.eqb_spec c (chr ",")) as [->|N19]; [eapply REF; constructor|].
  destruct (Z.eqb_spec c (chr "_")) as [->|N20]; [eapply REF; constructor|].
  destruct (Z.eqb_spec c (chr ";")) as [->|N21]; [eapply REF; constructor|].
  destruct (Z.eqb_spec c (chr "=")) as [->|N22]; [eapply REF; constructor|].
  destruct (Z.eqb_spec c 34) as [->|N23]. { destruct r; [discriminate|]. apply k_text; [discriminate|auto]. }
  assert (NR : rune (hd 0 (c :: r)) = false).
  { cbn [hd]. destruct (rune c) eqn:R; auto. unfold rune in R. apply existsb_exists in R as (x & I & E). apply Z.eqb_eq in E. subst x.
    exfalso. vm_compute in I. clear H REF.
    repeat match goal with N : _ <> chr _ |- _ => vm_compute in N end. repeat (destruct I as [I|I]; [symmetry in I; contradiction|]). exact I. }
  destruct (read_number (c :: r)) eqn:RN.
  - destruct (mnemonic (c :: r)) as [v|] eqn:M; [eapply k_opcode; eauto|].
    destruct (is_macro p (c :: r)) eqn:IM.
    + destruct (Z.ltb_spec d MAX_DEPTH); [|discriminate]. injection H as <-. apply k_same; [discriminate|].
      apply existsb_str in IM. right. right. right. right. auto.
    + eapply REF. apply writes_word; auto; [discriminate|]. apply existsb_false_in. exact IM.
  - discriminate.
  - destruct (read_literal (c :: r)) as [vn|] eqn:L; [|discriminate]. cbn [bind] in H. eapply k_number; eauto. congruence.
Qed.

(** ** What every token does to the labels, lambdas and anonymous labels *)
Lemma writes_opens ms o opc m r : writes ms (o_lex o) opc m r -> (opens o = true <-> r = bytes "{").
Proof.
  intros W. unfold opens. remember (o_lex o) as lex. clear Heqlex.
  destruct W as [r|r|r|r|r|r|r|r|r| |w W1 W2 _ _ _];
    try (destruct r as [|x [|y r]]; [split; discriminate| |split; discriminate]; cbn;
         split; [intros H; apply Z.eqb_eq in H; subst; reflexivity|intros [= ->]; reflexivity]).
  - destruct r as [|x [|y r]]; split; discriminate.
  - split; reflexivity.
  - split.
    + destruct w as [|c [|d [|e w]]]; try discriminate.
      * intros H. apply Z.eqb_eq in H. subst. discriminate.
      * intros H. apply andb_true_iff in H as [H _]. exfalso. cbn [hd] in W2. unfold has in H. apply existsb_exists in H as (x & I & E).
        apply Z.eqb_eq in E. subst x. vm_compute in I.
        repeat (destruct I as [I|I]; [subst; vm_compute in W2; discriminate|]). exact I.
    + intros ->. discriminate.
Qed.
Lemma writes_uses ms o opc m r : writes ms (o_lex o) opc m r -> (uses_at o = true <-> r = bytes "@").
Proof.
  intros W. unfold uses_at. remember (o_lex o) as lex. clear Heqlex.
  destruct W as [r|r|r|r|r|r|r|r|r| |w W1 W2 _ _ _];
    try (destruct r as [|x [|y r]]; [split; discriminate| |split; discriminate]; cbn;
         split; [intros H; apply Z.eqb_eq in H; subst; reflexivity|intros [= ->]; reflexivity]).
  - destruct r as [|x [|y r]]; split; discriminate.
  - split; discriminate.
  - split.
    + destruct w as [|c [|d [|e w]]]; try discriminate.
      intros H. apply andb_true_iff in H as [H _]. exfalso. cbn [hd] in W2. apply orb_true_iff in H.
      assert (I : has c (REFERENCE_RUNES ++ bytes "|$") = true) by (unfold has; rewrite existsb_app; apply orb_true_iff; exact H).
      unfold has in I. apply existsb_exists in I as (x & I & E).
      apply Z.eqb_eq in E. subst x. vm_compute in I.
      repeat (destruct I as [I|I]; [subst; vm_compute in W2; discriminate|]). exact I.
    + intros ->. discriminate.
Qed.
Lemma writes_other ms o opc m r : writes ms (o_lex o) opc m r ->
  closes o = false /\ makes_at o = false /\ (forall n, ~ defines o n) /\ macro_names [o] = [].
Proof.
  intros W. unfold closes, makes_at, macro_names. cbn [flat_map]. unfold defines. remember (o_lex o) as lex. clear Heqlex. rewrite app_nil_r.
  destruct W as [r|r|r|r|r|r|r|r|r| |w W1 W2 _ _ _]; try (repeat split; try reflexivity; intros n [[H _]|(x & H & _)]; discriminate).
  repeat split.
  - apply str_eqb_false. intros ->. discriminate.
  - apply str_eqb_false. intros ->. discriminate.
  - intros n [[-> _]|(x & -> & _)]; discriminate.
  - destruct w as [|c w]; [congruence|]. destruct (Z.eqb_spec c (chr "%")); auto. subst. discriminate.
Qed.

Record changes (o : occ) (p p' : prog) : Prop := mkChanges {
  c_labels : (exists n, (forall n', defines o n' <-> n' = n) /\ assoc (Label n) (p_labels p) = None /\
                        p_labels p' = (Label n, o_addr o) :: p_labels p) \/
             ((forall n, ~ defines o n) /\ forall n, assoc (Label n) (p_labels p') = assoc (Label n) (p_labels p));
  c_lambdas : (opens o = true /\ closes o = false /\ p_open p' = p_next p :: p_open p /\ p_next p' = p_next p + 1 /\
               forall k, assoc (Lambda k) (p_labels p') = assoc (Lambda k) (p_labels p)) \/
              (opens o = false /\ closes o = true /\ p_next p' = p_next p /\
               exists k, p_open p = k :: p_open p' /\ assoc (Lambda k) (p_labels p) = None /\
                         p_labels p' = (Lambda k, o_addr o) :: p_labels p) \/
              (opens o = false /\ closes o = false /\ p_open p' = p_open p /\ p_next p' = p_next p /\
               forall k, assoc (Lambda k) (p_labels p') = assoc (Lambda k) (p_labels p));
  c_ats : (makes_at o = true /\ uses_at o = false /\ p_ats p' = o_addr o :: p_ats p) \/
          (makes_at o = false /\ uses_at o = true /\ exists a, p_ats p = a :: p_ats p') \/
          (makes_at o = false /\ uses_at o = false /\ p_ats p' = p_ats p);
  c_macros : p_macros p' = macro_names [o] ++ p_macros p;
  c_cells : incl (p_cells p) (p_cells p')
}.

Lemma kept_changes o p p' : kept p p' -> opens o = false -> closes o = false -> makes_at o = false -> uses_at o = false ->
  (forall n, ~ defines o n) -> macro_names [o] = [] -> changes o p p'.
Proof.
  intros [] A B C D E F. constructor; auto.
  - right. split; auto. intros n. rewrite k_labels0. auto.
  - right. right. repeat split; auto. intros k. rewrite k_labels0. auto.
  - rewrite F. auto.
Qed.

(** Tokens that do none of it, by their first character. *)
Definition dull (c : Z) : bool := negb (has c (bytes "{}@&%|$" ++ REFERENCE_RUNES)).
Lemma dull_changes o p p' : kept p p' -> o_lex o <> [] -> dull (hd 0 (o_lex o)) = true -> changes o p p'.
Proof.
  intros K N D. destruct (o_lex o) as [|c l] eqn:E; [congruence|]. cbn [hd] in D. unfold dull, has in D.
  apply negb_true_iff in D. rewrite existsb_app in D. apply orb_false_iff in D as [D1 D2].
  assert (X : forall x, In x (bytes "{}@&%|$") -> c <> x).
  { intros x I ->. clear -D1 I. assert (existsb (Z.eqb x) (bytes "{}@&%|$") = true); [|congruence].
    apply existsb_exists. exists x. rewrite Z.eqb_refl. auto. }
  apply kept_changes; auto.
  - unfold opens. rewrite E. destruct l as [|d [|e l]]; auto.
    + apply Z.eqb_neq. apply X. vm_compute. auto.
    + unfold has. rewrite D2. auto.
  - unfold closes. rewrite E. apply str_eqb_false. intros [= -> _]. apply (X (chr "}")); vm_compute; auto.
  - unfold makes_at. rewrite E. apply str_eqb_false. intros [= -> _]. apply (X (chr "@")); vm_compute; auto.
  - unfold uses_at. rewrite E. destruct l as [|d [|e l]]; auto. unfold has at 1. rewrite D2. cbn [orb].
    destruct (has c (bytes "|$")) eqn:H; auto. exfalso. unfold has in H. apply existsb_exists in H as (x & I & H). apply Z.eqb_eq in H. subst x.
    apply (X c); auto. vm_compute in I. destruct I as [<-|[<-|[]]]; vm_compute; auto 10.
  - unfold defines. rewrite E. intros n [[[= -> _] _]|(m & [= -> _] & _)]; [apply (X (chr "@"))|apply (X (chr "&"))]; vm_compute; auto 10.
  - cbn. rewrite E. destruct (Z.eqb_spec c (chr "%")); auto. exfalso. apply (X c); auto. subst. vm_compute. auto 10.
Qed.
Lemma runeless_dull c : rune c = false -> dull c = true.
Proof.
  intros R. unfold dull. apply negb_true_iff. destruct (has c _) eqn:H; auto. exfalso. unfold has in H.
  apply existsb_exists in H as (x & I & E). apply Z.eqb_eq in E. subst x. unfold rune in R.
  assert (J : existsb (Z.eqb c) RUNES = true); [|congruence]. apply existsb_exists. exists c. rewrite Z.eqb_refl. split; auto.
  clear R. vm_compute in I. repeat (destruct I as [<-|I]; [vm_compute; auto 30|]). destruct I.
Qed.

Lemma assoc_cons_other t k a l : k <> t -> assoc t ((k, a) :: l) = assoc t l.
Proof. intros N. cbn. destruct (target_dec k t); congruence. Qed.
Lemma str_eqb_refl s : str_eqb s s = true.
Proof. apply str_eqb_true. auto. Qed.

Lemma padding_changes p r v p1 : padding p r = Some (v, p1) ->
  (r = bytes "@" /\ exists a l, p_ats p = a :: l /\ v = a /\ p1 = with_ats p l) \/ (r <> bytes "@" /\ p1 = p).
Proof.
  unfold padding. destruct (read_number r) eqn:RN.
  - destruct (str_dec r (bytes "@")) as [->|N].
    + destruct (p_ats p) as [|a l]; [discriminate|]. intros [= <- <-]. left. split; auto. exists a, l. auto.
    + intros H. right. split; auto. revert H. match goal with |- bind ?x _ = _ -> _ => destruct x; [|discriminate] end. cbn [bind].
      destruct (assoc _ _); [|discriminate]. cbn [bind]. intros [= _ <-]. auto.
  - discriminate.
  - intros [= _ <-]. right. split; auto. intros ->. discriminate.
Qed.

Lemma ref_changes o p opc m r p1 t p2 p' : writes (p_macros p) (o_lex o) opc m r ->
  match opc with Some v => place_byte p v = Some p1 | None => p1 = p end ->
  refers p1 r t p2 -> place_ref p2 m t = Some p' -> changes o p p'.
Proof.
  intros W P R S. pose proof (writes_opens _ _ _ _ _ W) as WO. pose proof (writes_uses _ _ _ _ _ W) as WU.
  destruct (writes_other _ _ _ _ _ W) as (WC & WM & WD & WN).
  assert (K1 : kept p p1) by (destruct opc; [eapply kept_byte; eauto|subst; apply kept_refl]).
  apply kept_ref in S.
  assert (F : forall x : bool, x <> true -> x = false) by (intros []; congruence).
  destruct R as [E|a l E A|n N1 N2 _ _ _].
  - assert (U : uses_at o = false) by (apply F; rewrite WU; subst; discriminate). apply WO in E.
    destruct K1, S. cbn [with_open with_ats p_labels p_next p_open p_ats p_scope p_macros p_cells] in *. constructor.
    + right. split; auto. congruence.
    + left. repeat split; auto; try congruence.
    + right. right. repeat split; auto. congruence.
    + rewrite WN. cbn. congruence.
    + eapply incl_tran; eauto.
  - assert (U : opens o = false) by (apply F; rewrite WO; subst; discriminate). apply WU in E.
    destruct K1, S. cbn [with_open with_ats p_labels p_next p_open p_ats p_scope p_macros p_cells] in *. constructor.
    + right. split; auto. congruence.
    + right. right. repeat split; auto; congruence.
    + right. left. repeat split; auto. exists a. congruence.
    + rewrite WN. cbn. congruence.
    + eapply incl_tran; eauto.
  - apply kept_changes; auto.
    + eapply kept_trans; eauto.
    + apply F. rewrite WO. auto.
    + apply F. rewrite WU. auto.
Qed.

Lemma pad_changes o p c r v p1 (f : prog -> Z) : o_lex o = c :: r -> In c (bytes "|$") -> padding p r = Some (v, p1) -> changes o p (with_addr p1 (f p1)).
Proof.
  intros L C P. apply padding_changes in P.
  assert (OP : opens o = false).
  { unfold opens. rewrite L. vm_compute in C. destruct r as [|x [|y r]]; auto; destruct C as [<-|[<-|[]]]; reflexivity. }
  assert (CL : closes o = false).
  { unfold closes. rewrite L. apply str_eqb_false. intros [= -> _]. vm_compute in C. intuition discriminate. }
  assert (MA : makes_at o = false).
  { unfold makes_at. rewrite L. apply str_eqb_false. intros [= -> _]. vm_compute in C. intuition discriminate. }
  assert (DF : forall n, ~ defines o n).
  { unfold defines. rewrite L. intros n [[[= -> _] _]|(m & [= -> _] & _)]; vm_compute in C; intuition discriminate. }
  assert (MN : macro_names [o] = []).
  { cbn. rewrite L. destruct (Z.eqb_spec c (chr "%")); auto. subst. vm_compute in C. intuition discriminate. }
  destruct P as [(-> & a & l & A & -> & ->)|[N ->]].
  - constructor.
    + right. auto.
    + right. right. repeat split; auto.
    + right. left. repeat split; auto; [|exists a; auto]. unfold uses_at. rewrite L. vm_compute in C.
      destruct C as [<-|[<-|[]]]; reflexivity.
    + rewrite MN. auto.
    + apply incl_refl.
  - apply kept_changes; auto.
    + constructor; auto. apply incl_refl.
    + unfold uses_at. rewrite L. destruct r as [|x [|y r]]; auto. destruct (Z.eqb_spec x (chr "@")); [|apply andb_false_r].
      subst. exfalso. apply N. reflexivity.
Qed.

Lemma effect_changes p d lex p' : effect p d lex = Some p' -> changes (occ_at p d lex) p p'.
Proof.
  intros H. apply effect_kind in H.
  destruct H as [lex N H|r V M A| |r N V M A|r n L V M A|k l O A|r v p1 P|r v p1 P|r vn p' P Q|r p' N P|lex vn p' R1 R2 R3 P|lex v p' R1 R2 R3 P|lex opc m r p1 t p2 p' W P R S];
    try set (o := occ_at _ _ _).
  - apply dull_changes; auto; [apply kept_refl|]. change (o_lex o) with lex.
    destruct H as [->|[->|[->|[[-> _]|(R & _)]]]]; try reflexivity. apply runeless_dull. auto.
  - constructor.
    + right. split; auto. intros n [[E _]|(m & E & _)]; discriminate.
    + right. right. repeat split; auto. unfold opens, o. cbn. destruct r as [|x [|y r]]; auto.
    + right. right. repeat split; auto. unfold uses_at, o. cbn. destruct r as [|x [|y r]]; auto.
    + reflexivity.
    + apply incl_refl.
  - constructor.
    + right. split; auto. intros n [[E F]|(m & E & _)]; [|discriminate]. injection E as <-. apply F. reflexivity.
    + right. right. repeat split; auto.
    + left. repeat split; auto.
    + reflexivity.
    + apply incl_refl.
  - constructor.
    + left. exists r. split; auto. intros n'. split; [|intros ->; left; auto].
      intros [[E F]|(m & E & _)]; [|discriminate]. injection E as <-. auto.
    + right. right. repeat split; auto. unfold opens, o. cbn. destruct r as [|x [|y r]]; auto.
    + right. right. repeat split; auto.
      * unfold makes_at. apply str_eqb_false. cbn. intros E. apply N. injection E as ->. reflexivity.
      * unfold uses_at, o. cbn. destruct r as [|x [|y r]]; auto.
    + reflexivity.
    + apply incl_refl.
  - constructor.
    + left. exists n. split; auto. intros n'. split; [|intros ->; right; exists r; auto].
      intros [[E F]|(m & E & ->)]; [discriminate|]. injection E as <-. reflexivity.
    + right. right. repeat split; auto. unfold opens, o. cbn. destruct r as [|x [|y r]]; auto.
    + right. right. repeat split; auto. unfold uses_at, o. cbn. destruct r as [|x [|y r]]; auto.
    + reflexivity.
    + apply incl_refl.
  - constructor.
    + right. split; auto. intros n [[E F]|(m & E & _)]; discriminate.
    + right. left. repeat split; auto. exists k. auto.
    + right. right. repeat split; auto.
    + reflexivity.
    + apply incl_refl.
  - eapply (pad_changes o p (chr "|") r v p1 (fun _ => v)); auto. vm_compute. auto.
  - eapply (pad_changes o p (chr "$") r v p1 (fun p1 => (p_addr p1 + v) mod 65536)); auto. vm_compute. auto.
  - apply dull_changes; [eapply kept_bytes; eauto|discriminate|reflexivity].
  - apply dull_changes; [eapply kept_bytes; eauto|discriminate|reflexivity].
  - apply dull_changes; [eapply kept_bytes; eauto| |apply runeless_dull; auto].
    intros E. change (lex = []) in E. subst. apply R2. reflexivity.
  - apply dull_changes; [eapply kept_byte; eauto| |apply runeless_dull; auto].
    intros E. change (lex = []) in E. subst. discriminate.
  - eapply ref_changes; eauto.
Qed.

(** ** The invariant of runs *)
Definition count (l : list occ) : Z := fold_right (fun o n => n + (if opens o then 1 else 0)) 0 l.
Record inv (p : prog) : Prop := mkInv {
  i_labels : forall n, match assoc (Label n) (p_labels p) with
    | Some a => exists l2 o l1, p_trace p = l2 ++ o :: l1 /\ defines o n /\ o_addr o = a /\ Forall (fun o => ~ defines o n) (l2 ++ l1)
    | None => Forall (fun o => ~ defines o n) (p_trace p)
    end;
  i_macros : p_macros p = macro_names (p_trace p);
  i_next : p_next p = count (p_trace p);
  i_lambdas : forall l2 o l1, p_trace p = l2 ++ o :: l1 -> opens o = true ->
    (exists j, nth_error (p_open p) j = Some (count l1) /\ balance opens closes l2 = Z.of_nat j /\ closed_inside opens closes l2) \/
    (exists l4 d l3, l2 = l4 ++ d :: l3 /\ closes d = true /\ balanced opens closes l3 /\
                     assoc (Lambda (count l1)) (p_labels p) = Some (o_addr d));
  i_ats : forall j a, nth_error (p_ats p) j = Some a ->
    exists l2 o l1, p_trace p = l2 ++ o :: l1 /\ makes_at o = true /\ o_addr o = a /\
      balance makes_at uses_at l2 = Z.of_nat j /\ closed_inside makes_at uses_at l2
}.

Lemma closed_inside_cons up down o l : closed_inside up down l -> 0 <= balance up down (o :: l) -> closed_inside up down (o :: l).
Proof.
  intros C B a b E. destruct a as [|x a]; cbn in E; [subst; auto|]. injection E as -> E. eapply C; eauto.
Qed.
Lemma closed_inside_nil up down : closed_inside up down [].
Proof. intros a b E. symmetry in E. apply app_eq_nil in E as [-> ->]. cbn. lia. Qed.

Lemma inv_step p d lex p' : inv p -> step p d lex = Some p' -> inv p'.
Proof.
  intros I S. pose proof (step_trace _ _ _ _ S) as T. unfold step in S. apply effect_changes in S.
  set (o := occ_at p d lex) in *. change (occ_at (with_occ p _) d lex) with o in S.
  destruct I as [IL IM IN IB IA]. destruct S as [CL CB CA CM CC]. cbn [with_occ p_labels p_next p_open p_ats p_macros] in *.
  constructor.
  - intros n. specialize (IL n). destruct CL as [(n0 & D & A & E)|[D E]].
    + rewrite E. destruct (str_dec n0 n) as [->|N].
      * cbn [assoc]. destruct (target_dec (Label n) (Label n)) as [_|]; [|congruence].
        rewrite A in IL. exists [], o, (p_trace p). repeat split; auto. apply D. auto.
      * rewrite assoc_cons_other by congruence.
        assert (ND : ~ defines o n) by (rewrite D; congruence).
        destruct (assoc (Label n) (p_labels p)).
        -- destruct IL as (l2 & d0 & l1 & E1 & E2 & E3 & E4). exists (o :: l2), d0, l1. rewrite T, E1. repeat split; auto. constructor; auto.
        -- rewrite T. constructor; auto.
    + rewrite E. destruct (assoc (Label n) (p_labels p)).
      * destruct IL as (l2 & d0 & l1 & E1 & E2 & E3 & E4). exists (o :: l2), d0, l1. rewrite T, E1. repeat split; auto. constructor; auto.
      * rewrite T. constructor; auto.
  - rewrite CM, T, IM. change (o :: p_trace p) with ([o] ++ p_trace p). unfold macro_names. rewrite flat_map_app. reflexivity.
  - rewrite T. cbn [count fold_right]. fold (count (p_trace p)). rewrite <- IN.
    destruct CB as [(-> & _ & _ & -> & _)|[(-> & _ & -> & _)|(-> & _ & _ & -> & _)]]; lia.
  - intros l2 x l1 E OX. rewrite T in E. destruct l2 as [|y l2]; cbn in E; injection E as <- E.
    + subst l1. left. exists 0%nat. destruct CB as [(_ & _ & -> & _)|[(B & _)|(B & _)]]; try congruence.
      cbn [nth_error]. rewrite IN. repeat split; auto. apply closed_inside_nil.
    + destruct (IB _ _ _ E OX) as [(j & J1 & J2 & J3)|(l4 & x' & l3 & F1 & F2 & F3 & F4)].
      * destruct CB as [(B1 & B2 & B3 & _)|[(B1 & B2 & B3 & k & B4 & B5 & B6)|(B1 & B2 & B3 & _)]].
        -- left. exists (S j). rewrite B3. cbn [nth_error]. repeat split; auto.
           ++ cbn [balance fold_right]. fold (balance opens closes l2). rewrite B1, B2. lia.
           ++ apply closed_inside_cons; auto. cbn [balance fold_right]. fold (balance opens closes l2). rewrite B1, B2. lia.
        -- destruct j as [|j].
           ++ right. exists [], o, l2. repeat split; auto. rewrite B4 in J1. injection J1 as ->. rewrite B6. cbn [assoc].
              destruct (target_dec _ _); [reflexivity|congruence].
           ++ left. exists j. rewrite B4 in J1. cbn [nth_error] in J1. repeat split; auto.
              ** cbn [balance fold_right]. fold (balance opens closes l2). rewrite B1, B2. lia.
              ** apply closed_inside_cons; auto. cbn [balance fold_right]. fold (balance opens closes l2). rewrite B1, B2. lia.
        -- left. exists j. rewrite B3. repeat split; auto.
           ++ cbn [balance fold_right]. fold (balance opens closes l2). rewrite B1, B2. lia.
           ++ apply closed_inside_cons; auto. cbn [balance fold_right]. fold (balance opens closes l2). rewrite B1, B2. lia.
      * right. exists (o :: l4), x', l3. rewrite F1. repeat split; auto; try apply F3.
        destruct CB as [(_ & _ & _ & _ & ->)|[(_ & _ & _ & k & B4 & B5 & B6)|(_ & _ & _ & _ & ->)]]; auto.
        rewrite B6, assoc_cons_other; auto. congruence.
  - intros j a J. destruct CA as [(B1 & B2 & B3)|[(B1 & B2 & a0 & B3)|(B1 & B2 & B3)]].
    + rewrite B3 in J. destruct j as [|j]; cbn [nth_error] in J.
      * injection J as <-. exists [], o, (p_trace p). repeat split; auto. apply closed_inside_nil.
      * destruct (IA _ _ J) as (l2 & x & l1 & E1 & E2 & E3 & E4 & E5). exists (o :: l2), x, l1. rewrite T, E1. repeat split; auto.
        -- cbn [balance fold_right]. fold (balance makes_at uses_at l2). rewrite B1, B2. lia.
        -- apply closed_inside_cons; auto. cbn [balance fold_right]. fold (balance makes_at uses_at l2). rewrite B1, B2. lia.
    + assert (J' : nth_error (p_ats p) (S j) = Some a) by (rewrite B3; exact J).
      destruct (IA _ _ J') as (l2 & x & l1 & E1 & E2 & E3 & E4 & E5). exists (o :: l2), x, l1. rewrite T, E1. repeat split; auto.
      * cbn [balance fold_right]. fold (balance makes_at uses_at l2). rewrite B1, B2. lia.
      * apply closed_inside_cons; auto. cbn [balance fold_right]. fold (balance makes_at uses_at l2). rewrite B1, B2. lia.
    + rewrite B3 in J. destruct (IA _ _ J) as (l2 & x & l1 & E1 & E2 & E3 & E4 & E5). exists (o :: l2), x, l1. rewrite T, E1. repeat split; auto.
      * cbn [balance fold_right]. fold (balance makes_at uses_at l2). rewrite B1, B2. lia.
      * apply closed_inside_cons; auto. cbn [balance fold_right]. fold (balance makes_at uses_at l2). rewrite B1, B2. lia.
Qed.
Lemma inv_empty : inv empty.
Proof.
  constructor; cbn; auto.
  - intros l2 o l1 E. symmetry in E. apply app_eq_nil in E as [_ E]. discriminate.
  - intros [|j] a E; discriminate.
Qed.
Lemma run_ind (P : prog -> Prop) : (forall p d lex p', P p -> step p d lex = Some p' -> P p') ->
  forall toks p q, P p -> run p toks = Some q -> P q.
Proof.
  intros H toks. induction toks as [|[d l] toks IH]; intros p q I R; cbn [run] in R; [congruence|].
  destruct (step p d l) as [p1|] eqn:S; [|discriminate]. cbn [bind] in R. exact (IH p1 q (H p d l p1 I S) R).
Qed.
Lemma run_inv toks p : run empty toks = Some p -> inv p.
Proof. apply (run_ind inv inv_step). apply inv_empty. Qed.
Lemma run_cells toks p q : run p toks = Some q -> incl (p_cells p) (p_cells q).
Proof.
  intros R. apply (run_ind (fun q => incl (p_cells p) (p_cells q))) with (toks := toks) (p := p); auto; [|apply incl_refl].
  intros p1 d lex p2 I S. unfold step in S. apply effect_changes in S. destruct S. cbn in *. eapply incl_tran; eauto.
Qed.

(** ** References *)
Lemma writes_fewer ms ms' lex opc m r : incl ms' ms -> writes ms lex opc m r -> writes ms' lex opc m r.
Proof. intros I W. destruct W; constructor; auto. Qed.
Lemma place_byte_range p v p' : place_byte p v = Some p' ->
  256 <= p_addr p <= 65535 /\ p_addr p' = (p_addr p + 1) mod 65536 /\ In (p_addr p, Byte v) (p_cells p').
Proof.
  unfold place_byte. destruct (_ && _) eqn:E; [|discriminate]. intros [= <-]. split; [lia|]. split; [reflexivity|]. left. reflexivity.
Qed.
Lemma place_ref_range p m t p' : place_ref p m t = Some p' ->
  256 <= p_addr p /\ p_addr p + width m <= 65536 /\
  forall i, 0 <= i < width m -> In (p_addr p + i, Part m t (p_addr p) i) (p_cells p').
Proof.
  unfold place_ref. destruct (_ && _) eqn:E; [|discriminate]. intros [= <-]. split; [lia|]. split; [lia|]. intros i I.
  destruct m; cbn [width] in *; cbn.
  - assert (i = 0) as -> by lia. rewrite Z.add_0_r. auto.
  - assert (i = 0) as -> by lia. rewrite Z.add_0_r. auto.
  - assert (i = 0 \/ i = 1) as [->| ->] by lia; rewrite ?Z.add_0_r; auto.
  - assert (i = 0 \/ i = 1) as [->| ->] by lia; rewrite ?Z.add_0_r; auto.
Qed.
Lemma refers_addr p r t p' : refers p r t p' -> p_addr p' = p_addr p.
Proof. intros []; reflexivity. Qed.

(** What the reference of the token [o] is to, in the program before it. *)
Inductive meaning (p : prog) (o : occ) (r : str) : target -> Prop :=
| m_lambda : r = bytes "{" -> meaning p o r (Lambda (p_next p))
| m_at a l : r = bytes "@" -> p_ats p = a :: l -> meaning p o r (At a)
| m_label : r <> bytes "{" -> r <> bytes "@" -> meaning p o r (Label (full_name (o_scope o) r)).

Lemma step_writes p o p' opc m r : o = occ_at p (o_depth o) (o_lex o) -> step p (o_depth o) (o_lex o) = Some p' ->
  writes (p_macros p) (o_lex o) opc m r ->
  let x := o_addr o + lead opc in
  exists t, meaning p o r t /\ 256 <= o_addr o /\ x + width m <= 65536 /\
    (forall i, 0 <= i < width m -> In (x + i, Part m t x i) (p_cells p')) /\
    (forall v, opc = Some v -> In (o_addr o, Byte v) (p_cells p')).
Proof.
  intros O S W x. unfold step in S.
  assert (AD : o_addr o = p_addr p) by (rewrite O; reflexivity). assert (SC : o_scope o = p_scope p) by (rewrite O; reflexivity).
  set (p0 := with_occ p (mkOcc (o_depth o) (p_scope p) (p_addr p) (o_lex o))) in *.
  destruct (effect_writes p0 (o_depth o) (o_lex o) opc m r p' W S) as (p1 & t & p2 & P & R & Q). subst p0. exists t.
  assert (B : 256 <= o_addr o /\ x = p_addr p2 /\ 
    (forall v, opc = Some v -> In (o_addr o, Byte v) (p_cells p'))).
  { pose proof (refers_addr _ _ _ _ R) as E2. pose proof (place_ref_range _ _ _ _ Q) as (Q1 & Q2 & _).
    assert (W1 : 1 <= width m) by (destruct m; cbn; lia).
    destruct opc as [v|]; cbn [lead] in x.
    - apply place_byte_range in P as (P1 & P2 & P3). cbn [with_occ p_addr] in *.
      assert (p_addr p < 65535).
      { destruct (Z.eq_dec (p_addr p) 65535) as [Z|Z]; [|lia]. rewrite Z in P2. cbn in P2. lia. }
      rewrite Z.mod_small in P2 by lia. split; [lia|]. split; [subst x; lia|]. intros v' [= <-]. rewrite AD.
      pose proof (kept_ref _ _ _ _ Q) as [_ _ _ _ _ _ K]. apply K. destruct R; cbn; auto.
    - subst p1. cbn [with_occ p_addr] in *. split; [lia|]. split; [subst x; lia|]. discriminate. }
  destruct B as (B1 & B2 & B3). apply place_ref_range in Q as (Q1 & Q2 & Q3). rewrite <- B2 in *.
  split; [|auto].
  assert (F : p_scope p1 = p_scope p /\ p_next p1 = p_next p /\ p_ats p1 = p_ats p).
  { destruct opc; [apply kept_byte in P; destruct P; auto|subst; auto]. }
  destruct F as (F1 & F2 & F3).
  destruct R as [E|a l E A|n N1 N2 L _ _].
  - rewrite F2. constructor; auto.
  - apply (m_at p o r a l); auto; congruence.
  - assert (n = full_name (o_scope o) r) as ->; [|constructor; auto].
    unfold full_name. destruct r as [|c s]; [destruct L|]. rewrite F1 in L. rewrite SC. destruct (_ || _); auto.
Qed.

Lemma encode_length m x l bs : encode m x l = Some bs -> Z.of_nat (List.length bs) = width m.
Proof. destruct m; cbn; try (intros [= <-]; reflexivity). destruct (_ && _); [intros [= <-]; reflexivity|discriminate]. Qed.

Definition placed_once (p : prog) (a : Z) : Prop := exists c, only_at p a c.
Lemma only_cell p a c c' : only_at p a c -> In (a, c') (p_cells p) -> c = c'.
Proof.
  unfold only_at. intros O I. assert (J : In (a, c') (filter (fun d => fst d =? a) (p_cells p))) by (apply filter_In; split; auto; apply Z.eqb_refl).
  rewrite O in J. destruct J as [J|[]]. congruence.
Qed.

(** The addresses from [a] on, last first. *)
Fixpoint down (a : Z) (k : nat) : list Z := match k with O => [] | S k' => a + Z.of_nat k' :: down a k' end.
Lemma down_app a k j : down a (j + k) = down (a + Z.of_nat k) j ++ down a k.
Proof. induction j as [|j IH]; cbn; auto. rewrite IH. f_equal. lia. Qed.
Lemma down_in a k x : In x (down a k) <-> a <= x < a + Z.of_nat k.
Proof. induction k as [|k IH]; cbn [down In]; [lia|]. rewrite IH. lia. Qed.
Lemma down_nodup a k : NoDup (down a k).
Proof. induction k as [|k IH]; cbn [down]; constructor; auto. rewrite down_in. lia. Qed.

Definition filled (p p' : prog) (k : Z) : Prop :=
  256 <= p_addr p /\ p_addr p + k <= 65536 /\
  exists new, p_cells p' = new ++ p_cells p /\ map fst new = down (p_addr p) (Z.to_nat k).
Lemma filled_app p q r j k : filled p q j -> filled q r k -> 0 <= j -> 0 < k -> p_addr q = (p_addr p + j) mod 65536 -> filled p r (j + k).
Proof.
  intros (A1 & A2 & n1 & A3 & A4) (B1 & B2 & n2 & B3 & B4) J K E.
  assert (p_addr p + j <> 65536) by (intros X; rewrite X in E; cbn in E; lia).
  rewrite Z.mod_small in E by lia. split; [lia|]. split; [lia|]. exists (n2 ++ n1). split; [rewrite B3, A3; apply app_assoc|].
  rewrite map_app, A4, B4, E. replace (Z.to_nat (j + k)) with (Z.to_nat k + Z.to_nat j)%nat by lia.
  rewrite down_app, Z2Nat.id by lia. reflexivity.
Qed.
Lemma filled_byte p v p' : place_byte p v = Some p' -> filled p p' 1 /\ p_addr p' = (p_addr p + 1) mod 65536.
Proof.
  unfold place_byte. destruct (_ && _) eqn:E; [|discriminate]. intros [= <-]. split; [|reflexivity]. split; [lia|]. split; [lia|].
  exists [(p_addr p, Byte v)]. split; auto. change (Z.to_nat 1) with 1%nat. cbn [down map fst]. change (Z.of_nat 0) with 0. rewrite Z.add_0_r. auto.
Qed.
Lemma filled_bytes l : forall p p', l <> [] -> place_bytes p l = Some p' -> filled p p' (len l).
Proof.
  induction l as [|v l IH]; intros p p' N H; [congruence|]. cbn [place_bytes] in H.
  destruct (place_byte p v) as [p1|] eqn:E; [|discriminate]. cbn [bind] in H. apply filled_byte in E as [E1 E2].
  destruct l as [|v' l].
  - injection H as <-. exact E1.
  - replace (len (v :: v' :: l)) with (1 + len (v' :: l)) by (unfold len; cbn [List.length]; lia).
    eapply filled_app; eauto; [apply IH; auto; discriminate|lia|unfold len; cbn [List.length]; lia].
Qed.
Lemma filled_ref p m t p' : place_ref p m t = Some p' -> filled p p' (width m).
Proof.
  unfold place_ref. destruct (_ && _) eqn:E; [|discriminate]. intros [= <-]. split; [lia|]. split; [lia|]. eexists. split; [reflexivity|].
  destruct m; cbn [width];
    (change (Z.to_nat 1) with 1%nat || change (Z.to_nat 2) with 2%nat); cbn [down map fst];
    change (Z.of_nat 0) with 0; rewrite Z.add_0_r; reflexivity.
Qed.

(** The cells that a token adds. *)
Lemma emits_first ms lex k : emits ms lex k ->
  has (hd 0 lex) (bytes ".-,_;=!?/{#""") = true \/
  (rune (hd 0 lex) = false /\ ~ (read_number lex = NotNumber /\ mnemonic lex = None /\ In lex ms)).
Proof.
  intros [? ? ? ? []|? ? ? ?|? ?|? ? ? N ?|? ? N ? ?]; try (left; reflexivity); right; split; auto.
  - tauto.
  - intros (X & _). unfold read_literal in *. rewrite X in *. discriminate.
  - intros (_ & X & _). congruence.
Qed.
Lemma emits_not ms lex k c : emits ms lex k -> hd 0 lex = c -> has c (bytes "([]~%@&}|$") = true -> False.
Proof.
  intros H <- C. apply emits_first in H. unfold has in C. apply existsb_exists in C as (x & I & E). apply Z.eqb_eq in E. rewrite E in *.
  clear E. vm_compute in I.
  repeat (destruct I as [<-|I]; [destruct H as [H|[H _]]; vm_compute in H; discriminate|]). destruct I.
Qed.
Lemma number_bytes_len r v n : read_literal r = Some (v, n) -> len (number_bytes (v, n)) = n /\ 1 <= n.
Proof.
  unfold read_literal. destruct (read_number r) as [| |v' n' h] eqn:R; try discriminate. destruct (_ || _); [|discriminate].
  intros [= <- <-].
  assert (n' = 1 \/ n' = 2) as [->| ->]; [|split; [reflexivity|lia]..].
  unfold read_number, decimal_number in R.
  repeat match type of R with
  | (if ?x then _ else _) = _ => destruct x
  | match ?x with _ => _ end = _ => destruct x
  end; try discriminate; injection R; auto; intros; subst; auto; destruct (_ <=? _); auto.
Qed.
Lemma len_cons {A} (x : A) l : Z.of_nat (List.length (x :: l)) = 1 + Z.of_nat (List.length l).
Proof. cbn [List.length]. lia. Qed.

Lemma step_filled p d lex p' : step p d lex = Some p' ->
  (exists k, 0 < k /\ emits (p_macros p) lex k /\ filled p p' k) \/ (p_cells p' = p_cells p /\ forall k, ~ emits (p_macros p) lex k).
Proof.
  intros H. unfold step in H. apply effect_kind in H. remember (with_occ p _) as p0 eqn:E0.
  assert (EM : p_macros p0 = p_macros p) by (subst; reflexivity). assert (EC : p_cells p0 = p_cells p) by (subst; reflexivity).
  assert (EA : p_addr p0 = p_addr p) by (subst; reflexivity).
  rewrite <- EM.
  assert (F : forall q k, filled p0 q k -> filled p q k) by (unfold filled; intros q k; rewrite EC, EA; auto).
  clear E0 EM EA.
  destruct H as [lex N H|r V M A| |r N V M A|r n L V M A|k l O A|r v p1 P|r v p1 P|r vn p' P Q|r p' N P|lex vn p' R1 R2 R3 P|lex v p' R1 R2 R3 P|lex opc m r p1 t p2 p' W P R S].
  - right. split; auto. intros k E. destruct H as [H|[H|[->|[[H _]|(R & R1 & R2 & R3 & _)]]]];
      try (eapply emits_not; [exact E|exact H|reflexivity]); [eapply emits_not; [exact E|reflexivity|reflexivity]|].
    apply emits_first in E as [E|[_ E]]; [|tauto].
    unfold has in E. apply existsb_exists in E as (x & I & E). apply Z.eqb_eq in E. rewrite E in *. clear E. vm_compute in I.
    repeat (destruct I as [<-|I]; [vm_compute in R; discriminate|]). destruct I.
  - right. split; auto. intros k E. eapply emits_not; [exact E|reflexivity|reflexivity].
  - right. split; auto. intros k E. eapply emits_not; [exact E|reflexivity|reflexivity].
  - right. split; auto. intros k E. eapply emits_not; [exact E|reflexivity|reflexivity].
  - right. split; auto. intros k E. eapply emits_not; [exact E|reflexivity|reflexivity].
  - right. split; auto. intros k' E. eapply emits_not; [exact E|reflexivity|reflexivity].
  - right. split; [|intros k E; eapply emits_not; [exact E|reflexivity|reflexivity]].
    apply padding_changes in P as [(_ & a & l & _ & _ & ->)|[_ ->]]; auto.
  - right. split; [|intros k E; eapply emits_not; [exact E|reflexivity|reflexivity]].
    apply padding_changes in P as [(_ & a & l & _ & _ & ->)|[_ ->]]; auto.
  - left. destruct vn as [v n]. destruct (number_bytes_len _ _ _ P) as [L1 L2].
    exists (1 + n). split; [lia|]. split; [econstructor; eauto|]. apply F. apply filled_bytes in Q; [|discriminate]. unfold len in *. rewrite len_cons, L1 in Q. exact Q.
  - left. destruct r as [|c r]; [congruence|]. exists (len (c :: r)). split; [unfold len; cbn [List.length]; lia|].
    split; [constructor|]. apply F. apply filled_bytes; auto.
  - left. destruct vn as [v n]. destruct (number_bytes_len _ _ _ R3) as [L1 L2].
    exists n. split; [lia|]. split; [eapply emits_number; eauto|]. apply F. rewrite <- L1. apply filled_bytes; auto. intros E. rewrite E in L1. change (len []) with 0 in L1. lia.
  - left. exists 1. split; [lia|]. split; [eapply emits_operation; eauto|]. apply F. apply filled_byte in P as [P _]. exact P.
  - left. exists (lead opc + width m). assert (0 < width m) by (destruct m; cbn; lia). split; [destruct opc; cbn [lead]; lia|].
    split; [econstructor; eauto|]. apply F. apply filled_ref in S.
    assert (C2 : p_cells p2 = p_cells p1 /\ p_addr p2 = p_addr p1) by (destruct R; auto).
    destruct C2 as [C2 A2]. unfold filled in S. rewrite C2, A2 in S. fold (filled p1 p' (width m)) in S.
    destruct opc; cbn [lead].
    + apply filled_byte in P as [P1 P2]. eapply filled_app; eauto; lia.
    + subst. exact S.
Qed.

Lemma writes_det ms lex opc m r opc' m' r' : writes ms lex opc m r -> writes ms lex opc' m' r' -> opc = opc' /\ m = m' /\ r = r'.
Proof.
  intros W W'. destruct W; inversion W'; subst; auto; try discriminate.
Qed.
Lemma emits_det ms lex k k' : emits ms lex k -> emits ms lex k' -> k = k'.
Proof.
  intros E E'.
  assert (L : forall lex v n, read_literal lex = Some (v, n) -> read_number lex <> NotNumber).
  { unfold read_literal. intros l v n H X. rewrite X in H. discriminate. }
  destruct E as [lex opc m r W|r v n H|c r|lex v n N H|lex v N H1 H2]; inversion E' as [lex' opc' m' r' W' X Y|r' v' n' H' X Y|c' r' X Y|lex' v' n' N' H' X Y|lex' v' N' H1' H2' X Y]; subst; try discriminate; auto; try congruence.
  - destruct (writes_det _ _ _ _ _ _ _ _ W W') as (-> & -> & _). auto.
  - inversion W; subst; discriminate.
  - inversion W; subst; discriminate.
  - exfalso. inversion W; subst; try discriminate. apply L in H'. contradiction.
  - exfalso. inversion W; subst; try discriminate. congruence.
  - inversion W'; subst; discriminate.
  - inversion W'; subst; discriminate.
  - exfalso. inversion W'; subst; try discriminate. apply L in H. contradiction.
  - exfalso. apply L in H. contradiction.
  - exfalso. inversion W'; subst; try discriminate. congruence.
  - exfalso. apply L in H'. contradiction.
Qed.

(** Every cell is from a token. *)
Lemma run_covered q : run empty (lexemes (p_trace q)) = Some q -> forall a c, In (a, c) (p_cells q) ->
  exists l2 o l1, p_trace q = l2 ++ o :: l1 /\ covers l1 o a.
Proof.
  intros R. cut (inv q /\ forall a c, In (a, c) (p_cells q) -> exists l2 o l1, p_trace q = l2 ++ o :: l1 /\ covers l1 o a); [tauto|].
  revert R. apply (run_ind (fun q => inv q /\ forall a c, In (a, c) (p_cells q) -> exists l2 o l1, p_trace q = l2 ++ o :: l1 /\ covers l1 o a)).
  - intros p d lex p' [I H] S. split; [exact (inv_step _ _ _ _ I S)|]. intros a c C.
    pose proof (step_trace _ _ _ _ S) as T.
    assert (OLD : In (a, c) (p_cells p) -> exists l2 o l1, p_trace p' = l2 ++ o :: l1 /\ covers l1 o a).
    { intros X. apply H in X as (l2 & o & l1 & E & CO). exists (occ_at p d lex :: l2), o, l1. rewrite T, E. auto. }
    destruct (step_filled _ _ _ _ S) as [(k & K & E & F1 & F2 & new & F3 & F4)|[E _]].
    + rewrite F3 in C. apply in_app_iff in C as [C|C]; auto. apply (in_map fst) in C. rewrite F4 in C. apply down_in in C. cbn [fst] in C.
      exists [], (occ_at p d lex), (p_trace p). rewrite T. split; auto. exists k. rewrite <- (i_macros _ I). split; auto. cbn [occ_at o_addr]. lia.
    + rewrite E in C. auto.
  - split; [apply inv_empty|]. intros a c [].
Qed.

Lemma filter_out {A} (f : A -> bool) l : (forall x, In x l -> f x = false) -> filter f l = [].
Proof. induction l as [|x l IH]; intros H; cbn; auto. rewrite (H x (or_introl eq_refl)). apply IH. intros y Y. apply H. right. auto. Qed.
Lemma filter_one (l : list (Z * cell)) a : NoDup (map fst l) -> In a (map fst l) -> exists c, filter (fun d => fst d =? a) l = [(a, c)].
Proof.
  induction l as [|[x c] l IH]; cbn [map fst In filter]; intros N I; [contradiction|]. inversion N as [|? ? N1 N2]; subst.
  destruct (Z.eqb_spec x a) as [->|NE].
  - exists c. rewrite filter_out; auto. intros [y d] Y. cbn. apply Z.eqb_neq. intros ->. apply N1. apply (in_map fst) in Y. exact Y.
  - apply IH; auto. destruct I; [congruence|auto].
Qed.

Lemma covered_only q : run empty (lexemes (p_trace q)) = Some q -> forall l2 o l1 a, p_trace q = l2 ++ o :: l1 -> covers l1 o a ->
  alone l2 o l1 a -> placed_once q a.
Proof.
  intros R.
  set (P := fun q => (forall a c, In (a, c) (p_cells q) -> exists l2 o l1, p_trace q = l2 ++ o :: l1 /\ covers l1 o a) /\
    forall l2 o l1 a, p_trace q = l2 ++ o :: l1 -> covers l1 o a -> alone l2 o l1 a -> placed_once q a).
  cut (inv q /\ P q); [unfold P; tauto|]. revert R.
  apply (run_ind (fun q => inv q /\ P q)).
  - intros p d lex p' (I & A & B) S. pose proof (step_trace _ _ _ _ S) as T.
    split; [exact (inv_step _ _ _ _ I S)|]. split.
    + intros a c C.
      assert (OLD : In (a, c) (p_cells p) -> exists l2 o l1, p_trace p' = l2 ++ o :: l1 /\ covers l1 o a).
      { intros X. apply A in X as (l2 & o & l1 & E & CO). exists (occ_at p d lex :: l2), o, l1. rewrite T, E. auto. }
      destruct (step_filled _ _ _ _ S) as [(k & K & E & F1 & F2 & new & F3 & F4)|[E _]].
      * rewrite F3 in C. apply in_app_iff in C as [C|C]; auto. apply (in_map fst) in C. rewrite F4 in C. apply down_in in C. cbn [fst] in C.
        exists [], (occ_at p d lex), (p_trace p). rewrite T. split; auto. exists k. rewrite <- (i_macros _ I). split; auto. cbn [occ_at o_addr]. lia.
      * rewrite E in C. auto.
    + intros l2 o l1 a E CO AL. rewrite T in E. unfold placed_once, only_at. destruct l2 as [|o' l2]; cbn [app] in E; injection E as E1 E2.
      * subst o l1. assert (NO : filter (fun d => fst d =? a) (p_cells p) = []).
        { apply filter_out. intros [x c] X. cbn. apply Z.eqb_neq. intros ->. apply A in X as (l4 & d' & l3 & X1 & X2).
          specialize (AL (occ_at p d lex :: l4) d' l3). rewrite X1 in AL. specialize (AL eq_refl X2). discriminate. }
        destruct CO as (k & CO1 & CO2). rewrite <- (i_macros _ I) in CO1. cbn [occ_at o_lex o_addr] in *.
        destruct (step_filled _ _ _ _ S) as [(k' & K & E & F1 & F2 & new & F3 & F4)|[_ E]]; [|destruct (E _ CO1)].
        rewrite (emits_det _ _ _ _ CO1 E) in *. rewrite F3, filter_app, NO, app_nil_r. apply filter_one.
        -- rewrite F4. apply down_nodup.
        -- rewrite F4. apply down_in. lia.
      * subst o'. destruct (B l2 o l1 a E2 CO) as [c O].
        { intros l4 d' l3 X1 X2. specialize (AL (occ_at p d lex :: l4) d' l3). cbn [app] in AL. rewrite X1 in AL.
          specialize (AL eq_refl X2). injection AL as ->. auto. }
        exists c. unfold only_at in O.
        destruct (step_filled _ _ _ _ S) as [(k' & K & E & F1 & F2 & new & F3 & F4)|[E _]]; [|rewrite E; exact O].
        rewrite F3, filter_app, O, filter_out; auto. intros [x c'] X. cbn. apply Z.eqb_neq. intros ->. apply (in_map fst) in X.
        rewrite F4 in X. apply down_in in X. cbn [fst] in X.
        assert (Y : [] = occ_at p d lex :: l2); [|discriminate]. apply (AL [] (occ_at p d lex) (p_trace p)); [cbn; congruence|].
        exists k'. rewrite <- (i_macros _ I). split; auto. cbn [occ_at o_addr]. lia.
  - split; [apply inv_empty|]. split; [intros a c []|]. intros l2 o l1 a E. symmetry in E. apply app_eq_nil in E as [_ E]. discriminate.
Qed.

(** The bytes of a reference in a complete program. *)
Lemma reference_cells q l2 o l1 opc m r : run empty (lexemes (p_trace q)) = Some q -> complete q ->
  p_trace q = l2 ++ o :: l1 -> writes (macro_names l1) (o_lex o) opc m r ->
  let x := o_addr o + lead opc in
  exists p t l bs, inv p /\ p_trace p = l1 /\ meaning p o r t /\ address q t = Some l /\ encode m x l = Some bs /\
    256 <= o_addr o /\ x + width m <= 65536 /\
    (forall i b, nth_error bs i = Some b -> exists c, In (x + Z.of_nat i, c) (p_cells q) /\ cell_byte q c = Some b) /\
    (forall v, opc = Some v -> In (o_addr o, Byte v) (p_cells q)).
Proof.
  intros R C T W x. destruct (run_split _ _ _ _ R T) as (p1 & p2 & R1 & T1 & O & S & T2 & R2).
  pose proof (run_inv _ _ R1) as I1.
  assert (W1 : writes (p_macros p1) (o_lex o) opc m r).
  { rewrite (i_macros _ I1), T1. exact W. }
  destruct (step_writes _ _ _ _ _ _ O S W1) as (t & M & B1 & B2 & B3 & B4). fold x in B2, B3.
  pose proof (run_cells _ _ _ R2) as K. destruct C as [_ C].
  assert (G0 : cell_byte q (Part m t x 0) <> None).
  { apply (C (x + 0)), K, B3. destruct m; cbn; lia. }
  cbn [cell_byte] in G0. destruct (address q t) as [l|] eqn:A; [|congruence]. destruct (encode m x l) as [bs|] eqn:E; [|congruence].
  exists p1, t, l, bs. repeat (split; auto).
  intros i b N. exists (Part m t x (Z.of_nat i)). split.
  - apply K, B3. assert (i < List.length bs)%nat by (apply nth_error_Some; congruence). rewrite <- (encode_length _ _ _ _ E). lia.
  - cbn [cell_byte]. rewrite A, E, Nat2Z.id. auto.
Qed.

(** ** Tokens that are not references *)
Lemma value_app base s c : value base (s ++ [c]) = value base s * base + digit c.
Proof. unfold value. rewrite fold_left_app. reflexivity. Qed.
Lemma value_bound s : forallb hexadecimal s = true -> 0 <= value 16 s < 16 ^ len s.
Proof.
  induction s as [|c s IH] using rev_ind; intros H; [cbn; lia|]. rewrite forallb_app in H. apply andb_true_iff in H as [H1 H2].
  cbn in H2. rewrite andb_true_r in H2. rewrite value_app. specialize (IH H1).
  assert (0 <= digit c < 16) by (unfold digit, hexadecimal, decimal in *; destruct (_ && _) eqn:E; lia).
  replace (len (s ++ [c])) with (len s + 1) by (unfold len; rewrite app_length; cbn [List.length]; lia).
  rewrite Z.pow_add_r by (unfold len; lia). change (16 ^ 1) with 16. nia.
Qed.
Lemma read_literal_range s v n : read_literal s = Some (v, n) -> (n = 1 /\ 0 <= v <= 255) \/ (n = 2 /\ 0 <= v <= 65535).
Proof.
  assert (D : forall t limit k v n h, decimal_number t limit k = Number v n h -> n = k /\ 0 <= v <= limit).
  { unfold decimal_number. intros t limit k v0 n0 h. destruct (forallb decimal t) eqn:F; [|discriminate].
    destruct (Z.leb_spec (value 10 t) limit); [|discriminate]. intros [= <- <- _]. split; auto. split; auto. clear -F. unfold value.
    assert (G : forall a, 0 <= a -> 0 <= fold_left (fun v c => v * 10 + digit c) t a); [|apply G; lia].
    induction t as [|c t IH]; intros a A; cbn [fold_left]; auto. cbn in F. apply andb_true_iff in F as [F1 F2]. apply IH; auto.
    assert (0 <= digit c) by (unfold digit, decimal in *; destruct (_ && _) eqn:E; lia). lia. }
  assert (HX : forall t v n h, (if forallb hexadecimal t then
        if len t <=? 4 then Number (value 16 t) (if len t <=? 2 then 1 else 2) (len t) else BadNumber
      else NotNumber) = Number v n h -> (n = 1 /\ 0 <= v <= 255) \/ (n = 2 /\ 0 <= v <= 65535)).
  { intros t v0 n0 h. destruct (forallb hexadecimal t) eqn:F; [|discriminate]. apply value_bound in F.
    destruct (Z.leb_spec (len t) 4) as [L|]; [|discriminate]. intros [= <- <- _].
    assert (0 <= len t) by (unfold len; lia).
    destruct (Z.leb_spec (len t) 2) as [L2|L2]; [left|right]; split; auto.
    - assert (16 ^ len t <= 16 ^ 2) by (apply Z.pow_le_mono_r; lia). change (16 ^ 2) with 256 in *. lia.
    - assert (16 ^ len t <= 16 ^ 4) by (apply Z.pow_le_mono_r; lia). change (16 ^ 4) with 65536 in *. lia. }
  unfold read_literal. destruct (read_number s) as [| |v' n' h] eqn:R; try discriminate. destruct (_ || _); [|discriminate].
  intros [= <- <-]. unfold read_number in R.
  destruct s as [|c s]; [discriminate|].
  assert (PL : c = 43 \/ c <> 43) by lia. destruct PL as [->|N].
  - destruct s as [|c s]; [apply D in R; lia|]. assert (PL : c = 43 \/ c <> 43) by lia. destruct PL as [->|N].
    + apply D in R. lia.
    + assert (R' : decimal_number (c :: s) 255 1 = Number v' n' h).
      { clear -R N. destruct c as [|q|q]; auto.
        do 6 (destruct q as [q|q|]; auto); congruence. }
      apply D in R'. lia.
  - apply (HX (c :: s) v' n' h). clear -R N. destruct c as [|q|q]; auto.
    do 6 (destruct q as [q|q|]; auto); congruence.
Qed.

Lemma place_bytes_cells l : forall p p', place_bytes p l = Some p' -> forall i b, nth_error l i = Some b ->
  In (p_addr p + Z.of_nat i, Byte b) (p_cells p').
Proof.
  induction l as [|v l IH]; intros p p' H i b N; [destruct i; discriminate|]. cbn [place_bytes] in H.
  destruct (place_byte p v) as [p1|] eqn:E; [|discriminate]. cbn [bind] in H. apply place_byte_range in E as (E1 & E2 & E3).
  destruct i as [|i]; cbn [nth_error] in N.
  - injection N as ->. rewrite Z.add_0_r. apply (k_cells _ _ (kept_bytes _ _ _ H)). auto.
  - pose proof (IH _ _ H _ _ N) as X.
    assert (p_addr p <> 65535).
    { intros Y. rewrite Y in E2. change ((65535 + 1) mod 65536) with 0 in E2. destruct l as [|w l]; [destruct i; discriminate|].
      cbn [place_bytes] in H. unfold place_byte in H. rewrite E2 in H. discriminate. }
    rewrite Z.mod_small in E2 by lia. rewrite E2 in X. replace (p_addr p + Z.of_nat (S i)) with (p_addr p + 1 + Z.of_nat i) by lia. auto.
Qed.

Lemma step_spells p d lex p' bs : step p d lex = Some p' -> spells lex bs ->
  exists p0, p_addr p0 = p_addr p /\ place_bytes p0 bs = Some p'.
Proof.
  intros H W. unfold step in H. set (p0 := with_occ p _) in *. exists p0. split; [reflexivity|].
  assert (NR : forall c, rune c = false -> forall x, rune x = true -> (c =? x) = false).
  { intros c N x X. destruct (Z.eqb_spec c x); auto. subst. congruence. }
  assert (NL : forall l v n, read_literal l = Some (v, n) -> exists a b c, read_number l = Number a b c).
  { unfold read_literal. intros l v n E. destruct (read_number l); try discriminate. eauto. }
  destruct W as [r v L|r v L|c r|lex v N L|lex v N L|lex v N L M].
  - change (bind (read_literal r) (fun vn => place_bytes p0 ((if snd vn =? 1 then 128 else 160) :: number_bytes vn)) = Some p') in H.
    pose proof (read_literal_range _ _ _ L). rewrite L in H. cbn [bind snd] in H. unfold number_bytes in H. cbn [Z.eqb Pos.eqb] in H.
    rewrite Z.mod_small in H by lia. exact H.
  - change (bind (read_literal r) (fun vn => place_bytes p0 ((if snd vn =? 1 then 128 else 160) :: number_bytes vn)) = Some p') in H.
    rewrite L in H. exact H.
  - exact H.
  - destruct lex as [|c lex]; [discriminate|]. unfold effect in H. rewrite !(NR _ N) in H by reflexivity.
    destruct (NL _ _ _ L) as (v1 & v2 & v3 & E). rewrite E, L in H. pose proof (read_literal_range _ _ _ L).
    cbn [bind] in H. unfold number_bytes in H. cbn [Z.eqb Pos.eqb] in H. rewrite Z.mod_small in H by lia. exact H.
  - destruct lex as [|c lex]; [discriminate|]. unfold effect in H. rewrite !(NR _ N) in H by reflexivity.
    destruct (NL _ _ _ L) as (v1 & v2 & v3 & E). rewrite E, L in H. exact H.
  - destruct lex as [|c lex]; [discriminate|]. unfold effect in H. rewrite !(NR _ N) in H by reflexivity.
    rewrite L, M in H. cbn [place_bytes]. rewrite H. reflexivity.
Qed.

Lemma spells_emits ms lex bs : spells lex bs -> emits ms lex (Z.of_nat (List.length bs)).
Proof.
  intros [r v L|r v L|c r|lx v N L|lx v N L|lx v N L M]; cbn [List.length].
  - exact (emits_literal ms r v 1 L).
  - exact (emits_literal ms r v 2 L).
  - exact (emits_text ms c r).
  - exact (emits_number ms lx v 1 N L).
  - exact (emits_number ms lx v 2 N L).
  - exact (emits_operation ms lx v N L M).
Qed.

(** ** In the ROM *)
Lemma success_spells fs file evs l2 o l1 bs i b : assembles fs file true evs -> trace evs = l2 ++ o :: l1 -> spells (o_lex o) bs ->
  nth_error bs i = Some b -> alone l2 o l1 (o_addr o + Z.of_nat i) -> rom evs (o_addr o + Z.of_nat i) = Some b.
Proof.
  intros A T S N AL. destruct (assembles_program _ _ _ A) as (q & R & TR & C & ROM & _). rewrite <- TR in *.
  destruct (run_split _ _ _ _ R T) as (p1 & p2 & R1 & T1 & O & ST & T2 & R2).
  destruct (step_spells _ _ _ _ _ ST S) as (p0 & P1 & P2).
  pose proof (place_bytes_cells _ _ _ P2 _ _ N) as X. rewrite P1 in X.
  assert (AD : o_addr o = p_addr p1) by (rewrite O; reflexivity). rewrite <- AD in X. apply (run_cells _ _ _ R2) in X.
  destruct (covered_only _ R l2 o l1 (o_addr o + Z.of_nat i) T) as [c OC]; auto.
  - exists (Z.of_nat (List.length bs)). split; [apply spells_emits; auto|].
    assert (i < List.length bs)%nat by (apply nth_error_Some; congruence). lia.
  - rewrite (ROM _ _ OC), (only_cell _ _ _ _ OC X). reflexivity.
Qed.

Lemma success_reference fs file evs l2 o l1 opc m r : assembles fs file true evs -> trace evs = l2 ++ o :: l1 ->
  writes (macro_names l1) (o_lex o) opc m r ->
  exists q p t l, inv q /\ p_open q = [] /\ p_trace q = trace evs /\ inv p /\ p_trace p = l1 /\ meaning p o r t /\ address q t = Some l /\
    refers_to evs l2 o l1 opc m l.
Proof.
  intros A T W. destruct (assembles_program _ _ _ A) as (q & R & TR & C & ROM & _).
  assert (Rq : run empty (lexemes (p_trace q)) = Some q) by congruence. assert (Tq : p_trace q = l2 ++ o :: l1) by congruence.
  destruct (reference_cells _ _ _ _ _ _ _ Rq C Tq W) as (p & t & l & bs & I & TP & M & AD & E & B1 & B2 & B3 & B4).
  exists q, p, t, l. pose proof (run_inv _ _ Rq). destruct C as [C _]. do 7 (split; [assumption|]).
  pose proof (emits_reference _ _ _ _ _ W) as EM. pose proof (encode_length _ _ _ _ E) as EL.
  assert (L01 : 0 <= lead opc <= 1) by (destruct opc; cbn; lia). assert (WM : 1 <= width m) by (destruct m; cbn; lia).
  split; [auto|]. split; [auto|]. split.
  - intros v V AL. destruct (covered_only _ Rq l2 o l1 (o_addr o) Tq) as [c OC]; auto.
    + exists (lead opc + width m). split; auto. lia.
    + rewrite (ROM _ _ OC), (only_cell _ _ _ _ OC (B4 _ V)). reflexivity.
  - exists bs. split; [auto|]. intros i b N AL.
    assert (i < List.length bs)%nat by (apply nth_error_Some; congruence).
    destruct (covered_only _ Rq l2 o l1 (o_addr o + lead opc + Z.of_nat i) Tq) as [c OC]; auto.
    + exists (lead opc + width m). split; auto. lia.
    + destruct (B3 _ _ N) as (c' & C1 & C2). rewrite (ROM _ _ OC), (only_cell _ _ _ _ OC C1). auto.
Qed.
