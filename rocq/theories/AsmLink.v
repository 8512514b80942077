(** The assembler against AsmSpec: definitions, and the functions that do not
    touch the program. *)
From Verif Require Import Base AsmModel AsmSpec AsmWords.
From Coq Require Import ZifyBool Ascii String.
Open Scope list_scope.
Ltac Zify.zify_post_hook ::= Z.div_mod_to_equations.

(** ** The log, newest event first *)
Definition mem (b : basm) : Z -> option Z := rom (rev (b_out b)).
Definition tr (b : basm) : list occ * Z := fold_left trace_step (rev (b_out b)) ([], -1).
Lemma mem_log b e : mem (log b e) = rom_step (mem b) e.
Proof. unfold mem, rom. cbn. rewrite fold_left_app. reflexivity. Qed.
Lemma tr_log b e : tr (log b e) = trace_step (tr b) e.
Proof. unfold tr. cbn. rewrite fold_left_app. reflexivity. Qed.

(** ** What AsmSpec does not see *)
Record same (b b' : basm) : Prop := mkSame {
  e_addr : b_addr b' = b_addr b;
  e_depth : b_depth b' = b_depth b;
  e_scope : b_scope b' = b_scope b;
  e_symtab : b_symtab b' = b_symtab b;
  e_lambdas : b_lambdas b' = b_lambdas b;
  e_ats : b_ats b' = b_ats b;
  e_tr : tr b' = tr b;
  e_mem : forall a, mem b' a = mem b a
}.
Lemma same_refl b : same b b.
Proof. constructor; auto. Qed.
Lemma same_trans a b c : same a b -> same b c -> same a c.
Proof. intros [] []. constructor; congruence. Qed.

Definition silent (e : event) : Prop := match e with ESym _ _ | EReport _ _ _ | EOverrun => True | _ => False end.
Lemma same_log b e : silent e -> same b (log b e).
Proof.
  intros S. constructor; auto.
  - rewrite tr_log. destruct e; try contradiction; destruct (tr b); reflexivity.
  - intros a. rewrite mem_log. destruct e; try contradiction; reflexivity.
Qed.
Lemma same_set b b' :
  b_addr b' = b_addr b -> b_depth b' = b_depth b -> b_scope b' = b_scope b -> b_symtab b' = b_symtab b ->
  b_lambdas b' = b_lambdas b -> b_ats b' = b_ats b -> b_out b' = b_out b -> same b b'.
Proof. intros. constructor; auto; unfold tr, mem; intros; f_equal; congruence. Qed.
Lemma same_put_symbol b a s : same b (put_symbol b a s).
Proof. apply same_log. exact I. Qed.
Lemma same_put_symbol2 b a s : same b (put_symbol2 b a s).
Proof. eapply same_trans; apply same_put_symbol. Qed.
Lemma same_error_ex b m r : same b (error_ex b m r).
Proof. eapply same_trans; [|apply same_log; exact I]. apply same_set; auto. Qed.
Lemma same_error b t m : same b (snd (error b t m)).
Proof. apply same_error_ex. Qed.
Lemma same_warning b t m : same b (warning b t m).
Proof. apply same_log. exact I. Qed.
Lemma same_buf b c : same b (set_buf b c).
Proof. apply same_set; auto. Qed.
Lemma same_fault b c : same b (set_fault b c).
Proof. apply same_set; auto. Qed.
#[export] Hint Resolve same_refl same_put_symbol same_put_symbol2 same_error_ex same_error same_warning same_buf same_fault : same.

(** ** Reading *)
Definition tokb (t : token) : Prop := Forall is_byte (t_lex t).
Definition unitb (u : unit_) : Prop :=
  match u with UFile _ _ _ => True | UMacro rest arg => Forall tokb rest /\ match arg with Some a => tokb a | None => True end end.
Ltac sp := match goal with |- _ /\ _ => split; [sp|sp] | |- same _ _ => idtac | |- tokb _ => idtac | |- unitb _ => try exact I | |- True => exact I | |- _ => try (progress hnf; sp) end.
Definition readb (b : basm) (r : scan) : Prop :=
  let '(o, b', u') := r in same b b' /\ unitb u' /\ match o with Some t => tokb t | None => True end.

Lemma u8_is_byte x : is_byte (u8 x).
Proof. unfold is_byte, u8. lia. Qed.
Lemma same_peek b path inp c b' inp' : peek_char b path inp = (c, b', inp') -> same b b'.
Proof.
  unfold peek_char. destruct (b_buf b); [intros [= <- <- <-]; auto with same|].
  destruct inp as [|x r]; cbv zeta; [|destruct (x =? IO_ERROR)]; intros [= <- <- <-]; auto with same.
  eapply same_trans; [apply same_buf|apply same_error_ex].
Qed.
Lemma same_get b path inp p c b' inp' p' : get_char b path inp p = (c, b', inp', p') -> same b b'.
Proof.
  unfold get_char. destruct (peek_char b path inp) as [[ch b1] inp1] eqn:P. apply same_peek in P.
  assert (S1 : same b (consume_char b1)) by (eapply same_trans; [eassumption|apply same_buf]).
  destruct (_ || _); [intros [= <- <- <- <-]; auto|]. destruct (ch =? 10); [intros [= <- <- <- <-]; auto|].
  destruct (ch =? 13); [|intros [= <- <- <- <-]; auto].
  destruct (peek_char (consume_char b1) path inp1) as [[ch2 b2] inp2] eqn:P2. apply same_peek in P2.
  intros [= <- <- <- <-]. eapply same_trans; [exact S1|]. eapply same_trans; [exact P2|].
  destruct (ch2 =? 10); auto with same. apply same_buf.
Qed.

Lemma readb_regular fuel : forall b path inp p start fin ch buf, Forall is_byte buf ->
  readb b (scan_regular fuel b path inp p start fin ch buf).
Proof.
  induction fuel as [|fuel IH]; intros b path inp p start fin ch buf F; cbn [scan_regular].
  { sp; auto with same. }
  destruct (len buf <? MAX_TOKEN_LEN); [|sp; auto with same].
  cbv zeta. destruct (get_char b path inp p) as [[[c b1] inp1] p1] eqn:G. apply same_get in G.
  assert (F' : Forall is_byte (u8 ch :: buf)) by (constructor; auto using u8_is_byte).
  destruct (c =? IO_ERROR); [sp; auto|]. destruct ((c =? IO_EOF) || is_sep c).
  - sp; auto. unfold tokb. cbn [t_lex]. apply Forall_rev. auto.
  - specialize (IH b1 path inp1 p1 start p c (u8 ch :: buf) F').
    destruct (scan_regular fuel b1 path inp1 p1 start p c (u8 ch :: buf)) as [[o b2] u2]. destruct IH as (S & U & T).
    sp; auto. eapply same_trans; eauto.
Qed.
Lemma readb_long fuel : forall b path inp p start buf, Forall is_byte buf ->
  readb b (scan_long_loop fuel b path inp p start buf).
Proof.
  induction fuel as [|fuel IH]; intros b path inp p start buf F; cbn [scan_long_loop].
  { sp; auto with same. }
  destruct (get_char b path inp p) as [[[c b1] inp1] p1] eqn:G. apply same_get in G.
  destruct (c =? IO_ERROR); [sp; auto|].
  destruct (c =? IO_EOF); [sp; auto; eapply same_trans; [exact G|auto with same]|].
  destruct (c =? 34).
  { sp; auto. unfold tokb. cbn [t_lex]. apply Forall_rev. auto. }
  destruct (len buf <? _); [|sp; auto; eapply same_trans; [exact G|auto with same]].
  specialize (IH b1 path inp1 p1 start (u8 c :: buf) ltac:(constructor; auto using u8_is_byte)).
  destruct (scan_long_loop fuel b1 path inp1 p1 start (u8 c :: buf)) as [[o b2] u2]. destruct IH as (S & U & T).
  sp; auto. eapply same_trans; eauto.
Qed.
Lemma readb_from b b1 r : same b b1 -> readb b1 r -> readb b r.
Proof. destruct r as [[o b2] u2]. intros S (S2 & U & T). sp; auto. eapply same_trans; eauto. Qed.
Lemma readb_file fuel : forall b path inp p, readb b (next_in_file fuel b path inp p).
Proof.
  induction fuel as [|fuel IH]; intros b path inp p; cbn [next_in_file].
  { sp; auto with same. }
  destruct (get_char b path inp p) as [[[c b1] inp1] p1] eqn:G. apply same_get in G.
  apply (readb_from b b1); auto.
  destruct (_ || _); [sp; auto with same|]. destruct (is_sep c); [apply IH|].
  destruct (c =? 34); [|apply readb_regular; auto].
  destruct (peek_char b1 path inp1) as [[c2 b2] inp2] eqn:P. apply same_peek in P. apply (readb_from b1 b2); auto.
  destruct (c2 =? 32); [|apply readb_regular; auto].
  unfold scan_long_string. destruct (get_char b2 path inp2 p1) as [[[c3 b3] inp3] p3] eqn:G3. apply same_get in G3.
  apply (readb_from b2 b3); auto. apply readb_long. repeat constructor; unfold is_byte; lia.
Qed.
Lemma expand_bytes t : forall arg buf e r, Forall is_byte t -> Forall is_byte arg -> Forall is_byte buf ->
  expand t arg buf e = Some r -> Forall is_byte (fst r).
Proof.
  induction t as [|c t IH]; intros arg buf e r T A B; cbn [expand]; [intros [= <-]; auto|].
  inversion T as [|? ? T1 T2]; subst.
  destruct (c =? 94); destruct (_ <? _); try discriminate; apply IH; auto; apply Forall_app; auto.
Qed.
Lemma readb_next b u : unitb u -> readb b (next_token b u).
Proof.
  destruct u as [path inp p|rest arg]; intros U; [apply readb_file|]. cbn [next_token]. unfold next_in_macro.
  destruct U as [U1 U2]. destruct rest as [|t rest]; [split; [auto with same|split; [split; auto|exact I]]|].
  inversion U1 as [|? ? T U3]; subst. destruct arg as [a|]; [|split; [auto with same|split; [split; auto|exact T]]].
  destruct (expand (t_lex t) (t_lex a) [] false) as [[buf e]|] eqn:E; [|split; [auto with same|split; [split; auto|exact I]]].
  apply expand_bytes in E; auto. cbv zeta. match goal with |- context [?x <? len buf] => destruct (x <? len buf) end; (split; [auto with same|split; [split; auto|]]); auto. destruct e; auto.
Qed.

Definition walkb (b : basm) (r : bool * basm * unit_) : Prop := let '(ok, b', u') := r in same b b' /\ unitb u'.
Lemma walkb_from b b1 r : same b b1 -> walkb b1 r -> walkb b r.
Proof. destruct r as [[o b2] u2]. intros S (S2 & U). split; auto. eapply same_trans; eauto. Qed.
Lemma comment_same fuel : forall b u d, unitb u -> walkb b (comment_loop fuel b u d).
Proof.
  induction fuel as [|fuel IH]; intros b u d U; cbn [comment_loop]; [split; auto with same|].
  destruct (d <=? 0); [split; auto with same|].
  pose proof (readb_next b u U) as R. destruct (next_token b u) as [[o b1] u1]. destruct R as (S & U1 & T).
  destruct o as [t|]; [|split; auto]. destruct (t_lex t) eqn:E; [split; auto; eapply same_trans; eauto with same|].
  cbv zeta. rewrite <- E. eapply walkb_from; [|apply IH; auto]. eapply same_trans; [exact S|apply same_put_symbol].
Qed.
Lemma process_comment_same b t u : unitb u -> walkb b (process_comment b t u).
Proof.
  intros U. unfold process_comment. cbv zeta.
  match goal with |- context [comment_loop _ ?x _ _] => set (b0 := x); apply (walkb_from b b0); [apply same_put_symbol|] end. pose proof (comment_same (unit_fuel u) b0 u 1 U) as C.
  destruct (comment_loop (unit_fuel u) b0 u 1) as [[c b1] u1]. destruct C as [S U1].
  destruct c; split; auto. eapply same_trans; [exact S|auto with same].
Qed.
Lemma macro_open_same fuel : forall b t u, unitb u -> walkb b (macro_open fuel b t u).
Proof.
  induction fuel as [|fuel IH]; intros b t u U; cbn [macro_open]; [split; auto with same|].
  pose proof (readb_next b u U) as R. destruct (next_token b u) as [[o b1] u1]. destruct R as (S & U1 & T).
  apply (walkb_from b b1); auto.
  destruct o as [k|]; [|split; auto with same]. cbv zeta.
  assert (M : walkb b1 (macro_open fuel (process_mark b1 k) t u1)) by (apply (walkb_from b1 (process_mark b1 k)); [apply same_put_symbol|apply IH; auto]).
  destruct (_ =? 40).
  { pose proof (process_comment_same b1 k u1 U1) as C. destruct (process_comment b1 k u1) as [[ok b2] u2]. destruct C as [S2 U2].
    destruct ok; [|split; auto]. eapply walkb_from; [exact S2|apply IH; auto]. }
  destruct (_ =? 91); [exact M|]. destruct (_ =? 93); [destruct (_ =? 1); [exact M|split; auto with same]|].
  destruct (_ =? 123); [destruct (_ =? 1)|]; split; auto with same.
Qed.
Lemma macro_body_same fuel : forall b t u d toks, unitb u -> Forall tokb toks ->
  let '(o, b', u') := macro_body fuel b t u d toks in
  same b b' /\ unitb u' /\ match o with Some l => Forall tokb l | None => True end.
Proof.
  induction fuel as [|fuel IH]; intros b t u d toks U F; cbn [macro_body]; [sp; auto with same|].
  destruct (d <=? 0); [sp; auto with same; apply Forall_rev; auto|].
  pose proof (readb_next b u U) as R. destruct (next_token b u) as [[o b1] u1]. destruct R as (S & U1 & T).
  destruct o as [k|]; [|sp; auto; eapply same_trans; eauto with same].
  destruct (t_lex k) as [|c r] eqn:E; [sp; auto; eapply same_trans; eauto with same|].
  destruct (c =? 37); [sp; auto; eapply same_trans; eauto with same|]. cbv zeta.
  match goal with |- context [macro_body fuel b1 t u1 ?d' ?l] => specialize (IH b1 t u1 d' l U1) end.
  match goal with |- context [macro_body fuel b1 t u1 ?d' ?l] => destruct (macro_body fuel b1 t u1 d' l) as [[o b2] u2] end.
  destruct IH as (S2 & U2 & T2); [destruct (0 <? _); auto|]. sp; auto. eapply same_trans; eauto.
Qed.
