(** Properties C45, C46 and C57: the assembler always ends, what comments are,
    and which texts without macros and includes it accepts. *)
From Verif Require Import Base AsmModel AsmSound AsmScan AsmRun AsmSpec AsmWords AsmSim AsmProg AsmText AsmAccept AsmFlat AsmFacts Props_Asm.
From Coq Require Import ZifyBool Ascii String.
Open Scope list_scope.
Ltac Zify.zify_post_hook ::= Z.div_mod_to_equations.

(** ** C45 *)
(** For all files, whatever they define, use and include: the assembler comes
    to an end, with one result. *)
Theorem C45_always_ends fs file : exists ok evs, assembles fs file ok evs /\
  forall ok' evs', assembles fs file ok' evs' -> ok' = ok /\ evs' = evs.
Proof.
  destruct (assembles_exists fs file) as (ok & evs & A). exists ok, evs. split; auto.
  intros ok' evs' A'. destruct (assembles_unique _ _ _ _ _ _ A A'). auto.
Qed.
Print Assumptions C45_always_ends.

(** How many files and macros are begun and not ended by the events. *)
Definition begins (e : event) : bool := match e with EOpen _ | EEnter _ => true | _ => false end.
Definition ends (e : event) : bool := match e with EClose _ | ELeave _ => true | _ => false end.
Definition count (f : event -> bool) (l : list event) : Z := Z.of_nat (List.length (filter f l)).
Definition unfinished (l : list event) : Z := count begins l - count ends l.
Lemma unfinished_nest l : unfinished l = nest (rev l).
Proof.
  assert (H : forall k, unfinished k = nest k).
  { induction k as [|e k IH]; [reflexivity|]. unfold unfinished, count in *. destruct e; cbn [filter begins ends List.length nest] in *; lia. }
  rewrite <- H. unfold unfinished, count. 
  assert (R : forall f k, List.length (filter f (rev k)) = List.length (filter (A := event) f k)).
  { intros f k. induction k as [|e k IH]; [reflexivity|]. cbn [rev filter]. rewrite filter_app, app_length, IH. cbn [filter]. destruct (f e); cbn; lia. }
  rewrite !R. reflexivity.
Qed.

(** At every moment at most the file given and 32 more levels are open, none is
    ended that was not begun, and in the end all are ended.  This holds for
    failing runs too. *)
Theorem C45_nesting fs file ok evs : assembles fs file ok evs ->
  unfinished evs = 0 /\ forall before after, evs = before ++ after -> 0 <= unfinished before <= 33.
Proof.
  intros A. destruct (assembles_rel _ _ _ _ A) as (_ & _ & N & P). split.
  - rewrite unfinished_nest. exact N.
  - intros p s ->. rewrite unfinished_nest. specialize (P (rev s) (rev p)). rewrite rev_app_distr in P. specialize (P eq_refl).
    change MAX_PREPROCESSOR_DEPTH with 32 in P. lia.
Qed.
Print Assumptions C45_nesting.

(** A file included or a macro used at level 32 is an error. *)
Definition uses_macro (l1 : list occ) (w : str) : Prop :=
  rune (hd 0 w) = false /\ read_number w = NotNumber /\ mnemonic w = None /\ In w (macro_names l1).
Theorem C45_too_deep fs file ok evs l2 o l1 : assembles fs file ok evs -> trace evs = l2 ++ o :: l1 ->
  hd 0 (o_lex o) = chr "~" \/ uses_macro l1 (o_lex o) -> 32 <= o_depth o -> ok = false.
Proof.
  intros A T U D. destruct ok; auto. exfalso. destruct (assembles_program _ _ _ A) as (q & R & TR & _). rewrite <- TR in *.
  destruct (run_split _ _ _ _ R T) as (p1 & p2 & R1 & T1 & O & S & _ & _). unfold step in S. pose proof (run_inv _ _ R1) as I1. pose proof (i_macros _ I1) as M. rewrite T1 in M.
  destruct (o_lex o) as [|c r] eqn:L; [discriminate S|].
  unfold effect in S. cbv zeta in S. destruct U as [U|(U1 & U2 & U3 & U4)].
  - cbn [hd] in U. subst c. cbn in S. change MAX_DEPTH with 32 in S. destruct (Z.ltb_spec (o_depth o) 32); [lia|discriminate].
  - assert (NR : forall x, In x RUNES -> (c =? x) = false).
    { intros x X. destruct (Z.eqb_spec c x) as [->|]; auto. exfalso. unfold rune in U1. cbn [hd] in U1.
      assert (Y : existsb (Z.eqb x) RUNES = true) by (apply existsb_exists; exists x; split; auto; apply Z.eqb_refl). congruence. }
    rewrite !NR in S by (vm_compute; tauto). rewrite U2, U3 in S.
    assert (IM : is_macro (with_occ p1 (mkOcc (o_depth o) (p_scope p1) (p_addr p1) (c :: r))) (c :: r) = true).
    { unfold is_macro. apply existsb_exists. exists (c :: r). split; [cbn [with_occ p_macros]; rewrite M; exact U4|].
      unfold str_eqb. destruct (str_dec (c :: r) (c :: r)); congruence. }
    rewrite IM in S. change MAX_DEPTH with 32 in S. destruct (Z.ltb_spec (o_depth o) 32); [lia|discriminate].
Qed.
Print Assumptions C45_too_deep.

(** Macros m, mx, mxx, ..., each but the first using the one before.  The 32nd
    can be used, the 33rd cannot; nor can a macro that uses itself. *)
Definition mx (k : nat) : str := chr "m" :: repeat (chr "x") k.
Fixpoint chain (k : nat) : str :=
  match k with
  | O => bytes "%m { 00 }"
  | S k' => chain k' ++ bytes " %" ++ mx k ++ bytes " { " ++ mx k' ++ bytes " }"
  end.
Definition use (k : nat) : str := chain k ++ [32] ++ mx k.
Definition deepest (evs : list event) : Z := fold_left Z.max (map o_depth (trace evs)) (-1).
Example C45_case :
  let x := bytes "%loop { loop } 00 loop" in
  (assembles (Props_Asm.one (use 31)) (bytes "a") true (evs_of (use 31)) /\ deepest (evs_of (use 31)) = 32) /\
  (assembles (Props_Asm.one (use 32)) (bytes "a") false (evs_of (use 32)) /\ deepest (evs_of (use 32)) = 32) /\
  assembles (Props_Asm.one x) (bytes "a") false (evs_of x) /\ deepest (evs_of x) = 1.
Proof. split; [split; [assembled|vm_compute; reflexivity]|]. split; [split; [assembled|vm_compute; reflexivity]|]. split; [assembled|vm_compute; reflexivity]. Qed.

(** ** C46 *)
(** In any state of the assembler, whether it reads a file or a macro: what is
    inside a comment gives comment symbols and, if something is wrong, error
    reports; no bytes, labels, files or macros.  Unless the comment is closed it
    is an error. *)
Definition comment_or_error (e : event) : Prop :=
  match e with ESym _ s => s_type s = SComment | EReport true _ _ => True | _ => False end.
Record idle (b b' : basm) : Prop := mkIdle {
  d_out : exists l, Forall comment_or_error l /\ b_out b' = l ++ b_out b;
  d_addr : b_addr b' = b_addr b; d_symtab : b_symtab b' = b_symtab b; d_scope : b_scope b' = b_scope b;
  d_lambdas : b_lambdas b' = b_lambdas b; d_ats : b_ats b' = b_ats b;
  d_includes : b_includes b' = b_includes b; d_deferred : b_deferred b' = b_deferred b
}.
Lemma idle_refl b : idle b b.
Proof. constructor; auto. exists []. auto. Qed.
Lemma idle_trans a b c : idle a b -> idle b c -> idle a c.
Proof.
  intros [(l & F & E) ? ? ? ? ? ? ?] [(l' & F' & E') ? ? ? ? ? ? ?]. constructor; try congruence.
  exists (l' ++ l). split; [apply Forall_app; auto|]. rewrite E', E. apply app_assoc.
Qed.
Lemma idle_buf b c : idle b (set_buf b c).
Proof. constructor; auto. exists []. auto. Qed.
Lemma idle_fault b c : idle b (set_fault b c).
Proof. constructor; auto. exists []. auto. Qed.
Lemma idle_error b m r : idle b (error_ex b m r).
Proof. constructor; auto. exists [EReport true m r]. split; [repeat constructor|reflexivity]. Qed.
Lemma idle_comment b a d s r : idle b (put_symbol b a (mkSymbol SComment false d s r)).
Proof. constructor; auto. eexists [_]. split; [|reflexivity]. repeat constructor. Qed.
Ltac idle := repeat first [apply idle_refl | eassumption | apply idle_buf | apply idle_fault | apply idle_error | apply idle_comment
                          | eapply idle_trans; [|apply idle_error] | eapply idle_trans; [|apply idle_buf] | eapply idle_trans; [|apply idle_fault] ].
Lemma idle_peek b path inp c b' inp' : peek_char b path inp = (c, b', inp') -> idle b b'.
Proof.
  unfold peek_char. destruct (b_buf b).
  - intros [= <- <- <-]. idle.
  - destruct inp as [|x r]; cbv zeta; destruct (_ =? _); intros [= <- <- <-]; idle.
Qed.
Lemma idle_get b path inp p c b' inp' p' : get_char b path inp p = (c, b', inp', p') -> idle b b'.
Proof.
  unfold get_char, consume_char. destruct (peek_char b path inp) as [[ch b1] inp1] eqn:E. apply idle_peek in E. cbv zeta.
  destruct (_ || _); [intros [= <- <- <- <-]; idle|]. destruct (ch =? 10); [intros [= <- <- <- <-]; idle|]. destruct (ch =? 13); [|intros [= <- <- <- <-]; idle].
  destruct (peek_char (set_buf b1 None) path inp1) as [[nx b2] inp2] eqn:E2. apply idle_peek in E2.
  assert (idle b b2) by (eapply idle_trans; [|exact E2]; idle). intros [= <- <- <- <-]. destruct (nx =? 10); idle.
Qed.
Lemma idle_regular fuel : forall b path inp p start fin ch buf, idle b (snd (fst (scan_regular fuel b path inp p start fin ch buf))).
Proof.
  induction fuel as [|fuel IH]; intros; cbn [scan_regular]; [idle|]. destruct (_ <? _); [|idle]. cbv zeta.
  destruct (get_char b path inp p) as [[[c b1] i1] p1] eqn:E. apply idle_get in E.
  destruct (_ =? _); [exact E|]. destruct (_ || _); [exact E|]. eapply idle_trans; [exact E|]. apply IH.
Qed.
Lemma idle_long fuel : forall b path inp p start buf, idle b (snd (fst (scan_long_loop fuel b path inp p start buf))).
Proof.
  induction fuel as [|fuel IH]; intros; cbn [scan_long_loop]; [idle|].
  destruct (get_char b path inp p) as [[[c b1] i1] p1] eqn:E. apply idle_get in E.
  destruct (_ =? _); [exact E|]. destruct (_ =? _); [cbn [fst snd]; idle|]. destruct (_ =? _); [exact E|].
  destruct (_ <? _); [eapply idle_trans; [exact E|]; apply IH|cbn [fst snd]; idle].
Qed.
Lemma idle_in_file fuel : forall b path inp p, idle b (snd (fst (next_in_file fuel b path inp p))).
Proof.
  induction fuel as [|fuel IH]; intros; cbn [next_in_file]; [idle|].
  destruct (get_char b path inp p) as [[[c b1] i1] p1] eqn:E. apply idle_get in E.
  destruct (_ || _); [exact E|]. destruct (is_sep c); [eapply idle_trans; [exact E|]; apply IH|].
  destruct (c =? 34); [|eapply idle_trans; [exact E|]; apply idle_regular].
  destruct (peek_char b1 path i1) as [[d b2] i2] eqn:E2. apply idle_peek in E2.
  destruct (d =? 32); (eapply idle_trans; [exact E|]; eapply idle_trans; [exact E2|]); [|apply idle_regular].
  unfold scan_long_string. destruct (get_char b2 path i2 p1) as [[[x b3] i3] p3] eqn:E3. apply idle_get in E3.
  eapply idle_trans; [exact E3|]. apply idle_long.
Qed.
Lemma idle_next b u t b' u' : next_token b u = (t, b', u') -> idle b b'.
Proof.
  intros E. destruct u as [path inp p|rest arg]; cbn [next_token] in E.
  - pose proof (idle_in_file (char_fuel inp) b path inp p) as H. rewrite E in H. exact H.
  - unfold next_in_macro in E. destruct rest as [|x rest]; [injection E as <- <- <-; idle|]. destruct arg as [a|]; [|injection E as <- <- <-; idle].
    destruct (expand _ _ _ _) as [[buf ex]|]; [|injection E as <- <- <-; idle]. cbv zeta in E. destruct (_ <? _); injection E as <- <- <-; idle.
Qed.
Lemma idle_loop fuel : forall b u n ok b' u', comment_loop fuel b u n = (ok, b', u') -> idle b b'.
Proof.
  induction fuel as [|fuel IH]; intros b u n ok b' u' E; cbn [comment_loop] in E; [injection E as <- <- <-; idle|].
  destruct (n <=? 0); [injection E as <- <- <-; idle|]. destruct (next_token b u) as [[[t|] b1] u1] eqn:N; apply idle_next in N.
  - destruct (t_lex t); [injection E as <- <- <-; idle|]. cbv zeta in E. apply IH in E. eapply idle_trans; [exact N|]. eapply idle_trans; [|exact E]. idle.
  - injection E as <- <- <-. exact N.
Qed.

Theorem C46_nothing_inside b t u ok b' u' : process_comment b t u = (ok, b', u') -> idle b b' /\ (ok = false -> b_success b' = false).
Proof.
  unfold process_comment. cbv zeta. set (b0 := put_symbol b _ _). assert (I0 : idle b b0) by apply idle_comment.
  destruct (comment_loop _ b0 u 1) as [[closed b1] u1] eqn:E. apply idle_loop in E.
  destruct closed; intros [= <- <- <-].
  - split; [eapply idle_trans; eauto|discriminate].
  - split; [|reflexivity]. eapply idle_trans; [exact I0|]. eapply idle_trans; [exact E|]. idle.
Qed.
Print Assumptions C46_nothing_inside.

(** In any file, after the word that opens the comment: the assembler goes on
    exactly behind the ")" that matches, and it is an error if there is none. *)
Theorem C46_ends_at_match b t path inp pos ok b' u' : wf b -> b_buf b = None -> text inp ->
  process_comment b t (UFile path inp pos) = (ok, b', u') ->
  (ok = true <-> exists rest, comment (lf inp) rest) /\
  (ok = true -> b_success b' = b_success b /\ exists inp' pos', u' = UFile path inp' pos' /\ text inp' /\ comment (lf inp) (lf inp') /\
     forall rest, comment (lf inp) rest -> rest = lf inp').
Proof.
  intros W B T E. destruct (process_comment_text b t path inp pos B T W) as [(b1 & inp' & p' & X & T' & C & _ & SU & _ & D)|(X & _ & N)];
    rewrite E in X.
  - injection X as -> <- ->. split; [|intros _; split; [exact SU|]; exists inp', p'; auto]. split; [intros _; eauto|auto].
  - cbn [fst] in X. subst ok. split; [|discriminate]. split; [discriminate|]. intros [rest C]. destruct (N _ C).
Qed.
Print Assumptions C46_ends_at_match.

(** For a whole file without macros and includes: the tokens handled, from which
    all bytes of the ROM come ([C40_bytes_are_tokens]), are the words outside the
    comments and those that open them.  If a comment is not closed, the
    assembler fails. *)
Theorem C46_only_outside fs file s l whole ok evs : find_file fs file = Some s -> text s -> code (lf s) l whole -> assembles fs file ok evs ->
  (ok = true -> map snd (lexemes (trace evs)) = l) /\ (whole = false -> ok = false).
Proof.
  intros F T C A. destruct (flat_exact _ _ _ _ _ _ _ F T C A) as [E L]. split.
  - intros O. rewrite (L O), map_map. apply map_id.
  - intros ->. destruct ok; auto. destruct E as [E _]. destruct (E eq_refl). discriminate.
Qed.
Print Assumptions C46_only_outside.

Ltac next_word :=
  lazymatch goal with
  | |- code ?s _ _ => let v := eval vm_compute in (first_word s) in
      lazymatch v with
      | NoWord => apply code_end; vm_compute; reflexivity
      | Word ?w ?r => apply (code_word s w r); [vm_compute; reflexivity|vm_compute; intuition discriminate|]
      end
  | |- reads ?s _ _ => let v := eval vm_compute in (first_word s) in
      lazymatch v with Word ?w ?r => apply (reads_word s w r); [vm_compute; reflexivity|] end
  end.
Ltac next_comment rest :=
  lazymatch goal with
  | |- code ?s _ _ => let v := eval vm_compute in (first_word s) in
      lazymatch v with Word ?w ?r => apply (code_comment s w r rest); [vm_compute; reflexivity|reflexivity| |] end
  end.
(** Nested comments, words with parentheses that are not comments, CR LF. *)
Definition C46_text : str := bytes "00 ( 11 ( 22 ) (x 33 y) )44 ) 55" ++ [13; 10] ++ bytes "(( ( ) ) 66".
Example C46_case : text C46_text /\ code (lf C46_text) (map bytes ["00"; "("; "55"; "(("; "66"]%string) true /\
  assembles (Props_Asm.one C46_text) (bytes "a") true (evs_of C46_text) /\
  map (rom (evs_of C46_text)) [256; 257; 258; 259] = [Some 0; Some 85; Some 102; None].
Proof.
  split; [|split; [|split; [assembled|vm_compute; reflexivity]]].
  - split; [|vm_compute; intuition discriminate]. apply Forall_forall. intros c I.
    assert (H : forallb (fun c => (0 <=? c) && (c <? 256)) C46_text = true) by reflexivity.
    rewrite forallb_forall in H. apply H in I. unfold is_byte. lia.
  - let x := eval vm_compute in (lf C46_text) in change (lf C46_text) with x.
    let l := eval vm_compute in (map bytes ["00"; "("; "55"; "(("; "66"]%string) in change (map bytes ["00"; "("; "55"; "(("; "66"]%string) with l.
    next_word. let x := eval vm_compute in (bytes "55" ++ [10] ++ bytes "(( ( ) ) 66") in next_comment x.
    { exists (map bytes ["11"; "("; "22"; ")"; "(x"; "33"; "y)"; ")44"]%string). split; [|split; [vm_compute; reflexivity|]].
      - match goal with |- reads _ ?l _ => let x := eval vm_compute in l in change l with x end. do 9 next_word. apply reads_nothing.
      - intros ws1 ws2 E. do 8 (destruct ws1 as [|? ws1]; [vm_compute; discriminate|injection E as <- E]). destruct ws1; [vm_compute; discriminate|discriminate]. }
    next_word. let x := eval vm_compute in (bytes "66") in next_comment x.
    { exists (map bytes ["("; ")"]%string). split; [|split; [vm_compute; reflexivity|]].
      - match goal with |- reads _ ?l _ => let x := eval vm_compute in l in change l with x end. do 3 next_word. apply reads_nothing.
      - intros ws1 ws2 E. do 2 (destruct ws1 as [|? ws1]; [vm_compute; discriminate|injection E as <- E]). destruct ws1; [vm_compute; discriminate|discriminate]. }
    next_word. next_word.
Qed.

(** In the body of a macro it is not so: the "}" in the comment ends the body,
    and what follows in the comment is assembled.  The comment here is
    "( } 00 { (x )"; it is everything between the braces of the macro. *)
Definition C46_macro : str := bytes "%m { ( } 00 { (x ) }".
Theorem C46_comment_in_macro_refuted :
  (exists s rest, C46_macro = bytes "%m { (" ++ s /\ comment s rest /\ rest = bytes "}") /\
  assembles (Props_Asm.one C46_macro) (bytes "a") true (evs_of C46_macro) /\
  map (rom (evs_of C46_macro)) [256; 257] = [Some 0; Some 96].
Proof.
  split; [|split; [assembled|vm_compute; reflexivity]].
  exists (bytes " } 00 { (x ) }"), (bytes "}"). split; [reflexivity|]. split; [|reflexivity].
  exists (map bytes ["}"; "00"; "{"; "(x"]%string). split; [|split; [vm_compute; reflexivity|]].
  - match goal with |- reads ?s ?l ?r => let y := eval vm_compute in s in let x := eval vm_compute in l in let z := eval vm_compute in r in change (reads y x z) end.
    do 5 next_word. apply reads_nothing.
  - intros ws1 ws2 E. do 4 (destruct ws1 as [|? ws1]; [vm_compute; discriminate|injection E as <- E]). destruct ws1; [vm_compute; discriminate|discriminate].
Qed.
Print Assumptions C46_comment_in_macro_refuted.

(** ** C57 *)
Lemma skip_blanks_length s : (List.length (skip_blanks s) <= List.length s)%nat.
Proof. induction s as [|c s IH]; cbn [skip_blanks]; [lia|]. destruct (blank c); cbn [List.length] in *; lia. Qed.
Lemma to_blank_length s w r : to_blank s = (w, r) -> (List.length r <= List.length s)%nat /\ (s <> [] -> (List.length r < List.length s)%nat).
Proof.
  revert w r. induction s as [|c s IH]; intros w r E; cbn [to_blank] in E.
  - injection E as <- <-. split; [cbn; lia|congruence].
  - destruct (blank c); [injection E as <- <-; cbn [List.length]; lia|]. destruct (to_blank s) as [w' r'] eqn:T. injection E as <- <-.
    destruct (IH _ _ eq_refl). cbn [List.length]. lia.
Qed.
Lemma to_quote_length s : forall w r, to_quote s = Some (w, r) -> (List.length r < List.length s)%nat.
Proof.
  induction s as [|c s IH]; intros w r E; cbn [to_quote] in E; [discriminate|]. destruct (c =? 34); [injection E as <- <-; cbn; lia|].
  destruct (to_quote s) as [[w' r']|]; [|discriminate]. injection E as <- <-. specialize (IH _ _ eq_refl). cbn [List.length]. lia.
Qed.
Lemma first_word_length s w r : first_word s = Word w r -> (List.length r < List.length s)%nat.
Proof.
  unfold first_word. pose proof (skip_blanks_length s) as L. destruct (skip_blanks s) as [|c s'] eqn:K; [discriminate|].
  assert (P : plain_word (c :: s') = Word w r -> (List.length r < List.length s)%nat).
  { unfold plain_word. destruct (to_blank (c :: s')) as [w' r'] eqn:T. destruct (_ <=? _); [|discriminate]. intros [= <- <-].
    apply to_blank_length in T as [_ T]. specialize (T ltac:(discriminate)). cbn [List.length] in *. lia. }
  destruct (c =? 34); [|exact P]. destruct s' as [|d s'']; [exact P|]. destruct (d =? 32); [|exact P].
  destruct (to_quote s'') as [[w' r']|] eqn:Q; [|discriminate]. destruct (_ <=? _); [|discriminate]. intros [= <- <-].
  apply to_quote_length in Q. cbn [List.length] in *. lia.
Qed.
Lemma inside_dec k : forall n s, (List.length s <= k)%nat -> 1 <= n ->
  (exists rest, inside n s rest /\ (List.length rest < List.length s)%nat /\ forall rest', inside n s rest' -> rest' = rest) \/ forall rest, ~ inside n s rest.
Proof.
  induction k as [|k IH]; intros n s L N; destruct (first_word s) as [|w r|] eqn:F;
    try (right; intros rest J; apply inside_step in J as (w' & r' & E & _); [congruence|exact N]).
  - pose proof (first_word_length _ _ _ F). lia.
  - pose proof (first_word_length _ _ _ F) as LR. pose proof (delta_range w) as [DR _]. destruct (Z.eqb_spec (n + delta w) 0) as [Z0|NZ].
    + left. exists r. split; [|split; [exact LR|]].
      * apply inside_step; auto. exists w, r. split; auto. rewrite Z0. reflexivity.
      * intros rest' J. apply inside_step in J as (w' & r' & E & J); auto. rewrite F in E. injection E as <- <-. rewrite Z0 in J. exact J.
    + assert (NE : (n + delta w =? 0) = false) by lia.
      destruct (IH (n + delta w) r ltac:(lia) ltac:(lia)) as [(rest & I & LE & D)|NO].
      * left. exists rest. split; [|split; [lia|]].
        -- apply inside_step; auto. exists w, r. split; auto. rewrite NE. exact I.
        -- intros rest' J. apply inside_step in J as (w' & r' & E & J); auto. rewrite F in E. injection E as <- <-. rewrite NE in J. auto.
      * right. intros rest J. apply inside_step in J as (w' & r' & E & J); auto. rewrite F in E. injection E as <- <-. rewrite NE in J. exact (NO _ J).
Qed.
Lemma comment_dec s : (exists rest, comment s rest /\ (List.length rest < List.length s)%nat /\ forall rest', comment s rest' -> rest' = rest) \/ forall rest, ~ comment s rest.
Proof.
  destruct (inside_dec (List.length s) 1 s (le_n _) ltac:(lia)) as [(rest & I & L & D)|N].
  - left. exists rest. split; [apply inside_comment; auto|]. split; auto. intros rest' J. apply D, inside_comment. auto.
  - right. intros rest J. apply (N rest), inside_comment. auto.
Qed.
Lemma reads_app s ws mid ws' rest : reads s ws mid -> reads mid ws' rest -> reads s (ws ++ ws') rest.
Proof. induction 1; intros R; [exact R|]. econstructor; eauto. Qed.

(** Neither "%" nor "~" begins a word of the text. *)
Definition flat (s : str) : Prop := forall ws w r rest, reads s ws rest -> first_word rest = Word w r -> hd 0 w <> chr "%" /\ hd 0 w <> chr "~".
(** What a flat text says. *)
Theorem C57_flat_texts s : flat s -> exists l whole, code s l whole /\ forall l' whole', code s l' whole' -> l' = l /\ whole' = whole.
Proof.
  intros FL. remember (List.length s) as k eqn:K. assert (L : (List.length s <= k)%nat) by lia. clear K. revert s FL L.
  induction k as [|k IH]; intros s FL L; destruct (first_word s) as [|w r|] eqn:F.
  1, 4: exists [], true; split; [constructor; auto|intros l' whole' C; inversion C; subst; auto; congruence].
  2, 4: exists [], false; split; [constructor; auto|intros l' whole' C; inversion C; subst; auto; congruence].
  { pose proof (first_word_length _ _ _ F). lia. }
  pose proof (first_word_length _ _ _ F) as LR.
  destruct (FL [] w r s (reads_nothing _) F) as [N1 N2].
  assert (SUB : forall ws rest, reads s ws rest -> flat rest).
  { intros ws rest R ws' w' r' rest' R' F'. exact (FL _ _ _ _ (reads_app _ _ _ _ _ R R') F'). }
  destruct (Z.eq_dec (hd 0 w) (chr "(")) as [P|P].
  - destruct (comment_dec r) as [(rest & C & LE & D)|NO].
    + assert (FR : flat rest).
      { destruct C as (ws & R & _). apply (SUB (w :: ws ++ [bytes ")"])). econstructor; eauto. }
      destruct (IH rest FR ltac:(lia)) as (l & whole & CO & U). exists (w :: l), whole. split; [eapply code_comment; eauto|].
      intros l' whole' C'. inversion C' as [? F'|? w' r' l0 wh F' SI C2|? w' r' rest' l0 wh F' HD C1 C2|? F'|? w' r' F' HD NN]; subst; try congruence; rewrite F in F'; injection F' as <- <-.
      * exfalso. apply SI. rewrite P. vm_compute. auto.
      * apply D in C1 as ->. destruct (U _ _ C2) as [-> ->]. auto.
      * destruct (NN _ C).
    + exists [w], false. split; [eapply code_unclosed; eauto|].
      intros l' whole' C'. inversion C' as [? F'|? w' r' l0 wh F' SI C2|? w' r' rest' l0 wh F' HD C1 C2|? F'|? w' r' F' HD NN]; subst; try congruence; rewrite F in F'; injection F' as <- <-; auto.
      * exfalso. apply SI. rewrite P. vm_compute. auto.
      * destruct (NO _ C1).
  - assert (SI : simple w).
    { unfold simple. change (bytes "(~%") with [chr "("; chr "~"; chr "%"]. intros [E|[E|[E|[]]]]; congruence. }
    assert (FR : flat r) by (apply (SUB [w]); econstructor; [exact F|constructor]).
    destruct (IH r FR ltac:(lia)) as (l & whole & CO & U). exists (w :: l), whole. split; [eapply code_word; eauto|].
    intros l' whole' C'. inversion C' as [? F'|? w' r' l0 wh F' SI' C2|? w' r' rest' l0 wh F' HD C1 C2|? F'|? w' r' F' HD NN]; subst; try congruence; rewrite F in F'; injection F' as <- <-; try congruence.
    destruct (U _ _ C2) as [-> ->]. auto.
Qed.
Print Assumptions C57_flat_texts.

(** A flat file is assembled exactly if it is whole, every word is right after
    the words before it ([step] of AsmSpec), all lambdas are closed and every
    reference is to a label that is defined and within reach.  The ROM then has,
    where one byte is placed, that byte, computed with the final addresses of
    the labels, and nothing where none is placed. *)
Theorem C57_flat_accepted fs file s ok evs : find_file fs file = Some s -> text s -> flat (lf s) -> assembles fs file ok evs ->
  exists l whole, code (lf s) l whole /\
  (ok = true <-> whole = true /\ exists p, run empty (map (pair 0) l) = Some p /\ complete p) /\
  forall p, ok = true -> run empty (map (pair 0) l) = Some p ->
    p_trace p = trace evs /\
    (forall a c, only_at p a c -> rom evs a = cell_byte p c) /\
    (forall a, (forall c, ~ In (a, c) (p_cells p)) -> rom evs a = None).
Proof.
  intros F T FL A. destruct (C57_flat_texts _ FL) as (l & whole & C & _). exists l, whole. split; auto.
  destruct (flat_exact _ _ _ _ _ _ _ F T C A) as [E L]. split; [exact E|].
  intros p O R. specialize (L O). subst ok. destruct (assembles_program _ _ _ A) as (q & R' & TR & _ & P1 & P2 & _).
  rewrite L in R'. assert (X : q = p) by (apply (f_equal (fun o => match o with Some x => x | None => q end)) in R'; rewrite R in R'; symmetry; exact R').
  subst q. auto.
Qed.
Print Assumptions C57_flat_accepted.

(** A flat text with all that is needed, and one with a single fault: the label
    is too far away. *)
Definition C57_good : str := bytes "|0100 @x #12 ( a } comment ) ,&y JMP &y [ 80 ] { !x } "" a.b"" ;x".
Definition C57_bad : str := bytes "|0100 @x #12 ,x |0200 ,x".
Example C57_case : find_file (Props_Asm.one C57_good) (bytes "a") = Some C57_good /\ 
  assembles (Props_Asm.one C57_good) (bytes "a") true (evs_of C57_good) /\ assembles (Props_Asm.one C57_bad) (bytes "a") false (evs_of C57_bad).
Proof. split; [vm_compute; reflexivity|]. split; [assembled|assembled]. Qed.
Ltac flat_step :=
  lazymatch goal with
  | R : reads ?s _ ?rest, F : first_word ?rest = _ |- _ => inversion R; subst; clear R;
      [vm_compute in F; solve [discriminate F|injection F as <- <-; split; discriminate]
      |match goal with F0 : first_word s = _ |- _ => vm_compute in F0; first [discriminate F0|injection F0 as <- <-] end]
  end.
Example C57_case_flat : flat (bytes "@x ( a } comment ) ;x").
Proof. unfold flat. intros ws w r rest R F. repeat flat_step. Qed.
