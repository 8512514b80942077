(** The comments in the symbols of a run: each starts with a symbol of id 0, its
    words have the depth of their parentheses as id, and it ends with the
    parenthesis that closes it, with no other symbol in between. *)
From Verif Require Import Base AsmModel AsmSound AsmSpec AnnoModel TransportModel Props_Anno.
From Coq Require Import ZifyBool Ascii String.
Open Scope list_scope.
Ltac Zify.zify_post_hook ::= Z.div_mod_to_equations.

(** The depth of parentheses after the words [l], if it was [d] before: every
    word is a comment symbol at address [a] with the depth as id (16 bits). *)
Definition comment_word (a d : Z) (x : Z * symbol) : Prop :=
  fst x = a /\ s_type (snd x) = SComment /\ s_gen (snd x) = false /\ s_id (snd x) = u16 d /\ exists c n, s_name (snd x) = Some (c :: n).
Definition depth_after (d : Z) (n : str) : Z := if str_eqb n (bytes "(") then d + 1 else if str_eqb n (bytes ")") then d - 1 else d.
Inductive words (a : Z) : Z -> list (Z * symbol) -> Z -> Prop :=
| words_none d : words a d [] d
| words_more d x l d' : 0 < d -> comment_word a d x -> words a (depth_after d (name_of (snd x))) l d' -> words a d (x :: l) d'.
(** The first symbol of a comment. *)
Definition comment_start (a : Z) (x : Z * symbol) : Prop :=
  fst x = a /\ s_type (snd x) = SComment /\ s_gen (snd x) = false /\ s_id (snd x) = 0 /\ exists n, s_name (snd x) = Some (bytes "(" ++ n).
(** Labels and macros have names that do not start with a slash, only labels are
    generated, with a name that starts with '@', and brackets have the id 0. *)
Definition calm (s : symbol) : Prop :=
  s_type s <> SComment /\ (s_type s = SLabel \/ s_type s = SMacro -> exists c n, s_name s = Some (c :: n) /\ c <> 47) /\
  (s_gen s = true -> s_type s = SLabel /\ exists n, s_name s = Some (64 :: n)) /\
  (s_type s = SMark -> s_id s = 0 /\ exists n, s_name s = Some n).
Definition proper (it : item) : Prop :=
  match it with
  | Single _ s => calm s
  | Comment (a, b) inner e => comment_start a (a, b) /\ words a 1 (inner ++ [e]) 0
  end.
Definition unfinished (l : list (Z * symbol)) : Prop := exists a x inner d, l = x :: inner /\ comment_start a x /\ words a 1 inner d /\ 0 < d.

(** ** Bookkeeping *)
Definition sym_of (e : event) : list (Z * symbol) := match e with ESym a s => [(a, s)] | _ => [] end.
(** In the order in which they came. *)
Definition sy (b : basm) : list (Z * symbol) := flat_map sym_of (rev (b_out b)).
Lemma sy_log b e : sy (log b e) = sy b ++ sym_of e.
Proof. unfold sy. cbn [log b_out rev]. rewrite flat_map_app. cbn. now rewrite app_nil_r. Qed.
Definition look (b : basm) := (b_addr b, sy b).

Definition ext (b b' : basm) : Prop := exists l, sy b' = sy b ++ l /\ Forall (fun x => calm (snd x)) l.
Lemma ext_same b b' : sy b' = sy b -> ext b b'.
Proof. intros E. exists []. rewrite app_nil_r. auto. Qed.
Lemma ext_refl b : ext b b.
Proof. now apply ext_same. Qed.
Lemma ext_trans a b c : ext a b -> ext b c -> ext a c.
Proof. intros (l & E & F) (l' & E' & F'). exists (l ++ l'). rewrite E', E, app_assoc. split; [reflexivity|now apply Forall_app]. Qed.
Lemma ext_quiet b e : sym_of e = [] -> ext b (log b e).
Proof. intros H. apply ext_same. now rewrite sy_log, H, app_nil_r. Qed.
Lemma ext_symbol b a s : calm s -> ext b (put_symbol b a s).
Proof. intros C. exists [(u16 a, s)]. unfold put_symbol. rewrite sy_log. auto. Qed.
Lemma ext_symbol2 b a s : calm s -> ext b (put_symbol2 b a s).
Proof. intros C. unfold put_symbol2. eapply ext_trans; apply ext_symbol; auto. Qed.
Lemma calm_plain ty id n r : ty <> SComment -> ty <> SLabel -> ty <> SMacro -> ty <> SMark -> calm (mkSymbol ty false id n r).
Proof. intros. split; cbn; [auto|]. split; [intros [|]; contradiction|]. split; [discriminate|contradiction]. Qed.
Lemma ext_error b m r : ext b (error_ex b m r).
Proof. apply ext_same. unfold error_ex. rewrite sy_log. cbn [sym_of]. rewrite app_nil_r. reflexivity. Qed.
Lemma ext_set b b' : b_out b' = b_out b -> ext b b'.
Proof. intros E. apply ext_same. unfold sy. now rewrite E. Qed.
Lemma ext_right a b c : b_out c = b_out b -> ext a b -> ext a c.
Proof. intros E X. eapply ext_trans; [exact X|]. now apply ext_set. Qed.
Lemma ext_left a b c : b_out b = b_out a -> ext b c -> ext a c.
Proof. intros E X. eapply ext_trans; [|exact X]. now apply ext_set. Qed.

Definition ex (b : basm) (r : ret) : Prop := ext b (snd r).
Lemma ex_andthen b r g : ex b r -> (forall b', ex b' (g b')) -> ex b (andthen r g).
Proof. unfold andthen, ex. destruct r as [[|] b1]; cbn [snd]; auto. intros. eapply ext_trans; eauto. Qed.
Lemma ex_error b t m : ex b (error b t m).
Proof. apply ext_error. Qed.
Lemma ex_left a b r : b_out b = b_out a -> ex b r -> ex a r.
Proof. apply ext_left. Qed.

(** ** Reading *)
Lemma look_error b m r : look (error_ex b m r) = look b.
Proof. unfold look, error_ex. rewrite sy_log. cbn [sym_of]. rewrite app_nil_r. reflexivity. Qed.
Lemma look_peek b path inp : look (snd (fst (peek_char b path inp))) = look b.
Proof.
  unfold peek_char. destruct (b_buf b); [reflexivity|]. destruct inp; [reflexivity|]. destruct (_ =? IO_ERROR); [apply (look_error (set_buf b (Some z)))|reflexivity].
Qed.
Lemma look_get b path inp p : look (snd (fst (fst (get_char b path inp p)))) = look b.
Proof.
  unfold get_char. pose proof (look_peek b path inp) as P. destruct (peek_char b path inp) as [[ch b1] inp1]. cbn [fst snd] in P.
  cbn zeta. destruct (_ || _); [exact P|]. destruct (_ =? 10); [exact P|]. destruct (_ =? 13); [|exact P].
  pose proof (look_peek (consume_char b1) path inp1) as P2. destruct (peek_char (consume_char b1) path inp1) as [[c2 b2] inp2].
  cbn [fst snd] in *. rewrite <- P. change (look b1) with (look (consume_char b1)). rewrite <- P2. destruct (_ =? 10); reflexivity.
Qed.
Lemma look_regular fuel : forall b path inp p start fin ch buf, look (snd (fst (scan_regular fuel b path inp p start fin ch buf))) = look b.
Proof.
  induction fuel as [|fuel IH]; intros; cbn [scan_regular]; [reflexivity|]. destruct (_ <? _); [|apply look_error].
  pose proof (look_get b path inp p) as G. destruct (get_char b path inp p) as [[[c b1] inp1] p1]. cbn [fst snd] in G.
  destruct (_ =? IO_ERROR); [exact G|]. destruct (_ || _); [exact G|]. now rewrite IH.
Qed.
Lemma look_long fuel : forall b path inp p start buf, look (snd (fst (scan_long_loop fuel b path inp p start buf))) = look b.
Proof.
  induction fuel as [|fuel IH]; intros; cbn [scan_long_loop]; [reflexivity|].
  pose proof (look_get b path inp p) as G. destruct (get_char b path inp p) as [[[c b1] inp1] p1]. cbn [fst snd] in G.
  destruct (_ =? IO_ERROR); [exact G|]. destruct (_ =? IO_EOF); [cbn [fst snd]; now rewrite look_error|]. destruct (_ =? 34); [exact G|].
  destruct (_ <? _); [now rewrite IH|cbn [fst snd]; now rewrite look_error].
Qed.
Lemma look_file fuel : forall b path inp p, look (snd (fst (next_in_file fuel b path inp p))) = look b.
Proof.
  induction fuel as [|fuel IH]; intros; cbn [next_in_file]; [reflexivity|].
  pose proof (look_get b path inp p) as G. destruct (get_char b path inp p) as [[[c b1] inp1] p1]. cbn [fst snd] in G.
  destruct (_ || _); [exact G|]. destruct (is_sep c); [now rewrite IH|]. destruct (_ =? 34).
  - pose proof (look_peek b1 path inp1) as P. destruct (peek_char b1 path inp1) as [[c2 b2] inp2]. cbn [fst snd] in P.
    destruct (_ =? 32); [|now rewrite look_regular, P]. unfold scan_long_string.
    pose proof (look_get b2 path inp2 p1) as G2. destruct (get_char b2 path inp2 p1) as [[[c3 b3] inp3] p3]. cbn [fst snd] in G2.
    now rewrite look_long, G2, P.
  - now rewrite look_regular.
Qed.
Lemma look_next b u : look (snd (fst (next_token b u))) = look b.
Proof.
  destruct u as [path inp p|rest arg]; cbn [next_token]; [apply look_file|]. unfold next_in_macro.
  destruct rest; [reflexivity|]. destruct arg; [|reflexivity]. destruct (expand _ _ _ _) as [[buf ex]|]; [|apply look_error].
  destruct (_ <? _); [apply look_error|reflexivity].
Qed.

(** ** Functions without comments *)
Lemma ex_emit b t v : ex b (emit b t v).
Proof.
  unfold emit. destruct (_ <? _); [eapply ex_left; [|apply ex_error]; reflexivity|].
  eapply ext_left; [|apply ext_quiet; reflexivity]; reflexivity.
Qed.
Lemma ex_emit2 b t v : ex b (emit2 b t v).
Proof. unfold emit2. apply ex_andthen; [apply ex_emit|]. intros. apply ex_emit. Qed.
Lemma ex_opcode b t op r : ex b (emit_opcode b t op r).
Proof. unfold emit_opcode. apply ex_andthen; [apply ex_emit|]. intros. apply ext_symbol. apply calm_plain; discriminate. Qed.
Lemma ex_byte b t v r : ex b (emit_byte b t v r).
Proof. unfold emit_byte. apply ex_andthen; [apply ex_emit|]. intros. apply ext_symbol. apply calm_plain; discriminate. Qed.
Lemma ex_short b t v r : ex b (emit_short b t v r).
Proof. unfold emit_short. apply ex_andthen; [apply ex_emit2|]. intros. apply ext_symbol2. apply calm_plain; discriminate. Qed.
Lemma ex_placeholder b t size s r : ex b (emit_placeholder b t size s r).
Proof.
  unfold emit_placeholder.
  assert (G : forall id name b', b_out b' = b_out b -> ex b (let sym := mkSymbol SLabelRef false id name (word_region (t_reg t) r) in
    let addr := b_addr b' in match size with
    | RByte => emit b' t 1 ;; b => (true, put_symbol b addr sym)
    | RShort => emit2 b' t 1 ;; b => (true, put_symbol2 b addr sym) end)).
  { intros id name b' E. apply (ex_left b b' _ E). cbn zeta. destruct size; apply ex_andthen; auto using ex_emit, ex_emit2; intros;
    [apply ext_symbol|apply ext_symbol2]; apply calm_plain; discriminate. }
  destruct s as [[n id]|]; apply G; reflexivity.
Qed.
Lemma ex_forward b t ty size n v r : ex b (emit_forward_ref b t ty size n v r).
Proof.
  unfold emit_forward_ref.
  assert (G : forall v b', b_out b' = b_out b -> ex b (match n_entry v with
      | EnForward id refs => let addr := b_addr b' in emit_placeholder b' t size (Some (n, id)) r ;; b =>
           (true, set_node b n (set_entry v (EnForward id (mkRef t 0 0 addr ty size :: refs))))
      | _ => (false, set_fault b' AssertFailed) end)).
  { intros v' b' E. apply (ex_left b b' _ E). destruct (n_entry v'); try (now apply ext_set). apply ex_andthen; [apply ex_placeholder|]. intros. now apply ext_set. }
  destruct (n_entry v) eqn:E; first [apply (G (set_entry v _)); reflexivity|apply (G v); reflexivity].
Qed.
Lemma ex_lambda_ref b t ty size r : ex b (emit_lambda_ref b t ty size r).
Proof. unfold emit_lambda_ref. apply ex_andthen; [apply ex_placeholder|]. intros. now apply ext_set. Qed.
Lemma ext_calc b t ty from to : ext b (snd (calculate_addr b t ty from to)).
Proof. destruct ty; cbn; try apply ext_refl. destruct (_ <? _); [now apply ext_quiet|apply ext_refl]. Qed.
Lemma ex_addr b t ty size a s : match s with Some s => calm s | None => True end -> ex b (emit_addr b t ty size a s).
Proof.
  intros S. unfold emit_addr. destruct size.
  - destruct (match ty with RRel => _ | _ => _ end); [apply ex_error|]. apply ex_andthen; [apply ex_emit|]. intros. destruct s; [now apply ext_symbol|apply ext_refl].
  - apply ex_andthen; [apply ex_emit2|]. intros. destruct s; [now apply ext_symbol2|apply ext_refl].
Qed.
Lemma ex_backward b t ty size n id to w r : ex b (emit_backward_ref b t ty size n id to w r).
Proof.
  unfold emit_backward_ref. pose proof (ext_calc b t ty (b_addr b) to) as C. destruct (calculate_addr _ _ _ _ _) as [a b']. cbn [snd] in C.
  eapply ext_trans; [exact C|]. apply ex_addr. destruct w; auto. apply calm_plain; discriminate.
Qed.
Lemma ext_patch refs : forall b n id to, ext b (patch b refs n id to).
Proof.
  induction refs as [|x refs IH]; intros b n id to; cbn [patch]; [apply ext_refl|].
  pose proof (ex_backward (set_addr b (f_addr x)) (f_tok x) (f_type x) (f_size x) (Some n) id to false false) as B.
  destruct (emit_backward_ref _ _ _ _ _ _ _ _ _) as [ok b']. cbn [snd] in B. eapply ext_trans; [|apply IH]. eapply ext_left; [|exact B]. reflexivity.
Qed.
Lemma ex_define b t n v id refs : (exists c n', n = c :: n' /\ c <> 47) -> ex b (define_label b t n v id refs).
Proof.
  intros (c & n' & -> & N). unfold define_label, ex. cbn [snd]. set (b1 := set_node b _ _). eapply ext_left with (b := b1); [reflexivity|].
  pose proof (ext_patch refs b1 (c :: n') id (b_addr b)) as P. eapply ext_trans; [exact P|].
  eapply ext_left; [|apply ext_symbol]; [reflexivity|]. split; [discriminate|]. cbn. split; [eauto|]. split; discriminate.
Qed.
Lemma ext_find b t n : ext b (snd (find_or_create b t n)) /\ (fst (find_or_create b t n) <> None -> exists c n', n = c :: n' /\ c <> 47).
Proof.
  unfold find_or_create. destruct n as [|x n]; [split; [apply ext_error|contradiction]|].
  destruct (is_runic x) eqn:G; [split; [apply ext_error|contradiction]|]. destruct (parse_opcode _); [split; [apply ext_error|contradiction]|].
  destruct (is_number _); [split; [apply ext_error|contradiction]|]. assert (X : x <> 47) by (intros ->; discriminate).
  destruct (lookup _ _); split; eauto; [apply ext_refl|now apply ext_set].
Qed.
Lemma ex_register b t n : ex b (register_label b t n).
Proof.
  unfold register_label. destruct (ext_find b t n) as [F N]. destruct (find_or_create b t n) as [[v|] b']; cbn [fst snd] in *; [|exact F].
  specialize (N ltac:(discriminate)). destruct (n_entry v); eapply ext_trans; try exact F; try apply ex_error; [|now apply ex_define]. eapply ex_left; [|now apply ex_define]. reflexivity.
Qed.
Lemma ext_local b t l : ext b (snd (resolve_local_name b t l)).
Proof. unfold resolve_local_name. destruct (_ <? _); [apply ext_error|apply ext_refl]. Qed.
Lemma ext_ref_name b t l : ext b (snd (resolve_label_ref b t l)).
Proof. unfold resolve_label_ref. destruct l; [apply ext_error|]. destruct (_ || _); [apply ext_local|apply ext_refl]. Qed.
Lemma ext_pop b : ext b (snd (pop_at_label b)).
Proof. unfold pop_at_label. destruct (b_ats b); [apply ext_refl|now apply ext_set]. Qed.
Lemma ex_label_ref b t ty size n r : ex b (emit_label_ref b t ty size n r).
Proof.
  unfold emit_label_ref. destruct (str_eqb n [123]); [apply ex_lambda_ref|].
  pose proof (ext_ref_name b t n) as I1. destruct (resolve_label_ref b t n) as [[full|] b1]; cbn [snd] in I1; [|exact I1]. eapply ext_trans; [exact I1|].
  destruct (str_eqb full [64]).
  - pose proof (ext_pop b1) as I2. destruct (pop_at_label b1) as [[l|] b2]; cbn [snd] in I2; (eapply ext_trans; [exact I2|]); [apply ex_backward|apply ex_error].
  - destruct full as [|x full]; [apply ex_error|]. destruct (is_runic x); [apply ex_error|].
    destruct (ext_find b1 t (x :: full)) as [I2 _]. destruct (find_or_create b1 t (x :: full)) as [[v|] b2]; cbn [fst snd] in *; [|exact I2].
    eapply ext_trans; [exact I2|]. destruct (n_entry v); try apply ex_forward; try apply ex_error. eapply ex_left; [|apply ex_backward]. reflexivity.
Qed.
Lemma ex_jsi b t : ex b (emit_jsi b t).
Proof. unfold emit_jsi. apply ex_andthen; [apply ex_opcode|]. intros. apply ex_label_ref. Qed.
Lemma ext_mark b t : ext b (process_mark b t).
Proof.
  apply ext_symbol. split; [discriminate|]. split; [intros [X|X]; discriminate X|]. split; [discriminate|]. intros _. split; [reflexivity|]. eexists. reflexivity.
Qed.
Lemma ext_macro_body fuel : forall b t u d l, ext b (snd (fst (macro_body fuel b t u d l))).
Proof.
  induction fuel as [|fuel IH]; intros; cbn [macro_body]; [now apply ext_set|]. destruct (_ <=? _); [apply ext_refl|].
  pose proof (look_next b u) as N. destruct (next_token b u) as [[[x|] b1] u1]; cbn [fst snd] in N |- *; injection N as N1 N2;
    (eapply ext_trans; [apply (ext_same _ _ N2)|]); [|apply ext_error].
  destruct (t_lex x); [now apply ext_set|]. destruct (_ =? 37); [apply ext_error|]. apply IH.
Qed.
Lemma ex_global b t : ex b (process_global_label b t).
Proof.
  unfold process_global_label. destruct (str_eqb _ [64]).
  - cbn zeta. unfold make_lambda_name. match goal with |- context [log ?x EOverrun] => set (b1 := x) end. eapply ext_left with (b := b1); [reflexivity|].
    assert (X : ext b1 (if 4096 <=? u16 (b_labels b + 1) then log b1 EOverrun else b1)) by (destruct (_ <=? _); [now apply ext_quiet|apply ext_refl]).
    eapply ext_trans; [exact X|]. apply ext_symbol. split; [discriminate|]. split; [intros _; cbn [s_name]; exists 64; eexists; split; [reflexivity|discriminate]|].
    split; [intros _; split; [reflexivity|eexists; reflexivity]|discriminate].
  - apply ex_andthen; [apply ex_register|]. intros. now apply ext_set.
Qed.
Lemma ex_local b t : ex b (process_local_label b t).
Proof.
  unfold process_local_label. pose proof (ext_local b t (pop_front (t_lex t))) as I. destruct (resolve_local_name _ _ _) as [[n|] b']; cbn [snd] in I; [|exact I].
  eapply ext_trans; [exact I|]. apply ex_register.
Qed.
Lemma ext_padding b t : ext b (snd (resolve_padding b t)).
Proof.
  unfold resolve_padding. destruct (pop_front (t_lex t)) as [|x s]; [apply ext_error|].
  destruct (is_number _); [destruct (parse_number _) as [m|[n z]]; [apply ext_error|apply ext_refl]|].
  pose proof (ext_ref_name b t (x :: s)) as I1. destruct (resolve_label_ref _ _ _) as [[l|] b1]; cbn [snd] in I1; [|exact I1]. eapply ext_trans; [exact I1|].
  destruct (str_eqb l [64]).
  - pose proof (ext_pop b1) as I2. destruct (pop_at_label b1) as [[r|] b2]; cbn [snd] in *; [exact I2|eapply ext_trans; [exact I2|apply ext_error]].
  - destruct (lookup l (b_symtab b1)) as [v|]; [|apply ext_error]. destruct (n_entry v); try apply ext_error. now apply ext_set.
Qed.
Lemma ex_abs b t : ex b (process_abs_padding b t).
Proof. unfold process_abs_padding. pose proof (ext_padding b t) as P. destruct (resolve_padding b t) as [[n|] b']; cbn in P; [|exact P]. eapply ext_trans; [exact P|]. now apply ext_set. Qed.
Lemma ex_rel b t : ex b (process_rel_padding b t).
Proof.
  unfold process_rel_padding. pose proof (ext_padding b t) as P. destruct (resolve_padding b t) as [[n|] b']; cbn in P; [|exact P]. eapply ext_trans; [exact P|].
  cbn zeta. unfold ex. cbn [snd]. destruct (_ <? _); [|now apply ext_set]. eapply ext_left; [|apply ext_quiet; reflexivity]. reflexivity.
Qed.
Lemma ex_lit b t : ex b (process_lit_number b t).
Proof.
  unfold process_lit_number. destruct (literal _) as [m|[n z]]; [apply ex_error|].
  destruct (_ =? 1); (apply ex_andthen; [apply ex_opcode|]); intros; [apply ex_byte|apply ex_short].
Qed.
Lemma ex_raw b t : ex b (process_raw_number b t).
Proof. unfold process_raw_number. destruct (literal _) as [m|[n z]]; [apply ex_error|]. destruct (_ =? 1); [apply ex_byte|apply ex_short]. Qed.
Lemma ex_lambda_close b t : ex b (process_lambda_close b t).
Proof.
  unfold process_lambda_close. destruct (b_lambdas b) as [|x rest]; [apply ex_error|]. cbn zeta.
  pose proof (ext_calc b (f_tok x) (f_type x) (f_addr x) (b_addr b)) as C. destruct (calculate_addr _ _ _ _ _) as [a b']. cbn [snd] in C.
  eapply ext_trans; [exact C|]. apply ex_andthen; [eapply ex_left; [|apply ex_addr; exact Logic.I]; reflexivity|]. intros b2.
  unfold make_lambda_name. set (b3 := set_addr b2 (b_addr b)). unfold ex. cbn [snd]. eapply ext_left with (b := b3); [reflexivity|].
  assert (X : ext b3 (if 4096 <=? f_lambda x then log b3 EOverrun else b3)) by (destruct (_ <=? _); [now apply ext_quiet|apply ext_refl]).
  eapply ext_trans; [exact X|]. eapply ext_right; [|apply ext_symbol]; [reflexivity|]. split; [discriminate|]. split; [intros _; cbn [s_name]; exists 64; eexists; split; [reflexivity|discriminate]|].
    split; [intros _; split; [reflexivity|eexists; reflexivity]|discriminate].
Qed.
Lemma ex_emit_text s : forall b t sym a, calm sym -> ex b (emit_text b t sym a s).
Proof.
  induction s as [|x s IH]; intros b t sym a C; cbn [emit_text]; [apply ext_refl|]. apply ex_andthen; [apply ex_emit|]. intros. eapply ext_trans; [|apply IH; auto]. now apply ext_symbol.
Qed.
Lemma ex_text b t : ex b (process_text b t).
Proof. unfold process_text. destruct (_ <=? 1); [apply ex_error|]. apply ex_emit_text. apply calm_plain; discriminate. Qed.

(** ** Comments *)
Definition Whole (b : basm) : Prop := exists items, sy b = flat_map symbols items /\ Forall proper items.
Definition Torn (b : basm) : Prop := exists items l, sy b = flat_map symbols items ++ l /\ Forall proper items /\ unfinished l.
Definition either (b : basm) : Prop := Whole b \/ (Torn b /\ b_success b = false).
Lemma whole_same b b' : sy b' = sy b -> Whole b -> Whole b'.
Proof. intros E (items & S & P). exists items. now rewrite E. Qed.
Lemma torn_same b b' : sy b' = sy b -> Torn b -> Torn b'.
Proof. intros E (items & l & S & P). exists items, l. now rewrite E. Qed.
Lemma either_same b b' : sy b' = sy b -> b_success b' = b_success b -> either b -> either b'.
Proof. intros E S [H|[H F]]; [left; eapply whole_same; eauto|right; split; [eapply torn_same; eauto|congruence]]. Qed.
Lemma whole_ext b b' : ext b b' -> Whole b -> Whole b'.
Proof.
  intros (l & E & F) (items & S & P). exists (items ++ map (fun x => Single (fst x) (snd x)) l). rewrite E, S, flat_map_app. split.
  - f_equal. clear. induction l as [|[a s] l IH]; [reflexivity|]. cbn. now rewrite <- IH.
  - apply Forall_app. split; auto. rewrite Forall_map. exact F.
Qed.
Lemma either_quiet b e : sym_of e = [] -> either b -> either (log b e).
Proof. intros E. apply either_same; [now rewrite sy_log, E, app_nil_r|reflexivity]. Qed.
Lemma loose_error b m r : Whole b \/ Torn b -> either (error_ex b m r).
Proof.
  pose proof (look_error b m r) as L. injection L as L. intros [H|H]; [left; eapply whole_same; eauto|right; split; [eapply torn_same; eauto|reflexivity]].
Qed.
Lemma either_error b m r : either b -> either (error_ex b m r).
Proof. intros [H|[H _]]; apply loose_error; auto. Qed.

Definition W2 (r : ret) : Prop := if fst r then Whole (snd r) else either (snd r).
Definition W3 (r : bool * basm * unit_) : Prop := if fst (fst r) then Whole (snd (fst r)) else either (snd (fst r)).
Lemma W2_ex b r : Whole b -> ex b r -> W2 r.
Proof. intros W E. unfold W2. destruct r as [[|] b']; cbn in *; [|left]; eapply whole_ext; eauto. Qed.
Lemma W3_ext b ok b' u : Whole b -> ext b b' -> W3 (ok, b', u).
Proof. intros W E. unfold W3. cbn. destruct ok; [|left]; eapply whole_ext; eauto. Qed.
Lemma W3_keep r u : W2 r -> W3 (keep r u).
Proof. destruct r as [ok b]. auto. Qed.
Lemma W2_either r : W2 r -> either (snd r).
Proof. unfold W2. destruct (fst r); auto. now left. Qed.
Lemma W2_andthen r g : W2 r -> (forall b, Whole b -> W2 (g b)) -> W2 (andthen r g).
Proof. unfold andthen. destruct r as [[|] b]; auto. Qed.

Lemma words_end a x : forall l d0 d, words a d0 l d -> 0 < d -> comment_word a d x -> words a d0 (l ++ [x]) (depth_after d (name_of (snd x))).
Proof. intros l d0 d W. induction W; intros P C; cbn; constructor; auto. constructor. Qed.
Lemma words_nonneg a d0 l d : words a d0 l d -> 0 <= d0 -> 0 <= d.
Proof.
  intros W. induction W as [|d x l d' P C W IH]; auto. intros _. apply IH. unfold depth_after. destruct (str_eqb _ _); [lia|]. destruct (str_eqb _ _); lia.
Qed.
Lemma comment_state b items x inner a d : sy b = flat_map symbols items ++ x :: inner -> Forall proper items -> comment_start a x -> words a 1 inner d ->
  (d = 0 -> Whole b) /\ (d <> 0 -> Torn b).
Proof.
  intros S P C W. split.
  - intros ->. destruct inner as [|y' inner']; [inversion W|]. destruct (@exists_last _ (y' :: inner')) as (inner & y & E); [discriminate|]. rewrite E in *. clear E y' inner'. exists (items ++ [Comment x inner y]). rewrite flat_map_app. cbn [flat_map symbols]. rewrite app_nil_r.
    split; [exact S|]. apply Forall_app. split; auto. constructor; auto. destruct x as [ax bx]. cbn [proper]. destruct C as (C1 & C2). cbn in C1. subst ax. split; [split; auto|exact W].
  - intros N. exists items, (x :: inner). split; [exact S|]. split; [exact P|]. exists a, x, inner, d. pose proof (words_nonneg _ _ _ _ W ltac:(lia)). repeat split; auto; try apply C. lia.
Qed.
Lemma comment_loop_whole fuel : forall b u d items x inner a, sy b = flat_map symbols items ++ x :: inner -> Forall proper items -> comment_start a x ->
  words a 1 inner d -> u16 (b_addr b) = a ->
  let r := comment_loop fuel b u d in if fst (fst r) then Whole (snd (fst r)) else Whole (snd (fst r)) \/ Torn (snd (fst r)).
Proof.
  induction fuel as [|fuel IH]; intros b u d items x inner a S P C W A; cbn [comment_loop]; cbv zeta.
  { destruct (comment_state (set_fault b OutOfFuel) items x inner a d S P C W) as [H1 H2]. cbn. destruct (Z.eq_dec d 0); [left|right]; auto. }
  pose proof (words_nonneg _ _ _ _ W ltac:(lia)) as D. destruct (comment_state b items x inner a d S P C W) as [H1 H2].
  destruct (Z.leb_spec d 0); [cbn; apply H1; lia|]. specialize (H2 ltac:(lia)).
  pose proof (look_next b u) as L. destruct (next_token b u) as [[[t|] b1] u1]; cbn [fst snd] in L; injection L as L1 L2.
  - destruct (t_lex t) as [|c n] eqn:T.
    + right. cbn. eapply torn_same; [|exact H2]. exact L2.
    + cbn zeta. set (w := (u16 (b_addr b1), mkSymbol SComment false (u16 d) (Some (c :: n)) (t_reg t))).
      apply (IH _ u1 _ items x (inner ++ [w]) a); auto.
      * unfold put_symbol. rewrite sy_log, L2, S, <- app_assoc. reflexivity.
      * change (if str_eqb (c :: n) [40] then d + 1 else if str_eqb (c :: n) [41] then d - 1 else d) with (depth_after d (name_of (snd w))).
        apply words_end; auto. unfold comment_word, w. cbn. repeat split; [congruence|eauto].
      * cbn. congruence.
  - right. cbn. eapply torn_same; eauto.
Qed.
Lemma comment_whole b t u : hd 0 (t_lex t) = 40 -> Whole b -> W3 (process_comment b t u).
Proof.
  intros H (items & S & P). unfold process_comment. set (b1 := put_symbol b _ _).
  assert (X : let r := comment_loop (unit_fuel u) b1 u 1 in if fst (fst r) then Whole (snd (fst r)) else Whole (snd (fst r)) \/ Torn (snd (fst r))).
  { apply (comment_loop_whole _ _ _ _ items (u16 (b_addr b), mkSymbol SComment false 0 (Some (t_lex t)) (t_reg t)) [] (u16 (b_addr b))); auto.
    - unfold b1, put_symbol. rewrite sy_log, S. reflexivity.
    - repeat split. cbn. destruct (t_lex t) as [|c n]; cbn in H; [discriminate|]. subst c. exists n. reflexivity.
    - constructor. }
  destruct (comment_loop _ _ _ _) as [[[|] b2] u2]; [exact X|]. unfold W3 in *. cbn in *. now apply loose_error.
Qed.
Lemma macro_open_whole fuel : forall b t u, Whole b -> W3 (macro_open fuel b t u).
Proof.
  induction fuel as [|fuel IH]; intros b t u W; cbn [macro_open]; [apply (W3_ext b); auto; now apply ext_set|].
  pose proof (look_next b u) as L. destruct (next_token b u) as [[[x|] b1] u1]; cbn [fst snd] in L; injection L as L1 L2; pose proof (whole_same _ _ L2 W) as W1; [|apply (W3_ext b1); auto; apply ext_error].
  cbn zeta. destruct (Z.eqb_spec (hd 0 (t_lex x)) 40) as [E|_].
  - pose proof (comment_whole b1 x u1 E W1) as C. destruct (process_comment b1 x u1) as [[[|] b2] u2]; [now apply IH|exact C].
  - destruct (_ =? 91); [apply IH; eapply whole_ext; [apply ext_mark|auto]|].
    destruct (_ =? 93); [destruct (_ =? 1); [apply IH; eapply whole_ext; [apply ext_mark|auto]|apply (W3_ext b1); auto; apply ext_error]|].
    destruct (_ =? 123); [destruct (_ =? 1)|]; apply (W3_ext b1); auto; apply ext_error || apply ext_refl.
Qed.
Lemma create_macro_whole b t u n v : (exists c n', n = c :: n' /\ c <> 47) -> Whole b -> W3 (create_macro b t u n v).
Proof.
  intros (c & n' & -> & N) W. unfold create_macro. cbn zeta.
  assert (W1 : Whole (put_symbol (set_macros b (u16 (b_macros b + 1))) 0 (mkSymbol SMacro false (u16 (b_macros b + 1)) (Some (c :: n')) (t_reg t)))).
  { eapply whole_ext; [|exact W]. eapply ext_left; [|apply ext_symbol]; [reflexivity|]. split; [discriminate|]. cbn. split; [eauto|]. split; discriminate. }
  pose proof (macro_open_whole (unit_fuel u) _ t u W1) as O. destruct (macro_open _ _ _ _) as [[[|] b2] u2]; [|exact O]. unfold W3 in O. cbn in O.
  pose proof (ext_macro_body (unit_fuel u2) b2 t u2 1 []) as B. destruct (macro_body _ _ _ _ _ _) as [[[toks|] b3] u3]; cbn [fst snd] in B; apply (W3_ext b2); auto.
Qed.
Lemma process_macro_whole b t u : Whole b -> W3 (process_macro b t u).
Proof.
  intros W. unfold process_macro. destruct (ext_find b t (pop_front (t_lex t))) as [F N]. destruct (find_or_create _ _ _) as [[v|] b']; cbn [fst snd] in *; [|now apply (W3_ext b)].
  specialize (N ltac:(discriminate)). pose proof (whole_ext _ _ F W) as W'. destruct (n_entry v); try (apply (W3_ext b'); auto; apply ext_error). now apply create_macro_whole.
Qed.

Section Nested.
Variable fs : files.
Variable pu : basm -> unit_ -> ret.
Hypothesis PU : forall b u, Whole b -> W2 (pu b u).

Lemma file_whole b path : Whole b -> W2 (process_file fs pu b path).
Proof.
  intros W. unfold process_file. destruct (find_file fs path); [|apply (W2_ex b); auto; apply ext_error].
  match goal with |- context [pu ?x ?y] => assert (P : W2 (pu x y)) by (apply PU; eapply whole_ext; [now apply ext_quiet|auto]); destruct (pu x y) as [ok b'] end.
  unfold W2 in *. cbn in *. destruct ok; [eapply whole_ext; [now apply ext_quiet|auto]|now apply either_quiet].
Qed.
Lemma include_whole b n t : Whole b -> W2 (process_include fs pu b n t).
Proof.
  intros W. unfold process_include. destruct (existsb _ _); [exact W|]. cbn zeta.
  match goal with |- context [process_file fs pu ?x n] => pose proof (file_whole x n) as P; destruct (process_file fs pu x n) as [ok b'] end.
  assert (P' : W2 (ok, b')) by (apply P; exact W). unfold W2 in *. cbn [fst snd] in P'. destruct ok; [exact P'|]. cbn. apply either_error. exact P'.
Qed.
Lemma run_macro_whole b t n v id toks arg u : Whole b -> W3 (run_macro pu b t n v id toks arg u).
Proof.
  intros W. unfold run_macro. cbn zeta.
  match goal with |- context [pu ?x ?y] => assert (P : W2 (pu x y)); [apply PU|destruct (pu x y) as [ok b']] end.
  - eapply whole_ext; [|exact W]. eapply ext_left; [|now apply ext_quiet]. reflexivity.
  - unfold W2 in P. unfold W3. cbn [fst snd] in *. destruct ok.
    + eapply whole_ext; [|exact P]. eapply ext_right; [|apply (ext_quiet b' (ELeave n)); reflexivity]. reflexivity.
    + apply either_error. apply (either_same (log b' (ELeave n))); [reflexivity|reflexivity|]. apply either_quiet; [reflexivity|exact P].
Qed.
Lemma expand_macro_whole b t n v id toks exp u : Whole b -> W3 (expand_macro pu b t n v id toks exp u).
Proof.
  intros W. unfold expand_macro. destruct (_ <=? _); [apply (W3_ext b); auto; apply ext_error|]. destruct exp; [apply (W3_ext b); auto; apply ext_error|]. cbn zeta.
  set (b0 := put_symbol b 0 _). assert (W1 : Whole b0) by (eapply whole_ext; [apply ext_symbol, calm_plain; discriminate|exact W]).
  destruct (_ =? 58); [|now apply run_macro_whole].
  pose proof (look_next b0 u) as L. destruct (next_token b0 u) as [[[x|] b1] u1]; cbn [fst snd] in L; injection L as L1 L2; pose proof (whole_same _ _ L2 W1) as W2'; [now apply run_macro_whole|].
  apply (W3_ext b1); auto. destruct (b_success b1); [apply ext_error|apply ext_refl].
Qed.
Lemma word_whole b t u : Whole b -> W3 (process_word pu b t u).
Proof.
  intros W. unfold process_word. destruct (is_runic _); [apply (W3_ext b); auto; now apply ext_set|]. destruct (parse_opcode _) as [[op red]|].
  - apply W3_keep. apply (W2_ex b); auto. cbn zeta. destruct red; [eapply ext_trans; [|apply ex_opcode]; now apply ext_quiet|apply ex_opcode].
  - destruct (ext_find b t (t_lex t)) as [F _]. destruct (find_or_create b t (t_lex t)) as [[v|] b']; cbn [fst snd] in *; [|now apply (W3_ext b)].
    pose proof (whole_ext _ _ F W) as W'. destruct (n_entry v) eqn:E.
    + apply W3_keep, (W2_ex b'); auto. apply ex_andthen; [apply ex_opcode|]. intros. apply ex_forward.
    + apply expand_macro_whole. eapply whole_ext; [|exact W']. now apply ext_set.
    + apply W3_keep, (W2_ex b'); auto. cbn zeta. eapply ex_left; [|apply ex_andthen; [apply ex_opcode|intros; apply ex_backward]]. reflexivity.
    + apply W3_keep, (W2_ex b'); auto. apply ex_andthen; [apply ex_opcode|]. intros. apply ex_forward.
Qed.
Lemma tilde_whole b t : Whole b -> W2 (process_tilde fs pu b t).
Proof.
  intros W. unfold process_tilde. destruct (_ <=? _); [apply (W2_ex b); auto; apply ext_error|]. cbn zeta. set (b1 := put_symbol b _ _).
  assert (W1 : Whole b1) by (eapply whole_ext; [apply ext_symbol, calm_plain; discriminate|exact W]).
  destruct (_ =? 126); [destruct (existsb _ _); [exact W1|eapply whole_ext; [now apply ext_set|exact W1]]|now apply include_whole].
Qed.
Lemma token_whole b t u : Whole b -> W3 (process_token fs pu b t u).
Proof.
  intros W. unfold process_token. cbn zeta.
  assert (K : forall r, ex b r -> W3 (keep r u)) by (intros; apply W3_keep; eapply W2_ex; eauto).
  assert (O : forall op k, (forall b, ex b (k b)) -> W3 (keep (emit_opcode b t op true ;; b => k b) u)) by (intros; apply K, ex_andthen; auto; apply ex_opcode).
  assert (M : W3 (true, process_mark b t, u)) by (apply (W3_ext b); auto; apply ext_mark).
  assert (Er : forall m, W3 (keep (error b t m) u)) by (intros; apply K, ex_error).
  destruct (Z.eqb_spec (hd 0 (t_lex t)) (chr "(")) as [E|_]; [now apply comment_whole|].
  destruct (_ =? chr ")"); [auto|].
  destruct (_ =? chr "["); [auto|].
  destruct (_ =? chr "]"); [destruct (_ =? 1); auto|].
  destruct (_ =? chr "~"); [apply W3_keep; now apply tilde_whole|].
  destruct (_ =? chr "%"); [now apply process_macro_whole|].
  destruct (_ =? chr "@"); [apply K, ex_global|].
  destruct (_ =? chr "&"); [apply K, ex_local|].
  destruct (_ =? chr "!"); [apply O; intros; apply ex_label_ref|].
  destruct (_ =? chr "?"); [apply O; intros; apply ex_label_ref|].
  destruct (_ =? chr "}"); [destruct (_ =? 1); auto; apply K, ex_lambda_close|].
  destruct (_ =? chr "{"); [destruct (_ =? 1); auto; apply K, ex_jsi|].
  destruct (_ =? chr "/"); [apply K, ex_jsi|].
  destruct (_ =? chr "|"); [apply K, ex_abs|].
  destruct (_ =? chr "$"); [apply K, ex_rel|].
  destruct (_ =? chr "#"); [apply K, ex_lit|].
  destruct (_ =? chr "."); [apply O; intros; apply ex_label_ref|].
  destruct (_ =? chr "-"); [apply K, ex_label_ref|].
  destruct (_ =? chr ","); [apply O; intros; apply ex_label_ref|].
  destruct (_ =? chr "_"); [apply K, ex_label_ref|].
  destruct (_ =? chr ";"); [apply O; intros; apply ex_label_ref|].
  destruct (_ =? chr "="); [apply K, ex_label_ref|].
  destruct (_ =? 34); [apply K, ex_text|].
  destruct (is_number _); [apply K, ex_raw|]. now apply word_whole.
Qed.
Lemma unit_loop_whole fuel : forall b u, Whole b -> W2 (unit_loop fs pu fuel b u).
Proof.
  induction fuel as [|fuel IH]; intros b u W; cbn [unit_loop]; [apply (W2_ex b); auto; now apply ext_set|].
  pose proof (look_next b u) as L. destruct (next_token b u) as [[[t|] b1] u1]; cbn [fst snd] in L; injection L as L1 L2; pose proof (whole_same _ _ L2 W) as W1.
  - destruct (t_lex t) eqn:T; [apply (W2_ex b1); auto; now apply ext_set|]. cbn zeta.
    match goal with |- context [process_token fs pu ?x t u1] => assert (P : W3 (process_token fs pu x t u1)) by (apply token_whole; eapply whole_ext; [now apply ext_quiet|auto]); destruct (process_token fs pu x t u1) as [[[|] b2] u2] end.
    + now apply IH.
    + exact P.
  - apply (W2_ex b1); auto. apply ext_refl.
Qed.
End Nested.

Lemma process_unit_whole fs d : forall b u, Whole b -> W2 (process_unit fs d b u).
Proof.
  induction d as [|d IH]; intros b u W; cbn [process_unit]; [apply (W2_ex b); auto; now apply ext_set|]. now apply unit_loop_whole.
Qed.
Lemma deferred_whole fs fuel : forall i b, Whole b -> W2 (deferred_loop fs fuel i b).
Proof.
  induction fuel as [|fuel IH]; intros i b W; cbn [deferred_loop]; [apply (W2_ex b); auto; now apply ext_set|].
  destruct (nth_error (b_deferred b) i) as [[n t]|]; [|exact W]. apply W2_andthen; auto. apply include_whole; auto using process_unit_whole.
Qed.
Lemma fold_ext {A} (f : basm -> A -> basm) (H : forall b x, ext b (f b x)) l : forall b, ext b (fold_left f l b).
Proof. induction l as [|x l IH]; intros b; cbn; [apply ext_refl|]. eapply ext_trans; [apply H|apply IH]. Qed.
Lemma resolve_whole fs fuel b : Whole b -> W2 (resolve fs fuel b).
Proof.
  intros W. unfold resolve. apply W2_andthen; [now apply deferred_whole|]. intros b1 W1. apply (W2_ex b1); auto. unfold ex. cbn [snd].
  assert (A : ext b1 (report_lambdas b1)) by (apply fold_ext; intros; apply ext_error).
  assert (B : ext (report_lambdas b1) (report_ats (report_lambdas b1))) by (apply fold_ext; intros; now apply ext_quiet).
  eapply ext_trans; [exact (ext_trans _ _ _ A B)|].
  apply fold_ext. intros bb [n v]. unfold report_symbol. destruct (n_entry v).
  - apply ext_error.
  - destruct (_ && _); [now apply ext_quiet|apply ext_refl].
  - destruct (_ && _); [now apply ext_quiet|apply ext_refl].
  - apply fold_ext. intros. apply ext_error.
Qed.
Lemma start_whole : Whole start.
Proof. exists []. split; [reflexivity|constructor]. Qed.
Lemma asm_whole fs fuel file : either (snd (asm fs fuel file)).
Proof.
  unfold asm. pose proof (file_whole fs (process_unit fs DEPTH) (process_unit_whole fs DEPTH) start file start_whole) as P.
  destruct (process_file _ _ _ _) as [ok b]. destruct ok; cbn [negb fst snd] in *.
  - pose proof (resolve_whole fs fuel b P) as R. destruct (resolve _ _ _) as [ok' b']. cbn [fst snd]. now apply W2_either in R.
  - now apply W2_either in P.
Qed.
Lemma asm_ok fs fuel file : fst (asm fs fuel file) = b_success (snd (asm fs fuel file)).
Proof. unfold asm. destruct (process_file _ _ _ _) as [[|] b]; cbn; [|reflexivity]. destruct (resolve _ _ _) as [ok' b']. reflexivity. Qed.
