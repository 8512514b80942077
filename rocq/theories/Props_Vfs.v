(** Property C110: what the interactive assembler reads from its user and from
    files.  On machines where char is signed the claim fails for some bytes. *)
From Verif Require Import Base TransportModel Props_Transport VfsModel.
From Coq Require Import ZifyBool Ascii String.
Open Scope list_scope.
Ltac Zify.zify_post_hook ::= Z.div_mod_to_equations.

(** A line as it is typed: bytes without a zero. *)
Definition typed (l : list Z) : Prop := Forall (fun c => 0 < c < 256) l.
(** The byte that a character stands for: C converts an int to a char. *)
Definition byte_of (c : Z) : Z := c mod 256.
(** The file wants a line: it was just opened, or a line has ended and a bracket
    is open. *)
Definition at_end (f : rl) : Prop := r_state f = REol /\ r_line f = None.
Definition wants (depth : Z) (f : rl) : Prop := f = rl_opened \/ (at_end f /\ 0 < depth).
(** The number that the prompt shows. *)
Definition value (s : str) : Z := fold_left (fun n c => n * 10 + (c - 48)) s 0.
Definition asks (depth : Z) (p : str) : Prop :=
  (depth <= 0 /\ p = bytes "> ") \/
  (0 < depth /\ exists ds, p = bytes "[" ++ ds ++ bytes "> " /\ ds <> [] /\ Forall (fun c => 48 <= c <= 57) ds /\ value ds = depth).

(** ** Characters *)
Lemma char_byte s b : 0 <= b < 256 -> byte_of (char_int s b) = b.
Proof. intros B. unfold byte_of, char_int. destruct (s && (128 <=? b)); lia. Qed.
(** A byte is taken for a character, except two of them if char is signed. *)
Theorem C110_bytes s b : 0 <= b < 256 ->
  byte_of (char_int s b) = b /\
  (char_int s b = IO_EOF <-> s = true /\ b = 255) /\ (char_int s b = IO_ERROR <-> s = true /\ b = 254).
Proof.
  intros B. split; [now apply char_byte|]. unfold char_int, IO_EOF, IO_ERROR. destruct s; cbn [andb]; [destruct (128 <=? b) eqn:E|]; split; split; try lia; intros [? ?]; lia || discriminate.
Qed.
Print Assumptions C110_bytes.

(** ** The typed lines *)
Lemma skip_one n : forall (l : list Z) c t, skipn n l = c :: t -> skipn (S n) l = t.
Proof. induction n as [|n IH]; intros [|x l] c t E; try discriminate; [now injection E|]. exact (IH l c t E). Qed.
Lemma rest_of_line s line k : forall l pos, typed l -> 0 <= pos -> skipn (Z.to_nat pos) line = l -> pos + Z.of_nat (List.length l) = Z.of_nat (List.length line) ->
  forall ds, List.length ds = S (List.length l) ->
  rl_calls s ds (mkRl ROpen (Some line) pos) k = Ok (map (char_int s) l ++ [10], mkRl REol None (pos + Z.of_nat (List.length l) + 1), k).
Proof.
  induction l as [|c l IH]; intros pos T P S L ds D.
  - destruct ds as [|d [|e ds]]; try discriminate. cbn [rl_calls rl_getc r_state open_case r_line]. unfold rl_getc, open_case, next_char. cbn [r_state r_line r_pos].
    cbn [List.length] in L. replace (0 <=? pos) with true by lia. replace (pos <=? Z.of_nat (List.length line)) with true by lia. cbn [andb].
    rewrite nth_overflow by lia. cbn. do 3 f_equal. f_equal. lia.
  - destruct ds as [|d ds]; [discriminate|]. inversion T as [|? ? Tc Tl]; subst. cbn [List.length] in *. cbn [rl_calls]. unfold rl_getc at 1, open_case, next_char. cbn [r_state r_line r_pos].
    replace (0 <=? pos) with true by lia. replace (pos <=? Z.of_nat (List.length line)) with true by lia. cbn [andb].
    assert (N : nth (Z.to_nat pos) line 0 = c).
    { rewrite <- (firstn_skipn (Z.to_nat pos) line), S, app_nth2 by (rewrite firstn_length; lia). rewrite firstn_length, Nat.min_l by lia. now rewrite Nat.sub_diag. }
    rewrite N. replace (c =? 0) with false by lia. cbn [rbind]. rewrite (IH (pos + 1)); auto; try lia.
    + cbn [rbind map app]. do 3 f_equal. f_equal. lia.
    + replace (Z.to_nat (pos + 1)) with (Datatypes.S (Z.to_nat pos)) by lia. exact (skip_one _ _ _ _ S).
Qed.

Lemma decimal_short fuel : forall n k, 0 <= n < 10 ^ Z.of_nat (S k) -> (List.length (decimal fuel n) <= S k)%nat.
Proof.
  induction fuel as [|fuel IH]; intros n k N; [cbn; lia|]. cbn [decimal]. rewrite app_length. cbn [List.length]. destruct (n <? 10) eqn:E; [cbn; lia|].
  destruct k as [|k]; [change (10 ^ Z.of_nat 1) with 10 in N; lia|].
  rewrite (Nat2Z.inj_succ (S k)), (Z.pow_succ_r 10 _ (Nat2Z.is_nonneg (S k))) in N.
  assert (Q : 0 <= n / 10 < 10 ^ Z.of_nat (S k)) by (generalize dependent (10 ^ Z.of_nat (S k)); intros; lia). specialize (IH (n / 10) k Q). lia.
Qed.
Lemma decimal_is fuel : forall n, 0 <= n < 10 ^ Z.of_nat fuel -> value (decimal fuel n) = n.
Proof.
  induction fuel as [|fuel IH]; intros n N; [cbn in *; lia|]. cbn [decimal]. rewrite Nat2Z.inj_succ, Z.pow_succ_r in N by lia.
  unfold value in *. rewrite fold_left_app. cbn [fold_left]. destruct (n <? 10) eqn:E; [cbn [fold_left]; lia|]. rewrite IH by (generalize dependent (10 ^ Z.of_nat fuel); intros; lia). lia.
Qed.
Lemma decimal_chars fuel : forall n, 0 <= n -> Forall (fun c => 48 <= c <= 57) (decimal fuel n).
Proof. induction fuel as [|fuel IH]; intros n N; cbn [decimal]; [constructor|]. apply Forall_app. split; [destruct (n <? 10); [constructor|apply IH; lia]|]. constructor; [lia|constructor]. Qed.

(** The prompt shows how many brackets are open. *)
Lemma prompt_asks depth : depth < 2147483648 -> asks depth (prompt depth).
Proof.
  intros H. unfold prompt. destruct (0 <? depth) eqn:E; [|left; split; [lia|reflexivity]]. right. split; [lia|]. exists (decimal 20 depth).
  split; [|split; [|split]].
  - apply firstn_all2. rewrite !app_length. pose proof (decimal_short 20 depth 9 ltac:(change (10 ^ Z.of_nat 10) with 10000000000; lia)). change (List.length (bytes "[")) with 1%nat. change (List.length (bytes "> ")) with 2%nat. lia.
  - intros Q. apply app_eq_nil in Q as [_ Q]. discriminate Q.
  - apply decimal_chars. lia.
  - apply decimal_is. change (10 ^ Z.of_nat 20) with 100000000000000000000. lia.
Qed.

(** C110.  When the file wants a line, the user is asked once, with the number of
    open brackets; then come the characters of the line and a line end, one for
    each call, whatever the brackets do meanwhile. *)
Theorem C110_line s d ds f k line lines : wants d f -> d < 2147483648 -> typed line -> k_lines k = line :: lines -> List.length ds = List.length line ->
  exists f' p, asks d p /\ at_end f' /\
  rl_calls s (d :: ds) f k = Ok (map (char_int s) line ++ [10], f', mkDesk lines (k_prompts k ++ [p]) (k_terminated k)).
Proof.
  intros W B T K L. exists (mkRl REol None (0 + Z.of_nat (List.length line) + 1)), (prompt d). split; [now apply prompt_asks|]. split; [split; reflexivity|].
  assert (G : exists q, rl_getc s d f k = next_char s (mkRl ROpen (Some line) 0) (mkDesk lines (k_prompts k ++ [prompt d]) (k_terminated k)) /\ q = 0).
  { exists 0. split; [|reflexivity]. destruct W as [->|[[A1 A2] D]].
    - unfold rl_getc, open_case. cbn [r_state rl_opened r_line]. now rewrite K.
    - unfold rl_getc, open_case. rewrite A1. replace (0 <? d) with true by lia. cbn [r_line]. rewrite A2, K. reflexivity. }
  destruct G as (_ & G & _).
  assert (R := rest_of_line s line (mkDesk lines (k_prompts k ++ [prompt d]) (k_terminated k)) line 0 T (Z.le_refl 0) eq_refl eq_refl (d :: ds) (f_equal S L)).
  rewrite <- R. cbn [rl_calls]. rewrite G. reflexivity.
Qed.
Print Assumptions C110_line.

(** At the end of a line without an open bracket the text ends; nobody is asked,
    and nothing changes. *)
Theorem C110_stop s f k : at_end f -> forall ds, Forall (fun d => d <= 0) ds -> rl_calls s ds f k = Ok (map (fun _ => -1) ds, f, k).
Proof.
  intros [A1 A2] ds D. induction D as [|d ds D F IH]; [reflexivity|]. cbn [rl_calls]. unfold rl_getc. rewrite A1. replace (0 <? d) with false by lia. cbn [rbind]. rewrite IH. reflexivity.
Qed.
Print Assumptions C110_stop.

(** When the user ends the input, the text ends for good and the program is told
    to terminate. *)
Theorem C110_end s d ds f k : wants d f -> k_lines k = [] ->
  exists p, rl_calls s (d :: ds) f k = Ok (map (fun _ => -1) (d :: ds), mkRl REof None 0, mkDesk [] (k_prompts k ++ [p]) true).
Proof.
  intros W K. exists (prompt d). cbn [rl_calls].
  assert (G : rl_getc s d f k = Ok (-1, mkRl REof None 0, mkDesk [] (k_prompts k ++ [prompt d]) true)).
  { destruct W as [->|[[A1 A2] D]]; unfold rl_getc, open_case.
    - cbn [r_state rl_opened r_line]. now rewrite K.
    - rewrite A1. replace (0 <? d) with true by lia. cbn [r_line]. rewrite A2, K. reflexivity. }
  rewrite G. cbn [rbind].
  assert (E : forall es k', rl_calls s es (mkRl REof None 0) k' = Ok (map (fun _ => -1) es, mkRl REof None 0, k')).
  { induction es as [|e es IH]; intros k'; [reflexivity|]. cbn [rl_calls rl_getc r_state rbind]. now rewrite IH. }
  now rewrite E.
Qed.
Print Assumptions C110_end.

(** So the text is lines that were typed, each with a line end, as long as a
    bracket is open when the one before has ended.  [blocks]: the depths at the
    calls for each line. *)
Definition block_ok (b : Z * list Z) (line : list Z) : Prop := typed line /\ fst b < 2147483648 /\ List.length (snd b) = List.length line.
Theorem C110_text s blocks lines more : Forall2 block_ok blocks lines -> Forall (fun b => 0 < fst b) (tl blocks) ->
  forall f k, match blocks with [] => True | b :: _ => wants (fst b) f end -> k_lines k = lines ++ more ->
  exists f' ps, Forall2 asks (map fst blocks) ps /\ (blocks <> [] -> at_end f') /\
  rl_calls s (flat_map (fun b => fst b :: snd b) blocks) f k = Ok (flat_map (fun l => map (char_int s) l ++ [10]) lines, f', mkDesk more (k_prompts k ++ ps) (k_terminated k)).
Proof.
  intros F. induction F as [|[d ds] line blocks lines (T & B & L) F IH]; intros P f k W K.
  - exists f, []. split; [constructor|]. split; [congruence|]. cbn in *. destruct k; cbn in *. subst. now rewrite app_nil_r.
  - cbn [fst snd] in *. destruct (C110_line s d ds f k line (lines ++ more) W B T K L) as (f1 & p & Hp & H1 & E1).
    destruct (IH ltac:(destruct blocks; [constructor|inversion P; assumption]) f1 (mkDesk (lines ++ more) (k_prompts k ++ [p]) (k_terminated k))) as (f2 & ps & Hps & H2 & E2).
    { destruct blocks as [|b blocks]; [exact Logic.I|]. right. split; [exact H1|]. inversion P; assumption. }
    { reflexivity. }
    exists f2, (p :: ps). split; [cbn; constructor; assumption|]. split; [intros _; destruct blocks; [|apply H2; discriminate]; cbn in E2; injection E2 as _ <- _; exact H1|].
    cbn [flat_map fst snd]. cbn [k_prompts k_terminated] in E2. rewrite <- app_assoc in E2. cbn [app] in E2.
    assert (A : forall xs ys g q cs g1 q1 cs2 g2 q2, rl_calls s xs g q = Ok (cs, g1, q1) -> rl_calls s ys g1 q1 = Ok (cs2, g2, q2) -> rl_calls s (xs ++ ys) g q = Ok (cs ++ cs2, g2, q2)).
    { clear. induction xs as [|x xs IH]; intros ys g q cs g1 q1 cs2 g2 q2 X Y; cbn [rl_calls app] in *; [injection X as <- <- <-; exact Y|].
      destruct (rl_getc s x g q) as [[[c g'] q']|]; [|discriminate]. cbn [rbind] in *. destruct (rl_calls s xs g' q') as [[[cs' g''] q'']|] eqn:Z; [|discriminate]. cbn [rbind] in X. injection X as <- <- <-.
      rewrite (IH _ _ _ _ _ _ _ _ _ Z Y). reflexivity. }
    exact (A _ _ _ _ _ _ _ _ _ _ E1 E2).
Qed.
Print Assumptions C110_text.

(** ** Texts in memory and files *)
(** All characters of a text, up to one that looks like its end. *)
Fixpoint before_ff (s : bool) (l : list Z) : list Z :=
  match l with [] => [] | b :: l => if s && (b =? 255) then [] else b :: before_ff s l end.
Theorem C110_memory s content : Forall is_byte content -> mem_text s (S (List.length content)) content 0 = map (char_int s) (before_ff s content).
Proof.
  intros B.
  assert (G : forall l pos, Forall is_byte l -> 0 <= pos -> skipn (Z.to_nat pos) content = l -> pos + Z.of_nat (List.length l) = Z.of_nat (List.length content) ->
    mem_text s (S (List.length l)) content pos = map (char_int s) (before_ff s l)).
  { induction l as [|c l IH]; intros pos Bl P S L; cbn [List.length] in *.
    - cbn [mem_text]. unfold mem_getc. replace (pos >=? Z.of_nat (List.length content)) with true by lia. reflexivity.
    - remember (Datatypes.S (List.length l)) as n eqn:Hn. cbn [mem_text]. unfold mem_getc. replace (pos >=? Z.of_nat (List.length content)) with false by lia. inversion Bl as [|? ? Bc Bl']; subst.
      assert (N : nth (Z.to_nat pos) content 0 = c).
      { rewrite <- (firstn_skipn (Z.to_nat pos) content), S, app_nth2 by (rewrite firstn_length; lia). rewrite firstn_length, Nat.min_l by lia. now rewrite Nat.sub_diag. }
      rewrite N. destruct (C110_bytes s c Bc) as (_ & E & _). cbn [before_ff]. destruct (char_int s c =? IO_EOF) eqn:Q.
      + destruct (proj1 E ltac:(lia)) as [-> ->]. reflexivity.
      + replace (s && (c =? 255)) with false by (destruct s; cbn; [|reflexivity]; destruct (c =? 255) eqn:C; [elim (Bool.diff_true_false); rewrite <- Q; apply eq_sym, Z.eqb_eq, E; lia|reflexivity]).
        cbn [map]. f_equal. apply IH; auto; try lia. replace (Z.to_nat (pos + 1)) with (Datatypes.S (Z.to_nat pos)) by lia. exact (skip_one _ _ _ _ S). }
  apply (G content 0 B); auto; lia.
Qed.
Print Assumptions C110_memory.

(** The end and the errors of a file of the file system are told, and besides
    them only two bytes are taken for them. *)
Theorem C110_file s r : (forall l, r = Some l -> Forall is_byte l) ->
  (pass_getc s r = IO_ERROR <-> r = None \/ (s = true /\ exists l, r = Some (254 :: l))) /\
  (pass_getc s r = IO_EOF <-> r = Some [] \/ (s = true /\ exists l, r = Some (255 :: l))).
Proof.
  intros B. destruct r as [[|b l]|]; cbn [pass_getc].
  - split; split; auto; try discriminate; intros [E|(_ & l & E)]; discriminate.
  - specialize (B _ eq_refl). inversion B as [|? ? Bb _]; subst. destruct (C110_bytes s b Bb) as (_ & E & F). rewrite E, F. split; split.
    1, 3: intros [-> ->]; right; split; [reflexivity|]; now exists l.
    1, 2: intros [C|(-> & l' & [= -> _])]; [discriminate|auto].
  - split; split; auto; try discriminate; intros [E|(_ & l & E)]; discriminate.
Qed.
Print Assumptions C110_file.

(** A byte of a file is taken for the end of the file, another for an error of
    the disk. *)
Theorem C110_file_refuted : ~ forall s b, 0 <= b < 256 -> pass_getc s (Some [b]) <> IO_EOF /\ pass_getc s (Some [b]) <> IO_ERROR.
Proof. intros C. destruct (C true 255 ltac:(lia)) as [N _]. now apply N. Qed.
Print Assumptions C110_file_refuted.

(** Text in UTF-8 has no such bytes: every character arrives. *)
Theorem C110_utf8 s b : 0 <= b < 245 -> pass_getc s (Some [b]) <> IO_EOF /\ pass_getc s (Some [b]) <> IO_ERROR /\ byte_of (pass_getc s (Some [b])) = b.
Proof. intros B. destruct (C110_bytes s b ltac:(lia)) as (A & E & F). cbn [pass_getc]. split; [rewrite E; lia|]. split; [rewrite F; lia|exact A]. Qed.
Print Assumptions C110_utf8.

(** Two lines, as the first has an open bracket; then the end. *)
Example C110_case :
  rl_calls true ([0; 0; 1] ++ [1; 1; 0] ++ [0]) rl_opened (mkDesk [bytes "[a"; bytes "]b"; bytes "c"] [] false)
  = Ok ([91; 97; 10; 93; 98; 10; -1], mkRl REol None 3, mkDesk [bytes "c"] [bytes "> "; bytes "[1> "] false) /\
  rl_calls true [0; 0] rl_opened (mkDesk [] [] false) = Ok ([-1; -1], mkRl REof None 0, mkDesk [] [bytes "> "] true) /\
  mem_text true 4 [65; 255; 66] 0 = [65] /\ mem_text false 4 [65; 255; 66] 0 = [65; 255; 66].
Proof. vm_compute. auto. Qed.
Example C110_case_text : Forall2 block_ok [(0, [0; 1]); (1, [1; 0])] [bytes "[a"; bytes "]b"] /\ wants 0 rl_opened.
Proof. split; [repeat constructor; cbn; lia|now left]. Qed.
