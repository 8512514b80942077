(** C100: the names of labels and macros, and those that the assembler makes up. *)
From Verif Require Import Base AsmModel AsmSound AsmSpec AsmWords AsmFacts Props_Asm.
From Coq Require Import ZifyBool String.
Open Scope list_scope.
Ltac Zify.zify_post_hook ::= Z.div_mod_to_equations.

(** ** Specification *)
(** '@' and two to four lower case hexadecimal digits. *)
Definition anonymous (n : str) : Prop :=
  exists ds, n = bytes "@" ++ ds /\ 2 <= len ds <= 4 /\ forallb hexadecimal ds = true.
(** The symbol of a label or macro, as the client sees it. *)
Definition labels (evs : list event) (a : Z) (s : symbol) : Prop := In (ESym a s) evs /\ s_type s = SLabel.
Definition macros (evs : list event) (s : symbol) : Prop := exists a, In (ESym a s) evs /\ s_type s = SMacro.

(** ** Facts *)
Lemma code_in_bytes l : forall w i c, code_in l w i = Some c -> exists o, In o l /\ w = bytes o.
Proof.
  induction l as [|o l IH]; intros w i c; cbn [code_in]; [discriminate|]. destruct (str_dec _ _) as [E|_].
  - intros _. exists o. split; [now left|congruence].
  - intros H. destruct (IH _ _ _ H) as (o' & I & E). exists o'. split; [now right|auto].
Qed.
Lemma mnemonic_bytes w c : mnemonic w = Some c -> Forall is_byte w.
Proof.
  unfold mnemonic. destruct (str_dec w (bytes "BRK")) as [->|_].
  { intros _. apply Forall_forall. intros x I. assert (x = 66 \/ x = 82 \/ x = 75) by (change (bytes "BRK") with [66; 82; 75] in I; cbn in I; intuition congruence). unfold is_byte. lia. }
  cbv zeta. destruct (code_in OPERATIONS (firstn 3 w) 0) as [d|] eqn:C; [|discriminate].
  destruct (forallb _ (skipn 3 w)) eqn:M; [|discriminate]. intros _.
  apply code_in_bytes in C as (o & I & E). rewrite <- (firstn_skipn 3 w). apply Forall_app. split.
  - rewrite E. clear E. assert (G : forallb (fun o => forallb (fun x => (0 <=? x) && (x <=? 255)) (bytes o)) OPERATIONS = true) by reflexivity.
    rewrite forallb_forall in G. specialize (G _ I). rewrite forallb_forall in G. apply Forall_forall. intros x X. specialize (G x X). unfold is_byte. lia.
  - apply Forall_forall. intros x X. rewrite forallb_forall in M. specialize (M x X). unfold has in M. change (bytes "2rk") with [50; 114; 107] in M. cbn [existsb] in M. unfold is_byte. lia.
Qed.
Lemma good_valid n : good_name n -> valid_name n = true.
Proof.
  destruct n as [|c n]; [contradiction|]. intros (R & O & N). unfold valid_name. rewrite rune_runic, R. cbn [negb andb].
  rewrite is_number_spec in N. destruct (mnemonic (c :: n)) as [o|] eqn:M.
  - pose proof (parse_opcode_spec _ (mnemonic_bytes _ _ M)) as P. rewrite O, M in P. discriminate.
  - cbn [andb]. destruct (read_number _); congruence.
Qed.

Lemma hex_digit_ok d : 0 <= d < 16 -> hexadecimal (hex_digit d) = true /\ digit (hex_digit d) = d.
Proof. unfold hex_digit, hexadecimal, digit, decimal. intros H. destruct (d <? 10) eqn:E; split; try lia; destruct (_ && _) eqn:G; lia. Qed.
Lemma nibble x k : 0 <= k -> Z.land (Z.shiftr x k) 15 = x / 2 ^ k mod 16.
Proof. intros K. rewrite Z.shiftr_div_pow2 by auto. change 15 with (Z.ones 4). now rewrite Z.land_ones by lia. Qed.
Lemma nibble_ok x k : 0 <= k -> 0 <= Z.land (Z.shiftr x k) 15 < 16.
Proof. intros K. rewrite nibble by auto. apply Z.mod_pos_bound. lia. Qed.
Lemma nibble0_ok x : 0 <= Z.land x 15 < 16.
Proof. change 15 with (Z.ones 4). rewrite Z.land_ones by lia. apply Z.mod_pos_bound. lia. Qed.
Lemma lambda_anonymous id : anonymous (lambda_name id).
Proof.
  unfold lambda_name. eexists. split; [reflexivity|].
  pose proof (nibble_ok id 12 ltac:(lia)) as A. pose proof (nibble_ok id 8 ltac:(lia)) as B. pose proof (nibble_ok id 4 ltac:(lia)) as C. pose proof (nibble0_ok id) as D.
  apply hex_digit_ok in A as [A _]. apply hex_digit_ok in B as [B _]. apply hex_digit_ok in C as [C _]. apply hex_digit_ok in D as [D _].
  destruct (4096 <=? id), (256 <=? id); cbn [app forallb]; rewrite ?A, ?B, ?C, ?D; unfold len; cbn; lia.
Qed.

Lemma named_symbols fs file ok evs a s : assembles fs file ok evs -> In (ESym a s) evs -> named s.
Proof.
  intros A I. apply assembles_rel in A as (_ & F & _). rewrite Forall_forall in F. apply (F _ I).
Qed.

(** ** C100 *)
(** In every run, successful or not, a label that the program defines has a valid
    name and a label that the assembler makes up is anonymous. *)
Theorem C100_label_names fs file ok evs a s : assembles fs file ok evs -> labels evs a s ->
  exists n, s_name s = Some n /\ if s_gen s then anonymous n else valid_name n = true.
Proof.
  intros A [I T]. pose proof (named_symbols _ _ _ _ _ _ A I) as N. unfold named in N. rewrite T in N. destruct N as (n & E & H).
  exists n. split; auto. destruct (s_gen s); [destruct H as [id ->]; apply lambda_anonymous|now apply good_valid].
Qed.
Print Assumptions C100_label_names.
Theorem C100_macro_names fs file ok evs s : assembles fs file ok evs -> macros evs s ->
  exists n, s_name s = Some n /\ valid_name n = true.
Proof.
  intros A (a & I & T). pose proof (named_symbols _ _ _ _ _ _ A I) as N. unfold named in N. rewrite T in N. destruct N as (n & E & H).
  exists n. split; auto. now apply good_valid.
Qed.
Print Assumptions C100_macro_names.

(** So an anonymous label never has the name of a label or a macro of the program. *)
Theorem C100_never_taken fs file ok evs a s a' s' : assembles fs file ok evs ->
  labels evs a s -> s_gen s = true ->
  (labels evs a' s' /\ s_gen s' = false) \/ macros evs s' -> s_name s <> s_name s'.
Proof.
  intros A L G O E. destruct (C100_label_names _ _ _ _ _ _ A L) as (n & N & H). rewrite G in H. destruct H as (ds & -> & _).
  assert (V : exists m, s_name s' = Some m /\ valid_name m = true).
  { destruct O as [[L' G']|M]; [|exact (C100_macro_names _ _ _ _ _ A M)].
    destruct (C100_label_names _ _ _ _ _ _ A L') as (m & M & V). rewrite G' in V. eauto. }
  destruct V as (m & M & V). assert (m = bytes "@" ++ ds) by congruence. subst m. discriminate V.
Qed.
Print Assumptions C100_never_taken.

(** The name made from a number that fits in 16 bits has that value, with the
    fewest digits from two on; so different numbers give different names. *)
Theorem C100_name_denotes id : is_short id ->
  exists ds, lambda_name id = bytes "@" ++ ds /\ value 16 ds = id /\
    len ds = (if id <? 256 then 2 else if id <? 4096 then 3 else 4) /\ forallb hexadecimal ds = true.
Proof.
  intros R. unfold is_short in R. destruct (lambda_anonymous id) as (ds & E & _ & H). exists ds. split; [exact E|].
  unfold lambda_name in E. injection E as <-. split; [|split; [|exact H]].
  - pose proof (nibble_ok id 12 ltac:(lia)) as A. pose proof (nibble_ok id 8 ltac:(lia)) as B. pose proof (nibble_ok id 4 ltac:(lia)) as C. pose proof (nibble0_ok id) as D.
    apply hex_digit_ok in A as [_ A]. apply hex_digit_ok in B as [_ B]. apply hex_digit_ok in C as [_ C]. apply hex_digit_ok in D as [_ D].
    unfold value. destruct (4096 <=? id) eqn:X, (256 <=? id) eqn:Y; try lia; cbn [app fold_left]; rewrite ?A, ?B, ?C, ?D, !nibble by lia;
      change 15 with (Z.ones 4); rewrite Z.land_ones by lia; lia.
  - destruct (4096 <=? id) eqn:X, (256 <=? id) eqn:Y, (id <? 256) eqn:V, (id <? 4096) eqn:W; try lia; reflexivity.
Qed.
Print Assumptions C100_name_denotes.
Theorem C100_numbers_have_different_names i j : is_short i -> is_short j -> lambda_name i = lambda_name j -> i = j.
Proof.
  intros I J E. destruct (C100_name_denotes i I) as (d & D & V & _). destruct (C100_name_denotes j J) as (e & D' & V' & _).
  rewrite D, D' in E. injection E as ->. congruence.
Qed.
Print Assumptions C100_numbers_have_different_names.

(** But lambdas and '@@' labels take their numbers from two counters, so that two
    anonymous labels at different addresses can have the same name. *)
Definition clash : str := bytes "|0100 @@ { BRK } @x ".
Definition clash_evs : list event := Eval vm_compute in evs_of clash.
Lemma clash_assembles : assembles (one clash) (bytes "a") true clash_evs.
Proof.
  assert (E : evs_of clash = clash_evs) by (vm_compute; reflexivity). rewrite <- E. clear E.
  apply assembles_one; vm_compute; reflexivity.
Qed.
Theorem C100_anonymous_names_are_distinct_refuted :
  ~ (forall fs file evs a s a' s', assembles fs file true evs -> labels evs a s -> labels evs a' s' ->
       s_gen s = true -> s_gen s' = true -> s_name s = s_name s' -> a = a').
Proof.
  intros H.
  assert (X : exists r r', labels clash_evs 256 (mkSymbol SLabel true 1 (Some (bytes "@01")) r) /\
                           labels clash_evs 260 (mkSymbol SLabel true 2 (Some (bytes "@01")) r')).
  { eexists _, _. unfold labels, clash_evs. split; (split; [|reflexivity]); repeat first [now left|right]. }
  destruct X as (r & r' & L & L'). specialize (H _ _ _ _ _ _ _ clash_assembles L L' eq_refl eq_refl eq_refl). discriminate.
Qed.
Print Assumptions C100_anonymous_names_are_distinct_refuted.

(** Labels of both kinds, a local label and a macro. *)
Definition mixed : str := bytes "%m { BRK } |0100 @main { m } &loop @@ POP ".
Definition mixed_evs : list event := Eval vm_compute in evs_of mixed.
Example C100_case :
  assembles (one mixed) (bytes "a") true mixed_evs /\
  flat_map (fun e => match e with ESym _ s => match s_type s, s_name s with SLabel, Some n | SMacro, Some n => [(s_gen s, n)] | _, _ => [] end | _ => [] end) mixed_evs =
    [(false, bytes "m"); (false, bytes "main"); (true, bytes "@00"); (false, bytes "main/loop"); (true, bytes "@04")].
Proof.
  split; [|vm_compute; reflexivity].
  assert (E : evs_of mixed = mixed_evs) by (vm_compute; reflexivity). rewrite <- E. clear E.
  apply assembles_one; vm_compute; reflexivity.
Qed.
Example C100_case_digits : map lambda_name [7; 4095; 65535] = [bytes "@07"; bytes "@fff"; bytes "@ffff"].
Proof. reflexivity. Qed.
