(** Property C78: the tags file of buxn-ctags (src/ctags.c).

    A tags file is read line by line, and a line is split at its tabs into the
    name of the tag, the file, a command of the editor and the kind.  The first
    line promises that the lines are sorted, so editors look names up by binary
    search.  The command "go N" jumps to the N-th byte of the file. *)
From Verif Require Import Base AsmModel AsmSound AsmScan AsmRun AsmSpec AsmFacts Props_Asm TransportModel Props_Transport CtagsModel AsmPlace AsmNames PlaceSpec Props_Place.
From Coq Require Import ZifyBool Ascii String Permutation Sorted.
Open Scope list_scope.
Ltac Zify.zify_post_hook ::= Z.div_mod_to_equations.

(** ** Specification *)
(** The pieces of a text between the separators. *)
Fixpoint split (sep : Z) (l : str) : list str :=
  match l with
  | [] => [[]]
  | x :: l' => if x =? sep then [] :: split sep l'
               else match split sep l' with p :: ps => (x :: p) :: ps | [] => [[x]] end
  end.
(** The order of the bytes. *)
Inductive before : str -> str -> Prop :=
| before_end x l : before [] (x :: l)
| before_less x y l m : x < y -> before (x :: l) (y :: m)
| before_same x l m : before l m -> before (x :: l) (x :: m).

(** A file of an entry: tag, file, where, kind. *)
Definition entry : Type := (str * str * Z * Z)%type.
Definition e_name (e : entry) : str := let '(n, _, _, _) := e in n.
(** What a line of the tags file means. *)
Definition line_says (line : str) (e : entry) : Prop :=
  let '(n, f, k, c) := e in split 9 line = [n; f; bytes "go " ++ decimal 20 k ++ bytes "|;"""; [c]].

(** The labels and macros a program defines. *)
Definition defines_tag (evs : list event) (e : entry) : Prop :=
  exists a s n, In (ESym a s) evs /\ s_name s = Some n /\
    (s_type s = SLabel /\ s_gen s = false /\ e = (n, r_file (s_reg s), byte (r_start (s_reg s)) + 1, 108) \/
     s_type s = SMacro /\ e = (n, r_file (s_reg s), byte (r_start (s_reg s)) + 1, 109)).

(** A qsort of ISO C: some order of the elements that goes up.  The order of
    elements that compare equal is not said. *)
Definition sorts (qsort : list tag -> list tag) : Prop :=
  forall l, Permutation l (qsort l) /\ StronglySorted (fun a b => sort_tag a b <= 0) (qsort l).

(** Source files of printable characters, tabs and newlines, in which no macro
    uses its argument; their names without control characters. *)
Definition ordinary (fs : files) : Prop :=
  (forall path c, find_file fs path = Some c ->
     Forall (fun x => 32 <= x < 256 /\ x <> 94 \/ x = 9 \/ x = 10) c /\ Forall (fun x => 32 <= x < 256) path).

(** ** Proofs *)
Lemma split_none sep l : ~ In sep l -> split sep l = [l].
Proof.
  induction l as [|x l IH]; intros N; [reflexivity|]. cbn. rewrite IH by (intros I; apply N; now right).
  destruct (Z.eqb_spec x sep) as [->|]; [exfalso; apply N; now left|reflexivity].
Qed.
Lemma split_app sep l r : ~ In sep l -> split sep (l ++ sep :: r) = l :: split sep r.
Proof.
  induction l as [|x l IH]; intros N; cbn; [now rewrite Z.eqb_refl|]. rewrite IH by (intros I; apply N; now right).
  destruct (Z.eqb_spec x sep) as [->|]; [exfalso; apply N; now left|reflexivity].
Qed.

Lemma c_str_id s : ~ In 0 s -> c_str s = s.
Proof.
  induction s as [|x s IH]; intros N; [reflexivity|]. cbn. destruct (Z.eqb_spec x 0) as [->|]; [exfalso; apply N; now left|].
  now rewrite IH by (intros I; apply N; now right).
Qed.
Definition is_bytes (s : str) : Prop := Forall (fun x => 0 < x < 256) s.
Lemma bytes_no_nul s : is_bytes s -> ~ In 0 s.
Proof. intros B I. unfold is_bytes in B. rewrite Forall_forall in B. specialize (B _ I). lia. Qed.
Lemma cmp_before a b : is_bytes a -> is_bytes b -> (cmp a b < 0 <-> before a b) /\ (cmp a b = 0 <-> a = b).
Proof.
  revert b. induction a as [|x a IH]; intros [|y b] A B; cbn.
  - split; split; try lia; try congruence. intros H; inversion H.
  - split; split; try lia; try congruence. constructor.
  - split; split; try lia; try congruence. intros H; inversion H.
  - inversion A; inversion B; subst. unfold u8. rewrite !Z.mod_small by lia. destruct (Z.eqb_spec x y) as [->|N].
    + destruct (IH b) as [[I1 I2] [I3 I4]]; auto. split; split; intros H; auto.
      * now apply before_same, I1.
      * apply I2. inversion H; subst; [lia|auto].
      * now rewrite (I3 H).
      * apply I4. congruence.
    + split; split; intros H; [apply before_less; lia|inversion H; subst; lia|lia|congruence].
Qed.
Lemma strcmp_before a b : is_bytes a -> is_bytes b -> (strcmp a b < 0 <-> before a b) /\ (strcmp a b = 0 <-> a = b).
Proof. intros A B. unfold strcmp. rewrite !c_str_id by now apply bytes_no_nul. now apply cmp_before. Qed.

Lemma before_irrefl a : ~ before a a.
Proof. induction a; intros H; inversion H; subst; auto; lia. Qed.
Lemma before_trans a b c : before a b -> before b c -> before a c.
Proof.
  intros H. revert c. induction H; intros c K; inversion K; subst; solve [constructor|apply before_less; lia|apply before_same; auto].
Qed.

(** The tags of a run are what it defines, each once, with sound names. *)
Definition entry_of (t : tag) : entry := (tg_name t, tg_file t, tg_byte t + 1, tg_kind t).
Lemma tags_spec fs file ok evs : plain fs -> assembles fs file ok evs -> forall e, In e (map entry_of (tags evs)) <-> defines_tag evs e.
Proof.
  intros PL A e. rewrite in_map_iff. unfold tags. split.
  - intros (t & <- & I). apply in_flat_map in I as (ev & I & T). destruct ev as [| |a s| | | | | |]; try contradiction.
    pose proof (assembled_place _ _ _ _ PL A _ I) as (_ & L & M). cbn in T. destruct (s_type s) eqn:Y; try contradiction.
    + destruct T as [<-|[]]. destruct (M eq_refl) as (n & c & N & _). exists a, s, n. split; auto. split; auto. right. split; auto.
      unfold entry_of, add_tag. cbn. now rewrite N.
    + destruct (s_gen s) eqn:G; [contradiction|]. destruct T as [<-|[]]. destruct (L eq_refl eq_refl) as (n & c & N & _). exists a, s, n. split; auto. split; auto.
      left. split; auto. split; auto. unfold entry_of, add_tag. cbn. now rewrite N.
  - intros (a & s & n & I & N & [(T & G & ->)|(T & ->)]).
    + exists (add_tag s 108). split; [unfold entry_of, add_tag; cbn; rewrite N; reflexivity|]. apply in_flat_map. exists (ESym a s). split; auto. cbn. rewrite T, G. now left.
    + exists (add_tag s 109). split; [unfold entry_of, add_tag; cbn; rewrite N; reflexivity|]. apply in_flat_map. exists (ESym a s). split; auto. cbn. rewrite T. now left.
Qed.
Lemma tags_names fs file ok evs : plain fs -> assembles fs file ok evs -> NoDup (map tg_name (tags evs)).
Proof.
  intros PL A. replace (map tg_name (tags evs)) with (defined_names evs); [eapply C77_defined_once; eauto|].
  assert (F : forall e, In e evs -> ev_ok fs e) by (intros; eapply assembled_place; eauto). clear A.
  induction evs as [|e evs IH]; [reflexivity|]. unfold tags, defined_names in *. cbn [flat_map]. rewrite map_app, IH by (intros; apply F; now right).
  f_equal. specialize (F e (or_introl eq_refl)). destruct e as [| |a s| | | | | |]; try reflexivity. destruct F as (_ & L & M).
  cbn. destruct (s_type s); try reflexivity.
  - destruct (M eq_refl) as (n & c & N & _). unfold add_tag. cbn. now rewrite N.
  - destruct (s_gen s); [reflexivity|]. destruct (L eq_refl eq_refl) as (n & c & N & _). unfold add_tag. cbn. now rewrite N.
Qed.
Lemma tag_props fs file ok evs t : plain fs -> assembles fs file ok evs -> In t (tags evs) ->
  good_name (tg_name t) /\ Forall (char_ok fs) (tg_name t) /\ exists c, find_file fs (tg_file t) = Some c /\ exists pre post, c = pre ++ post /\ tg_byte t = len pre.
Proof.
  intros PL A I. unfold tags in I. apply in_flat_map in I as (ev & I & T). destruct ev as [| |a s| | | | | |]; try contradiction.
  pose proof (assembled_place _ _ _ _ PL A _ I) as ((c0 & R0 & (pre & post & E & P) & _) & L & M).
  assert (B : byte (r_start (s_reg s)) = len pre) by (destruct P as (ls & cur & _ & _ & _ & _ & _ & X); exact X).
  cbn in T. destruct (s_type s) eqn:Y; try contradiction.
  - destruct T as [<-|[]]. destruct (M eq_refl) as (n & c & N & G & C & F & _). unfold add_tag. cbn. rewrite N. split; auto. split; auto. exists c0. split; eauto.
  - destruct (s_gen s); [contradiction|]. destruct T as [<-|[]]. destruct (L eq_refl eq_refl) as (n & c & N & G & C & F & _). unfold add_tag. cbn. rewrite N. split; auto. split; auto. exists c0. split; eauto.
Qed.

Lemma sorted_unique (R : tag -> tag -> Prop) (TR : forall a b, R a b -> R b a -> False) l : forall l', StronglySorted R l -> StronglySorted R l' -> Permutation l l' -> l = l'.
Proof.
  induction l as [|x l IH]; intros l' S S' P.
  - apply Permutation_nil in P. now subst.
  - destruct l' as [|y l']; [apply Permutation_sym, Permutation_nil in P; discriminate|].
    inversion S as [|? ? S1 F1]; inversion S' as [|? ? S2 F2]; subst. rewrite Forall_forall in F1, F2.
    assert (x = y).
    { assert (I1 : In x (y :: l')) by (eapply Permutation_in; [exact P|now left]). assert (I2 : In y (x :: l)) by (eapply Permutation_in; [apply Permutation_sym; exact P|now left]).
      destruct I1 as [->|I1]; auto. destruct I2 as [->|I2]; auto. destruct (TR x y); auto. }
    subst y. f_equal. apply IH; auto. now apply Permutation_cons_inv in P.
Qed.
Lemma strict_sort ts : Forall (fun t => is_bytes (tg_name t)) ts -> NoDup (map tg_name ts) -> StronglySorted (fun a b => sort_tag a b <= 0) ts ->
  StronglySorted (fun a b => before (tg_name a) (tg_name b)) ts.
Proof.
  induction ts as [|t ts IH]; intros B N S; constructor; inversion B; inversion N; inversion S; subst; auto.
  rewrite Forall_forall in *. intros x X. assert (BX : is_bytes (tg_name x)) by auto.
  destruct (strcmp_before (tg_name t) (tg_name x)) as [[C1 C2] [C3 C4]]; auto. apply C1.
  match goal with H : forall y, In y ts -> sort_tag t y <= 0 |- _ => specialize (H x X); unfold sort_tag in H end.
  assert (strcmp (tg_name t) (tg_name x) <> 0); [|lia]. intros Z'. apply C3 in Z'.
  match goal with H : ~ In (tg_name t) _ |- _ => apply H end. rewrite Z'. now apply in_map.
Qed.

(** Files without NUL: whatever qsort does with equal elements, the tags file
    is the same. *)
Theorem C78_determined fs q1 q2 can_write run args : plain fs ->
  (forall path c, find_file fs path = Some c -> ~ In 0 c) -> sorts q1 -> sorts q2 ->
  (forall file, exists ok evs, run file = (ok, evs) /\ assembles fs file ok evs) ->
  main q1 can_write run args = main q2 can_write run args.
Proof.
  intros PL NZ Q1 Q2 R. unfold main. destruct (parse_args None None args) as [| |out inp]; auto.
  destruct (R inp) as (ok & evs & -> & A). destruct (_ && _); auto. destruct (negb _); auto. do 6 f_equal.
  destruct (Q1 (tags evs)) as [P1 S1], (Q2 (tags evs)) as [P2 S2].
  assert (B : Forall (fun t => is_bytes (tg_name t)) (tags evs)).
  { apply Forall_forall. intros t T. destruct (tag_props _ _ _ _ t PL A T) as (_ & C & _). eapply Forall_impl; [|exact C].
    intros x [[(path & c & F & I)|I] _]; cbv beta; [|vm_compute in I; lia]. pose proof (PL _ _ F) as X. rewrite Forall_forall in X. specialize (X _ I).
    assert (x <> 0) by (intros ->; exact (NZ _ _ F I)). lia. }
  pose proof (tags_names _ _ _ _ PL A) as N.
  apply (sorted_unique (fun a b => before (tg_name a) (tg_name b))).
  - intros a b H1 H2. apply (before_irrefl (tg_name a)). eapply before_trans; eauto.
  - apply strict_sort; auto; [eapply Permutation_Forall; eauto|eapply Permutation_NoDup; [apply Permutation_map; exact P1|exact N]].
  - apply strict_sort; auto; [eapply Permutation_Forall; eauto|eapply Permutation_NoDup; [apply Permutation_map; exact P2|exact N]].
  - eapply Permutation_trans; [apply Permutation_sym; exact P1|exact P2].
Qed.
Print Assumptions C78_determined.

(** *** The file *)
Lemma ordinary_plain fs : ordinary fs -> plain fs.
Proof. intros O path c F. destruct (O path c F) as [A _]. eapply Forall_impl; [|exact A]. cbv beta. intros x X. lia. Qed.
Lemma ordinary_caret fs : ordinary fs -> ~ occurs fs 94.
Proof. intros O (path & c & F & I). destruct (O path c F) as [A _]. rewrite Forall_forall in A. specialize (A _ I). lia. Qed.
Lemma ordinary_char fs x : ordinary fs -> char_ok fs x -> 33 <= x < 256.
Proof.
  intros O [[(path & c & F & I)|I] [X|X]]; try (destruct (ordinary_caret _ O X)).
  - destruct (O path c F) as [A _]. rewrite Forall_forall in A. specialize (A _ I). unfold is_sep in X. cbn [existsb] in X.
    repeat (apply orb_false_iff in X as [? X]). lia.
  - vm_compute in I. lia.
Qed.
Lemma ordinary_tag fs file ok evs t : ordinary fs -> assembles fs file ok evs -> In t (tags evs) ->
  Forall (fun x => 33 <= x < 256) (tg_name t) /\ good_name (tg_name t) /\ Forall (fun x => 32 <= x < 256) (tg_file t) /\ 0 <= tg_byte t.
Proof.
  intros O A I. destruct (tag_props _ _ _ _ t (ordinary_plain _ O) A I) as (G & C & c & F & pre & post & E & B).
  split; [eapply Forall_impl; [|exact C]; intros; eapply ordinary_char; eauto|]. split; auto. split; [apply (O _ _ F)|].
  rewrite B. unfold len. lia.
Qed.
Lemma no_char (lo hi sep : Z) l : sep < lo -> Forall (fun x => lo <= x < hi) l -> ~ In sep l.
Proof. intros S F I. rewrite Forall_forall in F. specialize (F _ I). lia. Qed.
Lemma digits_char l sep : sep < 48 -> Forall (fun c => is_digit c = true) l -> ~ In sep l.
Proof. intros S F I. rewrite Forall_forall in F. specialize (F _ I). unfold is_digit in F. lia. Qed.

Definition line_of (t : tag) : str :=
  tg_name t ++ [9] ++ tg_file t ++ [9] ++ bytes "go " ++ decimal 20 (tg_byte t + 1) ++ bytes "|;""" ++ [9] ++ [tg_kind t].
Lemma line_of_ok t : Forall (fun x => 33 <= x < 256) (tg_name t) -> Forall (fun x => 32 <= x < 256) (tg_file t) -> 0 <= tg_byte t ->
  tg_kind t = 108 \/ tg_kind t = 109 ->
  tag_line t = line_of t ++ [10] /\ ~ In 10 (line_of t) /\ line_says (line_of t) (entry_of t).
Proof.
  intros N F B K. assert (ND : forall sep, sep < 48 -> ~ In sep (decimal 20 (tg_byte t + 1))) by (intros; apply digits_char; [lia|apply decimal_digits; lia]).
  assert (NN : forall sep, sep < 33 -> ~ In sep (tg_name t)) by (intros; eapply no_char; [|exact N]; lia).
  assert (NF : forall sep, sep < 32 -> ~ In sep (tg_file t)) by (intros; eapply no_char; [|exact F]; lia).
  assert (N3 : forall sep, sep = 9 \/ sep = 10 -> ~ In sep (bytes "go " ++ decimal 20 (tg_byte t + 1) ++ bytes "|;""")).
  { intros sep S. rewrite !in_app_iff. intros [I|[I|I]]; [vm_compute in I; lia|revert I; apply ND; lia|vm_compute in I; lia]. }
  split; [|split].
  - unfold tag_line, line_of. rewrite !c_str_id by (try apply NN; try apply NF; lia).
    replace (u8 (tg_kind t)) with (tg_kind t) by (destruct K as [-> | ->]; reflexivity). now rewrite <- !app_assoc.
  - unfold line_of. intros I. rewrite app_assoc_reverse in I || idtac.
    replace (tg_name t ++ [9] ++ tg_file t ++ [9] ++ bytes "go " ++ decimal 20 (tg_byte t + 1) ++ bytes "|;""" ++ [9] ++ [tg_kind t])
      with (tg_name t ++ [9] ++ tg_file t ++ [9] ++ (bytes "go " ++ decimal 20 (tg_byte t + 1) ++ bytes "|;""") ++ [9] ++ [tg_kind t]) in I by (rewrite <- !app_assoc; reflexivity).
    rewrite !(in_app_iff (tg_name t)), (in_app_iff [9]), (in_app_iff (tg_file t)), (in_app_iff [9]), (in_app_iff (bytes "go " ++ _)), (in_app_iff [9]) in I.
    destruct I as [I|[I|[I|[I|[I|[I|I]]]]]]; try (cbn in I; lia); revert I; [apply NN; lia|apply NF; lia|apply N3; lia].
  - unfold line_says, entry_of, line_of.
    replace (tg_name t ++ [9] ++ tg_file t ++ [9] ++ bytes "go " ++ decimal 20 (tg_byte t + 1) ++ bytes "|;""" ++ [9] ++ [tg_kind t])
      with (tg_name t ++ 9 :: tg_file t ++ 9 :: (bytes "go " ++ decimal 20 (tg_byte t + 1) ++ bytes "|;""") ++ 9 :: [tg_kind t]) by (cbn [app]; rewrite <- !app_assoc; reflexivity).
    rewrite !split_app by first [apply NN; lia|apply NF; lia|apply N3; lia].
    rewrite split_none by (cbn; lia). reflexivity.
Qed.

Definition header_line : str := bytes "!_TAG_FILE_SORTED" ++ [9] ++ bytes "1" ++ [9] ++ bytes "buxn-ctags".
Lemma split_lines ls : Forall (fun l => ~ In 10 l) ls -> split 10 (List.concat (map (fun l => l ++ [10]) ls)) = ls ++ [[]].
Proof.
  induction 1 as [|l ls N F IH]; [reflexivity|]. cbn [map List.concat]. rewrite <- app_assoc. cbn [app]. rewrite split_app by auto. now rewrite IH.
Qed.

(** Source files as described above: the tags file has one line for each
    definition, the whole file is in order, and the exit code is 0; also if the
    program has errors, as long as something is defined. *)
Theorem C78_tags_file fs q can_write run out inp ok evs :
  ordinary fs -> sorts q -> run inp = (ok, evs) -> assembles fs inp ok evs -> can_write out = true ->
  (forall r, inp <> bytes "--help" ++ r) -> (forall r, inp <> bytes "-output=" ++ r) ->
  ok = true \/ (exists e, defines_tag evs e) ->
  exists content lines entries,
    main q can_write run [bytes "-output=" ++ out; inp] = (0, Some (out, content)) /\
    split 10 content = header_line :: lines ++ [[]] /\
    split 9 header_line = [bytes "!_TAG_FILE_SORTED"; bytes "1"; bytes "buxn-ctags"] /\
    Forall2 line_says lines entries /\
    StronglySorted before (bytes "!_TAG_FILE_SORTED" :: map e_name entries) /\
    (forall e, In e entries <-> defines_tag evs e).
Proof.
  intros O Q R A W I1 I2 NE. pose proof (ordinary_plain _ O) as PL. destruct (Q (tags evs)) as [P S].
  assert (T : forall t, In t (q (tags evs)) -> In t (tags evs)) by (intros t; apply Permutation_in, Permutation_sym, P).
  assert (TK : forall t, In t (tags evs) -> tg_kind t = 108 \/ tg_kind t = 109).
  { intros t I. apply in_flat_map in I as (e & _ & I). destruct e; try contradiction. cbn in I. destruct (s_type sym); try contradiction.
    - destruct I as [<-|[]]. auto.
    - destruct (s_gen sym); [contradiction|]. destruct I as [<-|[]]. auto. }
  assert (L : forall t, In t (q (tags evs)) -> tag_line t = line_of t ++ [10] /\ ~ In 10 (line_of t) /\ line_says (line_of t) (entry_of t)).
  { intros t I. destruct (ordinary_tag _ _ _ _ t O A (T t I)) as (N & _ & F & B). apply line_of_ok; auto. }
  exists (header ++ List.concat (map tag_line (q (tags evs)))), (map line_of (q (tags evs))), (map entry_of (q (tags evs))).
  split; [|split; [|split; [reflexivity|split; [|split]]]].
  - unfold main. change (parse_args None None [bytes "-output=" ++ out; inp]) with (parse_args (Some out) None [inp]). cbn [parse_args].
    destruct (parse_flag inp (bytes "--help")) as [r|] eqn:X; [apply parse_flag_some in X; destruct (I1 _ X)|].
    destruct (parse_flag inp (bytes "-output=")) as [r|] eqn:Y; [apply parse_flag_some in Y; destruct (I2 _ Y)|].
    rewrite R, W. cbn [negb]. replace (negb ok && _) with false; [reflexivity|].
    destruct NE as [->|[e E]]; [reflexivity|]. apply (tags_spec _ _ _ _ PL A) in E. destruct (tags evs); [destruct E|]. now rewrite andb_false_r.
  - replace (header ++ List.concat (map tag_line (q (tags evs)))) with (List.concat (map (fun l => l ++ [10]) (header_line :: map line_of (q (tags evs))))).
    + rewrite split_lines; [reflexivity|]. constructor; [vm_compute; lia|]. apply Forall_forall. intros l I. apply in_map_iff in I as (t & <- & I). now apply L.
    + cbn [map List.concat]. change (header_line ++ [10]) with header. f_equal. f_equal. rewrite map_map. apply map_ext_in. intros t I. symmetry. now apply L.
  - assert (G : forall l, (forall t, In t l -> line_says (line_of t) (entry_of t)) -> Forall2 line_says (map line_of l) (map entry_of l)).
    { induction l as [|t l IH]; intros H; constructor; [apply H; now left|apply IH; intros; apply H; now right]. }
    apply G. intros t I. now apply L.
  - rewrite map_map. replace (map (fun x => e_name (entry_of x)) (q (tags evs))) with (map tg_name (q (tags evs))) by reflexivity.
    assert (SB : StronglySorted (fun a b => before (tg_name a) (tg_name b)) (q (tags evs))).
    { apply strict_sort; auto.
      - apply Forall_forall. intros t I. destruct (ordinary_tag _ _ _ _ t O A (T t I)) as (N & _). eapply Forall_impl; [|exact N]. cbv beta. intros; lia.
      - eapply Permutation_NoDup; [apply Permutation_map; exact P|]. eapply tags_names; eauto. }
    constructor.
    + clear - SB. induction SB as [|t l SS IH F]; cbn; constructor; auto. apply Forall_forall. intros n I. apply in_map_iff in I as (x & <- & I). rewrite Forall_forall in F. now apply F.
    + apply Forall_forall. intros n I. apply in_map_iff in I as (t & <- & I). destruct (ordinary_tag _ _ _ _ t O A (T t I)) as (N & G & _).
      destruct (tg_name t) as [|x l]; [destruct G|]. inversion N; subst. assert (x <> 33) by (intros ->; discriminate G).
      apply (before_less 33 x). lia.
  - intros e. rewrite <- (tags_spec _ _ _ _ PL A). split; intros I; eapply Permutation_in; try exact I; apply Permutation_map; [apply Permutation_sym|]; exact P.
Qed.
Print Assumptions C78_tags_file.

(** The command of an entry leads to the definition. *)
Theorem C78_jump fs inp ok evs : ordinary fs -> assembles fs inp ok evs -> forall n f k kind, defines_tag evs (n, f, k, kind) ->
  exists above word below, find_file fs f = Some (above ++ word ++ below) /\ k = len above + 1 /\
    (kind = 108 /\ (word = bytes "@" ++ n \/ exists scope local, n = scope ++ bytes "/" ++ local /\ word = bytes "&" ++ local) \/
     kind = 109 /\ word = bytes "%" ++ n).
Proof.
  intros O A n f k kind (a & s & n' & I & N & D). pose proof (ordinary_plain _ O) as PL.
  destruct (C76_symbols _ _ _ _ PL A a s I) as (c & RI).
  destruct (C76_definitions _ _ _ _ PL A a s c I RI) as [DL DM]. destruct RI as (F & (pre & post & E & P) & (pre2 & post2 & E2 & P2) & LE).
  pose proof (ends_byte _ _ P) as B. pose proof (ends_byte _ _ P2) as B2.
  set (w := text c (s_reg s)) in *.
  assert (TX : c = pre ++ w ++ skipn (Z.to_nat (byte (r_end (s_reg s)) - byte (r_start (s_reg s)))) post).
  { unfold w, text. rewrite B. unfold len. rewrite Nat2Z.id. rewrite E at 2. rewrite skipn_app, skipn_all, Nat.sub_diag. cbn [app skipn].
    rewrite firstn_skipn. exact E. }
  assert (NC : ~ In 94 w).
  { intros X. apply (ordinary_caret _ O). exists (r_file (s_reg s)), c. split; auto. rewrite TX, !in_app_iff. auto. }
  exists pre, w, (skipn (Z.to_nat (byte (r_end (s_reg s)) - byte (r_start (s_reg s)))) post).
  destruct D as [(T & G & [= -> -> -> ->])|(T & [= -> -> -> ->])]; rewrite <- TX; (split; [exact F|split; [lia|]]).
  - left. split; auto. destruct (DL T G) as (n & N2 & X). rewrite N in N2. injection N2 as <-. destruct X as [X|[X|X]]; [left; exact X|right; exact X|contradiction].
  - right. split; auto. destruct (DM T) as (n & N2 & X). rewrite N in N2. injection N2 as <-. destruct X as [X|X]; [exact X|contradiction].
Qed.
Print Assumptions C78_jump.

(** An error that leaves nothing to write: exit code 1, and an old tags file is
    left alone. *)
Theorem C78_nothing_found fs q can_write run args evs inp out : plain fs -> parse_args None None args = ORun out inp ->
  run inp = (false, evs) -> assembles fs inp false evs -> (forall e, ~ defines_tag evs e) -> main q can_write run args = (1, None).
Proof.
  intros PL PA R A N. unfold main. rewrite PA, R. destruct (tags evs) as [|t ts] eqn:T; [reflexivity|].
  exfalso. apply (N (entry_of t)). apply (tags_spec _ _ _ _ PL A). rewrite T. now left.
Qed.
Print Assumptions C78_nothing_found.
(** A tags file that cannot be written makes the exit code 1, and nothing is
    written anywhere. *)
Theorem C78_cannot_write q can_write run args inp out : parse_args None None args = ORun out inp -> can_write out = false -> main q can_write run args = (1, None).
Proof. intros PA C. unfold main. rewrite PA. destruct (run inp) as [ok evs]. rewrite C. cbn [negb]. now destruct (negb ok && _). Qed.
Print Assumptions C78_cannot_write.
Example C78_cannot_write_case : parse_args None None [bytes "-output=/x/tags"; bytes "a"] = ORun (bytes "/x/tags") (bytes "a") /\
  forall run, main (fun l => l) (fun _ => false) run [bytes "-output=/x/tags"; bytes "a"] = (1, None).
Proof. split; [reflexivity|]. intros run. now apply (C78_cannot_write _ _ _ _ (bytes "a") (bytes "/x/tags")). Qed.

(** The options: one input and at most one output, in any order; the default
    output is "tags". *)
Theorem C78_options q can_write run out inp : (forall r, inp <> bytes "--help" ++ r) -> (forall r, inp <> bytes "-output=" ++ r) ->
  main q can_write run [inp; bytes "-output=" ++ out] = main q can_write run [bytes "-output=" ++ out; inp] /\
  main q can_write run [inp] = main q can_write run [bytes "-output=tags"; inp] /\
  main q can_write run [] = (1, None) /\
  main q can_write run [bytes "-output=" ++ out] = (1, None) /\
  main q can_write run [inp; inp] = (1, None) /\
  main q can_write run [bytes "-output=" ++ out; bytes "-output=" ++ out; inp] = (1, None).
Proof.
  intros I1 I2.
  assert (P : parse_flag inp (bytes "--help") = None) by (destruct (parse_flag inp (bytes "--help")) as [r|] eqn:X; [apply parse_flag_some in X; destruct (I1 _ X)|reflexivity]).
  assert (Q : parse_flag inp (bytes "-output=") = None) by (destruct (parse_flag inp (bytes "-output=")) as [r|] eqn:X; [apply parse_flag_some in X; destruct (I2 _ X)|reflexivity]).
  assert (H : forall o i rest, parse_args o i ((bytes "-output=" ++ out) :: rest) = match o with Some _ => OWrong | None => parse_args (Some out) i rest end) by reflexivity.
  assert (H' : forall i rest, parse_args None i (bytes "-output=tags" :: rest) = parse_args (Some (bytes "tags")) i rest) by reflexivity.
  unfold main. repeat split; rewrite ?H, ?H'; cbn [parse_args]; rewrite ?P, ?Q, ?H; try reflexivity.
Qed.
Print Assumptions C78_options.

(** *** A case *)
Fixpoint insert (t : tag) (l : list tag) : list tag :=
  match l with [] => [t] | u :: l' => if sort_tag t u <=? 0 then t :: l else u :: insert t l' end.
Definition isort (l : list tag) : list tag := fold_right insert [] l.
Lemma cmp_flip : forall a b, 0 < cmp a b -> cmp b a <= 0.
Proof.
  induction a as [|x a IH]; destruct b as [|y b]; cbn [cmp]; intros H; try lia.
  destruct (Z.eqb_spec (u8 x) (u8 y)) as [E|E]; destruct (Z.eqb_spec (u8 y) (u8 x)); try congruence; [auto|lia].
Qed.
Lemma cmp_trans : forall a b c, cmp a b <= 0 -> cmp b c <= 0 -> cmp a c <= 0.
Proof.
  induction a as [|x a IH]; destruct b as [|y b]; destruct c as [|z c]; cbn [cmp]; intros H J; try lia.
  destruct (Z.eqb_spec (u8 x) (u8 y)); destruct (Z.eqb_spec (u8 y) (u8 z)); destruct (Z.eqb_spec (u8 x) (u8 z)); try congruence; eauto; lia.
Qed.
Lemma insert_perm t l : Permutation (t :: l) (insert t l).
Proof. induction l as [|u l IH]; cbn; [reflexivity|]. destruct (_ <=? _); [reflexivity|]. rewrite perm_swap. now constructor. Qed.
Lemma insert_sorted t l : StronglySorted (fun a b => sort_tag a b <= 0) l -> StronglySorted (fun a b => sort_tag a b <= 0) (insert t l).
Proof.
  induction 1 as [|u l S IH F]; cbn; [repeat constructor|]. destruct (Z.leb_spec (sort_tag t u) 0) as [L|L].
  - constructor; [now constructor|]. constructor; [auto|]. eapply Forall_impl; [|exact F]. intros v. apply cmp_trans. exact L.
  - constructor; auto. apply Forall_forall. intros v I. eapply Permutation_in in I; [|apply Permutation_sym, insert_perm].
    destruct I as [<-|I]; [apply cmp_flip; exact L|]. rewrite Forall_forall in F. auto.
Qed.
Lemma isort_sorts : sorts isort.
Proof.
  intros l. induction l as [|t l [P S]]; cbn; [split; constructor|]. split; [rewrite <- insert_perm; now constructor|now apply insert_sorted].
Qed.

Definition source : str := bytes "@run BRK &b JMP %twice { DUP }" ++ [10] ++ bytes "@apple".
Definition files_of (out : Z * option (str * str)) : list (list str) :=
  match out with (_, Some (_, c)) => map (split 9) (split 10 c) | _ => [] end.
Example C78_case :
  ordinary (Props_Asm.one source) /\ assembles (Props_Asm.one source) (bytes "a") true (evs_of source) /\ sorts isort /\
  files_of (main isort (fun _ => true) (fun _ => (true, evs_of source)) [bytes "-output=t"; bytes "a"]) =
    [[bytes "!_TAG_FILE_SORTED"; bytes "1"; bytes "buxn-ctags"]; 
     [bytes "apple"; bytes "a"; bytes "go 32|;"""; bytes "l"]; [bytes "run"; bytes "a"; bytes "go 1|;"""; bytes "l"];
     [bytes "run/b"; bytes "a"; bytes "go 10|;"""; bytes "l"]; [bytes "twice"; bytes "a"; bytes "go 17|;"""; bytes "m"]; [[]]].
Proof.
  split; [|split; [|split; [exact isort_sorts|]]].
  - intros path c. unfold Props_Asm.one. cbn [find_file]. destruct (str_dec _ _) as [<-|]; [intros [= <-]|discriminate].
    split; apply Forall_forall; intros x X; vm_compute in X; lia.
  - assembled.
  - vm_compute. reflexivity.
Qed.

(** A macro can make a label of a text with a newline; its tag is broken in two
    lines, and the first of them has no fields. *)
Definition broken : str := bytes "%m: { @a^ } m: "" x" ++ [10] ++ bytes "y "" BRK".
Theorem C78_macro_name_refuted : ~ forall fs q can_write run out inp ok evs content line,
  (forall path c, find_file fs path = Some c -> Forall (fun x => 32 <= x < 127 \/ x = 9 \/ x = 10) c /\ Forall (fun x => 32 <= x < 256) path) ->
  sorts q -> run inp = (ok, evs) -> assembles fs inp ok evs ->
  main q can_write run [bytes "-output=" ++ out; inp] = (0, Some (out, content)) ->
  In line (split 10 content) -> line <> [] -> In 9 line.
Proof.
  intros H.
  assert (Q : forall path c, find_file (Props_Asm.one broken) path = Some c -> Forall (fun x => 32 <= x < 127 \/ x = 9 \/ x = 10) c /\ Forall (fun x => 32 <= x < 256) path).
  { intros path c. unfold Props_Asm.one. cbn [find_file]. destruct (str_dec _ _) as [<-|]; [intros [= <-]|discriminate].
    split; apply Forall_forall; intros x X; vm_compute in X; lia. }
  assert (A : assembles (Props_Asm.one broken) (bytes "a") true (evs_of broken)) by assembled.
  let v := eval vm_compute in (main isort (fun _ => true) (fun _ => (true, evs_of broken)) [bytes "-output=t"; bytes "a"]) in set (res := v).
  assert (M : main isort (fun _ => true) (fun _ => (true, evs_of broken)) [bytes "-output=t"; bytes "a"] = res) by (vm_compute; reflexivity).
  unfold res in M. clear res.
  assert (X : In 9 (bytes "a""x")).
  { refine (H _ isort (fun _ => true) (fun _ => (true, evs_of broken)) (bytes "t") _ _ _ _ (bytes "a""x") Q isort_sorts eq_refl A M _ _).
    - vm_compute. auto 20.
    - discriminate. }
  clear - X. vm_compute in X. lia.
Qed.
Print Assumptions C78_macro_name_refuted.
