(** The interactive assembler (C95 - C97). *)
From Verif Require Import Base VmModel AsmModel ChessModel ValueSpec SigSpec ReplModel ReplSpec Props_ChessRead.
From Verif Require AsmWords.
From Coq Require Import ZifyBool String Lia.
Open Scope list_scope.
Ltac Zify.zify_post_hook ::= Z.div_mod_to_equations.

(** ** The text of a value *)
Lemma printed_short : forall s, (List.length s <= 255)%nat -> printed s = s.
Proof.
  intros s H. unfold printed. apply firstn_all2. unfold u8. lia.
Qed.
Lemma format_value_text : forall v, fits v -> format_value v = bytes " " ++ word_of v.
Proof.
  intros v H. unfold format_value. unfold fits, word_of in H.
  change (bytes "[") with [91] in H. change (bytes "]") with [93] in H. change (bytes "*") with [42] in H.
  rewrite printed_short; [reflexivity|]. cbn [List.app List.length]. lia.
Qed.
Lemma pad_aligned : forall n s, right_aligned n s (pad n s).
Proof. intros n s. unfold right_aligned, pad. eexists. split; [reflexivity|]. rewrite app_length, repeat_length. lia. Qed.

Lemma low_two : forall b, 0 <= b < 256 -> two_digits low_hex b (hex02 b).
Proof.
  intros b H. exists (Z.to_nat (b / 16)), (Z.to_nat (b mod 16)), (low_digit (b / 16 mod 16)), (low_digit (b mod 16)).
  assert (D : forall d, 0 <= d < 16 -> nth_error low_hex (Z.to_nat d) = Some (low_digit d)).
  { intros d Hd. assert (E : List.In d [0;1;2;3;4;5;6;7;8;9;10;11;12;13;14;15]) by (cbn [List.In]; lia).
    cbn [List.In] in E. repeat (destruct E as [<- | E]; [reflexivity|]). destruct E. }
  rewrite (Z.mod_small (b / 16) 16) by lia. rewrite !D by lia.
  split; [reflexivity|]. split; [reflexivity|]. split; [unfold hex02; rewrite (Z.mod_small (b / 16) 16) by lia; reflexivity|]. lia.
Qed.
Lemma up_two : forall b, 0 <= b < 256 -> two_digits up_hex b (HEX02 b).
Proof.
  intros b H. exists (Z.to_nat (b / 16)), (Z.to_nat (b mod 16)), (up_digit (b / 16 mod 16)), (up_digit (b mod 16)).
  assert (D : forall d, 0 <= d < 16 -> nth_error up_hex (Z.to_nat d) = Some (up_digit d)).
  { intros d Hd. assert (E : List.In d [0;1;2;3;4;5;6;7;8;9;10;11;12;13;14;15]) by (cbn [List.In]; lia).
    cbn [List.In] in E. repeat (destruct E as [<- | E]; [reflexivity|]). destruct E. }
  rewrite (Z.mod_small (b / 16) 16) by lia. rewrite !D by lia.
  split; [reflexivity|]. split; [reflexivity|]. split; [unfold HEX02; rewrite (Z.mod_small (b / 16) 16) by lia; reflexivity|]. lia.
Qed.
Lemma hex04_two : forall hi lo, 0 <= hi < 256 -> 0 <= lo < 256 -> hex04 (Z.lor (Z.shiftl hi 8) lo) = hex02 hi ++ hex02 lo.
Proof.
  intros hi lo A B. assert (E : Z.lor (Z.shiftl hi 8) lo = hi * 256 + lo).
  { rewrite Z.shiftl_mul_pow2 by lia. change (2 ^ 8) with 256.
    rewrite <- Z.lxor_lor.
    - rewrite <- Z.add_nocarry_lxor; [reflexivity|].
      apply Z.bits_inj'. intros n Hn. rewrite Z.land_spec, Z.bits_0. change 256 with (2 ^ 8).
      destruct (Z.ltb_spec n 8); [rewrite Z.mul_pow2_bits_low by lia; reflexivity|].
      replace (Z.testbit lo n) with false; [apply andb_false_r|]. symmetry.
      destruct (Z.eq_dec lo 0) as [-> |]; [apply Z.bits_0|]. apply Z.bits_above_log2; [lia|].
      apply Z.lt_le_trans with 8; [|lia]. apply Z.log2_lt_pow2; [lia|]. change (2 ^ 8) with 256. lia.
    - apply Z.bits_inj'. intros n Hn. rewrite Z.land_spec, Z.bits_0. change 256 with (2 ^ 8).
      destruct (Z.ltb_spec n 8); [rewrite Z.mul_pow2_bits_low by lia; reflexivity|].
      replace (Z.testbit lo n) with false; [apply andb_false_r|]. symmetry.
      destruct (Z.eq_dec lo 0) as [-> |]; [apply Z.bits_0|]. apply Z.bits_above_log2; [lia|].
      apply Z.lt_le_trans with 8; [|lia]. apply Z.log2_lt_pow2; [lia|]. change (2 ^ 8) with 256. lia. }
  rewrite E. unfold hex04, hex02. cbn [List.app].
  replace ((hi * 256 + lo) / 4096 mod 16) with (hi / 16 mod 16) by lia.
  replace ((hi * 256 + lo) / 256 mod 16) with (hi mod 16) by lia.
  replace ((hi * 256 + lo) / 16 mod 16) with (lo / 16 mod 16) by lia.
  replace ((hi * 256 + lo) mod 16) with (lo mod 16) by lia. reflexivity.
Qed.

Definition bytes_ok (a : arr) : Prop := forall i, 0 <= a i < 256.
Lemma cells_row_ok : forall columns a l k, bytes_ok a -> 0 <= k -> k + width l <= 255 ->
  exists fs cs, cells_row columns a k l = Ok (List.concat (map (fun s => bytes "|" ++ s) cs)) /\
    fields (map (fun i => a (k + Z.of_nat i)) (seq 0 (Z.to_nat (width l)))) l fs /\
    Forall2 (fun p c => right_aligned (column columns (fst p)) (snd p) c) (combine l fs) cs.
Proof.
  intros columns a l. assert (W : forall l, 0 <= width l) by (clear; induction l as [|v l IH]; cbn [width]; [lia|destruct (n_short v); lia]).
  induction l as [|v l IH]; intros k A K B.
  - exists [], []. cbn. repeat split; constructor.
  - cbn [width] in *. specialize (W l). cbn [cells_row].
    assert (C : forall i, 0 <= i < 256 -> cell a i = Ok (a i)).
    { intros i Hi. unfold cell. replace ((0 <=? i) && (i <? 256)) with true by lia. reflexivity. }
    destruct (n_short v) eqn:Hs.
    + rewrite !C by lia. cbn [rbind]. unfold u8 at 1. rewrite (Z.mod_small (k + 2) 256) by lia.
      destruct (IH (k + 2) A) as (fs & cs & E & F & G); [lia|lia|]. rewrite E. cbn [rbind]. rewrite hex04_two by apply A.
      exists ((hex02 (a k) ++ hex02 (a (k + 1))) :: fs); eexists (_ :: cs). split; [cbn [map List.concat]; rewrite <- app_assoc; reflexivity|]. split.
      * replace (Z.to_nat (2 + width l)) with (S (S (Z.to_nat (width l)))) by lia. cbn [seq map].
        rewrite Z.add_0_r. apply fields_short; [exact Hs|apply low_two, A|apply low_two; apply A|].
        rewrite <- seq_shift, map_map, <- seq_shift, map_map. erewrite map_ext; [exact F|]. intros i. cbn beta. f_equal. lia.
      * cbn [combine]. constructor; [apply pad_aligned|exact G].
    + rewrite !C by lia. cbn [rbind]. unfold u8 at 1. rewrite (Z.mod_small (k + 1) 256) by lia.
      destruct (IH (k + 1) A) as (fs & cs & E & F & G); [lia|lia|]. rewrite E. cbn [rbind].
      exists (hex02 (a k) :: fs); eexists (_ :: cs). split; [cbn [map List.concat]; rewrite <- app_assoc; reflexivity|]. split.
      * replace (Z.to_nat (1 + width l)) with (S (Z.to_nat (width l))) by lia. cbn [seq map].
        rewrite Z.add_0_r. apply fields_byte; [exact Hs|apply low_two, A|].
        rewrite <- seq_shift, map_map. erewrite map_ext; [exact F|]. intros i. cbn beta. f_equal. lia.
      * cbn [combine]. constructor; [apply pad_aligned|exact G].
Qed.

Lemma raw_row_ok : forall a n k, bytes_ok a -> exists fs, raw_row a k n = List.concat (map (fun s => bytes " " ++ s) fs) /\
  Forall2 (two_digits up_hex) (map (fun i => a (k + Z.of_nat i)) (seq 0 n)) fs.
Proof.
  intros a n. induction n as [|n IH]; intros k A; [exists []; split; [reflexivity|constructor]|].
  destruct (IH (k + 1) A) as (fs & E & F). exists (HEX02 (a k) :: fs). cbn [raw_row]. rewrite E.
  split; [cbn [map List.concat]; rewrite <- app_assoc; reflexivity|].
  cbn [seq map]. rewrite Z.add_0_r. constructor; [apply up_two, A|]. rewrite <- seq_shift, map_map.
  erewrite map_ext; [exact F|]. intros i. cbn beta. f_equal. lia.
Qed.
Lemma heads_ok : forall l, Forall fits l -> exists hs, List.concat (map head l) = List.concat (map (fun s => bytes "|" ++ s) hs) /\
  Forall2 (fun v h => right_aligned (least v) (bytes " " ++ word_of v) h) l hs.
Proof.
  induction 1 as [|v l H _ (hs & E & F)]; [exists []; split; [reflexivity|constructor]|].
  exists (pad (least v) (format_value v) :: hs). cbn [map List.concat]. rewrite E. split; [unfold head, min_size, least; rewrite <- app_assoc; reflexivity|].
  constructor; [|exact F]. rewrite <- format_value_text by exact H. apply pad_aligned.
Qed.

(** ** C95 *)

(** The table: the names over the bytes of the machine, cut into the values that
    the type checker has on its stack. *)
Theorem C95_table_shows_the_stack : forall columns name k a,
  (forall i, 0 <= a i < 256) -> Forall fits (p_vals k) -> p_size k = width (p_vals k) -> p_size k <= 255 ->
  exists hs fs cs,
    print_stack columns name k a (p_size k) = Ok (name ++ bytes ":" ++ row hs ++ repeat 32 (List.length name) ++ bytes " " ++ row cs) /\
    Forall2 (fun v h => right_aligned (least v) (bytes " " ++ word_of v) h) (p_vals k) hs /\
    fields (stack_bytes a (Z.to_nat (p_size k))) (p_vals k) fs /\
    Forall2 (fun p c => right_aligned (Z.max (least (fst p)) (columns (bytes " " ++ word_of (fst p)))) (snd p) c) (combine (p_vals k) fs) cs.
Proof.
  intros columns name k a A F S1 S2. destruct (heads_ok _ F) as (hs & H1 & H2).
  destruct (cells_row_ok columns a (p_vals k) 0 A) as (fs & cs & C1 & C2 & C3); [lia|lia|].
  exists hs, fs, cs. unfold print_stack. rewrite Z.eqb_refl, C1, H1. cbn [rbind]. split; [|split; [exact H2|split]].
  - f_equal. unfold row. rewrite <- !app_assoc. unfold pad. rewrite app_nil_r. cbn [List.length]. replace (Z.to_nat (Z.of_nat (List.length name) - Z.of_nat 0)) with (List.length name) by lia. reflexivity.
  - rewrite S1. unfold stack_bytes. erewrite map_ext; [exact C2|]. intros i; reflexivity.
  - clear -C3 F. revert cs fs C3. induction F as [|v l H F IH]; intros cs [|s fs] C3; cbn [combine] in *; inversion C3; subst; constructor.
    + cbn [fst snd] in *. rewrite <- format_value_text by exact H. unfold column, min_size in *. fold (least v) in *.
      replace (Z.max (least v) (columns (format_value v))) with (if least v <=? columns (format_value v) then columns (format_value v) else least v) by (destruct (Z.leb_spec (least v) (columns (format_value v))); lia). assumption.
    + apply IH. assumption.
Qed.

(** With names of one column for each character the bars are under each other. *)
Theorem C95_columns_line_up : forall columns name k a hs fs cs,
  Forall (fun v => columns (bytes " " ++ word_of v) = Z.of_nat (List.length (bytes " " ++ word_of v))) (p_vals k) ->
  Forall2 (fun v h => right_aligned (least v) (bytes " " ++ word_of v) h) (p_vals k) hs ->
  fields (stack_bytes a (Z.to_nat (p_size k))) (p_vals k) fs ->
  Forall2 (fun p c => right_aligned (Z.max (least (fst p)) (columns (bytes " " ++ word_of (fst p)))) (snd p) c) (combine (p_vals k) fs) cs ->
  map (@List.length Z) hs = map (@List.length Z) cs /\ List.length (bytes " " ++ name) = List.length (name ++ bytes ":").
Proof.
  intros columns name k a hs fs cs O H F C. split; [|rewrite !app_length; change (List.length (bytes " ")) with 1%nat; change (List.length (bytes ":")) with 1%nat; lia].
  revert hs cs H C O. induction F; intros hs cs X C O; inversion X; subst; inversion C; subst; [reflexivity| |]; inversion O; subst; cbn [map]; f_equal; eauto;
    match goal with A : right_aligned _ _ ?h, B : right_aligned _ _ ?c |- List.length ?h = List.length ?c => destruct A as (? & _ & A), B as (? & _ & B) end; cbn [fst snd] in *;
    repeat match goal with T : two_digits _ _ _ |- _ => destruct T as (? & ? & ? & ? & _ & _ & -> & _) end; cbn [List.length List.app] in *; unfold least in *;
    match goal with E : n_short _ = _ |- _ => rewrite E in * end; lia.
Qed.

(** When the sizes differ, all bytes of the machine are shown. *)
Theorem C95_raw_bytes_otherwise : forall columns name k a size,
  (forall i, 0 <= a i < 256) -> size <> p_size k ->
  exists fs, print_stack columns name k a size = Ok (name ++ bytes ":" ++ List.concat (map (fun s => bytes " " ++ s) fs) ++ [10]) /\
    Forall2 (two_digits up_hex) (stack_bytes a (Z.to_nat size)) fs.
Proof.
  intros columns name k a size A N. unfold print_stack. replace (size =? p_size k) with false by lia.
  destruct (raw_row_ok a (Z.to_nat size) 0 A) as (fs & E & F). exists fs. rewrite E. split; [reflexivity|].
  unfold stack_bytes. erewrite map_ext; [exact F|]. intros i; reflexivity.
Qed.

(** The columns of UTF-8: all bytes but those that go on with a character. *)
Definition utf8_columns (s : str) : Z := Z.of_nat (List.length (filter (fun c => negb ((128 <=? c) && (c <? 192))) s)).
(** A short with the name of one accented letter is written as " é*": four bytes
    but three columns, and the number under it has four. *)
Theorem C95_names_always_line_up_refuted : exists v a out,
  print_stack utf8_columns (bytes "WST") (mkSS [v] 2) a 2 = Ok (bytes "WST:|" ++ out ++ [124; 10] ++ bytes "    |0102|" ++ [10]) /\
  out = bytes " " ++ word_of v /\ utf8_columns out = 3 /\ utf8_columns (bytes "0102") = 4.
Proof. exists (mkShown [195; 169] false true), (fun i => i + 1). exists [32; 195; 169; 42]. split; [vm_compute; reflexivity|]. repeat split. Qed.

Example C95_case : 
  print_stack utf8_columns (bytes "WST") (mkSS [mkShown (bytes "x") false true; mkShown (bytes "count") true false] 3) (fun i => if i =? 0 then 18 else if i =? 1 then 52 else 171) 3
  = Ok (bytes "WST:|  x*| [count]|" ++ [10] ++ bytes "    |1234|      ab|" ++ [10]) /\
  Forall fits [mkShown (bytes "x") false true; mkShown (bytes "count") true false].
Proof. split; [vm_compute; reflexivity|repeat constructor]. Qed.

(** ** C96 *)
Lemma format_stack_text : forall l, (List.length l <= 8)%nat -> characters l <= 255 ->
  format_stack l = List.concat (map (fun s => bytes " " ++ s) (map word_of l)).
Proof.
  intros l L B. unfold format_stack. change MAX_ARGS with 8%nat. rewrite firstn_all2 by exact L.
  replace (Nat.ltb 8 (List.length l)) with false by (symmetry; apply Nat.ltb_ge; exact L). rewrite app_nil_r.
  assert (P : forall l, 0 <= characters l) by (clear; induction l as [|v l IH]; cbn [characters]; lia).
  assert (E : List.concat (map format_value l) = List.concat (map (fun s => bytes " " ++ s) (map word_of l)) /\
              Z.of_nat (List.length (List.concat (map (fun s => bytes " " ++ s) (map word_of l)))) = characters l).
  { clear L. induction l as [|v l IH]; [split; reflexivity|]. cbn [characters] in B. destruct IH as [I1 I2]; [specialize (P l); lia|].
    cbn [map List.concat]. rewrite I1, format_value_text by (unfold fits; specialize (P l); lia).
    split; [reflexivity|]. rewrite !app_length. rewrite Nat2Z.inj_add, I2. cbn [characters]. change (List.length (bytes " ")) with 1%nat. lia. }
  destruct E as [E1 E2]. rewrite E1. apply printed_short. lia.
Qed.

Lemma word_reads : forall v x, plain v -> reads_as (word_of v) x -> carried v x.
Proof.
  intros v x (P1 & P2 & _) (base & inner & sh & ad & E1 & E2 & E3 & E4 & E5). cbv zeta in E5. subst x. unfold carried. cbn.
  assert (Es : sh = n_short v).
  { unfold word_of in *. destruct sh, (n_short v) eqn:Hs; [reflexivity| | |reflexivity]; exfalso.
    - rewrite app_nil_r in E1. destruct (n_addr v).
      + change (bytes "[") with [91] in E1. change (bytes "]") with [93] in E1. rewrite app_assoc in E1. apply app_inj_tail in E1. destruct E1 as [_ E1]. discriminate E1.
      + cbn [List.app] in E1. rewrite app_nil_r in E1. apply P1. exists inner. exact E1.
    - apply (E2 eq_refl). unfold last_is. change (bytes "*") with [42]. eexists. rewrite app_assoc, app_assoc. reflexivity. }
  split; [exact Es|]. split; [|reflexivity]. subst sh.
  assert (I : inner = (if n_addr v then [91] else []) ++ n_name v ++ (if n_addr v then [93] else [])).
  { unfold word_of in E1. change (bytes "[") with [91] in E1. change (bytes "]") with [93] in E1. change (bytes "*") with [42] in E1. rewrite !app_assoc in E1. apply app_inv_tail in E1. rewrite <- E1, app_assoc. reflexivity. }
  destruct ad, (n_addr v); [reflexivity| | |reflexivity]; exfalso.
  - cbn [List.app] in I. rewrite app_nil_r in I. apply (P2 base). rewrite <- I. exact E3.
  - apply (E4 eq_refl). exists (n_name v). exact I.
Qed.
Lemma word_read : forall v, plain v -> exists x, reads_as (word_of v) x.
Proof.
  intros v (P1 & P2 & _). eexists. exists (n_name v), ((if n_addr v then [91] else []) ++ n_name v ++ (if n_addr v then [93] else [])), (n_short v), (n_addr v).
  split; [unfold word_of; rewrite <- !app_assoc; reflexivity|]. split; [|split; [|split; [|cbv zeta; reflexivity]]].
  - intros Hs (b & E). unfold word_of in E. rewrite Hs, app_nil_r in E. destruct (n_addr v).
    + change (bytes "]") with [93] in E. rewrite app_assoc in E. apply app_inj_tail in E. destruct E as [_ E]. discriminate E.
    + cbn [List.app] in E. rewrite app_nil_r in E. apply P1. exists b. exact E.
  - destruct (n_addr v); [reflexivity|apply app_nil_r].
  - intros ->. cbn [List.app]. rewrite app_nil_r. intros (b & E). apply (P2 b E).
Qed.
Lemma text_size_words : forall l, text_size (map word_of l) = characters l.
Proof. induction l as [|v l IH]; cbn [map text_size characters]; [reflexivity|lia]. Qed.
Lemma text_size_app : forall l m, text_size (l ++ m) = text_size l + text_size m.
Proof. induction l as [|v l IH]; intros m; cbn [List.app text_size]; [reflexivity|rewrite IH; lia]. Qed.

(** The signature that is made for the next line lists the values of both
    stacks; read as the signature of a vector it has the same values. *)
Theorem C96_signature_lists_the_stacks : forall w r,
  (List.length w <= 8)%nat -> (List.length r <= 8)%nat -> characters w <= 255 -> characters r <= 255 -> Forall plain w -> Forall plain r ->
  exists text, signature_text w r = spaced (bytes "(" :: text ++ [bytes ")"]) /\
    is_signature text (map word_of w) (map word_of r) [] [] true false.
Proof.
  intros w r Lw Lr Cw Cr Pw Pr. exists (map word_of w ++ [dot] ++ map word_of r ++ [to_vector]). split.
  - unfold signature_text. rewrite (format_stack_text w Lw Cw), (format_stack_text r Lr Cr). unfold spaced. f_equal.
    rewrite !map_app, !concat_app, <- !app_assoc. reflexivity.
  - assert (N : forall l, (List.length l <= 8)%nat -> Forall plain l -> names (map word_of l)).
    { intros l L P. split; [rewrite map_length; exact L|]. apply Forall_forall. intros x Hx. apply in_map_iff in Hx. destruct Hx as (v & <- & Hv).
      rewrite Forall_forall in P. apply (P v Hv). }
    exists (map word_of w ++ [dot] ++ map word_of r), []. split; [|split; [|split]].
    + repeat split; auto; try apply N; auto; right; reflexivity.
    + split; [split; [cbn; lia|constructor]|]. split; [split; [cbn; lia|constructor]|]. left. auto.
    + rewrite <- !app_assoc. reflexivity.
    + rewrite !text_size_app, !text_size_words. cbn [text_size]. change (Z.of_nat (List.length dot)) with 1. lia.
Qed.

(** So the analysis of the next line starts with what is on the stacks. *)
Theorem C96_next_line_starts_with_the_stacks : forall w r z a evs text,
  (List.length w <= 8)%nat -> (List.length r <= 8)%nat -> characters w <= 255 -> characters r <= 255 -> Forall plain w -> Forall plain r ->
  behind SLabel a z -> (exists i, h_infos (z_h z) a = Some i) -> ~ declared_at z a ->
  is_signature text (map word_of w) (map word_of r) [] [] true false -> is_comment text evs ->
  exists z' e ws rs, read_symbols z evs = Some z' /\ h_list (z_h z') = e :: h_list (z_h z) /\ e_address e = a /\
    vals (e_wst e) = rev ws /\ vals (e_rst e) = rev rs /\ Forall2 carried w ws /\ Forall2 carried r rs.
Proof.
  intros w r z a evs text Lw Lr Cw Cr Pw Pr Bh Hi Nd Sg Cm.
  destruct (C89_signature_is_read z a text evs _ _ _ _ _ _ Bh Hi Nd Cm Sg) as (z' & s & i & R & (S1 & S2 & _ & _ & T) & _ & _ & _ & _ & _ & (e & (_ & St2 & St3 & St4) & St5) & _).
  exists z', e, (g_win s), (g_rin s). split; [exact R|]. split; [exact St5|]. split; [exact St2|]. split; [exact St3|]. rewrite T in St4. split; [exact St4|].
  assert (G : forall l xs, Forall plain l -> Forall2 reads_as (map word_of l) xs -> Forall2 carried l xs).
  { clear. induction l as [|v l IH]; intros xs P F; inversion F; subst; inversion P; subst; constructor; [eapply word_reads; eauto|apply IH; auto]. }
  split; apply G; assumption.
Qed.

Definition byte_named (c : Z) : shown := mkShown [c] false false.
Lemma byte_named_plain : forall c, List.In c (map (fun i => 97 + Z.of_nat i) (seq 0 9)) -> plain (byte_named c).
Proof.
  intros c H. cbn in H. repeat (destruct H as [<- | H]; [split; [|split]; [intros (b & E); destruct b as [|? [|? ?]]; discriminate E| |repeat split; discriminate]; intros b E; cbn in E; injection E as E _; discriminate E|]). destruct H.
Qed.
Example C96_case :
  let w := [mkShown (bytes "x") false true; mkShown (bytes "count") true false] in
  signature_text w [byte_named 97] = bytes "( x* [count] . a -> )" /\ Forall plain w /\ characters w = 11.
Proof.
  split; [vm_compute; reflexivity|]. split; [|vm_compute; reflexivity].
  repeat constructor; try (intros (b & E); repeat (destruct b as [|? b]; try discriminate E)); try (intros b E; repeat (destruct b as [|? b]; try discriminate E)); discriminate.
Qed.

(** Nine values are too many: the text has the first eight, and three dots, and
    is no signature at all. *)
Theorem C96_every_stack_is_carried_over_refuted : exists w text,
  Forall plain w /\ characters w <= 255 /\ signature_text w [] = spaced (bytes "(" :: text ++ [bytes ")"]) /\
  forall w1 r1 w2 r2 vector trusted, ~ is_signature text w1 r1 w2 r2 vector trusted.
Proof.
  exists (map byte_named (map (fun i => 97 + Z.of_nat i) (seq 0 9))), (map (fun i => [97 + Z.of_nat i]) (seq 0 8) ++ [bytes "..."; dot; to_vector]).
  split; [apply Forall_forall; intros x Hx; apply in_map_iff in Hx; destruct Hx as (c & <- & Hc); apply byte_named_plain, Hc|].
  split; [vm_compute; discriminate|]. split; [vm_compute; reflexivity|].
  intros w1 r1 w2 r2 v t (ins & outs & ((L & _) & _ & T) & _ & E & _).
  assert (N : forall i x, (i <= 8)%nat -> nth_error (map (fun i => [97 + Z.of_nat i]) (seq 0 8) ++ [bytes "..."; dot; to_vector]) i = Some x -> is_name x).
  { intros i x Hi. do 9 (destruct i as [|i]; [intros X; cbn in X; injection X as <-; repeat split; discriminate|]). lia. }
  rewrite E in N. destruct T as [(-> & _) | ->].
  - destruct (N (List.length w1) (if v then to_vector else to_caller) L) as (_ & _ & A & B).
    + rewrite nth_error_app2, Nat.sub_diag by lia. reflexivity.
    + destruct v; congruence.
  - destruct (N (List.length w1) dot L) as (A & _).
    + rewrite <- app_assoc, nth_error_app2, Nat.sub_diag by lia. reflexivity.
    + congruence.
Qed.
(** The length of the text is kept in a byte: of two names with 150 letters each
    a part of the first one is left. *)
Theorem C96_long_names_are_carried_over_refuted : exists w text x,
  Forall plain w /\ List.length w = 2%nat /\ signature_text w [] = spaced (bytes "(" :: text ++ [bytes ")"]) /\
  is_signature text [x] [] [] [] true false.
Proof.
  exists [mkShown (repeat 97 150) false false; mkShown (repeat 98 150) false false], [repeat 97 45; dot; to_vector], (repeat 97 45).
  split; [|split; [reflexivity|split; [vm_compute; reflexivity|]]].
  - assert (G : forall c, c = 97 \/ c = 98 -> plain (mkShown (repeat c 150) false false)).
    { intros c Hc. split; [|split].
      - intros (b & E). assert (X : List.In 42 (repeat c 150)) by (cbn [n_name] in E; rewrite E; apply in_or_app; right; left; reflexivity). apply repeat_spec in X. lia.
      - intros b E. assert (X : List.In 91 (repeat c 150)) by (cbn [n_name] in E; rewrite E; left; reflexivity). apply repeat_spec in X. lia.
      - repeat split; intros E; apply (f_equal (@List.length Z)) in E; vm_compute in E; discriminate E. }
    constructor; [apply G; auto|]. constructor; [apply G; auto|constructor].
  - exists [repeat 97 45; dot], []. split; [|split; [|split; [reflexivity|vm_compute; discriminate]]].
    + split; [split; [cbn; lia|constructor; [|constructor]; repeat split; intros E; apply (f_equal (@List.length Z)) in E; vm_compute in E; discriminate E]|].
      split; [split; [cbn; lia|constructor]|]. right. reflexivity.
    + split; [split; [cbn; lia|constructor]|]. split; [split; [cbn; lia|constructor]|]. left. auto.
Qed.

(** ** What the check counts *)

(** The run of the checker on a line with the reports of each step and the file
    they are in: that of the opcode, or of the label of the routine. *)
Inductive reported (evs : list event) : option csym -> config -> chess -> list (str * report) -> Prop :=
| reported_end cur h : reported evs cur (Finished h) h []
| reported_step cur c h new l : (forall h', c <> Finished h') -> reports_of (cstep c) = firstn (List.length (reports_of c)) (reports_of (cstep c)) ++ new ->
    reported evs (current cur c) (cstep c) h l ->
    reported evs cur c h (map (pair (match current cur c with Some y => r_file (y_reg y) | None => label_file evs (owner c) (bytes "RESET") end)) new ++ l).
(** An error that is not in the prelude *)
Definition is_error (fr : str * report) : bool :=
  match snd fr with RError _ => if list_eq_dec Z.eq_dec (fst fr) (bytes "/repl/main") then false else true | _ => false end.
Definition without_end (evs : list event) (h : chess) (a : Z) : bool :=
  missing_end h a && (if list_eq_dec Z.eq_dec (label_file evs a (bytes "RESET")) (bytes "/repl/main") then false else true).
Definition number_of {A} (f : A -> bool) (l : list A) : Z := Z.of_nat (List.length (filter f l)).

Lemma counts_error : forall file r, counts file r = if is_error (file, r) then 1 else 0.
Proof.
  intros file r. destruct r; try reflexivity. unfold counts, is_error. cbn [fst snd]. destruct (list_eq_dec Z.eq_dec file (bytes "/repl/main")) as [E|E].
  - apply (proj2 (AsmWords.str_eqb_true _ _)) in E. unfold main_name. rewrite E. reflexivity.
  - destruct (str_eqb file main_name) eqn:X; [|reflexivity]. apply AsmWords.str_eqb_true in X. contradiction.
Qed.
Lemma number_app : forall A (f : A -> bool) l l', number_of f (l ++ l') = number_of f l + number_of f l'.
Proof. intros A f l l'. unfold number_of. rewrite filter_app, app_length. lia. Qed.
Lemma counts_fold : forall file new n, fold_left (fun n r => n + counts file r) new n = n + number_of is_error (map (pair file) new).
Proof.
  intros file. induction new as [|r new IH]; intros n; [unfold number_of; cbn; lia|]. cbn [fold_left map]. rewrite IH, counts_error. unfold number_of. cbn [filter].
  destruct (is_error (file, r)); cbn [List.length]; lia.
Qed.
Lemma watch_reported : forall evs fuel cur c n k h n' k', watch fuel evs cur c n k = Some (h, n', k') ->
  exists l, reported evs cur c h l /\ n' = n + number_of is_error l.
Proof.
  intros evs. induction fuel as [|fuel IH]; intros cur c n k h n' k' R; [discriminate R|]. cbn [watch] in R.
  assert (St : (forall h', c <> Finished h') -> watch fuel evs (current cur c) (cstep c)
     (fold_left (fun n r => n + counts (match current cur c with Some y => r_file (y_reg y) | None => label_file evs (owner c) (bytes "RESET") end) r) (skipn (List.length (reports_of c)) (reports_of (cstep c))) n)
     (fold_left (fun k r => noted r k) (skipn (List.length (reports_of c)) (reports_of (cstep c))) k) = Some (h, n', k') ->
     exists l, reported evs cur c h l /\ n' = n + number_of is_error l).
  { intros NF X. apply IH in X as (l & L & N). rewrite counts_fold in N. eexists. split.
    - apply (reported_step evs cur c h (skipn (List.length (reports_of c)) (reports_of (cstep c)))); [exact NF|symmetry; apply firstn_skipn|exact L].
    - rewrite number_app. lia. }
  destruct c as [h0|x|h0|f].
  - apply St; [discriminate|exact R].
  - apply St; [discriminate|exact R].
  - injection R as <- <- <-. exists []. split; [constructor|unfold number_of; cbn; lia].
  - discriminate R.
Qed.
Lemma endless_number : forall evs h, endless evs h = number_of (without_end evs h) (h_order h).
Proof.
  intros evs h. unfold endless. assert (X : forall l n, fold_left (fun n a => if missing_end h a then n + counts (label_file evs a (bytes "RESET")) (RError CNoTermination) else n) l n = n + number_of (without_end evs h) l).
  { induction l as [|a l IH]; intros n; [unfold number_of; cbn; lia|]. cbn [fold_left]. rewrite IH. unfold number_of. cbn [filter]. unfold without_end at 2.
    destruct (missing_end h a); [|cbn [andb]; lia]. rewrite counts_error. unfold is_error. cbn [fst snd andb].
    destruct (list_eq_dec Z.eq_dec _ _); cbn [List.length]; lia. }
  rewrite X. lia.
Qed.
(** The number that decides whether a line is run is the number of errors outside
    of the prelude, in the line and in the files that it includes, together with
    the routines there that do not end. *)
Theorem C97_errors_that_count : forall fuel mem evs n k, check_line fuel mem evs = Some (n, k) ->
  exists z h l, read_symbols (reader0 mem) evs = Some z /\ reported evs None (Idle (add_reset (z_h z))) h l /\
    n = number_of is_error l + number_of (without_end evs h) (h_order h).
Proof.
  intros fuel mem evs n k C. unfold check_line in C. destruct (read_symbols (reader0 mem) evs) as [z|]; [|discriminate C].
  destruct (watch _ _ _ _ _ _) as [[[h n'] k']|] eqn:Wt; [|discriminate C]. injection C as <- <-.
  apply watch_reported in Wt as (l & L & ->). exists z, h, l. split; [reflexivity|]. split; [exact L|]. rewrite endless_number. lia.
Qed.
Print Assumptions C97_errors_that_count.

(** ** C97 *)
Section Loop.
Variable W : Type.
Variable dei : Z -> vm -> W -> res (Z * vm * W).
Variable deo : Z -> vm -> W -> res (vm * W).
Variable hi_first : bool.
Variables kw kr : Z.
Variable disk : files.
Variable wants_reset : W -> bool.
Variable cleared : W -> W.
Variable columns : str -> Z.
Variable naming : nat -> bool -> nat -> str.
Let round := round W dei deo hi_first kw kr disk wants_reset cleared columns naming.
Let execute := VmModel.execute W dei deo hi_first None kw kr.
Arguments q_vm {W}. Arguments q_world {W}. Arguments q_wst {W}. Arguments q_rst {W}. Arguments q_handle {W}. Arguments q_arena {W}. Arguments q_resets {W}.

(** What the assembler makes of a line, after the stacks of [q]. *)
Definition assembled (fuel : nat) (q : repl W) (line : str) : bool * list event :=
  let '(ok, b) := asm (line_files disk (p_vals (q_wst q)) (p_vals (q_rst q)) line) fuel main_name in (ok, rev (b_out b)).
(** The same machine but for its memory, which has the bytes of the events. *)
Definition same_but_memory (evs : list event) (v v' : vm) : Prop :=
  vm_ws v' = vm_ws v /\ vm_wsp v' = vm_wsp v /\ vm_rs v' = vm_rs v /\ vm_rsp v' = vm_rsp v /\ vm_dev v' = vm_dev v /\
  forall a, (forall x, ~ List.In (EPut a x) evs) -> vm_mem v' a = vm_mem v a.
(** A line has something in it: a symbol of the line itself. *)
Definition has_line (evs : list event) : Prop := exists a s, List.In (ESym a s) evs /\ r_file (s_reg s) = bytes "/repl/line".

Lemma rom_of_same : forall evs m a, (forall x, ~ List.In (EPut a x) evs) -> rom_of evs m a = m a.
Proof.
  induction evs as [|e evs IH]; intros m a N; [reflexivity|].
  assert (N' : forall x, ~ List.In (EPut a x) evs) by (intros x X; apply (N x); right; exact X).
  destruct e; cbn [rom_of]; rewrite IH by exact N'; try reflexivity. unfold upd. match goal with |- (if ?c then _ else _) = _ => destruct c eqn:E end; [|reflexivity].
  exfalso. apply Z.eqb_eq in E. subst. eapply N. left. reflexivity.
Qed.
Lemma has_line_ok : forall evs, existsb from_line evs = true <-> has_line evs.
Proof.
  intros evs. rewrite existsb_exists. split.
  - intros (e & I & F). destruct e; try discriminate F. cbn in F. exists addr, sym. split; [exact I|]. apply (proj1 (AsmWords.str_eqb_true _ _) F).
  - intros (a & s & I & F). exists (ESym a s). split; [exact I|]. cbn. apply AsmWords.str_eqb_true, F.
Qed.

(** A line that does not assemble, is empty or has an error is not run, and
    leaves the stacks, the devices and the world as they are; one that is run
    is assembled without an error and passes the check, and the stacks that are
    shown are those at the end of the run. *)
Theorem C97_only_checked_lines_run : forall fuel line q q' out, round fuel line q = Prompt W q' out ->
  exists evs, (exists ok, assembled fuel q line = (ok, evs) /\
    ((same_but_memory evs (q_vm q) (q_vm q') /\ q_world q' = q_world q /\ out = []) \/
     (ok = true /\ has_line evs /\ exists k v v' world,
      same_but_memory evs (q_vm q) v /\ check_line fuel (vm_mem v) evs = Some (0, k) /\ execute fuel 256 v (q_world q) = VmModel.Done W v' world /\
      if wants_reset world
      then vm_wsp (q_vm q') = 0 /\ vm_rsp (q_vm q') = 0 /\ p_vals (q_wst q') = [] /\ p_vals (q_rst q') = [] /\ q_world q' = cleared world /\ out = []
      else q_vm q' = v' /\ q_world q' = world /\ exists a b, out = a ++ b /\
           print_stack columns (bytes "WST") (q_wst q') (vm_ws v') (vm_wsp v') = Ok a /\ print_stack columns (bytes "RST") (q_rst q') (vm_rs v') (vm_rsp v') = Ok b))).
Proof.
  intros fuel line q q' out R. unfold round, ReplModel.round in R. unfold assembled.
  destruct (stale W q); [discriminate R|].
  destruct (asm _ _ _) as [ok b]. destruct (b_fault b); [discriminate R|].
  exists (rev (b_out b)), ok. split; [reflexivity|]. cbv zeta in R. set (evs := rev (b_out b)) in *. clearbody evs.
  set (v := loaded W evs q) in *.
  assert (Sm : same_but_memory evs (q_vm q) v).
  { unfold same_but_memory, v, loaded, vm_set_mem. cbn. repeat split. intros a N. apply rom_of_same, N. }
  clearbody v.
  destruct (ok && existsb from_line evs) eqn:L; [|injection R as <- <-; left; auto].
  apply andb_true_iff in L. destruct L as [-> L]. apply has_line_ok in L.
  destruct (check_line _ _ _) as [[errors k]|] eqn:K; [|discriminate R].
  destruct (noting W naming q k) as [[wst rst] handle].
  destruct (errors =? 0) eqn:Z0; [|injection R as <- <-; left; auto]. apply Z.eqb_eq in Z0. subst errors.
  right. split; [reflexivity|]. split; [exact L|]. fold execute in R. destruct (execute fuel 256 v (q_world q)) as [v' world|f|] eqn:X; [|discriminate R|discriminate R].
  exists k, v, v', world. split; [exact Sm|]. split; [exact K|]. split; [exact X|]. unfold after_run in R.
  destruct (wants_reset world).
  - destruct (VmModel.reset v' RESET_SOFT) as [v''|] eqn:V; [|discriminate R]. injection R as <- <-. cbn.
    assert (E : vm_wsp v'' = 0 /\ vm_rsp v'' = 0).
    { unfold VmModel.reset in V. change (0 <? Z.land RESET_SOFT RESET_STACK) with true in V. change (0 <? Z.land RESET_SOFT RESET_DEVICE) with false in V. change (0 <? Z.land RESET_SOFT RESET_ZERO_PAGE) with false in V. cbv iota zeta in V. cbn [rbind] in V.
      repeat match type of V with context [if ?c then _ else _] => destruct c end; try discriminate V; injection V as <-; split; reflexivity. }
    destruct E. auto 10.
  - cbn [fst snd] in R. destruct (print_stack _ _ wst _ _) as [a|] eqn:P1; [|discriminate R]. destruct (print_stack _ _ rst _ _) as [c|] eqn:P2; [|discriminate R].
    injection R as <- <-. cbn. split; [reflexivity|]. split; [reflexivity|]. exists a, c. auto.
Qed.

Lemma after_run_handle : forall q n o q' out, after_run W wants_reset cleared columns q n o = Prompt W q' out ->
  q_handle q' = snd n /\ q_arena q' = arena W q /\ q_resets q' = resets W q.
Proof.
  intros q [[wst rst] h] o q' out R. unfold after_run in R. destruct o as [v w|f|]; [|discriminate R|discriminate R].
  destruct (wants_reset w).
  - destruct (VmModel.reset v RESET_SOFT); [|discriminate R]. injection R as <- _. cbn. auto.
  - destruct (print_stack _ _ _ _ _); [|discriminate R]. destruct (print_stack _ _ _ _ _); [|discriminate R]. injection R as <- _. cbn. auto.
Qed.
Lemma after_run_alive : forall q n o, after_run W wants_reset cleared columns q n o <> Freed W.
Proof.
  intros q n o. unfold after_run. destruct o as [v w|f|]; [|discriminate|discriminate].
  destruct (wants_reset w); [destruct (VmModel.reset v RESET_SOFT); discriminate|].
  destruct (print_stack _ _ _ _ _); [|discriminate]. destruct (print_stack _ _ _ _ _); discriminate.
Qed.
Lemma freed_is_stale : forall fuel line q, round fuel line q = Freed W <-> stale W q = true.
Proof.
  intros fuel line q. unfold round, ReplModel.round. destruct (stale W q); [tauto|]. split; [|discriminate]. intros R. exfalso. revert R.
  destruct (asm _ _ _) as [ok b]. destruct (b_fault b); [discriminate|]. cbv zeta. destruct (ok && _); [|discriminate].
  destruct (check_line _ _ _) as [[n k]|]; [|discriminate]. destruct (n =? 0); [|discriminate]. apply after_run_alive.
Qed.

Lemma noted_then : forall fuel q ok b q' out n k,
  match b_fault b with
  | Some _ => Aborted W
  | None =>
      if ok && existsb from_line (rev (b_out b)) then
        match check_line fuel (vm_mem (loaded W (rev (b_out b)) q)) (rev (b_out b)) with
        | None => Aborted W
        | Some (errors, k) =>
            if errors =? 0
            then after_run W wants_reset cleared columns q (noting W naming q k) (execute fuel 256 (loaded W (rev (b_out b)) q) (q_world q))
            else Prompt W (next W q (loaded W (rev (b_out b)) q) (q_world q) (noting W naming q k)) []
        end
      else Prompt W (next W q (loaded W (rev (b_out b)) q) (q_world q) (noting W naming q None)) []
  end = Prompt W q' out ->
  ok && existsb from_line (rev (b_out b)) = true -> check_line fuel (vm_mem (loaded W (rev (b_out b)) q)) (rev (b_out b)) = Some (n, Some k) ->
  q_handle q' = (arena W q, resets W q (arena W q)) /\ q_arena q' = arena W q /\ q_resets q' = resets W q.
Proof.
  intros fuel q ok b q' out n k R L K. destruct (b_fault b); [discriminate R|]. rewrite L, K in R. clear K L.
  destruct k as [a c]. destruct (n =? 0); [|injection R as <- _; cbn; auto]. apply after_run_handle in R. exact R.
Qed.
Lemma round_split : forall fuel line q q' out, round fuel line q = Prompt W q' out -> exists ok b,
  assembled fuel q line = (ok, rev (b_out b)) /\
  match b_fault b with
  | Some _ => Aborted W
  | None =>
      if ok && existsb from_line (rev (b_out b)) then
        match check_line fuel (vm_mem (loaded W (rev (b_out b)) q)) (rev (b_out b)) with
        | None => Aborted W
        | Some (errors, k) =>
            if errors =? 0
            then after_run W wants_reset cleared columns q (noting W naming q k) (execute fuel 256 (loaded W (rev (b_out b)) q) (q_world q))
            else Prompt W (next W q (loaded W (rev (b_out b)) q) (q_world q) (noting W naming q k)) []
        end
      else Prompt W (next W q (loaded W (rev (b_out b)) q) (q_world q) (noting W naming q None)) []
  end = Prompt W q' out.
Proof.
  intros fuel line q q' out R. unfold round, ReplModel.round in R. unfold assembled.
  destruct (stale W q); [discriminate R|]. destruct (asm _ _ _) as [ok b]. exists ok, b. split; [reflexivity|exact R].
Qed.
(** The names of the values on the stacks can be read for the line after the one
    in which they were noted. *)
Theorem C97_names_can_be_read_for_the_next_line : forall fuel line q q' out n k evs mem,
  round fuel line q = Prompt W q' out -> assembled fuel q line = (true, evs) -> has_line evs ->
  mem = rom_of evs (vm_mem (q_vm q)) -> check_line fuel mem evs = Some (n, Some k) ->
  forall fuel line, round fuel line q' <> Freed W.
Proof.
  intros fuel line q q' out n k evs mem R A L -> K fuel' line' X. apply freed_is_stale in X. destruct (round_split _ _ _ _ _ R) as (ok & b & E & R'). clear R. rewrite A in E. injection E as <- ->.
  destruct (noted_then _ _ _ _ _ _ _ _ R' (proj2 (has_line_ok _) L) K) as (F1 & F2 & F3). clear R'. revert X.
  unfold stale. rewrite F1. cbn [fst snd]. unfold resets at 1. unfold arena at 2. rewrite F2, F3.
  destruct (arena W q); cbn [negb Bool.eqb]; rewrite Nat.eqb_refl; cbn [negb]; rewrite andb_false_r; discriminate.
Qed.

(** Where the names of the stacks are, after a line that has noted them. *)
Definition just_noted (q : repl W) : Prop := q_handle q = (q_arena q, q_resets q (q_arena q)).
(** A line that is not assembled - it has a mistake, or is empty - notes nothing;
    the one after it reads names in memory that was given back, whatever it is. *)
Theorem C97_names_outlive_an_empty_line_refuted : forall fuel line q q' out,
  just_noted q -> p_vals (q_wst q) ++ p_vals (q_rst q) <> [] ->
  round fuel line q = Prompt W q' out -> (forall evs, assembled fuel q line = (true, evs) -> ~ has_line evs) ->
  forall fuel' line', round fuel' line' q' = Freed W.
Proof.
  intros fuel line q q' out J N R A fuel' line'. apply freed_is_stale. destruct (round_split _ _ _ _ _ R) as (ok & b & E & R'). clear R.
  assert (L : ok && existsb from_line (rev (b_out b)) = false).
  { destruct ok; [|reflexivity]. destruct (existsb from_line (rev (b_out b))) eqn:X; [|reflexivity]. exfalso. apply (A _ E), has_line_ok, X. }
  clear A E. rewrite L in R'. destruct (b_fault b); [discriminate R'|]. rename R' into R.
  injection R as <- _. unfold stale, next, noting, resets, arena. cbn. unfold just_noted in J. rewrite J. cbn [fst snd].
  unfold resets, arena. destruct (p_vals (q_wst q) ++ p_vals (q_rst q)); [contradiction|]. cbn [List.length Nat.eqb negb andb].
  destruct (q_arena q); cbn [negb Bool.eqb]; rewrite (proj2 (Nat.eqb_neq _ _)) by lia; reflexivity.
Qed.
End Loop.

(** ** Sessions *)

(** A machine with nothing but System/debug: ff written there is remembered. *)
Definition demo_dei (p : Z) (v : vm) (w : bool) : res (Z * vm * bool) := Ok (0, v, w).
Definition demo_deo (p : Z) (v : vm) (w : bool) : res (vm * bool) := Ok (v, w || ((p =? 14) && (vm_dev v 14 =? 255))).
Definition demo_names (n : nat) (b : bool) (i : nat) : str := [97 + Z.of_nat i].
Definition demo_round := round bool demo_dei demo_deo true 2 2 [] (fun w => w) (fun _ => false) utf8_columns demo_names 3000.
Definition demo_start : repl bool := repl0 bool (mkVm 0 0 (fun _ => 0) (fun _ => 0) (fun _ => 0) (fun _ => 0) 65536) false.
Fixpoint session (q : repl bool) (l : list string) : shell bool :=
  match l with [] => Prompt bool q [] | x :: [] => demo_round (bytes x) q
  | x :: l => match demo_round (bytes x) q with Prompt _ q _ => session q l | s => s end end.
Definition screen (s : shell bool) : option str := match s with Prompt _ _ out => Some out | _ => None end.
(** The sizes of the working stack: that of the checker, and that of the machine. *)
Definition sizes (s : shell bool) : option (Z * Z) := match s with Prompt _ q _ => Some (p_size (q_wst bool q), vm_wsp (q_vm bool q)) | _ => None end.

Example C97_case :
  screen (session demo_start ["#0102 #03"; "POP"]%string) = Some (bytes "WST:|  a*|" ++ [10] ++ bytes "    |0102|" ++ [10] ++ bytes "RST:|" ++ [10] ++ bytes "    |" ++ [10]) /\
  screen (session demo_start ["#0102 #03"; "POP2 POP2"]%string) = Some [] /\ sizes (session demo_start ["#0102 #03"; "POP2 POP2"]%string) = Some (3, 3) /\
  sizes (session demo_start ["#0102 #03"; "\reset"]%string) = Some (0, 0) /\
  session demo_start ["#01"; ""; "#02"]%string = Freed bool.
Proof. vm_compute. repeat split. Qed.

(** A line that is rejected can change what the tool takes to be on the stack:
    one way through the line is wrong and the other one is noted. *)
Theorem C97_rejected_line_leaves_the_noted_stacks_refuted : exists line,
  sizes (session demo_start [line]%string) = Some (1, 0) /\ screen (session demo_start [line]%string) = Some [] /\
  (exists evs, assembled bool [] 3000 demo_start (bytes line) = (true, evs)) /\
  (* the next line is checked with a value that is not there *)
  sizes (session demo_start [line; "POP"]%string) <> None /\ sizes (session demo_start ["POP"]%string) = Some (0, 0) /\
  screen (session demo_start [line; "POP"]%string) <> Some [] /\ screen (session demo_start ["POP"]%string) = Some [].
Proof. exists "#00 ?{ POP } #02"%string. vm_compute. repeat split; try discriminate. eexists. reflexivity. Qed.

(** After nine values the next line is checked as if the stack was empty. *)
Theorem C97_checked_stack_is_that_of_the_machine_refuted : exists l1 l2,
  sizes (session demo_start [l1]%string) = Some (9, 9) /\ sizes (session demo_start [l1; l2]%string) = Some (1, 10).
Proof. exists "#01 #02 #03 #04 #05 #06 #07 #08 #09"%string, "#00"%string. vm_compute. repeat split. Qed.

Print Assumptions C95_table_shows_the_stack.
Print Assumptions C95_columns_line_up.
Print Assumptions C95_raw_bytes_otherwise.
Print Assumptions C95_names_always_line_up_refuted.
Print Assumptions C96_signature_lists_the_stacks.
Print Assumptions C96_next_line_starts_with_the_stacks.
Print Assumptions C96_every_stack_is_carried_over_refuted.
Print Assumptions C96_long_names_are_carried_over_refuted.
Print Assumptions C97_only_checked_lines_run.
Print Assumptions C97_names_can_be_read_for_the_next_line.
Print Assumptions C97_names_outlive_an_empty_line_refuted.
Print Assumptions C97_rejected_line_leaves_the_noted_stacks_refuted.
Print Assumptions C97_checked_stack_is_that_of_the_machine_refuted.
