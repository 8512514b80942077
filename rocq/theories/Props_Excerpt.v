(** Property C106: the excerpt of the source under a report of the assembler is
    the line of the report, with the reported part marked below it.

    [underlined width before marked] are blanks below [before] and marks below
    [marked]; [is_char iterate x] says that the decoder of UTF-8 knows the
    character, [knows_ascii] that decoder and widths are right about ASCII
    (ExcerptSpec). *)
From Verif Require Import Base AsmModel AsmSound AsmScan AsmRun AsmSpec AsmFacts Props_Asm PlaceSpec Props_Place ExcerptSpec ExcerptModel.
From Coq Require Import ZifyBool Ascii String.
Open Scope list_scope.
Ltac Zify.zify_post_hook ::= Z.div_mod_to_equations.

Lemma is_nl_spec x : is_nl x = true <-> newline x.
Proof. unfold is_nl, newline. lia. Qed.
Lemma take_line_all l rest : Forall (fun x => ~ newline x) l -> rest = [] \/ (exists x r, rest = x :: r /\ newline x) -> take_line (l ++ rest) = l.
Proof.
  intros F R. induction F as [|x l N F IH]; cbn.
  - destruct R as [->|(x & r & -> & N)]; [reflexivity|]. cbn. now rewrite (proj2 (is_nl_spec x) N).
  - destruct (is_nl x) eqn:E; [elim N; now apply is_nl_spec|]. now rewrite IH.
Qed.
Lemma line_start_back c (k i : nat) : (k <= i)%nat -> (forall j, (k < j <= i)%nat -> ~ newline (nth j c 0)) -> line_start c i = line_start c k.
Proof.
  intros L H. induction i as [|i IH]; [now replace k with O by lia|]. destruct (Nat.eq_dec k (S i)) as [->|N]; [reflexivity|].
  cbn [line_start]. destruct (is_nl _) eqn:E; [elim (H (S i) ltac:(lia)); now apply is_nl_spec|]. apply IH; [lia|]. intros j J. apply H. lia.
Qed.

(** From a byte of the line back to its start; [p] is not empty: the first byte
    of the file is not looked at. *)
Lemma line_start_at pre line rest i : pre = [] \/ (exists p x, pre = p ++ [x] /\ p <> [] /\ newline x) ->
  Forall (fun x => ~ newline x) line -> (i < List.length line)%nat ->
  line_start (pre ++ line ++ rest) (List.length pre + i) = List.length pre.
Proof.
  intros P F I.
  assert (NT : forall j, (j < List.length line)%nat -> ~ newline (nth (List.length pre + j) (pre ++ line ++ rest) 0)).
  { intros j J. rewrite app_nth2 by lia. replace (List.length pre + j - List.length pre)%nat with j by lia. rewrite app_nth1 by lia.
    rewrite Forall_forall in F. apply F, nth_In. exact J. }
  destruct P as [->|(p & x & -> & PN & N)].
  - rewrite (line_start_back _ 0); [reflexivity|lia|]. intros j J. apply (NT j). cbn in J. lia.
  - rewrite app_length in *. cbn [List.length] in *. rewrite (line_start_back _ (List.length p)); [|lia|].
    + destruct p as [|y p]; [contradiction|]. cbn [List.length line_start]. rewrite <- app_assoc. rewrite app_nth2 by (cbn; lia).
      replace (S (List.length p) - List.length (y :: p))%nat with O by (cbn; lia). cbn [nth app]. rewrite (proj2 (is_nl_spec x) N). lia.
    + intros j J. specialize (NT (j - S (List.length p))%nat ltac:(lia)). replace (List.length p + 1 + (j - S (List.length p)))%nat with j in NT by lia. exact NT.
Qed.

Lemma len_app (a b : list Z) : len (a ++ b) = len a + len b.
Proof. unfold len. rewrite app_length. lia. Qed.
Lemma len_pos (a : list Z) : a <> [] -> 1 <= len a.
Proof. destruct a; [contradiction|]. unfold len. cbn. lia. Qed.
Lemma len_nonneg (a : list Z) : 0 <= len a.
Proof. unfold len. lia. Qed.
Lemma bytes_app a b : bytes_of (a ++ b) = bytes_of a ++ bytes_of b.
Proof. unfold bytes_of. now rewrite map_app, concat_app. Qed.

Section Chars.
Variable iterate : list Z -> Z * Z.
Variable width : Z -> Z.

Lemma decode_at done x l : is_char iterate x -> decode iterate (done ++ fst x ++ l) (len done) = Ok (len (fst x), snd x).
Proof.
  intros [NE C]. unfold decode. rewrite len_app. pose proof (len_nonneg done). pose proof (len_nonneg (fst x ++ l)).
  destruct (_ || _) eqn:E; [lia|]. unfold len at 1. rewrite Nat2Z.id, skipn_app, skipn_all, Nat.sub_diag. cbn [app skipn]. now rewrite C.
Qed.

Lemma blanks_chars before : Forall (is_char iterate) before -> forall x after done start fuel, is_char iterate x ->
  start = 1 + len done + len (bytes_of before) -> (List.length (bytes_of before) < fuel)%nat ->
  blanks iterate width fuel (done ++ bytes_of before ++ fst x ++ after) start (len done) =
    Some (Ok (len done + len (bytes_of before), space_below width before)).
Proof.
  induction 1 as [|y before C F IH]; intros x after done start fuel CX -> L.
  - cbn [bytes_of map List.concat] in *. destruct fuel as [|fuel]; [lia|]. cbn [blanks app]. rewrite decode_at by exact CX.
    pose proof (len_pos _ (proj1 CX)). destruct (len (fst x) <? 0) eqn:E1; [lia|]. change (len []) with 0. destruct (_ >=? _) eqn:E2; [|lia]. now rewrite Z.add_0_r.
  - change (bytes_of (y :: before)) with (fst y ++ bytes_of before) in *. pose proof (len_pos _ (proj1 C)). pose proof (len_pos _ (proj1 CX)). rewrite app_length in L. rewrite len_app.
    pose proof (len_nonneg (bytes_of before)). pose proof (len_nonneg done). pose proof (len_nonneg after).
    destruct fuel as [|fuel]; [lia|]. cbn [blanks]. rewrite <- (app_assoc (fst y)), decode_at by exact C.
    cbv zeta. rewrite !len_app.
    replace (len (fst y) <? 0) with false by lia. replace (len done + len (fst y) >=? 1 + len done + (len (fst y) + len (bytes_of before))) with false by lia.
    replace (len done + len (fst y) >=? len done + (len (fst y) + (len (bytes_of before) + (len (fst x) + len after)))) with false by lia.
    specialize (IH x after (done ++ fst y) (1 + len done + len (fst y) + len (bytes_of before)) fuel CX). rewrite len_app, <- app_assoc in IH.
    replace (1 + len done + (len (fst y) + len (bytes_of before))) with (1 + len done + len (fst y) + len (bytes_of before)) by lia.
    rewrite IH by (unfold len in *; lia). cbn [space_below flat_map]. rewrite Z.add_assoc. reflexivity.
Qed.

Lemma tildes_chars marked : Forall (is_char iterate) marked -> forall after done stop fuel,
  stop = 1 + len done + len (bytes_of marked) -> (List.length (bytes_of marked) < fuel)%nat ->
  after = [] \/ (exists x l, after = x :: l /\ is_char iterate x) ->
  (forall x, In x marked -> 0 <= width (snd x)) ->
  tildes iterate width fuel (done ++ bytes_of marked ++ bytes_of after) stop (len done) = Some (Ok (repeat 126 (Z.to_nat (columns width marked)))).
Proof.
  induction 1 as [|y marked C F IH]; intros after done stop fuel -> L A W.
  - cbn [bytes_of map List.concat app] in *. destruct fuel as [|fuel]; [lia|]. cbn [tildes]. change (len []) with 0. rewrite len_app.
    destruct A as [->|(x & l & -> & CX)].
    + cbn. destruct (_ && _) eqn:E; [unfold len in E; cbn in E; lia|]. reflexivity.
    + change (bytes_of (x :: l)) with (fst x ++ bytes_of l) in *. pose proof (len_pos _ (proj1 CX)). pose proof (len_nonneg (bytes_of l)). rewrite len_app.
      destruct (_ && _) eqn:E; [|lia]. change (List.concat (map fst (x :: l))) with (fst x ++ bytes_of l). rewrite decode_at by exact CX. destruct (len (fst x) <? 0) eqn:E1; [lia|]. destruct (_ >=? _) eqn:E2; [|lia]. reflexivity.
  - change (bytes_of (y :: marked)) with (fst y ++ bytes_of marked) in *. pose proof (len_pos _ (proj1 C)). rewrite app_length in L. rewrite len_app.
    pose proof (len_nonneg (bytes_of marked)). pose proof (len_nonneg done). pose proof (len_nonneg (bytes_of after)).
    destruct fuel as [|fuel]; [lia|]. cbn [tildes]. rewrite <- (app_assoc (fst y)), decode_at by exact C. rewrite !len_app.
    destruct (_ && _) eqn:E; [|lia]. destruct (len (fst y) <? 0) eqn:E1; [lia|]. destruct (_ >=? _) eqn:E2; [lia|].
    specialize (IH after (done ++ fst y) (1 + len done + len (fst y) + len (bytes_of marked)) fuel). rewrite len_app, <- app_assoc in IH.
    replace (1 + len done + (len (fst y) + len (bytes_of marked))) with (1 + len done + len (fst y) + len (bytes_of marked)) by lia.
    rewrite IH; [|lia|unfold len in *; lia|exact A|intros x I; apply W; now right].
    cbn [columns fold_right]. assert (0 <= width (snd y)) by (apply W; now left).
    assert (0 <= columns width marked). { clear - W. induction marked as [|z m IHm]; [cbn; lia|]. cbn [columns fold_right]. assert (0 <= width (snd z)) by (apply W; right; now left).
      enough (0 <= columns width m) by (unfold columns in *; lia). apply IHm. intros x [->|I]; apply W; [now left|right; now right]. }
    unfold columns in *. rewrite Z2Nat.inj_add, repeat_app by assumption. reflexivity.
Qed.

(** For every source and every decoder: if the region is a part of one line,
    made of whole characters, then that line is printed, and below it blanks up
    to the region and marks as wide as it.  The line is the first one or does
    not come right after an empty first line (refuted below). *)
Theorem C106_excerpt c pre before marked after rest r :
  c = pre ++ bytes_of (before ++ marked ++ after) ++ rest ->
  pre = [] \/ (exists p x, pre = p ++ [x] /\ p <> [] /\ newline x) ->
  rest = [] \/ (exists x l, rest = x :: l /\ newline x) ->
  Forall (fun x => ~ newline x) (bytes_of (before ++ marked ++ after)) ->
  Forall (is_char iterate) (before ++ marked ++ after) ->
  (exists x l, marked = x :: l /\ 1 <= width (snd x) /\ forall y, In y l -> 0 <= width (snd y)) ->
  byte (r_start r) = len pre + len (bytes_of before) -> col (r_start r) = 1 + len (bytes_of before) ->
  col (r_end r) = 1 + len (bytes_of before) + len (bytes_of marked) ->
  print_file_region iterate width c r = Some (Ok (bytes_of (before ++ marked ++ after), underlined width before marked)).
Proof.
  intros -> P R NN CH (x & l & -> & WX & WL) B CS CE.
  apply Forall_app in CH as [CB CH]. apply Forall_app in CH as [CM CA]. inversion CM as [|? ? CX CL]; subst.
  set (line := bytes_of (before ++ (x :: l) ++ after)) in *.
  assert (LN : line = bytes_of before ++ fst x ++ bytes_of l ++ bytes_of after).
  { unfold line. rewrite !bytes_app. change (bytes_of (x :: l)) with (fst x ++ bytes_of l). now rewrite <- app_assoc. }
  pose proof (len_pos _ (proj1 CX)) as LX.
  assert (TK : take_line (skipn (line_start (pre ++ line ++ rest) (Z.to_nat (byte (r_start r)))) (pre ++ line ++ rest)) = line).
  { replace (Z.to_nat (byte (r_start r))) with (List.length pre + List.length (bytes_of before))%nat by (rewrite B; unfold len; lia).
    rewrite line_start_at; [|exact P|exact NN|rewrite LN, !app_length; unfold len in LX; lia].
    rewrite skipn_app, skipn_all, Nat.sub_diag. cbn [app skipn]. now apply take_line_all. }
  unfold print_file_region. cbv zeta. rewrite TK.
  assert (LL : List.length line = (List.length (bytes_of before) + (List.length (fst x) + (List.length (bytes_of l) + List.length (bytes_of after))))%nat) by (rewrite LN, !app_length; reflexivity).
  pose proof (blanks_chars before CB x (bytes_of l ++ bytes_of after) [] (col (r_start r)) (4 + List.length line)%nat CX) as BL.
  change (len []) with 0 in BL. cbn [app] in BL. rewrite <- LN in BL. rewrite BL by lia. clear BL.
  unfold caret. replace (0 + len (bytes_of before)) with (len (bytes_of before)) by lia. assert (DC : decode iterate line (len (bytes_of before)) = Ok (len (fst x), snd x)) by (rewrite LN; now apply decode_at). rewrite DC.
  pose proof (tildes_chars l CL after (bytes_of before ++ fst x) (col (r_end r)) (4 + List.length line)%nat) as TL.
  rewrite len_app, <- app_assoc in TL. rewrite <- LN in TL. rewrite TL; clear TL.
  - unfold underlined. cbn [columns fold_right].
    assert (0 <= columns width l). { clear - WL. induction l as [|z m IHm]; [cbn; lia|]. cbn [columns fold_right]. assert (0 <= width (snd z)) by (apply WL; now left).
      enough (0 <= columns width m) by (unfold columns in *; lia). apply IHm. intros y I; apply WL; now right. }
    unfold columns in *. rewrite <- repeat_app, <- Z2Nat.inj_add by lia. do 6 f_equal. lia.
  - rewrite CE. change (bytes_of (x :: l)) with (fst x ++ bytes_of l). rewrite len_app. lia.
  - lia.
  - destruct after as [|y a]; [now left|right]. inversion CA; subst. eauto.
  - exact WL.
Qed.
End Chars.
Print Assumptions C106_excerpt.

(** *** Any region *)
Section Total.
Variable iterate : list Z -> Z * Z.
Variable width : Z -> Z.
(** The decoder takes at least one byte, no more than there are, and none at
    the end. *)
Hypothesis takes : forall l, l <> [] -> 1 <= fst (iterate l) <= len l.
Hypothesis at_end : fst (iterate []) = 0.

Lemma decode_total l o : 0 <= o <= len l -> exists n cp, decode iterate l o = Ok (n, cp) /\ 0 <= n /\ o + n <= len l /\ (o < len l -> 1 <= n).
Proof.
  intros O. unfold decode. replace ((o <? 0) || (len l <? o)) with false by lia. destruct (iterate (skipn (Z.to_nat o) l)) as [n cp] eqn:E. exists n, cp. split; [reflexivity|].
  pose proof (skipn_length (Z.to_nat o) l) as SL. destruct (skipn (Z.to_nat o) l) as [|x r] eqn:K.
  - pose proof at_end as X. rewrite E in X. cbn in X, SL. unfold len in *. lia.
  - pose proof (takes (x :: r) ltac:(discriminate)) as X. rewrite E in X. cbn [fst] in X. unfold len in *. lia.
Qed.
Lemma blanks_total line start fuel : forall o, 0 <= o <= len line -> len line - o < Z.of_nat fuel ->
  exists o' l, blanks iterate width fuel line start o = Some (Ok (o', l)) /\ 0 <= o' <= len line.
Proof.
  induction fuel as [|fuel IH]; intros o O F; [lia|]. destruct (decode_total line o O) as (n & cp & D & N1 & N2 & N3). cbn [blanks]. rewrite D.
  replace (n <? 0) with false by lia. destruct (o + n >=? start); [eauto|]. destruct (o + n >=? len line) eqn:E; [exists (o + n), []; split; [reflexivity|lia]|].
  destruct (IH (o + n) ltac:(lia) ltac:(lia)) as (o' & l & -> & B). eauto.
Qed.
Lemma tildes_total line stop fuel : forall o, 0 <= o <= len line -> len line - o < Z.of_nat fuel -> exists l, tildes iterate width fuel line stop o = Some (Ok l).
Proof.
  induction fuel as [|fuel IH]; intros o O F; [lia|]. destruct (decode_total line o O) as (n & cp & D & N1 & N2 & N3). cbn [tildes]. rewrite D.
  destruct (_ && _) eqn:C; [|eauto]. replace (n <? 0) with false by lia. destruct (o + n >=? stop); [eauto|]. destruct (IH (o + n) ltac:(lia) ltac:(lia)) as (l & ->). eauto.
Qed.

(** If all of the source is text for the decoder, then for every region, even
    one that is not in the file or spans lines, the excerpt is printed, without
    access outside the line. *)
Theorem C106_safe c r : exists line below, print_file_region iterate width c r = Some (Ok (line, below)) /\ exists spaces marks, below = spaces ++ 94 :: marks.
Proof.
  unfold print_file_region. set (ln := take_line _). cbv zeta. pose proof (len_nonneg ln) as P.
  destruct (blanks_total ln (col (r_start r)) (4 + List.length ln) 0) as (o & l & -> & O); [lia|unfold len; lia|].
  unfold caret. destruct (decode_total ln o O) as (n & cp & -> & N1 & N2 & N3).
  destruct (tildes_total ln (col (r_end r)) (4 + List.length ln) (o + n)) as (t & ->); [lia|unfold len in *; lia|].
  exists ln, (l ++ 94 :: repeat 126 (Z.to_nat (width cp - 1)) ++ t). split; [reflexivity|]. eauto.
Qed.
End Total.
Print Assumptions C106_safe.
Definition wide1 (x : Z) : Z := 1.
(** The hypotheses hold for a decoder of single bytes. *)
Example C106_safe_case : (forall l, l <> [] -> 1 <= fst (match l with [] => (0, -1) | x :: _ => (1, x) end) <= len l) /\
  print_file_region (fun l => match l with [] => (0, -1) | x :: _ => (1, x) end) wide1 (bytes "ab cd" ++ [10; 101]) (mkRegion [] (mkPos 1 4 3) (mkPos 2 2 7)) = Some (Ok (bytes "ab cd", bytes "   ^")).
Proof. split; [|reflexivity]. intros [|x l] N; [contradiction|]. unfold len. cbn. lia. Qed.

(** *** The reports of a run *)
Lemma newlines_app a b : newlines (a ++ b) = newlines a + newlines b.
Proof. unfold newlines. rewrite count_occ_app. lia. Qed.
Lemma no_newlines a : ~ In 10 a <-> newlines a = 0.
Proof. unfold newlines. rewrite (count_occ_not_In Z.eq_dec). lia. Qed.

Definition ascii (l : list Z) : list char := map (fun x => ([x], x)) l.
Lemma ascii_bytes l : bytes_of (ascii l) = l.
Proof. induction l as [|x l IH]; [reflexivity|]. cbn. unfold bytes_of, ascii in IH. now rewrite IH. Qed.
Lemma ascii_app a b : ascii (a ++ b) = ascii a ++ ascii b.
Proof. unfold ascii. apply map_app. Qed.
Lemma ascii_columns width l : Forall (fun x => width x = 1) l -> columns width (ascii l) = len l.
Proof. induction 1 as [|x l W F IH]; [reflexivity|]. unfold columns, ascii, len in *. cbn [map fold_right snd List.length] in *. lia. Qed.

(** Two places on one line: the text before the line, the line up to the first
    place and from there to the second. *)
Lemma same_line c p q : is_place c p -> is_place c q -> line p = line q -> byte p <= byte q ->
  exists pre before marked tail, c = pre ++ before ++ marked ++ tail /\ (pre = [] \/ exists l, pre = l ++ [10]) /\
    ~ In 10 (before ++ marked) /\ newlines pre = line p - 1 /\ byte p = len pre + len before /\ col p = 1 + len before /\
    byte q = byte p + len marked /\ col q = 1 + len before + len marked.
Proof.
  intros (b1 & a1 & E1 & l1 & c1 & B1 & L1 & N1 & LP & CP & BP) (b2 & a2 & E2 & l2 & c2 & B2 & L2 & N2 & LQ & CQ & BQ) LN LE.
  assert (PX : exists m, b2 = b1 ++ m).
  { exists (skipn (List.length b1) b2). assert (Q : firstn (List.length b1) b2 = b1).
    { apply (f_equal (firstn (List.length b1))) in E2. rewrite E1 in E2. rewrite !firstn_app, firstn_all, Nat.sub_diag in E2. cbn [firstn] in E2. rewrite app_nil_r in E2.
      replace (List.length b1 - List.length b2)%nat with O in E2 by (unfold len in *; lia). cbn [firstn] in E2. rewrite app_nil_r in E2. now symmetry. }
    rewrite <- Q at 1. symmetry. apply firstn_skipn. }
  destruct PX as [m ->]. exists l1, c1, m, a2.
  assert (NM : newlines m = 0).
  { pose proof (f_equal newlines B2) as X. rewrite B1, !newlines_app in X. rewrite (proj1 (no_newlines c1) N1), (proj1 (no_newlines c2) N2) in X. lia. }
  split; [rewrite E2, B1, <- !app_assoc; reflexivity|]. split; [exact L1|]. split; [apply no_newlines; rewrite newlines_app, NM, (proj1 (no_newlines c1) N1); reflexivity|].
  rewrite BP, BQ, B1, !len_app. repeat (split; [lia|]).
  (* the lines are the same *)
  rewrite CQ. enough (List.length l2 = List.length l1).
  { apply (f_equal (@List.length Z)) in B2. rewrite B1, !app_length in B2. unfold len. lia. }
  assert (G : forall (x y u v : list Z), x ++ u = y ++ v -> (List.length x < List.length y)%nat -> (exists l, y = l ++ [10]) -> In 10 u).
  { clear. intros x y u v E L (l & ->). rewrite app_length in L. cbn in L. rewrite <- app_assoc in E. cbn in E.
    assert (X : exists w, l = x ++ w). { exists (skipn (List.length x) l). assert (Q : firstn (List.length x) l = x).
      { apply (f_equal (firstn (List.length x))) in E. rewrite !firstn_app, firstn_all, Nat.sub_diag in E. cbn [firstn] in E. rewrite app_nil_r in E.
        replace (List.length x - List.length l)%nat with O in E by lia. cbn in E. rewrite app_nil_r in E. now symmetry. }
      rewrite <- Q at 1. symmetry. apply firstn_skipn. }
    destruct X as [w ->]. rewrite <- app_assoc in E. apply app_inv_head in E. rewrite E. apply in_or_app. right. now left. }
  rewrite B1, <- app_assoc in B2. destruct (Nat.lt_total (List.length l2) (List.length l1)) as [X|[X|X]]; [|exact X|].
  - elim N2. symmetry in B2. apply (G _ _ _ _ B2 X). destruct L1 as [->|L]; [cbn in X; lia|exact L].
  - assert (J : In 10 (c1 ++ m)). { apply (G _ _ _ _ B2 X). destruct L2 as [->|L]; [cbn in X; lia|exact L]. }
    apply (proj2 (no_newlines (c1 ++ m))) in J; [contradiction|]. rewrite newlines_app, NM, (proj1 (no_newlines c1) N1). reflexivity.
Qed.

Lemma line_end (tail : list Z) : exists after rest, tail = after ++ rest /\ ~ In 10 after /\ (rest = [] \/ exists l, rest = 10 :: l).
Proof.
  induction tail as [|x l (a & r & -> & N & R)]; [exists [], []; cbn; auto|]. destruct (Z.eq_dec x 10) as [->|NX].
  - exists [], (10 :: a ++ r). split; [reflexivity|]. split; [auto|]. right. eauto.
  - exists (x :: a), r. split; [reflexivity|]. split; [intros [X|X]; auto|exact R].
Qed.

(** Every diagnostic of a run about a part of a line: if that line has ASCII
    characters only, no control characters but tabs, and is not the second line
    after an empty first one, then the excerpt is the line [line (r_start r)] of
    the file, and below the reported text, which is not empty, a mark for every
    character of it. *)
Theorem C106_reports iterate width fs file ok evs err msg r c : knows_ascii iterate width ->
  plain fs -> assembles fs file ok evs -> In (EReport err msg (Some r)) evs -> find_file fs (r_file r) = Some c ->
  line (r_start r) = line (r_end r) -> byte (r_start r) < byte (r_end r) ->
  ~ (line (r_start r) = 2 /\ exists l, c = 10 :: l) -> Forall (fun x => printable x \/ x = 9 \/ x = 10) c -> ~ In 9 (text c r) ->
  exists pre before after rest, c = pre ++ before ++ text c r ++ after ++ rest /\
    newlines pre = line (r_start r) - 1 /\ (pre = [] \/ exists l, pre = l ++ [10]) /\ (rest = [] \/ exists l, rest = 10 :: l) /\
    ~ In 10 (before ++ text c r ++ after) /\
    print_file_region iterate width c r =
      Some (Ok (before ++ text c r ++ after,
                map (fun x => if x =? 9 then 9 else 32) before ++ 94 :: repeat 126 (List.length (text c r) - 1))).
Proof.
  intros [KI KW] PL A I FF LN LT NB AS NT.
  destruct (C76_reports _ _ _ _ PL A _ _ _ I) as (r' & [= <-] & [(c' & F & P1 & P2 & LE)|[_ X]]); [|congruence].
  rewrite FF in F. injection F as <-. destruct (same_line _ _ _ P1 P2 LN LE) as (pre & before & marked & tail & E & LP & N & NP & BS & CS & BE & CE).
  assert (TX : text c r = marked).
  { unfold text. rewrite BE. replace (Z.to_nat (byte (r_start r) + len marked - byte (r_start r))) with (List.length marked) by (unfold len; lia).
    replace (Z.to_nat (byte (r_start r))) with (List.length (pre ++ before)) by (rewrite app_length, BS; unfold len; lia).
    rewrite E, app_assoc, skipn_app, skipn_all, Nat.sub_diag. cbn [skipn app]. rewrite firstn_app, firstn_all, Nat.sub_diag. cbn [firstn]. apply app_nil_r. }
  rewrite TX in *. destruct (line_end tail) as (after & rest & -> & NA & R).
  assert (N3 : ~ In 10 (before ++ marked ++ after)). { intros X. rewrite app_assoc in X. apply in_app_or in X as [X|X]; auto. }
  exists pre, before, after, rest. split; [exact E|]. split; [exact NP|]. split; [exact LP|]. split; [exact R|]. split; [exact N3|].
  assert (ASC : forall x, In x (before ++ marked ++ after) -> printable x \/ x = 9).
  { intros x X. rewrite Forall_forall in AS. destruct (AS x) as [?|[?|?]]; auto; [|subst; contradiction]. rewrite E. apply in_or_app. right. rewrite !app_assoc. apply in_or_app. left. now rewrite <- app_assoc. }
  destruct marked as [|m0 marked]; [unfold len in BE; cbn in BE; lia|].
  pose proof (C106_excerpt iterate width c pre (ascii before) (ascii (m0 :: marked)) (ascii after) rest r) as X.
  rewrite <- !ascii_app, !ascii_bytes in X. rewrite X; clear X.
  - unfold underlined. do 3 f_equal. f_equal.
    + unfold space_below, ascii. rewrite flat_map_concat_map, map_map. cbn [snd].
      assert (W : forall x, In x before -> x = 9 \/ width x = 1). { intros x X. destruct (ASC x); [apply in_or_app; auto|right; now apply KW|now left]. }
      clear - W. induction before as [|x l IH]; [reflexivity|]. cbn. rewrite <- IH by (intros; apply W; now right). destruct (W x (or_introl eq_refl)) as [->|Q]; [reflexivity|].
      rewrite Q. destruct (x =? 9); reflexivity.
    + f_equal. f_equal. rewrite ascii_columns; [unfold len; cbn [List.length]; lia|]. apply Forall_forall. intros x X. destruct (ASC x) as [Q| ->]; [apply in_or_app; right; apply in_or_app; auto|now apply KW|contradiction].
  - rewrite E, <- !app_assoc. reflexivity.
  - destruct LP as [->|(l & ->)]; [now left|]. right. exists l, 10. split; [reflexivity|]. split; [|now left]. intros ->. apply NB. cbn in NP. split; [lia|]. exists (before ++ (m0 :: marked) ++ after ++ rest). exact E.
  - destruct R as [->|(l & ->)]; [now left|]. right. exists 10, l. split; [reflexivity|now left].
  - apply Forall_forall. intros x X [->| ->]; [contradiction|]. destruct (ASC 13 X) as [Q|Q]; [unfold printable in Q; lia|discriminate].
  - apply Forall_forall. intros x X. unfold ascii in X. apply in_map_iff in X as (y & <- & X). split; [discriminate|]. intros l. cbn [fst snd app]. rewrite KI; [reflexivity|].
    destruct (ASC y X) as [Q|Q]; unfold printable in *; lia.
  - exists ([m0], m0), (ascii marked). split; [reflexivity|]. cbn [snd].
    assert (W : forall x, In x (m0 :: marked) -> width x = 1). { intros x X. destruct (ASC x) as [Q| ->]; [apply in_or_app; right; apply in_or_app; auto|now apply KW|contradiction]. }
    split; [rewrite W by (now left); lia|]. intros y Y. apply in_map_iff in Y as (z & <- & Z). cbn. rewrite W by (now right). lia.
  - exact BS.
  - exact CS.
  - exact CE.
Qed.
Print Assumptions C106_reports.

(** A decoder of the characters up to 2047, and the width of a terminal. *)
Definition utf8 (l : list Z) : Z * Z :=
  match l with
  | [] => (0, -1)
  | x :: l => if x <? 128 then (1, x) else match l with
              | y :: _ => if (194 <=? x) && (x <? 224) && (128 <=? y) && (y <? 192) then (2, (x - 192) * 64 + (y - 128)) else (-3, -1)
              | [] => (-3, -1)
              end
  end.
Definition wide (x : Z) : Z := if (32 <=? x) && negb (x =? 127) then 1 else 0.
Example utf8_ascii : knows_ascii utf8 wide.
Proof.
  split.
  - intros x l X. unfold utf8. now replace (x <? 128) with true by lia.
  - intros x [X Y]. unfold wide. destruct (_ && _) eqn:E; [reflexivity|lia].
Qed.

Definition mistake : str := bytes "|0100 BRK" ++ 10 :: 9 :: bytes "#01 foo #02" ++ [10].
Definition at_foo : region := mkRegion (bytes "a") (mkPos 2 6 15) (mkPos 2 9 18).
Example C106_case : assembles (Props_Asm.one mistake) (bytes "a") false (evs_of mistake) /\
  In (EReport true MUnresolved (Some at_foo)) (evs_of mistake) /\
  print_file_region utf8 wide mistake at_foo = Some (Ok (9 :: bytes "#01 foo #02", 9 :: bytes "    ^~~")).
Proof. split; [assembled|]. split; [vm_compute; tauto|reflexivity]. Qed.
(** Characters of two bytes take one column. *)
Example C106_two_bytes : print_file_region utf8 wide (bytes "ab" ++ [10] ++ [195; 169; 32; 195; 169; 195; 169; 32]) (mkRegion [] (mkPos 2 4 6) (mkPos 2 8 10)) =
  Some (Ok ([195; 169; 32; 195; 169; 195; 169; 32], bytes "  ^~")).
Proof. reflexivity. Qed.

(** If the first line of a file is empty, a report about the second one shows an
    empty line: the search for the start of the line does not look at the first
    byte. *)
Definition second : str := 10 :: bytes "|0100 foo ".
Theorem C106_empty_first_line_refuted iterate width : iterate [] = (0, -1) -> width (-1) = 0 ->
  exists r, assembles (Props_Asm.one second) (bytes "a") false (evs_of second) /\ In (EReport true MUnresolved (Some r)) (evs_of second) /\
    line (r_start r) = 2 /\ text second r = bytes "foo" /\
    print_file_region iterate width second r = Some (Ok ([], bytes "^")).
Proof.
  intros I W. exists (mkRegion (bytes "a") (mkPos 2 7 7) (mkPos 2 10 10)). split; [assembled|]. split; [vm_compute; tauto|].
  split; [reflexivity|]. split; [reflexivity|]. unfold print_file_region.
  replace (take_line _) with (@nil Z) by reflexivity. cbv zeta.
  assert (D : decode iterate [] 0 = Ok (0, -1)) by (unfold decode; cbn; now rewrite I).
  cbn [blanks Nat.add List.length]. rewrite D. replace (if 0 <? 0 then _ else _) with (Some (Ok (0, @nil Z))) by reflexivity.
  unfold caret. rewrite D. cbn [tildes]. replace ((_ <? _) && _) with false by reflexivity. rewrite W. reflexivity.
Qed.
Print Assumptions C106_empty_first_line_refuted.

(** If the reported text starts with bytes that are not UTF-8, at the start of a
    line, then the error code of the decoder is added to the offset and the
    buffer is read before its start. *)
Definition broken : str := [255; 32].
Theorem C106_bad_encoding_refuted iterate width : fst (iterate [255; 32]) < 0 ->
  exists r, assembles (Props_Asm.one broken) (bytes "a") false (evs_of broken) /\ In (EReport true MUnresolved (Some r)) (evs_of broken) /\
    print_file_region iterate width broken r = Some (Fault (OobRead (fst (iterate [255; 32])))).
Proof.
  intros N. exists (mkRegion (bytes "a") (mkPos 1 1 0) (mkPos 1 2 1)). split; [assembled|]. split; [vm_compute; tauto|].
  unfold print_file_region. replace (take_line _) with [255; 32] by reflexivity. cbv zeta. destruct (iterate [255; 32]) as [n cp] eqn:E. cbn [fst] in N |- *.
  assert (D : decode iterate [255; 32] 0 = Ok (n, cp)) by (unfold decode; cbn; now rewrite E).
  cbn [blanks Nat.add List.length]. rewrite D. replace (n <? 0) with true by lia.
  unfold caret. rewrite D. cbn [tildes]. change (len [255; 32]) with 2. cbn [col r_end]. replace ((0 + n <? 2) && (0 + n <? 2)) with true by lia.
  unfold decode. change (len [255; 32]) with 2. replace ((0 + n <? 0) || (2 <? 0 + n)) with true by lia. reflexivity.
Qed.
Print Assumptions C106_bad_encoding_refuted.
