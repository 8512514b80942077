(** Properties C39-C46 and C57: the assembler (src/asm/asm.c).

    Vocabulary.  [assembles fs file ok evs] says that buxn_asm called with the
    file [file], where [fs] are the files that exist, returns [ok] and that [evs]
    are its calls of the host, first one first: [EPut a v] a byte of the ROM,
    [EReport true msg region] a diagnostic of level error; in between the log
    has a mark [ETok] for every token that is handled, wherever it comes from.
    [trace evs] are these tokens, the last one first: their nesting, the scope of
    the labels, the address they are at and their text.  [rom evs a] is the byte
    that the ROM finally has at [a]. *)
From Verif Require Import Base AsmModel AsmSound AsmScan AsmRun AsmSpec AsmWords AsmProg AsmText AsmAccept AsmFlat AsmFacts AsmAddr.
From Verif Require VmModel VmSpec VmProofs VmStep Props_VM.
From Coq Require Import ZifyBool Ascii String.
Open Scope list_scope.
Ltac Zify.zify_post_hook ::= Z.div_mod_to_equations.

(** ** Examples *)
Definition one (s : str) : files := [(bytes "a", s)].
Definition run_one (s : str) : bool * basm := asm (one s) 10 (bytes "a").
Definition evs_of (s : str) : list event := rev (b_out (snd (run_one s))).
Lemma assembles_one s ok : fst (run_one s) = ok -> b_fault (snd (run_one s)) = None -> assembles (one s) (bytes "a") ok (evs_of s).
Proof.
  intros E F. unfold evs_of. apply (assembles_intro (one s) 10). - unfold run_one in *. rewrite <- E. destruct (asm _ _ _); reflexivity. - exact F.
Qed.
Ltac assembled := apply assembles_one; vm_compute; reflexivity.

(** ** C39 *)
(** For all files and whatever they include: the assembler returns, and what it
    returns is failure exactly if it reported an error. *)
Theorem C39_failure_iff_error fs file ok evs : assembles fs file ok evs ->
  (ok = false <-> exists msg reg, In (EReport true msg reg) evs).
Proof.
  intros A. destruct (assembles_rel _ _ _ _ A) as (-> & _). unfold noerr. split.
  - intros F. destruct (existsb is_err evs) eqn:X.
    + apply existsb_exists in X as (e & I & X). destruct e as [| | |[|] m r| | | | |]; try discriminate. eauto.
    + exfalso. rewrite <- not_true_iff_false in F. apply F, forallb_forall. intros e I. rewrite <- not_true_iff_false in X.
      destruct (is_err e) eqn:Y; auto. exfalso. apply X, existsb_exists. eauto.
  - intros (m & r & I). destruct (forallb _ evs) eqn:F; auto. rewrite forallb_forall in F. apply F in I. discriminate.
Qed.
Print Assumptions C39_failure_iff_error.

(** It always returns, with one result. *)
Theorem C39_one_result fs file : exists ok evs, assembles fs file ok evs /\
  forall ok' evs', assembles fs file ok' evs' -> ok' = ok /\ evs' = evs.
Proof.
  destruct (assembles_exists fs file) as (ok & evs & A). exists ok, evs. split; auto. intros ok' evs' A'. exact (assembles_unique _ _ _ _ _ _ A' A).
Qed.
Print Assumptions C39_one_result.

Example C39_case : assembles (one (bytes "@x ;y")) (bytes "a") false (evs_of (bytes "@x ;y")) /\
  assembles (one (bytes "@y ;y")) (bytes "a") true (evs_of (bytes "@y ;y")) /\
  exists reg, In (EReport true MUnresolved reg) (evs_of (bytes "@x ;y")).
Proof. split; [assembled|]. split; [assembled|]. eexists. vm_compute. tauto. Qed.

(** Yet text can be dropped without a word: the file b ends with a CR that is
    not followed by LF, and the end of that file, left in the shared buffer of
    one character, ends the file that included it.  The ")" there is an error
    wherever else the assembler meets it. *)
Definition dropping : files := [(bytes "a", bytes "~b )"); (bytes "b", bytes "BRK " ++ [13])].
Theorem C39_dropped_text_refuted :
  (exists evs, assembles dropping (bytes "a") true evs) /\
  (forall fs file ok evs l2 o l1, assembles fs file ok evs -> trace evs = l2 ++ o :: l1 -> o_lex o = bytes ")" -> ok = false).
Proof.
  split.
  - eexists. apply (assembles_intro dropping 10); vm_compute; reflexivity.
  - intros fs file ok evs l2 o l1 A T L. destruct ok; auto. exfalso. destruct (assembles_program _ _ _ A) as (q & R & TR & _). rewrite <- TR in *.
    destruct (run_split _ _ _ _ R T) as (p1 & p2 & _ & _ & _ & S & _). rewrite L in S. discriminate.
Qed.
Print Assumptions C39_dropped_text_refuted.

(** ** C40 *)
Theorem C40_rom_addresses fs file ok evs a v : assembles fs file ok evs -> In (EPut a v) evs -> 256 <= a <= 65535 /\ is_byte v.
Proof. intros A I. destruct (assembles_rel _ _ _ _ A) as (_ & P & _). rewrite Forall_forall in P. apply P in I. exact I. Qed.
Print Assumptions C40_rom_addresses.

(** A token that needs bytes outside makes the assembler fail: [emits] says how
    many bytes a token has. *)
Theorem C40_outside_is_error fs file ok evs l2 o l1 k : assembles fs file ok evs -> trace evs = l2 ++ o :: l1 ->
  emits (macro_names l1) (o_lex o) k -> o_addr o < 256 \/ 65536 < o_addr o + k -> ok = false.
Proof.
  intros A T E B. destruct ok; auto. exfalso. destruct (assembles_program _ _ _ A) as (q & R & TR & _). rewrite <- TR in *.
  destruct (run_split _ _ _ _ R T) as (p1 & p2 & R1 & T1 & O & S & _). rewrite <- T1, <- (i_macros _ (run_inv _ _ R1)) in E.
  assert (AD : o_addr o = p_addr p1) by (rewrite O; reflexivity).
  destruct (step_filled _ _ _ _ S) as [(k' & K & E' & F1 & F2 & _)|[_ N]]; [|exact (N _ E)].
  rewrite (emits_det _ _ _ _ E E') in *. lia.
Qed.
Print Assumptions C40_outside_is_error.

(** In a successful run the ROM has a byte exactly where some token puts one. *)
Theorem C40_bytes_are_tokens fs file evs a : assembles fs file true evs ->
  (rom evs a <> None <-> exists l2 o l1, trace evs = l2 ++ o :: l1 /\ covers l1 o a).
Proof.
  intros A. destruct (assembles_program _ _ _ A) as (q & R & TR & C & _ & N & P). split.
  - intros H. assert (X : exists c, In (a, c) (p_cells q)).
    { destruct (in_dec Z.eq_dec a (map fst (p_cells q))) as [I|I].
      - apply in_map_iff in I as ([x c] & <- & I). eauto.
      - exfalso. apply H, N. intros c J. apply I, in_map_iff. exists (a, c). auto. }
    destruct X as [c X]. rewrite <- TR in *. eapply run_covered; eauto.
  - intros (l2 & o & l1 & T & (k & E & B)). rewrite <- TR in T, R.
    destruct (run_split _ _ _ _ R T) as (p1 & p2 & R1 & T1 & O & S & _ & R2). rewrite <- T1, <- (i_macros _ (run_inv _ _ R1)) in E.
    assert (AD : o_addr o = p_addr p1) by (rewrite O; reflexivity).
    destruct (step_filled _ _ _ _ S) as [(k' & K & E' & F1 & F2 & new & F3 & F4)|[_ X]]; [|destruct (X _ E)].
    rewrite (emits_det _ _ _ _ E E') in *.
    assert (I : In a (map fst new)) by (rewrite F4; apply down_in; lia).
    apply in_map_iff in I as ([x c] & <- & I). apply (P _ c). apply (run_cells _ _ _ R2). rewrite F3. apply in_or_app. auto.
Qed.
Print Assumptions C40_bytes_are_tokens.

(** A byte in the zero page, the last bytes of the ROM, and one after them. *)
Example C40_case :
  assembles (one (bytes "|80 BRK")) (bytes "a") false (evs_of (bytes "|80 BRK")) /\
  assembles (one (bytes "|fffe #12")) (bytes "a") true (evs_of (bytes "|fffe #12")) /\
  assembles (one (bytes "|ffff #12")) (bytes "a") false (evs_of (bytes "|ffff #12")) /\
  map (rom (evs_of (bytes "|fffe #12"))) [65534; 65535] = [Some 128; Some 18].
Proof. split; [assembled|]. split; [assembled|]. split; [assembled|]. vm_compute. reflexivity. Qed.

(** ** C41 *)
(** What the reference [r] of the token [o] is to; [l1] are the tokens before
    it and [l2] those after it.
    - a name: the one token of the program that makes this name a label;
    - a lambda: the "}" that belongs to its "{";
    - an anonymous label: the last "@@" before it that is not yet used. *)
Inductive points_to (l2 : list occ) (o : occ) (l1 : list occ) (r : str) : Z -> Prop :=
| to_label l4 d l3 : r <> bytes "{" -> r <> bytes "@" -> l2 ++ o :: l1 = l4 ++ d :: l3 ->
    defines d (full_name (o_scope o) r) -> Forall (fun x => ~ defines x (full_name (o_scope o) r)) (l4 ++ l3) ->
    points_to l2 o l1 r (o_addr d)
| to_lambda l4 d l3 : r = bytes "{" -> l2 = l4 ++ d :: l3 -> closes d = true -> balanced opens closes l3 ->
    points_to l2 o l1 r (o_addr d)
| to_anonymous l4 d l3 : r = bytes "@" -> l1 = l4 ++ d :: l3 -> makes_at d = true -> balanced makes_at uses_at l4 ->
    points_to l2 o l1 r (o_addr d).

(** Every reference of a successful program is to something, and its bytes in
    the ROM are the opcode and the address of that as the mode demands
    ([refers_to], [encode]), provided no other token puts bytes at the same
    place. *)
Theorem C41_references fs file evs l2 o l1 opc m r : assembles fs file true evs -> trace evs = l2 ++ o :: l1 ->
  writes (macro_names l1) (o_lex o) opc m r ->
  exists l, points_to l2 o l1 r l /\ refers_to evs l2 o l1 opc m l.
Proof.
  intros A T W. destruct (success_reference _ _ _ _ _ _ _ _ _ A T W) as (q & p & t & l & Iq & OQ & TQ & Ip & TP & M & AD & RF).
  exists l. split; auto. destruct M as [E|a ats E At|N1 N2].
  - (* lambda *) cbn [address] in AD. rewrite (i_next _ Ip), TP in AD.
    assert (OP : opens o = true) by (apply (writes_opens _ _ _ _ _ W); auto).
    rewrite T in TQ. destruct (i_lambdas _ Iq _ _ _ TQ OP) as [(j & J & _)|(l4 & d & l3 & E1 & E2 & E3 & E4)].
    + rewrite OQ in J. destruct j; discriminate.
    + rewrite E4 in AD. injection AD as <-. eapply to_lambda; eauto.
  - cbn [address] in AD. injection AD as <-. destruct (i_ats _ Ip 0 a) as (l4 & d & l3 & E1 & E2 & E3 & E4 & E5); [rewrite At; reflexivity|].
    subst a. apply (to_anonymous l2 o l1 r l4 d l3); auto; [rewrite <- TP; exact E1|]. split; auto.
  - cbn [address] in AD. pose proof (i_labels _ Iq (full_name (o_scope o) r)) as L. rewrite AD in L.
    destruct L as (l4 & d & l3 & E1 & E2 & E3 & E4). subst l. apply (to_label l2 o l1 r l4 d l3); auto. rewrite <- T, <- TQ. exact E1.
Qed.
Print Assumptions C41_references.

(** There is only one such thing. *)
Lemma matching_unique {up down : occ -> bool} l4 d l3 l4' d' l3' : l4 ++ d :: l3 = l4' ++ d' :: l3' ->
  up d = false -> down d = true -> up d' = false -> down d' = true -> balanced up down l3 -> balanced up down l3' -> d = d'.
Proof.
  intros E U1 D1 U2 D2 [B1 C1] [B2 C2].
  assert (G : forall x d l3 l3', up d = false -> down d = true -> balance up down l3 = 0 -> closed_inside up down l3' -> l3' = x ++ d :: l3 -> False).
  { clear. intros x d l3 l3' U D B C E. specialize (C x (d :: l3) E). cbn [balance fold_right] in C. fold (balance up down l3) in C.
    rewrite U, D in C. lia. }
  destruct (app_eq_app _ _ _ _ E) as [y [[X1 X2]|[X1 X2]]]; destruct y as [|z y]; cbn in X2; injection X2 as Y1 Y2; auto; exfalso.
  - exact (G y d l3 l3' U1 D1 B1 C2 Y2).
  - exact (G y d' l3' l3 U2 D2 B2 C1 Y2).
Qed.
Lemma unused_unique {up down : occ -> bool} l4 d l3 l4' d' l3' : l4 ++ d :: l3 = l4' ++ d' :: l3' ->
  up d = true -> down d = false -> up d' = true -> down d' = false -> balanced up down l4 -> balanced up down l4' -> d = d'.
Proof.
  intros E U1 D1 U2 D2 [B1 C1] [B2 C2].
  assert (App : forall a b, balance up down (a ++ b) = balance up down a + balance up down b).
  { induction a as [|x a IH]; intros b; [reflexivity|]. cbn [app balance fold_right]. fold (balance up down (a ++ b)). fold (balance up down a).
    rewrite IH. lia. }
  assert (G : forall l4 d y, up d = true -> down d = false -> balance up down l4 = 0 -> balanced up down (l4 ++ d :: y) -> False).
  { clear -App. intros l4 d y U D B [B' C]. rewrite App, B in B'. specialize (C (l4 ++ [d]) y). rewrite <- app_assoc in C. specialize (C eq_refl).
    cbn [balance fold_right] in B'. fold (balance up down y) in B'. rewrite U, D in B'. lia. }
  destruct (app_eq_app _ _ _ _ E) as [y [[X1 X2]|[X1 X2]]]; destruct y as [|z y]; cbn in X2; injection X2 as Y1 Y2; auto; exfalso.
  - apply (G l4' d' y U2 D2 B2). rewrite Y1, <- X1. split; auto.
  - apply (G l4 d y U1 D1 B1). rewrite Y1, <- X1. split; auto.
Qed.
Lemma closes_only d : closes d = true -> opens d = false.
Proof. unfold closes, opens. intros H. apply str_eqb_true in H. rewrite H. reflexivity. Qed.
Lemma makes_only d : makes_at d = true -> uses_at d = false.
Proof. unfold makes_at, uses_at. intros H. apply str_eqb_true in H. rewrite H. reflexivity. Qed.
Theorem C41_one_target l2 o l1 r l l' : points_to l2 o l1 r l -> points_to l2 o l1 r l' -> l = l'.
Proof.
  intros P P'.
  destruct P as [l4 d l3 N1 N2 E D F|l4 d l3 E1 E2 E3 E4|l4 d l3 E1 E2 E3 E4];
    destruct P' as [l4' d' l3' N1' N2' E' D' F'|l4' d' l3' E1' E2' E3' E4'|l4' d' l3' E1' E2' E3' E4']; try congruence; try (subst r; discriminate).
  - f_equal. rewrite E in E'. assert (I : In d (l4' ++ d' :: l3')) by (rewrite <- E'; apply in_or_app; right; left; auto).
    apply in_app_iff in I. rewrite Forall_forall in F'. destruct I as [I|[I|I]]; [|auto|]; exfalso; apply (F' d); auto; apply in_or_app; auto.
  - f_equal. rewrite E2 in E2'. eapply (matching_unique (up := opens) (down := closes)); eauto using closes_only.
  - f_equal. rewrite E2 in E2'. eapply (unused_unique (up := makes_at) (down := uses_at)); eauto using makes_only.
Qed.
Print Assumptions C41_one_target.

(** A reference to a name that is nowhere made a label is an error, ... *)
Theorem C41_unknown_label fs file ok evs l2 o l1 opc m r : assembles fs file ok evs -> trace evs = l2 ++ o :: l1 ->
  writes (macro_names l1) (o_lex o) opc m r -> r <> bytes "{" -> r <> bytes "@" ->
  (forall d, In d (trace evs) -> ~ defines d (full_name (o_scope o) r)) -> ok = false.
Proof.
  intros A T W N1 N2 D. destruct ok; auto. exfalso. destruct (C41_references _ _ _ _ _ _ _ _ _ A T W) as (l & P & _).
  destruct P as [l4 d l3 _ _ E X _|l4 d l3 E1 _ _ _|l4 d l3 E1 _ _ _]; try contradiction. apply (D d); auto. rewrite T, E.
  apply in_or_app. right. left. auto.
Qed.
Print Assumptions C41_unknown_label.
(** ... and so is a distance that does not fit into a byte. *)
Theorem C41_too_far fs file ok evs l2 o l1 opc r l : assembles fs file ok evs -> trace evs = l2 ++ o :: l1 ->
  writes (macro_names l1) (o_lex o) opc Near r -> points_to l2 o l1 r l ->
  l - (o_addr o + lead opc + 2) < -128 \/ 127 < l - (o_addr o + lead opc + 2) -> ok = false.
Proof.
  intros A T W P B. destruct ok; auto. exfalso. destruct (C41_references _ _ _ _ _ _ _ _ _ A T W) as (l' & P' & _ & _ & _ & bs & E & _).
  rewrite <- (C41_one_target _ _ _ _ _ _ P P') in E. cbn [encode] in E. destruct (_ && _) eqn:X; [lia|discriminate].
Qed.
Print Assumptions C41_too_far.
(** Two labels of the same name are an error. *)
Theorem C41_duplicate fs file ok evs l2 d l1 n : assembles fs file ok evs -> trace evs = l2 ++ d :: l1 -> defines d n ->
  (exists d', In d' l1 /\ defines d' n) -> ok = false.
Proof.
  intros A T D (d' & I & D'). destruct ok; auto. exfalso. destruct (assembles_program _ _ _ A) as (q & R & TR & _). rewrite <- TR in *.
  pose proof (i_labels _ (run_inv _ _ R) n) as L. rewrite T in L.
  assert (X : forall l4 o l3, l4 ++ o :: l3 = l2 ++ d :: l1 -> ~ Forall (fun o => ~ defines o n) (l4 ++ l3)).
  { intros l4 o l3 E F. rewrite Forall_forall in F.
    destruct (app_eq_app _ _ _ _ E) as [y [[X1 X2]|[X1 X2]]]; destruct y as [|z y]; cbn in X2; injection X2; intros; subst.
    - apply (F d'); auto. apply in_or_app. auto.
    - apply (F z); auto. apply in_or_app. left. apply in_or_app. right. left. auto.
    - apply (F d'); auto. apply in_or_app. auto.
    - apply (F d); auto. apply in_or_app. right. apply in_or_app. right. left. auto. }
  destruct (assoc _ _) as [a|].
  - destruct L as (l4 & o & l3 & E & _ & _ & F). symmetry in E. exact (X _ _ _ E F).
  - rewrite Forall_forall in L. apply (L d); auto. apply in_or_app. right. left. auto.
Qed.
Print Assumptions C41_duplicate.

(** Forward and backward, in all modes, with a lambda and an anonymous label. *)
Definition C41_source : str := bytes "@x ,x ;later !later ?x later [ -x =later ] @@ { _@ } @later ;x".
Example C41_case :
  assembles (one C41_source) (bytes "a") true (evs_of C41_source) /\
  map (rom (evs_of C41_source)) [256; 257; 258; 259; 260] = [Some 128; Some 253; Some 160; Some 1; Some 21].
Proof. split; [assembled|]. vm_compute. reflexivity. Qed.

(** The proviso is needed: here the two bytes of ";x" are written over with the
    raw byte 00 before x is known, and the address is written over that. *)
Definition C41_overlap : str := bytes ";x |0101 00 |0200 @x".
Example C41_overlap_case :
  assembles (one C41_overlap) (bytes "a") true (evs_of C41_overlap) /\
  map (rom (evs_of C41_overlap)) [256; 257; 258] = [Some 160; Some 2; Some 0].
Proof. split; [assembled|]. vm_compute. reflexivity. Qed.

(** ** C42 *)
(** A file with a single word. *)
Definition plain (w : str) : Prop :=
  w <> [] /\ Forall (fun c => is_byte c /\ blank c = false) w /\ len w <= 47 /\ hd 0 w <> 34.
Lemma plain_lf w : Forall (fun c => is_byte c /\ blank c = false) w -> lf w = w.
Proof.
  induction 1 as [|c w [B C] F IH]; auto. rewrite lf_plain, IH; auto. intros ->. discriminate.
Qed.
Lemma plain_text w : plain w -> text w.
Proof.
  intros (_ & F & _). split.
  - eapply Forall_impl; [|exact F]. intros a [X _]; exact X.
  - rewrite plain_lf by auto. intros I. rewrite Forall_forall in F. apply F in I as [_ I]. discriminate.
Qed.
Lemma plain_word_is w : plain w -> first_word (lf w) = Word w [].
Proof.
  intros (N & F & L & Q). rewrite plain_lf by auto.
  assert (TB : to_blank w = (w, [])).
  { clear N L Q. induction F as [|c w [_ C] F IH]; auto. cbn [to_blank]. rewrite C, IH. reflexivity. }
  unfold first_word. destruct w as [|c w]; [congruence|]. inversion F as [|? ? [_ C] _]; subst. cbn [skip_blanks]. rewrite C.
  cbn [hd] in Q. destruct (Z.eqb_spec c 34); [contradiction|]. unfold plain_word. rewrite TB.
  destruct (Z.leb_spec (len (c :: w)) 47); [reflexivity|lia].
Qed.
Lemma plain_code w : plain w -> simple w -> code (lf w) [w] true.
Proof. intros P S. eapply code_word; [apply plain_word_is, P|exact S|]. apply code_end. reflexivity. Qed.
(** The assembler accepts it exactly if the word is right. *)
Lemma single w ok evs : plain w -> simple w -> assembles (one w) (bytes "a") ok evs ->
  (ok = true <-> exists p, step empty 0 w = Some p /\ complete p) /\
  (ok = true -> exists o, trace evs = [o] /\ o_lex o = w /\ o_addr o = 256 /\ o_depth o = 0).
Proof.
  intros P S A. destruct (flat_exact (one w) (bytes "a") w [w] true ok evs) as [E1 E2]; auto using plain_text, plain_code.
  split.
  - rewrite E1. cbn [map run]. split.
    + intros (_ & p & R & C). exists p. destruct (step empty 0 w); [|discriminate]. cbn [bind] in R. injection R as <-. auto.
    + intros (p & R & C). split; auto. exists p. rewrite R. auto.
  - intros ->. specialize (E2 eq_refl). destruct (assembles_program _ _ _ A) as (q & R & TR & _). rewrite <- TR in *.
    destruct (p_trace q) as [|o [|o' l]] eqn:T; [discriminate| |].
    + destruct (run_split q [] o [] ltac:(rewrite T; exact R) T) as (p1 & p2 & R1 & T1 & O & _). cbn in R1. injection R1 as <-.
      cbn in E2. injection E2 as D L. exists o. split; auto. split; auto. rewrite O. auto.
    + exfalso. apply (f_equal (@List.length _)) in E2. unfold lexemes in E2. rewrite rev_length, map_length in E2. cbn [map List.length] in E2. lia.
Qed.
Lemma not_rune_simple w : rune (hd 0 w) = false -> simple w.
Proof.
  unfold simple. intros N I. remember (hd 0 w) as c. clear Heqc. vm_compute in I. repeat destruct I as [I|I]; try contradiction; subst c; discriminate.
Qed.
Lemma not_rune_quote w : rune (hd 0 w) = false -> hd 0 w <> 34.
Proof. intros N E. rewrite E in N. discriminate. Qed.

(** A word that does not begin with a rune and is not a number, alone in a
    file, is accepted exactly if it is one of the mnemonics: any other would have
    to be the name of a label.  The ROM then is the byte of the mnemonic. *)
Theorem C42_accepted_mnemonics w ok evs : plain w -> rune (hd 0 w) = false -> read_number w = NotNumber ->
  assembles (one w) (bytes "a") ok evs ->
  (ok = true <-> mnemonic w <> None) /\
  (forall v, mnemonic w = Some v -> forall a, rom evs a = if a =? 256 then Some v else None).
Proof.
  intros P N NN A. destruct (single w ok evs P (not_rune_simple _ N) A) as [E1 E2].
  assert (NE : w <> []) by apply P.
  assert (EF : forall x, rune x = true -> (hd 0 w =? x) = false).
  { intros x X. destruct (Z.eqb_spec (hd 0 w) x); auto. congruence. }
  assert (ST : step empty 0 w = match mnemonic w with Some v => place_byte (with_occ empty (mkOcc 0 (p_scope empty) 256 w)) v
     | None => bind (place_byte (with_occ empty (mkOcc 0 (p_scope empty) 256 w)) 96) (fun p => place_ref_to p Far w) end).
  { unfold step, effect. destruct w as [|c w]; [congruence|]. cbn [hd] in EF. rewrite !EF by reflexivity. rewrite NN. reflexivity. }
  split.
  - rewrite E1, ST. split.
    + intros (p & S & C). intros M. rewrite M in S. destruct C as [_ C]. unfold place_ref_to in S.
      destruct (place_byte _ _) as [p1|] eqn:PB; [|discriminate]. cbn [bind] in S.
      destruct (find_target p1 w) as [[t p2]|] eqn:FT; [|discriminate]. cbn [bind] in S.
      assert (LB : p_labels p1 = []) by (unfold place_byte in PB; cbn in PB; injection PB as <-; reflexivity).
      apply find_refers in FT. destruct FT as [W1|? ? W1 _|n W1 W2 W3 _ _]; try (subst w; discriminate).
      apply place_ref_range in S as S'. destruct S' as (_ & _ & S'). apply (C _ _ (S' 0 ltac:(cbn; lia))). cbn [cell_byte address].
      pose proof (kept_ref _ _ _ _ S) as K. rewrite (k_labels _ _ K), LB. reflexivity.
    + intros M. destruct (mnemonic w) as [v|]; [|congruence]. eexists. split; [reflexivity|]. split; [reflexivity|].
      intros a c [[= <- <-]|[]]. discriminate.
  - intros v M a. assert (OK : ok = true).
    { apply E1. rewrite ST, M. eexists. split; [reflexivity|]. split; [reflexivity|]. intros x c [[= <- <-]|[]]. discriminate. }
    subst ok. destruct (E2 eq_refl) as (o & T & L & AD & _). pose proof (spells_operation (o_lex o) v) as SP. rewrite L in SP. specialize (SP N NN M).
    assert (CO : forall l4 d l3, [o] = l4 ++ d :: l3 -> l4 = [] /\ d = o /\ l3 = []).
    { intros [|x l4] d l3 E; cbn in E; [injection E as <- <-; auto|]. injection E as _ E. symmetry in E. apply app_eq_nil in E as [_ E]. discriminate. }
    destruct (Z.eqb_spec a 256) as [->|NA].
    + rewrite <- AD. rewrite <- (Z.add_0_r (o_addr o)). rewrite <- L in SP.
      apply (success_spells _ _ _ [] o [] [v] 0%nat v A); auto. intros l4 d l3 E _. apply CO in E. tauto.
    + destruct (rom evs a) eqn:RO; auto. exfalso.
      assert (X : rom evs a <> None) by congruence. apply (C40_bytes_are_tokens _ _ _ _ A) in X as (l4 & d & l3 & E & k & EM & B).
      rewrite T in E. apply CO in E as (-> & -> & ->). rewrite <- L in SP. pose proof (spells_emits (macro_names []) _ _ SP) as EM'.
      rewrite (emits_det _ _ _ _ EM EM') in B. cbn in B. lia.
Qed.
Print Assumptions C42_accepted_mnemonics.

Lemma code_in_firstn ops : forall w c v, code_in ops w c = Some v -> In w (map bytes ops) /\ nth_error (map bytes ops) (Z.to_nat (v - c)) = Some w /\ c <= v.
Proof.
  induction ops as [|x ops IH]; intros w c v H; cbn [code_in] in H; [discriminate|]. destruct (str_dec (bytes x) w) as [<-|N].
  - injection H as <-. rewrite Z.sub_diag. split; [left; auto|]. split; [reflexivity|lia].
  - apply IH in H as (H1 & H2 & H3). split; [right; auto|]. split; [|lia].
    replace (Z.to_nat (v - c)) with (S (Z.to_nat (v - (c + 1)))) by lia. exact H2.
Qed.
Lemma mnemonic_first w v : mnemonic w = Some v -> In (firstn 3 w) (map bytes ("BRK"%string :: OPERATIONS)).
Proof.
  unfold mnemonic. destruct (str_dec w (bytes "BRK")) as [->|N]; [intros _; left; reflexivity|]. cbv zeta.
  destruct (code_in _ _ _) as [c|] eqn:C; [|discriminate]. intros _. apply code_in_firstn in C as (C & _). right. exact C.
Qed.
Lemma mnemonic_word w v : mnemonic w = Some v -> rune (hd 0 w) = false /\ read_number w = NotNumber.
Proof.
  intros M. apply mnemonic_first in M.
  assert (G : 65 <= hd 0 w <= 90 /\ w <> []).
  { destruct w as [|c w]; [vm_compute in M; repeat (destruct M as [M|M]; [discriminate|]); contradiction|].
    split; [|discriminate]. cbn [hd]. cbn [firstn] in M.
    assert (H : In c (map (hd 0) (map bytes ("BRK"%string :: OPERATIONS)))).
    { apply in_map_iff. eexists. split; [|exact M]. reflexivity. }
    clear M. vm_compute in H. repeat (destruct H as [<-|H]; [lia|]). contradiction. }
  destruct G as [G1 G2]. destruct w as [|c w]; [congruence|]. cbn [hd] in *. split.
  - destruct (rune c) eqn:R; auto. unfold rune in R. apply existsb_exists in R as (x & I & E). apply Z.eqb_eq in E. subst x.
    vm_compute in I. repeat (destruct I as [<-|I]; [lia|]). contradiction.
  - assert (H : hexadecimal c = false) by (unfold hexadecimal, decimal; lia).
    assert (c <> 43) by lia. unfold read_number.
    assert (X : forallb hexadecimal (c :: w) = false) by (cbn [forallb]; rewrite H; reflexivity). rewrite X.
    destruct c as [|q|q]; auto. do 6 (destruct q as [q|q|]; auto); congruence.
Qed.

(** In every program a mnemonic is its byte. *)
Theorem C42_encoding fs file evs l2 o l1 v : assembles fs file true evs -> trace evs = l2 ++ o :: l1 ->
  mnemonic (o_lex o) = Some v -> alone l2 o l1 (o_addr o) -> rom evs (o_addr o) = Some v.
Proof.
  intros A T M AL.
  assert (X : rune (hd 0 (o_lex o)) = false /\ read_number (o_lex o) = NotNumber) by (apply mnemonic_word in M; tauto).
  rewrite <- (Z.add_0_r (o_addr o)) in *.
  apply (success_spells _ _ _ l2 o l1 [v] 0%nat v A T); auto. apply spells_operation; tauto.
Qed.
Print Assumptions C42_encoding.

(** The VM (VmSpec, from which [operation] and [flag] are) decodes the byte of a
    mnemonic to the operation and modes that it names. *)
Definition name_of (o : VmModel.base) : string :=
  match o with
  | VmModel.INC => "INC" | VmModel.POP => "POP" | VmModel.NIP => "NIP" | VmModel.SWP => "SWP" | VmModel.ROT => "ROT"
  | VmModel.DUP => "DUP" | VmModel.OVR => "OVR" | VmModel.EQU => "EQU" | VmModel.NEQ => "NEQ" | VmModel.GTH => "GTH"
  | VmModel.LTH => "LTH" | VmModel.JMP => "JMP" | VmModel.JCN => "JCN" | VmModel.JSR => "JSR" | VmModel.STH => "STH"
  | VmModel.LDZ => "LDZ" | VmModel.STZ => "STZ" | VmModel.LDR => "LDR" | VmModel.STR => "STR" | VmModel.LDA => "LDA"
  | VmModel.STA => "STA" | VmModel.DEI => "DEI" | VmModel.DEO => "DEO" | VmModel.ADD => "ADD" | VmModel.SUB => "SUB"
  | VmModel.MUL => "MUL" | VmModel.DIV => "DIV" | VmModel.AND => "AND" | VmModel.ORA => "ORA" | VmModel.EOR => "EOR"
  | VmModel.SFT => "SFT"
  end%string.
Theorem C42_decoded w v : mnemonic w = Some v ->
  let modes := skipn 3 w in
  let short := has (chr "2") modes in let return_ := has (chr "r") modes in let keep := has (chr "k") modes in
  (w = bytes "BRK" /\ v = 0) \/
  (firstn 3 w = bytes "LIT" /\ 128 <= v /\ forall m, VmSpec.spec_step v m = VmSpec.spec_lit return_ short m) \/
  (v mod 32 <> 0 /\ firstn 3 w = bytes (name_of (VmSpec.operation (v mod 32))) /\
   forall m, VmSpec.spec_step v m = VmSpec.spec_poly (VmSpec.operation (v mod 32)) keep return_ short m).
Proof.
  intros M. cbv zeta. unfold mnemonic in M. destruct (str_dec w (bytes "BRK")) as [->|N]; [injection M as <-; auto|]. cbv zeta in M. right.
  remember (skipn 3 w) as modes eqn:EM. remember (firstn 3 w) as letters eqn:EL. clear EM EL N.
  destruct (code_in _ _ _) as [c|] eqn:C; [|discriminate]. destruct (forallb _ _); [|discriminate]. injection M as <-.
  apply code_in_firstn in C as (_ & C & R). rewrite Z.sub_0_r in C.
  assert (B : c < 32).
  { assert (H : (Z.to_nat c < List.length (map bytes OPERATIONS))%nat) by (apply nth_error_Some; congruence). cbn in H. lia. }
  destruct (has (chr "2") modes), (has (chr "r") modes), (has (chr "k") modes); cbn [orb].
  all: assert (H : exists n : nat, (n < 32)%nat /\ c = Z.of_nat n) by (exists (Z.to_nat c); lia); destruct H as (n & Hn & ->); rewrite Nat2Z.id in C;
    clear B R; do 32 (destruct n as [|n]; [cbn in C; injection C as C; clear Hn;
      first [left; split; [symmetry; exact C|]; split; [vm_compute; discriminate|reflexivity]
            |right; split; [vm_compute; discriminate|]; split; [symmetry; exact C|reflexivity]]|]); lia.
Qed.
Print Assumptions C42_decoded.

(** All bytes but three are the byte of a mnemonic, ... *)
Theorem C42_all_bytes v : is_byte v ->
  ((exists w, mnemonic w = Some v /\ len w <= 6) <-> v <> 32 /\ v <> 64 /\ v <> 96).
Proof.
  intros B. split.
  - intros (w & M & _). pose proof (C42_decoded w v M) as D. cbv zeta in D.
    destruct D as [[_ ->]|[(_ & D & _)|(D & _)]]; [lia|lia|]. repeat split; intros ->; apply D; reflexivity.
  - intros N. set (c := v mod 32).
    set (w := (if v =? 0 then bytes "BRK" else bytes (nth (Z.to_nat c) OPERATIONS ""%string) ++
       (if VmSpec.flag v 32 then [chr "2"] else []) ++ (if VmSpec.flag v 64 then [chr "r"] else []) ++ (if VmSpec.flag v 128 then [chr "k"] else []))).
    exists w. unfold is_byte in B.
    assert (G : forall n : nat, (n < 256)%nat -> let v := Z.of_nat n in let c := v mod 32 in
       (v =? 32) || (v =? 64) || (v =? 96) = false ->
       let w := (if v =? 0 then bytes "BRK" else bytes (nth (Z.to_nat c) OPERATIONS ""%string) ++
       (if VmSpec.flag v 32 then [chr "2"] else []) ++ (if VmSpec.flag v 64 then [chr "r"] else []) ++ (if VmSpec.flag v 128 then [chr "k"] else [])) in
       (match mnemonic w with Some x => x =? v | None => false end) && (len w <=? 6) = true).
    { assert (F : forallb (fun n => let v := Z.of_nat n in let c := v mod 32 in
       (v =? 32) || (v =? 64) || (v =? 96) || 
       let w := (if v =? 0 then bytes "BRK" else bytes (nth (Z.to_nat c) OPERATIONS ""%string) ++
       (if VmSpec.flag v 32 then [chr "2"] else []) ++ (if VmSpec.flag v 64 then [chr "r"] else []) ++ (if VmSpec.flag v 128 then [chr "k"] else [])) in
       (match mnemonic w with Some x => x =? v | None => false end) && (len w <=? 6)) (seq 0 256) = true) by (vm_compute; reflexivity).
      intros n Hn. rewrite forallb_forall in F. specialize (F n). rewrite in_seq in F. specialize (F ltac:(lia)). cbv zeta in F |- *.
      intros X. rewrite X in F. exact F. }
    specialize (G (Z.to_nat v) ltac:(lia)). rewrite Z2Nat.id in G by lia. cbv zeta in G. specialize (G ltac:(lia)). fold c in G. fold w in G.
    apply andb_true_iff in G as [G1 G2]. destruct (mnemonic w) as [x|]; [|discriminate]. apply Z.eqb_eq in G1. subst x. split; auto. lia.
Qed.
Print Assumptions C42_all_bytes.
(** ... and those three are what "?", "!" and names put before an address. *)
Theorem C42_immediate_forms ms r : writes ms (chr "?" :: r) (Some 32) Far r /\ writes ms (chr "!" :: r) (Some 64) Far r /\
  (r <> [] -> rune (hd 0 r) = false -> read_number r = NotNumber -> mnemonic r = None -> ~ In r ms -> writes ms r (Some 96) Far r).
Proof. split; [constructor|]. split; [constructor|]. intros. constructor; auto. Qed.
Print Assumptions C42_immediate_forms.

(** ADD with all modes, in two orders and with a repetition; ADDx and add are
    not mnemonics. *)
Example C42_case :
  plain (bytes "ADDkr2") /\ read_number (bytes "ADDkr2") = NotNumber /\
  mnemonic (bytes "ADDkr2") = Some 248 /\ mnemonic (bytes "ADD2rkr") = Some 248 /\ mnemonic (bytes "ADDx") = None /\ mnemonic (bytes "add") = None /\
  mnemonic (bytes "LITr") = Some 192 /\
  fst (run_one (bytes "ADD2rkr")) = true /\ fst (run_one (bytes "ADDx")) = false /\ rom (evs_of (bytes "ADD2rkr")) 256 = Some 248.
Proof.
  split; [|vm_compute; auto 20]. split; [discriminate|]. split.
  - repeat (constructor; [split; [unfold is_byte; vm_compute; split; congruence|reflexivity]|]). constructor.
  - split; [vm_compute; discriminate|vm_compute; discriminate].
Qed.

(** ** C43 *)
(** The documented ways of writing a number: its value and how many bytes it
    has. *)
Inductive documented : str -> Z -> Z -> Prop :=
| doc_hex_byte s : forallb hexadecimal s = true -> len s = 2 -> documented s (value 16 s) 1
| doc_hex_short s : forallb hexadecimal s = true -> len s = 4 -> documented s (value 16 s) 2
| doc_decimal_byte s : s <> [] -> forallb decimal s = true -> value 10 s <= 255 -> documented (chr "+" :: s) (value 10 s) 1
| doc_decimal_short s : s <> [] -> forallb decimal s = true -> value 10 s <= 65535 -> documented (chr "+" :: chr "+" :: s) (value 10 s) 2.
(** What the assembler takes besides: plus signs without digits, as 0. *)
Inductive undocumented : str -> Z -> Z -> Prop :=
| undoc_byte : undocumented (bytes "+") 0 1
| undoc_short : undocumented (bytes "++") 0 2.
(** What looks like a number and cannot be a name. *)
Definition numeric (s : str) : Prop :=
  exists d, (s = d /\ d <> [] /\ forallb hexadecimal d = true) \/ (s = chr "+" :: d /\ forallb decimal d = true) \/ (s = chr "+" :: chr "+" :: d /\ forallb decimal d = true).

Lemma read_number_hex c s : c <> 43 -> read_number (c :: s) =
  if forallb hexadecimal (c :: s) then
    if len (c :: s) <=? 4 then Number (value 16 (c :: s)) (if len (c :: s) <=? 2 then 1 else 2) (len (c :: s)) else BadNumber
  else NotNumber.
Proof.
  intros N. unfold read_number. destruct c as [|q|q]; auto. do 6 (destruct q as [q|q|]; auto); congruence.
Qed.
Lemma read_number_plus c s : c <> 43 -> read_number (43 :: c :: s) = decimal_number (c :: s) 255 1.
Proof. intros N. unfold read_number. destruct c as [|q|q]; auto. do 6 (destruct q as [q|q|]; auto); congruence. Qed.
Lemma read_literal_forms s v n : read_literal s = Some (v, n) <-> documented s v n \/ undocumented s v n.
Proof.
  assert (L1 : forall (s : str), 0 <= len s) by (intros; unfold len; lia).
  split.
  - unfold read_literal. destruct s as [|c s]; [discriminate|]. destruct (Z.eq_dec c 43) as [->|N].
    + destruct s as [|c s]; [intros [= <- <-]; right; exact undoc_byte|]. destruct (Z.eq_dec c 43) as [->|N].
      * change (read_number (43 :: 43 :: s)) with (decimal_number s 65535 2). unfold decimal_number.
        destruct (forallb decimal s) eqn:F; [|discriminate]. destruct (Z.leb_spec (value 10 s) 65535); [|discriminate]. cbn. intros [= <- <-].
        destruct s as [|x s]; [right; exact undoc_short|]. left. apply (doc_decimal_short (x :: s)); auto. discriminate.
      * rewrite read_number_plus by auto. unfold decimal_number.
        destruct (forallb decimal (c :: s)) eqn:F; [|discriminate]. destruct (Z.leb_spec (value 10 (c :: s)) 255); [|discriminate].
        intros [= <- <-]. left. apply (doc_decimal_byte (c :: s)); auto. discriminate.
    + rewrite read_number_hex by auto. destruct (forallb hexadecimal (c :: s)) eqn:F; [|discriminate].
      destruct (len (c :: s) <=? 4) eqn:L; [|discriminate]. destruct (_ || _) eqn:X; [|discriminate]. intros [= <- <-]. left.
      assert (len (c :: s) = 2 \/ len (c :: s) = 4) as [E|E].
      { assert (0 < len (c :: s)) by (unfold len; cbn [List.length]; lia). lia. }
      * rewrite E. apply doc_hex_byte; auto.
      * rewrite E. apply doc_hex_short; auto.
  - assert (HX : forall c s, forallb hexadecimal (c :: s) = true -> c <> 43).
    { intros c t F ->. discriminate. }
    intros [H|H].
    + destruct H as [s F L|s F L|s NE F L|s NE F L]; unfold read_literal.
      * destruct s as [|c s]; [discriminate|]. rewrite read_number_hex, F, L by eauto. reflexivity.
      * destruct s as [|c s]; [discriminate|]. rewrite read_number_hex, F, L by eauto. reflexivity.
      * destruct s as [|c s]; [congruence|]. change (chr "+") with 43. rewrite read_number_plus.
        -- unfold decimal_number. rewrite F. destruct (Z.leb_spec (value 10 (c :: s)) 255); [reflexivity|lia].
        -- intros ->. discriminate.
      * change (read_number (chr "+" :: chr "+" :: s)) with (decimal_number s 65535 2). unfold decimal_number. rewrite F.
        destruct (Z.leb_spec (value 10 s) 65535); [reflexivity|lia].
    + destruct H; reflexivity.
Qed.
Lemma numeric_number s : numeric s <-> read_number s <> NotNumber.
Proof.
  split.
  - intros (d & [(-> & N & F)|[(-> & F)|(-> & F)]]).
    + destruct d as [|c d]; [congruence|]. rewrite read_number_hex, F; [destruct (_ <=? 4); discriminate|]. intros ->. discriminate.
    + destruct d as [|c d]; [discriminate|]. change (chr "+") with 43. rewrite read_number_plus.
      * unfold decimal_number. rewrite F. destruct (_ <=? 255); discriminate.
      * intros ->. discriminate.
    + change (read_number (chr "+" :: chr "+" :: d)) with (decimal_number d 65535 2). unfold decimal_number. rewrite F. destruct (_ <=? 65535); discriminate.
  - intros H. destruct s as [|c s]; [destruct (H eq_refl)|]. destruct (Z.eq_dec c 43) as [->|N].
    + destruct s as [|c s]; [exists []; right; left; auto|]. destruct (Z.eq_dec c 43) as [->|N].
      * exists s. right. right. split; auto. change (decimal_number s 65535 2 <> NotNumber) in H. unfold decimal_number in H. destruct (forallb decimal s); congruence.
      * exists (c :: s). right. left. split; auto. rewrite read_number_plus in H by auto. unfold decimal_number in H. destruct (forallb decimal (c :: s)); congruence.
    + exists (c :: s). left. split; auto. split; [discriminate|]. rewrite read_number_hex in H by auto. destruct (forallb hexadecimal (c :: s)); congruence.
Qed.
Lemma number_rune s v n : read_literal s = Some (v, n) -> rune (hd 0 s) = false /\ s <> [].
Proof.
  intros H. assert (N : read_number s <> NotNumber) by (unfold read_literal in H; intros E; rewrite E in H; discriminate).
  apply numeric_number in N as (d & [(-> & N & F)|[(-> & F)|(-> & F)]]); [|split; [reflexivity|discriminate]..].
  split; auto. destruct d as [|c d]; [congruence|]. cbn [forallb] in F. apply andb_true_iff in F as [F _]. cbn [hd].
  destruct (rune c) eqn:R; auto. unfold rune in R. apply existsb_exists in R as (x & I & E). apply Z.eqb_eq in E. subst x.
  vm_compute in I. repeat (destruct I as [<-|I]; [vm_compute in F; discriminate|]). contradiction.
Qed.

(** The bytes of a number as a literal and as raw bytes. *)
Definition shown (lit : bool) (v n : Z) : list Z :=
  (if lit then [if n =? 1 then 128 else 160] else []) ++ (if n =? 1 then [v] else [v / 256; v mod 256]).
Theorem C43_emitted fs file evs l2 o l1 s v n (lit : bool) : assembles fs file true evs -> trace evs = l2 ++ o :: l1 ->
  o_lex o = (if lit then [chr "#"] else []) ++ s -> documented s v n ->
  forall i b, nth_error (shown lit v n) i = Some b -> alone l2 o l1 (o_addr o + Z.of_nat i) -> rom evs (o_addr o + Z.of_nat i) = Some b.
Proof.
  intros A T L D i b N AL. assert (RL : read_literal s = Some (v, n)) by (apply read_literal_forms; auto).
  destruct (number_rune _ _ _ RL) as [NR NE].
  apply (success_spells _ _ _ l2 o l1 (shown lit v n) i b A T); auto. rewrite L. unfold shown.
  destruct (read_literal_range _ _ _ RL) as [[-> _]|[-> _]]; destruct lit; cbn [app Z.eqb Pos.eqb]; constructor; auto.
Qed.
Print Assumptions C43_emitted.

(** Anything else after "#" and anything else that looks like a number is an
    error. *)
Theorem C43_rejected fs file ok evs l2 o l1 s : assembles fs file ok evs -> trace evs = l2 ++ o :: l1 ->
  o_lex o = chr "#" :: s \/ (o_lex o = s /\ numeric s) ->
  (forall v n, ~ documented s v n /\ ~ undocumented s v n) -> ok = false.
Proof.
  intros A T L ND. destruct ok; auto. exfalso. destruct (assembles_program _ _ _ A) as (q & R & TR & _). rewrite <- TR in *.
  destruct (run_split _ _ _ _ R T) as (p1 & p2 & _ & _ & _ & S & _).
  assert (NL : read_literal s = None).
  { destruct (read_literal s) as [[v n]|] eqn:E; auto. apply read_literal_forms in E. exfalso. destruct (ND v n). tauto. }
  destruct L as [L|[L NU]].
  - rewrite L in S. unfold step, effect in S. cbn in S. rewrite NL in S. discriminate.
  - assert (NR : rune (hd 0 s) = false).
    { destruct NU as (d & [(-> & N & F)|[(-> & F)|(-> & F)]]); [|reflexivity..]. destruct d as [|c d]; [congruence|]. cbn [forallb] in F. apply andb_true_iff in F as [F _]. cbn [hd].
      destruct (rune c) eqn:RR; auto. unfold rune in RR. apply existsb_exists in RR as (x & I & E). apply Z.eqb_eq in E. subst x.
      vm_compute in I. repeat (destruct I as [<-|I]; [vm_compute in F; discriminate|]). contradiction. }
    apply numeric_number in NU. rewrite L in S. unfold step, effect in S. destruct s as [|c s]; [discriminate|]. cbn [hd] in NR.
    assert (EF : forall x, rune x = true -> (c =? x) = false).
    { intros x X. destruct (Z.eqb_spec c x); auto. congruence. }
    rewrite !EF in S by reflexivity. destruct (read_number (c :: s)); [congruence|discriminate|]. rewrite NL in S. discriminate.
Qed.
Print Assumptions C43_rejected.

(** The documented forms are accepted, alone in a file. *)
Theorem C43_accepted w s v n (lit : bool) ok evs : w = (if lit then [chr "#"] else []) ++ s -> plain w -> documented s v n ->
  assembles (one w) (bytes "a") ok evs -> ok = true.
Proof.
  intros E P D A. assert (RL : read_literal s = Some (v, n)) by (apply read_literal_forms; auto).
  destruct (number_rune _ _ _ RL) as [NR NE].
  assert (SI : simple w).
  { destruct lit; cbn [app] in E; subst w; [|apply not_rune_simple; auto]. intros I. vm_compute in I. repeat destruct I as [I|I]; try discriminate; contradiction. }
  apply (single w ok evs P SI A).
  assert (G : forall p l, p_addr p = 256 -> p_open p = [] -> p_cells p = [] -> List.length l = 1%nat \/ List.length l = 2%nat \/ List.length l = 3%nat ->
    exists p', place_bytes p l = Some p' /\ complete p').
  { clear. intros p l A O C [L|[L|L]]; destruct l as [|x [|y [|z [|u l]]]]; try discriminate; cbn [place_bytes]; unfold place_byte; rewrite A; cbn;
      (eexists; split; [reflexivity|]; split; [exact O|]); intros a c; cbn; rewrite C; cbn; intros I;
      repeat destruct I as [I|I]; try contradiction; injection I as <- <-; discriminate. }
  assert (NB : List.length (number_bytes (v, n)) = 1%nat \/ List.length (number_bytes (v, n)) = 2%nat).
  { unfold number_bytes. destruct (n =? 1); auto. }
  destruct lit; cbn [app] in E; subst w.
  - unfold step, effect. cbn [Z.eqb]. change (exists p, bind (read_literal s) (fun vn => place_bytes (with_occ empty (mkOcc 0 (bytes "RESET") 256 (chr "#" :: s))) ((if snd vn =? 1 then 128 else 160) :: number_bytes vn)) = Some p /\ complete p).
    rewrite RL. cbn [bind snd]. apply G; auto. cbn [List.length]. lia.
  - unfold step, effect. destruct s as [|c s]; [congruence|]. cbn [hd] in NR.
    assert (EF : forall x, rune x = true -> (c =? x) = false).
    { intros x X. destruct (Z.eqb_spec c x); auto. congruence. }
    rewrite !EF by reflexivity. destruct (read_number (c :: s)) eqn:RN.
    + unfold read_literal in RL. rewrite RN in RL. discriminate.
    + unfold read_literal in RL. rewrite RN in RL. discriminate.
    + rewrite RL. cbn [bind]. apply G; auto. lia.
Qed.
Print Assumptions C43_accepted.

(** The plus signs without digits: they are no documented number, and yet
    accepted. *)
Theorem C43_plus_refuted : (forall v n, ~ documented (bytes "+") v n) /\ (forall v n, ~ documented (bytes "++") v n) /\
  (exists evs, assembles (one (bytes "#+")) (bytes "a") true evs /\ map (rom evs) [256; 257] = [Some 128; Some 0]) /\
  (exists evs, assembles (one (bytes "++")) (bytes "a") true evs /\ map (rom evs) [256; 257] = [Some 0; Some 0]).
Proof.
  split. { intros v n H. inversion H; subst; try discriminate; try congruence. }
  split. { intros v n H. inversion H; subst; try discriminate; try congruence. }
  split; eexists; (split; [assembled|vm_compute; reflexivity]).
Qed.
Print Assumptions C43_plus_refuted.

Example C43_case :
  documented (bytes "+69") 69 1 /\ documented (bytes "++420") 420 2 /\ documented (bytes "beef") 48879 2 /\
  map fst (map run_one [bytes "#+69"; bytes "++420"; bytes "beef"; bytes "#fff"; bytes "12345"; bytes "+256"; bytes "abc"; bytes "#GG"]) =
    [true; true; true; false; false; false; false; false] /\
  map (rom (evs_of (bytes "#++420"))) [256; 257; 258] = [Some 160; Some 1; Some 164].
Proof.
  split; [apply (doc_decimal_byte (bytes "69")); [discriminate|reflexivity|vm_compute; discriminate]|].
  split; [apply (doc_decimal_short (bytes "420")); [discriminate|reflexivity|vm_compute; discriminate]|].
  split; [apply (doc_hex_short (bytes "beef")); reflexivity|]. split; vm_compute; reflexivity.
Qed.
