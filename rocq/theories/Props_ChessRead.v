(** C89 and C90: what the type checker takes from the comments (src/asm/chess.c).

    Vocabulary, from SigSpec.v: [is_comment text evs] says that the events [evs] of
    the assembler are those of a comment whose words are [text]; [is_signature]
    and [is_cast] say which words are a signature or a cast, and
    [reads_as] what the name of a value says about it.  [starts_as] says with
    what on the stacks the analysis of a routine begins. *)
From Verif Require Props_Asm.
From Verif Require Import Base VmModel AsmModel ChessModel AsmWords ValueSpec ChessValue SigSpec ChessRead.
From Coq Require Import ZifyBool String.
Open Scope list_scope.
Ltac Zify.zify_post_hook ::= Z.div_mod_to_equations.

(** The reader is right behind the label or the opcode at [a]. *)
Definition behind (t : sym_type) (a : Z) (z : reader) : Prop := z_cur z = Some (t, a) /\ z_bad z = false.
(** [a] is declared as a routine. *)
Definition declared_at (z : reader) (a : Z) : Prop := exists i, h_infos (z_h z) a = Some i /\ i_rout i = true.
(** The routine at [a] is one of those that must end. *)
Definition must_end (z : reader) (a : Z) : Prop := exists i, h_infos (z_h z) a = Some i /\ i_marked i = true.
(** Nothing but the diagnostics is different. *)
Definition only_reports (z z' : reader) : Prop :=
  h_infos (z_h z') = h_infos (z_h z) /\ h_list (z_h z') = h_list (z_h z) /\ h_casts (z_h z') = h_casts (z_h z).

Lemma sig_bad z text a : behind SLabel a z -> Forall fits text -> forall l l', text = l ++ l' -> z_bad (annos (opened z HSig1) l) = false.
Proof.
  intros [C B] F l l' ->. apply Forall_pre in F. destruct (sig_words (opened z HSig1) l eq_refl eq_refl F) as [(w & r & w' & r' & v & tr & _ & _ & _ & _ & E & _)|(_ & _ & _ & K)].
  - rewrite E. exact B.
  - destruct K as (_ & _ & _ & _ & K). rewrite K. exact B.
Qed.
Lemma cast_bad z text a : behind SOpcode a z -> Forall fits text -> forall l l', text = l ++ l' -> z_bad (annos (opened z HCast1) l) = false.
Proof.
  intros [C B] F l l' ->. apply Forall_pre in F. destruct (cast_words (opened z HCast1) l eq_refl eq_refl F) as [(w & r & _ & _ & _ & _ & E & _)|(_ & _ & _ & K)].
  - rewrite E. exact B.
  - destruct K as (_ & _ & _ & _ & K). rewrite K. exact B.
Qed.
Lemma comment_fits text evs : is_comment text evs -> Forall fits text.
Proof. intros (o & ws & c & _ & _ & _ & _ & W). apply fits_words, W. Qed.

(** After a label, the comment belongs to it. *)
Theorem C89_label_is_remembered : forall z addr s z',
  z_bad z = false -> s_type s = SLabel -> s_gen s = false -> read_symbols z [ESym addr s] = Some z' ->
  behind SLabel addr z' /\ (declared_at z' addr <-> declared_at z addr) /\ (must_end z' addr <-> must_end z addr) /\
  (exists i, h_infos (z_h z') addr = Some i) /\ (forall b, b <> addr -> h_infos (z_h z') b = h_infos (z_h z) b) /\
  h_list (z_h z') = h_list (z_h z) /\ h_casts (z_h z') = h_casts (z_h z) /\ h_reports (z_h z') = h_reports (z_h z).
Proof.
  intros z a s z' B T G E. cbn [read_symbols] in E. unfold read_symbol in E. rewrite T, G in E. cbn [z_bad] in E. rewrite B in E. injection E as <-.
  unfold behind, declared_at, must_end. cbn [z_cur z_bad z_h]. split; [auto|]. unfold ensure_info. destruct (h_infos (z_h z) a) as [i|] eqn:E.
  - rewrite E. split; [reflexivity|]. split; [reflexivity|]. split; [eauto|]. auto.
  - cbn [h_infos h_list h_casts h_reports]. unfold upd_info. rewrite Z.eqb_refl.
    split; [split; intros (i & X & Y); [injection X as <-; discriminate Y|discriminate X]|].
    split; [split; intros (i & X & Y); [injection X as <-; discriminate Y|discriminate X]|].
    split; [eauto|]. split; [|auto]. intros b Hb. replace (b =? a) with false by lia. reflexivity.
Qed.

(** A signature in the comment after a label is taken as it is written. *)
Theorem C89_signature_is_read : forall z a text evs w r w' r' vector trusted,
  behind SLabel a z -> (exists i, h_infos (z_h z) a = Some i) -> ~ declared_at z a ->
  is_comment text evs -> is_signature text w r w' r' vector trusted ->
  exists z' s i, read_symbols z evs = Some z' /\ says w r w' r' vector s /\
    h_infos (z_h z') a = Some i /\ i_rout i = true /\ i_sig i = Some s /\
    (must_end z' a <-> trusted = false \/ must_end z a) /\
    (forall b, b <> a -> h_infos (z_h z') b = h_infos (z_h z) b) /\
    (if trusted then h_list (z_h z') = h_list (z_h z) else exists e, starts_as e a s /\ h_list (z_h z') = e :: h_list (z_h z)) /\
    h_casts (z_h z') = h_casts (z_h z) /\ h_reports (z_h z') = h_reports (z_h z) /\ z_hand z' = HNone.
Proof.
  intros z a text evs w r w' r' v tr Bh (i & Hi) Nd Cm Sg. pose proof (comment_fits _ _ Cm) as F. pose proof Bh as [Cu B].
  rewrite (read_whole z text evs SLabel a HSig1 Cm B Cu (or_introl (conj eq_refl eq_refl)) (sig_bad z text a Bh F)).
  destruct (sig_words (opened z HSig1) text eq_refl eq_refl F) as [(x & y & x' & y' & u & q & S2 & A1 & A2 & A3 & A4 & A5 & A6)|(N & _)]; [|exfalso; eapply N; exact Sg].
  destruct (sig_unique _ _ _ _ _ _ _ _ _ _ _ _ _ Sg S2) as (<- & <- & <- & <- & <- & <-). clear S2.
  set (t := annos (opened z HSig1) text) in *. assert (R : i_rout i = false) by (destruct (i_rout i) eqn:R; [exfalso; apply Nd; exists i; auto|reflexivity]).
  assert (Sy : says w r w' r' v (sig_of w r w' r' v)).
  { destruct (sig_parts _ _ _ _ _ _ _ F Sg) as (F1 & F2 & F3 & F4). unfold says, sig_of. cbn. auto 10 using reads_all. }
  assert (Hm : must_end z a <-> i_marked i = true).
  { split; [intros (j & X & Y); congruence|intros Y; exists i; auto]. }
  unfold anno_end. rewrite A1. unfold sig_end. rewrite A3. cbn [opened z_cur z_with_hand z_with_tokens]. rewrite Cu. cbv zeta.
  rewrite A2. cbn [opened z_h z_with_hand z_with_tokens]. rewrite Hi, R, A5, A6.
  destruct tr; (eexists _, (sig_of w r w' r' v), _; split; [reflexivity|]; split; [exact Sy|]; cbn [z_h z_hand z_with_h z_with_hand]).
  - unfold h_with_infos, upd_info. cbn [h_infos h_list h_casts h_reports]. rewrite Z.eqb_refl. split; [reflexivity|]. cbn [i_rout i_sig]. split; [reflexivity|]. split; [reflexivity|]. split.
    { rewrite Hm. unfold must_end. cbn [z_h z_with_h z_with_hand h_infos]. rewrite Z.eqb_refl. split; [intros (j & X & Y); injection X as <-; auto|intros [X|Y]; [discriminate|eauto]]. }
    split; [intros b Hb; replace (b =? a) with false by lia; reflexivity|]. auto.
  - unfold mark_routine, h_with_infos, h_with_list, upd_info. cbn [h_infos h_list h_casts h_reports]. rewrite Z.eqb_refl. split; [reflexivity|]. cbn [i_rout i_sig]. split; [reflexivity|]. split; [reflexivity|]. split.
    { unfold must_end. cbn [z_h z_with_h z_with_hand h_infos]. rewrite Z.eqb_refl. split; [auto|intros _; eauto]. }
    split; [intros b Hb; replace (b =? a) with false by lia; reflexivity|]. split; [|auto].
    eexists. split; [|reflexivity]. destruct Sg as (ins & outs & ([L1 _] & [L2 _] & _) & _). apply entry_starts; unfold sig_of; cbn; rewrite map_length; assumption.
Qed.

(** A second signature for the same address is reported and changes nothing. *)
Theorem C89_second_signature_is_redundant : forall z a text evs w r w' r' vector trusted,
  behind SLabel a z -> declared_at z a -> is_comment text evs -> is_signature text w r w' r' vector trusted ->
  exists z', read_symbols z evs = Some z' /\ only_reports z z' /\ h_reports (z_h z') = h_reports (z_h z) ++ [RWarning WRedundant] /\ z_hand z' = HNone.
Proof.
  intros z a text evs w r w' r' v tr Bh (i & Hi & R) Cm Sg. pose proof (comment_fits _ _ Cm) as F. pose proof Bh as [Cu B].
  rewrite (read_whole z text evs SLabel a HSig1 Cm B Cu (or_introl (conj eq_refl eq_refl)) (sig_bad z text a Bh F)).
  destruct (sig_words (opened z HSig1) text eq_refl eq_refl F) as [(x & y & x' & y' & u & q & S2 & A1 & A2 & A3 & A4 & A5 & A6)|(N & _)]; [|exfalso; eapply N; exact Sg].
  set (t := annos (opened z HSig1) text) in *. unfold anno_end. rewrite A1. unfold sig_end. rewrite A3. cbn [opened z_cur z_with_hand z_with_tokens]. rewrite Cu. cbv zeta.
  rewrite A2. cbn [opened z_h z_with_hand z_with_tokens]. rewrite Hi, R. eexists. split; [reflexivity|]. cbn. repeat split.
Qed.

(** Any other comment after a label declares nothing. *)
Theorem C89_other_comments_declare_nothing : forall z a text evs,
  behind SLabel a z -> is_comment text evs -> (forall w r w' r' vector trusted, ~ is_signature text w r w' r' vector trusted) ->
  exists z', read_symbols z evs = Some z' /\ only_reports z z' /\ z_hand z' = HNone.
Proof.
  intros z a text evs Bh Cm N. pose proof (comment_fits _ _ Cm) as F. pose proof Bh as [Cu B].
  rewrite (read_whole z text evs SLabel a HSig1 Cm B Cu (or_introl (conj eq_refl eq_refl)) (sig_bad z text a Bh F)).
  destruct (sig_words (opened z HSig1) text eq_refl eq_refl F) as [(x & y & x' & y' & u & q & S2 & _)|(_ & A1 & A2 & K)]; [exfalso; eapply N; exact S2|].
  eexists. split; [reflexivity|]. destruct K as (_ & K1 & K2 & K3 & _). unfold anno_end, only_reports.
  destruct (z_hand (annos (opened z HSig1) text)); try contradiction; auto.
Qed.

(** A cast in the comment after an opcode is taken as it is written. *)
Theorem C90_cast_is_read : forall z a text evs w r,
  behind SOpcode a z -> h_casts (z_h z) a = None -> is_comment text evs -> is_cast text w r ->
  exists z' c, read_symbols z evs = Some z' /\ h_casts (z_h z') a = Some c /\
    Forall2 reads_as w (c_wst c) /\ Forall2 reads_as r (c_rst c) /\
    (forall b, b <> a -> h_casts (z_h z') b = h_casts (z_h z) b) /\
    h_infos (z_h z') = h_infos (z_h z) /\ h_list (z_h z') = h_list (z_h z) /\ h_reports (z_h z') = h_reports (z_h z) /\ z_hand z' = HNone.
Proof.
  intros z a text evs w r Bh Hc Cm Sg. pose proof (comment_fits _ _ Cm) as F. pose proof Bh as [Cu B].
  rewrite (read_whole z text evs SOpcode a HCast1 Cm B Cu (or_intror (conj eq_refl eq_refl)) (cast_bad z text a Bh F)).
  destruct (cast_words (opened z HCast1) text eq_refl eq_refl F) as [(x & y & S2 & A1 & A2 & A3 & A4 & A5)|(N & _)]; [|exfalso; eapply N; exact Sg].
  destruct (cast_unique _ _ _ _ _ Sg S2) as (<- & <-). destruct (cast_parts _ _ _ F Sg) as (F1 & F2).
  set (t := annos (opened z HCast1) text) in *. unfold anno_end. rewrite A1. unfold cast_end. rewrite A3. cbn [opened z_cur z_with_hand z_with_tokens]. rewrite Cu. cbv zeta.
  rewrite A2. cbn [opened z_h z_with_hand z_with_tokens]. rewrite Hc. eexists _, _. split; [reflexivity|]. cbn [z_h z_hand z_with_h z_with_hand h_casts h_infos h_list h_reports].
  rewrite Z.eqb_refl, A5. split; [reflexivity|]. cbn [c_wst c_rst]. split; [apply reads_all, F1|]. split; [apply reads_all, F2|].
  split; [intros b Hb; replace (b =? a) with false by lia; reflexivity|]. auto.
Qed.

(** A second cast for the same opcode is reported and changes nothing. *)
Theorem C90_second_cast_is_redundant : forall z a text evs w r,
  behind SOpcode a z -> h_casts (z_h z) a <> None -> is_comment text evs -> is_cast text w r ->
  exists z', read_symbols z evs = Some z' /\ only_reports z z' /\ h_reports (z_h z') = h_reports (z_h z) ++ [RWarning WRedundant] /\ z_hand z' = HNone.
Proof.
  intros z a text evs w r Bh Hc Cm Sg. pose proof (comment_fits _ _ Cm) as F. pose proof Bh as [Cu B].
  rewrite (read_whole z text evs SOpcode a HCast1 Cm B Cu (or_intror (conj eq_refl eq_refl)) (cast_bad z text a Bh F)).
  destruct (cast_words (opened z HCast1) text eq_refl eq_refl F) as [(x & y & S2 & A1 & A2 & A3 & A4 & A5)|(N & _)]; [|exfalso; eapply N; exact Sg].
  set (t := annos (opened z HCast1) text) in *. unfold anno_end. rewrite A1. unfold cast_end. rewrite A3. cbn [opened z_cur z_with_hand z_with_tokens]. rewrite Cu. cbv zeta.
  rewrite A2. cbn [opened z_h z_with_hand z_with_tokens]. destruct (h_casts (z_h z) a); [|contradiction]. eexists. split; [reflexivity|]. cbn. repeat split.
Qed.

(** Any other comment after an opcode is not a cast. *)
Theorem C90_other_comments_are_no_casts : forall z a text evs,
  behind SOpcode a z -> is_comment text evs -> (forall w r, ~ is_cast text w r) ->
  exists z', read_symbols z evs = Some z' /\ only_reports z z' /\ z_hand z' = HNone.
Proof.
  intros z a text evs Bh Cm N. pose proof (comment_fits _ _ Cm) as F. pose proof Bh as [Cu B].
  rewrite (read_whole z text evs SOpcode a HCast1 Cm B Cu (or_intror (conj eq_refl eq_refl)) (cast_bad z text a Bh F)).
  destruct (cast_words (opened z HCast1) text eq_refl eq_refl F) as [(x & y & S2 & _)|(_ & A1 & A2 & K)]; [exfalso; eapply N; exact S2|].
  eexists. split; [reflexivity|]. destruct K as (_ & K1 & K2 & K3 & _). unfold anno_end, only_reports.
  destruct (z_hand (annos (opened z HCast1) text)); try contradiction; auto.
Qed.

(** The words of a text say at most one signature, or one cast. *)
Theorem C89_one_reading : forall text w r w' r' v tr x s x' s' u t,
  is_signature text w r w' r' v tr -> is_signature text x s x' s' u t -> w = x /\ r = s /\ w' = x' /\ r' = s' /\ v = u /\ tr = t.
Proof. intros. eapply sig_unique; eauto. Qed.
Print Assumptions C89_label_is_remembered.
Print Assumptions C89_signature_is_read.
Print Assumptions C89_second_signature_is_redundant.
Print Assumptions C89_other_comments_declare_nothing.
Print Assumptions C89_one_reading.
Print Assumptions C90_cast_is_read.
Print Assumptions C90_second_cast_is_redundant.
Print Assumptions C90_other_comments_are_no_casts.

(** ** Cases *)

(** ** Cases, with what the assembler says of a program *)
Definition annotated : str := bytes "@on ( [a]* . B -> c* ! ) ADD ( X ! ) POP @on2 ( a -- b -- c ) BRK".
Definition annotated_evs : list event := Eval vm_compute in Props_Asm.evs_of annotated.
Definition upto (n : nat) : reader :=
  match read_symbols (reader0 (fun _ => 0)) (firstn n annotated_evs) with Some z => z | None => reader0 (fun _ => 0) end.
Ltac a_name := repeat (constructor; [repeat split; discriminate|]); constructor.
Example C89_case :
  annotated_evs = Props_Asm.evs_of annotated /\
  let z := upto 4 in
  behind SLabel 256 z /\ (exists i, h_infos (z_h z) 256 = Some i) /\ ~ declared_at z 256 /\
  is_comment [bytes "[a]*"; dot; bytes "B"; to_vector; bytes "c*"; bang] (firstn 8 (skipn 4 annotated_evs)) /\
  is_signature [bytes "[a]*"; dot; bytes "B"; to_vector; bytes "c*"; bang] [bytes "[a]*"] [bytes "B"] [bytes "c*"] [] true true.
Proof.
  split; [vm_compute; reflexivity|]. cbv zeta. split; [split; vm_compute; reflexivity|]. split; [eexists; vm_compute; reflexivity|].
  split; [intros (i & E & R); vm_compute in E; injection E as <-; discriminate R|]. split.
  - unfold annotated_evs. cbn [firstn skipn]. eexists _, (_ :: _ :: _ :: _ :: _ :: _ :: nil), _. split; [reflexivity|]. split; [vm_compute; auto|]. split; [repeat (constructor; [vm_compute; auto|]); constructor|].
    split; [vm_compute; auto|]. repeat (constructor; [split; [intros Ew; discriminate Ew|vm_compute; lia]|]); constructor.
  - exists [bytes "[a]*"; dot; bytes "B"], [bytes "c*"]. split; [split; [split; [cbn; lia|a_name]|split; [split; [cbn; lia|a_name]|right; reflexivity]]|].
    split; [split; [split; [cbn; lia|a_name]|split; [split; [cbn; lia|constructor]|left; auto]]|]. split; [reflexivity|vm_compute; discriminate].
Qed.
(** What the model makes of it. *)
Example C89_case_read :
  option_map (fun i => (i_rout i, i_sig i, i_marked i)) (h_infos (z_h (upto 12)) 256) =
  Some (true, Some (mkSig [mkV true false true false false false false false false [] None 0] [mkV false false false false false true false false false (bytes "B") None 0]
    [mkV true false false false false false false false false [] None 0] [] Vector), false).
Proof. vm_compute. reflexivity. Qed.
(** Words with two arrows are not a signature. *)
Lemma two_arrows : forall w r w' r' v tr, ~ is_signature [bytes "a"; to_caller; bytes "b"; to_caller; bytes "c"] w r w' r' v tr.
Proof.
  intros w r w' r' v tr S. destruct (toks_signature _ _ _ _ _ _ _ Vector S) as (p & E & _). vm_compute in E. discriminate E.
Qed.
Example C89_other_case : let z := upto 26 in
  behind SLabel 258 z /\ is_comment [bytes "a"; to_caller; bytes "b"; to_caller; bytes "c"] (firstn 7 (skipn 26 annotated_evs)).
Proof.
  cbv zeta. split; [split; vm_compute; reflexivity|].
  unfold annotated_evs. cbn [firstn skipn]. eexists _, (_ :: _ :: _ :: _ :: _ :: nil), _. split; [reflexivity|]. split; [vm_compute; auto|]. split; [repeat (constructor; [vm_compute; auto|]); constructor|].
  split; [vm_compute; auto|]. repeat (constructor; [split; [intros Ew; discriminate Ew|vm_compute; lia]|]); constructor.
Qed.
Example C90_case : let z := upto 15 in
  behind SOpcode 256 z /\ h_casts (z_h z) 256 = None /\ is_comment [bytes "X"; bang] (firstn 4 (skipn 16 annotated_evs)) /\ is_cast [bytes "X"; bang] [bytes "X"] [] /\
  option_map c_wst (h_casts (z_h (upto 20)) 256) = Some [mkV false false false false false true false false false (bytes "X") None 0].
Proof.
  cbv zeta. split; [split; vm_compute; reflexivity|]. split; [vm_compute; reflexivity|]. split.
  - unfold annotated_evs. cbn [firstn skipn]. eexists _, (_ :: _ :: nil), _. split; [reflexivity|]. split; [vm_compute; auto|]. split; [repeat (constructor; [vm_compute; auto|]); constructor|].
    split; [vm_compute; auto|]. repeat (constructor; [split; [intros Ew; discriminate Ew|vm_compute; lia]|]); constructor.
  - split; [|vm_compute; reflexivity]. exists [bytes "X"]. split; [split; [split; [cbn; lia|a_name]|split; [split; [cbn; lia|constructor]|left; auto]]|]. split; [reflexivity|vm_compute; discriminate].
Qed.
