(** Property C76: the positions in symbols and reports are those of the source.
    Property C77: the symbols of labels, macros and references fit together.

    [plain fs] says that the files are bytes, can be read and end their lines
    with a newline only; [region_in fs r c] that [r] is a part of the file it
    names, with the true lines, columns and bytes, and that [c] is the text of
    that file; [text c r] is that part (PlaceSpec). *)
From Verif Require Import Base AsmModel AsmSound AsmScan AsmRun AsmSpec AsmFacts Props_Asm AsmPlace AsmNames PlaceSpec.
From Coq Require Import ZifyBool Ascii String.
Open Scope list_scope.
Ltac Zify.zify_post_hook ::= Z.div_mod_to_equations.

Lemma assembled_out fs file ok evs : assembles fs file ok evs -> exists n b, evs = rev (b_out b) /\
  forall m, (n <= m)%nat -> asm fs m file = (ok, b).
Proof.
  intros [n H]. destruct (asm_sound fs file) as [k K]. exists (Nat.max n k), (snd (asm fs k file)).
  assert (Q : forall m, (Nat.max n k <= m)%nat -> asm fs m file = (ok, snd (asm fs k file))).
  { intros m M. destruct (H m ltac:(lia)) as (b & E & _). destruct (K m ltac:(lia)) as (E2 & _). rewrite <- E2, E. reflexivity. }
  split; [|exact Q]. destruct (H (Nat.max n k) (Nat.le_max_l _ _)) as (b & E & _ & O). rewrite (Q _ (le_n _)) in E. injection E as E. now rewrite E.
Qed.
Lemma assembled_place fs file ok evs : plain fs -> assembles fs file ok evs -> forall e, In e evs -> ev_ok fs e.
Proof.
  intros PL A e I. destruct (assembled_out _ _ _ _ A) as (n & b & -> & H). apply in_rev in I.
  pose proof (i_out _ _ (asm_place fs PL n file)) as F. rewrite (H n (le_n _)) in F. rewrite Forall_forall in F. now apply F.
Qed.

(** ** C76 *)
(** Whatever the outcome: the region of a symbol is a part of a file. *)
Theorem C76_symbols fs file ok evs : plain fs -> assembles fs file ok evs ->
  forall a s, In (ESym a s) evs -> exists c, region_in fs (s_reg s) c.
Proof. intros PL A a s I. exact (proj1 (assembled_place _ _ _ _ PL A _ I)). Qed.
Print Assumptions C76_symbols.

(** So is that of a diagnostic, except that a file that does not exist is named
    without a position. *)
Theorem C76_reports fs file ok evs : plain fs -> assembles fs file ok evs ->
  forall err msg reg, In (EReport err msg reg) evs ->
  exists r, reg = Some r /\ ((exists c, region_in fs r c) \/ msg = MCannotOpen /\ find_file fs (r_file r) = None).
Proof.
  intros PL A err msg reg I. pose proof (assembled_place _ _ _ _ PL A _ I) as E. destruct reg as [r|]; [|destruct E].
  exists r. split; auto. destruct E as [E|(E1 & E2 & _)]; auto.
Qed.
Print Assumptions C76_reports.

(** At the place of a label the source has its definition, "@name" or, for the
    name "scope/local", "&local"; at that of a macro "%name".  In the body of a
    macro with an argument it is the pattern, in which "^" stands for the
    argument. *)
Theorem C76_definitions fs file ok evs : plain fs -> assembles fs file ok evs ->
  forall a s c, In (ESym a s) evs -> region_in fs (s_reg s) c ->
  (s_type s = SLabel -> s_gen s = false -> exists n, s_name s = Some n /\
     (text c (s_reg s) = bytes "@" ++ n \/
      (exists scope local, n = scope ++ bytes "/" ++ local /\ text c (s_reg s) = bytes "&" ++ local) \/
      In 94 (text c (s_reg s)))) /\
  (s_type s = SMacro -> exists n, s_name s = Some n /\ (text c (s_reg s) = bytes "%" ++ n \/ In 94 (text c (s_reg s)))).
Proof.
  intros PL A a s c I [R _]. destruct (assembled_place _ _ _ _ PL A _ I) as (_ & L & M). split.
  - intros T G. destruct (L T G) as (n & c' & N & _ & _ & F & [D|[(sc & l & D1 & D2)|D]]); rewrite R in F; injection F as <-; exists n; (split; [exact N|]).
    + left. exact D.
    + right. left. exists sc, l. split; [exact D1|exact D2].
    + right. right. exact D.
  - intros T. destruct (M T) as (n & c' & N & _ & _ & F & [D|D]); rewrite R in F; injection F as <-; exists n; (split; [exact N|]); [left|right]; exact D.
Qed.
Print Assumptions C76_definitions.

(** A file with another one included and a label made by a macro. *)
Definition two : files := [(bytes "main", bytes "~lib" ++ [10] ++ bytes "mk: x" ++ [10; 9] ++ bytes "@main &loop !&loop" ++ [10]);
                           (bytes "lib", [10] ++ bytes "%mk: { @lib^ }" ++ [10])].
Definition two_run := asm two 10 (bytes "main").
Definition definitions (evs : list event) : list (str * pos * str) :=
  flat_map (fun e => match e with ESym _ s => match s_type s, s_name s with SLabel, Some n | SMacro, Some n =>
     [(n, r_start (s_reg s), match find_file two (r_file (s_reg s)) with Some c => text c (s_reg s) | None => [] end)] | _, _ => [] end | _ => [] end) evs.
Lemma plain_two : plain two.
Proof.
  intros path c. unfold two. cbn [find_file]. destruct (str_dec _ _).
  - intros [= <-]. apply Forall_forall. intros x X. cbn in X. lia.
  - destruct (str_dec _ _); [|discriminate]. intros [= <-]. apply Forall_forall. intros x X. cbn in X. lia.
Qed.
Example C76_case : plain two /\ assembles two (bytes "main") true (rev (b_out (snd two_run))) /\
  definitions (rev (b_out (snd two_run))) =
    [(bytes "mk:", mkPos 2 1 1, bytes "%mk:"); (bytes "libx", mkPos 2 8 8, bytes "@lib^");
     (bytes "main", mkPos 3 2 12, bytes "@main"); (bytes "main/loop", mkPos 3 8 18, bytes "&loop")].
Proof.
  split; [apply plain_two|]. split; [|vm_compute; reflexivity].
  apply (assembles_intro two 10); vm_compute; reflexivity.
Qed.

(** In a file with CR LF the bytes are not those of the file: the second
    character of the pair is not counted. *)
Definition crlf : str := bytes "#01" ++ [13; 10] ++ bytes "@l" ++ [10].
Theorem C76_crlf_refuted : ~ forall fs file ok evs,
  (forall path c, find_file fs path = Some c -> Forall (fun x => 0 <= x < 256) c) -> assembles fs file ok evs ->
  forall a s, In (ESym a s) evs -> exists c, region_in fs (s_reg s) c.
Proof.
  intros H.
  assert (Q : forall path c, find_file (Props_Asm.one crlf) path = Some c -> Forall (fun x => 0 <= x < 256) c).
  { intros path c. unfold Props_Asm.one. cbn [find_file]. destruct (str_dec _ _); [intros [= <-]|discriminate]. apply Forall_forall. intros x X. vm_compute in X. lia. }
  assert (A : assembles (Props_Asm.one crlf) (bytes "a") true (evs_of crlf)) by assembled.
  assert (I : In (ESym 258 (mkSymbol SLabel false 1 (Some (bytes "l")) (mkRegion (bytes "a") (mkPos 2 1 4) (mkPos 2 3 6)))) (evs_of crlf)).
  { replace (evs_of crlf) with (evs_of crlf) by reflexivity. vm_compute. repeat (try (left; reflexivity); right). }
  destruct (H _ _ _ _ Q A _ _ I) as (c & F & (pre & post & E & ls & cur & E1 & LS & NI & L & C & B) & _). clear A I H Q.
  cbn [s_reg r_file r_start line col byte] in *. replace (find_file (Props_Asm.one crlf) (bytes "a")) with (Some crlf) in F by (vm_compute; reflexivity).
  injection F as <-. assert (LP : List.length pre = 4%nat) by (unfold len in B; lia).
  assert (EP : pre = [35; 48; 49; 13]).
  { replace pre with (firstn 4 (pre ++ post)) by (rewrite firstn_app, LP; cbn [Nat.sub]; rewrite firstn_O, app_nil_r; now rewrite <- LP, firstn_all).
    rewrite <- E. reflexivity. }
  assert (CN : cur = []) by (destruct cur; [reflexivity|unfold len in C; cbn [List.length] in C; lia]).
  rewrite CN, app_nil_r in E1. subst ls. rewrite EP in LS. destruct LS as [LS|(l & LS)]; [discriminate|].
  assert (X : last [35; 48; 49; 13] 0 = last (l ++ [10]) 0) by congruence. rewrite last_last in X. discriminate.
Qed.
Print Assumptions C76_crlf_refuted.

(** ** C77 *)
(** The names of the labels and macros that the symbols define, generated labels
    left out. *)
Definition defined_names (evs : list event) : list str :=
  flat_map (fun e => match e with
    | ESym _ s => match s_type s, s_gen s, s_name s with SMacro, _, Some n | SLabel, false, Some n => [n] | _, _, _ => [] end
    | _ => [] end) evs.
Lemma defined_names_defs out : defined_names out = defs (syms out).
Proof.
  unfold defined_names, defs, syms. induction out as [|e out IH]; [reflexivity|]. cbn [flat_map]. rewrite flat_map_app, <- IH. f_equal.
  destruct e as [| |a s| | | | | |]; try reflexivity. cbn [syms_of]. destruct (s_type s) eqn:T; try reflexivity; cbn; unfold def_name; cbn; rewrite T; now rewrite app_nil_r.
Qed.

(** A name is defined once, even in a run that fails. *)
Theorem C77_defined_once fs file ok evs : assembles fs file ok evs -> NoDup (defined_names evs).
Proof.
  intros A. destruct (assembled_out _ _ _ _ A) as (n & b & -> & H).
  assert (W : NoDup (defined_names (b_out b))).
  { rewrite defined_names_defs. pose proof (asm_names fs n file) as W. rewrite (H n (le_n _)) in W. exact W. }
  assert (E : forall l, defined_names (rev l) = rev (defined_names l)).
  { clear. induction l as [|e l IH]; [reflexivity|]. cbn [rev]. unfold defined_names in *. rewrite flat_map_app, IH. cbn [flat_map]. rewrite app_nil_r.
    cbn. rewrite rev_app_distr. f_equal. destruct e; try reflexivity. destruct (s_type sym), (s_gen sym), (s_name sym); reflexivity. }
  rewrite E. now apply NoDup_rev.
Qed.
Print Assumptions C77_defined_once.

Lemma in_syms a s out : s_type s = SLabel \/ s_type s = SLabelRef -> (In (a, s) (syms out) <-> In (ESym a s) out).
Proof.
  intros T. unfold syms. rewrite in_flat_map. split.
  - intros (e & I & X). destruct e as [| |a' s'| | | | | |]; try contradiction. cbn in X. destruct (s_type s'); try contradiction; destruct X as [[= <- <-]|[]]; auto.
  - intros I. exists (ESym a s). split; auto. cbn. destruct T as [-> | ->]; now left.
Qed.

(** After success every reference has its label: the symbol of a label with the
    same id, and the same name if the reference has one. *)
Theorem C77_references fs file evs : assembles fs file true evs ->
  forall a s, In (ESym a s) evs -> s_type s = SLabelRef ->
  exists a' s', In (ESym a' s') evs /\ s_type s' = SLabel /\ s_id s' = s_id s /\
    match s_name s with Some n => s_gen s' = false /\ s_name s' = Some n | None => s_gen s' = true end.
Proof.
  intros A a s I T. destruct (assembled_out _ _ _ _ A) as (n & b & -> & H). apply in_rev in I.
  destruct (asm_references fs file n b (H n (le_n _)) H a s) as (a' & s' & I' & R); [apply in_syms; auto|auto|].
  exists a', s'. split; [|exact R]. apply -> in_rev. eapply in_syms; [|exact I']. left. apply R.
Qed.
Print Assumptions C77_references.

Definition refs : str := bytes "|0100 ;later { #01 } @@ !@ @here ,&x &x !here @later ".
Example C77_case : assembles (Props_Asm.one refs) (bytes "a") true (evs_of refs) /\
  defined_names (evs_of refs) = map bytes ["here"; "here/x"; "later"]%string /\
  map (fun s => (s_name s, s_id s)) (flat_map (fun e => match e with ESym _ s => match s_type s with SLabelRef => [s] | _ => [] end | _ => [] end) (evs_of refs)) =
    [(Some (bytes "later"), 1); (Some (bytes "later"), 1); (None, 2); (None, 2); (None, 3); (None, 3); (Some (bytes "here/x"), 5); (Some (bytes "here"), 4); (Some (bytes "here"), 4)].
Proof. split; [assembled|]. split; vm_compute; reflexivity. Qed.
