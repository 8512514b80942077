(** Property C111: what the interactive assembler says about a line. *)
From Verif Require Import Base VmModel AsmModel AsmFacts AsmSpec AsmSound Props_Asm ChessModel ReplModel ReplSpec Props_Repl ReplLogModel.
From Verif Require AsmWords.
From Coq Require Import ZifyBool String Lia.
Open Scope list_scope.

Definition prelude (file : str) : Prop := file = bytes "/repl/main".

(** ** Specification *)
(** The reports of the assembler that the user sees, in order: those in the
    prelude of the tool are left out, whether errors or warnings. *)
Inductive shows : list event -> list said -> Prop :=
| shows_end : shows [] []
| shows_error m r evs l : ~ prelude (r_file r) -> shows evs l ->
    shows (EReport true m (Some r) :: evs) (mkSaid LError (r_file r) (Some (line (r_start r))) (FromAsm m) :: l)
| shows_warning m r evs l : ~ prelude (r_file r) -> shows evs l ->
    shows (EReport false m (Some r) :: evs) (mkSaid LWarn (r_file r) (Some (line (r_start r))) (FromAsm m) :: l)
| shows_prelude e m r evs l : prelude (r_file r) -> shows evs l -> shows (EReport e m (Some r) :: evs) l
| shows_other e evs l : (forall b m r, e <> EReport b m (Some r)) -> shows evs l -> shows (e :: evs) l.
(** Those of the checker: all warnings, and the errors outside of the prelude. *)
Inductive hears : list (str * report) -> list said -> Prop :=
| hears_end : hears [] []
| hears_warning file m rs l : hears rs l -> hears ((file, RWarning m) :: rs) (mkSaid LWarn file None (FromCheck m) :: l)
| hears_error file m rs l : ~ prelude file -> hears rs l -> hears ((file, RError m) :: rs) (mkSaid LError file None (FromCheck m) :: l)
| hears_prelude file m rs l : prelude file -> hears rs l -> hears ((file, RError m) :: rs) l
| hears_other file r rs l : (forall m, r <> RError m) -> (forall m, r <> RWarning m) -> hears rs l -> hears ((file, r) :: rs) l.
Definition an_error (d : said) : bool := match d_level d with LError => true | LWarn => false end.
(** The routines that do not end, with the file of their label, in order. *)
Definition unfinished (evs : list event) (h : chess) : list (str * report) :=
  map (fun a => (label_file evs a (bytes "RESET"), RError CNoTermination)) (filter (missing_end h) (h_order h)).

(** ** Lemmas *)
Lemma main_prelude : forall file, str_eqb file main_name = true <-> prelude file.
Proof. intros file. unfold prelude. change (bytes "/repl/main") with main_name. apply AsmWords.str_eqb_true. Qed.
Lemma main_not : forall file, str_eqb file main_name = false -> ~ prelude file.
Proof. intros file E P. apply main_prelude in P. congruence. Qed.
Lemma hears_app : forall a la b lb, hears a la -> hears b lb -> hears (a ++ b) (la ++ lb).
Proof. induction 1; intros B; cbn [List.app]; auto using hears. Qed.
Lemma said_hears : forall file new, hears (map (pair file) new) (List.concat (map (check_said file) new)).
Proof.
  intros file. induction new as [|r new IH]; [constructor|]. cbn [map List.concat]. destruct r as [m|m|ok|w r v p|]; cbn [check_said].
  - destruct (str_eqb file main_name) eqn:E; cbn [List.app].
    + apply hears_prelude; [apply main_prelude, E|exact IH].
    + apply hears_error; [apply main_not, E|exact IH].
  - apply hears_warning, IH.
  - apply hears_other; [discriminate|discriminate|exact IH].
  - apply hears_other; [discriminate|discriminate|exact IH].
  - apply hears_other; [discriminate|discriminate|exact IH].
Qed.
Lemma watch_hears : forall evs fuel cur c h l, watch_said fuel evs cur c = Some (h, l) ->
  exists rs, reported evs cur c h rs /\ hears rs l.
Proof.
  intros evs. induction fuel as [|fuel IH]; intros cur c h l R; [discriminate R|]. cbn [watch_said] in R.
  assert (St : (forall h', c <> Finished h') ->
     match watch_said fuel evs (current cur c) (cstep c) with
     | Some (h, l) => Some (h, List.concat (map (check_said (match current cur c with Some y => r_file (y_reg y) | None => label_file evs (owner c) (bytes "RESET") end)) (skipn (List.length (reports_of c)) (reports_of (cstep c)))) ++ l)
     | None => None end = Some (h, l) -> exists rs, reported evs cur c h rs /\ hears rs l).
  { intros NF X. destruct (watch_said _ _ _ _) as [[h0 l0]|] eqn:Y; [|discriminate X]. injection X as <- <-. apply IH in Y as (rs & A & B). eexists. split.
    - apply (reported_step evs cur c h0 (skipn (List.length (reports_of c)) (reports_of (cstep c)))); [exact NF|symmetry; apply firstn_skipn|exact A].
    - apply hears_app; [apply said_hears|exact B]. }
  destruct c as [h0|x|h0|f].
  - apply St; [discriminate|exact R].
  - apply St; [discriminate|exact R].
  - injection R as <- <-. exists []. split; constructor.
  - discriminate R.
Qed.
Lemma endless_hears : forall evs h, hears (unfinished evs h) (endless_said evs h).
Proof.
  intros evs h. unfold unfinished, endless_said. induction (h_order h) as [|a l IH]; [constructor|]. cbn [map filter List.concat].
  destruct (missing_end h a); [|exact IH]. cbn [map check_said]. destruct (str_eqb _ _) eqn:E; cbn [List.app].
  - apply hears_prelude; [apply main_prelude, E|exact IH].
  - apply hears_error; [apply main_not, E|exact IH].
Qed.
Lemma watch_same : forall evs fuel cur c n k h n' k', watch fuel evs cur c n k = Some (h, n', k') ->
  exists l, watch_said fuel evs cur c = Some (h, l) /\ n' = n + number_of an_error l.
Proof.
  intros evs. assert (F : forall file new n, fold_left (fun n r => n + counts file r) new n = n + number_of an_error (List.concat (map (check_said file) new))).
  { intros file. induction new as [|r new IH]; intros n; [unfold number_of; cbn; lia|]. cbn [fold_left map List.concat]. rewrite IH, number_app.
    unfold number_of at 2. destruct r; cbn [counts check_said]; try (cbn; lia). destruct (str_eqb file main_name); cbn; lia. }
  induction fuel as [|fuel IH]; intros cur c n k h n' k' R; [discriminate R|]. cbn [watch] in R. cbn [watch_said].
  destruct c as [h0|x|h0|f].
  - apply IH in R as (l & E & ->). rewrite E. eexists. split; [reflexivity|]. rewrite F, number_app. lia.
  - apply IH in R as (l & E & ->). rewrite E. eexists. split; [reflexivity|]. rewrite F, number_app. lia.
  - injection R as <- <- <-. exists []. split; [reflexivity|unfold number_of; cbn; lia].
  - discriminate R.
Qed.
Lemma endless_same : forall evs h, endless evs h = number_of an_error (endless_said evs h).
Proof.
  intros evs h. unfold endless, endless_said.
  assert (X : forall l n, fold_left (fun n a => if missing_end h a then n + counts (label_file evs a (bytes "RESET")) (RError CNoTermination) else n) l n =
    n + number_of an_error (List.concat (map (fun a => if missing_end h a then check_said (label_file evs a (bytes "RESET")) (RError CNoTermination) else []) l))).
  { induction l as [|a l IH]; intros n; [unfold number_of; cbn; lia|]. cbn [fold_left map List.concat]. rewrite IH, number_app. unfold number_of at 2.
    destruct (missing_end h a); [|cbn; lia]. cbn [counts check_said]. destruct (str_eqb _ main_name); cbn; lia. }
  rewrite X. lia.
Qed.

(** ** C111 *)
(** Whatever the assembler reports, the log has the reports outside of the
    prelude, in order, with their file and line, errors as errors. *)
Theorem C111_assembler : forall evs, shows evs (List.concat (map asm_said evs)).
Proof.
  induction evs as [|e evs IH]; [constructor|]. cbn [map List.concat]. destruct e as [| | |err m [r|]| | | | |]; cbn [asm_said List.app];
    try (apply shows_other; [intros; discriminate|exact IH]).
  destruct (str_eqb (r_file r) main_name) eqn:E; cbn [List.app].
  - apply shows_prelude; [apply main_prelude, E|exact IH].
  - apply main_not in E. destruct err; constructor; auto.
Qed.
Print Assumptions C111_assembler.

(** What the checker reports on the way and at the end is shown the same way,
    but for its warnings in the prelude, which are shown too. *)
Theorem C111_checker : forall fuel mem evs l, check_log fuel mem evs = Some l ->
  exists z h rs, read_symbols (reader0 mem) evs = Some z /\ reported evs None (Idle (add_reset (z_h z))) h rs /\ hears (rs ++ unfinished evs h) l.
Proof.
  intros fuel mem evs l C. unfold check_log in C. destruct (read_symbols _ _) as [z|]; [|discriminate C].
  destruct (watch_said _ _ _ _) as [[h l0]|] eqn:Wt; [|discriminate C]. injection C as <-.
  apply watch_hears in Wt as (rs & A & B). exists z, h, rs. split; [reflexivity|]. split; [exact A|]. apply hears_app; [exact B|apply endless_hears].
Qed.
Print Assumptions C111_checker.

(** The number that decides whether an assembled line is run is the number of
    errors on the screen: no line is refused by the checker without one, and
    none is run with one. *)
Theorem C111_decides : forall fuel mem evs n k, check_line fuel mem evs = Some (n, k) ->
  exists l, check_log fuel mem evs = Some l /\ n = number_of an_error l /\ (n = 0 <-> forall d, List.In d l -> d_level d = LWarn).
Proof.
  intros fuel mem evs n k C. unfold check_line in C. unfold check_log. destruct (read_symbols _ _) as [z|]; [|discriminate C].
  destruct (watch _ _ _ _ _ _) as [[[h n'] k']|] eqn:Wt; [|discriminate C]. injection C as <- <-.
  apply watch_same in Wt as (l & E & ->). rewrite E. eexists. split; [reflexivity|]. rewrite endless_same, number_app.
  split; [lia|]. rewrite Z.add_0_l, <- number_app. generalize (l ++ endless_said evs h) as s. intros s. unfold number_of. split.
  - intros N d I. destruct (d_level d) eqn:Ld; [|reflexivity]. exfalso. assert (X : List.In d (filter an_error s)) by (apply filter_In; split; [exact I|unfold an_error; rewrite Ld; reflexivity]).
    destruct (filter an_error s); [destruct X|cbn in N; lia].
  - intros A. assert (X : filter an_error s = []); [|rewrite X; reflexivity]. induction s as [|d s IH]; [reflexivity|]. cbn [filter]. unfold an_error at 1. rewrite (A d) by (left; reflexivity). apply IH. intros e I. apply A. right. exact I.
Qed.
Print Assumptions C111_decides.

(** All that is shown in a round: first what the assembler reports, then, if the
    line was assembled and has something in it, what the checker reports. *)
Theorem C111_all : forall fuel mem ok evs l, line_log fuel mem ok evs = Some l ->
  exists a c, l = a ++ c /\ shows evs a /\
    (ok = true -> has_line evs -> exists z h rs, read_symbols (reader0 mem) evs = Some z /\ reported evs None (Idle (add_reset (z_h z))) h rs /\ hears (rs ++ unfinished evs h) c) /\
    (ok = false \/ ~ has_line evs -> c = []).
Proof.
  intros fuel mem ok evs l H. unfold line_log in H. exists (List.concat (map asm_said evs)).
  destruct (ok && existsb from_line evs) eqn:E.
  - destruct (check_log fuel mem evs) as [c|] eqn:C; [|discriminate H]. injection H as <-. exists c. split; [reflexivity|]. split; [apply C111_assembler|].
    apply andb_true_iff in E as [-> E]. apply has_line_ok in E. split; [intros _ _; exact (C111_checker _ _ _ _ C)|]. intros [X|X]; [discriminate X|contradiction].
  - injection H as <-. exists []. rewrite app_nil_r. split; [reflexivity|]. split; [apply C111_assembler|]. split; [|auto].
    intros -> L. apply has_line_ok in L. rewrite L in E. discriminate E.
Qed.
Print Assumptions C111_all.

Section Round.
Variable W : Type.
Variable dei : Z -> vm -> W -> res (Z * vm * W).
Variable deo : Z -> vm -> W -> res (vm * W).
Variable hi_first : bool.
Variables kw kr : Z.
Variable disk : files.
Variable wants_reset : W -> bool.
Variable cleared : W -> W.
Variable columns : str -> Z.
Variable naming : nat -> bool -> nat -> str.
Let round := round W dei deo hi_first kw kr disk wants_reset cleared columns naming.
Let execute := VmModel.execute W dei deo hi_first None kw kr.

Lemma said_in : forall evs m r, List.In (EReport true m (Some r)) evs -> ~ prelude (r_file r) ->
  List.In (mkSaid LError (r_file r) (Some (line (r_start r))) (FromAsm m)) (List.concat (map asm_said evs)).
Proof.
  intros evs m r I P. apply in_concat. exists (asm_said (EReport true m (Some r))). split; [apply in_map, I|]. cbn [asm_said].
  destruct (str_eqb (r_file r) main_name) eqn:E; [exfalso; apply P, main_prelude, E|left; reflexivity].
Qed.
Lemma print_something : forall name k a size s, name <> [] -> print_stack columns name k a size = Ok s -> s <> [].
Proof.
  intros name k a size s N P. destruct name as [|c name]; [contradiction|]. unfold print_stack in P. destruct (size =? p_size k).
  - destruct (cells_row _ _ _ _); [|discriminate P]. injection P as <-. discriminate.
  - injection P as <-. discriminate.
Qed.
(** A line, in any state of the tool, that comes to the next prompt and prints no
    stacks: it was refused and an error is shown for it; or it was run with no
    error on the screen and the program asked for a reset; or it has nothing in
    it; or it was refused because of errors that are all in the prelude. *)
Theorem C111_told : forall fuel line q q', round fuel line q = Prompt W q' [] ->
  exists ok evs l mem, assembled W disk fuel q line = (ok, evs) /\ mem = rom_of evs (vm_mem (q_vm W q)) /\ line_log fuel mem ok evs = Some l /\
    ((exists d, List.In d l /\ d_level d = LError) \/
     (ok = true /\ has_line evs /\ (forall d, List.In d l -> d_level d = LWarn) /\
      exists v world, execute fuel 256 (vm_set_mem (q_vm W q) mem) (q_world W q) = VmModel.Done W v world /\ wants_reset world = true) \/
     (ok = true /\ ~ has_line evs /\ forall d, List.In d l -> d_level d = LWarn) \/
     (ok = false /\ l = filter (fun d => negb (an_error d)) l /\ (exists m r, List.In (EReport true m r) evs) /\
      forall m r, List.In (EReport true m (Some r)) evs -> prelude (r_file r))).
Proof.
  intros fuel line q q' R. unfold round, ReplModel.round in R. unfold assembled. destruct (stale W q); [discriminate R|].
  destruct (asm _ _ _) as [ok b] eqn:As. destruct (b_fault b) eqn:Ff; [discriminate R|].
  pose proof (C39_failure_iff_error _ _ _ _ (assembles_intro _ _ _ _ _ As Ff)) as C39. clear As Ff.
  exists ok, (rev (b_out b)). cbv zeta in R. set (evs := rev (b_out b)) in *. clearbody evs.
  unfold line_log. change (vm_mem (loaded W evs q)) with (rom_of evs (vm_mem (q_vm W q))) in R.
  assert (Quiet : ok = true -> forall d, List.In d (List.concat (map asm_said evs)) -> d_level d = LWarn).
  { intros -> d I. apply in_concat in I as (x & X & I). apply in_map_iff in X as (e & <- & Ie). destruct e as [| | |err m [r|]| | | | |]; cbn [asm_said] in I; try destruct I.
    destruct err; [exfalso; destruct C39 as [_ C39]; discriminate C39; eauto|]. destruct (str_eqb _ _); [destruct I|]. destruct I as [<-|[]]. reflexivity. }
  destruct ok.
  - cbn [andb] in *. destruct (existsb from_line evs) eqn:L.
    + apply has_line_ok in L. destruct (check_line _ _ _) as [[n k]|] eqn:K; [|discriminate R].
      destruct (C111_decides _ _ _ _ _ K) as (l & E & N & Z0). exists (List.concat (map asm_said evs) ++ l), (rom_of evs (vm_mem (q_vm W q))). rewrite E. split; [reflexivity|]. split; [reflexivity|]. split; [reflexivity|].
      destruct (n =? 0) eqn:En.
      * apply Z.eqb_eq in En. right. left. split; [reflexivity|]. split; [exact L|]. split.
        -- intros d I. apply in_app_iff in I as [I|I]; [exact (Quiet eq_refl d I)|exact (proj1 Z0 En d I)].
        -- unfold after_run in R. change (loaded W evs q) with (vm_set_mem (q_vm W q) (rom_of evs (vm_mem (q_vm W q)))) in R. fold execute in R.
           destruct (execute _ _ _ _) as [v world|f|]; [|discriminate R|discriminate R]. exists v, world. split; [reflexivity|].
           destruct (wants_reset world); [reflexivity|]. exfalso. destruct (print_stack _ _ _ _ _) as [s|] eqn:P; [|discriminate R]. destruct (print_stack _ (bytes "RST") _ _ _) as [s'|]; [|discriminate R].
           apply print_something in P; [|discriminate]. destruct s as [|c s]; [contradiction|]. discriminate R.
      * left. apply Z.eqb_neq in En. destruct (existsb an_error l) eqn:X.
        -- apply existsb_exists in X as (d & I & D). exists d. split; [apply in_app_iff; right; exact I|]. unfold an_error in D. destruct (d_level d); [reflexivity|discriminate D].
        -- exfalso. apply En, Z0. intros d I. destruct (d_level d) eqn:D; [|reflexivity]. rewrite <- not_true_iff_false in X. exfalso. apply X, existsb_exists. exists d. split; [exact I|]. unfold an_error. rewrite D. reflexivity.
    + eexists. eexists. split; [reflexivity|]. split; [reflexivity|]. split; [reflexivity|]. right. right. left. split; [reflexivity|]. split; [|exact (Quiet eq_refl)]. intros H. apply has_line_ok in H. congruence.
  - cbn [andb]. eexists. eexists. split; [reflexivity|]. split; [reflexivity|]. split; [reflexivity|].
    destruct (existsb an_error (List.concat (map asm_said evs))) eqn:X.
    + left. apply existsb_exists in X as (d & I & D). exists d. split; [exact I|]. unfold an_error in D. destruct (d_level d); [reflexivity|discriminate D].
    + right. right. right. split; [reflexivity|]. split; [|split; [apply (proj1 C39 eq_refl)|]].
      * clear -X. induction (List.concat (map asm_said evs)) as [|d s IH]; [reflexivity|]. cbn [existsb] in X. apply orb_false_iff in X as [A B]. cbn [filter]. rewrite A. cbn [negb]. f_equal. apply IH, B.
      * intros m r I. destruct (str_eqb (r_file r) main_name) eqn:P; [apply main_prelude, P|]. exfalso.
        rewrite <- not_true_iff_false in X. apply X, existsb_exists. eexists. split; [apply (said_in evs m r I), main_not, P|reflexivity].
Qed.
End Round.
Print Assumptions C111_told.

(** The log of a line in a fresh session. *)
Definition said_of (text : string) : option (list said) :=
  let '(ok, evs) := assembled bool [] 3000 demo_start (bytes text) in line_log 3000 (rom_of evs (vm_mem (q_vm bool demo_start))) ok evs.
Example C111_case :
  said_of "POP" = Some [mkSaid LError (bytes "/repl/line") None (FromCheck CUnderflow)] /\
  screen (session demo_start ["POP"]%string) = Some [] /\
  said_of "#01 foo" = Some [mkSaid LError (bytes "/repl/line") (Some 1) (FromAsm MUnresolved)] /\
  said_of "#01 #02" = Some [] /\ said_of "" = Some [] /\
  said_of "\reset" = Some [] /\ screen (session demo_start ["\reset"]%string) = Some [].
Proof. vm_compute. repeat split. Qed.

(** A line can be refused without a word: one that leaves the assembler at an
    address below 0100, or that takes a name of the prelude.  The error is where
    the prelude goes on, and nothing of the prelude is shown. *)
Theorem C111_silent_refuted : forall text, text = "#01 |0000"%string \/ text = "#01 @\reset"%string ->
  said_of text = Some [] /\
  (exists evs m r, assembled bool [] 3000 demo_start (bytes text) = (false, evs) /\ List.In (EReport true m (Some r)) evs) /\
  screen (session demo_start [text]) = Some [] /\ sizes (session demo_start [text]) = Some (0, 0).
Proof.
  assert (X : forall p : bool * list event, fst p = false -> existsb (fun e => match e with EReport true _ (Some _) => true | _ => false end) (snd p) = true ->
    exists evs m r, p = (false, evs) /\ List.In (EReport true m (Some r)) evs).
  { intros [ok evs] E I. cbn [fst snd] in *. subst ok. apply existsb_exists in I as (e & I & F). destruct e as [| | |[|] m [r|]| | | | |]; try discriminate F. eauto. }
  intros text [-> | ->]; (split; [vm_compute; reflexivity|]); (split; [|vm_compute; split; reflexivity]); apply X; vm_compute; reflexivity.
Qed.
Print Assumptions C111_silent_refuted.
