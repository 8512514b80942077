(** Property C107: what a run of the assembler leaves on the disk, and its exit
    code, when files can or cannot be written.

    [after d acts] is the disk [d] after the actions, [orderly] says that every
    file that is opened is closed once (MainSpec); [image evs bytes] that
    [bytes] is the memory that the assembler filled, from 0x100 on (C50). *)
From Verif Require Import Base AsmModel AsmSound AsmScan AsmRun AsmSpec AsmFacts Props_Asm FrontModel Props_Front MainModel MainSpec.
From Coq Require Import ZifyBool Ascii String.
Open Scope list_scope.
Ltac Zify.zify_post_hook ::= Z.div_mod_to_equations.

Ltac run H := unfold main in H; destruct (front_run front0 _) as [x| |] eqn:?R in H; try discriminate H;
  destruct (negb (forallb _ _)) in H; [discriminate H|].

(** The exit code is 0 exactly if the assembler succeeds, the type checker (if
    asked) is content and, if a ROM is wanted, its file could be opened, written
    and flushed.  The files of symbols do not count. *)
Theorem C107_exit_code h rom_given chess ok evs reopened code acts bytes o : main h rom_given chess ok evs reopened = MEnd code acts ->
  front_main true evs = FEnd 0 o -> o_rom o = Some bytes ->
  (code = 0 \/ code = 1) /\
  (code = 0 <-> ok = true /\ chess <> Some false /\
     (rom_given = true -> opens h Rom = true /\ (bytes = [] \/ rom_writes h = true) /\ flushes h Rom = true)).
Proof.
  intros M F B. run M. unfold front_main in F. rewrite R in F. injection F as <-. cbn in B. injection B as <-.
  assert (L : (len (write_rom x) =? 0) = true <-> write_rom x = []). { unfold len. destruct (write_rom x); cbn; split; intros; try discriminate; try lia; reflexivity. }
  unfold write_rom_file in M. destruct ok; [|destruct chess as [[|]|]; injection M as <- _; (split; [auto|]); split; intros Q; try discriminate; destruct Q as (Q & _); discriminate Q].
  assert (C : chess = Some false \/ match chess with Some v => v | None => true end = true) by (destruct chess as [[|]|]; auto).
  destruct C as [->|C].
  - cbn in M. injection M as <- _. split; [auto|]. split; [discriminate|]. intros (_ & Q & _). contradiction.
  - assert (C' : chess <> Some false) by (intros ->; discriminate).
    rewrite C in M. cbn [andb] in M. destruct rom_given; [|injection M as <- _; split; [auto|]; split; [intros _; repeat split; auto; discriminate|reflexivity]].
    destruct (opens h Rom) eqn:E1; cbn [negb] in M; [|injection M as <- _; split; [auto|]; split; [discriminate|intros (_ & _ & Q); destruct (Q eq_refl); discriminate]].
    destruct (negb (len (write_rom x) =? 0) && negb (rom_writes h)) eqn:E2.
    + injection M as <- _. split; [auto|]. split; [discriminate|]. intros (_ & _ & Q). destruct (Q eq_refl) as (_ & [W|W] & _); [apply L in W|]; rewrite W in E2; [discriminate|]. rewrite andb_false_r in E2. discriminate.
    + assert (W : write_rom x = [] \/ rom_writes h = true) by (destruct (len (write_rom x) =? 0) eqn:Z; [left; now apply L|right; destruct (rom_writes h); [reflexivity|discriminate]]).
      destruct (flushes h Rom) eqn:E3; cbn [negb] in M; injection M as <- _; (split; [auto|]); split; auto; try discriminate. intros (_ & _ & Q). destruct (Q eq_refl) as (_ & _ & Q3). discriminate.
Qed.
Print Assumptions C107_exit_code.

Lemma after_app d a b : after d (a ++ b) = after (after d a) b.
Proof. unfold after. apply fold_left_app. Qed.
Lemma after_other d f l : Forall (fun a => match a with AOpen g | AWrite g _ => g <> f | _ => True end) l -> after d l f = d f.
Proof.
  intros F. revert d. induction F as [|a l A F IH]; intros d; [reflexivity|]. unfold after in *. cbn. rewrite IH. destruct a as [g|g c| | |]; cbn; try reflexivity;
    unfold set_file; destruct g, f; try reflexivity; contradiction.
Qed.
Ltac others := repeat (apply Forall_app; split); repeat (apply Forall_cons || apply Forall_nil); try discriminate; try exact Logic.I.

(** Exit code 0 with a ROM: its file has exactly the memory that the assembler
    filled. *)
Theorem C107_rom fs file h chess evs reopened acts d : assembles fs file true evs ->
  main h true chess true evs reopened = MEnd 0 acts ->
  exists bytes, after d acts Rom = Some (Bytes bytes) /\ image evs bytes.
Proof.
  intros A M. pose proof (C50_rom_file fs file evs) as C. unfold front_main in C. run M. rewrite R in C.
  destruct (C _ _ A eq_refl) as (_ & bytes & B & I & _). cbn in B. injection B as <-. exists (write_rom x). split; [|exact I]. clear C I.
  assert (K : match chess with Some v => v | None => true end = true) by (destruct chess as [[|]|]; [reflexivity|cbn in M; discriminate M|reflexivity]).
  rewrite K in M. cbn [andb] in M. destruct (write_rom_file h (write_rom x)) as [s rom] eqn:W. destruct s; [|discriminate M]. injection M as <-.
  unfold write_rom_file in W. destruct (negb (opens h Rom)); [discriminate|]. destruct (_ && _); [discriminate|]. destruct (negb _); [discriminate|]. injection W as <-.
  rewrite !after_app. rewrite after_other; [|destruct (opens h Sym), (flushes h Sym); cbn; others]. reflexivity.
Qed.
Print Assumptions C107_rom.

(** If the assembler or the type checker fails, the ROM and its debug file are
    those of before, whatever the host does. *)
Theorem C107_failure_keeps h rom_given chess ok evs reopened code acts d : main h rom_given chess ok evs reopened = MEnd code acts ->
  ok = false \/ chess = Some false -> code = 1 /\ after d acts Rom = d Rom /\ after d acts Dbg = d Dbg.
Proof.
  intros M K. run M. assert (E : match chess with Some v => if ok then v else ok | None => ok end = false) by (destruct K as [->| ->]; [destruct chess; reflexivity|destruct ok; reflexivity]).
  rewrite E in M. cbn [andb] in M. injection M as <- <-. split; [reflexivity|].
  split; apply after_other; destruct rom_given, (opens h Sym), (flushes h Sym); cbn; others.
Qed.
Print Assumptions C107_failure_keeps.

(** Without the name of a ROM nothing on the disk changes. *)
Theorem C107_only_check h chess ok evs reopened code acts d : main h false chess ok evs reopened = MEnd code acts ->
  forall f, after d acts f = d f.
Proof.
  intros M f. run M. rewrite andb_false_r in M. injection M as _ <-. cbn. rewrite andb_false_r. reflexivity.
Qed.
Print Assumptions C107_only_check.

(** All files can be written: after success all three are there, the .sym file
    with the labels (C58) and the debug file with the symbols (C71). *)
Theorem C107_all_files h evs reopened chess code acts d o : main h true chess true evs reopened = MEnd code acts -> chess <> Some false ->
  (forall f, opens h f = true /\ flushes h f = true) -> rom_writes h = true -> dbg_writes h = true -> front_main true evs = FEnd 0 o ->
  exists rom syms, o_rom o = Some rom /\ o_dbg o = Some syms /\
  after d acts Rom = Some (Bytes rom) /\ after d acts Dbg = Some (Symbols syms) /\ after d acts Sym = Some (Bytes (o_symfile o)).
Proof.
  intros M C H W D F. run M. unfold front_main in F. rewrite R in F. injection F as <-. cbn. do 2 eexists. split; [reflexivity|]. split; [reflexivity|].
  assert (K : match chess with Some v => v | None => true end = true) by (destruct chess as [[|]|]; [reflexivity|contradiction|reflexivity]).
  rewrite K in M. cbn [andb] in M. unfold write_rom_file, write_dbg_file in M. rewrite !(proj1 (H _)), !(proj2 (H _)), W, D in M. cbn [negb andb] in M. rewrite andb_false_r in M. injection M as <- <-.
  cbn. auto.
Qed.
Print Assumptions C107_all_files.

(** Every file that is opened is closed, once, and not written after that. *)
Theorem C107_orderly h rom_given chess ok evs reopened code acts : main h rom_given chess ok evs reopened = MEnd code acts -> orderly [] acts.
Proof.
  intros M. run M. destruct (match chess with Some v => if ok then v else ok | None => ok end) eqn:K; rewrite ?K in M.
  2: { cbn [andb] in M. injection M as _ <-. destruct rom_given, (opens h Sym), (flushes h Sym); cbn;
    repeat (apply O_end || (apply O_open; [intros []|]) || (apply O_write; [now left|]) || apply O_complain || apply (O_close [])). }
  destruct rom_given; cbn [andb] in M; [|injection M as _ <-; constructor].
  assert (Q : forall s, (s = [] \/ s = [Sym]) -> forall l, orderly s l -> orderly s (write_dbg_file h (debug_symbols x) ++ l)).
  { intros s S l O. unfold write_dbg_file. destruct (opens h Dbg); [|now apply O_complain]. cbn. apply O_open; [destruct S as [->| ->]; [intros []|intros [X|[]]; discriminate]|].
    destruct (dbg_writes h); cbn; (apply O_write; [now left|]); [|apply O_complain]; now apply (O_close []). }
  assert (P : forall s, (s = [] \/ s = [Sym]) -> forall l, orderly s l -> orderly s (snd (write_rom_file h (write_rom x)) ++ l)).
  { intros s S l O. assert (N : ~ In Rom s) by (destruct S as [->| ->]; [intros []|intros [X|[]]; discriminate]). unfold write_rom_file. destruct (negb (opens h Rom)); [now apply O_complain|].
    destruct (_ && _); [|destruct (negb _)]; cbn; (apply O_open; [exact N|]); (apply O_write; [now left|]); try apply O_complain; now apply (O_close []). }
  destruct (write_rom_file h (write_rom x)) as [s rom]. cbn [snd] in P. injection M as _ <-.
  assert (I : forall o l, orderly o l -> orderly o ((if s && true then [AInfo] else []) ++ l)) by (intros o l O; destruct s; cbn; [now apply O_info|exact O]).
  destruct (opens h Sym); cbn [app].
  - apply O_open; [intros []|]. apply Q; [auto|]. apply P; [auto|]. apply I. apply O_write; [now left|]. destruct (flushes h Sym); cbn; [|apply O_complain]; apply (O_close []); constructor.
  - apply O_complain. apply Q; [auto|]. apply P; [auto|]. apply I. constructor.
Qed.
Print Assumptions C107_orderly.

Definition good : host := mkHost (fun _ => true) true (fun _ => true) true.
Definition tiny : str := bytes "|0100 @main #01 BRK".
Example C107_case : assembles (Props_Asm.one tiny) (bytes "a") true (evs_of tiny) /\
  exists acts, main good true (Some true) true (evs_of tiny) [true] = MEnd 0 acts /\
    after (fun _ => None) acts Rom = Some (Bytes [128; 1]) /\ after (fun _ => None) acts Sym = Some (Bytes (1 :: 0 :: bytes "main" ++ [0])).
Proof. split; [assembled|]. eexists. split; [vm_compute; reflexivity|]. vm_compute. auto. Qed.

(** After a failure the .sym file of before is gone: it has the labels up to the
    error, while the ROM is still the old one. *)
Definition half : str := bytes "|0100 @main nothing @rest BRK".
Theorem C107_old_symbols_refuted : ~ forall fs file h evs acts d, assembles fs file false evs -> main h true None false evs [] = MEnd 1 acts -> after d acts Sym = d Sym.
Proof.
  intros H. assert (A : assembles (Props_Asm.one half) (bytes "a") false (evs_of half)) by assembled.
  assert (E : exists acts, main good true None false (evs_of half) [] = MEnd 1 acts /\ exists l, after (fun _ => None) acts Sym = Some l).
  { eexists. split; [vm_compute; reflexivity|]. vm_compute. eauto. }
  destruct E as (acts & E & l & L). rewrite (H _ _ good _ acts (fun _ => None) A E) in L. discriminate.
Qed.
Print Assumptions C107_old_symbols_refuted.

(** Exit code 0 although no file of symbols could be made. *)
Definition only_rom : host := mkHost (fun f => match f with Rom => true | _ => false end) true (fun _ => true) true.
Theorem C107_symbols_count_refuted : ~ forall fs file h evs acts d, assembles fs file true evs -> main h true None true evs [] = MEnd 0 acts ->
  after d acts Dbg <> None /\ after d acts Sym <> None.
Proof.
  intros H. assert (A : assembles (Props_Asm.one tiny) (bytes "a") true (evs_of tiny)) by assembled.
  assert (E : exists acts, main only_rom true None true (evs_of tiny) [] = MEnd 0 acts /\ after (fun _ => None) acts Dbg = None).
  { eexists. split; vm_compute; reflexivity. }
  destruct E as (acts & E & L). destruct (H _ _ only_rom _ acts (fun _ => None) A E) as [X _]. contradiction.
Qed.
Print Assumptions C107_symbols_count_refuted.

(** There is no other undefined behaviour than that of files that were opened
    again: *)
Theorem C107_defined fs file h rom_given chess ok evs reopened f : assembles fs file ok evs -> ~ In false reopened ->
  main h rom_given chess ok evs reopened <> MUndefined f.
Proof.
  intros A N M. pose proof (C50_defined fs file ok evs f A) as D. unfold front_main in D. unfold main in M.
  destruct (front_run front0 evs) as [x|g|]; [|injection M as ->; now apply D|discriminate].
  destruct (forallb _ reopened) eqn:F; cbn [negb] in M.
  - destruct (if _ && rom_given then _ else _) as [s l] in M. discriminate.
  - assert (T : forallb (fun opened : bool => opened) reopened = true); [|congruence]. apply forallb_forall. intros [|] I; [reflexivity|contradiction].
Qed.
Print Assumptions C107_defined.

(** If the source cannot be opened again for the excerpt under a warning, a null
    pointer is closed at the end, before the ROM is written. *)
Definition warned : str := bytes "|0100 BRK @idle BRK".
Theorem C107_reopen_refuted h chess : exists reg, assembles (Props_Asm.one warned) (bytes "a") true (evs_of warned) /\
  In (EReport false MUnreferenced (Some reg)) (evs_of warned) /\ main h true chess true (evs_of warned) [false] = MUndefined BadHandle.
Proof.
  exists (mkRegion (bytes "a") (mkPos 1 11 10) (mkPos 1 16 15)). split; [assembled|]. split; [vm_compute; tauto|].
  assert (X : exists x, front_run front0 (evs_of warned) = FOk x) by (eexists; vm_compute; reflexivity). destruct X as [x X]. unfold main. rewrite X. reflexivity.
Qed.
Print Assumptions C107_reopen_refuted.
