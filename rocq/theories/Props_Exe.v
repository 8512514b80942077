(** Property C108: the command line of rom2exe, which runner it takes and what
    it makes.  The expected claim fails for the usual way to call it. *)
From Verif Require Import Base BootModel TransportModel Props_Boot ExeModel.
From Coq Require Import ZifyBool Ascii String.
Open Scope list_scope.
Ltac Zify.zify_post_hook ::= Z.div_mod_to_equations.

(** An option for the runner [v]. *)
Definition runner_option (v : str) : str := bytes "-runner=" ++ v.
Definition is_option (a : str) : Prop := exists v, a = runner_option v.
Definition slash (x : Z) : Prop := x = 47 \/ x = 92.

Lemma flag_some flag : forall a v, parse_flag a flag = Some v <-> a = flag ++ v.
Proof.
  induction flag as [|f flag IH]; intros a v; cbn [parse_flag app]; [split; congruence|].
  destruct a as [|x a]; [split; discriminate|]. destruct (f =? x) eqn:E; [|split; [discriminate|intros [= -> _]; lia]].
  rewrite IH. assert (f = x) by lia. subst. split; [intros ->; reflexivity|intros [= ->]; reflexivity].
Qed.
Lemma flag_none a : ~ is_option a -> parse_flag a (bytes "-runner=") = None.
Proof. intros N. destruct (parse_flag _ _) as [v|] eqn:E; [|reflexivity]. elim N. exists v. now apply flag_some. Qed.
Lemma eqb_refl s : str_eqb s s = true.
Proof. unfold str_eqb. destruct (str_dec s s); [reflexivity|contradiction]. Qed.
Lemma eqb_ne s t : s <> t -> str_eqb s t = false.
Proof. unfold str_eqb. destruct (str_dec s t); [contradiction|reflexivity]. Qed.

Lemma options_all vals : forall r rest, options r (map runner_option vals ++ rest) = options (last (map Arg vals) r) rest.
Proof.
  induction vals as [|v l IH]; intros r rest; [reflexivity|]. cbn [map app]. cbn [options].
  rewrite (proj2 (flag_some (bytes "-runner=") (runner_option v) v) eq_refl), IH. f_equal. clear.
  destruct l as [|w l]; [reflexivity|]. cbn [map]. change (last (Arg v :: Arg w :: map Arg l) r) with (last (Arg w :: map Arg l) r).
  revert w. induction l as [|z l IH]; intros w; [reflexivity|]. cbn [map]. change (last (Arg w :: Arg z :: map Arg l) ?q) with (last (Arg z :: map Arg l) q). apply IH.
Qed.

(** The last option counts, "cli" if there is none; the options end at the first
    word that is none, and "--" makes everything after it a word. *)
Theorem C108_options vals words r : (exists w l, words = w :: l /\ ~ is_option w /\ w <> bytes "--") \/ words = [] ->
  options r (map runner_option vals ++ words) = (last (map Arg vals) r, words) /\
  forall any, options r (map runner_option vals ++ bytes "--" :: any) = (last (map Arg vals) r, any).
Proof.
  intros W. split.
  - rewrite options_all. destruct W as [(w & l & -> & N & D)| ->]; [|reflexivity]. cbn [options]. now rewrite (flag_none _ N), (eqb_ne _ _ D).
  - intros any. rewrite options_all. reflexivity.
Qed.
Print Assumptions C108_options.

(** Anything but two words is answered with the usage. *)
Theorem C108_usage exe args fs cc room : exe_main exe args fs cc room = Usage <-> List.length (snd (options (Literal (bytes "cli")) args)) <> 2%nat.
Proof.
  unfold exe_main. destruct (options _ args) as [r [|a [|b [|c l]]]]; cbn; try (split; [lia|reflexivity]).
  split; [|lia]. destruct (_ || _); [discriminate|]. destruct (rom2exe _ _ _ _) as [[code o|]|f]; try discriminate.
  unfold release. destruct (snd _); [discriminate|]. destruct (fst _); discriminate.
Qed.
Print Assumptions C108_usage.

Lemma no_slash n s : (n <= List.length s)%nat -> Forall (fun x => ~ slash x) s -> slash_pos n s = None.
Proof.
  intros L F. induction n as [|n IH]; [reflexivity|]. cbn. rewrite Forall_forall in F. specialize (F (nth n s 0) (nth_In _ _ L)). unfold slash in F.
  destruct (_ || _) eqn:E; [lia|]. apply IH. lia.
Qed.
Lemma at_slash dir x name : slash x -> Forall (fun x => ~ slash x) name -> forall n, (List.length dir < n <= List.length (dir ++ x :: name))%nat ->
  slash_pos n (dir ++ x :: name) = Some (List.length dir).
Proof.
  intros X F. induction n as [|n IH]; intros L; [lia|]. cbn [slash_pos]. rewrite app_length in L. cbn [List.length] in L.
  destruct (Nat.eq_dec n (List.length dir)) as [->|N].
  - rewrite app_nth2, Nat.sub_diag by lia. cbn. unfold slash in X. destruct (_ || _) eqn:E; [reflexivity|lia].
  - rewrite app_nth2 by lia. destruct (n - List.length dir)%nat as [|k] eqn:K; [lia|]. cbn [nth]. rewrite Forall_forall in F. specialize (F (nth k name 0) ltac:(apply nth_In; lia)). unfold slash in F.
    destruct (_ || _) eqn:E; [lia|]. apply IH. rewrite app_length. cbn. lia.
Qed.
Lemma beside dir x name file : slash x -> Forall (fun x => ~ slash x) name -> find_relative_path (dir ++ x :: name) file = Heap (dir ++ x :: file).
Proof.
  intros X F. unfold find_relative_path. rewrite (at_slash _ _ _ X F) by (rewrite app_length; cbn; lia).
  replace (dir ++ x :: name) with ((dir ++ [x]) ++ name) by (now rewrite <- app_assoc). rewrite firstn_app.
  replace (S (List.length dir)) with (List.length (dir ++ [x])) by (rewrite app_length; cbn; lia). rewrite firstn_all, Nat.sub_diag. cbn [firstn]. rewrite app_nil_r, <- app_assoc. reflexivity.
Qed.

(** The runner that is meant by a choice: "cli" and "gui" are the programs beside
    rom2exe, anything else is a path. *)
Definition chosen (dir : str) (v : str) : str :=
  if str_dec v (bytes "cli") then dir ++ bytes "buxn-cli" else if str_dec v (bytes "gui") then dir ++ bytes "buxn-gui" else v.

(** Called by a path, with any options: the outcome is that of copying the chosen
    runner and the ROM (C48), nothing more and nothing less. *)
Theorem C108_made dir x name vals input output fs cc room : slash x -> Forall (fun x => ~ slash x) name ->
  ~ is_option input -> input <> bytes "--" -> input <> output ->
  let runner := chosen (dir ++ [x]) (last vals (bytes "cli")) in
  runner <> output ->
  exe_main (dir ++ x :: name) (map runner_option vals ++ [input; output]) fs cc room =
    match rom2exe (fs runner) (fs input) cc room with
    | Ok (Exit code out) => Ends code out
    | Ok Stuck => OutOfFuel
    | Fault f => Crashes f None
    end.
Proof.
  intros X F NO ND NE runner NR. unfold exe_main. rewrite (proj1 (C108_options vals [input; output] _ (or_introl (ex_intro _ input (ex_intro _ [output] (conj eq_refl (conj NO ND))))))).
  set (r := last (map Arg vals) (Literal (bytes "cli"))).
  assert (CR : chars r = last vals (bytes "cli")).
  { unfold r. clear. induction vals as [|v l IH]; [reflexivity|]. destruct l as [|w l]; [reflexivity|]. exact IH. }
  assert (P : exists b, runner_path (dir ++ x :: name) r = (b, negb (match b with Heap _ => true | _ => false end)) /\ chars b = runner).
  { unfold runner_path. rewrite CR. unfold runner, chosen. rewrite !beside by assumption. unfold str_eqb. destruct (str_dec (last vals _) (bytes "cli")).
    - exists (Heap (dir ++ x :: bytes "buxn-cli")). split; [reflexivity|]. cbn [chars]. now rewrite <- app_assoc.
    - destruct (str_dec (last vals _) (bytes "gui")); [exists (Heap (dir ++ x :: bytes "buxn-gui")); split; [reflexivity|]; cbn [chars]; now rewrite <- app_assoc|]. exists r. split; [|exact CR].
      assert (H : forall h, r <> Heap h). { intros h. unfold r. clear. induction vals as [|v l IH]; [discriminate|]. destruct l as [|w l]; [discriminate|]. exact IH. }
      destruct r; try reflexivity. elim (H _ eq_refl). }
  destruct P as (b & -> & B). cbn [fst snd]. rewrite B, (eqb_ne _ _ NE), (eqb_ne _ _ NR). cbn [orb].
  destruct (rom2exe _ _ _ _) as [[code o|]|f]; try reflexivity. unfold release. cbn [snd fst]. destruct b; reflexivity.
Qed.
Print Assumptions C108_made.

(** So the program ends by itself, with code 0 exactly if runner, ROM and trailer
    fit on the disk, and then the ROM is found in the output. *)
Theorem C108_found dir x name vals input output fs room r rom : slash x -> Forall (fun x => ~ slash x) name ->
  ~ is_option input -> input <> bytes "--" -> input <> output -> chosen (dir ++ [x]) (last vals (bytes "cli")) <> output ->
  fs (chosen (dir ++ [x]) (last vals (bytes "cli"))) = Some r -> fs input = Some rom -> 0 <= room -> 0 < zlen rom < 2147483648 ->
  exists code out, exe_main (dir ++ x :: name) (map runner_option vals ++ [input; output]) fs true room = Ends code (Some out) /\
    (code = 0 <-> zlen r + zlen rom + 8 <= room) /\
    (code = 0 -> exists f, bembd_find (mkRfile out 0) = Ok (zlen rom, f) /\ fst (fread f (zlen rom)) = rom).
Proof.
  intros X F NO ND NE NR R I RM SZ. rewrite C108_made by assumption. rewrite R, I.
  destruct (rom2exe_output r rom room RM ltac:(lia)) as (code & out & Q & C & _). rewrite Q.
  exists code, out. split; [reflexivity|]. split; [exact C|]. intros ->. exact (C48_found r rom room out 0 RM SZ Q).
Qed.
Print Assumptions C108_found.

(** Without the runner nothing is written. *)
Theorem C108_no_runner dir x name vals input output fs cc room : slash x -> Forall (fun x => ~ slash x) name ->
  ~ is_option input -> input <> bytes "--" -> input <> output -> chosen (dir ++ [x]) (last vals (bytes "cli")) <> output ->
  fs (chosen (dir ++ [x]) (last vals (bytes "cli"))) = None ->
  exe_main (dir ++ x :: name) (map runner_option vals ++ [input; output]) fs cc room = Ends 1 None.
Proof. intros X F NO ND NE NR R. rewrite C108_made by assumption. rewrite R. reflexivity. Qed.
Print Assumptions C108_no_runner.

(** Found by the shell in one of its directories, the program is called by its
    bare name.  Then the runner is looked for in the current directory, and even
    if everything succeeds, a constant is freed at the end. *)
Theorem C108_bare_name_refuted exe vals input output fs cc room code out : Forall (fun x => ~ slash x) exe ->
  ~ is_option input -> input <> bytes "--" -> input <> output ->
  forall runner, (last vals (bytes "cli") = bytes "cli" /\ runner = bytes "buxn-cli") \/ (last vals (bytes "cli") = bytes "gui" /\ runner = bytes "buxn-gui") ->
  runner <> output -> rom2exe (fs runner) (fs input) cc room = Ok (Exit code out) ->
  exe_main exe (map runner_option vals ++ [input; output]) fs cc room = Crashes BadHandle out.
Proof.
  intros F NO ND NE runner RN NR Q. unfold exe_main. rewrite (proj1 (C108_options vals [input; output] _ (or_introl (ex_intro _ input (ex_intro _ [output] (conj eq_refl (conj NO ND))))))).
  set (r := last (map Arg vals) (Literal (bytes "cli"))).
  assert (CR : chars r = last vals (bytes "cli")).
  { unfold r. clear. induction vals as [|v l IH]; [reflexivity|]. destruct l as [|w l]; [reflexivity|]. exact IH. }
  assert (P : runner_path exe r = (Literal runner, false)).
  { unfold runner_path, find_relative_path. rewrite CR, (no_slash _ _ (le_n _) F). destruct RN as [[-> ->]|[-> ->]]; reflexivity. }
  rewrite P. cbn [fst snd chars]. rewrite (eqb_ne _ _ NE), (eqb_ne _ _ NR). cbn [orb]. rewrite Q. reflexivity.
Qed.
Print Assumptions C108_bare_name_refuted.

(** Calls by a path and by the bare name, with the same files. *)
Definition here (s : str) : option (list Z) :=
  if str_dec s (bytes "/bin/buxn-gui") then Some [127; 69] else if str_dec s (bytes "buxn-cli") then Some [127; 70] else if str_dec s (bytes "a.rom") then Some [1; 2; 3] else None.
Definition args (l : list string) : list str := map bytes l.
Example C108_case :
  exe_main (bytes "/bin/buxn-rom2exe") (args ["-runner=cli"; "-runner=gui"; "a.rom"; "a"]%string) here true 100 = Ends 0 (Some [127; 69; 1; 2; 3; 0; 0; 0; 3; 98; 101; 109; 98]) /\
  exe_main (bytes "buxn-rom2exe") (args ["a.rom"; "a"]%string) here true 100 = Crashes BadHandle (Some [127; 70; 1; 2; 3; 0; 0; 0; 3; 98; 101; 109; 98]) /\
  exe_main (bytes "buxn-rom2exe") (args ["a.rom"]%string) here true 100 = Usage.
Proof. vm_compute. auto. Qed.
