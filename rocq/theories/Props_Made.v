(** Property C108, continued: from the command line of rom2exe to the program
    that its output boots (C102 for the graphical emulator, C49 for the other). *)
From Verif Require Import Base BootModel BootProofs TransportModel Props_Boot.
From Verif Require ExeModel Props_Exe PlatformModel Props_Platform.
From Coq Require Import ZifyBool Ascii String.
Open Scope list_scope.
Ltac Zify.zify_post_hook ::= Z.div_mod_to_equations.

(** What rom2exe has made, started under any name by which its file can be
    opened, boots the ROM that rom2exe was given; all arguments are for the
    program. *)
Theorem C108_boots exe vals input output fs cc room out rom : ~ Props_Exe.is_option input -> input <> bytes "--" ->
  ExeModel.exe_main exe (map Props_Exe.runner_option vals ++ [input; output]) fs cc room = ExeModel.Ends 0 (Some out) ->
  fs input = Some rom -> 0 <= room -> 0 < zlen rom < 2147483648 ->
  forall open name, open name = Some out ->
  (forall windows args, Props_Platform.boots windows open rom (name :: args) args) /\
  (forall arg m, zlen rom <= 1048320 -> exists m', cli_start (open name) arg m = Ok (Booted m') /\ holds_rom m m' rom).
Proof.
  intros NO ND E I R SZ open name F. unfold ExeModel.exe_main in E.
  rewrite (proj1 (Props_Exe.C108_options vals [input; output] _ (or_introl (ex_intro _ input (ex_intro _ [output] (conj eq_refl (conj NO ND))))))) in E.
  set (p := ExeModel.runner_path exe _) in E. destruct (_ || _); [discriminate|]. rewrite I in E.
  assert (Q : rom2exe (fs (ExeModel.chars (fst p))) (Some rom) cc room = Ok (Exit 0 (Some out))).
  { destruct (rom2exe _ _ _ _) as [[code o|]|]; try discriminate. unfold ExeModel.release in E. destruct (snd p); [now injection E as -> ->|]. destruct (fst p); try discriminate. now injection E as -> ->. }
  destruct (fs _) as [r|]; [|discriminate Q]. destruct cc; [|discriminate Q]. split.
  - intros windows args. exact (Props_Platform.boots_embedded windows open rom name r room out args R SZ Q F).
  - intros arg m L. rewrite F. exact (proj1 (C49_embedded r rom room out m arg R SZ Q) L).
Qed.
Print Assumptions C108_boots.

(** But if the shell has found the file in a directory of PATH, the name is bare
    and opens nothing, or another file: there is nothing to boot. *)
Definition through_path (s : str) : option (list Z) := if str_dec s (bytes "/bin/game") then Some ex_exe else None.

Theorem C108_through_path_refuted : ~ (forall open windows dir name runner rom room out,
  rom2exe (Some runner) (Some rom) true room = Ok (Exit 0 (Some out)) -> open (dir ++ 47 :: name) = Some out ->
  exists p, PlatformModel.platform_init windows open false [name] = Ok p /\ PlatformModel.p_rom p <> None).
Proof.
  intros C. destruct (C through_path false (bytes "/bin") (bytes "game") ex_runner ex_rom 1000 ex_exe) as (p & E & N).
  - vm_compute. reflexivity. - reflexivity. - injection E as <-. now apply N.
Qed.
Print Assumptions C108_through_path_refuted.

Theorem C108_through_path_cli_refuted : ~ (forall open dir name runner rom room out m,
  rom2exe (Some runner) (Some rom) true room = Ok (Exit 0 (Some out)) -> open (dir ++ 47 :: name) = Some out ->
  exists m', cli_start (open name) None m = Ok (Booted m') /\ holds_rom m m' rom).
Proof.
  intros C. destruct (C through_path (bytes "/bin") (bytes "game") ex_runner ex_rom 1000 ex_exe (fun _ => 0)) as (m' & E & _).
  - vm_compute. reflexivity. - reflexivity. - discriminate E.
Qed.
Print Assumptions C108_through_path_cli_refuted.

(** A case of C108_boots: the run of C108_case. *)
Example C108_boots_case :
  ExeModel.exe_main (bytes "/bin/buxn-rom2exe") (map Props_Exe.runner_option [bytes "cli"; bytes "gui"] ++ [bytes "a.rom"; bytes "a"]) Props_Exe.here true 100
    = ExeModel.Ends 0 (Some [127; 69; 1; 2; 3; 0; 0; 0; 3; 98; 101; 109; 98]) /\
  Props_Exe.here (bytes "a.rom") = Some [1; 2; 3] /\ ~ Props_Exe.is_option (bytes "a.rom").
Proof. split; [vm_compute; reflexivity|]. split; [reflexivity|]. intros [v E]. discriminate E. Qed.
