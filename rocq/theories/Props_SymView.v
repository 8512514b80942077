(** Property C109: sym-view prints the labels of a .sym file, one per line, and
    ends exactly if the file is complete. *)
From Verif Require Import Base AsmModel AsmSound AsmSpec AsmFacts FrontModel Props_Asm Props_Front.
From Verif Require Import SymViewModel.
From Coq Require Import ZifyBool Ascii String.
Open Scope list_scope.
Ltac Zify.zify_post_hook ::= Z.div_mod_to_equations.

(** The line of a label: four hexadecimal digits, a space, the name. *)
Definition digit (d : Z) : Z := nth (Z.to_nat d) (bytes "0123456789abcdef") 0.
Definition line (p : Z * str) : list Z :=
  let a := fst p in [digit (a / 4096); digit (a / 256 mod 16); digit (a / 16 mod 16); digit (a mod 16)] ++ bytes " " ++ snd p ++ [10].
(** The entry of a label in a .sym file: address, name, zero. *)
Definition entry (p : Z * str) : list Z := [fst p / 256; fst p mod 256] ++ snd p ++ [0].
Definition label_ok (p : Z * str) : Prop := 0 <= fst p < 65536 /\ Forall (fun c => 0 < c < 256) (snd p).
(** A complete file. *)
Definition complete (file : list Z) : Prop := exists ps, Forall label_ok ps /\ file = flat_map entry ps.

Lemma hex_byte b : 0 <= b < 256 -> put_hex b = [digit (b / 16); digit (b mod 16)].
Proof.
  intros B. unfold put_hex, u32. rewrite Z.mod_small by lia. replace (b <? 256) with true by lia. cbn [hex_digits app].
  assert (D : forall d, 0 <= d < 16 -> hex_digit d = digit d).
  { intros d R. assert (H : d = 0 \/ d = 1 \/ d = 2 \/ d = 3 \/ d = 4 \/ d = 5 \/ d = 6 \/ d = 7 \/ d = 8 \/ d = 9 \/ d = 10 \/ d = 11 \/ d = 12 \/ d = 13 \/ d = 14 \/ d = 15) by lia.
    repeat (destruct H as [->|H]; [reflexivity|]). now subst d. }
  rewrite !D by lia. replace (b / 16 mod 16) with (b / 16) by lia. reflexivity.
Qed.

Lemma name_ends n : forall fuel rest out, Forall (fun c => 0 < c < 256) n -> (List.length n < fuel)%nat -> name_loop fuel (n ++ 0 :: rest) out = Some (out ++ n, rest).
Proof.
  induction n as [|c n IH]; intros fuel rest out F L; (destruct fuel as [|fuel]; [cbn in L; lia|]); cbn [name_loop app fgetc].
  - cbn. now rewrite app_nil_r.
  - inversion F; subst. replace (c =? 0) with false by lia. cbn [negb]. rewrite IH by (auto; cbn in L; lia). unfold u8. rewrite Z.mod_small by lia. now rewrite <- app_assoc.
Qed.

(** C109.  A complete file is printed line by line. *)
Theorem C109_lines ps fuel : Forall label_ok ps -> (List.length (flat_map entry ps) < fuel)%nat ->
  view_main fuel (Some (flat_map entry ps)) = Ok (Some (flat_map line ps)).
Proof.
  intros F L. unfold view_main. do 2 f_equal. change (flat_map line ps) with ([] ++ flat_map line ps). generalize (@nil Z) as out. revert fuel L.
  induction F as [|[a n] ps [A N] F IH]; intros fuel L out; (destruct fuel as [|fuel]; [cbn in L; lia|]).
  - cbn. now rewrite app_nil_r.
  - cbn [flat_map] in *. unfold entry in *. cbn [fst snd app] in *. cbn [List.length] in L. rewrite !app_length in L. cbn [List.length] in L.
    cbn [view fgetc]. replace (a / 256 =? -1) with false by lia. cbn [fgetc]. rewrite <- app_assoc. cbn [app]. rewrite name_ends by (auto; lia).
    rewrite IH by (cbn [List.length] in *; lia). f_equal. rewrite !hex_byte by lia. unfold line. cbn [fst snd]. rewrite <- !app_assoc. f_equal. cbn [app].
    replace (a / 256 / 16) with (a / 4096) by (rewrite Z.div_div by lia; reflexivity). replace (a mod 256 / 16) with (a / 16 mod 16) by lia. replace ((a mod 256) mod 16) with (a mod 16) by lia. reflexivity.
Qed.
Print Assumptions C109_lines.

Lemma name_eof fuel : forall out, name_loop fuel [] out = None.
Proof. induction fuel as [|fuel IH]; intros out; [reflexivity|]. cbn. apply IH. Qed.
Lemma name_inv fuel : forall l out o r, Forall is_byte l -> name_loop fuel l out = Some (o, r) -> exists n, l = n ++ 0 :: r /\ Forall (fun c => 0 < c < 256) n /\ o = out ++ n.
Proof.
  induction fuel as [|fuel IH]; intros l out o r B E; [discriminate|]. destruct l as [|c l]; [now rewrite name_eof in E|]. cbn [name_loop fgetc] in E. inversion B as [|? ? Bc Bl]; subst. unfold is_byte in Bc.
  destruct (c =? 0) eqn:C; cbn [negb] in E.
  - injection E as <- <-. exists []. split; [cbn; f_equal; lia|]. split; [constructor|now rewrite app_nil_r].
  - destruct (IH _ _ _ _ Bl E) as (n & -> & F & ->). exists (c :: n). split; [reflexivity|]. split; [constructor; [lia|exact F]|].
    unfold u8. rewrite Z.mod_small by lia. now rewrite <- app_assoc.
Qed.

(** It ends exactly if the file is complete: on a file that is cut off inside an
    entry it prints for ever. *)
Theorem C109_ends file : Forall is_byte file -> (exists fuel out, view_main fuel (Some file) = Ok (Some out)) <-> complete file.
Proof.
  intros B. split.
  - intros (fuel & out & E). unfold view_main in E. injection E as E. revert file B out E. generalize (@nil Z) as acc.
    induction fuel as [|fuel IH]; intros acc file B out E; [discriminate|]. cbn [view] in E. destruct file as [|hi file]; [exists []; split; [constructor|reflexivity]|].
    inversion B as [|? ? Bh B1]; subst. cbn [fgetc] in E. unfold is_byte in Bh. replace (hi =? -1) with false in E by lia.
    destruct file as [|lo file]; cbn [fgetc] in E; [now rewrite name_eof in E|]. inversion B1 as [|? ? Bl B2]; subst. unfold is_byte in Bl.
    destruct (name_loop fuel file _) as [[o r]|] eqn:Q; [|discriminate]. destruct (name_inv _ _ _ _ _ B2 Q) as (n & -> & N & _).
    apply Forall_app in B2 as [_ B2]. inversion B2; subst. destruct (IH _ r ltac:(assumption) _ E) as (ps & F & ->).
    exists ((hi * 256 + lo, n) :: ps). split; [constructor; [split; cbn [fst snd]; [lia|exact N]|exact F]|]. cbn [flat_map].
    assert (Y : entry (hi * 256 + lo, n) = hi :: lo :: n ++ [0]).
    { unfold entry. cbn [fst snd app]. replace ((hi * 256 + lo) / 256) with hi by lia. replace ((hi * 256 + lo) mod 256) with lo by lia. reflexivity. }
    rewrite Y. cbn [app]. now rewrite <- app_assoc.
  - intros (ps & F & ->). exists (S (List.length (flat_map entry ps))), (flat_map line ps). apply C109_lines; [exact F|lia].
Qed.
Print Assumptions C109_ends.

(** So a file that is cut off is not noticed: the run never ends. *)
Theorem C109_cut_refuted : ~ forall ps k, Forall label_ok ps -> exists fuel out, view_main fuel (Some (firstn k (flat_map entry ps))) = Ok (Some out).
Proof.
  intros C. destruct (C [(256, bytes "main")] 4%nat) as (fuel & out & E).
  { constructor; [|constructor]. split; cbn [fst snd]; [lia|]. repeat constructor; lia. }
  unfold view_main in E. injection E as E. destruct fuel as [|fuel]; [discriminate|]. cbn in E.
  do 2 (destruct fuel as [|fuel]; [discriminate|cbn in E]). now rewrite name_eof in E.
Qed.
Print Assumptions C109_cut_refuted.

(** A file that does not exist is read through a null pointer. *)
Theorem C109_missing_refuted fuel : view_main fuel None = Fault BadHandle.
Proof. reflexivity. Qed.
Print Assumptions C109_missing_refuted.

(** After every run of the assembler, successful or not, the labels that it has
    announced (C58) are printed, if names hold bytes. *)
Theorem C109_assembled fs file ok evs code o : assembles fs file ok evs -> front_main ok evs = FEnd code o ->
  Forall (fun p => Forall is_byte (snd p)) (labels_of evs) ->
  exists fuel, view_main fuel (Some (o_symfile o)) = Ok (Some (flat_map line (map (fun '(a, n) => (a, until_nul n)) (labels_of evs)))).
Proof.
  intros A E BN. destruct (assembles_rel _ _ _ _ A) as (_ & P & _).
  assert (W : o_symfile o = flat_map (fun p => sym_entry (fst p) (snd p)) (labels_of evs)).
  { unfold front_main in E. destruct (front_run front0 evs) as [x| |] eqn:R; try discriminate.
    apply sym_written in R. cbn in R. destruct ok; injection E as <- <-; exact R. }
  assert (Sh : Forall (fun p => is_short (fst p)) (labels_of evs)).
  { clear -P. unfold labels_of. induction P as [|e l P1 P2 IH]; cbn; [constructor|]. apply Forall_app. split; [|exact IH].
    destruct e; try constructor. destruct P1 as [P1 _]. destruct (s_type sym), (s_name sym); repeat constructor; apply P1. }
  rewrite W. clear -BN Sh.
  assert (U : forall n, c_string n = until_nul n ++ [0]).
  { induction n as [|c n IH]; [reflexivity|]. cbn. destruct (c =? 0); [reflexivity|]. now rewrite IH. }
  set (qs := map (fun '(a, n) => (a, until_nul n)) (labels_of evs)).
  assert (Q : flat_map (fun p => sym_entry (fst p) (snd p)) (labels_of evs) = flat_map entry qs).
  { unfold qs. clear BN. induction Sh as [|[a n] l H1 H2 IH]; [reflexivity|]. cbn [flat_map map]. rewrite IH. f_equal. unfold sym_entry, entry. cbn [fst snd] in *. rewrite U. unfold is_short in H1.
    rewrite Z.shiftr_div_pow2 by lia. change 255 with (Z.ones 8). rewrite Z.land_ones by lia. reflexivity. }
  rewrite Q. exists (S (List.length (flat_map entry qs))). apply C109_lines; [|lia].
  unfold qs. clear Q U qs. induction Sh as [|[a n] l H1 H2 IH]; [constructor|]. inversion BN as [|? ? B1 B2]; subst. cbn [map]. constructor; [|now apply IH].
  split; cbn [fst snd] in *; [exact H1|]. clear -B1. induction B1 as [|c n Bc B IH]; cbn; [constructor|]. unfold is_byte in Bc. destruct (c =? 0) eqn:E; constructor; [lia|exact IH].
Qed.
Print Assumptions C109_assembled.

Example C109_case : view_main 20 (Some ([1; 0] ++ bytes "main" ++ [0; 4; 171] ++ bytes "x/y" ++ [0])) = Ok (Some (bytes "0100 main" ++ [10] ++ bytes "04ab x/y" ++ [10])) /\
  view_main 1000 (Some [1; 0; 65]) = Ok None.
Proof. split; vm_compute; reflexivity. Qed.
(** The program of C58_case meets the hypotheses of C109_assembled. *)
Example C109_case_assembled : assembles (Props_Asm.one (bytes "|0100 @main &x ;main $300 @last")) (bytes "a") true (evs_of (bytes "|0100 @main &x ;main $300 @last")) /\
  exists o, front_main true (evs_of (bytes "|0100 @main &x ;main $300 @last")) = FEnd 0 o /\
  labels_of (evs_of (bytes "|0100 @main &x ;main $300 @last")) = [(256, bytes "main"); (256, bytes "main/x"); (1027, bytes "last")] /\
  view_main 100 (Some (o_symfile o)) = Ok (Some (bytes "0100 main" ++ [10] ++ bytes "0100 main/x" ++ [10] ++ bytes "0403 last" ++ [10])).
Proof. split; [assembled|]. eexists. split; [vm_compute; reflexivity|]. split; vm_compute; reflexivity. Qed.
