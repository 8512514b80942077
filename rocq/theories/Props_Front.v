(** C50 and C58: the files that the front end of the assembler writes.

    Vocabulary: [assembles fs file ok evs] and [rom evs a] as in Props_Asm.v.
    [front_main ok evs] is what src/asm.c makes of the calls [evs] and the
    result [ok] of buxn_asm: the exit code and the files. *)
From Verif Require Import Base AsmModel AsmSound AsmSpec AsmFacts FrontModel Props_Asm.
From Verif Require BootModel BootProofs Props_Boot.
From Coq Require Import ZifyBool Ascii String.
Open Scope list_scope.
Ltac Zify.zify_post_hook ::= Z.div_mod_to_equations.

(** The byte of the ROM at an address, zero if nothing was put there. *)
Definition byte_at (evs : list event) (a : Z) : Z := match rom evs a with Some v => v | None => 0 end.

(** [bytes] is the contents of memory from 0x100 on, without the zeros at the end. *)
Definition image (evs : list event) (bytes : list Z) : Prop :=
  (forall i, nth i bytes 0 = byte_at evs (256 + Z.of_nat i)) /\ (bytes = [] \/ last bytes 0 <> 0).

(** There is only one such list. *)
Lemma last_nth (l : list Z) : last l 0 = nth (List.length l - 1) l 0.
Proof.
  induction l as [|x l IH]; [reflexivity|]. destruct l as [|y l]; [reflexivity|].
  change (last (x :: y :: l) 0) with (last (y :: l) 0). rewrite IH. cbn [List.length].
  replace (S (S (List.length l)) - 1)%nat with (S (S (List.length l) - 1))%nat by lia. reflexivity.
Qed.
Lemma image_shorter evs b b' : image evs b -> image evs b' -> (List.length b <= List.length b')%nat.
Proof.
  intros [N [->|L]] [N' _]; [cbn; lia|]. rewrite last_nth in L.
  destruct (Nat.le_gt_cases (List.length b) (List.length b')) as [|G]; [easy|].
  exfalso; apply L. rewrite N, <- N'. apply nth_overflow. lia.
Qed.
Lemma image_unique evs b b' : image evs b -> image evs b' -> b = b'.
Proof.
  intros H H'. pose proof (image_shorter _ _ _ H H'). pose proof (image_shorter _ _ _ H' H).
  apply (nth_ext _ _ 0 0); [lia|]. intros i _. destruct H as [N _], H' as [N' _]. now rewrite N, N'.
Qed.

(** What the buffer of the front end holds. *)
Record holds (x : front) (m : Z -> option Z) : Prop := mkHolds {
  h_rom : forall i, 0 <= i < 65280 -> x_rom x i = match m (256 + i) with Some v => v | None => 0 end;
  h_size : 0 <= x_size x <= 65280;
  h_rest : forall i, x_size x <= i -> m (256 + i) = None
}.

Lemma holds_same x y m : holds x m -> x_rom y = x_rom x -> x_size y = x_size x -> holds y m.
Proof. intros [A B C] E1 E2. constructor; rewrite ?E1, ?E2; auto. Qed.
Lemma dbg_same x t a s : x_rom (put_dbg_sym x t a s) = x_rom x /\ x_size (put_dbg_sym x t a s) = x_size x /\ x_sym (put_dbg_sym x t a s) = x_sym x.
Proof. unfold put_dbg_sym. destruct (x_cur x); [destruct (_ && _)|]; auto. Qed.
Lemma symbol_same x a s y : front_symbol x a s = FOk y -> x_rom y = x_rom x /\ x_size y = x_size x.
Proof.
  unfold front_symbol. destruct (s_type s); try (intros [= <-]; auto; fail); try (intros [= <-]; split; apply dbg_same).
  - destruct (s_name s); [|discriminate]. destruct (_ =? 0); [discriminate|]. intros [= <-].
    match goal with |- context [put_dbg_sym ?z ?t ?a ?s] => destruct (dbg_same z t a s) as (-> & -> & _) end. auto.
  - destruct (_ =? 0); [discriminate|]. intros [= <-]. split; apply dbg_same.
Qed.

Lemma run_holds evs : forall x m y, Forall ok_put evs -> holds x m -> front_run x evs = FOk y -> holds y (fold_left rom_step evs m).
Proof.
  induction evs as [|e evs IH]; intros x m y F H R; cbn in *; [now injection R as <-|].
  inversion F as [|? ? F1 F2]; subst. destruct (front_event x e) as [z| |] eqn:E; try discriminate.
  apply (IH z); auto. clear IH R. destruct e as [sc a l|a v|a s|er msg reg|n|n|n|n|]; cbn [front_event rom_step] in *;
    try (injection E as <-; exact H).
  - destruct F1 as [F1 _]. unfold put_rom, u16 in E. rewrite (Z.mod_small (a - 256)) in E by lia.
    unfold aset, in_bounds in E. replace ((0 <=? a - 256) && (a - 256 <? 65535)) with true in E by lia.
    injection E as <-. destruct H as [A B C]. constructor; cbn [x_rom x_size].
    + intros i Hi. unfold upd. destruct (i =? a - 256) eqn:X.
      * replace (256 + i =? a) with true by lia. reflexivity.
      * replace (256 + i =? a) with false by lia. auto.
    + destruct (x_size x <? a - 256 + 1) eqn:X; rewrite Z.mod_small; lia.
    + intros i Hi. destruct (x_size x <? a - 256 + 1) eqn:X; rewrite Z.mod_small in Hi by lia;
        replace (256 + i =? a) with false by lia; apply C; lia.
  - destruct (symbol_same _ _ _ _ E). eapply holds_same; eauto.
  - injection E as <-. eapply holds_same; eauto; reflexivity.
Qed.

Lemma holds_0 : holds front0 (fun _ => None).
Proof. constructor; cbn; intros; lia || reflexivity. Qed.

Lemma trim_spec n : forall m, (trim n m <= n)%nat /\ (forall i, (trim n m <= i < n)%nat -> m (Z.of_nat i) = 0) /\
  (trim n m = O \/ m (Z.of_nat (trim n m - 1)) <> 0).
Proof.
  induction n as [|n IH]; intros m; cbn [trim]; [split; [lia|]; split; [lia|auto]|].
  destruct (m (Z.of_nat n) =? 0) eqn:E.
  - destruct (IH m) as (A & B & C). split; [lia|]. split; [|auto].
    intros i Hi. destruct (Nat.eq_dec i n) as [->|]; [lia|]. apply B. lia.
  - split; [lia|]. split; [lia|]. right. replace (S n - 1)%nat with n by lia. lia.
Qed.

Lemma write_rom_image x evs : holds x (rom evs) -> image evs (write_rom x).
Proof.
  intros [A B C]. unfold write_rom, image, byte_at. destruct (trim_spec (Z.to_nat (x_size x)) (x_rom x)) as (T1 & T2 & T3).
  set (n := trim _ _) in *. split.
  - intros i. destruct (Nat.lt_ge_cases i n) as [L|L].
    + rewrite (nth_indep _ 0 (x_rom x (Z.of_nat 0))) by (rewrite map_length, seq_length; lia).
      rewrite (map_nth (fun i => x_rom x (Z.of_nat i))), seq_nth by lia. apply A. lia.
    + rewrite nth_overflow by (rewrite map_length, seq_length; lia).
      destruct (Nat.lt_ge_cases i (Z.to_nat (x_size x))) as [M|M].
      * rewrite <- (A (Z.of_nat i)) by lia. symmetry. apply T2. lia.
      * rewrite C by lia. reflexivity.
  - destruct T3 as [->|T3]; [now left|]. destruct (Nat.eq_dec n 0) as [->|N]; [now left|]. right.
    rewrite last_nth, map_length, seq_length.
    rewrite (nth_indep _ 0 (x_rom x (Z.of_nat 0))) by (rewrite map_length, seq_length; lia).
    rewrite (map_nth (fun i => x_rom x (Z.of_nat i))), seq_nth by lia. exact T3.
Qed.

(** ** C50 *)
(** When the assembler succeeds, the front end writes the ROM file, and it is
    the image of the ROM.  [FEnd] leaves out one case: the id of a label is a
    uint16_t that wraps to zero after 65535 labels, and then an assert fails. *)
Theorem C50_rom_file fs file evs code o : assembles fs file true evs -> front_main true evs = FEnd code o ->
  code = 0 /\ exists bytes, o_rom o = Some bytes /\ image evs bytes /\ forall other, image evs other -> other = bytes.
Proof.
  intros A E. destruct (assembles_rel _ _ _ _ A) as (_ & P & _). unfold front_main in E.
  destruct (front_run front0 evs) as [x| |] eqn:R; try discriminate. injection E as <- <-. split; [reflexivity|].
  pose proof (run_holds _ _ _ _ P holds_0 R) as H. apply write_rom_image in H.
  eexists; split; [reflexivity|]. split; [exact H|]. intros other Ho. exact (image_unique _ _ _ Ho H).
Qed.
Print Assumptions C50_rom_file.

(** No file is written, and the exit code is 1, when the assembler fails. *)
Theorem C50_no_file fs file evs code o : assembles fs file false evs -> front_main false evs = FEnd code o ->
  code = 1 /\ o_rom o = None /\ o_dbg o = None.
Proof.
  intros _ E. unfold front_main in E. destruct (front_run front0 evs); try discriminate. injection E as <- <-. auto.
Qed.
Print Assumptions C50_no_file.

(** The callbacks stay inside the ROM buffer and never meet a label without a
    name, whatever is assembled. *)
Theorem C50_defined fs file ok evs f : assembles fs file ok evs -> front_main ok evs <> FUndefined f.
Proof.
  intros A. destruct (assembles_rel _ _ _ _ A) as (_ & P & _). unfold front_main.
  assert (G : forall x, front_run x evs <> FFault f).
  { clear A. induction evs as [|e l IH]; intros x; cbn; [discriminate|]. inversion P as [|? ? P1 P2]; subst.
    assert (X : front_event x e <> FFault f).
    { destruct e as [| a v|a s| | | | | |]; cbn; try discriminate.
      - destruct P1 as [P1 _]. unfold put_rom, u16, aset, in_bounds. rewrite (Z.mod_small (a - 256)) by lia.
        replace ((0 <=? a - 256) && (a - 256 <? 65535)) with true by lia. discriminate.
      - destruct P1 as [_ N]. unfold front_symbol, named in *. destruct (s_type s); try discriminate.
        + destruct (s_name s); [|destruct N as (? & N & _); discriminate N]. destruct (_ =? 0); discriminate.
        + destruct (_ =? 0); discriminate. }
    destruct (front_event x e); auto. }
  specialize (G front0). destruct (front_run front0 evs); [destruct ok; discriminate|congruence|discriminate].
Qed.
Print Assumptions C50_defined.

(** From the source to the machine: booting the ROM file in the CLI emulator
    puts every byte of the ROM where the assembler put it. *)
Theorem C50_boots fs file evs code o bytes : assembles fs file true evs -> front_main true evs = FEnd code o ->
  o_rom o = Some bytes ->
  exists m, BootModel.cli_start None (Some (Some bytes)) (fun _ => 0) = Ok (BootModel.Booted m) /\
  forall a, 0 <= a < 65536 -> m a = byte_at evs a.
Proof.
  intros A E O. destruct (C50_rom_file _ _ _ _ _ A E) as (_ & b & O' & (N & _) & _).
  assert (b = bytes) as -> by congruence. clear O'.
  destruct (assembles_rel _ _ _ _ A) as (_ & P & _).
  assert (Out : forall a, rom evs a <> None -> 256 <= a <= 65535).
  { intros a. unfold rom. assert (G : forall l m, Forall ok_put l -> (m a <> None -> 256 <= a <= 65535) ->
      fold_left rom_step l m a <> None -> 256 <= a <= 65535).
    { induction l as [|e l IH]; intros m F H; cbn; [exact H|]. inversion F as [|? ? F1 F2]; subst. apply IH; [exact F2|].
      destruct e; cbn; auto. destruct (a =? addr) eqn:X; [|exact H]. intros _. destruct F1; lia. }
    apply G; [exact P|]. congruence. }
  assert (L : BootModel.zlen bytes <= 65280).
  { unfold BootModel.zlen. destruct (C50_rom_file _ _ _ _ _ A E) as (_ & b & O' & (_ & L) & _).
    assert (b = bytes) as -> by congruence. destruct L as [->|L]; [cbn; lia|]. rewrite last_nth, N in L. unfold byte_at in L.
    assert (X : rom evs (256 + Z.of_nat (List.length bytes - 1)) <> None) by (intros X; rewrite X in L; auto).
    apply Out in X. lia. }
  destruct (Props_Boot.C49_file bytes (fun _ => 0) ltac:(lia)) as (m & B & H1 & H2). exists m. split; [exact B|].
  intros a Ha. destruct (Z.lt_ge_cases a 256).
  - rewrite H2 by lia. unfold byte_at. destruct (rom evs a) eqn:X; [|reflexivity]. assert (X' : rom evs a <> None) by congruence. apply Out in X'. lia.
  - destruct (Z.lt_ge_cases a (256 + BootModel.zlen bytes)).
    + replace a with (256 + (a - 256)) at 1 by lia. rewrite H1, N by lia. f_equal. lia.
    + rewrite H2 by lia. replace a with (256 + Z.of_nat (Z.to_nat (a - 256))) by lia. rewrite <- N.
      symmetry. apply nth_overflow. unfold BootModel.zlen in *. lia.
Qed.
Print Assumptions C50_boots.

(** A byte is overwritten, one lies after a gap, and zeros are left out. *)
Definition ex_front : str := bytes "|0104 07 |0100 @x 01 02 |0101 03 |0105 00 00".
Example C50_case : assembles (Props_Asm.one ex_front) (bytes "a") true (evs_of ex_front) /\
  exists o, front_main true (evs_of ex_front) = FEnd 0 o /\ o_rom o = Some [1; 3; 0; 0; 7].
Proof. split; [assembled|]. eexists. split; vm_compute; reflexivity. Qed.

Example C50_case_fails : assembles (Props_Asm.one (bytes "|80 01")) (bytes "a") false (evs_of (bytes "|80 01")) /\
  exists o, front_main false (evs_of (bytes "|80 01")) = FEnd 1 o.
Proof. split; [assembled|]. eexists. vm_compute; reflexivity. Qed.

(** ** C58 *)
(** The labels in the order in which the assembler announces them. *)
Definition labels_of (evs : list event) : list (Z * str) :=
  flat_map (fun e => match e with
                     | ESym a s => match s_type s, s_name s with SLabel, Some n => [(a, n)] | _, _ => [] end
                     | _ => [] end) evs.

(** Reading a .sym file: two bytes of address, then the name up to a zero. *)
Fixpoint read_name (l : list Z) (n : str) : option (str * list Z) :=
  match l with
  | [] => None
  | c :: l' => if c =? 0 then Some (rev n, l') else read_name l' (c :: n)
  end.
Fixpoint read_sym (fuel : nat) (l : list Z) : option (list (Z * str)) :=
  match fuel, l with
  | _, [] => Some []
  | S fuel', hi :: lo :: l' =>
      match read_name l' [] with
      | Some (n, l'') => option_map (cons (hi * 256 + lo, n)) (read_sym fuel' l'')
      | None => None
      end
  | _, _ => None
  end.

(** A name as a C program sees it. *)
Fixpoint until_nul (s : str) : str :=
  match s with [] => [] | c :: s' => if c =? 0 then [] else c :: until_nul s' end.

Lemma read_name_c n : forall acc rest, read_name (c_string n ++ rest) acc = Some (rev acc ++ until_nul n, rest).
Proof.
  induction n as [|c n IH]; intros acc rest; cbn; [now rewrite app_nil_r|].
  destruct (c =? 0) eqn:E; cbn; rewrite ?E; [now rewrite app_nil_r|]. rewrite IH. cbn. now rewrite <- app_assoc.
Qed.

Lemma sym_written evs : forall x y, front_run x evs = FOk y ->
  x_sym y = x_sym x ++ flat_map (fun p => sym_entry (fst p) (snd p)) (labels_of evs).
Proof.
  induction evs as [|e evs IH]; intros x y R; cbn in *; [injection R as <-; now rewrite app_nil_r|].
  destruct (front_event x e) as [z| |] eqn:E; try discriminate. rewrite (IH _ _ R), flat_map_app. clear IH R.
  rewrite app_assoc. f_equal. destruct e as [| a v|a s| | | | | |]; cbn in *; try (injection E as <-; now rewrite app_nil_r).
  - unfold put_rom in E. destruct (aset _ _ _ _); [|discriminate]. injection E as <-. cbn. now rewrite app_nil_r.
  - unfold front_symbol in E. destruct (s_type s); cbn; rewrite ?app_nil_r;
      try (injection E as <-; reflexivity); try (injection E as <-; apply dbg_same; fail).
    + destruct (s_name s) as [n|]; [|discriminate]. destruct (_ =? 0); [discriminate|]. injection E as <-.
      match goal with |- x_sym (put_dbg_sym ?z ?t ?a ?s) = _ => destruct (dbg_same z t a s) as (_ & _ & ->) end.
      cbn. now rewrite app_nil_r.
    + destruct (_ =? 0); [discriminate|]. injection E as <-. apply dbg_same.
Qed.

(** C58: the .sym file read back gives the labels that the assembler announced,
    in order, each with its address and its name. *)
Theorem C58_sym_file fs file ok evs code o : assembles fs file ok evs -> front_main ok evs = FEnd code o ->
  read_sym (S (List.length (o_symfile o))) (o_symfile o) = Some (map (fun '(a, n) => (a, until_nul n)) (labels_of evs)).
Proof.
  intros A E. destruct (assembles_rel _ _ _ _ A) as (_ & P & _).
  assert (S : o_symfile o = flat_map (fun p => sym_entry (fst p) (snd p)) (labels_of evs)).
  { unfold front_main in E. destruct (front_run front0 evs) as [x| |] eqn:R; try discriminate.
    apply sym_written in R. cbn in R. destruct ok; injection E as <- <-; exact R. }
  rewrite S.
  assert (Sh : Forall (fun p => is_short (fst p)) (labels_of evs)).
  { clear -P. unfold labels_of. induction P as [|e l P1 P2 IH]; cbn; [constructor|]. apply Forall_app. split; [|exact IH].
    destruct e; try constructor. destruct P1 as [P1 _]. destruct (s_type sym), (s_name sym); repeat constructor; apply P1. }
  clear -Sh. remember (Datatypes.S (List.length _)) as fuel eqn:F.
  assert (G : (List.length (flat_map (fun p => sym_entry (fst p) (snd p)) (labels_of evs)) < fuel)%nat) by lia. clear F.
  revert fuel G. induction Sh as [|[a n] l H1 H2 IH]; intros fuel G; cbn [flat_map map]; [destruct fuel; reflexivity|].
  destruct fuel as [|fuel]; [lia|]. cbn [fst snd] in *. unfold sym_entry in *. cbn [app read_sym]. rewrite read_name_c. cbn [rev app].
  rewrite IH.
  - cbn [option_map]. replace (Z.shiftr a 8 * 256 + Z.land a 255) with a; [reflexivity|].
    rewrite Z.shiftr_div_pow2 by lia. change 255 with (Z.ones 8). rewrite Z.land_ones by lia.
    change (2 ^ 8) with 256. unfold is_short in H1. lia.
  - cbn [flat_map fst snd app List.length] in G. rewrite app_length in G. cbn [app] in *. lia.
Qed.
Print Assumptions C58_sym_file.

Example C58_case : assembles (Props_Asm.one (bytes "|0100 @main &x ;main $300 @last")) (bytes "a") true (evs_of (bytes "|0100 @main &x ;main $300 @last")) /\
  exists o, front_main true (evs_of (bytes "|0100 @main &x ;main $300 @last")) = FEnd 0 o /\
  read_sym 100 (o_symfile o) = Some [(256, bytes "main"); (256, bytes "main/x"); (1027, bytes "last")].
Proof. split; [assembled|]. eexists. split; vm_compute; reflexivity. Qed.
