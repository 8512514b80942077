(** C48 and C49: a ROM appended to an executable is found again, and loading
    a ROM stays inside the memory of the machine.

    Model: BootModel.v.  [rom2exe runner rom can_create room] is a run of
    buxn-rom2exe whose output file takes at most [room] bytes;
    [bembd_find (mkRfile exe pos)] is the search an emulator makes in its own
    executable, which gives the size of the ROM and the file positioned at its
    first byte; [cli_start self arg m] is the start of buxn-cli with the
    executable [self], the ROM file [arg] and memory [m]. *)
From Verif Require Import BootModel BootProofs.
From Coq Require Import ZifyBool.
Ltac Zify.zify_post_hook ::= Z.div_mod_to_equations.
Open Scope list_scope.

(** What rom2exe writes. *)
Lemma rom2exe_output runner rom room : 0 <= room -> 0 < zlen rom < 4294967296 ->
  exists code out, rom2exe (Some runner) (Some rom) true room = Ok (Exit code (Some out)) /\
  (code = 0 <-> zlen runner + zlen rom + 8 <= room) /\ (code = 0 \/ code = 1) /\
  (code = 0 -> out = runner ++ rom ++ bembd_header (zlen rom)).
Proof.
  intros Hr Hn; unfold rom2exe; cbn [negb]; rewrite cp_spec by easy.
  pose proof (zlen_nonneg runner).
  destruct (zlen runner <=? room) eqn:E.
  - destruct (put_spec ([] ++ runner) (room - zlen runner) rom ltac:(lia) Hn) as (out & -> & Ho).
    cbv beta iota zeta. destruct (zlen rom + 8 <=? room - zlen runner) eqn:E2.
    + replace (zlen rom =? 0) with false by lia. exists 0, (w_data out).
      split; [reflexivity|]; split; [lia|]; split; [lia|]. intros _; apply Ho; lia.
    + exists 1, (w_data out). split; [reflexivity|]; split; [lia|]; split; lia.
  - destruct (put_spec ([] ++ firstn (Z.to_nat room) runner) 0 rom ltac:(lia) Hn) as (out & -> & Ho).
    cbv beta iota zeta. replace (zlen rom + 8 <=? 0) with false by lia.
    exists 1, (w_data out). split; [reflexivity|]; split; [lia|]; split; lia.
Qed.

(** C48.  Whatever the runner and the ROM contain, and however much the disk
    takes: if rom2exe succeeds, the search in its output gives the size of the
    ROM and the next bytes of the file are the ROM. *)
Theorem C48_found runner rom room out pos : 0 <= room -> 0 < zlen rom < 2147483648 ->
  rom2exe (Some runner) (Some rom) true room = Ok (Exit 0 (Some out)) ->
  exists f, bembd_find (mkRfile out pos) = Ok (zlen rom, f) /\ fst (fread f (zlen rom)) = rom.
Proof.
  intros Hr Hn H. destruct (rom2exe_output runner rom room Hr ltac:(lia)) as (code & out' & H' & _ & _ & Ho).
  rewrite H' in H; injection H as -> ->. rewrite (Ho eq_refl), app_assoc.
  rewrite find_header by lia. replace (zlen rom <? 2147483648) with true by lia.
  eexists; split; [reflexivity|]. unfold fseek_set. pose proof (zlen_nonneg runner). rewrite zlen_app.
  replace (zlen runner + zlen rom - zlen rom <? 0) with false by lia.
  rewrite fread_rest by lia; cbn [fst f_data].
  replace (Z.to_nat (zlen runner + zlen rom - zlen rom)) with (length runner) by (unfold zlen; lia).
  rewrite <- app_assoc, skipn_app_exact by reflexivity.
  apply firstn_app_exact. unfold zlen; lia.
Qed.
Print Assumptions C48_found.

(** It succeeds exactly when the disk takes the runner, the ROM and eight bytes. *)
Theorem C48_succeeds runner rom room : 0 <= room -> 0 < zlen rom < 2147483648 ->
  (exists out, rom2exe (Some runner) (Some rom) true room = Ok (Exit 0 (Some out))) <->
  zlen runner + zlen rom + 8 <= room.
Proof.
  intros Hr Hn. destruct (rom2exe_output runner rom room Hr ltac:(lia)) as (code & out' & H' & Hc & _ & _).
  rewrite H', <- Hc. split; [intros (o & E); now injection E|intros ->; now exists out'].
Qed.
Print Assumptions C48_succeeds.

(** Nothing is found in a file that does not end in the marker. *)
Theorem C48_not_found exe pos : (forall body, exe <> body ++ [98; 101; 109; 98]) ->
  exists f, bembd_find (mkRfile exe pos) = Ok (0, f).
Proof.
  intros H; unfold bembd_find; cbn [f_data].
  destruct (zlen exe <? 8) eqn:E; [eexists; reflexivity|].
  unfold fseek_set; replace (zlen exe - 8 <? 0) with false by lia; cbn [f_data].
  rewrite fread_rest by lia. rewrite zlen_firstn, zlen_skipn by lia.
  replace (Z.min 8 (Z.max 0 (zlen exe - (zlen exe - 8)))) with 8 by lia. cbn [Z.eqb Pos.eqb negb].
  rewrite firstn_all2.
  2:{ rewrite skipn_length. unfold zlen in *; lia. }
  assert (L : length (skipn (Z.to_nat (zlen exe - 8)) exe) = 8%nat) by (rewrite skipn_length; unfold zlen in *; lia).
  pose proof (firstn_skipn (Z.to_nat (zlen exe - 8)) exe) as FS.
  set (s := skipn (Z.to_nat (zlen exe - 8)) exe) in *. set (p := firstn _ _) in *.
  destruct s as [|b0 [|b1 [|b2 [|b3 [|b4 [|b5 [|b6 [|b7 [|]]]]]]]]]; try discriminate L.
  cbn [nth]. destruct ((b4 =? 98) && (b5 =? 101) && (b6 =? 109) && (b7 =? 98)) eqn:Em; [|eexists; reflexivity].
  exfalso; apply (H (p ++ [b0; b1; b2; b3])). rewrite <- app_assoc; cbn [app].
  assert (b4 = 98 /\ b5 = 101 /\ b6 = 109 /\ b7 = 98) as (-> & -> & -> & ->) by lia. now symmetry.
Qed.
Print Assumptions C48_not_found.

(** An empty ROM is refused, and the output is then the runner alone. *)
Theorem C48_empty runner room : zlen runner <= room ->
  rom2exe (Some runner) (Some []) true room = Ok (Exit 1 (Some runner)).
Proof.
  intros H; pose proof (zlen_nonneg runner). unfold rom2exe; cbn [negb]; rewrite cp_spec by lia.
  replace (zlen runner <=? room) with true by lia. unfold bembd_put; rewrite cp_spec by lia.
  change (zlen []) with 0. replace (0 <=? room - zlen runner) with true by lia.
  cbn [u32 Z.modulo Z.eqb]. cbn. now rewrite app_nil_r.
Qed.
Print Assumptions C48_empty.

(** The limit of C48 is sharp: from 2^31 bytes on, the search computes
    [header[0] << 24] outside the range of [int]. *)
Theorem C48_too_large runner rom pos : 2147483648 <= zlen rom < 4294967296 ->
  bembd_find (mkRfile (runner ++ rom ++ bembd_header (zlen rom)) pos) =
  Fault (SignedOverflow (zlen rom / 16777216 * 16777216)).
Proof.
  intros H. rewrite app_assoc, find_header by lia.
  replace (zlen rom <? 2147483648) with false by lia. reflexivity.
Qed.
Print Assumptions C48_too_large.

(** A missing ROM file is not noticed: the test after opening it looks at the
    output file (rom2exe.c:99), and a null pointer is read. *)
Theorem C48_missing_input_refuted runner room : 0 <= room ->
  rom2exe (Some runner) None true room = Fault BadHandle.
Proof.
  intros H; unfold rom2exe; cbn [negb]; rewrite cp_spec by lia.
  destruct (zlen runner <=? room); reflexivity.
Qed.
Print Assumptions C48_missing_input_refuted.

(** A runner that already carries a ROM [9 8], with its header, gets the ROM
    "bemb": both contain the marker. *)
Definition ex_runner : list Z := [127; 69; 76; 70] ++ [9; 8] ++ [0; 0; 0; 2; 98; 101; 109; 98].
Definition ex_rom : list Z := [98; 101; 109; 98].

Definition ex_exe : list Z := ex_runner ++ ex_rom ++ [0; 0; 0; 4; 98; 101; 109; 98].

Example C48_case :
  rom2exe (Some ex_runner) (Some ex_rom) true 1000 = Ok (Exit 0 (Some ex_exe)) /\
  bembd_find (mkRfile ex_exe 0) = Ok (4, mkRfile ex_exe 14) /\ fst (fread (mkRfile ex_exe 14) 4) = ex_rom /\
  bembd_find (mkRfile ex_runner 0) = Ok (2, mkRfile ex_runner 4) /\ fst (fread (mkRfile ex_runner 4) 2) = [9; 8].
Proof. repeat apply conj; vm_compute; reflexivity. Qed.

Example C48_case_full :
  rom2exe (Some ex_runner) (Some ex_rom) true 20 = Ok (Exit 1 (Some (ex_runner ++ ex_rom ++ [0; 0]))).
Proof. vm_compute; reflexivity. Qed.

Example C48_case_plain : rmap fst (bembd_find (mkRfile [127; 69; 76; 70; 1; 2; 3; 4; 5] 0)) = Ok 0.
Proof. vm_compute; reflexivity. Qed.

(** * C49 *)

(** Memory [m'] is [m] with the bytes [rom] from the reset vector (0x100) on. *)
Definition holds_rom (m m' : arr) (rom : list Z) : Prop :=
  (forall i, 0 <= i < zlen rom -> m' (256 + i) = nth (Z.to_nat i) rom 0) /\
  (forall i, i < 256 \/ 256 + zlen rom <= i -> m' i = m i).

Lemma load_fits m rom : zlen rom <= 1048320 ->
  exists m', apply_stores MEMORY_SIZE m (stores RESET_VECTOR rom) = Ok m' /\ holds_rom m m' rom.
Proof.
  intros H. pose proof (apply_stores_spec rom MEMORY_SIZE m RESET_VECTOR ltac:(discriminate)) as S.
  unfold MEMORY_SIZE, RESET_VECTOR in *.
  replace (256 + zlen rom <=? 1048576) with true in S by lia. destruct S as (m' & E & S).
  exists m'; split; [exact E|]. split; intros i Hi; rewrite S.
  - replace ((256 <=? 256 + i) && (256 + i <? 256 + zlen rom)) with true by lia. f_equal; lia.
  - replace ((256 <=? i) && (i <? 256 + zlen rom)) with false by lia. reflexivity.
Qed.

Lemma load_overflows m rom : 1048320 < zlen rom ->
  apply_stores MEMORY_SIZE m (stores RESET_VECTOR rom) = Fault (OobWrite 1048576).
Proof.
  intros H. pose proof (apply_stores_spec rom MEMORY_SIZE m RESET_VECTOR ltac:(discriminate)) as S.
  unfold MEMORY_SIZE, RESET_VECTOR in *.
  replace (256 + zlen rom <=? 1048576) with false in S by lia.
  rewrite S; [reflexivity|]. intros ->; unfold zlen in H; cbn in H; lia.
Qed.

(** C49.  A ROM file of up to 1048320 bytes (the memory less the first page)
    is loaded from 0x100 on and nothing else changes. *)
Theorem C49_file rom m : zlen rom <= 1048320 ->
  exists m', cli_start None (Some (Some rom)) m = Ok (Booted m') /\ holds_rom m m' rom.
Proof.
  intros H. unfold cli_start, cli_main. rewrite cli_file_stores, firstn_all2 by (unfold zlen in *; lia).
  destruct (load_fits m rom H) as (m' & -> & Hm). exists m'; split; [reflexivity|exact Hm].
Qed.
Print Assumptions C49_file.

(** It makes no difference that a runner without a ROM looks into itself first. *)
Theorem C49_plain_runner exe arg m : (forall body, exe <> body ++ [98; 101; 109; 98]) ->
  cli_start (Some exe) arg m = cli_start None arg m.
Proof. intros H. destruct (C48_not_found exe 0 H) as (f & E). unfold cli_start; rewrite E. reflexivity. Qed.
Print Assumptions C49_plain_runner.

(** Every larger file makes it store a byte behind the memory. *)
Theorem C49_file_too_large rom m : 1048320 < zlen rom ->
  cli_start None (Some (Some rom)) m = Fault (OobWrite 1048576).
Proof.
  intros H. unfold cli_start, cli_main. rewrite cli_file_stores.
  rewrite load_overflows; [reflexivity|]. rewrite zlen_firstn; lia.
Qed.
Print Assumptions C49_file_too_large.

Lemma stores_in pos l i : (exists v, In (i, v) (stores pos l)) <-> pos <= i < pos + zlen l.
Proof.
  unfold stores. split.
  - intros (v & H). apply in_combine_l in H. apply in_map_iff in H as (k & <- & Hk). apply in_seq in Hk. unfold zlen; lia.
  - intros H. exists (nth (Z.to_nat (i - pos)) l 0).
    assert (Hl : (Z.to_nat (i - pos) < length l)%nat) by (unfold zlen in *; lia).
    replace i with (nth (Z.to_nat (i - pos)) (map (fun i => pos + Z.of_nat i) (seq 0 (length l))) 0) at 1.
    2:{ rewrite (nth_indep _ 0 (pos + Z.of_nat 0)) by (rewrite map_length, seq_length; easy).
        rewrite (map_nth (fun i => pos + Z.of_nat i)), seq_nth by easy. lia. }
    rewrite <- combine_nth by (now rewrite map_length, seq_length).
    apply nth_In. rewrite combine_length, map_length, seq_length, Nat.min_id. exact Hl.
Qed.

(** Where it stores, for every file: at most 256 bytes land behind the memory. *)
Theorem C49_file_reach rom i : (exists v, In (i, v) (cli_read_rom (mkRfile rom 0) 0)) <->
  256 <= i < 256 + Z.min (zlen rom) 1048576.
Proof. rewrite cli_file_stores, stores_in, zlen_firstn by lia. unfold RESET_VECTOR; lia. Qed.
Print Assumptions C49_file_reach.

(** An executable made by rom2exe boots with the memory the ROM file gives,
    arguments or not, whatever the runner contains. *)
Theorem C49_embedded runner rom room out m arg : 0 <= room -> 0 < zlen rom < 2147483648 ->
  rom2exe (Some runner) (Some rom) true room = Ok (Exit 0 (Some out)) ->
  (zlen rom <= 1048320 -> exists m', cli_start (Some out) arg m = Ok (Booted m') /\ holds_rom m m' rom) /\
  (1048320 < zlen rom -> cli_start (Some out) arg m = Fault (OobWrite 1048576)).
Proof.
  intros Hr Hn H. destruct (C48_found runner rom room out 0 Hr Hn H) as (f & Ef & Er).
  unfold cli_start; rewrite Ef; cbn [rbind]. replace (zlen rom =? 0) with false by lia.
  unfold cli_read_rom; replace (zlen rom =? 0) with false by lia. rewrite Er.
  split; intros Hs.
  - destruct (load_fits m rom Hs) as (m' & -> & Hm). exists m'; split; [reflexivity|exact Hm].
  - rewrite load_overflows by easy. reflexivity.
Qed.
Print Assumptions C49_embedded.

(** The graphical emulator never stores outside, for files and embedded ROMs
    of all sizes, and takes the ROMs that leave at least one byte free. *)
Theorem C49_gui limit rom k m : 0 <= k <= zlen rom -> (forall l, limit = Some l -> 0 <= l) ->
  let bytes := match limit with
               | Some l => firstn (Z.to_nat l) (skipn (Z.to_nat k) rom)
               | None => skipn (Z.to_nat k) rom end in
  exists st m', gui_load limit (mkRfile rom k) = Some (st, zlen bytes <? 1048320) /\
    apply_stores MEMORY_SIZE m st = Ok m' /\
    holds_rom m m' (firstn (Z.to_nat 1048320) bytes).
Proof.
  intros Hk Hl bytes. rewrite gui_loop_spec by easy. fold bytes.
  destruct (load_fits m (firstn (Z.to_nat 1048320) bytes)) as (m' & E & Hm); [rewrite zlen_firstn; lia|].
  do 2 eexists; split; [reflexivity|]. split; [exact E|exact Hm].
Qed.
Print Assumptions C49_gui.

(** A ROM that fills the memory exactly is loaded completely and then refused
    as too large. *)
Theorem C49_gui_full_refuted rom m : zlen rom = 1048320 ->
  exists st m', gui_load None (mkRfile rom 0) = Some (st, false) /\
  apply_stores MEMORY_SIZE m st = Ok m' /\ holds_rom m m' rom.
Proof.
  intros H. destruct (C49_gui None rom 0 m ltac:(lia) ltac:(discriminate)) as (st & m' & E & Ea & Hm).
  cbn [skipn Z.to_nat] in *. exists st, m'. rewrite E, H. split; [reflexivity|]. split; [exact Ea|].
  rewrite firstn_all2 in Hm by (unfold zlen in *; lia). exact Hm.
Qed.
Print Assumptions C49_gui_full_refuted.

(** The executable of [C48_case] started with an argument that is not a ROM
    boots its own ROM; sizes on both sides of the limit exist. *)
Example C49_case : rom2exe (Some ex_runner) (Some ex_rom) true 1000 = Ok (Exit 0 (Some ex_exe)) /\
  rmap (fun b => match b with Booted m' => map m' [254; 255; 256; 257; 258; 259; 260; 261] | _ => [] end)
    (cli_start (Some ex_exe) (Some None) (fun _ => 7)) = Ok [7; 7; 98; 101; 109; 98; 7; 7].
Proof. split; vm_compute; reflexivity. Qed.

Example C49_case_sizes : zlen (repeat 1 (Z.to_nat 1048320)) <= 1048320 /\ 1048320 < zlen (repeat 1 (Z.to_nat 1048321)).
Proof. unfold zlen; rewrite !repeat_length; lia. Qed.
