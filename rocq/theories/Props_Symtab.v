(** C37: symbol files. *)
From Verif Require Import Base SymtabModel SymtabSpec SymtabProofs.

(** C37: writing any list of symbols and reading the file back, into any
    memory, gives the same symbols in the same order, with the same names and
    positions. *)
Theorem C37_round_trip content num_files ys : writable content num_files ys ->
  exists file strings ys',
    write_symtab content num_files ys = SOk file /\
    (forall junk, read_symtab junk file = SOk (mkBody strings ys')) /\
    Forall2 (same_symbol content strings) ys ys'.
Proof.
  intros W. destruct (round_trip _ _ _ W) as (l & h & rows & ys' & _ & _ & A & B & D).
  eexists _, (map content l), ys'. split; [exact A|]. auto.
Qed.
Print Assumptions C37_round_trip.

(** C37: the file has every name exactly once.  [content] differs on different
    pointers because names are interned (asm.c:704-778). *)
Theorem C37_each_name_once content num_files ys : writable content num_files ys ->
  (forall f g, In f (names ys) -> In g (names ys) -> content f = content g -> f = g) ->
  exists strings header rows,
    write_symtab content num_files ys =
      SOk (SvArr 2 [header; SvRec [(SkStrpool, SvArr (Z.of_nat (length strings)) (map SvBlob strings));
                                   (SkSymtab, SvTab (Z.of_nat (length ys)) rows)]]) /\
    NoDup strings /\
    (forall s, In s strings <-> exists y, In y ys /\ content (y_file y) = s).
Proof.
  intros W Inj. destruct (round_trip _ _ _ W) as (l & h & rows & ys' & Nd & I & A & _ & _).
  exists (map content l), h, rows. rewrite map_length, map_map. split; [exact A|]. split.
  - clear A. assert (L : incl l (names ys)) by (intros f Hf; apply nodup_In, I, Hf). clear I.
    induction Nd as [|f l Nf Nd IH]; cbn [map]; constructor.
    + rewrite in_map_iff. intros (g & E & Ig). apply Nf.
      replace f with g; auto. apply Inj; auto; apply L; [now right | now left].
    + apply IH. intros g Hg. apply L. now right.
  - intros s. rewrite in_map_iff. split.
    + intros (f & <- & If). apply I, in_map_iff in If as (y & <- & Iy). eauto.
    + intros (y & Iy & <-). exists (y_file y). split; auto. apply I, in_map, Iy.
Qed.
Print Assumptions C37_each_name_once.

(** A table of three symbols in two files. *)
Definition ex_content (f : Z) : list Z := if f =? 4096 then [109; 97; 105; 110] else [108; 105; 98].
Definition ex_syms : list sym :=
  [mkSym 4 1 256 256 4096 1 1 0 1 6 5; mkSym 0 0 256 257 8192 3 2 9 3 5 12; mkSym 2 0 258 260 4096 2 1 7 2 5 11].
Example C37_example :
  writable ex_content 2 ex_syms /\
  exists file, write_symtab ex_content 2 ex_syms = SOk file /\
  read_symtab (fun _ => mkSym 9 9 9 9 9 9 9 9 9 9 9) file =
    SOk (mkBody [[108; 105; 98]; [109; 97; 105; 110]]
           [mkSym 4 1 256 256 1 1 1 0 1 6 5; mkSym 0 0 256 257 0 3 2 9 3 5 12; mkSym 2 0 258 260 1 2 1 7 2 5 11]).
Proof.
  split.
  - unfold writable. split; [repeat constructor; cbn; lia|]. vm_compute. repeat split; congruence.
  - eexists. split; [vm_compute; reflexivity|]. vm_compute; reflexivity.
Qed.

(** C37: the limit on the number of names is needed.  With more names than
    slots, which is at most twice the number announced, the writer does not
    return. *)
Theorem C37_too_many_names content num_files ys :
  Forall sym_ok ys -> num_files <= 2 ^ 30 ->
  2 < Z.of_nat (length (names ys)) -> 2 * num_files <= Z.of_nat (length (names ys)) ->
  write_symtab content num_files ys = SHang.
Proof. apply too_many_names. Qed.
Print Assumptions C37_too_many_names.

Example C37_too_many_names_example : 
  let ys := [mkSym 0 0 0 0 16 0 0 0 0 0 0; mkSym 0 0 0 0 32 0 0 0 0 0 0; mkSym 0 0 0 0 48 0 0 0 0 0 0] in
  Forall sym_ok ys /\ 2 < Z.of_nat (length (names ys)) /\ 2 * 1 <= Z.of_nat (length (names ys)).
Proof. split; [repeat constructor; cbn; lia|]. vm_compute. split; congruence. Qed.

(** [SHang] is the truth about the loop: it does not find a slot in any number
    of steps. *)
Theorem C37_hang_is_forever p f : 1 <= p_exp p <= 31 -> enter p f = SHang ->
  forall n, probe n (hash_of f) (p_exp p) (s32 (hash_of f))
              (fun i => (p_strings p i =? 0) || (p_strings p i =? f)) = None.
Proof.
  intros He E. apply probe_stuck; auto. unfold enter in E.
  destruct (probe _ _ _ _ _) as [i|]; auto. destruct (p_strings p i =? 0); discriminate.
Qed.
Print Assumptions C37_hang_is_forever.

(** C37: reading any file that is accepted stays within the announced sizes,
    and every name that is read has an announced number. *)
Theorem C37_any_file junk file b : read_symtab junk file = SOk b ->
  exists num room symbols, 0 <= num < 2 ^ 32 /\ 0 <= room < 2 ^ 32 /\ 0 <= symbols < 2 ^ 32 /\
    (b_strings b = [] \/ Z.of_nat (length (b_strings b)) = num) /\
    fold_right (fun s n => Z.of_nat (length s) + 1 + n) 0 (b_strings b) <= room /\
    (b_symbols b = [] \/ Z.of_nat (length (b_symbols b)) = symbols) /\
    forall j y, nth_error (b_symbols b) j = Some y ->
      y_file y = y_file (junk (Z.of_nat j)) \/ 0 <= y_file y < num.
Proof. apply any_file. Qed.
Print Assumptions C37_any_file.

(** Not true: that an accepted file gives every symbol a name.  A record
    without the key leaves the pointer of the uninitialised symbol
    (symtab.c:255-277), and a file without the strings leaves the table of
    strings that the symbols point into uninitialised (symtab.c:200). *)
Theorem C37_accepted_names_refuted :
  exists file, forall junk, exists b y,
    read_symtab junk file = SOk b /\ nth_error (b_symbols b) 0 = Some y /\
    y_file y = y_file (junk 0).
Proof.
  exists (SvArr 2 [SvRec [(SkNumSymbols, SvInt 1)]; SvRec [(SkSymtab, SvTab 1 [SvRec [(SkId, SvInt 7)]])]]).
  intros junk. eexists _, _. split; [vm_compute; reflexivity|]. split; [reflexivity|]. reflexivity.
Qed.
Print Assumptions C37_accepted_names_refuted.

Theorem C37_accepted_strings_refuted :
  exists file, forall junk, exists b y,
    read_symtab junk file = SOk b /\ nth_error (b_symbols b) 0 = Some y /\
    0 <= y_file y /\ nth_error (b_strings b) (Z.to_nat (y_file y)) = None.
Proof.
  exists (SvArr 2 [SvRec [(SkNumSymbols, SvInt 1); (SkNumStrings, SvInt 1)];
                   SvRec [(SkSymtab, SvTab 1 [SvRec [(SkFile, SvInt 0)]])]]).
  intros junk. eexists _, _. split; [vm_compute; reflexivity|]. split; [reflexivity|]. split; [cbn; lia | reflexivity].
Qed.
Print Assumptions C37_accepted_strings_refuted.

(** C37: every number of a symbol of an accepted file fits into its variable, or
    was not in the file and is what the memory held before. *)
Definition within (lo hi new old : Z) : Prop := new = old \/ lo <= new < hi.
Definition in_variables (old y : sym) : Prop :=
  within 0 (2 ^ 8) (y_type y) (y_type old) /\ within 0 (2 ^ 16) (y_id y) (y_id old) /\
  within 0 (2 ^ 16) (y_min y) (y_min old) /\ within 0 (2 ^ 16) (y_max y) (y_max old) /\
  within (- 2 ^ 31) (2 ^ 31) (y_sl y) (y_sl old) /\ within (- 2 ^ 31) (2 ^ 31) (y_sc y) (y_sc old) /\ within (- 2 ^ 31) (2 ^ 31) (y_sb y) (y_sb old) /\
  within (- 2 ^ 31) (2 ^ 31) (y_el y) (y_el old) /\ within (- 2 ^ 31) (2 ^ 31) (y_ec y) (y_ec old) /\ within (- 2 ^ 31) (2 ^ 31) (y_eb y) (y_eb old).
Lemma row_variables old num n kvs : forall y0 y, in_variables old y0 -> get_fields (sym_fields (Reader num) n) kvs y0 = SOk y -> in_variables old y.
Proof.
  induction kvs as [|[k v] kvs IH]; intros y0 y O.
  - cbn. intros E; injection E as <-. exact O.
  - cbn [get_fields]. destruct (sfield_of _ k) as [f|] eqn:G; [|apply IH; exact O].
    intros E. apply sbind_ok in E as ([w y1] & E1 & E2). revert E2. apply IH.
    unfold in_variables in *. destruct O as (O1 & O2 & O3 & O4 & O5 & O6 & O7 & O8 & O9 & O10).
    unfold sym_fields in G. destruct k; cbn in G; try discriminate; injection G as <-;
    unfold fld, file_field in E1; apply sbind_ok in E1 as ([v' x] & E1 & R);
    try (injection R as <- <-); try (apply rint_range in E1).
    5:{ destruct (num <=? x); [discriminate|]. injection R as <- <-. repeat (split; [assumption|]). assumption. }
    all: cbn [y_type y_id y_min y_max y_sl y_sc y_sb y_el y_ec y_eb set_type set_id set_min set_max set_sl set_sc set_sb set_el set_ec set_eb]; repeat split; try assumption; right; exact E1.
Qed.
Lemma rows_variables num n k : forall i junk rows ys, get_rows (Reader num) n k i junk rows = SOk ys ->
  forall j y, nth_error ys j = Some y -> in_variables (junk (i + Z.of_nat j)) y.
Proof.
  induction k as [|k IH]; intros i junk rows ys; cbn [get_rows].
  - intros E; injection E as <-. intros [|j] y; discriminate.
  - destruct rows as [|v rows]; [discriminate|].
    intros E. apply sbind_ok in E as ([w y] & E1 & E). apply sbind_ok in E as (ys' & E2 & R). injection R as <-.
    intros [|j] z; cbn [nth_error].
    + intros Z0; injection Z0 as <-. replace (i + Z.of_nat 0) with i by lia.
      unfold record in E1. destruct v; try discriminate.
      apply sbind_ok in E1 as (y1 & E1 & R). injection R as <- <-. eapply row_variables; [|exact E1].
      unfold in_variables, within. auto 12.
    + intros N. specialize (IH _ _ _ _ E2 j z N). replace (i + Z.of_nat (S j)) with (i + 1 + Z.of_nat j) by lia. exact IH.
Qed.
Theorem C37_numbers_fit junk file b : read_symtab junk file = SOk b ->
  forall j y, nth_error (b_symbols b) j = Some y -> in_variables (junk (Z.of_nat j)) y.
Proof.
  unfold read_symtab. destruct file as [| |n items| |]; try discriminate.
  destruct (negb (n =? 2)); try discriminate. destruct items as [|hv rest]; try discriminate.
  intros E. apply sbind_ok in E as ([w h] & E1 & E2). destruct rest as [|bv rest]; try discriminate.
  apply sbind_ok in E2 as ([w' b'] & E2 & R). injection R as <-.
  unfold record in E2. destruct bv as [| |d its|kvs|]; try discriminate.
  apply sbind_ok in E2 as (b'' & E2 & R). injection R as <- <-. revert E2.
  match goal with |- get_fields ?fs _ _ = _ -> _ => assert (X : forall kvs b0 b1, (forall j y, nth_error (b_symbols b0) j = Some y -> in_variables (junk (Z.of_nat j)) y) ->
    get_fields fs kvs b0 = SOk b1 -> forall j y, nth_error (b_symbols b1) j = Some y -> in_variables (junk (Z.of_nat j)) y) end.
  { clear. induction kvs as [|[k v] kvs IH]; intros b0 b1 O.
    - cbn. intros E; injection E as <-. exact O.
    - cbn [get_fields]. destruct (sfield_of _ k) as [f|] eqn:G; [|apply IH; exact O].
      intros E. apply sbind_ok in E as ([w b2] & E1 & E2). revert E2. apply IH.
      unfold body_fields in G. destruct k; cbn in G; try discriminate; injection G as <-.
      + unfold strpool_field in E1. destruct v; try discriminate. destruct (negb _) in E1; [discriminate|].
        apply sbind_ok in E1 as (l & E1 & R). injection R as <- <-. exact O.
      + unfold symtab_field in E1. destruct v; try discriminate. destruct (negb _) in E1; [discriminate|].
        apply sbind_ok in E1 as (l & E1 & R). injection R as <- <-. cbn [b_symbols]. intros j y N. exact (rows_variables _ _ _ _ _ _ _ E1 j y N). }
  apply X. intros [|j] y; discriminate.
Qed.
Print Assumptions C37_numbers_fit.
(** An address of 65536 is not accepted, 65535 is. *)
Example C37_numbers_case : 
  let file v := SvArr 2 [SvRec [(SkNumSymbols, SvInt 1)]; SvRec [(SkSymtab, SvTab 1 [SvRec [(SkMin, SvInt v)]])]] in
  (forall junk, read_symtab junk (file 65536) = SMalformed) /\
  forall junk, exists b y, read_symtab junk (file 65535) = SOk b /\ nth_error (b_symbols b) 0 = Some y /\ y_min y = 65535.
Proof. split; intros junk; [reflexivity|]. eexists _, _. split; [reflexivity|]. split; reflexivity. Qed.
