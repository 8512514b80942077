(** Facts about the model of embedding and loading ROMs (BootModel.v). *)
From Verif Require Import BootModel.
From Coq Require Import ZifyBool.
Ltac Zify.zify_post_hook ::= Z.div_mod_to_equations.
Open Scope list_scope.

Lemma zlen_nonneg l : 0 <= zlen l.
Proof. unfold zlen; lia. Qed.

Lemma zlen_app l1 l2 : zlen (l1 ++ l2) = zlen l1 + zlen l2.
Proof. unfold zlen; rewrite app_length; lia. Qed.

Lemma zlen_firstn n l : 0 <= n -> zlen (firstn (Z.to_nat n) l) = Z.min n (zlen l).
Proof. intros; unfold zlen; rewrite firstn_length; lia. Qed.

Lemma zlen_skipn n l : 0 <= n -> zlen (skipn (Z.to_nat n) l) = Z.max 0 (zlen l - n).
Proof. intros; unfold zlen; rewrite skipn_length; lia. Qed.

Lemma zlen_zero l : zlen l = 0 -> l = [].
Proof. destruct l; [trivial|unfold zlen; cbn [length]; lia]. Qed.

(** What [fread] leaves is what is left. *)
Lemma fread_rest data pos n : 0 <= pos -> 0 <= n ->
  let rest := skipn (Z.to_nat pos) data in
  fread (mkRfile data pos) n = (firstn (Z.to_nat n) rest, mkRfile data (pos + Z.min n (zlen rest))).
Proof. intros Hp Hn rest; unfold fread; cbn [f_data f_pos]; fold rest; rewrite (zlen_firstn n) by easy; reflexivity. Qed.

Lemma skipn_skipn {A} (l : list A) a b : 0 <= a -> 0 <= b ->
  skipn (Z.to_nat (a + b)) l = skipn (Z.to_nat b) (skipn (Z.to_nat a) l).
Proof.
  intros; rewrite Z2Nat.inj_add by easy; generalize (Z.to_nat a) (Z.to_nat b); intros p q.
  clear; revert l; induction p as [|p IH]; intros l; [reflexivity|].
  destruct l; cbn [Nat.add skipn]; [now rewrite skipn_nil|apply IH].
Qed.

Lemma skipn_min {A} (l : list A) n : skipn (Nat.min n (length l)) l = skipn n l.
Proof.
  destruct (Nat.le_ge_cases n (length l)); [now rewrite Nat.min_l|].
  rewrite Nat.min_r, skipn_all, skipn_all2 by easy; reflexivity.
Qed.

Lemma skipn_zmin l n : 0 <= n -> skipn (Z.to_nat (Z.min n (zlen l))) l = skipn (Z.to_nat n) l.
Proof. intros; rewrite <- (skipn_min l (Z.to_nat n)); f_equal; unfold zlen; lia. Qed.

Lemma cp_loop : forall fuel d room data pos total, 0 <= pos -> 0 <= room ->
  let rest := skipn (Z.to_nat pos) data in
  (length rest < fuel)%nat ->
  bembd_cp fuel (mkWfile d room) (mkRfile data pos) total =
  if zlen rest <=? room then Some (total + zlen rest, mkWfile (d ++ rest) (room - zlen rest))
  else Some (0, mkWfile (d ++ firstn (Z.to_nat room) rest) 0).
Proof.
  induction fuel as [|fuel IH]; intros d room data pos total Hp Hr rest Hf; [lia|].
  cbn [bembd_cp]; rewrite fread_rest by lia; fold rest.
  rewrite zlen_firstn by lia. pose proof (zlen_nonneg rest) as Hnn.
  destruct (Z.min 2048 (zlen rest) =? 0) eqn:E0.
  { assert (E : zlen rest = 0) by lia; rewrite E; apply zlen_zero in E; rewrite E.
    replace (0 <=? room) with true by lia; rewrite app_nil_r, Z.sub_0_r, Z.add_0_r; reflexivity. }
  unfold fwrite; cbn [w_data w_room]; rewrite zlen_firstn, zlen_firstn by lia.
  destruct (Z.min room (Z.min 2048 (zlen rest)) =? Z.min 2048 (zlen rest)) eqn:E1.
  - rewrite (firstn_all2 (n := Z.to_nat room)) by (rewrite firstn_length; unfold zlen in *; lia).
    rewrite IH; [| lia | lia |].
    2:{ rewrite skipn_skipn, skipn_length by lia; fold rest. unfold zlen in *; lia. }
    rewrite skipn_skipn by lia; fold rest; rewrite skipn_zmin, zlen_skipn by lia.
    destruct (zlen rest <=? room) eqn:E2.
    + replace (Z.max 0 (zlen rest - 2048) <=? room - Z.min room (Z.min 2048 (zlen rest))) with true by lia.
      rewrite <- app_assoc, firstn_skipn. f_equal; f_equal; [lia|f_equal; lia].
    + replace (Z.max 0 (zlen rest - 2048) <=? room - Z.min room (Z.min 2048 (zlen rest))) with false by lia.
      rewrite <- app_assoc; do 2 f_equal; f_equal; f_equal.
      rewrite <- (firstn_skipn 2048 (firstn (Z.to_nat room) rest)), firstn_firstn.
      f_equal; [f_equal; lia|].
      change (Z.to_nat 2048) with 2048%nat; rewrite firstn_skipn_comm; do 2 f_equal; lia.
  - replace (zlen rest <=? room) with false by lia.
    rewrite firstn_firstn; do 2 f_equal; f_equal; [do 2 f_equal; lia|lia].
Qed.

Lemma cp_spec d room data : 0 <= room ->
  cp (mkWfile d room) data =
  if zlen data <=? room then Some (zlen data, mkWfile (d ++ data) (room - zlen data))
  else Some (0, mkWfile (d ++ firstn (Z.to_nat room) data) 0).
Proof. intros; unfold cp; rewrite cp_loop; cbn [skipn Z.to_nat]; [reflexivity|lia|lia|lia]. Qed.

Lemma header_length n : zlen (bembd_header n) = 8.
Proof. reflexivity. Qed.

(** The bytes of the header give the size back. *)
Lemma header_value n : 0 <= n < 4294967296 ->
  let h i := nth i (bembd_header n) 0 in
  0 <= h 0%nat < 256 /\
  Z.lor (Z.lor (Z.lor (h 0%nat * 16777216) (h 1%nat * 65536)) (h 2%nat * 256)) (h 3%nat) = n /\
  h 0%nat = n / 16777216.
Proof.
  intros Hn h; subst h; cbn [bembd_header nth].
  change 255 with (Z.ones 8); rewrite !Z.land_ones, !Z.shiftr_div_pow2 by lia.
  change (2 ^ 24) with 16777216; change (2 ^ 16) with 65536; change (2 ^ 8) with 256.
  split; [lia|]; split; [|lia].
  replace (n / 16777216 mod 256) with (n / 16777216) by lia.
  assert (L : forall a b k, 0 <= k -> 0 <= b < 2 ^ k -> Z.lor (a * 2 ^ k) b = a * 2 ^ k + b).
  { intros a b k Hk Hb.
    assert (H0 : Z.land (a * 2 ^ k) b = 0).
    { apply Z.bits_inj'; intros i Hi. rewrite Z.land_spec, Z.bits_0.
      destruct (Z.lt_ge_cases i k).
      - rewrite Z.mul_pow2_bits_low by easy; reflexivity.
      - rewrite andb_comm. replace (Z.testbit b i) with false; [reflexivity|].
        symmetry; destruct (Z.eq_dec b 0) as [->|]; [apply Z.bits_0|].
        apply Z.bits_above_log2; [lia|]. apply Z.log2_lt_pow2; [lia|].
        apply Z.lt_le_trans with (2 ^ k); [lia|apply Z.pow_le_mono_r; lia]. }
    rewrite <- Z.lxor_lor, <- Z.add_nocarry_lxor by exact H0; reflexivity. }
  pose proof (L (n / 16777216) (n / 65536 mod 256 * 65536) 24 ltac:(lia) ltac:(lia)) as L1.
  change (2 ^ 24) with 16777216 in L1; rewrite L1.
  replace (n / 16777216 * 16777216 + n / 65536 mod 256 * 65536) with (n / 65536 * 65536) by lia.
  pose proof (L (n / 65536) (n / 256 mod 256 * 256) 16 ltac:(lia) ltac:(lia)) as L2.
  change (2 ^ 16) with 65536 in L2; rewrite L2.
  replace (n / 65536 * 65536 + n / 256 mod 256 * 256) with (n / 256 * 256) by lia.
  pose proof (L (n / 256) (n mod 256) 8 ltac:(lia) ltac:(lia)) as L3.
  change (2 ^ 8) with 256 in L3; rewrite L3. lia.
Qed.

Lemma skipn_app_exact {A} (a b : list A) n : n = length a -> skipn n (a ++ b) = b.
Proof. intros ->; rewrite skipn_app, skipn_all, Nat.sub_diag; reflexivity. Qed.

Lemma firstn_app_exact {A} (a b : list A) n : n = length a -> firstn n (a ++ b) = a.
Proof. intros ->; rewrite firstn_app, firstn_all, Nat.sub_diag; cbn; apply app_nil_r. Qed.

(** Searching a file that ends in a header. *)
Lemma find_header body n pos : 0 <= n < 4294967296 ->
  bembd_find (mkRfile (body ++ bembd_header n) pos) =
  if n <? 2147483648
  then Ok (n, fseek_set (mkRfile (body ++ bembd_header n) (zlen body + 8)) (zlen body - n))
  else Fault (SignedOverflow (n / 16777216 * 16777216)).
Proof.
  intros Hn; unfold bembd_find; cbn [f_data]. pose proof (zlen_nonneg body) as Hb.
  rewrite zlen_app, header_length.
  replace (zlen body + 8 <? 8) with false by lia.
  unfold fseek_set at 1; replace (zlen body + 8 - 8 <? 0) with false by lia; cbn [f_data].
  rewrite fread_rest by lia.
  replace (Z.to_nat (zlen body + 8 - 8)) with (length body) by (unfold zlen; lia).
  rewrite skipn_app_exact by reflexivity.
  rewrite firstn_all2 by (cbn; lia). rewrite header_length; cbn [Z.eqb Pos.eqb negb].
  destruct (header_value n Hn) as (Hr & Hv & H0); cbn zeta in Hr, Hv, H0.
  change (nth 4 (bembd_header n) 0) with 98; change (nth 5 (bembd_header n) 0) with 101.
  change (nth 6 (bembd_header n) 0) with 109; change (nth 7 (bembd_header n) 0) with 98.
  cbn [Z.eqb Pos.eqb andb negb].
  rewrite H0. unfold int32, in_int, INT_MIN, INT_MAX.
  destruct (n <? 2147483648) eqn:E.
  - replace ((-2147483648 <=? n / 16777216 * 16777216) && (n / 16777216 * 16777216 <=? 2147483647)) with true by lia.
    cbn [rbind]; rewrite H0 in Hv; rewrite Hv.
    replace (zlen body + 8 - n - 8) with (zlen body - n) by lia.
    replace (zlen body + 8 - 8 + Z.min 8 8) with (zlen body + 8) by lia. reflexivity.
  - replace ((-2147483648 <=? n / 16777216 * 16777216) && (n / 16777216 * 16777216 <=? 2147483647)) with false by lia.
    reflexivity.
Qed.

(** Appending. *)
Lemma put_spec d room rom : 0 <= room -> 0 < zlen rom < 4294967296 ->
  exists out, bembd_put (mkWfile d room) rom = Some (if zlen rom + 8 <=? room then zlen rom else 0, out) /\
  (zlen rom + 8 <= room -> w_data out = d ++ rom ++ bembd_header (zlen rom)).
Proof.
  intros Hr Hn; unfold bembd_put; rewrite cp_spec by easy.
  destruct (zlen rom <=? room) eqn:E.
  - unfold u32; rewrite Z.mod_small by lia. replace (zlen rom =? 0) with false by lia.
    unfold bembd_write_header, fwrite; cbn [w_data w_room].
    rewrite zlen_firstn, header_length by lia.
    eexists; split.
    + do 2 f_equal. destruct (zlen rom + 8 <=? room) eqn:E2.
      * replace (Z.min (room - zlen rom) 8 =? 8) with true by lia; reflexivity.
      * replace (Z.min (room - zlen rom) 8 =? 8) with false by lia; reflexivity.
    + intros Hle; cbn [w_data]. rewrite firstn_all2 by (cbn; unfold zlen in *; lia).
      now rewrite <- app_assoc.
  - replace (zlen rom + 8 <=? room) with false by lia. eexists; split; [reflexivity|lia].
Qed.

(** Stores. *)
Lemma stores_app pos a b : stores pos (a ++ b) = stores pos a ++ stores (pos + zlen a) b.
Proof.
  unfold stores; revert pos; induction a as [|x a IH]; intros pos.
  - unfold zlen; cbn. replace (pos + 0) with pos by lia; reflexivity.
  - cbn [app length seq map combine]. f_equal.
    rewrite <- !seq_shift, !map_map.
    rewrite (map_ext (fun i => pos + Z.of_nat (S i)) (fun i => (pos + 1) + Z.of_nat i)) by (intros; lia).
    rewrite IH. f_equal.
    + f_equal. apply map_ext; intros; lia.
    + f_equal. apply map_ext; intros; unfold zlen; cbn [length]; lia.
Qed.

Lemma apply_stores_spec : forall buf size m pos, 0 <= pos ->
  if pos + zlen buf <=? size
  then exists m', apply_stores size m (stores pos buf) = Ok m' /\
       forall i, m' i = if (pos <=? i) && (i <? pos + zlen buf) then nth (Z.to_nat (i - pos)) buf 0 else m i
  else buf <> [] -> apply_stores size m (stores pos buf) = Fault (OobWrite (Z.max pos size)).
Proof.
  induction buf as [|x buf IH]; intros size m pos Hp.
  - unfold zlen; cbn [length]. destruct (pos + Z.of_nat 0 <=? size).
    + exists m; split; [reflexivity|]. intros i.
      replace ((pos <=? i) && (i <? pos + Z.of_nat 0)) with false by lia. reflexivity.
    + congruence.
  - change (x :: buf) with ([x] ++ buf). rewrite stores_app, zlen_app.
    change (zlen [x]) with 1. change (stores pos [x]) with [(pos + 0, x)].
    rewrite Z.add_0_r. cbn [app apply_stores]. unfold aset, in_bounds.
    replace (0 <=? pos) with true by lia; cbn [andb].
    specialize (IH size (upd m pos x) (pos + 1) ltac:(lia)).
    replace (pos + 1 + zlen buf) with (pos + (1 + zlen buf)) in IH by lia.
    pose proof (zlen_nonneg buf).
    destruct (pos + (1 + zlen buf) <=? size) eqn:E.
    + replace (pos <? size) with true by lia. cbn [rbind].
      destruct IH as (m' & E' & H'). exists m'; split; [exact E'|].
      intros i; rewrite H'. unfold upd.
      destruct ((pos + 1 <=? i) && (i <? pos + (1 + zlen buf))) eqn:E1.
      * replace ((pos <=? i) && (i <? pos + (1 + zlen buf))) with true by lia.
        replace (Z.to_nat (i - pos)) with (S (Z.to_nat (i - (pos + 1)))) by lia. reflexivity.
      * destruct (i =? pos) eqn:E2.
        -- replace ((pos <=? i) && (i <? pos + (1 + zlen buf))) with true by lia.
           replace (Z.to_nat (i - pos)) with O by lia. reflexivity.
        -- replace ((pos <=? i) && (i <? pos + (1 + zlen buf))) with false by lia. reflexivity.
    + intros _. destruct (pos <? size) eqn:E1; cbn [rbind].
      * rewrite IH by (intros ->; unfold zlen in *; cbn [length] in *; lia). do 2 f_equal; lia.
      * do 2 f_equal; lia.
Qed.

(** The reading loop of the CLI stores the file's bytes in order, in blocks of
    1024, and stops at the first block that starts outside. *)
Lemma cli_loop_spec : forall fuel data pos k, 0 <= k -> pos = RESET_VECTOR + k ->
  k mod 1024 = 0 ->
  let rest := skipn (Z.to_nat k) data in
  (length rest < fuel)%nat ->
  k <= zlen data -> k <= 1048576 ->
  cli_read_loop fuel (mkRfile data k) pos = stores pos (firstn (Z.to_nat (1048576 - k)) rest).
Proof.
  induction fuel as [|fuel IH]; intros data pos k Hk -> Hm rest Hf Hle Hle2; [lia|].
  cbn [cli_read_loop]. unfold RESET_VECTOR, MEMORY_SIZE in *.
  destruct (256 + k <? 1048576) eqn:E.
  - rewrite fread_rest by lia; fold rest. rewrite zlen_firstn by lia.
    pose proof (zlen_nonneg rest) as Hnn.
    destruct (Z.min 1024 (zlen rest) =? 0) eqn:E0.
    + assert (Er : zlen rest = 0) by lia; apply zlen_zero in Er; rewrite Er.
      rewrite firstn_nil; reflexivity.
    + assert (Hz : zlen rest = zlen data - k) by (unfold rest; rewrite zlen_skipn; lia).
      destruct (Z.lt_ge_cases (zlen rest) 1024) as [Hs|Hs].
      * (* the last block *)
        replace (Z.min 1024 (zlen rest)) with (zlen rest) by lia.
        rewrite !firstn_all2 by (unfold zlen in *; lia).
        destruct fuel as [|fuel]; [unfold zlen in *; lia|].
        cbn [cli_read_loop]. rewrite fread_rest by lia.
        rewrite skipn_skipn by lia; fold rest.
        rewrite (skipn_all2 (n := Z.to_nat (zlen rest))) by (unfold zlen; lia).
        rewrite firstn_nil. change (zlen [] =? 0) with true. cbv iota.
        destruct (256 + k + zlen rest <? MEMORY_SIZE); rewrite app_nil_r; reflexivity.
      * replace (Z.min 1024 (zlen rest)) with 1024 by lia.
        rewrite (IH data (256 + k + 1024) (k + 1024)); [| lia | lia | lia | | lia | lia].
        2:{ rewrite skipn_length. unfold rest, zlen in *. rewrite skipn_length in *. lia. }
        rewrite skipn_skipn by lia; fold rest.
        replace (256 + k + 1024) with (256 + k + zlen (firstn (Z.to_nat 1024) rest)) by (rewrite zlen_firstn; lia).
        rewrite <- stores_app. f_equal.
        rewrite <- (firstn_skipn (Z.to_nat 1024) (firstn (Z.to_nat (1048576 - k)) rest)), firstn_firstn.
        f_equal; [f_equal; lia|].
        rewrite firstn_skipn_comm; do 2 f_equal; lia.
  - replace (1048576 - k) with 0 by lia. reflexivity.
Qed.

Lemma cli_file_stores data : cli_read_rom (mkRfile data 0) 0 = stores RESET_VECTOR (firstn (Z.to_nat 1048576) data).
Proof.
  unfold cli_read_rom; cbn [Z.eqb f_data]. rewrite (cli_loop_spec _ data RESET_VECTOR 0); cbn [skipn Z.to_nat];
    [reflexivity | lia | reflexivity | reflexivity | lia | apply zlen_nonneg | lia].
Qed.

(** The reading loop of the GUI. *)
Lemma gui_loop_spec data limit k : 0 <= k <= zlen data -> (forall l, limit = Some l -> 0 <= l) ->
  let rest := skipn (Z.to_nat k) data in
  let rom := match limit with Some l => firstn (Z.to_nat l) rest | None => rest end in
  gui_load limit (mkRfile data k) =
  Some (stores RESET_VECTOR (firstn (Z.to_nat (MEMORY_SIZE - RESET_VECTOR)) rom), zlen rom <? MEMORY_SIZE - RESET_VECTOR).
Proof.
  intros Hk Hl rest rom; unfold gui_load; cbn [f_data].
  assert (Hz : zlen rest = zlen data - k) by (unfold rest; rewrite zlen_skipn; lia).
  cbn [gui_read_loop]. unfold MEMORY_SIZE, RESET_VECTOR.
  replace (0 <? 1048576 - 256) with true by reflexivity.
  unfold stdio_read.
  set (cap := match limit with Some l => if l <? 1048576 - 256 then l else 1048576 - 256 | None => 1048576 - 256 end).
  assert (Hc : 0 <= cap <= 1048320) by (unfold cap; destruct limit as [l|]; [specialize (Hl l eq_refl); destruct (l <? _) eqn:?|]; lia).
  rewrite fread_rest by lia; fold rest.
  assert (Eb : firstn (Z.to_nat cap) rest = firstn (Z.to_nat (1048576 - 256)) rom).
  { unfold cap, rom. destruct limit as [l|]; [specialize (Hl l eq_refl)|reflexivity].
    rewrite firstn_firstn. f_equal. destruct (l <? _) eqn:?; lia. }
  assert (Er : zlen rom = match limit with Some l => Z.min l (zlen rest) | None => zlen rest end)
    by (unfold rom; destruct limit as [l|]; [specialize (Hl l eq_refl); apply zlen_firstn; lia|reflexivity]).
  pose proof (zlen_nonneg rom) as Hrn. pose proof (zlen_nonneg rest) as Hnn0.
  rewrite Eb, zlen_firstn by lia. cbn [app].
  destruct (0 <? Z.min (1048576 - 256) (zlen rom)) eqn:E.
  - destruct (zlen rom <? 1048576 - 256) eqn:E1.
    + replace (Z.min (1048576 - 256) (zlen rom)) with (zlen rom) by lia.
      (* a second read finds nothing *)
      assert (Hcap : Z.min cap (zlen rest) = zlen rom).
      { unfold cap. destruct limit as [l|]; [specialize (Hl l eq_refl); destruct (l <? _) eqn:?|]; lia. }
      rewrite Hcap.
      destruct (length data) as [|n] eqn:En; [unfold zlen in *; lia|]. cbn [gui_read_loop].
      replace (0 <? 1048576 - 256 - zlen rom) with true by lia.
      unfold stdio_read. rewrite fread_rest.
      2: lia.
      2: { clear - Hl Er E1 Hnn0; clearbody rom; destruct limit as [l|]; cbn [option_map]; [specialize (Hl l eq_refl); cbv iota in Er; destruct (_ <? _ - _ - _) eqn:?|]; lia. }
      match goal with |- context [firstn (Z.to_nat ?c) ?r] => assert (En' : firstn (Z.to_nat c) r = []) end.
      { rewrite skipn_skipn by lia; fold rest. destruct limit as [l|]; cbn [option_map].
        - specialize (Hl l eq_refl). rewrite Er.
          destruct (Z.le_ge_cases l (zlen rest)).
          + replace (l - Z.min l (zlen rest)) with 0 by lia.
            cbv iota in Er. destruct (0 <? _ - _ - _) eqn:?; [reflexivity|lia].
          + replace (Z.min l (zlen rest)) with (zlen rest) by lia.
            rewrite (skipn_all2 (n := Z.to_nat (zlen rest))) by (unfold zlen; lia). apply firstn_nil.
        - rewrite Er. rewrite (skipn_all2 (n := Z.to_nat (zlen rest))) by (unfold zlen; lia). apply firstn_nil. }
      rewrite En'. cbn. reflexivity.
    + replace (Z.min (1048576 - 256) (zlen rom)) with 1048320 by lia.
      cbn [gui_read_loop]. reflexivity.
  - assert (E0 : zlen rom = 0) by lia. apply zlen_zero in E0; rewrite E0. reflexivity.
Qed.
