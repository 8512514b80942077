(** C85: how the graphical emulator starts and ends a program.
    C86: what it types into the console. *)
From Verif Require Import Base VmModel VmSpec VmProofs VmWorld SystemModel InputModel InputSpec FileModel FileSpec FileProofs MetaModel MetaSpec MetaProofs AudioModel ScreenModel ScreenSpec ScreenProofs CliModel CliSpec CliProofs GuiModel GuiSpec GuiProofs Props_Gui.
From Coq Require Import ZifyBool.
Open Scope list_scope.
Ltac Zify.zify_post_hook ::= Z.div_mod_to_equations.

(** ** Specification *)
(** The text from [a] up to a newline, a zero or [stop]. *)
Definition first_line (img : arr) (a stop : Z) (l : list Z) : Prop :=
  a + Z.of_nat (length l) <= stop /\
  (forall k, (k < length l)%nat -> nth k l 0 = img (a + Z.of_nat k) /\ nth k l 0 <> 10 /\ nth k l 0 <> 0) /\
  (a + Z.of_nat (length l) < stop -> img (a + Z.of_nat (length l)) = 10 \/ img (a + Z.of_nat (length l)) = 0).
(** A pixel of an icon of 3 by 3 sprites of two bits per pixel, stored one after the
    other at [value]; colours: transparent, grey-green, black, white. *)
Definition bit_at (mem : arr) (a b : Z) : Z := (mem (a mod 65536) / 2 ^ b) mod 2.
Definition icon_pixel (mem : arr) (value x y : Z) : Z :=
  let a := value + 16 * (x / 8 + 3 * (y / 8)) + y mod 8 in let b := 7 - x mod 8 in
  nth (Z.to_nat (bit_at mem a b + 2 * bit_at mem (a + 8) b)) [0; 4286019328; 4278190080; 4294967295] 0.
Definition is_icon (mem : arr) (value : Z) (pixels : list Z) : Prop :=
  length pixels = 576%nat /\ forall x y, 0 <= x < 24 -> 0 <= y < 24 -> nth (Z.to_nat (24 * y + x)) pixels 0 = icon_pixel mem value x y.
(** The values of the extensions numbered 0x83 among [n] from [e] on. *)
Definition icon_values (img : arr) (e : Z) (n : nat) : list Z :=
  concat (map (fun i => let p := e + 3 * Z.of_nat i in if img p =? 131 then [256 * img (p + 1) + img (p + 2)] else []) (seq 0 n)).

(** ** The icon *)
Lemma bit_at_eq mem a b : 0 <= b -> Z.land (Z.shiftr (mem (Z.land a 65535)) b) 1 = bit_at mem a b.
Proof.
  intros B. unfold bit_at. rewrite Z.shiftr_div_pow2 by lia. change 1 with (Z.ones 1). rewrite Z.land_ones by lia.
  change 65535 with (Z.ones 16). rewrite Z.land_ones by lia. reflexivity.
Qed.
Lemma bit_at_01 mem a b : bit_at mem a b = 0 \/ bit_at mem a b = 1.
Proof. unfold bit_at. lia. Qed.
Definition cell (mem : arr) (addr x y i j : Z) : Z :=
  bit_at mem (addr + (j - y)) (7 - (i - x)) + 2 * bit_at mem (addr + (j - y) + 8) (7 - (i - x)).
Lemma chr_line_ok mem addr x y v : 0 <= x <= 16 -> 0 <= y <= 16 -> 0 <= v < 8 -> forall n dst, (n <= 8)%nat ->
  exists d, chr_line mem addr x y v n dst = Ok d /\
  (forall k, 0 <= k < Z.of_nat n -> d ((y + v) * 24 + x + k) = cell mem addr x y (x + k) (y + v)) /\
  (forall p, ~ (y + v) * 24 + x <= p < (y + v) * 24 + x + Z.of_nat n -> d p = dst p).
Proof.
  intros Hx Hy Hv. induction n as [|n IH]; intros dst Hn; cbn [chr_line].
  - exists dst. split; [reflexivity|]. split; [intros; lia|auto].
  - set (h := 8 - Z.of_nat (S n)).
    unfold aset, in_bounds. destruct ((0 <=? _) && (_ <? 576)) eqn:E; [|lia]. cbn [rbind].
    destruct (IH (upd dst ((y + v) * 24 + (x + 7 - h)) (u8 (Z.land (Z.shiftr (mem (Z.land (addr + v) 65535)) h) 1 +
      Z.shiftl (Z.land (Z.shiftr (mem (Z.land (addr + v + 8) 65535)) h) 1) 1))) ltac:(lia)) as (d & -> & D1 & D2).
    exists d. split; [reflexivity|]. split.
    + intros k Hk. destruct (Z.eq_dec k (Z.of_nat n)) as [->|N]; [|apply D1; lia].
      rewrite D2 by lia. rewrite !bit_at_eq by lia. replace ((y + v) * 24 + x + Z.of_nat n) with ((y + v) * 24 + (x + 7 - h)) by lia. rewrite upd_eq.
      rewrite Z.shiftl_mul_pow2 by lia. change (2 ^ 1) with 2. unfold cell.
      replace (addr + (y + v - y)) with (addr + v) by lia. replace (7 - (x + Z.of_nat n - x)) with h by lia. rewrite Z.mul_comm.
      unfold u8. apply Z.mod_small. pose proof (bit_at_01 mem (addr + v) h). pose proof (bit_at_01 mem (addr + v + 8) h). lia.
    + intros p Hp. rewrite D2 by lia. apply upd_ne. lia.
Qed.
Lemma chr_lines_ok mem addr x y : 0 <= x <= 16 -> 0 <= y <= 16 -> forall n dst, (n <= 8)%nat ->
  exists d, chr_lines mem addr x y n dst = Ok d /\
  (forall i j, x <= i < x + 8 -> y + 8 - Z.of_nat n <= j < y + 8 -> d (24 * j + i) = cell mem addr x y i j) /\
  (forall i j, 0 <= i < 24 -> ~ (x <= i < x + 8 /\ y + 8 - Z.of_nat n <= j < y + 8) -> d (24 * j + i) = dst (24 * j + i)).
Proof.
  intros Hx Hy. induction n as [|n IH]; intros dst Hn; cbn [chr_lines].
  - exists dst. split; [reflexivity|]. split; [intros; lia|auto].
  - set (v := 8 - Z.of_nat (S n)). destruct (chr_line_ok mem addr x y v Hx Hy ltac:(lia) 8 dst ltac:(lia)) as (d1 & -> & A1 & A2). cbn [rbind].
    destruct (IH d1 ltac:(lia)) as (d & -> & B1 & B2). exists d. split; [reflexivity|]. split.
    + intros i j Hi Hj. destruct (Z.eq_dec j (y + v)) as [->|N]; [|apply B1; lia].
      rewrite B2 by lia. replace (24 * (y + v) + i) with ((y + v) * 24 + x + (i - x)) by lia. rewrite A1 by lia. f_equal; lia.
    + intros i j Hi Hn'. rewrite B2 by lia. apply A2. intros X. apply Hn'. split; [|].
      * assert (j = y + v) by lia. lia.
      * assert (j = y + v) by lia. lia.
Qed.
Lemma icon_tiles_ok mem value : forall ks dst, Forall (fun k => 0 <= k < 9) ks ->
  exists d, icon_tiles mem value ks dst = Ok d /\
  forall i j, 0 <= i < 24 -> 0 <= j < 24 -> let k := i / 8 + 3 * (j / 8) in
    (In k ks -> d (24 * j + i) = cell mem (u16 (value + k * 16)) (i / 8 * 8) (j / 8 * 8) i j) /\
    (~ In k ks -> d (24 * j + i) = dst (24 * j + i)).
Proof.
  induction ks as [|k ks IH]; intros dst F; cbn [icon_tiles].
  - exists dst. split; [reflexivity|]. intros i j Hi Hj. split; [intros []|auto].
  - inversion F as [|? ? Hk F']; subst. replace (k mod 3 + k / 3 * 3) with k by lia.
    unfold draw_chr. destruct (chr_lines_ok mem (u16 (value + k * 16)) (k mod 3 * 8) (k / 3 * 8) ltac:(lia) ltac:(lia) 8 dst ltac:(lia)) as (d1 & -> & A1 & A2).
    cbn [rbind]. destruct (IH d1 F') as (d & -> & B). exists d. split; [reflexivity|]. intros i j Hi Hj. cbv zeta.
    destruct (B i j Hi Hj) as (B1 & B2). cbv zeta in B1, B2. set (q := i / 8 + 3 * (j / 8)) in *.
    destruct (in_dec Z.eq_dec q ks) as [I|N].
    + split; [auto|]. intros X. exfalso. apply X. right. exact I.
    + rewrite B2 by exact N. split.
      * intros [->|X]; [|contradiction]. rewrite A1 by (unfold q; lia). unfold q. f_equal; lia.
      * intros X. apply A2; [exact Hi|]. intros Y. apply X. left. unfold q. lia.
Qed.
Lemma bit_at_mod mem a b : bit_at mem (a mod 65536) b = bit_at mem a b.
Proof. unfold bit_at. rewrite Z.mod_mod by lia. reflexivity. Qed.
Lemma cell_u16 mem a x y i j : cell mem (u16 a) x y i j = cell mem a x y i j.
Proof.
  unfold cell, u16. f_equal; [|f_equal].
  - rewrite <- (bit_at_mod mem (a mod 65536 + _)), <- (bit_at_mod mem (a + _)). f_equal. lia.
  - rewrite <- (bit_at_mod mem (a mod 65536 + _ + 8)), <- (bit_at_mod mem (a + _ + 8)). f_equal. lia.
Qed.
Lemma nth_map_seq (f : nat -> Z) n k : (k < n)%nat -> nth k (map f (seq 0 n)) 0 = f k.
Proof.
  intros L. rewrite (nth_indep _ 0 (f 0%nat)) by (rewrite map_length, seq_length; exact L).
  rewrite map_nth, seq_nth by exact L. reflexivity.
Qed.
Lemma icon_ok mem value junk : exists l, icon mem value junk = Ok l /\ is_icon mem value l.
Proof.
  unfold icon. destruct (icon_tiles_ok mem value [0; 1; 2; 3; 4; 5; 6; 7; 8] junk) as (d & -> & A); [repeat constructor; lia|].
  cbn [rbind]. eexists. split; [reflexivity|]. split; [rewrite map_length, seq_length; reflexivity|].
  intros x y Hx Hy. rewrite nth_map_seq by lia. rewrite Z2Nat.id by lia.
  destruct (A x y Hx Hy) as (A1 & _). rewrite A1 by (cbn; lia). rewrite cell_u16. unfold icon_pixel. cbv zeta.
  set (k := x / 8 + 3 * (y / 8)). unfold cell.
  replace (value + k * 16 + (y - y / 8 * 8)) with (value + 16 * k + y mod 8) by lia.
  replace (7 - (x - x / 8 * 8)) with (7 - x mod 8) by lia.
  pose proof (bit_at_01 mem (value + 16 * k + y mod 8) (7 - x mod 8)) as [-> | ->];
  pose proof (bit_at_01 mem (value + 16 * k + y mod 8 + 8) (7 - x mod 8)) as [-> | ->]; reflexivity.
Qed.

(** ** The title *)
Lemma line_end_ok img size stop : stop < size -> forall n ch, 0 <= ch -> stop - ch <= Z.of_nat n -> ch <= stop ->
  exists e, line_end n img size ch stop = Ok e /\ ch <= e <= stop /\ (forall k, ch <= k < e -> img k <> 10) /\ (e < stop -> img e = 10).
Proof.
  intros HS. induction n as [|n IH]; intros ch H0 HN HC; cbn [line_end].
  - destruct (ch <? stop) eqn:E; [lia|]. exists ch. split; [reflexivity|]. split; [lia|]. split; [intros; lia|lia].
  - destruct (ch <? stop) eqn:E; [|exists ch; split; [reflexivity|]; split; [lia|]; split; [intros; lia|lia]].
    unfold aget. rewrite in_bounds_true by lia. cbn [rbind]. destruct (img ch =? 10) eqn:E1.
    + exists ch. split; [reflexivity|]. split; [lia|]. split; [intros; lia|lia].
    + destruct (IH (ch + 1) ltac:(lia) ltac:(lia) ltac:(lia)) as (e & -> & A & B & C). exists e. split; [reflexivity|]. split; [lia|]. split; [|exact C].
      intros k Hk. destruct (Z.eq_dec k ch) as [->|N]; [lia|apply B; lia].
Qed.
Definition bytes_at (img : arr) (a : Z) (n : nat) : list Z := map (fun k => img (a + Z.of_nat k)) (seq 0 n).
Lemma bytes_at_nth img a n k : (k < n)%nat -> nth k (bytes_at img a n) 0 = img (a + Z.of_nat k).
Proof. intros L. unfold bytes_at. rewrite nth_map_seq by exact L. reflexivity. Qed.
Lemma bytes_at_length img a n : length (bytes_at img a n) = n.
Proof. unfold bytes_at. rewrite map_length, seq_length. reflexivity. Qed.

(** What the metadata say. *)
Definition titled (img : arr) (limit start : Z) (mem : arr) (shown : list Z * list (list Z)) : Prop :=
  exists z, first_zero img (start + 1) limit z /\ first_line img (start + 1) z (fst shown) /\
  Forall2 (is_icon mem) (if (z + 2 <? limit) && (z + 2 + 3 * img (z + 1) <=? limit) then icon_values img (z + 2) (Z.to_nat (img (z + 1))) else []) (snd shown).

Lemma icons_ok img size mem m junk limit start : 0 <= start -> limit <= size -> (forall i, 0 <= i < size -> is_byte (img i)) ->
  describes img limit start (view m) -> (md_ext m = None -> md_num_ext m = 0) -> md_content m <> None ->
  forall n i, 0 <= i -> i + Z.of_nat n = md_num_ext m ->
  exists l, icons img size mem m junk n i = Ok l /\
  match md_ext m with
  | Some e => Forall2 (is_icon mem) (concat (map (fun i => let p := e + 3 * Z.of_nat i in if img p =? 131 then [256 * img (p + 1) + img (p + 2)] else []) (seq (Z.to_nat i) n))) l
  | None => l = [] /\ n = O
  end.
Proof.
  intros H0 HL HB HD HX HC. induction n as [|n IH]; intros i Hi Hn; cbn [icons].
  - exists []. split; [reflexivity|]. destruct (md_ext m); [constructor|auto].
  - rewrite (get_ext_spec img size limit start m i H0 HL HB HD HX HC Hi). destruct (md_ext m) as [e|] eqn:E; [|rewrite HX in Hn by reflexivity; lia].
    destruct (i <? md_num_ext m) eqn:L; [|lia]. cbn [rbind].
    destruct (IH (i + 1) ltac:(lia) ltac:(lia)) as (l & -> & F).
    replace (Z.to_nat (i + 1)) with (S (Z.to_nat i)) in F by lia. cbn [seq map concat]. rewrite Z2Nat.id by exact Hi. cbv zeta.
    destruct (img (e + 3 * i) =? 131).
    + destruct (icon_ok mem (256 * img (e + 3 * i + 1) + img (e + 3 * i + 2)) junk) as (p & -> & P). cbn [rbind].
      eexists. split; [reflexivity|]. constructor; [exact P|exact F].
    + cbn [rbind]. eexists. split; [reflexivity|]. exact F.
Qed.

Lemma metadata_ok img size mem m junk limit start content : 0 <= start -> limit <= size -> size < 2147483648 -> (forall i, 0 <= i < size -> is_byte (img i)) ->
  describes img limit start (view m) -> (md_ext m = None -> md_num_ext m = 0) -> md_content m = Some content ->
  exists x, apply_metadata img size mem m junk = Ok x /\ titled img limit start mem x.
Proof.
  intros H0 HL HS HB HD HX HC.
  assert (NC : md_content m <> None) by (rewrite HC; discriminate).
  assert (BI : forall n, n = Z.to_nat (md_num_ext m) -> Z.of_nat n = md_num_ext m \/ md_num_ext m < 0) by lia.
  unfold apply_metadata. rewrite HC. pose proof HD as HD0. unfold view in HD0. rewrite HC in HD0. cbn [describes] in HD0.
  destruct HD0 as (z & Z1 & _ & C1 & L1 & EX). subst content. rewrite L1. destruct Z1 as (Zr & Z0 & ZN).
  replace (start + 1 + (z - (start + 1))) with z by lia.
  destruct (line_end_ok img size z ltac:(lia) (Z.to_nat (z - (start + 1))) (start + 1) ltac:(lia) ltac:(lia) ltac:(lia)) as (e & -> & E1 & E2 & E3).
  cbn [rbind]. unfold aget at 1. rewrite in_bounds_true by lia. cbn [rbind]. unfold aset at 1. rewrite in_bounds_true by lia. cbn [rbind].
  set (n := Z.to_nat (e - (start + 1))).
  assert (T : c_string (Z.to_nat size) size (upd img e 0) (start + 1) = Ok (bytes_at img (start + 1) n)).
  { rewrite (c_string_ok size (upd img e 0) (bytes_at img (start + 1) n)); rewrite ?bytes_at_length; [|lia|lia|lia| |].
    - f_equal. apply up_to_zero_id. intros X. unfold bytes_at in X. apply in_map_iff in X. destruct X as (k & X & Hk). apply in_seq in Hk. apply (ZN (start + 1 + Z.of_nat k)); [lia|exact X].
    - intros k Hk. rewrite upd_ne by lia. rewrite bytes_at_nth by exact Hk. reflexivity.
    - replace (start + 1 + Z.of_nat n) with e by lia. apply upd_eq. }
  rewrite T. cbn [rbind]. unfold aset. rewrite in_bounds_true by lia. cbn [rbind].
  assert (NN : 0 <= md_num_ext m).
  { destruct (md_ext m); [|rewrite HX by reflexivity; lia]. destruct EX as ((_ & EX & _) & _ & EN). lia. }
  destruct (icons_ok img size mem m junk limit start H0 HL HB HD HX NC (Z.to_nat (md_num_ext m)) 0 ltac:(lia) ltac:(lia)) as (l & -> & F).
  cbn [rbind]. eexists. split; [reflexivity|]. exists z. split; [split; [exact Zr|split; assumption]|]. cbn [fst snd]. split.
  - split; [rewrite bytes_at_length; lia|]. rewrite bytes_at_length. split.
    + intros k Hk. rewrite bytes_at_nth by exact Hk. split; [reflexivity|]. split; [apply E2; lia|apply ZN; lia].
    + intros X. left. replace (start + 1 + Z.of_nat n) with e by lia. apply E3. lia.
  - unfold ext_fit in EX. destruct (md_ext m) as [ex|] eqn:ME.
    + destruct EX as ((X1 & X2 & X3) & X4 & X5). subst ex. replace ((z + 2 <? limit) && (z + 2 + 3 * img (z + 1) <=? limit)) with true by lia. unfold icon_values. rewrite <- X5. exact F.
    + destruct F as (-> & _). destruct ((z + 2 <? limit) && (z + 2 + 3 * img (z + 1) <=? limit)) eqn:EF; [|constructor].
      assert (X : img (z + 1) <= 0) by lia. replace (Z.to_nat (img (z + 1))) with O by lia. constructor.
Qed.

(** ** Loading *)
Lemma put_app m a l1 l2 j : put (put m a l1) (a + Z.of_nat (length l1)) l2 j = put m a (l1 ++ l2) j.
Proof.
  unfold put. rewrite app_length, Nat2Z.inj_add.
  destruct ((a + Z.of_nat (length l1) <=? j) && (j <? a + Z.of_nat (length l1) + Z.of_nat (length l2))) eqn:E1.
  - replace ((a <=? j) && (j <? a + (Z.of_nat (length l1) + Z.of_nat (length l2)))) with true by lia. rewrite app_nth2 by lia. f_equal. lia.
  - destruct ((a <=? j) && (j <? a + Z.of_nat (length l1))) eqn:E2.
    + replace ((a <=? j) && (j <? a + (Z.of_nat (length l1) + Z.of_nat (length l2)))) with true by lia. rewrite app_nth1 by lia. reflexivity.
    + replace ((a <=? j) && (j <? a + (Z.of_nat (length l1) + Z.of_nat (length l2)))) with false by lia. reflexivity.
Qed.
Lemma put_ext m m' a l j : (forall j, m j = m' j) -> put m a l j = put m' a l j.
Proof. intros E. unfold put. destruct (_ && _); auto. Qed.
Definition filled (chunks : list (list Z)) : Z := Z.of_nat (length (concat chunks)).
Lemma filled_cons c chunks : filled (c :: chunks) = Z.of_nat (length c) + filled chunks.
Proof. unfold filled. cbn [concat]. rewrite app_length. lia. Qed.
Lemma filled_nonneg chunks : 0 <= filled chunks.
Proof. unfold filled. lia. Qed.
Lemma read_rom_ok rest msize : forall chunks m pos left last, Forall (fun c => c <> []) chunks -> 0 <= pos -> left = msize - pos ->
  filled chunks <= left ->
  exists m' last', (forall j, m' j = put m pos (concat chunks) j) /\ (chunks = [] -> last' = last) /\ (chunks <> [] -> last' > 0) /\
  read_rom (map Some chunks ++ rest) m msize pos left last = read_rom rest m' msize (pos + filled chunks) (left - filled chunks) last'.
Proof.
  induction chunks as [|c chunks IH]; intros m pos left last F HP HL HF.
  - exists m, last. split; [intros; rewrite put_nil; reflexivity|]. split; [reflexivity|]. split; [congruence|]. unfold filled. cbn. rewrite Z.add_0_r, Z.sub_0_r. reflexivity.
  - inversion F as [|? ? NC F']; subst. rewrite filled_cons in *. pose proof (filled_nonneg chunks).
    assert (LC : 0 < Z.of_nat (length c)) by (destruct c; [congruence|cbn; lia]).
    cbn [map app read_rom]. destruct (msize - pos >? 0) eqn:E1; [|lia]. destruct (Z.of_nat (length c) >? 0) eqn:E2; [|lia].
    destruct (put_bytes_spec c m msize pos HP ltac:(lia)) as (m1 & -> & P1). cbn [rbind].
    destruct (IH m1 (pos + Z.of_nat (length c)) (msize - pos - Z.of_nat (length c)) (Z.of_nat (length c)) F' ltac:(lia) ltac:(lia) ltac:(lia)) as (m' & last' & P2 & L0 & L & E).
    exists m', last'. split; [|split; [discriminate|split]].
    + intros j. rewrite P2. rewrite (put_ext _ _ _ _ j P1). cbn [concat]. apply put_app.
    + intros _. destruct chunks; [rewrite L0 by reflexivity; lia|apply L; discriminate].
    + rewrite E, Z.add_assoc, Z.sub_add_distr. reflexivity.
Qed.

Lemma parse_none img size addr limit m : parse_internal img size addr limit = Ok m -> md_content m = None -> md_content_len m = 0.
Proof.
  unfold parse_internal. intros E N. destruct (aget size img addr); [|discriminate E]. cbn [rbind] in E.
  destruct (scan _ _ _ _ _) as [[z|]|]; [| |discriminate E]; cbn [rbind] in E; [|injection E as <-; reflexivity].
  destruct (if _ <? _ then _ else _) as [(ext, num)|]; [|discriminate E]. cbn [rbind] in E. injection E as <-. discriminate N.
Qed.

Section Load.
Variable H : Type.
Variable hs : host H.
Variable now : nat -> option tm.
Variable voices : nat -> Z -> voice.
Variable junk : arr.
Variable hi_first : bool.
Variables (kw kr : Z) (fuel : nat).
(** The emulator when the program starts: the console knows the arguments, and titles have been set. *)
Definition begun (argv : list (list Z)) (titles : list (list Z * list (list Z))) (g : gui H) : gui H :=
  mkGui (mkConsole argv (if argv then 0 else 1) (c_value (g_console g))) (g_mouse g) (g_controller g) (g_screen g) (g_bg g) (g_fg g) (g_out g) (g_err g)
    (g_log g) (g_shown g ++ titles) (g_reads g) (g_sent g) (g_files g) (g_theme g) (g_draws g).
(** The titles a ROM in memory asks for, from [size] bytes at 0x100. *)
Definition titles_of (mem : arr) (size : Z) (titles : list (list Z * list (list Z))) : Prop :=
  let rom i := mem (i + 256) in
  match titles with
  | [] => forall addr, rom_announces rom size addr -> rom (addr - 255) = 0 \/ forall j, addr - 255 <= j < size -> rom j <> 0
  | [x] => exists addr, rom_announces rom size addr /\ titled rom size (addr - 256) mem x
  | _ => False
  end.
Notation load := (load_boot_rom H hs now voices junk hi_first kw kr fuel).
Notation run := (run_vector H hs now voices junk hi_first kw kr fuel).
Notation send_args := (send_args_on H hs now voices junk hi_first kw kr fuel).

Lemma load_ok chunks argv v g :
  65536 <= vm_msize v < 2147483648 -> (forall i, 0 <= i < vm_msize v -> is_byte (vm_mem v i)) ->
  Forall (fun c => c <> []) chunks -> Forall is_byte (concat chunks) -> filled chunks < vm_msize v - 256 ->
  exists mem titles, (forall j, mem j = put (vm_mem v) 256 (concat chunks) j) /\ titles_of mem (vm_msize v - 256) titles /\
  load (map Some chunks) argv v g =
    Ok (Started _ (seq_ _ (run 256 (vm_set_mem v mem) (begun argv titles g)) (fun v g => send_args (length argv) v g))).
Proof.
  intros HS HB F FB HF. unfold load_boot_rom. pose proof (filled_nonneg chunks).
  destruct (read_rom_ok [] (vm_msize v) chunks (vm_mem v) 256 (vm_msize v - 256) 0 F ltac:(lia) eq_refl ltac:(lia)) as (m & last & P & _ & _ & E).
  rewrite app_nil_r in E. rewrite E. cbn [read_rom]. destruct (vm_msize v - 256 - filled chunks >? 0) eqn:E1; [|lia]. cbn [rbind]. change (0 <? 0) with false. cbv iota. replace ((vm_msize v - 256 - filled chunks =? 0) && (0 >? 0)) with false by lia.
  assert (MB : forall i, 0 <= i < vm_msize v -> is_byte (m i)).
  { intros i Hi. rewrite P. unfold put. destruct ((256 <=? i) && _) eqn:E2; [|apply HB; exact Hi].
    rewrite Forall_forall in FB. apply FB. apply nth_In. lia. }
  change (vm_msize (vm_set_mem v m)) with (vm_msize v).
  set (rom := fun i => m (i + 256)).
  assert (RB : forall i, 0 <= i < vm_msize v - 256 -> is_byte (rom i)) by (intros i Hi; apply MB; lia).
  assert (CI : console_init argv (c_value (g_console g)) = mkConsole argv (if argv then 0 else 1) (c_value (g_console g))).
  { unfold console_init. destruct argv; [reflexivity|]. replace (0 <? Z.of_nat (length (l :: argv))) with true by (cbn [length]; lia). reflexivity. }
  assert (BG : set_console H g (console_init argv (c_value (g_console g))) = begun argv [] g).
  { unfold set_console, begun. rewrite CI, app_nil_r. reflexivity. }
  destruct (rom_announces_dec rom (vm_msize v - 256)) as [(addr & A)|A].
  - rewrite (from_rom_some _ _ _ RB A).
    pose proof A as (_ & _ & _ & _ & _ & AE & AL). pose proof (RB 1 ltac:(lia)). pose proof (RB 2 ltac:(lia)). unfold is_byte in *.
    destruct (parse_spec rom (vm_msize v - 256) (addr - 256) (vm_msize v - 256) ltac:(lia) ltac:(lia) ltac:(lia) RB) as (md & EP & D & X). rewrite EP. cbn [rbind].
    destruct (negb (md_content_len md =? 0)) eqn:EL.
    + destruct (md_content md) as [content|] eqn:EC.
      2:{ rewrite (parse_none _ _ _ _ _ EP EC) in EL. discriminate EL. }
      destruct (metadata_ok rom (vm_msize v - 256) m md junk (vm_msize v - 256) (addr - 256) content ltac:(lia) ltac:(lia) ltac:(lia) RB D X EC) as (x & -> & T).
      cbn [rbind]. exists m, [x]. split; [exact P|]. split; [exists addr; auto|]. do 4 f_equal. unfold set_console, begun, add_shown. cbn. rewrite CI. reflexivity.
    + cbn [rbind]. exists m, []. split; [exact P|]. split; [|rewrite BG; reflexivity].
      intros addr' A'. assert (addr' = addr) by (destruct A' as (_ & _ & _ & _ & _ & Y & _); rewrite Y, AE; reflexivity). subst addr'.
      fold rom. unfold view in D. destruct (md_content md) as [content|]; cbn [describes] in D.
      * left. destruct D as (z & (Z1 & Z2 & _) & _ & _ & L & _). replace (addr - 255) with z by lia. exact Z2.
      * right. intros j Hj. apply D. lia.
  - rewrite (from_rom_none _ _ RB A). cbn [rbind]. change (negb (md_content_len NO_METADATA =? 0)) with false. cbv iota. cbn [rbind]. exists m, []. split; [exact P|]. split; [|rewrite BG; reflexivity].
    intros addr A'. destruct (A addr A').
Qed.
End Load.

(** A ROM smaller than the memory behind 0x100 is loaded there whole, however the
    reads cut it; the window gets the title and icon the ROM asks for; then the
    program runs from 0x100 with the arguments waiting. *)
Theorem C85_load :
  forall H hs now voices junk hi_first kw kr fuel chunks argv v (g : gui H),
  65536 <= vm_msize v < 2147483648 -> (forall i, 0 <= i < vm_msize v -> is_byte (vm_mem v i)) ->
  Forall (fun c => c <> []) chunks -> Forall is_byte (concat chunks) -> Z.of_nat (length (concat chunks)) < vm_msize v - 256 ->
  exists mem titles, (forall j, mem j = put (vm_mem v) 256 (concat chunks) j) /\ titles_of mem (vm_msize v - 256) titles /\
  load_boot_rom H hs now voices junk hi_first kw kr fuel (map Some chunks) argv v g =
    Ok (Started _ (seq_ _ (run_vector H hs now voices junk hi_first kw kr fuel 256 (vm_set_mem v mem) (begun H argv titles g))
      (fun v g => send_args_on H hs now voices junk hi_first kw kr fuel (length argv) v g))).
Proof. exact load_ok. Qed.
Print Assumptions C85_load.

(** A failing read stops the start, whatever was read before. *)
Theorem C85_read_error :
  forall H hs now voices junk hi_first kw kr fuel chunks rest argv v (g : gui H), 256 < vm_msize v ->
  Forall (fun c => c <> []) chunks -> Z.of_nat (length (concat chunks)) < vm_msize v - 256 ->
  load_boot_rom H hs now voices junk hi_first kw kr fuel (map Some chunks ++ None :: rest) argv v g = Ok (ReadError _).
Proof.
  intros H hs now voices junk hf kw kr fuel chunks rest argv v g HS F HF. unfold load_boot_rom. fold (filled chunks) in HF.
  destruct (read_rom_ok (None :: rest) (vm_msize v) chunks (vm_mem v) 256 (vm_msize v - 256) 0 F ltac:(lia) eq_refl ltac:(lia)) as (m & last & _ & _ & _ & ->).
  cbn [read_rom]. destruct (vm_msize v - 256 - filled chunks >? 0) eqn:E1; [|lia]. reflexivity.
Qed.
Print Assumptions C85_read_error.

(** Reads that fill the memory are refused.  So a ROM that is too large never runs,
    but neither does one that fits exactly, although its first byte to its last
    have a place. *)
Theorem C85_full_refuted :
  forall H hs now voices junk hi_first kw kr fuel chunks rest argv v (g : gui H), 256 < vm_msize v ->
  Forall (fun c => c <> []) chunks -> Z.of_nat (length (concat chunks)) = vm_msize v - 256 ->
  load_boot_rom H hs now voices junk hi_first kw kr fuel (map Some chunks ++ rest) argv v g = Ok (TooLarge _).
Proof.
  intros H hs now voices junk hf kw kr fuel chunks rest argv v g HS F HF. unfold load_boot_rom. fold (filled chunks) in HF.
  destruct (read_rom_ok rest (vm_msize v) chunks (vm_mem v) 256 (vm_msize v - 256) 0 F ltac:(lia) eq_refl ltac:(lia)) as (m & last & _ & _ & L & ->).
  assert (L' : last > 0) by (apply L; intros ->; unfold filled in HF; cbn in HF; lia).
  replace (vm_msize v - 256 - filled chunks) with 0 by lia. destruct rest; cbn [read_rom Z.gtb Z.compare rbind]; (destruct (last <? 0) eqn:E; [lia|]); (destruct (last >? 0) eqn:E2; [reflexivity|lia]).
Qed.
Print Assumptions C85_full_refuted.

(** While a program runs, writing an address to System/metadata sets the title and
    icons described there, unless no zero ends the text; nothing else changes. *)
Theorem C85_metadata :
  forall H hs junk v (g : gui H), 65536 <= vm_msize v < 2147483648 -> (forall i, 0 <= i < vm_msize v -> is_byte (vm_mem v i)) ->
  (forall i, 0 <= i < 256 -> is_byte (vm_dev v i)) ->
  let addr := 256 * vm_dev v 6 + vm_dev v 7 in
  exists titles, gui_deo H hs junk 7 v g = Ok (v, mkGui (g_console g) (g_mouse g) (g_controller g) (g_screen g) (g_bg g) (g_fg g) (g_out g) (g_err g)
    (g_log g) (g_shown g ++ titles) (g_reads g) (g_sent g) (g_files g) (g_theme g) (g_draws g)) /\
  match titles with
  | [] => forall j, addr < j < 65535 -> vm_mem v j <> 0
  | [x] => titled (vm_mem v) 65535 addr (vm_mem v) x
  | _ => False
  end.
Proof.
  intros H hs junk v g HS HB HD. cbv zeta. unfold gui_deo. change (gui_deo_target 7) with System. unfold system_deo. cbn [Z.eqb Pos.eqb]. unfold gui_set_metadata.
  rewrite (port_word v 6) by (auto; lia). change (6 + 1) with 7. pose proof (HD 6 ltac:(lia)) as B6. pose proof (HD 7 ltac:(lia)) as B7. unfold is_byte in B6, B7.
  destruct (from_memory_spec v (256 * vm_dev v 6 + vm_dev v 7) HB HS ltac:(unfold is_short; lia)) as (m & -> & D & X). cbn [rbind].
  destruct (md_content m) as [content|] eqn:EC.
  - destruct (metadata_ok (vm_mem v) (vm_msize v) (vm_mem v) m junk 65535 (256 * vm_dev v 6 + vm_dev v 7) content ltac:(lia) ltac:(lia) ltac:(lia) HB D X EC) as (x & -> & T).
    cbn [rbind]. exists [x]. split; [reflexivity|exact T].
  - exists []. split; [rewrite app_nil_r; destruct g; reflexivity|]. unfold view in D. rewrite EC in D. exact D.
Qed.
Print Assumptions C85_metadata.

(** The window closes at the next frame when the low seven bits of System/state
    are not zero. *)
Theorem C85_quit :
  forall H hs now voices junk hi_first kw kr fuel polls finished n v (g : gui H), is_byte (vm_dev v 15) ->
  fst (frame H hs now voices junk hi_first kw kr fuel polls finished n v g) = true <-> vm_dev v 15 mod 128 <> 0.
Proof.
  intros H hs now voices junk hf kw kr fuel polls finished n v g B. cbn [frame fst]. unfold exit_code. change 127 with (Z.ones 7). rewrite Z.land_ones by lia. change (2 ^ 7) with 128.
  destruct (vm_dev v 15 =? 0) eqn:E; lia.
Qed.
Print Assumptions C85_quit.
(** So a program that ends with code 0, as the command-line emulator understands
    it, does not close the window. *)
Theorem C85_quit_refuted :
  exists code v g, run_vector unit no_host (fun _ => None) (fun _ _ => mkVoice 0 0 0 0 0 0 0 0 0 0 0 0 0 0 0) (fun _ => 0) true 0 0 100 256 (ex_prog code) ex_gui0 = Done _ v g /\
  exit_code v = 0 /\
  forall polls finished n g, fst (frame unit no_host (fun _ => None) (fun _ _ => mkVoice 0 0 0 0 0 0 0 0 0 0 0 0 0 0 0) (fun _ => 0) true 0 0 100 polls finished n v g) = false.
Proof.
  exists [128; 128; 128; 15; 23; 0]. eexists _, _. split; [vm_compute; reflexivity|]. split; [reflexivity|]. intros. cbn [frame fst]. reflexivity.
Qed.
Print Assumptions C85_quit_refuted.

(** A ROM with the title "Hi", a second line and an icon, in two reads; its own code
    sets the metadata again and ends. *)
Definition ex_rom : list Z := [160; 1; 7; 128; 6; 55; 0; 0; 72; 105; 10; 120; 0; 1; 131; 2; 0].
Example C85_case :
  match load_boot_rom unit no_host (fun _ => None) (fun _ _ => mkVoice 0 0 0 0 0 0 0 0 0 0 0 0 0 0 0) (fun _ => 7) true 0 0 100
          [Some (firstn 3 ex_rom); Some (skipn 3 ex_rom)] [] (ex_prog []) ex_gui0 with
  | Ok (Started _ (Done _ _ g)) => map (fun x => (fst x, length (snd x))) (g_shown g) = [([72; 105], 1%nat); ([72; 105], 1%nat)]
  | _ => False
  end.
Proof. vm_compute. reflexivity. Qed.

(** ** The console (C86) *)
Section Typing.
Variable H : Type.
Variable hs : host H.
Variable now : nat -> option tm.
Variable voices : nat -> Z -> voice.
Variable junk : arr.
Variable hi_first : bool.
Variables (kw kr : Z) (fuel : nat).
Notation run := (run_vector H hs now voices junk hi_first kw kr fuel).
(** The emulator while the console shows the byte [b] of type [t]. *)
Definition told (t b : Z) (g : gui H) : gui H :=
  mkGui (mkConsole (c_argv (g_console g)) t b) (g_mouse g) (g_controller g) (g_screen g) (g_bg g) (g_fg g) (g_out g) (g_err g)
    (g_log g) (g_shown g) (g_reads g) (g_sent g) (g_files g) (g_theme g) (g_draws g).
(** One run of the console vector for every event, in order. *)
Fixpoint typing (es : list (Z * Z)) (v : vm) (g : gui H) : outcome (gui H) :=
  match es with
  | [] => Done _ v g
  | (t, b) :: es =>
      match run (vector v 16) v (told t b g) with
      | Done _ v' g' => typing es v' g'
      | o => o
      end
  end.
(** The events of reads from the standard input, up to its end. *)
Fixpoint input_events (polls : list (option (list Z))) : list (Z * Z) :=
  match polls with
  | [] => []
  | None :: _ => [(4, 0)]
  | Some cs :: rest => map (fun c => (1, c mod 256)) cs ++ input_events rest
  end.
(** The same outcome, up to the arguments that are left to send. *)
Definition same_but_args (g g' : gui H) : Prop :=
  exists argv, g = mkGui (mkConsole argv (c_type (g_console g')) (c_value (g_console g'))) (g_mouse g') (g_controller g') (g_screen g') (g_bg g') (g_fg g') (g_out g') (g_err g')
    (g_log g') (g_shown g') (g_reads g') (g_sent g') (g_files g') (g_theme g') (g_draws g').
Definition same_outcome (o o' : outcome (gui H)) : Prop :=
  match o, o' with
  | Done _ v g, Done _ v' g' => v = v' /\ same_but_args g g'
  | Crash _ f, Crash _ f' => f = f'
  | OutOfFuel _, OutOfFuel _ => True
  | _, _ => False
  end.

Lemma vector_eq v : dev_load2 v 16 = vector v 16.
Proof. reflexivity. Qed.
Lemma send_told t b v g : 0 <= t < 256 -> gui_send_data H hs now voices junk hi_first kw kr fuel t b v g = run (vector v 16) v (told t (b mod 256) g).
Proof. intros T. unfold gui_send_data. rewrite vector_eq. unfold u8. rewrite (Z.mod_small t) by exact T. reflexivity. Qed.
Lemma typing_app es es' v g : typing (es ++ es') v g = seq_ _ (typing es v g) (typing es').
Proof. revert v g. induction es as [|(t, b) es IH]; intros v g; cbn [app typing]; [reflexivity|]. destruct (run _ _ _); cbn [seq_]; auto. Qed.
Lemma send_all_typing cs : forall v g, send_all H hs now voices junk hi_first kw kr fuel cs v g = typing (map (fun c => (1, c mod 256)) cs) v g.
Proof.
  induction cs as [|c cs IH]; intros v g; cbn [send_all map typing]; [reflexivity|]. rewrite send_told by lia.
  destruct (run _ _ _); cbn [seq_]; auto.
Qed.
Lemma input_typing polls : forall v g, console_input H hs now voices junk hi_first kw kr fuel polls v g = typing (input_events polls) v g.
Proof.
  induction polls as [|[cs|] polls IH]; intros v g; cbn [console_input input_events]; [reflexivity| |].
  - rewrite typing_app, send_all_typing. destruct (typing _ v g); cbn [seq_]; auto.
  - rewrite send_told by lia. cbn [typing]. change (0 mod 256) with 0. destruct (run _ _ _); reflexivity.
Qed.

Lemma hosts_args : hosts_related _ _ same_but_args (gui_dei H now voices) (gui_deo H hs junk) (gui_dei H now voices) (gui_deo H hs junk).
Proof.
  split; intros a v w g Ha (argv & ->); destruct g as [[ar ty va] mo co sc bg fg ou er lo sh re se fi th dr]; cbn [g_console g_mouse g_controller g_screen g_bg g_fg g_out g_err g_log g_shown g_reads g_sent g_files g_theme g_draws c_type c_value].
  - unfold gui_dei. destruct (gui_dei_target a); cbn [g_console g_mouse g_controller g_screen g_bg g_fg g_out g_err g_log g_shown g_reads g_sent g_files g_theme g_draws].
    all: try (split; [reflexivity|]; split; [reflexivity|]; exists argv; reflexivity).
    + destruct (screen_dei v sc a) as [(b, s)|]; cbn [rbind]; [|reflexivity]. split; [reflexivity|]. split; [reflexivity|]. exists argv. unfold put_screen. cbn. destruct (_ && _); reflexivity.
    + destruct (audio_dei _ _ _ _) as [((b, u), c)|]; cbn [rbind]; [|reflexivity]. split; [reflexivity|]. split; [reflexivity|]. exists argv; reflexivity.
    + destruct (cli_dei _ _ _ _ _) as [((b, u), c)|]; cbn [rbind]; [|reflexivity]. split; [reflexivity|]. split; [reflexivity|]. exists argv; reflexivity.
    + destruct (cli_dei _ _ _ _ _) as [((b, u), c)|]; cbn [rbind]; [|reflexivity]. split; [reflexivity|]. split; [reflexivity|]. exists argv; reflexivity.
  - unfold gui_deo. destruct (gui_deo_target a); cbn [g_console g_mouse g_controller g_screen g_bg g_fg g_out g_err g_log g_shown g_reads g_sent g_files g_theme g_draws].
    all: try (split; [reflexivity|]; exists argv; reflexivity).
    + unfold system_deo. repeat match goal with |- context [if ?b then _ else _] => destruct b end.
      all: try (split; [reflexivity|]; exists argv; reflexivity).
      * destruct (expansion v); cbn [rbind]; [|reflexivity]. split; [reflexivity|]; exists argv; reflexivity.
      * unfold gui_set_metadata. destruct (parse_from_memory _ _) as [m|]; cbn [rbind]; [|reflexivity]. destruct (md_content m); [|split; [reflexivity|]; exists argv; reflexivity].
        destruct (apply_metadata _ _ _ _ _); cbn [rbind]; [|reflexivity]. split; [reflexivity|]; exists argv; reflexivity.
    + unfold console_deo, gui_write, gui_error. destruct (a =? 24); [|destruct (a =? 25)]; cbn [g_out g_err g_log].
      * destruct (putc _ _) as [(b, l)|]; cbn [rbind]; [|reflexivity]. split; [reflexivity|]; exists argv; reflexivity.
      * destruct (putc _ _) as [(b, l)|]; cbn [rbind]; [|reflexivity]. split; [reflexivity|]; exists argv; reflexivity.
      * split; [reflexivity|]; exists argv; reflexivity.
    + destruct (screen_deo v sc a) as [s|]; cbn [rbind]; [|reflexivity]. split; [reflexivity|]. exists argv. unfold put_screen. cbn. destruct (_ && _); reflexivity.
    + destruct (audio_deo _ _ _); split; try reflexivity; exists argv; reflexivity.
    + destruct (cli_deo _ _ _ _ _) as [(u, c)|]; cbn [rbind]; [|reflexivity]. split; [reflexivity|]; exists argv; reflexivity.
Qed.
Lemma run_args pc v g g' : same_but_args g g' -> same_outcome (run pc v g) (run pc v g').
Proof. intros S. exact (execute_related _ _ _ _ _ _ _ hi_first hosts_args fuel kw kr pc v g g' S). Qed.
Lemma told_args t b g g' : same_but_args g g' -> same_but_args (told t b g) (told t b g').
Proof. intros (argv & ->). exists argv. reflexivity. Qed.
Lemma same_refl g : same_but_args g g.
Proof. exists (c_argv (g_console g)). destruct g as [[? ? ?] ? ? ? ? ? ? ? ? ? ? ? ? ? ?]. reflexivity. Qed.
Lemma typing_args es : forall v g g', same_but_args g g' -> same_outcome (typing es v g) (typing es v g').
Proof.
  induction es as [|(t, b) es IH]; intros v g g' S; cbn [typing]; [split; auto|].
  pose proof (run_args (vector v 16) v _ _ (told_args t b _ _ S)) as R.
  destruct (run _ v (told t b g)), (run _ v (told t b g')); cbn in R; try contradiction; auto. destruct R as (<- & R). auto.
Qed.

Lemma run_console pc v g v' g' : run pc v g = Done _ v' g' -> g_console g' = g_console g.
Proof.
  apply (execute_keeps _ _ _ (fun x => g_console x = g_console g)); [| |reflexivity].
  - intros a u w b u' w' _ <- E. unfold gui_dei in E. destruct (gui_dei_target a).
    all: try (injection E as <- <- <-; reflexivity).
    + destruct (screen_dei _ _ _) as [(b0, s)|]; [|discriminate E]. cbn [rbind] in E. apply (f_equal (fun r => match r with Ok (_, _, x) => x | _ => w end)) in E. cbv beta iota in E. subst w'.
      unfold add_draw, put_screen. cbn. destruct (_ && _); reflexivity.
    + destruct (audio_dei _ _ _ _) as [((b0, u0), c)|]; [|discriminate E]. cbn [rbind] in E. injection E as <- <- <-. reflexivity.
    + destruct (cli_dei _ _ _ _ _) as [((b0, u0), c)|]; [|discriminate E]. cbn [rbind] in E. injection E as <- <- <-. reflexivity.
    + destruct (cli_dei _ _ _ _ _) as [((b0, u0), c)|]; [|discriminate E]. cbn [rbind] in E. injection E as <- <- <-. reflexivity.
  - intros a u w u' w' _ <- E. unfold gui_deo in E. destruct (gui_deo_target a).
    all: try (injection E as <- <-; reflexivity).
    + unfold system_deo in E. repeat match type of E with (if ?b then _ else _) = _ => destruct b end.
      all: try (injection E as <- <-; reflexivity).
      * destruct (expansion u); [|discriminate E]. cbn [rbind] in E. injection E as <- <-. reflexivity.
      * unfold gui_set_metadata in E. destruct (parse_from_memory _ _) as [m|]; [|discriminate E]. cbn [rbind] in E.
        destruct (md_content m); [|injection E as <- <-; reflexivity].
        destruct (apply_metadata _ _ _ _ _); [|discriminate E]. cbn [rbind] in E. injection E as <- <-. reflexivity.
    + unfold console_deo, gui_write, gui_error in E. destruct (a =? 24); [|destruct (a =? 25)].
      * destruct (putc _ _) as [(b, l)|]; [|discriminate E]. cbn [rbind] in E. injection E as <- <-. reflexivity.
      * destruct (putc _ _) as [(b, l)|]; [|discriminate E]. cbn [rbind] in E. injection E as <- <-. reflexivity.
      * injection E as <- <-. reflexivity.
    + destruct (screen_deo _ _ _) as [s|]; [|discriminate E]. cbn [rbind] in E. apply (f_equal (fun r => match r with Ok (_, x) => x | _ => w end)) in E. cbv beta iota in E. subst w'.
      unfold add_draw, put_screen. cbn. destruct (_ && _); reflexivity.
    + destruct (audio_deo _ _ _); injection E as <- <-; reflexivity.
    + destruct (cli_deo _ _ _ _ _) as [(u0, c)|]; [|discriminate E]. cbn [rbind] in E. injection E as <- <-. reflexivity.
Qed.
Lemma typing_argv es : forall v g v' g', typing es v g = Done _ v' g' -> c_argv (g_console g') = c_argv (g_console g).
Proof.
  induction es as [|(t, b) es IH]; intros v g v' g' E; cbn [typing] in E; [congruence|].
  destruct (run _ v (told t b g)) as [v1 g1| |] eqn:R; [|discriminate E|discriminate E].
  rewrite (IH _ _ _ _ E). rewrite (run_console _ _ _ _ _ R). reflexivity.
Qed.
Lemma send_chars_typing a rest : forall arg v g, ~ In 0 arg -> c_argv (g_console g) = a :: rest ->
  gui_send_chars H hs now voices junk hi_first kw kr fuel arg v g =
  typing (map (fun ch => (2, ch mod 256)) arg ++ [(if rest then 4 else 3, 10)]) v g.
Proof.
  induction arg as [|ch arg IH]; intros v g N A.
  - cbn [gui_send_chars map app typing]. rewrite A. destruct rest as [|b rest].
    + cbn [length Z.of_nat Pos.of_succ_nat Z.eqb Pos.eqb]. rewrite send_told by lia. change (10 mod 256) with 10. destruct (run _ _ _); reflexivity.
    + replace (Z.of_nat (length (a :: b :: rest)) =? 1) with false by (cbn [length]; lia). rewrite send_told by lia. change (10 mod 256) with 10. destruct (run _ _ _); reflexivity.
  - cbn [gui_send_chars map app typing]. replace (ch =? 0) with false by (cbn in N; lia). cbn [negb]. rewrite send_told by lia.
    destruct (run (vector v 16) v (told 2 (ch mod 256) g)) as [v1 g1| |] eqn:R; cbn [seq_]; [|reflexivity|reflexivity].
    apply IH; [intros X; apply N; right; exact X|]. rewrite (run_console _ _ _ _ _ R). exact A.
Qed.
Lemma same_but_args_trans g1 g2 g3 : same_but_args g1 g2 -> same_but_args g2 g3 -> same_but_args g1 g3.
Proof. intros (a & ->) (b & ->). exists a. reflexivity. Qed.
Lemma same_outcome_trans o1 o2 o3 : same_outcome o1 o2 -> same_outcome o2 o3 -> same_outcome o1 o3.
Proof.
  destruct o1, o2, o3; cbn; try tauto; try congruence. intros (-> & A) (-> & B). split; [reflexivity|]. eapply same_but_args_trans; eauto.
Qed.
Lemma args_typing : forall argv v g, Forall (fun a => ~ In 0 a) argv -> c_argv (g_console g) = argv ->
  same_outcome (send_args_on H hs now voices junk hi_first kw kr fuel (length argv) v g) (typing (arg_events argv) v g).
Proof.
  induction argv as [|a argv IH]; intros v g F A.
  - cbn [length send_args_on arg_events typing]. rewrite A. split; [reflexivity|apply same_refl].
  - inversion F as [|? ? NA F']; subst. cbn [length send_args_on]. rewrite A. rewrite (send_chars_typing a argv a v g NA A).
    assert (AE : arg_events (a :: argv) = (map (fun ch => (2, ch mod 256)) a ++ [(if argv then 4 else 3, 10)]) ++ arg_events argv).
    { cbn [arg_events]. rewrite <- app_assoc. destruct argv; reflexivity. }
    rewrite AE. set (es := map _ a ++ _). rewrite (typing_app es (arg_events argv)). destruct (typing es v g) as [v1 g1| |] eqn:T; cbn [seq_]; [|cbn; auto|cbn; auto].
    pose proof (typing_argv _ _ _ _ _ T) as A1.
    set (g2 := set_console H g1 (mkConsole (tl (c_argv (g_console g1))) (c_type (g_console g1)) (c_value (g_console g1)))).
    assert (S2 : same_but_args g2 g1) by (exists (tl (c_argv (g_console g1))); reflexivity).
    assert (A2 : c_argv (g_console g2) = argv) by (unfold g2; cbn; rewrite A1, A; reflexivity).
    eapply same_outcome_trans; [exact (IH v1 g2 F' A2)|apply typing_args; exact S2].
Qed.
End Typing.

(** After the reset vector, the program gets the arguments: the bytes of each as
    events of type 2, a newline of type 3 between two and of type 4 at the end. *)
Theorem C86_args :
  forall H hs now voices junk hi_first kw kr fuel argv v (g : gui H), Forall (fun a => ~ In 0 a) argv -> c_argv (g_console g) = argv ->
  same_outcome H (send_args_on H hs now voices junk hi_first kw kr fuel (length argv) v g) (typing H hs now voices junk hi_first kw kr fuel (arg_events argv) v g).
Proof. exact args_typing. Qed.
Print Assumptions C86_args.
(** So the whole start is: reset vector, then those events. *)
Theorem C86_start :
  forall H hs now voices junk hi_first kw kr fuel chunks argv v (g : gui H),
  65536 <= vm_msize v < 2147483648 -> (forall i, 0 <= i < vm_msize v -> is_byte (vm_mem v i)) ->
  Forall (fun c => c <> []) chunks -> Forall is_byte (concat chunks) -> Z.of_nat (length (concat chunks)) < vm_msize v - 256 ->
  Forall (fun a => ~ In 0 a) argv ->
  exists mem titles o, (forall j, mem j = put (vm_mem v) 256 (concat chunks) j) /\ titles_of mem (vm_msize v - 256) titles /\
  load_boot_rom H hs now voices junk hi_first kw kr fuel (map Some chunks) argv v g = Ok (Started _ o) /\
  same_outcome H o (match run_vector H hs now voices junk hi_first kw kr fuel 256 (vm_set_mem v mem) (begun H argv titles g) with
                    | Done _ v' g' => typing H hs now voices junk hi_first kw kr fuel (arg_events argv) v' g'
                    | o => o
                    end).
Proof.
  intros H hs now voices junk hf kw kr fuel chunks argv v g HS HB F FB HF FA.
  destruct (C85_load H hs now voices junk hf kw kr fuel chunks argv v g HS HB F FB HF) as (mem & titles & P & T & E).
  exists mem, titles. eexists. split; [exact P|]. split; [exact T|]. split; [exact E|].
  destruct (run_vector _ _ _ _ _ _ _ _ _ 256 _ _) as [v1 g1| |] eqn:R; cbn [seq_]; [|cbn; auto|cbn; auto].
  apply C86_args; [exact FA|]. rewrite (run_console _ _ _ _ _ _ _ _ _ _ _ _ _ _ R). reflexivity.
Qed.
Print Assumptions C86_start.
(** In a frame every byte read is delivered once, in order, and the end of the
    input as an event of type 4. *)
Theorem C86_input :
  forall H hs now voices junk hi_first kw kr fuel polls v (g : gui H),
  console_input H hs now voices junk hi_first kw kr fuel polls v g = typing H hs now voices junk hi_first kw kr fuel (input_events polls) v g.
Proof. exact input_typing. Qed.
Print Assumptions C86_input.

(** A program that echoes what it is told: vector 0x108 reads type and byte. *)
Definition ex_echo : list Z := [160; 1; 7; 128; 16; 55; 0;  128; 18; 22; 128; 24; 23; 0].
Example C86_case :
  match load_boot_rom unit no_host (fun _ => None) (fun _ _ => mkVoice 0 0 0 0 0 0 0 0 0 0 0 0 0 0 0) (fun _ => 7) true 0 0 100
          [Some ex_echo] [[72; 105]; [121; 111]] (ex_prog []) ex_gui0 with
  | Ok (Started _ (Done _ v g)) =>
      g_log g = [(false, [72; 105]); (false, [121; 111])] /\
      match console_input unit no_host (fun _ => None) (fun _ _ => mkVoice 0 0 0 0 0 0 0 0 0 0 0 0 0 0 0) (fun _ => 7) true 0 0 100 [Some [97; 98]; Some [10]] v g with
      | Done _ _ g => g_log g = [(false, [72; 105]); (false, [121; 111]); (false, [97; 98])]
      | _ => False end
  | _ => False
  end.
Proof. vm_compute. split; reflexivity. Qed.
