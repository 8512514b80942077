(** C103: the buffer for the strings of a symbol file. *)
From Verif Require Import Base BufModel SymtabModel.
From Coq Require Import ZifyBool.
Open Scope list_scope.
Ltac Zify.zify_post_hook ::= Z.div_mod_to_equations.

(** ** Specification *)
(** The buffer exists, in the lower half of the address space and not at its very end. *)
Definition object (base total : Z) : Prop := 0 < base /\ 0 <= total /\ base + total < 9223372036854775807.
(** A string of C at [a]. *)
Definition string_at (m : arr) (a : Z) (s : list Z) : Prop :=
  (forall k, (k < length s)%nat -> m (a + Z.of_nat k) = nth k s 0) /\ m (a + Z.of_nat (length s)) = 0.
(** The places of strings that lie one behind the other from [a] on. *)
Fixpoint places (a : Z) (l : list (list Z)) : list Z :=
  match l with [] => [] | s :: l => a :: places (a + Z.of_nat (length s) + 1) l end.
(** What they take, with their final zeros. *)
Definition space (l : list (list Z)) : Z := fold_right (fun s n => Z.of_nat (length s) + 1 + n) 0 l.
(** A blob with all its bytes. *)
Definition blob (s : list Z) : Z * list Z := (Z.of_nat (length s), s).
(** A blob of a stream: no more bytes than its length says, which has 64 bits. *)
Definition proper (b : Z * list Z) : Prop := Z.of_nat (length (snd b)) <= fst b < 18446744073709551616.

(** ** One allocation *)
Lemma u64_small x : 0 <= x < 18446744073709551616 -> u64 x = x.
Proof. intros. unfold u64. apply Z.mod_small. lia. Qed.
Lemma s64_small x : 0 <= x < 9223372036854775808 -> s64 x = x.
Proof. intros. unfold s64. rewrite u64_small by lia. destruct (x <? 9223372036854775808) eqn:E; lia. Qed.
Lemma int64_ok x : -9223372036854775808 <= x < 9223372036854775808 -> int64 x = Ok x.
Proof. intros. unfold int64. destruct ((_ <=? x) && (x <=? _)) eqn:E; [reflexivity|lia]. Qed.
Lemma int64_bad x : 9223372036854775808 <= x -> int64 x = Fault (SignedOverflow x).
Proof. intros. unfold int64. destruct ((_ <=? x) && (x <=? _)) eqn:E; [lia|reflexivity]. Qed.

Section Facts.
Variables base total : Z.
Hypothesis OBJ : object base total.

Lemma align_one p : Z.land p (- s64 1) = p.
Proof. rewrite s64_small by lia. apply Z.land_m1_r. Qed.

(** From a buffer whose rest is at [p]. *)
Lemma alloc_spec p room len : base <= p -> 0 <= room -> p + room <= base + total -> 0 <= len -> p + len + 1 < 9223372036854775808 ->
  buf_alloc (mkBuf p room) (u64 (len + 1)) 1 = Ok (if len + 1 <=? room then Some (p, mkBuf (p + len + 1) (room - (len + 1))) else None).
Proof.
  intros B R E L F. destruct OBJ as (O1 & O2 & O3). unfold buf_alloc. cbn [t_mem t_size].
  rewrite (s64_small 1) by lia. rewrite (int64_ok (p + 1)) by lia. cbn [rbind]. rewrite (int64_ok (p + 1 - 1)) by lia. cbn [rbind].
  rewrite Z.land_m1_r. replace (p + 1 - 1) with p by lia. rewrite (u64_small (len + 1)), (s64_small (len + 1)), (s64_small room) by lia.
  rewrite (int64_ok (p + (len + 1))), (int64_ok (p + room)) by lia. cbn [rbind].
  destruct (p + (len + 1) <=? p + room) eqn:X; destruct (len + 1 <=? room) eqn:Y; try lia; [|reflexivity].
  rewrite (int64_ok (p + (len + 1) - p)) by lia. cbn [rbind]. rewrite (u64_small (p + (len + 1) - p)) by lia. rewrite u64_small by lia.
  do 2 f_equal. f_equal. f_equal; lia.
Qed.
Lemma store_ok m a v : base <= a < base + total -> store base total m a v = Ok (upd m a v).
Proof. intros. unfold store, in_bounds. destruct ((0 <=? a - base) && (a - base <? total)) eqn:E; [reflexivity|lia]. Qed.
Lemma store_all_ok bytes : forall m a, base <= a -> a + Z.of_nat (length bytes) <= base + total ->
  exists m', store_all base total m a bytes = Ok m' /\ (forall k, (k < length bytes)%nat -> m' (a + Z.of_nat k) = nth k bytes 0) /\
    forall x, x < a \/ a + Z.of_nat (length bytes) <= x -> m' x = m x.
Proof.
  induction bytes as [|b bytes IH]; intros m a A E.
  - exists m. split; [reflexivity|]. split; [intros k K; cbn in K; lia|auto].
  - cbn [length] in E. cbn [store_all]. rewrite store_ok by lia. cbn [rbind]. destruct (IH (upd m a b) (a + 1) ltac:(lia) ltac:(lia)) as (m' & ST & N & O).
    exists m'. split; [exact ST|]. split.
    + intros [|k] K; cbn [nth]; [rewrite O by lia; unfold upd; destruct (a + Z.of_nat 0 =? a) eqn:X; lia|].
      cbn [length] in K. replace (a + Z.of_nat (S k)) with (a + 1 + Z.of_nat k) by lia. apply N. lia.
    + intros x X. cbn [length] in X. rewrite O by lia. unfold upd. destruct (x =? a) eqn:Y; [lia|reflexivity].
Qed.

(** Strings that fit. *)
Lemma space_nonneg l : 0 <= space l.
Proof. induction l as [|s l IH]; cbn; [lia|]. unfold space in IH. lia. Qed.
Lemma read_fit rest : forall l p room m, base <= p -> 0 <= room -> p + room = base + total -> space l <= room ->
  exists m1, read_strings base total (map blob l ++ rest) (mkBuf p room) m =
    rbind (read_strings base total rest (mkBuf (p + space l) (room - space l)) m1) (fun '(r, m) =>
      Ok (match r with Strings ptrs => Strings (places p l ++ ptrs) | r => r end, m)) /\
    Forall2 (string_at m1) (places p l) l /\ forall x, x < p \/ p + space l <= x -> m1 x = m x.
Proof.
  induction l as [|s l IH]; intros p room m B R E S.
  - cbn [space fold_right map app] in *. exists m. split; [|split; [constructor|auto]]. replace (p + 0) with p by lia. replace (room - 0) with room by lia.
    destruct (read_strings _ _ rest _ m) as [[[ptrs| |] m2]|f]; reflexivity.
  - cbn [space fold_right] in S. fold (space l) in S. pose proof (space_nonneg l) as SN. destruct OBJ as (O1 & O2 & O3).
    cbn [map app read_strings blob]. unfold alloc_str. rewrite alloc_spec by lia. destruct (Z.of_nat (length s) + 1 <=? room) eqn:X; [|lia]. cbn [rbind].
    rewrite store_ok by lia. cbn [rbind]. destruct (store_all_ok s (upd m (p + Z.of_nat (length s)) 0) p ltac:(lia) ltac:(lia)) as (m2 & S2 & N2 & F2). rewrite S2. cbn [rbind].
    rewrite Z.ltb_irrefl. destruct (IH (p + Z.of_nat (length s) + 1) (room - (Z.of_nat (length s) + 1)) m2 ltac:(lia) ltac:(lia) ltac:(lia) ltac:(lia)) as (m1 & E1 & A1 & F1).
    exists m1. split; [|split].
    + rewrite E1. clear E1. cbn [space fold_right]. fold (space l). replace (p + Z.of_nat (length s) + 1 + space l) with (p + (Z.of_nat (length s) + 1 + space l)) by lia.
      replace (room - (Z.of_nat (length s) + 1) - space l) with (room - (Z.of_nat (length s) + 1 + space l)) by lia.
      destruct (read_strings _ _ rest _ m1) as [[[ptrs| |] m3]|f]; reflexivity.
    + cbn [places]. constructor; [|exact A1]. split.
      * intros k K. rewrite F1 by lia. apply N2, K.
      * rewrite F1 by lia. rewrite F2 by lia. unfold upd. rewrite Z.eqb_refl. reflexivity.
    + intros x X2. cbn [space fold_right] in X2. fold (space l) in X2. rewrite F1 by lia. rewrite F2 by lia. unfold upd. destruct (x =? _) eqn:Y; [lia|reflexivity].
Qed.
End Facts.

(** ** C103 *)
(** One block: the first aligned place, if the block fits there; the buffer goes on
    behind it. *)
Theorem C103_alloc : forall mem room size k, 0 < mem -> 0 <= room -> 0 <= size -> 0 <= k < 63 -> mem + room + size + 2 ^ k < 9223372036854775808 ->
  exists a, mem <= a < mem + 2 ^ k /\ a mod 2 ^ k = 0 /\
  buf_alloc (mkBuf mem room) size (2 ^ k) = Ok (if a + size <=? mem + room then Some (a, mkBuf (a + size) (mem + room - (a + size))) else None).
Proof.
  intros mem room size k M R S K L. assert (P : 0 < 2 ^ k) by (apply Z.pow_pos_nonneg; lia).
  set (x := mem + 2 ^ k - 1). assert (A : Z.land x (- 2 ^ k) = x - x mod 2 ^ k).
  { assert (D : x = Z.land x (- 2 ^ k) + Z.land x (Z.ones k)).
    { rewrite Z.add_nocarry_lxor; apply Z.bits_inj'; intros n N; rewrite ?Z.lxor_spec, ?Z.land_spec, ?Z.bits_0, Z.bits_opp, Z.testbit_ones_nonneg by lia;
      rewrite <- Z.ones_equiv, Z.testbit_ones_nonneg by lia; destruct (Z.testbit x n), (n <? k); reflexivity. }
    rewrite Z.land_ones in D by lia. lia. }
  pose proof (Z.mod_pos_bound x (2 ^ k) P) as B. exists (x - x mod 2 ^ k). split; [unfold x in *; lia|]. split; [rewrite Zminus_mod_idemp_r, Z.sub_diag; reflexivity|].
  unfold buf_alloc. cbn [t_mem t_size]. rewrite (s64_small (2 ^ k)), (s64_small size), (s64_small room) by lia. rewrite (int64_ok (mem + 2 ^ k)) by lia. cbn [rbind].
  rewrite (int64_ok (mem + 2 ^ k - 1)) by lia. cbn [rbind]. fold x. rewrite A. set (a := x - x mod 2 ^ k) in *. assert (HA : mem <= a < mem + 2 ^ k) by (unfold a, x in *; lia).
  rewrite (int64_ok (a + size)), (int64_ok (mem + room)) by lia. cbn [rbind]. destruct (a + size <=? mem + room) eqn:E; [|reflexivity].
  rewrite (int64_ok (a + size - mem)) by lia. cbn [rbind]. rewrite (u64_small (a + size - mem)), u64_small by lia. do 4 f_equal. lia.
Qed.
Print Assumptions C103_alloc.

(** Strings that fit are stored one behind the other, each whole and with its zero,
    and nothing else changes. *)
Theorem C103_fit : forall base total l m, object base total -> space l <= total ->
  exists m', read_strings base total (map blob l) (mkBuf base total) m = Ok (Strings (places base l), m') /\
    Forall2 (string_at m') (places base l) l /\ forall x, x < base \/ base + space l <= x -> m' x = m x.
Proof.
  intros base total l m O S. pose proof O as (O1 & O2 & O3). destruct (read_fit base total O [] l base total m ltac:(lia) ltac:(lia) eq_refl S) as (m1 & E & A & F).
  rewrite app_nil_r in E. exists m1. split; [|auto]. rewrite E. cbn. rewrite app_nil_r. reflexivity.
Qed.
Print Assumptions C103_fit.

(** The first string that does not fit makes the file malformed, and nothing is
    stored outside, if its length leaves the end of the string an address. *)
Theorem C103_no_room : forall base total l b rest m, object base total -> space l <= total -> proper b -> total < space l + fst b + 1 ->
  base + space l + fst b + 1 < 9223372036854775808 ->
  exists m', read_strings base total (map blob l ++ b :: rest) (mkBuf base total) m = Ok (Malformed, m') /\
    forall x, x < base \/ base + total <= x -> m' x = m x.
Proof.
  intros base total l [len bytes] rest m O S P N L. pose proof O as (O1 & O2 & O3). unfold proper in P; cbn [fst snd] in *.
  destruct (read_fit base total O ((len, bytes) :: rest) l base total m ltac:(lia) ltac:(lia) eq_refl S) as (m1 & E & A & F).
  pose proof (space_nonneg l). exists m1. split; [|intros x X; apply F; lia]. rewrite E. cbn [read_strings]. unfold alloc_str. rewrite (alloc_spec base total O) by lia.
  destruct (len + 1 <=? total - space l) eqn:X; [lia|]. reflexivity.
Qed.
Print Assumptions C103_no_room.

(** A string whose bytes are not all there is an error of the stream. *)
Theorem C103_cut : forall base total l b rest m, object base total -> proper b -> space l + fst b + 1 <= total -> Z.of_nat (length (snd b)) < fst b ->
  exists m', read_strings base total (map blob l ++ b :: rest) (mkBuf base total) m = Ok (IoError, m') /\
    forall x, x < base \/ base + total <= x -> m' x = m x.
Proof.
  intros base total l [len bytes] rest m O P S C. pose proof O as (O1 & O2 & O3). unfold proper in P; cbn [fst snd] in *.
  destruct (read_fit base total O ((len, bytes) :: rest) l base total m ltac:(lia) ltac:(lia) eq_refl ltac:(lia)) as (m1 & E & A & F).
  pose proof (space_nonneg l). rewrite E. cbn [read_strings]. unfold alloc_str. rewrite (alloc_spec base total O) by lia.
  destruct (len + 1 <=? total - space l) eqn:X; [|lia]. cbn [rbind]. rewrite (store_ok base total) by lia. cbn [rbind].
  destruct (store_all_ok base total bytes (upd m1 (base + space l + len) 0) (base + space l) ltac:(lia) ltac:(lia)) as (m2 & S2 & _ & F2). rewrite S2. cbn [rbind].
  destruct (Z.of_nat (length bytes) <? len) eqn:Y; [|lia]. exists m2. split; [reflexivity|]. intros x Q. rewrite F2 by lia. unfold upd. destruct (x =? _) eqn:Z0; [lia|]. apply F; lia.
Qed.
Print Assumptions C103_cut.

(** A larger length is not refused: the check overflows, or it passes and the final
    zero is stored far outside the buffer. *)
Theorem C103_huge_length_refuted : forall base total l len bytes rest m, object base total -> space l <= total -> proper (len, bytes) ->
  9223372036854775808 <= base + space l + len + 1 ->
  read_strings base total (map blob l ++ (len, bytes) :: rest) (mkBuf base total) m =
  Fault (if len <? 9223372036854775807 then SignedOverflow (base + space l + (len + 1)) else OobWrite (space l + len)).
Proof.
  intros base total l len bytes rest m O S P L. pose proof O as (O1 & O2 & O3). unfold proper in P; cbn [fst snd] in *.
  destruct (read_fit base total O ((len, bytes) :: rest) l base total m ltac:(lia) ltac:(lia) eq_refl S) as (m1 & E & _ & _).
  pose proof (space_nonneg l). rewrite E. clear E. cbn [read_strings]. unfold alloc_str, buf_alloc. cbn [t_mem t_size].
  rewrite (s64_small 1) by lia. rewrite (int64_ok (base + space l + 1)) by lia. cbn [rbind]. rewrite (int64_ok (base + space l + 1 - 1)) by lia. cbn [rbind].
  rewrite Z.land_m1_r. replace (base + space l + 1 - 1) with (base + space l) by lia.
  destruct (len <? 9223372036854775807) eqn:C.
  - rewrite (u64_small (len + 1)), (s64_small (len + 1)) by lia. rewrite int64_bad by lia. reflexivity.
  - assert (I : s64 (u64 (len + 1)) = len + 1 - 18446744073709551616).
    { unfold s64, u64. destruct (Z.eq_dec len 18446744073709551615) as [->|NE]; [reflexivity|]. rewrite (Z.mod_small (len + 1)) by lia. rewrite (Z.mod_small (len + 1)) by lia. destruct (len + 1 <? _) eqn:Q; lia. }
    rewrite I, (s64_small (total - space l)) by lia. rewrite (int64_ok (base + space l + (len + 1 - 18446744073709551616))) by lia. cbn [rbind].
    rewrite (int64_ok (base + space l + (total - space l))) by lia. cbn [rbind].
    destruct (_ <=? base + space l + (total - space l)) eqn:Q; [|lia]. rewrite int64_ok by lia. cbn [rbind].
    unfold store, in_bounds. destruct ((0 <=? base + space l + len - base) && (base + space l + len - base <? total)) eqn:W; [lia|]. cbn [rbind]. do 2 f_equal. lia.
Qed.
Print Assumptions C103_huge_length_refuted.

(** The abstract reader of SymtabModel takes exactly the strings that are stored. *)
Theorem C103_symtab : forall base total l m, object base total -> Forall (fun s => base + total + Z.of_nat (length s) + 1 < 9223372036854775808) l ->
  match read_strings base total (map blob l) (mkBuf base total) m with
  | Ok (Strings ptrs, m') => get_strings (length l) total (map SvBlob l) = SOk l /\ Forall2 (string_at m') ptrs l
  | Ok (Malformed, _) => get_strings (length l) total (map SvBlob l) = SMalformed
  | _ => False
  end.
Proof.
  intros base total l m O LL. destruct (Z_le_gt_dec (space l) total) as [S|S].
  - destruct (C103_fit base total l m O S) as (m' & -> & A & _). split; [|exact A]. clear - S. revert total S. induction l as [|s l IH]; intros total S; [reflexivity|].
    cbn [space fold_right] in S. fold (space l) in S. pose proof (space_nonneg l). cbn [length map get_strings]. destruct (Z.of_nat (length s) + 1 <=? total) eqn:X; [|lia]. rewrite IH by lia. reflexivity.
  - assert (K : exists a s b, l = a ++ s :: b /\ space a <= total /\ total < space a + Z.of_nat (length s) + 1).
    { destruct O as (_ & O & _). clear - S O. revert total S O. induction l as [|s l IH]; intros total S O; [cbn in S; lia|].
      cbn [space fold_right] in S. fold (space l) in S. destruct (Z_le_gt_dec (Z.of_nat (length s) + 1) total) as [T|T].
      - destruct (IH (total - (Z.of_nat (length s) + 1)) ltac:(lia) ltac:(lia)) as (a & s' & b & -> & A1 & A2). exists (s :: a), s', b. split; [reflexivity|]. cbn [space fold_right]. fold (space a). lia.
      - exists [], s, l. split; [reflexivity|]. cbn [space fold_right]. lia. }
    destruct K as (a & s & b & -> & A1 & A2). apply Forall_app in LL as [_ LL]. inversion LL as [|? ? LS _]; subst.
    destruct (C103_no_room base total a (blob s) (map blob b) m O A1) as (m' & E & _); cbn [blob fst]; [unfold proper; cbn; destruct O; lia|lia|lia|].
    rewrite map_app. cbn [map]. rewrite E. clear - A1 A2. revert total A1 A2. induction a as [|x a IH]; intros total A1 A2.
    + cbn [space fold_right] in A2. cbn [app length map get_strings]. destruct (Z.of_nat (length s) + 1 <=? total) eqn:X; [lia|reflexivity].
    + cbn [space fold_right] in A1, A2. fold (space a) in A1, A2. pose proof (space_nonneg a). cbn [app length map get_strings]. destruct (Z.of_nat (length x) + 1 <=? total) eqn:X; [|lia]. rewrite IH by lia. reflexivity.
Qed.
Print Assumptions C103_symtab.

(** Two strings in a buffer of seven bytes, one too many, and a length of 2^64 - 1. *)
Example C103_case :
  object 4096 7 /\ buf_alloc (mkBuf 4097 20) 5 (2 ^ 3) = Ok (Some (4104, mkBuf 4109 8)) /\
  (exists m', read_strings 4096 7 (map blob [[97; 98]; [99; 100; 101]]) (mkBuf 4096 7) (fun _ => 9) = Ok (Strings [4096; 4099], m') /\
     map m' [4095; 4096; 4097; 4098; 4099; 4100; 4101; 4102; 4103] = [9; 97; 98; 0; 99; 100; 101; 0; 9]) /\
  rmap fst (read_strings 4096 7 (map blob [[97; 98]; [99; 100; 101]; []]) (mkBuf 4096 7) (fun _ => 9)) = Ok Malformed /\
  rmap fst (read_strings 4096 7 [(18446744073709551615, [97])] (mkBuf 4096 7) (fun _ => 9)) = Fault (OobWrite 18446744073709551615).
Proof. split; [unfold object; lia|]. split; [reflexivity|]. split; [eexists; vm_compute; auto|]. vm_compute. auto. Qed.
