(** Property C104: the hash of a string and the string pool (src/asm/chibihash64.h,
    src/asm/asm.c:720-760).

    The hash is described on lists of bytes with arithmetic modulo 2^64, without
    pointers and shifts. *)
From Verif Require Import Base HamtModel HamtProofs HashModel.
From Coq Require Import ZifyBool.
Ltac Zify.zify_post_hook ::= Z.div_mod_to_equations.

(** ** Description of the hash (version 2 of ChibiHash) *)
Definition W : Z := 2 ^ 64.
Definition little (bs : list Z) : Z := fold_right (fun b v => b + 256 * v) 0 bs.
(** [x] turned left by [n] of 64 bits *)
Definition turn (n x : Z) : Z := x * 2 ^ n mod W + x / 2 ^ (64 - n).
Definition K : Z := 3133965575612453543.
Definition state : Type := (Z * Z * Z * Z)%type.

Definition initial (seed : Z) : state :=
  let s := (turn 15 ((seed - K) mod W) + turn 47 ((seed - K) mod W)) mod W in
  (seed, (seed + K) mod W, s, (s + Z.lxor (K * K mod W) K) mod W).
(** 32 bytes, as four numbers *)
Definition absorb32 (st : state) (bs : list Z) : state :=
  let '(a, b, c, d) := st in
  let n i := little (firstn 8 (skipn (8 * i) bs)) in
  (((n 0%nat + a) * K + turn 27 (n 3%nat)) mod W, (n 1%nat + b + turn 27 (n 0%nat)) * K mod W,
   (n 2%nat + c + turn 27 (n 1%nat)) * K mod W, (n 3%nat + d + turn 27 (n 2%nat)) * K mod W).
Definition absorb8 (st : state) (bs : list Z) : state :=
  let '(a, b, c, d) := st in
  (Z.lxor a (little (firstn 4 bs)) * K mod W, Z.lxor b (little (firstn 4 (skipn 4 bs))) * K mod W, c, d).
(** fewer than 8 bytes *)
Definition absorb_rest (st : state) (bs : list Z) : state :=
  let '(a, b, c, d) := st in
  match bs with
  | [] => st
  | [x] => (a, b, Z.lxor c x, Z.lxor d (x + 256 * x))
  | [x; y] => (a, b, Z.lxor c x, Z.lxor d (y + 256 * y))
  | [x; y; z] => (a, b, Z.lxor c x, Z.lxor d (y + 256 * z))
  | _ => (a, b, Z.lxor c (little (firstn 4 bs)), Z.lxor d (little (skipn (length bs - 4) bs)))
  end.
Definition result (seed : Z) (n : Z) (st : state) : Z :=
  let '(a, b, c, d) := st in
  let a := (a + Z.lxor (turn 31 (c * K mod W)) (c / 2 ^ 31)) * K mod W in
  let a := Z.lxor a (a / 2 ^ 31) in
  let b := (b + Z.lxor (turn 31 (d * K mod W)) (d / 2 ^ 31) + a) mod W in
  let x := n * K mod W in
  let x := Z.lxor ((Z.lxor x (turn 29 x) + seed) mod W) b in
  let x := Z.lxor x (Z.lxor (turn 15 x) (turn 42 x)) * K mod W in
  Z.lxor x (Z.lxor (turn 13 x) (turn 31 x)).
(** The whole blocks of [k] bytes at the front of a string *)
Fixpoint blocks (k n : nat) (bs : list Z) : list (list Z) :=
  match n with O => [] | S n' => firstn k bs :: blocks k n' (skipn k bs) end.
Definition hash_of (seed : Z) (bs : list Z) : Z :=
  let n := length bs in
  let st := fold_left absorb32 (blocks 32 (n / 32) bs) (initial seed) in
  let bs' := skipn (32 * (n / 32)) bs in
  let st := fold_left absorb8 (blocks 8 (length bs' / 8) bs') st in
  result seed (Z.of_nat n) (absorb_rest st (skipn (8 * (length bs' / 8)) bs')).

(** The bytes at [a] *)
Fixpoint bytes_at (m : arr) (a : Z) (n : nat) : list Z := match n with O => [] | S n' => m a :: bytes_at m (a + 1) n' end.
Example hash_case : hash_of 0 [] = 15345626772875061500 /\ hash_of 0 [104; 105] = 10576805608285437356 /\
  hash_of 7 (map Z.of_nat (seq 0 100)) = 12409949200687365135.
Proof. vm_compute. auto. Qed.

(** ** Bit operations *)
Lemma lor_disjoint v w i : 0 <= i -> 0 <= v < 2 ^ i -> 0 <= w -> Z.lor v (Z.shiftl w i) = v + w * 2 ^ i.
Proof.
  intros Hi Hv Hw. rewrite Z.shiftl_mul_pow2 by exact Hi. assert (L : Z.land v (w * 2 ^ i) = 0).
  { apply Z.bits_inj'. intros n Hn. rewrite Z.bits_0, Z.land_spec. destruct (Z_lt_dec n i).
    - rewrite (Z.mul_pow2_bits_low w i n) by lia. apply andb_false_r.
    - replace (Z.testbit v n) with false; [reflexivity|]. symmetry. destruct (Z.eq_dec v 0) as [->|]; [apply Z.bits_0|].
      apply Z.bits_above_log2; [lia|]. apply Z.log2_lt_pow2; [lia|]. apply Z.lt_le_trans with (2 ^ i); [lia|]. apply Z.pow_le_mono_r; lia. }
  rewrite <- Z.lxor_lor by exact L. now rewrite <- Z.add_nocarry_lxor.
Qed.
Lemma W_eq : W = 18446744073709551616. Proof. reflexivity. Qed.
Lemma u64_mod x : u64 x = x mod W. Proof. reflexivity. Qed.
Lemma rotl_turn x n : 0 < n < 64 -> 0 <= x < W -> rotl x n = turn n x.
Proof.
  intros Hn Hx. unfold rotl, turn. rewrite u64_mod.
  replace (Z.land (- n) 63) with (64 - n).
  2:{ change 63 with (Z.ones 6). rewrite Z.land_ones by lia. change (2 ^ 6) with 64. symmetry. replace (- n) with (64 - n + (-1) * 64) by lia. rewrite Z_mod_plus_full. apply Z.mod_small. lia. }
  rewrite Z.shiftr_div_pow2, Z.shiftl_mul_pow2 by lia.
  assert (E : x * 2 ^ n mod W = (x mod 2 ^ (64 - n)) * 2 ^ n).
  { unfold W. replace 64 with (64 - n + n) at 1 by lia. rewrite Z.pow_add_r by lia. rewrite Z.mul_mod_distr_r; [reflexivity| |]; apply Z.pow_nonzero; lia. }
  rewrite E. rewrite Z.lor_comm. rewrite <- (Z.shiftl_mul_pow2 (x mod 2 ^ (64 - n))) by lia. rewrite lor_disjoint; [rewrite Z.shiftl_mul_pow2 by lia; lia|lia| |].
  - split; [apply Z.div_pos; [lia|apply Z.pow_pos_nonneg; lia]|]. apply Z.div_lt_upper_bound; [apply Z.pow_pos_nonneg; lia|]. rewrite <- Z.pow_add_r by lia. replace (64 - n + n) with 64 by lia. unfold W in Hx. lia.
  - apply Z.mod_pos_bound. apply Z.pow_pos_nonneg; lia.
Qed.
Lemma mod_W x : 0 <= x mod W < W. Proof. apply Z.mod_pos_bound. rewrite W_eq. lia. Qed.
Lemma turn_range n x : 0 < n < 64 -> 0 <= x < W -> 0 <= turn n x < W.
Proof.
  intros Hn Hx. unfold turn.
  assert (E : x * 2 ^ n mod W = (x mod 2 ^ (64 - n)) * 2 ^ n).
  { unfold W. replace 64 with (64 - n + n) at 1 by lia. rewrite Z.pow_add_r by lia. rewrite Z.mul_mod_distr_r; [reflexivity| |]; apply Z.pow_nonzero; lia. }
  rewrite E. assert (P : W = 2 ^ (64 - n) * 2 ^ n) by (unfold W; rewrite <- Z.pow_add_r by lia; f_equal; lia).
  assert (0 < 2 ^ n) by (apply Z.pow_pos_nonneg; lia). assert (0 < 2 ^ (64 - n)) by (apply Z.pow_pos_nonneg; lia).
  assert (M := Z.mod_pos_bound x (2 ^ (64 - n)) ltac:(lia)).
  assert (D : 0 <= x / 2 ^ (64 - n) < 2 ^ n). { split; [apply Z.div_pos; lia|]. apply Z.div_lt_upper_bound; lia. }
  split; [nia|]. rewrite P. nia.
Qed.
Lemma lxor_range x y : 0 <= x < W -> 0 <= y < W -> 0 <= Z.lxor x y < W.
Proof.
  intros Hx Hy. split; [apply Z.lxor_nonneg; lia|]. unfold W in *.
  destruct (Z.eq_dec (Z.lxor x y) 0) as [->|N]; [lia|]. apply Z.log2_lt_pow2; [assert (0 <= Z.lxor x y) by (apply Z.lxor_nonneg; lia); lia|].
  eapply Z.le_lt_trans; [apply Z.log2_lxor; lia|]. apply Z.max_lub_lt.
  - destruct (Z.eq_dec x 0) as [->|]; [cbn; lia|]. apply Z.log2_lt_pow2; lia.
  - destruct (Z.eq_dec y 0) as [->|]; [cbn; lia|]. apply Z.log2_lt_pow2; lia.
Qed.

(** ** Reading *)
Lemma bytes_length m n : forall a, length (bytes_at m a n) = n.
Proof. induction n as [|n IH]; intros a; cbn [bytes_at length]; [|rewrite IH]; reflexivity. Qed.
Lemma bytes_skipn m k : forall n a, (k <= n)%nat -> skipn k (bytes_at m a n) = bytes_at m (a + Z.of_nat k) (n - k).
Proof.
  induction k as [|k IH]; intros n a L; [cbn [skipn Z.of_nat]; rewrite Z.add_0_r, Nat.sub_0_r; reflexivity|].
  destruct n as [|n]; [lia|]. cbn [bytes_at skipn Nat.sub]. rewrite IH by lia. f_equal. lia.
Qed.
Lemma bytes_firstn m k : forall n a, (k <= n)%nat -> firstn k (bytes_at m a n) = bytes_at m a k.
Proof. induction k as [|k IH]; intros n a L; [reflexivity|]. destruct n as [|n]; [lia|]. cbn [bytes_at firstn]. f_equal. apply IH. lia. Qed.
Lemma bytes_move m c n : forall a, bytes_at (fun i => m (c + i)) a n = bytes_at m (c + a) n.
Proof. induction n as [|n IH]; intros a; [reflexivity|]. cbn [bytes_at]. f_equal. rewrite IH. f_equal. lia. Qed.
Lemma bytes_forall (P : Z -> Prop) m n : forall a, (forall i, a <= i < a + Z.of_nat n -> P (m i)) -> Forall P (bytes_at m a n).
Proof. induction n as [|n IH]; intros a H; cbn [bytes_at]; constructor; [apply H; lia|]. apply IH. intros i Hi. apply H. lia. Qed.
Lemma bytes_ext m m' n : forall a a', (forall i, 0 <= i < Z.of_nat n -> m (a + i) = m' (a' + i)) -> bytes_at m a n = bytes_at m' a' n.
Proof.
  induction n as [|n IH]; intros a a' H; [reflexivity|]. cbn [bytes_at]. f_equal.
  - specialize (H 0 ltac:(lia)). rewrite !Z.add_0_r in H. exact H.
  - apply IH. intros i Hi. specialize (H (i + 1) ltac:(lia)). replace (a + 1 + i) with (a + (i + 1)) by lia. replace (a' + 1 + i) with (a' + (i + 1)) by lia. exact H.
Qed.

Section Hashing.
Variables (len : Z) (s : arr).
Hypothesis Hb : forall i, 0 <= i < len -> is_byte (s i).

Lemma get_ok i : 0 <= i < len -> aget len s i = Ok (s i).
Proof. intros H. unfold aget, in_bounds. replace ((0 <=? i) && (i <? len)) with true by lia. reflexivity. Qed.
Lemma load32_ok p : 0 <= p -> p + 4 <= len -> load32 len s p = Ok (little (bytes_at s p 4)) /\ 0 <= little (bytes_at s p 4) < 2 ^ 32.
Proof.
  intros H0 H1. unfold load32. rewrite !get_ok by lia. cbn [rbind bytes_at little fold_right].
  replace (p + 1 + 1) with (p + 2) by lia. replace (p + 2 + 1) with (p + 3) by lia.
  assert (A := Hb p ltac:(lia)). assert (B := Hb (p + 1) ltac:(lia)). assert (C := Hb (p + 2) ltac:(lia)). assert (D := Hb (p + 3) ltac:(lia)).
  unfold is_byte in *. change (2 ^ 32) with 4294967296. split; [|lia]. f_equal. unfold u64. rewrite !Z.shiftl_mul_pow2 by lia.
  rewrite !Z.mod_small by lia. rewrite <- (Z.shiftl_mul_pow2 (s (p + 1))), <- (Z.shiftl_mul_pow2 (s (p + 2))), <- (Z.shiftl_mul_pow2 (s (p + 3))) by lia.
  change (2 ^ 0) with 1. rewrite (lor_disjoint (s p * 1) _ 8) by (change (2 ^ 8) with 256; lia). change (2 ^ 8) with 256.
  rewrite (lor_disjoint _ _ 16) by (change (2 ^ 16) with 65536; lia). change (2 ^ 16) with 65536.
  rewrite (lor_disjoint _ _ 24) by (change (2 ^ 24) with 16777216; lia). change (2 ^ 24) with 16777216. lia.
Qed.
Lemma little_app a b : little (a ++ b) = little a + 256 ^ Z.of_nat (length a) * little b.
Proof.
  induction a as [|x a IH]; [cbn [app length]; change (256 ^ Z.of_nat 0) with 1; change (little []) with 0; lia|].
  cbn [app length]. change (little (x :: a ++ b)) with (x + 256 * little (a ++ b)). change (little (x :: a)) with (x + 256 * little a).
  rewrite IH. rewrite Nat2Z.inj_succ, Z.pow_succ_r by lia. ring.
Qed.
Lemma bytes_split m n k : forall a, bytes_at m a (n + k) = bytes_at m a n ++ bytes_at m (a + Z.of_nat n) k.
Proof.
  induction n as [|n IH]; intros a; [cbn [Nat.add bytes_at app Z.of_nat]; rewrite Z.add_0_r; reflexivity|].
  cbn [Nat.add bytes_at app]. rewrite IH. do 2 f_equal. f_equal. lia.
Qed.
Lemma load64_ok p : 0 <= p -> p + 8 <= len -> load64 len s p = Ok (little (bytes_at s p 8)) /\ 0 <= little (bytes_at s p 8) < W.
Proof.
  intros H0 H1. unfold load64. destruct (load32_ok p) as [-> A]; [lia|lia|]. destruct (load32_ok (p + 4)) as [-> B]; [lia|lia|]. cbn [rbind].
  change 8%nat with (4 + 4)%nat. rewrite bytes_split, little_app, bytes_length. change (Z.of_nat 4) with 4.
  change (256 ^ 4) with 4294967296. change (2 ^ 32) with 4294967296 in *. rewrite W_eq. split; [|nia].
  f_equal. unfold u64. rewrite Z.shiftl_mul_pow2 by lia. change (2 ^ 32) with 4294967296. rewrite Z.mod_small by nia.
  change 4294967296 with (2 ^ 32) at 1. rewrite <- Z.shiftl_mul_pow2 by lia. rewrite lor_disjoint by lia. change (2 ^ 32) with 4294967296. lia.
Qed.

Definition holds (h : arr) (st : state) : Prop :=
  let '(a, b, c, d) := st in h 0 = a /\ h 1 = b /\ h 2 = c /\ h 3 = d /\ 0 <= a < W /\ 0 <= b < W /\ 0 <= c < W /\ 0 <= d < W.

Lemma stripes_ok p h st : 0 <= p -> p + 32 <= len -> holds h st ->
  exists h', stripes len s 4 0 p h = Ok h' /\ holds h' (absorb32 st (bytes_at s p 32)).
Proof.
  intros H0 H1 HH. destruct st as [[[a b] c] d]. destruct HH as (A & B & C & D & RA & RB & RC & RD). cbn [stripes].
  destruct (load64_ok p) as [-> L0]; [lia|lia|]. cbn [rbind]. change (0 + 1) with 1. change (1 + 1) with 2. change (2 + 1) with 3. change (3 + 1) with 4.
  destruct (load64_ok (p + 8)) as [-> L1]; [lia|lia|]. cbn [rbind].
  destruct (load64_ok (p + 8 + 8)) as [-> L2]; [lia|lia|]. cbn [rbind].
  destruct (load64_ok (p + 8 + 8 + 8)) as [-> L3]; [lia|lia|]. cbn [rbind].
  change (Z.land 1 3) with 1. change (Z.land 2 3) with 2. change (Z.land 3 3) with 3. change (Z.land 4 3) with 0.
  eexists. split; [reflexivity|]. unfold absorb32.
  change (8 * 0)%nat with 0%nat. change (8 * 1)%nat with 8%nat. change (8 * 2)%nat with 16%nat. change (8 * 3)%nat with 24%nat.
  rewrite !bytes_skipn by lia. rewrite !bytes_firstn by lia.
  change (Z.of_nat 0) with 0. change (Z.of_nat 8) with 8. change (Z.of_nat 16) with 16. change (Z.of_nat 24) with 24. rewrite Z.add_0_r.
  replace (p + 8 + 8 + 8) with (p + 24) in * by lia. replace (p + 8 + 8) with (p + 16) in * by lia.
  set (n0 := little (bytes_at s p 8)) in *. set (n1 := little (bytes_at s (p + 8) 8)) in *. set (n2 := little (bytes_at s (p + 16) 8)) in *. set (n3 := little (bytes_at s (p + 24) 8)) in *.
  rewrite !rotl_turn by lia. unfold holds, upd. cbn [Z.eqb Pos.eqb]. rewrite A, B, C, D. rewrite !u64_mod. change HASH_K with K.
  repeat split; try apply mod_W.
  - rewrite Z.mul_mod_idemp_l by (rewrite W_eq; lia). rewrite Z.add_mod_idemp_l by (rewrite W_eq; lia). reflexivity.
  - rewrite Z.mul_mod_idemp_l by (rewrite W_eq; lia). rewrite <- Z.mul_mod_idemp_l by (rewrite W_eq; lia). rewrite Z.add_mod_idemp_r by (rewrite W_eq; lia). rewrite Z.mul_mod_idemp_l by (rewrite W_eq; lia). f_equal. f_equal. lia.
  - rewrite Z.mul_mod_idemp_l by (rewrite W_eq; lia). rewrite <- Z.mul_mod_idemp_l by (rewrite W_eq; lia). rewrite Z.add_mod_idemp_r by (rewrite W_eq; lia). rewrite Z.mul_mod_idemp_l by (rewrite W_eq; lia). f_equal. f_equal. lia.
  - rewrite Z.mul_mod_idemp_l by (rewrite W_eq; lia). rewrite <- Z.mul_mod_idemp_l by (rewrite W_eq; lia). rewrite Z.add_mod_idemp_r by (rewrite W_eq; lia). rewrite Z.mul_mod_idemp_l by (rewrite W_eq; lia). f_equal. f_equal. lia.
Qed.

Lemma loop32_ok q : forall n p h st fuel, (n / 32 = q)%nat -> (q <= fuel)%nat -> 0 <= p -> p + Z.of_nat n = len -> holds h st ->
  exists h', loop32 fuel len s (Z.of_nat n) p h = Ok (Z.of_nat (n - 32 * q), p + Z.of_nat (32 * q), h') /\
    holds h' (fold_left absorb32 (blocks 32 q (bytes_at s p n)) st).
Proof.
  induction q as [|q IH]; intros n p h st fuel Q F P L HH.
  - exists h. assert (n < 32)%nat by (apply Nat.div_small_iff; lia). cbn [blocks fold_left]. split; [|exact HH].
    destruct fuel; cbn [loop32]; replace (Z.of_nat n >=? 32) with false by lia; do 2 f_equal; [f_equal; lia|f_equal; lia].
  - destruct fuel as [|fuel]; [lia|]. assert (32 <= n)%nat by (destruct (le_lt_dec 32 n) as [X|X]; [exact X|apply Nat.div_small in X; lia]).
    assert (Q' : ((n - 32) / 32 = q)%nat).
    { replace n with (n - 32 + 1 * 32)%nat in Q by lia. rewrite Nat.div_add in Q by lia. lia. }
    cbn [loop32]. replace (Z.of_nat n >=? 32) with true by lia.
    destruct (stripes_ok p h st) as (h1 & -> & H1); [lia|lia|exact HH|]. cbn [rbind].
    replace (Z.of_nat n - 32) with (Z.of_nat (n - 32)) by lia.
    destruct (IH (n - 32)%nat (p + 32) h1 _ fuel Q' ltac:(lia) ltac:(lia) ltac:(lia) H1) as (h2 & -> & H2).
    exists h2. split; [do 2 f_equal; [f_equal; lia]|]. cbn [blocks fold_left]. rewrite bytes_firstn, bytes_skipn by lia. exact H2.
Qed.
Lemma loop8_ok q : forall n p h st fuel, (n / 8 = q)%nat -> (q <= fuel)%nat -> 0 <= p -> p + Z.of_nat n = len -> holds h st ->
  exists h', loop8 fuel len s (Z.of_nat n) p h = Ok (Z.of_nat (n - 8 * q), p + Z.of_nat (8 * q), h') /\
    holds h' (fold_left absorb8 (blocks 8 q (bytes_at s p n)) st).
Proof.
  induction q as [|q IH]; intros n p h st fuel Q F P L HH.
  - exists h. assert (n < 8)%nat by (apply Nat.div_small_iff; lia). cbn [blocks fold_left]. split; [|exact HH].
    destruct fuel; cbn [loop8]; replace (Z.of_nat n >=? 8) with false by lia; do 2 f_equal; [f_equal; lia|f_equal; lia].
  - destruct fuel as [|fuel]; [lia|]. assert (8 <= n)%nat by (destruct (le_lt_dec 8 n) as [X|X]; [exact X|apply Nat.div_small in X; lia]).
    assert (Q' : ((n - 8) / 8 = q)%nat).
    { replace n with (n - 8 + 1 * 8)%nat in Q by lia. rewrite Nat.div_add in Q by lia. lia. }
    cbn [loop8]. replace (Z.of_nat n >=? 8) with true by lia. rewrite Z.add_0_r.
    destruct (load32_ok p) as [-> L0]; [lia|lia|]. cbn [rbind]. destruct (load32_ok (p + 4)) as [-> L1]; [lia|lia|]. cbn [rbind].
    replace (Z.of_nat n - 8) with (Z.of_nat (n - 8)) by lia.
    match goal with |- context [loop8 fuel len s _ _ ?x] => set (h1 := x) end.
    assert (H1 : holds h1 (absorb8 st (bytes_at s p 8))).
    { destruct st as [[[a b] c] d]. destruct HH as (A & B & C & D & RA & RB & RC & RD). unfold absorb8, holds, h1, upd. cbn [Z.eqb Pos.eqb].
      rewrite bytes_skipn, !bytes_firstn by lia. change (Z.of_nat 4) with 4. rewrite A, B, C, D. repeat split; try apply mod_W; lia. }
    destruct (IH (n - 8)%nat (p + 8) h1 _ fuel Q' ltac:(lia) ltac:(lia) ltac:(lia) H1) as (h2 & -> & H2).
    exists h2. split; [do 2 f_equal; [f_equal; lia]|]. cbn [blocks fold_left]. rewrite bytes_firstn, bytes_skipn by lia. exact H2.
Qed.
Lemma tail_ok n p h st : (n < 8)%nat -> 0 <= p -> p + Z.of_nat n = len -> holds h st ->
  exists h', tail len s (Z.of_nat n) p h = Ok h' /\ holds h' (absorb_rest st (bytes_at s p n)).
Proof.
  intros N P L HH. destruct st as [[[a b] c] d]. destruct HH as (A & B & C & D & RA & RB & RC & RD). unfold tail.
  assert (BY : forall i, 0 <= i < len -> 0 <= s i < 256) by exact Hb.
  assert (LT : (4 <= n)%nat -> little (skipn (length (bytes_at s p n) - 4) (bytes_at s p n)) = little (bytes_at s (p + Z.of_nat n - 4) 4)).
  { intros G. rewrite bytes_length, bytes_skipn by lia. f_equal. replace (n - (n - 4))%nat with 4%nat by lia. f_equal. lia. }
  assert (LF : (4 <= n)%nat -> firstn 4 (bytes_at s p n) = bytes_at s p 4) by (intros G; apply bytes_firstn, G).
  assert (Q : (4 <= n)%nat -> exists h', rbind (load32 len s p) (fun a => let h := upd h 2 (Z.lxor (h 2) a) in
      rbind (load32 len s (p + Z.of_nat n - 4)) (fun b => Ok (upd h 3 (Z.lxor (h 3) b)))) = Ok h' /\
      holds h' (a, b, Z.lxor c (little (firstn 4 (bytes_at s p n))), Z.lxor d (little (skipn (length (bytes_at s p n) - 4) (bytes_at s p n))))).
  { intros G. destruct (load32_ok p) as [-> L0]; [lia|lia|]. destruct (load32_ok (p + Z.of_nat n - 4)) as [-> L1]; [lia|lia|]. cbn [rbind].
    eexists. split; [reflexivity|]. rewrite LT, LF by exact G. unfold holds, upd. cbn [Z.eqb Pos.eqb]. rewrite A, B, C, D.
    change (2 ^ 32) with 4294967296 in *. repeat split; try lia; apply lxor_range; rewrite ?W_eq in *; lia. }
  assert (SM : forall x y, 0 <= x < 256 -> 0 <= y < 256 -> Z.lor x (u64 (Z.shiftl y 8)) = x + 256 * y).
  { intros x y Hx Hy. unfold u64. rewrite Z.shiftl_mul_pow2 by lia. rewrite Z.mod_small by lia. rewrite <- Z.shiftl_mul_pow2 by lia. rewrite lor_disjoint by lia. lia. }
  assert (SML : forall b1 b2, 0 < Z.of_nat n < 4 -> b1 = s (p + Z.quot (Z.of_nat n) 2) -> b2 = s (p + (Z.of_nat n - 1)) ->
      exists h', (if Z.of_nat n >=? 4 then Fault Uninit else if Z.of_nat n >? 0 then
        rbind (aget len s (p + 0)) (fun a => let h := upd h 2 (Z.lxor (h 2) a) in
        rbind (aget len s (p + Z.quot (Z.of_nat n) 2)) (fun b => rbind (aget len s (p + (Z.of_nat n - 1))) (fun c =>
        Ok (upd h 3 (Z.lxor (h 3) (Z.lor b (u64 (Z.shiftl c 8)))))))) else Ok h) = Ok h' /\
      holds h' (a, b, Z.lxor c (s p), Z.lxor d (b1 + 256 * b2))).
  { intros b1 b2 G E1 E2. replace (Z.of_nat n >=? 4) with false by lia. replace (Z.of_nat n >? 0) with true by lia.
    assert (QQ : 0 <= Z.quot (Z.of_nat n) 2 < Z.of_nat n) by (rewrite Z.quot_div_nonneg; lia).
    rewrite !get_ok by lia. rewrite <- E1, <- E2. cbn [rbind]. assert (0 <= b1 < 256) by (rewrite E1; apply BY; lia). assert (0 <= b2 < 256) by (rewrite E2; apply BY; lia).
    rewrite SM by assumption. eexists. split; [reflexivity|]. unfold holds, upd. cbn [Z.eqb Pos.eqb]. rewrite A, B, C, D, Z.add_0_r.
    assert (0 <= s p < 256) by (apply BY; lia). repeat split; try lia; apply lxor_range; rewrite ?W_eq in *; lia. }
  destruct n as [|n]; [exists h; split; [reflexivity|]; unfold holds; cbn [bytes_at absorb_rest]; repeat split; first [assumption|lia]|].
  destruct n as [|n]; [destruct (SML (s p) (s p)) as (h' & E & HH'); [lia|f_equal; cbn; lia|f_equal; lia|]; exists h'; split; [exact E|exact HH']|].
  destruct n as [|n]; [destruct (SML (s (p + 1)) (s (p + 1))) as (h' & E & HH'); [lia|reflexivity|reflexivity|]; exists h'; split; [exact E|exact HH']|].
  destruct n as [|n]; [destruct (SML (s (p + 1)) (s (p + 1 + 1))) as (h' & E & HH'); [lia|reflexivity|f_equal; lia|]; exists h'; split; [exact E|exact HH']|].
  replace (Z.of_nat (S (S (S (S n)))) >=? 4) with true by lia. destruct (Q ltac:(lia)) as (h' & E & HH'). exists h'. split; [exact E|exact HH'].
Qed.
Lemma finish_ok h st seed : holds h st -> 0 <= seed < W -> 0 <= len < W -> finish len seed h = result seed len st /\ 0 <= result seed len st < W.
Proof.
  intros HH RS RL. destruct st as [[[a b] c] d]. destruct HH as (A & B & C & D & RA & RB & RC & RD).
  assert (SR : forall x, 0 <= x < W -> Z.shiftr x 31 = x / 2 ^ 31 /\ 0 <= x / 2 ^ 31 < W).
  { intros x Hx. rewrite Z.shiftr_div_pow2 by lia. change (2 ^ 31) with 2147483648. rewrite W_eq in *. lia. }
  assert (NZ : W <> 0) by (rewrite W_eq; lia).
  unfold finish, upd. cbn [Z.eqb Pos.eqb]. rewrite A, B, C, D. rewrite !u64_mod. change HASH_K with K.
  rewrite (Z.mod_small len) by lia. rewrite (rotl_turn (c * K mod W)), (rotl_turn (d * K mod W)), (rotl_turn (len * K mod W)) by (lia || apply mod_W).
  destruct (SR c RC) as [-> _]. destruct (SR d RD) as [-> _]. cbn [result]. unfold result.
  rewrite (Z.mul_mod_idemp_l (a + _)) by exact NZ.
  set (a1 := (a + Z.lxor (turn 31 (c * K mod W)) (c / 2 ^ 31)) * K mod W). assert (RA1 : 0 <= a1 < W) by apply mod_W.
  destruct (SR a1 RA1) as [-> RS1]. rewrite (Z.add_mod_idemp_l (b + _)) by exact NZ.
  set (b1 := (b + Z.lxor (turn 31 (d * K mod W)) (d / 2 ^ 31) + Z.lxor a1 (a1 / 2 ^ 31)) mod W). assert (RB1 : 0 <= b1 < W) by apply mod_W.
  set (x1 := (Z.lxor (len * K mod W) (turn 29 (len * K mod W)) + seed) mod W). assert (RX1 : 0 <= x1 < W) by apply mod_W.
  assert (RX2 := lxor_range x1 b1 RX1 RB1). set (x2 := Z.lxor x1 b1) in *. rewrite (rotl_turn x2 15), (rotl_turn x2 42) by (lia || assumption).
  set (x3 := Z.lxor x2 (Z.lxor (turn 15 x2) (turn 42 x2)) * K mod W). assert (RX3 : 0 <= x3 < W) by apply mod_W.
  rewrite (rotl_turn x3 13), (rotl_turn x3 31) by (lia || assumption). split; [reflexivity|].
  apply lxor_range; [assumption|]. apply lxor_range; apply turn_range; (lia || assumption).
Qed.
End Hashing.

(** ** The hash *)
Lemma start_holds seed : 0 <= seed < W -> holds (hash_start seed) (initial seed).
Proof.
  intros R. unfold hash_start, initial, holds, upd. cbn [Z.eqb Pos.eqb]. rewrite !u64_mod. change HASH_K with K.
  rewrite !rotl_turn by (lia || apply mod_W). repeat split; try apply mod_W; lia.
Qed.

(** For every string in memory and every seed the function reads only the bytes of
    the string, has no undefined behaviour, and returns the 64-bit number that the
    description gives for the bytes: it depends on nothing else. *)
Theorem C104_hash m chars n seed : (forall i, 0 <= i < Z.of_nat n -> is_byte (m (chars + i))) -> Z.of_nat n < 2 ^ 31 -> 0 <= seed < 2 ^ 64 ->
  chibihash64 (fun i => m (chars + i)) (Z.of_nat n) seed = Ok (hash_of seed (bytes_at m chars n)) /\
  0 <= hash_of seed (bytes_at m chars n) < 2 ^ 64.
Proof.
  intros HB N R. change (2 ^ 64) with W in *. set (s := fun i => m (chars + i)). unfold chibihash64, hash_of. rewrite Nat2Z.id.
  assert (BS : bytes_at m chars n = bytes_at s 0 n) by (unfold s; rewrite bytes_move, Z.add_0_r; reflexivity). rewrite BS, bytes_length.
  assert (NN : (32 * (n / 32) <= n)%nat) by (apply Nat.mul_div_le; lia).
  destruct (loop32_ok (Z.of_nat n) s HB (n / 32) n 0 (hash_start seed) (initial seed) n eq_refl) as (h1 & -> & H1);
    [apply Nat.div_le_upper_bound; lia|lia|lia|apply start_holds, R|]. cbn [rbind].
  rewrite bytes_skipn, bytes_length by lia. set (n' := (n - 32 * (n / 32))%nat) in *.
  assert (NN' : (8 * (n' / 8) <= n')%nat) by (apply Nat.mul_div_le; lia).
  destruct (loop8_ok (Z.of_nat n) s HB (n' / 8) n' (0 + Z.of_nat (32 * (n / 32))) h1 _ n eq_refl ltac:(apply Nat.div_le_upper_bound; lia) ltac:(lia) ltac:(lia) H1) as (h2 & -> & H2). cbn [rbind].
  rewrite bytes_skipn by lia. assert (N8 : (n' - 8 * (n' / 8) < 8)%nat) by (assert (X := Nat.mod_upper_bound n' 8 ltac:(lia)); assert (Y := Nat.div_mod n' 8 ltac:(lia)); lia).
  destruct (tail_ok (Z.of_nat n) s HB _ (0 + Z.of_nat (32 * (n / 32)) + Z.of_nat (8 * (n' / 8))) h2 _ N8 ltac:(lia) ltac:(lia) H2) as (h3 & -> & H3). cbn [rbind].
  change (2 ^ 31) with 2147483648 in N.
  destruct (finish_ok (Z.of_nat n) s HB h3 _ seed H3) as [-> RR]; [exact R|rewrite W_eq; lia|]. split; [reflexivity|exact RR].
Qed.
Print Assumptions C104_hash.

(** ** The pool *)

(** What the pool has been given: the blocks with their strings.  A block has room
    for a node of the symbol table, the characters and a zero. *)
Definition entry : Type := (Z * list Z)%type.
Definition size_of (k : list Z) : Z := 184 + Z.of_nat (length k) + 1.
Definition in_block (e : entry) (x : Z) : Prop := fst e <= x < fst e + size_of (snd e).
(** A string of the program: the characters are bytes, the length an int. *)
Definition string_in (m : arr) (chars : Z) (n : nat) : Prop :=
  (forall i, 0 <= i < Z.of_nat n -> is_byte (m (chars + i))) /\ Z.of_nat n < 2 ^ 31.
(** What the host hands out is in use for nothing else. *)
Definition unused (l : list entry) (chars : Z) (n : nat) (block : Z) : Prop :=
  forall x, block <= x < block + 184 + Z.of_nat n + 1 -> ~ (chars <= x < chars + Z.of_nat n) /\ forall e, In e l -> ~ in_block e x.

(** The states of the pool: it starts empty; the program can do anything to the
    memory outside of the blocks; a string is interned. *)
Inductive pool : arr -> ptrie -> list entry -> Prop :=
| pool_empty m : pool m PNull []
| pool_program m t l m' : pool m t l -> (forall e x, In e l -> in_block e x -> m' x = m x) -> pool m' t l
| pool_old m t l chars n block m' t' r : pool m t l -> string_in m chars n -> unused l chars n block ->
    strintern m t chars (Z.of_nat n) block = Ok (m', t', r) -> In (bytes_at m chars n) (map snd l) -> pool m' t' l
| pool_new m t l chars n block m' t' r : pool m t l -> string_in m chars n -> unused l chars n block ->
    strintern m t chars (Z.of_nat n) block = Ok (m', t', r) -> ~ In (bytes_at m chars n) (map snd l) -> pool m' t' ((block, bytes_at m chars n) :: l).

Definition dec : forall a b : list Z, {a = b} + {a <> b} := list_eq_dec Z.eq_dec.
Inductive same_shape (l : list entry) : ptrie -> trie (list Z) -> Prop :=
| same_null : same_shape l PNull Null
| same_node a k c0 c1 c2 c3 d0 d1 d2 d3 : In (a, k) l -> same_shape l c0 d0 -> same_shape l c1 d1 -> same_shape l c2 d2 -> same_shape l c3 d3 ->
    same_shape l (PNode a (a + 56) (Z.of_nat (length k)) c0 c1 c2 c3) (Node k a d0 d1 d2 d3).
Definition stored (m : arr) (e : entry) : Prop :=
  bytes_at m (fst e + 56) (length (snd e)) = snd e /\ m (fst e + 56 + Z.of_nat (length (snd e))) = 0.
Definition inv (m : arr) (t : ptrie) (l : list entry) : Prop :=
  (exists tr, same_shape l t tr /\ forall k a, get dec tr (hash_of 0 k) k = Some a <-> In (a, k) l) /\
  (forall e, In e l -> stored m e) /\ (forall a k k', In (a, k) l -> In (a, k') l -> k = k').

Lemma same_bytes_eq m n : forall a b, same_bytes m a b n = true <-> bytes_at m a n = bytes_at m b n.
Proof.
  induction n as [|n IH]; intros a b; cbn [same_bytes bytes_at]; [tauto|]. rewrite andb_true_iff, IH, Z.eqb_eq. split.
  - intros [-> ->]. reflexivity.
  - intros E. injection E as E1 E2. auto.
Qed.
Lemma str_eq_iff m a k chars n : bytes_at m a (length k) = k -> str_eq m a (Z.of_nat (length k)) chars (Z.of_nat n) = true <-> k = bytes_at m chars n.
Proof.
  intros S. unfold str_eq. rewrite andb_true_iff, Z.eqb_eq, Nat2Z.id, same_bytes_eq, S. split.
  - intros [L E]. apply Nat2Z.inj in L. rewrite <- L. exact E.
  - intros E. assert (L : length k = n) by (rewrite E; apply bytes_length). rewrite L. split; [reflexivity|exact E].
Qed.
Lemma psearch_search m l chars n : (forall e, In e l -> stored m e) -> forall t tr, same_shape l t tr -> forall h,
  psearch m t h chars (Z.of_nat n) = search dec tr h (bytes_at m chars n).
Proof.
  intros S t tr R. induction R as [|a k c0 c1 c2 c3 d0 d1 d2 d3 I R0 IH0 R1 IH1 R2 IH2 R3 IH3]; intros h; [reflexivity|].
  cbn [psearch search]. assert (E := str_eq_iff m (a + 56) k chars n (proj1 (S _ I))). cbn [fst snd] in E.
  destruct (str_eq m (a + 56) (Z.of_nat (length k)) chars (Z.of_nat n)).
  - destruct (dec k (bytes_at m chars n)); [reflexivity|]. tauto.
  - destruct (dec k (bytes_at m chars n)) as [X|]; [apply E in X; discriminate|]. unfold pchild, child. fold (slot h).
    destruct (slot h =? 0); [rewrite IH0; reflexivity|]. destruct (slot h =? 1); [rewrite IH1; reflexivity|]. destruct (slot h =? 2); [rewrite IH2; reflexivity|rewrite IH3; reflexivity].
Qed.
Lemma shape_more e l t tr : same_shape l t tr -> same_shape (e :: l) t tr.
Proof. intros R. induction R; constructor; auto. now right. Qed.
Lemma pstore_store block k path : forall l t tr, same_shape l t tr ->
  same_shape ((block, k) :: l) (pstore t path block (block + 56) (Z.of_nat (length k))) (store tr path k block).
Proof.
  induction path as [|i path IH]; intros l t tr R.
  - destruct R; cbn [pstore store]; constructor; try apply same_null; now left.
  - destruct R as [|a k' c0 c1 c2 c3 d0 d1 d2 d3 I R0 R1 R2 R3]; cbn [pstore store]; [constructor|].
    destruct (i =? 0); [|destruct (i =? 1); [|destruct (i =? 2)]]; constructor; try (now right); try (apply shape_more; assumption); apply IH; assumption.
Qed.
Lemma copy_other n : forall m src dst x, ~ (dst <= x < dst + Z.of_nat n) -> copy m src dst n x = m x.
Proof. induction n as [|n IH]; intros m src dst x N; cbn [copy]; [reflexivity|]. rewrite IH by lia. unfold upd. replace (x =? dst) with false by lia. reflexivity. Qed.
Lemma copy_at n : forall m src dst i, (forall x, src <= x < src + Z.of_nat n -> dst <= x < dst + Z.of_nat n -> False) -> 0 <= i < Z.of_nat n ->
  copy m src dst n (dst + i) = m (src + i).
Proof.
  induction n as [|n IH]; intros m src dst i D Hi; [lia|]. cbn [copy]. destruct (Z.eq_dec i 0) as [->|N].
  - rewrite copy_other by lia. unfold upd. rewrite Z.add_0_r, Z.eqb_refl, Z.add_0_r. reflexivity.
  - replace (dst + i) with (dst + 1 + (i - 1)) by lia. rewrite IH; [|intros x; specialize (D x); lia|lia].
    unfold upd. replace (src + 1 + (i - 1)) with (src + i) by lia. replace (src + i =? dst) with false; [reflexivity|].
    symmetry. apply Z.eqb_neq. intros E. apply (D (src + i)); lia.
Qed.

Lemma intern_spec m t l chars n block : inv m t l -> string_in m chars n -> unused l chars n block ->
  exists m' t' r, strintern m t chars (Z.of_nat n) block = Ok (m', t', r) /\
    ((In (r, bytes_at m chars n) l /\ m' = m /\ t' = t) \/
     (~ In (bytes_at m chars n) (map snd l) /\ r = block /\ stored m' (block, bytes_at m chars n) /\
      (forall x, ~ (block + 56 <= x <= block + 56 + Z.of_nat n) -> m' x = m x) /\ inv m' t' ((block, bytes_at m chars n) :: l))).
Proof.
  intros ((tr & R & G) & ST & AD) [SB SL] U. unfold strintern. destruct (C104_hash m chars n 0 SB SL) as [-> _]; [lia|]. cbn [rbind].
  set (k := bytes_at m chars n) in *. rewrite (psearch_search m l chars n ST t tr R). fold k. assert (LK : length k = n) by apply bytes_length.
  assert (G' := intern_get dec (hash_of 0) tr block k). unfold intern in G'.
  assert (GK := G k). unfold get in GK.
  destruct (search dec tr (hash_of 0 k) k) as [[a|] path] eqn:E; cbn [fst] in *.
  - exists m, t, a. split; [reflexivity|]. left. split; [apply GK; reflexivity|auto].
  - replace (in_bounds (SYMTAB_NODE_SIZE + Z.of_nat n + 1) (PSTR_SIZE + Z.of_nat n)) with true by (unfold in_bounds, SYMTAB_NODE_SIZE, PSTR_SIZE; lia).
    eexists _, _, _. split; [reflexivity|]. right. change PSTR_SIZE with 56.
    assert (NI : ~ In k (map snd l)).
    { intros I. apply in_map_iff in I as ([a k'] & EE & I). cbn [snd] in EE. subst k'. apply GK in I. discriminate. }
    assert (DJ : forall x, chars <= x < chars + Z.of_nat n -> block + 56 <= x < block + 56 + Z.of_nat n -> False).
    { intros x X1 X2. destruct (U x ltac:(lia)) as [Y _]. apply Y. lia. }
    assert (OT : forall x, ~ (block + 56 <= x <= block + 56 + Z.of_nat n) -> upd (copy m chars (block + 56) (Z.to_nat (Z.of_nat n))) (block + 56 + Z.of_nat n) 0 x = m x).
    { intros x X. unfold upd. replace (x =? block + 56 + Z.of_nat n) with false by lia. apply copy_other. lia. }
    assert (NEW : stored (upd (copy m chars (block + 56) (Z.to_nat (Z.of_nat n))) (block + 56 + Z.of_nat n) 0) (block, k)).
    { unfold stored. cbn [fst snd]. rewrite LK. split; [|unfold upd; rewrite Z.eqb_refl; reflexivity]. unfold k. apply bytes_ext. intros i Hi.
      unfold upd. replace (block + 56 + i =? block + 56 + Z.of_nat n) with false by lia. rewrite Nat2Z.id. apply copy_at; assumption. }
    split; [exact NI|]. split; [reflexivity|]. split; [exact NEW|]. split; [exact OT|]. split; [|split].
    + exists (store tr path k block). split; [rewrite <- LK; apply pstore_store, R|]. intros k' a.
      change (get dec (store tr path k block) (hash_of 0 k') k' = Some a <-> In (a, k') ((block, k) :: l)). rewrite G'.
      assert (GK' := G k' a). cbn [In]. destruct (get dec tr (hash_of 0 k') k') as [a'|] eqn:EE.
      * split; [intros Y; right; apply GK'; exact Y|]. intros [Y|Y]; [|apply GK'; exact Y]. injection Y as <- <-.
        exfalso. apply NI. apply in_map_iff. exists (a', k). split; [reflexivity|]. apply G. exact EE.
      * destruct (dec k k') as [<-|N].
        -- split; [intros Y; injection Y as <-; now left|]. intros [Y|Y]; [injection Y as <-; reflexivity|]. apply GK' in Y. discriminate.
        -- split; [discriminate|]. intros [Y|Y]; [injection Y as _ Y; contradiction|]. apply GK' in Y. discriminate.
    + intros e [<-|I]; [exact NEW|]. destruct (ST e I) as [S1 S2]. assert (OUT : forall x, in_block e x -> ~ (block + 56 <= x <= block + 56 + Z.of_nat n)).
      { intros x X Y. destruct (U x ltac:(lia)) as [_ Z0]. exact (Z0 e I X). }
      unfold in_block, size_of in OUT. split.
      * rewrite <- S1 at 2. apply bytes_ext. intros i Hi. apply OT, OUT. lia.
      * rewrite OT; [exact S2|]. apply OUT. lia.
    + assert (FR : forall k', ~ In (block, k') l).
      { intros k' I. destruct (U block ltac:(lia)) as [_ Y]. apply (Y _ I). unfold in_block, size_of. cbn [fst snd]. lia. }
      intros a k1 k2 [X|X] [Y|Y].
      * injection X as <- <-. injection Y as <-. reflexivity.
      * injection X as <- <-. now apply FR in Y.
      * injection Y as <- <-. now apply FR in X.
      * exact (AD _ _ _ X Y).
Qed.
Lemma pool_inv m t l : pool m t l -> inv m t l.
Proof.
  induction 1 as [m|m t l m' P IH H|m t l chars n block m' t' r P IH S U E I|m t l chars n block m' t' r P IH S U E I].
  - split; [exists Null; split; [constructor|intros k a; split; [discriminate|intros []]]|]. split; [intros e []|intros a k k' []].
  - destruct IH as (T & ST & AD). split; [exact T|]. split; [|exact AD]. intros e I. destruct (ST e I) as [S1 S2].
    assert (X : forall x, in_block e x -> m' x = m x) by (intros x; apply H, I). unfold in_block, size_of in X. split.
    + rewrite <- S1 at 2. apply bytes_ext. intros i Hi. apply X. lia.
    + rewrite X by lia. exact S2.
  - destruct (intern_spec m t l chars n block IH S U) as (m1 & t1 & r1 & E1 & [(I1 & -> & ->)|(N & _)]); [|contradiction].
    rewrite E in E1. injection E1 as -> -> _. exact IH.
  - destruct (intern_spec m t l chars n block IH S U) as (m1 & t1 & r1 & E1 & [(I1 & _)|(_ & _ & _ & _ & IV)]).
    + exfalso. apply I. apply in_map_iff. exists (r1, bytes_at m chars n). auto.
    + rewrite E in E1. injection E1 as -> -> _. exact IV.
Qed.

(** Interning a string always succeeds.  A string that is in the pool gives its
    node and changes nothing; another one gives the new block, which then has the
    characters and a zero behind the node, and nothing else is written. *)
Theorem C104_intern m t l chars n block : pool m t l -> string_in m chars n -> unused l chars n block ->
  exists m' t' r, strintern m t chars (Z.of_nat n) block = Ok (m', t', r) /\
    ((In (r, bytes_at m chars n) l /\ m' = m /\ t' = t /\ pool m' t' l) \/
     (~ In (bytes_at m chars n) (map snd l) /\ r = block /\ pool m' t' ((block, bytes_at m chars n) :: l) /\
      forall x, ~ (block + 56 <= x <= block + 56 + Z.of_nat n) -> m' x = m x)).
Proof.
  intros P S U. destruct (intern_spec m t l chars n block (pool_inv _ _ _ P) S U) as (m' & t' & r & E & [(I & -> & ->)|(N & R & _ & O & _)]).
  - exists m, t, r. split; [exact E|]. left. auto.
  - exists m', t', r. split; [exact E|]. right. split; [exact N|]. split; [exact R|]. split; [|exact O]. exact (pool_new _ _ _ _ _ _ _ _ _ P S U E N).
Qed.
Print Assumptions C104_intern.

(** Whatever happens afterwards, the characters of an interned string stay where
    they are, with their zero; two nodes are the same exactly if their strings are. *)
Theorem C104_kept m t l : pool m t l -> forall a k, In (a, k) l ->
  bytes_at m (a + 56) (length k) = k /\ m (a + 56 + Z.of_nat (length k)) = 0 /\
  forall a' k', In (a', k') l -> (a' = a <-> k' = k).
Proof.
  intros P a k I. apply pool_inv in P as ((tr & _ & G) & ST & AD). destruct (ST _ I) as [S1 S2]. split; [exact S1|]. split; [exact S2|].
  intros a' k' I'. split; [intros ->; exact (AD _ _ _ I' I)|]. intros ->. apply G in I, I'. congruence.
Qed.
Print Assumptions C104_kept.

(** Looking a string up finds its node exactly if it is in the pool. *)
Theorem C104_find m t l chars n : pool m t l -> string_in m chars n ->
  exists r, strfind m t chars (Z.of_nat n) = Ok r /\ forall a, r = Some a <-> In (a, bytes_at m chars n) l.
Proof.
  intros P [SB SL]. apply pool_inv in P as ((tr & R & G) & ST & AD). unfold strfind. destruct (C104_hash m chars n 0 SB SL) as [-> _]; [lia|]. cbn [rbind].
  eexists. split; [reflexivity|]. intros a. rewrite (psearch_search m l chars n ST t tr R). apply G.
Qed.
Print Assumptions C104_find.

(** A case: "ab" at 10, "c" at 20 and "ab" again at 30, whose place is then
    overwritten; the blocks are at 1000, 2000 and 3000. *)
Definition case_mem : arr := fun x => if x =? 10 then 97 else if x =? 11 then 98 else if x =? 20 then 99 else if x =? 30 then 97 else if x =? 31 then 98 else 0.
Example C104_case : exists m1 t1 m2 t2,
  strintern case_mem PNull 10 2 1000 = Ok (m1, t1, 1000) /\ strintern m1 t1 20 1 2000 = Ok (m2, t2, 2000) /\
  strintern m2 t2 30 2 3000 = Ok (m2, t2, 1000) /\ pool m2 t2 [(2000, [99]); (1000, [97; 98])] /\
  strfind m2 t2 20 1 = Ok (Some 2000) /\ strfind m2 t2 21 1 = Ok None /\ m2 1056 = 97 /\ m2 1057 = 98 /\ m2 1058 = 0.
Proof.
  assert (P0 := pool_empty case_mem).
  assert (S1 : string_in case_mem 10 2). { split; [|cbn; lia]. intros i Hi. assert (i = 0 \/ i = 1) as [-> | ->] by lia; cbn; unfold is_byte; lia. }
  assert (U1 : unused [] 10 2 1000). { intros x X. split; [cbn in *; lia|intros e []]. }
  destruct (strintern case_mem PNull 10 2 1000) as [[[m1 t1] r1]|] eqn:E1; [|vm_compute in E1; discriminate].
  assert (P1 := pool_new _ _ _ 10 2 1000 _ _ _ P0 S1 U1 E1 ltac:(intros [])).
  vm_compute in E1. injection E1 as M1 T1 R1. subst r1 m1 t1.
  match type of P1 with pool ?m ?t _ => set (m1 := m) in *; set (t1 := t) in * end.
  assert (S2 : string_in m1 20 1). { split; [|cbn; lia]. intros i Hi. assert (i = 0) as -> by lia. vm_compute. split; [discriminate|reflexivity]. }
  assert (U2 : unused [(1000, bytes_at case_mem 10 2)] 20 1 2000).
  { intros x X. split; [cbn in *; lia|]. intros e [<-|[]]. unfold in_block, size_of. cbn in *. lia. }
  destruct (strintern m1 t1 20 1 2000) as [[[m2 t2] r2]|] eqn:E2; [|vm_compute in E2; discriminate].
  assert (P2 := pool_new _ _ _ 20 1 2000 _ _ _ P1 S2 U2 E2 ltac:(vm_compute; intuition discriminate)).
  exists m1, t1, m2, t2. assert (E2' := E2). vm_compute in E2'. injection E2' as M2 T2 R2. subst r2 m2 t2.
  split; [reflexivity|]. split; [exact E2|]. split; [vm_compute; reflexivity|]. split; [exact P2|]. vm_compute. repeat split.
Qed.
