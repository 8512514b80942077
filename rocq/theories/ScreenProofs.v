From Verif Require Import Base VmModel VmSpec VmProofs SystemSpec SystemProofs ScreenModel ScreenSpec.
From Coq Require Import ZifyBool.

Lemma i32_ok x : -2147483648 <= x <= 2147483647 -> int32 x = Ok x.
Proof. intros. unfold int32, in_int, INT_MIN, INT_MAX. replace (_ && _) with true by lia. auto. Qed.
Lemma aset_ok n m i v : 0 <= i < n -> aset n m i v = Ok (upd m i v).
Proof. intros. unfold aset. rewrite in_bounds_true; auto. Qed.
Lemma aget_ok n m i : 0 <= i < n -> aget n m i = Ok (m i).
Proof. intros. unfold aget. rewrite in_bounds_true; auto. Qed.
Lemma upd_eq m a v : upd m a v a = v.
Proof. unfold upd. rewrite Z.eqb_refl. auto. Qed.
Lemma upd_ne m a v x : x <> a -> upd m a v x = m x.
Proof. intros. unfold upd. replace (x =? a) with false by lia. auto. Qed.

(** ** Fill *)
Lemma fill_row_ok size n : forall i color buf, 0 <= i -> i + Z.of_nat n <= size ->
  exists buf', fill_row size n i color buf = Ok buf' /\
  forall j, buf' j = if (i <=? j) && (j <? i + Z.of_nat n) then color else buf j.
Proof.
  induction n as [|n IH]; intros i color buf Hi Hn.
  - exists buf. split; [reflexivity|]. intros j. replace (_ && _) with false by lia. auto.
  - cbn [fill_row]. rewrite aset_ok by lia. cbn [rbind]. destruct (IH (i + 1) color (upd buf i color)) as (buf' & E & H); [lia|lia|].
    exists buf'. split; [exact E|]. intros j. rewrite H. unfold upd. destruct (j =? i) eqn:E1.
    + replace ((i <=? j) && _) with true by lia. destruct (_ && _); auto.
    + replace ((i <=? j) && (j <? i + Z.of_nat (S n))) with ((i + 1 <=? j) && (j <? i + 1 + Z.of_nat n)) by lia. auto.
Qed.

Lemma fill_row_fault size n : forall i color buf, ~ (0 <= i /\ i + Z.of_nat n <= size) -> (0 < n)%nat ->
  exists k, fill_row size n i color buf = Fault (OobWrite k) /\ ~ 0 <= k < size.
Proof.
  induction n as [|n IH]; intros i color buf H Hn; [lia|]. cbn [fill_row]. unfold aset.
  destruct (in_bounds size i) eqn:E; unfold in_bounds in E.
  - cbn [rbind]. destruct n as [|n]; [exfalso; lia|]. apply IH; lia.
  - cbn [rbind]. exists i. split; [reflexivity|lia].
Qed.

(** Rows of a fill: [hor] cells from [base + ay + fx1], each [len] further. *)
Lemma fill_rows_ok size base len fx1 hor color : 0 <= hor -> 0 < len -> forall n ay buf,
  (n = O \/ hor = 0 \/ (0 <= base + ay + fx1 /\ base + ay + (Z.of_nat n - 1) * len + fx1 + hor <= size)) ->
  exists buf', fill_rows size n base ay len fx1 hor color buf = Ok buf' /\
  (forall r c, 0 <= r < Z.of_nat n -> 0 <= c < hor -> buf' (base + ay + r * len + fx1 + c) = color) /\
  (forall j, (forall r c, 0 <= r < Z.of_nat n -> 0 <= c < hor -> j <> base + ay + r * len + fx1 + c) -> buf' j = buf j) /\
  (forall j, buf' j = buf j \/ buf' j = color).
Proof.
  intros Hh Hl. induction n as [|n IH]; intros ay buf H.
  - exists buf. split; [reflexivity|]. split; [intros; lia|]. split; auto.
  - cbn [fill_rows].
    assert (R : exists b1, fill_row size (Z.to_nat hor) (base + (ay + fx1)) color buf = Ok b1 /\
      forall j, b1 j = if (base + ay + fx1 <=? j) && (j <? base + ay + fx1 + hor) then color else buf j).
    { destruct (Z.eq_dec hor 0) as [->|N]; [exists buf; split; [reflexivity|]; intros j; replace (_ && _) with false by lia; auto|].
      destruct (fill_row_ok size (Z.to_nat hor) (base + (ay + fx1)) color buf) as (b1 & E & HB); [lia|nia|].
      exists b1. split; [exact E|]. intros j. rewrite HB. replace (base + (ay + fx1)) with (base + ay + fx1) by ring.
      rewrite Z2Nat.id by lia. auto. }
    destruct R as (b1 & -> & HB). cbn [rbind].
    destruct (IH (ay + len) b1) as (b2 & -> & P1 & P2 & P3).
    { destruct n as [|n]; [auto|]. destruct H as [H|[H|(H1 & H2)]]; [lia|auto|]. right. right. nia. }
    exists b2. split; [reflexivity|]. split; [|split].
    + intros r c Hr Hc. destruct (Z.eq_dec r 0) as [->|N].
      * destruct (P3 (base + ay + 0 * len + fx1 + c)) as [-> | ->]; [|auto]. rewrite HB. replace (_ && _) with true by lia. auto.
      * replace (base + ay + r * len + fx1 + c) with (base + (ay + len) + (r - 1) * len + fx1 + c) by ring. apply P1; lia.
    + intros j Hj. rewrite P2.
      * rewrite HB. replace (_ && _) with false; auto. symmetry. apply not_true_is_false. intros X.
        apply (Hj 0 (j - (base + ay + fx1))); lia.
      * intros r c Hr Hc. replace (base + (ay + len) + r * len + fx1 + c) with (base + ay + (r + 1) * len + fx1 + c) by ring. apply Hj; lia.
    + intros j. destruct (P3 j) as [-> | ->]; [|auto]. rewrite HB. destruct (_ && _); auto.
Qed.

Lemma fill_rows_fault size base len fx1 hor color : 0 < hor -> 0 < len -> forall n ay buf, (0 < n)%nat ->
  ~ (0 <= base + ay + fx1 /\ base + ay + (Z.of_nat n - 1) * len + fx1 + hor <= size) ->
  exists k, fill_rows size n base ay len fx1 hor color buf = Fault (OobWrite k) /\ ~ 0 <= k < size.
Proof.
  intros Hh Hl. induction n as [|n IH]; intros ay buf Hn H; [lia|]. cbn [fill_rows].
  assert (D : (0 <= base + (ay + fx1) /\ base + (ay + fx1) + Z.of_nat (Z.to_nat hor) <= size) \/
    ~ (0 <= base + (ay + fx1) /\ base + (ay + fx1) + Z.of_nat (Z.to_nat hor) <= size)) by lia.
  destruct D as [(D1 & D2)|D].
  - destruct (fill_row_ok size (Z.to_nat hor) (base + (ay + fx1)) color buf D1 D2) as (b1 & -> & _). cbn [rbind].
    apply IH.
    + destruct n; [exfalso; apply H; split; lia|lia].
    + intros (X1 & X2). apply H. split; [lia|]. nia.
  - destruct (fill_row_fault size (Z.to_nat hor) (base + (ay + fx1)) color buf D) as (k & -> & X); [lia|].
    cbn [rbind]. exists k. auto.
Qed.

(** ** Sprites *)
Definition colour_of (ch1 ch2 q : Z) : Z := Z.lor (Z.land (Z.shiftr ch1 q) 1) (Z.land (Z.shiftr ch2 q) 2).
Definition put_pixel (old c blend : Z) : Z :=
  if negb (blend mod 5 =? 0) || negb (c =? 0) then BLENDING c blend else old.


Lemma sprite_row_ok size fx ch1 ch2 blend n : forall ax qx buf, 0 <= ax -> ax + Z.of_nat n <= size ->
  exists buf', sprite_row size n ax qx fx ch1 ch2 blend buf = Ok buf' /\
  (forall k, 0 <= k < Z.of_nat n -> buf' (ax + k) = put_pixel (buf (ax + k)) (colour_of ch1 ch2 (qx - k * fx)) blend) /\
  (forall j, ~ ax <= j < ax + Z.of_nat n -> buf' j = buf j).
Proof.
  induction n as [|n IH]; intros ax qx buf Ha Hn.
  - exists buf. split; [reflexivity|]. split; [intros; lia|auto].
  - cbn [sprite_row]. fold (colour_of ch1 ch2 qx). set (c := colour_of ch1 ch2 qx).
    assert (S1 : exists b1, (if negb (blend mod 5 =? 0) || negb (c =? 0) then aset size buf ax (BLENDING c blend) else Ok buf) = Ok b1 /\
      b1 ax = put_pixel (buf ax) c blend /\ forall j, j <> ax -> b1 j = buf j).
    { unfold put_pixel. destruct (_ || _); [rewrite aset_ok by lia; eexists; split; [reflexivity|]; split; [apply upd_eq|intros; apply upd_ne; auto]|].
      exists buf. auto. }
    destruct S1 as (b1 & -> & V & O). cbn [rbind].
    destruct (IH (ax + 1) (qx - fx) b1) as (b2 & -> & P1 & P2); [lia|lia|].
    exists b2. split; [reflexivity|]. split.
    + intros k Hk. destruct (Z.eq_dec k 0) as [->|N].
      * rewrite Z.add_0_r, P2 by lia. rewrite V. unfold c. replace (qx - 0 * fx) with qx by ring. auto.
      * replace (ax + k) with (ax + 1 + (k - 1)) by ring. rewrite P1 by lia. rewrite O by lia.
        replace (qx - fx - (k - 1) * fx) with (qx - k * fx) by ring. auto.
    + intros j Hj. rewrite P2, O by lia. auto.
Qed.

(** Bytes a line of a sprite needs. *)
Definition plane2 (mem : arr) (two : bool) (a : Z) : Z := if two then Z.shiftl (mem (a + 8)) 1 else 0.

Definition safe_read (msize : Z) (buf : arr) (r : res arr) : Prop :=
  match r with
  | Ok b => forall j, b j = buf j \/ 0 <= b j < 4
  | Fault (OobRead k) => msize <= k
  | Fault _ => False
  end.

Lemma land_pow2 c k : 0 <= k -> Z.land c (2 ^ k) = if Z.testbit c k then 2 ^ k else 0.
Proof.
  intros H. apply Z.bits_inj'. intros n Hn. rewrite Z.land_spec, Z.pow2_bits_eqb by lia.
  destruct (k =? n) eqn:E.
  - apply Z.eqb_eq in E. subst n. rewrite andb_true_r. destruct (Z.testbit c k).
    + rewrite Z.pow2_bits_eqb, Z.eqb_refl by lia. auto.
    + rewrite Z.bits_0. auto.
  - rewrite andb_false_r. destruct (Z.testbit c k); [rewrite Z.pow2_bits_eqb by lia; auto|rewrite Z.bits_0; auto].
Qed.

Lemma flag c k m : 0 <= k -> m = 2 ^ k -> negb (Z.land c m =? 0) = Z.testbit c k.
Proof.
  intros H ->. rewrite land_pow2 by auto. pose proof (Z.pow_pos_nonneg 2 k ltac:(lia) H). destruct (Z.testbit c k); [|auto].
  destruct (2 ^ k =? 0) eqn:E; auto. lia.
Qed.

Lemma colour_of_range ch1 ch2 q : 0 <= colour_of ch1 ch2 q < 4.
Proof.
  unfold colour_of. set (a := Z.shiftr ch1 q). set (b := Z.shiftr ch2 q). clearbody a b.
  pose proof (land_pow2 a 0 ltac:(lia)) as A. pose proof (land_pow2 b 1 ltac:(lia)) as B.
  change (2 ^ 0) with 1 in A. change (2 ^ 1) with 2 in B. rewrite A, B.
  destruct (Z.testbit a 0), (Z.testbit b 1); vm_compute; split; congruence.
Qed.

Lemma BLENDING_range c blend : 0 <= c < 4 -> 0 <= blend < 16 -> 0 <= BLENDING c blend < 4.
Proof.
  intros Hc Hb.
  assert (C : c = 0 \/ c = 1 \/ c = 2 \/ c = 3) by lia.
  assert (D : blend = 0 \/ blend = 1 \/ blend = 2 \/ blend = 3 \/ blend = 4 \/ blend = 5 \/ blend = 6 \/ blend = 7 \/
    blend = 8 \/ blend = 9 \/ blend = 10 \/ blend = 11 \/ blend = 12 \/ blend = 13 \/ blend = 14 \/ blend = 15) by lia.
  clear Hc Hb.
  repeat match goal with H : _ \/ _ |- _ => destruct H end; subst; vm_compute; split; congruence.
Qed.

Lemma put_pixel_cases old ch1 ch2 q blend : 0 <= blend < 16 ->
  put_pixel old (colour_of ch1 ch2 q) blend = old \/ 0 <= put_pixel old (colour_of ch1 ch2 q) blend < 4.
Proof.
  intros H. unfold put_pixel. destruct (_ || _); [right|auto]. apply BLENDING_range; auto. apply colour_of_range.
Qed.

Lemma sprite_rows_post mem msize size two rA base wmar2 xmar xmar2 fx fy qfx blend : 8 <= wmar2 -> xmar2 = xmar + 8 ->
  forall n ay qy buf buf', 0 <= base + (xmar + ay) -> base + (xmar + ay) + (Z.of_nat n - 1) * wmar2 + 8 <= size ->
  sprite_rows mem msize size two n rA base ay wmar2 qy xmar xmar2 fx fy qfx blend buf = Ok buf' ->
  (forall r k, 0 <= r < Z.of_nat n -> 0 <= k < 8 ->
     buf' (base + (xmar + ay) + r * wmar2 + k) =
     put_pixel (buf (base + (xmar + ay) + r * wmar2 + k))
       (colour_of (mem (rA + (qy + r * fy))) (plane2 mem two (rA + (qy + r * fy))) (qfx - k * fx)) blend) /\
  (forall j, (forall r k, 0 <= r < Z.of_nat n -> 0 <= k < 8 -> j <> base + (xmar + ay) + r * wmar2 + k) -> buf' j = buf j).
Proof.
  intros Hw Hx. induction n as [|n IH]; intros ay qy buf buf' H1 H2 E.
  - cbn in E. injection E as <-. split; [intros; lia|auto].
  - cbn [sprite_rows] in E. unfold aget in E at 1. destruct (in_bounds msize (rA + qy)); [|discriminate]. cbn [rbind] in E.
    assert (C2 : exists k, (if two then rmap (fun b => Z.shiftl b 1) (aget msize mem (rA + (qy + 8))) else Ok 0) = k /\
      (k = Ok (plane2 mem two (rA + qy)) \/ exists f, k = Fault f)).
    { eexists. split; [reflexivity|]. unfold plane2. destruct two; [|auto]. unfold aget. destruct (in_bounds _ _); cbn; [|eauto].
      left. do 3 f_equal. ring. }
    destruct C2 as (k2 & X & [-> | (f & ->)]); rewrite X in E; [|discriminate]. clear X. cbn [rbind] in E.
    subst xmar2. replace (xmar + 8 - xmar) with 8 in E by ring. change (Z.to_nat 8) with 8%nat in E.
    destruct (sprite_row_ok size fx (mem (rA + qy)) (plane2 mem two (rA + qy)) blend 8 (base + (xmar + ay)) qfx buf) as (b1 & R & V1 & O1); [lia|nia|].
    rewrite R in E. cbn [rbind] in E. change (Z.of_nat 8) with 8 in V1, O1.
    destruct (IH (ay + wmar2) (qy + fy) b1 buf') as (P1 & P2); [lia|nia|exact E|].
    split.
    + intros r k Hr Hk. destruct (Z.eq_dec r 0) as [->|N].
      * rewrite P2; [|intros r' k' Hr' Hk' E'; assert (0 <= r' * wmar2) by (apply Z.mul_nonneg_nonneg; lia); lia].
        replace (base + (xmar + ay) + 0 * wmar2 + k) with (base + (xmar + ay) + k) by ring.
        rewrite V1 by lia. replace (qy + 0 * fy) with qy by ring. auto.
      * replace (base + (xmar + ay) + r * wmar2 + k) with (base + (xmar + (ay + wmar2)) + (r - 1) * wmar2 + k) by ring.
        rewrite P1 by lia. replace (qy + fy + (r - 1) * fy) with (qy + r * fy) by ring. f_equal. apply O1. nia.
    + intros j Hj. rewrite P2, O1; auto.
      * intros X. apply (Hj 0 (j - (base + (xmar + ay)))); lia.
      * intros r k Hr Hk. replace (base + (xmar + (ay + wmar2)) + r * wmar2 + k) with (base + (xmar + ay) + (r + 1) * wmar2 + k) by ring. apply Hj; lia.
Qed.

Lemma sprite_rows_safe mem msize size two rA base wmar2 xmar xmar2 fx fy qfx blend : 8 <= wmar2 -> xmar2 = xmar + 8 -> 0 <= blend < 16 ->
  forall n ay qy buf, 0 <= base + (xmar + ay) -> base + (xmar + ay) + (Z.of_nat n - 1) * wmar2 + 8 <= size ->
  (forall r, 0 <= r < Z.of_nat n -> 0 <= rA + (qy + r * fy)) ->
  safe_read msize buf (sprite_rows mem msize size two n rA base ay wmar2 qy xmar xmar2 fx fy qfx blend buf) /\
  ((forall r, 0 <= r < Z.of_nat n -> rA + (qy + r * fy) + (if two then 8 else 0) < msize) ->
   exists b, sprite_rows mem msize size two n rA base ay wmar2 qy xmar xmar2 fx fy qfx blend buf = Ok b).
Proof.
  intros Hw Hx Hbl. induction n as [|n IH]; intros ay qy buf H1 H2 HR.
  - cbn. split; [auto|]. eauto.
  - cbn [sprite_rows]. pose proof (HR 0 ltac:(lia)) as R0. replace (qy + 0 * fy) with qy in R0 by ring.
    unfold aget at 1 3. destruct (in_bounds msize (rA + qy)) eqn:I1; unfold in_bounds in I1; cbn [rbind].
    2:{ cbn. split; [lia|]. intros H. specialize (H 0 ltac:(lia)). replace (qy + 0 * fy) with qy in H by ring. destruct two; exfalso; lia. }
    assert (C2 : (if two then rmap (fun b => Z.shiftl b 1) (aget msize mem (rA + (qy + 8))) else Ok 0) = Ok (plane2 mem two (rA + qy)) \/
      (two = true /\ msize <= rA + (qy + 8) /\ (if two then rmap (fun b => Z.shiftl b 1) (aget msize mem (rA + (qy + 8))) else Ok 0) = Fault (OobRead (rA + (qy + 8))))).
    { unfold plane2. destruct two; [|auto]. unfold aget. destruct (in_bounds msize (rA + (qy + 8))) eqn:I2; unfold in_bounds in I2; cbn; [left; do 3 f_equal; ring|].
      right. repeat split. lia. }
    destruct C2 as [-> | (-> & L & X)].
    2:{ rewrite X. cbn. split; [lia|]. intros H. specialize (H 0 ltac:(lia)). replace (qy + 0 * fy) with qy in H by ring. exfalso; lia. }
    cbn [rbind]. subst xmar2. replace (xmar + 8 - xmar) with 8 by ring. change (Z.to_nat 8) with 8%nat.
    destruct (sprite_row_ok size fx (mem (rA + qy)) (plane2 mem two (rA + qy)) blend 8 (base + (xmar + ay)) qfx buf) as (b1 & R & V1 & O1); [lia|nia|].
    rewrite R. cbn [rbind]. change (Z.of_nat 8) with 8 in V1, O1.
    destruct (IH (ay + wmar2) (qy + fy) b1) as (P1 & P2); [lia|nia| |].
    { intros r Hr. replace (qy + fy + r * fy) with (qy + (r + 1) * fy) by ring. apply HR. lia. }
    split.
    + unfold safe_read in *. destruct (sprite_rows _ _ _ _ _ _ _ _ _ _ _ _ _ _ _ _ _) as [b|f]; [|exact P1].
      intros j. destruct (P1 j) as [-> | X]; [|auto].
      destruct (Z_le_dec (base + (xmar + ay)) j) as [L1|L1]; [|rewrite O1 by lia; auto].
      destruct (Z_lt_dec j (base + (xmar + ay) + 8)) as [L2|L2]; [|rewrite O1 by lia; auto].
      replace j with (base + (xmar + ay) + (j - (base + (xmar + ay)))) by ring. rewrite V1 by lia. apply put_pixel_cases; auto.
    + intros H. apply P2. intros r Hr. replace (qy + fy + r * fy) with (qy + (r + 1) * fy) by ring. apply H. lia.
Qed.

(** ** One sprite *)
Definition cell (w base x y : Z) : Z := base + ((x + 8) + (y + 8) * (w + 16)).

Lemma sprite_pixel old (mem : arr) a two (fxn fyn : bool) line k blend : 0 <= blend < 16 -> 0 <= k < 8 ->
  put_pixel old (colour_of (mem (a + ((if fyn then 7 else 0) + line * sgn fyn)))
                   (plane2 mem two (a + ((if fyn then 7 else 0) + line * sgn fyn)))
                   ((if fxn then 0 else 7) - k * sgn fxn)) blend =
  (let c := sprite_value mem a two fxn fyn k line in
   if transparent c blend then old else blend_colour c blend).
Proof.
  intros Hb Hk.
  set (r := if fyn then 7 - line else line). set (b := if fxn then k else 7 - k).
  replace ((if fyn then 7 else 0) + line * sgn fyn) with r by (unfold r, sgn; destruct fyn; ring).
  replace ((if fxn then 0 else 7) - k * sgn fxn) with b by (unfold b, sgn; destruct fxn; ring).
  assert (Hb7 : 0 <= b < 8) by (unfold b; destruct fxn; lia).
  assert (C : colour_of (mem (a + r)) (plane2 mem two (a + r)) b = sprite_value mem a two fxn fyn k line).
  { unfold colour_of, sprite_value. fold r b.
    pose proof (land_pow2 (Z.shiftr (mem (a + r)) b) 0 ltac:(lia)) as A1. change (2 ^ 0) with 1 in A1. rewrite A1.
    pose proof (land_pow2 (Z.shiftr (plane2 mem two (a + r)) b) 1 ltac:(lia)) as A2. change (2 ^ 1) with 2 in A2. rewrite A2.
    rewrite !Z.shiftr_spec by lia. rewrite Z.add_0_l. unfold plane2.
    destruct two.
    - rewrite Z.shiftl_spec by lia. replace (1 + b - 1) with b by ring.
      destruct (Z.testbit (mem (a + r)) b), (Z.testbit (mem (a + r + 8)) b); reflexivity.
    - rewrite Z.bits_0. destruct (Z.testbit (mem (a + r)) b); reflexivity. }
  rewrite C. cbv zeta. assert (Hc : 0 <= sprite_value mem a two fxn fyn k line < 4) by (rewrite <- C; apply colour_of_range).
  set (c := sprite_value _ _ _ _ _ _ _) in *. clearbody c. clear - Hc Hb.
  assert (X : c = 0 \/ c = 1 \/ c = 2 \/ c = 3) by lia.
  assert (D : blend = 0 \/ blend = 1 \/ blend = 2 \/ blend = 3 \/ blend = 4 \/ blend = 5 \/ blend = 6 \/ blend = 7 \/
    blend = 8 \/ blend = 9 \/ blend = 10 \/ blend = 11 \/ blend = 12 \/ blend = 13 \/ blend = 14 \/ blend = 15) by lia.
  clear Hc Hb.
  repeat match goal with H : _ \/ _ |- _ => destruct H end; subst; reflexivity.
Qed.

(** Where the 16 bit coordinates of a sprite end up. *)
Lemma margins x : let w := wrapped x in
  -8 <= w < 65528 /\ u16 (MAR x) = w + 8 /\ (w < 65520 -> u16 (MAR2 x) = w + 16) /\ (65520 <= w -> u16 (MAR2 x) = w + 16 - 65536).
Proof.
  cbv zeta. unfold wrapped, u16, MAR, MAR2. set (m := (x + 8) mod 65536).
  pose proof (Z.mod_pos_bound (x + 8) 65536 ltac:(lia)) as B. fold m in B.
  assert (E : x + 8 = 65536 * ((x + 8) / 65536) + m) by (apply Z.div_mod; lia).
  split; [lia|]. split; [lia|]. split; intros H.
  - symmetry. apply Z.mod_unique with ((x + 8) / 65536); lia.
  - symmetry. apply Z.mod_unique with ((x + 8) / 65536 + 1); lia.
Qed.

(** Every sprite either shows nothing or draws rows of eight cells inside the layer. *)
Lemma sprite_shape mem msize s fg two x y a fxn fyn blend buf : size_ok (s_w s) (s_h s) ->
  let X := wrapped x in let Y := wrapped y in
  (sprite mem msize s fg two x y a (sgn fxn) (sgn fyn) blend buf = Ok buf /\
   (s_w s <= X \/ s_h s <= Y)) \/
  (X < s_w s /\ Y < s_h s /\ -8 <= X /\ -8 <= Y /\
   0 <= s_base s fg + (X + 8 + (Y + 8) * MAR2 (s_w s)) /\
   s_base s fg + (X + 8 + (Y + 8) * MAR2 (s_w s)) + (Z.of_nat 8 - 1) * MAR2 (s_w s) + 8 <= s_base s fg + s_length s /\
   s_base s fg + s_length s <= s_size s /\
   sprite mem msize s fg two x y a (sgn fxn) (sgn fyn) blend buf =
   sprite_rows mem msize (s_size s) two 8 a (s_base s fg) ((Y + 8) * MAR2 (s_w s)) (MAR2 (s_w s))
     (if fyn then 7 else 0) (X + 8) (X + 16) (sgn fxn) (sgn fyn) (if fxn then 0 else 7) blend buf).
Proof.
  intros (Hw & Hh). cbv zeta. destruct (margins x) as (X0 & X1 & X2 & X3), (margins y) as (Y0 & Y1 & Y2 & Y3).
  unfold sprite. rewrite X1, Y1.
  set (X := wrapped x) in *. set (Y := wrapped y) in *. clearbody X Y.
  unfold MAR, MAR2 in *.
  destruct (X + 8 <? s_w s + 8) eqn:E1; cbn [andb]; [|left; split; [reflexivity|lia]].
  destruct (Z_lt_dec Y 65520) as [L|L].
  - rewrite (Y2 L), X2 by lia. destruct (Y + 16 <? s_h s + 16) eqn:E2; [|left; split; [reflexivity|lia]].
    right. rewrite !i32_ok by nia. cbn [rbind]. replace (Z.to_nat (Y + 16 - (Y + 8))) with 8%nat by lia.
    split; [lia|]. split; [lia|]. split; [lia|]. split; [lia|].
    assert (LB : 0 <= s_base s fg /\ s_base s fg + s_length s <= s_size s).
    { unfold s_base, s_size. assert (0 <= s_length s) by (unfold s_length, MAR2; nia). destruct fg; lia. }
    split; [nia|]. split; [unfold s_length, MAR2; nia|]. split; [lia|].
    destruct fxn, fyn; reflexivity.
  - left. rewrite Y3 by lia. split; [|lia]. destruct (Y + 16 - 65536 <? s_h s + 16); [|reflexivity].
    rewrite !i32_ok by nia. cbn [rbind]. replace (Z.to_nat (Y + 16 - 65536 - (Y + 8))) with 0%nat by lia. reflexivity.
Qed.

Lemma cell_inj w base x y x' y' : 0 <= w -> -8 <= x < w + 8 -> -8 <= x' < w + 8 -> cell w base x y = cell w base x' y' -> x = x' /\ y = y'.
Proof.
  unfold cell. intros Hw Hx Hx' E.
  assert (F : (x + 8) - (x' + 8) = (y' - y) * (w + 16)) by lia.
  assert (y' - y = 0).
  { assert (- (w + 16) < (y' - y) * (w + 16) < w + 16) by lia. nia. }
  split; nia.
Qed.

Lemma sprite_post mem msize s fg two x y a fxn fyn blend buf buf' : size_ok (s_w s) (s_h s) -> 0 <= blend < 16 ->
  sprite mem msize s fg two x y a (sgn fxn) (sgn fyn) blend buf = Ok buf' ->
  (forall px py, visible s px py -> buf' (cell (s_w s) (s_base s fg) px py) =
     stamp mem a two fxn fyn blend (wrapped x) (wrapped y) (fun px py => buf (cell (s_w s) (s_base s fg) px py)) px py) /\
  (forall j, ~ s_base s fg <= j < s_base s fg + s_length s -> buf' j = buf j).
Proof.
  intros Hs Hb E. destruct (sprite_shape mem msize s fg two x y a fxn fyn blend buf Hs) as [(E' & N)|(X1 & Y1 & X0 & Y0 & B1 & B2 & B3 & E')]; cbv zeta in *.
  - rewrite E in E'. injection E' as ->. split; [|auto]. intros px py (Hx & Hy). unfold stamp. replace (_ && _) with false by lia. auto.
  - rewrite E in E'. symmetry in E'. destruct Hs as (Hw & Hh).
    destruct (sprite_rows_post mem msize (s_size s) two a (s_base s fg) (MAR2 (s_w s)) (wrapped x + 8) (wrapped x + 16) (sgn fxn) (sgn fyn)
      (if fxn then 0 else 7) blend ltac:(unfold MAR2; lia) ltac:(lia) 8 _ _ buf buf' B1 ltac:(lia) E') as (P1 & P2).
    set (X := wrapped x) in *. set (Y := wrapped y) in *. clearbody X Y. change (Z.of_nat 8) with 8 in *. unfold MAR2 in *.
    split.
    + intros px py (Hx & Hy). unfold stamp.
      destruct ((X <=? px) && (px <? X + 8) && (Y <=? py) && (py <? Y + 8)) eqn:IN.
      * replace (cell (s_w s) (s_base s fg) px py) with (s_base s fg + (X + 8 + (Y + 8) * (s_w s + 16)) + (py - Y) * (s_w s + 16) + (px - X))
          by (unfold cell; ring).
        rewrite P1 by lia. rewrite sprite_pixel by lia. reflexivity.
      * apply P2. intros r k Hr Hk EQ.
        assert (C : cell (s_w s) (s_base s fg) px py = cell (s_w s) (s_base s fg) (X + k) (Y + r)) by (rewrite EQ; unfold cell; ring).
        apply cell_inj in C; [lia|lia|lia|lia].
    + intros j Hj. apply P2. intros r k Hr Hk ->. apply Hj. nia.
Qed.

Lemma sprite_safe mem msize s fg two x y a fxn fyn blend buf : size_ok (s_w s) (s_h s) -> 0 <= blend < 16 -> 0 <= a ->
  safe_read msize buf (sprite mem msize s fg two x y a (sgn fxn) (sgn fyn) blend buf) /\
  (a + (if two then 16 else 8) <= msize -> exists b, sprite mem msize s fg two x y a (sgn fxn) (sgn fyn) blend buf = Ok b).
Proof.
  intros Hs Hb Ha. destruct (sprite_shape mem msize s fg two x y a fxn fyn blend buf Hs) as [(E' & N)|(X1 & Y1 & X0 & Y0 & B1 & B2 & B3 & E')]; cbv zeta in *.
  - rewrite E'. cbn. eauto.
  - rewrite E'. destruct Hs as (Hw & Hh).
    destruct (sprite_rows_safe mem msize (s_size s) two a (s_base s fg) (MAR2 (s_w s)) (wrapped x + 8) (wrapped x + 16) (sgn fxn) (sgn fyn)
      (if fxn then 0 else 7) blend ltac:(unfold MAR2; lia) ltac:(lia) Hb 8 ((wrapped y + 8) * MAR2 (s_w s)) (if fyn then 7 else 0) buf B1 ltac:(lia)) as (P1 & P2).
    { intros r Hr. unfold sgn. destruct fyn; lia. }
    split; [exact P1|]. intros L. apply P2. intros r Hr. unfold sgn. destruct fyn, two; lia.
Qed.

(** ** The loop over the sprites of one draw *)
Lemma stamp_ext mem a two fxn fyn blend x y i1 i2 (P : Z -> Z -> Prop) :
  (forall px py, P px py -> i1 px py = i2 px py) -> forall px py, P px py ->
  stamp mem a two fxn fyn blend x y i1 px py = stamp mem a two fxn fyn blend x y i2 px py.
Proof. intros H px py HP. unfold stamp. destruct (_ && _); [|auto]. cbv zeta. destruct (transparent _ _); auto. Qed.

Lemma stamps_ext mem n two fxn fyn blend dx dy da (P : Z -> Z -> Prop) : forall a x y i1 i2,
  (forall px py, P px py -> i1 px py = i2 px py) -> forall px py, P px py ->
  stamps mem n a da two fxn fyn blend x dx y dy i1 px py = stamps mem n a da two fxn fyn blend x dx y dy i2 px py.
Proof.
  induction n as [|n IH]; intros a x y i1 i2 H px py HP; cbn [stamps]; [auto|].
  apply IH; auto. intros. eapply stamp_ext with (P := P); eauto.
Qed.

Lemma sprites_post mem msize s fg two fxn fyn blend dx dy da : size_ok (s_w s) (s_h s) -> 0 <= blend < 16 ->
  forall n x y a buf x' y' a' buf',
  sprites mem msize s fg two n x y a dx dy da (sgn fxn) (sgn fyn) blend buf = Ok (x', y', a', buf') ->
  x' = x + Z.of_nat n * dx /\ y' = y + Z.of_nat n * dy /\ a' = a + Z.of_nat n * da /\
  (forall px py, visible s px py -> buf' (cell (s_w s) (s_base s fg) px py) =
     stamps mem n a da two fxn fyn blend x dx y dy (fun px py => buf (cell (s_w s) (s_base s fg) px py)) px py) /\
  (forall j, ~ s_base s fg <= j < s_base s fg + s_length s -> buf' j = buf j).
Proof.
  intros Hs Hb. induction n as [|n IH]; intros x y a buf x' y' a' buf' E.
  - cbn in E. injection E as <- <- <- <-. cbn [stamps]. rewrite !Z.add_0_r. auto 6.
  - cbn [sprites] in E. destruct (sprite mem msize s fg two x y a (sgn fxn) (sgn fyn) blend buf) as [b1|] eqn:E1; [|discriminate].
    cbn [rbind] in E. destruct (sprite_post _ _ _ _ _ _ _ _ _ _ _ _ _ Hs Hb E1) as (P1 & P2).
    unfold int32 in E. destruct (in_int (x + dx)); [|discriminate]. cbn [rbind] in E.
    destruct (in_int (y + dy)); [|discriminate]. cbn [rbind] in E. destruct (in_int (a + da)); [|discriminate]. cbn [rbind] in E.
    destruct (IH _ _ _ _ _ _ _ _ E) as (-> & -> & -> & Q1 & Q2). split; [lia|]. split; [lia|]. split; [lia|]. split.
    + intros px py Hv. rewrite Q1 by auto. cbn [stamps]. apply stamps_ext with (P := visible s); auto.
    + intros j Hj. rewrite Q2, P2; auto.
Qed.

Definition small (n k x : Z) : Prop := - n * k <= x <= n * k.

Lemma sprites_safe mem msize s fg two fxn fyn blend dx dy da : size_ok (s_w s) (s_h s) -> 0 <= blend < 16 ->
  -16 <= dx <= 16 -> -16 <= dy <= 16 -> 0 <= da <= 16 ->
  forall n x y a buf, 0 <= a -> (n <= 16)%nat ->
  let R := sprites mem msize s fg two n x y a dx dy da (sgn fxn) (sgn fyn) blend buf in
  match R with
  | Ok (_, _, _, b) => forall j, b j = buf j \/ 0 <= b j < 4
  | Fault (OobRead k) => msize <= k
  | Fault (SignedOverflow _) => ~ (-1073741824 - 256 + 16 * Z.of_nat n <= x <= 1073741824 + 256 - 16 * Z.of_nat n /\
      -1073741824 - 256 + 16 * Z.of_nat n <= y <= 1073741824 + 256 - 16 * Z.of_nat n /\
      a <= 1073741824 + 256 - 16 * Z.of_nat n)
  | Fault _ => False
  end /\
  (-1073741824 - 256 + 16 * Z.of_nat n <= x <= 1073741824 + 256 - 16 * Z.of_nat n ->
      -1073741824 - 256 + 16 * Z.of_nat n <= y <= 1073741824 + 256 - 16 * Z.of_nat n ->
      a <= 1073741824 + 256 - 16 * Z.of_nat n ->
   a + (Z.of_nat n - 1) * da + (if two then 16 else 8) <= msize -> exists r, R = Ok r).
Proof.
  intros Hs Hb Hx Hy Ha. induction n as [|n IH]; intros x y a buf A0 Hn; cbv zeta.
  - cbn [sprites]. split; [auto|eauto].
  - cbn [sprites]. destruct (sprite_safe mem msize s fg two x y a fxn fyn blend buf Hs Hb A0) as (S1 & S2).
    destruct (sprite mem msize s fg two x y a (sgn fxn) (sgn fyn) blend buf) as [b1|f] eqn:E1; cbn [rbind].
    2:{ split; [destruct f; cbn in S1; try contradiction; exact S1|]. intros _ _ _ L. destruct S2 as (b & X); [nia|discriminate]. }
    cbn in S1. unfold int32 at 1 4. unfold in_int, INT_MIN, INT_MAX. destruct (_ && _) eqn:I1; cbn [rbind]; [|split; [cbv beta iota; intros (? & ? & ?)|intros]; exfalso; lia].
    unfold int32 at 1 3. unfold in_int, INT_MIN, INT_MAX. destruct (_ && _) eqn:I2 in |- *; cbn [rbind]; [|split; [cbv beta iota; intros (? & ? & ?)|intros]; exfalso; lia].
    unfold int32 at 1 2. unfold in_int, INT_MIN, INT_MAX. destruct (_ && _) eqn:I3 in |- *; cbn [rbind]; [|split; [cbv beta iota; intros (? & ? & ?)|intros]; exfalso; lia].
    destruct (IH (x + dx) (y + dy) (a + da) b1 ltac:(lia) ltac:(lia)) as (Q1 & Q2). split.
    + destruct (sprites _ _ _ _ _ _ _ _ _ _ _ _ _ _ _ _) as [[[[x' y'] a'] b]|[]]; auto; try (intros X; apply Q1; lia).
      intros j. destruct (Q1 j) as [-> | Q]; auto.
    + intros L1 L2 L3 L4. apply Q2; lia.
Qed.

(** ** Drawing: what changes *)
Lemma s_base_shown s fg x y : shown s fg x y = s_buf s (cell (s_w s) (s_base s fg) x y).
Proof. unfold shown, cell, s_base, s_length, MAR2. destruct fg; reflexivity. Qed.

Lemma length_nonneg s : size_ok (s_w s) (s_h s) -> 256 <= s_length s.
Proof. intros (H1 & H2). unfold s_length, MAR2. nia. Qed.

Lemma cell_inside s fg x y : size_ok (s_w s) (s_h s) -> -8 <= x < s_w s + 8 -> -8 <= y < s_h s + 8 ->
  s_base s fg <= cell (s_w s) (s_base s fg) x y < s_base s fg + s_length s.
Proof. intros (H1 & H2) Hx Hy. unfold cell, s_length, MAR2. nia. Qed.

Lemma base_cases s fg fg' : fg <> fg' -> forall j, s_base s fg' <= j < s_base s fg' + s_length s -> ~ s_base s fg <= j < s_base s fg + s_length s.
Proof. intros H j. unfold s_base. destruct fg, fg'; try congruence; lia. Qed.

Lemma base_size s fg : size_ok (s_w s) (s_h s) -> 0 <= s_base s fg /\ s_base s fg + s_length s <= s_size s.
Proof. intros H. pose proof (length_nonneg s H). unfold s_base, s_size. destruct fg; lia. Qed.

Lemma dirty_in r a1 b1 a2 b2 x y : in_rect r x y -> in_rect (dirty r a1 b1 a2 b2) x y.
Proof. unfold in_rect, dirty. cbn. intros. destruct (_ <? _) eqn:?, (b1 <? _) eqn:?, (a2 >? _) eqn:?, (b2 >? _) eqn:?; lia. Qed.
Lemma dirty_new r a1 b1 a2 b2 x y : a1 <= x < a2 -> b1 <= y < b2 -> in_rect (dirty r a1 b1 a2 b2) x y.
Proof. unfold in_rect, dirty. cbn. intros. destruct (_ <? _) eqn:?, (b1 <? _) eqn:?, (a2 >? _) eqn:?, (b2 >? _) eqn:?; lia. Qed.

(** [s'] is [s] after drawing on layer [fg]: only that layer and its rectangle change. *)
Definition drawn (s s' : screen) (fg : bool) : Prop :=
  same_size s s' /\ rMX s' = rMX s /\ rMY s' = rMY s /\ rMA s' = rMA s /\ rML s' = rML s /\ rDX s' = rDX s /\ rDY s' = rDY s /\
  s_dirty s' (negb fg) = s_dirty s (negb fg) /\
  (forall x y, in_rect (s_dirty s fg) x y -> in_rect (s_dirty s' fg) x y) /\
  (forall j, ~ s_base s fg <= j < s_base s fg + s_length s -> s_buf s' j = s_buf s j) /\
  ((forall i, 0 <= i < s_size s -> 0 <= s_buf s i < 4) -> forall i, 0 <= i < s_size s -> 0 <= s_buf s' i < 4).

Lemma drawn_ok s s' fg : screen_ok s -> drawn s s' fg -> 0 <= rA s' -> screen_ok s'.
Proof.
  intros (A & B & C & D & E & F & G & H & I) ((W1 & W2) & R1 & R2 & R3 & R4 & R5 & R6 & _ & _ & _ & V) HA.
  unfold screen_ok. rewrite <- W1, <- W2, R1, R2, R3, R4, R5, R6. repeat (split; [assumption|]). exact (V I).
Qed.

Lemma drawn_layer s buf fg d x y a :
  (forall x y, in_rect (s_dirty s fg) x y -> in_rect d x y) ->
  (forall j, ~ s_base s fg <= j < s_base s fg + s_length s -> buf j = s_buf s j) ->
  ((forall i, 0 <= i < s_size s -> 0 <= s_buf s i < 4) -> forall i, 0 <= i < s_size s -> 0 <= buf i < 4) ->
  drawn s (set_xya (set_layer s buf fg d) x y a) fg.
Proof.
  intros H1 H2 H3. unfold drawn, same_size. cbn. split; [split; reflexivity|]. repeat (split; [reflexivity|]).
  split; [destruct fg; reflexivity|]. split; [destruct fg; exact H1|]. auto.
Qed.

Lemma pixel_post s ctrl s' : size_ok (s_w s) (s_h s) -> 0 <= Z.land ctrl 3 < 4 -> pixel s ctrl = Ok s' ->
  let fg := Z.testbit ctrl 6 in
  drawn s s' fg /\ rA s' = rA s /\
  rX s' = rX s + (if rMX s =? 0 then 0 else 1) /\ rY s' = rY s + (if rMY s =? 0 then 0 else 1) /\
  in_rect (s_dirty s' fg) (rX s) (rY s) /\
  (forall x y, visible s x y -> shown s' fg x y = dot (rX s) (rY s) (Z.land ctrl 3) (shown s fg) x y).
Proof.
  intros Hs Hc E. unfold pixel in E. rewrite (flag ctrl 6 64) in E by (reflexivity || lia). cbv zeta in E |- *.
  set (fg := Z.testbit ctrl 6) in *. clearbody fg. pose proof (base_size s fg Hs) as (B1 & B2). pose proof (length_nonneg s Hs) as LN.
  destruct ((rX s >=? 0) && (rY s >=? 0) && (rX s <? MAR2 (s_w s)) && (rY s <? s_h s)) eqn:C.
  - assert (IN : s_base s fg <= s_base s fg + (MAR (rX s) + MAR (rY s) * MAR2 (s_w s)) < s_base s fg + s_length s).
    { unfold MAR, MAR2, s_length in *. unfold MAR2 in *. destruct Hs as (? & ?). nia. }
    rewrite aset_ok in E by lia. cbn [rbind] in E. set (i := s_base s fg + _) in *.
    unfold int32 in E. destruct (in_int (rX s + 1)); [|discriminate]. destruct (in_int (rY s + 1)); [|discriminate]. cbn [rbind] in E.
    injection E as <-. split; [|split; [reflexivity|split; [|split; [|split]]]].
    + apply drawn_layer; [intros; apply dirty_in; auto|intros j Hj; apply upd_ne; lia|].
      intros H j Hj. unfold upd. destruct (j =? i); auto.
    + cbn. destruct (rMX s =? 0); ring.
    + cbn. destruct (rMY s =? 0); ring.
    + destruct fg; cbn; apply dirty_new; lia.
    + intros x y (Vx & Vy). unfold dot. rewrite !s_base_shown. cbn [s_buf s_w set_xya set_layer].
      assert (F : forall b, s_base (set_xya (set_layer s b fg (dirty (s_dirty s fg) (rX s) (rY s) (rX s + 1) (rY s + 1)))
        (if rMX s =? 0 then rX s else rX s + 1) (if rMY s =? 0 then rY s else rY s + 1) (rA s)) fg = s_base s fg) by reflexivity.
      rewrite F. destruct ((x =? rX s) && (y =? rY s)) eqn:XY.
      * replace i with (cell (s_w s) (s_base s fg) x y); [apply upd_eq|]. unfold i, cell, MAR, MAR2. replace (rX s) with x by lia. replace (rY s) with y by lia. ring.
      * apply upd_ne. intros EQ. destruct Hs as (Hw & Hh). unfold MAR2 in C. destruct (Z_lt_dec (rX s) (s_w s + 8)) as [L|L].
        -- assert (CE : cell (s_w s) (s_base s fg) x y = cell (s_w s) (s_base s fg) (rX s) (rY s)) by (rewrite EQ; reflexivity).
           apply cell_inj in CE; lia.
        -- assert (CE : cell (s_w s) (s_base s fg) x y = cell (s_w s) (s_base s fg) (rX s - (s_w s + 16)) (rY s + 1)) by (rewrite EQ; unfold i, cell, MAR, MAR2; ring).
           apply cell_inj in CE; lia.
  - cbn [rbind] in E. unfold int32 in E. destruct (in_int (rX s + 1)); [|discriminate]. destruct (in_int (rY s + 1)); [|discriminate]. cbn [rbind] in E.
    injection E as <-. split; [|split; [reflexivity|split; [|split; [|split]]]].
    + apply drawn_layer; [intros; apply dirty_in; auto|auto|auto].
    + cbn. destruct (rMX s =? 0); ring.
    + cbn. destruct (rMY s =? 0); ring.
    + destruct fg; cbn; apply dirty_new; lia.
    + intros x y (Vx & Vy). unfold dot, MAR2 in *. replace (_ && _) with false by lia. reflexivity.
Qed.

Lemma low_bits ctrl k n : 0 <= k -> n = 2 ^ k -> Z.land ctrl (n - 1) = ctrl mod n.
Proof. intros H ->. rewrite <- Z.land_ones by auto. f_equal. rewrite Z.ones_equiv. lia. Qed.

(** The cells of a fill as the model computes them. *)
Lemma fill_eq0 s ctrl :
  let '(xa, xb) := fill_x s ctrl in let '(ya, yb) := fill_y s ctrl in
  let fg := Z.testbit ctrl 6 in let l := s_w s + 16 in
  fill s ctrl =
  rbind (int32 ((ya + 8) * l)) (fun _ => rbind (int32 ((yb - ya) * l)) (fun _ => rbind (int32 ((yb + 8) * l)) (fun _ =>
  rbind (fill_rows (s_size s) (Z.to_nat (yb - ya)) (s_base s fg) ((ya + 8) * l) l (xa + 8) (xb - xa) (ctrl mod 4) (s_buf s))
    (fun buf => Ok (set_layer s buf fg (dirty (s_dirty s fg) xa ya xb yb)))))).
Proof.
  unfold fill, fill_x, fill_y, bit. rewrite (flag ctrl 6 64), (flag ctrl 4 16), (flag ctrl 5 32) by (reflexivity || lia).
  change 3 with (4 - 1). rewrite (low_bits ctrl 2 4) by (reflexivity || lia).
  set (fg := Z.testbit ctrl 6). unfold MAR, MAR2.
  assert (L : forall a b : Z, a + 8 - (b + 8) = a - b) by (intros; ring).
  assert (R : forall y, y + 8 - 8 = y) by (intros; ring).
  destruct (Z.testbit ctrl 4), (Z.testbit ctrl 5); cbv zeta; rewrite !L, ?R;
    unfold int32 at 1 4; (destruct (in_int _); cbn [rbind]; [|reflexivity]);
    (destruct (int32 _) as [vl|] eqn:E; cbn [rbind]; [|reflexivity]);
    (unfold int32 in E; destruct (in_int _) in E; [|discriminate]; injection E as <-);
    rewrite <- Z.mul_add_distr_r.
  all: match goal with |- rbind (int32 (?a * _)) _ = rbind (int32 (?b * _)) _ => replace a with b by ring end; reflexivity.
Qed.

Lemma fill_eq s ctrl : size_ok (s_w s) (s_h s) -> -32768 <= rY s <= 65519 ->
  let '(xa, xb) := fill_x s ctrl in let '(ya, yb) := fill_y s ctrl in
  let fg := Z.testbit ctrl 6 in
  fill s ctrl =
  rbind (fill_rows (s_size s) (Z.to_nat (yb - ya)) (s_base s fg) ((ya + 8) * (s_w s + 16)) (s_w s + 16) (xa + 8) (xb - xa) (ctrl mod 4) (s_buf s))
    (fun buf => Ok (set_layer s buf fg (dirty (s_dirty s fg) xa ya xb yb))).
Proof.
  intros (Hw & Hh) HY. pose proof (fill_eq0 s ctrl) as Q. destruct (fill_x s ctrl) as [xa xb].
  assert (B : let '(ya, yb) := fill_y s ctrl in -32768 <= ya <= 65519 /\ -32768 <= yb <= 65519 /\ -65535 <= yb - ya <= 65535)
    by (unfold fill_y; destruct (bit ctrl 5); lia).
  destruct (fill_y s ctrl) as [ya yb]. cbv zeta in Q |- *. rewrite Q. rewrite !i32_ok by nia. reflexivity.
Qed.

Lemma fill_inv s ctrl s' : fill s ctrl = Ok s' ->
  let '(xa, xb) := fill_x s ctrl in let '(ya, yb) := fill_y s ctrl in
  let fg := Z.testbit ctrl 6 in
  rbind (fill_rows (s_size s) (Z.to_nat (yb - ya)) (s_base s fg) ((ya + 8) * (s_w s + 16)) (s_w s + 16) (xa + 8) (xb - xa) (ctrl mod 4) (s_buf s))
    (fun buf => Ok (set_layer s buf fg (dirty (s_dirty s fg) xa ya xb yb))) = Ok s'.
Proof.
  intros E. pose proof (fill_eq0 s ctrl) as Q. destruct (fill_x s ctrl) as [xa xb], (fill_y s ctrl) as [ya yb]. cbv zeta in Q |- *.
  rewrite Q in E. unfold int32 in E. destruct (in_int _) in E; [|discriminate]. cbn [rbind] in E.
  destruct (in_int _) in E; [|discriminate]. cbn [rbind] in E. destruct (in_int _) in E; [|discriminate]. cbn [rbind] in E. exact E.
Qed.

Lemma fill_post s ctrl s' : size_ok (s_w s) (s_h s) -> fill_safe s ctrl -> fill s ctrl = Ok s' ->
  let fg := Z.testbit ctrl 6 in
  drawn s s' fg /\ rA s' = rA s /\ rX s' = rX s /\ rY s' = rY s /\
  (forall x y, visible s x y -> shown s' fg x y = shown s fg x y \/ in_rect (s_dirty s' fg) x y) /\
  (forall x y, visible s x y ->
     shown s' fg x y = quadrant (Z.testbit ctrl 4) (Z.testbit ctrl 5) (rX s) (rY s) (ctrl mod 4) (shown s fg) x y).
Proof.
  intros Hs HF E. pose proof (fill_inv s ctrl s' E) as Q. clear E. unfold fill_safe in HF.
  unfold fill_x, fill_y, bit in *.
  set (xx := if Z.testbit ctrl 4 then (0, rX s) else (rX s, s_w s)) in *.
  set (yy := if Z.testbit ctrl 5 then (0, rY s) else (rY s, s_h s)) in *.
  destruct xx as [xa xb] eqn:EX. destruct yy as [ya yb] eqn:EY. subst xx yy. cbv zeta in Q. rename Q into E. cbv zeta.
  set (fg := Z.testbit ctrl 6) in *. clearbody fg. set (color := ctrl mod 4) in *.
  assert (HC : 0 <= color < 4) by (unfold color; apply Z.mod_pos_bound; lia). clearbody color.
  pose proof (base_size s fg Hs) as (B1 & B2).
  assert (X : exists buf', fill_rows (s_size s) (Z.to_nat (yb - ya)) (s_base s fg) ((ya + 8) * (s_w s + 16)) (s_w s + 16) (xa + 8) (xb - xa) color (s_buf s) = Ok buf' /\
    (forall x y, xa <= x < xb -> ya <= y < yb -> buf' (cell (s_w s) (s_base s fg) x y) = color) /\
    (forall j, (forall x y, xa <= x < xb -> ya <= y < yb -> j <> cell (s_w s) (s_base s fg) x y) -> buf' j = s_buf s j) /\
    (forall j, buf' j = s_buf s j \/ buf' j = color)).
  { destruct (Z_lt_dec xa xb) as [LX|LX].
    - destruct (fill_rows_ok (s_size s) (s_base s fg) (s_w s + 16) (xa + 8) (xb - xa) color ltac:(lia) ltac:(destruct Hs; lia)
        (Z.to_nat (yb - ya)) ((ya + 8) * (s_w s + 16)) (s_buf s)) as (b & R & P1 & P2 & P3).
      { destruct (Z_lt_dec ya yb) as [LY|LY]; [|left; lia]. right. right. destruct HF as [HF|[HF|(F1 & F2 & F3 & F4)]]; [lia|lia|].
        rewrite Z2Nat.id by lia. unfold s_length, MAR2 in B2. destruct Hs as (Hw & Hh). nia. }
      exists b. split; [exact R|]. split; [|split; [|exact P3]].
      + intros x y Hx Hy. replace (cell (s_w s) (s_base s fg) x y) with
          (s_base s fg + (ya + 8) * (s_w s + 16) + (y - ya) * (s_w s + 16) + (xa + 8) + (x - xa)) by (unfold cell; ring). apply P1; lia.
      + intros j Hj. apply P2. intros r c Hr Hc. intros EQ. apply (Hj (xa + c) (ya + r)); [lia|lia|]. rewrite EQ. unfold cell. ring.
    - assert (Z0 : forall n ay, fill_rows (s_size s) n (s_base s fg) ay (s_w s + 16) (xa + 8) (xb - xa) color (s_buf s) = Ok (s_buf s)).
      { induction n as [|n IH]; intros ay; cbn [fill_rows]; [reflexivity|]. replace (Z.to_nat (xb - xa)) with 0%nat by lia. cbn [fill_row rbind]. apply IH. }
      exists (s_buf s). split; [apply Z0|]. split; [intros; lia|]. auto. }
  destruct X as (b & R & P1 & P2 & P3). rewrite R in E. cbn [rbind] in E. injection E as <-.
  assert (SX : set_layer s b fg (dirty (s_dirty s fg) xa ya xb yb) = set_xya (set_layer s b fg (dirty (s_dirty s fg) xa ya xb yb)) (rX s) (rY s) (rA s)) by reflexivity.
  split; [|split; [reflexivity|split; [reflexivity|split; [reflexivity|]]]].
  - rewrite SX. apply drawn_layer; [intros; apply dirty_in; auto| |].
    + intros j Hj. apply P2. intros x y Hx Hy ->. apply Hj. apply cell_inside; auto; lia.
    + intros H j Hj. destruct (P3 j) as [-> | ->]; auto.
  - assert (SH : forall x y, shown (set_layer s b fg (dirty (s_dirty s fg) xa ya xb yb)) fg x y = b (cell (s_w s) (s_base s fg) x y))
      by (intros; rewrite s_base_shown; reflexivity).
    assert (IN : forall x y, visible s x y -> b (cell (s_w s) (s_base s fg) x y) =
      if (xa <=? x) && (x <? xb) && (ya <=? y) && (y <? yb) then color else s_buf s (cell (s_w s) (s_base s fg) x y)).
    { intros x y (Vx & Vy). destruct (_ && _) eqn:I; [apply P1; lia|]. apply P2. intros x' y' Hx Hy C.
      apply cell_inj in C; [lia|destruct Hs; lia|lia|lia]. }
    split.
    + intros x y V. rewrite SH, IN by auto. destruct (_ && _) eqn:I; [right|left; symmetry; apply s_base_shown].
      destruct fg; cbn; apply dirty_new; lia.
    + intros x y V. rewrite SH, IN by auto. unfold quadrant. rewrite <- s_base_shown. destruct V as (Vx & Vy).
      destruct (Z.testbit ctrl 4), (Z.testbit ctrl 5); injection EX as <- <-; injection EY as <- <-;
        match goal with |- (if ?a then _ else _) = (if ?b then _ else _) => replace a with b by lia; reflexivity end.
Qed.

Lemma fill_exact s ctrl : size_ok (s_w s) (s_h s) -> -32768 <= rY s <= 65519 ->
  (fill_outside s ctrl -> exists k, fill s ctrl = Fault (OobWrite k) /\ ~ 0 <= k < s_size s) /\
  (~ fill_outside s ctrl -> exists s', fill s ctrl = Ok s' /\
     rX s' = rX s /\ rY s' = rY s /\ rA s' = rA s /\ (forall j, s_buf s' j = s_buf s j \/ 0 <= s_buf s' j < 4) /\ same_size s s' /\
     rMX s' = rMX s /\ rMY s' = rMY s /\ rMA s' = rMA s /\ rML s' = rML s /\ rDX s' = rDX s /\ rDY s' = rDY s).
Proof.
  intros Hs HY. pose proof (fill_eq s ctrl Hs HY) as Q. unfold fill_outside, offset, bit in *.
  destruct (fill_x s ctrl) as [xa xb]. destruct (fill_y s ctrl) as [ya yb]. cbv zeta in Q. rewrite Q. clear Q.
  set (fg := Z.testbit ctrl 6) in *. clearbody fg. set (color := ctrl mod 4) in *.
  assert (HC : 0 <= color < 4) by (unfold color; apply Z.mod_pos_bound; lia). clearbody color.
  assert (EB : (if fg then (s_w s + 16) * (s_h s + 16) else 0) = s_base s fg) by reflexivity.
  assert (ES : 2 * ((s_w s + 16) * (s_h s + 16)) = s_size s) by reflexivity. rewrite EB, ES.
  assert (HL : 0 < s_w s + 16) by (destruct Hs; lia).
  split.
  - intros (LX & LY & H).
    destruct (fill_rows_fault (s_size s) (s_base s fg) (s_w s + 16) (xa + 8) (xb - xa) color ltac:(lia) HL (Z.to_nat (yb - ya))
      ((ya + 8) * (s_w s + 16)) (s_buf s)) as (k & -> & K); [lia| |exists k; split; [reflexivity|exact K]].
    rewrite Z2Nat.id by lia. intros (C1 & C2). destruct H as [H|H]; nia.
  - intros H.
    assert (X : exists b, fill_rows (s_size s) (Z.to_nat (yb - ya)) (s_base s fg) ((ya + 8) * (s_w s + 16)) (s_w s + 16) (xa + 8) (xb - xa) color (s_buf s) = Ok b /\
      forall j, b j = s_buf s j \/ b j = color).
    { destruct (Z_lt_dec xa xb) as [LX|LX].
      - destruct (fill_rows_ok (s_size s) (s_base s fg) (s_w s + 16) (xa + 8) (xb - xa) color ltac:(lia) HL
          (Z.to_nat (yb - ya)) ((ya + 8) * (s_w s + 16)) (s_buf s)) as (b & R & _ & _ & P3); [|exists b; auto].
        destruct (Z_lt_dec ya yb) as [LY|LY]; [|left; lia]. right. right. rewrite Z2Nat.id by lia.
        assert (A1 : ~ s_base s fg + (xa + 8 + (ya + 8) * (s_w s + 16)) < 0) by (intros ?; apply H; auto).
        assert (A2 : ~ s_size s <= s_base s fg + (xb - 1 + 8 + (yb - 1 + 8) * (s_w s + 16))) by (intros ?; apply H; auto).
        split; nia.
      - exists (s_buf s). split; [|auto]. generalize ((ya + 8) * (s_w s + 16)). generalize (Z.to_nat (yb - ya)).
        induction n as [|n IH]; intros ay; cbn [fill_rows]; [reflexivity|]. replace (Z.to_nat (xb - xa)) with 0%nat by lia. cbn [fill_row rbind]. apply IH. }
    destruct X as (b & -> & P3). cbn [rbind]. eexists. split; [reflexivity|]. cbn. repeat (split; [reflexivity|]).
    split; [|repeat split]. intros j. destruct (P3 j) as [-> | ->]; auto.
Qed.

(** ** Sprite mode *)
Lemma stamps_frame mem two fxn fyn blend dx dy da px py : forall n a x y img,
  (forall i, 0 <= i < Z.of_nat n -> ~ (wrapped (x + i * dx) <= px < wrapped (x + i * dx) + 8 /\ wrapped (y + i * dy) <= py < wrapped (y + i * dy) + 8)) ->
  stamps mem n a da two fxn fyn blend x dx y dy img px py = img px py.
Proof.
  induction n as [|n IH]; intros a x y img H; cbn [stamps]; [reflexivity|].
  rewrite IH.
  - unfold stamp. specialize (H 0 ltac:(lia)). replace (x + 0 * dx) with x in H by ring. replace (y + 0 * dy) with y in H by ring.
    replace (_ && _) with false by lia. reflexivity.
  - intros i Hi. specialize (H (i + 1) ltac:(lia)). replace (x + dx + i * dx) with (x + (i + 1) * dx) by ring.
    replace (y + dy + i * dy) with (y + (i + 1) * dy) by ring. exact H.
Qed.

Lemma wrapped_in_view x : in_view x -> forall w p, 0 <= w <= 32752 -> 0 <= p < w -> wrapped x <= p < wrapped x + 8 -> wrapped x = x.
Proof.
  unfold in_view, wrapped. intros H w p Hw Hp H1.
  destruct (Z_lt_dec x (-8)) as [L|L].
  - exfalso. assert (E : (x + 8) mod 65536 = x + 8 + 65536) by (symmetry; apply Z.mod_unique with (-1); lia). lia.
  - rewrite Z.mod_small by lia. lia.
Qed.

Definition step_x (s : screen) (ctrl : Z) : Z := if rMY s =? 0 then 0 else 8 * sgn (Z.testbit ctrl 4).
Definition step_y (s : screen) (ctrl : Z) : Z := if rMX s =? 0 then 0 else 8 * sgn (Z.testbit ctrl 5).
Definition step_a (s : screen) (ctrl : Z) : Z := if rMA s =? 0 then 0 else if Z.testbit ctrl 7 then 16 else 8.

Lemma draw_sprites_eq v s ctrl : screen_ok s ->
  let fg := Z.testbit ctrl 6 in let dx := step_x s ctrl in let dy := step_y s ctrl in
  let fxn := Z.testbit ctrl 4 in let fyn := Z.testbit ctrl 5 in
  draw_sprites v s ctrl =
  rbind (sprites (vm_mem v) (vm_msize v) s fg (Z.testbit ctrl 7) (Z.to_nat (rML s + 1)) (rX s) (rY s) (rA s) dx dy (step_a s ctrl)
          (sgn fxn) (sgn fyn) (ctrl mod 16) (s_buf s)) (fun '(x, y, a, buf) =>
  rbind (int32 (rX s + (if rMX s =? 0 then 0 else 8 * sgn fxn))) (fun xn =>
  rbind (int32 (rY s + (if rMY s =? 0 then 0 else 8 * sgn fyn))) (fun yn =>
  Ok (set_xya (set_layer s buf fg (dirty (s_dirty s fg) ((if fxn then x else rX s) - 8) ((if fyn then y else rY s) - 8)
       ((if fxn then rX s else x) + 8) ((if fyn then rY s else y) + 8))) xn yn a)))).
Proof.
  intros (_ & MX & MY & MA & _ & DX & DY & _ & _). cbv zeta. unfold draw_sprites, step_x, step_y, step_a.
  rewrite (flag ctrl 6 64), (flag ctrl 4 16), (flag ctrl 5 32), (flag ctrl 7 128) by (reflexivity || lia).
  change 15 with (16 - 1). rewrite (low_bits ctrl 4 16) by (reflexivity || lia).
  rewrite DX, DY.
  replace (if Z.testbit ctrl 7 then Z.shiftl (rMA s) 2 else Z.shiftl (rMA s) 1) with (if rMA s =? 0 then 0 else if Z.testbit ctrl 7 then 16 else 8)
    by (destruct MA as [-> | ->]; destruct (Z.testbit ctrl 7); reflexivity).
  change (if Z.testbit ctrl 4 then -1 else 1) with (sgn (Z.testbit ctrl 4)). change (if Z.testbit ctrl 5 then -1 else 1) with (sgn (Z.testbit ctrl 5)).
  replace (sgn (Z.testbit ctrl 5) * (8 * rMX s)) with (if rMX s =? 0 then 0 else 8 * sgn (Z.testbit ctrl 5)) by (destruct MX as [-> | ->]; unfold sgn; destruct (Z.testbit ctrl 4), (Z.testbit ctrl 5); reflexivity).
  replace (sgn (Z.testbit ctrl 4) * (4 * rMY s)) with (if rMY s =? 0 then 0 else 8 * sgn (Z.testbit ctrl 4)) by (destruct MY as [-> | ->]; unfold sgn; destruct (Z.testbit ctrl 4), (Z.testbit ctrl 5); reflexivity).
  destruct (sprites _ _ _ _ _ _ _ _ _ _ _ _ _ _ _ _) as [[[[x y] a] b]|f]; cbn [rbind]; [|reflexivity].
  replace (sgn (Z.testbit ctrl 4) <? 0) with (Z.testbit ctrl 4) by (destruct (Z.testbit ctrl 4); reflexivity).
  replace (sgn (Z.testbit ctrl 5) <? 0) with (Z.testbit ctrl 5) by (destruct (Z.testbit ctrl 5); reflexivity).
  replace (8 * rMX s * sgn (Z.testbit ctrl 4)) with (if rMX s =? 0 then 0 else 8 * sgn (Z.testbit ctrl 4)) by (destruct MX as [-> | ->]; unfold sgn; destruct (Z.testbit ctrl 4), (Z.testbit ctrl 5); reflexivity).
  replace (4 * rMY s * sgn (Z.testbit ctrl 5)) with (if rMY s =? 0 then 0 else 8 * sgn (Z.testbit ctrl 5)) by (destruct MY as [-> | ->]; unfold sgn; destruct (Z.testbit ctrl 4), (Z.testbit ctrl 5); reflexivity).
  destruct (Z.testbit ctrl 4), (Z.testbit ctrl 5); cbn [fst snd].
  all: destruct (int32 (rX s + _)) as [xn|] eqn:EX; cbn [rbind]; [|reflexivity].
  all: destruct (int32 (rY s + _)) as [yn|] eqn:EY; cbn [rbind]; [|reflexivity].
  all: unfold int32 in EX, EY; destruct (in_int _) in EX; [|discriminate]; destruct (in_int _) in EY; [|discriminate];
       injection EX as <-; injection EY as <-.
  all: destruct (rMX s =? 0), (rMY s =? 0); rewrite ?Z.add_0_r; reflexivity.
Qed.

Lemma draw_sprites_post v s ctrl s' : screen_ok s -> draw_sprites v s ctrl = Ok s' ->
  let fg := Z.testbit ctrl 6 in
  drawn s s' fg /\ rA s' = rA s + (rML s + 1) * step_a s ctrl /\
  rX s' = rX s + (if rMX s =? 0 then 0 else 8 * sgn (Z.testbit ctrl 4)) /\
  rY s' = rY s + (if rMY s =? 0 then 0 else 8 * sgn (Z.testbit ctrl 5)) /\
  (forall x y, visible s x y -> shown s' fg x y =
     stamps (vm_mem v) (Z.to_nat (rML s + 1)) (rA s) (step_a s ctrl) (Z.testbit ctrl 7) (Z.testbit ctrl 4) (Z.testbit ctrl 5) (ctrl mod 16)
       (rX s) (step_x s ctrl) (rY s) (step_y s ctrl) (shown s fg) x y) /\
  (sprites_in_view s ctrl -> forall x y, visible s x y -> shown s' fg x y = shown s fg x y \/ in_rect (s_dirty s' fg) x y).
Proof.
  intros HO E. pose proof (draw_sprites_eq v s ctrl HO) as Q. cbv zeta in Q |- *. rewrite Q in E. clear Q.
  destruct HO as (Hs & MX & MY & MA & ML & DX & DY & HA & CL). set (fg := Z.testbit ctrl 6) in *. clearbody fg.
  assert (HB : 0 <= ctrl mod 16 < 16) by (apply Z.mod_pos_bound; lia).
  destruct (sprites _ _ _ _ _ _ _ _ _ _ _ _ _ _ _ _) as [[[[x1' y1'] a'] b]|f] eqn:ES; [|discriminate]. cbn [rbind] in E.
  assert (CELLS : forall j, b j = s_buf s j \/ 0 <= b j < 4).
  { destruct (sprites_safe (vm_mem v) (vm_msize v) s fg (Z.testbit ctrl 7) (Z.testbit ctrl 4) (Z.testbit ctrl 5) (ctrl mod 16)
      (step_x s ctrl) (step_y s ctrl) (step_a s ctrl) Hs HB) with (n := Z.to_nat (rML s + 1)) (x := rX s) (y := rY s) (a := rA s) (buf := s_buf s) as (S1 & _); auto.
    - unfold step_x, sgn. destruct (rMY s =? 0), (Z.testbit ctrl 4); lia.
    - unfold step_y, sgn. destruct (rMX s =? 0), (Z.testbit ctrl 5); lia.
    - unfold step_a. destruct (rMA s =? 0), (Z.testbit ctrl 7); lia.
    - lia.
    - cbv zeta in S1. rewrite ES in S1. exact S1. }
  destruct (sprites_post _ _ _ _ _ _ _ _ _ _ _ Hs HB _ _ _ _ _ _ _ _ _ ES) as (-> & -> & -> & P1 & P2). rewrite Z2Nat.id in * by lia.
  unfold int32 in E. destruct (in_int _) in E; [|discriminate]. cbn [rbind] in E. destruct (in_int _) in E; [|discriminate]. cbn [rbind] in E.
  injection E as <-.
  assert (D : drawn s (set_xya (set_layer s b fg
     (dirty (s_dirty s fg) ((if Z.testbit ctrl 4 then rX s + (rML s + 1) * step_x s ctrl else rX s) - 8) ((if Z.testbit ctrl 5 then rY s + (rML s + 1) * step_y s ctrl else rY s) - 8)
       ((if Z.testbit ctrl 4 then rX s else rX s + (rML s + 1) * step_x s ctrl) + 8) ((if Z.testbit ctrl 5 then rY s else rY s + (rML s + 1) * step_y s ctrl) + 8)))
     (rX s + (if rMX s =? 0 then 0 else 8 * sgn (Z.testbit ctrl 4))) (rY s + (if rMY s =? 0 then 0 else 8 * sgn (Z.testbit ctrl 5))) (rA s + (rML s + 1) * step_a s ctrl)) fg).
  { apply drawn_layer; [intros; apply dirty_in; auto|exact P2|]. intros H j Hj. destruct (CELLS j) as [-> | ?]; auto. }
  set (s' := set_xya _ _ _ _) in *.
  assert (SH : forall x y, shown s' fg x y = b (cell (s_w s) (s_base s fg) x y)) by (intros; rewrite s_base_shown; reflexivity).
  assert (SI : forall x y, visible s x y -> shown s' fg x y =
     stamps (vm_mem v) (Z.to_nat (rML s + 1)) (rA s) (step_a s ctrl) (Z.testbit ctrl 7) (Z.testbit ctrl 4) (Z.testbit ctrl 5) (ctrl mod 16)
       (rX s) (step_x s ctrl) (rY s) (step_y s ctrl) (shown s fg) x y).
  { intros x y V. rewrite SH, P1 by auto. apply stamps_ext with (P := fun _ _ => True); auto. }
  split; [exact D|]. split; [reflexivity|]. split; [reflexivity|]. split; [reflexivity|]. split; [exact SI|].
  intros VW x y V. rewrite SI by auto.
  assert (DEC : in_rect (s_dirty s' fg) x y \/ ~ in_rect (s_dirty s' fg) x y) by (unfold in_rect; lia).
  destruct DEC as [I|NI]; [auto|]. left. apply stamps_frame. intros i Hi (CX & CY). apply NI.
  rewrite Z2Nat.id in Hi by lia. destruct (VW i ltac:(lia)) as (VX & VY). destruct V as (V1 & V2). destruct Hs as (Hw & Hh).
  fold (step_x s ctrl) in *. change (if rMY s =? 0 then 0 else 8 * sgn (bit ctrl 4)) with (step_x s ctrl) in VX.
  change (if rMX s =? 0 then 0 else 8 * sgn (bit ctrl 5)) with (step_y s ctrl) in VY.
  rewrite (wrapped_in_view _ VX (s_w s) x) in CX by auto. rewrite (wrapped_in_view _ VY (s_h s) y) in CY by auto.
  assert (RX : (if Z.testbit ctrl 4 then rX s + (rML s + 1) * step_x s ctrl else rX s) - 8 <= x < (if Z.testbit ctrl 4 then rX s else rX s + (rML s + 1) * step_x s ctrl) + 8).
  { unfold step_x, sgn in *. destruct (rMY s =? 0), (Z.testbit ctrl 4); lia. }
  assert (RY : (if Z.testbit ctrl 5 then rY s + (rML s + 1) * step_y s ctrl else rY s) - 8 <= y < (if Z.testbit ctrl 5 then rY s else rY s + (rML s + 1) * step_y s ctrl) + 8).
  { unfold step_y, sgn in *. destruct (rMX s =? 0), (Z.testbit ctrl 5); lia. }
  destruct fg; cbn; apply dirty_new; assumption.
Qed.

(** ** Resizing *)
Definition same_regs (s s' : screen) : Prop :=
  rX s' = rX s /\ rY s' = rY s /\ rA s' = rA s /\ rMX s' = rMX s /\ rMY s' = rMY s /\ rMA s' = rMA s /\ rML s' = rML s /\ rDX s' = rDX s /\ rDY s' = rDY s.

Definition all_dirty (s : screen) : Prop := forall fg x y, visible s x y -> in_rect (s_dirty s fg) x y.

Lemma port_word v k : bytes_ports v -> 0 <= k < 255 -> dev_load2 v k = 256 * vm_dev v k + vm_dev v (k + 1).
Proof. intros H Hk. unfold dev_load2, u8. rewrite load2_word by (lia || (intros; apply H; lia)). unfold word. rewrite !Z.mod_small by (rewrite ?Z.mod_small; lia). auto. Qed.

Lemma resize_ok s w h : screen_ok s -> size_ok w h ->
  exists s', resize s w h = Ok s' /\ screen_ok s' /\ same_regs s s' /\ s_w s' = w /\ s_h s' = h /\ all_dirty s'.
Proof.
  intros (Hs & MX & MY & MA & ML & DX & DY & HA & CL) (Hw & Hh). unfold resize. rewrite i32_ok by (unfold MAR2; nia). cbn [rbind].
  eexists. split; [reflexivity|]. split; [|split; [|split; [|split]]]; cbn; auto.
  - unfold screen_ok. cbn. split; [split; lia|]. repeat (split; [assumption|]). intros. lia.
  - unfold same_regs. cbn. auto 12.
  - intros fg x y (V1 & V2). cbn in V1, V2. destruct fg; cbn; apply dirty_new; lia.
Qed.

Lemma maybe_resize_ok v s : screen_ok s -> bytes_ports v -> request_ok v ->
  exists s', maybe_resize v s = Ok s' /\ screen_ok s' /\ same_regs s s' /\ (s' = s \/ (~ same_size s s' /\ all_dirty s')).
Proof.
  intros HO HB (R1 & R2). unfold maybe_resize. rewrite !port_word by (auto; lia). change (34 + 1) with 35. change (36 + 1) with 37.
  assert (B : forall i, 0 <= i < 256 -> 0 <= vm_dev v i < 256) by exact HB.
  pose proof (B 34 ltac:(lia)). pose proof (B 35 ltac:(lia)). pose proof (B 36 ltac:(lia)). pose proof (B 37 ltac:(lia)).
  change (34 + 1) with 35 in R1. change (36 + 1) with 37 in R2.
  set (w := 256 * vm_dev v 34 + vm_dev v 35) in *. set (h := 256 * vm_dev v 36 + vm_dev v 37) in *.
  destruct (negb (w =? 0) && negb (h =? 0) && (negb (w =? s_w s) || negb (h =? s_h s))) eqn:E.
  - destruct (resize_ok s w h HO) as (s' & E' & O' & RG & W & H' & AD); [split; lia|].
    exists s'. split; [exact E'|]. split; [exact O'|]. split; [exact RG|]. right. split; [|exact AD]. intros (X1 & X2). rewrite W in X1. rewrite H' in X2. lia.
  - exists s. split; [reflexivity|]. split; [exact HO|]. split; [unfold same_regs; auto 12|]. auto.
Qed.

(** ** Port writes are safe *)
Lemma dev_or v k : bytes_ports v -> 0 <= k < 255 -> Z.lor (Z.shiftl (vm_dev v k) 8) (vm_dev v (k + 1)) = 256 * vm_dev v k + vm_dev v (k + 1).
Proof.
  intros H Hk. rewrite <- port_word by auto. unfold dev_load2, load2, u8. rewrite Z.add_0_r, !(Z.mod_small k), !(Z.mod_small (k + 1)) by lia. reflexivity.
Qed.

Lemma deo_safe v s a : screen_ok s -> bytes_ports v -> request_ok v -> ~ is_fill v a ->
  match screen_deo v s a with
  | Ok s' => screen_ok s'
  | Fault (OobRead k) => a = 47 /\ vm_msize v <= k
  | Fault (SignedOverflow _) => ~ regs_ok s
  | Fault _ => False
  end.
Proof.
  intros HO HB HR NF. pose proof HO as (Hs & MX & MY & MA & ML & DX & DY & HA & CL). unfold screen_deo.
  assert (B : forall i, 0 <= i < 256 -> 0 <= vm_dev v i < 256) by exact HB.
  destruct (a =? 38).
  { pose proof (B 38 ltac:(lia)) as H38. set (d := vm_dev v 38) in *. clearbody d. unfold screen_ok. cbn.
    pose proof (land_pow2 d 0 ltac:(lia)) as A0. change (2 ^ 0) with 1 in A0.
    pose proof (land_pow2 d 1 ltac:(lia)) as A1. change (2 ^ 1) with 2 in A1.
    pose proof (land_pow2 d 2 ltac:(lia)) as A2. change (2 ^ 2) with 4 in A2.
    rewrite A0, A1, A2.
    split; [exact Hs|]. split; [destruct (Z.testbit d 0); auto|]. split; [destruct (Z.testbit d 1); auto|]. split; [destruct (Z.testbit d 2); auto|].
    split; [rewrite Z.shiftr_div_pow2 by lia; change (2 ^ 4) with 16; split; [apply Z.div_pos; lia|]; apply Z.lt_succ_r; apply Z.div_lt_upper_bound; lia|].
    split; [destruct (Z.testbit d 0); reflexivity|]. split; [destruct (Z.testbit d 1); reflexivity|]. auto. }
  destruct (_ || _). { unfold screen_ok. cbn. tauto. }
  destruct (_ || _). { unfold screen_ok. cbn. tauto. }
  destruct (_ || _). { unfold screen_ok. cbn [rA rX rY rMX rMY rMA rML rDX rDY s_w s_h s_buf set_xya]. pose proof (dev_or v 44 HB ltac:(lia)) as D. change (44 + 1) with 45 in D. rewrite D. pose proof (B 44 ltac:(lia)). pose proof (B 45 ltac:(lia)).
    repeat (split; [tauto|]). split; [lia|tauto]. }
  destruct (a =? 46) eqn:E46.
  { destruct (maybe_resize_ok v s HO HB HR) as (s1 & -> & HO1 & RG & _). cbn [rbind]. pose proof HO1 as (Hs1 & _ & _ & _ & _ & _ & _ & HA1 & _).
    rewrite (flag _ 7 128) by (reflexivity || lia). destruct (Z.testbit (vm_dev v 46) 7) eqn:E7; [exfalso; apply NF; split; [lia|exact E7]|].
    assert (HC : 0 <= Z.land (vm_dev v 46) 3 < 4) by (change 3 with (4 - 1); rewrite (low_bits _ 2 4) by (reflexivity || lia); apply Z.mod_pos_bound; lia).
    destruct (pixel s1 (vm_dev v 46)) as [s'|f] eqn:EP.
    - destruct (pixel_post s1 _ s' Hs1 HC EP) as (D & RA & _). eapply drawn_ok; [exact HO1|exact D|]. rewrite RA. exact HA1.
    - unfold pixel in EP. rewrite (flag _ 6 64) in EP by (reflexivity || lia). set (fg := Z.testbit (vm_dev v 46) 6) in *. clearbody fg.
      destruct RG as (GX & GY & _).
      destruct (((rX s1 >=? 0) && (rY s1 >=? 0) && (rX s1 <? MAR2 (s_w s1)) && (rY s1 <? s_h s1))) eqn:C.
      + assert (IN : s_base s1 fg <= s_base s1 fg + (MAR (rX s1) + MAR (rY s1) * MAR2 (s_w s1)) < s_base s1 fg + s_length s1).
        { unfold MAR, MAR2, s_length in *. unfold MAR2 in *. destruct Hs1 as (? & ?). nia. }
        pose proof (base_size s1 fg Hs1) as (B1 & B2). rewrite aset_ok in EP by lia. cbn [rbind] in EP.
        unfold MAR2 in C. destruct Hs1 as (? & ?). rewrite !i32_ok in EP by lia. discriminate.
      + cbn [rbind] in EP. unfold regs_ok. rewrite <- GX, <- GY. unfold int32, in_int, INT_MIN, INT_MAX in EP.
        destruct (_ && _) eqn:I1 in EP; cbn [rbind] in EP.
        * destruct (_ && _) eqn:I2 in EP; cbn [rbind] in EP; [discriminate|]. injection EP as <-. lia.
        * injection EP as <-. lia. }
  destruct (a =? 47) eqn:E47; [|exact HO].
  destruct (maybe_resize_ok v s HO HB HR) as (s1 & -> & HO1 & RG & _). cbn [rbind]. pose proof HO1 as (Hs1 & MX1 & MY1 & MA1 & ML1 & _ & _ & HA1 & _).
  set (ctrl := vm_dev v 47) in *.
  assert (SA : 0 <= step_a s1 ctrl <= 16) by (unfold step_a; destruct (rMA s1 =? 0), (Z.testbit ctrl 7); lia).
  destruct (draw_sprites v s1 ctrl) as [s'|f] eqn:ED.
  { destruct (draw_sprites_post v s1 _ s' HO1 ED) as (D & RA & _). eapply drawn_ok; [exact HO1|exact D|]. rewrite RA. nia. }
  pose proof (draw_sprites_eq v s1 ctrl HO1) as Q. cbv zeta in Q. rewrite Q in ED. clear Q.
  assert (HBL : 0 <= ctrl mod 16 < 16) by (apply Z.mod_pos_bound; lia).
  destruct (sprites_safe (vm_mem v) (vm_msize v) s1 (Z.testbit ctrl 6) (Z.testbit ctrl 7) (Z.testbit ctrl 4) (Z.testbit ctrl 5) (ctrl mod 16)
      (step_x s1 ctrl) (step_y s1 ctrl) (step_a s1 ctrl) Hs1 HBL) with (n := Z.to_nat (rML s1 + 1)) (x := rX s1) (y := rY s1) (a := rA s1) (buf := s_buf s1) as (S1 & _); auto.
  - unfold step_x, sgn. destruct (rMY s1 =? 0), (Z.testbit ctrl 4); lia.
  - unfold step_y, sgn. destruct (rMX s1 =? 0), (Z.testbit ctrl 5); lia.
  - lia.
  - cbv zeta in S1. unfold regs_ok. destruct RG as (GX & GY & GA & _). rewrite <- GX, <- GY, <- GA.
    destruct (sprites _ _ _ _ _ _ _ _ _ _ _ _ _ _ _ _) as [[[[x' y'] a'] b]|f'].
    + cbn [rbind] in ED. unfold int32, in_int, INT_MIN, INT_MAX in ED.
      destruct (_ && _) eqn:I1 in ED; cbn [rbind] in ED.
      * destruct (_ && _) eqn:I2 in ED; cbn [rbind] in ED; [discriminate|]. injection ED as <-. unfold sgn in I2. destruct (rMY s1 =? 0), (Z.testbit ctrl 5); lia.
      * injection ED as <-. unfold sgn in I1. destruct (rMX s1 =? 0), (Z.testbit ctrl 4); lia.
    + cbn [rbind] in ED. injection ED as <-. destruct f'; auto; [split; [lia|exact S1]|].
      intros (L1 & L2 & L3). apply S1. lia.
Qed.

(** With sprites inside memory, sprite mode draws. *)
Lemma sprites_draw v s : screen_ok s -> bytes_ports v -> request_ok v -> regs_ok s ->
  rA s + 16 * rML s + 16 <= vm_msize v -> exists s', screen_deo v s 47 = Ok s'.
Proof.
  intros HO HB HR (L1 & L2 & L3) HM. unfold screen_deo. cbn [Z.eqb Pos.eqb orb].
  destruct (maybe_resize_ok v s HO HB HR) as (s1 & -> & HO1 & RG & _). cbn [rbind]. pose proof HO1 as (Hs1 & MX1 & MY1 & MA1 & ML1 & _ & _ & HA1 & _).
  set (ctrl := vm_dev v 47) in *. destruct RG as (GX & GY & GA & _ & _ & _ & GL & _).
  assert (SA : 0 <= step_a s1 ctrl <= 16) by (unfold step_a; destruct (rMA s1 =? 0), (Z.testbit ctrl 7); lia).
  pose proof (draw_sprites_eq v s1 ctrl HO1) as Q. cbv zeta in Q. rewrite Q. clear Q.
  assert (HBL : 0 <= ctrl mod 16 < 16) by (apply Z.mod_pos_bound; lia).
  destruct (sprites_safe (vm_mem v) (vm_msize v) s1 (Z.testbit ctrl 6) (Z.testbit ctrl 7) (Z.testbit ctrl 4) (Z.testbit ctrl 5) (ctrl mod 16)
      (step_x s1 ctrl) (step_y s1 ctrl) (step_a s1 ctrl) Hs1 HBL) with (n := Z.to_nat (rML s1 + 1)) (x := rX s1) (y := rY s1) (a := rA s1) (buf := s_buf s1) as (_ & S2); auto.
  - unfold step_x, sgn. destruct (rMY s1 =? 0), (Z.testbit ctrl 4); lia.
  - unfold step_y, sgn. destruct (rMX s1 =? 0), (Z.testbit ctrl 5); lia.
  - lia.
  - cbv zeta in S2. destruct S2 as ([[[x' y'] a'] b] & ->); [lia|lia|lia| |].
    + rewrite Z2Nat.id by lia. destruct (Z.testbit ctrl 7); nia.
    + cbn [rbind]. rewrite !i32_ok by (unfold sgn; destruct (rMX s1 =? 0), (rMY s1 =? 0), (Z.testbit ctrl 4), (Z.testbit ctrl 5); lia).
      cbn [rbind]. eexists. reflexivity.
Qed.

Lemma fill_keeps s ctrl s' : fill s ctrl = Ok s' -> rX s' = rX s /\ rY s' = rY s /\ same_size s s'.
Proof.
  intros E. pose proof (fill_inv s ctrl s' E) as Q. destruct (fill_x s ctrl) as [xa xb], (fill_y s ctrl) as [ya yb]. cbv zeta in Q.
  destruct (fill_rows _ _ _ _ _ _ _ _ _); [|discriminate]. injection Q as <-. repeat split.
Qed.
