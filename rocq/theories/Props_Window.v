(** Property C112: where the GUI draws the screen, and where it takes the
    pointer to be. *)
From Verif Require Import Base WindowModel.
From Verif Require GuiModel.
From Coq Require Import QArith Qround Lqa Lia ZArith.
Open Scope Q_scope.

(** ** Specification *)
Notation "$ z" := (inject_Z z) (at level 1, format "$ z").
(** The screen of [fw] by [fh] pixels drawn into a window of [aw] by [ah]: it is
    inside, has the proportions of the screen, reaches two opposite sides, is the
    largest such picture, and is in the middle but for less than two pixels. *)
Definition fits (aw ah fw fh : Z) (scale width height left top : Q) : Prop :=
  0 < scale /\ width == $fw * scale /\ height == $fh * scale /\
  0 <= left /\ left + width <= $aw /\ 0 <= top /\ top + height <= $ah /\
  (width == $aw \/ height == $ah) /\
  (forall s, $fw * s <= $aw -> $fh * s <= $ah -> s <= scale) /\
  0 <= ($aw - width - left) - left < 2 /\ 0 <= ($ah - height - top) - top < 2.
(** The place of a pointer along one side: the number of the pixel under it, the
    first one before the picture, and the number of pixels behind it. *)
Definition under (n : Z) (origin scale p : Q) (i : Z) : Prop :=
  (p < origin /\ i = 0%Z) \/
  ((0 <= i < n)%Z /\ origin + $i * scale <= p < origin + $(i + 1) * scale) \/
  (origin + $n * scale <= p /\ i = n).

(** ** Lemmas *)
Lemma lt_b_true : forall a b, lt_b a b = true <-> a < b.
Proof.
  intros a b. unfold lt_b. rewrite negb_true_iff. split.
  - intros H. apply Qnot_le_lt. intros X. apply Qle_bool_iff in X. congruence.
  - intros H. destruct (Qle_bool b a) eqn:E; [|reflexivity]. apply Qle_bool_iff in E. lra.
Qed.
Lemma lt_b_false : forall a b, lt_b a b = false <-> b <= a.
Proof.
  intros a b. unfold lt_b. rewrite negb_false_iff. apply Qle_bool_iff.
Qed.
Lemma inj_pos : forall z, (0 < z)%Z -> 0 < $z.
Proof. intros z H. unfold Qlt. cbn. lia. Qed.
Lemma inj_le : forall a b, (a <= b)%Z -> $a <= $b.
Proof. intros a b H. rewrite <- Zle_Qle. exact H. Qed.
Lemma inj_lt : forall a b, (a < b)%Z -> $a < $b.
Proof. intros a b H. rewrite <- Zlt_Qlt. exact H. Qed.
Lemma floor_is : forall q z, $z <= q -> q < $z + 1 -> Qfloor q = z.
Proof.
  intros q z A B. pose proof (Qfloor_le q) as F. pose proof (Qlt_floor q) as G. rewrite inject_Z_plus in G. change $1 with 1 in G.
  assert (X : (Qfloor q < z + 1)%Z). { rewrite Zlt_Qlt. rewrite inject_Z_plus. change $1 with 1. lra. }
  assert (Y : (z < Qfloor q + 1)%Z). { rewrite Zlt_Qlt. rewrite inject_Z_plus. change $1 with 1. lra. }
  lia.
Qed.
Lemma floor_bounds : forall q, $(Qfloor q) <= q < $(Qfloor q) + 1.
Proof. intros q. split; [apply Qfloor_le|]. pose proof (Qlt_floor q) as G. rewrite inject_Z_plus in G. exact G. Qed.
Lemma div_mul : forall a b, 0 < b -> b * (a / b) == a.
Proof. intros a b H. field. lra. Qed.

(** ** C112 *)
Theorem C112_fits : forall aw ah fw fh, (0 < aw)%Z -> (0 < ah)%Z -> (0 < fw)%Z -> (0 < fh)%Z ->
  let d := get_draw_info aw ah fw fh in
  fits aw ah fw fh (w_scale d) (w_width d) (w_height d) $(w_left d) $(w_top d).
Proof.
  intros aw ah fw fh Ha Hb Hf Hg. apply inj_pos in Ha, Hb, Hf, Hg. unfold get_draw_info. cbv zeta. cbn [w_scale w_width w_height w_left w_top].
  pose proof (div_mul $aw $fw Hf) as X. pose proof (div_mul $ah $fh Hg) as Y.
  assert (PX : 0 < $aw / $fw) by (apply Qlt_shift_div_l; [exact Hf|lra]). assert (PY : 0 < $ah / $fh) by (apply Qlt_shift_div_l; [exact Hg|lra]).
  set (xs := $aw / $fw) in *. set (ys := $ah / $fh) in *. clearbody xs ys.
  assert (S : exists s, (if lt_b xs ys then xs else ys) = s /\ 0 < s /\ s <= xs /\ s <= ys /\ (s = xs \/ s = ys)).
  { destruct (lt_b xs ys) eqn:E; [apply lt_b_true in E|apply lt_b_false in E]; eexists; (split; [reflexivity|]); repeat split; try lra; auto. }
  destruct S as (s & -> & S0 & S1 & S2 & S3).
  assert (WX : $fw * s <= $aw) by nra. assert (WY : $fh * s <= $ah) by nra.
  pose proof (floor_bounds (($aw - $fw * s) * (1 # 2))) as [F1 F2]. pose proof (floor_bounds (($ah - $fh * s) * (1 # 2))) as [G1 G2].
  assert (F0 : 0 <= $(Qfloor (($aw - $fw * s) * (1 # 2)))). { change 0 with $0. apply inj_le. change 0%Z with (Qfloor $0). apply Qfloor_resp_le. change $0 with 0. lra. }
  assert (G0 : 0 <= $(Qfloor (($ah - $fh * s) * (1 # 2)))). { change 0 with $0. apply inj_le. change 0%Z with (Qfloor $0). apply Qfloor_resp_le. change $0 with 0. lra. }
  set (l := $(Qfloor (($aw - $fw * s) * (1 # 2)))) in *. set (t := $(Qfloor (($ah - $fh * s) * (1 # 2)))) in *. clearbody l t.
  unfold fits. split; [exact S0|]. split; [reflexivity|]. split; [reflexivity|]. split; [exact F0|]. split; [lra|]. split; [exact G0|]. split; [lra|].
  split; [destruct S3; subst s; [left; exact X|right; exact Y]|]. split; [|lra].
  intros u U V. destruct S3; subst s; nra.
Qed.
Print Assumptions C112_fits.

Lemma clamp_under : forall n origin scale p, 0 < scale -> (0 < n < 65536)%Z ->
  exists i, to_u16 (clamp ((p - origin) / scale) 0 $n) = Ok i /\ under n origin scale p i /\ i = GuiModel.clamp_pos (Qfloor ((p - origin) / scale)) n.
Proof.
  intros n origin scale p Sc Hn. pose proof (div_mul (p - origin) scale Sc) as D. set (v := (p - origin) / scale) in *. clearbody v.
  assert (N0 : 0 < $n) by (apply inj_pos; lia). pose proof (floor_bounds v) as [B1 B2]. unfold clamp, GuiModel.clamp_pos.
  assert (T : forall z, (0 <= z < 65536)%Z -> forall q, 0 <= q -> Qfloor q = z -> to_u16 q = Ok z).
  { intros z Hz q Hq F. unfold to_u16. rewrite (proj2 (Qle_bool_iff 0 q)) by exact Hq. rewrite F. rewrite (proj2 (Z.leb_le 0 z)) by lia. rewrite (proj2 (Z.ltb_lt z 65536)) by lia. reflexivity. }
  destruct (lt_b v 0) eqn:E; [apply lt_b_true in E|apply lt_b_false in E].
  - exists 0%Z. split; [apply T; [lia|lra|reflexivity]|]. split; [left; split; [nra|reflexivity]|].
    assert (X : (Qfloor v < 0)%Z). { rewrite Zlt_Qlt. change $0 with 0. lra. } apply Z.ltb_lt in X. rewrite X. reflexivity.
  - assert (X : (0 <= Qfloor v)%Z). { change 0%Z with (Qfloor $0). apply Qfloor_resp_le. exact E. }
    rewrite (proj2 (Z.ltb_ge (Qfloor v) 0)) by lia.
    destruct (lt_b $n v) eqn:L; [apply lt_b_true in L|apply lt_b_false in L].
    + exists n. split; [apply T; [lia|lra|apply Qfloor_Z]|]. split; [right; right; split; [nra|reflexivity]|].
      assert (Y : (n <= Qfloor v)%Z). { rewrite <- (Qfloor_Z n). apply Qfloor_resp_le. lra. }
      destruct (Z.gtb_spec (Qfloor v) n); lia.
    + assert (Y : (Qfloor v <= n)%Z). { rewrite <- (Qfloor_Z n). apply Qfloor_resp_le. exact L. }
      exists (Qfloor v). split; [apply T; [lia|exact E|reflexivity]|]. split.
      * destruct (Z.eq_dec (Qfloor v) n) as [Q|Q].
        -- right. right. split; [|exact Q]. rewrite <- Q. nra.
        -- right. left. split; [lia|]. rewrite inject_Z_plus. change $1 with 1. split; nra.
      * destruct (Z.gtb_spec (Qfloor v) n); lia.
Qed.
(** The pointer is at the pixel of the screen that is drawn under it, for every
    size of the window and the screen; this is what GuiModel does with the
    position rounded down. *)
Theorem C112_pointer : forall aw ah fw fh mx my, (0 < aw)%Z -> (0 < ah)%Z -> (0 < fw < 65536)%Z -> (0 < fh < 65536)%Z ->
  let d := get_draw_info aw ah fw fh in
  exists x y, move_to d fw fh mx my = Ok (x, y) /\
    under fw $(w_left d) (w_scale d) mx x /\ under fh $(w_top d) (w_scale d) my y /\
    x = GuiModel.clamp_pos (Qfloor ((mx - $(w_left d)) / w_scale d)) fw /\ y = GuiModel.clamp_pos (Qfloor ((my - $(w_top d)) / w_scale d)) fh.
Proof.
  intros aw ah fw fh mx my Ha Hb Hf Hg d. destruct (C112_fits aw ah fw fh Ha Hb ltac:(lia) ltac:(lia)) as [Sc _]. fold d in Sc.
  destruct (clamp_under fw $(w_left d) (w_scale d) mx Sc Hf) as (x & X1 & X2 & X3). destruct (clamp_under fh $(w_top d) (w_scale d) my Sc Hg) as (y & Y1 & Y2 & Y3).
  exists x, y. unfold move_to. rewrite X1. cbn [rbind]. rewrite Y1. cbn [rbind]. auto.
Qed.
Print Assumptions C112_pointer.

(** A window that is as wide or as high as the default one gets a screen with
    whole pixels that fill the window but for less than one of them, no smaller
    than the default in one direction and less than twice as large in both. *)
Theorem C112_start : forall w h, (0 < w)%Z -> (0 < h)%Z -> (512 <= w \/ 320 <= h)%Z ->
  exists k sw sh, (0 < k)%Z /\ start_size w h = Ok (sw, sh) /\
    (k * sw <= w < k * (sw + 1))%Z /\ (k * sh <= h < k * (sh + 1))%Z /\ (512 <= sw \/ 320 <= sh)%Z /\ (sw < 1024)%Z /\ (sh < 640)%Z.
Proof.
  intros w h Hw Hh Big. unfold start_size. cbv zeta. unfold DEFAULT_WIDTH, DEFAULT_HEIGHT.
  assert (FD : forall a b, (0 < b)%Z -> Qfloor ($a / $b) = (a / b)%Z).
  { intros a b Hb. apply floor_is.
    - apply Qle_shift_div_l; [apply inj_pos, Hb|]. rewrite <- inject_Z_mult. apply inj_le. pose proof (Z.mul_div_le a b Hb). lia.
    - apply Qlt_shift_div_r; [apply inj_pos, Hb|]. change 1 with $1. rewrite <- inject_Z_plus, <- inject_Z_mult. apply inj_lt. pose proof (Z.mul_succ_div_gt a b Hb). lia. }
  assert (K : exists k, Qfloor (if lt_b ($h / $320) ($w / $512) then $w / $512 else $h / $320) = k /\ (0 < k)%Z /\ (k * 512 <= w \/ k * 320 <= h)%Z /\ (w < (k + 1) * 512)%Z /\ (h < (k + 1) * 320)%Z).
  { pose proof (FD w 512%Z ltac:(lia)) as Fw. pose proof (FD h 320%Z ltac:(lia)) as Fh.
    destruct (lt_b _ _) eqn:E; [apply lt_b_true in E; apply Qlt_le_weak in E|apply lt_b_false in E]; apply Qfloor_resp_le in E; rewrite Fw, Fh in E; [rewrite Fw; exists (w / 512)%Z|rewrite Fh; exists (h / 320)%Z];
      (split; [reflexivity|]); pose proof (Z.div_mod w 512 ltac:(lia)); pose proof (Z.mod_pos_bound w 512 ltac:(lia)); pose proof (Z.div_mod h 320 ltac:(lia)); pose proof (Z.mod_pos_bound h 320 ltac:(lia)); lia. }
  destruct K as (k & -> & K0 & K1 & K2 & K3). rewrite (proj2 (Z.eqb_neq k 0)) by lia. rewrite !FD by exact K0.
  exists k, (w / k)%Z, (h / k)%Z. split; [exact K0|]. split; [reflexivity|].
  pose proof (Z.div_mod w k ltac:(lia)). pose proof (Z.mod_pos_bound w k ltac:(lia)). pose proof (Z.div_mod h k ltac:(lia)). pose proof (Z.mod_pos_bound h k ltac:(lia)).
  split; [lia|]. split; [lia|]. split; [|split; apply Z.div_lt_upper_bound; lia].
  destruct K1; [left|right]; apply Z.div_le_lower_bound; lia.
Qed.
Print Assumptions C112_start.
(** In a smaller window the size of the screen is a quotient by zero. *)
Theorem C112_start_refuted : forall w h, (0 < w < 512)%Z -> (0 < h < 320)%Z -> start_size w h = Fault DivByZero.
Proof.
  intros w h Hw Hh. unfold start_size, DEFAULT_WIDTH, DEFAULT_HEIGHT. cbv zeta.
  assert (Z0 : Qfloor (if lt_b ($h / $320) ($w / $512) then $w / $512 else $h / $320) = 0%Z).
  { assert (A : forall a b, (0 < a < b)%Z -> Qfloor ($a / $b) = 0%Z).
    { intros a b H. apply floor_is; change $0 with 0.
      - apply Qle_shift_div_l; [apply inj_pos; lia|]. rewrite Qmult_0_l. change 0 with $0. apply inj_le. lia.
      - apply Qlt_shift_div_r; [apply inj_pos; lia|]. rewrite Qplus_0_l, Qmult_1_l. apply inj_lt. lia. }
    destruct (lt_b _ _); apply A; assumption. }
  rewrite Z0. reflexivity.
Qed.
Print Assumptions C112_start_refuted.

(** However a finger moves, in whatever steps, the pointer is moved by twice the
    way of the finger in pixels of the screen, rounded down once: no movement is
    lost or made up by the rounding of the steps. *)
Theorem C112_drag : forall scale accum l, 0 < scale -> 0 <= accum < 1 ->
  let way := fold_right Qplus 0 l in
  fold_right Z.add 0%Z (snd (drags scale accum l)) = Qfloor (accum + way * 2 / scale) /\
  0 <= fst (drags scale accum l) < 1 /\ List.length (snd (drags scale accum l)) = List.length l.
Proof.
  intros scale accum l Sc. revert accum. induction l as [|d l IH]; intros accum A; cbn zeta in *.
  - cbn [drags fst snd fold_right List.length]. split; [|split; [exact A|reflexivity]]. symmetry. apply floor_is; change $0 with 0.
    + assert (X : 0 * 2 / scale == 0) by (field; lra). lra.
    + assert (X : 0 * 2 / scale == 0) by (field; lra). lra.
  - cbn [drags]. unfold drag. pose proof (floor_bounds (accum + d * 2 / scale)) as [F1 F2]. set (m := Qfloor (accum + d * 2 / scale)) in *.
    destruct (IH (accum + d * 2 / scale - $m)) as (I1 & I2 & I3); [lra|]. destruct (drags _ _ l) as [a ms]. cbn [fst snd] in *. cbn [fold_right List.length].
    split; [|split; [exact I2|rewrite I3; reflexivity]]. rewrite I1.
    assert (E : accum + (d + fold_right Qplus 0 l) * 2 / scale == $m + (accum + d * 2 / scale - $m + fold_right Qplus 0 l * 2 / scale)) by (field; lra).
    rewrite (Qfloor_comp _ _ E). generalize (accum + d * 2 / scale - $m + fold_right Qplus 0 l * 2 / scale) as q. intros q. symmetry.
    pose proof (floor_bounds q) as [Q1 Q2]. apply floor_is; rewrite inject_Z_plus; lra.
Qed.
Print Assumptions C112_drag.

(** On Linux the window is asked to have the size of the screen, or the screen
    scaled by the option and rounded down, as long as that is below 65536. *)
Theorem C112_resize : forall scale w h, (0 <= w < 65536)%Z -> (0 <= h < 65536)%Z -> 0 <= scale ->
  $w * scale < $65536 -> $h * scale < $65536 ->
  exists w' h', resize_window scale w h = Ok (w', h') /\
    (scale == 0 -> w' = w /\ h' = h) /\ (0 < scale -> $w' <= $w * scale < $w' + 1 /\ $h' <= $h * scale < $h' + 1).
Proof.
  intros scale w h Hw Hh Sc Bw Bh. unfold resize_window. destruct (Qeq_bool scale 0) eqn:E; cbn [negb].
  - apply Qeq_bool_iff in E. exists w, h. split; [reflexivity|]. split; [auto|]. intros X. lra.
  - apply Qeq_bool_neq in E. assert (P : 0 < scale). { apply Qle_lteq in Sc as [X|X]; [exact X|]. exfalso. apply E. symmetry. exact X. }
    assert (T : forall n, (0 <= n < 65536)%Z -> $n * scale < $65536 -> to_u16 ($n * scale) = Ok (Qfloor ($n * scale))).
    { intros n Hn B. assert (N : 0 <= $n) by (change 0 with $0; apply inj_le; lia). unfold to_u16. rewrite (proj2 (Qle_bool_iff 0 ($n * scale))) by nra.
      pose proof (floor_bounds ($n * scale)) as [F1 F2].
      assert (X : (0 <= Qfloor ($n * scale))%Z). { change 0%Z with (Qfloor $0). apply Qfloor_resp_le. change $0 with 0. nra. }
      assert (Y : (Qfloor ($n * scale) < 65536)%Z). { rewrite Zlt_Qlt. lra. }
      rewrite (proj2 (Z.leb_le _ _) X), (proj2 (Z.ltb_lt _ _) Y). reflexivity. }
    rewrite !T by assumption. cbn [rbind]. eexists _, _. split; [reflexivity|]. split; [intros X; lra|]. intros _. split; apply floor_bounds.
Qed.
Print Assumptions C112_resize.
(** Otherwise the conversion to uint16_t is undefined. *)
Theorem C112_resize_refuted : exists z, resize_window 4 20000 320 = Fault (SignedOverflow z) /\ exists z', resize_window (-1 # 1) 512 320 = Fault (SignedOverflow z').
Proof. eexists. split; [vm_compute; reflexivity|]. eexists. vm_compute. reflexivity. Qed.
Print Assumptions C112_resize_refuted.

Example C112_case :
  (let d := get_draw_info 1280 720 512 320 in (w_scale d == 9 # 4 /\ w_width d == 1152 /\ w_height d == 720 /\ w_left d = 64%Z /\ w_top d = 0%Z) /\
   move_to d 512 320 64 719 = Ok (0, 319)%Z /\ move_to d 512 320 (64 + (9 # 4) * 100) 0 = Ok (100, 0)%Z /\
   move_to d 512 320 10 0 = Ok (0, 0)%Z /\ move_to d 512 320 1279 0 = Ok (512, 0)%Z) /\
  start_size 512 320 = Ok (512, 320)%Z /\ start_size 1080 2400 = Ok (154, 342)%Z /\ start_size 511 319 = Fault DivByZero /\
  snd (drags 3 0 [1; 1; 1; - (2); 5; 4 # 3]%list) = [0; 1; 1; -2; 4; 0]%Z%list /\ resize_window (5 # 2) 511 321 = Ok (1277, 802)%Z.
Proof. vm_compute. repeat split; reflexivity. Qed.
