(** Rendering only what is dirty. *)
From Verif Require Import Base VmModel VmSpec VmProofs ScreenModel ScreenSpec ScreenProofs.
From Coq Require Import ZifyBool.

Lemma render_row_ok s palette tsize n : forall i oo target, 0 <= i -> i + Z.of_nat n <= s_size s ->
  0 <= oo -> oo + Z.of_nat n <= tsize -> (forall j, 0 <= j < s_size s -> 0 <= s_buf s j < 4) ->
  exists t, render_row s palette tsize n i oo target = Ok t /\
  (forall k, 0 <= k < Z.of_nat n -> t (oo + k) = palette (s_buf s (i + k))) /\
  (forall j, ~ oo <= j < oo + Z.of_nat n -> t j = target j).
Proof.
  induction n as [|n IH]; intros i oo target Hi Hn Ho Ht HC.
  - exists target. split; [reflexivity|]. split; [intros; lia|auto].
  - cbn [render_row]. rewrite aget_ok by lia. cbn [rbind]. rewrite aget_ok by (apply HC; lia). cbn [rbind]. rewrite aset_ok by lia. cbn [rbind].
    destruct (IH (i + 1) (oo + 1) (upd target oo (palette (s_buf s i)))) as (t & -> & P1 & P2); [lia|lia|lia|lia|exact HC|].
    exists t. split; [reflexivity|]. split.
    + intros k Hk. destruct (Z.eq_dec k 0) as [->|N].
      * rewrite !Z.add_0_r, P2 by lia. apply upd_eq.
      * replace (oo + k) with (oo + 1 + (k - 1)) by ring. rewrite P1 by lia. do 2 f_equal. ring.
    + intros j Hj. rewrite P2 by lia. apply upd_ne. lia.
Qed.

Lemma render_rows_ok s fg palette rx1 rx2 : size_ok (s_w s) (s_h s) -> (forall j, 0 <= j < s_size s -> 0 <= s_buf s j < 4) ->
  0 <= rx1 <= rx2 -> rx2 <= s_w s -> forall n y target, 0 <= y -> y + Z.of_nat n <= s_h s ->
  exists t, render_rows s fg palette (s_w s * s_h s) n rx1 rx2 y target = Ok t /\
  (forall px py, visible s px py -> t (py * s_w s + px) =
     if (rx1 <=? px) && (px <? rx2) && (y <=? py) && (py <? y + Z.of_nat n) then palette (shown s fg px py) else target (py * s_w s + px)).
Proof.
  intros (Hw & Hh) HC Hx Hx2. induction n as [|n IH]; intros y target Hy Hn.
  - exists target. split; [reflexivity|]. intros. replace (_ && _) with false by lia. auto.
  - cbn [render_rows].
    assert (B : 0 <= s_base s fg /\ s_base s fg + s_length s <= s_size s) by (apply base_size; split; auto).
    destruct (render_row_ok s palette (s_w s * s_h s) (Z.to_nat (rx2 - rx1)) (s_base s fg + (MAR rx1 + MAR y * MAR2 (s_w s))) (y * s_w s + rx1) target)
      as (t1 & -> & P1 & P2); [unfold MAR, MAR2; nia|unfold MAR, MAR2, s_length in *; unfold MAR2 in *; rewrite Z2Nat.id by lia; nia|nia|rewrite Z2Nat.id by lia; nia|exact HC|].
    rewrite Z2Nat.id in P1, P2 by lia. cbn [rbind].
    destruct (IH (y + 1) t1) as (t2 & -> & Q); [lia|lia|]. exists t2. split; [reflexivity|].
    intros px py V. rewrite Q by auto. destruct V as (Vx & Vy).
    destruct ((rx1 <=? px) && (px <? rx2) && (y <=? py) && (py <? y + Z.of_nat (S n))) eqn:I.
    + destruct (_ && _) eqn:I2 in |- *; [reflexivity|]. assert (py = y) by lia. subst py.
      replace (y * s_w s + px) with (y * s_w s + rx1 + (px - rx1)) by ring. rewrite P1 by lia. rewrite s_base_shown. do 2 f_equal. unfold cell, MAR, MAR2. ring.
    + replace (_ && _) with false by lia. apply P2. intros R. assert (px - rx1 = (y - py) * s_w s + (px - rx1) + (py - y) * s_w s) by ring.
      assert (0 <= (py - y) * s_w s + (px - rx1) < rx2 - rx1) by lia.
      assert (py = y) by nia. lia.
Qed.

(** Every visible pixel outside the dirty rectangle is on the target. *)
Definition current (s : screen) (fg : bool) (pal t : arr) : Prop :=
  forall x y, visible s x y -> in_rect (s_dirty s fg) x y \/ t (y * s_w s + x) = pal (shown s fg x y).

Lemma shown_set_rect s fg r fg' x y : shown (set_rect s fg r) fg' x y = shown s fg' x y.
Proof. reflexivity. Qed.
Lemma visible_set_rect s fg r x y : visible (set_rect s fg r) x y <-> visible s x y.
Proof. reflexivity. Qed.

Lemma clamp_in v a b : 0 <= b -> a = 0 -> 0 <= clamp v a b <= b.
Proof. unfold clamp. intros. destruct (v <? a) eqn:?, (v >=? b) eqn:?; lia. Qed.
Lemma clamp_lo v b p : 0 <= p < b -> (clamp v 0 b <= p <-> v <= p).
Proof. unfold clamp. intros. destruct (v <? 0) eqn:?, (v >=? b) eqn:?; lia. Qed.
Lemma clamp_hi v b p : 0 <= p < b -> (p < clamp v 0 b <-> p < v).
Proof. unfold clamp. intros. destruct (v <? 0) eqn:?, (v >=? b) eqn:?; lia. Qed.

Lemma render_ok s fg pal t : screen_ok s -> current s fg pal t ->
  exists r s' t', render s fg pal (s_w s * s_h s) t = Ok (r, s', t') /\ full s fg pal t' /\
    screen_ok s' /\ (exists d, s' = set_rect s fg d) /\ (r = false -> t' = t).
Proof.
  intros HO HC. pose proof HO as (Hs & MX & MY & MA & ML & DX & DY & HA & CL). unfold render. set (d := s_dirty s fg).
  destruct Hs as (Hw & Hh).
  pose proof (clamp_in (x1 d) 0 (s_w s) ltac:(lia) eq_refl) as C1. pose proof (clamp_in (y1 d) 0 (s_h s) ltac:(lia) eq_refl) as C2.
  pose proof (clamp_in (x2 d) 0 (s_w s) ltac:(lia) eq_refl) as C3. pose proof (clamp_in (y2 d) 0 (s_h s) ltac:(lia) eq_refl) as C4.
  cbv zeta. cbn [x1 y1 x2 y2].
  assert (OK : forall r, screen_ok (set_rect s fg r)) by (intros; exact HO).
  destruct (negb _) eqn:E.
  - exists false, (set_rect s fg (mkRect (clamp (x1 d) 0 (s_w s)) (clamp (y1 d) 0 (s_h s)) (clamp (x2 d) 0 (s_w s)) (clamp (y2 d) 0 (s_h s)))), t.
    split; [reflexivity|]. split; [|split; [apply OK|split; [eexists; reflexivity|auto]]].
    intros x y V. destruct (HC x y V) as [(I1 & I2)|H]; [exfalso|exact H]. destruct V as (Vx & Vy). fold d in I1, I2.
    pose proof (clamp_lo (x1 d) (s_w s) x Vx). pose proof (clamp_hi (x2 d) (s_w s) x Vx).
    pose proof (clamp_lo (y1 d) (s_h s) y Vy). pose proof (clamp_hi (y2 d) (s_h s) y Vy). lia.
  - destruct (render_rows_ok s fg pal (clamp (x1 d) 0 (s_w s)) (clamp (x2 d) 0 (s_w s)) ltac:(split; auto) CL ltac:(lia) ltac:(lia)
      (Z.to_nat (clamp (y2 d) 0 (s_h s) - clamp (y1 d) 0 (s_h s))) (clamp (y1 d) 0 (s_h s)) t) as (t' & -> & P); [lia|lia|].
    cbn [rbind]. exists true, (set_rect s fg (mkRect (s_w s + 1) (s_h s + 1) 0 0)), t'. split; [reflexivity|].
    split; [|split; [apply OK|split; [eexists; reflexivity|discriminate]]].
    intros x y V. rewrite P by auto. destruct (_ && _) eqn:I in |- *; [reflexivity|].
    destruct (HC x y V) as [(I1 & I2)|H]; [exfalso|exact H]. destruct V as (Vx & Vy). fold d in I1, I2.
    pose proof (clamp_lo (x1 d) (s_w s) x Vx). pose proof (clamp_hi (x2 d) (s_w s) x Vx).
    pose proof (clamp_lo (y1 d) (s_h s) y Vy). pose proof (clamp_hi (y2 d) (s_h s) y Vy). lia.
Qed.

(** Drawing keeps the invariant. *)
Lemma drawn_shown s s' fg fg' x y : size_ok (s_w s) (s_h s) -> drawn s s' fg -> fg' <> fg -> visible s x y ->
  shown s' fg' x y = shown s fg' x y /\ s_dirty s' fg' = s_dirty s fg'.
Proof.
  intros Hs ((W1 & W2) & _ & _ & _ & _ & _ & _ & D & _ & F & _) N (Vx & Vy). split.
  - rewrite !s_base_shown.
    assert (EB : s_base s' fg' = s_base s fg') by (unfold s_base, s_length; rewrite <- W1, <- W2; auto). rewrite EB, <- W1.
    apply F. apply base_cases with (fg' := fg'); [congruence|]. apply cell_inside; auto; lia.
  - destruct fg, fg'; cbn in *; congruence.
Qed.

Lemma drawn_current s s' fg : size_ok (s_w s) (s_h s) -> drawn s s' fg ->
  (forall x y, visible s x y -> shown s' fg x y = shown s fg x y \/ in_rect (s_dirty s' fg) x y) ->
  (all_dirty s -> all_dirty s') /\ (forall fg' pal t, current s fg' pal t -> current s' fg' pal t).
Proof.
  intros Hs D H. pose proof D as ((W1 & W2) & _ & _ & _ & _ & _ & _ & DD & SUB & F & _). split.
  - intros A fg' x y V. assert (V' : visible s x y) by (unfold visible in *; rewrite W1, W2; exact V).
    destruct (Bool.bool_dec fg' fg) as [->|N]; [apply SUB, A; auto|].
    destruct (drawn_shown s s' fg fg' x y Hs D N V') as (_ & ->). apply A; auto.
  - intros fg' pal t C x y V. assert (V' : visible s x y) by (unfold visible in *; rewrite W1, W2; exact V). rewrite <- W1.
    destruct (Bool.bool_dec fg' fg) as [->|N].
    + destruct (C x y V') as [I|E]; [left; apply SUB; auto|]. destruct (H x y V') as [-> | I]; auto.
    + destruct (drawn_shown s s' fg fg' x y Hs D N V') as (-> & ->). apply C; auto.
Qed.

Lemma regs_current s s' : same_size s s' -> s_buf s' = s_buf s -> s_fgd s' = s_fgd s -> s_bgd s' = s_bgd s ->
  forall fg pal t, current s fg pal t -> current s' fg pal t.
Proof.
  intros (W1 & W2) B F G fg pal t C x y (V1 & V2). rewrite <- W1 in *. rewrite <- W2 in *. specialize (C x y (conj V1 V2)).
  unfold shown. rewrite <- W1, <- W2, B. replace (s_dirty s' fg) with (s_dirty s fg) by (destruct fg; cbn; congruence). exact C.
Qed.

Lemma all_current s fg pal t : all_dirty s -> current s fg pal t.
Proof. intros A x y V. left. apply A; auto. Qed.

(** After drawing on a screen that may just have been resized. *)
Lemma after_resize s s1 s' fg : size_ok (s_w s1) (s_h s1) -> (s1 = s \/ (~ same_size s s1 /\ all_dirty s1)) -> drawn s1 s' fg ->
  (forall x y, visible s1 x y -> shown s' fg x y = shown s1 fg x y \/ in_rect (s_dirty s' fg) x y) ->
  (~ same_size s s' /\ all_dirty s') \/ (same_size s s' /\ forall fg' pal t, current s fg' pal t -> current s' fg' pal t).
Proof.
  intros Hs C D H. destruct (drawn_current s1 s' fg Hs D H) as (A1 & A2). destruct D as ((W1 & W2) & _).
  destruct C as [->|(N & A)].
  - right. split; [split; auto|exact A2].
  - left. split; [|auto]. intros (X1 & X2). apply N. split; congruence.
Qed.

Lemma deo_current v s a s' : screen_ok s -> event_ok s (Port v a) s' -> screen_deo v s a = Ok s' ->
  screen_ok s' /\
  ((~ same_size s s' /\ all_dirty s') \/ (same_size s s' /\ forall fg pal t, current s fg pal t -> current s' fg pal t)).
Proof.
  intros HO (HB & HR & EF & ES) E.
  pose proof (maybe_resize_ok v s HO HB HR) as (s1 & RS & HO1 & RG & CS).
  assert (SF : ~ is_fill v a -> screen_ok s') by (intros NF; pose proof (deo_safe v s a HO HB HR NF) as X; rewrite E in X; exact X).
  unfold screen_deo in E.
  destruct (a =? 38) eqn:E38.
  { assert (O : screen_ok s').
    { apply SF. intros (X & _). lia. }
    split; [exact O|]. right. injection E as <-. split; [split; reflexivity|]. apply regs_current; try reflexivity. split; reflexivity. }
  destruct ((a =? 40) || (a =? 41)) eqn:E40.
  { assert (O : screen_ok s') by (apply SF; intros (X & _); lia).
    split; [exact O|]. right. injection E as <-. split; [split; reflexivity|]. apply regs_current; try reflexivity. split; reflexivity. }
  destruct ((a =? 42) || (a =? 43)) eqn:E42.
  { assert (O : screen_ok s') by (apply SF; intros (X & _); lia).
    split; [exact O|]. right. injection E as <-. split; [split; reflexivity|]. apply regs_current; try reflexivity. split; reflexivity. }
  destruct ((a =? 44) || (a =? 45)) eqn:E44.
  { assert (O : screen_ok s').
    { apply SF. intros (X & _). lia. }
    split; [exact O|]. right. injection E as <-. split; [split; reflexivity|]. apply regs_current; try reflexivity. split; reflexivity. }
  destruct (a =? 46) eqn:E46.
  { rewrite RS in E. cbn [rbind] in E. pose proof HO1 as (Hs1 & _ & _ & _ & _ & _ & _ & HA1 & _).
    rewrite (flag _ 7 128) in E by (reflexivity || lia). destruct (Z.testbit (vm_dev v 46) 7) eqn:E7.
    - assert (FS : fill_safe s1 (vm_dev v 46)).
      { specialize (EF ltac:(lia) E7). destruct (fill_keeps s1 _ s' E) as (GX & GY & (W1 & W2)).
        unfold fill_safe, fill_x, fill_y in *. rewrite GX, GY, <- W1, <- W2 in EF. exact EF. }
      destruct (fill_post s1 _ s' Hs1 FS E) as (D & RA & _ & _ & H & _).
      split; [eapply drawn_ok; [exact HO1|exact D|]; rewrite RA; exact HA1|]. eapply after_resize; eauto.
    - assert (HC : 0 <= Z.land (vm_dev v 46) 3 < 4) by (change 3 with (4 - 1); rewrite (low_bits _ 2 4) by (reflexivity || lia); apply Z.mod_pos_bound; lia).
      destruct (pixel_post s1 _ s' Hs1 HC E) as (D & RA & _ & _ & I & H).
      split; [eapply drawn_ok; [exact HO1|exact D|]; rewrite RA; exact HA1|]. eapply after_resize; eauto.
      intros x y V. rewrite H by auto. unfold dot. destruct (_ && _) eqn:XY; [right|auto]. replace x with (rX s1) by lia. replace y with (rY s1) by lia. exact I. }
  destruct (a =? 47) eqn:E47.
  { rewrite RS in E. cbn [rbind] in E. pose proof HO1 as (Hs1 & MX1 & MY1 & MA1 & ML1 & _ & _ & HA1 & _).
    destruct (draw_sprites_post v s1 _ s' HO1 E) as (D & RA & _ & _ & _ & H).
    split.
    - eapply drawn_ok; [exact HO1|exact D|]. rewrite RA. unfold step_a. destruct (rMA s1 =? 0), (Z.testbit (vm_dev v 47) 7); nia.
    - eapply after_resize; eauto. apply H. specialize (ES ltac:(lia)). destruct RG as (GX & GY & _ & G1 & G2 & _ & GL & _).
      unfold sprites_in_view in *. rewrite GX, GY, G1, G2, GL. exact ES. }
  injection E as <-. split; [exact HO|]. right. split; [split; reflexivity|auto].
Qed.

Lemma history_inv d : history d -> screen_ok (d_screen d) /\ forall fg, current (d_screen d) fg (d_palette d fg) (d_target d fg).
Proof.
  induction 1 as [w h s t0 t1 p0 p1 (Hw & Hh) E|d e d' HH (IO & IC) ST OK].
  - unfold initial_screen in E.
    assert (S0 : screen_ok (mkScreen 0 0 0 0 0 0 0 0 0 0 0 (mkRect 0 0 0 0) (mkRect 0 0 0 0) (fun _ => 0))).
    { unfold screen_ok, size_ok. cbn. repeat split; try lia; auto. }
    destruct (resize_ok _ w h S0 ltac:(split; auto)) as (s' & E' & O' & _ & _ & _ & A). rewrite E in E'. injection E' as <-.
    split; [exact O'|]. intros fg. apply all_current. exact A.
  - destruct ST as [d v a s' t0 t1 E T|d v a b s' t0 t1 E T|d p0 p1|d fg r s' t' E]; cbn [d_screen] in *.
    + destruct (deo_current v (d_screen d) a s' IO OK E) as (O' & [(N & A)|(SS & C)]); split; auto; intros fg.
      * apply all_current. exact A.
      * destruct (T SS) as (-> & ->). specialize (C fg _ _ (IC fg)). destruct fg; exact C.
    + destruct OK as (HB & HR). unfold screen_dei in E.
      destruct (maybe_resize_ok v (d_screen d) IO HB HR) as (s1 & RS & HO1 & RG & CS). rewrite RS in E. cbn [rbind] in E.
      assert (s' = s1) by congruence. subst s1. split; [exact HO1|]. intros fg. destruct CS as [->|(N & A)].
      * destruct T as (-> & ->); [split; reflexivity|]. destruct fg; apply IC.
      * apply all_current. exact A.
    + split; [exact IO|]. intros fg. apply all_current. intros fg' x y (V1 & V2). cbn in V1, V2.
      destruct fg'; cbn; apply dirty_new; lia.
    + destruct (render_ok (d_screen d) fg (d_palette d fg) (d_target d fg) IO (IC fg)) as (r' & s2 & t2 & E' & F & O2 & (dd & ES) & _).
      rewrite E in E'. injection E' as <- <- <-. split; [exact O2|]. intros fg'. subst s'.
      destruct (Bool.bool_dec fg' fg) as [->|N].
      * intros x y V. right. replace (d_target _ fg) with t' by (destruct fg; reflexivity). exact (F x y V).
      * pose proof (IC fg') as C. intros x y V. specialize (C x y V). destruct fg, fg'; try congruence; exact C.
Qed.
