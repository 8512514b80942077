(** Properties C28-C30: the screen. *)
From Verif Require Import Base VmModel VmSpec VmProofs ScreenModel ScreenSpec ScreenProofs ScreenHistory Props_VM.
From Coq Require Import ZifyBool.

Lemma kept_resize v s : bytes_ports v -> size_kept v s -> maybe_resize v s = Ok s.
Proof.
  intros HB K. unfold size_kept in K. unfold maybe_resize. rewrite !port_word by (auto; lia).
  destruct (negb _ && negb _ && (_ || _)) eqn:E; [exfalso; lia|reflexivity].
Qed.

(** An example: a 16 by 8 screen, a program with a sprite at 0x200. *)
Definition ex_ports (l : list Z) : arr := fun i => nth (Z.to_nat (i - 32)) l 0.
Definition ex_screen : screen :=
  match initial_screen 16 8 with Ok s => s | Fault _ => mkScreen 0 0 0 0 0 0 0 0 0 0 0 (mkRect 0 0 0 0) (mkRect 0 0 0 0) (fun _ => 0) end.
Definition ex_cells : list Z := [255; 129; 129; 129; 129; 129; 129; 255; 0; 126; 66; 66; 66; 66; 126; 0].
Definition ex_draw (ports : list Z) : vm :=
  mkVm 0 0 (fun _ => 0) (fun _ => 0) (ex_ports ports) (fun i => nth (Z.to_nat (i - 512)) ex_cells 0) 65536.
Lemma ex_screen_ok : screen_ok ex_screen.
Proof. destruct (history_inv (mkDisplay ex_screen (fun _ => 0) (fun _ => 0) (fun _ => 0) (fun _ => 0))) as (H & _); [|exact H]. apply history_start with (w := 16) (h := 8); [split; lia|reflexivity]. Qed.
Lemma ex_bytes ports : Forall is_byte ports -> bytes_ports (ex_draw ports).
Proof.
  intros H i Hi. cbn. unfold ex_ports. destruct (Nat.lt_ge_cases (Z.to_nat (i - 32)) (length ports)) as [L|L].
  - rewrite Forall_forall in H. apply H. apply nth_In. exact L.
  - rewrite nth_overflow by lia. unfold is_byte. lia.
Qed.

Lemma moved_ok s x y a : screen_ok s -> 0 <= a -> screen_ok (set_xya s x y a).
Proof. intros (A & B & C & D & E & F & G & _ & H) HA. exact (conj A (conj B (conj C (conj D (conj E (conj F (conj G (conj HA H)))))))). Qed.

(** ** C28
    A port write that is not a fill never writes outside the layers, whatever the
    registers.  It can only fail by reading a sprite past the end of memory, or when
    the registers have been moved beyond 2^30 by auto-increment. *)
Theorem C28_draw_in_bounds :
  forall v s a, screen_ok s -> bytes_ports v -> request_ok v -> ~ is_fill v a ->
  match screen_deo v s a with
  | Ok s' => screen_ok s'
  | Fault (OobRead k) => a = 47 /\ vm_msize v <= k
  | Fault (SignedOverflow _) => ~ regs_ok s
  | Fault _ => False
  end.
Proof. exact deo_safe. Qed.
Print Assumptions C28_draw_in_bounds.

(** So no history of such writes, however long, writes outside. *)
Theorem C28_history :
  forall l s, screen_ok s ->
  Forall (fun '(v, a) => bytes_ports v /\ request_ok v /\ ~ is_fill v a) l ->
  forall k, port_writes l s <> Fault (OobWrite k).
Proof.
  induction l as [|[v a] l IH]; intros s HO HL k; cbn [port_writes]; [discriminate|].
  inversion HL as [|? ? HX HL']; subst. cbv beta iota in HX. destruct HX as (HB & HR & NF).
  pose proof (deo_safe v s a HO HB HR NF) as D. destruct (screen_deo v s a) as [s'|f]; cbn [rbind]; [apply IH; auto|].
  intros E. injection E as ->. exact D.
Qed.
Print Assumptions C28_history.

(** A draw whose sprites lie in memory happens. *)
Theorem C28_sprites_draw :
  forall v s, screen_ok s -> bytes_ports v -> request_ok v -> regs_ok s ->
  rA s + 16 * (rML s + 1) <= vm_msize v -> exists s', screen_deo v s 47 = Ok s'.
Proof. intros. apply sprites_draw; auto. lia. Qed.
Print Assumptions C28_sprites_draw.

(** A pixel draw changes that pixel, if it is on the screen, and nothing else. *)
Theorem C28_pixel :
  forall v s s', screen_ok s -> bytes_ports v -> size_kept v s -> bit (vm_dev v 46) 7 = false ->
  screen_deo v s 46 = Ok s' ->
  let fg := bit (vm_dev v 46) 6 in
  (forall x y, visible s x y -> shown s' fg x y = dot (rX s) (rY s) (vm_dev v 46 mod 4) (shown s fg) x y) /\
  (forall x y, visible s x y -> shown s' (negb fg) x y = shown s (negb fg) x y) /\
  rX s' = rX s + (if rMX s =? 0 then 0 else 1) /\ rY s' = rY s + (if rMY s =? 0 then 0 else 1).
Proof.
  intros v s s' HO HB K B7 E. unfold screen_deo in E. cbn [Z.eqb Pos.eqb orb] in E. rewrite (kept_resize v s HB K) in E. cbn [rbind] in E.
  rewrite (flag _ 7 128) in E by (reflexivity || lia). unfold bit in *. rewrite B7 in E.
  assert (CE : Z.land (vm_dev v 46) 3 = vm_dev v 46 mod 4) by (change 3 with (4 - 1); apply (low_bits _ 2 4); [lia|reflexivity]).
  assert (HC : 0 <= Z.land (vm_dev v 46) 3 < 4) by (rewrite CE; apply Z.mod_pos_bound; lia).
  pose proof HO as (Hs & _).
  destruct (pixel_post s _ s' Hs HC E) as (D & _ & RX & RY & _ & H). cbv zeta. rewrite CE in H.
  split; [exact H|]. split; [|auto]. intros x y V. eapply drawn_shown; eauto. destruct (Z.testbit (vm_dev v 46) 6); discriminate.
Qed.
Print Assumptions C28_pixel.

(** Fill mode: exactly when it writes outside. *)
Theorem C28_fill_exact :
  forall v s, screen_ok s -> bytes_ports v -> size_kept v s -> bit (vm_dev v 46) 7 = true -> -32768 <= rY s <= 65519 ->
  (fill_outside s (vm_dev v 46) <-> exists k, screen_deo v s 46 = Fault (OobWrite k)) /\
  (~ fill_outside s (vm_dev v 46) <-> exists s', screen_deo v s 46 = Ok s') /\
  (forall k, screen_deo v s 46 = Fault (OobWrite k) -> ~ 0 <= k < 2 * ((s_w s + 16) * (s_h s + 16))).
Proof.
  intros v s HO HB K B7 HY. unfold screen_deo. cbn [Z.eqb Pos.eqb orb]. rewrite (kept_resize v s HB K). cbn [rbind].
  rewrite (flag _ 7 128) by (reflexivity || lia). unfold bit in B7. rewrite B7. pose proof HO as (Hs & _).
  destruct (fill_exact s (vm_dev v 46) Hs HY) as (A & B).
  assert (DEC : fill_outside s (vm_dev v 46) \/ ~ fill_outside s (vm_dev v 46)).
  { unfold fill_outside. destruct (fill_x _ _), (fill_y _ _). lia. }
  destruct DEC as [O|N].
  - destruct (A O) as (k & E & NK). rewrite E. split; [|split].
    + split; intros _; [exists k; reflexivity|exact O].
    + split; [intros N; contradiction|intros (x0 & X); discriminate X].
    + intros k' X. injection X as <-. exact NK.
  - destruct (B N) as (s' & E & _). rewrite E. split; [|split].
    + split; [intros X; contradiction|intros (k0 & X); discriminate X].
    + split; intros _; [exists s'; reflexivity|exact N].
    + intros k' X. discriminate X.
Qed.
Print Assumptions C28_fill_exact.

(** From a point of the screen (or its border) it paints the quadrant. *)
Theorem C28_fill_inside :
  forall v s, screen_ok s -> bytes_ports v -> size_kept v s -> bit (vm_dev v 46) 7 = true ->
  0 <= rX s <= s_w s -> 0 <= rY s <= s_h s ->
  let fg := bit (vm_dev v 46) 6 in
  exists s', screen_deo v s 46 = Ok s' /\ screen_ok s' /\
  (forall x y, visible s x y -> shown s' fg x y =
     quadrant (bit (vm_dev v 46) 4) (bit (vm_dev v 46) 5) (rX s) (rY s) (vm_dev v 46 mod 4) (shown s fg) x y) /\
  (forall x y, visible s x y -> shown s' (negb fg) x y = shown s (negb fg) x y).
Proof.
  intros v s HO HB K B7 HX HY. pose proof HO as (Hs & _). pose proof Hs as (Hw & Hh).
  assert (FS : fill_safe s (vm_dev v 46)) by (unfold fill_safe, fill_x, fill_y; destruct (bit _ 4), (bit _ 5); lia).
  assert (NO : ~ fill_outside s (vm_dev v 46)).
  { unfold fill_outside, fill_x, fill_y, offset. destruct (bit _ 4), (bit _ 5), (bit _ 6); nia. }
  destruct (C28_fill_exact v s HO HB K B7 ltac:(lia)) as (_ & (X & _) & _). destruct (X NO) as (s' & E).
  exists s'. split; [exact E|]. unfold screen_deo in E. cbn [Z.eqb Pos.eqb orb] in E. rewrite (kept_resize v s HB K) in E. cbn [rbind] in E.
  rewrite (flag _ 7 128) in E by (reflexivity || lia). unfold bit in B7. rewrite B7 in E.
  destruct (fill_post s _ s' Hs FS E) as (D & RA & _ & _ & _ & H). split.
  - eapply drawn_ok; [exact HO|exact D|]. rewrite RA. apply HO.
  - split; [exact H|]. intros x y V. eapply drawn_shown; eauto. unfold bit. destruct (Z.testbit (vm_dev v 46) 6); discriminate.
Qed.
Print Assumptions C28_fill_inside.

(** Case: at (3, 2) a pixel of colour 2 on the background, then a fill of the lower
    left quadrant of the foreground. *)
Example C28_case :
  let v1 := ex_draw [0; 0; 0; 0; 0; 0; 1; 0; 0; 3; 0; 2; 0; 0; 2] in
  let v2 := ex_draw [0; 0; 0; 0; 0; 0; 1; 0; 0; 3; 0; 2; 0; 0; 211] in
  bytes_ports v1 /\ request_ok v1 /\ ~ is_fill v1 46 /\ is_fill v2 46 /\
  match port_writes [(v1, 38); (v1, 40); (v1, 42); (v1, 46)] ex_screen with
  | Ok s => (shown s false 3 2, shown s false 4 2, rX s, rY s) = (2, 0, 4, 2) /\
      match screen_deo v2 s 46 with
      | Ok s2 => map (fun x => shown s2 true x 5) [0; 3; 4; 5] = [3; 3; 0; 0] /\ shown s2 true 0 1 = 0
      | _ => False end
  | _ => False
  end.
Proof.
  split; [apply ex_bytes; repeat constructor; unfold is_byte; lia|]. split; [cbv; split; congruence|].
  split; [intros (_ & X); discriminate X|]. split; [split; reflexivity|]. vm_compute. auto.
Qed.

(** Not so with fills from outside: x = -32768 reaches before the block. *)
Theorem C28_fill_in_bounds_refuted :
  exists v s, screen_ok s /\ regs_ok s /\ bytes_ports v /\ size_kept v s /\
  exists k, port_writes [(v, 40); (v, 46)] s = Fault (OobWrite k) /\ k < 0.
Proof.
  exists (ex_draw [0; 0; 0; 0; 0; 0; 0; 0; 128; 0; 0; 0; 0; 0; 129]), ex_screen.
  split; [apply ex_screen_ok|]. split; [cbv; repeat split; congruence|].
  split; [apply ex_bytes; repeat constructor; unfold is_byte; lia|]. split; [left; reflexivity|].
  exists (-32504). split; [vm_compute; reflexivity|lia].
Qed.
Print Assumptions C28_fill_in_bounds_refuted.

(** Nor are sprites always read inside memory: 0xfff9 with 64 KiB. *)
Theorem C28_sprite_read_refuted :
  exists v s, screen_ok s /\ regs_ok s /\ bytes_ports v /\ size_kept v s /\ vm_msize v = 65536 /\
  port_writes [(v, 44); (v, 47)] s = Fault (OobRead 65536).
Proof.
  exists (ex_draw [0; 0; 0; 0; 0; 0; 0; 0; 0; 0; 0; 0; 255; 249; 0; 1]), ex_screen.
  split; [apply ex_screen_ok|]. split; [cbv; repeat split; congruence|].
  split; [apply ex_bytes; repeat constructor; unfold is_byte; lia|]. split; [left; reflexivity|]. split; [reflexivity|].
  vm_compute. reflexivity.
Qed.
Print Assumptions C28_sprite_read_refuted.

(** And a screen one pixel wider than [size_ok] allows overflows [int] for a sprite
    just above the top edge. *)
Theorem C28_wide_screen_refuted :
  exists v s, initial_screen 32753 8 = Ok s /\ regs_ok s /\ bytes_ports v /\ size_kept v s /\
  port_writes [(v, 42); (v, 47)] s = Fault (SignedOverflow 2147516415).
Proof.
  exists (ex_draw [0; 0; 0; 0; 0; 0; 0; 0; 0; 0; 255; 247; 0; 0; 0; 1]).
  eexists. split; [reflexivity|]. split; [cbv; repeat split; congruence|].
  split; [apply ex_bytes; repeat constructor; unfold is_byte; lia|]. split; [left; reflexivity|]. vm_compute. reflexivity.
Qed.
Print Assumptions C28_wide_screen_refuted.

(** ** C29
    After any history of draws, size changes, theme changes and frames, a frame
    leaves the target showing the whole layer ... *)
Theorem C29_incremental :
  forall d fg, history d ->
  let s := d_screen d in let pal := d_palette d fg in
  exists r s' t', render s fg pal (s_w s * s_h s) (d_target d fg) = Ok (r, s', t') /\ full s fg pal t' /\
    (r = false -> t' = d_target d fg).
Proof.
  intros d fg H. destruct (history_inv d H) as (HO & C). cbv zeta.
  destruct (render_ok (d_screen d) fg _ _ HO (C fg)) as (r & s' & t' & E & F & _ & _ & R). eauto 8.
Qed.
Print Assumptions C29_incremental.

(** A frame reports a change exactly if a pixel of the screen was marked, and then
    no pixel is marked any more. *)
Definition marked (s : screen) (fg : bool) (x y : Z) : Prop :=
  0 <= x < s_w s /\ 0 <= y < s_h s /\ x1 (s_dirty s fg) <= x < x2 (s_dirty s fg) /\ y1 (s_dirty s fg) <= y < y2 (s_dirty s fg).
Theorem C29_reports :
  forall s fg pal tsize target r s' t', 0 <= s_w s -> 0 <= s_h s -> render s fg pal tsize target = Ok (r, s', t') ->
  (r = true <-> exists x y, marked s fg x y) /\ (forall x y, ~ marked s' fg x y).
Proof.
  intros s fg pal tsize target r s' t' W H E. unfold render in E. unfold marked.
  set (d := s_dirty s fg) in *. cbn [x1 x2 y1 y2] in E.
  assert (CL : forall v hi, 0 <= hi -> clamp v 0 hi = Z.max 0 (Z.min v hi)) by (intros v hi Hh; unfold clamp; repeat match goal with |- context [if ?c then _ else _] => destruct c eqn:? end; lia).
  rewrite !CL in E by lia.
  destruct (negb _) eqn:N in E.
  - injection E as <- <- <-. split; [split; [discriminate|]; intros (x & y & M); lia|].
    intros x y M. destruct fg; unfold set_rect, set_layer, s_dirty in M; cbn [x1 x2 y1 y2 s_w s_h s_bgd s_fgd set_layer] in M; lia.
  - destruct (render_rows _ _ _ _ _ _ _ _ _) in E; [|discriminate E]. cbn [rbind] in E. injection E as <- <- <-. split.
    + split; [intros _|reflexivity]. exists (Z.max 0 (Z.min (x1 d) (s_w s))), (Z.max 0 (Z.min (y1 d) (s_h s))). lia.
    + intros x y M. destruct fg; unfold set_rect, set_layer, s_dirty in M; cbn [x1 x2 y1 y2 s_w s_h s_bgd s_fgd set_layer] in M; lia.
Qed.
Print Assumptions C29_reports.

(** ... which is what drawing the whole layer again would give, on any target. *)
Theorem C29_same_as_full :
  forall d fg any, history d ->
  let s := d_screen d in let pal := d_palette d fg in
  exists r s1 t1 r' s2 t2,
    render s fg pal (s_w s * s_h s) (d_target d fg) = Ok (r, s1, t1) /\
    render (force_refresh s) fg pal (s_w s * s_h s) any = Ok (r', s2, t2) /\
    forall x y, visible s x y -> t1 (y * s_w s + x) = t2 (y * s_w s + x).
Proof.
  intros d fg any H. cbv zeta. destruct (history_inv d H) as (HO & C).
  destruct (render_ok (d_screen d) fg _ _ HO (C fg)) as (r & s1 & t1 & E1 & F1 & _).
  assert (A : current (force_refresh (d_screen d)) fg (d_palette d fg) any).
  { apply all_current. intros fg' x y (V1 & V2). cbn in V1, V2. destruct fg'; cbn; apply dirty_new; lia. }
  destruct (render_ok (force_refresh (d_screen d)) fg (d_palette d fg) any HO A) as (r' & s2 & t2 & E2 & F2 & _).
  exists r, s1, t1, r', s2, t2. split; [exact E1|]. split; [exact E2|]. intros x y V. rewrite (F1 x y V). symmetry. exact (F2 x y V).
Qed.
Print Assumptions C29_same_as_full.

(** Case: a frame, two sprites (auto-y, the second at x = 8), and only they are dirty. *)
Definition ex_palette (i : Z) : Z := 100 + i.
Definition ex_two : vm := ex_draw [0; 0; 0; 0; 0; 0; 18; 0; 0; 0; 0; 1; 2; 0; 0; 129].
Definition ex_frame1 : display :=
  let s0 := ex_screen in
  match render s0 false ex_palette 128 (fun _ => 7) with
  | Ok (_, s, t) => mkDisplay s t (fun _ => 7) ex_palette ex_palette
  | Fault _ => mkDisplay s0 (fun _ => 7) (fun _ => 7) ex_palette ex_palette
  end.
Lemma ex_frame1_history : history ex_frame1.
Proof.
  apply history_step with (d := mkDisplay ex_screen (fun _ => 7) (fun _ => 7) ex_palette ex_palette) (e := Frame false).
  - apply history_start with (w := 16) (h := 8); [split; lia|reflexivity].
  - unfold ex_frame1. destruct (render ex_screen false ex_palette 128 (fun _ => 7)) as [[[r s] t]|f] eqn:E.
    + exact (step_frame (mkDisplay ex_screen (fun _ => 7) (fun _ => 7) ex_palette ex_palette) false r s t E).
    + exfalso. assert (X : match render ex_screen false ex_palette 128 (fun _ => 7) with Ok _ => true | _ => false end = true) by (vm_compute; reflexivity).
      rewrite E in X. discriminate.
  - exact I.
Qed.
Example C29_case :
  match port_writes [(ex_two, 38); (ex_two, 42); (ex_two, 44)] (d_screen ex_frame1) with
  | Ok s => sprites_in_view s 129 /\
    match screen_deo ex_two s 47 with
    | Ok s' =>
        let d := s_dirty s' false in (x1 d, y1 d, x2 d, y2 d) = (-8, -7, 24, 9) /\
        match render s' false ex_palette 128 (d_bg ex_frame1) with
        | Ok (r, _, t) => r = true /\ map (fun i => t (16 + i)) [0; 1; 7; 8; 15] = [101; 101; 101; 101; 101] /\ t 18 = 101 /\ t 0 = 100
        | _ => False end
    | _ => False end
  | _ => False end.
Proof.
  assert (X : match port_writes [(ex_two, 38); (ex_two, 42); (ex_two, 44)] (d_screen ex_frame1) with
    | Ok s => (rML s, rMY s, rMX s, rX s, rY s) = (1, 2, 0, 0, 1) /\
      match screen_deo ex_two s 47 with
      | Ok s' =>
        let d := s_dirty s' false in (x1 d, y1 d, x2 d, y2 d) = (-8, -7, 24, 9) /\
        match render s' false ex_palette 128 (d_bg ex_frame1) with
        | Ok (r, _, t) => r = true /\ map (fun i => t (16 + i)) [0; 1; 7; 8; 15] = [101; 101; 101; 101; 101] /\ t 18 = 101 /\ t 0 = 100
        | _ => False end
      | _ => False end
    | _ => False end) by (vm_compute; repeat split).
  destruct (port_writes _ _) as [s|]; [|contradiction]. destruct X as (X & Y). split; [|exact Y]. injection X as H1 H2 H3 H4 H5.
  unfold sprites_in_view, in_view. rewrite H1, H2, H3, H4, H5. intros i Hi. change (2 =? 0) with false. change (0 =? 0) with true. cbv iota. change (sgn (bit 129 4)) with 1. lia.
Qed.

(** Not for sprites that wrap: at x = 65530 (reached by auto-increment) two columns
    appear at the left edge, outside the dirty rectangle. *)
Definition ex_wrap_screen : screen := set_xya (d_screen ex_frame1) 65530 0 512.
Theorem C29_wrapping_refuted :
  exists v s t s', screen_ok s /\ full s false ex_palette t /\ bytes_ports v /\ size_kept v s /\
  screen_deo v s 47 = Ok s' /\ visible s' 0 0 /\
  exists r s2 t2, render s' false ex_palette (s_w s' * s_h s') t = Ok (r, s2, t2) /\ t2 0 <> ex_palette (shown s' false 0 0).
Proof.
  destruct (screen_deo ex_two ex_wrap_screen 47) as [s'|] eqn:E.
  2:{ exfalso. assert (X : match screen_deo ex_two ex_wrap_screen 47 with Ok _ => true | _ => false end = true) by (vm_compute; reflexivity).
      rewrite E in X. discriminate. }
  assert (X : match screen_deo ex_two ex_wrap_screen 47 with
    | Ok s' => (s_w s', s_h s') = (16, 8) /\
      match render s' false ex_palette 128 (d_bg ex_frame1) with
      | Ok (_, _, t2) => (t2 0 =? ex_palette (shown s' false 0 0)) = false | _ => False end
    | _ => False end) by (vm_compute; auto).
  rewrite E in X. destruct X as (W & X). injection W as W1 W2.
  exists ex_two, ex_wrap_screen, (d_bg ex_frame1), s'.
  destruct (history_inv ex_frame1 ex_frame1_history) as (HO & _).
  split; [apply moved_ok; [exact HO|lia]|]. split.
  { intros x y V. assert (S0 : forall x y, shown ex_wrap_screen false x y = 0).
    { intros. unfold ex_wrap_screen, ex_frame1. destruct (render ex_screen false ex_palette 128 (fun _ => 7)) as [[[r s] t]|f] eqn:ER; [|reflexivity].
      unfold render in ER. destruct (negb _) in ER; [injection ER as <- <- <-; reflexivity|].
      destruct (render_rows _ _ _ _ _ _ _ _ _) in ER; [|discriminate]. injection ER as <- <- <-. reflexivity. }
    rewrite S0. change (s_w ex_wrap_screen) with (s_w (d_screen ex_frame1)) in *.
    assert (D : s_w (d_screen ex_frame1) = 16 /\ s_h (d_screen ex_frame1) = 8) by (vm_compute; auto).
    destruct V as (V1 & V2). change (s_w ex_wrap_screen) with (s_w (d_screen ex_frame1)) in V1. change (s_h ex_wrap_screen) with (s_h (d_screen ex_frame1)) in V2.
    destruct D as (D1 & D2). rewrite D1 in *. rewrite D2 in *.
    assert (ALL : forallb (fun i => d_bg ex_frame1 (Z.of_nat i) =? 100) (seq 0 128) = true) by (vm_compute; reflexivity).
    rewrite forallb_forall in ALL. specialize (ALL (Z.to_nat (y * 16 + x)) ltac:(apply in_seq; lia)).
    rewrite Z2Nat.id in ALL by lia. unfold ex_palette. lia. }
  split; [apply ex_bytes; repeat constructor; unfold is_byte; lia|]. split; [left; reflexivity|]. split; [exact E|].
  split; [unfold visible; lia|]. rewrite W1, W2. change (16 * 8) with 128.
  destruct (render s' false ex_palette 128 (d_bg ex_frame1)) as [[[r s2] t2]|]; [|contradiction].
  exists r, s2, t2. split; [reflexivity|]. intros EQ. rewrite EQ, Z.eqb_refl in X. discriminate.
Qed.
Print Assumptions C29_wrapping_refuted.

(** Nor for a fill that runs past the right margin: it continues on the next line,
    one line below the dirty rectangle. *)
Definition ex_fill_screen : screen := set_xya (d_screen ex_frame1) 40 1 0.
Definition ex_filler : vm := ex_draw [0; 0; 0; 0; 0; 0; 0; 0; 0; 0; 0; 0; 0; 0; 179].
Theorem C29_overlong_fill_refuted :
  exists s', screen_ok ex_fill_screen /\ bytes_ports ex_filler /\ size_kept ex_filler ex_fill_screen /\
  screen_deo ex_filler ex_fill_screen 46 = Ok s' /\ visible s' 0 1 /\
  shown ex_fill_screen false 0 1 = 0 /\ shown s' false 0 1 = 3 /\
  exists r s2 t2, render s' false ex_palette (s_w s' * s_h s') (d_bg ex_frame1) = Ok (r, s2, t2) /\ t2 16 = ex_palette 0.
Proof.
  destruct (screen_deo ex_filler ex_fill_screen 46) as [s'|] eqn:E.
  2:{ exfalso. assert (X : match screen_deo ex_filler ex_fill_screen 46 with Ok _ => true | _ => false end = true) by (vm_compute; reflexivity).
      rewrite E in X. discriminate. }
  assert (X : match screen_deo ex_filler ex_fill_screen 46 with
    | Ok s' => s_w s' = 16 /\ s_h s' = 8 /\ shown ex_fill_screen false 0 1 = 0 /\ shown s' false 0 1 = 3 /\
      match render s' false ex_palette 128 (d_bg ex_frame1) with
      | Ok (_, _, t2) => t2 16 = ex_palette 0 | _ => False end
    | _ => False end) by (vm_compute; auto 6).
  rewrite E in X. destruct X as (W1 & W2 & W3 & W4 & X). exists s'.
  destruct (history_inv ex_frame1 ex_frame1_history) as (HO & _).
  split; [apply moved_ok; [exact HO|lia]|]. split; [apply ex_bytes; repeat constructor; unfold is_byte; lia|]. split; [left; reflexivity|]. split; [reflexivity|].
  split; [unfold visible; lia|]. split; [exact W3|]. split; [exact W4|]. rewrite W1, W2. change (16 * 8) with 128.
  destruct (render s' false ex_palette 128 (d_bg ex_frame1)) as [[[r s2] t2]|]; [|contradiction]. exists r, s2, t2. auto.
Qed.
Print Assumptions C29_overlong_fill_refuted.

(** ** C30
    A sprite draw changes the visible pixels of its layer to the stamped picture,
    leaves everything else alone and keeps every cell a colour number. *)
Theorem C30_sprites :
  forall v s s', screen_ok s -> bytes_ports v -> size_kept v s -> screen_deo v s 47 = Ok s' ->
  let ctrl := vm_dev v 47 in let fg := bit ctrl 6 in
  (forall x y, visible s x y -> shown s' fg x y = sprite_image v s ctrl (shown s fg) x y) /\
  (forall x y, visible s x y -> shown s' (negb fg) x y = shown s (negb fg) x y) /\
  screen_ok s' /\ same_size s s' /\
  rX s' = rX s + (if rMX s =? 0 then 0 else 8 * sgn (bit ctrl 4)) /\
  rY s' = rY s + (if rMY s =? 0 then 0 else 8 * sgn (bit ctrl 5)) /\
  rA s' = rA s + (if rMA s =? 0 then 0 else (rML s + 1) * (if bit ctrl 7 then 16 else 8)).
Proof.
  intros v s s' HO HB K E. pose proof E as E0. unfold screen_deo in E. cbn [Z.eqb Pos.eqb orb] in E. rewrite (kept_resize v s HB K) in E. cbn [rbind] in E.
  cbv zeta. set (ctrl := vm_dev v 47) in *. destruct (draw_sprites_post v s ctrl s' HO E) as (D & RA & RX & RY & H & _).
  pose proof HO as (Hs & _). unfold bit.
  split; [exact H|]. split; [intros x y V; eapply drawn_shown; eauto; destruct (Z.testbit ctrl 6); discriminate|].
  assert (A0 : rA s' = rA s + (if rMA s =? 0 then 0 else (rML s + 1) * (if Z.testbit ctrl 7 then 16 else 8))).
  { rewrite RA. unfold step_a. destruct (rMA s =? 0); [lia|reflexivity]. }
  split; [|split; [apply D|auto]].
  eapply drawn_ok; [exact HO|exact D|]. rewrite A0. destruct HO as (_ & _ & _ & _ & ML & _ & _ & HA & _). destruct (rMA s =? 0), (Z.testbit ctrl 7); lia.
Qed.
Print Assumptions C30_sprites.

(** A one bit sprite in an opaque mode paints all 64 pixels; in the transparent mode
    only the set ones; outside the cell nothing changes. *)
Theorem C30_pixel :
  forall mem a two fx fy blend x y img px py, 0 <= blend < 16 ->
  let c := sprite_value mem a two fx fy (px - x) (py - y) in
  let covered := x <= px < x + 8 /\ y <= py < y + 8 in
  (covered -> c <> 0 \/ blend mod 5 <> 0 -> stamp mem a two fx fy blend x y img px py = blend_colour c blend) /\
  (covered -> c = 0 -> blend mod 5 = 0 -> stamp mem a two fx fy blend x y img px py = img px py) /\
  (~ covered -> stamp mem a two fx fy blend x y img px py = img px py) /\
  (forall i, 0 <= i < 4 -> 0 <= blend_colour i blend < 4) /\
  (0 <= c < (if two then 4 else 2)).
Proof.
  intros mem a two fx fy blend x y img px py Hb c covered. unfold stamp, transparent. fold c.
  split; [|split; [|split; [|split]]].
  - intros (C1 & C2) H. replace ((x <=? px) && (px <? x + 8) && (y <=? py) && (py <? y + 8)) with true by lia.
    replace ((c =? 0) && (blend mod 5 =? 0)) with false by lia. reflexivity.
  - intros (C1 & C2) H1 H2. rewrite H1, H2. cbn [Z.eqb andb]. destruct (_ && _); reflexivity.
  - intros N. unfold covered in N. replace ((x <=? px) && (px <? x + 8) && (y <=? py) && (py <? y + 8)) with false by lia. reflexivity.
  - intros i Hi. unfold blend_colour.
    assert (0 <= blend / 4 < 4) by (split; [apply Z.div_pos|apply Z.div_lt_upper_bound]; lia).
    pose proof (Z.mod_pos_bound blend 4 ltac:(lia)). pose proof (Z.mod_pos_bound (blend mod 4 + i - 2) 3 ltac:(lia)).
    destruct (i =? 0), (i =? 1); lia.
  - unfold c, sprite_value. destruct (Z.testbit _ _), two; cbn; try lia. all: destruct (Z.testbit _ _); cbn; lia.
Qed.
Print Assumptions C30_pixel.

(** Every history keeps the cells below 4. *)
Theorem C30_cells :
  forall d i, history d -> let s := d_screen d in
  0 <= i < 2 * ((s_w s + 16) * (s_h s + 16)) -> 0 <= s_buf s i < 4.
Proof. intros d i H. destruct (history_inv d H) as (HO & _). apply HO. Qed.
Print Assumptions C30_cells.

(** Case: the two bit sprite, flipped, partly off the left edge, in mode 11. *)
Example C30_case :
  let v := ex_draw [0; 0; 0; 0; 0; 0; 0; 0; 255; 253; 0; 1; 2; 0; 0; 219] in
  bytes_ports v /\ size_kept v ex_screen /\
  match port_writes [(v, 40); (v, 42); (v, 44); (v, 47)] ex_screen with
  | Ok s => rX s = -3 /\ map (fun x => shown s true x 1) [0; 1; 2; 3; 4; 5] = [3; 3; 3; 3; 3; 0] /\
      map (fun x => shown s true x 2) [0; 1; 2; 3; 4; 5] = [1; 1; 1; 1; 3; 0] /\ shown s false 0 1 = 0
  | _ => False end.
Proof. split; [apply ex_bytes; repeat constructor; unfold is_byte; lia|]. split; [left; reflexivity|]. vm_compute. auto. Qed.
