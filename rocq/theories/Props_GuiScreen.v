(** C84: the picture the graphical emulator shows. *)
From Verif Require Import Base VmModel VmSpec VmProofs VmWorld SystemModel SystemSpec SystemProofs InputModel FileModel FileSpec MetaModel AudioModel ScreenModel ScreenSpec ScreenProofs ScreenHistory CliModel CliSpec CliProofs GuiModel GuiSpec GuiProofs Props_Gui.
From Coq Require Import ZifyBool.
Open Scope list_scope.
Ltac Zify.zify_post_hook ::= Z.div_mod_to_equations.

(** ** What should be shown *)
(** Entry [c] of the palette in ports 0x08 to 0x0d: one hexadecimal digit of each
    word, doubled; opaque. *)
Definition colour (v : vm) (c : Z) : Z :=
  4278190080 + 65536 * (17 * nibble (word (vm_dev v) 256 12) c) + 256 * (17 * nibble (word (vm_dev v) 256 10) c)
  + 17 * nibble (word (vm_dev v) 256 8) c.
(** Colour 0 of the foreground is transparent. *)
Definition colour_above (v : vm) (c : Z) : Z := if c =? 0 then 0 else colour v c.

(** A port access within the limits of C24: the size asked for is supported, a fill
    stays within the margins and sprites are near the screen. *)
Definition draw_ok (d : screen * vm * Z * screen) : Prop :=
  let '(s, v, a, s') := d in event_ok s (if a =? -1 then Query v a else Port v a) s'.

Section Display.
Variable H : Type.
Variable hs : host H.
Variable now : nat -> option tm.
Variable voices : nat -> Z -> voice.
Variable junk : arr.
Variable hi_first : bool.
Variables (kw kr : Z) (fuel : nat).
Notation run_vector := (run_vector H hs now voices junk hi_first kw kr fuel).
Notation redraw := (redraw H).

(** The display at the start, after any runs, whatever else the emulator does, and
    redraws at which the palette is the one last announced. *)
Inductive displayed : gui H -> Prop :=
| displayed_start w h g : size_ok w h -> initial_screen w h = Ok (g_screen g) -> displayed g
| displayed_run pc v g v' g' : displayed g -> run_vector pc v g = Done _ v' g' -> displayed g'
| displayed_other g g' : displayed g -> g_screen g' = g_screen g -> g_bg g' = g_bg g -> g_fg g' = g_fg g ->
    g_theme g' = g_theme g -> g_draws g' = g_draws g -> displayed g'
| displayed_redraw v g g' : displayed g -> theme_of v = g_theme g -> redraw v g = Ok g' -> displayed g'.

(** ** Proofs *)
Definition theme_vm (l : list Z) : vm :=
  mkVm 0 0 (fun _ => 0) (fun _ => 0) (fun a => nth (Z.to_nat (a - 8)) l 0) (fun _ => 0) 0.
Definition layer_palette (l : list Z) (fg : bool) : arr :=
  if fg then upd (palette (theme_vm l)) 0 0 else palette (theme_vm l).
Definition target (g : gui H) (fg : bool) : arr := if fg then g_fg g else g_bg g.
Definition shows (g : gui H) : Prop :=
  Forall draw_ok (g_draws g) ->
  screen_ok (g_screen g) /\ forall fg, current (g_screen g) fg (layer_palette (g_theme g) fg) (target g fg).

Lemma theme_palette v i : palette v i = palette (theme_vm (theme_of v)) i.
Proof. reflexivity. Qed.
Lemma shown_range s fg x y : screen_ok s -> visible s x y -> 0 <= shown s fg x y < 4.
Proof.
  intros ((Hw & Hh) & _ & _ & _ & _ & _ & _ & _ & C) (Vx & Vy). unfold shown. apply C. destruct fg; nia.
Qed.
Lemma current_pal s fg p q t : screen_ok s -> (forall c, 0 <= c < 4 -> p c = q c) -> current s fg p t -> current s fg q t.
Proof.
  intros HO E C x y V. destruct (C x y V) as [D|D]; [left; exact D|]. right. rewrite D. apply E.
  apply shown_range; assumption.
Qed.

Lemma put_shows (g : gui H) s' d :
  (draw_ok d -> screen_ok (g_screen g) -> screen_ok s' /\
    ((~ same_size (g_screen g) s' /\ all_dirty s') \/ (same_size (g_screen g) s' /\ forall fg pal t, current (g_screen g) fg pal t -> current s' fg pal t))) ->
  shows g -> shows (add_draw H (put_screen H g s') d).
Proof.
  intros HS HG F. cbn [g_draws add_draw] in F.
  assert (ED : g_draws (put_screen H g s') = g_draws g) by (unfold put_screen; destruct (_ && _); reflexivity).
  rewrite ED in F. apply Forall_app in F. destruct F as (F & FD). inversion FD as [|? ? D _]; subst.
  destruct (HG F) as (HO & HC). destruct (HS D HO) as (HO' & HS').
  unfold add_draw, put_screen. destruct ((s_w s' =? s_w (g_screen g)) && (s_h s' =? s_h (g_screen g))) eqn:E; cbn.
  - split; [exact HO'|]. intros fg. destruct HS' as [(N & A)|(_ & C)]; [apply all_current; exact A|]. apply C. apply (HC fg).
  - split; [exact HO'|]. intros fg. destruct HS' as [(N & A)|((S1 & S2) & C)]; [apply all_current; exact A|]. lia.
Qed.

Lemma dei_shows a v (g : gui H) b v' g' : gui_dei H now voices a v g = Ok (b, v', g') -> shows g -> shows g'.
Proof.
  unfold gui_dei. intros E HG. destruct (gui_dei_target a).
  all: try (injection E as <- <- <-; exact HG).
  - unfold screen_dei in E. destruct (maybe_resize v (g_screen g)) as [s1|f] eqn:R; [|discriminate E]. cbn [rbind] in E.
    apply (f_equal (fun r => match r with Ok (_, _, g') => g' | _ => g end)) in E. cbv beta iota in E. subst g'.
    apply put_shows; [|exact HG]. intros (HB & HR) HO. cbn in HB, HR.
    destruct (maybe_resize_ok v (g_screen g) HO HB HR) as (s2 & R2 & HO2 & _ & CS). rewrite R in R2. injection R2 as <-.
    split; [exact HO2|]. destruct CS as [->|CS]; [right; split; [split; reflexivity|auto]|left; exact CS].
  - destruct (audio_dei _ _ _ _) as [((b0, u), c)|]; [|discriminate E]. cbn [rbind] in E. injection E as <- <- <-. exact HG.
  - destruct (cli_dei _ _ _ _ _) as [((b0, u), c)|]; [|discriminate E]. cbn [rbind] in E. injection E as <- <- <-. exact HG.
  - destruct (cli_dei _ _ _ _ _) as [((b0, u), c)|]; [|discriminate E]. cbn [rbind] in E. injection E as <- <- <-. exact HG.
Qed.
Lemma target_a a : gui_deo_target a = Screen -> is_byte a -> a <> -1.
Proof. intros _ B. unfold is_byte in B. lia. Qed.
Lemma deo_shows a v (g : gui H) v' g' : is_byte a -> gui_deo H hs junk a v g = Ok (v', g') -> shows g -> shows g'.
Proof.
  unfold gui_deo. intros Ha E HG. destruct (gui_deo_target a) eqn:T.
  all: try (injection E as <- <-; exact HG).
  - unfold system_deo in E.
    repeat match type of E with (if ?b then _ else _) = _ => destruct b end.
    all: try (injection E as <- <-; exact HG).
    + destruct (expansion v); [|discriminate E]. cbn [rbind] in E. injection E as <- <-. exact HG.
    + unfold gui_set_metadata in E. destruct (parse_from_memory _ _) as [m|]; [|discriminate E]. cbn [rbind] in E.
      destruct (md_content m); [|injection E as <- <-; exact HG].
      destruct (apply_metadata _ _ _ _ _); [|discriminate E]. cbn [rbind] in E. injection E as <- <-. exact HG.
    + unfold gui_theme_changed in E. injection E as <- <-. intros F. destruct (HG F) as (HO & _). cbn [g_screen set_refreshed g_theme].
      split; [exact HO|]. intros fg. apply all_current. intros fg' x y (V1 & V2). cbn in V1, V2. destruct fg'; cbn; apply dirty_new; lia.
  - unfold console_deo in E. destruct (a =? 24); [|destruct (a =? 25)].
    + unfold gui_write in E. destruct (putc _ _) as [(b, l)|]; [|discriminate E]. cbn [rbind] in E. injection E as <- <-. exact HG.
    + unfold gui_error in E. destruct (putc _ _) as [(b, l)|]; [|discriminate E]. cbn [rbind] in E. injection E as <- <-. exact HG.
    + injection E as <- <-. exact HG.
  - destruct (screen_deo v (g_screen g) a) as [s'|] eqn:D; [|discriminate E]. cbn [rbind] in E.
    apply (f_equal (fun r => match r with Ok (_, g') => g' | _ => g end)) in E. cbv beta iota in E. subst g'.
    apply put_shows; [|exact HG]. intros OK HO. unfold draw_ok in OK. replace (a =? -1) with false in OK by (unfold is_byte in Ha; lia).
    exact (deo_current v (g_screen g) a s' HO OK D).
  - destruct (audio_deo _ _ _); injection E as <- <-; exact HG.
  - destruct (cli_deo _ _ _ _ _) as [(u, c)|]; [|discriminate E]. cbn [rbind] in E. injection E as <- <-. exact HG.
Qed.

Lemma redraw_ok v (g : gui H) : screen_ok (g_screen g) -> theme_of v = g_theme g ->
  (forall fg, current (g_screen g) fg (layer_palette (g_theme g) fg) (target g fg)) ->
  exists g', redraw v g = Ok g' /\ screen_ok (g_screen g') /\ g_theme g' = g_theme g /\ g_draws g' = g_draws g /\
  full (g_screen g') false (palette v) (g_bg g') /\ full (g_screen g') true (upd (palette v) 0 0) (g_fg g') /\
  s_buf (g_screen g') = s_buf (g_screen g) /\ same_size (g_screen g) (g_screen g').
Proof.
  intros HO T HC. unfold redraw.
  destruct (render_ok (g_screen g) false (palette v) (g_bg g) HO) as (r & s1 & t1 & -> & F1 & HO1 & (d1 & ->) & _).
  { apply (current_pal _ _ (layer_palette (g_theme g) false)); [exact HO| |apply (HC false)]. intros c _. rewrite <- T. reflexivity. }
  cbn [rbind].
  destruct (render_ok (set_rect (g_screen g) false d1) true (upd (palette v) 0 0) (g_fg g) HO1) as (r2 & s2 & t2 & E2 & F2 & HO2 & (d2 & ->) & _).
  { apply (current_pal _ _ (layer_palette (g_theme g) true)); [exact HO| |exact (HC true)]. intros c _. rewrite <- T. reflexivity. }
  rewrite E2. cbn [rbind]. eexists. split; [reflexivity|]. cbn.
  split; [exact HO2|]. split; [reflexivity|]. split; [reflexivity|]. split; [exact F1|]. split; [exact F2|]. split; [reflexivity|]. split; reflexivity.
Qed.

Lemma displayed_shows g : displayed g -> shows g.
Proof.
  induction 1 as [w h g (Hw & Hh) E|pc v g v' g' D IH E|g g' D IH E1 E2 E3 E4 E5|v g g' D IH T E].
  - intros _. unfold initial_screen in E.
    assert (S0 : screen_ok (mkScreen 0 0 0 0 0 0 0 0 0 0 0 (mkRect 0 0 0 0) (mkRect 0 0 0 0) (fun _ => 0))).
    { unfold screen_ok, size_ok. cbn. repeat split; try lia; auto. }
    destruct (resize_ok _ w h S0 ltac:(split; auto)) as (s' & E' & O' & _ & _ & _ & A). rewrite E in E'. injection E' as <-.
    split; [exact O'|]. intros fg. apply all_current. exact A.
  - revert E. apply (execute_keeps _ _ _ shows); [| |exact IH].
    + intros; eapply dei_shows; eauto.
    + intros; eapply deo_shows; eauto.
  - unfold shows in *. rewrite E1, E4, E5. intros F. destruct (IH F) as (HO & HC). split; [exact HO|]. intros fg. specialize (HC fg).
    destruct fg; cbn in *; rewrite ?E2, ?E3; exact HC.
  - intros F.
    assert (ED : g_draws g' = g_draws g).
    { unfold GuiModel.redraw in E. destruct (render _ false _ _ _) as [((r1, s1), t1)|]; [|discriminate E]. cbn [rbind] in E.
      destruct (render _ true _ _ _) as [((r2, s2), t2)|]; [|discriminate E]. cbn [rbind] in E. injection E as <-. reflexivity. }
    rewrite ED in F. destruct (IH F) as (HO & HC). destruct (redraw_ok v g HO T HC) as (g2 & E2 & HO2 & T2 & _ & F1 & F2 & _).
    rewrite E in E2. injection E2 as <-. split; [exact HO2|]. rewrite T2, <- T. intros fg x y V. right.
    destruct fg; [exact (F2 x y V)|exact (F1 x y V)].
Qed.

Lemma rgba_channels x r g b : 0 <= x < 2 ^ 32 -> channel x 0 = 17 * r -> channel x 1 = 17 * g -> channel x 2 = 17 * b -> channel x 3 = 255 ->
  x = 4278190080 + 65536 * (17 * b) + 256 * (17 * g) + 17 * r.
Proof. unfold channel. change (256 ^ 0) with 1. change (256 ^ 1) with 256. change (256 ^ 2) with 65536. change (256 ^ 3) with 16777216. change (2 ^ 32) with 4294967296. lia. Qed.
Lemma palette_colour v c : well_typed v -> 0 <= c < 4 -> palette v c = colour v c.
Proof. intros W C. destruct (palette_eq v c W C) as (A & B & D & E & F). unfold colour. apply rgba_channels; assumption. Qed.

(** The emulator shows every pixel of both layers in the colours of the palette. *)
Definition picture (v : vm) (g : gui H) : Prop :=
  full (g_screen g) false (colour v) (g_bg g) /\ full (g_screen g) true (colour_above v) (g_fg g).
Lemma redraw_picture v g : displayed g -> Forall draw_ok (g_draws g) -> theme_of v = g_theme g -> well_typed v ->
  exists g', redraw v g = Ok g' /\ picture v g' /\ same_size (g_screen g) (g_screen g') /\ s_buf (g_screen g') = s_buf (g_screen g).
Proof.
  intros D F T W. destruct (displayed_shows g D F) as (HO & HC).
  destruct (redraw_ok v g HO T HC) as (g' & E & HO' & _ & _ & F1 & F2 & B & S). exists g'. split; [exact E|]. split; [|split; assumption].
  split; intros x y V; [rewrite (F1 x y V)|rewrite (F2 x y V)]; pose proof (shown_range _ false x y HO' V); pose proof (shown_range _ true x y HO' V).
  - apply palette_colour; assumption.
  - unfold upd, colour_above. rewrite (Z.eqb_sym _ 0). destruct (0 =? _); [reflexivity|]. apply palette_colour; assumption.
Qed.

(** ** A frame *)
Definition kept (o : outcome (gui H)) : Prop := match o with Done _ _ g => displayed g | _ => True end.
Lemma kept_seq o k : kept o -> (forall v g, displayed g -> kept (k v g)) -> kept (seq_ H o k).
Proof. intros A B. destruct o as [v g| |]; cbn; auto. Qed.
Lemma kept_run pc v g : displayed g -> kept (run_vector pc v g).
Proof. intros D. destruct (run_vector pc v g) eqn:E; cbn; auto. eapply displayed_run; eauto. Qed.
Lemma kept_send type value v g : displayed g -> kept (gui_send_data H hs now voices junk hi_first kw kr fuel type value v g).
Proof. intros D. apply kept_run. eapply displayed_other; [exact D|reflexivity..]. Qed.
Lemma kept_all cs : forall v g, displayed g -> kept (send_all H hs now voices junk hi_first kw kr fuel cs v g).
Proof. induction cs as [|c cs IH]; intros v g D; cbn [send_all]; [exact D|]. apply kept_seq; [apply kept_send; exact D|auto]. Qed.
Lemma kept_input polls : forall v g, displayed g -> kept (console_input H hs now voices junk hi_first kw kr fuel polls v g).
Proof.
  induction polls as [|[cs|] polls IH]; intros v g D; cbn [console_input]; [exact D| |apply kept_send; exact D].
  apply kept_seq; [apply kept_all; exact D|auto].
Qed.
Lemma kept_notify l : forall v g, displayed g -> kept (notify_all H hs now voices junk hi_first kw kr fuel l v g).
Proof.
  induction l as [|i l IH]; intros v g D; cbn [notify_all]; [exact D|]. apply kept_seq; [|auto].
  destruct (negb _); [apply kept_run; exact D|exact D].
Qed.
Lemma kept_updates n : forall v g, displayed g -> kept (updates H hs now voices junk hi_first kw kr fuel n v g).
Proof.
  induction n as [|n IH]; intros v g D; cbn [updates]; [exact D|]. apply kept_seq; [|auto].
  destruct (negb _); [apply kept_run; exact D|exact D].
Qed.
End Display.

(** A redraw never fails, and then the picture is that of the screen. *)
Theorem C84_redraw :
  forall H hs now voices junk hi_first kw kr fuel v g, displayed H hs now voices junk hi_first kw kr fuel g ->
  Forall draw_ok (g_draws g) -> theme_of v = g_theme g -> well_typed v ->
  exists g', redraw H v g = Ok g' /\ picture H v g' /\ same_size (g_screen g) (g_screen g') /\ s_buf (g_screen g') = s_buf (g_screen g).
Proof. exact redraw_picture. Qed.
Print Assumptions C84_redraw.

(** So every frame in which an update was due ends with the picture up to date,
    whatever ran in it and before. *)
Theorem C84_frame :
  forall H hs now voices junk hi_first kw kr fuel polls finished n v g q v' g',
  displayed H hs now voices junk hi_first kw kr fuel g ->
  frame H hs now voices junk hi_first kw kr fuel polls finished n v g = (q, Done _ v' g') ->
  Forall draw_ok (g_draws g') -> theme_of v' = g_theme g' -> well_typed v' ->
  displayed H hs now voices junk hi_first kw kr fuel g' /\ ((0 < n)%nat -> picture H v' g').
Proof.
  intros H hs now voices junk hf kw kr fuel polls finished n v g q v' g' D E F T W. unfold frame in E.
  apply pair_equal_spec in E. destruct E as (_ & E).
  pose proof (kept_input H hs now voices junk hf kw kr fuel polls v g D) as K1.
  destruct (console_input _ _ _ _ _ _ _ _ _ polls v g) as [v1 g1| |]; [|discriminate E|discriminate E]. cbn [seq_] in E.
  pose proof (kept_notify H hs now voices junk hf kw kr fuel finished v1 g1 K1) as K2.
  destruct (notify_all _ _ _ _ _ _ _ _ _ finished v1 g1) as [v2 g2| |]; [|discriminate E|discriminate E]. cbn [seq_] in E.
  pose proof (kept_updates H hs now voices junk hf kw kr fuel n v2 g2 K2) as K3.
  destruct (updates _ _ _ _ _ _ _ _ _ n v2 g2) as [v3 g3| |]; [|discriminate E|discriminate E]. cbn [seq_] in E.
  cbn [kept] in K3. destruct (0 <? n)%nat eqn:N.
  - destruct (redraw H v3 g3) as [g4|] eqn:R; [|discriminate E].
    assert (X : v3 = v' /\ g4 = g') by (split; congruence). destruct X as (-> & ->).
    assert (Y : g_draws g' = g_draws g3 /\ g_theme g' = g_theme g3).
    { unfold redraw in R. destruct (render _ false _ _ _) as [((r1, s1), t1)|]; [|discriminate R]. cbn [rbind] in R.
      destruct (render _ true _ _ _) as [((r2, s2), t2)|]; [|discriminate R]. cbn [rbind] in R. injection R as <-. split; reflexivity. }
    destruct Y as (Y1 & Y2). rewrite Y1 in F. rewrite Y2 in T.
    destruct (C84_redraw H hs now voices junk hf kw kr fuel v' g3 K3 F T W) as (g5 & R' & P & _). rewrite R in R'. injection R' as <-.
    split; [eapply displayed_redraw; eauto|auto].
  - assert (X : g3 = g') by congruence. subst g3. split; [exact K3|]. intros L. apply Nat.ltb_ge in N. lia.
Qed.
Print Assumptions C84_frame.

(** ** Cases
    A window of 2 by 2 pixels, drawn once; then a program runs and a frame is drawn. *)
Definition still : nat -> Z -> voice := fun _ _ => mkVoice 0 0 0 0 0 0 0 0 0 0 0 0 0 0 0.
Definition ex_window (s : screen) : gui unit := set_refreshed unit ex_gui0 s [0; 0; 0; 0; 0; 0].
Definition ex_frames (code : list Z) : option (vm * gui unit * gui unit) :=
  match initial_screen 2 2 with
  | Ok s => match redraw unit (ex_prog code) (ex_window s) with
            | Ok g1 => match run_vector unit no_host (fun _ => None) still (fun _ => 0) true 0 0 100 256 (ex_prog code) g1 with
                       | Done _ v g2 => match redraw unit v g2 with Ok g3 => Some (v, g2, g3) | _ => None end
                       | _ => None end
            | _ => None end
  | _ => None end.
Lemma ex_frames_displayed code v g g' : ex_frames code = Some (v, g, g') ->
  displayed unit no_host (fun _ => None) still (fun _ => 0) true 0 0 100 g /\ redraw unit v g = Ok g'.
Proof.
  unfold ex_frames. intros E. destruct (initial_screen 2 2) as [s|] eqn:E0; [|discriminate E].
  destruct (redraw unit (ex_prog code) (ex_window s)) as [g1|] eqn:E1; [|discriminate E].
  destruct (run_vector _ _ _ _ _ _ _ _ _ 256 (ex_prog code) g1) as [v2 g2| |] eqn:E2; [|discriminate E|discriminate E].
  destruct (redraw unit v2 g2) as [g3|] eqn:E3; [|discriminate E]. injection E as -> -> ->. split; [|exact E3].
  eapply displayed_run; [|exact E2]. apply (displayed_redraw _ _ _ _ _ _ _ _ _ (ex_prog code) (ex_window s)); [|reflexivity|exact E1].
  apply (displayed_start _ _ _ _ _ _ _ _ _ 2 2); [unfold size_ok; lia|]. rewrite E0. reflexivity.
Qed.
(** The colours and what both textures hold. *)
Definition ex_pixels (code : list Z) : option (list Z * list Z * list Z) :=
  match ex_frames code with
  | Some (v, _, g) => Some (map (colour v) [0; 1; 2; 3], map (g_bg g) [0; 1; 2; 3], map (g_fg g) [0; 1; 2; 3])
  | None => None
  end.
(** Set the red word to 0x0f50, draw colour 1 at 0,0 and colour 2 on the foreground at 1,1. *)
Definition ex_code : list Z :=
  [160; 15; 80; 128; 8; 55;  128; 1; 128; 46; 23;  160; 0; 1; 128; 40; 55;  160; 0; 1; 128; 42; 55;  128; 66; 128; 46; 23;  0].
Example C84_case :
  ex_pixels ex_code = Some ([4278190080; 4278190335; 4278190165; 4278190080],
                            [4278190335; 4278190080; 4278190080; 4278190080], [0; 0; 0; 4278190165]) /\
  match ex_frames ex_code with Some (v, g, _) => theme_of v = g_theme g /\ length (g_draws g) = 6%nat | None => False end.
Proof. vm_compute. repeat split; reflexivity. Qed.

(** The hypothesis on the palette is needed: the emulator redraws everything only
    when the low byte of a colour word is written.  A program that writes one byte
    to port 0x08 leaves the picture in the old colours. *)
Theorem C84_palette_refuted :
  exists hs now voices junk hi_first kw kr fuel v g g',
  displayed unit hs now voices junk hi_first kw kr fuel g /\ g_draws g = [] /\ redraw unit v g = Ok g' /\
  colour v 0 = 4278190335 /\ g_bg g' 0 = 4278190080 /\ ~ picture unit v g'.
Proof.
  assert (X : match ex_frames [128; 240; 128; 8; 23; 0] with
              | Some (v, g, g') => g_draws g = [] /\ colour v 0 = 4278190335 /\ g_bg g' 0 = 4278190080 /\
                  s_w (g_screen g') = 2 /\ s_h (g_screen g') = 2 /\ shown (g_screen g') false 0 0 = 0
              | None => False end) by (vm_compute; repeat split; reflexivity).
  destruct (ex_frames _) as [((v, g), g')|] eqn:E; [|contradiction]. destruct X as (X1 & X2 & X3 & X4 & X5 & X6).
  destruct (ex_frames_displayed _ _ _ _ E) as (D & R).
  exists no_host, (fun _ => None), still, (fun _ => 0), true, 0, 0, 100%nat, v, g, g'.
  split; [exact D|]. split; [exact X1|]. split; [exact R|]. split; [exact X2|]. split; [exact X3|].
  intros (P & _). specialize (P 0 0 ltac:(unfold visible; rewrite X4, X5; lia)). rewrite X6 in P.
  replace (0 * s_w (g_screen g') + 0) with 0 in P by lia. rewrite X2, X3 in P. discriminate P.
Qed.
Print Assumptions C84_palette_refuted.
