(** What a program reads from the ports of the devices (C98). *)
From Verif Require Import Base VmModel SystemModel FileModel AudioModel InputModel ScreenModel CliModel GuiModel ScreenProofs.
From Coq Require Import ZifyBool.
Open Scope list_scope.
Ltac Zify.zify_post_hook ::= Z.div_mod_to_equations.

Section Reads.
Variable H : Type.
Variable now : nat -> option tm.
Variable voices : nat -> Z -> voice.
Let dei := gui_dei H now voices.

(** A byte read from a port; a short read from two ports, the high byte first
    (the instructions DEI and DEI2). *)
Definition reads (a : Z) (v : vm) (g : gui H) (x : Z) : Prop := exists v' g', dei a v g = Ok (x, v', g').
Definition reads2 (a : Z) (v : vm) (g : gui H) (x : Z) : Prop :=
  exists hi v1 g1 lo v2 g2, dei a v g = Ok (hi, v1, g1) /\ dei (a + 1) v1 g1 = Ok (lo, v2, g2) /\ x = 256 * hi + lo.

Lemma halves : forall x, 256 * u8 (Z.shiftr x 8) + u8 x = u16 x.
Proof. intros x. unfold u8, u16. rewrite Z.shiftr_div_pow2 by lia. change (2 ^ 8) with 256. lia. Qed.
Lemma halves_small : forall x, 0 <= x < 65536 -> 256 * Z.shiftr x 8 + u8 x = x.
Proof. intros x. unfold u8. rewrite Z.shiftr_div_pow2 by lia. change (2 ^ 8) with 256. lia. Qed.

(** System: the stack pointers; all other ports what was written there. *)
Theorem C98_system_ports : forall v g,
  reads 4 v g (vm_wsp v) /\ reads 5 v g (vm_rsp v) /\ (forall a, 0 <= a < 16 -> a <> 4 -> a <> 5 -> reads a v g (vm_dev v a)).
Proof.
  intros v g. unfold reads, dei, gui_dei. split; [|split].
  - eexists _, _. reflexivity.
  - eexists _, _. reflexivity.
  - intros a A N4 N5. exists v, g. replace (gui_dei_target a) with System.
    + unfold system_dei. replace (a =? 4) with false by lia. replace (a =? 5) with false by lia. reflexivity.
    + assert (E : In a [0;1;2;3;4;5;6;7;8;9;10;11;12;13;14;15]) by (cbn; lia). cbn in E.
      repeat (destruct E as [<- | E]; [reflexivity|]). destruct E.
Qed.

(** Console: the character and its type. *)
Theorem C98_console_ports : forall v g, reads 18 v g (c_value (g_console g)) /\ reads 23 v g (c_type (g_console g)).
Proof. intros v g. split; eexists _, _; reflexivity. Qed.

Lemma screen_again : forall v s s', maybe_resize v s = Ok s' -> maybe_resize v s' = Ok s'.
Proof.
  intros v s s' E. unfold maybe_resize in *. destruct (negb _ && negb _ && _) eqn:C.
  - replace (s_w s') with (dev_load2 v 34); [replace (s_h s') with (dev_load2 v 36)|]; [rewrite !Z.eqb_refl, andb_false_r; reflexivity| |];
    revert E; unfold resize; intros E; repeat (match type of E with context [rbind ?x _] => destruct x; cbn [rbind] in E; [|discriminate E] end);
    repeat (match type of E with context [if ?x then _ else _] => destruct x end; try discriminate E); injection E as <-; reflexivity.
  - injection E as ->. rewrite C. reflexivity.
Qed.

Lemma put_screen_screen : forall g s x, g_screen (add_draw H (put_screen H g s) x) = s.
Proof. intros g s x. unfold put_screen. destruct (_ && _); reflexivity. Qed.
Lemma screen_read : forall a v g s, gui_dei_target a = Screen -> maybe_resize v (g_screen g) = Ok s ->
  exists b g', dei a v g = Ok (b, v, g') /\ g_screen g' = s /\ screen_dei v (g_screen g) a = Ok (b, s).
Proof.
  intros a v g s T M. unfold dei, gui_dei. rewrite T. unfold screen_dei. rewrite M. cbn [rbind]. eexists _, _. split; [reflexivity|]. split; [apply put_screen_screen|reflexivity].
Qed.

(** Screen: the size, after a change that the program has asked for, the
    position, and the address of the sprite. *)
Theorem C98_screen_ports : forall v g s, maybe_resize v (g_screen g) = Ok s ->
  reads2 34 v g (u16 (s_w s)) /\ reads2 36 v g (u16 (s_h s)) /\ reads2 40 v g (u16 (rX s)) /\ reads2 42 v g (u16 (rY s)) /\ reads2 44 v g (u16 (rA s)).
Proof.
  intros v g s M. pose proof (screen_again _ _ _ M) as M2.
  assert (T : forall a x, gui_dei_target a = Screen -> gui_dei_target (a + 1) = Screen ->
    (forall b s', screen_dei v (g_screen g) a = Ok (b, s') -> b = u8 (Z.shiftr x 8)) -> (forall b s', screen_dei v s (a + 1) = Ok (b, s') -> b = u8 x) -> reads2 a v g (u16 x)).
  { intros a x T1 T2 X1 X2. destruct (screen_read a v g s T1 M) as (b & g1 & E1 & G1 & D1). rewrite <- G1 in M2. destruct (screen_read (a + 1) v g1 _ T2 M2) as (c & g2 & E2 & _ & D2).
    exists b, v, g1, c, v, g2. split; [exact E1|]. split; [exact E2|]. rewrite (X1 _ _ D1). rewrite G1 in D2. rewrite (X2 _ _ D2). symmetry. apply halves. }
  repeat match goal with |- _ /\ _ => split end; apply T; try reflexivity; intros b s' D; unfold screen_dei in D; rewrite ?M, ?M2 in D; cbn [rbind] in D;
    injection D as <- _; reflexivity.
Qed.
(** The size that the program has asked for is taken when it fits in an int with
    the margin of eight pixels on each side; otherwise the product overflows. *)
Theorem C98_screen_takes_the_size : forall v g w h, dev_load2 v 34 = w -> dev_load2 v 36 = h -> 0 < w < 65536 -> 0 < h < 65536 -> (w <> s_w (g_screen g) \/ h <> s_h (g_screen g)) ->
  if (w + 16) * (h + 16) <=? 2147483647 then reads2 34 v g w /\ reads2 36 v g h else forall a, gui_dei_target a = Screen -> exists f, dei a v g = Fault f.
Proof.
  intros v g w h Ew Eh Bw Bh N. assert (M : maybe_resize v (g_screen g) = resize (g_screen g) w h).
  { unfold maybe_resize. rewrite Ew, Eh. replace (w =? 0) with false by lia. replace (h =? 0) with false by lia. cbn [negb andb].
    replace (negb (w =? s_w (g_screen g)) || negb (h =? s_h (g_screen g))) with true by lia. reflexivity. }
  unfold resize in M. assert (J : int32 (MAR2 w * MAR2 h) = if (w + 16) * (h + 16) <=? 2147483647 then Ok (MAR2 w * MAR2 h) else Fault (SignedOverflow (MAR2 w * MAR2 h))).
  { unfold int32, in_int, MAR2, INT_MIN, INT_MAX. assert (0 <= (w + 16) * (h + 16)) by (apply Z.mul_nonneg_nonneg; lia). generalize dependent ((w + 16) * (h + 16)). intros z Hz.
    destruct (z <=? 2147483647) eqn:L; match goal with |- (if ?c then _ else _) = _ => destruct c eqn:K end; try reflexivity; exfalso; lia. }
  rewrite J in M. clear J. destruct ((w + 16) * (h + 16) <=? 2147483647); cbn [rbind] in M.
  - destruct (C98_screen_ports _ _ _ M) as (R1 & R2 & _). cbn [s_w s_h] in R1, R2.
    unfold u16 in R1, R2. rewrite Z.mod_small in R1 by lia. rewrite Z.mod_small in R2 by lia. auto.
  - intros a T. unfold dei, gui_dei. rewrite T. unfold screen_dei. rewrite M. cbn [rbind]. eauto.
Qed.

(** Mouse: the position, the buttons, the wheel. *)
Theorem C98_mouse_ports : forall v g, let m := g_mouse g in
  reads2 146 v g (u16 (m_x m)) /\ reads2 148 v g (u16 (m_y m)) /\ reads 150 v g (u8 (m_state m)) /\ reads2 154 v g (u16 (m_sx m)) /\ reads2 156 v g (u16 (m_sy m)).
Proof.
  intros v g m. unfold reads, reads2. repeat match goal with |- _ /\ _ => split end; [| |eexists _, _; reflexivity| |];
  (do 6 eexists; split; [reflexivity|]; split; [reflexivity|]; symmetry; apply halves).
Qed.
(** Controller: the buttons of the four players, and the key. *)
Theorem C98_controller_ports : forall v g, let k := g_controller g in
  reads 130 v g (k_buttons k 0) /\ reads 131 v g (k_ch k) /\ reads 133 v g (k_buttons k 1) /\ reads 134 v g (k_buttons k 2) /\ reads 135 v g (k_buttons k 3).
Proof. intros v g k. unfold reads. repeat match goal with |- _ /\ _ => split end; eexists _, _; reflexivity. Qed.

(** Audio: the position of the voice when the high byte is read, and the meter. *)
Theorem C98_audio_ports : forall i v g, 0 <= i < 4 -> let c := voices (g_reads g) i in
  reads2 (48 + 16 * i + 2) v g (u16 (a_i c)) /\ (forall x c', get_vu c = Ok (x, c') -> reads (48 + 16 * i + 4) v g x).
Proof.
  intros i v g B c. assert (E : i = 0 \/ i = 1 \/ i = 2 \/ i = 3) by lia. unfold reads, reads2.
  assert (Y : forall x, u8 (Z.land x 255) = u8 x) by (intros x; unfold u8; change 255 with (Z.ones 8); rewrite Z.land_ones by lia; change (2 ^ 8) with 256; lia).
  destruct E as [-> | [-> | [-> | ->]]]; (split;
    [do 6 eexists; split; [reflexivity|]; split; [reflexivity|]; cbn; unfold upd; cbn; fold c; rewrite Y; symmetry; apply halves
    |intros x c' V; eexists _, _; unfold dei, gui_dei; match goal with |- context [gui_dei_target ?a] => let t := eval vm_compute in (gui_dei_target a) in change (gui_dei_target a) with t; cbv iota; unfold audio_dei; change (device_port a =? 4) with true end; cbv iota; fold c; rewrite V; reflexivity]).
Qed.

(** File: the result of the last operation of each of the two. *)
Theorem C98_file_ports : forall v g, 
  (0 <= f_success (t_f0 (g_files g)) < 65536 -> reads2 162 v g (f_success (t_f0 (g_files g)))) /\
  (0 <= f_success (t_f1 (g_files g)) < 65536 -> reads2 178 v g (f_success (t_f1 (g_files g)))).
Proof.
  intros v g. unfold reads2. split; intros B; do 6 eexists; (split; [reflexivity|]; split; [reflexivity|]; symmetry; apply halves_small, B).
Qed.
End Reads.

(** The address in the first two ports of the page of a device. *)
Definition vector_of (v : vm) (page : Z) : Z := 256 * vm_dev v page + vm_dev v (page + 1).
Section Vectors.
Variable H : Type.
Variable hs : host H.
Variable now : nat -> option tm.
Variable voices : nat -> Z -> voice.
Variable junk : arr.
Variable hi_first : bool.
Variables (kw kr : Z) (fuel : nat).
(** The machine runs at [pc], and not at all if that is 0. *)
Definition calls (pc : Z) (v : vm) (g : gui H) (o : outcome (gui H)) : Prop :=
  (pc = 0 -> o = Done _ v g) /\ (pc <> 0 -> o = run_vector H hs now voices junk hi_first kw kr fuel pc v g).

(** Each event runs the vector of its own device. *)
Theorem C98_vectors : forall v g, (forall i, 0 <= vm_dev v i < 256) ->
  (exists o, updates H hs now voices junk hi_first kw kr fuel 1 v g = seq_ H o (fun v g => Done _ v g) /\ calls (vector_of v 32) v g o) /\
  calls (vector_of v 144) v g (gui_mouse_update H hs now voices junk hi_first kw kr fuel v g) /\
  calls (vector_of v 128) v g (gui_controller_event H hs now voices junk hi_first kw kr fuel v g) /\
  (forall type value, gui_send_data H hs now voices junk hi_first kw kr fuel type value v g =
    run_vector H hs now voices junk hi_first kw kr fuel (vector_of v 16) v (set_console H g (mkConsole (c_argv (g_console g)) (u8 type) (u8 value)))).
Proof.
  intros v g B. assert (L : forall k, 0 <= k < 255 -> dev_load2 v k = vector_of v k) by (intros k K; apply port_word; [intros i _; apply B|exact K]).
  assert (Cl : forall x, calls x v g (if negb (x =? 0) then run_vector H hs now voices junk hi_first kw kr fuel x v g else Done _ v g)).
  { intros x. split; intros E; [subst; reflexivity|]. replace (x =? 0) with false by lia. reflexivity. }
  split; [|split; [|split]].
  - eexists. split; [reflexivity|]. unfold screen_vector. rewrite (L 32) by lia. apply Cl.
  - unfold gui_mouse_update. rewrite (L 144) by lia. apply Cl.
  - unfold gui_controller_event. rewrite (L 128) by lia. apply Cl.
  - intros ty x. unfold gui_send_data. rewrite (L 16) by lia. reflexivity.
Qed.
End Vectors.

(** A program asks for a screen of 512 by 320 and reads it back. *)
From Verif Require Import Props_Gui.
Example C98_case :
  let v := mkVm 7 2 (fun _ => 0) (fun _ => 0) (fun a => if a =? 34 then 2 else if a =? 36 then 1 else if a =? 37 then 64 else 0) (fun _ => 0) 65536 in
  reads unit (fun _ => None) (fun _ _ => mkVoice 44100 0 0 0 0 0 0 0 0 0 0 0 0 0 0) 4 v ex_gui0 7 /\
  reads2 unit (fun _ => None) (fun _ _ => mkVoice 44100 0 0 0 0 0 0 0 0 0 0 0 0 0 0) 34 v ex_gui0 512 /\
  reads2 unit (fun _ => None) (fun _ _ => mkVoice 44100 0 0 0 0 0 0 0 0 0 0 0 0 0 0) 36 v ex_gui0 320.
Proof.
  cbv zeta. split; [eexists _, _; reflexivity|].
  match goal with |- reads2 ?h ?n ?w 34 ?v ?g 512 /\ _ => apply (C98_screen_takes_the_size h n w v g 512 320) end; try reflexivity; try lia. left. cbn. lia.
Qed.
Print Assumptions C98_system_ports.
Print Assumptions C98_console_ports.
Print Assumptions C98_screen_ports.
Print Assumptions C98_screen_takes_the_size.
Print Assumptions C98_mouse_ports.
Print Assumptions C98_controller_ports.
Print Assumptions C98_audio_ports.
Print Assumptions C98_file_ports.
Print Assumptions C98_vectors.
