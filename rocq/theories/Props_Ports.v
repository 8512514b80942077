(** Property C81: what a program reads from the ports of the graphical emulator. *)
From Verif Require Import Base VmModel VmSpec VmProofs SystemModel InputModel FileModel FileSpec MetaModel AudioModel AudioSpec ScreenModel ScreenSpec ScreenProofs
  CliModel CliSpec InputSpec InputProofs CliProofs Props_Audio Props_Cli GuiModel.
From Coq Require Import ZifyBool.
Open Scope list_scope.
Ltac Zify.zify_post_hook ::= Z.div_mod_to_equations.

(** The high and the low byte of a value (two's complement if negative). *)
Definition hi (x : Z) : Z := x / 256 mod 256.
Definition lo (x : Z) : Z := x mod 256.
(** A value at two ports, the high byte first. *)
Definition short (p x : Z) : list (Z * Z) := [(p, hi x); (p + 1, lo x)].
Fixpoint lookup (a : Z) (l : list (Z * Z)) (otherwise : Z) : Z :=
  match l with [] => otherwise | (p, x) :: l => if a =? p then x else lookup a l otherwise end.

(** The size of the screen, after the request of the program if there is one. *)
Definition asked (v : vm) (p : Z) : Z := 256 * vm_dev v p + vm_dev v (p + 1).
Definition width_now (v : vm) (s : screen) : Z := if (asked v 34 =? 0) || (asked v 36 =? 0) then s_w s else asked v 34.
Definition height_now (v : vm) (s : screen) : Z := if (asked v 34 =? 0) || (asked v 36 =? 0) then s_h s else asked v 36.

(** The ports that do not read as the byte last written to them. *)
Definition documented {H} (now : nat -> option tm) (v : vm) (g : gui H) : list (Z * Z) :=
  let m := g_mouse g in let k := g_controller g in let s := g_screen g in let t := g_files g in
  [(4, vm_wsp v); (5, vm_rsp v)] ++
  [(18, c_value (g_console g)); (23, c_type (g_console g))] ++
  short 34 (width_now v s) ++ short 36 (height_now v s) ++ short 40 (rX s) ++ short 42 (rY s) ++ short 44 (rA s) ++
  [(130, k_buttons k 0); (131, k_ch k); (133, k_buttons k 1); (134, k_buttons k 2); (135, k_buttons k 3)] ++
  short 146 (m_x m) ++ short 148 (m_y m) ++ [(150, m_state m)] ++ short 154 (m_sx m) ++ short 156 (m_sy m) ++
  short 162 (f_success (t_f0 t)) ++ short 178 (f_success (t_f1 t)) ++
  map (fun i => (192 + Z.of_nat i, clock_byte (time_of (now (t_clock t))) (Z.of_nat i))) (seq 0 11).

(** The C types of the fields. *)
Definition typed {H} (g : gui H) : Prop :=
  0 <= m_state (g_mouse g) < 256 /\ 0 <= f_success (t_f0 (g_files g)) < 65536 /\ 0 <= f_success (t_f1 (g_files g)) < 65536.
(** What a read leaves alone. *)
Definition untouched {H} (g g' : gui H) : Prop :=
  g_console g' = g_console g /\ g_mouse g' = g_mouse g /\ g_controller g' = g_controller g /\ g_log g' = g_log g /\
  g_out g' = g_out g /\ g_err g' = g_err g /\ g_shown g' = g_shown g /\ g_sent g' = g_sent g /\
  t_f0 (g_files g') = t_f0 (g_files g) /\ t_f1 (g_files g') = t_f1 (g_files g) /\ t_fh (g_files g') = t_fh (g_files g).

Lemma shr8 x : u8 (Z.shiftr x 8) = hi x.
Proof. unfold u8, hi. rewrite Z.shiftr_div_pow2 by lia. reflexivity. Qed.

Lemma sh8 x : 0 <= x < 65536 -> Z.shiftr x 8 = hi x.
Proof. intros. unfold hi. rewrite Z.shiftr_div_pow2 by lia. change (2 ^ 8) with 256. lia. Qed.
Lemma resized v s s' : (forall i, 0 <= i < 256 -> is_byte (vm_dev v i)) -> maybe_resize v s = Ok s' ->
  s_w s' = width_now v s /\ s_h s' = height_now v s /\ rX s' = rX s /\ rY s' = rY s /\ rA s' = rA s.
Proof.
  intros HB E. unfold maybe_resize in E.
  assert (P : forall p, 0 <= p < 255 -> dev_load2 v p = asked v p).
  { intros p Hp. apply port_word; auto; lia. }
  rewrite !P in E by lia. unfold width_now, height_now.
  assert (R : resize s (asked v 34) (asked v 36) = Ok s' -> s_w s' = asked v 34 /\ s_h s' = asked v 36 /\ rX s' = rX s /\ rY s' = rY s /\ rA s' = rA s).
  { unfold resize. destruct (int32 _); [|discriminate]. cbn [rbind]. intros [= <-]. auto. }
  destruct (asked v 34 =? 0) eqn:E1; cbn [negb andb orb] in *; [injection E as <-; auto|].
  destruct (asked v 36 =? 0) eqn:E2; cbn [negb andb orb] in *; [injection E as <-; auto|].
  destruct (asked v 34 =? s_w s) eqn:E3; cbn [negb orb] in E; [|auto].
  destruct (asked v 36 =? s_h s) eqn:E4; cbn [negb orb] in E; [|auto].
  injection E as <-. repeat split; lia.
Qed.

Lemma sixteen (P : Z -> Prop) : P 0 -> P 1 -> P 2 -> P 3 -> P 4 -> P 5 -> P 6 -> P 7 -> P 8 -> P 9 -> P 10 -> P 11 -> P 12 -> P 13 -> P 14 -> P 15 ->
  forall k, 0 <= k < 16 -> P k.
Proof.
  intros. assert (k = 0 \/ k = 1 \/ k = 2 \/ k = 3 \/ k = 4 \/ k = 5 \/ k = 6 \/ k = 7 \/ k = 8 \/ k = 9 \/ k = 10 \/
    k = 11 \/ k = 12 \/ k = 13 \/ k = 14 \/ k = 15) as C by lia.
  repeat (destruct C as [->|C]; [assumption|]). subst. assumption.
Qed.

Section Ports.
Variable H : Type.
Variable now : nat -> option tm.
Variable voices : nat -> Z -> voice.
Hypothesis CLK : clock_ok now.
Notation dei := (gui_dei H now voices).

(** All ports but those of the voices. *)
Lemma ports_table a v (g : gui H) r :
  is_byte a -> well_typed v -> typed g -> (forall i, owner a <> Audio i) -> dei a v g = Ok r ->
  exists g', r = (lookup a (documented now v g) (vm_dev v a), v, g') /\ untouched g g'.
Proof using CLK.
  intros Ha Hv (T1 & T2 & T3) NA E. unfold is_byte in Ha.
  assert (UN : forall t, t_f0 t = t_f0 (g_files g) -> t_f1 t = t_f1 (g_files g) -> t_fh t = t_fh (g_files g) -> untouched g (set_files H g t))
    by (intros; repeat split; auto).
  assert (UR : untouched g g) by (repeat split; auto).
  set (p := a / 16). set (k := a mod 16). assert (EA : a = 16 * p + k) by (unfold p, k; lia).
  assert (Hp : 0 <= p < 16) by (unfold p; lia). assert (Hk : 0 <= k < 16) by (unfold k; lia).
  clearbody p k. subst a.
  assert (TG : gui_dei_target (16 * p + k) = nth (Z.to_nat p) owners NoDevice).
  { destruct (C73_routing (16 * p + k) ltac:(unfold is_byte; lia)) as (-> & _). unfold owner. do 2 f_equal. lia. }
  assert (NA' : forall i, nth (Z.to_nat p) owners NoDevice <> Audio i).
  { intros i. rewrite <- TG. destruct (C73_routing (16 * p + k) ltac:(unfold is_byte; lia)) as (-> & _). apply NA. }
  unfold gui_dei in E. rewrite TG in E. clear TG NA.
  revert p Hp NA' E Ha. refine (sixteen _ _ _ _ _ _ _ _ _ _ _ _ _ _ _ _ _); intros NA' E Ha;
    match type of E with context [nth (Z.to_nat ?c) owners NoDevice] =>
      let t := eval vm_compute in (nth (Z.to_nat c) owners NoDevice) in change (nth (Z.to_nat c) owners NoDevice) with t in E, NA' end; cbv iota in E;
    try (exfalso; eapply NA'; reflexivity); clear NA' Ha.
  Local Ltac table := unfold lookup, documented, short; cbn [app seq map Z.of_nat Pos.of_succ_nat Pos.succ Z.add Pos.add Pos.add_carry Z.mul Pos.mul Z.eqb Pos.eqb].
  Local Ltac done_same E UR := injection E as <-; eexists; split; [|exact UR]; table; apply f_equal2; [apply f_equal2; [|reflexivity]|reflexivity].
  - revert k Hk E. refine (sixteen _ _ _ _ _ _ _ _ _ _ _ _ _ _ _ _ _); intros E; done_same E UR; reflexivity.
  - revert k Hk E. refine (sixteen _ _ _ _ _ _ _ _ _ _ _ _ _ _ _ _ _); intros E; done_same E UR; reflexivity.
  - unfold screen_dei in E. destruct (maybe_resize v (g_screen g)) as [s'|] eqn:ER; [|discriminate]. cbn [rbind] in E.
    destruct (resized v _ _ ltac:(apply Hv) ER) as (EW & EH & EX & EY & EZ). rewrite !shr8, EW, EH, EX, EY, EZ in E. clear EW EH EX EY EZ.
    assert (UD : untouched g (add_draw H (put_screen H g s') (g_screen g, v, -1, s'))).
    { unfold put_screen. destruct (_ && _); repeat split; auto. }
    revert k Hk E. refine (sixteen _ _ _ _ _ _ _ _ _ _ _ _ _ _ _ _ _); intros E; done_same E UD; reflexivity.
  - revert k Hk E. refine (sixteen _ _ _ _ _ _ _ _ _ _ _ _ _ _ _ _ _); intros E; done_same E UR; reflexivity.
  - revert k Hk E. refine (sixteen _ _ _ _ _ _ _ _ _ _ _ _ _ _ _ _ _); intros E; done_same E UR; reflexivity.
  - unfold mouse_dei in E. rewrite !shr8 in E. assert (EM : u8 (m_state (g_mouse g)) = m_state (g_mouse g)) by (apply Z.mod_small; lia). rewrite EM in E.
    revert k Hk E. refine (sixteen _ _ _ _ _ _ _ _ _ _ _ _ _ _ _ _ _); intros E; done_same E UR; reflexivity.
  - assert (TC : cli_dei_target (16 * 10 + k) = FileDev 0).
    { destruct (C73_routing (16 * 10 + k) ltac:(unfold is_byte; lia)) as (_ & _ & -> & _). unfold owner. replace ((16 * 10 + k) / 16) with 10 by lia. reflexivity. }
    unfold cli_dei in E. rewrite TC in E. cbn [rbind Z.eqb Pos.eqb] in E. unfold file_dei in E.
    replace (device_port (16 * 10 + k)) with k in E by (unfold device_port; change 15 with (Z.ones 4); rewrite Z.land_ones by lia; change (2 ^ 4) with 16; lia).
    assert (DI : device_id (16 * 10 + k) = 16 * 10).
    { rewrite device_id_page by (unfold is_byte; lia). unfold page. lia. }
    rewrite DI in E. change (0 =? 0) with true in E. change (1 =? 0) with false in E. cbv iota in E.
    rewrite (sh8 _ T2) in E. injection E as <-. eexists. split; [|apply UN; reflexivity].
    apply f_equal2; [apply f_equal2; [|reflexivity]|reflexivity].
    revert k Hk TC DI. refine (sixteen _ _ _ _ _ _ _ _ _ _ _ _ _ _ _ _ _); intros TC DI; table; reflexivity.
  - assert (TC : cli_dei_target (16 * 11 + k) = FileDev 1).
    { destruct (C73_routing (16 * 11 + k) ltac:(unfold is_byte; lia)) as (_ & _ & -> & _). unfold owner. replace ((16 * 11 + k) / 16) with 11 by lia. reflexivity. }
    unfold cli_dei in E. rewrite TC in E. cbn [rbind Z.eqb Pos.eqb] in E. unfold file_dei in E.
    replace (device_port (16 * 11 + k)) with k in E by (unfold device_port; change 15 with (Z.ones 4); rewrite Z.land_ones by lia; change (2 ^ 4) with 16; lia).
    assert (DI : device_id (16 * 11 + k) = 16 * 11).
    { rewrite device_id_page by (unfold is_byte; lia). unfold page. lia. }
    rewrite DI in E. change (0 =? 0) with true in E. change (1 =? 0) with false in E. cbv iota in E.
    rewrite (sh8 _ T3) in E. injection E as <-. eexists. split; [|apply UN; reflexivity].
    apply f_equal2; [apply f_equal2; [|reflexivity]|reflexivity].
    revert k Hk TC DI. refine (sixteen _ _ _ _ _ _ _ _ _ _ _ _ _ _ _ _ _); intros TC DI; table; reflexivity.
  - destruct (Z.leb_spec k 10) as [K|K].
    + destruct (C75_ports H now k v (g_files g) CLK ltac:(lia)) as (t' & EC & _). change (192 + k) with (16 * 12 + k) in EC.
      assert (FF : t_f0 t' = t_f0 (g_files g) /\ t_f1 t' = t_f1 (g_files g) /\ t_fh t' = t_fh (g_files g)).
      { unfold cli_dei in EC. destruct (C73_routing (16 * 12 + k) ltac:(unfold is_byte; lia)) as (_ & _ & R & _). rewrite R in EC.
        replace (owner (16 * 12 + k)) with Datetime in EC by (unfold owner; replace ((16 * 12 + k) / 16) with 12 by lia; reflexivity).
        cbn [text_device] in EC. destruct (datetime_dei _ _ _); [|discriminate]. cbn [rbind] in EC. injection EC as _ <-. auto. }
      rewrite EC in E. cbn [rbind] in E. injection E as <-. eexists. split; [|apply UN; apply FF].
      apply f_equal2; [apply f_equal2; [|reflexivity]|reflexivity].
      clear EC FF. revert k Hk K. refine (sixteen _ _ _ _ _ _ _ _ _ _ _ _ _ _ _ _ _); intros K; try lia; table; reflexivity.
    + assert (ED : forall o, datetime_dei v o (16 * 12 + k) = Ok (vm_dev v (16 * 12 + k))).
      { intros o. unfold datetime_dei. repeat match goal with |- context [?x =? ?y] => replace (x =? y) with false by lia end. reflexivity. }
      unfold cli_dei in E. destruct (C73_routing (16 * 12 + k) ltac:(unfold is_byte; lia)) as (_ & _ & R & _). rewrite R in E. clear R.
      replace (owner (16 * 12 + k)) with Datetime in E by (unfold owner; replace ((16 * 12 + k) / 16) with 12 by lia; reflexivity).
      cbn [text_device] in E. rewrite ED in E. cbn [rbind] in E. injection E as <-. eexists. split.
      { apply f_equal2; [apply f_equal2; [|reflexivity]|reflexivity].
        clear ED. revert k Hk K. refine (sixteen _ _ _ _ _ _ _ _ _ _ _ _ _ _ _ _ _); intros K; try lia; table; reflexivity. }
      apply UN; reflexivity.
  - revert k Hk E. refine (sixteen _ _ _ _ _ _ _ _ _ _ _ _ _ _ _ _ _); intros E; done_same E UR; reflexivity.
  - revert k Hk E. refine (sixteen _ _ _ _ _ _ _ _ _ _ _ _ _ _ _ _ _); intros E; done_same E UR; reflexivity.
  - revert k Hk E. refine (sixteen _ _ _ _ _ _ _ _ _ _ _ _ _ _ _ _ _); intros E; done_same E UR; reflexivity.
Qed.
End Ports.

(** ** C81
    Every port that is not a voice's reads as the table says, and as the byte last
    written if it is not in the table.  Reading changes neither the machine nor a
    device (but the screen, if the program has asked for another size). *)
Theorem C81_ports :
  forall H now voices a v (g : gui H) r, clock_ok now -> is_byte a -> well_typed v -> typed g ->
  (forall i, owner a <> Audio i) -> gui_dei H now voices a v g = Ok r ->
  exists g', r = (lookup a (documented now v g) (vm_dev v a), v, g') /\ untouched g g'.
Proof. intros. eapply ports_table; eauto. Qed.
Print Assumptions C81_ports.

(** A read fails only if it makes the screen take a size that is not supported. *)
Theorem C81_reads :
  forall H now voices a v (g : gui H), clock_ok now -> is_byte a -> well_typed v -> screen_ok (g_screen g) -> request_ok v ->
  (forall k i, voice_reachable (vm_msize v) (voices k i)) -> 65536 <= vm_msize v ->
  exists r, gui_dei H now voices a v g = Ok r.
Proof.
  intros H now voices a v g CLK Ha Hv HS HR HV HM. unfold gui_dei. destruct (gui_dei_target a); try (eexists; reflexivity).
  - unfold screen_dei. destruct (maybe_resize_ok v (g_screen g) HS (proj1 (proj2 (proj2 (proj2 (proj2 Hv))))) HR) as (s' & E & _). rewrite E. cbn [rbind]. eexists; reflexivity.
  - unfold audio_dei. destruct (device_port a =? 4); [|destruct (device_port a =? 2); eexists; reflexivity].
    destruct (C26_meter _ _ HM (HV (g_reads g) i)) as (h & l & c' & -> & _). cbn [rbind]. eexists; reflexivity.
  - unfold cli_dei. destruct (cli_dei_target a); try (eexists; reflexivity).
    destruct (datetime_ok v (now (t_clock (g_files g))) a ltac:(intros; eapply CLK; eauto)) as (b & ->). cbn [rbind]. eexists; reflexivity.
  - unfold cli_dei. destruct (cli_dei_target a); try (eexists; reflexivity).
    destruct (datetime_ok v (now (t_clock (g_files g))) a ltac:(intros; eapply CLK; eauto)) as (b & ->). cbn [rbind]. eexists; reflexivity.
Qed.
Print Assumptions C81_reads.

(** The ports of voice [i] start at 48 + 16 i.  Port 2 is the high byte of the
    position, port 4 the meter of C26; the read of port 2 also puts the low byte
    where port 3 reads it. *)
Definition meter_byte (c : voice) : Z :=
  if (a_advance c =? 0) || (a_period c =? 0) then 0
  else 16 * meter (level_of c (a_age c)) (a_vol0 c) + meter (level_of c (a_age c)) (a_vol1 c).
Theorem C81_voices :
  forall H now voices i p v (g : gui H), 0 <= i < 4 -> 0 <= p < 16 -> well_typed v -> 65536 <= vm_msize v ->
  (forall k i, voice_reachable (vm_msize v) (voices k i)) ->
  let base := 48 + 16 * i in let c := voices (g_reads g) i in
  exists b v' g', gui_dei H now voices (base + p) v g = Ok (b, v', g') /\ untouched g g' /\
  b = (if p =? 2 then hi (a_i c) else if p =? 4 then meter_byte c else vm_dev v (base + p)) /\
  (if p =? 2 then vm_dev v' (base + 3) = lo (a_i c) /\ (forall q, q <> base + 2 -> q <> base + 3 -> vm_dev v' q = vm_dev v q) else v' = v).
Proof.
  intros H now voices i p v g Hi Hp Hv HM HV. cbv zeta.
  assert (TG : gui_dei_target (48 + 16 * i + p) = Audio i).
  { destruct (C73_routing (48 + 16 * i + p) ltac:(unfold is_byte; lia)) as (-> & _). unfold owner.
    replace ((48 + 16 * i + p) / 16) with (3 + i) by lia.
    assert (i = 0 \/ i = 1 \/ i = 2 \/ i = 3) as [-> | [-> | [-> | ->]]] by lia; reflexivity. }
  assert (DI : device_id (48 + 16 * i + p) = 48 + 16 * i) by (rewrite device_id_page by (unfold is_byte; lia); unfold page; lia).
  assert (DP : device_port (48 + 16 * i + p) = p) by (unfold device_port; change 15 with (Z.ones 4); rewrite Z.land_ones by lia; change (2 ^ 4) with 16; lia).
  unfold gui_dei. rewrite TG, DI, DP. unfold audio_dei.
  assert (UA : untouched g (set_audio H g (S (g_reads g)) (g_sent g))) by (repeat split; auto).
  destruct (p =? 4) eqn:E4; [|destruct (p =? 2) eqn:E2].
  - assert (p = 4) by lia. subst p. cbn [Z.eqb Pos.eqb].
    destruct (C26_meter _ _ HM (HV (g_reads g) i)) as (h & l & c' & E & _ & _ & P1 & P2 & _). rewrite E. cbn [rbind].
    eexists _, _, _. split; [reflexivity|]. split; [exact UA|]. split; [|reflexivity]. unfold meter_byte.
    destruct ((a_advance _ =? 0) || (a_period _ =? 0)) eqn:E0.
    + destruct P2 as (-> & ->); [lia|reflexivity].
    + destruct P1 as (_ & _ & -> & ->); [lia|lia|reflexivity].
  - cbn [rbind]. assert (p = 2) by lia. subst p. eexists _, _, _. split; [reflexivity|]. split; [exact UA|]. split.
    + rewrite upd_ne by lia. rewrite upd_eq, shr8. reflexivity.
    + cbn [vm_set_dev vm_dev]. split.
      * rewrite upd_eq. unfold u8, lo. change 255 with (Z.ones 8). rewrite Z.land_ones by lia. change (2 ^ 8) with 256. lia.
      * intros q N1 N2. rewrite !upd_ne by lia. reflexivity.
  - cbn [rbind]. eexists _, _, _. split; [reflexivity|]. split; [exact UA|]. split; reflexivity.
Qed.
Print Assumptions C81_voices.

(** A program gets the position of a voice from DEI2 if the host reads the high
    byte first. *)
Lemma glue x : 0 <= hi x < 256 -> 0 <= lo x < 256 -> Z.lor (Z.shiftl (hi x) 8) (lo x) = x mod 65536.
Proof.
  intros. rewrite join_eq by (assumption || lia). unfold hi, lo. lia.
Qed.
Definition position_read {H} (now : nat -> option tm) (voices : nat -> Z -> voice) (hi_first : bool) (i : Z) (v : vm) (g : gui H) : option Z :=
  match dev_in _ (gui_dei H now voices) hi_first true (48 + 16 * i + 2) (mkSt _ v 0 0 0 0 0 g) with
  | Ok (x, _) => Some x
  | Fault _ => None
  end.
Theorem C81_position :
  forall H now voices i v (g : gui H), 0 <= i < 4 -> well_typed v -> 65536 <= vm_msize v ->
  (forall k i, voice_reachable (vm_msize v) (voices k i)) ->
  position_read now voices true i v g = Some (a_i (voices (g_reads g) i) mod 65536).
Proof.
  intros H now voices i v g Hi Hv HM HV. unfold position_read, dev_in. unfold bind at 1. unfold dev_in1 at 1. cbn [s_vm VmModel.s_w].
  assert (A1 : u8 (48 + 16 * i + 2) = 48 + 16 * i + 2) by (unfold u8; lia). rewrite A1.
  destruct (C81_voices H now voices i 2 v g Hi ltac:(lia) Hv HM HV) as (b & v' & g' & E & U & -> & L & _). rewrite E. cbn [Z.eqb Pos.eqb].
  unfold bind. unfold dev_in1. cbn [s_vm VmModel.s_w].
  assert (A2 : u8 (48 + 16 * i + 2 + 1) = 48 + 16 * i + 3) by (unfold u8; lia). rewrite A2.
  assert (TG : gui_dei_target (48 + 16 * i + 3) = Audio i).
  { destruct (C73_routing (48 + 16 * i + 3) ltac:(unfold is_byte; lia)) as (-> & _). unfold owner.
    replace ((48 + 16 * i + 3) / 16) with (3 + i) by lia.
    assert (i = 0 \/ i = 1 \/ i = 2 \/ i = 3) as [-> | [-> | [-> | ->]]] by lia; reflexivity. }
  assert (DI : device_id (48 + 16 * i + 3) = 48 + 16 * i) by (rewrite device_id_page by (unfold is_byte; lia); unfold page; lia).
  assert (DP : device_port (48 + 16 * i + 3) = 3) by (unfold device_port; change 15 with (Z.ones 4); rewrite Z.land_ones by lia; change (2 ^ 4) with 16; lia).
  set (x := a_i (voices (g_reads g) i)) in *.
  assert (E2 : gui_dei H now voices (48 + 16 * i + 3) v' g' = Ok (lo x, v', set_audio H g' (S (g_reads g')) (g_sent g'))).
  { unfold gui_dei. rewrite TG, DI, DP. unfold audio_dei. change (3 =? 4) with false. change (3 =? 2) with false. cbv iota. cbn [rbind]. rewrite L. reflexivity. }
  rewrite E2. cbv beta iota. unfold ret. f_equal. change (if 2 =? 2 then hi x else if 2 =? 4 then _ else _) with (hi x).
  assert (u8 (hi x) = hi x) as -> by (unfold u8, hi; lia). assert (u8 (lo x) = lo x) as -> by (unfold u8, lo; lia).
  apply glue; unfold hi, lo; lia.
Qed.
Print Assumptions C81_position.

(** Otherwise the low byte is the one that was there before. *)
Definition ex_playing : voice :=
  match AudioModel.render (fun k => if k =? 17 then 255 else 0) 65536 ex_voice 2000 1 with Ok (_, c, _) => c | Fault _ => ex_voice end.
Lemma ex_playing_reachable : voice_reachable 65536 ex_playing.
Proof.
  unfold ex_playing. destruct (AudioModel.render _ 65536 ex_voice 2000 1) as [((out, c), st)|f] eqn:E; [|exact C25_reachable].
  apply (vr_render 65536 ex_voice (fun k => if k =? 17 then 255 else 0) 2000 1 out c st); [exact C25_reachable|lia|unfold INT_MAX; lia|exact E].
Qed.
Definition ex_machine : vm := mkVm 0 0 (fun _ => 0) (fun _ => 0) (fun _ => 0) (fun _ => 0) 65536.
Definition ex_file : file := initial_file.
Definition ex_gui : gui unit :=
  mkGui (mkConsole [] 0 0) (mkMouse 300 (-2) 1 0 0) (mkController (fun _ => 0) 0) (mkScreen 0 0 0 0 0 0 0 0 0 512 320 (mkRect 0 0 0 0) (mkRect 0 0 0 0) (fun _ => 0))
    (fun _ => 0) (fun _ => 0) (mkBuf 0 (fun _ => 0)) (mkBuf 0 (fun _ => 0)) [] [] 0 []
    (mkTerm [] [] 0 ex_file [] ex_file [] tt) [] [].
Theorem C81_position_refuted :
  exists c, voice_reachable 65536 c /\ well_typed ex_machine /\
  position_read (fun _ => None) (fun _ _ => c) false 0 ex_machine ex_gui <> Some (a_i c mod 65536).
Proof.
  exists ex_playing. split; [exact ex_playing_reachable|]. split; [apply ex_dev_typed; intros; unfold is_byte; lia|]. vm_compute. congruence.
Qed.
Print Assumptions C81_position_refuted.

Example C81_case :
  map (fun a => match gui_dei unit (fun _ => None) (fun _ _ => ex_playing) a ex_machine ex_gui with Ok (b, _, _) => b | Fault _ => -1 end)
    [34; 35; 36; 37; 146; 147; 148; 149; 150] = [2; 0; 1; 64; 1; 44; 255; 254; 1] /\
  position_read (fun _ => None) (fun _ _ => ex_playing) true 0 ex_machine ex_gui = Some (a_i ex_playing) /\ a_i ex_playing = 1.
Proof. vm_compute. repeat split. Qed.
