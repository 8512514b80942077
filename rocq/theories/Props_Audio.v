(** Properties C25-C27, C53, C54: audio. *)
From Verif Require Import Base VmModel VmSpec VmProofs SystemSpec SystemProofs AudioModel AudioSpec AudioProofs
  HandoverModel HandoverSpec HandoverProofs InputModel InputSpec InputProofs Props_VM.
From Coq Require Import ZifyBool.

(** ** C25
    Rendering never faults: no access outside memory, no division by zero, no
    integer overflow.  A playing voice writes every cell of every frame; fewer are
    written only if the voice was silent or a sample that does not repeat ended. *)
Theorem C25_render :
  forall mem msize c n channels, 65536 <= msize -> voice_reachable msize c ->
  1 <= channels -> Z.of_nat n * channels <= INT_MAX ->
  exists out c' st, render mem msize c n channels = Ok (out, c', st) /\
  Z.of_nat (length out) mod channels = 0 /\
  Forall (fun x => -8386560 <= x <= 8386560) out /\
  match st with
  | Stopped => out = [] /\ c' = c /\ (a_advance c = 0 \/ a_period c = 0)
  | Playing => Z.of_nat (length out) = Z.of_nat n * channels
  | Finished => Z.of_nat (length out) = Z.of_nat n * channels \/
      (Z.of_nat (length out) < Z.of_nat n * channels /\ a_repeat c = 0)
  end.
Proof.
  intros mem msize c n channels HM R Hc HN.
  destruct (render_spec mem msize c n channels (reachable_ok _ _ HM R) Hc HN) as (out & c' & st & E & _ & F & M & S).
  exists out, c', st. split; [exact E|]. split; [exact M|]. split; [exact F|]. destruct st; tauto.
Qed.
Print Assumptions C25_render.

(** It looks at no memory outside the sample, and the sample lies inside the
    64 KiB the program addresses. *)
Theorem C25_only_sample :
  forall mem mem' msize c n channels, 65536 <= msize -> voice_reachable msize c ->
  1 <= channels -> Z.of_nat n * channels <= INT_MAX ->
  (forall k, a_addr c <= k < a_addr c + a_len c -> mem k = mem' k) ->
  render mem msize c n channels = render mem' msize c n channels.
Proof.
  intros mem mem' msize c n channels HM R Hc HN A. unfold render.
  destruct ((a_advance c =? 0) || (a_period c =? 0)) eqn:E; [reflexivity|].
  destruct (enter_loop msize c n channels (reachable_ok _ _ HM R) E Hc HN) as (HL & HW).
  rewrite (render_loop_agree mem mem'); auto.
Qed.
Print Assumptions C25_only_sample.

(** A note asks for the sample the ports describe, cut at the end of the program's
    memory; playing it takes over that sample. *)
Theorem C25_sample_window :
  forall v base m c c', well_typed v -> 0 <= base <= 240 -> audio_deo v base 15 = Some m -> receive c m = Ok c' ->
  let w k := 256 * vm_dev v (base + k) + vm_dev v (base + k + 1) in
  m_addr m = w 12 /\ m_len m = Z.min (w 10) (65536 - w 12) /\ a_addr c' = m_addr m /\ a_len c' = m_len m.
Proof.
  intros v base m c c' Hv Hb E R. pose proof Hv as (_ & _ & _ & _ & Hd & _ & Hs).
  assert (W : forall i, 0 <= i < 16 -> is_byte (vm_dev v (base + i))) by (intros; apply Hd; lia).
  unfold audio_deo in E. cbn [Z.eqb Pos.eqb] in E. injection E as <-.
  assert (L : forall a, 0 <= a < 15 -> load2 (fun i => vm_dev v (base + i)) a 16 = 256 * vm_dev v (base + a) + vm_dev v (base + a + 1) /\
    0 <= load2 (fun i => vm_dev v (base + i)) a 16 < 65536).
  { intros a Ha. rewrite load2_word by (auto; lia). split; [|apply word_range; auto; lia]. unfold word.
    rewrite !Z.mod_small by lia. rewrite Z.add_assoc. reflexivity. }
  destruct (L 12 ltac:(lia)) as (E12 & R12). destruct (L 10 ltac:(lia)) as (E10 & R10). cbv zeta.
  assert (X : a_addr c' = load2 (fun i => vm_dev v (base + i)) 12 16 /\ a_len c' = (let len := load2 (fun i => vm_dev v (base + i)) 10 16 in let addr := load2 (fun i => vm_dev v (base + i)) 12 16 in if len >? 65536 - addr then u16 (65536 - addr) else len)).
  { unfold receive in R. cbn [m_addr m_len m_pitch m_adsr] in R. destruct (_ && _).
    - match type of R with rbind ?t _ = _ => destruct t as [p|]; [|discriminate] end. injection R as <-. split; reflexivity.
    - injection R as <-. split; reflexivity. }
  destruct X as (-> & ->). cbn [m_addr m_len]. cbv zeta. rewrite E12, E10 in *. unfold u16.
  destruct (_ >? _) eqn:E; [rewrite Z.mod_small by lia|]; repeat split; lia.
Qed.
Print Assumptions C25_sample_window.

(** The size of the buffers the host asks for does not change the sound: rendering
    [n + m] frames at once or in two calls gives the same stream. *)
Theorem C25_chunks :
  forall mem msize c n m channels, 65536 <= msize -> voice_reachable msize c ->
  1 <= channels -> Z.of_nat (n + m) * channels <= INT_MAX ->
  exists o c' st o1 c1 st1 o2 c2 st2,
    render mem msize c (n + m) channels = Ok (o, c', st) /\
    render mem msize c n channels = Ok (o1, c1, st1) /\ render mem msize c1 m channels = Ok (o2, c2, st2) /\
    padded (Z.of_nat (n + m) * channels) o = padded (Z.of_nat n * channels) o1 ++ padded (Z.of_nat m * channels) o2 /\
    (a_advance c' <> 0 -> c' = c2) /\ (a_advance c' = 0 <-> a_advance c2 = 0).
Proof. intros mem msize c n m channels HM R. apply render_chunks. apply reachable_ok; auto. Qed.
Print Assumptions C25_chunks.

(** A voice at 44100 Hz playing middle C from a two byte sample that repeats. *)
Definition ex_note : message := mkMsg 16 4386 2 60 1 15 8.
Definition ex_ports (adsr_hi adsr_lo : Z) : list Z := [0; 0; 0; 0; 0; 0; 0; 0; adsr_hi; adsr_lo; 0; 2; 0; 16; 248; 60].
Definition ex_voice : voice := match receive (silent 44100) ex_note with Ok c => c | Fault _ => silent 0 end.
Example C25_case :
  a_advance ex_voice <> 0 /\ a_r ex_voice = 17640 /\
  match render (fun k => if k =? 17 then 255 else 0) 65536 ex_voice 300 2 with
  | Ok (out, c', st) => (Z.of_nat (length out), st, a_age c', nth 500 out 0, nth 501 out 0)
  | Fault _ => (0, Stopped, 0, 0, 0)
  end = (600, Playing, 300, -355200, -189440).
Proof. vm_compute. repeat split; congruence. Qed.
Lemma ex_dev_typed d : (forall i, is_byte (d i)) -> well_typed (mkVm 0 0 (fun _ => 0) (fun _ => 0) d (fun _ => 0) 65536).
Proof.
  intros HD. assert (Z0 : is_byte 0) by (unfold is_byte; lia).
  split; [exact Z0|]. split; [exact Z0|]. split; [intros; exact Z0|]. split; [intros; exact Z0|]. split; [intros; apply HD|].
  split; [intros; exact Z0|]. cbn. lia.
Qed.
Lemma ex_reachable hi lo m c : Forall is_byte (ex_ports hi lo) ->
  audio_deo (mkVm 0 0 (fun _ => 0) (fun _ => 0) (fun i => nth (Z.to_nat (i - 48)) (ex_ports hi lo) 0) (fun _ => 0) 65536) 48 15 = Some m ->
  receive (silent 44100) m = Ok c -> voice_reachable 65536 c.
Proof.
  intros HB. apply vr_receive with (1 := vr_init 65536 44100 ltac:(unfold MAX_RATE; lia)); [|reflexivity|lia].
  apply ex_dev_typed. intros i. apply nth_byte. exact HB.
Qed.
Example C25_reachable : voice_reachable 65536 ex_voice.
Proof. apply (ex_reachable 17 34 ex_note); [unfold ex_ports; bytes|vm_compute; reflexivity|vm_compute; reflexivity]. Qed.

(** ** C26 *)
Theorem C26_envelope :
  forall msize c age, 65536 <= msize -> voice_reachable msize c -> 0 <= age < 4294967296 ->
  0 <= level_of c age <= 2184 /\
  exists c', envelope c age = Ok (level_of c age, c') /\
  (c' = c \/ (c' = set_advance c 0 /\ a_r c <= age)).
Proof.
  intros msize c age HM R Ha. pose proof (reachable_ok _ _ HM R) as V. assert (E : env_ok c) by apply V.
  split; [apply level_of_range; [exact E|lia]|]. rewrite envelope_spec by auto. eexists. split; [reflexivity|].
  destruct (negb (a_r c =? 0) && (a_r c <=? age)) eqn:X; [right; split; [reflexivity|lia]|auto].
Qed.
Print Assumptions C26_envelope.

(** The phases last as many fifteenths of a second as the nibbles say. *)
Theorem C26_phases :
  forall v base c m, well_typed v -> 0 <= base <= 240 -> voice_reachable (vm_msize v) c ->
  audio_deo v base 15 = Some m -> m_pitch m < 108 -> m_len m <> 0 ->
  exists c', receive c m = Ok c' /\ a_age c' = 0 /\ forall t,
  level_of c' t = level (a_freq c / 15 * (m_adsr m / 4096)) (a_freq c / 15 * (m_adsr m / 256 mod 16))
                        (a_freq c / 15 * (m_adsr m / 16 mod 16)) (a_freq c / 15 * (m_adsr m mod 16)) t.
Proof.
  intros v base c m Hv Hb R Hm HP HL. assert (HM : 65536 <= vm_msize v) by apply Hv.
  destruct (receive_spec (vm_msize v) c m (reachable_ok _ _ HM R) (proj1 (audio_deo_ok v base m Hv Hb Hm))) as (c' & E & _ & _ & S & _).
  destruct (S (conj HP HL)) as (S1 & S2 & S3 & S4 & S5 & _). exists c'. split; [exact E|]. split; [exact S5|]. intros t.
  assert (N : forall x, Z.land x 15 = x mod 16) by (intros x; change 15 with (Z.ones 4); rewrite Z.land_ones by lia; reflexivity).
  unfold level_of. rewrite S2, S3, S4, S1, !N, !Z.shiftr_div_pow2 by lia. reflexivity.
Qed.
Print Assumptions C26_phases.

(** When the level is 0. *)
Theorem C26_zero :
  forall A D S R t, 0 <= A -> 0 <= D -> 0 <= S -> 0 <= R -> 0 <= t ->
  (level A D S R t = 0 <->
   A + D + S + R <> 0 /\
   ((t < A /\ 2184 * t < A) \/ A + D + S + R <= t \/ (A + D + S <= t /\ 1092 * (A + D + S + R - t) < R))).
Proof.
  intros A D S R t HA HD HS HR Ht. unfold level.
  assert (DZ : forall x y, 0 <= x -> 0 < y -> (x / y = 0 <-> x < y)).
  { intros x y Hx Hy. rewrite Z.div_small_iff by lia. lia. }
  destruct (A + D + S + R =? 0) eqn:E0; [split; lia|].
  destruct (t <? A) eqn:E1; [rewrite DZ by lia; split; lia|].
  destruct (t <? A + D) eqn:E2.
  { assert (0 <= 1092 * (A + D - t) / D) by (apply Z.div_pos; lia).
    set (q := 1092 * (A + D - t) / D) in *. clearbody q. split; intros; exfalso; lia. }
  destruct (t <? A + D + S) eqn:E3; [split; lia|].
  destruct (t <? A + D + S + R) eqn:E4; [rewrite DZ by lia; split; lia|split; lia].
Qed.
Print Assumptions C26_zero.

(** The meter: one nibble per channel, between 0 and 15, and 0 exactly for a volume
    of 0; a voice that does not play shows 0. *)
Theorem C26_meter :
  forall msize c, 65536 <= msize -> voice_reachable msize c ->
  exists hi lo c', get_vu c = Ok (16 * hi + lo, c') /\ 0 <= hi <= 15 /\ 0 <= lo <= 15 /\
  (a_advance c <> 0 -> a_period c <> 0 ->
     (hi = 0 <-> a_vol0 c = 0) /\ (lo = 0 <-> a_vol1 c = 0) /\
     hi = meter (level_of c (a_age c)) (a_vol0 c) /\ lo = meter (level_of c (a_age c)) (a_vol1 c)) /\
  (a_advance c = 0 \/ a_period c = 0 -> hi = 0 /\ lo = 0) /\
  (c' = c \/ c' = set_advance c 0).
Proof.
  intros msize c HM R. pose proof (reachable_ok _ _ HM R) as V. destruct (get_vu_spec msize c V) as (c' & E & _ & X).
  destruct V as (H1 & H2 & H3 & H4 & H5 & H6 & H7 & H8 & H9 & H10 & H11 & H12 & H13 & H14).
  pose proof (level_of_range c (a_age c) H1 ltac:(lia)) as HL.
  destruct (meter_range (level_of c (a_age c)) (a_vol0 c)) as (M1 & M2); [lia|lia|].
  destruct (meter_range (level_of c (a_age c)) (a_vol1 c)) as (M3 & M4); [lia|lia|].
  destruct ((a_advance c =? 0) || (a_period c =? 0)) eqn:E0.
  - exists 0, 0, c'. split; [exact E|]. split; [lia|]. split; [lia|]. split; [intros; exfalso; lia|]. auto.
  - eexists _, _, c'. split; [exact E|]. split; [exact M1|]. split; [exact M3|]. split; [auto|]. split; [intros; exfalso; lia|exact X].
Qed.
Print Assumptions C26_meter.

Example C26_case :
  map (level_of ex_voice) [0; 1; 2; 2939; 2940; 4410; 5880; 11759; 11760; 14700; 17638; 17640] =
    [0; 0; 1; 2183; 2184; 1638; 1092; 1092; 1092; 546; 0; 0] /\
  match get_vu (set_age ex_voice 2940) with Ok (x, _) => x = 16 * 15 + 9 | Fault _ => False end.
Proof. vm_compute. auto. Qed.

(** ** C27
    Whatever the schedule of the two threads (and whatever the memory order of the
    exchange), for every voice the notes received are, in order, the notes that
    were the latest at a hand-over; at most one is still on its way, and none once
    the pointer is null. *)
Theorem C27_delivery :
  forall (note : Type) acq ls s evs i, hrun note acq ls (h_init note) = Some (s, evs) -> (i < VOICES)%nat ->
  exists rest, handed i None evs = received i evs ++ rest /\ (length rest <= 1)%nat /\
  (h_incoming _ s = None -> rest = []).
Proof.
  intros note acq ls s evs i E Hi. destruct (inv_run acq ls _ _ _ _ inv_init E) as (_ & C). destruct (C i Hi) as (_ & C2).
  exists (pending s i). split; [exact C2|]. unfold pending. split.
  - destruct (h_incoming _ s) as [b|]; [|cbn; lia]. destruct (h_apc _ s) as [|b' k]; [|destruct (k <=? i)%nat]; try (destruct (h_buf _ s b i)); cbn; lia.
  - intros ->. reflexivity.
Qed.
Print Assumptions C27_delivery.

(** Each note received was sent, in the order sent and none twice: the notes
    received are a subsequence of the notes sent. *)
Theorem C27_order :
  forall (note : Type) acq ls s evs i, hrun note acq ls (h_init note) = Some (s, evs) -> (i < VOICES)%nat ->
  sublist (received i evs) (sent i evs).
Proof.
  intros note acq ls s evs i E Hi. destruct (C27_delivery note acq ls s evs i E Hi) as (rest & H & _).
  pose proof (handed_sublist i evs None) as X. cbn in X. rewrite H in X. eapply sublist_prefix. exact X.
Qed.
Print Assumptions C27_order.

(** A note that was sent and is not received was replaced by a later note of the same
    voice before any hand-over, or is waiting for the next hand-over (which the
    emulator thread will then attempt), or is on its way. *)
Theorem C27_loss :
  forall (note : Type) acq ls s e1 i n e2, hrun note acq ls (h_init note) = Some (s, e1 ++ Sent note i n :: e2) -> (i < VOICES)%nat ->
  let evs := e1 ++ Sent note i n :: e2 in
  In n (received i evs) \/
  (exists a b n', e2 = a ++ Sent note i n' :: b /\ ~ In (Handed note) a) \/
  (waiting i None evs = Some n /\ h_should _ s = true) \/
  (exists b, h_incoming _ s = Some b /\ h_buf _ s b i = Some n).
Proof.
  intros note acq ls s e1 i n e2 E Hi evs. destruct (inv_run acq ls _ _ _ _ inv_init E) as ((P1 & P2) & C). destruct (C i Hi) as (C1 & C2).
  cbn [app] in C1, C2. fold evs in C1, C2.
  destruct (sent_fate i n e2) as [W|[H|H]]; [| |auto].
  - right. right. left. assert (W' : waiting i None evs = Some n) by (unfold evs; rewrite waiting_app; cbn; rewrite Nat.eqb_refl; exact W).
    split; [exact W'|]. unfold staging in C1. destruct (h_epc _ s).
    + destruct C1 as (C1 & C3). apply C3. congruence.
    + congruence.
    + destruct C1; congruence.
  - assert (HI : In n (handed i None evs)) by (unfold evs; rewrite handed_app; apply in_or_app; right; cbn; rewrite Nat.eqb_refl; exact H).
    rewrite C2 in HI. apply in_app_or in HI as [HI|HI]; [left; exact HI|].
    right. right. right. unfold pending in HI. destruct (h_incoming _ s) as [b|]; [|contradiction]. exists b. split; [reflexivity|].
    assert (I2 : In n (olist (h_buf _ s b i))) by (destruct (h_apc _ s) as [|? k]; [exact HI|destruct (k <=? i)%nat; [exact HI|contradiction]]).
    destruct (h_buf _ s b i) as [m|]; [|contradiction]. destruct I2 as [->|[]]. reflexivity.
Qed.
Print Assumptions C27_loss.

(** The two threads are never both about to access the same message buffer. *)
Theorem C27_exclusion :
  forall (note : Type) acq ls s evs le la b, hrun note acq ls (h_init note) = Some (s, evs) ->
  enabled acq s le -> enabled acq s la -> e_access s le = Some b -> a_access s la <> Some b.
Proof.
  intros note acq ls s evs le la b E HE HA EE EA. destruct (inv_run acq ls _ _ _ _ inv_init E) as ((P1 & P2) & _).
  unfold a_access in EA. destruct la; try discriminate. destruct (h_apc _ s) as [|b' k]; [discriminate|]. injection EA as ->.
  destruct P2 as (P2 & _). unfold enabled in HE. destruct le; cbn in EE, HE; try discriminate; injection EE as <-.
  - unfold h_send in HE. destruct (h_epc _ s); try congruence. destruct P1 as [|P1]; [congruence|].
    rewrite P2 in P1. injection P1 as X. symmetry in X. revert X. apply negb_ne.
  - unfold h_clear in HE. destruct (h_epc _ s); try congruence. destruct P1 as (_ & [|P1]); [congruence|].
    rewrite P2 in P1. injection P1 as X. symmetry in X. revert X. apply negb_ne.
Qed.
Print Assumptions C27_exclusion.

(** No schedule gets stuck: from every reachable state there is one without further
    notes after which every note handed over or waiting has been received. *)
Theorem C27_progress :
  forall (note : Type) acq ls s evs, hrun note acq ls (h_init note) = Some (s, evs) ->
  exists ls' s' e', hrun note acq (ls ++ ls') (h_init note) = Some (s', evs ++ e') /\ Forall (fun l => ~ is_send l) ls' /\
  forall i, (i < VOICES)%nat -> waiting i None (evs ++ e') = None /\ handed i None (evs ++ e') = received i (evs ++ e').
Proof.
  intros note acq ls s evs E. pose proof (inv_run acq ls _ _ _ _ inv_init E) as I0. cbn [app] in I0.
  destruct (emu_finishes acq s (proj1 I0)) as (l1 & s1 & e1 & R1 & F1 & X1 & _).
  pose proof (inv_run acq l1 _ _ _ _ I0 R1) as I1.
  destruct (audio_drains acq s1 (proj1 I1)) as (l2 & s2 & e2 & R2 & F2 & Y1 & Y2 & Y3 & Y4).
  pose proof (inv_run acq l2 _ _ _ _ I1 R2) as I2. rewrite X1 in Y3.
  assert (DONE : forall s t, @inv note s t -> h_incoming _ s = None -> h_epc _ s = ERun -> h_should _ s = false ->
    forall i, (i < VOICES)%nat -> waiting i None t = None /\ handed i None t = received i t).
  { intros u t (_ & C) D1 D2 D3 i Hi. destruct (C i Hi) as (C1 & C2). unfold staging in C1. rewrite D2 in C1. destruct C1 as (C1 & C3).
    split; [|rewrite C2; unfold pending; rewrite D1, app_nil_r; reflexivity].
    rewrite <- C1. destruct (h_buf _ u _ i) eqn:EB; [|reflexivity]. specialize (C3 ltac:(discriminate)). congruence. }
  destruct (h_should _ s2) eqn:SH.
  - destruct (hstep note acq (LTry note) s2) as [[s3 e3]|] eqn:R3; cbn in R3; unfold h_try in R3; rewrite Y3, SH, Y1 in R3; [|discriminate].
    assert (R3' : hrun note acq [LTry note] s2 = Some (s3, [Handed note])).
    { cbn. unfold h_try. rewrite Y3, SH, Y1. injection R3 as <- <-. reflexivity. }
    assert (S3 : h_epc _ s3 <> ERun) by (injection R3 as <- <-; cbn; discriminate).
    pose proof (inv_run acq _ _ _ _ _ I2 R3') as I3.
    destruct (emu_finishes acq s3 (proj1 I3)) as (l4 & s4 & e4 & R4 & F4 & Z1 & Z2 & Z3 & Z4). pose proof (inv_run acq _ _ _ _ _ I3 R4) as I4.
    destruct (audio_drains acq s4 (proj1 I4)) as (l5 & s5 & e5 & R5 & F5 & W1 & W2 & W3 & W4). pose proof (inv_run acq _ _ _ _ _ I4 R5) as I5.
    exists (l1 ++ l2 ++ [LTry note] ++ l4 ++ l5), s5, (e1 ++ e2 ++ [Handed note] ++ e4 ++ e5).
    split; [|split].
    + eapply hrun_app; [exact E|]. eapply hrun_app; [exact R1|]. eapply hrun_app; [exact R2|]. eapply hrun_app; [exact R3'|]. eapply hrun_app; [exact R4|exact R5].
    + apply Forall_app; split; [exact F1|]. apply Forall_app; split; [exact F2|]. apply Forall_app; split; [apply Forall_cons; [cbn; auto|apply Forall_nil]|].
      apply Forall_app; split; [exact F4|exact F5].
    + apply (DONE s5); [rewrite !app_assoc in *; exact I5|auto|congruence|]. rewrite W4. apply Z4. exact S3.
  - exists (l1 ++ l2), s2, (e1 ++ e2). split; [|split].
    + eapply hrun_app; [exact E|]. eapply hrun_app; [exact R1|exact R2].
    + apply Forall_app; split; [exact F1|exact F2].
    + apply (DONE s2); auto. rewrite app_assoc. exact I2.
Qed.
Print Assumptions C27_progress.

(** With an exchange that also acquires, no schedule contains a data race on the
    message buffers. *)
Theorem C27_no_race_if_acquire :
  forall (note : Type) ls s evs, hrun note true ls (h_init note) = Some (s, evs) -> h_race _ s = false.
Proof.
  intros note ls s evs E. pose proof (clocks_run ls _ _ _ _ inv_init clocks_init E) as (K & _). exact K.
Qed.
Print Assumptions C27_no_race_if_acquire.

(** The exchange of gui.c:441 only releases: clearing a buffer is then not ordered
    after the audio thread's reads of it, which is a data race in the sense of C11. *)
Definition ex_schedule : list (label Z) :=
  [LSend _ 0 7; LTry _; LSwap _; LClear _; LClear _; LClear _; LClear _;
   LLoad _; LRecv _; LRecv _; LRecv _; LRecv _; LStore _;
   LSend _ 1 8; LTry _; LSwap _; LClear _].
Theorem C27_no_race_refuted :
  exists ls s evs, hrun Z false ls (h_init Z) = Some (s, evs) /\ h_race _ s = true.
Proof.
  assert (H : match hrun Z false ex_schedule (h_init Z) with Some (s, _) => h_race _ s | None => false end = true) by (vm_compute; reflexivity).
  destruct (hrun Z false ex_schedule (h_init Z)) as [[s evs]|] eqn:E; [|discriminate]. exists ex_schedule, s, evs. auto.
Qed.
Print Assumptions C27_no_race_refuted.

(** Two notes of voice 0 before a hand-over that the audio thread picks up while
    the emulator thread clears the other buffer and stages a third note. *)
Example C27_case :
  match hrun Z false [LSend _ 0 7; LSend _ 0 8; LSend _ 2 9; LTry _; LLoad _; LSwap _; LRecv _; LClear _; LClear _; LRecv _; LClear _;
      LClear _; LSend _ 0 10; LTry _; LRecv _; LRecv _; LTry _; LStore _; LTry _] (h_init Z) with
  | Some (s, evs) => received 0 evs = [8] /\ received 2 evs = [9] /\ sent 0 evs = [7; 8; 10] /\
      handed 0 None evs = [8; 10] /\ h_incoming _ s = Some true
  | None => False
  end.
Proof. vm_compute. auto. Qed.

(** ** C53
    A finished voice should evaluate its own vector.  This holds for voice 0 only:
    gui.c:615 passes BUXN_DEVICE_AUDIO_0 + i, the devices are 16 apart. *)
Theorem C53_finish_vector :
  forall v i, 0 <= i <= 3 -> gui_finished_vector v i = vector v (48 + i).
Proof. intros v i Hi. apply vector_eq. lia. Qed.
Print Assumptions C53_finish_vector.

Theorem C53_own_vector_refuted :
  exists v, well_typed v /\ vector v (page 64) = 4660 /\ gui_finished_vector v 1 = 0.
Proof.
  set (d := fun i => if i =? 64 then 18 else if i =? 65 then 52 else 0).
  exists (mkVm 0 0 (fun _ => 0) (fun _ => 0) d (fun _ => 0) 65536). split; [|vm_compute; auto].
  apply ex_dev_typed. intros i. unfold d, is_byte. destruct (i =? 64); [lia|]. destruct (i =? 65); lia.
Qed.
Print Assumptions C53_own_vector_refuted.

(** ** C54
    One callback: every cell holds what the last voice that wrote it put there.
    Sounds of several voices are not added. *)
Lemma overwrite_nth b o k : (length o <= length b)%nat ->
  nth k (overwrite b o) 0 = if (k <? length o)%nat then nth k o 0 else nth k b 0.
Proof.
  intros H. unfold overwrite. destruct (Nat.ltb_spec k (length o)).
  - apply app_nth1. auto.
  - rewrite app_nth2 by auto. rewrite <- (firstn_skipn (length o) b) at 2. rewrite app_nth2; rewrite firstn_length_le by auto; auto.
Qed.
Lemma overwrite_length b o : (length o <= length b)%nat -> length (overwrite b o) = length b.
Proof. intros H. unfold overwrite. rewrite app_length, skipn_length. lia. Qed.

Theorem C54_last_voice :
  forall mem msize cs n channels, 65536 <= msize -> Forall (voice_reachable msize) cs ->
  1 <= channels -> Z.of_nat n * channels <= INT_MAX ->
  exists buffer cs' fs outs, callback mem msize cs n channels = Ok (buffer, cs', fs) /\
  Z.of_nat (length buffer) = Z.of_nat n * channels /\
  Forall2 (fun c o => exists c' st, render mem msize c n channels = Ok (o, c', st)) cs outs /\
  (forall k, nth k buffer 0 = last_written outs k).
Proof.
  intros mem msize cs n channels HM HC Hc HN. unfold callback.
  assert (G : forall cs b, Forall (voice_reachable msize) cs -> Z.of_nat (length b) = Z.of_nat n * channels ->
    exists buffer cs' fs outs, render_voices mem msize cs n channels b = Ok (buffer, cs', fs) /\
    Z.of_nat (length buffer) = Z.of_nat n * channels /\
    Forall2 (fun c o => exists c' st, render mem msize c n channels = Ok (o, c', st)) cs outs /\
    (forall k, nth k buffer 0 = fold_left (fun acc o => if (k <? length o)%nat then nth k o 0 else acc) outs (nth k b 0))).
  { clear cs HC. induction cs as [|c cs IH]; intros b HF HB.
    - exists b, [], [], []. split; [reflexivity|]. split; [exact HB|]. split; [constructor|reflexivity].
    - inversion HF as [|? ? HR HF']; subst. cbn [render_voices].
      destruct (C25_render mem msize c n channels HM HR Hc HN) as (o & c' & st & E & _ & _ & S). rewrite E. cbn [rbind].
      assert (LO : (length o <= length b)%nat).
      { destruct st; [destruct S as (-> & _); cbn; lia|lia|lia]. }
      destruct (IH (overwrite b o) HF') as (buf & cs' & fs & outs & E2 & L2 & F2 & N2); [rewrite overwrite_length; auto|].
      rewrite E2. cbn [rbind]. eexists buf, _, _, (o :: outs). split; [reflexivity|]. split; [exact L2|].
      split; [constructor; eauto|]. intros k. rewrite N2. cbn [fold_left]. rewrite overwrite_nth by auto. reflexivity. }
  destruct (G cs (repeat 0 (Z.to_nat (Z.of_nat n * channels))) HC) as (buffer & cs' & fs & outs & E & L & F & N).
  { rewrite repeat_length. lia. }
  exists buffer, cs', fs, outs. split; [exact E|]. split; [exact L|]. split; [exact F|]. intros k. rewrite N. unfold last_written.
  f_equal. apply nth_repeat.
Qed.
Print Assumptions C54_last_voice.

(** The callback reports exactly the voices whose sound has ended, and leaves each
    voice as rendering it leaves it. *)
Theorem C54_finished :
  forall mem msize cs n channels buffer cs' fs, callback mem msize cs n channels = Ok (buffer, cs', fs) ->
  length cs' = length cs /\ length fs = length cs /\
  forall i c, nth_error cs i = Some c -> exists o c' st f, render mem msize c n channels = Ok (o, c', st) /\
    nth_error cs' i = Some c' /\ nth_error fs i = Some f /\ (f = true <-> st = Finished).
Proof.
  intros mem msize cs n channels. unfold callback. generalize (repeat 0 (Z.to_nat (Z.of_nat n * channels))).
  induction cs as [|c cs IH]; intros b buffer cs' fs E; cbn [render_voices] in E.
  - injection E as <- <- <-. split; [reflexivity|]. split; [reflexivity|]. intros [|i] c; discriminate.
  - destruct (render mem msize c n channels) as [[[o c'] st]|] eqn:R; [|discriminate E]. cbn [rbind] in E.
    destruct (render_voices mem msize cs n channels (overwrite b o)) as [[[b1 cs1] fs1]|] eqn:V; [|discriminate E]. cbn [rbind] in E. injection E as <- <- <-.
    destruct (IH _ _ _ _ V) as (L1 & L2 & H). split; [cbn; lia|]. split; [cbn; lia|].
    intros [|i] c0; cbn [nth_error]; [|apply H]. intros Q; injection Q as <-. exists o, c', st. eexists. split; [exact R|]. split; [reflexivity|]. split; [reflexivity|].
    destruct st; split; congruence.
Qed.
Print Assumptions C54_finished.

Definition ex_loud : voice := match receive (silent 44100) (mkMsg 16 0 2 60 1 15 8) with Ok c => c | Fault _ => silent 0 end.
Theorem C54_mixing_refuted :
  exists mem cs buffer cs' fs outs, Forall (voice_reachable 65536) cs /\
  callback mem 65536 cs 2 2 = Ok (buffer, cs', fs) /\
  Forall2 (fun c o => exists c' st, render mem 65536 c 2 2 = Ok (o, c', st)) cs outs /\
  buffer = [4160520; 2218944; 4160520; 2218944] /\
  map (mixed outs) (seq 0 4) = [8321040; 4437888; 8321040; 4437888].
Proof.
  assert (R : voice_reachable 65536 ex_loud).
  { apply (ex_reachable 0 0 (mkMsg 16 0 2 60 1 15 8)); [unfold ex_ports; bytes|vm_compute; reflexivity|vm_compute; reflexivity]. }
  exists (fun _ => 255), [ex_loud; ex_loud]. eexists _, _, _, [_; _].
  split; [apply Forall_cons; [exact R|apply Forall_cons; [exact R|apply Forall_nil]]|].
  split; [vm_compute; reflexivity|].
  split; [constructor; [|constructor; [|constructor]]; eexists _, _; vm_compute; reflexivity|].
  split; [reflexivity|vm_compute; reflexivity].
Qed.
Print Assumptions C54_mixing_refuted.
