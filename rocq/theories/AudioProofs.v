From Verif Require Import Base VmModel VmSpec VmProofs VmRun SystemSpec SystemProofs AudioModel AudioSpec.
From Coq Require Import ZifyBool.
Ltac Zify.zify_post_hook ::= Z.div_mod_to_equations.

Lemma u32_small z : 0 <= z < 4294967296 -> u32 z = z.
Proof. intros. apply Z.mod_small. auto. Qed.
Lemma s32_small z : 0 <= z < 2147483648 -> s32 z = z.
Proof. intros. unfold s32. rewrite Z.mod_small by lia. destruct (_ <? _) eqn:E; lia. Qed.

(** Phase ends in order and not too far apart. *)
Definition env_ok (c : voice) : Prop :=
  0 <= a_a c <= MAX_RATE /\ a_a c <= a_d c <= a_a c + MAX_RATE /\ a_d c <= a_s c <= a_d c + MAX_RATE /\
  a_s c <= a_r c <= a_s c + MAX_RATE.

Ltac Zify.zify_post_hook ::= idtac.

Lemma mul_div_le k x y : 0 <= k -> 0 <= x <= y -> 0 < y -> 0 <= k * x / y <= k.
Proof.
  intros. split; [apply Z.div_pos; nia|]. apply Z.div_le_upper_bound; nia.
Qed.

Lemma level_range A D S R t : 0 <= A -> 0 <= D -> 0 <= S -> 0 <= R -> 0 <= t -> 0 <= level A D S R t <= 2184.
Proof.
  intros. unfold level. destruct (_ =? 0) eqn:E0; [lia|].
  destruct (t <? A) eqn:E1; [pose proof (mul_div_le 2184 t A ltac:(lia) ltac:(lia) ltac:(lia)); lia|].
  destruct (t <? A + D) eqn:E2; [pose proof (mul_div_le 1092 (A + D - t) D ltac:(lia) ltac:(lia) ltac:(lia)); lia|].
  destruct (t <? A + D + S) eqn:E3; [lia|].
  destruct (t <? A + D + S + R) eqn:E4; [pose proof (mul_div_le 1092 (A + D + S + R - t) R ltac:(lia) ltac:(lia) ltac:(lia)); lia|lia].
Qed.

Lemma envelope_spec c age : env_ok c -> 0 <= age < 4294967296 ->
  envelope c age = Ok (level_of c age,
    if negb (a_r c =? 0) && (a_r c <=? age) then set_advance c 0 else c).
Proof.
  intros (H1 & H2 & H3 & H4) Ha. unfold MAX_RATE in *. unfold envelope, level_of, level.
  replace (a_a c + (a_d c - a_a c)) with (a_d c) by lia.
  replace (a_d c + (a_s c - a_d c)) with (a_s c) by lia.
  replace (a_s c + (a_r c - a_s c)) with (a_r c) by lia.
  destruct (a_r c =? 0) eqn:E0; cbn [negb andb]; [reflexivity|].
  destruct (age <? a_a c) eqn:E1.
  { replace (a_r c <=? age) with false by lia. unfold udiv. replace (a_a c =? 0) with false by lia. cbn [rbind].
    pose proof (mul_div_le 2184 age (a_a c) ltac:(lia) ltac:(lia) ltac:(lia)). rewrite u32_small by lia. rewrite s32_small by lia. auto. }
  destruct (age <? a_d c) eqn:E2.
  { replace (a_r c <=? age) with false by lia. unfold udiv.
    rewrite (u32_small (a_d c - a_a c)) by lia. replace (a_d c - a_a c =? 0) with false by lia. cbn [rbind].
    rewrite (u32_small (2 * a_d c)) by lia. rewrite (u32_small (2 * a_d c - a_a c)) by lia.
    rewrite (u32_small (2 * a_d c - a_a c - age)) by lia. rewrite (u32_small (1092 * _)) by lia.
    assert (E : 1092 * (2 * a_d c - a_a c - age) / (a_d c - a_a c) = 1092 + 1092 * (a_d c - age) / (a_d c - a_a c)).
    { replace (1092 * (2 * a_d c - a_a c - age)) with (1092 * (a_d c - a_a c) + 1092 * (a_d c - age)) by ring.
      rewrite Z.div_add_l by lia. auto. }
    rewrite E. pose proof (mul_div_le 1092 (a_d c - age) (a_d c - a_a c) ltac:(lia) ltac:(lia) ltac:(lia)). rewrite s32_small by lia. auto. }
  destruct (age <? a_s c) eqn:E3; [replace (a_r c <=? age) with false by lia; auto|].
  destruct (age <? a_r c) eqn:E4.
  { replace (a_r c <=? age) with false by lia. unfold udiv.
    rewrite (u32_small (a_r c - a_s c)) by lia. replace (a_r c - a_s c =? 0) with false by lia. cbn [rbind].
    rewrite (u32_small (a_r c - age)) by lia. rewrite (u32_small (1092 * _)) by lia.
    pose proof (mul_div_le 1092 (a_r c - age) (a_r c - a_s c) ltac:(lia) ltac:(lia) ltac:(lia)). rewrite s32_small by lia. auto. }
  replace (a_r c <=? age) with true by lia. auto.
Qed.

Ltac Zify.zify_post_hook ::= Z.div_mod_to_equations.

Lemma level_of_range c age : env_ok c -> 0 <= age -> 0 <= level_of c age <= 2184.
Proof. intros (H1 & H2 & H3 & H4) Ha. apply level_range; lia. Qed.

(** Invariant of reachable voices. *)
Definition voice_ok (msize : Z) (c : voice) : Prop :=
  env_ok c /\ 0 <= a_freq c <= MAX_RATE /\ 0 <= a_addr c /\ 0 <= a_len c < 65536 /\ a_addr c + a_len c <= msize /\
  0 <= a_count c < 4294967296 /\ 0 <= a_advance c < 4294967296 /\ 0 <= a_period c < 4294967296 /\
  0 <= a_age c < 4294967296 /\ 0 <= a_i c < 65536 /\ 0 <= a_vol0 c <= 15 /\ 0 <= a_vol1 c <= 15 /\
  (a_advance c <> 0 -> 0 < a_len c) /\ (a_advance c <> 0 -> a_r c <> 0 -> a_age c <= a_r c).

Lemma silent_ok msize freq : 0 <= msize -> 0 <= freq <= MAX_RATE -> voice_ok msize (silent freq).
Proof. intros. unfold voice_ok, env_ok, MAX_RATE in *; cbn. lia. Qed.

Definition msg_ok (msize : Z) (m : message) : Prop :=
  0 <= m_addr m /\ 0 <= m_len m < 65536 /\ m_addr m + m_len m <= msize /\ 0 <= m_adsr m < 65536 /\
  0 <= m_pitch m < 128 /\ 0 <= m_vol0 m <= 15 /\ 0 <= m_vol1 m <= 15.

Lemma byte_table (P : Z -> bool) : forallb P (map Z.of_nat (seq 0 256)) = true -> forall b, is_byte b -> P b = true.
Proof.
  intros H b Hb. unfold is_byte in Hb. rewrite forallb_forall in H. apply H. apply in_map_iff. exists (Z.to_nat b).
  split; [lia|apply in_seq; lia].
Qed.
Lemma shr4_byte b : is_byte b -> 0 <= Z.shiftr b 4 <= 15 /\ 0 <= Z.land b 15 <= 15 /\ 0 <= Z.land b 127 < 128.
Proof.
  intros Hb. pose proof (byte_table (fun b => (0 <=? Z.shiftr b 4) && (Z.shiftr b 4 <=? 15) && (0 <=? Z.land b 15) && (Z.land b 15 <=? 15) && (0 <=? Z.land b 127) && (Z.land b 127 <? 128)) ltac:(vm_compute; reflexivity) b Hb) as X.
  lia.
Qed.

Lemma audio_deo_ok v base m : well_typed v -> 0 <= base <= 240 -> audio_deo v base 15 = Some m ->
  msg_ok (vm_msize v) m /\ msg_ok 65536 m.
Proof.
  intros Hv Hb E. pose proof Hv as (_ & _ & _ & _ & Hd & _ & Hs).
  assert (W : forall i, 0 <= i < 16 -> is_byte (vm_dev v (base + i))) by (intros; apply Hd; lia).
  unfold audio_deo in E. cbn [Z.eqb Pos.eqb] in E. injection E as <-.
  assert (L : forall a, 0 <= load2 (fun i => vm_dev v (base + i)) a 16 < 65536).
  { intros a. rewrite load2_word by (auto; lia). apply word_range; auto; lia. }
  pose proof (L 12) as L12. pose proof (L 8) as L8. pose proof (L 10) as L10.
  destruct (shr4_byte _ (W 14 ltac:(lia))) as (V0 & V1 & _). destruct (shr4_byte _ (W 15 ltac:(lia))) as (_ & _ & P).
  unfold msg_ok. cbn [m_addr m_len m_adsr m_pitch m_vol0 m_vol1].
  set (addr := load2 _ 12 16) in *. set (len := load2 _ 10 16) in *. unfold u16.
  destruct (len >? 65536 - addr) eqn:E; lia.
Qed.

Lemma land15_range x : 0 <= Z.land x 15 <= 15.
Proof. change 15 with (Z.ones 4) at 1 2. rewrite Z.land_ones by lia. lia. Qed.

Lemma advances_range n k : 0 <= n < 12 -> 0 <= k -> 0 <= Z.shiftr (ADVANCES n) k < 4294967296.
Proof.
  intros Hn Hk. assert (R : 0 <= ADVANCES n < 4294967296).
  { assert (n = 0 \/ n = 1 \/ n = 2 \/ n = 3 \/ n = 4 \/ n = 5 \/ n = 6 \/ n = 7 \/ n = 8 \/ n = 9 \/ n = 10 \/ n = 11) as X by lia.
    repeat (destruct X as [-> | X]; [vm_compute; split; congruence|]). subst; vm_compute; split; congruence. }
  rewrite Z.shiftr_div_pow2 by lia. split; [apply Z.div_pos; lia|].
  apply Z.div_lt_upper_bound; [lia|]. assert (1 <= 2 ^ k) by (pose proof (Z.pow_pos_nonneg 2 k); lia). nia.
Qed.

Lemma receive_spec msize c m : voice_ok msize c -> msg_ok msize m ->
  exists c', receive c m = Ok c' /\ voice_ok msize c' /\ a_freq c' = a_freq c /\
  (m_pitch m < 108 /\ m_len m <> 0 ->
    let step := a_freq c / 15 in
    a_a c' = step * Z.shiftr (m_adsr m) 12 /\
    a_d c' - a_a c' = step * Z.land (Z.shiftr (m_adsr m) 8) 15 /\
    a_s c' - a_d c' = step * Z.land (Z.shiftr (m_adsr m) 4) 15 /\
    a_r c' - a_s c' = step * Z.land (m_adsr m) 15 /\ a_age c' = 0 /\ a_i c' = 0) /\
  (~ (m_pitch m < 108 /\ m_len m <> 0) -> a_advance c' = 0).
Proof.
  intros (H1 & H2 & H3 & H4 & H5 & H6 & H7 & H8 & H9 & H10 & H11 & H12 & H13 & H14) (M1 & M2 & M3 & M4 & M5 & M6 & M7).
  unfold receive. set (np := u32 (_ / 11025)). set (step := a_freq c / 15).
  assert (Hs : 0 <= step <= MAX_RATE / 15) by (unfold step; split; [apply Z.div_pos; lia|apply Z.div_le_mono; lia]).
  change (MAX_RATE / 15) with 131071 in Hs.
  assert (Hnp : 0 <= np < 4294967296) by (unfold np, u32; apply Z.mod_pos_bound; lia).
  destruct ((m_pitch m <? 108) && negb (m_len m =? 0)) eqn:E.
  - assert (A : 0 <= Z.shiftr (m_adsr m) 12 <= 15).
    { rewrite Z.shiftr_div_pow2 by lia. change (2 ^ 12) with 4096. lia. }
    rewrite Z.shiftr_0_r.
    pose proof (land15_range (Z.shiftr (m_adsr m) 8)) as B. pose proof (land15_range (Z.shiftr (m_adsr m) 4)) as C.
    pose proof (land15_range (m_adsr m)) as D.
    set (na := Z.shiftr (m_adsr m) 12) in *. set (nb := Z.land (Z.shiftr (m_adsr m) 8) 15) in *.
    set (nc := Z.land (Z.shiftr (m_adsr m) 4) 15) in *. set (nd := Z.land (m_adsr m) 15) in *.
    assert (S1 : 0 <= step * na <= MAX_RATE) by (unfold MAX_RATE; nia).
    assert (S2 : 0 <= step * nb <= MAX_RATE) by (unfold MAX_RATE; nia).
    assert (S3 : 0 <= step * nc <= MAX_RATE) by (unfold MAX_RATE; nia).
    assert (S4 : 0 <= step * nd <= MAX_RATE) by (unfold MAX_RATE; nia).
    unfold MAX_RATE in S1, S2, S3, S4.
    rewrite (u32_small (step * na)), (u32_small (step * nb)), (u32_small (step * nc)), (u32_small (step * nd)) by lia.
    rewrite (u32_small (step * nb + _)) by lia. rewrite (u32_small (step * nc + _)) by lia. rewrite (u32_small (step * nd + _)) by lia.
    assert (P : exists period, (if m_len m <=? 256 then udiv (u32 (np * 337) / 2) (m_len m) else Ok np) = Ok period /\ 0 <= period < 4294967296).
    { destruct (m_len m <=? 256); [|eauto]. unfold udiv. replace (m_len m =? 0) with false by lia.
      eexists. split; [reflexivity|]. assert (0 <= u32 (np * 337) < 4294967296) by (unfold u32; apply Z.mod_pos_bound; lia).
      split; [apply Z.div_pos; lia|]. apply Z.div_lt_upper_bound; nia. }
    destruct P as (period & EP & HP). rewrite EP. cbn [rbind].
    pose proof (advances_range (m_pitch m mod 12) (8 - m_pitch m / 12) ltac:(lia) ltac:(lia)) as HA.
    set (adv := Z.shiftr _ (8 - _)) in *.
    eexists. split; [reflexivity|]. unfold voice_ok, env_ok. cbn [a_freq a_addr a_count a_advance a_period a_age a_a a_d a_s a_r a_i a_len a_vol0 a_vol1].
    unfold MAX_RATE. split; [lia|]. split; [reflexivity|]. split; [intros _; cbv zeta; repeat split; lia|intros X; exfalso; apply X; lia].
  - cbn [rbind]. eexists. split; [reflexivity|]. unfold voice_ok. cbn [a_freq a_addr a_count a_advance a_period a_age a_a a_d a_s a_r a_i a_len a_vol0 a_vol1].
    split; [split; [exact H1|lia]|]. split; [reflexivity|]. split; [intros X; exfalso; lia|auto].
Qed.

(** ** One frame *)
Definition frame (mem : arr) (msize : Z) (channels : Z) (c : voice) : res (option (list Z) * voice) :=
  let count := u32 (a_count c + a_advance c) in
  rbind (udiv count (a_period c)) (fun q =>
  rbind (umod count (a_period c)) (fun count' =>
  let i := u16 (a_i c + q) in
  let c1 := set_play c count' i in
  let play c2 :=
    rbind (aget msize mem (a_addr c2 + a_i c2)) (fun b =>
    rbind (envelope (set_age c2 (u32 (a_age c2 + 1))) (a_age c2)) (fun '(e, c3) =>
    rbind (int32 (s8 (b + 128) * e)) (fun s =>
    rbind (mix c3 s channels) (fun cells => Ok (Some cells, c3))))) in
  if i >=? a_len c then
    if a_repeat c =? 0 then Ok (None, set_advance c1 0)
    else rbind (umod i (a_len c)) (fun i' => play (set_play c1 count' i'))
  else play c1)).

Lemma rbind_assoc {A B C} (r : res A) (f : A -> res B) (g : B -> res C) :
  rbind (rbind r f) g = rbind r (fun a => rbind (f a) g).
Proof. destruct r; reflexivity. Qed.
Lemma rbind_ext {A B} (r : res A) (f g : A -> res B) : (forall a, f a = g a) -> rbind r f = rbind r g.
Proof. intros H. destruct r; cbn; auto. Qed.

Lemma render_loop_frame mem msize n channels c :
  render_loop mem msize (S n) channels c =
  rbind (frame mem msize channels c) (fun '(o, c') =>
    match o with
    | None => Ok ([], c')
    | Some cells => rbind (render_loop mem msize n channels c') (fun '(rest, c4) => Ok (cells ++ rest, c4))
    end).
Proof.
  cbn [render_loop]. unfold frame. rewrite rbind_assoc. apply rbind_ext. intros q.
  rewrite rbind_assoc. apply rbind_ext. intros count'. cbv zeta.
  assert (P : forall c2,
    rbind (aget msize mem (a_addr c2 + a_i c2)) (fun b =>
        rbind (envelope (set_age c2 (u32 (a_age c2 + 1))) (a_age c2)) (fun '(e, c3) =>
        rbind (int32 (s8 (b + 128) * e)) (fun s =>
        rbind (mix c3 s channels) (fun cells =>
        rbind (render_loop mem msize n channels c3) (fun '(rest, c4) =>
        Ok (cells ++ rest, c4)))))) =
    rbind (rbind (aget msize mem (a_addr c2 + a_i c2)) (fun b =>
    rbind (envelope (set_age c2 (u32 (a_age c2 + 1))) (a_age c2)) (fun '(e, c3) =>
    rbind (int32 (s8 (b + 128) * e)) (fun s =>
    rbind (mix c3 s channels) (fun cells => Ok (Some cells, c3))))))
    (fun '(o, c') =>
    match o with
    | None => Ok ([], c')
    | Some cells => rbind (render_loop mem msize n channels c') (fun '(rest, c4) => Ok (cells ++ rest, c4))
    end)).
  { intros c2. rewrite rbind_assoc. apply rbind_ext. intros b. rewrite rbind_assoc. apply rbind_ext. intros [e c3].
    rewrite rbind_assoc. apply rbind_ext. intros s. rewrite rbind_assoc. apply rbind_ext. intros cells. reflexivity. }
  destruct (_ >=? _); [|apply P]. destruct (_ =? 0); [reflexivity|].
  rewrite rbind_assoc. apply rbind_ext. intros i'. apply P.
Qed.

(** Inside the loop: as [voice_ok], with a period and a length; a voice that
    stopped is past its release. *)
Definition loop_ok (msize : Z) (c : voice) : Prop :=
  voice_ok msize c /\ 0 < a_period c /\ 0 < a_len c /\
  (a_advance c = 0 -> a_r c <> 0 /\ a_r c <= a_age c).

Lemma s8_range x : -128 <= s8 x <= 127.
Proof. unfold s8. destruct (_ <? _) eqn:E; lia. Qed.

Lemma int32_ok x : -2147483648 <= x <= 2147483647 -> int32 x = Ok x.
Proof. intros. unfold int32, in_int, INT_MIN, INT_MAX. replace (_ && _) with true by lia. auto. Qed.

Definition cells_of (c : voice) (s channels : Z) : list Z :=
  if channels <? 2 then [s * a_vol0 c + s * a_vol1 c]
  else map (fun k => if Nat.even k then s * a_vol0 c else s * a_vol1 c) (seq 0 (Z.to_nat channels)).

Lemma mix_spec c s channels : 0 <= a_vol0 c <= 15 -> 0 <= a_vol1 c <= 15 -> -300000 <= s <= 300000 ->
  mix c s channels = Ok (cells_of c s channels).
Proof.
  intros. unfold mix. rewrite !int32_ok by nia. cbn [rbind]. reflexivity.
Qed.
Lemma cells_length c s channels : 1 <= channels -> Z.of_nat (length (cells_of c s channels)) = channels.
Proof.
  intros. unfold cells_of. destruct (channels <? 2) eqn:E; [cbn; lia|]. rewrite map_length, seq_length. lia.
Qed.
Lemma cells_zero c channels : Forall (fun x => x = 0) (cells_of c 0 channels).
Proof.
  unfold cells_of. destruct (_ <? _); [repeat constructor|]. apply Forall_forall. intros x Hx.
  apply in_map_iff in Hx as (k & <- & _). destruct (Nat.even k); reflexivity.
Qed.

Lemma frame_spec mem msize channels c : loop_ok msize c -> 1 <= channels ->
  exists o c', frame mem msize channels c = Ok (o, c') /\ voice_ok msize c' /\
  a_period c' = a_period c /\ a_len c' = a_len c /\ a_addr c' = a_addr c /\ a_r c' = a_r c /\ a_repeat c' = a_repeat c /\
  (a_age c < 4294967295 -> match o with Some _ => a_age c' = a_age c + 1 | None => a_age c' = a_age c end) /\
  match o with
  | None => a_advance c' = 0 /\ a_repeat c = 0
  | Some cells =>
      (a_r c = 0 \/ a_age c < 4294967295 -> loop_ok msize c') /\
      exists i, 0 <= i < a_len c /\ a_i c' = i /\
        cells = cells_of c' (s8 (mem (a_addr c + i) + 128) * level_of c (a_age c)) channels /\
        a_vol0 c' = a_vol0 c /\ a_vol1 c' = a_vol1 c
  end /\
  (a_advance c = 0 -> a_advance c' = 0).
Proof.
  intros ((H1 & H2 & H3 & H4 & H5 & H6 & H7 & H8 & H9 & H10 & H11 & H12 & H13 & H14) & L1 & L2 & L3) Hch.
  unfold frame. set (count := u32 (a_count c + a_advance c)).
  assert (Hc : 0 <= count < 4294967296) by (unfold count, u32; apply Z.mod_pos_bound; lia).
  unfold udiv, umod. replace (a_period c =? 0) with false by lia. cbn [rbind].
  pose proof (Z.mod_pos_bound count (a_period c) ltac:(lia)) as Hm. set (count' := count mod a_period c) in *.
  set (i := u16 _). assert (Hi : 0 <= i < 65536) by (unfold i, u16; apply Z.mod_pos_bound; lia).
  assert (PLAY : forall i', 0 <= i' < a_len c ->
    exists o c', (let c2 := set_play c count' i' in
      rbind (aget msize mem (a_addr c2 + a_i c2)) (fun b =>
      rbind (envelope (set_age c2 (u32 (a_age c2 + 1))) (a_age c2)) (fun '(e, c3) =>
      rbind (int32 (s8 (b + 128) * e)) (fun s =>
      rbind (mix c3 s channels) (fun cells => Ok (Some cells, c3)))))) = Ok (o, c') /\ voice_ok msize c' /\
    a_period c' = a_period c /\ a_len c' = a_len c /\ a_addr c' = a_addr c /\ a_r c' = a_r c /\ a_repeat c' = a_repeat c /\
    (a_age c < 4294967295 -> match o with Some _ => a_age c' = a_age c + 1 | None => a_age c' = a_age c end) /\
    match o with
    | None => a_advance c' = 0 /\ a_repeat c = 0
    | Some cells =>
        (a_r c = 0 \/ a_age c < 4294967295 -> loop_ok msize c') /\
        exists i, 0 <= i < a_len c /\ a_i c' = i /\
          cells = cells_of c' (s8 (mem (a_addr c + i) + 128) * level_of c (a_age c)) channels /\
          a_vol0 c' = a_vol0 c /\ a_vol1 c' = a_vol1 c
    end /\
    (a_advance c = 0 -> a_advance c' = 0)).
  { intros i' Hi'. cbv zeta. set (c2 := set_play c count' i').
    change (a_addr c2) with (a_addr c). change (a_i c2) with i'. change (a_age c2) with (a_age c).
    unfold aget. rewrite in_bounds_true by lia. cbn [rbind].
    set (c3 := set_age c2 (u32 (a_age c + 1))).
    assert (H1' : env_ok c3) by exact H1.
    rewrite (envelope_spec c3 (a_age c) H1') by lia. cbn [rbind].
    change (level_of c3 (a_age c)) with (level_of c (a_age c)). change (a_r c3) with (a_r c).
    pose proof (level_of_range c (a_age c) H1 ltac:(lia)) as HL. pose proof (s8_range (mem (a_addr c + i') + 128)) as HS.
    set (lev := level_of c (a_age c)) in *. set (b := s8 _) in *.
    assert (HP : -300000 <= b * lev <= 300000) by nia. rewrite int32_ok by lia. cbn [rbind].
    set (fin := negb (a_r c =? 0) && (a_r c <=? a_age c)).
    set (c4 := if fin then set_advance c3 0 else c3).
    assert (F : a_vol0 c4 = a_vol0 c /\ a_vol1 c4 = a_vol1 c /\ a_period c4 = a_period c /\ a_len c4 = a_len c /\
      a_addr c4 = a_addr c /\ a_r c4 = a_r c /\ a_age c4 = u32 (a_age c + 1) /\ a_i c4 = i' /\ a_count c4 = count' /\
      a_advance c4 = (if fin then 0 else a_advance c) /\ env_ok c4 /\ a_freq c4 = a_freq c /\ a_repeat c4 = a_repeat c) by (unfold c4; destruct fin; auto 15).
    destruct F as (F1 & F2 & F3 & F4 & F5 & F6 & F7 & F8 & F9 & F10 & F11 & F12 & F13).
    rewrite mix_spec by lia. cbn [rbind]. eexists _, c4. split; [reflexivity|].
    assert (Hu : 0 <= u32 (a_age c + 1) < 4294967296) by (unfold u32; apply Z.mod_pos_bound; lia).
    assert (V : voice_ok msize c4).
    { unfold voice_ok. rewrite F1, F2, F3, F4, F5, F6, F7, F8, F9, F10, F12.
      assert (0 <= (if fin then 0 else a_advance c) < 4294967296) by (destruct fin; lia).
      split; [exact F11|]. clearbody count' i count. repeat (split; [lia|]). unfold fin in *.
      intros X Y. destruct (negb (a_r c =? 0) && (a_r c <=? a_age c)) eqn:Z0; [lia|].
        destruct H1 as (Q1 & Q2 & Q3 & Q4). unfold MAX_RATE in *. rewrite u32_small by lia. lia. }
    split; [exact V|]. split; [auto|]. split; [auto|]. split; [auto|]. split; [auto|]. split; [auto|].
    split; [intros; rewrite F7, u32_small by lia; auto|].
    split; [|intros X; rewrite F10, X; destruct fin; auto].
    split.
    { intros Hage. split; [exact V|]. rewrite F3, F4, F6, F7, F10. split; [auto|]. split; [auto|].
      unfold fin. intros X. destruct Hage as [Hage|Hage]; [exfalso; replace (a_r c =? 0) with true in X by lia; specialize (L3 X); lia|].
      rewrite u32_small by lia. destruct (negb (a_r c =? 0) && (a_r c <=? a_age c)) eqn:Z0; [lia|]. specialize (L3 X). lia. }
    exists i'. auto. }
  destruct (i >=? a_len c) eqn:E1.
  - destruct (a_repeat c =? 0) eqn:E2.
    + eexists None, _. split; [reflexivity|]. unfold voice_ok, set_advance, set_play.
      cbn [a_freq a_addr a_count a_advance a_period a_age a_a a_d a_s a_r a_i a_len a_vol0 a_vol1 a_repeat].
      split; [split; [exact H1|]; lia|]. repeat (split; [auto; lia|]). auto.
    + replace (a_len c =? 0) with false by lia. cbn [rbind].
      apply PLAY. apply Z.mod_pos_bound. lia.
  - apply PLAY. lia.
Qed.

Lemma env_ok_r c : env_ok c -> 0 <= a_r c <= 4 * MAX_RATE.
Proof. intros (A & B & C & D). lia. Qed.


Definition no_wrap (c : voice) (n : nat) : Prop := a_r c = 0 \/ a_age c + Z.of_nat n < 4294967296.

Lemma cells_range c s channels : 0 <= a_vol0 c <= 15 -> 0 <= a_vol1 c <= 15 -> -279552 <= s <= 279552 ->
  Forall (fun x => -8386560 <= x <= 8386560) (cells_of c s channels).
Proof.
  intros. unfold cells_of. destruct (_ <? _).
  - apply Forall_cons; [nia|apply Forall_nil].
  - apply Forall_forall. intros x Hx. apply in_map_iff in Hx as (k & <- & _). destruct (Nat.even k); nia.
Qed.

Lemma mul_mod_step x k ch : 1 <= ch -> k mod ch = 0 -> x = ch -> (x + k) mod ch = 0.
Proof. intros H H0 ->. rewrite <- (Z.mul_1_l ch) at 1. rewrite Z.add_comm, Z.mod_add by lia. auto. Qed.

(** Frames rendered in a row: all of them, or fewer after the end of a sample
    that does not repeat. *)
Lemma render_loop_spec mem msize channels : 1 <= channels -> forall n c, loop_ok msize c -> no_wrap c n ->
  exists out c', render_loop mem msize n channels c = Ok (out, c') /\ voice_ok msize c' /\
  Forall (fun x => -8386560 <= x <= 8386560) out /\
  Z.of_nat (length out) mod channels = 0 /\
  (a_advance c = 0 -> Forall (fun x => x = 0) out /\ a_advance c' = 0) /\
  (Z.of_nat (length out) = Z.of_nat n * channels \/
   (Z.of_nat (length out) < Z.of_nat n * channels /\ a_advance c' = 0 /\ a_repeat c = 0)).
Proof.
  intros Hch. induction n as [|n IH]; intros c HL HW.
  - exists [], c. destruct HL as (V & _). split; [reflexivity|]. split; [exact V|]. split; [apply Forall_nil|].
    split; [reflexivity|]. split; [intros; split; [apply Forall_nil|auto]|]. left. reflexivity.
  - rewrite render_loop_frame. destruct (frame_spec mem msize channels c HL Hch) as (o & c1 & -> & V & P & L & A & R & RP & G & O & Z0).
    cbn [rbind]. destruct o as [cells|].
    + destruct O as (O1 & i & Hi & _ & -> & E0 & E1).
      assert (W0 : a_r c = 0 \/ a_age c < 4294967295) by (destruct HW as [|]; [auto|right; lia]).
      destruct (IH c1 (O1 W0)) as (out & c2 & -> & V2 & F2 & M2 & Z2 & N2).
      { destruct HW as [W|W]; [left; congruence|]. right. rewrite G by lia. lia. }
      cbn [rbind]. set (s := s8 _ * _). pose proof (cells_length c1 s channels Hch) as CL.
      destruct HL as (VC & HP & HLen & HS).
      assert (HE : env_ok c) by apply VC.
      assert (Hage : 0 <= a_age c < 4294967296) by (destruct VC as (_ & _ & _ & _ & _ & _ & _ & _ & X & _); exact X).
      pose proof (level_of_range c (a_age c) HE ltac:(lia)) as HLv.
      eexists _, c2. split; [reflexivity|]. split; [exact V2|].
      split. { apply Forall_app. split; [|exact F2]. 
        destruct VC as (_ & _ & _ & _ & _ & _ & _ & _ & _ & _ & Y0 & Y1 & _).
        apply cells_range; [lia..|].
        unfold s. pose proof (s8_range (mem (a_addr c + i) + 128)). nia. }
      rewrite app_length, Nat2Z.inj_add.
      split; [apply mul_mod_step; auto|].
      split.
      { intros X. destruct (Z2 (Z0 X)) as (Z3 & Z4). split; [|exact Z4]. apply Forall_app. split; [|exact Z3].
        assert (LZ : level_of c (a_age c) = 0).
        { destruct (HS X) as (S1 & S2). destruct HE as (Q1 & Q2 & Q3 & Q4). unfold level_of, level.
          replace (a_a c + (a_d c - a_a c)) with (a_d c) by lia.
          replace (a_d c + (a_s c - a_d c)) with (a_s c) by lia.
          replace (a_s c + (a_r c - a_s c)) with (a_r c) by lia.
          replace (a_r c =? 0) with false by lia. replace (a_age c <? a_a c) with false by lia.
          replace (a_age c <? a_d c) with false by lia. replace (a_age c <? a_s c) with false by lia.
          replace (a_age c <? a_r c) with false by lia. auto. }
        unfold s. rewrite LZ, Z.mul_0_r. apply cells_zero. }
      destruct N2 as [N2|(N2 & N3 & N4)]; [left; rewrite N2, CL; lia|].
      right. rewrite CL. split; [lia|]. split; [exact N3|].
      congruence.
    + destruct O as (O1 & O2). exists [], c1. split; [reflexivity|]. split; [exact V|]. split; [apply Forall_nil|].
      split; [reflexivity|]. split; [intros; split; [apply Forall_nil|auto]|]. right. cbn [length]. split; [lia|auto].
Qed.

Lemma render_loop_app mem msize channels m : 1 <= channels -> forall n c o1 c1, loop_ok msize c -> no_wrap c (n + m) ->
  render_loop mem msize n channels c = Ok (o1, c1) ->
  (Z.of_nat (length o1) < Z.of_nat n * channels /\ a_advance c1 = 0 /\
   render_loop mem msize (n + m) channels c = Ok (o1, c1)) \/
  (Z.of_nat (length o1) = Z.of_nat n * channels /\ loop_ok msize c1 /\ no_wrap c1 m /\
   render_loop mem msize (n + m) channels c =
     rbind (render_loop mem msize m channels c1) (fun '(o2, c2) => Ok (o1 ++ o2, c2))).
Proof.
  intros Hch. induction n as [|n IH]; intros c o1 c1 HL HW E.
  - cbn in E. injection E as <- <-. right. split; [reflexivity|]. split; [exact HL|]. split; [exact HW|].
    cbn [Nat.add app]. destruct (render_loop _ _ _ _ _) as [[o2 c2]|]; reflexivity.
  - cbn [Nat.add]. rewrite render_loop_frame in *.
    destruct (frame_spec mem msize channels c HL Hch) as (o & cf & EF & V & P & L & A & R & RP & G & O & Z0).
    rewrite EF in E |- *. cbn [rbind] in *. destruct o as [cells|].
    + destruct O as (O1 & i & Hi & _ & -> & E0 & E1).
      destruct (render_loop mem msize n channels cf) as [[o1' c1']|] eqn:EN; [|discriminate]. cbn [rbind] in E.
      injection E as <- <-. pose proof (cells_length cf (s8 (mem (a_addr c + i) + 128) * level_of c (a_age c)) channels Hch) as CL.
      assert (W0 : a_r c = 0 \/ a_age c < 4294967295) by (destruct HW as [|]; [auto|right; lia]).
      destruct (IH cf o1' c1' (O1 W0)) as [(X1 & X2 & X3)|(X1 & X2 & X3 & X4)]; auto.
      { destruct HW as [W|W]; [left; congruence|]. right. rewrite G by lia. lia. }
      * left. rewrite app_length, Nat2Z.inj_add, CL. split; [lia|]. split; [auto|]. rewrite X3. reflexivity.
      * right. rewrite app_length, Nat2Z.inj_add, CL. split; [lia|]. split; [auto|]. split; [auto|]. rewrite X4.
        destruct (render_loop mem msize m channels c1') as [[o2 c2]|]; cbn [rbind]; [|reflexivity]. rewrite app_assoc. reflexivity.
    + injection E as <- <-. left. cbn [length]. split; [lia|]. split; [apply O|reflexivity].
Qed.

(** Only sample bytes matter. *)
Lemma frame_agree mem mem' msize channels c : loop_ok msize c ->
  (forall k, a_addr c <= k < a_addr c + a_len c -> mem k = mem' k) ->
  frame mem msize channels c = frame mem' msize channels c.
Proof.
  intros HL HA. destruct HL as ((_ & _ & H3 & H4 & H5 & H6) & L1 & L2 & L3). unfold frame. apply rbind_ext. intros q. apply rbind_ext. intros count'. cbv zeta.
  assert (P : forall j, 0 <= j < a_len c -> forall K : Z -> res (option (list Z) * voice),
    rbind (aget msize mem (a_addr c + j)) K = rbind (aget msize mem' (a_addr c + j)) K).
  { intros j Hj K. unfold aget. rewrite HA by lia. reflexivity. }
  set (i := u16 _). assert (Hi : 0 <= i < 65536) by (unfold i, u16; apply Z.mod_pos_bound; lia).
  destruct (i >=? a_len c) eqn:E.
  - destruct (_ =? 0); [reflexivity|]. unfold umod. replace (a_len c =? 0) with false by lia. cbn [rbind].
    apply (P (i mod a_len c)). apply Z.mod_pos_bound. lia.
  - apply (P i). lia.
Qed.

Lemma render_loop_agree mem mem' msize channels : 1 <= channels -> forall n c, loop_ok msize c -> no_wrap c n ->
  (forall k, a_addr c <= k < a_addr c + a_len c -> mem k = mem' k) ->
  render_loop mem msize n channels c = render_loop mem' msize n channels c.
Proof.
  intros Hch. induction n as [|n IH]; intros c HL HW HA; [reflexivity|].
  rewrite !render_loop_frame, (frame_agree mem mem') by auto.
  destruct (frame_spec mem' msize channels c HL Hch) as (o & cf & -> & V & P & L & A & R & RP & G & O & Z0).
  cbn [rbind]. destruct o as [cells|]; [|reflexivity].
  destruct O as (O1 & _). assert (W0 : a_r c = 0 \/ a_age c < 4294967295) by (destruct HW as [|]; [auto|right; lia]).
  rewrite (IH cf (O1 W0)); [reflexivity| |rewrite A, L; exact HA].
  destruct HW as [W|W]; [left; congruence|]. right. rewrite G by lia. lia.
Qed.

(** ** The meter *)
Lemma vu_channel_spec c vol : env_ok c -> 0 <= a_age c < 4294967296 -> 0 <= vol <= 15 ->
  exists c', vu_channel c vol = Ok (meter (level_of c (a_age c)) vol, c') /\ (c' = c \/ c' = set_advance c 0).
Proof.
  intros HE HA HV. unfold vu_channel, meter. destruct (vol =? 0); [eauto|].
  rewrite envelope_spec by auto. cbn [rbind]. pose proof (level_of_range c (a_age c) HE ltac:(lia)) as HL.
  set (lev := level_of _ _) in *. rewrite int32_ok by nia. cbn [rbind].
  assert (HQ : Z.quot (lev * vol) 2048 = lev * vol / 2048) by (apply Z.quot_div_nonneg; nia). rewrite HQ.
  assert (0 <= lev * vol / 2048 < 16) by (split; [apply Z.div_pos; nia|apply Z.div_lt_upper_bound; nia]).
  rewrite int32_ok by lia. cbn [rbind]. eexists. split; [f_equal; f_equal|destruct (_ && _); auto].
  destruct (_ >? 15) eqn:E; lia.
Qed.

Lemma meter_range lev vol : 0 <= lev -> 0 <= vol -> 0 <= meter lev vol <= 15 /\ (meter lev vol = 0 <-> vol = 0).
Proof.
  intros. unfold meter. assert (0 <= lev * vol / 2048) by (apply Z.div_pos; nia). destruct (vol =? 0) eqn:E; lia.
Qed.

Lemma nibbles x y : 0 <= x <= 15 -> 0 <= y <= 15 -> u8 (Z.lor (Z.shiftl x 4) y) = 16 * x + y.
Proof.
  intros. rewrite Z.shiftl_mul_pow2 by lia. change (2 ^ 4) with 16.
  assert (E : Z.lor (x * 16) y = x * 16 + y).
  { rewrite Z.add_nocarry_lxor.
    - rewrite <- Z.lxor_lor; auto. apply Z.bits_inj'. intros n Hn. rewrite Z.land_spec, Z.bits_0.
      change 16 with (2 ^ 4). destruct (Z.ltb_spec n 4); [rewrite Z.mul_pow2_bits_low by auto; auto|].
      rewrite andb_comm. replace y with (y mod 2 ^ 4) by (rewrite Z.mod_small; lia). rewrite Z.mod_pow2_bits_high by lia. auto.
    - apply Z.bits_inj'. intros n Hn. rewrite Z.land_spec, Z.bits_0.
      change 16 with (2 ^ 4). destruct (Z.ltb_spec n 4); [rewrite Z.mul_pow2_bits_low by auto; auto|].
      rewrite andb_comm. replace y with (y mod 2 ^ 4) by (rewrite Z.mod_small; lia). rewrite Z.mod_pow2_bits_high by lia. auto. }
  rewrite E. unfold u8. rewrite Z.mod_small; lia.
Qed.

Lemma set_advance_ok msize c : voice_ok msize c -> voice_ok msize (set_advance c 0).
Proof.
  intros (H1 & H). split; [exact H1|]. unfold set_advance. cbn [a_freq a_addr a_count a_advance a_period a_age a_a a_d a_s a_r a_i a_len a_vol0 a_vol1 a_repeat]. lia.
Qed.

Lemma get_vu_spec msize c : voice_ok msize c ->
  exists c', get_vu c = Ok (if (a_advance c =? 0) || (a_period c =? 0) then 0
    else 16 * meter (level_of c (a_age c)) (a_vol0 c) + meter (level_of c (a_age c)) (a_vol1 c), c') /\
    voice_ok msize c' /\ (c' = c \/ c' = set_advance c 0).
Proof.
  intros V. pose proof V as (H1 & H2 & H3 & H4 & H5 & H6 & H7 & H8 & H9 & H10 & H11 & H12 & H13 & H14).
  unfold get_vu. destruct (_ || _); [exists c; auto|].
  destruct (vu_channel_spec c (a_vol0 c) H1 H9 H11) as (c1 & -> & C1). cbn [rbind].
  assert (X : env_ok c1 /\ a_age c1 = a_age c /\ a_vol1 c1 = a_vol1 c /\ level_of c1 = level_of c) by (destruct C1 as [-> | ->]; auto).
  destruct X as (X1 & X2 & X3 & X4). rewrite X3.
  destruct (vu_channel_spec c1 (a_vol1 c)) as (c2 & -> & C2); [auto|congruence|auto|]. cbn [rbind].
  rewrite X2, X4. pose proof (level_of_range c (a_age c) H1 ltac:(lia)) as HL.
  assert (Y : c2 = c \/ c2 = set_advance c 0) by (destruct C1 as [-> | ->], C2 as [-> | ->]; auto).
  exists c2. split; [|split; [destruct Y as [-> | ->]; auto using set_advance_ok|exact Y]].
  rewrite nibbles; auto; apply meter_range; lia.
Qed.

Lemma enter_loop msize c n channels : voice_ok msize c -> (a_advance c =? 0) || (a_period c =? 0) = false ->
  1 <= channels -> Z.of_nat n * channels <= INT_MAX -> loop_ok msize c /\ no_wrap c n.
Proof.
  intros V E Hc HN. pose proof V as (H1 & H2 & H3 & H4 & H5 & H6 & H7 & H8 & H9 & H10 & H11 & H12 & H13 & H14).
  split; [split; [exact V|lia]|]. unfold no_wrap. destruct (Z.eq_dec (a_r c) 0) as [|N]; [auto|right].
  pose proof (env_ok_r c H1) as HR. unfold MAX_RATE, INT_MAX in *. assert (Z.of_nat n <= 2147483647) by nia. lia.
Qed.

Lemma render_spec mem msize c n channels : voice_ok msize c -> 1 <= channels -> Z.of_nat n * channels <= INT_MAX ->
  exists out c' st, render mem msize c n channels = Ok (out, c', st) /\ voice_ok msize c' /\
  Forall (fun x => -8386560 <= x <= 8386560) out /\ Z.of_nat (length out) mod channels = 0 /\
  match st with
  | Stopped => out = [] /\ c' = c /\ (a_advance c = 0 \/ a_period c = 0)
  | Playing => Z.of_nat (length out) = Z.of_nat n * channels /\ a_advance c' <> 0
  | Finished => a_advance c' = 0 /\ (Z.of_nat (length out) = Z.of_nat n * channels \/
      (Z.of_nat (length out) < Z.of_nat n * channels /\ a_repeat c = 0))
  end.
Proof.
  intros V Hc HN. unfold render. destruct ((a_advance c =? 0) || (a_period c =? 0)) eqn:E.
  - exists [], c, Stopped. split; [reflexivity|]. split; [exact V|]. split; [apply Forall_nil|]. split; [reflexivity|]. split; [auto|]. split; [auto|]. lia.
  - destruct (enter_loop msize c n channels V E Hc HN) as (HL & HW).
    destruct (render_loop_spec mem msize channels Hc n c HL HW) as (out & c' & -> & V' & F & M & _ & N). cbn [rbind].
    exists out, c', (if a_advance c' =? 0 then Finished else Playing). split; [reflexivity|]. split; [auto|]. split; [auto|]. split; [auto|].
    destruct (a_advance c' =? 0) eqn:E'; [split; [lia|]; tauto|]. split; [|lia]. destruct N as [N|(_ & N & _)]; [auto|lia].
Qed.

Lemma reachable_ok msize c : 65536 <= msize -> voice_reachable msize c -> voice_ok msize c.
Proof.
  intros HM. induction 1 as [freq Hf|c v base m c' _ IH Hv Hm Hb E1 E2|c mem n channels out c' st _ IH Hc HN E|c x c' _ IH E].
  - apply silent_ok; lia.
  - destruct (audio_deo_ok v base m Hv Hb E1) as (M & _). rewrite Hm in M.
    destruct (receive_spec msize c m IH M) as (c2 & E3 & V & _). congruence.
  - destruct (render_spec mem msize c n channels IH Hc HN) as (o & c2 & s2 & E2 & V & _). congruence.
  - destruct (get_vu_spec msize c IH) as (c2 & E2 & V & _). congruence.
Qed.

Lemma padded_zeros n o z : Forall (fun x => x = 0) z -> Z.of_nat (length o + length z) <= n -> padded n (o ++ z) = padded n o.
Proof.
  intros HZ HN. unfold padded. rewrite <- app_assoc. f_equal. rewrite app_length.
  assert (E : z = repeat 0 (length z)).
  { clear HN. induction HZ as [|x l -> _ IH]; [reflexivity|]. cbn. f_equal. exact IH. }
  rewrite E at 1. rewrite <- repeat_app. f_equal. lia.
Qed.
Lemma padded_split n m o1 o2 : Z.of_nat (length o1) = n -> 0 <= m -> padded (n + m) (o1 ++ o2) = padded n o1 ++ padded m o2.
Proof.
  intros E H. unfold padded. rewrite app_length. replace (Z.to_nat n - length o1)%nat with O by lia. cbn [repeat].
  rewrite app_nil_r, <- app_assoc. do 2 f_equal. f_equal. lia.
Qed.
Lemma padded_short n m o : Z.of_nat (length o) <= n -> 0 <= m -> padded (n + m) o = padded n o ++ padded m [].
Proof.
  intros. unfold padded. cbn [length app]. rewrite <- app_assoc. f_equal. rewrite <- repeat_app. f_equal. lia.
Qed.

Lemma render_chunks mem msize c n m channels : voice_ok msize c -> 1 <= channels -> Z.of_nat (n + m) * channels <= INT_MAX ->
  exists o c' st o1 c1 st1 o2 c2 st2,
    render mem msize c (n + m) channels = Ok (o, c', st) /\
    render mem msize c n channels = Ok (o1, c1, st1) /\ render mem msize c1 m channels = Ok (o2, c2, st2) /\
    padded (Z.of_nat (n + m) * channels) o = padded (Z.of_nat n * channels) o1 ++ padded (Z.of_nat m * channels) o2 /\
    (a_advance c' <> 0 -> c' = c2) /\ (a_advance c' = 0 <-> a_advance c2 = 0).
Proof.
  intros V Hc HN. unfold render at 1 2. destruct ((a_advance c =? 0) || (a_period c =? 0)) eqn:E.
  - exists [], c, Stopped, [], c, Stopped. unfold render. rewrite E. exists [], c, Stopped.
    repeat (split; [reflexivity|]). split; [|tauto]. rewrite Nat2Z.inj_add, Z.mul_add_distr_r. apply padded_short; cbn [length]; nia.
  - destruct (enter_loop msize c (n + m) channels V E Hc HN) as (HL & HW).
    destruct (render_loop_spec mem msize channels Hc (n + m) c HL HW) as (out & c' & EO & V' & F & M & _ & N).
    assert (HW1 : no_wrap c n) by (destruct HW as [|]; [left; auto|right; lia]).
    destruct (render_loop_spec mem msize channels Hc n c HL HW1) as (o1 & c1 & EO1 & V1 & F1 & M1 & _ & N1).
    rewrite EO, EO1. cbn [rbind].
    destruct (render_loop_app mem msize channels m Hc n c o1 c1 HL HW EO1) as [(X1 & X2 & X3)|(X1 & X2 & X3 & X4)].
    + rewrite EO in X3. injection X3 as -> ->. exists o1, c1, (if a_advance c1 =? 0 then Finished else Playing), o1, c1, (if a_advance c1 =? 0 then Finished else Playing).
      unfold render. rewrite X2. cbn [Z.eqb orb]. exists [], c1, Stopped. repeat (split; [reflexivity|]).
      split; [|tauto]. rewrite Nat2Z.inj_add, Z.mul_add_distr_r. apply padded_short; nia.
    + destruct (render_loop_spec mem msize channels Hc m c1 X2 X3) as (o2 & c2 & EO2 & V2 & F2 & M2 & Z2 & N2).
      rewrite EO2 in X4. cbn [rbind] in X4. rewrite EO in X4. injection X4 as -> ->.
      unfold render. destruct ((a_advance c1 =? 0) || (a_period c1 =? 0)) eqn:E1.
      * assert (A1 : a_advance c1 = 0) by (destruct X2 as (_ & P & _); lia). destruct (Z2 A1) as (Z3 & Z4).
        eexists _, _, _, _, _, _, [], c1, Stopped. split; [reflexivity|]. split; [reflexivity|]. rewrite E1. split; [reflexivity|].
        split; [|split; [intros X; exfalso; apply X; auto|tauto]]. rewrite padded_zeros; auto.
        { rewrite Nat2Z.inj_add, Z.mul_add_distr_r. apply padded_short; nia. }
        rewrite !Nat2Z.inj_add. nia.
      * eexists _, _, _, _, _, _, _, _, _. split; [reflexivity|]. split; [reflexivity|]. rewrite E1, EO2. split; [reflexivity|].
        split; [|tauto]. rewrite Nat2Z.inj_add, Z.mul_add_distr_r. apply padded_split; nia.
Qed.
