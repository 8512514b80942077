From Verif Require Import Base VmModel VmSpec VmProofs VmRun SystemModel SystemSpec.
From Coq Require Import ZifyBool.
Ltac Zify.zify_post_hook ::= Z.div_mod_to_equations.

(** Memory sizes for which the 32-bit address arithmetic of the device does not wrap. *)
Definition size_ok (v : vm) : Prop := 65536 <= vm_msize v <= 4294967296 - 65536.

Lemma load2_word m a md : 0 < md -> (forall i, 0 <= i < md -> is_byte (m i)) ->
  load2 m a md = word m md a.
Proof.
  intros Hm H. unfold load2, word. rewrite Z.add_0_r.
  pose proof (H (a mod md) ltac:(apply Z.mod_pos_bound; lia)).
  pose proof (H ((a + 1) mod md) ltac:(apply Z.mod_pos_bound; lia)).
  unfold is_byte in *. rewrite join_eq; auto; lia.
Qed.

Lemma word_mod m md a : 0 < md -> word m md (a mod md) = word m md a.
Proof.
  intros H. unfold word. rewrite Zmod_mod, Zplus_mod_idemp_l. reflexivity.
Qed.

Lemma mem_load2_word v a : well_typed v -> mem_load2 v a = word (vm_mem v) 65536 a.
Proof.
  intros (_ & _ & _ & _ & _ & H & Hs). unfold mem_load2, u16. rewrite load2_word; [apply word_mod; lia|lia|].
  intros; apply H; lia.
Qed.
Lemma dev_load2_word v a : well_typed v -> dev_load2 v a = word (vm_dev v) 256 a.
Proof.
  intros (_ & _ & _ & _ & H & _ & _). unfold dev_load2, u8. rewrite load2_word; [apply word_mod; lia|lia|auto].
Qed.

Lemma word_range m md a : 0 < md -> (forall i, 0 <= i < md -> is_byte (m i)) -> is_short (word m md a).
Proof.
  intros Hm H. unfold word, is_short.
  pose proof (H (a mod md) ltac:(apply Z.mod_pos_bound; lia)).
  pose proof (H ((a + 1) mod md) ltac:(apply Z.mod_pos_bound; lia)). unfold is_byte in *. lia.
Qed.
Lemma cmd_word_range v k : well_typed v -> is_short (cmd_word v k).
Proof. intros (_ & _ & _ & _ & _ & H & Hs). apply word_range; [lia|]. intros; apply H; lia. Qed.
Lemma command_range v : well_typed v -> is_short (command v).
Proof. intros (_ & _ & _ & _ & H & _ & _). apply word_range; [lia|auto]. Qed.

Lemma cmd_word_load v k : well_typed v -> mem_load2 v (dev_load2 v 2 + k) = cmd_word v k.
Proof. intros H. rewrite mem_load2_word, dev_load2_word by auto. reflexivity. Qed.

Lemma clamp_addr_eq v b a : size_ok v -> is_short b -> is_short a ->
  clamp_addr v b a = Z.min (linear b a) (vm_msize v - 1) /\ 0 <= clamp_addr v b a < vm_msize v.
Proof.
  unfold size_ok, is_short, clamp_addr, linear, u32. intros.
  rewrite Z.mod_small by lia. destruct (_ <? _) eqn:E; [lia|]. rewrite Z.mod_small by lia. lia.
Qed.

Lemma clamp_end_eq v s l : size_ok v -> 0 <= s < vm_msize v -> is_short l ->
  clamp_end v s l = Z.min (s + l) (vm_msize v).
Proof.
  unfold size_ok, is_short, clamp_end, u32. intros. rewrite Z.mod_small by lia.
  destruct (_ <=? _) eqn:E; lia.
Qed.

(** Decoding of the command. *)
Lemma expansion_unfold v : well_typed v -> size_ok v ->
  expansion v =
  let op := cmd_byte v 0 in
  if op =? 0 then
    let start := Z.min (linear (cmd_word v 3) (cmd_word v 5)) (vm_msize v - 1) in
    rbind (aget (vm_msize v) (vm_mem v) (command v + 7)) (fun value =>
      mem_fill v start value (Z.min (cmd_word v 1) (vm_msize v - start)))
  else if op =? 1 then copy_up (Z.to_nat (copy_len v)) 0 (copy_dst v) (copy_src v) v
  else if op =? 2 then copy_down (Z.to_nat (copy_len v)) 1 (copy_dst v) (copy_src v) (copy_len v) v
  else Ok v.
Proof.
  intros Hv Hs. unfold expansion.
  pose proof (command_range v Hv) as Hc. unfold is_short in Hc. unfold size_ok in Hs.
  rewrite !cmd_word_load by auto. rewrite dev_load2_word by auto. fold (command v).
  unfold aget at 1. rewrite in_bounds_true by lia. cbn [rbind].
  unfold cmd_byte. rewrite Z.add_0_r.
  set (op := vm_mem v (command v)). cbv zeta.
  pose proof (cmd_word_range v 1 Hv) as W1. pose proof (cmd_word_range v 3 Hv) as W3.
  pose proof (cmd_word_range v 5 Hv) as W5. pose proof (cmd_word_range v 7 Hv) as W7.
  pose proof (cmd_word_range v 9 Hv) as W9.
  destruct (clamp_addr_eq v (cmd_word v 3) (cmd_word v 5) Hs W3 W5) as [A1 A2].
  destruct (clamp_addr_eq v (cmd_word v 7) (cmd_word v 9) Hs W7 W9) as [B1 B2].
  fold (copy_src v) in A1. fold (copy_dst v) in B1.
  rewrite clamp_end_eq by auto.
  rewrite A1, B1 in *. unfold copy_src, copy_dst in *.
  destruct (op =? 0) eqn:E0.
  - destruct (aget _ _ _); cbn [rbind]; auto. f_equal. unfold u32. rewrite Z.mod_small; unfold is_short in *; lia.
  - set (src := Z.min (linear (cmd_word v 3) (cmd_word v 5)) (vm_msize v - 1)) in *.
    set (dst := Z.min (linear (cmd_word v 7) (cmd_word v 9)) (vm_msize v - 1)) in *.
    assert (M : (if src >? dst then src else dst) = Z.max src dst) by (destruct (src >? dst) eqn:E; lia).
    rewrite M. rewrite clamp_end_eq by (auto; lia).
    assert (L : u32 (Z.min (Z.max src dst + cmd_word v 1) (vm_msize v) - Z.max src dst) = copy_len v).
    { unfold copy_len, copy_src, copy_dst. fold src dst. unfold u32. rewrite Z.mod_small; unfold is_short in *; lia. }
    rewrite L. destruct (op =? 1), (op =? 2); reflexivity.
Qed.

Lemma only_memory_refl v : only_memory v v.
Proof. repeat split. Qed.
Lemma only_memory_set v m : only_memory v (vm_set_mem v m).
Proof. repeat split. Qed.

Lemma only_memory_set' v0 v m : only_memory v0 v -> only_memory v0 (vm_set_mem v m).
Proof. intros (A & B & C & D & E & F). exact (conj A (conj B (conj C (conj D (conj E F))))). Qed.

Lemma fill_correct v : well_typed v -> size_ok v -> cmd_byte v 0 = 0 ->
  command v + 7 < vm_msize v ->
  exists v', expansion v = Ok v' /\ fill_spec v v'.
Proof.
  intros Hv Hs H0 H7. rewrite expansion_unfold by auto. cbv zeta. rewrite H0. cbn [Z.eqb].
  pose proof (command_range v Hv) as Hc. unfold is_short in Hc.
  unfold aget. rewrite in_bounds_true by lia. cbn [rbind]. fold (cmd_byte v 7).
  pose proof (cmd_word_range v 1 Hv) as W1. pose proof (cmd_word_range v 3 Hv) as W3.
  pose proof (cmd_word_range v 5 Hv) as W5. unfold is_short in *.
  unfold size_ok in Hs. unfold fill_spec. cbv zeta.
  assert (S : 0 <= linear (cmd_word v 3) (cmd_word v 5)) by (unfold linear; lia).
  set (start := linear (cmd_word v 3) (cmd_word v 5)) in *.
  set (len := cmd_word v 1) in *.
  unfold mem_fill.
  destruct (Z.min len (vm_msize v - Z.min start (vm_msize v - 1)) =? 0) eqn:E.
  - exists v. split; auto. split; [apply only_memory_refl|]. intros i.
    destruct (start <? vm_msize v) eqn:E1.
    + replace (_ && _) with false by lia. auto.
    + replace (_ && _) with false by lia. auto.
  - replace (_ && _) with true by lia. eexists. split; [reflexivity|].
    split; [apply only_memory_set|]. intros i. cbn [vm_set_mem vm_mem]. unfold memset.
    destruct (start <? vm_msize v) eqn:E1.
    + match goal with |- (if ?a then _ else _) = (if ?b then _ else _) => replace a with b by lia end. auto.
    + match goal with |- (if ?a then _ else _) = (if ?b then _ else _) => replace a with b by lia end. auto.
Qed.

Lemma fill_oob v : well_typed v -> size_ok v -> cmd_byte v 0 = 0 ->
  vm_msize v <= command v + 7 -> expansion v = Fault (OobRead (command v + 7)).
Proof.
  intros Hv Hs H0 H7. rewrite expansion_unfold by auto. cbv zeta. rewrite H0. cbn [Z.eqb].
  unfold aget. replace (in_bounds _ _) with false; auto. unfold in_bounds. lia.
Qed.

Lemma move1_ok v d s : 0 <= d < vm_msize v -> 0 <= s < vm_msize v ->
  mem_move1 v d s = Ok (vm_set_mem v (upd (vm_mem v) d (vm_mem v s))).
Proof.
  intros. unfold mem_move1, aget, aset. rewrite !in_bounds_true by auto. reflexivity.
Qed.

(** Invariant of the ascending loop: positions below [i] are done. *)
Lemma copy_up_inv v0 src dst len : forall n i v,
  0 <= src -> 0 <= dst -> vm_msize v0 <= 4294967296 ->
  src + len <= vm_msize v0 -> dst + len <= vm_msize v0 ->
  0 <= i -> i + Z.of_nat n = len ->
  only_memory v0 v ->
  (forall j, vm_mem v j = if (dst <=? j) && (j <? dst + i) then vm_mem v0 (up_source src dst (j - dst)) else vm_mem v0 j) ->
  exists v', copy_up n i dst src v = Ok v' /\ only_memory v0 v' /\
   forall j, vm_mem v' j = if (dst <=? j) && (j <? dst + len) then vm_mem v0 (up_source src dst (j - dst)) else vm_mem v0 j.
Proof.
  induction n as [|n IH]; intros i v H1 H2 H2' H3 H4 H5 H6 HO HI.
  - exists v. split; auto. split; auto. replace len with i by lia. auto.
  - cbn [copy_up]. pose proof HO as (O1 & O2 & O3 & O4 & O5 & O6).
    unfold u32. rewrite !Z.mod_small by lia.
    rewrite move1_ok by lia. cbn [rbind].
    apply IH; auto; try lia.
    intros j. cbn [vm_set_mem vm_mem]. unfold upd. destruct (j =? dst + i) eqn:E.
      * replace (_ && _) with true by lia. rewrite HI.
        replace (j - dst) with i by lia.
        unfold up_source. destruct (src <? dst) eqn:D.
        -- destruct ((dst <=? src + i) && (src + i <? dst + i)) eqn:F.
           ++ f_equal. replace (src + i - dst) with (i - (dst - src)) by lia.
              replace ((i - (dst - src)) mod (dst - src)) with (i mod (dst - src)); auto.
              replace (i - (dst - src)) with (i + (-1) * (dst - src)) by lia.
              rewrite Z_mod_plus_full. auto.
           ++ rewrite Z.mod_small by lia. auto.
        -- replace (_ && _) with false by lia. auto.
      * rewrite HI.
        match goal with |- (if ?a then _ else _) = (if ?b then _ else _) => replace a with b by lia end. auto.
Qed.

Lemma copy_down_inv v0 src dst len : forall n i v,
  0 <= src -> 0 <= dst -> vm_msize v0 <= 4294967296 ->
  src + len <= vm_msize v0 -> dst + len <= vm_msize v0 ->
  1 <= i -> i + Z.of_nat n = len + 1 ->
  only_memory v0 v ->
  (forall j, vm_mem v j = if (dst + len - i + 1 <=? j) && (j <? dst + len) then vm_mem v0 (down_source src dst len (j - dst)) else vm_mem v0 j) ->
  exists v', copy_down n i dst src len v = Ok v' /\ only_memory v0 v' /\
   forall j, vm_mem v' j = if (dst <=? j) && (j <? dst + len) then vm_mem v0 (down_source src dst len (j - dst)) else vm_mem v0 j.
Proof.
  induction n as [|n IH]; intros i v H1 H2 H2' H3 H4 H5 H6 HO HI.
  - exists v. split; auto. split; auto. intros j. rewrite HI.
    replace (dst + len - i + 1) with dst by lia. auto.
  - cbn [copy_down]. pose proof HO as (O1 & O2 & O3 & O4 & O5 & O6).
    unfold u32. rewrite !Z.mod_small by lia.
    rewrite move1_ok by lia. cbn [rbind].
    apply IH; auto; try lia.
    intros j. cbn [vm_set_mem vm_mem]. unfold upd. destruct (j =? dst + len - i) eqn:E.
      * replace (_ && _) with true by lia. rewrite HI.
        replace (j - dst) with (len - i) by lia.
        unfold down_source. destruct (dst <? src) eqn:D.
        -- destruct ((dst + len - i + 1 <=? src + len - i) && (src + len - i <? dst + len)) eqn:F.
           ++ f_equal. f_equal.
              replace (len - 1 - (src + len - i - dst)) with (i - 1 + (-1) * (src - dst)) by lia.
              rewrite Z_mod_plus_full. f_equal. lia.
           ++ replace (len - 1 - (len - i)) with (i - 1) by lia.
              rewrite Z.mod_small by lia. f_equal. lia.
        -- replace (_ && _) with false by lia. f_equal; lia.
      * rewrite HI.
        match goal with |- (if ?a then _ else _) = (if ?b then _ else _) => replace a with b by lia end. auto.
Qed.

Lemma copy_ranges v : well_typed v -> size_ok v ->
  0 <= copy_src v /\ 0 <= copy_dst v /\ 0 <= copy_len v /\
  copy_src v + copy_len v <= vm_msize v /\ copy_dst v + copy_len v <= vm_msize v.
Proof.
  intros Hv Hs.
  pose proof (cmd_word_range v 1 Hv). pose proof (cmd_word_range v 3 Hv).
  pose proof (cmd_word_range v 5 Hv). pose proof (cmd_word_range v 7 Hv).
  pose proof (cmd_word_range v 9 Hv).
  unfold copy_len, copy_src, copy_dst, linear, size_ok, is_short in *. lia.
Qed.

Lemma copy_up_correct v : well_typed v -> size_ok v -> cmd_byte v 0 = 1 ->
  exists v', expansion v = Ok v' /\ copy_spec v v' (up_source (copy_src v) (copy_dst v)).
Proof.
  intros Hv Hs H0. rewrite expansion_unfold by auto. cbv zeta. rewrite H0. cbn [Z.eqb Pos.eqb].
  pose proof (copy_ranges v Hv Hs). unfold size_ok in Hs.
  destruct (copy_up_inv v (copy_src v) (copy_dst v) (copy_len v) (Z.to_nat (copy_len v)) 0 v)
    as (v' & E & O & M); try lia.
  - apply only_memory_refl.
  - intros j. replace (_ && _) with false by lia. auto.
  - exists v'. split; auto. split; auto.
Qed.

Lemma copy_down_correct v : well_typed v -> size_ok v -> cmd_byte v 0 = 2 ->
  exists v', expansion v = Ok v' /\ copy_spec v v' (down_source (copy_src v) (copy_dst v) (copy_len v)).
Proof.
  intros Hv Hs H0. rewrite expansion_unfold by auto. cbv zeta. rewrite H0. cbn [Z.eqb Pos.eqb].
  pose proof (copy_ranges v Hv Hs). unfold size_ok in Hs.
  destruct (copy_down_inv v (copy_src v) (copy_dst v) (copy_len v) (Z.to_nat (copy_len v)) 1 v)
    as (v' & E & O & M); try lia.
  - apply only_memory_refl.
  - intros j. replace (_ && _) with false by lia. auto.
  - exists v'. split; auto. split; auto.
Qed.

Lemma expansion_other v : well_typed v -> size_ok v -> 2 < cmd_byte v 0 -> expansion v = Ok v.
Proof.
  intros Hv Hs H. rewrite expansion_unfold by auto. cbv zeta.
  replace (_ =? 0) with false by lia. replace (_ =? 1) with false by lia.
  replace (_ =? 2) with false by lia. auto.
Qed.

(** No fault but the one of the fill value; the result is well typed. *)
Lemma up_source_range src dst len i : 0 <= i < len -> 0 <= src -> 
  src <= up_source src dst i < src + len.
Proof.
  intros. unfold up_source. destruct (src <? dst) eqn:E; [|lia].
  pose proof (Z.mod_le i (dst - src) ltac:(lia) ltac:(lia)).
  pose proof (Z.mod_pos_bound i (dst - src) ltac:(lia)). lia.
Qed.
Lemma down_source_range src dst len i : 0 <= i < len -> 0 <= src -> 
  src <= down_source src dst len i < src + len.
Proof.
  intros. unfold down_source. destruct (dst <? src) eqn:E; [|lia].
  pose proof (Z.mod_le (len - 1 - i) (src - dst) ltac:(lia) ltac:(lia)).
  pose proof (Z.mod_pos_bound (len - 1 - i) (src - dst) ltac:(lia)). lia.
Qed.

Lemma copy_spec_wt v v' f : well_typed v -> size_ok v ->
  (forall i, 0 <= i < copy_len v -> copy_src v <= f i < copy_src v + copy_len v) ->
  copy_spec v v' f -> well_typed v'.
Proof.
  intros Hv Hs Hf [(O1 & O2 & O3 & O4 & O5 & O6) M].
  pose proof (copy_ranges v Hv Hs). destruct Hv as (V1 & V2 & V3 & V4 & V5 & V6 & V7).
  unfold well_typed. rewrite O1, O2, O3, O4, O5, O6. repeat (split; [assumption|]).
  split; auto. intros i Hi. rewrite M. destruct (_ && _) eqn:E; auto.
  apply V6. specialize (Hf (i - copy_dst v) ltac:(lia)). lia.
Qed.

Lemma expansion_cases v : well_typed v -> size_ok v ->
  match expansion v with
  | Ok v' => well_typed v' /\ only_memory v v'
  | Fault f => cmd_byte v 0 = 0 /\ vm_msize v <= command v + 7 /\ f = OobRead (command v + 7)
  end.
Proof.
  intros Hv Hs.
  assert (Hb : is_byte (cmd_byte v 0)).
  { pose proof (command_range v Hv). unfold cmd_byte. rewrite Z.add_0_r.
    destruct Hv as (V1 & V2 & V3 & V4 & V5 & V6 & V7).
    apply V6. unfold is_short in *. lia. }
  unfold is_byte in Hb.
  assert (cmd_byte v 0 = 0 \/ cmd_byte v 0 = 1 \/ cmd_byte v 0 = 2 \/ 2 < cmd_byte v 0) as [H|[H|[H|H]]] by lia.
  - destruct (Z_lt_dec (command v + 7) (vm_msize v)) as [L|L].
    + destruct (fill_correct v Hv Hs H L) as (v' & E & (O & M)). rewrite E.
      split; [|exact O]. destruct O as (O1 & O2 & O3 & O4 & O5 & O6).
      assert (Hb7 : is_byte (cmd_byte v 7)).
      { pose proof (command_range v Hv). unfold is_short in *. destruct Hv as (V1 & V2 & V3 & V4 & V5 & V6 & V7). apply V6. lia. }
      destruct Hv as (V1 & V2 & V3 & V4 & V5 & V6 & V7).
      unfold well_typed. rewrite O1, O2, O3, O4, O5, O6. repeat (split; [assumption|]).
      split; auto. intros i Hi. rewrite M. destruct (_ <? _); destruct (_ && _); auto.
    + rewrite fill_oob by (auto; lia). split; auto. split; auto. lia.
  - destruct (copy_up_correct v Hv Hs H) as (v' & E & C). rewrite E.
    split; [|apply C]. eapply copy_spec_wt; eauto. intros. apply up_source_range; auto.
    pose proof (copy_ranges v Hv Hs). lia.
  - destruct (copy_down_correct v Hv Hs H) as (v' & E & C). rewrite E.
    split; [|apply C]. eapply copy_spec_wt; eauto. intros. apply down_source_range; auto.
    pose proof (copy_ranges v Hv Hs). lia.
  - rewrite expansion_other by auto. split; auto. apply only_memory_refl.
Qed.

(** Exit code. *)
Lemma exit_code_spec v : is_byte (vm_dev v 15) ->
  exit_code v = if vm_dev v 15 =? 0 then -1 else vm_dev v 15 mod 128.
Proof.
  intros H. unfold exit_code. destruct (_ =? 0); auto.
  change 127 with (Z.ones 7). rewrite Z.land_ones by lia. reflexivity.
Qed.

(** Palette. *)
Definition nibbles : list Z := map Z.of_nat (seq 0 16).
Lemma make_rgba_table : forallb (fun r => forallb (fun g => forallb (fun b =>
  make_rgba r g b =? 4278190080 + 65536 * (17 * b) + 256 * (17 * g) + 17 * r) nibbles) nibbles) nibbles = true.
Proof. vm_compute. reflexivity. Qed.
Lemma in_nibbles x : 0 <= x < 16 -> In x nibbles.
Proof.
  intros H. apply in_map_iff. exists (Z.to_nat x). split; [lia|apply in_seq; lia].
Qed.
Lemma make_rgba_eq r g b : 0 <= r < 16 -> 0 <= g < 16 -> 0 <= b < 16 ->
  make_rgba r g b = 4278190080 + 65536 * (17 * b) + 256 * (17 * g) + 17 * r.
Proof.
  intros Hr Hg Hb. pose proof make_rgba_table as T.
  rewrite forallb_forall in T. specialize (T r (in_nibbles r Hr)).
  rewrite forallb_forall in T. specialize (T g (in_nibbles g Hg)).
  rewrite forallb_forall in T. specialize (T b (in_nibbles b Hb)). lia.
Qed.

Lemma nibble_eq x i : 0 <= i < 4 -> Z.land (Z.shiftr x (12 - 4 * i)) 15 = nibble x i.
Proof.
  intros H. change 15 with (Z.ones 4). rewrite Z.land_ones by lia. rewrite Z.shiftr_div_pow2 by lia.
  unfold nibble. f_equal. f_equal. change 16 with (2 ^ 4). rewrite <- Z.pow_mul_r by lia. f_equal. lia.
Qed.

Lemma palette_eq v i : well_typed v -> 0 <= i < 4 ->
  channel (palette v i) 0 = 17 * nibble (word (vm_dev v) 256 8) i /\
  channel (palette v i) 1 = 17 * nibble (word (vm_dev v) 256 10) i /\
  channel (palette v i) 2 = 17 * nibble (word (vm_dev v) 256 12) i /\
  channel (palette v i) 3 = 255 /\ 0 <= palette v i < 2 ^ 32.
Proof.
  intros Hv Hi. unfold palette. cbv zeta. rewrite !nibble_eq by auto.
  rewrite !dev_load2_word by auto.
  assert (N : forall x, 0 <= nibble x i < 16) by (intros; unfold nibble; apply Z.mod_pos_bound; lia).
  rewrite make_rgba_eq by auto.
  pose proof (N (word (vm_dev v) 256 8)). pose proof (N (word (vm_dev v) 256 10)).
  pose proof (N (word (vm_dev v) 256 12)).
  set (r := nibble (word (vm_dev v) 256 8) i) in *. set (g := nibble (word (vm_dev v) 256 10) i) in *.
  set (b := nibble (word (vm_dev v) 256 12) i) in *. clearbody r g b.
  unfold channel. change (256 ^ 0) with 1. change (256 ^ 1) with 256. change (256 ^ 2) with 65536.
  change (256 ^ 3) with 16777216. change (2 ^ 32) with 4294967296. repeat split; lia.
Qed.
