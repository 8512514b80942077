(** Proofs about symbol files. *)
From Verif Require Import Base SymtabModel SymtabSpec.
From Coq Require Import Znumtheory Zpow_facts Permutation ZifyBool.

(** ** Probing *)
Definition step_of (h e : Z) : Z := u32 (Z.lor (Z.shiftr h (64 - e)) 1).
Definition at_step (h e idx k : Z) : Z := (idx + k * step_of h e) mod 2 ^ e.

Lemma pow_pos e : 0 <= e -> 0 < 2 ^ e.
Proof. intros; apply Z.pow_pos_nonneg; lia. Qed.

Lemma mod_pow_32 x e : 0 <= e <= 32 -> (x mod 4294967296) mod 2 ^ e = x mod 2 ^ e.
Proof.
  intros He. change 4294967296 with (2 ^ 32).
  assert (E : 2 ^ 32 = 2 ^ e * 2 ^ (32 - e)) by (rewrite <- Z.pow_add_r by lia; f_equal; lia).
  pose proof (pow_pos e). pose proof (pow_pos (32 - e)).
  rewrite E, Z.rem_mul_r by lia.
  rewrite Z.mul_comm, Z.add_mod, Z.mod_mul, Z.add_0_r, !Z.mod_mod by lia. reflexivity.
Qed.

Lemma msi_eq h e idx : 1 <= e <= 31 -> msi h e idx = (idx + step_of h e) mod 2 ^ e.
Proof.
  intros He. unfold msi. fold (step_of h e).
  rewrite Z.shiftl_1_l. unfold u32 at 3.
  rewrite Z.mod_small.
  2:{ split; [apply Z.pow_nonneg; lia|]. change 4294967296 with (2 ^ 32). apply Z.pow_lt_mono_r; lia. }
  replace (2 ^ e - 1) with (Z.ones e) by (rewrite Z.ones_equiv; lia).
  rewrite Z.land_ones by lia. unfold u32.
  rewrite mod_pow_32 by lia.
  pose proof (pow_pos e).
  rewrite <- (Z.add_mod_idemp_l _ _ (2 ^ e)), mod_pow_32, Z.add_mod_idemp_l by lia. reflexivity.
Qed.

Lemma step_odd h e : Z.odd (step_of h e) = true.
Proof.
  unfold step_of, u32. rewrite <- Z.bit0_odd. change 4294967296 with (2 ^ 32).
  rewrite Z.mod_pow2_bits_low by lia. rewrite Z.lor_spec. cbn. apply orb_true_r.
Qed.

Lemma at_step_S h e idx k : 1 <= e <= 31 -> msi h e (at_step h e idx k) = at_step h e idx (k + 1).
Proof.
  intros He. rewrite msi_eq by lia. unfold at_step.
  pose proof (pow_pos e). rewrite Z.add_mod_idemp_l by lia. f_equal; ring.
Qed.

Lemma at_step_1 h e idx : 1 <= e <= 31 -> msi h e idx = at_step h e idx 1.
Proof. intros He. rewrite msi_eq by lia. unfold at_step. f_equal; ring. Qed.

Lemma at_step_range h e idx k : 1 <= e <= 31 -> 0 <= at_step h e idx k < 2 ^ e.
Proof. intros He. apply Z.mod_pos_bound, pow_pos; lia. Qed.

(** The step is odd, so one round visits every slot. *)
Lemma full_round h e idx t : 1 <= e <= 31 -> 0 <= t < 2 ^ e ->
  exists k, 1 <= k <= 2 ^ e /\ at_step h e idx k = t.
Proof.
  intros He Ht. pose proof (pow_pos e ltac:(lia)) as Hp.
  assert (R : rel_prime (step_of h e) (2 ^ e)).
  { apply rel_prime_Zpower_r; [lia|]. apply rel_prime_sym, prime_rel_prime; [apply prime_2|].
    intros [q Hq]. pose proof (step_odd h e) as O. rewrite Hq, Z.odd_mul in O.
    cbn in O. rewrite andb_false_r in O. discriminate. }
  destruct (rel_prime_bezout _ _ R) as [u v E].
  set (k := ((t - idx) * u) mod 2 ^ e).
  assert (Hk : 0 <= k < 2 ^ e) by (apply Z.mod_pos_bound; lia).
  assert (A : forall m, (idx + (k + m * 2 ^ e) * step_of h e) mod 2 ^ e = t).
  { intros m. replace (idx + (k + m * 2 ^ e) * step_of h e)
      with (idx + k * step_of h e + (m * step_of h e) * 2 ^ e) by ring.
    rewrite Z.mod_add by lia. rewrite <- Z.add_mod_idemp_r by lia.
    rewrite <- Z.mul_mod_idemp_l by lia. unfold k. rewrite Z.mod_mod by lia.
    rewrite Z.mul_mod_idemp_l by lia. rewrite Z.add_mod_idemp_r by lia.
    replace (idx + (t - idx) * u * step_of h e) with (t + (- ((t - idx) * v)) * 2 ^ e).
    - rewrite Z.mod_add, Z.mod_small by lia. reflexivity.
    - replace ((t - idx) * u * step_of h e) with ((t - idx) * (1 - v * 2 ^ e)) by (rewrite <- E; ring). ring. }
  destruct (Z.eq_dec k 0) as [Hk0 | Hk0].
  - exists (2 ^ e). split; [lia|]. specialize (A 1). rewrite Hk0 in A. unfold at_step. etransitivity; [|exact A]. f_equal; ring.
  - exists k. split; [lia|]. specialize (A 0). unfold at_step. etransitivity; [|exact A]. f_equal; ring.
Qed.

Lemma probe_gen h e idx stop : 1 <= e <= 31 -> forall n k, 0 <= k ->
  match probe n h e (if k =? 0 then idx else at_step h e idx k) stop with
  | Some i => exists j, k < j <= k + Z.of_nat n /\ i = at_step h e idx j /\ stop i = true /\
                        forall m, k < m < j -> stop (at_step h e idx m) = false
  | None => forall m, k < m <= k + Z.of_nat n -> stop (at_step h e idx m) = false
  end.
Proof.
  intros He. induction n as [|n IH]; intros k Hk.
  - cbn. intros; lia.
  - cbn [probe].
    assert (E : msi h e (if k =? 0 then idx else at_step h e idx k) = at_step h e idx (k + 1)).
    { destruct (Z.eqb_spec k 0) as [-> |]; [apply at_step_1 | apply at_step_S]; lia. }
    rewrite E. destruct (stop (at_step h e idx (k + 1))) eqn:St.
    + exists (k + 1). repeat split; try lia; auto.
    + specialize (IH (k + 1) ltac:(lia)).
      replace (k + 1 =? 0) with false in IH by lia.
      destruct (probe n h e (at_step h e idx (k + 1)) stop).
      * destruct IH as (j & Hj & -> & Sj & Bj). exists j. repeat split; auto; try lia.
        intros m Hm. destruct (Z.eq_dec m (k + 1)) as [-> |]; auto. apply Bj; lia.
      * intros m Hm. destruct (Z.eq_dec m (k + 1)) as [-> |]; auto. apply IH; lia.
Qed.

Lemma probe_some n h e idx stop i : 1 <= e <= 31 -> probe n h e idx stop = Some i ->
  exists j, 1 <= j <= Z.of_nat n /\ i = at_step h e idx j /\ stop i = true /\
            forall m, 1 <= m < j -> stop (at_step h e idx m) = false.
Proof.
  intros He E. pose proof (probe_gen h e idx stop He n 0 ltac:(lia)) as H. cbn [Z.eqb] in H.
  rewrite E in H. destruct H as (j & Hj & A & B & D). exists j. repeat split; auto; try lia.
  intros; apply D; lia.
Qed.

Lemma probe_none n h e idx stop : 1 <= e <= 31 -> probe n h e idx stop = None ->
  forall m, 1 <= m <= Z.of_nat n -> stop (at_step h e idx m) = false.
Proof.
  intros He E. pose proof (probe_gen h e idx stop He n 0 ltac:(lia)) as H. cbn [Z.eqb] in H.
  rewrite E in H. intros; apply H; lia.
Qed.

Lemma slots_Z e : 0 <= e -> Z.of_nat (slots e) = 2 ^ e.
Proof. intros. unfold slots. rewrite Z2Nat.id; auto. apply Z.pow_nonneg; lia. Qed.

Lemma probe_all h e idx stop : 1 <= e <= 31 -> probe (slots e) h e idx stop = None ->
  forall t, 0 <= t < 2 ^ e -> stop t = false.
Proof.
  intros He E t Ht. destruct (full_round h e idx t He Ht) as (k & Hk & <-).
  apply (probe_none _ _ _ _ _ He E). rewrite slots_Z by lia. lia.
Qed.

(** Nothing found in one round: nothing is ever found, the loop does not end. *)
Theorem probe_stuck h e idx stop : 1 <= e <= 31 -> probe (slots e) h e idx stop = None ->
  forall n, probe n h e idx stop = None.
Proof.
  intros He E n. destruct (probe n h e idx stop) eqn:P; auto.
  apply probe_some in P as (j & Hj & -> & S & _); auto.
  rewrite (probe_all _ _ _ _ He E) in S by (apply at_step_range; lia). discriminate.
Qed.

Lemma probe_finds h e idx stop k : 1 <= e <= 31 -> 1 <= k <= 2 ^ e ->
  stop (at_step h e idx k) = true -> (forall m, 1 <= m < k -> stop (at_step h e idx m) = false) ->
  probe (slots e) h e idx stop = Some (at_step h e idx k).
Proof.
  intros He Hk S B. destruct (probe (slots e) h e idx stop) eqn:P.
  - apply probe_some in P as (j & Hj & -> & Sj & Bj); auto. f_equal.
    destruct (Z.lt_trichotomy j k) as [L | [-> | L]]; auto.
    + rewrite B in Sj by lia. discriminate.
    + rewrite Bj in S by lia. discriminate.
  - rewrite (probe_none _ _ _ _ _ He P) in S; [discriminate|]. rewrite slots_Z by lia. lia.
Qed.

(** ** The slots in use *)
Lemma used_from_app a b i p : used_from (a + b) i p = used_from a i p ++ used_from b (i + Z.of_nat a) p.
Proof.
  revert i. induction a as [|a IH]; intros i.
  - cbn. f_equal; lia.
  - cbn [used_from plus]. rewrite IH, <- app_assoc. do 3 f_equal. lia.
Qed.

Lemma in_used_from k i p f : In f (used_from k i p) <->
  exists t, i <= t < i + Z.of_nat k /\ p_strings p t = f /\ f <> 0.
Proof.
  revert i. induction k as [|k IH]; intros i.
  - cbn. split; [tauto|]. intros (t & Ht & _). lia.
  - cbn [used_from]. rewrite in_app_iff, IH. split.
    + intros [H | (t & Ht & E)].
      * destruct (Z.eqb_spec (p_strings p i) 0) as [|N]; [destruct H|].
        destruct H as [<- | []]. exists i. repeat split; auto; lia.
      * exists t. split; auto; lia.
    + intros (t & Ht & E & N). destruct (Z.eq_dec t i) as [-> |].
      * left. rewrite E. destruct (Z.eqb_spec f 0); [lia|]. now left.
      * right. exists t. repeat split; auto; lia.
Qed.

Lemma nodup_used_from k i p :
  (forall s t, i <= s < i + Z.of_nat k -> i <= t < i + Z.of_nat k ->
     p_strings p s = p_strings p t -> p_strings p s <> 0 -> s = t) ->
  NoDup (used_from k i p).
Proof.
  revert i. induction k as [|k IH]; intros i H.
  - constructor.
  - cbn [used_from].
    assert (N : NoDup (used_from k (i + 1) p)) by (apply IH; intros; apply H; auto; lia).
    destruct (Z.eqb_spec (p_strings p i) 0) as [|Z0]; cbn [app]; auto.
    constructor; auto. rewrite in_used_from. intros (t & Ht & E & _).
    assert (t = i) by (apply H; try lia; congruence). lia.
Qed.

Lemma used_full k i p : (forall t, i <= t < i + Z.of_nat k -> p_strings p t <> 0) ->
  length (used_from k i p) = k.
Proof.
  revert i. induction k as [|k IH]; intros i H; cbn [used_from length]; auto.
  rewrite app_length, IH by (intros; apply H; lia).
  destruct (Z.eqb_spec (p_strings p i) 0) as [E|]; cbn; auto. exfalso. apply (H i); auto; lia.
Qed.

Lemma nth_rank p i : 0 <= p_exp p -> 0 <= i < 2 ^ p_exp p -> p_strings p i <> 0 ->
  nth_error (used p) (Z.to_nat (rank p i)) = Some (p_strings p i).
Proof.
  intros He Hi N. unfold used, rank. rewrite Nat2Z.id.
  pose proof (slots_Z (p_exp p) He).
  replace (slots (p_exp p)) with (Z.to_nat i + (slots (p_exp p) - Z.to_nat i))%nat by lia.
  rewrite used_from_app, nth_error_app2, Nat.sub_diag by lia.
  replace (slots (p_exp p) - Z.to_nat i)%nat with (S (slots (p_exp p) - Z.to_nat i - 1)) by lia.
  cbn [used_from]. replace (0 + Z.of_nat (Z.to_nat i)) with i by lia.
  destruct (Z.eqb_spec (p_strings p i) 0); [lia|]. reflexivity.
Qed.

(** ** The table *)
Definition probe_at (e f k : Z) : Z := at_step (hash_of f) e (s32 (hash_of f)) k.

Record table (p : pool) (fs : list Z) : Prop := mkTable {
  t_exp : 1 <= p_exp p <= 30;
  t_in : forall i, 0 <= i < 2 ^ p_exp p -> p_strings p i <> 0 -> In (p_strings p i) fs;
  t_inj : forall i j, 0 <= i < 2 ^ p_exp p -> 0 <= j < 2 ^ p_exp p ->
    p_strings p i = p_strings p j -> p_strings p i <> 0 -> i = j;
  t_find : forall f, In f fs -> f <> 0 /\ exists k, 1 <= k <= 2 ^ p_exp p /\
    p_strings p (probe_at (p_exp p) f k) = f /\
    forall m, 1 <= m < k -> p_strings p (probe_at (p_exp p) f m) <> 0 /\
                            p_strings p (probe_at (p_exp p) f m) <> f
}.

Lemma probe_at_range e f k : 1 <= e <= 31 -> 0 <= probe_at e f k < 2 ^ e.
Proof. apply at_step_range. Qed.

Lemma table_used p fs : table p fs -> NoDup (used p) /\ forall f, In f (used p) <-> In f fs.
Proof.
  intros T. pose proof (t_exp _ _ T). pose proof (slots_Z (p_exp p) ltac:(lia)) as S.
  split.
  - apply nodup_used_from. rewrite S. intros; apply (t_inj _ _ T); auto; lia.
  - intros f. unfold used. rewrite in_used_from, S. split.
    + intros (t & Ht & <- & N). apply (t_in _ _ T); auto; lia.
    + intros I. destruct (t_find _ _ T f I) as (N & k & Hk & E & _).
      exists (probe_at (p_exp p) f k). pose proof (probe_at_range (p_exp p) f k ltac:(lia)).
      repeat split; auto; lia.
Qed.

Lemma enter_spec p fs f : table p fs -> f <> 0 ->
  match enter p f with
  | SOk (p', new) =>
      p_exp p' = p_exp p /\ table p' (f :: fs) /\ (new = true <-> ~ In f fs)
  | SHang => ~ In f fs /\ length (used p) = slots (p_exp p)
  | _ => False
  end.
Proof.
  intros T Nf. pose proof (t_exp _ _ T) as He.
  unfold enter.
  set (stop := fun i => (p_strings p i =? 0) || (p_strings p i =? f)).
  destruct (probe _ _ _ _ stop) as [i |] eqn:P.
  - apply probe_some in P as (k & Hk & -> & S & B); [|lia].
    change (at_step (hash_of f) (p_exp p) (s32 (hash_of f))) with (probe_at (p_exp p) f) in *.
    rewrite slots_Z in Hk by lia.
    assert (Bm : forall m, 1 <= m < k -> p_strings p (probe_at (p_exp p) f m) <> 0 /\
                                        p_strings p (probe_at (p_exp p) f m) <> f).
    { intros m Hm. specialize (B m Hm). unfold stop in B. apply orb_false_iff in B as [B1 B2].
      split; [now apply Z.eqb_neq | now apply Z.eqb_neq]. }
    pose proof (probe_at_range (p_exp p) f k ltac:(lia)) as Hi.
    remember (probe_at (p_exp p) f k) as i eqn:Ei.
    destruct (Z.eqb_spec (p_strings p i) 0) as [E0 | N0].
    + assert (New : ~ In f fs).
      { intros I. destruct (t_find _ _ T f I) as (_ & k' & Hk' & E' & B').
        destruct (Z.lt_trichotomy k k') as [L | [-> | L]].
        - destruct (B' k ltac:(lia)). congruence.
        - congruence.
        - destruct (Bm k' ltac:(lia)). congruence. }
      cbn [p_exp]. split; [reflexivity|]. split; [|tauto].
      assert (Other : forall j, 0 <= j < 2 ^ p_exp p -> p_strings p j <> f).
      { intros j Hj E. apply New. rewrite <- E. apply (t_in _ _ T); auto; congruence. }
      constructor; cbn [p_exp p_strings]; auto.
      * intros j Hj. unfold upd. destruct (Z.eqb_spec j i); [now left|].
        intros N. right. apply (t_in _ _ T); auto.
      * intros a b Ha Hb. unfold upd.
        destruct (Z.eqb_spec a i), (Z.eqb_spec b i); subst; auto; try congruence; intros E N.
        -- exfalso. apply (Other b Hb). congruence.
        -- exfalso. apply (Other a Ha). congruence.
        -- apply (t_inj _ _ T); auto.
      * intros g [<- | Ig].
        -- split; auto. exists k. rewrite <- Ei. split; [lia|]. split.
           ++ unfold upd. now rewrite Z.eqb_refl.
           ++ intros m Hm. unfold upd. destruct (Z.eqb_spec (probe_at (p_exp p) f m) i) as [E|].
              ** exfalso. destruct (Bm m Hm). congruence.
              ** apply Bm; auto.
        -- destruct (t_find _ _ T g Ig) as (Ng & k' & Hk' & E' & B'). split; auto.
           assert (f <> g) by congruence.
           exists k'. split; [lia|]. split.
           ++ unfold upd. destruct (Z.eqb_spec (probe_at (p_exp p) g k') i) as [E|]; auto.
              exfalso. congruence.
           ++ intros m Hm. unfold upd. destruct (B' m Hm) as [B1 B2].
              destruct (Z.eqb_spec (probe_at (p_exp p) g m) i) as [E|]; auto.
    + assert (Ef : p_strings p i = f).
      { unfold stop in S. apply orb_true_iff in S as [S | S]; apply Z.eqb_eq in S; congruence. }
      assert (If : In f fs) by (rewrite <- Ef; apply (t_in _ _ T); auto).
      split; [reflexivity|]. split; [|split; [discriminate | tauto]].
      constructor; auto.
      * intros j Hj N. right. apply (t_in _ _ T); auto.
      * apply (t_inj _ _ T).
      * intros g [<- | Ig]; apply (t_find _ _ T); auto.
  - pose proof (fun H => probe_all _ _ _ _ H P) as A. specialize (A ltac:(lia)). unfold stop in A.
    assert (A' : forall t, 0 <= t < 2 ^ p_exp p -> p_strings p t <> 0 /\ p_strings p t <> f).
    { intros t Ht. specialize (A t Ht). apply orb_false_iff in A as [A1 A2].
      split; [now apply Z.eqb_neq | now apply Z.eqb_neq]. }
    split.
    + intros I. destruct (t_find _ _ T f I) as (_ & k & Hk & E & _).
      destruct (A' (probe_at (p_exp p) f k)); auto. apply probe_at_range; lia.
    + apply used_full. rewrite slots_Z by lia. intros; apply A'; lia.
Qed.

Lemma find_spec p fs f : table p fs -> In f fs ->
  exists i, 0 <= i < 2 ^ p_exp p /\ p_strings p i = f /\ f <> 0 /\ find p f = SOk (rank p i).
Proof.
  intros T I. pose proof (t_exp _ _ T) as He.
  destruct (t_find _ _ T f I) as (Nf & k & Hk & E & B).
  exists (probe_at (p_exp p) f k). split; [apply probe_at_range; lia|]. split; auto. split; auto.
  unfold find. rewrite (probe_finds _ _ _ _ k); auto; try lia.
  - apply Z.eqb_eq, E.
  - intros m Hm. apply Z.eqb_neq, (B m Hm).
Qed.

Lemma in_nodup_len (l l' : list Z) : NoDup l -> incl l l' -> (length l <= length (nodup Z.eq_dec l'))%nat.
Proof.
  intros N I. apply NoDup_incl_length; auto. intros x Hx. apply nodup_In, I, Hx.
Qed.

Lemma total_perm c l l' : Permutation l l' -> total c l = total c l'.
Proof. induction 1; unfold total in *; cbn [fold_right]; lia. Qed.

Lemma total_nonneg c l : 0 <= total c l.
Proof. induction l; unfold total in *; cbn [fold_right]; lia. Qed.

Lemma total_incl c l l' : NoDup l -> incl l l' -> total c l <= total c (nodup Z.eq_dec l').
Proof.
  revert l'. induction l as [|x l IH]; intros l' N I.
  - apply total_nonneg.
  - inversion N as [|? ? Nx Nl]; subst.
    assert (Ix : In x (nodup Z.eq_dec l')) by (apply nodup_In, I; now left).
    apply in_split in Ix as (a & b & E).
    assert (Nd : NoDup (nodup Z.eq_dec l')) by apply NoDup_nodup.
    rewrite E in Nd |- *. pose proof (NoDup_remove _ _ _ Nd) as [Nd' Nx'].
    rewrite <- (total_perm c (x :: a ++ b) (a ++ x :: b)) by apply Permutation_middle.
    unfold total; cbn [fold_right]. fold (total c l). fold (total c (a ++ b)).
    assert (total c l <= total c (nodup Z.eq_dec (a ++ b))).
    { apply IH; auto. intros y Hy. assert (In y (a ++ x :: b)) as H.
      { rewrite <- E. apply nodup_In, I. now right. }
      apply in_app_iff in H as [H | [<- | H]]; apply in_app_iff; tauto. }
    rewrite (nodup_fixed_point Z.eq_dec (l := a ++ b)) in H by auto. lia.
Qed.

(** Entering all names: the table ends up with exactly these, unless there are
    more of them than slots. *)
Lemma enter_all_spec c fs : forall p fs0 size all,
  table p fs0 -> Forall (fun f => f <> 0) fs -> incl fs0 all -> incl fs all ->
  Z.of_nat (length (nodup Z.eq_dec all)) <= 2 ^ p_exp p ->
  total c (nodup Z.eq_dec all) < 2 ^ 32 ->
  size = total c (used p) ->
  exists p', enter_all c fs p size = SOk (p', total c (used p')) /\ table p' (rev fs ++ fs0) /\
             p_exp p' = p_exp p.
Proof.
  induction fs as [|f fs IH]; intros p fs0 size all T Nz I0 I Hl Ht Hs.
  - cbn. exists p. subst. auto.
  - cbn [enter_all]. inversion Nz as [|? ? Nf Nfs]; subst.
    pose proof (enter_spec p fs0 f T Nf) as E.
    assert (Ff : In f all) by (apply I; now left).
    assert (Ffs : incl fs all) by (intros x Hx; apply I; now right).
    destruct (enter p f) as [[p1 new] | | |]; try tauto.
    + destruct E as (Ex & T1 & New). cbn [sbind].
      assert (I1 : incl (f :: fs0) all) by (intros x [<- | Hx]; auto).
      destruct (table_used _ _ T) as [Nu Iu]. destruct (table_used _ _ T1) as [Nu1 Iu1].
      assert (Size : (if new then u32 (total c (used p) + u32 (Z.of_nat (length (c f))) + 1) else total c (used p))
                     = total c (used p1)).
      { destruct new.
        - assert (Nin : ~ In f fs0) by tauto.
          assert (Pm : Permutation (f :: used p) (used p1)).
          { apply NoDup_Permutation; auto.
            - constructor; auto. rewrite Iu. auto.
            - intros x. rewrite Iu1. cbn. rewrite Iu. tauto. }
          assert (B : total c (used p1) < 2 ^ 32).
          { eapply Z.le_lt_trans; [|exact Ht]. apply total_incl; auto. intros x Hx. apply I1, Iu1, Hx. }
          rewrite <- (total_perm _ _ _ Pm) in B |- *.
          pose proof (total_nonneg c (used p)) as Nn.
          unfold total in B |- *; cbn [fold_right] in B |- *. fold (total c (used p)) in B |- *.
          change (2 ^ 32) with 4294967296 in B.
          unfold u32. rewrite (Z.mod_small (Z.of_nat (length (c f)))) by lia.
          rewrite Z.mod_small by lia. lia.
        - apply total_perm, NoDup_Permutation; auto.
          intros x. rewrite Iu1, Iu. cbn. split; [tauto|]. intros [<- | ]; auto.
          destruct (in_dec Z.eq_dec f fs0) as [|N]; auto. apply New in N. discriminate. }
      rewrite Size.
      destruct (IH p1 (f :: fs0) _ all T1 Nfs I1 Ffs ltac:(rewrite Ex; exact Hl) Ht eq_refl)
        as (p' & E' & T' & Ex').
      exists p'. split; [exact E'|]. split; [|congruence].
      cbn [rev]. rewrite <- app_assoc. exact T'.
    + exfalso. destruct E as [Nin Full]. destruct (table_used _ _ T) as [Nu Iu].
      pose proof (t_exp _ _ T).
      assert (length (f :: used p) <= length (nodup Z.eq_dec all))%nat.
      { apply in_nodup_len.
        - constructor; auto. now rewrite Iu.
        - intros x [<- | Hx]; auto. apply I0, Iu, Hx. }
      cbn [length] in H0. rewrite Full in H0. pose proof (slots_Z (p_exp p) ltac:(lia)). lia.
Qed.

(** More names than slots: the writer does not come back. *)
Lemma enter_all_hang c fs : forall p fs0 size,
  table p fs0 -> Forall (fun f => f <> 0) fs ->
  2 ^ p_exp p < Z.of_nat (length (nodup Z.eq_dec (rev fs ++ fs0))) ->
  enter_all c fs p size = SHang.
Proof.
  induction fs as [|f fs IH]; intros p fs0 size T Nz Hl.
  - exfalso. cbn in Hl. destruct (table_used _ _ T) as [Nu Iu]. pose proof (t_exp _ _ T).
    assert (length (nodup Z.eq_dec fs0) <= length (used p))%nat.
    { apply NoDup_incl_length; [apply NoDup_nodup|]. intros x Hx. apply Iu. now apply nodup_In in Hx. }
    assert (U : forall k i, (length (used_from k i p) <= k)%nat).
    { induction k as [|k IHk]; intros i; cbn [used_from length]; auto. rewrite app_length.
      specialize (IHk (i + 1)). destruct (p_strings p i =? 0); cbn [length]; lia. }
    specialize (U (slots (p_exp p)) 0). fold (used p) in U.
    pose proof (slots_Z (p_exp p) ltac:(lia)). lia.
  - cbn [enter_all]. inversion Nz as [|? ? Nf Nfs]; subst.
    pose proof (enter_spec p fs0 f T Nf) as E.
    destruct (enter p f) as [[p1 new] | | |]; try tauto; auto.
    destruct E as (Ex & T1 & _). cbn [sbind]. apply (IH _ (f :: fs0)); auto.
    rewrite Ex. cbn [rev] in Hl. rewrite <- app_assoc in Hl. exact Hl.
Qed.

(** ** The size of the table *)
Lemma table_exp_spec num : num <= 2 ^ 30 -> forall k e, 1 <= e -> e + Z.of_nat k = 31 ->
  exists x, table_exp (k + 9) (2 ^ e) e num = SOk x /\ e <= x <= Z.max e 30 /\ num <= 2 ^ x /\
            (e < x -> 2 ^ (x - 1) < num).
Proof.
  intros Hn. induction k as [|k IH]; intros e He Hk.
  - assert (e = 31) by lia. subst. exists 31.
    change ((0 + 9)%nat) with 9%nat. cbn [table_exp].
    destruct (Z.ltb_spec (2 ^ 31) num); [change (2 ^ 31) with (2 * 2 ^ 30) in *; lia|].
    repeat split; try lia.
  - cbn [plus table_exp]. destruct (Z.ltb_spec (2 ^ e) num) as [L|L].
    + assert (e < 30). { apply (Z.pow_lt_mono_r_iff 2); lia. }
      assert (E2 : u32 (Z.shiftl (2 ^ e) 1) = 2 ^ (e + 1)).
      { rewrite Z.shiftl_mul_pow2, <- Z.pow_add_r by lia. unfold u32. apply Z.mod_small.
        split; [apply Z.pow_nonneg; lia|]. change 4294967296 with (2 ^ 32). apply Z.pow_lt_mono_r; lia. }
      rewrite E2. destruct (IH (e + 1)) as (x & Ex & Hx & Nx & Lx); try lia.
      exists x. repeat split; auto; try lia. intros _.
      destruct (Z.eq_dec x (e + 1)) as [-> |]; [|apply Lx; lia].
      replace (e + 1 - 1) with e by lia. lia.
    + exists e. repeat split; try lia.
Qed.

Lemma make_pool_spec num : num <= 2 ^ 30 ->
  exists e, make_pool num = SOk (mkPool e (fun _ => 0)) /\ 1 <= e <= 30 /\ num <= 2 ^ e /\
            (1 < e -> 2 ^ (e - 1) < num).
Proof.
  intros Hn. destruct (table_exp_spec num Hn 30 1) as (x & E & Hx & Nx & Lx); try lia.
  unfold make_pool.
  assert (M : forall f s e r, table_exp f s e num = SOk r -> table_exp (S f) s e num = SOk r).
  { induction f as [|f IHf]; intros s e r; [discriminate|].
    cbn [table_exp]. destruct (s <? num); auto. apply IHf. }
  pose proof (M _ _ _ _ E) as E'. change (2 ^ 1) with 2 in E'. change (S (30 + 9)) with 40%nat in E'.
  rewrite E'. cbn [sbind]. exists x. split; [reflexivity|]. lia.
Qed.

Lemma table_empty e : 1 <= e <= 30 -> table (mkPool e (fun _ => 0)) [].
Proof.
  intros He. constructor; cbn; auto; try lia.
Qed.

Lemma used_empty e : used (mkPool e (fun _ => 0)) = [].
Proof.
  unfold used. assert (H : forall n z, used_from n z (mkPool e (fun _ => 0)) = []); auto.
  induction n as [|n IH]; intros z; cbn; auto.
Qed.

(** ** Records *)
Lemma rint_write lo hi x : rint lo hi None x = SOk (SvInt x, x).
Proof. reflexivity. Qed.

Lemma rint_read lo hi x y : lo <= x < hi -> rint lo hi (Some (SvInt x)) y = SOk (SvInt x, x).
Proof. intros H. cbn. replace (_ && _) with true by lia. reflexivity. Qed.

Lemma row_write p fs n y : table p fs -> In (y_file y) fs ->
  Z.of_nat (length (used p)) <= n -> n < 2 ^ 32 -> exists i,
  0 <= rank p i < Z.of_nat (length (used p)) /\
  nth_error (used p) (Z.to_nat (rank p i)) = Some (y_file y) /\
  record (sym_fields (Writer p) n) None y =
    SOk (SvRec [(SkType, SvInt (y_type y)); (SkId, SvInt (y_id y)); (SkMin, SvInt (y_min y));
                (SkMax, SvInt (y_max y)); (SkFile, SvInt (rank p i));
                (SkStartLine, SvInt (y_sl y)); (SkStartCol, SvInt (y_sc y)); (SkStartByte, SvInt (y_sb y));
                (SkEndLine, SvInt (y_el y)); (SkEndCol, SvInt (y_ec y)); (SkEndByte, SvInt (y_eb y))], y).
Proof.
  intros T I Hn Hn2. pose proof (t_exp _ _ T).
  destruct (find_spec p fs _ T I) as (i & Hi & E & Nz & F). exists i.
  assert (R : nth_error (used p) (Z.to_nat (rank p i)) = Some (y_file y)).
  { rewrite <- E at 1. apply nth_rank; auto; try lia. }
  assert (L : 0 <= rank p i < Z.of_nat (length (used p))).
  { assert (nth_error (used p) (Z.to_nat (rank p i)) <> None) as N by congruence.
    apply nth_error_Some in N. unfold rank in *. lia. }
  split; auto. split; auto.
  destruct y as [a b c d f g h j k l m]. cbn [y_file] in *.
  unfold record, sym_fields. cbn [put_fields fld file_field sbind rint y_type y_id y_min y_max y_file y_sl y_sc y_sb y_el y_ec y_eb].
  unfold fld, set_type, set_id, set_min, set_max. 
  cbn [rint sbind y_type y_id y_min y_max y_file y_sl y_sc y_sb y_el y_ec y_eb].
  rewrite F. cbn [sbind]. replace (n <=? rank p i) with false by lia. reflexivity.
Qed.

Lemma row_read num n a b c d f g h j k l m y0 : 
  0 <= a < 256 -> 0 <= b < 65536 -> 0 <= c < 65536 -> 0 <= d < 65536 -> 0 <= f < num -> f < 2 ^ 32 ->
  int_ok g -> int_ok h -> int_ok j -> int_ok k -> int_ok l -> int_ok m ->
  exists v, record (sym_fields (Reader num) n)
    (Some (SvRec [(SkType, SvInt a); (SkId, SvInt b); (SkMin, SvInt c); (SkMax, SvInt d); (SkFile, SvInt f);
                (SkStartLine, SvInt g); (SkStartCol, SvInt h); (SkStartByte, SvInt j);
                (SkEndLine, SvInt k); (SkEndCol, SvInt l); (SkEndByte, SvInt m)])) y0
  = SOk (v, mkSym a b c d f g h j k l m).
Proof.
  unfold int_ok. intros. eexists. unfold record, sym_fields.
  cbn [get_fields sfield_of skey_dec skey_rec skey_rect]. 
  repeat (cbn [get_fields sfield_of skey_dec skey_rec skey_rect sumbool_rec sumbool_rect];
          unfold fld; try (rewrite rint_read by (unfold INT_RANGE_LO, INT_RANGE_HI; lia)); cbn [sbind]).
  unfold file_field. rewrite rint_read by (change 4294967296 with (2 ^ 32); lia). cbn [sbind].
  replace (num <=? f) with false by lia. cbn [sbind].
  repeat (cbn [get_fields sfield_of skey_dec skey_rec skey_rect sumbool_rec sumbool_rect];
          unfold fld; try (rewrite rint_read by (unfold INT_RANGE_LO, INT_RANGE_HI; lia)); cbn [sbind]).
  reflexivity.
Qed.

Lemma rows_round c p fs n : table p fs -> Z.of_nat (length (used p)) <= n -> n < 2 ^ 32 ->
  forall ys, Forall sym_ok ys -> incl (map y_file ys) fs ->
  exists rows ys', put_rows (Writer p) n ys = SOk rows /\
    Forall2 (same_symbol c (map c (used p))) ys ys' /\
    forall junk i, get_rows (Reader (Z.of_nat (length (used p)))) n (length ys) i junk rows = SOk ys'.
Proof.
  intros T Hn Hn2. induction ys as [|y ys IH]; intros Ok I.
  - exists [], []. repeat split; auto.
  - inversion Ok as [|? ? Oy Oys]; subst.
    destruct (IH Oys) as (rows & ys' & P & F & G). { intros x Hx. apply I. now right. }
    destruct (row_write p fs n y T) as (i & L & R & E); auto. { apply I. now left. }
    eexists (_ :: rows), (mkSym (y_type y) (y_id y) (y_min y) (y_max y) (rank p i) (y_sl y) (y_sc y) (y_sb y) (y_el y) (y_ec y) (y_eb y) :: ys').
    cbn [put_rows]. rewrite E. cbn [sbind]. rewrite P. cbn [sbind]. split; [reflexivity|]. split.
    + constructor; auto. unfold same_symbol; cbn [y_type y_id y_min y_max y_file y_sl y_sc y_sb y_el y_ec y_eb].
      repeat (split; [reflexivity || lia|]).
      split; [|repeat split; reflexivity]. rewrite nth_error_map, R. reflexivity.
    + intros junk k. cbn [length get_rows].
      destruct Oy as (O1 & O2 & O3 & O4 & O5 & O6 & O7 & O8 & O9 & O10 & O11).
      edestruct (row_read (Z.of_nat (length (used p))) n) as [v Ev]; cycle -1.
      * rewrite Ev. cbn [sbind]. rewrite G. reflexivity.
      * assumption.
      * assumption.
      * assumption.
      * assumption.
      * lia.
      * lia.
      * assumption.
      * assumption.
      * assumption.
      * assumption.
      * assumption.
      * assumption.
Qed.

Lemma strings_round c l : forall room, total c l <= room ->
  get_strings (length l) room (map (fun f => SvBlob (c f)) l) = SOk (map c l).
Proof.
  induction l as [|f l IH]; intros room H; auto.
  unfold total in H; cbn [fold_right] in H; fold (total c l) in H. pose proof (total_nonneg c l).
  cbn [length map get_strings]. replace (_ <=? room) with true by lia.
  rewrite IH by lia. reflexivity.
Qed.

(** ** The round trip *)
Theorem round_trip content num_files ys : writable content num_files ys ->
  exists (l : list Z) header rows ys',
    let file := SvArr 2 [header; SvRec [(SkStrpool, SvArr (Z.of_nat (length l)) (map (fun f => SvBlob (content f)) l));
                                        (SkSymtab, SvTab (Z.of_nat (length ys)) rows)]] in
    NoDup l /\ (forall f, In f l <-> In f (map y_file ys)) /\
    write_symtab content num_files ys = SOk file /\
    (forall junk, read_symtab junk file = SOk (mkBody (map content l) ys')) /\
    Forall2 (same_symbol content (map content l)) ys ys'.
Proof.
  intros (Oks & Hf & Hn & Ht). unfold names in *.
  destruct (make_pool_spec num_files ltac:(lia)) as (e & Ep & He & Hfe & _).
  destruct (enter_all_spec content (map y_file ys) (mkPool e (fun _ => 0)) [] 0 (map y_file ys)) as (p & E & T & Ex).
  { apply table_empty; lia. }
  { rewrite Forall_forall in *. intros f If. apply in_map_iff in If as (y & <- & Iy).
    destruct (Oks y Iy) as (_ & _ & _ & _ & ? & _). lia. }
  { intros ? []. }
  { apply incl_refl. }
  { cbn [p_exp]. lia. }
  { exact Ht. }
  { rewrite used_empty. reflexivity. }
  rewrite app_nil_r in T. destruct (table_used _ _ T) as [Nu Iu].
  assert (Iu' : forall f, In f (used p) <-> In f (map y_file ys)) by (intros f; rewrite Iu, <- in_rev; tauto).
  assert (Len : (length (used p) <= length ys)%nat).
  { rewrite <- (map_length y_file ys). apply NoDup_incl_length; auto. intros f; apply Iu'. }
  assert (Tot : total content (used p) < 2 ^ 32).
  { eapply Z.le_lt_trans; [|exact Ht]. apply total_incl; auto. intros f; apply Iu'. }
  pose proof (total_nonneg content (used p)) as Tn.
  change (2 ^ 32) with 4294967296 in *.
  assert (N32 : u32 (Z.of_nat (length ys)) = Z.of_nat (length ys)) by (apply Z.mod_small; lia).
  destruct (rows_round content p _ (Z.of_nat (length ys)) T ltac:(lia) ltac:(change (2 ^ 32) with 4294967296; lia) ys Oks)
    as (rows & ys' & P & F & G).
  { intros f If. rewrite <- in_rev. exact If. }
  exists (used p), (SvRec [(SkNumSymbols, SvInt (Z.of_nat (length ys)));
            (SkNumStrings, SvInt (Z.of_nat (length (used p)))); (SkPoolSize, SvInt (total content (used p)))]), rows, ys'.
  cbv zeta. split; [exact Nu|]. split; [exact Iu'|]. split; [|split; [|exact F]].
  - unfold write_symtab. rewrite Ep. cbn [sbind]. rewrite E. cbn [sbind]. rewrite N32.
    unfold record, header_fields, body_fields. cbn [put_fields sbind rint h_symbols h_strings h_pool].
    unfold strpool_field, symtab_field. cbn [sbind b_symbols put_fields]. rewrite P. reflexivity.
  - intros junk. unfold read_symtab. cbn [Z.eqb Pos.eqb negb].
    unfold record, header_fields.
    repeat (cbn [get_fields sfield_of skey_dec skey_rec skey_rect sumbool_rec sumbool_rect h_symbols h_strings h_pool];
            try (rewrite rint_read by lia); cbn [sbind]).
    unfold body_fields, strpool_field, symtab_field.
    repeat (cbn [get_fields sfield_of skey_dec skey_rec skey_rect sumbool_rec sumbool_rect h_symbols h_strings h_pool sbind]).
    rewrite Z.eqb_refl. cbn [negb]. rewrite Nat2Z.id, strings_round by lia. cbn [sbind].
    rewrite Z.eqb_refl. cbn [negb]. rewrite Nat2Z.id, G. reflexivity.
Qed.

Theorem too_many_names content num_files ys :
  Forall sym_ok ys -> num_files <= 2 ^ 30 ->
  2 < Z.of_nat (length (names ys)) -> 2 * num_files <= Z.of_nat (length (names ys)) ->
  write_symtab content num_files ys = SHang.
Proof.
  intros Oks Hn H2 Hl. unfold names in *.
  destruct (make_pool_spec num_files Hn) as (e & Ep & He & _ & L).
  assert (S : 2 ^ e < Z.of_nat (length (nodup Z.eq_dec (map y_file ys)))).
  { destruct (Z.eq_dec e 1) as [-> | N1]; [change (2 ^ 1) with 2; lia|].
    specialize (L ltac:(lia)). replace e with (1 + (e - 1)) by lia. rewrite Z.pow_add_r by lia. lia. }
  unfold write_symtab. rewrite Ep. cbn [sbind].
  rewrite (enter_all_hang content (map y_file ys) _ [] 0).
  - reflexivity.
  - apply table_empty; lia.
  - rewrite Forall_forall in *. intros f If. apply in_map_iff in If as (y & <- & Iy).
    destruct (Oks y Iy) as (_ & _ & _ & _ & ? & _). lia.
  - cbn [p_exp]. rewrite app_nil_r.
    assert (length (nodup Z.eq_dec (map y_file ys)) <= length (nodup Z.eq_dec (rev (map y_file ys))))%nat; [|lia].
    apply NoDup_incl_length; [apply NoDup_nodup|]. intros x Hx. apply nodup_In in Hx.
    apply nodup_In. rewrite <- in_rev. exact Hx.
Qed.

(** ** Any file *)
Lemma sbind_ok {A B} (r : sres A) (f : A -> sres B) b : sbind r f = SOk b -> exists a, r = SOk a /\ f a = SOk b.
Proof. destruct r; cbn; try discriminate. eauto. Qed.

Definition bytes_of (l : list (list Z)) : Z := fold_right (fun s n => Z.of_nat (length s) + 1 + n) 0 l.

Lemma get_strings_fit k : forall room items l, get_strings k room items = SOk l ->
  length l = k /\ (0 <= room -> bytes_of l <= room).
Proof.
  induction k as [|k IH]; intros room items l; cbn [get_strings].
  - intros E; injection E as <-. cbn. auto.
  - destruct items as [|[] items]; try discriminate.
    destruct (Z.leb_spec (Z.of_nat (length bytes) + 1) room); try discriminate.
    intros E. apply sbind_ok in E as (l' & E & R). injection R as <-.
    apply IH in E as [E1 E2]. cbn [length bytes_of fold_right]. fold (bytes_of l'). split; [lia|]. intros. lia.
Qed.

Definition file_kept (num : Z) (y0 y : sym) : Prop := y_file y = y_file y0 \/ 0 <= y_file y < num.

Lemma row_file num n kvs : forall y0 y, get_fields (sym_fields (Reader num) n) kvs y0 = SOk y -> file_kept num y0 y.
Proof.
  induction kvs as [|[k v] kvs IH]; intros y0 y.
  - cbn. intros E; injection E as <-. now left.
  - cbn [get_fields].
    assert (Step : forall f, sfield_of (sym_fields (Reader num) n) k = Some f ->
              forall y1 w, f (Some v) y0 = SOk (w, y1) -> file_kept num y0 y1).
    { intros f. unfold sym_fields.
      destruct k; cbn; intros E; try discriminate; injection E as <-; intros y1 w;
      unfold fld, file_field; intros E; apply sbind_ok in E as ([v' x] & E & R);
      try (injection R as <- <-; left; reflexivity).
      destruct (Z.leb_spec num x); [discriminate|]. injection R as <- <-. right. cbn.
      unfold rint in E. destruct v; try discriminate.
      destruct ((0 <=? z) && (z <? 4294967296)) eqn:B; [|discriminate]. injection E as <- <-. lia. }
    destruct (sfield_of _ k) as [f|] eqn:F; [|apply IH].
    intros E. apply sbind_ok in E as ([w y1] & E1 & E2).
    specialize (Step f eq_refl y1 w E1). apply IH in E2.
    unfold file_kept in *. destruct E2 as [-> |]; auto.
Qed.

Lemma get_rows_files num n k : forall i junk rows ys,
  get_rows (Reader num) n k i junk rows = SOk ys -> length ys = k /\
  forall j y, nth_error ys j = Some y -> file_kept num (junk (i + Z.of_nat j)) y.
Proof.
  induction k as [|k IH]; intros i junk rows ys; cbn [get_rows].
  - intros E; injection E as <-. split; auto. intros [|j] y; discriminate.
  - destruct rows as [|v rows]; try discriminate.
    intros E. apply sbind_ok in E as ([w y] & E1 & E). apply sbind_ok in E as (ys' & E2 & R). injection R as <-.
    destruct (IH _ _ _ _ E2) as [L F]. split; [cbn; lia|].
    intros [|j] z; cbn [nth_error].
    + intros Z0; injection Z0 as <-. replace (i + Z.of_nat 0) with i by lia.
      unfold record in E1. destruct v; try discriminate.
      apply sbind_ok in E1 as (y1 & E1 & R). injection R as <- <-. eapply row_file; eauto.
    + intros N. specialize (F j z N). replace (i + Z.of_nat (S j)) with (i + 1 + Z.of_nat j) by lia. exact F.
Qed.

(** Whatever the file: the strings fit into the announced buffer, there are as
    many symbols as announced, and a name that is read is one of the announced
    ones. *)
Definition fits (num room symbols : Z) (junk : Z -> sym) (b : body) : Prop :=
  (b_strings b = [] \/ Z.of_nat (length (b_strings b)) = num) /\
  bytes_of (b_strings b) <= room /\
  (b_symbols b = [] \/ Z.of_nat (length (b_symbols b)) = symbols) /\
  forall j y, nth_error (b_symbols b) j = Some y -> file_kept num (junk (Z.of_nat j)) y.

Lemma body_fits c num room n junk kvs : 0 <= num -> 0 <= room -> 0 <= n -> forall b b', fits num room n junk b ->
  get_fields (body_fields c (Reader num) room n junk) kvs b = SOk b' -> fits num room n junk b'.
Proof.
  intros Hnum Hr Hn. induction kvs as [|[k v] kvs IH]; intros b b' F.
  - cbn. intros E; injection E as <-. exact F.
  - cbn [get_fields].
    destruct (sfield_of _ k) as [f|] eqn:G; [|apply IH; exact F].
    intros E. apply sbind_ok in E as ([w b1] & E1 & E2). revert E2. apply IH.
    destruct F as (F1 & F2 & F3 & F4).
    unfold body_fields in G. destruct k; cbn in G; try discriminate; injection G as <-.
    + unfold strpool_field in E1. destruct v; try discriminate.
      destruct (Z.eqb_spec declared num); [|discriminate]. cbn [negb] in E1.
      apply sbind_ok in E1 as (l & E1 & R). injection R as <- <-.
      apply get_strings_fit in E1 as [L B]. unfold fits; cbn [b_strings b_symbols]. repeat split; auto. right. lia.
    + unfold symtab_field in E1. destruct v; try discriminate.
      destruct (Z.eqb_spec declared n); [|discriminate]. cbn [negb] in E1.
      apply sbind_ok in E1 as (l & E1 & R). injection R as <- <-.
      apply get_rows_files in E1 as [L B]. unfold fits; cbn [b_strings b_symbols]. repeat split; auto. right. lia.
Qed.

Definition header_ok (h : header) : Prop :=
  0 <= h_symbols h < 2 ^ 32 /\ 0 <= h_strings h < 2 ^ 32 /\ 0 <= h_pool h < 2 ^ 32.

Lemma rint_range lo hi v x w y : rint lo hi (Some v) x = SOk (w, y) -> lo <= y < hi.
Proof.
  unfold rint. destruct v; try discriminate. destruct ((lo <=? z) && (z <? hi)) eqn:B; [|discriminate].
  intros E; injection E as <- <-. lia.
Qed.

Lemma header_range kvs : forall h h', header_ok h -> get_fields header_fields kvs h = SOk h' -> header_ok h'.
Proof.
  induction kvs as [|[k v] kvs IH]; intros h h' O.
  - cbn. intros E; injection E as <-. exact O.
  - cbn [get_fields].
    destruct (sfield_of _ k) as [f|] eqn:G; [|apply IH; exact O].
    intros E. apply sbind_ok in E as ([w h1] & E1 & E2). revert E2. apply IH.
    unfold header_ok in *. change (2 ^ 32) with 4294967296 in *.
    unfold header_fields in G. destruct k; cbn in G; try discriminate; injection G as <-;
    apply sbind_ok in E1 as ([v' x] & E1 & R); injection R as <- <-; apply rint_range in E1;
    cbn [h_symbols h_strings h_pool]; tauto.
Qed.

Theorem any_file junk file b : read_symtab junk file = SOk b ->
  exists num room symbols, 0 <= num < 2 ^ 32 /\ 0 <= room < 2 ^ 32 /\ 0 <= symbols < 2 ^ 32 /\
    fits num room symbols junk b.
Proof.
  unfold read_symtab. destruct file as [| |n items| |]; try discriminate.
  destruct (negb (n =? 2)); try discriminate. destruct items as [|hv rest]; try discriminate.
  intros E. apply sbind_ok in E as ([w h] & E1 & E2). destruct rest as [|bv rest]; try discriminate.
  apply sbind_ok in E2 as ([w' b'] & E2 & R). injection R as <-.
  unfold record in E1, E2. destruct hv; try discriminate. destruct bv; try discriminate.
  apply sbind_ok in E1 as (h' & E1 & R). injection R as <- <-.
  apply sbind_ok in E2 as (b'' & E2 & R). injection R as <- <-.
  apply header_range in E1; [|unfold header_ok; cbn; lia]. destruct E1 as (A & B & D).
  exists (h_strings h'), (h_pool h'), (h_symbols h'). repeat (split; [lia|]).
  eapply body_fits; [lia | lia | lia | | exact E2].
  unfold fits; cbn. repeat split; auto; try lia. intros [|j] y; discriminate.
Qed.
