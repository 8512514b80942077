From Verif Require Import Base VmModel VmSpec VmProofs VmRun SystemSpec SystemProofs FileModel FileSpec.
From Coq Require Import ZifyBool.
Ltac Zify.zify_post_hook ::= Z.div_mod_to_equations.

(** ** Byte blocks *)
Lemma put_nil m a j : put m a [] j = m j.
Proof. unfold put. cbn [length]. destruct (_ && _) eqn:E; auto. lia. Qed.

Lemma put_cons m a b l j : put m a (b :: l) j = put (upd m a b) (a + 1) l j.
Proof.
  unfold put, upd. cbn [length].
  destruct ((a <=? j) && (j <? a + Z.of_nat (S (length l)))) eqn:E.
  - destruct (j =? a) eqn:F.
    + replace (_ && _) with false by lia. replace (Z.to_nat (j - a)) with 0%nat by lia. auto.
    + replace (_ && _) with true by lia. replace (Z.to_nat (j - a)) with (S (Z.to_nat (j - (a + 1)))) by lia. auto.
  - destruct ((a + 1 <=? j) && _) eqn:G; [lia|]. destruct (j =? a) eqn:F; auto. lia.
Qed.

Lemma put_ext m m' a l : (forall j, m j = m' j) -> forall j, put m a l j = put m' a l j.
Proof. intros H j. unfold put. destruct (_ && _); auto. Qed.

Lemma put_app m a l l' j : put m a (l ++ l') j = put (put m a l) (a + Z.of_nat (length l)) l' j.
Proof.
  revert m a. induction l as [|b l IH]; intros m a.
  - cbn [app length]. rewrite Z.add_0_r. apply put_ext. intros. rewrite put_nil. auto.
  - cbn [app]. rewrite put_cons, IH. cbn [length].
    replace (a + Z.of_nat (S (length l))) with (a + 1 + Z.of_nat (length l)) by lia.
    apply put_ext. intros. rewrite put_cons. auto.
Qed.

Lemma put_bytes_spec l : forall m bound a, 0 <= a -> a + Z.of_nat (length l) <= bound ->
  exists m', put_bytes m bound a l = Ok m' /\ forall j, m' j = put m a l j.
Proof.
  induction l as [|b l IH]; intros m bound a Ha Hb.
  - exists m. split; auto. intros. rewrite put_nil. auto.
  - cbn [length] in Hb. cbn [put_bytes]. unfold aset. rewrite in_bounds_true by lia. cbn [rbind].
    destruct (IH (upd m a b) bound (a + 1)) as (m' & E & P); try lia.
    exists m'. split; auto. intros. rewrite P, put_cons. auto.
Qed.

Lemma slice_succ m a n : 0 <= n -> slice m a (n + 1) = m a :: slice m (a + 1) n.
Proof.
  intros H. unfold slice. replace (Z.to_nat (n + 1)) with (S (Z.to_nat n)) by lia.
  cbn [seq map]. f_equal; [f_equal; lia|]. rewrite <- seq_shift, map_map. apply map_ext. intros. f_equal. lia.
Qed.
Lemma slice_length m a n : 0 <= n -> Z.of_nat (length (slice m a n)) = n.
Proof. intros. unfold slice. rewrite map_length, seq_length. lia. Qed.
Lemma slice_0 m a : slice m a 0 = [].
Proof. reflexivity. Qed.
Lemma slice_nth m a n k : 0 <= k < n -> nth (Z.to_nat k) (slice m a n) 0 = m (a + k).
Proof.
  intros H. unfold slice.
  rewrite nth_indep with (d' := (fun k => m (a + Z.of_nat k)) 0%nat) by (rewrite map_length, seq_length; lia).
  rewrite (map_nth (fun k => m (a + Z.of_nat k))), seq_nth by lia. f_equal. lia.
Qed.
Lemma slice_ext m m' a n : (forall j, a <= j < a + n -> m j = m' j) -> slice m a n = slice m' a n.
Proof. intros H. unfold slice. apply map_ext_in. intros k Hk. apply in_seq in Hk. apply H. lia. Qed.
Lemma slice_app m a n k : 0 <= n -> 0 <= k -> slice m a (n + k) = slice m a n ++ slice m (a + n) k.
Proof.
  intros Hn Hk. unfold slice. rewrite Z2Nat.inj_add by lia. rewrite seq_app, map_app. f_equal.
  cbn [Nat.add]. rewrite <- (Nat.add_0_r (Z.to_nat n)) at 1.
  generalize (Z.to_nat k) 0%nat. intros c. induction c as [|c IH]; intros s; cbn [seq map]; auto.
  f_equal; [f_equal; lia|]. specialize (IH (S s)). rewrite Nat.add_succ_r in IH. exact IH.
Qed.
Lemma slice_put m a l : slice (put m a l) a (Z.of_nat (length l)) = l.
Proof.
  apply (nth_ext _ _ 0 0).
  - pose proof (slice_length (put m a l) a (Z.of_nat (length l))). lia.
  - intros n Hn. pose proof (slice_length (put m a l) a (Z.of_nat (length l))) as L.
    replace n with (Z.to_nat (Z.of_nat n)) by lia. rewrite slice_nth by lia.
    unfold put. replace (_ && _) with true by lia. f_equal. lia.
Qed.

Lemma get_bytes_spec n : forall m bound a, 0 <= a -> a + Z.of_nat n <= bound ->
  get_bytes n m bound a = Ok (slice m a (Z.of_nat n)).
Proof.
  induction n as [|n IH]; intros m bound a Ha Hb; auto.
  cbn [get_bytes]. unfold aget. rewrite in_bounds_true by lia. cbn [rbind].
  rewrite IH by lia. cbn [rbind]. replace (Z.of_nat (S n)) with (Z.of_nat n + 1) by lia.
  rewrite slice_succ by lia. auto.
Qed.

(** ** Registers *)
Lemma port2_reg v base a : well_typed v -> 0 <= base <= 240 -> port2 v base a = reg2 v base a.
Proof.
  intros (_ & _ & _ & _ & H & _ & _) Hb. unfold port2, reg2. apply load2_word; [lia|].
  intros i Hi. apply H. lia.
Qed.
Lemma reg2_range v base a : well_typed v -> 0 <= base <= 240 -> is_short (reg2 v base a).
Proof.
  intros (_ & _ & _ & _ & H & _ & _) Hb. apply word_range; [lia|]. intros i Hi. apply H. lia.
Qed.

(** ** C19 *)
Lemma path_chars_spec v : 65536 <= vm_msize v -> forall n a, is_short a ->
  exists r, path_chars n v a = Ok r /\
  let at_ k := vm_mem v ((a + k) mod 65536) in
  match r with
  | Some l => (length l <= n)%nat /\
      (forall k, 0 <= k < Z.of_nat (length l) -> at_ k = nth (Z.to_nat k) l 0 /\ at_ k <> 0) /\
      at_ (Z.of_nat (length l)) = 0
  | None => forall k, 0 <= k <= Z.of_nat n -> at_ k <> 0
  end.
Proof.
  intros Hs. induction n as [|n IH]; intros a Ha; cbn [path_chars]; unfold aget;
  rewrite in_bounds_true by lia; cbn [rbind]; destruct (vm_mem v (a mod 65536) =? 0) eqn:E.
  - eexists. split; [reflexivity|]. cbv zeta. cbn [length]. split; [lia|].
    split; [intros k Hk; exfalso; lia|]. rewrite Z.add_0_r. lia.
  - eexists. split; [reflexivity|]. cbv zeta. intros k Hk. replace k with 0 by lia. rewrite Z.add_0_r. lia.
  - eexists. split; [reflexivity|]. cbv zeta. cbn [length]. split; [lia|].
    split; [intros k Hk; exfalso; lia|]. rewrite Z.add_0_r. lia.
  - destruct (IH (u16 (a + 1))) as (r & E1 & R); [unfold is_short, u16; lia|].
    rewrite E1. cbn [rbind]. eexists. split; [reflexivity|]. cbv zeta in *.
    assert (A : forall k, (u16 (a + 1) + k) mod 65536 = (a + (k + 1)) mod 65536) by (intros; unfold u16; rewrite Zplus_mod_idemp_l; f_equal; lia).
    destruct r as [l|].
    + destruct R as (R1 & R2 & R3). cbn [length]. split; [lia|]. split.
      * intros k Hk. destruct (Z.eq_dec k 0) as [->|K].
        -- rewrite Z.add_0_r. cbn. split; auto. lia.
        -- specialize (R2 (k - 1) ltac:(lia)). rewrite A in R2. replace (k - 1 + 1) with k in R2 by lia.
           replace (Z.to_nat k) with (S (Z.to_nat (k - 1))) by lia. exact R2.
      * rewrite A in R3. replace (Z.of_nat (S (length l))) with (Z.of_nat (length l) + 1) by lia. exact R3.
    + intros k Hk. destruct (Z.eq_dec k 0) as [->|K]; [rewrite Z.add_0_r; lia|].
      specialize (R (k - 1) ltac:(lia)). rewrite A in R. replace (k - 1 + 1) with k in R by lia. exact R.
Qed.

Lemma read_path_spec v base : well_typed v -> 0 <= base <= 240 ->
  exists r, read_path v base = Ok r /\
  match r with Some p => name_at v base p | None => forall p, ~ name_at v base p end.
Proof.
  intros Hv Hb. pose proof (reg2_range v base 8 Hv Hb) as Hr.
  assert (Hs : 65536 <= vm_msize v) by apply Hv.
  unfold read_path. rewrite port2_reg by auto.
  destruct (path_chars_spec v Hs (Z.to_nat MAX_PATH) (reg2 v base 8) Hr) as (r & E & R).
  rewrite E. cbn [rbind]. cbv zeta in R. change (Z.of_nat (Z.to_nat MAX_PATH)) with 1024 in R.
  destruct r as [l|].
  - destruct R as (R1 & R2 & R3). unfold MAX_PATH in *.
    destruct (_ || _) eqn:F.
    + eexists. split; [reflexivity|]. intros p (P1 & P2 & P3). cbv zeta in P2, P3.
      destruct (Z_lt_dec (Z.of_nat (length p)) (Z.of_nat (length l))) as [L|L].
      * specialize (R2 (Z.of_nat (length p)) ltac:(lia)). lia.
      * destruct (Z_lt_dec (Z.of_nat (length l)) (Z.of_nat (length p))) as [L2|L2].
        -- specialize (P2 (Z.of_nat (length l)) ltac:(lia)). lia.
        -- lia.
    + eexists. split; [reflexivity|]. split; [lia|]. split; auto.
  - eexists. split; [reflexivity|]. intros p (P1 & P2 & P3). cbv zeta in P3.
    apply (R (Z.of_nat (length p))); auto; lia.
Qed.

(** ** C21 *)
Lemma shiftr4 x : Z.shiftr x 4 = x / 16.
Proof. rewrite Z.shiftr_div_pow2 by lia. reflexivity. Qed.
Lemma land15 x : Z.land x 15 = x mod 16.
Proof. change 15 with (Z.ones 4). rewrite Z.land_ones by lia. reflexivity. Qed.

Lemma put_digits_spec i : forall m bound dest size, 0 <= size ->
  0 <= dest + 1 - Z.of_nat i -> dest < bound ->
  exists m', put_digits i m bound dest size = Ok (m', size / 16 ^ Z.of_nat i) /\
  forall j, m' j = if (dest - Z.of_nat i <? j) && (j <=? dest) then hex_digit ((size / 16 ^ (dest - j)) mod 16) else m j.
Proof.
  induction i as [|i IH]; intros m bound dest size Hz H1 H2.
  - exists m. split; [cbn; f_equal; f_equal; rewrite Z.div_1_r; auto|].
    intros j. replace (_ && _) with false by lia. auto.
  - cbn [put_digits]. unfold aset. rewrite in_bounds_true by lia. cbn [rbind].
    rewrite shiftr4, land15.
    set (c := if 48 + size mod 16 >? 57 then _ else _).
    assert (C : c = hex_digit (size mod 16)).
    { unfold c, hex_digit. destruct (_ >? 57) eqn:E; destruct (_ <? 10) eqn:F; lia. }
    destruct (IH (upd m dest c) bound (dest - 1) (size / 16)) as (m' & E & P); try lia.
    exists m'. split.
    + rewrite E. f_equal. f_equal. rewrite Z.div_div by lia. f_equal.
      replace (Z.of_nat (S i)) with (1 + Z.of_nat i) by lia. rewrite Z.pow_add_r by lia. reflexivity.
    + intros j. rewrite P. destruct ((dest - 1 - Z.of_nat i <? j) && (j <=? dest - 1)) eqn:F.
      * replace (_ && _) with true by lia. f_equal. f_equal. rewrite Z.div_div by lia. f_equal.
        replace (dest - j) with (1 + (dest - 1 - j)) by lia. rewrite Z.pow_add_r by lia. reflexivity.
      * unfold upd. destruct (j =? dest) eqn:G.
        -- replace (_ && _) with true by lia. replace (dest - j) with 0 by lia.
           change (16 ^ 0) with 1. rewrite Z.div_1_r. exact C.
        -- replace (_ && _) with false by lia. auto.
Qed.

Lemma fill_spec m bound buf c len : 0 <= buf -> 0 <= len -> buf + len <= bound ->
  exists m', fill m bound buf c len = Ok m' /\ forall j, m' j = if (buf <=? j) && (j <? buf + len) then c else m j.
Proof.
  intros. unfold fill. destruct (len =? 0) eqn:E.
  - exists m. split; auto. intros j. replace (_ && _) with false by lia. auto.
  - replace (_ && _) with true by lia. eexists. split; [reflexivity|]. reflexivity.
Qed.

Lemma format_stat_spec m bound buf len s : stat_ok s -> 0 <= buf -> 0 <= len -> buf + len <= bound ->
  exists m', format_stat m bound buf len s = Ok m' /\
  forall j, m' j = if (buf <=? j) && (j <? buf + len) then stat_char s len (j - buf) else m j.
Proof.
  intros [Ht Hz] H1 H2 H3. unfold format_stat, stat_char, TYPE_INVALID, TYPE_REGULAR, TYPE_DIRECTORY.
  destruct (st_type s =? 0) eqn:T0; [apply fill_spec; auto|].
  destruct (st_type s =? 1) eqn:T1.
  - replace (st_type s =? 2) with false by lia.
    destruct (put_digits_spec (Z.to_nat len) m bound (buf + len - 1) (st_size s)) as (m1 & E & P); try lia.
    rewrite E. cbn [rbind]. rewrite Z2Nat.id in * by lia.
    assert (0 < 16 ^ len) by (apply Z.pow_pos_nonneg; lia).
    destruct (st_size s <? 16 ^ len) eqn:F.
    + rewrite Z.div_small by lia. cbn [Z.eqb negb]. exists m1. split; auto. intros j. rewrite P.
      destruct ((buf <=? j) && (j <? buf + len)) eqn:G.
      * replace (_ && _) with true by lia. f_equal. f_equal. f_equal. f_equal. lia.
      * replace (_ && _) with false by lia. auto.
    + assert (0 < st_size s / 16 ^ len) by (apply Z.div_str_pos; lia).
      replace (_ =? 0) with false by lia. cbn [negb].
      destruct (fill_spec m1 bound buf 63 len) as (m2 & E2 & P2); auto. exists m2. split; auto.
      intros j. rewrite P2. destruct ((buf <=? j) && (j <? buf + len)) eqn:G; auto.
      rewrite P. replace (_ && _) with false by lia. auto.
  - destruct (st_type s =? 2) eqn:T2; [apply fill_spec; auto|lia].
Qed.

Lemma stat_char_byte s n i : stat_ok s -> is_byte (stat_char s n i).
Proof.
  intros _. unfold stat_char, hex_digit, is_byte.
  repeat match goal with |- context [if ?b then _ else _] => destruct b eqn:? end; try lia.
Qed.

(** ** Lengths *)
Lemma clamp_spec len addr : is_short len -> is_short addr ->
  0 <= clamp_length len addr <= room addr len /\ (addr <> 0 -> clamp_length len addr = room addr len) /\
  (addr = 0 -> clamp_length len addr = 0).
Proof.
  unfold is_short, clamp_length, room, u16. intros.
  destruct (_ >? _) eqn:E; (split; [|split]); try lia.
Qed.

(** ** Ownership *)
Definition handle_ok (f : file) : Prop :=
  match f_handle f with
  | HNull => True
  | HSentinel => st_type (f_stat f) = 0
  | HReal _ => st_type (f_stat f) = 1 \/ st_type (f_stat f) = 2
  end.
Definition dir_ok (f : file) : Prop :=
  0 <= f_pos f <= 65535 /\ 0 <= f_len f <= 262 /\ (forall i, 0 <= i < 262 -> is_byte (f_buf f i)).
Definition file_ok (f : file) : Prop :=
  handle_ok f /\ dir_ok f /\ stat_ok (f_stat f) /\ is_short (f_success f).

Lemma accept_app a b o : accept (a ++ b) o = match accept b o with Some o' => accept a o' | None => None end.
Proof.
  induction a as [|c a IH]; cbn [app accept].
  - destruct (accept b o); auto.
  - rewrite IH. destruct (accept b o); auto.
Qed.

Lemma accept_all new o : Forall (fun c => next o c = Some o) new -> accept new o = Some o.
Proof. induction 1 as [|c new Hc _ IH]; cbn [accept]; auto. rewrite IH. auto. Qed.

(** ** Data moved *)
Lemma concat_rev_app {A} (g : call -> list A) a b :
  concat (map g (rev (a ++ b))) = concat (map g (rev b)) ++ concat (map g (rev a)).
Proof. rewrite rev_app_distr, map_app, concat_app. auto. Qed.
Lemma bytes_read_app a b : bytes_read (a ++ b) = bytes_read b ++ bytes_read a.
Proof. apply concat_rev_app. Qed.
Lemma bytes_written_app a b : bytes_written (a ++ b) = bytes_written b ++ bytes_written a.
Proof. apply concat_rev_app. Qed.
Lemma listing_app a b : listing (a ++ b) = listing b ++ listing a.
Proof. apply concat_rev_app. Qed.

Definition no_data (c : call) : Prop :=
  match c with CRead _ _ _ | CWrite _ _ _ | CReadDir _ _ => False | _ => True end.
Lemma concat_nil (g : call -> list Z) new : Forall (fun c => g c = []) new -> concat (map g (rev new)) = [].
Proof.
  induction 1 as [|c new Hc _ IH]; auto. cbn [rev]. rewrite map_app, concat_app, IH. cbn. rewrite Hc. auto.
Qed.
Lemma no_data_read new : Forall no_data new -> bytes_read new = [].
Proof. intros H. apply concat_nil. eapply Forall_impl; [|exact H]. intros []; cbn; tauto. Qed.
Lemma no_data_written new : Forall no_data new -> bytes_written new = [].
Proof. intros H. apply concat_nil. eapply Forall_impl; [|exact H]. intros []; cbn; tauto. Qed.
Lemma no_data_listing new : Forall no_data new -> listing new = [].
Proof. intros H. apply concat_nil. eapply Forall_impl; [|exact H]. intros []; cbn; tauto. Qed.

(** ** Memory *)
Lemma put_well_typed v v' a l : well_typed v -> only_memory v v' -> Forall is_byte l ->
  (forall j, vm_mem v' j = put (vm_mem v) a l j) -> well_typed v'.
Proof.
  intros (A & B & C & D & E & F & G) (o1 & o2 & o3 & o4 & o5 & o6) Hl Hm.
  unfold well_typed. rewrite o1, o2, o3, o4, o5, o6. repeat (split; auto).
  all: specialize (Hm i); rewrite Hm; unfold put; destruct (_ && _) eqn:X; [|apply F; auto].
  all: rewrite Forall_forall in Hl; apply Hl, nth_In; lia.
Qed.
Lemma only_memory_refl v : only_memory v v.
Proof. unfold only_memory. auto 10. Qed.
Lemma only_memory_trans a b c : only_memory a b -> only_memory b c -> only_memory a c.
Proof. unfold only_memory. intuition congruence. Qed.
Lemma only_memory_set v m : only_memory v (vm_set_mem v m).
Proof. unfold only_memory. cbn. auto 10. Qed.

Lemma slice_bytes m a n : (forall i, a <= i < a + n -> is_byte (m i)) -> Forall is_byte (slice m a n).
Proof.
  intros H. unfold slice. rewrite Forall_forall. intros x Hx. apply in_map_iff in Hx as (k & <- & Hk).
  apply in_seq in Hk. apply H. lia.
Qed.

Definition fits (e : list Z * fstat) : bool := Z.of_nat (length (fst e)) <=? 256.
Definition pending (pos len : Z) (buf : arr) : list Z := slice buf pos (len - pos).
Definition buf_ok (pos len : Z) (buf : arr) : Prop :=
  0 <= pos <= 65535 /\ 0 <= len <= 262 /\ (forall i, 0 <= i < 262 -> is_byte (buf i)).

Lemma slice_neg m a n : n <= 0 -> slice m a n = [].
Proof. intros. unfold slice. replace (Z.to_nat n) with 0%nat by lia. auto. Qed.

Lemma bytes_read_cons x n l rest : bytes_read (rest ++ [CRead x n l]) = l ++ bytes_read rest.
Proof. rewrite bytes_read_app. cbn. rewrite app_nil_r. auto. Qed.

Lemma reads_fit_snoc len x n l rest : n <= len -> reads_fit (len - Z.of_nat (length l)) rest ->
  reads_fit len (rest ++ [CRead x n l]).
Proof.
  intros Hn H newer x' n' l' older E.
  destruct (rev older) as [|o r] eqn:R.
  - apply (f_equal (@rev call)) in R. rewrite rev_involutive in R. subst older. cbn in E |- *.
    apply app_inj_tail in E as [_ E]. inversion E; subst. lia.
  - apply (f_equal (@rev call)) in R. rewrite rev_involutive in R. cbn in R. subst older.
    rewrite app_comm_cons, app_assoc in E. apply app_inj_tail in E as [E1 E2]. subst o rest.
    specialize (H newer x' n' l' (rev r) eq_refl).
    rewrite bytes_read_cons, app_length. lia.
Qed.
Lemma reads_fit_nil len : reads_fit len [].
Proof. intros newer x n l older E. destruct newer; discriminate. Qed.
Lemma reads_fit_app len new old : Forall no_data old -> reads_fit len new -> reads_fit len (new ++ old).
Proof.
  revert new. induction old as [|c old IH] using rev_ind; intros new Hd H; [rewrite app_nil_r; auto|].
  apply Forall_app in Hd as [Hd Hc]. inversion Hc as [|? ? Hc' _]; subst. rewrite app_assoc.
  specialize (IH new Hd H). intros newer x n l older E.
  destruct (rev older) as [|o r] eqn:R.
  - apply (f_equal (@rev call)) in R. rewrite rev_involutive in R. subst older.
    apply app_inj_tail in E as [_ E]. subst c. destruct Hc'.
  - apply (f_equal (@rev call)) in R. rewrite rev_involutive in R. cbn in R. subst older.
    rewrite app_comm_cons, app_assoc in E. apply app_inj_tail in E as [E1 E2]. subst o.
    specialize (IH newer x n l (rev r) E1). rewrite bytes_read_app.
    rewrite (no_data_read [c]) by (constructor; auto). exact IH.
Qed.

Section WithHost.
Variable H : Type.
Variable hs : host H.
Variable HOK : host_ok hs.
Notation fs := (fs H).

Definition good (s : fs) : Prop := well_typed (fs_vm H s) /\ file_ok (fs_file H s).

Lemma close_on_mode_change_spec s mode : file_ok (fs_file H s) ->
  let s' := close_on_mode_change H hs s mode in
  let f := fs_file H s in let f' := fs_file H s' in
  exists new,
  fs_vm H s' = fs_vm H s /\ fs_log H s' = new ++ fs_log H s /\ accept new (recorded f) = Some (recorded f') /\
  file_ok f' /\ (f_handle f' = HNull \/ f_mode f' = mode) /\
  f_pos f' = f_pos f /\ f_len f' = f_len f /\ f_buf f' = f_buf f /\
  Forall (fun c => path_of c = None) new /\ Forall no_data new.
Proof.
  intros (Hh & Hd & Hst & Hsu). cbv zeta. unfold close_on_mode_change.
  destruct (fs_file H s) as [h m st su p l b] eqn:Ef.
  unfold handle_ok, recorded, file_ok, f_set_success, f_set_handle, TYPE_REGULAR, TYPE_DIRECTORY in *.
  cbn [f_handle f_mode f_stat f_success f_pos f_len f_buf] in *.
  destruct h as [| |h]; cbn [is_null is_sentinel negb andb].
  - exists []. rewrite Ef. cbn. auto 15.
  - destruct (m =? mode) eqn:Em; cbn [negb andb].
    + exists []. rewrite Ef. cbn. repeat (split; auto). right; lia.
    + exists []. cbn. repeat (split; auto; try (unfold is_short; lia)); try apply Hd; repeat constructor; auto.
  - destruct (m =? mode) eqn:Em; cbn [negb andb].
    + exists []. rewrite Ef. cbn. repeat (split; auto). right; lia.
    + destruct (st_type st =? 1) eqn:T1.
      * exists [CClose (HReal h)]. cbn. rewrite ?Z.eqb_refl. repeat (split; auto; try (unfold is_short; lia)); try apply Hd; repeat constructor; auto.
      * destruct Hh as [Hh|Hh]; [lia|]. rewrite Hh. cbn [Z.eqb].
        exists [CCloseDir (HReal h)]. cbn. rewrite ?Z.eqb_refl. repeat (split; auto; try (unfold is_short; lia)); try apply Hd; repeat constructor; auto.
Qed.

Lemma open_if_closed_spec s base mode : good s -> 0 <= base <= 240 ->
  exists s' new, open_if_closed H hs s base mode = Ok s' /\
  let f := fs_file H s in let f' := fs_file H s' in
  fs_vm H s' = fs_vm H s /\ fs_log H s' = new ++ fs_log H s /\ accept new (recorded f) = Some (recorded f') /\
  file_ok f' /\ (f_handle f = HNull -> f_handle f' = HNull \/ f_mode f' = mode) /\
  (f_handle f <> HNull -> s' = s) /\
  f_pos f' = f_pos f /\ f_len f' = f_len f /\ f_buf f' = f_buf f /\
  Forall (fun c => match path_of c with Some p => name_at (fs_vm H s) base p | None => True end) new /\
  Forall no_data new.
Proof using HOK.
  intros (Hv & Hh & Hd & Hst & Hsu) Hb. unfold open_if_closed.
  destruct (is_null (f_handle (fs_file H s))) eqn:En.
  2:{ exists s, []. split; auto. cbn. repeat (split; auto); try apply Hd. all: intros E; rewrite E in En; discriminate. }
  destruct (read_path_spec (fs_vm H s) base Hv Hb) as (r & Er & Hr). rewrite Er. cbn [rbind].
  assert (Hn : f_handle (fs_file H s) = HNull) by (destruct (f_handle (fs_file H s)); auto; discriminate).
  destruct r as [path|].
  2:{ exists s, []. split; auto. cbn. repeat (split; auto); try apply Hd. }
  unfold do_stat. destruct (h_stat hs path (fs_host H s)) as [stat h1] eqn:Es.
  assert (Hs : stat_ok stat). { destruct HOK as [Q _]. specialize (Q path (fs_host H s)). rewrite Es in Q. exact Q. }
  cbn [fs_file called].
  destruct (fs_file H s) as [h m st su p l b] eqn:Ef.
  unfold handle_ok, recorded, file_ok, f_set_success, f_set_handle, f_set_mode, f_set_stat, TYPE_REGULAR, TYPE_DIRECTORY, TYPE_INVALID, MODE_READ in *.
  cbn [f_handle f_mode f_stat f_success f_pos f_len f_buf] in *. subst h.
  assert (Hstn : stat_ok (mkStat 1 (st_size stat))) by (destruct Hs; split; cbn; lia).
  destruct (st_type stat =? 1) eqn:T1; [|destruct (st_type stat =? 2) eqn:T2; [|destruct (st_type stat =? 0) eqn:T0]].
  - unfold do_fopen. destruct (h_fopen hs path mode _) as [rr h2] eqn:Eo.
    exists (set_file H (called H (called H s h1 (CStat path)) h2 (COpen path mode rr)) (mkFile (hptr_of rr) mode stat su p l b)), [COpen path mode rr; CStat path].
    split; [reflexivity|]. cbn [fs_vm fs_file fs_log set_file called app accept next f_handle f_mode f_stat f_success f_pos f_len f_buf].
    destruct rr as [h|]; cbn [hptr_of].
    all: split; [reflexivity|]; split; [reflexivity|]; split; [try rewrite T1; reflexivity|].
    all: split; [split; [first [exact I | cbn; lia]|]; split; [exact Hd|]; split; auto|].
    all: split; [auto|]; split; [intros X; contradiction X; reflexivity|].
    all: repeat (split; [reflexivity|]).
    all: split; [repeat (apply Forall_cons; [cbn; auto|]); apply Forall_nil|repeat (apply Forall_cons; [cbn; auto|]); apply Forall_nil].
  - unfold do_opendir. destruct (h_opendir hs path _) as [rr h2] eqn:Eo.
    exists (set_file H (called H (called H s h1 (CStat path)) h2 (COpenDir path rr)) (mkFile (hptr_of rr) mode stat su p l b)), [COpenDir path rr; CStat path].
    split; [reflexivity|]. cbn [fs_vm fs_file fs_log set_file called app accept next f_handle f_mode f_stat f_success f_pos f_len f_buf].
    destruct rr as [h|]; cbn [hptr_of].
    all: split; [reflexivity|]; split; [reflexivity|]; split; [try rewrite T1; reflexivity|].
    all: split; [split; [first [exact I | cbn; lia]|]; split; [exact Hd|]; split; auto|].
    all: split; [auto|]; split; [intros X; contradiction X; reflexivity|].
    all: repeat (split; [reflexivity|]).
    all: split; [repeat (apply Forall_cons; [cbn; auto|]); apply Forall_nil|repeat (apply Forall_cons; [cbn; auto|]); apply Forall_nil].
  - destruct (mode =? 0) eqn:M0; cbn [negb].
    + exists (set_file H (called H s h1 (CStat path)) (mkFile HSentinel mode stat su p l b)), [CStat path].
      split; [reflexivity|]. cbn [fs_vm fs_file fs_log set_file called app accept next f_handle f_mode f_stat f_success f_pos f_len f_buf].
      split; [reflexivity|]; split; [reflexivity|]; split; [reflexivity|].
      split; [split; [cbn; lia|]; split; [exact Hd|]; split; auto|].
      split; [auto|]; split; [intros X; contradiction X; reflexivity|].
      repeat (split; [reflexivity|]).
      split; [repeat (apply Forall_cons; [cbn; auto|]); apply Forall_nil|repeat (apply Forall_cons; [cbn; auto|]); apply Forall_nil].
    + unfold do_fopen. destruct (h_fopen hs path mode _) as [rr h2] eqn:Eo.
      exists (set_file H (called H (called H s h1 (CStat path)) h2 (COpen path mode rr)) (mkFile (hptr_of rr) mode (mkStat 1 (st_size stat)) su p l b)), [COpen path mode rr; CStat path].
      split; [reflexivity|]. cbn [fs_vm fs_file fs_log set_file called app accept next f_handle f_mode f_stat f_success f_pos f_len f_buf].
      destruct rr as [h|]; cbn [hptr_of].
      all: split; [reflexivity|]; split; [reflexivity|]; split; [reflexivity|].
      all: split; [split; [first [exact I | cbn; lia]|]; split; [exact Hd|]; split; auto|].
      all: split; [auto|]; split; [intros X; contradiction X; reflexivity|].
      all: repeat (split; [reflexivity|]).
      all: split; [repeat (apply Forall_cons; [cbn; auto|]); apply Forall_nil|repeat (apply Forall_cons; [cbn; auto|]); apply Forall_nil].
  - exfalso. destruct Hs. lia.
Qed.

Lemma set_mode_spec s base mode : good s -> 0 <= base <= 240 ->
  exists s' new, set_mode H hs s base mode = Ok s' /\
  let f := fs_file H s in let f' := fs_file H s' in
  fs_vm H s' = fs_vm H s /\ fs_log H s' = new ++ fs_log H s /\ accept new (recorded f) = Some (recorded f') /\
  file_ok f' /\ (f_handle f' = HNull \/ f_mode f' = mode) /\
  (f_handle f <> HNull -> f_mode f = mode -> s' = s) /\
  f_pos f' = f_pos f /\ f_len f' = f_len f /\ f_buf f' = f_buf f /\
  Forall (fun c => match path_of c with Some p => name_at (fs_vm H s) base p | None => True end) new /\
  Forall no_data new.
Proof using HOK.
  intros [Hv Hf] Hb. unfold set_mode.
  destruct (close_on_mode_change_spec s mode Hf) as (n1 & c1 & c2 & c3 & c4 & c5 & c6 & c7 & c8 & c9 & c10).
  assert (Hsame : f_handle (fs_file H s) <> HNull -> f_mode (fs_file H s) = mode -> close_on_mode_change H hs s mode = s).
  { intros _ E. unfold close_on_mode_change. rewrite E, Z.eqb_refl. cbn [negb]. rewrite andb_false_r. auto. }
  set (s1 := close_on_mode_change H hs s mode) in *.
  destruct (open_if_closed_spec s1 base mode) as (s2 & n2 & e & d1 & d2 & d3 & d4 & d5 & d6 & d7 & d8 & d9 & d10 & d11).
  { split; [rewrite c1; auto|auto]. } { auto. }
  exists s2, (n2 ++ n1). split; auto. cbv zeta.
  split; [congruence|]. split; [rewrite d2, c2, app_assoc; auto|].
  split; [rewrite accept_app, c3; auto|]. split; auto.
  split.
  { destruct c5 as [c5|c5]; [apply d5; auto|].
    destruct (f_handle (fs_file H s1)) eqn:E; [apply d5; auto|rewrite d6 by congruence; auto..]. }
  split.
  { intros X Y. rewrite d6; [apply Hsame; auto|]. rewrite Hsame by auto. auto. }
  split; [congruence|]. split; [congruence|]. split; [congruence|].
  rewrite c1 in d10. split; apply Forall_app; split; auto.
  eapply Forall_impl; [|exact c9]. intros c Hc. cbn in Hc. rewrite Hc. auto.
Qed.

Lemma read_file_loop_spec x fuel : forall s length addr total,
  well_typed (fs_vm H s) -> 0 <= length <= Z.of_nat fuel -> 0 <= addr -> addr + length <= 65536 ->
  0 <= total -> total + length <= 65535 ->
  exists s' new bs, read_file_loop H hs fuel s length addr total x = Ok (s', total + Z.of_nat (List.length bs)) /\
  Z.of_nat (List.length bs) <= length /\ only_memory (fs_vm H s) (fs_vm H s') /\ Forall is_byte bs /\
  (forall j, vm_mem (fs_vm H s') j = put (vm_mem (fs_vm H s)) addr bs j) /\
  fs_file H s' = fs_file H s /\ fs_log H s' = new ++ fs_log H s /\
  bytes_read new = bs /\ reads_fit length new /\ Forall (fun c => exists n l, c = CRead x n l) new /\
  (Z.of_nat (List.length bs) = length \/ exists older, new = CRead x (length - Z.of_nat (List.length bs)) [] :: older).
Proof using HOK.
  induction fuel as [|fuel IH]; intros s len addr total Hv Hl Ha Hal Ht Htl; cbn [read_file_loop].
  - replace (len >? 0) with false by lia. cbn [negb]. exists s, [], []. cbn [List.length]. rewrite Z.add_0_r.
    repeat (split; [solve [auto using only_memory_refl, reads_fit_nil | cbn; lia | intros; rewrite put_nil; auto]|]). left; cbn; lia.
  - destruct (len >? 0) eqn:E0; cbn [negb].
    2:{ exists s, [], []. cbn [List.length]. rewrite Z.add_0_r.
      repeat (split; [solve [auto using only_memory_refl, reads_fit_nil | cbn; lia | intros; rewrite put_nil; auto]|]). left; cbn; lia. }
    unfold do_fread. destruct (h_fread hs x len (fs_host H s)) as [l h1] eqn:Er.
    assert (Hr : Z.of_nat (List.length l) <= len /\ Forall is_byte l).
    { destruct HOK as (_ & Q & _). specialize (Q x len (fs_host H s) ltac:(lia)). rewrite Er in Q. exact Q. }
    destruct Hr as [Hr1 Hr2]. cbn [fs_vm called].
    destruct (put_bytes_spec l (vm_mem (fs_vm H s)) (vm_msize (fs_vm H s)) addr Ha) as (m & Em & Pm).
    { assert (65536 <= vm_msize (fs_vm H s)) by apply Hv. lia. }
    rewrite Em. cbn [rbind]. assert (U : forall z, 0 <= z < 65536 -> u16 z = z) by (intros; apply Z.mod_small; auto).
    rewrite (U (Z.of_nat _)) by lia.
    set (s2 := set_memory H (called H s h1 (CRead x len l)) m).
    assert (Hv2 : well_typed (fs_vm H s2)) by (apply (put_well_typed (fs_vm H s) _ addr l); auto; apply only_memory_set).
    destruct (Z.of_nat (List.length l) =? 0) eqn:E1.
    + assert (l = []) by (destruct l; [auto|cbn in E1; lia]). subst l.
      exists s2, [CRead x len []], []. cbn [List.length]. rewrite Z.add_0_r.
      split; [reflexivity|]. split; [cbn; lia|]. split; [apply only_memory_set|]. split; [auto|].
      split; [exact Pm|]. split; [reflexivity|]. split; [reflexivity|]. split; [reflexivity|].
      split; [apply (reads_fit_snoc len x len [] []); [lia|apply reads_fit_nil]|].
      split; [eauto|]. right. exists []. repeat f_equal. cbn; lia.
    + rewrite (U (len - _)), (U (total + _)) by lia. unfold u16.
      destruct (IH s2 (len - Z.of_nat (List.length l)) ((addr + Z.of_nat (List.length l)) mod 65536) (total + Z.of_nat (List.length l)))
        as (s' & new & bs & I1 & I2 & I3 & I4 & I5 & I6 & I7 & I8 & I9 & I10 & I11); auto; try lia.
      exists s', (new ++ [CRead x len l]), (l ++ bs). rewrite app_length, Nat2Z.inj_add.
      split; [rewrite I1; f_equal; f_equal; lia|]. split; [lia|].
      split; [eapply only_memory_trans; [apply (only_memory_set (fs_vm H s))|exact I3]|].
      split; [apply Forall_app; auto|].
      split.
      { intros j. rewrite I5, put_app. destruct bs as [|b bs]; [rewrite !put_nil; apply Pm|].
        cbn [List.length] in I2. rewrite Z.mod_small by lia. apply put_ext. exact Pm. }
      split; [auto|]. split; [rewrite I7; cbn; rewrite <- app_assoc; auto|].
      split; [rewrite bytes_read_cons, I8; auto|].
      split; [apply reads_fit_snoc; auto; lia|].
      split; [apply Forall_app; split; eauto|].
      destruct I11 as [I11|(older & I11)]; [left; lia|right].
      exists (older ++ [CRead x len l]). rewrite I11. cbn [app]. f_equal. f_equal. lia.
Qed.

Lemma write_file_loop_spec x fuel : forall s length addr total,
  well_typed (fs_vm H s) -> 0 <= length <= Z.of_nat fuel -> 0 <= addr -> addr + length <= 65536 ->
  0 <= total -> total + length <= 65535 ->
  exists s' new n, write_file_loop H hs fuel s length addr total x = Ok (s', total + n) /\
  0 <= n <= length /\ fs_vm H s' = fs_vm H s /\ fs_file H s' = fs_file H s /\ fs_log H s' = new ++ fs_log H s /\
  bytes_written new = slice (vm_mem (fs_vm H s)) addr n /\
  Forall (fun c => exists l w, c = CWrite x l w) new /\
  (n = length \/ exists older, new = CWrite x (slice (vm_mem (fs_vm H s)) (addr + n) (length - n)) 0 :: older).
Proof using HOK.
  induction fuel as [|fuel IH]; intros s len addr total Hv Hl Ha Hal Ht Htl; cbn [write_file_loop].
  - replace (len >? 0) with false by lia. cbn [negb]. exists s, [], 0. rewrite Z.add_0_r. split; auto. split; [lia|].
    repeat (split; [auto|]). left; lia.
  - destruct (len >? 0) eqn:E0; cbn [negb].
    2:{ exists s, [], 0. rewrite Z.add_0_r. split; auto. split; [lia|]. repeat (split; [auto|]). left; lia. }
    assert (Hm : 65536 <= vm_msize (fs_vm H s)) by apply Hv.
    rewrite get_bytes_spec by lia. cbn [rbind]. rewrite Z2Nat.id by lia.
    unfold do_fwrite. set (l := slice _ _ _). destruct (h_fwrite hs x l (fs_host H s)) as [w h1] eqn:Er.
    assert (Hw : 0 <= w <= len).
    { destruct HOK as (_ & _ & Q & _). specialize (Q x l (fs_host H s)). rewrite Er in Q. cbn in Q.
      unfold l in Q. rewrite slice_length in Q by lia. exact Q. }
    assert (U : forall z, 0 <= z < 65536 -> u16 z = z) by (intros; apply Z.mod_small; auto).
    rewrite (U w) by lia. set (s1 := called H s h1 (CWrite x l w)).
    destruct (w =? 0) eqn:E1.
    + assert (w = 0) by lia. subst w. exists s1, [CWrite x l 0], 0. rewrite Z.add_0_r. split; auto. split; [lia|].
      split; [reflexivity|]. split; [reflexivity|]. split; [reflexivity|]. split; [reflexivity|].
      split; [eauto|]. right. exists []. unfold l. rewrite Z.add_0_r, Z.sub_0_r. auto.
    + rewrite (U (len - _)), (U (total + _)) by lia. unfold u16.
      destruct (IH s1 (len - w) ((addr + w) mod 65536) (total + w))
        as (s' & new & n & I1 & I2 & I3 & I4 & I5 & I6 & I7 & I8); auto; try lia.
      exists s', (new ++ [CWrite x l w]), (w + n). split; [rewrite I1; f_equal; f_equal; lia|]. split; [lia|].
      split; [auto|]. split; [auto|]. split; [rewrite I5; cbn; rewrite <- app_assoc; auto|].
      assert (A : n = 0 \/ (addr + w) mod 65536 = addr + w) by (destruct (Z.eq_dec n 0); [auto|right; lia]).
      split.
      { rewrite bytes_written_app, I6. unfold bytes_written at 1. cbn. rewrite app_nil_r.
        rewrite slice_app by lia. f_equal.
        - unfold l. replace len with (w + (len - w)) by lia. rewrite slice_app by lia.
          rewrite firstn_app, firstn_all2 by (pose proof (slice_length (vm_mem (fs_vm H s)) addr w); lia).
          pose proof (slice_length (vm_mem (fs_vm H s)) addr w).
          replace (Z.to_nat w - _)%nat with 0%nat by lia. cbn. apply app_nil_r.
        - destruct A as [->| ->]; auto. }
      split; [apply Forall_app; split; eauto|].
      destruct (Z.eq_dec (w + n) len) as [Z0|Z0]; [left; auto|right].
      destruct I8 as [I8|(older & I8)]; [lia|].
      exists (older ++ [CWrite x l w]). rewrite I8. cbn [app]. f_equal. rewrite Z.mod_small by lia.
      replace (len - (w + n)) with (len - w - n) by lia. f_equal. f_equal. lia.
Qed.
End WithHost.
