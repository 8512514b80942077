From Verif Require Import Base VmModel VmSpec VmProofs VmRun SystemSpec SystemProofs FileModel FileSpec FileProofs.
From Coq Require Import ZifyBool.
Ltac Zify.zify_post_hook ::= Z.div_mod_to_equations.

Lemma stat_text_slice s n m a : 0 <= n ->
  (forall j, 0 <= j < n -> m (a + j) = stat_char s n j) -> slice m a n = stat_text s n.
Proof.
  intros Hn Hm. unfold slice, stat_text. apply map_ext_in. intros k Hk. apply in_seq in Hk. apply Hm. lia.
Qed.

Lemma u16_small z : 0 <= z < 65536 -> u16 z = z.
Proof. intros. apply Z.mod_small. auto. Qed.

Lemma put_in m a l j : a <= j < a + Z.of_nat (length l) -> put m a l j = nth (Z.to_nat (j - a)) l 0.
Proof. intros. unfold put. replace (_ && _) with true by lia. auto. Qed.
Lemma put_out m a l j : j < a \/ a + Z.of_nat (length l) <= j -> put m a l j = m j.
Proof. intros. unfold put. replace (_ && _) with false by lia. auto. Qed.

Lemma slice_1 m a : slice m a 1 = [m a].
Proof. unfold slice. change (Z.to_nat 1) with 1%nat. cbn [seq map]. f_equal. f_equal. cbn. lia. Qed.

Section WithHost.
Variable H : Type.
Variable hs : host H.
Variable HOK : host_ok hs.
Notation fs := (fs H).

(** The refilled buffer holds the line of the entry. *)
Lemma refill_spec buf name stat : (forall i, 0 <= i < 262 -> is_byte (buf i)) -> Forall is_byte name -> stat_ok stat ->
  exists buf1, format_stat buf DIR_BUF 0 4 stat = Ok buf1 /\ (forall i, 0 <= i < 262 -> is_byte (buf1 i)) /\
  (Z.of_nat (length name) <= 256 ->
   exists buf2 buf3 buf4, aset DIR_BUF buf1 4 32 = Ok buf2 /\ put_bytes buf2 DIR_BUF 5 name = Ok buf3 /\
     aset DIR_BUF buf3 (5 + Z.of_nat (length name)) 10 = Ok buf4 /\
     slice buf4 0 (6 + Z.of_nat (length name)) = line (name, stat) /\
     (forall i, 0 <= i < 262 -> is_byte (buf4 i))).
Proof.
  intros Hb Hn Hs. unfold DIR_BUF.
  destruct (format_stat_spec buf 262 0 4 stat Hs) as (buf1 & E1 & P1); try lia.
  assert (B1 : forall i, 0 <= i < 262 -> is_byte (buf1 i)).
  { intros i Hi. rewrite P1. destruct (_ && _); auto using stat_char_byte. }
  exists buf1. split; auto. split; auto. intros Hl.
  destruct (put_bytes_spec name (upd buf1 4 32) 262 5) as (buf3 & E3 & P3); try lia.
  exists (upd buf1 4 32), buf3, (upd buf3 (5 + Z.of_nat (length name)) 10).
  split; [unfold aset; rewrite in_bounds_true by lia; auto|]. split; auto.
  split; [unfold aset; rewrite in_bounds_true by lia; auto|].
  assert (P4 : forall j, upd buf3 (5 + Z.of_nat (length name)) 10 j =
     if j =? 5 + Z.of_nat (length name) then 10 else put (upd buf1 4 32) 5 name j).
  { intros j. unfold upd at 1. destruct (_ =? _); auto. }
  set (buf4 := upd buf3 _ _) in *. split.
  - unfold line. cbn [fst snd]. replace (_ <=? 256) with true by lia.
    replace (6 + Z.of_nat (length name)) with (4 + (1 + (Z.of_nat (length name) + 1))) by lia.
    rewrite !slice_app by lia. f_equal; [|f_equal; [|f_equal]].
    + apply stat_text_slice; [lia|]. intros j Hj. rewrite P4. replace (_ =? _) with false by lia.
      rewrite put_out by lia. unfold upd. replace (_ =? 4) with false by lia. rewrite P1.
      replace (_ && _) with true by lia. f_equal; lia.
    + rewrite slice_1, P4. replace (_ =? _) with false by lia. rewrite put_out by lia. reflexivity.
    + transitivity (slice (put (upd buf1 4 32) 5 name) 5 (Z.of_nat (length name))); [|apply slice_put].
      replace (0 + 4 + 1) with 5 by lia. apply slice_ext. intros j Hj. rewrite P4.
      replace (_ =? _) with false by lia. auto.
    + rewrite slice_1, P4. replace (_ =? _) with true by lia. auto.
  - intros i Hi. rewrite P4. destruct (_ =? _); [unfold is_byte; lia|]. unfold put.
    destruct (_ && _) eqn:E; [rewrite Forall_forall in Hn; apply Hn, nth_In; lia|].
    unfold upd. destruct (i =? 4); [unfold is_byte; lia|auto].
Qed.

Lemma read_dir_loop_spec x fuel : forall s length addr total pos len buf,
  well_typed (fs_vm H s) -> 0 <= length <= Z.of_nat fuel -> 0 <= addr -> addr + length <= 65536 ->
  0 <= total -> total + length <= 65535 -> buf_ok pos len buf ->
  exists s' new bs pos' len' buf',
  read_dir_loop H hs fuel s length addr total pos len buf x = Ok (s', total + Z.of_nat (List.length bs), pos', len', buf') /\
  Z.of_nat (List.length bs) <= length /\ only_memory (fs_vm H s) (fs_vm H s') /\ Forall is_byte bs /\
  (forall j, vm_mem (fs_vm H s') j = put (vm_mem (fs_vm H s)) addr bs j) /\
  fs_file H s' = fs_file H s /\ fs_log H s' = new ++ fs_log H s /\ buf_ok pos' len' buf' /\
  bs ++ pending pos' len' buf' = pending pos len buf ++ listing new /\
  Forall (fun c => exists r, c = CReadDir x r) new /\
  (Z.of_nat (List.length bs) = length \/ exists r older, new = CReadDir x r :: older /\ pending pos' len' buf' = [] /\
     match r with Some e => fits e = false | None => True end).
Proof using HOK.
  induction fuel as [|fuel IH]; intros s len0 addr total pos len buf Hv Hl Ha Hal Ht Htl Hbuf; cbn [read_dir_loop].
  { replace (len0 >? 0) with false by lia. cbn [negb]. exists s, [], [], pos, len, buf. cbn [List.length app]. rewrite Z.add_0_r.
    split; [auto|]. split; [cbn; lia|]. split; [apply only_memory_refl|]. split; [auto|].
    split; [intros; rewrite put_nil; auto|]. split; [auto|]. split; [auto|]. split; [auto|].
    split; [cbn; rewrite app_nil_r; auto|]. split; [auto|]. left. cbn. lia. }
  destruct (len0 >? 0) eqn:E0; cbn [negb].
  2:{ exists s, [], [], pos, len, buf. cbn [List.length app]. rewrite Z.add_0_r.
    split; [auto|]. split; [cbn; lia|]. split; [apply only_memory_refl|]. split; [auto|].
    split; [intros; rewrite put_nil; auto|]. split; [auto|]. split; [auto|]. split; [auto|].
    split; [cbn; rewrite app_nil_r; auto|]. split; [auto|]. left. cbn. lia. }
  assert (Hm : 65536 <= vm_msize (fs_vm H s)) by apply Hv.
  (* one delivery followed by the rest of the loop *)
  assert (D : forall s1 pre pos len buf, fs_vm H s1 = fs_vm H s -> fs_file H s1 = fs_file H s ->
    fs_log H s1 = pre ++ fs_log H s -> Forall (fun c => exists r, c = CReadDir x r) pre ->
    buf_ok pos len buf -> pos < len ->
    exists s' new bs pos' len' buf',
    (let available := u16 (len - pos) in
     let n := if len0 <? available then len0 else available in
     rbind (get_bytes (Z.to_nat n) buf DIR_BUF pos) (fun l =>
     rbind (put_bytes (vm_mem (fs_vm H s1)) (vm_msize (fs_vm H s1)) addr l) (fun m =>
     read_dir_loop H hs fuel (set_memory H s1 m) (u16 (len0 - n)) (u16 (addr + n)) (u16 (total + n))
          (u16 (pos + n)) len buf x))) = Ok (s', total + Z.of_nat (List.length bs), pos', len', buf') /\
    Z.of_nat (List.length bs) <= len0 /\ only_memory (fs_vm H s) (fs_vm H s') /\ Forall is_byte bs /\
    (forall j, vm_mem (fs_vm H s') j = put (vm_mem (fs_vm H s)) addr bs j) /\
    fs_file H s' = fs_file H s /\ fs_log H s' = new ++ pre ++ fs_log H s /\ buf_ok pos' len' buf' /\
    bs ++ pending pos' len' buf' = pending pos len buf ++ listing new /\
    Forall (fun c => exists r, c = CReadDir x r) new /\
    (Z.of_nat (List.length bs) = len0 \/ exists r older, new = CReadDir x r :: older /\ pending pos' len' buf' = [] /\
       match r with Some e => fits e = false | None => True end)).
  { clear pos len buf Hbuf. intros s1 pre pos len buf Ev Ef Elog Hpre (Hb1 & Hb2 & Hb3) Hpl. cbv zeta.
    rewrite (u16_small (len - pos)) by lia.
    set (n := if len0 <? len - pos then len0 else len - pos).
    assert (Hn : 0 < n <= len0 /\ n <= len - pos) by (unfold n; destruct (_ <? _) eqn:?; lia).
    unfold DIR_BUF. rewrite get_bytes_spec by lia. cbn [rbind]. rewrite Z2Nat.id by lia.
    set (l := slice buf pos n).
    assert (Ll : Z.of_nat (List.length l) = n) by (apply slice_length; lia).
    assert (Bl : Forall is_byte l) by (apply slice_bytes; intros; apply Hb3; lia).
    rewrite Ev.
    destruct (put_bytes_spec l (vm_mem (fs_vm H s)) (vm_msize (fs_vm H s)) addr Ha) as (m & Em & Pm); [lia|].
    rewrite Em. cbn [rbind]. rewrite (u16_small (len0 - n)), (u16_small (total + n)), (u16_small (pos + n)) by lia.
    assert (Hv2 : well_typed (fs_vm H (set_memory H s1 m))).
    { cbn. rewrite Ev. apply (put_well_typed (fs_vm H s) _ addr l); auto. apply only_memory_set. }
    destruct (IH (set_memory H s1 m) (len0 - n) (u16 (addr + n)) (total + n) (pos + n) len buf)
      as (s' & new & bs & pos' & len' & buf' & I1 & I2 & I3 & I4 & I5 & I6 & I7 & I8 & I9 & I10 & I11);
      auto; try lia; try (unfold u16; lia).
    { split; [lia|]. split; auto. }
    exists s', new, (l ++ bs), pos', len', buf'. rewrite app_length, Nat2Z.inj_add, Ll.
    split; [rewrite I1, Z.add_assoc; reflexivity|]. split; [lia|].
    split; [eapply only_memory_trans; [|exact I3]; cbn; rewrite Ev; apply only_memory_set|].
    split; [apply Forall_app; auto|]. split.
    { intros j. rewrite I5, put_app, Ll. cbn. destruct bs as [|b bs]; [rewrite !put_nil; apply Pm|].
      cbn [List.length] in I2. rewrite u16_small by lia. apply put_ext. exact Pm. }
    split; [rewrite I6; cbn; auto|]. split; [rewrite I7; cbn; rewrite Elog; auto|]. split; auto.
    split.
    { rewrite <- app_assoc, I9, app_assoc. f_equal. unfold pending, l.
      replace (len - pos) with (n + (len - (pos + n))) by lia. rewrite slice_app by lia. auto. }
    split; auto.
    destruct I11 as [I11|I11]; [left; lia|right; exact I11]. }
  destruct (pos >=? len) eqn:E1.
  - assert (Pn : pending pos len buf = []) by (apply slice_neg; lia).
    unfold do_readdir. destruct (h_readdir hs x (fs_host H s)) as [r h1] eqn:Er.
    assert (Hr : match r with Some (name, st) => Forall is_byte name /\ stat_ok st | None => True end).
    { destruct HOK as (_ & _ & _ & Q). specialize (Q x (fs_host H s)). rewrite Er in Q. exact Q. }
    destruct r as [[name st]|].
    + destruct Hr as [Hr1 Hr2].
      destruct (refill_spec buf name st) as (buf1 & F1 & F2 & F3); auto; [apply Hbuf|].
      rewrite F1. cbn [rbind]. unfold DIR_BUF in *.
      destruct (4 + Z.of_nat (List.length name) + 2 >? 262) eqn:E2.
      * exists (called H s h1 (CReadDir x (Some (name, st)))), [CReadDir x (Some (name, st))], [], 0, 0, buf1.
        cbn [List.length app]. rewrite Z.add_0_r. split; [reflexivity|]. split; [cbn; lia|]. split; [apply only_memory_refl|].
        split; [auto|]. split; [intros; rewrite put_nil; auto|]. split; [auto|]. split; [auto|].
        split; [split; [lia|]; split; [lia|auto]|].
        split; [rewrite Pn; unfold listing; cbn; unfold line; cbn [fst]; replace (_ <=? 256) with false by lia; auto|].
        split; [eauto|]. right. eexists _, []. split; [reflexivity|]. split; [reflexivity|]. unfold fits; cbn [fst]. lia.
      * destruct F3 as (buf2 & buf3 & buf4 & G1 & G2 & G3 & G4 & G5); [lia|].
        rewrite G1. cbn [rbind]. rewrite G2. cbn [rbind].
        rewrite (u16_small (Z.of_nat _)) by lia. rewrite (u16_small (5 + _)) by lia.
        rewrite G3. cbn [rbind]. rewrite (u16_small (_ + 1)) by lia.
        destruct (D (called H s h1 (CReadDir x (Some (name, st)))) [CReadDir x (Some (name, st))] 0 (5 + Z.of_nat (List.length name) + 1) buf4)
          as (s' & new & bs & pos' & len' & buf' & I1 & I2 & I3 & I4 & I5 & I6 & I7 & I8 & I9 & I10 & I11); auto.
        { repeat constructor. eauto. } { split; [lia|]. split; [lia|auto]. } { lia. }
        exists s', (new ++ [CReadDir x (Some (name, st))]), bs, pos', len', buf'.
        split; [exact I1|]. split; [auto|]. split; [auto|]. split; [auto|]. split; [auto|]. split; [auto|].
        split; [rewrite I7, <- app_assoc; auto|]. split; [auto|].
        split.
        { rewrite I9, Pn, listing_app. unfold pending.
          replace (5 + Z.of_nat (List.length name) + 1 - 0) with (6 + Z.of_nat (List.length name)) by lia.
          rewrite G4. unfold listing at 3. cbn. rewrite app_nil_r. auto. }
        split; [apply Forall_app; split; eauto|].
        destruct I11 as [I11|(r & older & I11 & I12)]; [auto|right].
        exists r, (older ++ [CReadDir x (Some (name, st))]). rewrite I11. auto.
    + exists (called H s h1 (CReadDir x None)), [CReadDir x None], [], 0, 0, buf.
      cbn [List.length app]. rewrite Z.add_0_r. split; [reflexivity|]. split; [cbn; lia|]. split; [apply only_memory_refl|].
      split; [auto|]. split; [intros; rewrite put_nil; auto|]. split; [auto|]. split; [auto|].
      split; [split; [lia|]; split; [lia|apply Hbuf]|].
      split; [rewrite Pn; reflexivity|].
      split; [eauto|]. right. eexists _, []. split; [reflexivity|]. split; [reflexivity|]. auto.
  - destruct (D s [] pos len buf)
      as (s' & new & bs & pos' & len' & buf' & I1 & I2 & I3 & I4 & I5 & I6 & I7 & I8 & I9 & I10 & I11); auto.
    { lia. }
    exists s', new, bs, pos', len', buf'. cbn [app] in I7. auto 15.
Qed.

(** ** The ports *)
Notation good := (good H).
Definition named (v : vm) (base : Z) (new : list call) : Prop :=
  Forall (fun c => match path_of c with Some p => name_at v base p | None => True end) new.

(** What holds of every port write. *)
Definition port_ok (s s' : fs) (base : Z) (new : list call) (addr n : Z) : Prop :=
  good s' /\ fs_log H s' = new ++ fs_log H s /\
  accept new (recorded (fs_file H s)) = Some (recorded (fs_file H s')) /\
  named (fs_vm H s) base new /\ only_memory (fs_vm H s) (fs_vm H s') /\
  0 <= n /\ (forall j, ~ (addr <= j < addr + n) -> vm_mem (fs_vm H s') j = vm_mem (fs_vm H s) j).

Lemma named_other v base new : Forall (fun c => path_of c = None) new -> named v base new.
Proof. intros X. eapply Forall_impl; [|exact X]. intros c Hc. cbn in Hc. rewrite Hc. auto. Qed.

Lemma good_set_success s n : good s -> is_short n -> good (set_success H s n).
Proof.
  intros (A & B & C & D & E) Hn. split; [exact A|]. split; [exact B|]. split; [exact C|]. split; [exact D|exact Hn].
Qed.

Lemma clamp_room v base a : well_typed v -> 0 <= base <= 240 ->
  let len := clamp_length (reg2 v base 10) (reg2 v base a) in
  0 <= len <= 65535 /\ reg2 v base a + len <= 65536 /\ 0 <= reg2 v base a <= 65535 /\
  len <= room (reg2 v base a) (reg2 v base 10) /\
  (reg2 v base a <> 0 -> len = room (reg2 v base a) (reg2 v base 10)) /\ (reg2 v base a = 0 -> len = 0).
Proof.
  intros Hv Hb. cbv zeta. pose proof (reg2_range v base 10 Hv Hb) as R1. pose proof (reg2_range v base a Hv Hb) as R2.
  destruct (clamp_spec _ _ R1 R2) as (A & B & C). unfold room, is_short in *. repeat split; try lia; auto.
Qed.

Lemma stat_write_ok v addr len st : well_typed v -> 0 <= addr -> 0 <= len -> addr + len <= 65536 -> stat_ok st ->
  exists m, format_stat (vm_mem v) (vm_msize v) addr len st = Ok m /\
  (forall j, m j = if (addr <=? j) && (j <? addr + len) then stat_char st len (j - addr) else vm_mem v j) /\
  well_typed (vm_set_mem v m).
Proof.
  intros Hv Ha Hl Hal Hst. assert (65536 <= vm_msize v) by apply Hv.
  destruct (format_stat_spec (vm_mem v) (vm_msize v) addr len st) as (m & E & P); auto; [lia|].
  exists m. split; auto. split; auto.
  destruct Hv as (A & B & C & D & E1 & F & G). repeat (split; auto); cbn; rewrite P; destruct (_ && _); auto;
  try apply (stat_char_byte st len _ Hst); try apply F; auto.
Qed.

(** Stat port: an open handle shows its own status, otherwise the host is asked. *)
Lemma port_stat_spec s base : good s -> 0 <= base <= 240 ->
  exists s' new, port_stat H hs s base = Ok s' /\
  let v := fs_vm H s in let addr := reg2 v base 4 in let len := clamp_length (reg2 v base 10) addr in
  port_ok s s' base new addr len /\
  ((exists st, stat_ok st /\ f_success (fs_file H s') = len /\
     (forall j, addr <= j < addr + len -> vm_mem (fs_vm H s') j = stat_char st len (j - addr)) /\
     ((f_handle (fs_file H s) <> HNull /\ new = [] /\ st = f_stat (fs_file H s)) \/
      (exists p, f_handle (fs_file H s) = HNull /\ new = [CStat p] /\ st = fst (h_stat hs p (fs_host H s))))) \/
   (f_handle (fs_file H s) = HNull /\ new = [] /\ f_success (fs_file H s') = 0 /\ fs_vm H s' = v /\
    forall p, ~ name_at v base p)).
Proof using HOK.
  intros [Hv Hf] Hb. unfold port_stat. rewrite !port2_reg by auto.
  destruct (clamp_room (fs_vm H s) base 4 Hv Hb) as (C1 & C2 & C3 & C4 & _).
  set (addr := reg2 _ base 4) in *. set (len := clamp_length _ _) in *.
  pose proof Hf as (Hh & Hd & Hst & Hsu).
  destruct (is_null (f_handle (fs_file H s))) eqn:En; cbn [negb].
  - assert (Hn : f_handle (fs_file H s) = HNull) by (destruct (f_handle (fs_file H s)); auto; discriminate).
    destruct (read_path_spec (fs_vm H s) base Hv Hb) as (r & Er & Hr). rewrite Er. cbn [rbind]. destruct r as [p|].
    + unfold do_stat. destruct (h_stat hs p (fs_host H s)) as [st h1] eqn:Es.
      assert (Hs : stat_ok st). { destruct HOK as [Q _]. specialize (Q p (fs_host H s)). rewrite Es in Q. exact Q. }
      destruct (stat_write_ok (fs_vm H s) addr len st) as (m & E & P & W); auto; try lia.
      rewrite E. cbn [rbind]. eexists _, [CStat p]. split; [reflexivity|]. cbv zeta. split.
      * split; [split; [exact W|split; [exact Hh|split; [exact Hd|split; [exact Hst|cbn; unfold is_short; lia]]]]|].
        split; [reflexivity|]. split; [reflexivity|]. split; [apply Forall_cons; [exact Hr|apply Forall_nil]|].
        split; [apply only_memory_set|]. split; [lia|].
        intros j Hj. cbn. rewrite P. replace (_ && _) with false by lia. auto.
      * left. exists st. split; auto. split; [reflexivity|]. split.
        { intros j Hj. cbn. rewrite P. replace (_ && _) with true by lia. auto. }
        right. exists p. rewrite Es. auto.
    + eexists _, []. split; [reflexivity|]. cbv zeta. split.
      * split; [apply good_set_success; [split; auto|unfold is_short; lia]|]. split; [reflexivity|]. split; [reflexivity|].
        split; [constructor|]. split; [apply only_memory_refl|]. split; [lia|auto].
      * right. auto 10.
  - destruct (stat_write_ok (fs_vm H s) addr len (f_stat (fs_file H s))) as (m & E & P & W); auto; try lia.
    rewrite E. cbn [rbind]. eexists _, []. split; [reflexivity|]. cbv zeta. split.
    + split; [split; [exact W|split; [exact Hh|split; [exact Hd|split; [exact Hst|cbn; unfold is_short; lia]]]]|].
      split; [reflexivity|]. split; [reflexivity|]. split; [constructor|].
      split; [apply only_memory_set|]. split; [lia|].
      intros j Hj. cbn. rewrite P. replace (_ && _) with false by lia. auto.
    + left. exists (f_stat (fs_file H s)). split; auto. split; [reflexivity|]. split.
      { intros j Hj. cbn. rewrite P. replace (_ && _) with true by lia. auto. }
      left. split; auto. intros X. rewrite X in En. discriminate.
Qed.

Lemma port_delete_spec s base : good s -> 0 <= base <= 240 ->
  exists s' new, port_delete H hs s base = Ok s' /\ fs_vm H s' = fs_vm H s /\
  port_ok s s' base new 0 0 /\
  ((exists p, name_at (fs_vm H s) base p /\ new = [CDelete p] /\
     f_success (fs_file H s') = if fst (h_delete hs p (fs_host H s)) then 1 else 0) \/
   (new = [] /\ f_success (fs_file H s') = 0 /\ forall p, ~ name_at (fs_vm H s) base p)).
Proof.
  intros [Hv Hf] Hb. unfold port_delete. pose proof Hf as (Hh & Hd & Hst & Hsu).
  destruct (read_path_spec (fs_vm H s) base Hv Hb) as (r & Er & Hr). rewrite Er. cbn [rbind]. destruct r as [p|].
  - unfold do_delete. destruct (h_delete hs p (fs_host H s)) as [b h1] eqn:Es.
    eexists _, [CDelete p]. split; [reflexivity|]. split; [reflexivity|]. split.
    + split; [split; [exact Hv|split; [exact Hh|split; [exact Hd|split; [exact Hst|cbn; unfold b2z, is_short; destruct b; lia]]]]|].
      split; [reflexivity|]. split; [reflexivity|]. split; [apply Forall_cons; [exact Hr|apply Forall_nil]|].
      split; [apply only_memory_refl|]. split; [lia|auto].
    + left. exists p. rewrite Es. auto.
  - eexists _, []. split; [reflexivity|]. split; [reflexivity|]. split.
    + split; [apply good_set_success; [split; auto|unfold is_short; lia]|]. split; [reflexivity|]. split; [reflexivity|].
      split; [constructor|]. split; [apply only_memory_refl|]. split; [lia|auto].
    + right. auto.
Qed.

Lemma port_name_spec s base : good s ->
  exists s' new, port_name H hs s = Ok s' /\ fs_vm H s' = fs_vm H s /\
  port_ok s s' base new 0 0 /\ f_handle (fs_file H s') = HNull /\ recorded (fs_file H s') = Nobody.
Proof.
  intros [Hv Hf]. unfold port_name. pose proof Hf as (Hh & Hd & Hst & Hsu). unfold port_ok.
  destruct (fs_file H s) as [h m st su p l b] eqn:Ef.
  unfold handle_ok, recorded, file_ok, f_set_handle, TYPE_REGULAR, TYPE_DIRECTORY, good in *.
  cbn [f_handle f_mode f_stat f_success f_pos f_len f_buf] in *.
  assert (G : file_ok (mkFile HNull m st su p l b)) by (split; [exact I|split; [exact Hd|split; [exact Hst|exact Hsu]]]).
  destruct h as [| |h]; cbn [is_null negb].
  - exists s, []. rewrite Ef. cbn. split; [auto|]. split; [auto|]. split; [|auto].
    split; [auto|]. split; [auto|]. split; [auto|]. split; [constructor|]. split; [apply only_memory_refl|]. split; [lia|auto].
  - exists (set_file H s (mkFile HNull m st su p l b)), []. rewrite Hh. cbn. split; [auto|]. split; [auto|]. split; [|auto].
    split; [auto|]. split; [auto|]. split; [auto|]. split; [constructor|]. split; [apply only_memory_refl|]. split; [lia|auto].
  - destruct (st_type st =? 1) eqn:T1.
    + eexists _, [CClose (HReal h)]. split; [reflexivity|]. cbn. rewrite ?Z.eqb_refl. split; [auto|]. split; [|auto].
      split; [auto|]. split; [auto|]. split; [auto|]. split; [repeat (apply Forall_cons; [exact I|]); apply Forall_nil|]. split; [apply only_memory_refl|]. split; [lia|auto].
    + destruct Hh as [Hh|Hh]; [lia|]. rewrite Hh.
      eexists _, [CCloseDir (HReal h)]. split; [reflexivity|]. cbn. rewrite ?Z.eqb_refl. split; [auto|]. split; [|auto].
      split; [auto|]. split; [auto|]. split; [auto|]. split; [repeat (apply Forall_cons; [exact I|]); apply Forall_nil|]. split; [apply only_memory_refl|]. split; [lia|auto].
Qed.

(** How a read ends: what was delivered and why it stopped. *)
Definition read_outcome (s s' : fs) (new : list call) (addr len : Z) (bs : list Z) : Prop :=
  let f := fs_file H s in let f' := fs_file H s' in
  f_success f' = Z.of_nat (length bs) /\ Z.of_nat (length bs) <= len /\
  (forall j, vm_mem (fs_vm H s') j = put (vm_mem (fs_vm H s)) addr bs j) /\
  ((recorded f' = Nobody /\ bs = [] /\ Forall no_data new /\
      f_pos f' = f_pos f /\ f_len f' = f_len f /\ f_buf f' = f_buf f) \/
   (exists h, recorded f' = OwnsFile h /\ bytes_read new = bs /\ reads_fit len new /\ listing new = [] /\
      f_pos f' = f_pos f /\ f_len f' = f_len f /\ f_buf f' = f_buf f /\
      (Z.of_nat (length bs) = len \/
       exists older, new = CRead (HReal h) (len - Z.of_nat (length bs)) [] :: older)) \/
   (exists h, recorded f' = OwnsDir h /\ bytes_read new = [] /\
      (forall y r, In (CReadDir y r) new -> y = HReal h) /\
      bs ++ pending (f_pos f') (f_len f') (f_buf f') = pending (f_pos f) (f_len f) (f_buf f) ++ listing new /\
      (Z.of_nat (length bs) = len \/
       exists r older, new = CReadDir (HReal h) r :: older /\ pending (f_pos f') (f_len f') (f_buf f') = [] /\
         match r with Some e => fits e = false | None => True end))).

Lemma port_read_spec s base : good s -> 0 <= base <= 240 ->
  exists s' new bs, port_read H hs s base = Ok s' /\
  let v := fs_vm H s in let addr := reg2 v base 12 in let len := clamp_length (reg2 v base 10) addr in
  port_ok s s' base new addr len /\ read_outcome s s' new addr len bs /\
  (f_handle (fs_file H s') = HNull \/ f_mode (fs_file H s') = MODE_READ) /\
  (f_handle (fs_file H s) <> HNull -> f_mode (fs_file H s) = MODE_READ ->
     recorded (fs_file H s') = recorded (fs_file H s) /\ f_handle (fs_file H s') = f_handle (fs_file H s) /\
     f_mode (fs_file H s') = MODE_READ /\ f_stat (fs_file H s') = f_stat (fs_file H s)).
Proof using HOK.
  intros G Hb. unfold port_read.
  destruct (set_mode_spec H hs HOK s base MODE_READ G Hb) as (s1 & n1 & E1 & a1 & a2 & a3 & a4 & a5 & a6 & a7 & a8 & a9 & a10 & a11).
  rewrite E1. cbn [rbind]. destruct G as [Hv Hf].
  assert (Hv1 : well_typed (fs_vm H s1)) by (rewrite a1; auto).
  rewrite !port2_reg by auto. rewrite a1.
  destruct (clamp_room (fs_vm H s) base 12 Hv Hb) as (C1 & C2 & C3 & C4 & _).
  set (addr := reg2 _ base 12) in *. set (len := clamp_length _ _) in *.
  pose proof a4 as (Hh & Hd & Hst & Hsu).
  assert (Z0 : is_short 0) by (unfold is_short; lia).
  assert (NOP : f_handle (fs_file H s1) = HNull \/ f_handle (fs_file H s1) = HSentinel ->
    exists s' new bs, Ok (set_success H s1 0) = Ok s' /\ port_ok s s' base new addr len /\
     read_outcome s s' new addr len bs /\
     (f_handle (fs_file H s') = HNull \/ f_mode (fs_file H s') = MODE_READ) /\
     (f_handle (fs_file H s) <> HNull -> f_mode (fs_file H s) = MODE_READ ->
     recorded (fs_file H s') = recorded (fs_file H s) /\ f_handle (fs_file H s') = f_handle (fs_file H s) /\
     f_mode (fs_file H s') = MODE_READ /\ f_stat (fs_file H s') = f_stat (fs_file H s))).
  { intros Hn. exists (set_success H s1 0), n1, []. split; [reflexivity|].
    assert (O1 : recorded (fs_file H s1) = Nobody) by (unfold recorded; destruct Hn as [-> | ->]; auto).
    split; [|split; [|split; [cbn; exact a5|]]].
    - split; [apply good_set_success; auto; split; auto|]. split; [auto|]. split; [exact a3|].
      split; [exact a10|]. split; [cbn; rewrite a1; apply only_memory_refl|]. split; [lia|].
      intros; cbn; rewrite a1; auto.
    - split; [reflexivity|]. split; [cbn; lia|]. split; [intros; cbn; rewrite a1, put_nil; auto|].
      left. auto 10.
    - intros X Y. specialize (a6 X Y). subst s1. cbn. auto. }
  destruct (f_handle (fs_file H s1)) as [| |h] eqn:Eh; cbn [is_null].
  - apply NOP. auto.
  - unfold handle_ok in Hh. rewrite Eh in Hh. rewrite Hh. apply NOP. auto.
  - unfold handle_ok in Hh. rewrite Eh in Hh. clear NOP. unfold TYPE_DIRECTORY, TYPE_REGULAR.
    destruct (st_type (f_stat (fs_file H s1)) =? 2) eqn:T2.
    + assert (O1 : recorded (fs_file H s1) = OwnsDir h) by (unfold recorded; rewrite Eh; replace (_ =? 1) with false by lia; auto).
      destruct (read_dir_loop_spec (HReal h) (Z.to_nat len) s1 len addr 0 (f_pos (fs_file H s1)) (f_len (fs_file H s1)) (f_buf (fs_file H s1)))
        as (s' & new & bs & pos' & len' & buf' & I1 & I2 & I3 & I4 & I5 & I6 & I7 & I8 & I9 & I10 & I11); auto; try lia.
      rewrite I1. cbn [rbind]. rewrite Z.add_0_l.
      exists (set_success H (set_file H s' (f_set_dir (fs_file H s') pos' len' buf')) (Z.of_nat (length bs))), (new ++ n1), bs.
      split; [reflexivity|]. cbv zeta. rewrite I6.
      assert (Hvs : well_typed (fs_vm H s')) by (apply (put_well_typed (fs_vm H s1) _ addr bs); auto).
      split; [|split; [|split; [cbn; rewrite Eh; exact a5|]]].
      * split.
        { split; [exact Hvs|]. split; [|split; [exact I8|split; [exact Hst|cbn; unfold is_short; lia]]].
          unfold handle_ok. cbn. rewrite Eh. exact Hh. }
        split; [cbn; rewrite I7, a2, app_assoc; auto|].
        split.
        { rewrite accept_app, a3, O1. unfold recorded. cbn. rewrite Eh. replace (_ =? 1) with false by lia.
          apply accept_all. eapply Forall_impl; [|exact I10]. intros c (r & ->). cbn. rewrite Z.eqb_refl. auto. }
        split.
        { apply Forall_app. split; [|exact a10]. apply named_other. eapply Forall_impl; [|exact I10]. intros c (r & ->). auto. }
        rewrite a1 in I3, I5. split; [exact I3|]. split; [lia|]. intros j Hj. cbn. rewrite I5. apply put_out. lia.
      * split; [reflexivity|]. split; [auto|]. split; [intros; cbn; rewrite I5, a1; auto|]. right. right. exists h.
        split; [unfold recorded; cbn; rewrite Eh; replace (_ =? 1) with false by lia; auto|].
        split.
        { rewrite bytes_read_app, (no_data_read n1) by auto. apply concat_nil. eapply Forall_impl; [|exact I10]. intros c (r & ->). auto. }
        split.
        { intros y r X. apply in_app_or in X. destruct X as [X|X].
          - rewrite Forall_forall in I10. destruct (I10 _ X) as (r' & Er). congruence.
          - rewrite Forall_forall in a11. destruct (a11 _ X). }
        cbn [f_pos f_len f_buf set_success set_file fs_file f_set_success f_set_dir].
        split; [rewrite I9, a7, a8, a9, listing_app, (no_data_listing n1) by auto; auto|].
        destruct I11 as [I11|(r & older & I11 & I12)]; [auto|right]. exists r, (older ++ n1). rewrite I11. auto.
      * intros X Y. specialize (a6 X Y). subst s1. cbn. rewrite Eh. split; [|auto]. unfold recorded. cbn. rewrite Eh. auto.
    + replace (st_type (f_stat (fs_file H s1)) =? 1) with true by lia.
      assert (O1 : recorded (fs_file H s1) = OwnsFile h) by (unfold recorded; rewrite Eh; replace (_ =? 1) with true by lia; auto).
      destruct (read_file_loop_spec H hs HOK (HReal h) (Z.to_nat len) s1 len addr 0)
        as (s' & new & bs & I1 & I2 & I3 & I4 & I5 & I6 & I7 & I8 & I9 & I10 & I11); auto; try lia.
      rewrite I1. cbn [rbind]. rewrite Z.add_0_l.
      exists (set_success H s' (Z.of_nat (length bs))), (new ++ n1), bs.
      split; [reflexivity|]. cbv zeta.
      assert (Hvs : well_typed (fs_vm H s')) by (apply (put_well_typed (fs_vm H s1) _ addr bs); auto).
      assert (Os : recorded (fs_file H (set_success H s' (Z.of_nat (length bs)))) = OwnsFile h).
      { cbn. rewrite I6. exact O1. }
      split; [|split; [|split; [cbn; rewrite I6, Eh; exact a5|]]].
      * split; [apply good_set_success; [split; [exact Hvs|rewrite I6; auto]|unfold is_short; lia]|].
        split; [cbn; rewrite I7, a2, app_assoc; auto|].
        split.
        { rewrite accept_app, a3, O1, Os.
          apply accept_all. eapply Forall_impl; [|exact I10]. intros c (n & r & ->). cbn. rewrite Z.eqb_refl. auto. }
        split.
        { apply Forall_app. split; [|exact a10]. apply named_other. eapply Forall_impl; [|exact I10]. intros c (n & r & ->). auto. }
        rewrite a1 in I3, I5. split; [exact I3|]. split; [lia|]. intros j Hj. cbn. rewrite I5. apply put_out. lia.
      * split; [reflexivity|]. split; [auto|]. split; [intros; cbn; rewrite I5, a1; auto|]. right. left. exists h.
        split; [exact Os|].
        split; [rewrite bytes_read_app, (no_data_read n1) by auto; auto|].
        split; [apply reads_fit_app; auto|].
        split.
        { rewrite listing_app, (no_data_listing n1) by auto. apply concat_nil. eapply Forall_impl; [|exact I10]. intros c (n & r & ->). auto. }
        cbn. rewrite I6. split; [auto|]. split; [auto|]. split; [auto|].
        destruct I11 as [I11|(older & I11)]; [auto|right]. exists (older ++ n1). rewrite I11. auto.
      * intros X Y. specialize (a6 X Y). subst s1. cbn. rewrite I6. rewrite Eh. auto.
Qed.

Lemma port_write_spec s base : good s -> 0 <= base <= 240 ->
  exists s' new n, port_write H hs s base = Ok s' /\ fs_vm H s' = fs_vm H s /\
  let v := fs_vm H s in let addr := reg2 v base 14 in let len := clamp_length (reg2 v base 10) addr in
  let mode := if vm_dev v (base + 7) =? 0 then MODE_WRITE else MODE_APPEND in
  port_ok s s' base new 0 0 /\
  f_success (fs_file H s') = n /\ bytes_written new = slice (vm_mem v) addr n /\
  ((n = 0 /\ Forall no_data new /\ match recorded (fs_file H s') with OwnsFile _ => False | _ => True end) \/
   (exists h, recorded (fs_file H s') = OwnsFile h /\ 0 <= n <= len /\ f_mode (fs_file H s') = mode /\
     (n = len \/ exists older, new = CWrite (HReal h) (slice (vm_mem v) (addr + n) (len - n)) 0 :: older))).
Proof using HOK.
  intros G Hb. unfold port_write. set (mode := if vm_dev (fs_vm H s) (base + 7) =? 0 then MODE_WRITE else MODE_APPEND).
  destruct (set_mode_spec H hs HOK s base mode G Hb) as (s1 & n1 & E1 & a1 & a2 & a3 & a4 & a5 & a6 & a7 & a8 & a9 & a10 & a11).
  rewrite E1. cbn [rbind]. destruct G as [Hv Hf].
  assert (Hv1 : well_typed (fs_vm H s1)) by (rewrite a1; auto).
  rewrite !port2_reg by auto. rewrite a1.
  destruct (clamp_room (fs_vm H s) base 14 Hv Hb) as (C1 & C2 & C3 & C4 & _).
  set (addr := reg2 _ base 14) in *. set (len := clamp_length _ _) in *.
  pose proof a4 as (Hh & Hd & Hst & Hsu).
  assert (Z0 : is_short 0) by (unfold is_short; lia).
  destruct (negb (is_null (f_handle (fs_file H s1))) && (st_type (f_stat (fs_file H s1)) =? TYPE_REGULAR)) eqn:Ec.
  - unfold handle_ok, TYPE_REGULAR in *. destruct (f_handle (fs_file H s1)) as [| |h] eqn:Eh; [discriminate|lia|].
    assert (O1 : recorded (fs_file H s1) = OwnsFile h) by (unfold recorded; rewrite Eh; replace (_ =? 1) with true by lia; auto).
    destruct (write_file_loop_spec H hs HOK (HReal h) (Z.to_nat len) s1 len addr 0)
      as (s' & new & n & I1 & I2 & I3 & I4 & I5 & I6 & I7 & I8); auto; try lia.
    rewrite I1. cbn [rbind]. rewrite Z.add_0_l.
    assert (Os : recorded (fs_file H (set_success H s' n)) = OwnsFile h) by (cbn; rewrite I4; exact O1).
    exists (set_success H s' n), (new ++ n1), n. split; [reflexivity|]. split; [cbn; congruence|]. cbv zeta. rewrite a1 in *.
    split; [|split; [|split]].
    + split; [apply good_set_success; [split; [rewrite I3; auto|rewrite I4; auto]|unfold is_short; lia]|].
      split; [cbn; rewrite I5, a2, app_assoc; auto|].
      split.
      { rewrite accept_app, a3, O1, Os.
        apply accept_all. eapply Forall_impl; [|exact I7]. intros c (l & r & ->). cbn. rewrite Z.eqb_refl. auto. }
      split.
      { apply Forall_app. split; [|exact a10]. apply named_other. eapply Forall_impl; [|exact I7]. intros c (l & r & ->). auto. }
      cbn. rewrite I3. split; [apply only_memory_refl|]. split; [lia|auto].
    + reflexivity.
    + rewrite bytes_written_app, (no_data_written n1) by auto. auto.
    + right. exists h. split; auto. split; auto. split.
      { cbn. rewrite I4. destruct a5 as [a5|a5]; [congruence|exact a5]. }
      destruct I8 as [I8|(older & I8)]; [auto|right]. exists (older ++ n1). rewrite I8. auto.
  - exists (set_success H s1 0), n1, 0. split; [reflexivity|]. split; [exact a1|]. cbv zeta.
    split; [|split; [|split]].
    + split; [apply good_set_success; auto; split; auto|]. split; [auto|]. split; [exact a3|].
      split; [exact a10|]. cbn. rewrite a1. split; [apply only_memory_refl|]. split; [lia|auto].
    + reflexivity.
    + rewrite no_data_written by auto. auto.
    + left. split; auto. split; auto. cbn. unfold recorded. cbn.
      unfold TYPE_REGULAR in Ec. destruct (f_handle (fs_file H s1)); auto.
      cbn [is_null negb andb] in Ec. rewrite Ec. auto.
Qed.

Lemma file_deo_spec s base port : good s -> 0 <= base <= 240 ->
  exists s' new, file_deo H hs s base port = Ok s' /\
  port_ok s s' base new (fst (window (fs_vm H s) base port)) (snd (window (fs_vm H s) base port)).
Proof using HOK.
  intros G Hb. pose proof G as [Hv Hf]. unfold file_deo, window.
  pose proof (clamp_room (fs_vm H s) base 4 Hv Hb) as R4.
  pose proof (clamp_room (fs_vm H s) base 12 Hv Hb) as R12.  cbv zeta in R4, R12.
  destruct (port =? 5) eqn:P5.
  { destruct (port_stat_spec s base G Hb) as (s' & new & E & (A & B & C & D & F & K & L) & _).
    exists s', new. split; auto. split; auto. split; auto. split; auto. split; auto. split; auto. cbn [fst snd].
    split; [lia|]. intros j Hj. apply L. lia. }
  destruct (port =? 6) eqn:P6.
  { destruct (port_delete_spec s base G Hb) as (s' & new & E & _ & A & _). exists s', new. split; auto.
    replace (port =? 13) with false by lia. exact A. }
  destruct (port =? 9) eqn:P9.
  { destruct (port_name_spec s base G) as (s' & new & E & _ & A & _). exists s', new. split; auto.
    replace (port =? 13) with false by lia. exact A. }
  destruct (port =? 13) eqn:P13.
  { destruct (port_read_spec s base G Hb) as (s' & new & bs & E & (A & B & C & D & F & K & L) & _).
    exists s', new. split; auto. split; auto. split; auto. split; auto. split; auto. split; auto. cbn [fst snd].
    split; [lia|]. intros j Hj. apply L. lia. }
  destruct (port =? 15) eqn:P15.
  { destruct (port_write_spec s base G Hb) as (s' & new & n & E & _ & A & _). exists s', new. split; auto. }
  exists s, []. split; auto. split; auto. split; [reflexivity|]. split; [reflexivity|]. split; [constructor|].
  split; [apply only_memory_refl|]. split; [cbn; lia|auto].
Qed.
End WithHost.
