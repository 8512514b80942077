(** Properties C19-C24: the file device. *)
From Verif Require Import Base VmModel VmSpec VmProofs VmRun VmInv SystemSpec SystemProofs FileModel FileSpec FileProofs FileDevice InputModel InputSpec InputProofs Props_VM.
From Coq Require Import ZifyBool.
Ltac Zify.zify_post_hook ::= Z.div_mod_to_equations.

Lemma initial_ok : file_ok initial_file.
Proof.
  split; [exact I|]. split; [|split; [split; cbn; lia|unfold is_short; cbn; lia]].
  split; [cbn; lia|]. split; [cbn; lia|]. intros; cbn; unfold is_byte; lia.
Qed.

Lemma reachable_good H (hs : host H) : host_ok hs -> forall f h log, reachable hs f h log ->
  file_ok f /\ accept log Nobody = Some (recorded f).
Proof.
  intros HOK f h log R. induction R as [h|f h h' log R IH|f h log v base port s R [IH1 IH2] Hv Hb E]; auto.
  - split; [apply initial_ok|reflexivity].
  - destruct (file_deo_spec H hs HOK (mkFs H v f h log) base port (conj Hv IH1) Hb) as (s' & new & E' & ((_ & P1) & P2 & P3 & _)).
    rewrite E in E'. injection E' as <-. split; auto. rewrite P2, accept_app. cbn [fs_log fs_file] in *. rewrite IH2. exact P3.
Qed.

(** ** C19
    In any reachable state, a write to any port of the device adds calls to the
    log in which every path is the name in the program's memory. *)
Theorem C19_paths :
  forall H (hs : host H) f h log v base port s', host_ok hs -> reachable hs f h log ->
  well_typed v -> 0 <= base <= 240 ->
  file_deo H hs (mkFs H v f h log) base port = Ok s' ->
  exists new, fs_log H s' = new ++ log /\
  forall c p, In c new -> path_of c = Some p -> name_at v base p.
Proof.
  intros H hs f h log v base port s' HOK R Hv Hb E. destruct (reachable_good H hs HOK f h log R) as [G _].
  destruct (file_deo_spec H hs HOK (mkFs H v f h log) base port (conj Hv G) Hb) as (s2 & new & E2 & (_ & P2 & _ & P4 & _)).
  rewrite E in E2. injection E2 as <-. exists new. split; auto. intros c p Hc Hp.
  unfold named in P4. rewrite Forall_forall in P4. specialize (P4 c Hc). rewrite Hp in P4. exact P4.
Qed.
Print Assumptions C19_paths.

(** Hence an empty or overlong name reaches no host function taking a path. *)
Theorem C19_no_name_no_call :
  forall H (hs : host H) f h log v base port s', host_ok hs -> reachable hs f h log ->
  well_typed v -> 0 <= base <= 240 ->
  file_deo H hs (mkFs H v f h log) base port = Ok s' ->
  let at_ k := vm_mem v ((reg2 v base 8 + k) mod 65536) in
  (at_ 0 = 0 \/ forall k, 0 <= k < 1024 -> at_ k <> 0) ->
  exists new, fs_log H s' = new ++ log /\ forall c, In c new -> path_of c = None.
Proof.
  intros H hs f h log v base port s' HOK R Hv Hb E at_ X.
  destruct (C19_paths H hs f h log v base port s' HOK R Hv Hb E) as (new & E1 & P). exists new. split; auto.
  intros c Hc. destruct (path_of c) as [p|] eqn:Hp; auto. exfalso. destruct (P c p Hc Hp) as (A & B & C).
  destruct X as [X|X]; [apply (B 0); [lia|exact X]|apply (X (Z.of_nat (length p))); [lia|exact C]].
Qed.
Print Assumptions C19_no_name_no_call.

(** The name is unique, and a write to the delete port calls the host with it,
    once, and reports what it answers. *)
Theorem C19_delete :
  forall H (hs : host H) f h log v base p, host_ok hs -> reachable hs f h log ->
  well_typed v -> 0 <= base <= 240 -> name_at v base p ->
  exists s', file_deo H hs (mkFs H v f h log) base 6 = Ok s' /\ fs_log H s' = CDelete p :: log /\
  fs_vm H s' = v /\ f_success (fs_file H s') = (if fst (h_delete hs p h) then 1 else 0).
Proof.
  intros H hs f h log v base p HOK R Hv Hb Hp. destruct (reachable_good H hs HOK f h log R) as [G _].
  destruct (port_delete_spec H hs (mkFs H v f h log) base (conj Hv G) Hb) as (s' & new & E & Ev & (_ & P2 & _) & [(q & Q1 & Q2 & Q3)|(_ & _ & Q)]).
  2:{ exfalso. exact (Q p Hp). }
  assert (q = p).
  { destruct Hp as (A & B & C), Q1 as (A' & B' & C'). cbn [fs_vm] in *.
    assert (L : length p = length q).
    { destruct (Z.lt_trichotomy (Z.of_nat (length p)) (Z.of_nat (length q))) as [L|[L|L]]; [|lia|].
      - destruct (B' (Z.of_nat (length p))) as [_ X]; [lia|]. exfalso. auto.
      - destruct (B (Z.of_nat (length q))) as [_ X]; [lia|]. exfalso. auto. }
    apply (nth_ext _ _ 0 0); [lia|]. intros n Hn.
    destruct (B (Z.of_nat n)) as [X _]; [lia|]. destruct (B' (Z.of_nat n)) as [Y _]; [lia|].
    rewrite Nat2Z.id in X, Y. congruence. }
  subst q. exists s'. split; auto. subst new. split; auto.
Qed.
Print Assumptions C19_delete.

(** ** C20
    No port write fails or touches anything but its window: for stat and read
    the part below 0x10000 of the requested range, for the others nothing. *)
Theorem C20_bounds :
  forall H (hs : host H) f h log v base port, host_ok hs -> reachable hs f h log ->
  well_typed v -> 0 <= base <= 240 ->
  exists s', file_deo H hs (mkFs H v f h log) base port = Ok s' /\
  well_typed (fs_vm H s') /\ only_memory v (fs_vm H s') /\
  let '(addr, n) := window v base port in
  0 <= n /\ addr + n <= 65536 /\
  (forall j, ~ (addr <= j < addr + n) -> vm_mem (fs_vm H s') j = vm_mem v j).
Proof.
  intros H hs f h log v base port HOK R Hv Hb. destruct (reachable_good H hs HOK f h log R) as [G _].
  destruct (file_deo_spec H hs HOK (mkFs H v f h log) base port (conj Hv G) Hb) as (s' & new & E & ((P0 & _) & _ & _ & _ & P5 & P6 & P7)).
  exists s'. split; auto. split; auto. split; auto. cbn [fs_vm] in *. destruct (window v base port) as [addr n] eqn:W. cbn [fst snd] in *.
  split; auto. split; [|auto].
  pose proof (reg2_range v base 4 Hv Hb). pose proof (reg2_range v base 12 Hv Hb).
  unfold window, room, is_short in *. destruct (port =? 5), (port =? 13); injection W as <- <-; lia.
Qed.
Print Assumptions C20_bounds.

(** Reads of a regular file: every read is asked for at most what is left, the
    bytes the host returned, in order, are what is in memory, [success] is their
    number, and it is less than the requested number only when the last call
    returned nothing. *)
Theorem C20_read :
  forall H (hs : host H) f h log v base s', host_ok hs -> reachable hs f h log ->
  well_typed v -> 0 <= base <= 240 ->
  file_deo H hs (mkFs H v f h log) base 13 = Ok s' ->
  let addr := reg2 v base 12 in let len := room addr (reg2 v base 10) in
  forall x, recorded (fs_file H s') = OwnsFile x ->
  exists new, fs_log H s' = new ++ log /\
  f_success (fs_file H s') = Z.of_nat (length (bytes_read new)) /\
  slice (vm_mem (fs_vm H s')) addr (f_success (fs_file H s')) = bytes_read new /\
  reads_fit len new /\ f_success (fs_file H s') <= len /\
  (addr <> 0 -> f_success (fs_file H s') < len ->
    exists older, new = CRead (HReal x) (len - f_success (fs_file H s')) [] :: older).
Proof.
  intros H hs f h log v base s' HOK R Hv Hb E addr len x O. destruct (reachable_good H hs HOK f h log R) as [G _].
  destruct (port_read_spec H hs HOK (mkFs H v f h log) base (conj Hv G) Hb) as (s2 & new & bs & E2 & (_ & P2 & _) & (S1 & S2 & S3 & S4) & _).
  change (port_read H hs (mkFs H v f h log) base) with (file_deo H hs (mkFs H v f h log) base 13) in E2. rewrite E in E2. injection E2 as <-.
  destruct (clamp_room v base 12 Hv Hb) as (C1 & C2 & C3 & C4 & C5 & C6).
  cbn [fs_vm fs_log fs_file] in *. fold addr len in C1, C2, C3, C4, C5, C6, S2, S3, S4. cbv zeta in C1, C2, C3, C4, C5, C6, S2.
  destruct S4 as [(Q & _)|[(y & Q & S5 & S6 & S7 & _ & _ & _ & S8)|(y & Q & _)]]; [congruence| |congruence].
  assert (y = x) by congruence. subst y. exists new. split; auto. rewrite S1, S5. split; auto. split.
  { transitivity (slice (put (vm_mem v) addr bs) addr (Z.of_nat (length bs))); [|apply slice_put].
    apply slice_ext. intros. apply S3. }
  split.
  { intros newer z n l older En. specialize (S6 newer z n l older En). fold addr in S6. lia. }
  split; [fold addr in S2; lia|]. intros Hz Hlt. specialize (C5 Hz). fold len in C5.
  rewrite C5 in S8. destruct S8 as [S8|S8]; [lia|]. exact S8.
Qed.
Print Assumptions C20_read.

(** Writes: the bytes the host accepted, in order, are the program's bytes. *)
Theorem C20_write :
  forall H (hs : host H) f h log v base, host_ok hs -> reachable hs f h log ->
  well_typed v -> 0 <= base <= 240 ->
  let addr := reg2 v base 14 in let len := room addr (reg2 v base 10) in
  exists s' new, file_deo H hs (mkFs H v f h log) base 15 = Ok s' /\ fs_vm H s' = v /\
  fs_log H s' = new ++ log /\ 0 <= f_success (fs_file H s') <= len /\
  bytes_written new = slice (vm_mem v) addr (f_success (fs_file H s')) /\
  (forall x, recorded (fs_file H s') = OwnsFile x -> addr <> 0 -> f_success (fs_file H s') < len ->
    exists rest older, new = CWrite (HReal x) rest 0 :: older) /\
  (forall x, recorded (fs_file H s') = OwnsFile x -> f_mode (fs_file H s') = if vm_dev v (base + 7) =? 0 then 1 else 2).
Proof.
  intros H hs f h log v base HOK R Hv Hb addr len. destruct (reachable_good H hs HOK f h log R) as [G _].
  destruct (port_write_spec H hs HOK (mkFs H v f h log) base (conj Hv G) Hb) as (s' & new & n & E & Ev & (_ & P2 & _) & S1 & S2 & S3).
  cbn [fs_vm fs_log fs_file] in *.
  destruct (clamp_room v base 14 Hv Hb) as (C1 & C2 & C3 & C4 & C5 & C6). fold addr in C1, C2, C3, C4, C5, C6, S2, S3. fold len in C4, C5. cbv zeta in C1, C2, C4, C5.
  exists s', new. split; auto. split; auto. split; auto. rewrite S1. fold addr in S2.
  destruct S3 as [(N0 & N1 & N2)|(y & Q & Q1 & Qm & Q2)].
  - subst n. split; [unfold len, room in *; lia|]. split; auto.
    split; intros x X; rewrite X in N2; destruct N2.
  - split; [lia|]. split; auto. split; [|intros; exact Qm].
    intros x X Hz Hlt. assert (y = x) by congruence. subst y. specialize (C5 Hz). fold len in C5. rewrite C5 in Q2.
    destruct Q2 as [Q2|(older & Q2)]; [lia|eauto].
Qed.
Print Assumptions C20_write.

(** If the host never returns short, everything requested is transferred ... *)
Theorem C20_full_transfer :
  forall H (hs : host H) f h log v base s', host_ok hs -> reachable hs f h log ->
  well_typed v -> 0 <= base <= 240 ->
  (forall x n h, 0 <= n -> Z.of_nat (length (fst (h_fread hs x n h))) = n) ->
  file_deo H hs (mkFs H v f h log) base 13 = Ok s' ->
  (exists x, recorded (fs_file H s') = OwnsFile x) -> reg2 v base 12 <> 0 ->
  f_success (fs_file H s') = room (reg2 v base 12) (reg2 v base 10).
Proof.
  intros H hs f h log v base s' HOK R Hv Hb Hfull E (x & O) Hz. destruct (reachable_good H hs HOK f h log R) as [G _].
  pose proof (reg2_range v base 12 Hv Hb) as R12. pose proof (reg2_range v base 10 Hv Hb) as R10. unfold is_short in *.
  cbn [file_deo] in E. change (file_deo H hs (mkFs H v f h log) base 13) with (port_read H hs (mkFs H v f h log) base) in E.
  unfold port_read in E.
  destruct (set_mode_spec H hs HOK (mkFs H v f h log) base MODE_READ (conj Hv G) Hb) as (s1 & n1 & E1 & a1 & a2 & a3 & a4 & _).
  rewrite E1 in E. cbn [rbind fs_vm] in *. rewrite a1, !port2_reg in E by auto.
  destruct (clamp_room v base 12 Hv Hb) as (C1 & C2 & C3 & C4 & C5 & C6).
  specialize (C5 Hz). rewrite C5 in *. set (addr := reg2 v base 12) in *. set (len := room addr (reg2 v base 10)) in *.
  destruct (is_null _) eqn:En.
  { injection E as <-. destruct s1 as [? [[| |] ? ? ? ? ? ?] ? ?]; cbn in *; discriminate. }
  destruct (st_type _ =? TYPE_DIRECTORY) eqn:T2.
  { destruct (read_dir_loop_spec H hs HOK (f_handle (fs_file H s1)) (Z.to_nat len) s1 len addr 0 (f_pos (fs_file H s1)) (f_len (fs_file H s1)) (f_buf (fs_file H s1)))
        as (s2 & new & bs & pos' & len' & buf' & I1 & I2 & I3 & I4 & I5 & I6 & I7 & _); auto; try lia; [rewrite a1; auto|apply a4|].
    rewrite I1 in E. injection E as <-. exfalso. unfold recorded in O. cbn in O. rewrite I6 in O.
    unfold TYPE_DIRECTORY in T2. replace (_ =? 1) with false in O by lia. destruct (f_handle _); discriminate. }
  destruct (st_type _ =? TYPE_REGULAR) eqn:T1.
  2:{ injection E as <-. unfold recorded in O. cbn in O. unfold TYPE_REGULAR in T1. rewrite T1 in O. destruct (f_handle _); discriminate. }
  destruct (read_file_loop_spec H hs HOK (f_handle (fs_file H s1)) (Z.to_nat len) s1 len addr 0)
        as (s2 & new & bs & I1 & I2 & I3 & I4 & I5 & I6 & I7 & I8 & I9 & I10 & I11); auto; try lia; [rewrite a1; auto|].
  rewrite I1 in E. injection E as <-. cbn. 
  destruct (Z.eq_dec len 0) as [L0|L0]; [lia|].
  (* the first call transfers everything *)
  replace (Z.to_nat len) with (S (Z.to_nat (len - 1))) in I1 by lia. cbn [read_file_loop] in I1.
  replace (len >? 0) with true in I1 by lia. cbn [negb] in I1. unfold do_fread in I1.
  destruct (h_fread hs (f_handle (fs_file H s1)) len (fs_host H s1)) as [l h1] eqn:Er.
  specialize (Hfull (f_handle (fs_file H s1)) len (fs_host H s1) ltac:(lia)). rewrite Er in Hfull. cbn [fst] in Hfull.
  destruct (put_bytes _ _ _ _); [|discriminate]. cbn [rbind] in I1.
  rewrite Hfull in I1. rewrite (u16_small len) in I1 by lia. replace (len =? 0) with false in I1 by lia.
  rewrite Z.sub_diag in I1. change (u16 0) with 0 in I1. rewrite (u16_small (0 + len)) in I1 by lia.
  destruct (Z.to_nat (len - 1)); cbn [read_file_loop Z.gtb Z.compare negb] in I1; injection I1 as _ I1; lia.
Qed.
Print Assumptions C20_full_transfer.

(** ... except at address 0, where nothing ever is: [0x10000 - addr] does not
    fit 16 bits.  The unconditional claim is false. *)
Definition file_host : host unit := mkHost unit
  (fun _ _ h => (Some 1, h)) (fun _ h => h) (fun _ n h => (repeat 65 (Z.to_nat n), h))
  (fun _ l h => (Z.of_nat (length l), h)) (fun _ h => (None, h)) (fun _ h => h) (fun _ h => (None, h))
  (fun _ h => (true, h)) (fun _ h => (mkStat 1 1000, h)).
Lemma file_host_ok : host_ok file_host.
Proof.
  split; [intros; split; cbn; lia|]. split; [|split; [intros; cbn; lia|intros; exact I]].
  intros x n h Hn. cbn. rewrite repeat_length. split; [lia|].
  apply Forall_forall; intros b Hb; apply repeat_spec in Hb; subst; unfold is_byte; lia.
Qed.

(** A machine with the given registers of page 0xa0 and bytes at 0x200. *)
Definition file_vm (regs : list Z) (mem : list Z) : vm :=
  mkVm 0 0 (fun _ => 0) (fun _ => 0)
    (fun i => if (160 <=? i) && (i <? 176) then nth (Z.to_nat (i - 160)) regs 0 else 0)
    (fun i => if (512 <=? i) && (i <? 768) then nth (Z.to_nat (i - 512)) mem 0 else 0) 65536.
Lemma file_vm_wt regs mem : Forall is_byte regs -> Forall is_byte mem -> well_typed (file_vm regs mem).
Proof.
  intros H1 H2. unfold well_typed, file_vm. cbn.
  assert (is_byte 0) by (unfold is_byte; lia). repeat (split; auto); try lia; intros.
  all: destruct (_ && _); auto using nth_byte; unfold is_byte in *; try (pose proof (nth_byte _ (Z.to_nat (i - 160)) H1); unfold is_byte in *; lia).
  all: try (pose proof (nth_byte _ (Z.to_nat (i - 512)) H2); unfold is_byte in *; lia); try lia.
Qed.

(** Read 4 bytes of file "A" to the given address. *)
Definition read4 (addr : Z) : vm := file_vm [0;0;0;0;0;0;0;0; 2;0; 0;4; addr / 256; addr mod 256; 0;0] [65; 0].

Theorem C20_transfer_at_zero_refuted :
  ~ (forall H (hs : host H) f h log v base s', host_ok hs -> reachable hs f h log ->
  well_typed v -> 0 <= base <= 240 ->
  (forall x n h, 0 <= n -> Z.of_nat (length (fst (h_fread hs x n h))) = n) ->
  file_deo H hs (mkFs H v f h log) base 13 = Ok s' ->
  (exists x, recorded (fs_file H s') = OwnsFile x) ->
  f_success (fs_file H s') = room (reg2 v base 12) (reg2 v base 10)).
Proof.
  intros C. 
  destruct (file_deo unit file_host (mkFs unit (read4 0) initial_file tt []) 160 13) as [s'|] eqn:E; [|vm_compute in E; discriminate].
  specialize (C unit file_host initial_file tt [] (read4 0) 160 s' file_host_ok (reach_init _ tt)).
  assert (X : f_success (fs_file unit s') = 4).
  { apply C; auto.
    - apply file_vm_wt; bytes.
    - lia.
    - intros. cbn. rewrite repeat_length. lia.
    - vm_compute in E. injection E as <-. exists 1. reflexivity. }
  vm_compute in E. injection E as <-. discriminate X.
Qed.
Print Assumptions C20_transfer_at_zero_refuted.

(** The same read to 0x300 delivers the four bytes, and one to 0xfffe the two
    that fit. *)
Example C20_case :
  host_ok file_host /\ reachable file_host initial_file tt [] /\ well_typed (read4 768) /\ well_typed (read4 65534) /\
  match file_deo unit file_host (mkFs unit (read4 768) initial_file tt []) 160 13,
        file_deo unit file_host (mkFs unit (read4 65534) initial_file tt []) 160 13 with
  | Ok s1, Ok s2 => f_success (fs_file _ s1) = 4 /\ map (vm_mem (fs_vm _ s1)) [767; 768; 771; 772] = [0; 65; 65; 0] /\
      f_success (fs_file _ s2) = 2 /\ map (vm_mem (fs_vm _ s2)) [0; 65533; 65534; 65535] = [0; 0; 65; 65] /\
      recorded (fs_file _ s1) = OwnsFile 1 /\
      fs_log _ s1 = [CRead (HReal 1) 4 [65; 65; 65; 65]; COpen [65] 0 (Some 1); CStat [65]]
  | _, _ => False
  end.
Proof.
  split; [exact file_host_ok|]. split; [apply reach_init|]. split; [apply file_vm_wt; bytes|]. split; [apply file_vm_wt; bytes|].
  vm_compute. auto 10.
Qed.

(** Write, append and delete. *)
Example C19_case :
  let v := file_vm [0;0;0;0;0;0;0;1; 2;0; 0;3; 0;0; 2;0] [65; 66; 0] in
  well_typed v /\ name_at v 160 [65; 66] /\
  match file_deo unit file_host (mkFs unit v initial_file tt []) 160 15 with
  | Ok s => f_success (fs_file _ s) = 3 /\
      fs_log _ s = [CWrite (HReal 1) [65; 66; 0] 3; COpen [65; 66] 2 (Some 1); CStat [65; 66]]
  | _ => False
  end /\
  match file_deo unit file_host (mkFs unit v initial_file tt []) 160 6 with
  | Ok s => f_success (fs_file _ s) = 1 /\ fs_log _ s = [CDelete [65; 66]] | _ => False
  end.
Proof.
  split; [apply file_vm_wt; bytes|]. split.
  { split; [cbn; lia|]. split; [|reflexivity]. intros k Hk. cbn [length] in Hk.
    assert (k = 0 \/ k = 1) as [-> | ->] by lia; vm_compute; split; congruence. }
  split; vm_compute; auto.
Qed.

(** A name of 1024 characters reaches no host function. *)
Example C19_long_name_case :
  let v := mkVm 0 0 (fun _ => 0) (fun _ => 0) (fun i => if i =? 168 then 2 else 0)
     (fun i => if (512 <=? i) && (i <? 512 + 1024) then 65 else 0) 65536 in
  well_typed v /\ (forall k, 0 <= k < 1024 -> vm_mem v ((reg2 v 160 8 + k) mod 65536) <> 0) /\
  match file_deo unit file_host (mkFs unit v initial_file tt []) 160 6 with
  | Ok s => fs_log _ s = [] | _ => False
  end.
Proof.
  cbv zeta. split.
  { unfold well_typed. cbn. repeat (split; try lia; try (intros; unfold is_byte; lia)).
    all: intros; destruct (_ =? _) || destruct (_ && _); unfold is_byte; lia. }
  split.
  { intros k Hk. unfold reg2, word. cbn [vm_mem vm_dev]. change (256 * _ + _) with 512.
    replace (_ && _) with true by lia. lia. }
  vm_compute. reflexivity.
Qed.

(** ** C21 *)
Theorem C21_format :
  forall m bound buf len s, stat_ok s -> 0 <= buf -> 0 <= len -> buf + len <= bound ->
  exists m', format_stat m bound buf len s = Ok m' /\ slice m' buf len = stat_text s len /\
  forall j, ~ (buf <= j < buf + len) -> m' j = m j.
Proof.
  intros m bound buf len s Hs H1 H2 H3. destruct (format_stat_spec m bound buf len s Hs H1 H2 H3) as (m' & E & P).
  exists m'. split; auto. split.
  - apply stat_text_slice; auto. intros j Hj. rewrite P. replace (_ && _) with true by lia. f_equal. lia.
  - intros j Hj. rewrite P. replace (_ && _) with false by lia. auto.
Qed.
Print Assumptions C21_format.

(** The stat port writes that text for the file's status: the status of the open
    file if there is one (recorded when it was opened), else what the host says
    about the named file. *)
Theorem C21_stat_port :
  forall H (hs : host H) f h log v base, host_ok hs -> reachable hs f h log ->
  well_typed v -> 0 <= base <= 240 -> reg2 v base 4 <> 0 ->
  exists s', file_deo H hs (mkFs H v f h log) base 5 = Ok s' /\
  let addr := reg2 v base 4 in let len := room addr (reg2 v base 10) in
  let shows st := f_success (fs_file H s') = len /\ slice (vm_mem (fs_vm H s')) addr len = stat_text st len in
  (f_handle f <> HNull -> shows (f_stat f) /\ fs_log H s' = log) /\
  (f_handle f = HNull -> forall p, name_at v base p -> exists q, name_at v base q /\ shows (fst (h_stat hs q h)) /\ fs_log H s' = CStat q :: log) /\
  (f_handle f = HNull -> (forall p, ~ name_at v base p) -> f_success (fs_file H s') = 0 /\ fs_vm H s' = v /\ fs_log H s' = log).
Proof.
  intros H hs f h log v base HOK R Hv Hb Hz. destruct (reachable_good H hs HOK f h log R) as [G _].
  destruct (port_stat_spec H hs HOK (mkFs H v f h log) base (conj Hv G) Hb) as (s' & new & E & (_ & P2 & _ & P4 & _) & S).
  cbn [fs_vm fs_log fs_file fs_host] in *.
  destruct (clamp_room v base 4 Hv Hb) as (C1 & C2 & C3 & C4 & C5 & C6). specialize (C5 Hz). cbv zeta in *. rewrite C5 in *.
  exists s'. split; auto. set (addr := reg2 v base 4) in *. set (len := room addr (reg2 v base 10)) in *.
  destruct S as [(st & S1 & S2 & S3 & S4)|(S1 & S2 & S3 & S4 & S5)].
  - assert (SH : f_success (fs_file H s') = len /\ slice (vm_mem (fs_vm H s')) addr len = stat_text st len).
    { split; auto. apply stat_text_slice; [lia|]. intros j Hj. rewrite S3 by lia. f_equal. lia. }
    destruct S4 as [(Q1 & Q2 & Q3)|(p & Q1 & Q2 & Q3)]; subst new.
    + split; [intros _; subst st; auto|]. split; intros; contradiction.
    + split; [intros; contradiction|]. unfold named in P4. inversion P4 as [|? ? N _]; subst. cbn in N. split.
      * intros _ p' _. exists p. split; auto.
      * intros _ X. destruct (X p N).
  - subst new. split; [intros; contradiction|]. split; [intros _ p Hp; destruct (S5 p Hp)|auto].
Qed.
Print Assumptions C21_stat_port.

(** 0x1a2b in four and in three characters. *)
Example C21_case :
  stat_text (mkStat 1 6699) 4 = [49; 97; 50; 98] /\ stat_text (mkStat 1 6699) 3 = [63; 63; 63] /\
  stat_text (mkStat 2 6699) 2 = [45; 45] /\ stat_text (mkStat 0 0) 1 = [33] /\
  match file_deo unit file_host (mkFs unit (file_vm [0;0;0;0;3;0;0;0; 2;0; 0;5; 0;0; 0;0] [65; 0]) initial_file tt []) 160 5 with
  | Ok s => map (vm_mem (fs_vm _ s)) [768; 769; 770; 771; 772; 773] = [48; 48; 51; 101; 56; 0] | _ => False end.
Proof. vm_compute. auto. Qed.

(** ** C22
    In every reachable state the log is a legal sequence of calls ([next] in
    FileSpec), and what it leaves open is what the device records. *)
Theorem C22_ownership :
  forall H (hs : host H) f h log, host_ok hs -> reachable hs f h log ->
  accept log Nobody = Some (recorded f).
Proof. intros H hs f h log HOK R. apply (reachable_good H hs HOK f h log R). Qed.
Print Assumptions C22_ownership.

(** Writing the name port releases whatever was open. *)
Theorem C22_name_releases :
  forall H (hs : host H) f h log v base, host_ok hs -> reachable hs f h log -> well_typed v ->
  exists s', file_deo H hs (mkFs H v f h log) base 9 = Ok s' /\ accept (fs_log H s') Nobody = Some Nobody.
Proof.
  intros H hs f h log v base HOK R Hv. destruct (reachable_good H hs HOK f h log R) as [G A].
  destruct (port_name_spec H hs (mkFs H v f h log) base (conj Hv G)) as (s' & new & E & _ & (_ & P2 & P3 & _) & _ & Q).
  exists s'. split; auto. rewrite P2, accept_app. cbn [fs_log fs_file] in *. rewrite A, P3, Q. auto.
Qed.
Print Assumptions C22_name_releases.

(** Read, then write the same name, then rename: two files opened and closed. *)
Definition after {H} (hs : host H) (s : res (fs H)) (v : vm) (port : Z) : res (fs H) :=
  rbind s (fun s => file_deo H hs (mkFs H v (fs_file H s) (fs_host H s) (fs_log H s)) 160 port).
Example C22_case :
  match after file_host (after file_host (after file_host (Ok (mkFs unit (read4 768) initial_file tt [])) (read4 768) 13) (read4 768) 15) (read4 768) 9 with
  | Ok s => map (fun c => match c with COpen _ m _ => m | CClose _ => 10 | CRead _ _ _ => 11 | CWrite _ _ _ => 12 | CStat _ => 13 | _ => 99 end)
              (rev (fs_log _ s)) = [13; 0; 11; 10; 13; 1; 10] /\ accept (fs_log _ s) Nobody = Some Nobody
  | _ => False end.
Proof. vm_compute. auto. Qed.

(** ** Two file devices in a running machine. *)
Record files (H R : Type) : Type := mkFiles {
  d0 : file; l0 : list call; d1 : file; l1 : list call; fh : H; rest : R }.
Arguments mkFiles {H R}. Arguments d0 {H R}. Arguments l0 {H R}. Arguments d1 {H R}. Arguments l1 {H R}.
Arguments fh {H R}. Arguments rest {H R}.
(** cli.c:31-38 *)
Definition files_dei {H R} (odei : Z -> vm -> R -> res (Z * vm * R)) (a : Z) (v : vm) (w : files H R) : res (Z * vm * files H R) :=
  if device_id a =? 160 then Ok (file_dei v (d0 w) 160 (Z.land a 15), v, w)
  else if device_id a =? 176 then Ok (file_dei v (d1 w) 176 (Z.land a 15), v, w)
  else rbind (odei a v (rest w)) (fun '(b, v', r) => Ok (b, v', mkFiles (d0 w) (l0 w) (d1 w) (l1 w) (fh w) r)).
(** cli.c:56-64 *)
Definition files_deo {H R} (hs : host H) (odeo : Z -> vm -> R -> res (vm * R)) (a : Z) (v : vm) (w : files H R) : res (vm * files H R) :=
  if device_id a =? 160 then
    rbind (file_deo H hs (mkFs H v (d0 w) (fh w) (l0 w)) 160 (Z.land a 15)) (fun s =>
    Ok (fs_vm H s, mkFiles (fs_file H s) (fs_log H s) (d1 w) (l1 w) (fs_host H s) (rest w)))
  else if device_id a =? 176 then
    rbind (file_deo H hs (mkFs H v (d1 w) (fh w) (l1 w)) 176 (Z.land a 15)) (fun s =>
    Ok (fs_vm H s, mkFiles (d0 w) (l0 w) (fs_file H s) (fs_log H s) (fs_host H s) (rest w)))
  else rbind (odeo a v (rest w)) (fun '(v', r) => Ok (v', mkFiles (d0 w) (l0 w) (d1 w) (l1 w) (fh w) r)).

(** Any program, any length of run, any other devices that do not fail: the run
    does not fail but for the short multiplication (C09), and both devices obey
    the ownership discipline. *)
Theorem C22_runs :
  forall H R (hs : host H) odei odeo hi_first N, host_ok hs -> 65536 <= N ->
  let I := fun w : files H R => reachable hs (d0 w) (fh w) (l0 w) /\ reachable hs (d1 w) (fh w) (l1 w) in
  host_good N (fun _ : R => True) (fun _ => False) odei odeo ->
  forall fuel kw kr pc v w, well_typed v -> is_short pc -> vm_msize v = N -> I w ->
  match execute (files H R) (files_dei odei) (files_deo hs odeo) hi_first None kw kr fuel pc v w with
  | Crash _ f => exists n, n > 2147483647 /\ f = SignedOverflow n
  | Done _ v' w' => well_typed v' /\ vm_msize v' = N /\ I w' /\
      accept (l0 w') Nobody = Some (recorded (d0 w')) /\ accept (l1 w') Nobody = Some (recorded (d1 w'))
  | OutOfFuel _ => True
  end.
Proof.
  intros H R hs odei odeo hi N HOK HN I [HI HO] fuel kw kr pc v w Hv Hp Hs Hw.
  assert (G : host_good N I (fun _ => False) (files_dei odei) (files_deo hs odeo)).
  { split; intros a u x Ha Hu Hn Hx.
    - unfold files_dei. destruct (device_id a =? 160); [exact (conj Hu (conj Hn Hx))|].
      destruct (device_id a =? 176); [exact (conj Hu (conj Hn Hx))|].
      specialize (HI a u (rest x) Ha Hu Hn Logic.I). destruct (odei a u (rest x)) as [[[b u'] r]|]; cbn in *; [|auto].
      destruct HI as (A & B & _). auto.
    - unfold files_deo. destruct Hx as [X0 X1].
      assert (Q : forall f log base, reachable hs f (fh x) log -> 0 <= base <= 240 ->
        exists s, file_deo H hs (mkFs H u f (fh x) log) base (Z.land a 15) = Ok s /\
        well_typed (fs_vm H s) /\ vm_msize (fs_vm H s) = N /\ reachable hs (fs_file H s) (fs_host H s) (fs_log H s)).
      { intros f log base X Hb. destruct (reachable_good H hs HOK _ _ _ X) as [G0 _].
        destruct (file_deo_spec H hs HOK (mkFs H u f (fh x) log) base (Z.land a 15) (conj Hu G0) Hb) as (s & new & E & ((P0 & _) & _ & _ & _ & P5 & _)).
        exists s. split; auto. split; auto. split; [destruct P5 as (_ & _ & _ & _ & _ & P5); cbn in P5; congruence|].
        exact (reach_deo hs f (fh x) log u base (Z.land a 15) s X Hu Hb E). }
      destruct (device_id a =? 160).
      { destruct (Q (d0 x) (l0 x) 160 X0 ltac:(lia)) as (s & E & A & B & C). rewrite E. cbn.
        split; auto. split; auto. split; auto. cbn. eapply reach_host; eauto. }
      destruct (device_id a =? 176).
      { destruct (Q (d1 x) (l1 x) 176 X1 ltac:(lia)) as (s & E & A & B & C). rewrite E. cbn.
        split; auto. split; auto. split; auto. cbn. eapply reach_host; eauto. }
      specialize (HO a u (rest x) Ha Hu Hn Logic.I). destruct (odeo a u (rest x)) as [[u' r]|]; cbn in *; [|auto].
      destruct HO as (A & B & _). split; auto. split; auto. split; auto. }
  pose proof (execute_good _ _ _ hi N I _ G fuel kw kr pc v w Hv Hp Hs Hw) as E.
  destruct (execute _ _ _ _ _ _ _ _ _ _ _); auto.
  - destruct E as (A & B & C). split; auto. split; auto. split; auto.
    destruct C as [C0 C1]. split; eapply C22_ownership; eauto.
  - tauto.
Qed.
Print Assumptions C22_runs.

(** ** C23, C24 *)
Lemma reads_keep H (hs : host H) base : host_ok hs -> 0 <= base <= 240 ->
  forall f h log d f' h' log', reads hs base f h log d f' h' log' -> file_ok f ->
  f_handle f <> HNull -> f_mode f = MODE_READ -> recorded f' = recorded f.
Proof.
  intros HOK Hb f h log d f' h' log' R. induction R as [|f h log v s d f' h' log' Hv E R IH]; auto.
  intros Hf Hn Hm.
  destruct (port_read_spec H hs HOK (mkFs H v f h log) base (conj Hv Hf) Hb) as (s2 & new & bs & E2 & ((_ & G) & _) & _ & _ & K).
  change (port_read H hs (mkFs H v f h log) base) with (file_deo H hs (mkFs H v f h log) base 13) in E2. rewrite E in E2. injection E2 as <-.
  destruct (K Hn Hm) as (K1 & K2 & K3 & _). cbn [fs_file] in *.
  rewrite IH; auto. rewrite K2. auto.
Qed.

Lemma reads_gen H (hs : host H) base : host_ok hs -> 0 <= base <= 240 ->
  forall f h log d f' h' log', reads hs base f h log d f' h' log' -> file_ok f ->
  forall x, recorded f' = OwnsDir x ->
  exists new, log' = new ++ log /\ d ++ leftover f' = leftover f ++ listing new /\
  (forall y r, In (CReadDir y r) new -> y = HReal x).
Proof.
  intros HOK Hb f h log d f' h' log' R. induction R as [f h log|f h log v s d f' h' log' Hv E R IH]; intros Hf x Hx.
  - exists []. split; auto. split; [cbn; rewrite app_nil_r; auto|intros y r []].
  - destruct (port_read_spec H hs HOK (mkFs H v f h log) base (conj Hv Hf) Hb) as (s2 & n1 & bs & E2 & ((_ & G) & P2 & _) & (S1 & S2 & S3 & S4) & M & _).
    change (port_read H hs (mkFs H v f h log) base) with (file_deo H hs (mkFs H v f h log) base 13) in E2. rewrite E in E2. injection E2 as <-.
    cbn [fs_file fs_vm fs_log] in *.
    destruct (IH G x Hx) as (n2 & I1 & I2 & I3). exists (n2 ++ n1).
    assert (D : slice (vm_mem (fs_vm H s)) (reg2 v base 12) (f_success (fs_file H s)) = bs).
    { rewrite S1. transitivity (slice (put (vm_mem v) (reg2 v base 12) bs) (reg2 v base 12) (Z.of_nat (length bs))); [|apply slice_put].
      apply slice_ext. intros. apply S3. }
    rewrite D, P2 in *. split; [rewrite I1, app_assoc; auto|]. rewrite listing_app.
    destruct S4 as [(Q1 & Q2 & Q3 & Q4 & Q5 & Q6)|[(y & Q & _)|(y & Q1 & Q2 & Q3 & Q4 & _)]].
    + subst bs. cbn [app]. rewrite (no_data_listing n1 Q3). cbn [app]. split.
      * rewrite I2. unfold leftover. rewrite Q4, Q5, Q6. auto.
      * intros y r X. apply in_app_or in X. destruct X as [X|X]; [eauto|].
        rewrite Forall_forall in Q3. destruct (Q3 _ X).
    + exfalso. rewrite (reads_keep H hs base HOK Hb _ _ _ _ _ _ _ R G) in Hx.
      * congruence.
      * intros X. unfold recorded in Q. rewrite X in Q. discriminate.
      * destruct M as [M|M]; auto. unfold recorded in Q. rewrite M in Q. discriminate.
    + split.
      * rewrite <- app_assoc, I2, app_assoc. change (leftover (fs_file H s)) with (pending (f_pos (fs_file H s)) (f_len (fs_file H s)) (f_buf (fs_file H s))).
        rewrite Q4, <- app_assoc. auto.
      * intros z r X. apply in_app_or in X. destruct X as [X|X]; [eauto|].
        rewrite (Q3 z r X). f_equal.
        rewrite (reads_keep H hs base HOK Hb _ _ _ _ _ _ _ R G) in Hx.
        -- congruence.
        -- intros Y. unfold recorded in Q1. rewrite Y in Q1. discriminate.
        -- destruct M as [M|M]; auto. unfold recorded in Q1. rewrite M in Q1. discriminate.
Qed.

(** C23: from any reachable state with no buffered rest of a line, however the
    reads are split and wherever they go, the bytes delivered are a prefix of
    the listing of the entries the host returned for this directory. *)
Theorem C23_listing :
  forall H (hs : host H) base f h log d f' h' log' x, host_ok hs -> 0 <= base <= 240 ->
  reachable hs f h log -> leftover f = [] ->
  reads hs base f h log d f' h' log' -> recorded f' = OwnsDir x ->
  exists new, log' = new ++ log /\ (exists rest, listing new = d ++ rest) /\
  (forall y r, In (CReadDir y r) new -> y = HReal x).
Proof.
  intros H hs base f h log d f' h' log' x HOK Hb R L RD O. destruct (reachable_good H hs HOK f h log R) as [G _].
  destruct (reads_gen H hs base HOK Hb f h log d f' h' log' RD G x O) as (new & A & B & C).
  exists new. split; auto. rewrite L in B. split; [exists (leftover f'); auto|auto].
Qed.
Print Assumptions C23_listing.

(** ... and nothing is held back: a read that delivers less than was requested
    has delivered all of it, and the host returned no further entry (or one with
    a name that does not fit). *)
Theorem C23_short_read :
  forall H (hs : host H) base f h log v s' x, host_ok hs -> 0 <= base <= 240 ->
  reachable hs f h log -> well_typed v ->
  file_deo H hs (mkFs H v f h log) base 13 = Ok s' -> recorded (fs_file H s') = OwnsDir x ->
  reg2 v base 12 <> 0 -> f_success (fs_file H s') < room (reg2 v base 12) (reg2 v base 10) ->
  leftover (fs_file H s') = [] /\
  exists r older, fs_log H s' = CReadDir (HReal x) r :: older /\
  match r with Some (name, _) => Z.of_nat (length name) > 256 | None => True end.
Proof.
  intros H hs base f h log v s' x HOK Hb R Hv E O Hz Hlt. destruct (reachable_good H hs HOK f h log R) as [G _].
  destruct (port_read_spec H hs HOK (mkFs H v f h log) base (conj Hv G) Hb) as (s2 & new & bs & E2 & (_ & P2 & _) & (S1 & S2 & S3 & S4) & _).
  change (port_read H hs (mkFs H v f h log) base) with (file_deo H hs (mkFs H v f h log) base 13) in E2. rewrite E in E2. injection E2 as <-.
  destruct (clamp_room v base 12 Hv Hb) as (C1 & C2 & C3 & C4 & C5 & C6). specialize (C5 Hz). cbn [fs_vm fs_log fs_file] in *.
  rewrite C5 in *. rewrite S1 in Hlt.
  destruct S4 as [(Q & _)|[(y & Q & _)|(y & Q1 & Q2 & Q3 & Q4 & [Q5|(r & older & Q5 & Q6 & Q7)])]]; [congruence|congruence|lia|].
  assert (y = x) by congruence. subst y. split; [exact Q6|]. exists r, (older ++ log). rewrite P2, Q5. split; auto.
  destruct r as [[name st]|]; auto. unfold fits in Q7. cbn [fst] in Q7. lia.
Qed.
Print Assumptions C23_short_read.

(** C24: without the condition, what comes first is the buffered rest of a line
    of the directory read before; only then the new directory, from its first
    entry. *)
Theorem C24_new_directory :
  forall H (hs : host H) base f h log d f' h' log' x, host_ok hs -> 0 <= base <= 240 ->
  reachable hs f h log ->
  reads hs base f h log d f' h' log' -> recorded f' = OwnsDir x ->
  exists new, log' = new ++ log /\ (exists rest, leftover f ++ listing new = d ++ rest) /\
  (forall y r, In (CReadDir y r) new -> y = HReal x).
Proof.
  intros H hs base f h log d f' h' log' x HOK Hb R RD O. destruct (reachable_good H hs HOK f h log R) as [G _].
  destruct (reads_gen H hs base HOK Hb f h log d f' h' log' RD G x O) as (new & A & B & C).
  exists new. split; auto. split; [exists (leftover f'); auto|auto].
Qed.
Print Assumptions C24_new_directory.

(** A host with a directory "A" holding a file "a" of 31 bytes and an empty
    directory for any other name; its state counts the entries left. *)
Definition safe_host : host (list unit) := mkHost _
  (fun _ _ h => (None, h)) (fun _ h => h) (fun _ _ h => ([], h)) (fun _ _ h => (0, h))
  (fun p _ => (Some 7, match p with [65] => [tt] | _ => [] end)) (fun _ _ => [])
  (fun _ h => match h with _ :: h' => (Some ([97], mkStat 1 31), h') | [] => (None, []) end)
  (fun _ h => (false, h))
  (fun _ h => (mkStat 2 0, h)).
Lemma safe_host_ok : host_ok safe_host.
Proof.
  split; [intros; split; cbn; lia|]. split; [intros; cbn; split; auto; lia|]. split; [intros; cbn; lia|].
  intros x h. cbn. destruct h; cbn; auto. split; [apply Forall_cons; [unfold is_byte; lia|apply Forall_nil]|split; cbn; lia].
Qed.

Definition read_dir (name len : Z) : vm := file_vm [0;0;0;0;0;0;0;0; 2;0; 0;len; 3;0; 0;0] [name; 0].
Lemma read_dir_wt name len : is_byte name -> is_byte len -> well_typed (read_dir name len).
Proof. intros. apply file_vm_wt; repeat (apply Forall_cons; [first [assumption|unfold is_byte; lia]|]); apply Forall_nil. Qed.

(** "A" is read for 3 of its 7 characters, then the name is changed to "B", an
    empty directory; the read of "B" delivers the other 4 characters of A's
    line. *)
Theorem C24_new_directory_from_start_refuted :
  ~ (forall H (hs : host H) base f h log d f' h' log' x v s, host_ok hs -> 0 <= base <= 240 ->
  reachable hs f h log -> well_typed v -> file_deo H hs (mkFs H v f h log) base 9 = Ok s ->
  reads hs base (fs_file H s) (fs_host H s) (fs_log H s) d f' h' log' -> recorded f' = OwnsDir x ->
  exists new, log' = new ++ fs_log H s /\ (exists rest, listing new = d ++ rest)).
Proof.
  intros C.
  pose (H := list unit).
  destruct (file_deo H safe_host (mkFs H (read_dir 65 3) initial_file [] []) 160 13) as [s1|] eqn:E1; [|vm_compute in E1; discriminate].
  destruct (file_deo H safe_host (mkFs H (read_dir 66 10) (fs_file H s1) (fs_host H s1) (fs_log H s1)) 160 9) as [s2|] eqn:E2; [|vm_compute in E1; injection E1 as <-; vm_compute in E2; discriminate].
  destruct (file_deo H safe_host (mkFs H (read_dir 66 10) (fs_file H s2) (fs_host H s2) (fs_log H s2)) 160 13) as [s3|] eqn:E3; [|vm_compute in E1; injection E1 as <-; vm_compute in E2; injection E2 as <-; vm_compute in E3; discriminate].
  assert (W : forall a b, is_byte a -> is_byte b -> well_typed (read_dir a b)) by (apply read_dir_wt).
  assert (R1 : reachable safe_host (fs_file H s1) (fs_host H s1) (fs_log H s1)).
  { eapply reach_deo; [apply reach_init| | |exact E1]; [apply W; unfold is_byte; lia|lia]. }
  destruct (C H safe_host 160 (fs_file H s1) (fs_host H s1) (fs_log H s1)
    (slice (vm_mem (fs_vm H s3)) (reg2 (read_dir 66 10) 160 12) (f_success (fs_file H s3)) ++ []) (fs_file H s3) (fs_host H s3) (fs_log H s3) 7
    (read_dir 66 10) s2 safe_host_ok ltac:(lia) R1 ltac:(apply W; unfold is_byte; lia) E2) as (new & N1 & rest & N2).
  - eapply reads_next; [apply W; unfold is_byte; lia|exact E3|apply reads_none].
  - vm_compute in E1; injection E1 as <-. vm_compute in E2; injection E2 as <-. vm_compute in E3; injection E3 as <-. reflexivity.
  - vm_compute in E1; injection E1 as <-. vm_compute in E2; injection E2 as <-. vm_compute in E3; injection E3 as <-.
    cbn [fs_log] in N1.
    assert (N3 : new = [CReadDir (HReal 7) None; COpenDir [66] (Some 7); CStat [66]]).
    { apply (app_inv_tail [CCloseDir (HReal 7); CReadDir (HReal 7) (Some ([97], mkStat 1 31)); COpenDir [65] (Some 7); CStat [65]]).
      symmetry. exact N1. }
    subst new. vm_compute in N2. discriminate N2.
Qed.
Print Assumptions C24_new_directory_from_start_refuted.

(** Two reads of 3 and 10 characters of "A": "001", "f a\n"... *)
Example C23_case :
  let H := list unit in
  match after safe_host (Ok (mkFs H (read_dir 65 3) initial_file [] [])) (read_dir 65 3) 13 with
  | Ok s1 =>
     slice (vm_mem (fs_vm _ s1)) 768 (f_success (fs_file _ s1)) = [48; 48; 49] /\
     match after safe_host (Ok s1) (read_dir 65 10) 13 with
     | Ok s2 => slice (vm_mem (fs_vm _ s2)) 768 (f_success (fs_file _ s2)) = [102; 32; 97; 10] /\
         recorded (fs_file _ s2) = OwnsDir 7 /\ listing (fs_log _ s2) = [48; 48; 49; 102; 32; 97; 10] /\
         leftover initial_file = []
     | _ => False end
  | _ => False end.
Proof. vm_compute. auto. Qed.
