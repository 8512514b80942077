(** C72-C75: the command-line emulator: a session with it, what it prints,
    that it does not fail, and the clock.

    Model: CliModel.v.  [boot ... argv stdin v r] is the emulator from the start
    of the program in machine [v] to the end of the process; [r] is everything
    outside the VM and the console device.  [session] (CliSpec.v) says what the
    program goes through in terms of console events. *)
From Verif Require Import Base VmModel VmSpec VmProofs VmRun VmInv VmWorld SystemModel SystemSpec SystemProofs
  FileModel FileSpec FileProofs FileDevice Props_VM Props_File InputModel InputSpec InputProofs CliModel CliSpec CliProofs.
From Verif Require BootModel BootProofs Props_Boot.
From Coq Require Import ZifyBool.
Ltac Zify.zify_post_hook ::= Z.div_mod_to_equations.
Open Scope list_scope.

(** An argument is a C string. *)
Definition strings (argv : list (list Z)) : Prop := Forall (Forall (fun c => c <> 0)) argv.

(** ** C72 *)
(** For all devices, programs, arguments and inputs. *)
Theorem C72_session :
  forall R odei odeo handle_write handle_error hi_first kw kr fuel argv stdin v (r : R),
  strings argv ->
  forget (boot R odei odeo handle_write handle_error hi_first kw kr fuel argv stdin v r) =
  session R odei odeo (console_deo R handle_write handle_error) hi_first kw kr fuel argv stdin v r.
Proof. intros. apply boot_eq. auto. Qed.
Print Assumptions C72_session.

(** The exit code of the process is the low seven bits of System/state in the
    last machine (zero if the program never asked to exit). *)
Theorem C72_exit_code :
  forall R odei odeo handle_write handle_error hi_first kw kr fuel argv stdin v (r : R),
  match boot R odei odeo handle_write handle_error hi_first kw kr fuel argv stdin v r with
  | Ended n v' _ => n = vm_dev v' 15 mod 128 /\ 0 <= n < 128
  | Quit _ => False
  | _ => True
  end.
Proof.
  intros. unfold boot. destruct (execute _ _ _ _ _ _ _ _ _ _ _) as [v1 w1| |]; cbn [then_]; auto.
  rewrite exit_code_pos. destruct (negb (code v1 =? 0)) eqn:E1; [rewrite exit_code_then by auto; split; [reflexivity|apply code_range]|].
  destruct (send_args _ _ _ _ _ _ _ _ _ _ _ _) as [v2 w2| |]; cbn [then_]; auto.
  rewrite exit_code_pos. destruct (negb (code v2 =? 0)) eqn:E2; [rewrite exit_code_then by auto; split; [reflexivity|apply code_range]|].
  destruct (input_loop _ _ _ _ _ _ _ _ _ _ _ _) as [v3 w3| |]; cbn [then_]; auto.
  rewrite exit_code_final. split; [reflexivity|apply code_range].
Qed.
Print Assumptions C72_exit_code.

(** A program that wants a non-zero exit code at its start is not run again; one
    that wants to exit after its arguments does not see standard input. *)
Theorem C72_stops :
  forall R odei odeo out hi_first kw kr fuel argv stdin v v1 (r r1 : R),
  start R odei odeo out hi_first kw kr fuel argv v r = Done _ v1 r1 ->
  (code v1 <> 0 -> session R odei odeo out hi_first kw kr fuel argv stdin v r = Ended (code v1) v1 r1) /\
  (forall v2 r2, code v1 = 0 ->
   deliver R odei odeo hi_first kw kr fuel 16 console_port out (arg_events argv) v1 r1 = Done _ v2 r2 ->
   state v2 <> 0 \/ vector v2 16 = 0 ->
   session R odei odeo out hi_first kw kr fuel argv stdin v r = Ended (code v2) v2 r2).
Proof.
  intros * E. unfold session. rewrite E. cbn [then_]. split.
  - intros H. replace (negb (code v1 =? 0)) with true by lia. auto.
  - intros v2 r2 H1 H2 H3. replace (negb (code v1 =? 0)) with false by lia. rewrite H2. cbn [then_].
    destruct (negb (code v2 =? 0)); auto.
    assert (L : forall es, listen R odei odeo out hi_first kw kr fuel es v2 r2 = Done _ v2 r2).
    { destruct es; auto. cbn [listen]. replace ((state v2 =? 0) && negb (vector v2 16 =? 0)) with false by lia. auto. }
    rewrite L. reflexivity.
Qed.
Print Assumptions C72_stops.

(** *** Concrete sessions *)
Definition initial_term (h : unit) : term unit := mkTerm [] [] 0 initial_file [] initial_file [] h.
Definition machine_with (prog : list Z) : vm :=
  mkVm 0 0 (fun _ => 0) (fun _ => 0) (fun _ => 0) (fun i => if (256 <=? i) then nth (Z.to_nat (i - 256)) prog 0 else 0) 1048576.
Definition noon : tm := mkTm 126 10 17 12 0 0 2 320 0.
Definition try_cli (now : nat -> option tm) (prog : list Z) (argv : list (list Z)) (stdin : list Z) : ended (console * term unit) :=
  boot (term unit) (cli_dei unit now) (cli_deo unit file_host) (cli_write unit) (cli_error unit)
    true 0 0 200 argv stdin (machine_with prog) (initial_term tt).
Definition outcome_of (e : ended (console * term unit)) : option (Z * list Z * list Z) :=
  match e with Ended n _ w => Some (n, t_out (snd w), t_err (snd w)) | _ => None end.
(** LIT2 &on-console LIT .Console/vector DEO2, then LIT state LIT .System/state DEO BRK;
    on-console: LIT .Console/read DEI LIT .Console/write DEO BRK *)
Definition echo (wish : Z) : list Z :=
  [160; 1; 12; 128; 16; 55; 128; wish; 128; 15; 23; 0; 128; 18; 22; 128; 24; 23; 0].

(** Arguments "A" "bc" and input "hi": everything is echoed, then the zero of
    the end event.  A wish for exit code 3 ends the session at once. *)
Example C72_case :
  strings [[65]; [98; 99]] /\
  outcome_of (try_cli (fun _ => Some noon) (echo 0) [[65]; [98; 99]] [104; 105]) = Some (0, [65; 10; 98; 99; 10; 104; 105; 0], []) /\
  outcome_of (try_cli (fun _ => Some noon) (echo 131) [[65]; [98; 99]] [104; 105]) = Some (3, [], []) /\
  outcome_of (try_cli (fun _ => Some noon) (echo 128) [] [104; 105]) = Some (0, [], []).
Proof. split; [repeat constructor; lia|]. vm_compute. auto. Qed.

(** One would expect that a program that has asked to exit is not run any more.
    With exit code zero (0x80 in System/state) it still gets all its arguments. *)
Theorem C72_exit_zero_ends_refuted :
  exists argv, strings argv /\
  outcome_of (try_cli (fun _ => Some noon) (echo 128) argv []) = Some (0, [65; 10], []) /\
  outcome_of (try_cli (fun _ => Some noon) (echo 129) argv []) = Some (1, [], []).
Proof. exists [[65]]. split; [repeat constructor; lia|]. vm_compute. auto. Qed.
Print Assumptions C72_exit_zero_ends_refuted.

(** Nor does a wish during the arguments stop their delivery, whatever the code.
    on-console: echo, then LIT 81 LIT .System/state DEO BRK *)
Definition quitter : list Z :=
  [160; 1; 7; 128; 16; 55; 0; 128; 18; 22; 128; 24; 23; 128; 129; 128; 15; 23; 0].
Theorem C72_exit_in_arguments_refuted :
  outcome_of (try_cli (fun _ => Some noon) quitter [[65; 66; 67]] [104]) = Some (1, [65; 66; 67; 10], []) /\
  outcome_of (try_cli (fun _ => Some noon) quitter [] [104; 105]) = Some (1, [104], []).
Proof. vm_compute. auto. Qed.
Print Assumptions C72_exit_in_arguments_refuted.

(** ** C73 *)
(** Which device owns each page of sixteen ports. *)
Definition owners : list target :=
  [System; Console; Screen; Audio 0; Audio 1; Audio 2; Audio 3; NoDevice;
   Controller; Mouse; FileDev 0; FileDev 1; Datetime; NoDevice; NoDevice; NoDevice].
Definition owner (a : Z) : target := nth (Z.to_nat (a / 16)) owners NoDevice.
(** The devices without a window. *)
Definition text_device (t : target) : bool :=
  match t with System | Console | FileDev _ | Datetime => true | _ => false end.

Lemma pages (P : Z -> Prop) : (forall k, In k [0;16;32;48;64;80;96;112;128;144;160;176;192;208;224;240] -> P k) ->
  forall a, is_byte a -> P (device_id a).
Proof.
  intros HP a Ha. rewrite device_id_page by auto. apply HP. unfold page. unfold is_byte in Ha.
  assert (K : 0 <= a / 16 < 16) by lia. replace (a - a mod 16) with (16 * (a / 16)) by lia.
  generalize dependent (a / 16). intros k K.
  assert (k = 0 \/ k = 1 \/ k = 2 \/ k = 3 \/ k = 4 \/ k = 5 \/ k = 6 \/ k = 7 \/ k = 8 \/ k = 9 \/ k = 10 \/
    k = 11 \/ k = 12 \/ k = 13 \/ k = 14 \/ k = 15) as C by lia.
  cbn [In]. lia.
Qed.
Lemma owner_page a : is_byte a -> owner a = nth (Z.to_nat (device_id a / 16)) owners NoDevice.
Proof. intros Ha. unfold owner. rewrite device_id_page by auto. do 2 f_equal. unfold page. lia. Qed.

(** The three emulators hand every port to the device that owns it.  The clock
    has no output ports. *)
Theorem C73_routing : forall a, is_byte a ->
  gui_dei_target a = owner a /\
  gui_deo_target a = (match owner a with Datetime => NoDevice | t => t end) /\
  cli_dei_target a = (if text_device (owner a) then owner a else NoDevice) /\
  cli_deo_target a = (match owner a with Datetime => NoDevice | t => if text_device t then t else NoDevice end).
Proof.
  intros a Ha. rewrite owner_page by auto.
  unfold gui_dei_target, gui_deo_target, cli_dei_target, cli_deo_target.
  pattern (device_id a). apply pages; auto. cbn [In].
  intros k Hk. repeat (destruct Hk as [<-|Hk]; [vm_compute; auto|]). destruct Hk.
Qed.
Print Assumptions C73_routing.

(** A port without a device reads as the byte last written; writing it has no
    other effect. *)
Theorem C73_plain_ports :
  forall H (hs : host H) now a v (t : term H), is_byte a -> owner a <> Console ->
  (text_device (owner a) = false -> cli_dei H now a v t = Ok (vm_dev v a, v, t)) /\
  (text_device (owner a) = false \/ owner a = Datetime -> cli_deo H hs a v t = Ok (v, t)).
Proof.
  intros H hs now a v t Ha Hc. destruct (C73_routing a Ha) as (_ & _ & R1 & R2).
  unfold cli_dei, cli_deo. rewrite R1, R2. split.
  - intros ->. auto.
  - intros [E| ->]; auto. destruct (owner a); try discriminate; auto.
Qed.
Print Assumptions C73_plain_ports.
(** The two file devices do not mix: ports 0xa0 to 0xaf work on the file of the
    first, 0xb0 to 0xbf on that of the second.  A read gives what that device
    gives and changes nothing; a write leaves the other device, the text printed
    and the clock alone. *)
Definition file_of {H} (i : Z) (t : term H) : file * list call := if i =? 0 then (t_f0 t, t_l0 t) else (t_f1 t, t_l1 t).
Theorem C73_file_devices :
  forall H (hs : host H) now a i v (t : term H), is_byte a -> owner a = FileDev i ->
  cli_dei H now a v t = Ok (file_dei v (fst (file_of i t)) (page a) (a mod 16), v, t) /\
  match file_deo H hs (mkFs H v (fst (file_of i t)) (t_fh t) (snd (file_of i t))) (page a) (a mod 16), cli_deo H hs a v t with
  | Ok s, Ok (v', t') => v' = fs_vm H s /\ file_of i t' = (fs_file H s, fs_log H s) /\ t_fh t' = fs_host H s /\
      file_of (1 - i) t' = file_of (1 - i) t /\ t_out t' = t_out t /\ t_err t' = t_err t /\ t_clock t' = t_clock t
  | Fault f, Fault f' => f' = f
  | _, _ => False
  end.
Proof.
  intros H hs now a i v t Ha Ho. destruct (C73_routing a Ha) as (_ & _ & R1 & R2).
  assert (I : i = 0 \/ i = 1).
  { rewrite owner_page in Ho by auto. revert Ho. pattern (device_id a). apply pages; auto. cbn [In].
    intros k Hk. repeat (destruct Hk as [<-|Hk]; [vm_compute; try discriminate; intros [= <-]; auto|]). destruct Hk. }
  rewrite Ho in R1, R2. cbn [text_device] in R1, R2.
  assert (DP : device_port a = a mod 16) by (unfold device_port; change 15 with (Z.ones 4); now rewrite Z.land_ones by lia).
  unfold cli_dei, cli_deo. rewrite R1, R2, <- device_id_page, DP by auto. unfold file_of.
  destruct I as [-> | ->].
  - change (1 - 0 =? 0) with false. change (0 =? 0) with true. cbn [fst snd]. split; [reflexivity|].
    destruct (file_deo _ _ _ _ _) as [s|f]; cbn; auto 10.
  - change (1 - 1 =? 0) with true. change (1 =? 0) with false. cbn [fst snd]. split; [reflexivity|].
    destruct (file_deo _ _ _ _ _) as [s|f]; cbn; auto 10.
Qed.
Print Assumptions C73_file_devices.
Example C73_case : owner 47 = Screen /\ owner 176 = FileDev 1 /\ owner 192 = Datetime /\ text_device (owner 47) = false.
Proof. vm_compute. auto. Qed.

(** *** The devices of the terminal keep the machine sound. *)
Definition clock_ok (now : nat -> option tm) : Prop :=
  forall k t, now k = Some t -> -2147483648 <= tm_year t + 1900 <= 2147483647.
Section Term.
Variable H : Type.
Variable hs : host H.
Hypothesis HOK : host_ok hs.
Variable now : nat -> option tm.
Hypothesis CLK : clock_ok now.
Definition files_ok (t : term H) : Prop :=
  reachable hs (t_f0 t) (t_fh t) (t_l0 t) /\ reachable hs (t_f1 t) (t_fh t) (t_l1 t).

Lemma datetime_ok v o a : (forall t, o = Some t -> -2147483648 <= tm_year t + 1900 <= 2147483647) ->
  exists b, datetime_dei v o a = Ok b.
Proof using.
  intros Ho. unfold datetime_dei. set (t := match o with Some t => t | None => _ end).
  assert (Hy : -2147483648 <= tm_year t + 1900 <= 2147483647) by (destruct o; [apply Ho; auto|cbn; lia]).
  assert (EI : int32 (tm_year t + 1900) = Ok (tm_year t + 1900)) by (unfold int32, in_int, INT_MIN, INT_MAX; destruct (_ && _) eqn:E; [auto|lia]).
  rewrite !EI. cbn [rbind].
  repeat match goal with |- context [if ?c then _ else _] => destruct c; [eexists; reflexivity|] end.
  eexists; reflexivity.
Qed.

Lemma cli_dei_ok a v t : is_byte a -> files_ok t ->
  exists b t', cli_dei H now a v t = Ok (b, v, t') /\ files_ok t' /\ t_out t' = t_out t /\ t_err t' = t_err t.
Proof using CLK.
  intros Ha [F0 F1]. unfold cli_dei. destruct (cli_dei_target a); try (eexists _, _; split; [reflexivity|]; split; [split|]; auto).
  destruct (datetime_ok v (now (t_clock t)) a ltac:(intros; eapply CLK; eauto)) as (b & ->). cbn [rbind].
  eexists _, _. split; [reflexivity|]. split; [split|]; auto.
Qed.

Lemma hex_digit_eq d : 0 <= d < 16 -> hex_digit d = nth (Z.to_nat d) digits 0.
Proof using.
  intros Hd. assert (d = 0 \/ d = 1 \/ d = 2 \/ d = 3 \/ d = 4 \/ d = 5 \/ d = 6 \/ d = 7 \/ d = 8 \/ d = 9 \/ d = 10 \/
    d = 11 \/ d = 12 \/ d = 13 \/ d = 14 \/ d = 15) as C by lia.
  repeat (destruct C as [->|C]; [reflexivity|]). subst. reflexivity.
Qed.
Lemma hex2_eq b : is_byte b -> hex2 b = hex_text b.
Proof using.
  intros Hb. unfold is_byte in Hb. unfold hex2, hex_text, u8. rewrite (Z.mod_small b 256) by lia.
  rewrite Z.shiftr_div_pow2 by lia. change 15 with (Z.ones 4). rewrite Z.land_ones by lia.
  change (2 ^ 4) with 16. rewrite !hex_digit_eq by lia. auto.
Qed.
Lemma dump_eq s p : is_byte p -> (forall i, 0 <= i < 256 -> is_byte (s i)) -> dump s p = stack_text s p.
Proof using.
  intros Hp Hs. unfold is_byte in Hp. unfold dump, stack_text, u8. rewrite Z.mod_small by lia.
  rewrite flat_map_concat_map. f_equal. apply map_ext_in. intros i Hi. apply in_seq in Hi.
  rewrite hex2_eq; auto. apply Hs. lia.
Qed.

(** One write outside the console. *)
Lemma cli_deo_ok a v t : is_byte a -> page a <> 16 -> well_typed v -> vm_msize v = 1048576 -> files_ok t ->
  exists v' t', cli_deo H hs a v t = Ok (v', t') /\ well_typed v' /\ vm_msize v' = 1048576 /\ files_ok t' /\
    t_out t' = t_out t /\ t_err t' = t_err t ++ says_err (a, v).
Proof using HOK.
  intros Ha Hp Hv Hn [F0 F1].
  assert (Q : forall f log base, reachable hs f (t_fh t) log -> 0 <= base <= 240 ->
    exists s, file_deo H hs (mkFs H v f (t_fh t) log) base (device_port a) = Ok s /\
    well_typed (fs_vm H s) /\ vm_msize (fs_vm H s) = 1048576 /\ reachable hs (fs_file H s) (fs_host H s) (fs_log H s)).
  { intros f log base X Hb. destruct (reachable_good H hs HOK _ _ _ X) as [G0 _].
    destruct (file_deo_spec H hs HOK (mkFs H v f (t_fh t) log) base (device_port a) (conj Hv G0) Hb) as (s & new & E & ((P0 & _) & _ & _ & _ & P5 & _)).
    exists s. split; auto. split; auto. split; [destruct P5 as (_ & _ & _ & _ & _ & P5); cbn in P5; congruence|].
    exact (reach_deo hs f (t_fh t) log v base (device_port a) s X Hv Hb E). }
  unfold cli_deo, cli_deo_target. rewrite device_id_page by auto.
  unfold page in *. unfold is_byte in Ha.
  destruct (a - a mod 16 =? 0) eqn:E0.
  - (* system *)
    unfold says_err. replace (a =? 25) with false by lia.
    unfold system_deo. assert (S14 : a <> 14 -> (a =? 14) && negb (vm_dev v 14 =? 0) = false) by lia.
    pose proof Hv as (V1 & V2 & V3 & V4 & V5 & V6 & V7).
    destruct (a =? 3) eqn:A3.
    { rewrite S14, app_nil_r by lia.
      pose proof (expansion_cases v Hv ltac:(unfold size_ok; lia)) as C.
      destruct (expansion v) as [v'|f]; cbn [rbind].
      - destruct C as (C1 & (_ & _ & _ & _ & _ & C2)). exists v', t. split; [auto|]. split; [auto|]. split; [congruence|]. split; [split; auto|auto].
      - destruct C as (_ & C2 & _). pose proof (command_range v Hv). unfold is_short in *. lia. }
    destruct (a =? 4) eqn:A4.
    { rewrite S14, app_nil_r by lia. eexists _, t. split; [reflexivity|].
      split; [exact (conj (V5 _ Ha) (conj V2 (conj V3 (conj V4 (conj V5 (conj V6 V7))))))|]. split; [auto|]. split; [split; auto|auto]. }
    destruct (a =? 5) eqn:A5.
    { rewrite S14, app_nil_r by lia. eexists _, t. split; [reflexivity|].
      split; [exact (conj V1 (conj (V5 _ Ha) (conj V3 (conj V4 (conj V5 (conj V6 V7))))))|]. split; [auto|]. split; [split; auto|auto]. }
    destruct (a =? 7) eqn:A7.
    { rewrite S14, app_nil_r by lia. exists v, t. split; [reflexivity|]. split; [auto|]. split; [auto|]. split; [split; auto|auto]. }
    destruct ((a =? 9) || (a =? 11) || (a =? 13)) eqn:A9.
    { rewrite S14, app_nil_r by lia. exists v, t. split; [reflexivity|]. split; [auto|]. split; [auto|]. split; [split; auto|auto]. }
    destruct (a =? 14) eqn:A14.
    + assert (a = 14) by lia. subst a. cbn [andb]. destruct (vm_dev v 14 =? 0) eqn:D; cbn [negb].
      * rewrite app_nil_r. exists v, t. split; [reflexivity|]. split; [auto|]. split; [auto|]. split; [split; auto|auto].
      * unfold cli_debug. rewrite D. rewrite !dump_eq by auto.
        exists v. eexists. split; [reflexivity|]. split; [auto|]. split; [auto|]. split; [split; auto|auto].
    + cbn [andb]. rewrite app_nil_r. exists v, t. split; [reflexivity|]. split; [auto|]. split; [auto|]. split; [split; auto|auto].
  - assert (SE : says_err (a, v) = []).
    { unfold says_err. replace (a =? 25) with false by lia. replace (a =? 14) with false by lia. auto. }
    rewrite SE, app_nil_r. replace (a - a mod 16 =? 16) with false by lia.
    destruct ((a - a mod 16 =? 160) || (a - a mod 16 =? 176)) eqn:EF.
    + destruct (Z.quot (a - a mod 16 - 160) (176 - 160) =? 0).
      * destruct (Q (t_f0 t) (t_l0 t) (a - a mod 16) F0 ltac:(lia)) as (s & -> & A & B & C). cbn [rbind].
        eexists _, _. split; [reflexivity|]. split; [auto|]. split; [auto|]. split; [split; cbn; auto; eapply reach_host; eauto|auto].
      * destruct (Q (t_f1 t) (t_l1 t) (a - a mod 16) F1 ltac:(lia)) as (s & -> & A & B & C). cbn [rbind].
        eexists _, _. split; [reflexivity|]. split; [auto|]. split; [auto|]. split; [split; cbn; auto; eapply reach_host; eauto|auto].
    + exists v, t. split; [reflexivity|]. split; [auto|]. split; [auto|]. split; [split; auto|auto].
Qed.
End Term.

(** *** What is printed.  The emulator is run with devices that also keep a
    record of every write of the program to a port of another device and to
    0x18 and 0x19, with the machine at that moment.  The record changes nothing,
    and standard output is exactly the bytes written to 0x18, in order; standard
    error is the bytes written to 0x19 and the stacks for each non-zero byte
    written to 0x0e. *)
Theorem C73_output :
  forall H (hs : host H) now hi_first kw kr fuel argv stdin v h,
  host_ok hs -> clock_ok now -> strings argv -> well_typed v -> vm_msize v = 1048576 ->
  let t0 := mkTerm [] [] 0 initial_file [] initial_file [] h in
  match
    forget (boot _ (recorded_in (term H) (cli_dei H now)) (recorded_out (term H) (cli_deo H hs))
      (recorded_byte (term H) 24 (cli_write H)) (recorded_byte (term H) 25 (cli_error H))
      hi_first kw kr fuel argv stdin v (t0, [])),
    forget (boot _ (cli_dei H now) (cli_deo H hs) (cli_write H) (cli_error H)
      hi_first kw kr fuel argv stdin v t0)
  with
  | Ended n v1 (t1, record), Ended n' v1' t1' =>
      n' = n /\ v1' = v1 /\ t1' = t1 /\
      t_out t1 = concat (map says_out record) /\ t_err t1 = concat (map says_err record)
  | Failed f, Failed f' => f' = f
  | Running, Running => True
  | _, _ => False
  end.
Proof.
  intros H hs now hi kw kr fuel argv stdin v h HOK CLK Ha Hv Hn t0.
  rewrite !boot_eq by auto.
  set (T := (term H * list (Z * vm))%type).
  set (rin := recorded_in (term H) (cli_dei H now)). set (rout := recorded_out (term H) (cli_deo H hs)).
  set (rcon := console_deo T (recorded_byte (term H) 24 (cli_write H)) (recorded_byte (term H) 25 (cli_error H))).
  pose (I := fun w : T => files_ok H hs (fst w) /\
    t_out (fst w) = concat (map says_out (snd w)) /\ t_err (fst w) = concat (map says_err (snd w))).
  assert (SO : forall a u, page a <> 16 -> says_out (a, u) = []).
  { intros a u Hp. unfold says_out, page in *. replace (a =? 24) with false by lia. auto. }
  assert (CC : forall (f : Z * vm -> list Z) l x, concat (map f (l ++ [x])) = concat (map f l) ++ f x).
  { intros. rewrite map_app, concat_app. cbn. rewrite app_nil_r. auto. }
  assert (U : forall b, is_byte b -> u8 b = b) by (intros; apply Z.mod_small; auto).
  (* the recorded session *)
  assert (G : forall a u w, is_byte a -> well_typed u -> vm_msize u = 1048576 -> I w ->
     good_in 1048576 I (fun _ => False) (rin a u w)).
  { intros a u [t tr] Hba Hu Hm (I1 & I2 & I3). cbn [fst snd] in *.
    destruct (cli_dei_ok H hs now CLK a u t Hba I1) as (b & t' & E & A & B & C).
    unfold rin, recorded_in. cbn [fst snd]. rewrite E. cbn. unfold I. cbn [fst snd]. rewrite B, C. auto. }
  assert (G2 : forall a u w, is_byte a -> page a <> 16 -> well_typed u -> vm_msize u = 1048576 -> I w ->
     good_out 1048576 I (fun _ => False) (rout a u w)).
  { intros a u [t tr] Hba Hp Hu Hm (I1 & I2 & I3). cbn [fst snd] in *.
    destruct (cli_deo_ok H hs HOK a u t Hba Hp Hu Hm I1) as (u' & t' & E & A & B & C & D1 & D2).
    unfold rout, recorded_out. cbn [fst snd]. rewrite E. cbn. split; auto. split; auto.
    unfold I. cbn [fst snd]. rewrite !CC, D1, D2, I2, I3, SO, app_nil_r by auto. auto. }
  assert (G3 : forall a u w, is_byte a -> well_typed u -> vm_msize u = 1048576 -> I w ->
     good_out 1048576 I (fun _ => False) (rcon a u w)).
  { intros a u [t tr] Hba Hu Hm (I1 & I2 & I3). cbn [fst snd] in *.
    pose proof Hu as (_ & _ & _ & _ & V5 & _).
    unfold rcon, console_deo. destruct (a =? 24) eqn:E24; [|destruct (a =? 25) eqn:E25].
    - assert (a = 24) by lia. subst a. cbn. split; auto. split; auto. unfold I. cbn [fst snd].
      rewrite !CC. cbn. rewrite I2, I3, U, app_nil_r by auto. auto.
    - assert (a = 25) by lia. subst a. cbn. split; auto. split; auto. unfold I. cbn [fst snd].
      rewrite !CC. cbn. rewrite I2, I3, U, app_nil_r by auto. auto.
    - cbn. split; auto. split; auto. exact (conj I1 (conj I2 I3)). }
  assert (I0 : I (t0, [])) by (split; [split; constructor|auto]).
  pose proof (session_good T rin rout hi kw kr fuel 1048576 I (fun _ => False) rcon G G2 G3 argv stdin v (t0, []) Hv Hn I0) as GS.
  (* the two sessions *)
  assert (HH : hosts_related T (term H) (fun w t => t = fst w) rin rout (cli_dei H now) (cli_deo H hs)).
  { split; intros a u [t tr] t' Hba ->; cbn [fst].
    - unfold rin, recorded_in. cbn [fst snd]. destruct (cli_dei H now a u t) as [[[b u'] t1]|]; cbn; auto.
    - unfold rout, recorded_out. cbn [fst snd]. destruct (cli_deo H hs a u t) as [[u' t1]|]; cbn; auto. }
  assert (HO : forall a u w w', is_byte a -> w' = fst w ->
     rel_out T (term H) (fun w t => t = fst w) (rcon a u w) (console_deo (term H) (cli_write H) (cli_error H) a u w')).
  { intros a u [t tr] t' Hba ->. cbn [fst]. unfold rcon, console_deo.
    destruct (a =? 24); [cbn; auto|]. destruct (a =? 25); cbn; auto. }
  pose proof (session_related T (term H) (fun w t => t = fst w) rin rout rcon (cli_dei H now) (cli_deo H hs)
    (console_deo (term H) (cli_write H) (cli_error H)) hi kw kr fuel HH HO argv stdin v (t0, []) t0 eq_refl) as RS.
  unfold good_end, rel_end in *.
  destruct (session T _ _ _ _ _ _ _ _ _ _ _) as [n1 v1 [t1 tr]|n1|f1|], (session (term H) _ _ _ _ _ _ _ _ _ _ _) as [n2 v2 t2|n2|f2|];
    try contradiction; auto.
  destruct RS as (-> & -> & ->). destruct GS as (_ & _ & _ & (_ & G4 & G5)). cbn [fst snd] in *. auto 6.
Qed.
Print Assumptions C73_output.

(** The program pushes 1 and 2, asks for the stacks, and writes "hi" to output
    and "!" to error. *)
Definition talker : list Z :=
  [160; 1; 2; 128; 255; 128; 14; 23; 128; 104; 128; 24; 23; 128; 33; 128; 25; 23; 128; 105; 128; 24; 23; 0].
Example C73_output_case :
  outcome_of (try_cli (fun _ => Some noon) talker [] []) =
    Some (0, [104; 105], [87; 83; 84; 32; 48; 49; 32; 48; 50; 10; 82; 83; 84; 10; 33]) /\
  host_ok file_host /\ clock_ok (fun _ => Some noon) /\ well_typed (machine_with talker) /\ vm_msize (machine_with talker) = 1048576.
Proof.
  split; [vm_compute; reflexivity|]. split; [apply file_host_ok|].
  split; [intros k t E; injection E as <-; cbn; lia|]. split; [|reflexivity].
  unfold well_typed, machine_with, is_byte; cbn [vm_wsp vm_rsp vm_ws vm_rs vm_dev vm_mem vm_msize].
  split; [lia|]. split; [lia|]. split; [intros; lia|]. split; [intros; lia|]. split; [intros; lia|]. split; [|lia].
  intros i Hi. destruct (256 <=? i); [|lia].
  assert (B : Forall (fun b => 0 <= b < 256) talker) by (unfold talker; repeat constructor; lia).
  destruct (lt_dec (Z.to_nat (i - 256)) (length talker)) as [L|L].
  - rewrite Forall_forall in B. apply B. apply nth_In. auto.
  - rewrite nth_overflow by lia. lia.
Qed.

(** ** C74 *)
(** The machine the reset leaves: everything zero. *)
Lemma reset_all v : vm_msize v = 1048576 -> exists v', reset v RESET_ALL = Ok v' /\ vm_msize v' = 1048576 /\
  vm_wsp v' = 0 /\ vm_rsp v' = 0 /\ (forall i, 0 <= i < 256 -> vm_ws v' i = 0) /\ (forall i, 0 <= i < 256 -> vm_rs v' i = 0) /\
  (forall i, 0 <= i < 256 -> vm_dev v' i = 0) /\ (forall i, 0 <= i < 1048576 -> vm_mem v' i = 0).
Proof.
  intros Hs. unfold reset. change (0 <? Z.land RESET_ALL RESET_STACK) with true. change (0 <? Z.land RESET_ALL RESET_DEVICE) with true.
  change (0 <? Z.land RESET_ALL RESET_ZERO_PAGE) with true. change (0 <? Z.land RESET_ALL RESET_HIGH_MEM) with true.
  cbn [vm_msize vm_set_dev]. rewrite Hs. change (1048576 <? 256) with false. cbn [rbind vm_set_mem vm_msize].
  eexists. split; [reflexivity|]. cbn [vm_wsp vm_rsp vm_ws vm_rs vm_dev vm_mem vm_msize vm_set_mem vm_set_dev].
  split; [auto|]. split; [auto|]. split; [auto|]. unfold memset.
  split; [intros i Hi; destruct (_ && _) eqn:E; [auto|lia]|].
  split; [intros i Hi; destruct (_ && _) eqn:E; [auto|lia]|].
  split; [intros i Hi; destruct (_ && _) eqn:E; [auto|lia]|].
  intros i Hi. destruct (256 <=? i) eqn:E.
  - replace (i <? 256 + (1048576 - 256)) with true by lia. auto.
  - cbn [andb]. replace ((0 <=? i) && (i <? 0 + 256)) with true by lia. auto.
Qed.

(** The ROM the emulator starts: the file named by the first argument, or the
    ROM embedded by rom2exe in the executable; and the arguments the program gets. *)
Inductive launches (open : list Z -> option (list Z)) (rom : list Z) : option (list Z) -> list (list Z) -> list (list Z) -> Prop :=
| launch_file self name rest :
    match self with None => True | Some exe => forall body, exe <> body ++ [98; 101; 109; 98] end ->
    open name = Some rom -> launches open rom self (name :: rest) rest
| launch_embedded runner room exe args : 0 <= room -> 0 < BootModel.zlen rom ->
    BootModel.rom2exe (Some runner) (Some rom) true room = Ok (BootModel.Exit 0 (Some exe)) ->
    launches open rom (Some exe) args args.

Lemma launches_spec open rom self args argv m : launches open rom self args argv -> BootModel.zlen rom <= 1048320 ->
  rom_args self args = argv /\
  BootModel.cli_start self (rom_arg open args) m =
    rmap BootModel.Booted (BootModel.apply_stores BootModel.MEMORY_SIZE m (BootModel.stores BootModel.RESET_VECTOR rom)).
Proof.
  intros L Hz. destruct L as [self name rest Hself Ho|runner room exe args Hr H0 He].
  - assert (E : BootModel.cli_start self (rom_arg open (name :: rest)) m = BootModel.cli_start None (rom_arg open (name :: rest)) m).
    { destruct self; auto. apply Props_Boot.C49_plain_runner. auto. }
    split.
    + destruct self as [exe|]; auto. unfold rom_args. destruct (Props_Boot.C48_not_found exe 0 Hself) as (f & ->). reflexivity.
    + rewrite E. unfold rom_arg. cbn [BootModel.cli_start BootModel.cli_main]. rewrite Ho.
      rewrite BootProofs.cli_file_stores, firstn_all2 by (unfold BootModel.zlen in *; lia). auto.
  - destruct (Props_Boot.C48_found runner rom room exe 0 Hr ltac:(lia) He) as (f & Ef & Er).
    unfold rom_args, BootModel.cli_start. rewrite Ef. cbn [rbind]. replace (BootModel.zlen rom =? 0) with false by lia.
    split; auto. unfold BootModel.cli_read_rom. replace (BootModel.zlen rom =? 0) with false by lia. rewrite Er. auto.
Qed.

(** For every program, all arguments, all input, any files and any times: the
    process does not fail but for the overflow of C09; the ROM stands in a zeroed
    machine, the process is the session of C72 with it, and it ends with an exit
    code of seven bits and with both file devices owning what they record (C22). *)
Theorem C74_process :
  forall H (hs : host H) now hi_first kw kr fuel open rom self args argv stdin v h,
  host_ok hs -> clock_ok now -> strings args -> vm_msize v = 1048576 ->
  launches open rom self args argv -> Forall is_byte rom -> BootModel.zlen rom <= 1048320 ->
  let t0 := mkTerm [] [] 0 initial_file [] initial_file [] h in
  exists v0, well_typed v0 /\ vm_msize v0 = 1048576 /\ Props_Boot.holds_rom (fun _ => 0) (fun i => if (0 <=? i) && (i <? 1048576) then vm_mem v0 i else 0) rom /\
    (forall i, 0 <= i < 256 -> vm_dev v0 i = 0) /\ vm_wsp v0 = 0 /\ vm_rsp v0 = 0 /\
  forget (cli_process _ (cli_dei H now) (cli_deo H hs) (cli_write H) (cli_error H) hi_first kw kr fuel self open args stdin v t0) =
    session _ (cli_dei H now) (cli_deo H hs) (console_deo _ (cli_write H) (cli_error H)) hi_first kw kr fuel argv stdin v0 t0 /\
  match cli_process _ (cli_dei H now) (cli_deo H hs) (cli_write H) (cli_error H) hi_first kw kr fuel self open args stdin v t0 with
  | Ended n v1 (_, t1) => n = code v1 /\ 0 <= n < 128 /\ well_typed v1 /\
      accept (t_l0 t1) Nobody = Some (recorded (t_f0 t1)) /\ accept (t_l1 t1) Nobody = Some (recorded (t_f1 t1))
  | Quit _ => False
  | Failed f => exists n, n > 2147483647 /\ f = SignedOverflow n
  | Running => True
  end.
Proof.
  intros H hs now hi kw kr fuel open rom self args argv stdin v h HOK CLK Hs Hm HL Hb Hz t0.
  destruct (reset_all v Hm) as (v' & E & A1 & A2 & A3 & A4 & A5 & A6 & A7).
  destruct (launches_spec open rom self args argv (vm_mem v') HL Hz) as [L1 L2].
  destruct (Props_Boot.load_fits (vm_mem v') rom Hz) as (m & Em & [M1 M2]). rewrite Em in L2. cbn [rmap rbind] in L2.
  assert (Hargv : strings argv).
  { unfold strings in *. destruct HL; auto. inversion Hs; auto. }
  assert (Hz0 : 0 <= BootModel.zlen rom) by (unfold BootModel.zlen; lia).
  assert (Mb : forall i, 0 <= i < 1048576 -> is_byte (m i)).
  { intros i Hi. destruct (Z_lt_dec i 256) as [X|X]; [rewrite M2 by lia; rewrite A7 by lia; unfold is_byte; lia|].
    destruct (Z_lt_dec i (256 + BootModel.zlen rom)) as [Y|Y].
    - replace i with (256 + (i - 256)) by lia. rewrite M1 by lia. rewrite Forall_forall in Hb. apply Hb, nth_In.
      unfold BootModel.zlen in *. lia.
    - rewrite M2 by lia. rewrite A7 by lia. unfold is_byte; lia. }
  assert (W : well_typed (vm_set_mem v' m)).
  { unfold well_typed. cbn [vm_set_mem vm_wsp vm_rsp vm_ws vm_rs vm_dev vm_mem vm_msize]. unfold is_byte in *. rewrite A1, A2, A3.
    split; [lia|]. split; [lia|]. split; [intros i Hi; rewrite A4 by auto; lia|]. split; [intros i Hi; rewrite A5 by auto; lia|].
    split; [intros i Hi; rewrite A6 by auto; lia|]. split; [auto|lia]. }
  assert (P : cli_process _ (cli_dei H now) (cli_deo H hs) (cli_write H) (cli_error H) hi kw kr fuel self open args stdin v t0 =
     boot _ (cli_dei H now) (cli_deo H hs) (cli_write H) (cli_error H) hi kw kr fuel argv stdin (vm_set_mem v' m) t0).
  { unfold cli_process. rewrite E, L2, L1. auto. }
  exists (vm_set_mem v' m). split; [auto|]. split; [auto|]. split; [|split; [auto|split; [auto|split; [auto|split]]]].
  - cbn [vm_set_mem vm_mem]. split; intros i Hi.
    + replace ((0 <=? 256 + i) && (256 + i <? 1048576)) with true by lia. auto.
    + destruct (_ && _) eqn:EB; auto. rewrite M2 by lia. apply A7. lia.
  - rewrite P. apply boot_eq. auto.
  - rewrite P. pose proof (boot_eq _ (cli_dei H now) (cli_deo H hs) (cli_write H) (cli_error H) hi kw kr fuel argv stdin (vm_set_mem v' m) t0 Hargv) as BE.
    assert (G : good_end (term H) 1048576 (files_ok H hs) (fun _ => False)
      (session _ (cli_dei H now) (cli_deo H hs) (console_deo _ (cli_write H) (cli_error H)) hi kw kr fuel argv stdin (vm_set_mem v' m) t0)).
    { apply session_good; auto.
      - intros a u t Ha Hu Hn Ht. destruct (cli_dei_ok H hs now CLK a u t Ha Ht) as (b & t' & -> & C & _). cbn. auto.
      - intros a u t Ha Hp Hu Hn Ht. destruct (cli_deo_ok H hs HOK a u t Ha Hp Hu Hn Ht) as (u' & t' & -> & C1 & C2 & C3 & _). cbn. auto.
      - intros a u t Ha Hu Hn Ht. unfold console_deo. destruct (a =? 24); [cbn; auto|]. destruct (a =? 25); cbn; auto.
      - split; constructor. }
    rewrite <- BE in G. destruct (boot _ _ _ _ _ _ _ _ _ _ _ _ _) as [n v1 [c1 t1]|n|f|]; cbn in G; auto.
    + destruct G as (G1 & G2 & G3 & [G4 G5]). split; auto. split; [rewrite G1; apply code_range|]. split; auto.
      split; eapply C22_ownership; eauto.
    + destruct G as [G|[]]; auto.
Qed.
Print Assumptions C74_process.

(** An executable made by rom2exe behaves as the emulator with the ROM file. *)
Theorem C74_embedded :
  forall R odei odeo handle_write handle_error hi_first kw kr fuel open runner room rom exe name args stdin v (r : R),
  0 <= room -> 0 < BootModel.zlen rom <= 1048320 ->
  BootModel.rom2exe (Some runner) (Some rom) true room = Ok (BootModel.Exit 0 (Some exe)) ->
  open name = Some rom ->
  cli_process R odei odeo handle_write handle_error hi_first kw kr fuel (Some exe) open args stdin v r =
  cli_process R odei odeo handle_write handle_error hi_first kw kr fuel None open (name :: args) stdin v r.
Proof.
  intros * Hr Hz He Ho. unfold cli_process. destruct (reset v RESET_ALL) as [v'|f]; auto.
  destruct (launches_spec open rom (Some exe) args args (vm_mem v') ltac:(eapply launch_embedded; eauto; lia) ltac:(lia)) as [A1 A2].
  destruct (launches_spec open rom None (name :: args) args (vm_mem v') ltac:(apply launch_file; auto) ltac:(lia)) as [B1 B2].
  rewrite A1, A2, B1, B2. auto.
Qed.
Print Assumptions C74_embedded.

(** The echo program from a file, with an argument. *)
Definition launch_case (self : option (list Z)) (args : list (list Z)) : ended (console * term unit) :=
  cli_process _ (cli_dei unit (fun _ => Some noon)) (cli_deo unit file_host) (cli_write unit) (cli_error unit)
    true 0 0 200 self (fun n => if list_eq_dec Z.eq_dec n [120] then Some (echo 0) else None) args [104]
    (machine_with []) (initial_term tt).
Definition echo_exe : list Z := [127; 69] ++ echo 0 ++ [0; 0; 0; 19; 98; 101; 109; 98].
Example C74_case :
  outcome_of (launch_case None [[120]; [65]]) = Some (0, [65; 10; 104; 0], []) /\
  outcome_of (launch_case (Some [127; 69]) [[120]; [65]]) = Some (0, [65; 10; 104; 0], []) /\
  BootModel.rom2exe (Some [127; 69]) (Some (echo 0)) true 100 = Ok (BootModel.Exit 0 (Some echo_exe)) /\
  outcome_of (launch_case (Some echo_exe) [[65]]) = Some (0, [65; 10; 104; 0], []) /\
  launch_case None [[121]] = Quit 1 /\ launch_case None [] = Quit 1.
Proof. vm_compute. auto 7. Qed.

(** ** C75 *)
(** The value of each byte of the clock page for a time: year and day of the
    year take two bytes, the higher first. *)
Definition clock_byte (t : tm) (k : Z) : Z :=
  nth (Z.to_nat k) [(tm_year t + 1900) / 256; tm_year t + 1900; tm_mon t; tm_mday t; tm_hour t; tm_min t; tm_sec t;
                    tm_wday t; tm_yday t / 256; tm_yday t; tm_isdst t] 0 mod 256.
(** The start of the year 1900, for when the time is not known (except that the day of the month is 0). *)
Definition unknown : tm := mkTm 0 0 0 0 0 0 0 0 0.
Definition time_of (o : option tm) : tm := match o with Some t => t | None => unknown end.

Theorem C75_ports :
  forall H now k v (t : term H), clock_ok now -> 0 <= k <= 10 ->
  exists t', cli_dei H now (192 + k) v t = Ok (clock_byte (time_of (now (t_clock t))) k, v, t') /\
    t_clock t' = S (t_clock t) /\ t_out t' = t_out t /\ t_err t' = t_err t.
Proof.
  intros H now k v t CLK Hk. unfold cli_dei.
  destruct (C73_routing (192 + k) ltac:(unfold is_byte; lia)) as (_ & _ & -> & _).
  replace (owner (192 + k)) with Datetime.
  2:{ unfold owner. replace ((192 + k) / 16) with 12 by lia. reflexivity. }
  cbn [text_device].
  set (x := time_of (now (t_clock t))).
  assert (Hx : -2147483648 <= tm_year x + 1900 <= 2147483647).
  { unfold x. destruct (now (t_clock t)) eqn:E; cbn; [eapply CLK; eauto|lia]. }
  assert (EI : int32 (tm_year x + 1900) = Ok (tm_year x + 1900)).
  { unfold int32, in_int, INT_MIN, INT_MAX. destruct (_ && _) eqn:E; [auto|lia]. }
  assert (ED : datetime_dei v (now (t_clock t)) (192 + k) = Ok (clock_byte x k)).
  { unfold datetime_dei. change (match now (t_clock t) with Some t => t | None => mkTm 0 0 0 0 0 0 0 0 0 end) with x. cbv zeta.
    rewrite EI. cbn [rbind]. rewrite !Z.shiftr_div_pow2 by lia. change (2 ^ 8) with 256.
    assert (k = 0 \/ k = 1 \/ k = 2 \/ k = 3 \/ k = 4 \/ k = 5 \/ k = 6 \/ k = 7 \/ k = 8 \/ k = 9 \/ k = 10) as C by lia.
    repeat (destruct C as [->|C]; [reflexivity|]). subst. reflexivity. }
  rewrite ED. cbn [rbind]. eexists. split; [reflexivity|]. auto.
Qed.
Print Assumptions C75_ports.

(** A short is read in two steps, each with a time of its own.  [VmModel.dev_in]
    is the DEI2 instruction's access; the order of the two steps is the compiler's
    choice [hi_first].  [k] is 0 for the year, 8 for the day of the year. *)
Theorem C75_short :
  forall H now (hi_first : bool) k (s : st (term H)), clock_ok now -> k = 0 \/ k = 8 ->
  let t1 := time_of (now (t_clock (s_w _ s))) in let t2 := time_of (now (S (t_clock (s_w _ s)))) in
  exists s', dev_in (term H) (cli_dei H now) hi_first true (192 + k) s =
    Ok (256 * clock_byte (if hi_first then t1 else t2) k + clock_byte (if hi_first then t2 else t1) (k + 1), s').
Proof.
  intros H now hi k s CLK Hk t1 t2.
  assert (P : forall j (x : st (term H)), 0 <= j <= 10 -> exists x',
    dev_in1 (term H) (cli_dei H now) (192 + j) x = Ok (clock_byte (time_of (now (t_clock (s_w _ x)))) j, x') /\
    t_clock (s_w _ x') = S (t_clock (s_w _ x))).
  { intros j x Hj. unfold dev_in1. replace (u8 (192 + j)) with (192 + j) by (unfold u8; rewrite Z.mod_small; lia).
    destruct (C75_ports H now j (s_vm _ x) (s_w _ x) CLK Hj) as (t' & -> & Ht & _).
    eexists (mkSt _ (s_vm _ x) _ _ _ _ _ t'). split; [|exact Ht].
    apply f_equal, (f_equal2 pair); [unfold clock_byte, u8; lia|reflexivity]. }
  assert (Q : forall a b, 0 <= a < 256 -> 0 <= b < 256 -> Z.lor (Z.shiftl a 8) b = 256 * a + b).
  { intros a b Ha Hb'. rewrite join_eq; auto; lia. }
  assert (B : forall t j, 0 <= clock_byte t j < 256) by (intros; unfold clock_byte; lia).
  unfold dev_in. destruct hi.
  - destruct (P k s ltac:(lia)) as (s1 & E1 & C1). destruct (P (k + 1) s1 ltac:(lia)) as (s2 & E2 & C2).
    unfold bind, ret. rewrite E1. replace (192 + k + 1) with (192 + (k + 1)) by lia. rewrite E2.
    eexists. rewrite Q by auto. rewrite C1. reflexivity.
  - destruct (P (k + 1) s ltac:(lia)) as (s1 & E1 & C1). destruct (P k s1 ltac:(lia)) as (s2 & E2 & C2).
    unfold bind, ret. replace (192 + k + 1) with (192 + (k + 1)) by lia. rewrite E1, E2.
    eexists. rewrite Q by auto. rewrite C1. reflexivity.
Qed.
Print Assumptions C75_short.

(** So a short is right if the two times agree in it. *)
Theorem C75_year_and_day :
  forall H now hi_first (s : st (term H)), clock_ok now ->
  let t1 := time_of (now (t_clock (s_w _ s))) in let t2 := time_of (now (S (t_clock (s_w _ s)))) in
  (0 <= tm_year t1 + 1900 < 65536 -> tm_year t2 = tm_year t1 ->
   exists s', dev_in (term H) (cli_dei H now) hi_first true 192 s = Ok (tm_year t1 + 1900, s')) /\
  (0 <= tm_yday t1 < 65536 -> tm_yday t2 = tm_yday t1 ->
   exists s', dev_in (term H) (cli_dei H now) hi_first true 200 s = Ok (tm_yday t1, s')).
Proof.
  intros H now hi s CLK t1 t2.
  pose proof (C75_short H now hi 0 s CLK ltac:(auto)) as (s1 & E1). pose proof (C75_short H now hi 8 s CLK ltac:(auto)) as (s2 & E2).
  change (192 + 0) with 192 in E1. change (192 + 8) with 200 in E2. fold t1 t2 in E1, E2. unfold clock_byte in E1, E2.
  change (Z.to_nat 0) with 0%nat in E1. change (Z.to_nat (0 + 1)) with 1%nat in E1.
  change (Z.to_nat 8) with 8%nat in E2. change (Z.to_nat (8 + 1)) with 9%nat in E2. cbn [nth] in E1, E2.
  split; intros Hr He.
  - exists s1. rewrite E1. do 2 f_equal. destruct hi; rewrite He; lia.
  - exists s2. rewrite E2. do 2 f_equal. destruct hi; rewrite He; lia.
Qed.
Print Assumptions C75_year_and_day.

(** Otherwise it may be neither the one nor the other: at midnight after day 255
    of the year the program reads 0 or 511, depending on the compiler. *)
Definition midnight (k : nat) : option tm :=
  Some (match k with O => mkTm 126 8 13 23 59 59 0 255 0 | _ => mkTm 126 8 14 0 0 0 1 256 0 end).
Theorem C75_torn_read_refuted :
  clock_ok midnight /\
  exists s : st (term unit),
  tm_yday (time_of (midnight (t_clock (s_w _ s)))) = 255 /\ tm_yday (time_of (midnight (S (t_clock (s_w _ s))))) = 256 /\
  (exists s', dev_in (term unit) (cli_dei unit midnight) true true 200 s = Ok (0, s')) /\
  (exists s', dev_in (term unit) (cli_dei unit midnight) false true 200 s = Ok (511, s')).
Proof.
  split.
  { intros [|k] t E; injection E as <-; cbn; lia. }
  exists (mkSt _ (machine_with []) 0 0 0 0 256 (initial_term tt)).
  split; [reflexivity|]. split; [reflexivity|].
  split; [eexists; vm_compute; reflexivity|]. eexists; vm_compute; reflexivity.
Qed.
Print Assumptions C75_torn_read_refuted.

(** A program prints year, month, day of the month and the day of the year. *)
Definition clock_reader : list Z :=
  [128; 192; 22; 128; 24; 23; 128; 193; 22; 128; 24; 23; 128; 194; 22; 128; 24; 23; 128; 195; 22; 128; 24; 23;
   128; 200; 54; 128; 24; 23; 128; 24; 23; 0].
Example C75_case :
  outcome_of (try_cli (fun _ => Some noon) clock_reader [] []) = Some (0, [7; 234; 10; 17; 64; 1], []) /\
  outcome_of (try_cli (fun _ => None) clock_reader [] []) = Some (0, [7; 108; 0; 0; 0; 0], []).
Proof. vm_compute. auto. Qed.
