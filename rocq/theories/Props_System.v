(** Properties C11-C15: the system device (src/devices/system.c).

    [command v] is the address the program wrote to System/expansion,
    [cmd_byte]/[cmd_word] are bytes and wrapped big-endian shorts of the command
    block.  [size_ok]: memory_size between 64 KiB and 4 GiB - 64 KiB. *)
From Verif Require Import Base VmModel VmSpec VmProofs VmRun VmInv SystemModel SystemSpec SystemProofs Props_VM.
From Coq Require Import ZifyBool.

Definition no_meta (a : Z) (v : vm) (w : unit) : res (vm * unit) := Ok (v, w).
Definition no_theme (v : vm) (w : unit) : res (vm * unit) := Ok (v, w).

(** A machine with [size] bytes of memory, the bytes [cmd] at [at_] and
    System/expansion pointing there; byte [i] elsewhere is [i mod 251]. *)
Definition ex_sys (size at_ : Z) (cmd : list Z) : vm :=
  mkVm 0 0 (fun _ => 0) (fun _ => 0)
    (fun i => if i =? 2 then at_ / 256 else if i =? 3 then at_ mod 256 else 0)
    (fun i => if (at_ <=? i) && (i <? at_ + Z.of_nat (length cmd)) then nth (Z.to_nat (i - at_)) cmd 0 else i mod 251)
    size.
Lemma ex_sys_wt size at_ cmd : 65536 <= size -> 0 <= at_ < 65536 -> Forall is_byte cmd -> well_typed (ex_sys size at_ cmd).
Proof.
  intros H1 H2 H3. unfold well_typed, ex_sys, is_byte; cbn [vm_wsp vm_rsp vm_ws vm_rs vm_dev vm_mem vm_msize].
  repeat (split; try lia); intros;
  repeat match goal with |- context [if ?b then _ else _] => destruct b eqn:? end; try apply nth_byte; auto; try lia;
  Z.div_mod_to_equations; lia.
Qed.

(** ** C11 *)
Theorem C11_fill :
  forall v, well_typed v -> size_ok v ->
  cmd_byte v 0 = 0 -> command v + 7 < vm_msize v ->
  exists v', expansion v = Ok v' /\ fill_spec v v'.
Proof. exact fill_correct. Qed.
Print Assumptions C11_fill.

(** The same seen from the device port, for any host. *)
Theorem C11_fill_port :
  forall W meta theme debug v (w : W), well_typed v -> size_ok v ->
  cmd_byte v 0 = 0 -> command v + 7 < vm_msize v ->
  exists v', system_deo W meta theme debug 3 v w = Ok (v', w) /\ fill_spec v v'.
Proof.
  intros W meta theme debug v w H1 H2 H3 H4. destruct (fill_correct v H1 H2 H3 H4) as (v' & E & S).
  exists v'. split; auto. unfold system_deo. cbn [Z.eqb Pos.eqb]. rewrite E. reflexivity.
Qed.
Print Assumptions C11_fill_port.

(** Deviation: a fill that starts outside memory changes a byte inside it. *)
Theorem C11_fill_outside_is_noop_refuted :
  exists v v', well_typed v /\ size_ok v /\ cmd_byte v 0 = 0 /\ command v + 7 < vm_msize v /\
    vm_msize v <= linear (cmd_word v 3) (cmd_word v 5) /\
    expansion v = Ok v' /\ vm_mem v' 65535 <> vm_mem v 65535.
Proof.
  exists (ex_sys 65536 512 [0; 0;4; 0;1; 0;0; 99]). eexists.
  split; [apply ex_sys_wt; [lia|lia|bytes]|]. split; [unfold size_ok; cbn; lia|].
  split; [reflexivity|]. split; [reflexivity|]. split; [vm_compute; discriminate|].
  split; [reflexivity|]. vm_compute. discriminate.
Qed.
Print Assumptions C11_fill_outside_is_noop_refuted.

(** A fill of 16 bytes at 1:fff8 in 128 KiB is clipped to 8 bytes. *)
Example C11_case :
  let v := ex_sys 131072 512 [0; 0;16; 0;1; 255;248; 99] in
  well_typed v /\ size_ok v /\ cmd_byte v 0 = 0 /\ command v + 7 < vm_msize v /\
  match expansion v with
  | Ok v' => map (vm_mem v') [131063; 131064; 131071; 131072] = [131063 mod 251; 99; 99; 131072 mod 251]
  | _ => False end.
Proof.
  split; [apply ex_sys_wt; [lia|lia|bytes]|]. split; [unfold size_ok; cbn; lia|].
  split; [reflexivity|]. split; [reflexivity|]. vm_compute. reflexivity.
Qed.

(** ** C12 *)
Theorem C12_copy_ascending :
  forall v, well_typed v -> size_ok v -> cmd_byte v 0 = 1 ->
  exists v', expansion v = Ok v' /\ copy_spec v v' (up_source (copy_src v) (copy_dst v)).
Proof. exact copy_up_correct. Qed.
Print Assumptions C12_copy_ascending.

Theorem C12_copy_descending :
  forall v, well_typed v -> size_ok v -> cmd_byte v 0 = 2 ->
  exists v', expansion v = Ok v' /\ copy_spec v v' (down_source (copy_src v) (copy_dst v) (copy_len v)).
Proof. exact copy_down_correct. Qed.
Print Assumptions C12_copy_descending.

(** memmove: unless the destination starts inside the source range (ascending)
    or the source inside the destination range (descending). *)
Theorem C12_memmove :
  forall v, well_typed v -> size_ok v ->
  let src := copy_src v in let dst := copy_dst v in let len := copy_len v in
  (cmd_byte v 0 = 1 /\ ~ (src < dst < src + len)) \/
  (cmd_byte v 0 = 2 /\ ~ (dst < src < dst + len)) ->
  exists v', expansion v = Ok v' /\ only_memory v v' /\
    (forall i, 0 <= i < len -> vm_mem v' (dst + i) = vm_mem v (src + i)) /\
    (forall j, j < dst \/ dst + len <= j -> vm_mem v' j = vm_mem v j).
Proof.
  intros v Hv Hs src dst len [[Ho Hd]|[Ho Hd]].
  - destruct (copy_up_correct v Hv Hs Ho) as (v' & E & O & M). exists v'. split; auto. split; auto.
    fold src dst len in M. split.
    + intros i Hi. rewrite M. replace (_ && _) with true by lia. f_equal. unfold up_source.
      replace (dst + i - dst) with i by lia. destruct (src <? dst) eqn:L; auto.
      rewrite Z.mod_small by lia. auto.
    + intros j Hj. rewrite M. replace (_ && _) with false by lia. auto.
  - destruct (copy_down_correct v Hv Hs Ho) as (v' & E & O & M). exists v'. split; auto. split; auto.
    fold src dst len in M. split.
    + intros i Hi. rewrite M. replace (_ && _) with true by lia. f_equal. unfold down_source.
      replace (dst + i - dst) with i by lia. destruct (dst <? src) eqn:L; auto.
      rewrite Z.mod_small by lia. lia.
    + intros j Hj. rewrite M. replace (_ && _) with false by lia. auto.
Qed.
Print Assumptions C12_memmove.

(** The clipped length keeps both ranges inside memory and is the whole length
    whenever both whole ranges are inside. *)
Theorem C12_length :
  forall v, well_typed v -> size_ok v ->
  0 <= copy_src v /\ 0 <= copy_dst v /\ 0 <= copy_len v <= cmd_word v 1 /\
  copy_src v + copy_len v <= vm_msize v /\ copy_dst v + copy_len v <= vm_msize v /\
  (linear (cmd_word v 3) (cmd_word v 5) + cmd_word v 1 <= vm_msize v ->
   linear (cmd_word v 7) (cmd_word v 9) + cmd_word v 1 <= vm_msize v ->
   cmd_word v 1 <> 0 ->
   copy_len v = cmd_word v 1 /\ copy_src v = linear (cmd_word v 3) (cmd_word v 5) /\
   copy_dst v = linear (cmd_word v 7) (cmd_word v 9)).
Proof.
  intros v Hv Hs. pose proof (copy_ranges v Hv Hs).
  pose proof (cmd_word_range v 1 Hv). unfold is_short in *.
  unfold copy_len, copy_src, copy_dst, size_ok in *. repeat (split; try lia).
Qed.
Print Assumptions C12_length.

(** Other command bytes do nothing. *)
Theorem C12_other_commands :
  forall v, well_typed v -> size_ok v -> 2 < cmd_byte v 0 -> expansion v = Ok v.
Proof. exact expansion_other. Qed.
Print Assumptions C12_other_commands.

(** An ascending copy of 6 bytes by 2 (overlapping in the harmful direction)
    repeats the first two bytes; the descending one moves them. *)
Example C12_case :
  let v op := ex_sys 131072 512 [op; 0;6; 0;1; 0;0; 0;1; 0;2] in
  (forall op, op = 1 \/ op = 2 -> well_typed (v op) /\ size_ok (v op) /\ cmd_byte (v op) 0 = op) /\
  match expansion (v 1), expansion (v 2) with
  | Ok v1, Ok v2 =>
     map (vm_mem v1) [65538; 65539; 65540; 65541] = map (vm_mem (v 1)) [65536; 65537; 65536; 65537] /\
     map (vm_mem v2) [65538; 65539; 65540; 65541] = map (vm_mem (v 1)) [65536; 65537; 65538; 65539]
  | _, _ => False end.
Proof.
  split.
  - intros op [->| ->]; (split; [apply ex_sys_wt; [lia|lia|bytes]|]); (split; [unfold size_ok; cbn; lia|reflexivity]).
  - vm_compute. auto.
Qed.

(** ** C13 *)
(** For any command block the expansion stays inside memory and the result is
    well typed, but for a fill whose value byte is outside. *)
Theorem C13_expansion_in_bounds :
  forall v, well_typed v -> size_ok v ->
  (exists v', expansion v = Ok v' /\ well_typed v' /\ only_memory v v') \/
  (cmd_byte v 0 = 0 /\ vm_msize v <= command v + 7 /\ vm_msize v < 65536 + 7 /\
   expansion v = Fault (OobRead (command v + 7))).
Proof.
  intros v Hv Hs. pose proof (expansion_cases v Hv Hs) as C.
  destruct (expansion v) as [v'|f].
  - left. eauto.
  - right. pose proof (command_range v Hv). unfold is_short in *. destruct C as (C1 & C2 & ->).
    repeat split; auto. lia.
Qed.
Print Assumptions C13_expansion_in_bounds.

(** The whole system device plugged into the VM: any program, any length of run,
    any well behaved other devices.  The only failures are the short
    multiplication (C09) and the fill value read. *)
Definition with_system {W} (meta : Z -> vm -> W -> res (vm * W)) theme debug
    (dei : Z -> vm -> W -> res (Z * vm * W)) (deo : Z -> vm -> W -> res (vm * W)) :=
  (fun a v w => if a <? 16 then Ok (system_dei v a, v, w) else dei a v w,
   fun a v w => if a <? 16 then system_deo W meta theme debug a v w else deo a v w).

Theorem C13_runs_stay_in_bounds :
  forall W (meta : Z -> vm -> W -> res (vm * W)) theme debug dei deo hi_first N,
  65536 <= N <= 4294967296 - 65536 ->
  let I := fun _ : W => True in let none := fun _ : fault => False in
  host_good N I none dei deo ->
  (forall a v w, well_typed v -> vm_msize v = N -> good_out N I none (meta a v w)) ->
  (forall v w, well_typed v -> vm_msize v = N -> good_out N I none (theme v w)) ->
  (forall a v w, well_typed v -> vm_msize v = N -> good_out N I none (debug a v w)) ->
  forall fuel kw kr pc v w, well_typed v -> is_short pc -> vm_msize v = N ->
  match execute W (fst (with_system meta theme debug dei deo)) (snd (with_system meta theme debug dei deo))
          hi_first None kw kr fuel pc v w with
  | Crash _ f => (exists n, n > 2147483647 /\ f = SignedOverflow n) \/
                 (exists n, N <= n < 65536 + 7 /\ f = OobRead n)
  | Done _ v' _ => well_typed v' /\ vm_msize v' = N
  | OutOfFuel _ => True
  end.
Proof.
  intros W meta theme debug dei deo hi N HN I none [HI HO] Hm Ht Hd fuel kw kr pc v w Hv Hp Hs.
  pose (F := fun f => exists n, N <= n < 65536 + 7 /\ f = OobRead n).
  assert (L : forall r : res (vm * W), good_out N I none r -> good_out N I F r).
  { intros [[v1 w1]|f]; cbn; [tauto|]. intros []. }
  assert (L' : forall r : res (Z * vm * W), good_in N I none r -> good_in N I F r).
  { intros [[[b v1] w1]|f]; cbn; [tauto|]. intros []. }
  assert (G : host_good N I F (fst (with_system meta theme debug dei deo)) (snd (with_system meta theme debug dei deo))).
  { split; intros a u x Ha Hu Hn _; cbn [fst snd with_system].
    - destruct (a <? 16); [|apply L', HI; unfold I; auto]. exact (conj Hu (conj Hn Logic.I)).
    - destruct (a <? 16); [|apply L, HO; unfold I; auto]. unfold system_deo.
      destruct (a =? 3).
      { pose proof (expansion_cases u Hu ltac:(unfold size_ok; lia)) as C.
        destruct (expansion u) as [v'|f]; cbn.
        - destruct C as (C1 & (_ & _ & _ & _ & _ & C2)). split; auto. split; [congruence|exact Logic.I].
        - destruct C as (C1 & C2 & ->). exists (command u + 7).
          pose proof (command_range u Hu). unfold is_short in *. split; auto. lia. }
      destruct Hu as (V1 & V2 & V3 & V4 & V5 & V6 & V7).
      assert (Hu : well_typed u) by exact (conj V1 (conj V2 (conj V3 (conj V4 (conj V5 (conj V6 V7)))))).
      destruct (a =? 4). { split; [|split; [exact Hn|exact Logic.I]]. exact (conj (V5 _ Ha) (conj V2 (conj V3 (conj V4 (conj V5 (conj V6 V7)))))). }
      destruct (a =? 5). { split; [|split; [exact Hn|exact Logic.I]]. exact (conj V1 (conj (V5 _ Ha) (conj V3 (conj V4 (conj V5 (conj V6 V7)))))). }
      destruct (a =? 7). { apply L, Hm; auto. }
      destruct (_ || _). { apply L, Ht; auto. }
      destruct (a =? 14). { destruct (negb _); [apply L, Hd; auto|exact (conj Hu (conj Hn Logic.I))]. }
      exact (conj Hu (conj Hn Logic.I)). }
  pose proof (execute_good W _ _ hi N I F G fuel kw kr pc v w Hv Hp Hs Logic.I) as R.
  destruct (execute _ _ _ _ _ _ _ _ _ _ _); auto. tauto.
Qed.
Print Assumptions C13_runs_stay_in_bounds.

(** The exception is real: four instructions read past a 64 KiB memory. *)
Theorem C13_fill_value_in_bounds_refuted :
  exists v, well_typed v /\ vm_msize v = 65536 /\
  execute unit (fst (with_system no_meta no_theme no_meta (fun a v w => Ok (0, v, w)) (fun a v w => Ok (v, w))))
               (snd (with_system no_meta no_theme no_meta (fun a v w => Ok (0, v, w)) (fun a v w => Ok (v, w))))
    true None 0 0 10 256 v tt = Crash unit (OobRead 65536).
Proof.
  exists (ex_vm 0 [] [160 (* LIT2 *); 255; 249; 128 (* LIT *); 2; 55 (* DEO2 *); 0]).
  split; [apply wf_well_typed; apply (wfs_vm _ _ (ex_wf 0 [] [160 (* LIT2 *); 255; 249; 128 (* LIT *); 2; 55 (* DEO2 *); 0] ltac:(bytes) ltac:(bytes) ltac:(bytes)))|].
  split; [reflexivity|]. vm_compute. reflexivity.
Qed.
Print Assumptions C13_fill_value_in_bounds_refuted.

(** A run that copies with clamped addresses and stops normally. *)
Example C13_case :
  let v := ex_vm 0 [] [160; 1; 7; 128; 2; 55; 0;  1; 255;255; 255;255; 0;0; 0;0; 0;0] in
  let N := 65536 in
  let I := fun _ : unit => True in let none := fun _ : fault => False in
  host_good N I none (fun a v w => Ok (0, v, w)) (fun a v w => Ok (v, w)) /\
  (forall a v w, well_typed v -> vm_msize v = N -> good_out N I none (no_meta a v w)) /\
  well_typed v /\ is_short 256 /\ vm_msize v = N /\
  match execute unit (fst (with_system no_meta no_theme no_meta (fun a v w => Ok (0, v, w)) (fun a v w => Ok (v, w))))
               (snd (with_system no_meta no_theme no_meta (fun a v w => Ok (0, v, w)) (fun a v w => Ok (v, w))))
    true None 0 0 10 256 v tt with Done _ _ _ => True | _ => False end.
Proof.
  split; [split; intros; cbn; auto|]. split; [intros; cbn; auto|].
  split; [apply wf_well_typed; apply (wfs_vm _ _ (ex_wf 0 [] [160; 1; 7; 128; 2; 55; 0;  1; 255;255; 255;255; 0;0; 0;0; 0;0] ltac:(bytes) ltac:(bytes) ltac:(bytes)))|].
  split; [unfold is_short; lia|]. split; [reflexivity|]. vm_compute. auto.
Qed.

(** ** C14 *)
Theorem C14_exit_code :
  forall v, is_byte (vm_dev v 15) ->
  (exit_code v = -1 <-> vm_dev v 15 = 0) /\
  (vm_dev v 15 <> 0 -> exit_code v = vm_dev v 15 mod 128) /\
  (forall n, 0 <= n < 128 -> vm_dev v 15 = 128 + n -> exit_code v = n).
Proof.
  intros v H. rewrite exit_code_spec by auto. unfold is_byte in H.
  assert (0 <= vm_dev v 15 mod 128) by (apply Z.mod_pos_bound; lia).
  destruct (vm_dev v 15 =? 0) eqn:E.
  - repeat split; intros; lia.
  - repeat split; intros; try lia. rewrite H2. replace (128 + n) with (n + 1 * 128) by lia.
    rewrite Z_mod_plus_full, Z.mod_small; lia.
Qed.
Print Assumptions C14_exit_code.
Example C14_case :
  let v x := mkVm 0 0 (fun _ => 0) (fun _ => 0) (fun i => if i =? 15 then x else 7) (fun _ => 0) 65536 in
  map (fun x => exit_code (v x)) [0; 1; 127; 128; 170; 255] = [-1; 1; 127; 0; 42; 127].
Proof. reflexivity. Qed.

(** ** C15 *)
Theorem C15_palette :
  forall v i, well_typed v -> 0 <= i < 4 ->
  channel (palette v i) 0 = 17 * nibble (word (vm_dev v) 256 8) i /\
  channel (palette v i) 1 = 17 * nibble (word (vm_dev v) 256 10) i /\
  channel (palette v i) 2 = 17 * nibble (word (vm_dev v) 256 12) i /\
  channel (palette v i) 3 = 255 /\ 0 <= palette v i < 2 ^ 32.
Proof. exact palette_eq. Qed.
Print Assumptions C15_palette.
Example C15_case :
  let v := mkVm 0 0 (fun _ => 0) (fun _ => 0) (fun i => nth (Z.to_nat i) [0;0;0;0;0;0;0;0; 1;35; 69;103; 137;171] 0) (fun _ => 0) 65536 in
  map (palette v) [0; 1; 2; 3] = [4287120384 (* ff884400 *); 4288238865; 4289357346; 4290475827].
Proof. vm_compute. reflexivity. Qed.
