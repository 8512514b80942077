(** Properties C16-C18: console arguments, controller and mouse buttons, ROM metadata. *)
From Verif Require Import Base VmModel VmSpec VmProofs InputModel InputSpec InputProofs MetaModel MetaSpec MetaProofs Props_VM.
From Coq Require Import ZifyBool.

(** ** C16
    [deliver ... es] (InputSpec) runs the vector currently stored in the console
    page once for every event of [es], in order, with the type and value ports
    reading as that event says; every run may change the machine, the vector
    included, and the rest [r] of the host state.  An argument is a C string: its
    chars are not zero.  Nothing restricts the program or the other devices. *)
Theorem C16_arguments :
  forall R odei odeo handle_write handle_error hi_first kw kr fuel,
  forall argv old n v (r : R),
  Forall (Forall (fun c => c <> 0)) argv -> (length argv <= n)%nat ->
  send_args R odei odeo handle_write handle_error hi_first kw kr fuel n v (console_init argv old, r) =
  attach (match argv with [] => console_init [] old | _ => mkConsole [] 4 10 end)
    (deliver R odei odeo hi_first kw kr fuel 16 console_port (console_deo R handle_write handle_error)
       (arg_events argv) v r).
Proof.
  intros. unfold console_init. rewrite send_args_eq by auto. destruct argv; reflexivity.
Qed.
Print Assumptions C16_arguments.

(** The event sequence spelled out: its length and each position. *)
Theorem C16_event_sequence :
  arg_events [] = [] /\
  (forall a, arg_events [a] = map (fun c => (2, c mod 256)) a ++ [(4, 10)]) /\
  (forall a b rest, arg_events (a :: b :: rest) =
     map (fun c => (2, c mod 256)) a ++ (3, 10) :: arg_events (b :: rest)).
Proof. repeat split. Qed.
Print Assumptions C16_event_sequence.

(** Standard input events. *)
Theorem C16_input :
  forall R odei odeo handle_write handle_error hi_first kw kr fuel,
  forall c v k (r : R),
  let react e := react R odei odeo hi_first kw kr fuel 16 (console_port e)
                   (console_deo R handle_write handle_error) v r in
  send_input R odei odeo handle_write handle_error hi_first kw kr fuel c v (k, r) =
    attach (mkConsole (c_argv k) 1 (c mod 256)) (react (1, c mod 256)) /\
  send_input_end R odei odeo handle_write handle_error hi_first kw kr fuel v (k, r) =
    attach (mkConsole (c_argv k) 4 0) (react (4, 0)).
Proof.
  intros. destruct k as [av t b]. split; unfold send_input, send_input_end; rewrite send_data_eq; reflexivity.
Qed.
Print Assumptions C16_input.

(** A program that reports value and type of each event to a recording device
    (port 0x20), delivered the arguments "ab" and "c". *)
Definition rec_dei (a : Z) (v : vm) (r : list Z) : res (Z * vm * list Z) := Ok (vm_dev v a, v, r).
Definition rec_deo (a : Z) (v : vm) (r : list Z) : res (vm * list Z) :=
  Ok (v, if a =? 32 then vm_dev v a :: r else r).
Definition report (pg p1 p2 : Z) : vm :=
  let v := ex_vm 0 [] [128; p1; 22; 128; 32; 23; 128; p2; 22; 128; 32; 23; 0] in
  vm_set_dev v (fun i => if i =? pg then 1 else 0).
Example C16_case :
  Forall (Forall (fun c => c <> 0)) [[97; 98]; [99]] /\
  match send_args (list Z) rec_dei rec_deo (fun _ v r => Ok (v, r)) (fun _ v r => Ok (v, r)) true 0 0 100 5
          (report 16 18 23) (console_init [[97; 98]; [99]] 0, []) with
  | Done _ _ (_, r) => rev r = [97; 2; 98; 2; 10; 3; 99; 2; 10; 4]
  | _ => False end.
Proof. split; [repeat constructor; lia|]. vm_compute. reflexivity. Qed.

(** ** C17
    [pad_port h]: what the controller ports read after the history [h], newest
    event first; [is_down h i b] looks up the last event of button [b] of pad [i]. *)
Theorem C17_controller :
  forall R odei odeo hi_first kw kr fuel es,
  Forall pad_valid es ->
  forall v (r : R),
  exists k',
    (forall i, 0 <= i < 4 -> k_buttons k' i = byte_of_bits (is_down (rev es) i)) /\ k_ch k' = 0 /\
    send_pads R odei odeo hi_first kw kr fuel es v (mkController (fun _ => 0) 0, r) =
    match deliver R odei odeo hi_first kw kr fuel 128 pad_port (no_out R) (histories [] es) v r with
    | Done _ v' r' => Done _ v' (k', r')
    | Crash _ f => Crash _ f
    | OutOfFuel _ => OutOfFuel _
    end.
Proof.
  intros R odei odeo hi kw kr fuel es HF v r.
  destruct (send_pads_eq R odei odeo hi kw kr fuel es [] (mkController (fun _ => 0) 0) v r HF) as (k' & [I1 I2] & E).
  - split; auto.
  - rewrite app_nil_r in I1. exists k'. auto.
Qed.
Print Assumptions C17_controller.

Theorem C17_mouse :
  forall R odei odeo hi_first kw kr fuel x y sx sy es,
  Forall (fun e => 0 <= fst e < 8) es ->
  forall v (r : R),
  send_mice R odei odeo hi_first kw kr fuel es v (mkMouse x y 0 sx sy, r) =
  attach (mkMouse x y (byte_of_bits (mouse_down (rev es))) sx sy)
    (deliver R odei odeo hi_first kw kr fuel 144 (mouse_port x y sx sy) (no_out R) (histories [] es) v r).
Proof.
  intros. pose proof (send_mice_eq R odei odeo hi_first kw kr fuel x y sx sy es [] v r H) as E.
  rewrite app_nil_r in E. exact E.
Qed.
Print Assumptions C17_mouse.

(** The host's own query agrees. *)
Theorem C17_mouse_check :
  forall x y sx sy h btn, 0 <= btn < 8 ->
  mouse_check_button (mkMouse x y (byte_of_bits (mouse_down h)) sx sy) btn = Ok (mouse_down h btn).
Proof.
  intros. unfold mouse_check_button. rewrite mouse_shift by auto. cbn [rbind m_state].
  rewrite test_bits by auto. reflexivity.
Qed.
Print Assumptions C17_mouse_check.

(** Bit [b] of [byte_of_bits f] is [f b]. *)
Theorem C17_bits :
  forall f b, 0 <= b < 8 -> Z.testbit (byte_of_bits f) b = f b.
Proof.
  intros f b H. rewrite byte_of_bits_eq.
  assert (b = 0 \/ b = 1 \/ b = 2 \/ b = 3 \/ b = 4 \/ b = 5 \/ b = 6 \/ b = 7) as C by lia.
  repeat (destruct C as [->|C]); [..|subst b];
  destruct (f 0), (f 1), (f 2), (f 3), (f 4), (f 5), (f 6), (f 7); vm_compute; reflexivity.
Qed.
Print Assumptions C17_bits.

(** Press A and LEFT on pad 0, type 'x', press B on pad 2, release A. The
    program reports the buttons of pad 0 and the character. *)
Example C17_case :
  let es := [Button 0 0 true; Button 0 6 true; Char 120; Button 2 1 true; Button 0 0 false] in
  Forall pad_valid es /\
  match send_pads (list Z) rec_dei rec_deo true 0 0 100 es (report 128 130 131) (mkController (fun _ => 0) 0, []) with
  | Done _ _ (k, r) => rev r = [1; 0; 65; 0; 65; 120; 65; 0; 64; 0] /\ map (k_buttons k) [0; 1; 2; 3] = [64; 0; 2; 0]
  | _ => False end.
Proof. split; [repeat constructor; lia|]. vm_compute. auto. Qed.

(** ** C18
    [describes img limit start p] (MetaSpec): [p] is what the bytes of [img]
    between [start] and [limit] say. *)
Theorem C18_memory :
  forall v a, well_typed v -> vm_msize v < 2147483648 -> is_short a ->
  exists m, parse_from_memory v a = Ok m /\ describes (vm_mem v) 65535 a (view m) /\
    forall i, is_byte i -> exists e, get_ext (vm_mem v) (vm_msize v) m i = Ok e.
Proof.
  intros v a (_ & _ & _ & _ & _ & Hb & Hs) Hz Ha.
  destruct (from_memory_spec v a) as (m & E & D & N); auto.
  exists m. split; auto. split; auto. intros i Hi. unfold is_byte, is_short in *.
  destruct (md_content m) as [t|] eqn:C.
  - rewrite (get_ext_spec (vm_mem v) (vm_msize v) 65535 a) by (auto; try congruence; lia).
    destruct (md_ext m); [destruct (_ <? _)|]; eauto.
  - assert (X : md_num_ext m = 0).
    { revert E C. unfold parse_from_memory, parse_internal.
      destruct (_ >=? _). { intros H. injection H as <-. auto. }
      destruct (aget _ _ _); cbn [rbind]; [|discriminate].
      destruct (scan _ _ _ _ _) as [[z|]|]; cbn [rbind]; try discriminate.
      - match goal with |- context [rbind ?x _] => destruct x as [[? ?]|] end; cbn [rbind]; try discriminate.
        intros H. injection H as <-. discriminate.
      - intros H. injection H as <-. auto. }
    unfold get_ext. rewrite X. replace (i <? 0) with false by lia. eauto.
Qed.
Print Assumptions C18_memory.

(** ROM images: no metadata unless announced; an announced address inside the
    image is parsed without leaving the image; the exception is exactly an
    announced address at or past the end of the image. *)
Theorem C18_rom :
  forall rom size, (forall i, 0 <= i < size -> is_byte (rom i)) -> 0 <= size < 2147483648 ->
  ((forall addr, ~ rom_announces rom size addr) /\ parse_from_rom rom size = Ok (mkMeta 0 None 0 None 0)) \/
  (exists addr, rom_announces rom size addr /\ addr - 256 < size /\
     exists m, parse_from_rom rom size = Ok m /\ describes rom size (addr - 256) (view m) /\
     (md_content m <> None -> forall i, is_byte i -> exists e, get_ext rom size m i = Ok e)) \/
  (exists addr, rom_announces rom size addr /\ size <= addr - 256 /\
     parse_from_rom rom size = Fault (OobRead (addr - 256))).
Proof.
  intros rom size Hb Hs. destruct (rom_announces_dec rom size) as [[addr A]|N].
  - right. rewrite (from_rom_some rom size addr) by auto.
    assert (0 <= addr - 256) by (destruct A; lia).
    destruct (Z_lt_dec (addr - 256) size) as [L|L].
    + left. exists addr. split; auto. split; auto.
      destruct (parse_spec rom size (addr - 256) size) as (m & E & D & X); auto; try lia.
      exists m. split; auto. split; auto. intros C i Hi. unfold is_byte in Hi.
      rewrite (get_ext_spec rom size size (addr - 256)) by (auto; lia).
      destruct (md_ext m); [destruct (_ <? _)|]; eauto.
    + right. exists addr. split; auto. split; [lia|]. unfold parse_internal, aget.
      replace (in_bounds size (addr - 256)) with false by (unfold in_bounds; lia). reflexivity.
  - left. split; auto. apply from_rom_none; auto.
Qed.
Print Assumptions C18_rom.

(** Extension [i] is the three bytes at position [i]. *)
Theorem C18_extension :
  forall img size limit start m i e n,
  0 <= start -> limit <= size -> (forall i, 0 <= i < size -> is_byte (img i)) ->
  describes img limit start (view m) -> md_content m <> None -> md_ext m = Some e -> md_num_ext m = n ->
  0 <= i < n ->
  e + 3 * i + 2 < limit /\
  get_ext img size m i = Ok (img (e + 3 * i), 256 * img (e + 3 * i + 1) + img (e + 3 * i + 2)).
Proof.
  intros img size limit start m i e n Hs Hl Hb D C E N Hi. split.
  - unfold view in D. destruct (md_content m) as [t|]; [|congruence]. rewrite E in D.
    destruct D as (z & _ & _ & _ & _ & (_ & _ & F) & F1 & F2). lia.
  - rewrite (get_ext_spec img size limit start) by (auto; try congruence; lia).
    rewrite E, N. replace (i <? n) with true by lia. auto.
Qed.
Print Assumptions C18_extension.

Definition ex_rom (l : list Z) : arr := fun i => if (0 <=? i) && (i <? Z.of_nat (length l)) then nth (Z.to_nat i) l 0 else 0.
(** The exception is real: a six byte file. *)
Theorem C18_rom_in_bounds_refuted :
  exists rom, rom_announces rom 6 512 /\ (forall i, 0 <= i < 6 -> is_byte (rom i)) /\
    parse_from_rom rom 6 = Fault (OobRead 256).
Proof.
  exists (ex_rom [160; 2; 0; 128; 6; 55]). split; [vm_compute; repeat split; congruence|].
  split; [|reflexivity]. intros i Hi. unfold ex_rom. destruct (_ && _); [apply nth_byte; bytes|unfold is_byte; lia].
Qed.
Print Assumptions C18_rom_in_bounds_refuted.

Example C18_case :
  let rom := ex_rom [160; 1; 6; 128; 6; 55;  9; 72; 105; 0; 1; 65; 1; 2] in
  rom_announces rom 14 262 /\
  parse_from_rom rom 14 = Ok (mkMeta 9 (Some 7) 2 (Some 11) 1) /\
  get_ext rom 14 (mkMeta 9 (Some 7) 2 (Some 11) 1) 0 = Ok (65, 258).
Proof. split; [vm_compute; repeat split; congruence|]. split; vm_compute; reflexivity. Qed.
