(** C36, C55 and C56: the debugger's wire protocol.

    Messages, what a C structure says and what a client makes of a stream are
    defined in ProtoSpec without reference to the encoder. *)
From Verif Require Import Base VmModel VmSpec VmProofs DbgModel DbgSpec ProtoModel ProtoSpec ProtoProofs ProtoInput
  ProtoWire.

(** ** C36 Every message survives the wire *)
(** Sending a structure that says [M] puts a few values on the stream; reading
    them, whatever follows and whatever the receiving structure contained,
    consumes exactly these values and yields a structure that says [M].  For a
    reply the receiver has prepared the structure with the command it sent. *)
Theorem C36_round_trip :
  forall m M, holds m M -> message_ok M -> c_typed m ->
  exists vs,
    (forall room out, exists m1,
       protocol_msg (Wr (length vs + room) out) m = POk (Wr room (out ++ vs), m1)) /\
    (forall m0 rest, prepared m0 M -> exists m',
       protocol_msg (Rd (vs ++ rest)) m0 = POk (Rd rest, m') /\ holds m' M).
Proof.
  intros m M H1 H2 H3. destruct (round_trip m M H1 H2 H3) as (vs & _ & A & B). exists vs. split; auto.
  intros m0 rest Hp. destruct (B m0 rest Hp) as (m' & E & Hh & _). eauto.
Qed.
Print Assumptions C36_round_trip.

(** A structure says only one thing, so the message received is equal to the
    message sent. *)
Theorem C36_one_meaning :
  forall m M M', message_ok M -> message_ok M' -> holds m M -> holds m M' -> M = M'.
Proof. exact holds_unique. Qed.
Print Assumptions C36_one_meaning.

Definition ex_write (n : nat) : cmsg :=
  mkM 5 0 0 (mkC 10 0 0 0 [] 0 0 0 0 768 (Z.of_nat n) (repeat 7 n)).

Example C36_case :
  holds (ex_write 3) (MsgReq (CmdMemWrite 768 3 [7; 7; 7])) /\
  message_ok (MsgReq (CmdMemWrite 768 3 [7; 7; 7])) /\
  protocol_msg (Wr 9 []) (ex_write 3) =
    POk (Wr 6 [VInt 5; VInt 10; VRec [(KAddr, VInt 768); (KValues, VBlob [7; 7; 7])]], ex_write 3).
Proof.
  split; [|split; [cbn; unfold is_short; lia|reflexivity]].
  cbn. repeat split. exists []. reflexivity.
Qed.

(** The exception: a memory write of 256 to 4096 bytes is received with its
    size modulo 256 (protocol.c:196). *)
Theorem C36_mem_write_truncated :
  forall m addr n values,
  holds m (MsgReq (CmdMemWrite addr n values)) -> is_short addr -> n <= 4096 ->
  exists vs,
    (forall room out, exists m1, protocol_msg (Wr (length vs + room) out) m = POk (Wr room (out ++ vs), m1)) /\
    (forall m0 rest, exists m',
       protocol_msg (Rd (vs ++ rest)) m0 = POk (Rd rest, m') /\
       holds m' (MsgReq (CmdMemWrite addr (n mod 256) (firstn (Z.to_nat (n mod 256)) values)))).
Proof. exact mem_write_long. Qed.
Print Assumptions C36_mem_write_truncated.

(** A client that writes 256 bytes has a write of no bytes carried out. *)
Theorem C36_mem_write_refuted :
  exists m vs m1 m' values,
    holds m (MsgReq (CmdMemWrite 768 256 values)) /\
    protocol_msg (Wr 9 []) m = POk (Wr 6 vs, m1) /\
    protocol_msg (Rd vs) (mkM 0 0 0 no_cmd) = POk (Rd [], m') /\
    holds m' (MsgReq (CmdMemWrite 768 0 [])).
Proof.
  exists (ex_write 256). do 3 eexists. exists (repeat 7 256).
  split; [cbn -[repeat]; repeat split; exists []; rewrite app_nil_r; reflexivity|].
  split; [vm_compute; reflexivity|]. split; [vm_compute; reflexivity|].
  cbn. repeat split. eexists. reflexivity.
Qed.
Print Assumptions C36_mem_write_refuted.

(** Longer accesses are refused: a write by the receiver, a read already by the
    sender. *)
Theorem C36_too_long :
  (forall m addr n values, holds m (MsgReq (CmdMemWrite addr n values)) -> is_short addr -> 4096 < n ->
     exists vs,
       (forall room out, exists m1, protocol_msg (Wr (length vs + room) out) m = POk (Wr room (out ++ vs), m1)) /\
       (forall m0 rest, protocol_msg (Rd (vs ++ rest)) m0 = PErr SMalformed)) /\
  (forall m addr n room out, holds m (MsgReq (CmdMemRead addr n)) -> 4096 < n ->
     protocol_msg (Wr (S (S (S room))) out) m = PErr SMalformed).
Proof. split; [exact mem_write_too_long|exact mem_read_too_long]. Qed.
Print Assumptions C36_too_long.

(** Whatever arrives, reading stays within the buffers, and a request that is
    accepted is one within the limits, provided its record lacks no key. *)
Theorem C36_any_input :
  (forall s m0 f, protocol_msg (Rd s) m0 <> PFault f) /\
  (forall s m0 s' m, complete s -> protocol_msg (Rd s) m0 = POk (Rd s', m) -> m_type m = 5 ->
     exists c, holds_cmd (m_cmd m) c /\ request_ok c).
Proof.
  split; [|exact request_limits]. intros s m0 f E. pose proof (read_safe s m0) as H. rewrite E in H. exact H.
Qed.
Print Assumptions C36_any_input.

Example C36_any_input_case :
  complete [VInt 5; VInt 9; VRec [(KSize, VInt 4096); (KOther, VInt 1); (KAddr, VInt 65535)]] /\
  match protocol_msg (Rd [VInt 5; VInt 9; VRec [(KSize, VInt 4096); (KOther, VInt 1); (KAddr, VInt 65535)]])
          (mkM 0 0 0 no_cmd) with
  | POk (Rd [], m) => (q_addr (m_cmd m), q_size (m_cmd m)) = (65535, 4096)
  | _ => False
  end.
Proof. split; [intros k Hk; vm_compute in Hk; destruct Hk as [Hk|[Hk|Hk]]; subst; cbn; tauto|reflexivity]. Qed.

(** The proviso is needed: the structure is not initialised (wire.c:81), so a
    memory read without a size is accepted with any size, and the core then
    writes past the 4096 bytes of the buffer. *)
Theorem C36_missing_size_refuted :
  forall junk, q_size (m_cmd junk) = 65535 ->
  exists m, protocol_msg (Rd [VInt 5; VInt 9; VRec [(KAddr, VInt 0)]]) junk = POk (Rd [], m) /\
    m_type m = 5 /\ holds_cmd (m_cmd m) (CmdMemRead 0 65535).
Proof. intros junk E. eexists. split; [reflexivity|]. split; [reflexivity|]. cbn. auto. Qed.
Print Assumptions C36_missing_size_refuted.

(** ** C55 The client is told what happens *)
(** The client sends [input]; the core runs any vectors on any machines, and
    gets to the state [s].  Then the wire has handed out exactly the commands
    the core has executed, and what it has sent is read by the client as the
    transcript of what the core did: every notification, a PAUSED for every
    break that stops, and for every command of the client one reply with the
    answer of the core, in order. *)
Theorem C55_client_told :
  forall W dei deo, host_well_typed dei deo ->
  forall junk input stream s w,
  (forall l, c_typed (junk l)) -> Forall request_ok input -> written (map MsgReq input) stream ->
  reachable_from W dei deo input s -> connected w stream ->
  (3 * length (transcript input (ds_log s)) <= w_room w)%nat ->
  exists w' qs, wire_feed junk w (ds_log s) = POk (w', qs) /\
    reads_as (w_sent w') (transcript input (ds_log s)) /\
    Forall2 handed_out qs (executed (ds_log s)).
Proof. exact client_told. Qed.
Print Assumptions C55_client_told.

(** A client that reads the pc, and is gone. *)
Definition ex_stream : list value := [VInt 5; VInt 0; VInt 0].
Definition ex_wire : wire := mkWire (Some ex_stream) true 30 [] false false no_cmd.
Definition ex_log : list event :=
  [EvBeginExec 256; EvBeginBreak 255; EvCmd (CmdInfo InfoPc) (RPc 256); EvCmd CmdResume RNone; EvEndBreak].

Example C55_case :
  written (map MsgReq [CmdInfo InfoPc]) ex_stream /\ connected ex_wire ex_stream /\
  transcript [CmdInfo InfoPc] ex_log =
    [MsgBeginExec 256; MsgBeginBreak 255; MsgPaused; MsgRep (CmdInfo InfoPc) (RPc 256); MsgEndBreak] /\
  match wire_feed (fun _ => mkM 0 0 0 no_cmd) ex_wire ex_log with
  | POk (w, [Some _; None]) =>
      w_sent w = [VInt 0; VInt 256; VInt 2; VInt 255; VInt 4; VInt 6; VInt 0; VInt 256; VInt 3]
  | _ => False
  end.
Proof.
  split; [|split; [repeat split|split; [reflexivity|vm_compute; reflexivity]]].
  change ex_stream with (ex_stream ++ []). cbn [map].
  eapply written_cons with (m := mkM 5 0 0 no_cmd) (room := 3%nat) (out := []).
  - cbn. auto.
  - split; cbn; unfold is_short, is_byte; lia.
  - lia.
  - reflexivity.
  - constructor.
Qed.

(** ** C56 A client that is gone does not hold up the program *)
(** Once a command could not be read, the core is told to resume, then and for
    ever after. *)
Theorem C56_resume :
  forall w junk w' q, wire_next_command w junk = POk (w', q) ->
  (w_in w = None -> q = None) /\ (q = None -> w_in w' = None).
Proof. exact next_command_lost. Qed.
Print Assumptions C56_resume.

(** A notification is sent as a whole, or the output is given up. *)
Theorem C56_gives_up :
  forall w m w', w_open w = true -> notify w m = POk w' ->
  send w m = POk (w', true) \/ (exists w1, send w m = POk (w1, false) /\ w_open w' = false /\ w_in w' = w_in w1 /\ w_sent w' = w_sent w1).
Proof.
  intros w m w' O N. unfold notify in N. rewrite O in N. destruct (send w m) as [[w1 ok]| |] eqn:E; try discriminate N. cbn [pbind] in N.
  destruct ok; injection N as <-; [left; reflexivity|]. right. exists w1. split; [reflexivity|]. repeat split.
Qed.
Print Assumptions C56_gives_up.

(** Once a message could not be sent, nothing more is sent. *)
Theorem C56_silent :
  forall junk log w w' qs, w_open w = false ->
  wire_feed junk w log = POk (w', qs) -> w_sent w' = w_sent w /\ w_open w' = false.
Proof. exact closed_silent. Qed.
Print Assumptions C56_silent.

(** A stream that ends in the middle of a request, and an output that breaks. *)
Example C56_case :
  match wire_next_command (mkWire (Some [VInt 5]) true 30 [] false false no_cmd) (mkM 0 0 0 no_cmd) with
  | POk (w, None) => w_in w = None
  | _ => False
  end /\
  match wire_feed (fun _ => mkM 0 0 0 no_cmd) (mkWire None true 3 [] false false no_cmd) ex_log with
  | POk (w, _) => w_sent w = [VInt 0; VInt 256; VInt 2] /\ w_open w = false
  | _ => False
  end.
Proof. vm_compute. auto. Qed.
