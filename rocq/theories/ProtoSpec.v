(** What the debugger's wire protocol promises (C36, C55, C56), stated about
    messages rather than about the C structures and the stream. *)
From Verif Require Import Base VmModel VmSpec DbgModel DbgSpec ProtoModel.

(** The messages, protocol.h:9-17.  A reply is listed with the command it
    answers. *)
Inductive message : Type :=
| MsgBeginExec (addr : Z)
| MsgEndExec
| MsgBeginBreak (id : Z)
| MsgEndBreak
| MsgPaused
| MsgReq (c : cmd)
| MsgRep (c : cmd) (r : reply).

(** ** What a C structure says *)
Definition is_info (x : Z) (i : info) : Prop :=
  match i with
  | InfoPc => x = 0
  | InfoWst => x = 1
  | InfoRst => x = 2
  | InfoNbrkps => x = 3
  | InfoOther => 4 <= x < 256
  end.

(** [values] is what a size and an array of at least that size denote. *)
Definition is_bytes (size : Z) (mem : list Z) (values : list Z) : Prop :=
  Z.of_nat (length values) = size /\ exists beyond, mem = values ++ beyond.

Definition holds_cmd (q : ccmd) (c : cmd) : Prop :=
  match c with
  | CmdInfo i => q_type q = 0 /\ is_info (q_info q) i
  | CmdResume => q_type q = 1
  | CmdStepOver => q_type q = 2
  | CmdStepIn => q_type q = 3
  | CmdStepOut => q_type q = 4
  | CmdBrkpGet id => q_type q = 5 /\ q_id q = id
  | CmdBrkpSet id b => q_type q = 6 /\ q_id q = id /\ q_baddr q = b_addr b /\ q_bmask q = b_mask b
  | CmdDevRead addr size => q_type q = 7 /\ q_addr q = addr /\ q_size q = size
  | CmdDevWrite addr size values =>
      q_type q = 8 /\ q_addr q = addr /\ q_size q = size /\ is_bytes size (q_values q) values
  | CmdMemRead addr size => q_type q = 9 /\ q_addr q = addr /\ q_size q = size
  | CmdMemWrite addr size values =>
      q_type q = 10 /\ q_addr q = addr /\ q_size q = size /\ is_bytes size (q_values q) values
  | CmdOther => 11 <= q_type q < 256
  end.

(** The answer found through the pointers of the command. *)
Definition holds_reply (q : ccmd) (r : reply) : Prop :=
  match r with
  | RNone => True
  | RPc pc => q_pc q = pc
  | RStack sp data => q_sp q = sp /\ q_sdata q = data
  | RCount n => q_count q = n
  | RBrkp b => q_baddr q = b_addr b /\ q_bmask q = b_mask b
  | RBytes l => exists beyond, q_values q = l ++ beyond
  end.

Definition holds (m : cmsg) (M : message) : Prop :=
  match M with
  | MsgBeginExec addr => m_type m = 0 /\ m_addr m = addr
  | MsgEndExec => m_type m = 1
  | MsgBeginBreak id => m_type m = 2 /\ m_brkp m = id
  | MsgEndBreak => m_type m = 3
  | MsgPaused => m_type m = 4
  | MsgReq c => m_type m = 5 /\ holds_cmd (m_cmd m) c
  | MsgRep c r => m_type m = 6 /\ holds_cmd (m_cmd m) c /\ holds_reply (m_cmd m) r
  end.

(** ** Messages that fit *)
(** Requests within the limits of the protocol.  A memory write carries less
    than 256 bytes: see [C36_mem_write_truncated]. *)
Definition request_ok (c : cmd) : Prop :=
  match c with
  | CmdBrkpGet id => is_byte id
  | CmdBrkpSet id b => is_byte id /\ is_short (b_addr b) /\ is_byte (b_mask b)
  | CmdDevRead addr size => is_byte addr /\ is_byte size
  | CmdDevWrite addr size values =>
      is_byte addr /\ is_byte size /\ Z.of_nat (length values) = size
  | CmdMemRead addr size => is_short addr /\ 0 <= size <= 4096
  | CmdMemWrite addr size values =>
      is_short addr /\ 0 <= size < 256 /\ Z.of_nat (length values) = size
  | _ => True
  end.

(** The kind of answer a command has.  Asking for breakpoint 255, which does
    not exist, has none. *)
Definition reply_fits (c : cmd) (r : reply) : Prop :=
  match c, r with
  | CmdInfo InfoPc, RPc pc => is_short pc
  | CmdInfo InfoWst, RStack sp data | CmdInfo InfoRst, RStack sp data =>
      is_byte sp /\ length data = 256%nat
  | CmdInfo InfoNbrkps, RCount n => is_byte n
  | CmdBrkpGet id, RBrkp b => id <> 255 /\ is_short (b_addr b) /\ is_byte (b_mask b)
  | CmdBrkpGet id, RNone => id = 255
  | CmdDevRead _ size, RBytes l | CmdMemRead _ size, RBytes l => Z.of_nat (length l) = size
  | CmdInfo InfoOther, RNone
  | CmdResume, RNone | CmdStepOver, RNone | CmdStepIn, RNone | CmdStepOut, RNone
  | CmdBrkpSet _ _, RNone | CmdDevWrite _ _ _, RNone | CmdMemWrite _ _ _, RNone
  | CmdOther, RNone => True
  | _, _ => False
  end.

Definition message_ok (M : message) : Prop :=
  match M with
  | MsgBeginExec addr => is_short addr
  | MsgBeginBreak id => is_byte id
  | MsgReq c => request_ok c
  | MsgRep c r => request_ok c /\ reply_fits c r
  | _ => True
  end.

(** The receiver of a reply has put the command it sent, with room for the
    answer, into the structure (tests/dbg.c); for all other messages the
    structure can contain anything. *)
Definition prepared (m : cmsg) (M : message) : Prop :=
  match M with MsgRep c _ => holds_cmd (m_cmd m) c | _ => True end.
(** The breakpoint in the structure has the range of its C type. *)
Definition c_typed (m : cmsg) : Prop := is_short (q_baddr (m_cmd m)) /\ is_byte (q_bmask (m_cmd m)).

(** ** Streams *)
(** The values a peer puts on the stream when it sends the messages in turn,
    never short of the three values a message has at most. *)
Inductive written : list message -> list value -> Prop :=
| written_nil : written [] []
| written_cons M Ms m room out room' vs m' s :
    holds m M -> c_typed m -> (3 <= room)%nat ->
    protocol_msg (Wr room out) m = POk (Wr room' (out ++ vs), m') ->
    written Ms s -> written (M :: Ms) (vs ++ s).

(** What a peer that knows which commands it has sent makes of a stream, up to
    its end. *)
Inductive reads_as : list value -> list message -> Prop :=
| reads_nil : reads_as [] []
| reads_cons s M Ms s' :
    (forall m0, prepared m0 M ->
       exists m, protocol_msg (Rd s) m0 = POk (Rd s', m) /\ holds m M) ->
    reads_as s' Ms -> reads_as s (M :: Ms).

(** ** C55: what the client is told *)
(** The messages for what the core tells the wire, in order.  Every command
    that came from the client is answered; a resume the wire makes up because
    there are no more commands is not. *)
Fixpoint transcript (input : list cmd) (log : list event) : list message :=
  match log with
  | [] => []
  | EvBeginExec a :: l => MsgBeginExec a :: transcript input l
  | EvEndExec :: l => MsgEndExec :: transcript input l
  | EvBeginBreak id :: l =>
      MsgBeginBreak id :: match l with EvCmd _ _ :: _ => [MsgPaused] | _ => [] end ++ transcript input l
  | EvEndBreak :: l => MsgEndBreak :: transcript input l
  | EvCmd c r :: l =>
      match input with
      | [] => transcript [] l
      | _ :: rest => MsgRep c r :: transcript rest l
      end
  end.

(** The wire doing what the core asks for; for every command the core fetches,
    what the wire hands out ([None]: a made-up resume).  [junk] is what the
    uninitialised variable of [buxn_dbg_next_command] contains, which may be
    different each time. *)
Fixpoint wire_feed (junk : list event -> cmsg) (w : wire) (log : list event)
  : pres (wire * list (option ccmd)) :=
  match log with
  | [] => POk (w, [])
  | e :: l =>
      pbind (match e with
             | EvBeginExec a => pbind (wire_begin_exec w a) (fun w => POk (w, []))
             | EvEndExec => pbind (wire_end_exec w) (fun w => POk (w, []))
             | EvBeginBreak id => pbind (wire_begin_break w id) (fun w => POk (w, []))
             | EvEndBreak => pbind (wire_end_break w) (fun w => POk (w, []))
             | EvCmd _ r =>
                 pbind (wire_next_command w (junk l)) (fun '(w, q) =>
                 POk (match q with Some _ => wire_answer w r | None => w end, [q]))
             end) (fun '(w, q) =>
      pbind (wire_feed junk w l) (fun '(w, qs) => POk (w, q ++ qs)))
  end.

(** The commands the core has executed, in order. *)
Fixpoint executed (log : list event) : list cmd :=
  match log with
  | [] => []
  | EvCmd c _ :: l => c :: executed l
  | _ :: l => executed l
  end.

Definition handed_out (q : option ccmd) (c : cmd) : Prop :=
  match q with Some q => holds_cmd q c | None => c = CmdResume end.

Section From.
Variable W : Type.
Variable dei : Z -> vm -> W -> res (Z * vm * W).
Variable deo : Z -> vm -> W -> res (vm * W).

(** As [reachable], remembering the commands the client sends. *)
Inductive reachable_from (input : list cmd) : dbg_side -> Prop :=
| from_init : Forall cmd_ok input -> reachable_from input (mkSide dbg_init input [])
| from_pause s : reachable_from input s ->
    reachable_from input (mkSide (request_pause (ds_dbg s)) (ds_in s) (ds_log s))
| from_call c : reachable_from input (c_side c) -> is_call W dei deo c ->
    reachable_from input (c_side' c).
End From.

(** A wire just connected to a client that sends [s]. *)
Definition connected (w : wire) (s : list value) : Prop :=
  w_in w = Some s /\ w_open w = true /\ w_sent w = [] /\ w_reply w = false /\ w_pause w = false.

(** ** Whatever arrives *)
(** The keys of the record a request of type [t] consists of. *)
Definition required (t : Z) : list key :=
  if t =? 6 then [KId; KAddr; KMask]
  else if (t =? 7) || (t =? 9) then [KAddr; KSize]
  else if (t =? 8) || (t =? 10) then [KAddr; KValues]
  else [].
(** The record of the request at the front of the stream, if it has one, lacks
    no key. *)
Definition complete (s : list value) : Prop :=
  match s with
  | VInt _ :: VInt t :: VRec kvs :: _ => forall k, In k (required t) -> In k (map fst kvs)
  | _ => True
  end.
