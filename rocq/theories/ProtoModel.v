(** Model of the debugger's wire protocol: src/dbg/protocol.c,
    include/buxn/dbg/protocol.h, src/dbg/wire.c, include/buxn/dbg/wire.h.

    The serialisation library (bserial) is not part of the repository.  A
    stream is a list of the values written with it: integers, blobs and
    records.  What is assumed of it is written at [rw_int], [rw_blob],
    [rw_record] and [item].  As in the C code one function serves both
    directions: the first argument of the primitives is [None] when writing and
    [Some v] when the value [v] has been found on the stream. *)
From Verif Require Import Base VmModel DbgModel.

(** The keys of protocol.c; any other key is [KOther]. *)
Inductive key : Type :=
| KPointer | KData | KAddr | KMask | KId | KSize | KValues | KOther.

Definition key_eqb (a b : key) : bool :=
  match a, b with
  | KPointer, KPointer | KData, KData | KAddr, KAddr | KMask, KMask
  | KId, KId | KSize, KSize | KValues, KValues | KOther, KOther => true
  | _, _ => false
  end.

Inductive value : Type :=
| VInt (z : Z)
| VBlob (bytes : list Z)
| VRec (fields : list (key * value)).

(** [bserial_status_t] other than BSERIAL_OK. *)
Inductive status : Type := SMalformed | SIo.

(** What an operation of the protocol returns: [POk] for BSERIAL_OK, [PErr]
    for another status, [PFault] for undefined behaviour. *)
Inductive pres (A : Type) : Type :=
| POk (a : A)
| PErr (s : status)
| PFault (f : fault).
Arguments POk {A}. Arguments PErr {A}. Arguments PFault {A}.

Definition pbind {A B} (r : pres A) (f : A -> pres B) : pres B :=
  match r with POk a => f a | PErr s => PErr s | PFault e => PFault e end.

(** [bserial_any_int] on an unsigned variable of [bits] bits.  Assumed: a value
    outside the range of the variable, or a value of another kind, is reported
    as malformed. *)
Definition rw_int (bits : Z) (i : option value) (x : Z) : pres (value * Z) :=
  match i with
  | None => POk (VInt x, x)
  | Some (VInt y) => if (0 <=? y) && (y <? 2 ^ bits) then POk (VInt y, y) else PErr SMalformed
  | Some _ => PErr SMalformed
  end.

(** [bserial_blob(ctx, buf, &len)].  Writing: [len] bytes of the buffer [buf],
    which must have them.  Reading: [len] is the capacity on entry and the
    length found on return; assumed: a longer blob is reported as malformed and
    not stored.  [cap] is the number of bytes [buf] really has. *)
Definition rw_blob (len cap : Z) (i : option value) (buf : list Z) : pres (value * (list Z * Z)) :=
  match i with
  | None =>
      if len <=? Z.of_nat (length buf)
      then POk (VBlob (firstn (Z.to_nat len) buf), (buf, len))
      else PFault (OobRead len)
  | Some (VBlob b) =>
      if Z.of_nat (length b) <=? len
      then if Z.of_nat (length b) <=? cap
           then POk (VBlob b, (b, Z.of_nat (length b)))
           else PFault (OobWrite (Z.of_nat (length b)))
      else PErr SMalformed
  | Some _ => PErr SMalformed
  end.

(** [BSERIAL_RECORD]/[BSERIAL_KEY].  Assumed: writing stores the keys in the
    order of the code; reading runs, for every field in the order of the
    stream, the code of its key, and skips fields without one. *)
Section Record.
Context {C : Type}.
Definition field : Type := key * (option value -> C -> pres (value * C)).

Fixpoint write_fields (fs : list field) (c : C) : pres (list (key * value) * C) :=
  match fs with
  | [] => POk ([], c)
  | (k, f) :: fs' =>
      pbind (f None c) (fun '(v, c) =>
      pbind (write_fields fs' c) (fun '(kvs, c) => POk ((k, v) :: kvs, c)))
  end.

Fixpoint field_of (fs : list field) (k : key) : option (option value -> C -> pres (value * C)) :=
  match fs with
  | [] => None
  | (k', f) :: fs' => if key_eqb k k' then Some f else field_of fs' k
  end.

Fixpoint read_fields (fs : list field) (kvs : list (key * value)) (c : C) : pres C :=
  match kvs with
  | [] => POk c
  | (k, v) :: kvs' =>
      match field_of fs k with
      | Some f => pbind (f (Some v) c) (fun '(_, c) => read_fields fs kvs' c)
      | None => read_fields fs kvs' c
      end
  end.

Definition rw_record (fs : list field) (i : option value) (c : C) : pres (value * C) :=
  match i with
  | None => pbind (write_fields fs c) (fun '(kvs, c) => POk (VRec kvs, c))
  | Some (VRec kvs) => pbind (read_fields fs kvs c) (fun c => POk (VRec kvs, c))
  | Some _ => PErr SMalformed
  end.
End Record.

(** [bserial_ctx_t]: a writer that can still take [room] values and the values
    taken so far, or a reader and the values to come.  A full writer and an
    empty reader report an I/O error. *)
Inductive ctx : Type :=
| Wr (room : nat) (out : list value)
| Rd (inp : list value).

(** [bserial_mode(ctx) == BSERIAL_MODE_READ] *)
Definition reading (x : ctx) : bool := match x with Wr _ _ => false | Rd _ => true end.

(** One value at the outermost level. *)
Definition item {A} (f : option value -> A -> pres (value * A)) (x : ctx) (a : A) : pres (ctx * A) :=
  match x with
  | Wr O _ => PErr SIo
  | Wr (S room) out => pbind (f None a) (fun '(v, a) => POk (Wr room (out ++ [v]), a))
  | Rd [] => PErr SIo
  | Rd (v :: rest) => pbind (f (Some v) a) (fun '(_, a) => POk (Rd rest, a))
  end.

(** core.h:64-112 [buxn_dbg_cmd_t].  Every member of the union has its own
    field here, because the code only touches the member selected by [q_type].
    Pointers are replaced by what they point to: [q_pc], [q_sp], [q_sdata],
    [q_count], [q_baddr] and [q_bmask] (for BRKP_GET) and [q_values].
    [q_addr] and [q_size] stand for the members of that name of all four access
    commands, [q_id], [q_baddr] and [q_bmask] for those of both breakpoint
    commands. *)
Record ccmd : Type := mkC {
  q_type : Z;
  q_info : Z;
  q_pc : Z;
  q_sp : Z;
  q_sdata : list Z;
  q_count : Z;
  q_id : Z;
  q_baddr : Z;
  q_bmask : Z;
  q_addr : Z;
  q_size : Z;
  q_values : list Z
}.

Definition set_qtype (q : ccmd) (v : Z) : ccmd :=
  mkC v (q_info q) (q_pc q) (q_sp q) (q_sdata q) (q_count q) (q_id q) (q_baddr q) (q_bmask q)
      (q_addr q) (q_size q) (q_values q).
Definition set_qinfo (q : ccmd) (v : Z) : ccmd :=
  mkC (q_type q) v (q_pc q) (q_sp q) (q_sdata q) (q_count q) (q_id q) (q_baddr q) (q_bmask q)
      (q_addr q) (q_size q) (q_values q).
Definition set_qpc (q : ccmd) (v : Z) : ccmd :=
  mkC (q_type q) (q_info q) v (q_sp q) (q_sdata q) (q_count q) (q_id q) (q_baddr q) (q_bmask q)
      (q_addr q) (q_size q) (q_values q).
Definition set_qsp (q : ccmd) (v : Z) : ccmd :=
  mkC (q_type q) (q_info q) (q_pc q) v (q_sdata q) (q_count q) (q_id q) (q_baddr q) (q_bmask q)
      (q_addr q) (q_size q) (q_values q).
Definition set_qsdata (q : ccmd) (v : list Z) : ccmd :=
  mkC (q_type q) (q_info q) (q_pc q) (q_sp q) v (q_count q) (q_id q) (q_baddr q) (q_bmask q)
      (q_addr q) (q_size q) (q_values q).
Definition set_qcount (q : ccmd) (v : Z) : ccmd :=
  mkC (q_type q) (q_info q) (q_pc q) (q_sp q) (q_sdata q) v (q_id q) (q_baddr q) (q_bmask q)
      (q_addr q) (q_size q) (q_values q).
Definition set_qid (q : ccmd) (v : Z) : ccmd :=
  mkC (q_type q) (q_info q) (q_pc q) (q_sp q) (q_sdata q) (q_count q) v (q_baddr q) (q_bmask q)
      (q_addr q) (q_size q) (q_values q).
Definition set_qbaddr (q : ccmd) (v : Z) : ccmd :=
  mkC (q_type q) (q_info q) (q_pc q) (q_sp q) (q_sdata q) (q_count q) (q_id q) v (q_bmask q)
      (q_addr q) (q_size q) (q_values q).
Definition set_qbmask (q : ccmd) (v : Z) : ccmd :=
  mkC (q_type q) (q_info q) (q_pc q) (q_sp q) (q_sdata q) (q_count q) (q_id q) (q_baddr q) v
      (q_addr q) (q_size q) (q_values q).
Definition set_qaddr (q : ccmd) (v : Z) : ccmd :=
  mkC (q_type q) (q_info q) (q_pc q) (q_sp q) (q_sdata q) (q_count q) (q_id q) (q_baddr q) (q_bmask q)
      v (q_size q) (q_values q).
Definition set_qsize (q : ccmd) (v : Z) : ccmd :=
  mkC (q_type q) (q_info q) (q_pc q) (q_sp q) (q_sdata q) (q_count q) (q_id q) (q_baddr q) (q_bmask q)
      (q_addr q) v (q_values q).
Definition set_qvalues (q : ccmd) (v : list Z) : ccmd :=
  mkC (q_type q) (q_info q) (q_pc q) (q_sp q) (q_sdata q) (q_count q) (q_id q) (q_baddr q) (q_bmask q)
      (q_addr q) (q_size q) v.

(** protocol.h:19-26 [buxn_dbg_msg_t]; again one field per member. *)
Record cmsg : Type := mkM { m_type : Z; m_addr : Z; m_brkp : Z; m_cmd : ccmd }.

(** protocol.h:7 *)
Definition MAX_MEM_ACCESS : Z := 4096.

(** [bserial_any_int(ctx, &c->member)]: [get]/[set] name the member. *)
Definition mint (bits : Z) (get : ccmd -> Z) (set : ccmd -> Z -> ccmd)
  (i : option value) (q : ccmd) : pres (value * ccmd) :=
  pbind (rw_int bits i (get q)) (fun '(v, x) => POk (v, set q x)).

(** protocol.c:68-72: the array of the stack info. *)
Definition stack_data (i : option value) (q : ccmd) : pres (value * ccmd) :=
  pbind (rw_blob 256 256 i (q_sdata q)) (fun '(v, (d, len)) =>
  if negb (len =? 256) then PErr SMalformed else POk (v, set_qsdata q d)).

(** protocol.c:129-133 and 174-178: the bytes of a read reply.  The buffer of
    the reader has the requested size. *)
Definition read_reply (i : option value) (q : ccmd) : pres (value * ccmd) :=
  pbind (rw_blob (q_size q) (q_size q) i (q_values q)) (fun '(v, (d, len)) =>
  if negb (len =? q_size q) then PErr SMalformed else POk (v, set_qvalues q d)).

(** protocol.c:146-152 and 191-197: the bytes of a write request; [max] is the
    limit when reading, the buffer of the reader has 4096 bytes
    (protocol.h:28). *)
Definition write_values (max : Z) (i : option value) (q : ccmd) : pres (value * ccmd) :=
  let len := match i with Some _ => max | None => q_size q end in
  pbind (rw_blob len 4096 i (q_values q)) (fun '(v, (d, len)) =>
  POk (v, set_qsize (set_qvalues q d) (u8 len))).

(** protocol.c:162-167: the size of a memory read. *)
Definition mem_read_size (i : option value) (q : ccmd) : pres (value * ccmd) :=
  pbind (mint 16 q_size set_qsize i q) (fun '(v, q) =>
  if MAX_MEM_ACCESS <? q_size q then PErr SMalformed else POk (v, q)).

(** protocol.c:36-206: the part of a command after its type. *)
Definition cmd_body (req : bool) (x : ctx) (q : ccmd) : pres (ctx * ccmd) :=
  match q_type q with
  | 0 =>                                                          (* 37-80 INFO *)
      if req then item (mint 8 q_info set_qinfo) x q
      else match q_info q with
           | 0 => item (mint 16 q_pc set_qpc) x q
           | 1 | 2 => item (rw_record [(KPointer, mint 8 q_sp set_qsp); (KData, stack_data)]) x q
           | 3 => item (mint 8 q_count set_qcount) x q
           | _ => POk (x, q)
           end
  | 5 =>                                                          (* 81-98 BRKP_GET *)
      if req then item (mint 8 q_id set_qid) x q
      else item (rw_record [(KAddr, mint 16 q_baddr set_qbaddr); (KMask, mint 8 q_bmask set_qbmask)]) x q
  | 6 =>                                                          (* 99-113 BRKP_SET *)
      if req then
        item (rw_record [(KId, mint 8 q_id set_qid); (KAddr, mint 16 q_baddr set_qbaddr);
                         (KMask, mint 8 q_bmask set_qbmask)]) x q
      else POk (x, q)
  | 7 =>                                                          (* 114-135 DEV_READ *)
      if req then item (rw_record [(KAddr, mint 8 q_addr set_qaddr); (KSize, mint 8 q_size set_qsize)]) x q
      else item read_reply x q
  | 8 =>                                                          (* 136-155 DEV_WRITE *)
      if req then item (rw_record [(KAddr, mint 8 q_addr set_qaddr); (KValues, write_values 256)]) x q
      else POk (x, q)
  | 9 =>                                                          (* 156-180 MEM_READ *)
      if req then item (rw_record [(KAddr, mint 16 q_addr set_qaddr); (KSize, mem_read_size)]) x q
      else item read_reply x q
  | 10 =>                                                         (* 181-200 MEM_WRITE *)
      if req then
        item (rw_record [(KAddr, mint 16 q_addr set_qaddr); (KValues, write_values MAX_MEM_ACCESS)]) x q
      else POk (x, q)
  | _ => POk (x, q)                                               (* 201-205 *)
  end.

Definition set_mtype (m : cmsg) (v : Z) : cmsg := mkM v (m_addr m) (m_brkp m) (m_cmd m).
Definition set_maddr (m : cmsg) (v : Z) : cmsg := mkM (m_type m) v (m_brkp m) (m_cmd m).
Definition set_mbrkp (m : cmsg) (v : Z) : cmsg := mkM (m_type m) (m_addr m) v (m_cmd m).
Definition set_mcmd (m : cmsg) (q : ccmd) : cmsg := mkM (m_type m) (m_addr m) (m_brkp m) q.

(** protocol.c:9-15 [buxn_dbg_protocol_msg_header]. *)
Definition msg_header (x : ctx) (m : cmsg) : pres (ctx * cmsg) :=
  pbind (item (rw_int 8) x (u8 (m_type m))) (fun '(x, t) => POk (x, set_mtype m t)).

(** protocol.c:17-217 [buxn_dbg_protocol_msg_body].  The pointers set when
    reading (43-56, 85-87, 125-127, 138-140, 170-172, 183-185) are implicit. *)
Definition msg_body (x : ctx) (m : cmsg) : pres (ctx * cmsg) :=
  match u8 (m_type m) with
  | 0 => pbind (item (rw_int 16) x (m_addr m)) (fun '(x, a) => POk (x, set_maddr m a))
  | 2 => pbind (item (rw_int 8) x (m_brkp m)) (fun '(x, b) => POk (x, set_mbrkp m b))
  | 5 | 6 =>
      pbind (item (rw_int 8) x (u8 (q_type (m_cmd m)))) (fun '(x, t) =>
      pbind (cmd_body (u8 (m_type m) =? 5) x (set_qtype (m_cmd m) t)) (fun '(x, q) =>
      POk (x, set_mcmd m q)))
  | 1 | 3 | 4 => POk (x, m)
  | _ => PErr SMalformed
  end.

(** protocol.h:51-60 [buxn_dbg_protocol_msg]. *)
Definition protocol_msg (x : ctx) (m : cmsg) : pres (ctx * cmsg) :=
  pbind (msg_header x m) (fun '(x, m) => msg_body x m).

(** ** wire.c *)
(** wire.h:8-15 [struct buxn_dbg_wire_s].  [w_in] is the stream of commands, [None]
    for a NULL [in].  [w_open] tells whether [out] is not NULL; [w_room] and
    [w_sent] are its state (kept after it has been closed). *)
Record wire : Type := mkWire {
  w_in : option (list value);
  w_open : bool;
  w_room : nat;
  w_sent : list value;
  w_reply : bool;
  w_pause : bool;
  w_cmd : ccmd
}.

(** The message structures of wire.c are compound literals: members that are
    not named are zero. *)
Definition no_cmd : ccmd := mkC 0 0 0 0 [] 0 0 0 0 0 0 [].

(** One message to [out]: the new state and whether the status was BSERIAL_OK.
    Values accepted before an error stay on the stream. *)
Definition sent_of (x : ctx) : nat * list value :=
  match x with Wr room out => (room, out) | Rd _ => (O, []) end.

Definition send (w : wire) (m : cmsg) : pres (wire * bool) :=
  match msg_header (Wr (w_room w) (w_sent w)) m with
  | PFault f => PFault f
  | PErr _ => POk (w, false)
  | POk (x, m1) =>
      let '(room, sent) := sent_of x in
      let w1 := mkWire (w_in w) (w_open w) room sent (w_reply w) (w_pause w) (w_cmd w) in
      match msg_body x m1 with
      | PFault f => PFault f
      | PErr _ => POk (w1, false)
      | POk (x, _) =>
          let '(room, sent) := sent_of x in
          POk (mkWire (w_in w) (w_open w) room sent (w_reply w) (w_pause w) (w_cmd w), true)
      end
  end.

Definition close_out (w : wire) : wire :=
  mkWire (w_in w) false (w_room w) (w_sent w) (w_reply w) (w_pause w) (w_cmd w).
Definition close_both (w : wire) : wire :=
  mkWire None false (w_room w) (w_sent w) (w_reply w) (w_pause w) (w_cmd w).
Definition set_reply (w : wire) (b : bool) : wire :=
  mkWire (w_in w) (w_open w) (w_room w) (w_sent w) b (w_pause w) (w_cmd w).
Definition set_pause (w : wire) (b : bool) : wire :=
  mkWire (w_in w) (w_open w) (w_room w) (w_sent w) (w_reply w) b (w_cmd w).

(** wire.c:5-23 [buxn_dbg_wire_maybe_reply]. *)
Definition maybe_reply (w : wire) : pres wire :=
  if w_open w && w_reply w then
    pbind (send w (mkM 6 0 0 (w_cmd w))) (fun '(w, ok) =>
    let w := set_reply w false in
    POk (if ok then w else close_both w))
  else POk w.

(** wire.c:25-40 [buxn_dbg_wire_maybe_send_pause]. *)
Definition maybe_send_pause (w : wire) : pres wire :=
  if w_open w && w_pause w then
    pbind (send w (mkM 4 0 0 no_cmd)) (fun '(w, ok) =>
    let w := set_pause w false in
    POk (if ok then w else close_both w))
  else POk w.

(** The notifications close only [out]. *)
Definition notify (w : wire) (m : cmsg) : pres wire :=
  if w_open w then
    pbind (send w m) (fun '(w, ok) => POk (if ok then w else close_out w))
  else POk w.

(** wire.c:42-56 [buxn_dbg_begin_exec]. *)
Definition wire_begin_exec (w : wire) (addr : Z) : pres wire := notify w (mkM 0 addr 0 no_cmd).

(** wire.c:58-73 [buxn_dbg_begin_break]. *)
Definition wire_begin_break (w : wire) (id : Z) : pres wire :=
  if w_open w then notify (set_pause w true) (mkM 2 0 id no_cmd) else POk w.

(** wire.c:95-108 [buxn_dbg_end_break]. *)
Definition wire_end_break (w : wire) : pres wire :=
  pbind (maybe_reply w) (fun w => notify w (mkM 3 0 0 no_cmd)).

(** wire.c:110-121 [buxn_dbg_end_exec]. *)
Definition wire_end_exec (w : wire) : pres wire := notify w (mkM 1 0 0 no_cmd).

(** wire.c:75-93 [buxn_dbg_next_command].  The message variable is not
    initialised: [junk] is what it happens to contain.  [None] in the result
    means that only [cmd->type = BUXN_DBG_CMD_RESUME] has been set. *)
Definition wire_next_command (w : wire) (junk : cmsg) : pres (wire * option ccmd) :=
  pbind (maybe_send_pause w) (fun w =>
  pbind (maybe_reply w) (fun w =>
  match w_in w with
  | None => POk (w, None)
  | Some inp =>
      let lost := mkWire None (w_open w) (w_room w) (w_sent w) (w_reply w) (w_pause w) (w_cmd w) in
      match protocol_msg (Rd inp) junk with
      | PFault f => PFault f
      | PErr _ => POk (lost, None)
      | POk (x, m) =>
          if m_type m =? 5 then
            POk (mkWire (Some match x with Rd rest => rest | Wr _ _ => [] end)
                        (w_open w) (w_room w) (w_sent w) true (w_pause w) (m_cmd m),
                 Some (m_cmd m))
          else POk (lost, None)
      end
  end)).

(** core.c:228-315 seen from the wire: the core stores its answer through the
    pointers of the command, which lead to the buffer of the wire. *)
Definition wire_answer (w : wire) (r : reply) : wire :=
  let q := w_cmd w in
  let q' := match r with
            | RNone => q
            | RPc pc => set_qpc q pc
            | RStack sp data => set_qsdata (set_qsp q sp) data
            | RCount n => set_qcount q n
            | RBrkp b => set_qbmask (set_qbaddr q (b_addr b)) (b_mask b)
            | RBytes l => set_qvalues q l
            end in
  mkWire (w_in w) (w_open w) (w_room w) (w_sent w) (w_reply w) (w_pause w) q'.
