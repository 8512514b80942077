(** Model of src/devices/audio.c and include/buxn/devices/audio.h.

    Pointers into VM memory are offsets.  Simplification: the conversion of a
    sample to [float] is not modelled; an output cell holds the integer that is
    converted, [s * volume] (audio.c:140 for the down-mix, where the two floats
    are added, it holds [s * volume[0] + s * volume[1]]). *)
From Verif Require Import Base VmModel.

(** audio.c:16-19 *)
Definition ADVANCES (n : Z) : Z :=
  nth (Z.to_nat n) [524288; 555464; 588493; 623487; 660561; 699841; 741455; 785544; 832255; 881744; 934175; 989724] 0.

(** audio.h:33-41 [buxn_audio_t] *)
Record voice : Type := mkVoice {
  a_freq : Z; a_addr : Z; a_count : Z; a_advance : Z; a_period : Z; a_age : Z;
  a_a : Z; a_d : Z; a_s : Z; a_r : Z; a_i : Z; a_len : Z; a_vol0 : Z; a_vol1 : Z; a_repeat : Z }.

(** audio.h:22-31 [buxn_audio_message_t], without the device pointer. *)
Record message : Type := mkMsg {
  m_addr : Z; m_adsr : Z; m_len : Z; m_pitch : Z; m_repeat : Z; m_vol0 : Z; m_vol1 : Z }.

Definition set_advance (c : voice) (x : Z) : voice :=
  mkVoice (a_freq c) (a_addr c) (a_count c) x (a_period c) (a_age c) (a_a c) (a_d c) (a_s c) (a_r c)
    (a_i c) (a_len c) (a_vol0 c) (a_vol1 c) (a_repeat c).
Definition set_play (c : voice) (count i : Z) : voice :=
  mkVoice (a_freq c) (a_addr c) count (a_advance c) (a_period c) (a_age c) (a_a c) (a_d c) (a_s c) (a_r c)
    i (a_len c) (a_vol0 c) (a_vol1 c) (a_repeat c).
Definition set_age (c : voice) (x : Z) : voice :=
  mkVoice (a_freq c) (a_addr c) (a_count c) (a_advance c) (a_period c) x (a_a c) (a_d c) (a_s c) (a_r c)
    (a_i c) (a_len c) (a_vol0 c) (a_vol1 c) (a_repeat c).

(** Unsigned 32 bit division. *)
Definition udiv (x y : Z) : res Z := if y =? 0 then Fault DivByZero else Ok (x / y).
Definition umod (x y : Z) : res Z := if y =? 0 then Fault DivByZero else Ok (x mod y).

(** audio.c:21-30 [buxn_audio_envelope]; all operands are uint32_t, the result is
    converted to int32_t. *)
Definition envelope (c : voice) (age : Z) : res (Z * voice) :=
  if a_r c =? 0 then Ok (2184, c)
  else if age <? a_a c then rbind (udiv (u32 (2184 * age)) (a_a c)) (fun x => Ok (s32 x, c))
  else if age <? a_d c then
    rbind (udiv (u32 (1092 * u32 (u32 (u32 (2 * a_d c) - a_a c) - age))) (u32 (a_d c - a_a c))) (fun x => Ok (s32 x, c))
  else if age <? a_s c then Ok (1092, c)
  else if age <? a_r c then
    rbind (udiv (u32 (1092 * u32 (a_r c - age))) (u32 (a_r c - a_s c))) (fun x => Ok (s32 x, c))
  else Ok (0, set_advance c 0).

(** audio.c:36-40: one round of the loop of [buxn_audio_get_vu]. *)
Definition vu_channel (c : voice) (volume : Z) : res (Z * voice) :=
  if volume =? 0 then Ok (0, c)
  else rbind (envelope c (a_age c)) (fun '(e, c') =>
       rbind (int32 (e * volume)) (fun p =>
       rbind (int32 (1 + Z.quot p 2048)) (fun sum =>
       Ok (if sum >? 15 then 15 else sum, c')))).

(** audio.c:32-42 [buxn_audio_get_vu] *)
Definition get_vu (c : voice) : res (Z * voice) :=
  if (a_advance c =? 0) || (a_period c =? 0) then Ok (0, c)
  else rbind (vu_channel c (a_vol0 c)) (fun '(s0, c1) =>
       rbind (vu_channel c1 (a_vol1 c1)) (fun '(s1, c2) =>
       Ok (u8 (Z.lor (Z.shiftl s0 4) s1), c2))).

(** audio.c:44-77 [buxn_audio_receive] *)
Definition receive (c : voice) (m : message) : res voice :=
  let note_period := u32 (u32 (a_freq c * 16384) / 11025) in
  let adsr_step := a_freq c / 15 in
  let go advance a d s r count period age i :=
    mkVoice (a_freq c) (m_addr m) count advance period age a d s r i (m_len m) (m_vol0 m) (m_vol1 m) (m_repeat m) in
  if (m_pitch m <? 108) && negb (m_len m =? 0) then
    let advance := Z.shiftr (ADVANCES (m_pitch m mod 12)) (8 - m_pitch m / 12) in
    let a := u32 (adsr_step * Z.shiftr (m_adsr m) 12) in
    let d := u32 (u32 (adsr_step * Z.land (Z.shiftr (m_adsr m) 8) 15) + a) in
    let s := u32 (u32 (adsr_step * Z.land (Z.shiftr (m_adsr m) 4) 15) + d) in
    let r := u32 (u32 (adsr_step * Z.land (Z.shiftr (m_adsr m) 0) 15) + s) in
    rbind (if m_len m <=? 256 then udiv (u32 (note_period * 337) / 2) (m_len m) else Ok note_period) (fun period =>
    Ok (go advance a d s r (a_count c) period 0 0))
  else Ok (go 0 (a_a c) (a_d c) (a_s c) (a_r c) (a_count c) (a_period c) (a_age c) (a_i c)).

(** audio.c:79-93 [buxn_audio_dei]; [base] is the device page. *)
Definition audio_dei (v : vm) (c : voice) (base port : Z) : res (Z * vm * voice) :=
  if port =? 4 then rbind (get_vu c) (fun '(x, c') => Ok (x, v, c'))
  else if port =? 2 then
    let dev := upd (upd (vm_dev v) (base + 2) (u8 (Z.shiftr (a_i c) 8))) (base + 3) (u8 (Z.land (a_i c) 255)) in
    Ok (dev (base + 2), vm_set_dev v dev, c)
  else Ok (vm_dev v (base + port), v, c).

(** audio.c:95-120 [buxn_audio_deo]: the message sent, if any. *)
Definition audio_deo (v : vm) (base port : Z) : option message :=
  if port =? 15 then
    let dev i := vm_dev v (base + i) in
    let pitch := Z.land (dev 15) 127 in
    let addr := load2 dev 12 16 in
    let adsr := load2 dev 8 16 in
    let len := load2 dev 10 16 in
    let len := if len >? 65536 - addr then u16 (65536 - addr) else len in
    Some (mkMsg addr adsr len pitch (if Z.land (dev 15) 128 =? 0 then 1 else 0)
            (Z.shiftr (dev 14) 4) (Z.land (dev 14) 15))
  else None.

(** audio.c:139-151: the cells written for one sample. *)
Definition mix (c : voice) (s : Z) (channels : Z) : res (list Z) :=
  rbind (int32 (s * a_vol0 c)) (fun x0 =>
  rbind (int32 (s * a_vol1 c)) (fun x1 =>
  Ok (if channels <? 2 then [x0 + x1]
      else map (fun k => if Nat.even k then x0 else x1) (seq 0 (Z.to_nat channels))))).

(** audio.c:128-152: the loop of [buxn_audio_render]; [frames] the frames left to
    write ([stream < end]: every round writes one frame of [channels] cells).  The
    result is the cells written and the voice. *)
Fixpoint render_loop (mem : arr) (msize : Z) (frames : nat) (channels : Z) (c : voice) : res (list Z * voice) :=
  match frames with
  | O => Ok ([], c)
  | S frames =>
      let count := u32 (a_count c + a_advance c) in
      rbind (udiv count (a_period c)) (fun q =>
      rbind (umod count (a_period c)) (fun count' =>
      let i := u16 (a_i c + q) in
      let c1 := set_play c count' i in
      let play c2 :=
        rbind (aget msize mem (a_addr c2 + a_i c2)) (fun b =>
        rbind (envelope (set_age c2 (u32 (a_age c2 + 1))) (a_age c2)) (fun '(e, c3) =>
        rbind (int32 (s8 (b + 128) * e)) (fun s =>
        rbind (mix c3 s channels) (fun cells =>
        rbind (render_loop mem msize frames channels c3) (fun '(rest, c4) =>
        Ok (cells ++ rest, c4)))))) in
      if i >=? a_len c then
        if a_repeat c =? 0 then Ok ([], set_advance c1 0)
        else rbind (umod i (a_len c)) (fun i' => play (set_play c1 count' i'))
      else play c1))
  end.

(** audio.h:43-47 *)
Inductive audio_state : Type := Stopped | Playing | Finished.

(** audio.c:122-155 [buxn_audio_render] for [len] frames. *)
Definition render (mem : arr) (msize : Z) (c : voice) (len : nat) (channels : Z) : res (list Z * voice * audio_state) :=
  if (a_advance c =? 0) || (a_period c =? 0) then Ok ([], c, Stopped)
  else rbind (render_loop mem msize len channels c) (fun '(out, c') =>
       Ok (out, c', if a_advance c' =? 0 then Finished else Playing)).

(** audio.c:157-161 [buxn_audio_notify_finished] and its only call, gui.c:615 for
    voice [i]: the vector that is evaluated (0: none).  gui.c passes
    BUXN_DEVICE_AUDIO_0 + i. *)
Definition notify_vector (v : vm) (device_id : Z) : Z := dev_load2 v device_id.
Definition gui_finished_vector (v : vm) (i : Z) : Z := notify_vector v (48 + i).

(** [buxn_audio_render] writes its cells over the start of the stream. *)
Definition overwrite (buffer out : list Z) : list Z := out ++ skipn (length out) buffer.

(** gui.c:485-490: the rendering part of [audio_callback] for the voices [cs].
    Result: the buffer and the voices that finished. *)
Fixpoint render_voices (mem : arr) (msize : Z) (cs : list voice) (n : nat) (channels : Z) (buffer : list Z) :
    res (list Z * list voice * list bool) :=
  match cs with
  | [] => Ok (buffer, [], [])
  | c :: cs =>
      rbind (render mem msize c n channels) (fun '(out, c', st) =>
      rbind (render_voices mem msize cs n channels (overwrite buffer out)) (fun '(b, cs', fs) =>
      Ok (b, c' :: cs', (match st with Finished => true | _ => false end) :: fs)))
  end.
Definition callback (mem : arr) (msize : Z) (cs : list voice) (n : nat) (channels : Z) : res (list Z * list voice * list bool) :=
  render_voices mem msize cs n channels (repeat 0 (Z.to_nat (Z.of_nat n * channels))).
