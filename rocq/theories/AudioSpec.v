(** What the audio device promises, independent of the functions of AudioModel. *)
From Verif Require Import Base VmModel SystemSpec AudioModel.
From Verif Require VmSpec.

(** ** C26: an envelope with phases of [A], [D], [S] and [R] samples, at time [t]:
    up to 2184 (0x888), down to 1092, constant, down to 0; without any phase it
    stays at the top.  Values are rounded down. *)
Definition level (A D S R t : Z) : Z :=
  if A + D + S + R =? 0 then 2184
  else if t <? A then 2184 * t / A
  else if t <? A + D then 1092 + 1092 * (A + D - t) / D
  else if t <? A + D + S then 1092
  else if t <? A + D + S + R then 1092 * (A + D + S + R - t) / R
  else 0.

(** Phase lengths of a voice. *)
Definition level_of (c : voice) (t : Z) : Z :=
  level (a_a c) (a_d c - a_a c) (a_s c - a_d c) (a_r c - a_s c) t.

(** Meter nibble of a channel of the given volume at the given level. *)
Definition meter (lev vol : Z) : Z := if vol =? 0 then 0 else Z.min 15 (1 + lev * vol / 2048).

(** Sample rates for which no 32 bit product of the envelope wraps. *)
Definition MAX_RATE : Z := 1966079.

(** ** Voices the program and the host can produce *)
Definition silent (freq : Z) : voice := mkVoice freq 0 0 0 0 0 0 0 0 0 0 0 0 0 0.
Inductive voice_reachable (msize : Z) : voice -> Prop :=
| vr_init freq : 0 <= freq <= MAX_RATE -> voice_reachable msize (silent freq)
| vr_receive c v base m c' : voice_reachable msize c -> VmSpec.well_typed v -> vm_msize v = msize ->
    0 <= base <= 240 -> audio_deo v base 15 = Some m -> receive c m = Ok c' -> voice_reachable msize c'
| vr_render c mem n channels out c' st : voice_reachable msize c -> 1 <= channels ->
    Z.of_nat n * channels <= INT_MAX ->
    render mem msize c n channels = Ok (out, c', st) -> voice_reachable msize c'
| vr_meter c x c' : voice_reachable msize c -> get_vu c = Ok (x, c') -> voice_reachable msize c'.

(** A buffer of [n] cells, zeroed before the call. *)
Definition padded (n : Z) (out : list Z) : list Z := out ++ repeat 0 (Z.to_nat n - length out).

(** ** Several voices
    What one callback should put into cell [k]: the sum over the voices. *)
Definition mixed (outs : list (list Z)) (k : nat) : Z := fold_right (fun o acc => nth k o 0 + acc) 0 outs.
(** What it does put there: the cell of the last voice that wrote it. *)
Definition last_written (outs : list (list Z)) (k : nat) : Z :=
  fold_left (fun acc o => if (k <? length o)%nat then nth k o 0 else acc) outs 0.
