(** Model of the hand-over of notes from the emulator thread to the audio thread
    of src/gui.c: two buffers of four messages and one atomic pointer.

    Both threads are split into steps that access shared memory once.  A message
    (a struct copy) is one step; [C27_exclusion] shows no step of the other thread
    touches the same buffer meanwhile, so its granularity cannot be observed.

    Data races are detected as usual with vector clocks: every thread has a clock,
    a release operation publishes it, an acquire operation that reads the published
    value learns it, and an access races if an earlier conflicting access of the
    other thread is newer than what the accessing thread has learnt.  [acq] says
    whether the successful compare-and-exchange is also an acquire operation. *)
From Verif Require Import Base.

Section Handover.
Variable note : Type.
Variable acq : bool.

(** vm.h: BUXN_NUM_AUDIO_DEVICES *)
Definition VOICES : nat := 4.

(** Where the emulator thread is: outside [try_submit_audio], after the successful
    exchange (gui.c:446), or clearing message [i] (gui.c:451). *)
Inductive epc : Type := ERun | ESwap | EClear (i : nat).
(** Where the audio thread is: outside, or before reading message [i] of buffer [b]
    (gui.c:475-480; [i = 4]: before the store of gui.c:481). *)
Inductive apc : Type := AIdle | ARead (b : bool) (i : nat).

(** gui.c:79-83; buffer a is [false], buffer b is [true]; a message is [None] if
    its [device] is NULL.  The last fields are the clocks. *)
Record hstate : Type := mkH {
  h_incoming : option bool; h_outgoing : bool; h_buf : bool -> nat -> option note; h_should : bool;
  h_epc : epc; h_apc : apc;
  h_eclk : nat; h_aclk : nat; h_eknows : nat; h_aknows : nat; h_emsg : nat; h_amsg : nat;
  h_wr : bool -> nat -> nat; h_rd : bool -> nat -> nat; h_race : bool }.

Definition hset {A} (f : bool -> nat -> A) (b : bool) (i : nat) (x : A) : bool -> nat -> A :=
  fun b' i' => if Bool.eqb b b' && Nat.eqb i i' then x else f b' i'.

(** gui.c:504: the state after [init]. *)
Definition h_init : hstate :=
  mkH None false (fun _ _ => None) false ERun AIdle 1 1 0 0 0 0 (fun _ _ => 0%nat) (fun _ _ => 0%nat) false.

(** What happened, for the record. *)
Inductive hevent : Type := Sent (i : nat) (n : note) | Handed | Received (i : nat) (n : note).

(** A write of the emulator thread to message [i] of the outgoing buffer. *)
Definition h_write (s : hstate) (i : nat) (m : option note) (should : bool) (e : epc) : hstate :=
  let b := h_outgoing s in
  mkH (h_incoming s) b (hset (h_buf s) b i m) should e (h_apc s)
    (h_eclk s) (h_aclk s) (h_eknows s) (h_aknows s) (h_emsg s) (h_amsg s)
    (hset (h_wr s) b i (h_eclk s)) (h_rd s) (h_race s || (h_eknows s <? h_rd s b i)%nat).

(** gui.c:459-467 [buxn_audio_send] *)
Definition h_send (i : nat) (n : note) (s : hstate) : option (hstate * list hevent) :=
  match h_epc s with
  | ERun => if (i <? VOICES)%nat then Some (h_write s i (Some n) true ERun, [Sent i n]) else None
  | _ => None
  end.

(** gui.c:609, 934 and 440-444: the exchange, called only if [should_submit_audio];
    a failure sets [should_submit_audio] to true again (gui.c:454). *)
Definition h_try (s : hstate) : option (hstate * list hevent) :=
  match h_epc s with
  | ERun =>
      if h_should s then
        match h_incoming s with
        | None =>
            Some (mkH (Some (h_outgoing s)) (h_outgoing s) (h_buf s) (h_should s) ESwap (h_apc s)
              (S (h_eclk s)) (h_aclk s) (if acq then Nat.max (h_eknows s) (h_amsg s) else h_eknows s) (h_aknows s)
              (h_eclk s) (h_amsg s) (h_wr s) (h_rd s) (h_race s), [Handed])
        | Some _ => Some (s, [])
        end
      else None
  | _ => None
  end.

(** gui.c:448-450 *)
Definition h_swap (s : hstate) : option (hstate * list hevent) :=
  match h_epc s with
  | ESwap => Some (mkH (h_incoming s) (negb (h_outgoing s)) (h_buf s) (h_should s) (EClear 0) (h_apc s)
      (h_eclk s) (h_aclk s) (h_eknows s) (h_aknows s) (h_emsg s) (h_amsg s) (h_wr s) (h_rd s) (h_race s), [])
  | _ => None
  end.

(** gui.c:451, one message; after the last one gui.c:454. *)
Definition h_clear (s : hstate) : option (hstate * list hevent) :=
  match h_epc s with
  | EClear i => Some (if (S i =? VOICES)%nat then h_write s i None false ERun else h_write s i None (h_should s) (EClear (S i)), [])
  | _ => None
  end.

(** gui.c:471-474, the acquire load. *)
Definition h_load (s : hstate) : option (hstate * list hevent) :=
  match h_apc s with
  | AIdle =>
      match h_incoming s with
      | None => Some (s, [])
      | Some b => Some (mkH (h_incoming s) (h_outgoing s) (h_buf s) (h_should s) (h_epc s) (ARead b 0)
          (h_eclk s) (h_aclk s) (h_eknows s) (Nat.max (h_aknows s) (h_emsg s)) (h_emsg s) (h_amsg s) (h_wr s) (h_rd s) (h_race s), [])
      end
  | _ => None
  end.

(** gui.c:476-479 *)
Definition h_recv (s : hstate) : option (hstate * list hevent) :=
  match h_apc s with
  | ARead b i =>
      if (i <? VOICES)%nat then
        Some (mkH (h_incoming s) (h_outgoing s) (h_buf s) (h_should s) (h_epc s) (ARead b (S i))
          (h_eclk s) (h_aclk s) (h_eknows s) (h_aknows s) (h_emsg s) (h_amsg s)
          (h_wr s) (hset (h_rd s) b i (h_aclk s)) (h_race s || (h_aknows s <? h_wr s b i)%nat),
          match h_buf s b i with Some n => [Received i n] | None => [] end)
      else None
  | AIdle => None
  end.

(** gui.c:481, the release store. *)
Definition h_store (s : hstate) : option (hstate * list hevent) :=
  match h_apc s with
  | ARead b i =>
      if (i =? VOICES)%nat then
        Some (mkH None (h_outgoing s) (h_buf s) (h_should s) (h_epc s) AIdle
          (h_eclk s) (S (h_aclk s)) (h_eknows s) (h_aknows s) (h_emsg s) (h_aclk s) (h_wr s) (h_rd s) (h_race s), [])
      else None
  | AIdle => None
  end.

(** A schedule: which thread moves, and what the program sends. *)
Inductive label : Type := LSend (i : nat) (n : note) | LTry | LSwap | LClear | LLoad | LRecv | LStore.

Definition hstep (l : label) (s : hstate) : option (hstate * list hevent) :=
  match l with
  | LSend i n => h_send i n s | LTry => h_try s | LSwap => h_swap s | LClear => h_clear s
  | LLoad => h_load s | LRecv => h_recv s | LStore => h_store s
  end.

Fixpoint hrun (ls : list label) (s : hstate) : option (hstate * list hevent) :=
  match ls with
  | [] => Some (s, [])
  | l :: ls =>
      match hstep l s with
      | None => None
      | Some (s1, e1) => match hrun ls s1 with None => None | Some (s2, e2) => Some (s2, e1 ++ e2) end
      end
  end.

End Handover.
