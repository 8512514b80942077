(** Model of the pace of the GUI: when the screen vector is run
    (src/gui.c:25, 565-566, 620-632) and what a frame reads of the standard input
    (src/gui.c:596-608, src/linux/platform.c:258-277 [platform_poll_stdin]).

    Simplifications: a double is a rational number and nothing is rounded.  The
    time between two frames is given, in microseconds (sokol_time measures it). *)
From Verif Require Import Base.
From Coq Require Import QArith Qround.
Open Scope Q_scope.

(** ** The screen *)
(** gui.c:25 [FRAME_TIME_US] *)
Definition FRAME_TIME : Q := 1000000 / 60.
(** gui.c:627-630: the loop; the number of updates and what is left. *)
Fixpoint run_due (fuel : nat) (accum : Q) : option (nat * Q) :=
  match fuel with
  | O => None
  | S fuel =>
      if Qle_bool FRAME_TIME accum then
        match run_due fuel (accum - FRAME_TIME) with Some (n, a) => Some (S n, a) | None => None end
      else Some (O, accum)
  end.
(** gui.c:620-632: a frame [diff] after the last one: the updates, whether the
    screen is drawn, and the new accumulator. *)
Definition pace (fuel : nat) (accum diff : Q) : option (nat * bool * Q) :=
  let accum := accum + diff in
  let should_redraw := Qle_bool FRAME_TIME accum in
  match run_due fuel accum with Some (n, a) => Some (n, should_redraw, a) | None => None end.
(** gui.c:566: the accumulator before the first frame. *)
Definition accum0 : Q := FRAME_TIME.
(** The frames of a session. *)
Fixpoint paces (fuel : nat) (accum : Q) (l : list Q) : option (list (nat * bool) * Q) :=
  match l with
  | []%list => Some ([]%list, accum)
  | (d :: l)%list =>
      match pace fuel accum d with
      | Some (n, r, a) => match paces fuel a l with Some (ns, a) => Some (((n, r) :: ns)%list, a) | None => None end
      | None => None
      end
  end.

(** ** Standard input *)
Close Scope Q_scope.
Open Scope Z_scope.
Open Scope list_scope.
(** What the system says when it is asked: [poll] is not positive, or [read]
    fails, or gives these bytes; no bytes: the end. *)
Inductive answer : Type := Nothing | Fails | Bytes (l : list Z).
(** platform.c:258-277: the result, and what is in the buffer. *)
Definition poll_stdin (a : answer) : Z * list Z :=
  match a with
  | Nothing => (0, [])
  | Fails => (-1, [])
  | Bytes l => let c := Z.of_nat (List.length l) in if c =? 0 then (-1, []) else (c, l)
  end.
(** What is sent to the console device. *)
Inductive sent : Type := Input (c : Z) | InputEnd.
(** A frame goes on to the rest of its work, or still waits for answers. *)
Inductive polled : Type := Through (out : list sent) (closed : bool) (rest : list answer) | Busy (out : list sent).
(** gui.c:597-608 *)
Fixpoint frame_input (closed : bool) (answers : list answer) : polled :=
  if closed then Through [] true answers else
  match answers with
  | [] => Busy []
  | a :: rest =>
      let '(n, buf) := poll_stdin a in
      if n =? 0 then Through [] false rest
      else
        let now := map Input (firstn (Z.to_nat n) buf) in
        if n <? 0 then Through (now ++ [InputEnd]) true rest
        else match frame_input closed rest with
             | Through out closed rest => Through (now ++ out) closed rest
             | Busy out => Busy (now ++ out)
             end
  end.
(** [k] frames, one after the other: all that is sent. *)
Fixpoint frames_input (k : nat) (closed : bool) (answers : list answer) : list sent * bool :=
  match k with
  | O => ([], closed)
  | S k =>
      match frame_input closed answers with
      | Through out closed rest => let '(l, c) := frames_input k closed rest in (out ++ l, c)
      | Busy out => (out, closed)
      end
  end.
