(** What a session with the command-line emulator is, without its devices'
    state: the events the console delivers, and when the program is left. *)
From Verif Require Import Base VmModel InputSpec CliModel.
Open Scope list_scope.

(** Forget the state of the console device. *)
Definition drop {D R} (o : outcome (D * R)) : outcome R :=
  match o with Done _ v w => Done _ v (snd w) | Crash _ f => Crash _ f | OutOfFuel _ => OutOfFuel _ end.
Definition forget {D R} (e : ended (D * R)) : ended R :=
  match e with Ended n v w => Ended n v (snd w) | Quit n => Quit n | Failed f => Failed f | Running => Running end.

(** The System/state port of a machine: zero until the program asks to exit,
    with the exit code in the low seven bits. *)
Definition state (v : vm) : Z := vm_dev v 15.
Definition code (v : vm) : Z := state v mod 128.

Section Session.
Variable R : Type.
Variable odei : Z -> vm -> R -> res (Z * vm * R).
Variable odeo : Z -> vm -> R -> res (vm * R).
(** What a write to a console port does. *)
Variable out : Z -> vm -> R -> res (vm * R).
Variable hi_first : bool.
Variables (kw kr : Z) (fuel : nat).

(** The program is run from 0x100; the console's type port says whether there
    are arguments. *)
Definition start (argv : list (list Z)) (v : vm) (r : R) : outcome R :=
  execute R (const_dei R odei 16 (console_port (match argv with [] => 0 | _ => 1 end, 0)))
    (const_deo R odeo 16 out) hi_first None kw kr fuel 256 v r.

(** Events are delivered as long as the program has not asked to exit and has a
    console vector. *)
Fixpoint listen (es : list (Z * Z)) (v : vm) (r : R) : outcome R :=
  match es with
  | [] => Done _ v r
  | e :: rest =>
      if (state v =? 0) && negb (vector v 16 =? 0) then
        match react R odei odeo hi_first kw kr fuel 16 (console_port e) out v r with
        | Done _ v' r' => listen rest v' r'
        | o => o
        end
      else Done _ v r
  end.

(** The program is started; unless it wants an exit code other than zero it gets
    all arguments; unless it then wants an exit code other than zero it listens
    to the bytes of standard input (type 1) and its end (type 4, value 0). *)
Definition session (argv : list (list Z)) (stdin : list Z) (v : vm) (r : R) : ended R :=
  then_ (start argv v r) (fun v r =>
  if negb (code v =? 0) then Ended (code v) v r else
  then_ (deliver R odei odeo hi_first kw kr fuel 16 console_port out (arg_events argv) v r) (fun v r =>
  if negb (code v =? 0) then Ended (code v) v r else
  then_ (listen (map (fun c => (1, c mod 256)) stdin ++ [(4, 0)]) v r) (fun v r =>
  Ended (code v) v r))).
End Session.

(** ** Output *)
(** The written form of a byte: two hexadecimal digits. *)
Definition digits : list Z := [48; 49; 50; 51; 52; 53; 54; 55; 56; 57; 65; 66; 67; 68; 69; 70].
Definition hex_text (b : Z) : list Z :=
  [nth (Z.to_nat (b / 16)) digits 0; nth (Z.to_nat (b mod 16)) digits 0].
(** A stack from the bottom: a space before each byte. *)
Definition stack_text (s : Z -> Z) (depth : Z) : list Z :=
  concat (map (fun i => 32 :: hex_text (s (Z.of_nat i))) (seq 0 (Z.to_nat depth))).
(** What a write to port [a] in machine [v] sends to standard output and error:
    0x18 and 0x19 the byte written; 0x0e, if the byte is not zero, the stacks. *)
Definition says_out (x : Z * vm) : list Z :=
  let (a, v) := x in if a =? 24 then [vm_dev v 24] else [].
Definition says_err (x : Z * vm) : list Z :=
  let (a, v) := x in
  if a =? 25 then [vm_dev v 25]
  else if (a =? 14) && negb (vm_dev v 14 =? 0) then
    [87; 83; 84] (* WST *) ++ stack_text (vm_ws v) (vm_wsp v) ++ [10] ++
    [82; 83; 84] (* RST *) ++ stack_text (vm_rs v) (vm_rsp v) ++ [10]
  else [].

(** Any host whose writes are recorded: port and machine, oldest first. *)
Section Recorded.
Variable R : Type.
Definition recorded_in (dei : Z -> vm -> R -> res (Z * vm * R)) (a : Z) (v : vm) (w : R * list (Z * vm)) :
    res (Z * vm * (R * list (Z * vm))) :=
  match dei a v (fst w) with Ok (b, v', r) => Ok (b, v', (r, snd w)) | Fault f => Fault f end.
Definition recorded_out (deo : Z -> vm -> R -> res (vm * R)) (a : Z) (v : vm) (w : R * list (Z * vm)) :
    res (vm * (R * list (Z * vm))) :=
  match deo a v (fst w) with Ok (v', r) => Ok (v', (r, snd w ++ [(a, v)])) | Fault f => Fault f end.
(** A function of the byte written to port [p]. *)
Definition recorded_byte (p : Z) (f : Z -> vm -> R -> res (vm * R)) (c : Z) (v : vm) (w : R * list (Z * vm)) :
    res (vm * (R * list (Z * vm))) :=
  match f c v (fst w) with Ok (v', r) => Ok (v', (r, snd w ++ [(p, v)])) | Fault f => Fault f end.
End Recorded.
