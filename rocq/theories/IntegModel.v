(** Model of src/dbg.c, the update of src/dbg/transports/fd.c and the places of
    src/gui.c that call it: how a debugger is attached to the machine.

    [poll] is a boolean for each update.  The commands that the client will send
    are a list, as in DbgModel.  Simplifications: allocation succeeds; what
    happens to the machine and the host between two vectors is a function. *)
From Verif Require Import Base VmModel DbgModel.

Section Integ.
Variable W : Type.
Variable dei : Z -> vm -> W -> res (Z * vm * W).
Variable deo : Z -> vm -> W -> res (vm * W).
Variable hi_first : bool.
Variables kw kr : Z.
Variable fuel : nat.

(** The callbacks of the machine beside the state of the debugger. *)
Definition dei_i (a : Z) (v : vm) (x : W * dbg_side) : res (Z * vm * (W * dbg_side)) :=
  match dei a v (fst x) with Ok (b, v, w) => Ok (b, v, (w, snd x)) | Fault f => Fault f end.
Definition deo_i (a : Z) (v : vm) (x : W * dbg_side) : res (vm * (W * dbg_side)) :=
  match deo a v (fst x) with Ok (v, w) => Ok (v, (w, snd x)) | Fault f => Fault f end.

(** dbg.h:13-21: whether [vm] is set, whether [vm->config.hook] is, and the
    debugger with its wire. *)
Record integ : Type := mkInteg { i_vm : bool; i_hook : bool; i_side : dbg_side }.
(** All fields zero, linux/platform.c:29. *)
Definition integ0 : integ := mkInteg false false (mkSide dbg_init [] []).
(** dbg.c:4-25 [buxn_dbg_integration_init] *)
Definition integ_init (input : list cmd) : integ :=
  mkInteg true true (mkSide (request_pause dbg_init) input []).

(** fd.c:48-61 [buxn_dbg_transport_fd_update]: [ready] says that [poll] returned
    a positive number. *)
Definition fd_update (ready : bool) (s : dbg_side) : dbg_side :=
  if ready then mkSide (request_pause (ds_dbg s)) (ds_in s) (ds_log s) else s.
(** dbg.c:27-39 [buxn_dbg_integration_update] *)
Definition integ_update (ready : bool) (i : integ) : bool * integ :=
  if i_vm i then
    let s := fd_update ready (i_side i) in
    if should_hook (ds_dbg s) then (true, mkInteg true true s) else (false, mkInteg true false s)
  else (false, i).

(** vm.c [buxn_vm_execute] with the hook that is installed. *)
Definition integ_run (i : integ) (pc : Z) (v : vm) (w : W) : outcome (W * integ) :=
  if i_hook i then
    match execute (W * dbg_side) dei_i deo_i hi_first (Some (dbg_hook W dei deo)) kw kr fuel pc v (w, i_side i) with
    | Done _ v (w, s) => Done _ v (w, mkInteg (i_vm i) true s)
    | Crash _ f => Crash _ f
    | OutOfFuel _ => OutOfFuel _
    end
  else
    match execute W dei deo hi_first None kw kr fuel pc v w with
    | Done _ v w => Done _ v (w, i)
    | Crash _ f => Crash _ f
    | OutOfFuel _ => OutOfFuel _
    end.
(** mouse.c:27-31 [buxn_mouse_update] *)
Definition mouse_vector (v : vm) : Z := dev_load2 v 144.
Definition integ_mouse (i : integ) (v : vm) (w : W) : outcome (W * integ) :=
  if mouse_vector v =? 0 then Done _ v (w, i) else integ_run i (mouse_vector v) v w.
(** gui.c:593; gui.c:781-784 with 929-931 for an event that has nothing to do with the mouse. *)
Definition tick (ready : bool) (i : integ) (v : vm) (w : W) : outcome (W * integ) :=
  let '(hooked, i) := integ_update ready i in
  if hooked then integ_mouse i v w else Done _ v (w, i).

(** What the program loop does, in any order: such an update, a vector, and what
    the host does to the machine and to itself. *)
Inductive gstep : Type := Tick (ready : bool) | Vector (pc : Z) | Change (f : vm -> W -> vm * W).
Definition integ_step (x : gstep) (i : integ) (v : vm) (w : W) : outcome (W * integ) :=
  match x with
  | Tick ready => tick ready i v w
  | Vector pc => integ_run i pc v w
  | Change f => let '(v, w) := f v w in Done _ v (w, i)
  end.
Fixpoint session (l : list gstep) (i : integ) (v : vm) (w : W) : outcome (W * integ) :=
  match l with
  | [] => Done _ v (w, i)
  | x :: l =>
      match integ_step x i v w with
      | Done _ v (w, i) => session l i v w
      | Crash _ f => Crash _ f
      | OutOfFuel _ => OutOfFuel _
      end
  end.
End Integ.
