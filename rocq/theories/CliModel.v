(** The command-line emulator src/cli.c on top of the device models, with the
    datetime device src/devices/datetime.c, and the device dispatch of
    src/gui.c and src/repl.c.

    Simplifications: no debugger is attached (BUXN_DBG_FD unset); [malloc]
    succeeds; standard output and error take every byte, so flushing does not
    matter; standard input is the list of bytes before its end.  The k-th call
    of [localtime(time(NULL))] gives [now k], [None] for NULL. *)
From Verif Require Import Base VmModel SystemModel InputModel FileModel FileSpec.
From Verif Require BootModel.
Open Scope list_scope.

(** ** Dispatch *)
(** The device functions a port can be handed to; [NoDevice] is the default case. *)
Inductive target : Type :=
| System | Console | Screen | Audio (i : Z) | Controller | Mouse | FileDev (i : Z) | Datetime | NoDevice.

(** cli.c:24-42, repl.c:233-251: [buxn_vm_dei]; the index of the file device is
    an expression of ints. *)
Definition cli_dei_target (address : Z) : target :=
  let id := device_id address in
  if id =? 0 then System
  else if id =? 16 then Console
  else if id =? 192 then Datetime
  else if (id =? 160) || (id =? 176) then FileDev (Z.quot (id - 160) (176 - 160))
  else NoDevice.
(** cli.c:48-65, repl.c:257-274: [buxn_vm_deo] *)
Definition cli_deo_target (address : Z) : target :=
  let id := device_id address in
  if id =? 0 then System
  else if id =? 16 then Console
  else if (id =? 160) || (id =? 176) then FileDev (Z.quot (id - 160) (176 - 160))
  else NoDevice.
(** gui.c:202-236: [buxn_vm_dei] *)
Definition gui_dei_target (address : Z) : target :=
  let id := device_id address in
  if id =? 0 then System
  else if id =? 16 then Console
  else if id =? 32 then Screen
  else if (id =? 48) || (id =? 64) || (id =? 80) || (id =? 96) then Audio (Z.quot (id - 48) (64 - 48))
  else if id =? 144 then Mouse
  else if id =? 128 then Controller
  else if (id =? 160) || (id =? 176) then FileDev (Z.quot (id - 160) (176 - 160))
  else if id =? 192 then Datetime
  else NoDevice.
(** gui.c:242-280: [buxn_vm_deo] *)
Definition gui_deo_target (address : Z) : target :=
  let id := device_id address in
  if id =? 0 then System
  else if id =? 16 then Console
  else if id =? 32 then Screen
  else if (id =? 48) || (id =? 64) || (id =? 80) || (id =? 96) then Audio (Z.quot (id - 48) (64 - 48))
  else if id =? 144 then Mouse
  else if id =? 128 then Controller
  else if (id =? 160) || (id =? 176) then FileDev (Z.quot (id - 160) (176 - 160))
  else NoDevice.

(** ** The datetime device *)
(** [struct tm]: nine ints. *)
Record tm : Type := mkTm {
  tm_year : Z; tm_mon : Z; tm_mday : Z; tm_hour : Z; tm_min : Z; tm_sec : Z;
  tm_wday : Z; tm_yday : Z; tm_isdst : Z }.

(** datetime.c:7-27 [buxn_datetime_dei] with the result [t] of localtime; the
    values are ints converted to uint8_t, [>>] of a negative int is arithmetic. *)
Definition datetime_dei (v : vm) (t : option tm) (addr : Z) : res Z :=
  let t := match t with Some t => t | None => mkTm 0 0 0 0 0 0 0 0 0 end in
  if addr =? 192 then rbind (int32 (tm_year t + 1900)) (fun y => Ok (u8 (Z.shiftr y 8)))
  else if addr =? 193 then rbind (int32 (tm_year t + 1900)) (fun y => Ok (u8 y))
  else if addr =? 194 then Ok (u8 (tm_mon t))
  else if addr =? 195 then Ok (u8 (tm_mday t))
  else if addr =? 196 then Ok (u8 (tm_hour t))
  else if addr =? 197 then Ok (u8 (tm_min t))
  else if addr =? 198 then Ok (u8 (tm_sec t))
  else if addr =? 199 then Ok (u8 (tm_wday t))
  else if addr =? 200 then Ok (u8 (Z.shiftr (tm_yday t) 8))
  else if addr =? 201 then Ok (u8 (tm_yday t))
  else if addr =? 202 then Ok (u8 (tm_isdst t))
  else Ok (vm_dev v addr).

(** ** The terminal: everything outside the VM but the console device. *)
Record term (H : Type) : Type := mkTerm {
  t_out : list Z; t_err : list Z;      (* bytes written so far, oldest first *)
  t_clock : nat;                       (* calls of localtime so far *)
  t_f0 : file; t_l0 : list call;       (* cli.c:18 file[0], and the calls it made *)
  t_f1 : file; t_l1 : list call;       (* cli.c:18 file[1] *)
  t_fh : H }.                          (* the host's files *)
Arguments mkTerm {H}. Arguments t_out {H}. Arguments t_err {H}. Arguments t_clock {H}.
Arguments t_f0 {H}. Arguments t_l0 {H}. Arguments t_f1 {H}. Arguments t_l1 {H}. Arguments t_fh {H}.

(** [printf("%02hhX", b)] *)
Definition hex_digit (d : Z) : Z := if d <? 10 then 48 + d else 55 + d.
Definition hex2 (b : Z) : list Z := [hex_digit (Z.shiftr (u8 b) 4); hex_digit (Z.land (u8 b) 15)].
(** cli.c:73-76, 79-82: the loop over a stack; its counter and the stack pointer
    are of type uint8_t, so the counter takes the values below the pointer. *)
Definition dump (s : arr) (ptr : Z) : list Z :=
  flat_map (fun i => 32 :: hex2 (s (Z.of_nat i))) (seq 0 (Z.to_nat (u8 ptr))).

Section Term.
Variable H : Type.
Variable hs : host H.
Variable now : nat -> option tm.

(** [fputc(c, stdout)], [fputc(c, stderr)]: the char is converted to unsigned char. *)
Definition put_out (t : term H) (l : list Z) : term H :=
  mkTerm (t_out t ++ l) (t_err t) (t_clock t) (t_f0 t) (t_l0 t) (t_f1 t) (t_l1 t) (t_fh t).
Definition put_err (t : term H) (l : list Z) : term H :=
  mkTerm (t_out t) (t_err t ++ l) (t_clock t) (t_f0 t) (t_l0 t) (t_f1 t) (t_l1 t) (t_fh t).

(** cli.c:68-83 [buxn_system_debug] *)
Definition cli_debug (value : Z) (v : vm) (t : term H) : res (vm * term H) :=
  if value =? 0 then Ok (v, t)
  else Ok (v, put_err t ([87; 83; 84] ++ dump (vm_ws v) (vm_wsp v) ++ [10] ++
                         [82; 83; 84] ++ dump (vm_rs v) (vm_rsp v) ++ [10])).
(** cli.c:85-89 [buxn_system_set_metadata], 91-94 [buxn_system_theme_changed] *)
Definition cli_set_metadata (address : Z) (v : vm) (t : term H) : res (vm * term H) := Ok (v, t).
Definition cli_theme_changed (v : vm) (t : term H) : res (vm * term H) := Ok (v, t).
(** cli.c:96-102 [buxn_console_handle_write], 104-110 [buxn_console_handle_error] *)
Definition cli_write (c : Z) (v : vm) (t : term H) : res (vm * term H) := Ok (v, put_out t [u8 c]).
Definition cli_error (c : Z) (v : vm) (t : term H) : res (vm * term H) := Ok (v, put_err t [u8 c]).

(** cli.c:21-43 [buxn_vm_dei] but for the console, which InputModel's
    [dispatch_dei] takes first. *)
Definition cli_dei (a : Z) (v : vm) (t : term H) : res (Z * vm * term H) :=
  match cli_dei_target a with
  | System => Ok (system_dei v a, v, t)
  | Datetime =>
      rbind (datetime_dei v (now (t_clock t)) a) (fun b =>
      Ok (b, v, mkTerm (t_out t) (t_err t) (S (t_clock t)) (t_f0 t) (t_l0 t) (t_f1 t) (t_l1 t) (t_fh t)))
  | FileDev i =>
      Ok (file_dei v (if i =? 0 then t_f0 t else t_f1 t) (device_id a) (device_port a), v, t)
  | _ => Ok (vm_dev v a, v, t)
  end.
(** cli.c:45-66 [buxn_vm_deo], likewise. *)
Definition cli_deo (a : Z) (v : vm) (t : term H) : res (vm * term H) :=
  match cli_deo_target a with
  | System => system_deo (term H) cli_set_metadata cli_theme_changed cli_debug a v t
  | FileDev i =>
      if i =? 0 then
        rbind (file_deo H hs (mkFs H v (t_f0 t) (t_fh t) (t_l0 t)) (device_id a) (device_port a)) (fun s =>
        Ok (fs_vm H s, mkTerm (t_out t) (t_err t) (t_clock t) (fs_file H s) (fs_log H s) (t_f1 t) (t_l1 t) (fs_host H s)))
      else
        rbind (file_deo H hs (mkFs H v (t_f1 t) (t_fh t) (t_l1 t)) (device_id a) (device_port a)) (fun s =>
        Ok (fs_vm H s, mkTerm (t_out t) (t_err t) (t_clock t) (t_f0 t) (t_l0 t) (fs_file H s) (fs_log H s) (fs_host H s)))
  | _ => Ok (v, t)
  end.
End Term.

(** ** Boot *)
(** How the process ends: with an exit code and the last state of the machine,
    with an exit code before there is one, by a fault, or not within the fuel. *)
Inductive ended (W : Type) : Type :=
| Ended (code : Z) (v : vm) (w : W) | Quit (code : Z) | Failed (f : fault) | Running.
Arguments Ended {W}. Arguments Quit {W}. Arguments Failed {W}. Arguments Running {W}.

Definition then_ {W} (o : outcome W) (k : vm -> W -> ended W) : ended W :=
  match o with Done _ v w => k v w | Crash _ f => Failed f | OutOfFuel _ => Running end.

Section Boot.
Variable R : Type.
Variable odei : Z -> vm -> R -> res (Z * vm * R).
Variable odeo : Z -> vm -> R -> res (vm * R).
Variables handle_write handle_error : Z -> vm -> R -> res (vm * R).
Variable hi_first : bool.
Variables (kw kr : Z) (fuel : nat).

(** cli.c:167-178: the loop over standard input; console.c:71-74
    [buxn_console_should_send_input] is the test of the vector. *)
Fixpoint input_loop (stdin : list Z) (v : vm) (w : console * R) : outcome (console * R) :=
  if (exit_code v <? 0) && negb (dev_load2 v 16 =? 0) then
    match stdin with
    | c :: rest =>
        match send_input R odei odeo handle_write handle_error hi_first kw kr fuel c v w with
        | Done _ v' w' => input_loop rest v' w'
        | o => o
        end
    | [] => send_input_end R odei odeo handle_write handle_error hi_first kw kr fuel v w
    end
  else Done _ v w.

(** cli.c:153-183, from the initialisation of the console (in zeroed memory,
    line 115) to the return. *)
Definition boot (argv : list (list Z)) (stdin : list Z) (v : vm) (r : R) : ended (console * R) :=
  then_ (execute (console * R) (dispatch_dei R odei 16 console_dei)
           (with_console_deo R odeo handle_write handle_error) hi_first None kw kr fuel
           BootModel.RESET_VECTOR v (console_init argv 0, r)) (fun v w =>
  if exit_code v >? 0 then Ended (exit_code v) v w else
  then_ (send_args R odei odeo handle_write handle_error hi_first kw kr fuel (length argv) v w) (fun v w =>
  if exit_code v >? 0 then Ended (exit_code v) v w else
  then_ (input_loop stdin v w) (fun v w =>
  Ended (if exit_code v <? 0 then 0 else exit_code v) v w))).

(** cli.c:189-242 [main], [cli_main], [embd_main] and 117-151 (reset and loading,
    see BootModel).  [args] are the arguments after argv[0]; [open] opens a file
    by name; [v] is the machine before the reset. *)
Definition rom_arg (open : list Z -> option (list Z)) (args : list (list Z)) : option (option (list Z)) :=
  match args with [] => None | a :: _ => Some (open a) end.
Definition rom_args (self : option (list Z)) (args : list (list Z)) : list (list Z) :=
  match self with
  | None => tl args
  | Some exe =>
      match BootModel.bembd_find (BootModel.mkRfile exe 0) with
      | Ok (n, _) => if n =? 0 then tl args else args
      | Fault _ => []
      end
  end.
Definition cli_process (self : option (list Z)) (open : list Z -> option (list Z)) (args : list (list Z))
    (stdin : list Z) (v : vm) (r : R) : ended (console * R) :=
  match reset v RESET_ALL with
  | Fault f => Failed f
  | Ok v =>
      match BootModel.cli_start self (rom_arg open args) (vm_mem v) with
      | Fault f => Failed f
      | Ok BootModel.Usage => Quit 1
      | Ok BootModel.CannotOpen => Quit 1
      | Ok (BootModel.Booted m) => boot (rom_args self args) stdin (vm_set_mem v m) r
      end
  end.
End Boot.
