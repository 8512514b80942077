(** Models of the console, controller and mouse devices:
    src/devices/console.c, src/devices/controller.c, src/devices/mouse.c and
    the inline functions of include/buxn/devices/{controller,mouse}.h.

    The devices live beside the rest [R] of the host state.  The other devices
    ([odei], [odeo]) and the host's output functions do not see them
    (simplification; in cli.c and gui.c they do not touch them). *)
From Verif Require Import Base VmModel.

(** console.h:12-17 [buxn_console_t].  [c_argv] are the arguments left, argc is
    its length; an argument is the list of its chars (the terminating zero is
    implicit). *)
Record console : Type := mkConsole { c_argv : list (list Z); c_type : Z; c_value : Z }.

(** console.c:18-25 [buxn_console_init]; [value] keeps its old content [old]. *)
Definition console_init (argv : list (list Z)) (old : Z) : console :=
  mkConsole argv (b2z (0 <? Z.of_nat (length argv))) old.

(** console.c:54-61 [buxn_console_dei] *)
Definition console_dei (v : vm) (c : console) (address : Z) : Z :=
  if address =? 18 then c_value c else if address =? 23 then c_type c else vm_dev v address.

(** controller.h:12-15 [buxn_controller_t] *)
Record controller : Type := mkController { k_buttons : arr; k_ch : Z }.

(** controller.c:4-14 [buxn_controller_dei] *)
Definition controller_dei (v : vm) (k : controller) (address : Z) : Z :=
  if address =? 130 then k_buttons k 0
  else if address =? 131 then k_ch k
  else if address =? 133 then k_buttons k 1
  else if address =? 134 then k_buttons k 2
  else if address =? 135 then k_buttons k 3
  else vm_dev v address.

(** controller.h:38-51 [buxn_controller_set_button] *)
Definition controller_set_button (k : controller) (i btn : Z) (down : bool) : res controller :=
  let mask := u8 (Z.shiftl 1 btn) in
  rbind (aget 4 (k_buttons k) i) (fun b =>
  rbind (aset 4 (k_buttons k) i (u8 (if down then Z.lor b mask else Z.land b (Z.lnot mask)))) (fun bs =>
  Ok (mkController bs (k_ch k)))).

(** mouse.h:9-15 [buxn_mouse_t] *)
Record mouse : Type := mkMouse { m_x : Z; m_y : Z; m_state : Z; m_sx : Z; m_sy : Z }.

(** mouse.c:4-18 [buxn_mouse_dei] *)
Definition mouse_dei (v : vm) (m : mouse) (address : Z) : Z :=
  if address =? 146 then u8 (Z.shiftr (m_x m) 8)
  else if address =? 147 then u8 (m_x m)
  else if address =? 148 then u8 (Z.shiftr (m_y m) 8)
  else if address =? 149 then u8 (m_y m)
  else if address =? 150 then u8 (m_state m)
  else if address =? 154 then u8 (Z.shiftr (m_sx m) 8)
  else if address =? 155 then u8 (m_sx m)
  else if address =? 156 then u8 (Z.shiftr (m_sy m) 8)
  else if address =? 157 then u8 (m_sy m)
  else vm_dev v address.

(** mouse.h:27-35 [buxn_mouse_set_button]; a button number of 31 or more would
    overflow the shift of line 29. *)
Definition mouse_set_button (m : mouse) (button : Z) (down : bool) : res mouse :=
  rbind (int32 (Z.shiftl 1 button)) (fun bit =>
  let mask := u8 bit in
  Ok (mkMouse (m_x m) (m_y m)
    (u8 (if down then Z.lor (m_state m) mask else Z.land (m_state m) (Z.lnot mask))) (m_sx m) (m_sy m))).
(** mouse.h:37-41 [buxn_mouse_check_button] *)
Definition mouse_check_button (m : mouse) (button : Z) : res bool :=
  rbind (int32 (Z.shiftl 1 button)) (fun bit => Ok (Z.land (m_state m) (u8 bit) >? 0)).

Section Host.
Variable R : Type.
Variable odei : Z -> vm -> R -> res (Z * vm * R).
Variable odeo : Z -> vm -> R -> res (vm * R).
(** console.h:48-52 [buxn_console_handle_write], [buxn_console_handle_error] *)
Variables handle_write handle_error : Z -> vm -> R -> res (vm * R).
Variable hi_first : bool.
(** The indeterminate [kwsp], [krsp] and the fuel of each vector. *)
Variables (kw kr : Z) (fuel : nat).

(** Keep a device state beside the result of another device's callback. *)
Definition beside_in {D} (d : D) (r : res (Z * vm * R)) : res (Z * vm * (D * R)) :=
  match r with Ok (b, v, w) => Ok (b, v, (d, w)) | Fault f => Fault f end.
Definition beside_out {D} (d : D) (r : res (vm * R)) : res (vm * (D * R)) :=
  match r with Ok (v, w) => Ok (v, (d, w)) | Fault f => Fault f end.

(** cli.c:20-43 / gui.c:205-236: dispatch on the device id (a state-less input port). *)
Definition dispatch_dei {D} (id : Z) (dev_dei : vm -> D -> Z -> Z) (a : Z) (v : vm) (w : D * R) :
  res (Z * vm * (D * R)) :=
  if device_id a =? id then Ok (dev_dei v (fst w) a, v, w)
  else beside_in (fst w) (odei a v (snd w)).

(** console.c:63-69 [buxn_console_deo] *)
Definition console_deo (a : Z) (v : vm) (r : R) : res (vm * R) :=
  if a =? 24 then handle_write (vm_dev v a) v r
  else if a =? 25 then handle_error (vm_dev v a) v r
  else Ok (v, r).
(** cli.c:45-66: dispatch *)
Definition with_console_deo (a : Z) (v : vm) (w : console * R) : res (vm * (console * R)) :=
  if device_id a =? 16 then beside_out (fst w) (console_deo a v (snd w))
  else beside_out (fst w) (odeo a v (snd w)).
(** controller.c:16-21, mouse.c:20-25: the deo functions do nothing. *)
Definition with_inert_deo {D} (id : Z) (a : Z) (v : vm) (w : D * R) : res (vm * (D * R)) :=
  if device_id a =? id then Ok (v, w) else beside_out (fst w) (odeo a v (snd w)).

(** console.c:4-16 [buxn_console_send_data] *)
Definition send_data (type value : Z) (v : vm) (w : console * R) : outcome (console * R) :=
  execute (console * R) (dispatch_dei 16 console_dei) with_console_deo hi_first None kw kr fuel
    (dev_load2 v 16) v (mkConsole (c_argv (fst w)) (u8 type) (u8 value), snd w).

(** console.c:32-50: the inner loop on one argument. *)
Fixpoint send_chars (arg : list Z) (v : vm) (w : console * R) : outcome (console * R) :=
  let terminator :=
    if Z.of_nat (length (c_argv (fst w))) =? 1 then send_data 4 10 v w else send_data 3 10 v w in
  match arg with
  | [] => terminator
  | ch :: rest =>
      if negb (ch =? 0) then
        match send_data 2 ch v w with
        | Done _ v' w' => send_chars rest v' w'
        | o => o
        end
      else terminator
  end.

(** console.c:27-52 [buxn_console_send_args]; [n] bounds the outer loop. *)
Fixpoint send_args (n : nat) (v : vm) (w : console * R) : outcome (console * R) :=
  match c_argv (fst w) with
  | [] => Done _ v w
  | arg :: _ =>
      match n with
      | O => OutOfFuel _
      | S n =>
          match send_chars arg v w with
          | Done _ v' w' =>
              send_args n v' (mkConsole (tl (c_argv (fst w'))) (c_type (fst w')) (c_value (fst w')), snd w')
          | o => o
          end
      end
  end.

(** console.c:76-79 [buxn_console_send_input], 81-84 [buxn_console_send_input_end] *)
Definition send_input (c : Z) := send_data 1 c.
Definition send_input_end := send_data 4 0.

(** controller.c:23-27 [buxn_controller_send_event]; mouse.c:27-31 is the same
    with the mouse vector. *)
Definition send_event {D} (id : Z) (dev_dei : vm -> D -> Z -> Z) (v : vm) (w : D * R) : outcome (D * R) :=
  let vector := dev_load2 v id in
  if negb (vector =? 0)
  then execute (D * R) (dispatch_dei id dev_dei) (with_inert_deo id) hi_first None kw kr fuel vector v w
  else Done _ v w.

(** controller.h:53-63 [buxn_controller_send_button] *)
Definition send_button (i btn : Z) (down : bool) (v : vm) (w : controller * R) : outcome (controller * R) :=
  match controller_set_button (fst w) i btn down with
  | Fault f => Crash _ f
  | Ok k => send_event 128 controller_dei v (k, snd w)
  end.
(** controller.h:65-74 [buxn_controller_send_char] *)
Definition send_char (ch : Z) (v : vm) (w : controller * R) : outcome (controller * R) :=
  match send_event 128 controller_dei v (mkController (k_buttons (fst w)) (u8 ch), snd w) with
  | Done _ v' w' => Done _ v' (mkController (k_buttons (fst w')) 0, snd w')
  | o => o
  end.
(** mouse: [buxn_mouse_set_button] followed by [buxn_mouse_update], as at gui.c:766-767. *)
Definition send_mouse_button (btn : Z) (down : bool) (v : vm) (w : mouse * R) : outcome (mouse * R) :=
  match mouse_set_button (fst w) btn down with
  | Fault f => Crash _ f
  | Ok m => send_event 144 mouse_dei v (m, snd w)
  end.
End Host.
