(** The graphical emulator: src/gui.c without the drawing of the two textures by
    the GPU, the audio thread (AudioModel, HandoverModel) and the debugger
    (DbgModel; [platform_update_dbg] is false).

    Simplifications: [malloc] succeeds and textures have the size asked for; the
    position of a pointer event is given after the division by the draw scale,
    rounded down (NaN is not modelled); the time that has passed is given as the
    number of screen updates that are due; the state of a voice when a program
    reads it is an input, as the audio thread changes it at any time. *)
From Verif Require Import Base VmModel SystemModel InputModel FileModel FileSpec MetaModel AudioModel ScreenModel CliModel.
Open Scope list_scope.
Open Scope Z_scope.

(** ** The console *)
(** gui.c:27 *)
Definition CONSOLE_BUFFER_SIZE : Z := 256.
(** gui.c:41-44 [console_buf_t]; [b_data] is [data]. *)
Record buf : Type := mkBuf { b_pos : Z; b_data : arr }.
(** The string in a char array from its start to the first zero, as printf's %s
    reads it; [n] bounds the bytes read. *)
Fixpoint c_string (n : nat) (size : Z) (data : arr) (i : Z) : res (list Z) :=
  match n with
  | O => Fault Uninit
  | S n => rbind (aget size data i) (fun c =>
           if c =? 0 then Ok [] else rbind (c_string n size data (i + 1)) (fun l => Ok (c :: l)))
  end.
(** gui.c:328-348 [buxn_console_putc]; the second result is the text logged, if any. *)
Definition putc (b : buf) (ch : Z) : res (buf * option (list Z)) :=
  rbind (if negb (ch =? 10) then
           rbind (aset CONSOLE_BUFFER_SIZE (b_data b) (b_pos b) ch) (fun data =>
           Ok (mkBuf (b_pos b + 1) data, b_pos b + 1 >=? CONSOLE_BUFFER_SIZE - 1))
         else Ok (b, true)) (fun '(b, should_flush) =>
  if should_flush then
    rbind (aset CONSOLE_BUFFER_SIZE (b_data b) (b_pos b) 0) (fun data =>
    rbind (c_string (Z.to_nat CONSOLE_BUFFER_SIZE) CONSOLE_BUFFER_SIZE data 0) (fun text =>
    Ok (mkBuf 0 data, Some text)))
  else Ok (b, None)).

(** ** Title and icon *)
(** gui.c:127-140 [draw_chr]: the loop over [h] of one line. *)
Fixpoint chr_line (mem : arr) (addr x y v : Z) (n : nat) (dst : arr) : res arr :=
  match n with
  | O => Ok dst
  | S n =>
      let h := 8 - Z.of_nat (S n) in
      let ch1 := Z.land (Z.shiftr (mem (Z.land (addr + v) 65535)) h) 1 in
      let ch2 := Z.shiftl (Z.land (Z.shiftr (mem (Z.land (addr + v + 8) 65535)) h) 1) 1 in
      rbind (aset 576 dst ((y + v) * 24 + (x + 7 - h)) (u8 (ch1 + ch2))) (chr_line mem addr x y v n)
  end.
(** The loop over [v]. *)
Fixpoint chr_lines (mem : arr) (addr x y : Z) (n : nat) (dst : arr) : res arr :=
  match n with
  | O => Ok dst
  | S n => rbind (chr_line mem addr x y (8 - Z.of_nat (S n)) 8 dst) (chr_lines mem addr x y n)
  end.
Definition draw_chr (mem : arr) (addr x y : Z) (dst : arr) : res arr := chr_lines mem addr x y 8 dst.
(** gui.c:162-171: nine tiles, the tile [k] is at x = k mod 3, y = k / 3. *)
Fixpoint icon_tiles (mem : arr) (value : Z) (k : list Z) (dst : arr) : res arr :=
  match k with
  | [] => Ok dst
  | k :: rest =>
      let x := k mod 3 in let y := k / 3 in
      rbind (draw_chr mem (u16 (value + (x + y * 3) * 16)) (x * 8) (y * 8) dst) (icon_tiles mem value rest)
  end.
(** gui.c:176-180 *)
Definition icon_palette (i : Z) : Z :=
  if i =? 1 then 4286019328 else if i =? 2 then 4278190080 else if i =? 3 then 4294967295 else 0.
(** gui.c:161-195: the pixels of the icon; [paletted_icon] starts indeterminate. *)
Definition icon (mem : arr) (value : Z) (junk : arr) : res (list Z) :=
  rbind (icon_tiles mem value [0; 1; 2; 3; 4; 5; 6; 7; 8] junk) (fun dst =>
  Ok (map (fun j => icon_palette (dst (Z.of_nat j))) (seq 0 576))).

(** gui.c:144-147: the first newline from [ch] on, or the end of the content. *)
Fixpoint line_end (n : nat) (img : arr) (size ch stop : Z) : res Z :=
  if ch <? stop then
    match n with
    | O => Fault Uninit
    | S n => rbind (aget size img ch) (fun b => if b =? 10 then Ok ch else line_end n img size (ch + 1) stop)
    end
  else Ok ch.
(** gui.c:157-198: the extensions from [i] on. *)
Fixpoint icons (img : arr) (size : Z) (mem : arr) (m : metadata) (junk : arr) (n : nat) (i : Z) : res (list (list Z)) :=
  match n with
  | O => Ok []
  | S n => rbind (get_ext img size m i) (fun '(id, value) =>
           rbind (if id =? 131 then rbind (icon mem value junk) (fun p => Ok [p]) else Ok []) (fun l =>
           rbind (icons img size mem m junk n (i + 1)) (fun rest => Ok (l ++ rest))))
  end.
(** gui.c:142-199 [apply_metadata]: the title and the icons set.  The metadata
    point into [img], which for a ROM is the VM's memory from 0x100 on. *)
Definition apply_metadata (img : arr) (size : Z) (mem : arr) (m : metadata) (junk : arr) : res (list Z * list (list Z)) :=
  match md_content m with
  | None => Fault BadHandle
  | Some content =>
      let stop := content + md_content_len m in
      rbind (line_end (Z.to_nat (md_content_len m)) img size content stop) (fun ch =>
      rbind (aget size img ch) (fun old_char =>
      rbind (aset size img ch 0) (fun img' =>
      rbind (c_string (Z.to_nat size) size img' content) (fun title =>
      rbind (aset size img' ch old_char) (fun _ =>
      rbind (icons img size mem m junk (Z.to_nat (md_num_ext m)) 0) (fun l =>
      Ok (title, l)))))))
  end.

(** ** The state *)
(** A note handed to the audio thread: the voice and the message. *)
Record gui (H : Type) : Type := mkGui {
  g_console : console; g_mouse : mouse; g_controller : controller;
  g_screen : screen; g_bg : arr; g_fg : arr;        (* gui.c:76-77, the [cpu] side of the textures *)
  g_out : buf; g_err : buf;                         (* gui.c:71-72 *)
  g_log : list (bool * list Z);                     (* calls of blog_write of gui.c:345; true: error *)
  g_shown : list (list Z * list (list Z));          (* titles and icons set *)
  g_reads : nat; g_sent : list (Z * message);       (* reads of a voice so far; notes sent *)
  g_files : term H;                                 (* the files and the clock *)
  g_theme : list Z;                                 (* ghost: ports 8 to 13 at the last theme change *)
  g_draws : list (screen * vm * Z * screen) }.      (* ghost: port accesses of the screen *)
Arguments mkGui {H}. Arguments g_console {H}. Arguments g_mouse {H}. Arguments g_controller {H}. Arguments g_screen {H}.
Arguments g_bg {H}. Arguments g_fg {H}. Arguments g_out {H}. Arguments g_err {H}. Arguments g_log {H}. Arguments g_shown {H}.
Arguments g_reads {H}. Arguments g_sent {H}. Arguments g_files {H}. Arguments g_theme {H}. Arguments g_draws {H}.

(** The six bytes of the palette. *)
Definition theme_of (v : vm) : list Z := map (vm_dev v) [8; 9; 10; 11; 12; 13].

Section Gui.
Variable H : Type.
Variable hs : host H.
Variable now : nat -> option tm.
(** The k-th read of voice i finds it in this state. *)
Variable voices : nat -> Z -> voice.
Variable junk : arr.
Variable hi_first : bool.
Variables (kw kr : Z) (fuel : nat).
Notation G := (gui H).

Definition set_console (g : G) (c : console) : G :=
  mkGui c (g_mouse g) (g_controller g) (g_screen g) (g_bg g) (g_fg g) (g_out g) (g_err g) (g_log g) (g_shown g)
    (g_reads g) (g_sent g) (g_files g) (g_theme g) (g_draws g).
Definition set_mouse (g : G) (m : mouse) : G :=
  mkGui (g_console g) m (g_controller g) (g_screen g) (g_bg g) (g_fg g) (g_out g) (g_err g) (g_log g) (g_shown g)
    (g_reads g) (g_sent g) (g_files g) (g_theme g) (g_draws g).
Definition set_controller (g : G) (k : controller) : G :=
  mkGui (g_console g) (g_mouse g) k (g_screen g) (g_bg g) (g_fg g) (g_out g) (g_err g) (g_log g) (g_shown g)
    (g_reads g) (g_sent g) (g_files g) (g_theme g) (g_draws g).
Definition set_display (g : G) (s : screen) (bg fg : arr) : G :=
  mkGui (g_console g) (g_mouse g) (g_controller g) s bg fg (g_out g) (g_err g) (g_log g) (g_shown g)
    (g_reads g) (g_sent g) (g_files g) (g_theme g) (g_draws g).
Definition set_refreshed (g : G) (s : screen) (theme : list Z) : G :=
  mkGui (g_console g) (g_mouse g) (g_controller g) s (g_bg g) (g_fg g) (g_out g) (g_err g) (g_log g) (g_shown g)
    (g_reads g) (g_sent g) (g_files g) theme (g_draws g).
Definition set_text (g : G) (out err : buf) (log : list (bool * list Z)) : G :=
  mkGui (g_console g) (g_mouse g) (g_controller g) (g_screen g) (g_bg g) (g_fg g) out err log (g_shown g)
    (g_reads g) (g_sent g) (g_files g) (g_theme g) (g_draws g).
Definition add_shown (g : G) (x : list Z * list (list Z)) : G :=
  mkGui (g_console g) (g_mouse g) (g_controller g) (g_screen g) (g_bg g) (g_fg g) (g_out g) (g_err g) (g_log g) (g_shown g ++ [x])
    (g_reads g) (g_sent g) (g_files g) (g_theme g) (g_draws g).
Definition set_audio (g : G) (reads : nat) (sent : list (Z * message)) : G :=
  mkGui (g_console g) (g_mouse g) (g_controller g) (g_screen g) (g_bg g) (g_fg g) (g_out g) (g_err g) (g_log g) (g_shown g)
    reads sent (g_files g) (g_theme g) (g_draws g).
Definition set_files (g : G) (t : term H) : G :=
  mkGui (g_console g) (g_mouse g) (g_controller g) (g_screen g) (g_bg g) (g_fg g) (g_out g) (g_err g) (g_log g) (g_shown g)
    (g_reads g) (g_sent g) t (g_theme g) (g_draws g).
Definition add_draw (g : G) (x : screen * vm * Z * screen) : G :=
  mkGui (g_console g) (g_mouse g) (g_controller g) (g_screen g) (g_bg g) (g_fg g) (g_out g) (g_err g) (g_log g) (g_shown g)
    (g_reads g) (g_sent g) (g_files g) (g_theme g) (g_draws g ++ [x]).

(** ** Ports *)
(** gui.c:364-390 [buxn_screen_request_resize]: a screen of another size comes
    with new textures (gui.c:94-96). *)
Definition put_screen (g : G) (s : screen) : G :=
  if (s_w s =? s_w (g_screen g)) && (s_h s =? s_h (g_screen g)) then set_display g s (g_bg g) (g_fg g)
  else set_display g s (fun _ => 0) (fun _ => 0).

(** gui.c:199-238 [buxn_vm_dei]; datetime and files as in cli.c. *)
Definition gui_dei (a : Z) (v : vm) (g : G) : res (Z * vm * G) :=
  match gui_dei_target a with
  | System => Ok (system_dei v a, v, g)
  | Console => Ok (console_dei v (g_console g) a, v, g)
  | Screen =>
      rbind (screen_dei v (g_screen g) a) (fun '(b, s) =>
      Ok (b, v, add_draw (put_screen g s) (g_screen g, v, -1, s)))
  | Audio i =>
      rbind (audio_dei v (voices (g_reads g) i) (device_id a) (device_port a)) (fun '(b, v', _) =>
      Ok (b, v', set_audio g (S (g_reads g)) (g_sent g)))
  | Mouse => Ok (mouse_dei v (g_mouse g) a, v, g)
  | Controller => Ok (controller_dei v (g_controller g) a, v, g)
  | FileDev _ | Datetime =>
      rbind (cli_dei H now a v (g_files g)) (fun '(b, v', t) => Ok (b, v', set_files g t))
  | NoDevice => Ok (vm_dev v a, v, g)
  end.

(** gui.c:281-285 [buxn_system_debug] *)
Definition gui_debug (value : Z) (v : vm) (g : G) : res (vm * G) := Ok (v, g).
(** gui.c:287-296 [buxn_system_set_metadata] *)
Definition gui_set_metadata (address : Z) (v : vm) (g : G) : res (vm * G) :=
  rbind (parse_from_memory v address) (fun m =>
  match md_content m with
  | None => Ok (v, g)
  | Some _ => rbind (apply_metadata (vm_mem v) (vm_msize v) (vm_mem v) m junk) (fun x => Ok (v, add_shown g x))
  end).
(** gui.c:298-302 [buxn_system_theme_changed] *)
Definition gui_theme_changed (v : vm) (g : G) : res (vm * G) :=
  Ok (v, set_refreshed g (force_refresh (g_screen g)) (theme_of v)).
(** gui.c:350-362 [buxn_console_handle_write], [buxn_console_handle_error] *)
Definition gui_write (c : Z) (v : vm) (g : G) : res (vm * G) :=
  rbind (putc (g_out g) c) (fun '(b, l) =>
  Ok (v, set_text g b (g_err g) (g_log g ++ match l with Some l => [(false, l)] | None => [] end))).
Definition gui_error (c : Z) (v : vm) (g : G) : res (vm * G) :=
  rbind (putc (g_err g) c) (fun '(b, l) =>
  Ok (v, set_text g (g_out g) b (g_log g ++ match l with Some l => [(true, l)] | None => [] end))).

(** gui.c:240-279 [buxn_vm_deo] *)
Definition gui_deo (a : Z) (v : vm) (g : G) : res (vm * G) :=
  match gui_deo_target a with
  | System => system_deo G gui_set_metadata gui_theme_changed gui_debug a v g
  | Console => console_deo G gui_write gui_error a v g
  | Screen =>
      rbind (screen_deo v (g_screen g) a) (fun s =>
      Ok (v, add_draw (put_screen g s) (g_screen g, v, a, s)))
  | Audio i =>
      match audio_deo v (device_id a) (device_port a) with
      | Some m => Ok (v, set_audio g (g_reads g) (g_sent g ++ [(i, m)]))
      | None => Ok (v, g)
      end
  | FileDev _ => rbind (cli_deo H hs a v (g_files g)) (fun '(v', t) => Ok (v', set_files g t))
  | Mouse | Controller | Datetime | NoDevice => Ok (v, g)
  end.

(** vm.c:34-44 on these devices. *)
Definition run_vector (pc : Z) (v : vm) (g : G) : outcome G :=
  execute G gui_dei gui_deo hi_first None kw kr fuel pc v g.
Definition seq_ (o : outcome G) (k : vm -> G -> outcome G) : outcome G :=
  match o with Done _ v g => k v g | o => o end.
(** console.c:4-16, on the console of [devices] *)
Definition gui_send_data (type value : Z) (v : vm) (g : G) : outcome G :=
  run_vector (dev_load2 v 16) v (set_console g (mkConsole (c_argv (g_console g)) (u8 type) (u8 value))).
(** mouse.c:27-31, controller.c:23-27 *)
Definition gui_mouse_update (v : vm) (g : G) : outcome G :=
  let vector := dev_load2 v 144 in if negb (vector =? 0) then run_vector vector v g else Done _ v g.
Definition gui_controller_event (v : vm) (g : G) : outcome G :=
  let vector := dev_load2 v 128 in if negb (vector =? 0) then run_vector vector v g else Done _ v g.

(** console.c:32-50: the inner loop on one argument. *)
Fixpoint gui_send_chars (arg : list Z) (v : vm) (g : G) : outcome G :=
  let terminator :=
    if Z.of_nat (length (c_argv (g_console g))) =? 1 then gui_send_data 4 10 v g else gui_send_data 3 10 v g in
  match arg with
  | [] => terminator
  | ch :: rest => if negb (ch =? 0) then seq_ (gui_send_data 2 ch v g) (gui_send_chars rest) else terminator
  end.
(** console.c:27-52 [buxn_console_send_args] *)
Fixpoint send_args_on (n : nat) (v : vm) (g : G) : outcome G :=
  match c_argv (g_console g) with
  | [] => Done _ v g
  | arg :: _ =>
      match n with
      | O => OutOfFuel _
      | S n => seq_ (gui_send_chars arg v g) (fun v g =>
          let c := g_console g in send_args_on n v (set_console g (mkConsole (tl (c_argv c)) (c_type c) (c_value c))))
      end
  end.

(** ** A frame *)
(** gui.c:597-607: the console input; what [platform_poll_stdin] returns is a
    list of reads, [None] for the end. *)
Fixpoint send_all (cs : list Z) (v : vm) (g : G) : outcome G :=
  match cs with
  | [] => Done _ v g
  | c :: rest => seq_ (gui_send_data 1 c v g) (send_all rest)
  end.
Fixpoint console_input (polls : list (option (list Z))) (v : vm) (g : G) : outcome G :=
  match polls with
  | [] => Done _ v g
  | None :: _ => gui_send_data 4 0 v g
  | Some cs :: rest => seq_ (send_all cs v g) (console_input rest)
  end.
(** gui.c:611-618: the voices that have finished (AudioModel's vector) *)
Fixpoint notify_all (finished : list Z) (v : vm) (g : G) : outcome G :=
  match finished with
  | [] => Done _ v g
  | i :: rest =>
      let vector := gui_finished_vector v i in
      seq_ (if negb (vector =? 0) then run_vector vector v g else Done _ v g) (notify_all rest)
  end.
(** gui.c:626-630 with screen.c:263-267: [n] updates are due. *)
Fixpoint updates (n : nat) (v : vm) (g : G) : outcome G :=
  match n with
  | O => Done _ v g
  | S n => let vector := screen_vector v in
           seq_ (if negb (vector =? 0) then run_vector vector v g else Done _ v g) (updates n)
  end.
(** gui.c:632-667: both layers into the textures; colour 0 of the foreground is
    transparent. *)
Definition redraw (v : vm) (g : G) : res G :=
  let s := g_screen g in
  rbind (render s false (palette v) (s_w s * s_h s) (g_bg g)) (fun '(_, s, bg) =>
  rbind (render s true (upd (palette v) 0 0) (s_w s * s_h s) (g_fg g)) (fun '(_, s, fg) =>
  Ok (set_display g s bg fg))).
(** gui.c:588-667 [frame]: the first result is whether [sapp_quit] is called. *)
Definition frame (polls : list (option (list Z))) (finished : list Z) (n : nat) (v : vm) (g : G) : bool * outcome G :=
  (exit_code v >? 0,
   seq_ (console_input polls v g) (fun v g =>
   seq_ (notify_all finished v g) (fun v g =>
   seq_ (updates n v g) (fun v g =>
   if (0 <? n)%nat then match redraw v g with Ok g' => Done _ v g' | Fault f => Crash _ f end
   else Done _ v g)))).

(** ** Events *)
(** gui.c:846-900: the keys with a meaning. *)
Inductive key : Type :=
| LeftControl | RightControl | LeftAlt | RightAlt | LeftShift | RightShift | Home | Up | Down | Left | Right
| Enter | Escape | Backspace | Tab | Delete | OtherKey.
Inductive touch_kind : Type := Began | Moved (dx dy : Z) | Ended.
Inductive gui_event : Type :=
| MouseButton (button : Z) (down : bool)     (* SAPP_MOUSEBUTTON_*: 0 left, 1 right, 2 middle *)
| Scroll (x y : Z)                           (* the floats, rounded towards zero *)
| MouseMove (x y : Z)                        (* gui.c:822-823, rounded down *)
| Touch (kind : touch_kind) (id : Z)         (* one changed touch point *)
| Key (k : key) (down : bool)
| Char (code : Z) (ctrl alt shift : bool)
| OtherEvent.

(** gui.c:790-802 *)
Definition button_of (button : Z) : option Z :=
  if button =? 0 then Some 0 else if button =? 1 then Some 2 else if button =? 2 then Some 1 else None.
(** gui.c:847-871; controller.h:17-26 *)
Definition key_button (k : key) : option Z :=
  match k with
  | LeftControl | RightControl => Some 0 | LeftAlt | RightAlt => Some 1 | LeftShift | RightShift => Some 2
  | Home => Some 3 | Up => Some 4 | Down => Some 5 | Left => Some 6 | Right => Some 7 | _ => None
  end.
(** gui.c:872-886 *)
Definition key_char (k : key) : Z :=
  match k with Enter => 13 | Escape => 27 | Backspace => 8 | Tab => 9 | Delete => 127 | _ => 0 end.

(** gui.c:706-715 [clamp] of a float, then the conversion to an integer *)
Definition clamp_pos (val max : Z) : Z := if val <? 0 then 0 else if val >? max then max else val.
(** A float converted to int16_t. *)
Definition to_int16 (x : Z) : res Z := if (-32768 <=? x) && (x <=? 32767) then Ok x else Fault (SignedOverflow x).
(** An int converted to int16_t. *)
Definition s16 (x : Z) : Z := let y := x mod 65536 in if y <? 32768 then y else y - 65536.
Definition move_mouse (g : G) (x y : Z) : G :=
  let m := g_mouse g in
  set_mouse g (mkMouse (u16 (clamp_pos x (s_w (g_screen g)))) (u16 (clamp_pos y (s_h (g_screen g)))) (m_state m) (m_sx m) (m_sy m)).
Definition press (g : G) (button : Z) (down : bool) : res G :=
  rbind (mouse_set_button (g_mouse g) button down) (fun m => Ok (set_mouse g m)).
Definition or_crash {A} (r : res A) (k : A -> outcome G) : outcome G :=
  match r with Ok x => k x | Fault f => Crash _ f end.

(** gui.c:719-727: the static variables of [process_touch] without the floats. *)
Record touches : Type := mkTouches { first_touch : option Z; second_touch : option Z }.
Definition is_touch (o : option Z) (id : Z) : bool := match o with Some t => id =? t | None => false end.
(** gui.c:717-778 [process_touch]; a move carries the movement of the pointer,
    gui.c:748-749. *)
Definition process_touch (kind : touch_kind) (id : Z) (t : touches) (v : vm) (g : G) : touches * outcome G :=
  match kind with
  | Began =>
      (match first_touch t, second_touch t with
       | None, _ => mkTouches (Some id) (second_touch t)
       | Some _, None => mkTouches (first_touch t) (Some id)
       | _, _ => t
       end, Done _ v g)
  | Moved dx dy =>
      (t,
       if is_touch (first_touch t) id then
         or_crash (match second_touch t with Some _ => press g 0 true | None => Ok g end) (fun g =>
         gui_mouse_update v (move_mouse g (m_x (g_mouse g) + dx) (m_y (g_mouse g) + dy)))
       else Done _ v g)
  | Ended =>
      if is_touch (first_touch t) id then (mkTouches None (second_touch t), Done _ v g)
      else if is_touch (second_touch t) id then
        (mkTouches (first_touch t) None,
         or_crash (mouse_check_button (g_mouse g) 0) (fun pressed =>
         seq_ (if negb pressed then or_crash (press g 0 true) (gui_mouse_update v) else Done _ v g) (fun v g =>
         or_crash (press g 0 false) (gui_mouse_update v))))
      else (t, Done _ v g)
  end.

(** controller.h:53-74 on the controller of [devices] *)
Definition gui_send_button (btn : Z) (down : bool) (v : vm) (g : G) : outcome G :=
  or_crash (controller_set_button (g_controller g) 0 btn down) (fun k => gui_controller_event v (set_controller g k)).
Definition gui_send_char (ch : Z) (v : vm) (g : G) : outcome G :=
  seq_ (gui_controller_event v (set_controller g (mkController (k_buttons (g_controller g)) (u8 ch)))) (fun v g =>
  Done _ v (set_controller g (mkController (k_buttons (g_controller g)) 0))).

(** gui.c:780-935 [event] without the submission of notes. *)
Definition gui_event_mouse (e : gui_event) (g : G) : res (bool * G) :=
  match e with
  | MouseButton button down =>
      match button_of button with
      | Some b => rbind (press g b down) (fun g => Ok (true, g))
      | None => Ok (false, g)
      end
  | Scroll x y =>
      rbind (to_int16 x) (fun x => rbind (to_int16 y) (fun y =>
      let m := g_mouse g in
      Ok (true, set_mouse g (mkMouse (m_x m) (m_y m) (m_state m) x (s16 (- y))))))
  | MouseMove x y => Ok (true, move_mouse g x y)
  | _ => Ok (false, g)
  end.
Definition gui_event_other (e : gui_event) (t : touches) (v : vm) (g : G) : touches * outcome G :=
  match e with
  | Touch kind id => process_touch kind id t v g
  | Key k down =>
      (t, seq_ (match key_button k with Some b => gui_send_button b down v g | None => Done _ v g end) (fun v g =>
          if (key_char k >? 0) && down then gui_send_char (key_char k) v g else Done _ v g))
  | Char code ctrl alt shift =>
      (t, if code <=? 127 then
            or_crash (controller_set_button (g_controller g) 0 0 ctrl) (fun k =>
            or_crash (controller_set_button k 0 1 alt) (fun k =>
            or_crash (controller_set_button k 0 2 shift) (fun k =>
            gui_send_char code v (set_controller g k))))
          else Done _ v g)
  | _ => (t, Done _ v g)
  end.
Definition gui_handle (e : gui_event) (t : touches) (v : vm) (g : G) : touches * outcome G :=
  match gui_event_mouse e g with
  | Fault f => (t, Crash _ f)
  | Ok (update_mouse, g) =>
      let '(t, o) := gui_event_other e t v g in
      (t, seq_ o (fun v g =>
          if update_mouse then
            seq_ (gui_mouse_update v g) (fun v g =>
            let m := g_mouse g in Done _ v (set_mouse g (mkMouse (m_x m) (m_y m) (m_state m) 0 0)))
          else Done _ v g))
  end.

(** ** The start *)
(** gui.c:399-408: reading the ROM.  [chunks] are the results of the calls of
    [stream.read]: the bytes, or [None] for an error; after the last one the
    stream gives 0.  The result is the memory, [mem_left] and the last
    [bytes_read], which is [last] so far. *)
Fixpoint read_rom (chunks : list (option (list Z))) (m : arr) (msize read_pos mem_left last : Z) : res (arr * Z * Z) :=
  if mem_left >? 0 then
    match chunks with
    | [] => Ok (m, mem_left, 0)
    | None :: _ => Ok (m, mem_left, -1)
    | Some bytes :: rest =>
        let n := Z.of_nat (length bytes) in
        if n >? 0 then rbind (put_bytes m msize read_pos bytes) (fun m => read_rom rest m msize (read_pos + n) (mem_left - n) n)
        else Ok (m, mem_left, 0)
    end
  else Ok (m, mem_left, last).

(** What [load_boot_rom] does: refuse the ROM (gui.c:410-418), or run it. *)
Inductive loaded : Type := ReadError | TooLarge | Started (o : outcome G).
(** gui.c:392-435 [load_boot_rom] with an open stream; [argv] are the arguments. *)
Definition load_boot_rom (chunks : list (option (list Z))) (argv : list (list Z)) (v : vm) (g : G) : res loaded :=
  rbind (read_rom chunks (vm_mem v) (vm_msize v) 256 (vm_msize v - 256) 0) (fun '(m, mem_left, bytes_read) =>
  if bytes_read <? 0 then Ok ReadError
  else if (mem_left =? 0) && (bytes_read >? 0) then Ok TooLarge
  else
    let v := vm_set_mem v m in
    let rom i := m (i + 256) in
    rbind (parse_from_rom rom (vm_msize v - 256)) (fun md =>
    rbind (if negb (md_content_len md =? 0) then
             rbind (apply_metadata rom (vm_msize v - 256) m md junk) (fun x => Ok (add_shown g x))
           else Ok g) (fun g =>
    Ok (Started (seq_ (run_vector 256 v (set_console g (console_init argv (c_value (g_console g))))) (fun v g =>
      send_args_on (length argv) v g)))))).
End Gui.
