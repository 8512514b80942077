(** Model of src/devices/screen.c and include/buxn/devices/screen.h.

    The two layers are one block of [2 * length] bytes ([fg = bg + length],
    screen.c:52); an access outside the block is a fault.  [int] results that do
    not fit are faults where they can occur at all; sums of a coordinate and a
    small constant are checked once, when the coordinate is stored.
    [buxn_screen_request_resize] is the implementation of src/gui.c:367-388:
    reallocate and call [buxn_screen_resize]. *)
From Verif Require Import Base VmModel.

(** screen.c:17-18 *)
Definition MAR (x : Z) : Z := x + 8.
Definition MAR2 (x : Z) : Z := x + 16.

(** screen.c:22-27 *)
Definition BLENDING (color blend : Z) : Z :=
  nth (Z.to_nat blend)
    (nth (Z.to_nat color)
      [[0; 0; 0; 0; 1; 0; 1; 1; 2; 2; 0; 2; 3; 3; 3; 0];
       [0; 1; 2; 3; 0; 1; 2; 3; 0; 1; 2; 3; 0; 1; 2; 3];
       [1; 2; 3; 1; 1; 2; 3; 1; 1; 2; 3; 1; 1; 2; 3; 1];
       [2; 3; 1; 2; 2; 3; 1; 2; 2; 3; 1; 2; 2; 3; 1; 2]] []) 0.

(** screen.h:23-25 *)
Record rect : Type := mkRect { x1 : Z; y1 : Z; x2 : Z; y2 : Z }.

(** screen.h:27-37 [buxn_screen_t] *)
Record screen : Type := mkScreen {
  rX : Z; rY : Z; rA : Z; rMX : Z; rMY : Z; rMA : Z; rML : Z; rDX : Z; rDY : Z;
  s_w : Z; s_h : Z; s_fgd : rect; s_bgd : rect; s_buf : arr }.

Definition s_length (s : screen) : Z := MAR2 (s_w s) * MAR2 (s_h s).
(** Size of the block of both layers, and where a layer starts in it. *)
Definition s_size (s : screen) : Z := 2 * s_length s.
Definition s_base (s : screen) (fg : bool) : Z := if fg then s_length s else 0.
Definition s_dirty (s : screen) (fg : bool) : rect := if fg then s_fgd s else s_bgd s.

Definition set_layer (s : screen) (buf : arr) (fg : bool) (d : rect) : screen :=
  mkScreen (rX s) (rY s) (rA s) (rMX s) (rMY s) (rMA s) (rML s) (rDX s) (rDY s) (s_w s) (s_h s)
    (if fg then d else s_fgd s) (if fg then s_bgd s else d) buf.
Definition set_xya (s : screen) (x y a : Z) : screen :=
  mkScreen x y a (rMX s) (rMY s) (rMA s) (rML s) (rDX s) (rDY s) (s_w s) (s_h s) (s_fgd s) (s_bgd s) (s_buf s).
Definition set_rect (s : screen) (fg : bool) (d : rect) : screen := set_layer s (s_buf s) fg d.

(** screen.c:29-38 [buxn_screen_dirty] *)
Definition dirty (r : rect) (a1 b1 a2 b2 : Z) : rect :=
  mkRect (if a1 <? x1 r then a1 else x1 r) (if b1 <? y1 r then b1 else y1 r)
         (if a2 >? x2 r then a2 else x2 r) (if b2 >? y2 r then b2 else y2 r).

(** screen.c:49-60 [buxn_screen_resize], after the reallocation of gui.c:381 *)
Definition resize (s : screen) (w h : Z) : res screen :=
  rbind (int32 (MAR2 w * MAR2 h)) (fun _ =>
  Ok (mkScreen (rX s) (rY s) (rA s) (rMX s) (rMY s) (rMA s) (rML s) (rDX s) (rDY s) w h
        (dirty (s_fgd s) 0 0 w h) (dirty (s_bgd s) 0 0 w h) (fun _ => 0))).

(** screen.c:101-113 [buxn_screen_maybe_resize] *)
Definition maybe_resize (v : vm) (s : screen) : res screen :=
  let pw := dev_load2 v 34 in let ph := dev_load2 v 36 in
  if negb (pw =? 0) && negb (ph =? 0) && (negb (pw =? s_w s) || negb (ph =? s_h s))
  then resize s pw ph else Ok s.

(** screen.c:19 *)
Definition clamp (v a b : Z) : Z := if v <? a then a else if v >=? b then b else v.

(** screen.c:88-92: one row of [buxn_screen_render], [n] pixels left. *)
Fixpoint render_row (s : screen) (palette : arr) (tsize : Z) (n : nat) (i oo : Z) (target : arr) : res arr :=
  match n with
  | O => Ok target
  | S n =>
      rbind (aget (s_size s) (s_buf s) i) (fun b =>
      rbind (aget 4 palette b) (fun c =>
      rbind (aset tsize target oo c) (fun target =>
      render_row s palette tsize n (i + 1) (oo + 1) target)))
  end.

(** screen.c:87-93: rows from [y], [n] left. *)
Fixpoint render_rows (s : screen) (fg : bool) (palette : arr) (tsize : Z) (n : nat) (rx1 rx2 y : Z) (target : arr) : res arr :=
  match n with
  | O => Ok target
  | S n =>
      rbind (render_row s palette tsize (Z.to_nat (rx2 - rx1)) (s_base s fg + (MAR rx1 + MAR y * MAR2 (s_w s))) (y * s_w s + rx1) target) (fun target =>
      render_rows s fg palette tsize n rx1 rx2 (y + 1) target)
  end.

(** screen.c:67-99 [buxn_screen_render]; [tsize] is the size of the target. *)
Definition render (s : screen) (fg : bool) (palette : arr) (tsize : Z) (target : arr) : res (bool * screen * arr) :=
  let r := s_dirty s fg in
  let r := mkRect (clamp (x1 r) 0 (s_w s)) (clamp (y1 r) 0 (s_h s)) (clamp (x2 r) 0 (s_w s)) (clamp (y2 r) 0 (s_h s)) in
  if negb ((x2 r >? x1 r) && (y2 r >? y1 r)) then Ok (false, set_rect s fg r, target)
  else
    rbind (render_rows s fg palette tsize (Z.to_nat (y2 r - y1 r)) (x1 r) (x2 r) (y1 r) target) (fun target =>
    Ok (true, set_rect s fg (mkRect (s_w s + 1) (s_h s + 1) 0 0), target)).

(** screen.c:115-131 [buxn_screen_dei] *)
Definition screen_dei (v : vm) (s : screen) (address : Z) : res (Z * screen) :=
  rbind (maybe_resize v s) (fun s =>
  Ok (if address =? 34 then u8 (Z.shiftr (s_w s) 8) else if address =? 35 then u8 (s_w s)
      else if address =? 36 then u8 (Z.shiftr (s_h s) 8) else if address =? 37 then u8 (s_h s)
      else if address =? 40 then u8 (Z.shiftr (rX s) 8) else if address =? 41 then u8 (rX s)
      else if address =? 42 then u8 (Z.shiftr (rY s) 8) else if address =? 43 then u8 (rY s)
      else if address =? 44 then u8 (Z.shiftr (rA s) 8) else if address =? 45 then u8 (rA s)
      else vm_dev v address, s)).

(** screen.c:20 *)
Definition twos (v : Z) : Z := if Z.land v 32768 =? 0 then v else v - 65536.

(** screen.c:180-182: one row of a fill, [n] cells left. *)
Fixpoint fill_row (size : Z) (n : nat) (i color : Z) (buf : arr) : res arr :=
  match n with
  | O => Ok buf
  | S n => rbind (aset size buf i color) (fun buf => fill_row size n (i + 1) color buf)
  end.

(** screen.c:179-183: [n] rows left, [ay] as in the source. *)
Fixpoint fill_rows (size : Z) (n : nat) (base ay len fx1 hor color : Z) (buf : arr) : res arr :=
  match n with
  | O => Ok buf
  | S n => rbind (fill_row size (Z.to_nat hor) (base + (ay + fx1)) color buf) (fun buf =>
           fill_rows size n base (ay + len) len fx1 hor color buf)
  end.

(** screen.c:160-184: fill mode. *)
Definition fill (s : screen) (ctrl : Z) : res screen :=
  let fg := negb (Z.land ctrl 64 =? 0) in
  let color := Z.land ctrl 3 in
  let len := MAR2 (s_w s) in
  let '(fx1, fx2) := if negb (Z.land ctrl 16 =? 0) then (MAR 0, MAR (rX s)) else (MAR (rX s), MAR (s_w s)) in
  let '(fy1, fy2) := if negb (Z.land ctrl 32 =? 0) then (MAR 0, MAR (rY s)) else (MAR (rY s), MAR (s_h s)) in
  let hor := fx2 - fx1 in let ver := fy2 - fy1 in
  rbind (int32 (fy1 * len)) (fun ay =>
  rbind (int32 (ver * len)) (fun vl =>
  rbind (int32 (ay + vl)) (fun _ =>
  rbind (fill_rows (s_size s) (Z.to_nat ver) (s_base s fg) ay len fx1 hor color (s_buf s)) (fun buf =>
  Ok (set_layer s buf fg (dirty (s_dirty s fg) (fx1 - 8) (fy1 - 8) (fx2 - 8) (fy2 - 8))))))).

(** screen.c:160-164, 186-192: pixel mode. *)
Definition pixel (s : screen) (ctrl : Z) : res screen :=
  let fg := negb (Z.land ctrl 64 =? 0) in
  let color := Z.land ctrl 3 in
  let len := MAR2 (s_w s) in
  rbind (if (rX s >=? 0) && (rY s >=? 0) && (rX s <? len) && (rY s <? s_h s)
         then aset (s_size s) (s_buf s) (s_base s fg + (MAR (rX s) + MAR (rY s) * len)) color
         else Ok (s_buf s)) (fun buf =>
  rbind (int32 (rX s + 1)) (fun xn =>
  rbind (int32 (rY s + 1)) (fun yn =>
  Ok (set_xya (set_layer s buf fg (dirty (s_dirty s fg) (rX s) (rY s) xn yn))
        (if rMX s =? 0 then rX s else xn) (if rMY s =? 0 then rY s else yn) (rA s))))).

(** screen.c:217-222, 236-241: one row of a sprite: [n] pixels left at [ax], bit [qx]
    of the planes [ch1] and [ch2] ([ch2] is 0 for one bit per pixel). *)
Fixpoint sprite_row (size : Z) (n : nat) (ax qx fx ch1 ch2 blend : Z) (buf : arr) : res arr :=
  match n with
  | O => Ok buf
  | S n =>
      let color := Z.lor (Z.land (Z.shiftr ch1 qx) 1) (Z.land (Z.shiftr ch2 qx) 2) in
      rbind (if negb (blend mod 5 =? 0) || negb (color =? 0)
             then aset size buf ax (BLENDING color blend) else Ok buf) (fun buf =>
      sprite_row size n (ax + 1) (qx - fx) fx ch1 ch2 blend buf)
  end.

(** screen.c:215-223, 234-242: [n] rows left, [ay], [qy] as in the source. *)
Fixpoint sprite_rows (mem : arr) (msize size : Z) (twobpp : bool) (n : nat) (rA base ay wmar2 qy xmar xmar2 fx fy qfx blend : Z)
    (buf : arr) : res arr :=
  match n with
  | O => Ok buf
  | S n =>
      rbind (aget msize mem (rA + qy)) (fun ch1 =>
      rbind (if twobpp then rmap (fun b => Z.shiftl b 1) (aget msize mem (rA + (qy + 8))) else Ok 0) (fun ch2 =>
      rbind (sprite_row size (Z.to_nat (xmar2 - xmar)) (base + (xmar + ay)) qfx fx ch1 ch2 blend buf) (fun buf =>
      sprite_rows mem msize size twobpp n rA base (ay + wmar2) wmar2 (qy + fy) xmar xmar2 fx fy qfx blend buf)))
  end.

(** screen.c:210-224, 229-243: one sprite at [x], [y] from address [rA]. *)
Definition sprite (mem : arr) (msize : Z) (s : screen) (fg twobpp : bool) (x y rA fx fy blend : Z) (buf : arr) : res arr :=
  let xmar := u16 (MAR x) in let ymar := u16 (MAR y) in
  let xmar2 := u16 (MAR2 x) in let ymar2 := u16 (MAR2 y) in
  let wmar2 := MAR2 (s_w s) in
  if (xmar <? MAR (s_w s)) && (ymar2 <? MAR2 (s_h s)) then
    rbind (int32 (ymar2 * wmar2)) (fun by_ =>
    rbind (int32 (ymar * wmar2)) (fun ay =>
    sprite_rows mem msize (s_size s) twobpp (Z.to_nat (ymar2 - ymar)) rA (s_base s fg) ay wmar2
      (if fy <? 0 then 7 else 0) xmar xmar2 fx fy (if fx >? 0 then 7 else 0) blend buf))
  else Ok buf.

(** screen.c:209, 228: the loop over the sprites of one draw, [n] left.  Result:
    final [x], [y], [rA] and the layers. *)
Fixpoint sprites (mem : arr) (msize : Z) (s : screen) (fg twobpp : bool) (n : nat) (x y rA dyx dxy incr fx fy blend : Z) (buf : arr) :
    res (Z * Z * Z * arr) :=
  match n with
  | O => Ok (x, y, rA, buf)
  | S n =>
      rbind (sprite mem msize s fg twobpp x y rA fx fy blend buf) (fun buf =>
      rbind (int32 (x + dyx)) (fun x => rbind (int32 (y + dxy)) (fun y => rbind (int32 (rA + incr)) (fun rA =>
      sprites mem msize s fg twobpp n x y rA dyx dxy incr fx fy blend buf))))
  end.

(** screen.c:197-258: sprite mode. *)
Definition draw_sprites (v : vm) (s : screen) (ctrl : Z) : res screen :=
  let blend := Z.land ctrl 15 in
  let fx := if negb (Z.land ctrl 16 =? 0) then -1 else 1 in
  let fy := if negb (Z.land ctrl 32 =? 0) then -1 else 1 in
  let fg := negb (Z.land ctrl 64 =? 0) in
  let twobpp := negb (Z.land ctrl 128 =? 0) in
  let dxy := fy * rDX s in let dyx := fx * rDY s in
  let incr := if twobpp then Z.shiftl (rMA s) 2 else Z.shiftl (rMA s) 1 in
  rbind (sprites (vm_mem v) (vm_msize v) s fg twobpp (Z.to_nat (rML s + 1)) (rX s) (rY s) (rA s) dyx dxy incr fx fy blend (s_buf s))
    (fun '(x, y, a, buf) =>
  let '(a1, a2) := if fx <? 0 then (x, rX s) else (rX s, x) in
  let '(b1, b2) := if fy <? 0 then (y, rY s) else (rY s, y) in
  rbind (int32 (rX s + rDX s * fx)) (fun xn =>
  rbind (int32 (rY s + rDY s * fy)) (fun yn =>
  Ok (set_xya (set_layer s buf fg (dirty (s_dirty s fg) (a1 - 8) (b1 - 8) (a2 + 8) (b2 + 8)))
        (if rMX s =? 0 then rX s else xn) (if rMY s =? 0 then rY s else yn) a)))).

(** screen.c:133-261 [buxn_screen_deo] *)
Definition screen_deo (v : vm) (s : screen) (address : Z) : res screen :=
  let dev := vm_dev v in
  if address =? 38 then
    let mx := Z.land (dev 38) 1 in let my := Z.land (dev 38) 2 in
    Ok (mkScreen (rX s) (rY s) (rA s) mx my (Z.land (dev 38) 4) (Z.shiftr (dev 38) 4) (Z.shiftl mx 3) (Z.shiftl my 2)
          (s_w s) (s_h s) (s_fgd s) (s_bgd s) (s_buf s))
  else if (address =? 40) || (address =? 41) then
    Ok (set_xya s (twos (Z.lor (Z.shiftl (dev 40) 8) (dev 41))) (rY s) (rA s))
  else if (address =? 42) || (address =? 43) then
    Ok (set_xya s (rX s) (twos (Z.lor (Z.shiftl (dev 42) 8) (dev 43))) (rA s))
  else if (address =? 44) || (address =? 45) then
    Ok (set_xya s (rX s) (rY s) (Z.lor (Z.shiftl (dev 44) 8) (dev 45)))
  else if address =? 46 then
    rbind (maybe_resize v s) (fun s =>
    let ctrl := dev 46 in
    if negb (Z.land ctrl 128 =? 0) then fill s ctrl else pixel s ctrl)
  else if address =? 47 then
    rbind (maybe_resize v s) (fun s => draw_sprites v s (dev 47))
  else Ok s.

(** screen.c:269-273 [buxn_screen_force_refresh] *)
Definition force_refresh (s : screen) : screen :=
  set_rect (set_rect s false (dirty (s_bgd s) 0 0 (s_w s) (s_h s))) true (dirty (s_fgd s) 0 0 (s_w s) (s_h s)).

(** gui.c:538-539: the screen after start-up. *)
Definition initial_screen (w h : Z) : res screen :=
  resize (mkScreen 0 0 0 0 0 0 0 0 0 0 0 (mkRect 0 0 0 0) (mkRect 0 0 0 0) (fun _ => 0)) w h.

(** screen.c:263-267 [buxn_screen_update]: the vector evaluated once per frame. *)
Definition screen_vector (v : vm) : Z := dev_load2 v 32.
