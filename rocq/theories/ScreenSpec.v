(** What the screen device promises: images are functions of the pixel. *)
From Verif Require Import Base VmModel ScreenModel.

Definition image : Type := Z -> Z -> Z.

(** The picture of a layer: a row of [w + 16] cells per line, eight cells of margin
    on every side. *)
Definition shown (s : screen) (fg : bool) : image :=
  fun x y => s_buf s ((if fg then (s_w s + 16) * (s_h s + 16) else 0) + ((x + 8) + (y + 8) * (s_w s + 16))).
Definition visible (s : screen) (x y : Z) : Prop := 0 <= x < s_w s /\ 0 <= y < s_h s.

(** Supported sizes: the 16 bit sprite arithmetic and the [int] products are exact. *)
Definition size_ok (w h : Z) : Prop := 0 <= w <= 32752 /\ 0 <= h <= 32752.

(** ** Drawing *)
Definition dot (x y color : Z) (img : image) : image :=
  fun px py => if (px =? x) && (py =? y) then color else img px py.

(** Fill: the quadrant left or right of [x], above or below [y]. *)
Definition quadrant (left up : bool) (x y color : Z) (img : image) : image :=
  fun px py => if (if left then px <? x else x <=? px) && (if up then py <? y else y <=? py) then color else img px py.

(** The colour a sprite value [c] has in blend mode [blend]: value 0 gets the upper
    two bits of the mode, value 1 the lower two, values 2 and 3 rotate from there. *)
Definition blend_colour (c blend : Z) : Z :=
  if c =? 0 then blend / 4 else if c =? 1 then blend mod 4 else 1 + (blend mod 4 + c - 2) mod 3.
Definition transparent (c blend : Z) : bool := (c =? 0) && (blend mod 5 =? 0).

(** Value of the sprite at address [a], column [col], line [line]. *)
Definition sprite_value (mem : arr) (a : Z) (two flipx flipy : bool) (col line : Z) : Z :=
  let r := if flipy then 7 - line else line in
  let b := if flipx then col else 7 - col in
  b2z (Z.testbit (mem (a + r)) b) + (if two then 2 * b2z (Z.testbit (mem (a + r + 8)) b) else 0).

Definition stamp (mem : arr) (a : Z) (two flipx flipy : bool) (blend x y : Z) (img : image) : image :=
  fun px py =>
    if (x <=? px) && (px <? x + 8) && (y <=? py) && (py <? y + 8) then
      let c := sprite_value mem a two flipx flipy (px - x) (py - y) in
      if transparent c blend then img px py else blend_colour c blend
    else img px py.

(** Coordinates of sprites are taken modulo 65536, between -8 and 65527. *)
Definition wrapped (x : Z) : Z := (x + 8) mod 65536 - 8.

(** [n] sprites, moving by [dx], [dy] and [da] after each. *)
Fixpoint stamps (mem : arr) (n : nat) (a da : Z) (two flipx flipy : bool) (blend x dx y dy : Z) (img : image) : image :=
  match n with
  | O => img
  | S n => stamps mem n (a + da) da two flipx flipy blend (x + dx) dx (y + dy) dy
             (stamp mem a two flipx flipy blend (wrapped x) (wrapped y) img)
  end.

Definition bit (ctrl k : Z) : bool := Z.testbit ctrl k.
Definition sgn (b : bool) : Z := if b then -1 else 1.

(** ** Rendering
    The whole layer, in the colours of the palette. *)
Definition full (s : screen) (fg : bool) (palette : arr) (target : arr) : Prop :=
  forall x y, visible s x y -> target (y * s_w s + x) = palette (shown s fg x y).

(** Screens with consistent registers; every cell is a colour number. *)
Definition screen_ok (s : screen) : Prop :=
  size_ok (s_w s) (s_h s) /\
  (rMX s = 0 \/ rMX s = 1) /\ (rMY s = 0 \/ rMY s = 2) /\ (rMA s = 0 \/ rMA s = 4) /\ 0 <= rML s <= 15 /\
  rDX s = 8 * rMX s /\ rDY s = 4 * rMY s /\ 0 <= rA s /\
  (forall i, 0 <= i < 2 * ((s_w s + 16) * (s_h s + 16)) -> 0 <= s_buf s i < 4).
Definition regs_ok (s : screen) : Prop :=
  -1073741824 <= rX s <= 1073741824 /\ -1073741824 <= rY s <= 1073741824 /\ rA s <= 1073741824.
(** The size the program asks for, if any, is supported. *)
Definition request_ok (v : vm) : Prop :=
  let w k := 256 * vm_dev v k + vm_dev v (k + 1) in w 34 <= 32752 /\ w 36 <= 32752.

(** ** Fill mode
    Columns and rows a fill covers, as half open intervals of pixels. *)
Definition fill_x (s : screen) (ctrl : Z) : Z * Z := if bit ctrl 4 then (0, rX s) else (rX s, s_w s).
Definition fill_y (s : screen) (ctrl : Z) : Z * Z := if bit ctrl 5 then (0, rY s) else (rY s, s_h s).
(** Offset of a pixel in the block of both layers. *)
Definition offset (s : screen) (fg : bool) (x y : Z) : Z :=
  (if fg then (s_w s + 16) * (s_h s + 16) else 0) + ((x + 8) + (y + 8) * (s_w s + 16)).
(** The fill covers at least one cell, and its first or last cell is outside the block. *)
Definition fill_outside (s : screen) (ctrl : Z) : Prop :=
  let '(xa, xb) := fill_x s ctrl in let '(ya, yb) := fill_y s ctrl in
  xa < xb /\ ya < yb /\
  (offset s (bit ctrl 6) xa ya < 0 \/ 2 * ((s_w s + 16) * (s_h s + 16)) <= offset s (bit ctrl 6) (xb - 1) (yb - 1)).
(** The fill is empty or stays within the margins of the screen. *)
Definition fill_safe (s : screen) (ctrl : Z) : Prop :=
  let '(xa, xb) := fill_x s ctrl in let '(ya, yb) := fill_y s ctrl in
  xb <= xa \/ yb <= ya \/ (-8 <= xa /\ xb <= s_w s + 8 /\ -8 <= ya /\ yb <= s_h s + 8).

(** ** Port writes *)
Fixpoint port_writes (l : list (vm * Z)) (s : screen) : res screen :=
  match l with
  | [] => Ok s
  | (v, a) :: l => rbind (screen_deo v s a) (port_writes l)
  end.
Definition bytes_ports (v : vm) : Prop := forall i, 0 <= i < 256 -> is_byte (vm_dev v i).
Definition is_fill (v : vm) (a : Z) : Prop := a = 46 /\ bit (vm_dev v 46) 7 = true.

(** ** Histories of draws and frames *)
Definition in_rect (r : rect) (x y : Z) : Prop := x1 r <= x < x2 r /\ y1 r <= y < y2 r.
Definition same_size (s s' : screen) : Prop := s_w s = s_w s' /\ s_h s = s_h s'.

(** The screen, what the program on the other side holds for each layer, and the
    palettes the layers are rendered with. *)
Record display : Type := mkDisplay { d_screen : screen; d_bg : arr; d_fg : arr; d_pbg : arr; d_pfg : arr }.
Definition d_target (d : display) (fg : bool) : arr := if fg then d_fg d else d_bg d.
Definition d_palette (d : display) (fg : bool) : arr := if fg then d_pfg d else d_pbg d.

Inductive event : Type :=
| Port (v : vm) (a : Z)
| Query (v : vm) (a : Z)
| Theme (pbg pfg : arr)
| Frame (fg : bool).

(** A port access that changes the size comes with new targets, of any content. *)
Inductive step : display -> event -> display -> Prop :=
| step_port d v a s' t0 t1 :
    screen_deo v (d_screen d) a = Ok s' ->
    (same_size (d_screen d) s' -> t0 = d_bg d /\ t1 = d_fg d) ->
    step d (Port v a) (mkDisplay s' t0 t1 (d_pbg d) (d_pfg d))
| step_query d v a b s' t0 t1 :
    screen_dei v (d_screen d) a = Ok (b, s') ->
    (same_size (d_screen d) s' -> t0 = d_bg d /\ t1 = d_fg d) ->
    step d (Query v a) (mkDisplay s' t0 t1 (d_pbg d) (d_pfg d))
| step_theme d p0 p1 :
    step d (Theme p0 p1) (mkDisplay (force_refresh (d_screen d)) (d_bg d) (d_fg d) p0 p1)
| step_frame d (fg r : bool) s' t' :
    render (d_screen d) fg (d_palette d fg) (s_w (d_screen d) * s_h (d_screen d)) (d_target d fg) = Ok (r, s', t') ->
    step d (Frame fg) (mkDisplay s' (if fg then d_bg d else t') (if fg then t' else d_fg d) (d_pbg d) (d_pfg d)).

(** Sprites whose coordinates do not wrap into view. *)
Definition in_view (x : Z) : Prop := -32784 <= x < 65528.
Definition sprites_in_view (s : screen) (ctrl : Z) : Prop :=
  forall i, 0 <= i <= rML s ->
    in_view (rX s + i * (if rMY s =? 0 then 0 else 8 * sgn (bit ctrl 4))) /\
    in_view (rY s + i * (if rMX s =? 0 then 0 else 8 * sgn (bit ctrl 5))).

(** [s] is the screen before the event, [s'] the one after it. *)
Definition event_ok (s : screen) (e : event) (s' : screen) : Prop :=
  match e with
  | Port v a => bytes_ports v /\ request_ok v /\
      (a = 46 -> bit (vm_dev v 46) 7 = true -> fill_safe s' (vm_dev v 46)) /\
      (a = 47 -> sprites_in_view s (vm_dev v 47))
  | Query v _ => bytes_ports v /\ request_ok v
  | _ => True
  end.

Inductive history : display -> Prop :=
| history_start w h s t0 t1 p0 p1 : size_ok w h -> initial_screen w h = Ok s -> history (mkDisplay s t0 t1 p0 p1)
| history_step d e d' : history d -> step d e d' -> event_ok (d_screen d) e (d_screen d') -> history d'.

(** The picture after a sprite draw: [rML + 1] sprites; auto-y moves right (left when
    flipped), auto-x moves down (up when flipped), auto-address takes the next sprite. *)
Definition sprite_image (v : vm) (s : screen) (ctrl : Z) (img : image) : image :=
  stamps (vm_mem v) (Z.to_nat (rML s + 1))
    (rA s) (if rMA s =? 0 then 0 else if bit ctrl 7 then 16 else 8)
    (bit ctrl 7) (bit ctrl 4) (bit ctrl 5) (ctrl mod 16)
    (rX s) (if rMY s =? 0 then 0 else 8 * sgn (bit ctrl 4))
    (rY s) (if rMX s =? 0 then 0 else 8 * sgn (bit ctrl 5)) img.

(** The program does not ask for another size. *)
Definition size_kept (v : vm) (s : screen) : Prop :=
  let w k := 256 * vm_dev v k + vm_dev v (k + 1) in w 34 = 0 \/ w 36 = 0 \/ (w 34 = s_w s /\ w 36 = s_h s).
