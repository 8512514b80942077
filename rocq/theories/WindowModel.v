(** Model of the geometry of the window of the GUI: src/gui.c:304-326
    (where the screen is drawn), 528-532 (the size of the first screen), 706-715
    and 816-828 (the pointer), 744-755 (dragging), src/linux/platform.c:231-241.

    Simplification: a float is a rational number and nothing is rounded, except
    where the code rounds ([floorf], conversions to integers).  A float that is
    divided by zero is infinite or not a number; converting it to an integer is
    undefined, which is the fault here. *)
From Verif Require Import Base.
From Coq Require Import QArith Qround.
Open Scope Q_scope.

(** [a < b] of floats *)
Definition lt_b (a b : Q) : bool := negb (Qle_bool b a).

(** gui.c:51-59 [draw_info_t] without the size of the window. *)
Record draw_info : Type := mkDraw { w_scale : Q; w_width : Q; w_height : Q; w_left : Z; w_top : Z }.
(** gui.c:304-326 [get_draw_info]: the window, then the screen. *)
Definition get_draw_info (aw ah fw fh : Z) : draw_info :=
  let x_scale := inject_Z aw / inject_Z fw in
  let y_scale := inject_Z ah / inject_Z fh in
  let scale := if lt_b x_scale y_scale then x_scale else y_scale in
  let width := inject_Z fw * scale in
  let height := inject_Z fh * scale in
  mkDraw scale width height (Qfloor ((inject_Z aw - width) * (1 # 2))) (Qfloor ((inject_Z ah - height) * (1 # 2))).

(** gui.c:706-715 [clamp] *)
Definition clamp (val min max : Q) : Q :=
  if lt_b val min then min else if lt_b max val then max else val.
(** A float that is converted to uint16_t: cut off; undefined if out of range. *)
Definition to_u16 (x : Q) : res Z :=
  let z := if Qle_bool 0 x then Qfloor x else Qceiling x in
  if ((0 <=? z) && (z <? 65536))%Z then Ok z else Fault (SignedOverflow z).
(** gui.c:816-828: the pointer moves to [mx], [my] in the window. *)
Definition move_to (d : draw_info) (fw fh : Z) (mx my : Q) : res (Z * Z) :=
  let x := (mx - inject_Z (w_left d)) / w_scale d in
  let y := (my - inject_Z (w_top d)) / w_scale d in
  rbind (to_u16 (clamp x 0 (inject_Z fw))) (fun x =>
  rbind (to_u16 (clamp y 0 (inject_Z fh))) (fun y => Ok (x, y))).

(** gui.c:28-29 *)
Definition DEFAULT_WIDTH : Z := 512.
Definition DEFAULT_HEIGHT : Z := 320.
(** gui.c:528-532: the first screen for a window of this size. *)
Definition start_size (w h : Z) : res (Z * Z) :=
  let x_scale := inject_Z w / inject_Z DEFAULT_WIDTH in
  let y_scale := inject_Z h / inject_Z DEFAULT_HEIGHT in
  let scale := Qfloor (if lt_b y_scale x_scale then x_scale else y_scale) in
  if (scale =? 0)%Z then Fault DivByZero
  else Ok (Qfloor (inject_Z w / inject_Z scale), Qfloor (inject_Z h / inject_Z scale)).

(** gui.c:742-751, one coordinate of a move by [d] of the finger: what is left
    over, and the movement of the pointer. *)
Definition drag (scale : Q) (accum d : Q) : Q * Z :=
  let accum := accum + d * 2 / scale in
  let moved := Qfloor accum in
  (accum - inject_Z moved, moved).
(** The moves of a finger, from what is left over of the moves before. *)
Fixpoint drags (scale accum : Q) (l : list Q) : Q * list Z :=
  match l with
  | []%list => (accum, []%list)
  | (d :: l)%list => let '(a, m) := drag scale accum d in let '(a, ms) := drags scale a l in (a, (m :: ms)%list)
  end.

(** linux/platform.c:231-241 [platform_resize_window]: the size asked of the
    window system; [scale] is the option, 0 if it is not given. *)
Definition resize_window (scale : Q) (w h : Z) : res (Z * Z) :=
  if negb (Qeq_bool scale 0) then
    rbind (to_u16 (inject_Z w * scale)) (fun w => rbind (to_u16 (inject_Z h * scale)) (fun h => Ok (w, h)))
  else Ok (w, h).
