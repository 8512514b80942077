(** What the graphical emulator should do, without its state. *)
From Verif Require Import Base VmModel GuiModel.
Open Scope list_scope.

(** ** The console (C82) *)
Fixpoint up_to_zero (l : list Z) : list Z :=
  match l with [] => [] | c :: l => if c =? 0 then [] else c :: up_to_zero l end.
(** [printed cs log rest]: the bytes [cs] have been written, [log] has been logged
    and [rest] has not.  The bytes are cut after every newline and after 255 bytes
    without one; each piece is logged without the newline, up to the first zero. *)
Definition piece (p : list Z * bool) : list Z := let (text, newline) := p in if newline then text ++ [10] else text.
Definition printed (cs : list Z) (log : list (list Z)) (rest : list Z) : Prop :=
  exists pieces,
    cs = concat (map piece pieces) ++ rest /\
    Forall (fun '(text, newline) => ~ In 10 text /\ if (newline : bool) then (length text < 255)%nat else length text = 255%nat) pieces /\
    ~ In 10 rest /\ (length rest < 255)%nat /\
    log = map (fun '(text, _) => up_to_zero text) pieces.

(** Of a record of port writes, the bytes written to port [p]. *)
Definition written (p : Z) (record : list (Z * vm)) : list Z :=
  concat (map (fun '(a, v) => if a =? p then [vm_dev v p] else []) record).
(** Of the log, the lines of one stream. *)
Definition lines_of (err : bool) (log : list (bool * list Z)) : list (list Z) :=
  concat (map (fun '(e, l) => if Bool.eqb e err then [l] else []) log).

(** ** Events (C83); histories are newest first. *)
(** Is the mouse button down? Bit 0 is the left one, 1 the middle one, 2 the right one. *)
Definition bit_of_button (button : Z) : option Z :=
  match button with 0 => Some 0 | 2 => Some 1 | 1 => Some 2 | _ => None end.
Fixpoint mouse_held (h : list gui_event) (bit : Z) : bool :=
  match h with
  | [] => false
  | MouseButton button down :: h =>
      if match bit_of_button button with Some b => b =? bit | None => false end then down else mouse_held h bit
  | _ :: h => mouse_held h bit
  end.
(** Is the controller button down?  The table is that of the keys. *)
Definition bit_of_key (k : key) : option Z :=
  match k with
  | LeftControl | RightControl => Some 0 | LeftAlt | RightAlt => Some 1 | LeftShift | RightShift => Some 2
  | Home => Some 3 | Up => Some 4 | Down => Some 5 | Left => Some 6 | Right => Some 7
  | Enter | Escape | Backspace | Tab | Delete | OtherKey => None
  end.
Fixpoint pad_held (h : list gui_event) (bit : Z) : bool :=
  match h with
  | [] => false
  | Key k down :: h => if match bit_of_key k with Some b => b =? bit | None => false end then down else pad_held h bit
  | Char code ctrl alt shift :: h =>
      if code <=? 127 then if bit =? 0 then ctrl else if bit =? 1 then alt else if bit =? 2 then shift else pad_held h bit
      else pad_held h bit
  | _ :: h => pad_held h bit
  end.
Definition is_touch_event (e : gui_event) : bool := match e with Touch _ _ => true | _ => false end.
Definition is_left_button (e : gui_event) : bool := match e with MouseButton 0 _ => true | _ => false end.
(** The vector an event evaluates: that of the mouse, that of the controller, or none. *)
Definition page_of (e : gui_event) : option Z :=
  match e with
  | MouseButton button _ => match bit_of_button button with Some _ => Some 144 | None => None end
  | Scroll _ _ | MouseMove _ _ => Some 144
  | Key k down => match k with
      | Enter | Escape | Backspace | Tab | Delete => if down then Some 128 else None
      | OtherKey => None
      | _ => Some 128
      end
  | Char code _ _ _ => if code <=? 127 then Some 128 else None
  | Touch _ _ | OtherEvent => None
  end.
(** The character an event carries. *)
Definition char_of (e : gui_event) : Z :=
  match e with
  | Key Enter true => 13 | Key Escape true => 27 | Key Backspace true => 8 | Key Tab true => 9 | Key Delete true => 127
  | Char code _ _ _ => if code <=? 127 then code else 0
  | _ => 0
  end.
(** Values the C types can hold: a code is not negative, and a scroll movement fits
    the device's int16_t (both ways). *)
Definition event_typed (e : gui_event) : Prop :=
  match e with
  | Char code _ _ _ => 0 <= code
  | Scroll x y => -32768 <= x <= 32767 /\ -32767 <= y <= 32767
  | _ => True
  end.
