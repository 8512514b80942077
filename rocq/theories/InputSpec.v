(** Event semantics of the input devices, without device state: what a program
    sees is a function of the event being delivered and of the past events. *)
From Verif Require Import Base VmModel.

Section Spec.
Variable R : Type.
Variable odei : Z -> vm -> R -> res (Z * vm * R).
Variable odeo : Z -> vm -> R -> res (vm * R).
Variable hi_first : bool.
Variables (kw kr : Z) (fuel : nat).

(** The page of 16 ports a port belongs to. *)
Definition page (a : Z) : Z := a - a mod 16.
(** The vector in the first two ports of a page. *)
Definition vector (v : vm) (pg : Z) : Z := Z.lor (Z.shiftl (vm_dev v pg) 8) (vm_dev v (pg + 1)).

(** A host in which the ports of one page read as constants [port] (or as the
    byte last written when [port] says nothing), and writes of that page are
    handled by [out]. *)
Definition const_dei (pg : Z) (port : Z -> option Z) (a : Z) (v : vm) (r : R) : res (Z * vm * R) :=
  if page a =? pg then Ok (match port a with Some b => b | None => vm_dev v a end, v, r)
  else odei a v r.
Definition const_deo (pg : Z) (out : Z -> vm -> R -> res (vm * R)) (a : Z) (v : vm) (r : R) : res (vm * R) :=
  if page a =? pg then out a v r else odeo a v r.

(** Run the current vector of the page once while its ports read as [port]. *)
Definition react (pg : Z) (port : Z -> option Z) out (v : vm) (r : R) : outcome R :=
  execute R (const_dei pg port) (const_deo pg out) hi_first None kw kr fuel (vector v pg) v r.

(** One reaction per event, in order; [port e] is what the ports read during event [e]. *)
Fixpoint deliver {E} (pg : Z) (port : E -> Z -> option Z) out (es : list E) (v : vm) (r : R) : outcome R :=
  match es with
  | [] => Done _ v r
  | e :: rest =>
      match react pg (port e) out v r with
      | Done _ v' r' => deliver pg port out rest v' r'
      | o => o
      end
  end.
End Spec.

(** ** Console *)
(** An event is (type, value).  The events of an argument vector. *)
Fixpoint arg_events (argv : list (list Z)) : list (Z * Z) :=
  match argv with
  | [] => []
  | a :: rest =>
      map (fun ch => (2, ch mod 256)) a ++
      match rest with [] => [(4, 10)] | _ => (3, 10) :: arg_events rest end
  end.
Definition console_port (e : Z * Z) (a : Z) : option Z :=
  if a =? 18 then Some (snd e) else if a =? 23 then Some (fst e) else None.

(** ** Controller *)
Inductive pad_event : Type := Button (i btn : Z) (down : bool) | Char (ch : Z).
(** Is button [btn] of pad [i] down after the events [h] (newest first)? *)
Fixpoint is_down (h : list pad_event) (i btn : Z) : bool :=
  match h with
  | [] => false
  | Button i' b' d :: h => if (i' =? i) && (b' =? btn) then d else is_down h i btn
  | Char _ :: h => is_down h i btn
  end.
(** The byte whose bit [b] is [f b]. *)
Definition byte_of_bits (f : Z -> bool) : Z :=
  fold_right (fun b acc => (if f b then 2 ^ b else 0) + acc) 0 [0; 1; 2; 3; 4; 5; 6; 7].
Definition pad_byte (h : list pad_event) (i : Z) : Z := byte_of_bits (is_down h i).
(** Ports during the newest event of [h]. *)
Definition pad_port (h : list pad_event) (a : Z) : option Z :=
  if a =? 130 then Some (pad_byte h 0)
  else if a =? 131 then Some (match h with Char c :: _ => c mod 256 | _ => 0 end)
  else if a =? 133 then Some (pad_byte h 1)
  else if a =? 134 then Some (pad_byte h 2)
  else if a =? 135 then Some (pad_byte h 3)
  else None.
(** All histories met while the events [es] follow [h]: one per event. *)
Fixpoint histories {E} (h : list E) (es : list E) : list (list E) :=
  match es with [] => [] | e :: rest => (e :: h) :: histories (e :: h) rest end.

(** ** Mouse buttons; position and scroll stay as they are. *)
Fixpoint mouse_down (h : list (Z * bool)) (btn : Z) : bool :=
  match h with
  | [] => false
  | (b, d) :: h => if b =? btn then d else mouse_down h btn
  end.
Definition mouse_port (x y sx sy : Z) (h : list (Z * bool)) (a : Z) : option Z :=
  let hi n := (n / 256) mod 256 in let lo n := n mod 256 in
  if a =? 146 then Some (hi x) else if a =? 147 then Some (lo x)
  else if a =? 148 then Some (hi y) else if a =? 149 then Some (lo y)
  else if a =? 150 then Some (byte_of_bits (mouse_down h))
  else if a =? 154 then Some (hi sx) else if a =? 155 then Some (lo sx)
  else if a =? 156 then Some (hi sy) else if a =? 157 then Some (lo sy)
  else None.
