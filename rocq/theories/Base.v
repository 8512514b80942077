(** Common vocabulary of the model: C integer truncation, results with explicit
    undefined behaviour, functional arrays.  No code of /repo is transcribed
    here; these are the C semantics the transcriptions rely on. *)
From Coq Require Export ZArith List Bool Lia.
Export ListNotations.
Open Scope Z_scope.

(** C conversions to the fixed width unsigned types. *)
Definition u8 (x : Z) : Z := x mod 256.
Definition u16 (x : Z) : Z := x mod 65536.
Definition u32 (x : Z) : Z := x mod 4294967296.
Definition u64 (x : Z) : Z := x mod 18446744073709551616.

(** C conversion [(int8_t)x] on a two's complement machine. *)
Definition s8 (x : Z) : Z := let y := x mod 256 in if y <? 128 then y else y - 256.
Definition s16 (x : Z) : Z := let y := x mod 65536 in if y <? 32768 then y else y - 65536.
Definition s32 (x : Z) : Z :=
  let y := x mod 4294967296 in if y <? 2147483648 then y else y - 4294967296.

(** Undefined behaviour of C, as distinct outcomes. *)
Inductive fault : Type :=
| OobRead (i : Z)
| OobWrite (i : Z)
| SignedOverflow (v : Z)
| DivByZero
| BadHandle
| Uninit.

Inductive res (A : Type) : Type :=
| Ok (a : A)
| Fault (f : fault).
Arguments Ok {A} a.
Arguments Fault {A} f.

Definition rbind {A B} (r : res A) (k : A -> res B) : res B :=
  match r with Ok a => k a | Fault f => Fault f end.

Definition rmap {A B} (g : A -> B) (r : res A) : res B :=
  rbind r (fun a => Ok (g a)).

Definition is_ok {A} (r : res A) : Prop := exists a, r = Ok a.

(** 32-bit [int] arithmetic: the value if it fits, a fault otherwise. *)
Definition INT_MIN : Z := -2147483648.
Definition INT_MAX : Z := 2147483647.
Definition in_int (x : Z) : bool := (INT_MIN <=? x) && (x <=? INT_MAX).
Definition int32 (x : Z) : res Z :=
  if in_int x then Ok x else Fault (SignedOverflow x).

(** Integer division, truncating; undefined for a zero divisor. *)
Definition cdiv (a b : Z) : res Z := if b =? 0 then Fault DivByZero else Ok (Z.quot a b).

(** Functional arrays. *)
Definition arr := Z -> Z.
Definition upd (m : arr) (a v : Z) : arr := fun x => if x =? a then v else m x.

(** Bounds-checked access to an object of [n] cells. *)
Definition in_bounds (n i : Z) : bool := (0 <=? i) && (i <? n).
Definition aget (n : Z) (m : arr) (i : Z) : res Z :=
  if in_bounds n i then Ok (m i) else Fault (OobRead i).
Definition aset (n : Z) (m : arr) (i v : Z) : res arr :=
  if in_bounds n i then Ok (upd m i v) else Fault (OobWrite i).

Definition b2z (b : bool) : Z := if b then 1 else 0.

Definition is_byte (x : Z) : Prop := 0 <= x < 256.
Definition is_short (x : Z) : Prop := 0 <= x < 65536.
