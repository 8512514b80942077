(** The metadata format: a version byte, text up to a zero byte, a count and
    [count] extensions of three bytes.  [limit] is the end of the image. *)
From Verif Require Import Base.

(** [z] is the first zero of [img] in [from, limit). *)
Definition first_zero (img : Z -> Z) (from limit z : Z) : Prop :=
  from <= z < limit /\ img z = 0 /\ forall j, from <= j < z -> img j <> 0.

(** The announced extensions all lie before [limit]. *)
Definition ext_fit (img : Z -> Z) (limit z : Z) : Prop :=
  z + 2 < limit /\ 0 < img (z + 1) /\ z + 2 + 3 * img (z + 1) <= limit.

Inductive parsed : Type :=
| Nothing
| Meta (version text_start text_len : Z) (ext : option (Z * Z)) (* first byte, count *).

(** What parsing at [start] has to report. *)
Definition describes (img : Z -> Z) (limit start : Z) (p : parsed) : Prop :=
  match p with
  | Nothing => forall j, start < j < limit -> img j <> 0
  | Meta ver text len ext =>
      exists z, first_zero img (start + 1) limit z /\
        ver = img start /\ text = start + 1 /\ len = z - (start + 1) /\
        match ext with
        | Some (e, n) => ext_fit img limit z /\ e = z + 2 /\ n = img (z + 1)
        | None => ~ ext_fit img limit z
        end
  end.

(** The ROM starts by writing a metadata address to System/metadata. *)
Definition rom_announces (rom : Z -> Z) (size addr : Z) : Prop :=
  6 <= size /\ rom 0 = 160 /\ rom 3 = 128 /\ rom 4 = 6 /\ rom 5 = 55 /\
  addr = 256 * rom 1 + rom 2 /\ 256 < addr.
