(** What the file device promises, independent of FileModel's functions. *)
From Verif Require Import Base VmModel SystemSpec FileModel.
From Verif Require VmSpec.

(** The two byte registers of the device page starting at [base]. *)
Definition reg2 (v : vm) (base a : Z) : Z := word (fun i => vm_dev v (base + i)) 16 a.

(** ** C19: [p] is the name the program points to: the non-zero bytes before
    the first zero byte, addresses wrapping at 64 KiB, 1 to 1023 of them. *)
Definition name_at (v : vm) (base : Z) (p : list Z) : Prop :=
  let at_ k := vm_mem v ((reg2 v base 8 + k) mod 65536) in
  0 < Z.of_nat (length p) < 1024 /\
  (forall k, 0 <= k < Z.of_nat (length p) -> at_ k = nth (Z.to_nat k) p 0 /\ at_ k <> 0) /\
  at_ (Z.of_nat (length p)) = 0.

(** Paths among a list of host calls. *)
Definition path_of (c : call) : option (list Z) :=
  match c with
  | CStat p | CDelete p | COpen p _ _ | COpenDir p _ => Some p
  | _ => None
  end.

(** ** C20: the part of a requested range that lies below 0x10000. *)
Definition room (addr len : Z) : Z := Z.min len (65536 - addr).
(** Memory [m] with the bytes [l] stored at [a]. *)
Definition put (m : arr) (a : Z) (l : list Z) (j : Z) : Z :=
  if (a <=? j) && (j <? a + Z.of_nat (length l)) then nth (Z.to_nat (j - a)) l 0 else m j.
(** The [n] bytes of [m] at [a]. *)
Definition slice (m : arr) (a n : Z) : list Z := map (fun k => m (a + Z.of_nat k)) (seq 0 (Z.to_nat n)).
(** Data moved by a list of calls (newest first). *)
Definition bytes_read (new : list call) : list Z :=
  concat (map (fun c => match c with CRead _ _ l => l | _ => [] end) (rev new)).
Definition bytes_written (new : list call) : list Z :=
  concat (map (fun c => match c with CWrite _ l n => firstn (Z.to_nat n) l | _ => [] end) (rev new)).

(** Every read was asked for at most what was left of [len] bytes. *)
Definition reads_fit (len : Z) (new : list call) : Prop :=
  forall newer x n l older, new = newer ++ CRead x n l :: older ->
    Z.of_nat (length (bytes_read older)) + n <= len.

(** ** C21: character [i] of the [n] characters describing a file. *)
Definition hex_digit (d : Z) : Z := if d <? 10 then 48 + d (* 0-9 *) else 97 + (d - 10) (* a-f *).
Definition stat_char (s : fstat) (n i : Z) : Z :=
  if st_type s =? 0 then 33 (* ! *)
  else if st_type s =? 2 then 45 (* - *)
  else if st_size s <? 16 ^ n then hex_digit ((st_size s / 16 ^ (n - 1 - i)) mod 16)
  else 63 (* ? *).
Definition stat_text (s : fstat) (n : Z) : list Z :=
  map (fun k => stat_char s n (Z.of_nat k)) (seq 0 (Z.to_nat n)).

(** ** C22: who owns what.  [next o c] is the ownership after call [c], or
    [None] if the call is not allowed: opening while owning something, using or
    closing anything but the owned handle, or with a function of the wrong kind. *)
Inductive owner : Type := Nobody | OwnsFile (h : Z) | OwnsDir (h : Z).
Definition next (o : owner) (c : call) : option owner :=
  match c with
  | CStat _ | CDelete _ => Some o
  | COpen _ _ r =>
      match o with
      | Nobody => Some (match r with Some h => OwnsFile h | None => Nobody end)
      | _ => None
      end
  | COpenDir _ r =>
      match o with
      | Nobody => Some (match r with Some h => OwnsDir h | None => Nobody end)
      | _ => None
      end
  | CRead (HReal x) _ _ | CWrite (HReal x) _ _ =>
      match o with OwnsFile h => if x =? h then Some o else None | _ => None end
  | CReadDir (HReal x) _ =>
      match o with OwnsDir h => if x =? h then Some o else None | _ => None end
  | CClose (HReal x) =>
      match o with OwnsFile h => if x =? h then Some Nobody else None | _ => None end
  | CCloseDir (HReal x) =>
      match o with OwnsDir h => if x =? h then Some Nobody else None | _ => None end
  | _ => None
  end.
(** A log, newest call first. *)
Fixpoint accept (log : list call) (o : owner) : option owner :=
  match log with
  | [] => Some o
  | c :: older => match accept older o with Some o' => next o' c | None => None end
  end.

(** ** C23: the listing of a directory entry; a name longer than 256 has none. *)
Definition line (e : list Z * fstat) : list Z :=
  if Z.of_nat (length (fst e)) <=? 256 then stat_text (snd e) 4 ++ [32] ++ fst e ++ [10] else [].
(** The listing made of the entries the host returned (newest call first). *)
Definition listing (new : list call) : list Z :=
  concat (map (fun c => match c with CReadDir _ (Some e) => line e | _ => [] end) (rev new)).

(** The host keeps the contract of file.h. *)
Definition stat_ok (s : fstat) : Prop := 0 <= st_type s <= 2 /\ 0 <= st_size s.
Definition host_ok {H} (hs : host H) : Prop :=
  (forall p h, stat_ok (fst (h_stat hs p h))) /\
  (forall x n h, 0 <= n -> let l := fst (h_fread hs x n h) in Z.of_nat (length l) <= n /\ Forall is_byte l) /\
  (forall x l h, 0 <= fst (h_fwrite hs x l h) <= Z.of_nat (length l)) /\
  (forall x h, match fst (h_readdir hs x h) with
               | Some (name, st) => Forall is_byte name /\ stat_ok st
               | None => True
               end).

(** The range of memory a port may write. *)
Definition window (v : vm) (base port : Z) : Z * Z :=
  if port =? 5 then (reg2 v base 4, room (reg2 v base 4) (reg2 v base 10))
  else if port =? 13 then (reg2 v base 12, room (reg2 v base 12) (reg2 v base 10))
  else (0, 0).

(** ** Histories.  [reachable f h log]: the device, the host and the calls so far
    after some sequence of port writes, starting from a zeroed device; before
    every write the machine is whatever the program made it, and between writes
    the host may change for other reasons. *)
Definition initial_file : file := mkFile HNull 0 (mkStat 0 0) 0 0 0 (fun _ => 0).
Inductive reachable {H} (hs : host H) : file -> H -> list call -> Prop :=
| reach_init h : reachable hs initial_file h []
| reach_host f h h' log : reachable hs f h log -> reachable hs f h' log
| reach_deo f h log v base port s : reachable hs f h log ->
    VmSpec.well_typed v -> 0 <= base <= 240 ->
    file_deo H hs (mkFs H v f h log) base port = Ok s ->
    reachable hs (fs_file H s) (fs_host H s) (fs_log H s).

(** Successive reads, with other machine states in between; [d] is everything
    the program got: after each read, [success] bytes at the read address. *)
Inductive reads {H} (hs : host H) (base : Z) : file -> H -> list call -> list Z -> file -> H -> list call -> Prop :=
| reads_none f h log : reads hs base f h log [] f h log
| reads_next f h log v s d f' h' log' : VmSpec.well_typed v ->
    file_deo H hs (mkFs H v f h log) base 13 = Ok s ->
    reads hs base (fs_file H s) (fs_host H s) (fs_log H s) d f' h' log' ->
    reads hs base f h log
      (slice (vm_mem (fs_vm H s)) (reg2 v base 12) (f_success (fs_file H s)) ++ d) f' h' log'.

(** The part of the buffered directory line not yet delivered. *)
Definition leftover (f : file) : list Z := slice (f_buf f) (f_pos f) (f_len f - f_pos f).

(** What the device owns, as it records it. *)
Definition recorded (f : file) : owner :=
  match f_handle f with
  | HReal h => if st_type (f_stat f) =? 1 then OwnsFile h else OwnsDir h
  | _ => Nobody
  end.
