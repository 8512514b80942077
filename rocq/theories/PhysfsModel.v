(** Model of src/physfs.c: the functions that the file device calls, on top of
    the library PhysFS.

    The library is not modelled: its functions are the fields of [lib], acting on
    an arbitrary state [P].  Simplifications: a path or a name is the list of its
    non-zero chars; log messages are dropped; when PHYSFS_readBytes fails, the
    buffer is taken to be as before; the two entries of [dir_buf] have the
    handles 0 and 1, and the pointers of the library are any numbers. *)
From Verif Require Import Base VmModel FileModel.

(** physfs.h, as far as it is used.  PHYSFS_stat gives the file type and the size
    (-1 if it is unknown), PHYSFS_readBytes [None] for -1, PHYSFS_enumerateFiles
    [None] for NULL. *)
Record lib (P : Type) : Type := mkLib {
  l_open_read : list Z -> P -> option Z * P;
  l_open_write : list Z -> P -> option Z * P;
  l_open_append : list Z -> P -> option Z * P;
  l_close : Z -> P -> P;
  l_eof : Z -> P -> bool;
  l_read : Z -> Z -> P -> option (list Z) * P;
  l_write : Z -> list Z -> P -> Z * P;
  l_enumerate : list Z -> P -> option (list (list Z)) * P;
  l_delete : list Z -> P -> bool * P;
  l_stat : list Z -> P -> option (Z * Z) * P }.
Arguments l_open_read {P}. Arguments l_open_write {P}. Arguments l_open_append {P}. Arguments l_close {P}.
Arguments l_eof {P}. Arguments l_read {P}. Arguments l_write {P}. Arguments l_enumerate {P}.
Arguments l_delete {P}. Arguments l_stat {P}.

(** physfs.h: PHYSFS_FILETYPE_REGULAR, PHYSFS_FILETYPE_DIRECTORY *)
Definition FT_REGULAR : Z := 0.
Definition FT_DIRECTORY : Z := 1.

(** physfs.c:7-10; [d_files] is the list of the library or NULL, [d_current] what
    is left of it from the cursor on. *)
Record slot : Type := mkSlot { d_files : option (list (list Z)); d_current : option (list (list Z)) }.
Definition free_slot : slot := mkSlot None None.
(** The library, the static variable [dir_buf] (physfs.c:12), and whether NULL or
    something that is no entry of [dir_buf] was used as a directory. *)
Record phys (P : Type) : Type := mkPhys { ph_lib : P; ph_dirs : list slot; ph_crashed : bool }.
Arguments mkPhys {P}. Arguments ph_lib {P}. Arguments ph_dirs {P}. Arguments ph_crashed {P}.
(** vm.h:25 [BUXN_NUM_FILE_DEVICES] entries, all zero. *)
Definition no_dirs : list slot := [free_slot; free_slot].

(** physfs.c:29-31, 74-76, 127, 146-148 *)
Definition strip (path : list Z) : list Z :=
  match path with 46 :: 47 :: p => p | _ => path end.

Fixpoint list_eqb (a b : list Z) : bool :=
  match a, b with
  | [], [] => true
  | x :: a, y :: b => (x =? y) && list_eqb a b
  | _, _ => false
  end.

Fixpoint set_nth (n : nat) (l : list slot) (s : slot) : list slot :=
  match l, n with
  | [], _ => []
  | _ :: l, O => s :: l
  | x :: l, S n => x :: set_nth n l s
  end.

Section Host.
Variable P : Type.
Variable L : lib P.
Definition with_lib (h : phys P) (p : P) : phys P := mkPhys p (ph_dirs h) (ph_crashed h).
Definition crash (h : phys P) : phys P := mkPhys (ph_lib h) (ph_dirs h) true.

(** physfs.c:24-43 [buxn_file_fopen] *)
Definition phys_fopen (path : list Z) (mode : Z) (h : phys P) : option Z * phys P :=
  let path := strip path in
  if mode =? MODE_READ then let '(r, p) := l_open_read L path (ph_lib h) in (r, with_lib h p)
  else if mode =? MODE_WRITE then let '(r, p) := l_open_write L path (ph_lib h) in (r, with_lib h p)
  else if mode =? MODE_APPEND then let '(r, p) := l_open_append L path (ph_lib h) in (r, with_lib h p)
  else (None, h).

(** physfs.c:45-50 [buxn_file_fclose] *)
Definition phys_fclose (x : hptr) (h : phys P) : phys P :=
  match x with HReal x => with_lib h (l_close L x (ph_lib h)) | _ => crash h end.

(** physfs.c:52-60 [buxn_file_fread] *)
Definition phys_fread (x : hptr) (size : Z) (h : phys P) : list Z * phys P :=
  match x with
  | HReal x =>
      if l_eof L x (ph_lib h) then ([], h)
      else let '(r, p) := l_read L x size (ph_lib h) in
           (match r with Some l => l | None => [] end, with_lib h p)
  | _ => ([], crash h)
  end.

(** physfs.c:62-68 [buxn_file_fwrite] *)
Definition phys_fwrite (x : hptr) (l : list Z) (h : phys P) : Z * phys P :=
  match x with
  | HReal x => let '(n, p) := l_write L x l (ph_lib h) in (if n >=? 0 then u16 n else 0, with_lib h p)
  | _ => (0, crash h)
  end.

(** physfs.c:78-85: the search for a free entry from [i] on; [None] when there is none. *)
Fixpoint find_free (i : nat) (l : list slot) : option nat :=
  match l with
  | [] => None
  | s :: l => match d_files s with None => Some i | Some _ => find_free (S i) l end
  end.
(** physfs.c:70-88 [buxn_file_opendir] *)
Definition phys_opendir (path : list Z) (h : phys P) : option Z * phys P :=
  let path := strip path in
  match find_free 0 (ph_dirs h) with
  | Some i =>
      let '(r, p) := l_enumerate L (if list_eqb path [46] then [47] else path) (ph_lib h) in
      (Some (Z.of_nat i), mkPhys p (set_nth i (ph_dirs h) (mkSlot r r)) (ph_crashed h))
  | None => (None, h)
  end.

(** The entry a handle points to. *)
Definition slot_of (x : hptr) (h : phys P) : option (nat * slot) :=
  match x with
  | HReal x => if x <? 0 then None
               else match nth_error (ph_dirs h) (Z.to_nat x) with Some s => Some (Z.to_nat x, s) | None => None end
  | _ => None
  end.

(** physfs.c:90-98 [buxn_file_closedir]; PHYSFS_freeList does nothing with NULL. *)
Definition phys_closedir (x : hptr) (h : phys P) : phys P :=
  match slot_of x h with
  | Some (i, _) => mkPhys (ph_lib h) (set_nth i (ph_dirs h) free_slot) (ph_crashed h)
  | None => crash h
  end.

(** physfs.c:138-171 [buxn_file_stat]; the size -1 becomes 2^64 - 1 as a size_t. *)
Definition phys_stat (path : list Z) (h : phys P) : fstat * phys P :=
  let path := strip path in
  if list_eqb path [47] || list_eqb path [46] then (mkStat TYPE_DIRECTORY 0, h)
  else let '(r, p) := l_stat L path (ph_lib h) in
       (match r with
        | Some (t, n) => if t =? FT_REGULAR then mkStat TYPE_REGULAR (n mod 2 ^ 64)
                         else if t =? FT_DIRECTORY then mkStat TYPE_DIRECTORY 0 else mkStat TYPE_INVALID 0
        | None => mkStat TYPE_INVALID 0
        end, with_lib h p).

(** physfs.c:100-120 [buxn_file_readdir]; the chars of a name are taken as bytes. *)
Definition phys_readdir (x : hptr) (h : phys P) : option (list Z * fstat) * phys P :=
  match slot_of x h with
  | Some (i, mkSlot files (Some current)) =>
      match current with
      | [] => (None, h)
      | path :: rest =>
          let path := map u8 path in
          let '(st, h) := phys_stat path h in
          (Some (path, st), mkPhys (ph_lib h) (set_nth i (ph_dirs h) (mkSlot files (Some rest))) (ph_crashed h))
      end
  | _ => (None, crash h)
  end.

(** physfs.c:122-136 [buxn_file_delete] *)
Definition phys_delete (path : list Z) (h : phys P) : bool * phys P :=
  let '(r, p) := l_delete L (strip path) (ph_lib h) in (r, with_lib h p).

Definition physfs : host (phys P) :=
  mkHost _ phys_fopen phys_fclose phys_fread phys_fwrite phys_opendir phys_closedir phys_readdir phys_delete phys_stat.
End Host.
