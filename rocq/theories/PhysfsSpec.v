(** What the functions of physfs.c promise, independent of PhysfsModel's functions
    as far as possible (C99). *)
From Verif Require Import Base VmModel FileModel FileSpec PhysfsModel.
From Verif Require VmSpec.
From Coq Require Import Lia.
Open Scope list_scope.

(** ** The calls in a log are what happened to the host. *)
Definition happens {H} (hs : host H) (c : call) (h h' : H) : Prop :=
  match c with
  | CStat p => h' = snd (h_stat hs p h)
  | CDelete p => h' = snd (h_delete hs p h)
  | COpen p m r => h_fopen hs p m h = (r, h')
  | COpenDir p r => h_opendir hs p h = (r, h')
  | CClose x => h' = h_fclose hs x h
  | CCloseDir x => h' = h_closedir hs x h
  | CRead x n l => h_fread hs x n h = (l, h')
  | CWrite x l n => h_fwrite hs x l h = (n, h')
  | CReadDir x r => h_readdir hs x h = (r, h')
  end.
(** Newest first. *)
Fixpoint happened {H} (hs : host H) (new : list call) (h h' : H) : Prop :=
  match new with
  | [] => h' = h
  | c :: older => exists h1, happened hs older h h1 /\ happens hs c h1 h'
  end.

(** ** The documentation of PhysFS. *)
Definition lib_ok {P} (L : lib P) : Prop :=
  (forall x n p, 0 <= n -> match fst (l_read L x n p) with
                           | Some l => Z.of_nat (length l) <= n /\ Forall is_byte l
                           | None => True
                           end) /\
  (forall x l p, -1 <= fst (l_write L x l p) <= Z.of_nat (length l)) /\
  (forall p s, match fst (l_enumerate L p s) with Some names => Forall (Forall is_byte) names | None => True end).

(** Two devices, their logs and the host, after any sequence of port writes on
    the one or the other; the state of the library may change in between. *)
Inductive running {P} (L : lib P) : file -> list call -> file -> list call -> phys P -> Prop :=
| run_init p : running L initial_file [] initial_file [] (mkPhys p no_dirs false)
| run_outside f0 l0 f1 l1 h p : running L f0 l0 f1 l1 h -> running L f0 l0 f1 l1 (mkPhys p (ph_dirs h) (ph_crashed h))
| run_first f0 l0 f1 l1 h v base port s : running L f0 l0 f1 l1 h -> VmSpec.well_typed v -> 0 <= base <= 240 ->
    file_deo _ (physfs P L) (mkFs _ v f0 h l0) base port = Ok s ->
    running L (fs_file _ s) (fs_log _ s) f1 l1 (fs_host _ s)
| run_second f0 l0 f1 l1 h v base port s : running L f0 l0 f1 l1 h -> VmSpec.well_typed v -> 0 <= base <= 240 ->
    file_deo _ (physfs P L) (mkFs _ v f1 h l1) base port = Ok s ->
    running L f0 l0 (fs_file _ s) (fs_log _ s) (fs_host _ s).

(** The lists of names that were got from the library and not given back. *)
Definition lists_alive {P} (h : phys P) : Z :=
  Z.of_nat (length (filter (fun s => match d_files s with Some _ => true | None => false end) (ph_dirs h))).
Definition owns_dir (o : owner) : Z := match o with OwnsDir _ => 1 | _ => 0 end.

(** ** What a directory shows of a file, given what PhysFS says about it. *)
Definition status (r : option (Z * Z)) : fstat :=
  match r with
  | Some (0, n) => mkStat 1 (if n <? 0 then n + 2 ^ 64 else n)
  | Some (1, _) => mkStat 2 0
  | _ => mkStat 0 0
  end.
(** A name, as opposed to a path or the directory itself. *)
Definition plain (name : list Z) : Prop := ~ In 47 name /\ name <> [46].

(** ** The contents of a file: [rest p x l] means that [l] is what is left to read
    from handle [x].  Reading takes some of it, at least one byte if it can. *)
Definition readable {P} (L : lib P) (rest : P -> Z -> list Z -> Prop) : Prop :=
  forall p x l n, rest p x l -> 0 < n ->
    (l_eof L x p = true -> l = []) /\
    (l_eof L x p = false -> exists a b p', l = a ++ b /\ Z.of_nat (length a) <= n /\ (a = [] -> l = []) /\ l_read L x n p = (Some a, p') /\ rest p' x b).
(** [text p x l]: [l] is what was written to handle [x].  Writing takes some of
    the bytes, all of them unless the disk is full. *)
Definition writable {P} (L : lib P) (text : P -> Z -> list Z -> Prop) : Prop :=
  forall p x l new, text p x l -> exists k p', l_write L x new p = (k, p') /\ -1 <= k <= Z.of_nat (length new) /\ text p' x (l ++ firstn (Z.to_nat k) new).
