(** Model of the file device: src/devices/file.c and include/buxn/devices/file.h.

    The functions the host provides (file.h:47-83) are the fields of [host]; they
    act on an arbitrary host state [H].  The model also records every call of
    them in a ghost log (newest first), which is never read.
    Simplifications: [char] values are kept as bytes 0..255; a C string is the
    list of its non-zero chars; the bytes [buxn_file_fread] stores are its
    result list and its return value is the length of that list. *)
From Verif Require Import Base VmModel.

(** file.h:16-30; modes and types are the C enum values. *)
Definition MODE_READ : Z := 0.
Definition MODE_WRITE : Z := 1.
Definition MODE_APPEND : Z := 2.
Definition TYPE_INVALID : Z := 0.
Definition TYPE_REGULAR : Z := 1.
Definition TYPE_DIRECTORY : Z := 2.
Definition MAX_PATH : Z := 1024. (* file.h:8 *)
Definition DIR_BUF : Z := 262.   (* file.h:9,41: BUXN_FILE_MAX_NAME + 6 *)

(** file.h:32-35 [buxn_file_stat_t] *)
Record fstat : Type := mkStat { st_type : Z; st_size : Z }.

(** A handle pointer: NULL, the address of BUXN_FILE_INVALID_HANDLE (file.c:5)
    or one the host returned. *)
Inductive hptr : Type := HNull | HSentinel | HReal (h : Z).

(** file.h:37-46 [buxn_file_t] *)
Record file : Type := mkFile {
  f_handle : hptr; f_mode : Z; f_stat : fstat; f_success : Z;
  f_pos : Z; f_len : Z; f_buf : arr }.

Definition f_set_handle (f : file) h := mkFile h (f_mode f) (f_stat f) (f_success f) (f_pos f) (f_len f) (f_buf f).
Definition f_set_mode (f : file) m := mkFile (f_handle f) m (f_stat f) (f_success f) (f_pos f) (f_len f) (f_buf f).
Definition f_set_stat (f : file) s := mkFile (f_handle f) (f_mode f) s (f_success f) (f_pos f) (f_len f) (f_buf f).
Definition f_set_success (f : file) n := mkFile (f_handle f) (f_mode f) (f_stat f) n (f_pos f) (f_len f) (f_buf f).
Definition f_set_dir (f : file) p l b := mkFile (f_handle f) (f_mode f) (f_stat f) (f_success f) p l b.

(** Calls of host functions with their results. *)
Inductive call : Type :=
| CStat (path : list Z)
| CDelete (path : list Z)
| COpen (path : list Z) (mode : Z) (result : option Z)
| COpenDir (path : list Z) (result : option Z)
| CClose (h : hptr)
| CCloseDir (h : hptr)
| CRead (h : hptr) (size : Z) (bytes : list Z)
| CWrite (h : hptr) (bytes : list Z) (written : Z)
| CReadDir (h : hptr) (result : option (list Z * fstat)).

(** file.h:55-83, provided by the host program. *)
Record host (H : Type) : Type := mkHost {
  h_fopen : list Z -> Z -> H -> option Z * H;
  h_fclose : hptr -> H -> H;
  h_fread : hptr -> Z -> H -> list Z * H;
  h_fwrite : hptr -> list Z -> H -> Z * H;
  h_opendir : list Z -> H -> option Z * H;
  h_closedir : hptr -> H -> H;
  h_readdir : hptr -> H -> option (list Z * fstat) * H;
  h_delete : list Z -> H -> bool * H;
  h_stat : list Z -> H -> fstat * H }.
Arguments h_fopen {H}. Arguments h_fclose {H}. Arguments h_fread {H}. Arguments h_fwrite {H}.
Arguments h_opendir {H}. Arguments h_closedir {H}. Arguments h_readdir {H}.
Arguments h_delete {H}. Arguments h_stat {H}.

(** The ports of one file device: [vm->device + device_id], read with
    BUXN_DEV_PRIV_ADDR_MASK (vm.h:41). *)
Definition port2 (v : vm) (base a : Z) : Z := load2 (fun i => vm_dev v (base + i)) a 16.

(** file.c:12-17: the copy loop; [n] is [BUXN_FILE_MAX_PATH - len], the result
    is [buf] as a list, or [None] when the loop stopped at the length limit. *)
Fixpoint path_chars (n : nat) (v : vm) (addr : Z) : res (option (list Z)) :=
  rbind (aget (vm_msize v) (vm_mem v) (addr mod 65536)) (fun ch =>
  if ch =? 0 then Ok (Some [])
  else match n with
       | O => Ok None
       | S n => rbind (path_chars n v (u16 (addr + 1))) (fun r =>
                Ok (match r with Some l => Some (ch :: l) | None => None end))
       end).

(** file.c:7-25 [buxn_file_read_path].  The write of line 22 is at [len] < 1024. *)
Definition read_path (v : vm) (base : Z) : res (option (list Z)) :=
  rbind (path_chars (Z.to_nat MAX_PATH) v (port2 v base 8)) (fun r =>
  match r with
  | None => Ok None
  | Some buf =>
      let len := Z.of_nat (length buf) in
      if (len >=? MAX_PATH) || (len =? 0) then Ok None else Ok (Some buf)
  end).

(** file.c:77-82: the digit loop of [buxn_file_format_stat]; [i] digits left,
    [dest] the next position; returns the rest of [size]. *)
Fixpoint put_digits (i : nat) (m : arr) (bound dest size : Z) : res (arr * Z) :=
  match i with
  | O => Ok (m, size)
  | S i =>
      let d := Z.land size 15 in
      let c := if 48 + d >? 57 then 48 + d + 39 else 48 + d in
      rbind (aset bound m dest c) (fun m' => put_digits i m' bound (dest - 1) (Z.shiftr size 4))
  end.

(** [memset(buf, c, len)] in an object of [bound] bytes. *)
Definition fill (m : arr) (bound buf c len : Z) : res arr :=
  if len =? 0 then Ok m
  else if (0 <=? buf) && (buf + len <=? bound) then Ok (memset m buf c len)
  else Fault (OobWrite (buf + len - 1)).

(** file.c:70-92 [buxn_file_format_stat] *)
Definition format_stat (m : arr) (bound buf len : Z) (s : fstat) : res arr :=
  if st_type s =? TYPE_INVALID then fill m bound buf 33 len
  else if st_type s =? TYPE_REGULAR then
    rbind (put_digits (Z.to_nat len) m bound (buf + len - 1) (st_size s)) (fun '(m', rest) =>
    if negb (rest =? 0) then fill m' bound buf 63 len else Ok m')
  else if st_type s =? TYPE_DIRECTORY then fill m bound buf 45 len
  else Ok m.

(** file.c:94-98 [buxn_file_clamp_length] *)
Definition clamp_length (length addr : Z) : Z :=
  let max_len := u16 (65536 - addr) in if length >? max_len then max_len else length.

(** file.c:100-108 [buxn_file_dei] *)
Definition file_dei (v : vm) (f : file) (base port : Z) : Z :=
  if port =? 2 then Z.shiftr (f_success f) 8
  else if port =? 3 then u8 (f_success f)
  else vm_dev v (base + port).

(** Store a list of bytes at [addr], in an object of [bound] bytes (memcpy). *)
Fixpoint put_bytes (m : arr) (bound addr : Z) (l : list Z) : res arr :=
  match l with
  | [] => Ok m
  | b :: l => rbind (aset bound m addr b) (fun m' => put_bytes m' bound (addr + 1) l)
  end.
(** Fetch [n] bytes at [addr]. *)
Fixpoint get_bytes (n : nat) (m : arr) (bound addr : Z) : res (list Z) :=
  match n with
  | O => Ok []
  | S n => rbind (aget bound m addr) (fun b =>
           rbind (get_bytes n m bound (addr + 1)) (fun l => Ok (b :: l)))
  end.

Definition hptr_of (h : option Z) : hptr := match h with Some n => HReal n | None => HNull end.

Section Device.
Variable H : Type.
Variable hs : host H.

(** What a port write works on: the VM, the device, the host and the ghost log. *)
Record fs : Type := mkFs { fs_vm : vm; fs_file : file; fs_host : H; fs_log : list call }.
Definition set_file (s : fs) (f : file) : fs := mkFs (fs_vm s) f (fs_host s) (fs_log s).
Definition set_memory (s : fs) (m : arr) : fs := mkFs (vm_set_mem (fs_vm s) m) (fs_file s) (fs_host s) (fs_log s).
Definition called (s : fs) (h : H) (c : call) : fs := mkFs (fs_vm s) (fs_file s) h (c :: fs_log s).

(** Host calls *)
Definition do_stat (s : fs) (p : list Z) : fstat * fs :=
  let '(r, h) := h_stat hs p (fs_host s) in (r, called s h (CStat p)).
Definition do_delete (s : fs) (p : list Z) : bool * fs :=
  let '(r, h) := h_delete hs p (fs_host s) in (r, called s h (CDelete p)).
Definition do_fopen (s : fs) (p : list Z) (m : Z) : hptr * fs :=
  let '(r, h) := h_fopen hs p m (fs_host s) in (hptr_of r, called s h (COpen p m r)).
Definition do_opendir (s : fs) (p : list Z) : hptr * fs :=
  let '(r, h) := h_opendir hs p (fs_host s) in (hptr_of r, called s h (COpenDir p r)).
Definition do_fclose (s : fs) (x : hptr) : fs := called s (h_fclose hs x (fs_host s)) (CClose x).
Definition do_closedir (s : fs) (x : hptr) : fs := called s (h_closedir hs x (fs_host s)) (CCloseDir x).
Definition do_fread (s : fs) (x : hptr) (n : Z) : list Z * fs :=
  let '(l, h) := h_fread hs x n (fs_host s) in (l, called s h (CRead x n l)).
Definition do_fwrite (s : fs) (x : hptr) (l : list Z) : Z * fs :=
  let '(n, h) := h_fwrite hs x l (fs_host s) in (n, called s h (CWrite x l n)).
Definition do_readdir (s : fs) (x : hptr) : option (list Z * fstat) * fs :=
  let '(r, h) := h_readdir hs x (fs_host s) in (r, called s h (CReadDir x r)).

Definition is_null (x : hptr) : bool := match x with HNull => true | _ => false end.
Definition is_sentinel (x : hptr) : bool := match x with HSentinel => true | _ => false end.

(** file.c:34-44: the first half of [buxn_file_set_mode]. *)
Definition close_on_mode_change (s : fs) (mode : Z) : fs :=
  let f := fs_file s in
  if negb (is_null (f_handle f)) && negb (f_mode f =? mode) then
    let s' :=
      if is_sentinel (f_handle f) then s
      else if st_type (f_stat f) =? TYPE_REGULAR then do_fclose s (f_handle f)
      else if st_type (f_stat f) =? TYPE_DIRECTORY then do_closedir s (f_handle f)
      else s in
    set_file s' (f_set_success (f_set_handle f HNull) 0)
  else s.

(** file.c:46-65: the second half, opening. *)
Definition open_if_closed (s : fs) (base mode : Z) : res fs :=
  if is_null (f_handle (fs_file s)) then
    rbind (read_path (fs_vm s) base) (fun p =>
    match p with
    | None => Ok s
    | Some path =>
        let '(stat, s1) := do_stat s path in
        let f1 := f_set_stat (fs_file s1) stat in
        if st_type stat =? TYPE_REGULAR then
          let '(h, s2) := do_fopen s1 path mode in
          Ok (set_file s2 (f_set_mode (f_set_handle f1 h) mode))
        else if st_type stat =? TYPE_DIRECTORY then
          let '(h, s2) := do_opendir s1 path in
          Ok (set_file s2 (f_set_mode (f_set_handle f1 h) mode))
        else if st_type stat =? TYPE_INVALID then
          if negb (mode =? MODE_READ) then
            let '(h, s2) := do_fopen s1 path mode in
            Ok (set_file s2 (f_set_mode (f_set_stat (f_set_handle f1 h) (mkStat TYPE_REGULAR (st_size stat))) mode))
          else Ok (set_file s1 (f_set_mode (f_set_handle f1 HSentinel) mode))
        else Ok (set_file s1 (f_set_mode f1 mode))
    end)
  else Ok s.

(** file.c:27-68 [buxn_file_set_mode]; the result is [device->handle] afterwards. *)
Definition set_mode (s : fs) (base mode : Z) : res fs :=
  open_if_closed (close_on_mode_change s mode) base mode.

(** file.c:165-206: the loop reading a directory.  The loop variables are
    [length], [addr] (read_addr), [total], [pos], [len] and the buffer.  The
    result is the final state, [total], [pos], [len] and the buffer. *)
Fixpoint read_dir_loop (fuel : nat) (s : fs) (length addr total pos len : Z) (buf : arr) (x : hptr)
  : res (fs * Z * Z * Z * arr) :=
  if negb (length >? 0) then Ok (s, total, pos, len, buf)
  else match fuel with
  | O => Fault Uninit
  | S fuel =>
      let deliver s pos len buf :=
        let available := u16 (len - pos) in
        let n := if length <? available then length else available in
        rbind (get_bytes (Z.to_nat n) buf DIR_BUF pos) (fun l =>
        rbind (put_bytes (vm_mem (fs_vm s)) (vm_msize (fs_vm s)) addr l) (fun m =>
        read_dir_loop fuel (set_memory s m) (u16 (length - n)) (u16 (addr + n)) (u16 (total + n))
          (u16 (pos + n)) len buf x)) in
      if pos >=? len then
        let '(r, s1) := do_readdir s x in
        match r with
        | None => Ok (s1, total, 0, 0, buf)
        | Some (name, stat) =>
            rbind (format_stat buf DIR_BUF 0 4 stat) (fun buf1 =>
            let name_len := Z.of_nat (List.length name) in
            if 4 + name_len + 2 >? DIR_BUF then Ok (s1, total, 0, 0, buf1)
            else
              rbind (aset DIR_BUF buf1 4 32) (fun buf2 =>
              rbind (put_bytes buf2 DIR_BUF 5 name) (fun buf3 =>
              let len1 := u16 (5 + u16 name_len) in
              rbind (aset DIR_BUF buf3 len1 10) (fun buf4 =>
              deliver s1 0 (u16 (len1 + 1)) buf4))))
        end
      else deliver s pos len buf
  end.

(** file.c:207-218: the loop reading a regular file; the result is the state and
    the total. *)
Fixpoint read_file_loop (fuel : nat) (s : fs) (length addr total : Z) (x : hptr) : res (fs * Z) :=
  if negb (length >? 0) then Ok (s, total)
  else match fuel with
  | O => Fault Uninit
  | S fuel =>
      let '(l, s1) := do_fread s x length in
      rbind (put_bytes (vm_mem (fs_vm s1)) (vm_msize (fs_vm s1)) addr l) (fun m =>
      let s2 := set_memory s1 m in
      let n := u16 (Z.of_nat (List.length l)) in
      if n =? 0 then Ok (s2, total)
      else read_file_loop fuel s2 (u16 (length - n)) (u16 (addr + n)) (u16 (total + n)) x)
  end.

(** file.c:236-243: the loop writing. *)
Fixpoint write_file_loop (fuel : nat) (s : fs) (length addr total : Z) (x : hptr) : res (fs * Z) :=
  if negb (length >? 0) then Ok (s, total)
  else match fuel with
  | O => Fault Uninit
  | S fuel =>
      rbind (get_bytes (Z.to_nat length) (vm_mem (fs_vm s)) (vm_msize (fs_vm s)) addr) (fun l =>
      let '(w, s1) := do_fwrite s x l in
      let n := u16 w in
      if n =? 0 then Ok (s1, total)
      else write_file_loop fuel s1 (u16 (length - n)) (u16 (addr + n)) (u16 (total + n)) x)
  end.

Definition set_success (s : fs) (n : Z) : fs := set_file s (f_set_success (fs_file s) n).

(** file.c:113-134 port 0x05 *)
Definition port_stat (s : fs) (base : Z) : res fs :=
  let v := fs_vm s in
  let addr := port2 v base 4 in
  let length := clamp_length (port2 v base 10) addr in
  if negb (is_null (f_handle (fs_file s))) then
    rbind (format_stat (vm_mem v) (vm_msize v) addr length (f_stat (fs_file s))) (fun m =>
    Ok (set_success (set_memory s m) length))
  else
    rbind (read_path v base) (fun p =>
    match p with
    | Some path =>
        let '(stat, s1) := do_stat s path in
        rbind (format_stat (vm_mem v) (vm_msize v) addr length stat) (fun m =>
        Ok (set_success (set_memory s1 m) length))
    | None => Ok (set_success s 0)
    end).

(** file.c:135-140 port 0x06 *)
Definition port_delete (s : fs) (base : Z) : res fs :=
  rbind (read_path (fs_vm s) base) (fun p =>
  match p with
  | Some path => let '(r, s1) := do_delete s path in Ok (set_success s1 (b2z r))
  | None => Ok (set_success s 0)
  end).

(** file.c:141-152 port 0x09 *)
Definition port_name (s : fs) : res fs :=
  let f := fs_file s in
  if negb (is_null (f_handle f)) then
    let s1 :=
      if st_type (f_stat f) =? TYPE_REGULAR then do_fclose s (f_handle f)
      else if st_type (f_stat f) =? TYPE_DIRECTORY then do_closedir s (f_handle f)
      else s in
    Ok (set_file s1 (f_set_handle f HNull))
  else Ok s.

(** file.c:153-221 port 0x0d *)
Definition port_read (s : fs) (base : Z) : res fs :=
  rbind (set_mode s base MODE_READ) (fun s =>
  let v := fs_vm s in
  let f := fs_file s in
  let addr := port2 v base 12 in
  let length := clamp_length (port2 v base 10) addr in
  if is_null (f_handle f) then Ok (set_success s 0)
  else if st_type (f_stat f) =? TYPE_DIRECTORY then
    rbind (read_dir_loop (Z.to_nat length) s length addr 0 (f_pos f) (f_len f) (f_buf f) (f_handle f))
      (fun '(s1, total, pos, len, buf) =>
    Ok (set_success (set_file s1 (f_set_dir (fs_file s1) pos len buf)) total))
  else if st_type (f_stat f) =? TYPE_REGULAR then
    rbind (read_file_loop (Z.to_nat length) s length addr 0 (f_handle f)) (fun '(s1, total) =>
    Ok (set_success s1 total))
  else Ok (set_success s 0)).

(** file.c:222-248 port 0x0f *)
Definition port_write (s : fs) (base : Z) : res fs :=
  let append := vm_dev (fs_vm s) (base + 7) in
  let mode := if append =? 0 then MODE_WRITE else MODE_APPEND in
  rbind (set_mode s base mode) (fun s =>
  let v := fs_vm s in
  let f := fs_file s in
  if negb (is_null (f_handle f)) && (st_type (f_stat f) =? TYPE_REGULAR) then
    let addr := port2 v base 14 in
    let length := clamp_length (port2 v base 10) addr in
    rbind (write_file_loop (Z.to_nat length) s length addr 0 (f_handle f)) (fun '(s1, total) =>
    Ok (set_success s1 total))
  else Ok (set_success s 0)).

(** file.c:110-250 [buxn_file_deo] *)
Definition file_deo (s : fs) (base port : Z) : res fs :=
  if port =? 5 then port_stat s base
  else if port =? 6 then port_delete s base
  else if port =? 9 then port_name s
  else if port =? 13 then port_read s base
  else if port =? 15 then port_write s base
  else Ok s.
End Device.
