(** Embedding a ROM in an executable and loading a ROM at start-up:
    src/bembd.h, src/rom2exe.c, the loading code of src/cli.c and of
    src/gui.c + src/linux/platform.c.

    Files are lists of bytes.  [fread] delivers every byte that is there (ISO C:
    a short count means end of file or an error; an error is a shorter file
    here).  An output file takes a limited number of bytes, then writes fail
    (a full disk); stdio's buffering, which may delay the failure until
    [fclose], is not modelled.  [long] has 64 bits, so file sizes do not
    overflow it. *)
From Verif Require Export Base.

Definition zlen (l : list Z) : Z := Z.of_nat (length l).

(** A file open for reading: its contents and the position. *)
Record rfile := mkRfile { f_data : list Z; f_pos : Z }.

(** [fread(buf, 1, n, f)]: the bytes delivered. *)
Definition fread (f : rfile) (n : Z) : list Z * rfile :=
  let got := firstn (Z.to_nat n) (skipn (Z.to_nat (f_pos f)) (f_data f)) in
  (got, mkRfile (f_data f) (f_pos f + zlen got)).

(** [fseek(f, pos, SEEK_SET)]: fails and changes nothing for a negative position. *)
Definition fseek_set (f : rfile) (pos : Z) : rfile :=
  if pos <? 0 then f else mkRfile (f_data f) pos.

(** A file open for writing: what it holds and how much more it takes. *)
Record wfile := mkWfile { w_data : list Z; w_room : Z }.

(** [fwrite(buf, 1, n, f)]: the number of bytes written. *)
Definition fwrite (f : wfile) (buf : list Z) : Z * wfile :=
  let put := firstn (Z.to_nat (w_room f)) buf in
  (zlen put, mkWfile (w_data f ++ put) (w_room f - zlen put)).

(** bembd.h:9-23.  Every round reads at least one byte, so the length of the
    source is fuel enough; [None] is running out of fuel. *)
Fixpoint bembd_cp (fuel : nat) (to : wfile) (from : rfile) (total : Z) : option (Z * wfile) :=
  match fuel with
  | O => None
  | S fuel' =>
      let '(buf, from) := fread from 2048 in
      if zlen buf =? 0 then Some (total, to)
      else let '(n, to) := fwrite to buf in
           if n =? zlen buf then bembd_cp fuel' to from (total + zlen buf)
           else Some (0, to)
  end.

Definition cp (to : wfile) (from : list Z) : option (Z * wfile) :=
  bembd_cp (S (length from)) to (mkRfile from 0) 0.

(** bembd.h:25-39 *)
Definition bembd_header (n : Z) : list Z :=
  [Z.land (Z.shiftr n 24) 255; Z.land (Z.shiftr n 16) 255;
   Z.land (Z.shiftr n 8) 255; Z.land n 255; 98; 101; 109; 98].

Definition bembd_write_header (to : wfile) (n : Z) : Z * wfile :=
  let '(k, to) := fwrite to (bembd_header n) in
  (if k =? 8 then n else 0, to).

(** bembd.h:41-47 *)
Definition bembd_put (to : wfile) (from : list Z) : option (Z * wfile) :=
  match cp to from with
  | None => None
  | Some (total, to) =>
      let n := u32 total in
      if n =? 0 then Some (0, to) else Some (bembd_write_header to n)
  end.

(** bembd.h:49-84.  [(uint8_t)header[0] << 24] is an [int] shift. *)
Definition bembd_find (f : rfile) : res (Z * rfile) :=
  let size := zlen (f_data f) in
  let f := mkRfile (f_data f) size in
  if size <? 8 then Ok (0, f)
  else
    let f := fseek_set f (size - 8) in
    let '(h, f) := fread f 8 in
    if negb (zlen h =? 8) then Ok (0, f)
    else
      let b i := nth i h 0 in
      if negb ((b 4%nat =? 98) && (b 5%nat =? 101) && (b 6%nat =? 109) && (b 7%nat =? 98)) then Ok (0, f)
      else rbind (int32 (b 0%nat * 16777216)) (fun hi =>
             let n := Z.lor (Z.lor (Z.lor hi (b 1%nat * 65536)) (b 2%nat * 256)) (b 3%nat) in
             Ok (n, fseek_set f (size - n - 8))).

(** rom2exe.c:81-128.  [None] is a file that cannot be opened; [room] is what
    the disk takes for the output.  A missing input is not noticed (the test in
    rom2exe.c:99 looks at the output), so [fread] gets a null pointer.  The
    result is the exit code and the output file. *)
Inductive exit_status := Exit (code : Z) (output : option (list Z)) | Stuck.

Definition rom2exe (runner input : option (list Z)) (can_create : bool) (room : Z) : res exit_status :=
  match runner with
  | None => Ok (Exit 1 None)
  | Some runner =>
      if negb can_create then Ok (Exit 1 None)
      else
        match cp (mkWfile [] room) runner with
        | None => Ok Stuck
        | Some (_, out) =>
            match input with
            | None => Fault BadHandle
            | Some rom =>
                match bembd_put out rom with
                | None => Ok Stuck
                | Some (n, out) => Ok (Exit (if n =? 0 then 1 else 0) (Some (w_data out)))
                end
            end
        end
  end.

(** vm.h:8-9, cli.c:119: sixteen banks of 64 KiB; BUXN_RESET_VECTOR, vm.h. *)
Definition MEMORY_SIZE : Z := 1048576.
Definition RESET_VECTOR : Z := 256.

(** The bytes stored by one [fread] at [pos], as (index in vm->memory, value). *)
Definition stores (pos : Z) (buf : list Z) : list (Z * Z) :=
  combine (map (fun i => pos + Z.of_nat i) (seq 0 (length buf))) buf.

(** cli.c:142-146, the loop that reads a ROM file: all stores of the loop.
    Every round but the last stores at least one byte. *)
Fixpoint cli_read_loop (fuel : nat) (f : rfile) (pos : Z) : list (Z * Z) :=
  match fuel with
  | O => []
  | S fuel' =>
      if pos <? MEMORY_SIZE
      then let '(buf, f) := fread f 1024 in
           if zlen buf =? 0 then []
           else stores pos buf ++ cli_read_loop fuel' f (pos + zlen buf)
      else []
  end.

(** cli.c:138-150.  An incomplete element leaves the bytes that were read. *)
Definition cli_read_rom (f : rfile) (rom_size : Z) : list (Z * Z) :=
  if rom_size =? 0
  then cli_read_loop (S (length (f_data f))) f RESET_VECTOR
  else stores RESET_VECTOR (fst (fread f rom_size)).

(** The effect of stores on an object of [size] bytes. *)
Fixpoint apply_stores (size : Z) (m : arr) (l : list (Z * Z)) : res arr :=
  match l with
  | [] => Ok m
  | (i, v) :: l => rbind (aset size m i v) (fun m => apply_stores size m l)
  end.

(** cli.c:189-242: which file the emulator boots.  [self] is the executable
    itself, if it can be opened; [arg] is the file named by the first argument:
    [None] for no argument, [Some None] for a file that cannot be opened. *)
Inductive boot := Usage | CannotOpen | Booted (memory : arr).

Definition cli_main (arg : option (option (list Z))) (m : arr) : res boot :=
  match arg with
  | None => Ok Usage
  | Some None => Ok CannotOpen
  | Some (Some rom) =>
      rmap Booted (apply_stores MEMORY_SIZE m (cli_read_rom (mkRfile rom 0) 0))
  end.

Definition cli_start (self : option (list Z)) (arg : option (option (list Z))) (m : arr) : res boot :=
  match self with
  | None => cli_main arg m
  | Some exe =>
      rbind (bembd_find (mkRfile exe 0)) (fun '(n, f) =>
        if n =? 0 then cli_main arg m
        else rmap Booted (apply_stores MEMORY_SIZE m (cli_read_rom f n)))
  end.

(** linux/platform.c:34-45, [stdio_read], with [limit] for [rom_size] when
    [has_size_limit]. *)
Definition stdio_read (limit : option Z) (f : rfile) (size : Z) : list Z * option Z * rfile :=
  let size := match limit with Some l => if l <? size then l else size | None => size end in
  let '(buf, f) := fread f size in
  (buf, option_map (fun l => l - zlen buf) limit, f).

(** gui.c:397-416.  The stores and whether loading succeeds; [None] is running
    out of fuel.  [bytes_read] is the value of the last read. *)
Fixpoint gui_read_loop (fuel : nat) (limit : option Z) (f : rfile) (pos left_ bytes_read : Z)
  (acc : list (Z * Z)) : option (list (Z * Z) * bool) :=
  match fuel with
  | O => None
  | S fuel' =>
      if 0 <? left_
      then let '(buf, limit, f) := stdio_read limit f left_ in
           if 0 <? zlen buf
           then gui_read_loop fuel' limit f (pos + zlen buf) (left_ - zlen buf) (zlen buf) (acc ++ stores pos buf)
           else Some (acc, true)
      else Some (acc, negb (0 <? bytes_read))
  end.

Definition gui_load (limit : option Z) (f : rfile) : option (list (Z * Z) * bool) :=
  gui_read_loop (S (S (length (f_data f)))) limit f RESET_VECTOR (MEMORY_SIZE - RESET_VECTOR) 0 [].
