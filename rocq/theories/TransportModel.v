(** Opening the connection of the debugger: src/bflag.h,
    src/dbg/transports/from_str.c, stream.c and file.c, src/dbg-wrapper.c and
    the reading of BUXN_DBG_FD in src/cli.c.

    C strings are lists of non-zero bytes.  What the host does with an address
    (open, socket, getaddrinfo, ...) is not modelled beyond the address it is
    given and the file descriptors it hands out. *)
From Verif Require Import Base.
From Verif Require Export AsmModel.
From Coq Require Import Ascii String.
Open Scope list_scope.

(** bflag.h:6-14 [parse_flag]: strncmp over the length of the flag. *)
Fixpoint parse_flag (arg flag : str) {struct flag} : option str :=
  match flag, arg with
  | [], _ => Some arg
  | f :: flag', a :: arg' => if f =? a then parse_flag arg' flag' else None
  | _ :: _, [] => None
  end.

(** The string that a C function reads at [p] in an object of [n] bytes. *)
Fixpoint c_str_at (fuel : nat) (n : Z) (m : arr) (p : Z) : res str :=
  match fuel with
  | O => Fault (OobRead p)
  | S fuel' =>
      rbind (aget n m p) (fun c =>
      if c =? 0 then Ok [] else rbind (c_str_at fuel' n m (p + 1)) (fun s => Ok (c :: s)))
  end.

(** memcpy of the bytes of a string to [p] in an object of [n] bytes. *)
Fixpoint copy_to (n : Z) (m : arr) (p : Z) (s : str) : res arr :=
  match s with
  | [] => Ok m
  | c :: s' => rbind (aset n m p c) (fun m => copy_to n m (p + 1) s')
  end.

(** from_str.c:35-40: the loop that looks for the colon; [l] is buf[i..len-1]. *)
Fixpoint colon (l : str) (i : Z) : option Z :=
  match l with
  | [] => None
  | c :: l' => if c =? 58 then Some i else colon l' (i + 1)
  end.

(** sizeof("255.255.255.255:65535"), from_str.c:29 *)
Definition TCP_BUF : Z := 22.

(** What the host is asked for. *)
Inductive target : Type :=
| TFile (path : str)                          (* open(path, O_RDWR, 0) *)
| TUnix (listen : bool) (sun_path : str)      (* the first socklen - 2 bytes of sun_path *)
| TConnect (node service : str)               (* getaddrinfo(node, service), then connect *)
| TListen (network_port : Z)                  (* bind to INADDR_ANY and the port *)
| TFail                                       (* -1 without asking *)
| TInvalid.                                   (* -1 with errno = EINVAL *)

(** from_str.c:28-53.  [junk] is what the array [buf], which is not
    initialised, happens to hold. *)
Definition tcp_connect (junk : arr) (arg : str) : res target :=
  if len arg >? TCP_BUF then Ok TFail
  else
    rbind (copy_to TCP_BUF junk 0 arg) (fun buf =>
    match colon arg 0 with
    | None => Ok TFail
    | Some i =>
        rbind (aset TCP_BUF buf i 0) (fun buf =>
        rbind (c_str_at 23 TCP_BUF buf 0) (fun node =>
        rbind (c_str_at 23 TCP_BUF buf (i + 1)) (fun service =>
        Ok (TConnect node service))))
    end).

(** isspace in the C locale *)
Definition is_space (c : Z) : bool := (c =? 32) || ((9 <=? c) && (c <=? 13)).
Definition is_digit (c : Z) : bool := (48 <=? c) && (c <=? 57).

Fixpoint skip_spaces (s : str) : str :=
  match s with c :: s' => if is_space c then skip_spaces s' else s | [] => [] end.
Fixpoint digits (s : str) (acc : Z) : Z :=
  match s with c :: s' => if is_digit c then digits s' (acc * 10 + (c - 48)) else acc | [] => acc end.

Definition LONG_MAX : Z := 9223372036854775807.

(** ISO C strtol(s, NULL, 10): the value and whether errno was set (only for a
    value out of range, as in glibc); [long] has 64 bits. *)
Definition strtol (s : str) : Z * bool :=
  let s := skip_spaces s in
  let '(neg, s) :=
    match s with
    | c :: s' => if c =? 45 then (true, s') else if c =? 43 then (false, s') else (false, s)
    | [] => (false, s)
    end in
  let v := if neg then - digits s 0 else digits s 0 in
  if v >? LONG_MAX then (LONG_MAX, true)
  else if v <? - LONG_MAX - 1 then (- LONG_MAX - 1, true)
  else (v, false).

(** A 16-bit variable of a little-endian or big-endian machine, read as the
    network reads it: the first byte is the high one. *)
Definition as_network (little : bool) (x : Z) : Z :=
  if little then x mod 256 * 256 + x / 256 else x.

(** from_str.c:54-67.  [.sin_port = port] converts to uint16_t. *)
Definition tcp_listen (little : bool) (arg : str) : target :=
  let '(port, range) := strtol arg in
  if range then TFail else TListen (as_network little (u16 port)).

(** sizeof(sun_path) on Linux *)
Definition SUN_PATH : Z := 108.

(** stream.c:46-69: the array is zero (the initialiser names another member);
    bind and connect are given [name_len + 1] bytes of it. *)
Definition taken (buf : arr) (n : Z) : str := map (fun i => buf (Z.of_nat i)) (seq 0 (Z.to_nat n)).

Definition unix_addr (name : str) : res (option str) :=
  if len name >=? SUN_PATH then Ok None
  else
    rbind (copy_to SUN_PATH (fun _ => 0) 0 name) (fun buf =>
    rbind (aset SUN_PATH buf (len name) 0) (fun buf =>
    Ok (Some (taken buf (len name + 1))))).

(** stream.c:71-92 *)
Definition abstract_addr (name : str) : res (option str) :=
  if len name >=? SUN_PATH then Ok None
  else
    rbind (copy_to SUN_PATH (fun _ => 0) 1 name) (fun buf =>
    rbind (aset SUN_PATH buf 0 0) (fun buf =>
    Ok (Some (taken buf (len name + 1))))).

Definition on_path (listen : bool) (r : res (option str)) : res target :=
  rbind r (fun o => Ok (match o with Some p => TUnix listen p | None => TFail end)).

(** from_str.c:12-70 [buxn_dbg_transport_from_str] *)
Definition from_str (little : bool) (junk : arr) (s : str) : res target :=
  match parse_flag s (bytes "file:") with Some arg => Ok (TFile arg) | None =>
  match parse_flag s (bytes "unix-connect:") with Some arg => on_path false (unix_addr arg) | None =>
  match parse_flag s (bytes "unix-listen:") with Some arg => on_path true (unix_addr arg) | None =>
  match parse_flag s (bytes "abstract-connect:") with Some arg => on_path false (abstract_addr arg) | None =>
  match parse_flag s (bytes "abstract-listen:") with Some arg => on_path true (abstract_addr arg) | None =>
  match parse_flag s (bytes "tcp-connect:") with Some arg => tcp_connect junk arg | None =>
  match parse_flag s (bytes "tcp-listen:") with Some arg => Ok (tcp_listen little arg) | None =>
  Ok TInvalid end end end end end end end.

(** System calls on sockets, with their results; [None] is a result below
    zero.  For accept, [AIntr] is -1 with errno EINTR. *)
Inductive accepted : Type := AFd (fd : Z) | AIntr | AError.
Inductive call : Type :=
| CSocket (fd : option Z) | CBind (fd : option Z) (ok : bool) | CListen (fd : option Z) (ok : bool)
| CAccept (fd : option Z) (r : accepted) | CConnect (fd : option Z) (ok : bool) | CClose (fd : option Z).

(** stream.c:25-33: the loop around accept.  [rs] are the answers of the host;
    [None] is a loop that is still waiting when they are used up. *)
Fixpoint accept_loop (fd : option Z) (rs : list accepted) : list call * option (option Z) :=
  match rs with
  | [] => ([], None)
  | AIntr :: rs' => let '(l, r) := accept_loop fd rs' in (CAccept fd AIntr :: l, r)
  | AFd c :: _ => ([CAccept fd (AFd c); CClose fd], Some (Some c))
  | AError :: _ => ([CAccept fd AError; CClose fd], Some None)
  end.

(** stream.c:11-34 [buxn_dbg_transport_stream_listen]: the calls and the result. *)
Definition stream_listen (fd : option Z) (bind_ok listen_ok : bool) (rs : list accepted) : list call * option (option Z) :=
  if negb bind_ok then ([CSocket fd; CBind fd false; CClose fd], Some None)
  else if negb listen_ok then ([CSocket fd; CBind fd true; CListen fd false; CClose fd], Some None)
  else let '(l, r) := accept_loop fd rs in (CSocket fd :: CBind fd true :: CListen fd true :: l, r).

(** stream.c:36-44 [buxn_dbg_transport_stream_connect] *)
Definition stream_connect (fd : option Z) (connect_ok : bool) : list call * option (option Z) :=
  if connect_ok then ([CSocket fd; CConnect fd true], Some fd)
  else ([CSocket fd; CConnect fd false; CClose fd], Some None).

(** dbg-wrapper.c:12-51: the options.  [args] are argv[i..]. *)
Inductive wrapped : Type :=
| WHelp
| WUsage
| WRun (transport : str) (command : list str).

Fixpoint wrapper_args (transport : str) (args : list str) : wrapped :=
  match args with
  | [] => WUsage
  | arg :: rest =>
      match parse_flag arg (bytes "--help") with Some _ => WHelp | None =>
      match parse_flag arg (bytes "-transport=") with Some v => wrapper_args v rest | None =>
      if str_eqb arg (bytes "--")
      then match rest with [] => WUsage | _ => WRun transport rest end
      else WRun transport args
      end end
  end.
Definition wrapper_main (args : list str) : wrapped := wrapper_args (bytes "abstract-listen:buxn/vm") args.

(** printf("%d") of a number that is not negative; [fuel] digits suffice. *)
Fixpoint decimal (fuel : nat) (n : Z) : str :=
  match fuel with
  | O => []
  | S fuel' => (if n <? 10 then [] else decimal fuel' (n / 10)) ++ [48 + n mod 10]
  end.

(** dbg-wrapper.c:60-62: snprintf into 11 bytes cuts off at 10 characters. *)
Definition dbg_fd_env (fd : Z) : str := firstn 10 (decimal 20 fd).

(** cli.c:125-134: the descriptor that is used, if any. *)
Definition dbg_fd (env : option str) : option Z :=
  match env with
  | None => None
  | Some s => let '(fd, range) := strtol s in
      if negb range && (0 <=? fd) && (fd <? INT_MAX) then Some fd else None
  end.
