(** Model of src/linux/platform.c and src/win32/platform.c: the command line of the
    graphical emulator and the ROM that it boots.

    Files are as in BootModel, words of the command line are lists of bytes without
    their final zero.  Not modelled: the icon, the log itself, the window, and the
    number that [strtod] makes of the text of a scale. *)
From Verif Require BootModel.
From Verif Require Import Base VmModel GuiModel.

(** The levels of blog.h. *)
Inductive level : Type := Trace | Debug | Info | Warn | Error | Fatal.

(** linux/platform.c:47-55, win32/platform.c:39-46 [get_arg] *)
Fixpoint get_arg (arg prefix : list Z) : option (list Z) :=
  match prefix with
  | [] => Some arg
  | c :: prefix => match arg with a :: arg => if a =? c then get_arg arg prefix else None | [] => None end
  end.
(** [strcmp] giving 0 *)
Fixpoint streq (a b : list Z) : bool :=
  match a, b with
  | [], [] => true
  | x :: a, y :: b => (x =? y) && streq a b
  | _, _ => false
  end.

(** linux/platform.c:67-79 *)
Definition read_level (value : list Z) (l : level) : level :=
  if streq value [116; 114; 97; 99; 101] then Trace
  else if streq value [100; 101; 98; 117; 103] then Debug
  else if streq value [105; 110; 102; 111] then Info
  else if streq value [119; 97; 114; 110] then Warn
  else if streq value [101; 114; 114; 111; 114] then Error
  else if streq value [102; 97; 116; 97; 108] then Fatal
  else l.
(** linux/platform.c:62-88: the loop over the options, with the words that are left;
    win32/platform.c:53-78 has no scale. *)
Fixpoint options (windows : bool) (argv : list (list Z)) (l : level) (scale : option (list Z)) : level * option (list Z) * list (list Z) :=
  match argv with
  | [] => (l, scale, [])
  | arg :: rest =>
      match get_arg arg [45; 108; 111; 103; 45; 108; 101; 118; 101; 108; 61] with
      | Some value => options windows rest (read_level value l) scale
      | None =>
          match (if windows then None else get_arg arg [45; 115; 99; 97; 108; 101; 61]) with
          | Some value => options windows rest l (Some value)
          | None => if streq arg [45; 45] then (l, scale, rest) else (l, scale, arg :: rest)
          end
      end
  end.

(** What is set up: the log level, the scale, the file to boot with its limit, and
    the arguments for the program. *)
Record platform : Type := mkPlatform {
  p_level : level; p_scale : option (list Z); p_rom : option (option Z * BootModel.rfile); p_args : list (list Z) }.

(** linux/platform.c:57-103 [standalone_init]; [open] is [fopen]. *)
Definition standalone_init (windows : bool) (open : list Z -> option (list Z)) (l : level) (argv : list (list Z)) : platform :=
  let '(l, scale, argv) := options windows argv l None in
  let name := match argv with [] => [98; 111; 111; 116; 46; 114; 111; 109] | name :: _ => name end in
  mkPlatform l scale (option_map (fun data => (None, BootModel.mkRfile data 0)) (open name)) (tl argv).
(** linux/platform.c:113-161 [platform_init], with 105-111 [embeded_init]; the level
    at the start depends on _DEBUG.  Without a name [fopen] gets a null pointer. *)
Definition platform_init (windows : bool) (open : list Z -> option (list Z)) (debug : bool) (argv : list (list Z)) : res platform :=
  let l := if debug then Trace else Info in
  match argv with
  | [] => Fault BadHandle
  | name :: argv =>
      match open name with
      | None => Ok (standalone_init windows open l argv)
      | Some self =>
          rbind (BootModel.bembd_find (BootModel.mkRfile self 0)) (fun '(n, f) =>
          if n =? 0 then Ok (standalone_init windows open l argv)
          else Ok (mkPlatform l None (Some (Some n, f)) argv))
      end
  end.

(** What the calls of [stdio_read] in gui.c:399-405 give, up to the last one. *)
Fixpoint rom_reads (fuel : nat) (limit : option Z) (f : BootModel.rfile) (mem_left : Z) : list (option (list Z)) :=
  match fuel with
  | O => []
  | S fuel =>
      if mem_left >? 0 then
        let '(buf, limit, f) := BootModel.stdio_read limit f mem_left in
        if BootModel.zlen buf >? 0 then Some buf :: rom_reads fuel limit f (mem_left - BootModel.zlen buf) else []
      else []
  end.

(** gui.c:937-944 with 392-395: what comes of a command line.  [NoRom] is a ROM that
    cannot be opened (linux/platform.c:207-217). *)
Inductive launched (H : Type) : Type := NoRom | Launched (x : loaded H).
Arguments NoRom {H}.
Arguments Launched {H} x.
Definition gui_process (H : Type) hs now voices junk hi_first kw kr fuel (windows : bool) (open : list Z -> option (list Z)) (debug : bool)
    (argv : list (list Z)) (v : vm) (g : gui H) : res (launched H) :=
  rbind (platform_init windows open debug argv) (fun p =>
  match p_rom p with
  | None => Ok NoRom
  | Some (limit, f) =>
      rbind (load_boot_rom H hs now voices junk hi_first kw kr fuel
               (rom_reads (S (length (BootModel.f_data f))) limit f (vm_msize v - 256)) (p_args p) v g) (fun x => Ok (Launched x))
  end).
