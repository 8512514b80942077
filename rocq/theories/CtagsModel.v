(** src/ctags.c: the program buxn-ctags, which writes the labels and macros of a
    program to a tags file.  The assembler it calls is [asm] of AsmModel; its
    calls of the host are the list [evs].

    Not modelled: the log on standard error, memory that runs out, and errors
    while writing to a file that could be opened (main does not look at them). *)
From Verif Require Import Base AsmModel TransportModel.
From Coq Require Import String.
Open Scope list_scope.

(** ctags.c:13-17 [tag_t]; of the region the file and the first byte are used. *)
Record tag : Type := mkTag { tg_name : str; tg_file : str; tg_byte : Z; tg_kind : Z }.

(** ctags.c:24-32 [add_tag].  The symbols of labels and macros have a name. *)
Definition add_tag (s : symbol) (kind : Z) : tag :=
  mkTag (match s_name s with Some n => n | None => [] end) (r_file (s_reg s)) (byte (r_start (s_reg s))) kind.

(** ctags.c:51-60 [buxn_asm_put_symbol]; 46-49, 62-81: the other calls add nothing. *)
Definition put (e : event) : list tag :=
  match e with
  | ESym _ s =>
      match s_type s with
      | SMacro => [add_tag s 109]
      | SLabel => if s_gen s then [] else [add_tag s 108]
      | _ => []
      end
  | _ => []
  end.
(** The array [ctx.tags] after buxn_asm. *)
Definition tags (evs : list event) : list tag := flat_map put evs.

(** A char array as a C string: up to the first NUL. *)
Fixpoint c_str (s : str) : str :=
  match s with [] => [] | x :: s' => if x =? 0 then [] else x :: c_str s' end.
(** ISO C strcmp: the characters are compared as unsigned char. *)
Fixpoint cmp (a b : str) : Z :=
  match a, b with
  | [], [] => 0
  | [], _ :: _ => -1
  | _ :: _, [] => 1
  | x :: a', y :: b' => if u8 x =? u8 y then cmp a' b' else u8 x - u8 y
  end.
Definition strcmp (a b : str) : Z := cmp (c_str a) (c_str b).
(** ctags.c:34-39 *)
Definition sort_tag (l r : tag) : Z := strcmp (tg_name l) (tg_name r).

(** ctags.c:194 *)
Definition header : str := bytes "!_TAG_FILE_SORTED" ++ [9] ++ bytes "1" ++ [9] ++ bytes "buxn-ctags" ++ [10].
(** ctags.c:198-206: name, tab, file, tab, go <byte> and a mark, tab, kind.  The
    byte is an int in C; files of 2 GB and more are not considered. *)
Definition tag_line (t : tag) : str :=
  c_str (tg_name t) ++ [9] ++ c_str (tg_file t) ++ [9] ++ bytes "go " ++ decimal 20 (tg_byte t + 1) ++ bytes "|;""" ++ [9] ++
  [u8 (tg_kind t)] ++ [10].

(** ctags.c:125-165: the options.  [args] are argv[i..]; [out] and [inp] are
    [output_filename], once [tag_filename_set], and [input_filename]. *)
Inductive options : Type := OHelp | OWrong | ORun (out inp : str).
Fixpoint parse_args (out inp : option str) (args : list str) : options :=
  match args with
  | [] =>
      match inp with
      | None => OWrong
      | Some i => ORun (match out with Some o => o | None => bytes "tags" end) i
      end
  | arg :: rest =>
      match parse_flag arg (bytes "--help") with
      | Some _ => OHelp
      | None =>
          match parse_flag arg (bytes "-output=") with
          | Some v => match out with Some _ => OWrong | None => parse_args (Some v) inp rest end
          | None => match inp with None => parse_args out (Some arg) rest | Some _ => OWrong end
          end
      end
  end.

Section Main.
(** The C library: qsort with [sort_tag], and whether fopen(name, "wb") succeeds. *)
Variable qsort : list tag -> list tag.
Variable can_write : str -> bool.
(** buxn_asm on a file: its result and its calls of the host. *)
Variable buxn_asm : str -> bool * list event.

(** ctags.c:107-215 [main] for argv[1..]: the exit code, and the file that is
    written, by its name and content. *)
Definition main (args : list str) : Z * option (str * str) :=
  match parse_args None None args with
  | OHelp => (0, None)
  | OWrong => (1, None)
  | ORun out inp =>
      let '(success, evs) := buxn_asm inp in
      let ts := tags evs in
      if negb success && (match ts with [] => true | _ => false end) then (1, None)
      else if negb (can_write out) then (1, None)
      else (0, Some (out, header ++ List.concat (map tag_line (qsort ts))))
  end.
End Main.
