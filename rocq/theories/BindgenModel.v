(** src/bindgen.c: the program buxn-bindgen, which writes a C header with the
    ports, constants and command blocks of a program.

    The assembler's calls of the host are a list of events; its use of
    annotation.c is AnnoModel.  The printed text is kept as pieces, which
    [piece_text] and [struct_text] write out.

    Not modelled: the command line (the library barg), memory that runs out,
    errors of the standard output.  tolower and toupper are those of the C
    locale; a byte above 127 is handed to them as a negative char, which ISO C
    leaves undefined: here it stays as it is. *)
From Verif Require Import Base AsmModel AnnoModel TransportModel.
From Coq Require Import String.
Open Scope list_scope.

(** bindgen.c:38-42, with the names of lines 79-83. *)
Inductive section_type : Type := TDevice | TEnum | TCommand.
Definition types : list section_type := [TDevice; TEnum; TCommand].
Definition ANNOTATIONS : list anno :=
  [mkAnno (bytes "device") APrefix None; mkAnno (bytes "enum") APrefix None; mkAnno (bytes "command") APrefix None].

(** bindgen.c:15-18, and the array [format_options]. *)
Record style : Type := mkStyle { y_prefix : str; y_suffix : str }.
(** bindgen.c:91-95: the styles without options. *)
Definition default_styles (t : section_type) : style :=
  match t with
  | TDevice => mkStyle (bytes "dev_") (bytes "_layout_t")
  | TEnum => mkStyle [] (bytes "_t")
  | TCommand => mkStyle (bytes "cmd_") (bytes "_t")
  end.

(** bindgen.c:23-36; the linked lists are lists. *)
Record field : Type := mkField { d_name : str; d_size : Z }.
Record cstruct : Type := mkStruct { c_name : str; c_fields : list field }.

(** What is printed while the assembler runs. *)
Inductive piece : Type :=
| PBegin (t : section_type)
| PConst (t : section_type) (name scope local : str) (value : Z)
| PEnd (t : section_type) (scope : str).

(** bindgen.c:44-57 [buxn_asm_ctx_s].  A [str_t] of length 0 is []; [g_cmds] is
    the list from [first_cmd] to [last_cmd]. *)
Record gen : Type := mkGen {
  g_spec : aspec; g_scope : str; g_type : section_type; g_base : Z; g_last : Z;
  g_cmds : list cstruct; g_name : str; g_out : list piece
}.
(** bindgen.c:84-96 *)
Definition gen_start : gen := mkGen (start_spec ANNOTATIONS) [] TDevice 0 0 [] [] [].

(** bindgen.c:316-330 [split_label_name] *)
Fixpoint scope_of (name : str) : str :=
  match name with [] => [] | x :: n => if x =? 47 then [] else x :: scope_of n end.
Fixpoint local_of (name : str) : str :=
  match name with [] => [] | x :: n => if x =? 47 then n else local_of n end.

(** bindgen.c:503-521 [finalize_section] *)
Definition finalize (g : gen) : gen :=
  match g_scope g with
  | [] => g
  | _ => mkGen (g_spec g) [] (g_type g) (g_base g) (g_last g) (g_cmds g) (g_name g) (g_out g ++ [PEnd (g_type g) (g_scope g)])
  end.

(** bindgen.c:452-501 [handle_annotation]; a symbol without name would be a NULL
    given to strchr. *)
Definition handle_annotation (g : gen) (v : delivery) : res gen :=
  match v_anno v with
  | None => Ok g
  | Some i =>
      match nth_error types i, s_name (v_sym v) with
      | Some t, Some name =>
          let g := finalize g in
          let scope := scope_of name in
          Ok (mkGen (g_spec g) scope t (v_addr v) (v_addr v)
                (match t with TCommand => g_cmds g ++ [mkStruct scope []] | _ => g_cmds g end)
                (g_name g) (g_out g ++ [PBegin t]))
      | _, _ => Fault BadHandle
      end
  end.
Fixpoint handle_annotations (g : gen) (l : list delivery) : res gen :=
  match l with
  | [] => Ok g
  | v :: l' => match handle_annotation g v with Ok g => handle_annotations g l' | Fault f => Fault f end
  end.

(** bindgen.c:386-393, 438-445: the new field goes to [last_cmd]. *)
Fixpoint add_field (l : list cstruct) (f : field) : res (list cstruct) :=
  match l with
  | [] => Fault BadHandle
  | [c] => Ok [mkStruct (c_name c) (c_fields c ++ [f])]
  | c :: l' => match add_field l' f with Ok l' => Ok (c :: l') | Fault x => Fault x end
  end.
(** bindgen.c:370-396 and 422-448 *)
Definition flush (g : gen) (addr : Z) : res gen :=
  if negb (addr =? g_last g) && negb (str_eqb (g_name g) []) then
    match add_field (g_cmds g) (mkField (g_name g) (u16 (addr - g_last g))) with
    | Ok cmds => Ok (mkGen (g_spec g) (g_scope g) (g_type g) (g_base g) (g_last g) cmds [] (g_out g))
    | Fault f => Fault f
    end
  else Ok g.

(** bindgen.c:406-417: the value that is printed. *)
Definition const_value (t : section_type) (addr base : Z) : Z :=
  match t with TCommand => addr - base | _ => addr end.

(** bindgen.c:355-450 [buxn_asm_put_symbol] *)
Definition put_symbol (g : gen) (addr : Z) (s : symbol) : res gen :=
  match handle_symbol (g_spec g) addr s with
  | Fault f => Fault f
  | Ok (spec, ds) =>
      let g := mkGen spec (g_scope g) (g_type g) (g_base g) (g_last g) (g_cmds g) (g_name g) (g_out g) in
      match handle_annotations g ds with
      | Fault f => Fault f
      | Ok g =>
          match s_type s with
          | SLabel =>
              match s_name s with
              | None => Fault BadHandle
              | Some name =>
                  let scope := scope_of name in
                  let local := local_of name in
                  if str_eqb scope (g_scope g) && negb (str_eqb local []) then
                    match flush g addr with
                    | Fault f => Fault f
                    | Ok g =>
                        Ok (mkGen (g_spec g) (g_scope g) (g_type g) (g_base g) addr (g_cmds g)
                              (match g_type g with TCommand => local | _ => g_name g end)
                              (g_out g ++ [PConst (g_type g) name scope local (const_value (g_type g) addr (g_base g))]))
                    end
                  else Ok g
              end
          | _ => flush g addr
          end
      end
  end.
Fixpoint put_symbols (g : gen) (l : list (Z * symbol)) : res gen :=
  match l with
  | [] => Ok g
  | (a, s) :: l' => match put_symbol g a s with Ok g => put_symbols g l' | Fault f => Fault f end
  end.
(** The other calls of the host do nothing here: bindgen.c:298-314. *)
Definition symbols_of (evs : list event) : list (Z * symbol) :=
  flat_map (fun e => match e with ESym a s => [(a, s)] | _ => [] end) evs.

(** bindgen.c:174-175: what main has when the assembler has returned and
    [finalize_section] was called. *)
Definition generate (evs : list event) : res gen :=
  match put_symbols gen_start (symbols_of evs) with Ok g => Ok (finalize g) | Fault f => Fault f end.

(** bindgen.c:332-353 [print_null_str] and [print_str] *)
Definition lower (c : Z) : Z := if c =? 45 then 95 else if (65 <=? c) && (c <=? 90) then c + 32 else c.
Definition upper (c : Z) : Z := if c =? 45 then 95 else if (97 <=? c) && (c <=? 122) then c - 32 else c.

(** printf's %d and %02x *)
Definition signed (n : Z) : str := if n <? 0 then 45 :: decimal 20 (- n) else decimal 20 n.
Definition digit (n : Z) : Z := if n <? 10 then 48 + n else 87 + n.
Definition hex (n : Z) : str :=
  (if n <? 4096 then [] else [digit (n / 4096)]) ++ (if n <? 256 then [] else [digit (n / 256 mod 16)]) ++
  [digit (n / 16 mod 16); digit (n mod 16)].

Section Text.
Variable styles : section_type -> style.

(** The name of a constant, bindgen.c:401-404 and 220-223, 245-248. *)
Definition const_name (t : section_type) (scope local : str) : str :=
  map upper (y_prefix (styles t)) ++ map upper scope ++ bytes "_" ++ map upper local.

(** bindgen.c:398-417, 473-481, 506-518 *)
Definition piece_text (p : piece) : str :=
  match p with
  | PBegin TCommand => [10] ++ bytes "enum {" ++ [10]
  | PBegin _ => [10] ++ bytes "typedef enum {" ++ [10]
  | PConst t name scope local v =>
      [9] ++ bytes "/// " ++ name ++ [10; 9] ++ const_name t scope local ++
      (match t with TDevice => bytes " = 0x" ++ hex v | _ => bytes " = " ++ signed v end) ++ bytes "," ++ [10]
  | PEnd TCommand _ => bytes "};" ++ [10]
  | PEnd t scope => bytes "} " ++ y_prefix (styles t) ++ map lower scope ++ y_suffix (styles t) ++ bytes ";" ++ [10]
  end.

(** bindgen.c:177-255 *)
Definition wide (f : field) : bool := negb (d_size f =? 1).
Definition struct_text (c : cstruct) : str :=
  let type_name := y_prefix (styles TCommand) ++ map lower (c_name c) ++ y_suffix (styles TCommand) in
  let function := y_prefix (styles TCommand) ++ map lower (c_name c) in
  let off f := const_name TCommand (c_name c) (d_name f) in
  let two f := if wide f then bytes "2" else [] in
  [10] ++ bytes "typedef struct {" ++ [10] ++
  flat_map (fun f => [9] ++ (if wide f then bytes "uint16_t " else bytes "uint8_t ") ++ map lower (d_name f) ++ bytes ";" ++ [10]) (c_fields c) ++
  bytes "} " ++ type_name ++ bytes ";" ++ [10] ++
  [10] ++ bytes "static inline " ++ type_name ++ [10] ++ function ++ bytes "_read(buxn_vm_t* vm, uint16_t addr) {" ++ [10; 9] ++
  bytes "return (" ++ type_name ++ bytes ") {" ++ [10] ++
  flat_map (fun f => [9; 9] ++ bytes "." ++ map lower (d_name f) ++ bytes " = buxn_vm_mem_load" ++ two f ++ bytes "(vm, addr + " ++ off f ++ bytes ")," ++ [10]) (c_fields c) ++
  [9] ++ bytes "};" ++ [10] ++ bytes "}" ++ [10] ++
  [10] ++ bytes "static inline void" ++ [10] ++ function ++ bytes "_write(buxn_vm_t* vm, uint16_t addr, " ++ type_name ++ bytes " value) {" ++ [10] ++
  flat_map (fun f => [9] ++ bytes "buxn_vm_mem_store" ++ two f ++ bytes "(vm, addr + " ++ off f ++ bytes ", value." ++ map lower (d_name f) ++ bytes ");" ++ [10]) (c_fields c) ++
  bytes "}" ++ [10].

(** bindgen.c:163-263: the header.  [args] are argv[1..]. *)
Definition header_text (guard : option str) (args : list str) (success : bool) (g : gen) : str :=
  (match guard with Some n => bytes "#ifndef " ++ n ++ [10] ++ bytes "#define " ++ n ++ [10; 10] | None => [] end) ++
  bytes "// buxn-bindgen" ++ flat_map (fun a => bytes " " ++ a) args ++ [10] ++
  flat_map piece_text (g_out g) ++ flat_map struct_text (g_cmds g) ++
  (if success then [] else [10] ++ bytes "#warning ""Error encountered, header might be incomplete""" ++ [10]) ++
  (match guard with Some _ => [10] ++ bytes "#endif" ++ [10] | None => [] end).
End Text.

(** What the printed functions do, in C (bindgen.c:208-254, vm.h:93-112): a field
    is at [addr] plus the constant of its name, as uint16_t. *)
Definition field_read (m : arr) (addr : Z) (f : Z * bool) : Z :=
  let '(off, w) := f in
  if w then Z.lor (Z.shiftl (m (u16 (u16 (addr + off) + 0))) 8) (m (u16 (u16 (addr + off) + 1))) else m (u16 (addr + off)).
Definition field_write (m : arr) (addr : Z) (f : Z * bool) (v : Z) : arr :=
  let '(off, w) := f in
  if w then upd (upd m (u16 (u16 (addr + off) + 0)) (Z.shiftr (Z.land v 65280) 8)) (u16 (u16 (addr + off) + 1)) (Z.land v 255)
  else upd m (u16 (addr + off)) (u8 v).
Definition struct_read (m : arr) (addr : Z) (fs : list (Z * bool)) : list Z := map (field_read m addr) fs.
Fixpoint struct_write (m : arr) (addr : Z) (fs : list (Z * bool)) (vs : list Z) : arr :=
  match fs, vs with
  | f :: fs', v :: vs' => struct_write (field_write m addr f v) addr fs' vs'
  | _, _ => m
  end.
