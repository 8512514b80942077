(** Model of src/asm/annotation.c and include/buxn/asm/annotation.h.

    A name is the C string the pointer points to; comparing with strcmp is
    comparing lists.  A file name of NULL, which marks that no prefix annotation
    is waiting, is [None] as the region; the assembler never gives a region
    without a file name.  Every comment symbol is taken to be read for its name,
    so one without a name, or with an empty one, is a fault. *)
From Verif Require Import Base AsmModel.
From Coq Require Import String.
Open Scope list_scope.

(** annotation.h:7-11 *)
Inductive anno_type : Type := AImmediate | APrefix | APostfix.
(** annotation.h:13-18 *)
Inductive comment_kind : Type := KMightBeType | KIsType | KIsCustom | KIsText.
(** annotation.h:20-26 *)
Record anno : Type := mkAnno { a_name : str; a_type : anno_type; a_region : option region }.
(** annotation.h:36-52.  [current_annotation] is an index into the annotations.
    Of the three comment symbols only [name != NULL] and the region are read,
    the region only if the name is not NULL. *)
Record aspec : Type := mkAspec {
  p_annos : list anno;
  p_def : symbol; p_rom : symbol; p_def_addr : Z; p_rom_addr : Z;
  p_current : option nat;
  p_start : option region; p_first : option region; p_last : option region;
  p_kind : comment_kind
}.
(** A call of the handler, annotation.h:28-34. *)
Record delivery : Type := mkDelivery { v_addr : Z; v_sym : symbol; v_anno : option nat; v_region : region }.

(** A zeroed [buxn_asm_sym_t]. *)
Definition zero_symbol : symbol := mkSymbol SMacro false 0 None (mkRegion [] no_pos no_pos).
(** The initial state: bindgen.c:79-91. *)
Definition start_spec (annos : list anno) : aspec :=
  mkAspec annos zero_symbol zero_symbol 0 0 None None None None KMightBeType.

(** annotation.c:11-16 *)
Definition in_rom (t : sym_type) : bool :=
  match t with SLabel | SLabelRef | SOpcode | SNumber | SText => true | _ => false end.

(** annotation.c:36-43: the first annotation of that name. *)
Fixpoint find_anno (annos : list anno) (name : str) (i : nat) : option nat :=
  match annos with
  | [] => None
  | a :: annos' => if str_eqb (a_name a) name then Some i else find_anno annos' name (S i)
  end.

Fixpoint set_region (annos : list anno) (i : nat) (r : region) : list anno :=
  match annos, i with
  | a :: annos', O => mkAnno (a_name a) (a_type a) (Some r) :: annos'
  | a :: annos', S i' => a :: set_region annos' i' r
  | [], _ => []
  end.

(** annotation.c:119-125 *)
Fixpoint deferred (annos : list anno) (i : nat) (addr : Z) (s : symbol) : list anno * list delivery :=
  match annos with
  | [] => ([], [])
  | a :: annos' =>
      let '(annos', l) := deferred annos' (S i) addr s in
      match a_region a with
      | Some r => (mkAnno (a_name a) (a_type a) None :: annos', mkDelivery addr s (Some i) r :: l)
      | None => (a :: annos', l)
      end
  end.

(** annotation.c:24-45 *)
Definition comment_start (p : aspec) (s : symbol) (name : str) : aspec :=
  let found := if Nat.eqb (List.length name) 1 then None else find_anno (p_annos p) (tl name) 0 in
  let kind :=
    if Nat.eqb (List.length name) 1 then match s_name (p_def p) with Some _ => KMightBeType | None => KIsText end
    else match found with Some _ => KIsCustom | None => KIsText end in
  mkAspec (p_annos p) (p_def p) (p_rom p) (p_def_addr p) (p_rom_addr p) found (Some (s_reg s)) None None kind.

(** annotation.c:46-98 *)
Definition comment_end (p : aspec) (s : symbol) : aspec * list delivery :=
  match p_start p with
  | None => (p, [])
  | Some start =>
      let region := mkRegion (r_file start)
        (match p_first p with Some r => r_start r | None => r_start start end)
        (match p_last p with Some r => r_end r | None => r_start (s_reg s) end) in
      let done annos := mkAspec annos (p_def p) (p_rom p) (p_def_addr p) (p_rom_addr p) None None None None (p_kind p) in
      match p_kind p, s_name (p_def p), p_current p with
      | KIsType, Some _, _ => (done (p_annos p), [mkDelivery (p_def_addr p) (p_def p) None region])
      | KIsCustom, _, Some i =>
          match nth_error (p_annos p) i with
          | Some a =>
              match a_type a with
              | AImmediate => (done (p_annos p), [mkDelivery (p_rom_addr p) (p_rom p) (Some i) region])
              | APrefix => (done (set_region (p_annos p) i region), [])
              | APostfix => (done (p_annos p), [mkDelivery (p_def_addr p) (p_def p) (Some i) region])
              end
          | None => (done (p_annos p), [])
          end
      | _, _, _ => (done (p_annos p), [])
      end
  end.

(** annotation.c:99-110 *)
Definition comment_middle (p : aspec) (s : symbol) (name : str) : aspec :=
  mkAspec (p_annos p) (p_def p) (p_rom p) (p_def_addr p) (p_rom_addr p) (p_current p) (p_start p)
    (match p_first p with Some r => Some r | None => Some (s_reg s) end) (Some (s_reg s))
    (match p_kind p with
     | KMightBeType => if str_eqb name (bytes "--") || str_eqb name (bytes "->") then KIsType else KMightBeType
     | k => k
     end).

(** annotation.c:4-132 [buxn_anno_handle_symbol] *)
Definition handle_symbol (p : aspec) (addr : Z) (s : symbol) : res (aspec * list delivery) :=
  let p := if in_rom (s_type s)
           then mkAspec (p_annos p) (p_def p) s (p_def_addr p) addr (p_current p) (p_start p) (p_first p) (p_last p) (p_kind p)
           else p in
  match s_type s with
  | SComment =>
      match s_name s with
      | None | Some [] => Fault BadHandle
      | Some name =>
          if s_id s =? 0 then Ok (comment_start p s name, [])
          else if (s_id s =? 1) && str_eqb name (bytes ")") then Ok (comment_end p s)
          else Ok (comment_middle p s name, [])
      end
  | t =>
      if match t with SMacro | SLabel => negb (s_gen s) | _ => false end then
        let '(annos, l) := deferred (p_annos p) 0 addr s in
        Ok (mkAspec annos s (p_rom p) addr (p_rom_addr p) (p_current p) (p_start p) (p_first p) (p_last p) (p_kind p), l)
      else
        let d := p_def p in
        Ok (mkAspec (p_annos p) (mkSymbol (s_type d) (s_gen d) (s_id d) None (s_reg d)) (p_rom p) 0 (p_rom_addr p)
              (p_current p) (p_start p) (p_first p) (p_last p) (p_kind p), [])
  end.

(** The calls of the handler for a stream of symbols. *)
Fixpoint handle_all (p : aspec) (l : list (Z * symbol)) : res (aspec * list delivery) :=
  match l with
  | [] => Ok (p, [])
  | (a, s) :: l' =>
      match handle_symbol p a s with
      | Ok (p, out) => match handle_all p l' with Ok (p, out') => Ok (p, out ++ out') | Fault f => Fault f end
      | Fault f => Fault f
      end
  end.
