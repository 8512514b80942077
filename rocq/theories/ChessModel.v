(** Model of the type checker: src/asm/chess.c, include/buxn/asm/chess.h, with
    the host functions of src/asm.c that it calls.

    Simplifications.  Names and source regions of values only appear in
    messages and are left out; the type name of a nominal value is kept.  A
    message is a constructor.  Traces (begin, end of the analysis of a routine)
    are kept, of the text printed in between only [RRepeat].  The maps are the HAMT of
    HamtModel.v and are maps here.  Allocation never fails.  The pool of entries
    is not modelled: an entry is copied when it is taken out of the list. *)
From Verif Require Import Base VmModel AsmModel.
From Coq Require Import String.
Open Scope list_scope.

(** ** Values, chess.h:11-52 *)

(** chess.h:44-52; the flags of [semantics] (chess.h:11-21) are fields.
    [v_whole] points to a node of the pool, chess.c:61-64; the type name is
    the first [type.len] characters.  [signature] is only read in values of
    labels, see [info]. *)
Record value : Type := mkV {
  v_short : bool; v_const : bool; v_addr : bool; v_ret : bool; v_rout : bool;
  v_nom : bool; v_fork : bool; v_hi : bool; v_lo : bool;
  v_type : str; v_whole : option Z; v_val : Z
}.

(** [{ 0 }] *)
Definition v0 : value := mkV false false false false false false false false false [] None 0.
(** [.semantics = BUXN_CHESS_SEM_SIZE_x]: a value of a size and nothing else. *)
Definition plain (short : bool) : value := mkV short false false false false false false false false [] None 0.

Definition set_short (b : bool) (v : value) : value :=
  mkV b (v_const v) (v_addr v) (v_ret v) (v_rout v) (v_nom v) (v_fork v) (v_hi v) (v_lo v) (v_type v) (v_whole v) (v_val v).
Definition set_const (n : Z) (v : value) : value :=
  mkV (v_short v) true (v_addr v) (v_ret v) (v_rout v) (v_nom v) (v_fork v) (v_hi v) (v_lo v) (v_type v) (v_whole v) n.
Definition set_val (n : Z) (v : value) : value :=
  mkV (v_short v) (v_const v) (v_addr v) (v_ret v) (v_rout v) (v_nom v) (v_fork v) (v_hi v) (v_lo v) (v_type v) (v_whole v) n.
Definition or_addr (b : bool) (v : value) : value :=
  mkV (v_short v) (v_const v) (v_addr v || b) (v_ret v) (v_rout v) (v_nom v) (v_fork v) (v_hi v) (v_lo v) (v_type v) (v_whole v) (v_val v).
Definition or_fork (b : bool) (v : value) : value :=
  mkV (v_short v) (v_const v) (v_addr v) (v_ret v) (v_rout v) (v_nom v) (v_fork v || b) (v_hi v) (v_lo v) (v_type v) (v_whole v) (v_val v).
Definition set_nominal (t : str) (v : value) : value :=
  mkV (v_short v) (v_const v) (v_addr v) (v_ret v) (v_rout v) true (v_fork v) (v_hi v) (v_lo v) t (v_whole v) (v_val v).

(** chess.c:403-406 *)
Definition vsize (v : value) : Z := if v_short v then 2 else 1.

(** chess.h:68-72 *)
Record stack : Type := mkStk { k_len : Z; k_size : Z; k_at : Z -> value }.
Definition empty_stack : stack := mkStk 0 0 (fun _ => v0).
Definition put_at (f : Z -> value) (i : Z) (v : value) : Z -> value := fun j => if j =? i then v else f j.

(** chess.c:479-487; [len] is a uint8_t, so the index is inside. *)
Definition raw_push (k : stack) (v : value) : stack :=
  mkStk (u8 (k_len k + 1)) (u8 (k_size k + vsize v)) (put_at (k_at k) (k_len k) v).

(** chess.h:34-37,54-66 *)
Inductive rtype : Type := Vector | Subroutine.
Record signature : Type := mkSig {
  g_win : list value; g_rin : list value; g_wout : list value; g_rout : list value; g_type : rtype
}.
(** chess.c:73-77 *)
Record cast : Type := mkCast { c_wst : list value; c_rst : list value }.

(** chess.c:86-96.  Of the value of a label only BUXN_CHESS_SEM_ROUTINE and the
    signature are ever set. *)
Record info : Type := mkInfo {
  i_rout : bool; i_sig : option signature; i_marked : bool; i_term : bool; i_err : bool
}.
Definition info0 : info := mkInfo false None false false false.
(** [addr_info->value] where it is copied (chess.c:1312, 1738, 1756, 1761, ...). *)
Definition info_value (i : info) : value := mkV false false false false (i_rout i) false false false false [] None 0.

(** What is kept of a symbol of the assembler (chess.c:2624-2642); two
    symbols are the same object iff their numbers are equal. *)
Record csym : Type := mkCsym { y_id : Z; y_type : sym_type; y_name : str; y_reg : region }.

(** chess.c:129-136 *)
Record entry : Type := mkEntry { e_info : Z; e_wst : stack; e_rst : stack; e_address : Z }.

(** The messages. *)
Inductive msg : Type :=
| CUnderflow | COverflow | CSizeMismatch | CNotRoutine | CNotAssignable | CSubBrk | CVectorReturn
| CUnknownJump | CSubIntoVector | CRstTooSmall | CBadJumpTarget | CNonOpcode | CZeroPage | CCastMismatch
| CNoTermination
| WNotAddress | WLoad | WLoadCode | WStore | WStoreCode | WDei | WDeo | WLiteral
| WSealed | WToken | WTooMany | WRedundant.
(** What the host sees: reports, the end of a trace with [ctx.success]
    (chess.c:2064-2068), the writes to devices (chess.c:1478-1500) and the trace
    line that a repeated jump is not followed (chess.c:1213-1218). *)
Inductive report : Type :=
| RError (m : msg) | RWarning (m : msg) | REnd (success : bool) | RDeo (w r : stack) (v port : Z) | RRepeat.

(** Outcomes that are not a normal continuation: reading or writing outside an
    array, a failed assert, a signed overflow. *)
Inductive cfault : Type := CRead (i : Z) | CAssert | CIntOverflow.
Inductive cres (A : Type) : Type := COk (a : A) | CFault (f : cfault).
Arguments COk {A} a. Arguments CFault {A} f.

(** chess.c:155-191.  [h_order] is the linked list of the address map (newest
    first), [h_list] the verification list, [h_pool] the free nodes, [h_node]
    their contents and [h_next] the node the next allocation returns. *)
Record chess : Type := mkChess {
  h_infos : Z -> option info; h_order : list Z;
  h_jumps : Z -> bool;
  h_casts : Z -> option cast;
  h_syms : Z -> option csym;
  h_rom : Z -> Z;
  h_list : list entry;
  h_pool : list Z; h_node : Z -> value; h_next : Z;
  h_success : bool;
  h_reports : list report
}.

(** chess.c:138-153, with the chess object inside.  [x_sw], [x_sr] are the
    shadow stacks (chess.c:1961-1962); [ctx.wsp] and [ctx.rsp] point to them iff
    the keep flag of the opcode is set (chess.c:2024-2034). [x_inner]: the loop of
    chess.c:1977-1996 is running. *)
Record ctx : Type := mkCtx {
  x_h : chess; x_info : Z; x_w : stack; x_r : stack; x_sw : stack; x_sr : stack;
  x_values : list Z; x_pc : Z; x_op : Z; x_term : bool; x_success : bool; x_inner : bool
}.

Definition with_h (x : ctx) (h : chess) : ctx :=
  mkCtx h (x_info x) (x_w x) (x_r x) (x_sw x) (x_sr x) (x_values x) (x_pc x) (x_op x) (x_term x) (x_success x) (x_inner x).
Definition with_pc (x : ctx) (pc : Z) : ctx :=
  mkCtx (x_h x) (x_info x) (x_w x) (x_r x) (x_sw x) (x_sr x) (x_values x) pc (x_op x) (x_term x) (x_success x) (x_inner x).
Definition with_inner (x : ctx) (b : bool) : ctx :=
  mkCtx (x_h x) (x_info x) (x_w x) (x_r x) (x_sw x) (x_sr x) (x_values x) (x_pc x) (x_op x) (x_term x) (x_success x) b.
(** chess.c:408-411 *)
Definition terminate (x : ctx) : ctx :=
  mkCtx (x_h x) (x_info x) (x_w x) (x_r x) (x_sw x) (x_sr x) (x_values x) (x_pc x) (x_op x) true (x_success x) (x_inner x).

Definition h_with_infos (h : chess) (f : Z -> option info) : chess :=
  mkChess f (h_order h) (h_jumps h) (h_casts h) (h_syms h) (h_rom h) (h_list h) (h_pool h) (h_node h) (h_next h) (h_success h) (h_reports h).
Definition h_with_list (h : chess) (l : list entry) : chess :=
  mkChess (h_infos h) (h_order h) (h_jumps h) (h_casts h) (h_syms h) (h_rom h) l (h_pool h) (h_node h) (h_next h) (h_success h) (h_reports h).
Definition h_with_jump (h : chess) (key : Z) : chess :=
  mkChess (h_infos h) (h_order h) (fun j => (j =? key) || h_jumps h j) (h_casts h) (h_syms h) (h_rom h) (h_list h) (h_pool h) (h_node h) (h_next h) (h_success h) (h_reports h).
Definition h_with_pool (h : chess) (pool : list Z) (node : Z -> value) (next : Z) : chess :=
  mkChess (h_infos h) (h_order h) (h_jumps h) (h_casts h) (h_syms h) (h_rom h) (h_list h) pool node next (h_success h) (h_reports h).
Definition h_report (h : chess) (r : report) : chess :=
  mkChess (h_infos h) (h_order h) (h_jumps h) (h_casts h) (h_syms h) (h_rom h) (h_list h) (h_pool h) (h_node h) (h_next h) (h_success h) (h_reports h ++ [r]).
Definition h_fail (h : chess) : chess :=
  mkChess (h_infos h) (h_order h) (h_jumps h) (h_casts h) (h_syms h) (h_rom h) (h_list h) (h_pool h) (h_node h) (h_next h) false (h_reports h).

Definition upd_info (f : Z -> option info) (a : Z) (i : info) : Z -> option info :=
  fun b => if b =? a then Some i else f b.
(** The info an entry belongs to exists as long as the entry does. *)
Definition own_info (x : ctx) : info := match h_infos (x_h x) (x_info x) with Some i => i | None => info0 end.
Definition set_own_term (x : ctx) (b : bool) : ctx :=
  let i := own_info x in
  with_h x (h_with_infos (x_h x) (upd_info (h_infos (x_h x)) (x_info x) (mkInfo (i_rout i) (i_sig i) (i_marked i) b (i_err i)))).

(** chess.c:435-451 *)
Definition error (m : msg) (x : ctx) : ctx :=
  let i := own_info x in
  let h := h_report (x_h x) (RError m) in
  let h := h_with_infos (h_fail h) (upd_info (h_infos h) (x_info x) (mkInfo (i_rout i) (i_sig i) (i_marked i) (i_term i) true)) in
  mkCtx h (x_info x) (x_w x) (x_r x) (x_sw x) (x_sr x) (x_values x) (x_pc x) (x_op x) true false (x_inner x).
(** chess.c:453-464 *)
Definition warning (m : msg) (x : ctx) : ctx := with_h x (h_report (x_h x) (RWarning m)).

(** chess.c:524-537 *)
Definition flag_2 (x : ctx) : bool := Z.testbit (x_op x) 5.
Definition flag_r (x : ctx) : bool := Z.testbit (x_op x) 6.
Definition flag_k (x : ctx) : bool := Z.testbit (x_op x) 7.

(** Which stack a pointer points to. *)
Record which : Type := Stk { shadow : bool; ret_stack : bool }.
Definition get_stack (p : which) (x : ctx) : stack :=
  match p with
  | Stk false false => x_w x | Stk false true => x_r x
  | Stk true false => x_sw x | Stk true true => x_sr x
  end.
Definition set_stack (p : which) (x : ctx) (k : stack) : ctx :=
  match p with
  | Stk false false => mkCtx (x_h x) (x_info x) k (x_r x) (x_sw x) (x_sr x) (x_values x) (x_pc x) (x_op x) (x_term x) (x_success x) (x_inner x)
  | Stk false true => mkCtx (x_h x) (x_info x) (x_w x) k (x_sw x) (x_sr x) (x_values x) (x_pc x) (x_op x) (x_term x) (x_success x) (x_inner x)
  | Stk true false => mkCtx (x_h x) (x_info x) (x_w x) (x_r x) k (x_sr x) (x_values x) (x_pc x) (x_op x) (x_term x) (x_success x) (x_inner x)
  | Stk true true => mkCtx (x_h x) (x_info x) (x_w x) (x_r x) (x_sw x) k (x_values x) (x_pc x) (x_op x) (x_term x) (x_success x) (x_inner x)
  end.

(** [stack->content[stack->len - 1]]: the index is an int. *)
Definition top_of (k : stack) : cres value :=
  if k_len k =? 0 then CFault (CRead (-1)) else COk (k_at k (k_len k - 1)).

(** chess.c:573-588: a node from the pool, or a new one, holding [v]. *)
Definition alloc_node (x : ctx) (v : value) : Z * ctx :=
  let h := x_h x in
  let '(n, pool, next) := match h_pool h with
    | n :: pool => (n, pool, h_next h)
    | [] => (h_next h, [], h_next h + 1)
    end in
  let h := h_with_pool h pool (put_at (h_node h) n v) next in
  (n, mkCtx h (x_info x) (x_w x) (x_r x) (x_sw x) (x_sr x) (n :: x_values x) (x_pc x) (x_op x) (x_term x) (x_success x) (x_inner x)).

(** chess.c:590-619 *)
Definition half_lo (n : Z) (top : value) : value :=
  mkV false (v_const top) false false false false (v_fork top) false true [] (Some n) (if v_const top then Z.land (v_val top) 255 else 0).
Definition half_hi (n : Z) (top : value) : value :=
  mkV false (v_const top) false false false false (v_fork top) true false [] (Some n) (if v_const top then Z.shiftr (v_val top) 8 else 0).

(** chess.c:559-623 for size 1. *)
Definition pop_byte (p : which) (x : ctx) : cres (value * ctx) :=
  let k := get_stack p x in
  if k_size k <? 1 then COk (v0, error CUnderflow x)
  else match top_of k with
  | CFault f => CFault f
  | COk top =>
      if v_short top then
        let '(n, x) := alloc_node x top in
        COk (half_lo n top,
             set_stack p x (mkStk (k_len k) (u8 (k_size k - 1)) (put_at (k_at k) (k_len k - 1) (half_hi n top))))
      else COk (top, set_stack p x (mkStk (k_len k - 1) (u8 (k_size k - 1)) (k_at k)))
  end.

(** chess.c:630-656 *)
Definition merged (hi lo : value) : value :=
  mkV true (v_const hi && v_const lo) (v_addr hi && v_addr lo) false false false (v_fork hi && v_fork lo) false false [] None
    (if v_const hi && v_const lo then u16 (Z.lor (Z.shiftl (v_val hi) 8) (v_val lo)) else 0).

(** chess.c:559-660 for size 2. *)
Definition pop_short (p : which) (x : ctx) : cres (value * ctx) :=
  let k := get_stack p x in
  if k_size k <? 2 then COk (v0, error CUnderflow x)
  else match top_of k with
  | CFault f => CFault f
  | COk top =>
      if v_short top then COk (top, set_stack p x (mkStk (k_len k - 1) (u8 (k_size k - 2)) (k_at k)))
      else if k_len k <? 2 then CFault CAssert
      else match pop_byte p x with
        | CFault f => CFault f
        | COk (lo, x) =>
            match pop_byte p x with
            | CFault f => CFault f
            | COk (hi, x) => COk (merged hi lo, x)
            end
        end
  end.

Definition pop_from (p : which) (two : bool) (x : ctx) : cres (value * ctx) :=
  if two then pop_short p x else pop_byte p x.

(** Sequencing. *)
Definition C (A : Type) : Type := ctx -> cres (A * ctx).
Definition cret {A} (a : A) : C A := fun x => COk (a, x).
Definition cbind {A B} (m : C A) (k : A -> C B) : C B :=
  fun x => match m x with COk (a, x') => k a x' | CFault f => CFault f end.
Notation "x <- m ;; k" := (cbind m (fun x => k)) (at level 61, m at next level, right associativity).
Notation "m ;;; k" := (cbind m (fun _ => k)) (at level 61, right associativity).
Definition act (f : ctx -> ctx) : C unit := fun x => COk (tt, f x).
Definition get {A} (f : ctx -> A) : C A := fun x => COk (f x, x).

(** chess.c:662-672 *)
Definition pop_ex (two r : bool) : C value := fun x =>
  if x_term x then COk (v0, x) else pop_from (Stk (flag_k x) r) two x.
(** chess.c:674-681 *)
Definition cpop : C value := fun x => pop_ex (flag_2 x) (flag_r x) x.

(** chess.c:703-712.  A half always has a pointer to its whole (chess.c:598, 608,
    1895-1902), so two null pointers are not compared. *)
Definition rejoins (top v : value) : option Z :=
  if v_lo v && v_hi top then
    match v_whole top, v_whole v with
    | Some a, Some b => if a =? b then Some a else None
    | _, _ => None
    end
  else None.
(** chess.c:697-716; [top] is zero for an empty stack. *)
Definition push_value (node : Z -> value) (k : stack) (v : value) : stack :=
  let top := if 0 <? k_len k then k_at k (k_len k - 1) else v0 in
  match rejoins top v with
  | Some n => mkStk (k_len k) (u8 (k_size k + 1)) (put_at (k_at k) (k_len k - 1) (node n))
  | None => mkStk (u8 (k_len k + 1)) (u8 (k_size k + vsize v)) (put_at (k_at k) (k_len k) v)
  end.
(** chess.c:683-718 *)
Definition push_ex (r : bool) (v : value) : C unit := fun x =>
  if x_term x then COk (tt, x)
  else
    let k := get_stack (Stk false r) x in
    if 256 <? k_size k + vsize v then COk (tt, error COverflow x)
    else COk (tt, set_stack (Stk false r) x (push_value (h_node (x_h x)) k v)).
(** chess.c:720-723 *)
Definition cpush (v : value) : C unit := fun x => push_ex (flag_r x) v x.

Definition err (m : msg) : C unit := act (error m).
Definition warn (m : msg) : C unit := act (warning m).
Definition warn_if (b : bool) (m : msg) : C unit := if b then warn m else cret tt.
Definition err_if (b : bool) (m : msg) : C unit := if b then err m else cret tt.

(** ** Signatures, chess.c:725-871 *)

(** chess.c:738-741, 1870-1873; the counter is a uint8_t. *)
Definition sig_size (l : list value) : Z := u8 (fold_left (fun n v => n + vsize v) l 0).

(** chess.c:787-851: one value; [out] is the direction. *)
Definition starts_with (t actual : str) : bool :=
  Nat.leb (List.length t) (List.length actual) && str_eqb (firstn (List.length t) actual) t.
Definition assignable (out : bool) (sv actual : value) : bool :=
  (v_nom actual && starts_with (v_type sv) (v_type actual)) || (out && negb (v_nom actual)).
Definition check_value (out : bool) (sv actual : value) : C unit :=
  warn_if (v_addr sv && (negb (v_addr actual) && negb (v_const actual))) WNotAddress ;;;
  err_if (v_rout sv && negb (v_rout actual)) CNotRoutine ;;;
  err_if (v_nom sv && negb (assignable out sv actual)) CNotAssignable.

(** chess.c:777-852: from the last value to the first. *)
Fixpoint check_values (out r : bool) (l : list value) : C unit :=
  match l with
  | [] => cret tt
  | sv :: l => a <- pop_from (Stk false r) (v_short sv) ;; check_value out sv a ;;; check_values out r l
  end.

(** chess.c:730-853; always called with one of the real stacks. *)
Definition check_stack (out r : bool) (l : list value) : C unit := fun x =>
  let k := get_stack (Stk false r) x in
  let ok := if out then k_size k =? sig_size l else sig_size l <=? k_size k in
  let x := if ok then x else error CSizeMismatch x in
  if x_term x then COk (tt, x) else check_values out r (rev l) x.

Definition own_sig (x : ctx) : signature :=
  match i_sig (own_info x) with Some s => s | None => mkSig [] [] [] [] Vector end.

(** chess.c:855-871 *)
Definition check_return : C unit := fun x =>
  (check_stack true false (g_wout (own_sig x)) ;;; check_stack true true (g_rout (own_sig x))) x.

(** chess.c:873-892; returns nothing, [f] is what the caller does to the new entry. *)
Definition fork (f : entry -> entry) : C unit := act (fun x =>
  with_h x (h_with_list (x_h x) (f (mkEntry (x_info x) (x_w x) (x_r x) (x_pc x)) :: h_list (x_h x)))).

Definition is_sub (t : rtype) : bool := match t with Subroutine => true | Vector => false end.

(** chess.c:894-904 *)
Definition op_BRK : C unit :=
  s <- get own_sig ;;
  err_if (is_sub (g_type s)) CSubBrk ;;;
  act (fun x => set_own_term x true) ;;;
  check_return ;;;
  act terminate.

(** chess.c:906-923 *)
Definition inc_value (v : value) : value :=
  mkV (v_short v) (v_const v) (v_addr v) (v_ret v) (v_rout v) false (v_fork v) false false [] None
    (if v_const v then u16 (v_val v + 1) else v_val v).

(** chess.c:972-1007 *)
Definition boolean_op (op : Z -> Z -> bool) : C unit :=
  b <- cpop ;; a <- cpop ;;
  let result n := mkV false true false false false false true false false [] None n in
  if v_const a && v_const b && v_fork a && v_fork b
  then cpush (result (b2z (op (v_val a) (v_val b))))
  else
    r <- get flag_r ;;
    fork (fun e => if r then mkEntry (e_info e) (e_wst e) (raw_push (e_rst e) (result 0)) (e_address e)
                   else mkEntry (e_info e) (raw_push (e_wst e) (result 0)) (e_rst e) (e_address e)) ;;;
    cpush (result 1).

(** chess.c:1049-1078; [true] is BUXN_CHESS_JUMP_RETURNED. *)
Definition abs_jmp (a : value) : C bool :=
  if v_addr a && v_ret a then
    s <- get own_sig ;;
    err_if (negb (is_sub (g_type s))) CVectorReturn ;;;
    act (fun x => set_own_term x true) ;;;
    check_return ;;;
    act terminate ;;;
    cret true
  else if v_const a then act (fun x => with_pc x (v_val a)) ;;; cret false
  else err CUnknownJump ;;; cret false.

Fixpoint push_all (r : bool) (l : list value) : C unit :=
  match l with
  | [] => cret tt
  | v :: l => push_ex r v ;;; push_all r l
  end.

(** chess.c:1080-1155; [key] is the address of [addr_info]. *)
Definition short_circuit (key : Z) (sig : signature) : C unit :=
  own <- get own_sig ;;
  if is_sub (g_type own) && negb (is_sub (g_type sig)) then err CSubIntoVector
  else
    check_stack false false (g_win sig) ;;;
    check_stack false true (g_rin sig) ;;;
    push_all false (g_wout sig) ;;;
    push_all true (g_rout sig) ;;;
    if is_sub (g_type sig) then
      r <- get x_r ;;
      if 2 <=? k_size r then
        a <- pop_from (Stk false true) true ;;
        returned <- abs_jmp a ;;
        if returned then act (fun x => set_own_term x (negb (key =? x_info x))) else cret tt
      else err CRstTooSmall
    else
      check_return ;;;
      act terminate ;;;
      act (fun x => set_own_term x (negb (key =? x_info x))).

(** chess.c:1157-1222 *)
Definition cjump (a : value) : C unit := fun x =>
  if x_term x then COk (tt, x)
  else
    let from := x_pc x in
    ((if v_short a then abs_jmp a ;;; cret tt
      else if v_const a then act (fun x => with_pc x (u16 (x_pc x + s8 (v_val a))))
      else err CUnknownJump) ;;;
     fun x =>
       if x_term x then COk (tt, x)
       else match h_infos (x_h x) (x_pc x) with
       | Some (mkInfo true (Some sig) _ _ _) => short_circuit (x_pc x) sig x
       | _ =>
           let key := Z.lor (Z.shiftl from 16) (x_pc x) in
           if h_jumps (x_h x) key then COk (tt, terminate (with_h x (h_report (x_h x) RRepeat)))
           else COk (tt, with_h x (h_with_jump (x_h x) key))
       end) x.

(** chess.c:1224-1240 *)
Definition return_sub (pc : Z) : value := mkV true true true false false false false false false [] None pc.
Definition jump_stash (a : value) (r : bool) : C unit :=
  pc <- get x_pc ;; push_ex (negb r) (return_sub pc) ;;; cjump a.

(** chess.c:1242-1262 *)
Definition jump_conditional (cond a : value) : C unit :=
  if v_const cond && v_fork cond
  then if v_val cond =? 0 then cret tt else cjump a
  else fork (fun e => e) ;;; cjump a.

(** chess.c:1289-1293 *)
Definition is_address (v : value) : bool := v_addr v || v_const v.

Definition is_code (s : option csym) : bool :=
  match s with Some y => match y_type y with SOpcode => true | _ => false end | None => false end.

(** chess.c:1295-1339 *)
Definition cload (a : value) : C unit := fun x =>
  if x_term x then COk (tt, x)
  else
    (warn_if (negb (is_address a)) WLoad ;;;
     v <- (if v_const a then
             fun x => match h_infos (x_h x) (v_val a) with
               | Some i => COk (info_value i, x)
               | None => (warn_if (is_code (h_syms (x_h x) (v_val a))) WLoadCode ;;; cret v0) x
               end
           else cret v0) ;;
     two <- get flag_2 ;;
     cpush (set_short two v)) x.

(** chess.c:1341-1374 *)
Definition cstore (a : value) : C unit := fun x =>
  if x_term x then COk (tt, x)
  else
    (warn_if (negb (is_address a)) WStore ;;;
     if v_const a then
       fun x => match h_infos (x_h x) (v_val a) with
         | Some _ => COk (tt, x)
         | None => warn_if (is_code (h_syms (x_h x) (v_val a))) WStoreCode x
         end
     else cret tt) x.

(** chess.c:1392-1394, 1402-1404 *)
Definition relative (pc : Z) (a : value) : value :=
  if v_const a then set_val (u16 (pc + s8 (v_val a))) a else a.

(** chess.c:1468-1501 *)
Definition report_deo (a v : value) : C unit := act (fun x =>
  let deo v p x := with_h x (h_report (x_h x) (RDeo (x_w x) (x_r x) v p)) in
  if v_const a && v_const v then
    if v_short v
    then deo (u8 (Z.land (v_val v) 255)) (u8 (v_val a + 1)) (deo (u8 (Z.shiftr (v_val v) 8)) (u8 (v_val a)) x)
    else deo (u8 (Z.land (v_val v) 255)) (u8 (v_val a)) x
  else x).

(** chess.c:1504-1526 ([pointer] = false) and 1528-1559; the operands are
    uint16_t, the result is truncated to uint16_t. *)
Definition bin_op (pointer : bool) (op : Z -> Z -> cres Z) : C unit :=
  b <- cpop ;; a <- cpop ;;
  two <- get flag_2 ;;
  n <- (if v_const a && v_const b
        then fun x => match op (v_val a) (v_val b) with COk n => COk (u16 n, x) | CFault f => CFault f end
        else cret 0) ;;
  cpush (mkV two (v_const a && v_const b) (pointer && (v_addr a || v_addr b)) false false false false false false [] None n).

(** chess.c:1561-1624; the product of two uint16_t is an int. *)
Definition op_mul (a b : Z) : cres Z := if in_int (a * b) then COk (a * b) else CFault CIntOverflow.

(** chess.c:906-1650; the functions of the opcodes take the flags from the
    opcode itself. *)
Definition poly (b : base) : C unit :=
  match b with
  | INC => (* 906-923 *) v <- cpop ;; cpush (inc_value v)
  | POP => (* 925-928 *) cpop ;;; cret tt
  | NIP => (* 930-936 *) b <- cpop ;; cpop ;;; cpush b
  | SWP => (* 938-944 *) b <- cpop ;; a <- cpop ;; cpush b ;;; cpush a
  | ROT => (* 946-954 *) c <- cpop ;; b <- cpop ;; a <- cpop ;; cpush b ;;; cpush c ;;; cpush a
  | DUP => (* 956-961 *) a <- cpop ;; cpush a ;;; cpush a
  | OVR => (* 963-970 *) b <- cpop ;; a <- cpop ;; cpush a ;;; cpush b ;;; cpush a
  | EQU => (* 1009-1017 *) boolean_op (fun a b => a =? b)
  | NEQ => (* 1019-1027 *) boolean_op (fun a b => negb (a =? b))
  | GTH => (* 1029-1037 *) boolean_op (fun a b => b <? a)
  | LTH => (* 1039-1047 *) boolean_op (fun a b => a <? b)
  | JMP => (* 1264-1268 *) a <- cpop ;; cjump a
  | JCN => (* 1270-1275 *) a <- cpop ;; r <- get flag_r ;; c <- pop_ex false r ;; jump_conditional c a
  | JSR => (* 1277-1281 *) a <- cpop ;; r <- get flag_r ;; jump_stash a r
  | STH => (* 1283-1287 *) a <- cpop ;; r <- get flag_r ;; push_ex (negb r) a
  | LDZ => (* 1376-1380 *) r <- get flag_r ;; a <- pop_ex false r ;; cload a
  | STZ => (* 1382-1387 *) r <- get flag_r ;; a <- pop_ex false r ;; cpop ;;; cstore a
  | LDR => (* 1389-1396 *) r <- get flag_r ;; a <- pop_ex false r ;; pc <- get x_pc ;; cload (relative pc a)
  | STR => (* 1398-1406 *) r <- get flag_r ;; a <- pop_ex false r ;; cpop ;;; pc <- get x_pc ;; cstore (relative pc a)
  | LDA => (* 1408-1412 *) r <- get flag_r ;; a <- pop_ex true r ;; cload a
  | STA => (* 1414-1419 *) r <- get flag_r ;; a <- pop_ex true r ;; cpop ;;; cstore a
  | DEI => (* 1421-1447 *)
      r <- get flag_r ;; a <- pop_ex false r ;;
      warn_if (negb (is_address a)) WDei ;;;
      two <- get flag_2 ;; cpush (plain two)
  | DEO => (* 1449-1502 *)
      r <- get flag_r ;; a <- pop_ex false r ;; v <- cpop ;;
      warn_if (negb (is_address a)) WDeo ;;;
      report_deo a v
  | ADD => (* 1561-1569 *) bin_op true (fun a b => COk (a + b))
  | SUB => (* 1571-1579 *) bin_op true (fun a b => COk (a - b))
  | MUL => (* 1581-1589 *) bin_op false op_mul
  | DIV => (* 1591-1599 *) bin_op false (fun a b => COk (if b =? 0 then 0 else Z.quot a b))
  | AND => (* 1601-1609 *) bin_op false (fun a b => COk (Z.land a b))
  | ORA => (* 1611-1619 *) bin_op false (fun a b => COk (Z.lor a b))
  | EOR => (* 1621-1629 *) bin_op false (fun a b => COk (Z.lxor a b))
  | SFT => (* 1631-1650 *)
      r <- get flag_r ;; s <- pop_ex false r ;; v <- cpop ;;
      two <- get flag_2 ;;
      cpush (mkV two (v_const v && v_const s) false false false false false false false [] None
        (if v_const v && v_const s
         then u16 (Z.shiftl (Z.shiftr (v_val v) (Z.land (v_val s) 15)) (Z.shiftr (Z.land (v_val s) 240) 4))
         else 0))
  end.

(** src/asm.c:314-317 [buxn_chess_get_rom] of the front end: [rom[address - 256]]
    in an array of 65535 bytes.  [h_rom] is indexed by the address. *)
Definition get_rom (a : Z) : C Z := fun x =>
  if a <? 256 then CFault (CRead (a - 256)) else COk (h_rom (x_h x) a, x).
(** [ctx->pc++] *)
Definition next_pc : C Z := fun x => COk (x_pc x, with_pc x (u16 (x_pc x + 1))).

Definition same_sym (a b : option csym) : bool :=
  match a, b with
  | None, None => true
  | Some a, Some b => y_id a =? y_id b
  | _, _ => false
  end.
Definition is_ref (s : option csym) : bool :=
  match s with Some y => match y_type y with SLabelRef => true | _ => false end | None => false end.

(** chess.c:1652-1677 *)
Definition jump_target : C value :=
  hi_a <- next_pc ;; lo_a <- next_pc ;;
  syms <- get (fun x => h_syms (x_h x)) ;;
  if same_sym (syms hi_a) (syms lo_a) && is_ref (syms hi_a) then
    hi <- get_rom hi_a ;; lo <- get_rom lo_a ;;
    pc <- get x_pc ;;
    cret (return_sub (u16 (pc + u16 (Z.lor (Z.shiftl hi 8) lo))))
  else err CBadJumpTarget ;;; cret v0.

(** [(uint8_t)strlen(name)] characters. *)
Definition cut_name (s : str) : str := firstn (Z.to_nat (u8 (Z.of_nat (List.length s)))) s.

(** chess.c:1698-1727 *)
Definition make_lit_byte (a : Z) (s : option csym) : C value :=
  match s with
  | None => warn WLiteral ;;; cret v0
  | Some y =>
      n <- get_rom a ;;
      match y_type y with
      | SLabelRef =>
          let v := mkV false true true false false false false false false [] None n in
          cret (if n <=? 255 then set_nominal (cut_name (y_name y)) v else v)
      | _ => cret (mkV false true false false false false false false false [] None n)
      end
  end.

(** chess.c:1781-1816 *)
Definition lit_short (hi_a lo_a : Z) (s : option csym) : C unit :=
  match s with
  | None => warn WLiteral ;;; cpush (plain true)
  | Some y =>
      match y_type y with
      | SLabelRef =>
          hi <- get_rom hi_a ;; lo <- get_rom lo_a ;;
          cpush (mkV true true true false false false false false false [] None (u16 (Z.lor (Z.shiftl hi 8) lo)))
      | SNumber | SText | SOpcode =>
          hi <- get_rom hi_a ;; lo <- get_rom lo_a ;;
          cpush (mkV true true false false false false false false false [] None (u16 (Z.lor (Z.shiftl hi 8) lo)))
      | _ => warn WLiteral ;;; cpush (plain true)
      end
  end.

(** chess.c:1729-1828 *)
Definition op_LIT : C unit :=
  two <- get flag_2 ;;
  syms <- get (fun x => h_syms (x_h x)) ;;
  infos <- get (fun x => h_infos (x_h x)) ;;
  if negb two then
    a <- next_pc ;;
    v <- match infos a with
         | Some i => cret (info_value i)
         | None => match syms a with Some _ => make_lit_byte a (syms a) | None => cret v0 end
         end ;;
    cpush v
  else
    hi_a <- next_pc ;; lo_a <- next_pc ;;
    match infos hi_a with
    | Some i =>
        match infos lo_a, syms lo_a with
        | None, None => cpush (set_short true (info_value i))
        | Some j, _ => cpush (info_value i) ;;; cpush (info_value j)
        | None, Some _ => cpush (info_value i) ;;; v <- make_lit_byte lo_a (syms lo_a) ;; cpush v
        end
    | None =>
        if same_sym (syms hi_a) (syms lo_a) then lit_short hi_a lo_a (syms hi_a)
        else
          v <- make_lit_byte hi_a (syms hi_a) ;; cpush v ;;;
          w <- make_lit_byte lo_a (syms lo_a) ;; cpush w
    end.

(** chess.c:1679-1696, 1921-1924, 2036-2038; every byte is an opcode of the
    table. *)
Definition run_label (l : label) : C unit :=
  match l with
  | BRK => op_BRK
  | JCI => (* 1679-1684 *) a <- jump_target ;; c <- pop_ex false false ;; jump_conditional c a
  | JMI => (* 1686-1690 *) a <- jump_target ;; cjump a
  | JSI => (* 1692-1696 *) a <- jump_target ;; jump_stash a false
  | LITop _ _ => op_LIT
  | Poly b _ _ _ => poly b
  end.

(** chess.c:1877-1883: the popped values, the last of the cast first. *)
Fixpoint pop_inputs (r : bool) (l : list value) : C (list value) :=
  match l with
  | [] => cret []
  | v :: l => a <- pop_from (Stk false r) (v_short v) ;; t <- pop_inputs r l ;; cret (a :: t)
  end.
(** chess.c:1885-1902 *)
Definition cast_value (input output : value) : value :=
  mkV (v_short output) (v_const output || v_const input) (v_addr output) (v_ret output) (v_rout output) (v_nom output)
    (v_fork output || v_fork input) (v_hi output || v_hi input) (v_lo output || v_lo input) (v_type output)
    (if v_hi input || v_lo input then v_whole input else v_whole output)
    (if v_const input then v_val input else v_val output).
Fixpoint push_outputs (r : bool) (inputs outputs : list value) : C unit :=
  match inputs, outputs with
  | i :: inputs, o :: outputs =>
      act (fun x => set_stack (Stk false r) x (raw_push (get_stack (Stk false r) x) (cast_value i o))) ;;;
      push_outputs r inputs outputs
  | _, _ => cret tt
  end.
(** chess.c:1863-1919 *)
Definition apply_cast (r : bool) (l : list value) : C unit :=
  k <- get (get_stack (Stk false r)) ;;
  if sig_size l <=? k_size k
  then inputs <- pop_inputs r (rev l) ;; push_outputs r (rev inputs) l
  else err CCastMismatch.

(** chess.c:2015-2034: the opcode is fetched; the shadow stacks are copies of
    the stacks. *)
Definition fetch_op (op : Z) (x : ctx) : ctx :=
  mkCtx (x_h x) (x_info x) (x_w x) (x_r x) (x_w x) (x_r x) (x_values x) (u16 (x_pc x + 1)) op (x_term x) (x_success x) false.

(** chess.c:1999-2062: one opcode. *)
Definition exec_op : C unit := fun x =>
  let pc := x_pc x in
  (op <- get_rom pc ;;
   fun x =>
     if is_code (h_syms (x_h x) pc) then
       (act (fetch_op op) ;;;
        match dispatch op with Some l => run_label l | None => cret tt end ;;;
        match h_casts (x_h x) pc with
        | Some c => apply_cast false (c_wst c) ;;; apply_cast true (c_rst c)
        | None => cret tt
        end) x
     else COk (tt, error CNonOpcode x)) x.

(** chess.c:1967-2062: one round of the loop; the inner loop (1977-1996) takes
    one round each, in which the test for the zero page is skipped. *)
Definition exec_round : C unit := fun x =>
  if negb (x_inner x) && (x_pc x <? 256) then COk (tt, error CZeroPage x)
  else match h_infos (x_h x) (x_pc x) with
  | Some (mkInfo true (Some sig) _ _ _) =>
      if x_pc x =? x_info x then exec_op x
      else short_circuit (x_pc x) sig (with_inner x true)
  | _ => exec_op x
  end.

(** ** The whole analysis *)

Inductive config : Type :=
| Idle (h : chess)             (* chess.c:2509: between two entries *)
| Running (x : ctx)            (* chess.c:1967: in the loop of execute *)
| Finished (h : chess)
| Broken (f : cfault).

(** chess.c:1926-1965 *)
Definition begin_entry (h : chess) (e : entry) : config :=
  let x := mkCtx h (e_info e) (e_wst e) (e_rst e) empty_stack empty_stack [] (e_address e) 0 false false false in
  match h_syms h (e_address e) with
  | None => Idle (x_h (error CNonOpcode x))
  | Some _ => Running x
  end.
(** chess.c:2064-2076 *)
Definition end_entry (x : ctx) : chess :=
  let h := h_report (x_h x) (REnd (x_success x)) in
  h_with_pool h (fold_left (fun p n => n :: p) (x_values x) (h_pool h)) (h_node h) (h_next h).

(** chess.c:2508-2516 with the loop of [buxn_chess_execute] inside. *)
Definition cstep (c : config) : config :=
  match c with
  | Idle h =>
      match h_list h with
      | [] => Finished h
      | e :: l => begin_entry (h_with_list h l) e
      end
  | Running x =>
      if x_term x then Idle (end_entry x)
      else match exec_round x with
        | COk (_, x) => Running x
        | CFault f => Broken f
        end
  | Finished h => Finished h
  | Broken f => Broken f
  end.
Fixpoint csteps (n : nat) (c : config) : config :=
  match n with O => c | S n => csteps n (cstep c) end.

(** chess.c:489-522 *)
Definition return_value : value := mkV true false true true false false false false false [] None 0.
Definition entry_of (addr : Z) (sig : signature) : entry :=
  mkEntry addr (fold_left raw_push (g_win sig) empty_stack)
    (fold_left raw_push (g_rin sig)
      (if is_sub (g_type sig) then raw_push empty_stack return_value else empty_stack))
    addr.
Definition mark_routine (h : chess) (addr : Z) (sig : signature) : chess :=
  let i := match h_infos h addr with Some i => i | None => info0 end in
  h_with_infos (h_with_list h (entry_of addr sig :: h_list h))
    (upd_info (h_infos h) addr (mkInfo (i_rout i) (i_sig i) true (i_term i) (i_err i))).

(** chess.c:212-232 *)
Definition ensure_info (h : chess) (addr : Z) : chess :=
  match h_infos h addr with
  | Some _ => h
  | None =>
      mkChess (upd_info (h_infos h) addr info0) (addr :: h_order h) (h_jumps h) (h_casts h) (h_syms h) (h_rom h)
        (h_list h) (h_pool h) (h_node h) (h_next h) (h_success h) (h_reports h)
  end.

(** chess.c:2486-2506 *)
Definition reset_sig : signature := mkSig [] [] [] [] Vector.
Definition add_reset (h : chess) : chess :=
  let h := ensure_info h 256 in
  match h_infos h 256 with
  | Some (mkInfo _ None m t e) =>
      mark_routine (h_with_infos h (upd_info (h_infos h) 256 (mkInfo true (Some reset_sig) m t e))) 256 reset_sig
  | _ => h
  end.

(** chess.c:2518-2551 *)
Definition missing_end (h : chess) (a : Z) : bool :=
  match h_infos h a with
  | Some i => i_marked i && negb (i_err i) && negb (i_term i)
  | None => false
  end.
Definition final_check (h : chess) : chess :=
  fold_left (fun h a => if missing_end h a then h_fail (h_report h (RError CNoTermination)) else h) (h_order h) h.

(** chess.c:2484-2554 [buxn_chess_end], with fuel. *)
Inductive verdict : Type := Verdict (success : bool) (reports : list report) | VFault (f : cfault) | VOutOfFuel.
Definition chess_end (fuel : nat) (h : chess) : verdict :=
  match csteps fuel (Idle (add_reset h)) with
  | Finished h => let h := final_check h in Verdict (h_success h) (h_reports h)
  | Broken f => VFault f
  | _ => VOutOfFuel
  end.

(** ** Symbols and annotations, chess.c:2079-2469, 2556-2646 *)

(** chess.c:57: which handler is set. *)
Inductive handler : Type := HNone | HSig1 | HSig2 | HCast1 | HCast2.
(** chess.c:66-71 *)
Inductive pstate : Type := PWstIn | PRstIn | PWstOut | PRstOut.
(** chess.c:155-191, the parts used while the assembler runs.  Of
    [current_symbol] only the type is read, for a label is only remembered if its
    name is not generated (chess.c:2597).  [z_tokens] are the
    buffered tokens in order; [z_last] is last_sym; [z_bad] becomes true
    when a byte outside a name is read. *)
Record reader : Type := mkReader {
  z_h : chess; z_hand : handler; z_cur : option (sym_type * Z);
  z_sig : signature; z_cast : cast; z_tokens : list str;
  z_state : pstate; z_sealed : bool; z_last : option csym; z_ids : Z; z_bad : bool
}.
Definition z_with_h (z : reader) (h : chess) : reader :=
  mkReader h (z_hand z) (z_cur z) (z_sig z) (z_cast z) (z_tokens z) (z_state z) (z_sealed z) (z_last z) (z_ids z) (z_bad z).
Definition z_with_hand (z : reader) (d : handler) : reader :=
  mkReader (z_h z) d (z_cur z) (z_sig z) (z_cast z) (z_tokens z) (z_state z) (z_sealed z) (z_last z) (z_ids z) (z_bad z).
Definition z_with_state (z : reader) (p : pstate) (sealed : bool) : reader :=
  mkReader (z_h z) (z_hand z) (z_cur z) (z_sig z) (z_cast z) (z_tokens z) p sealed (z_last z) (z_ids z) (z_bad z).
Definition z_with_sig (z : reader) (s : signature) : reader :=
  mkReader (z_h z) (z_hand z) (z_cur z) s (z_cast z) (z_tokens z) (z_state z) (z_sealed z) (z_last z) (z_ids z) (z_bad z).
Definition z_with_cast (z : reader) (c : cast) : reader :=
  mkReader (z_h z) (z_hand z) (z_cur z) (z_sig z) c (z_tokens z) (z_state z) (z_sealed z) (z_last z) (z_ids z) (z_bad z).
Definition z_with_tokens (z : reader) (l : list str) : reader :=
  mkReader (z_h z) (z_hand z) (z_cur z) (z_sig z) (z_cast z) l (z_state z) (z_sealed z) (z_last z) (z_ids z) (z_bad z).
(** A warning, after which the comment is no longer looked at. *)
Definition give_up (m : msg) (z : reader) : reader :=
  z_with_hand (z_with_h z (h_report (z_h z) (RWarning m))) HNone.

Definition last_char (s : str) : Z := last s 0.

(** chess.c:2083-2116.  The length is a uint8_t; [n] is what it leaves of the
    name.  If nothing is left the character before the name is read,
    see [parse_bad]. *)
Definition parse_value (name : str) : value :=
  let n := cut_name name in
  let star := last_char n =? 42 in
  let n := if star then removelast n else n in
  let bracket := match n with c :: _ => (c =? 91) && (last_char n =? 93) | [] => false end in
  let n := if bracket then removelast (tl n) else n in
  let upper := match name with c :: _ => (65 <=? c) && (c <=? 90) | [] => false end in
  mkV star false bracket false false upper false false false (if upper then n else []) None 0.
(** chess.c:2090: [name.chars[name.len - 1]] with [name.len] zero. *)
Definition parse_bad (name : str) : bool := u8 (Z.of_nat (List.length name)) =? 0.
Definition z_with_bad (z : reader) (b : bool) : reader :=
  mkReader (z_h z) (z_hand z) (z_cur z) (z_sig z) (z_cast z) (z_tokens z) (z_state z) (z_sealed z) (z_last z) (z_ids z) (z_bad z || b).

Definition is_arrow (s : str) : bool := str_eqb s (bytes "--") || str_eqb s (bytes "->").
Definition is_bang (s : str) : bool := str_eqb s (bytes "!").

(** BUXN_CHESS_MAX_ARGS, chess.h:9 *)
Definition MAX_ARGS : nat := 8.

(** chess.c:2244-2273 *)
Definition sig_arg (z : reader) (name : str) : reader :=
  let s := z_sig z in
  let l := match z_state z with PWstIn => g_win s | PRstIn => g_rin s | PWstOut => g_wout s | PRstOut => g_rout s end in
  if Nat.ltb (List.length l) MAX_ARGS then
    let l := l ++ [parse_value name] in
    z_with_sig (z_with_bad z (parse_bad name)) (match z_state z with
      | PWstIn => mkSig l (g_rin s) (g_wout s) (g_rout s) (g_type s)
      | PRstIn => mkSig (g_win s) l (g_wout s) (g_rout s) (g_type s)
      | PWstOut => mkSig (g_win s) (g_rin s) l (g_rout s) (g_type s)
      | PRstOut => mkSig (g_win s) (g_rin s) (g_wout s) l (g_type s)
      end)
  else give_up WTooMany z.

(** chess.c:2163-2274: a token. *)
Definition sig_token (z : reader) (name : str) : reader :=
  let z := if z_sealed z then give_up WSealed z else z in
  let s := z_sig z in
  let arrow t := match z_state z with
    | PWstIn | PRstIn =>
        z_with_state (z_with_sig z (mkSig (g_win s) (g_rin s) (g_wout s) (g_rout s) t)) PWstOut (z_sealed z)
    | _ => give_up WToken z
    end in
  if str_eqb name (bytes ".") then
    match z_state z with
    | PWstIn => z_with_state z PRstIn (z_sealed z)
    | PWstOut => z_with_state z PRstOut (z_sealed z)
    | _ => give_up WToken z
    end
  else if is_bang name then z_with_state z (z_state z) true
  else if str_eqb name (bytes "--") then arrow Subroutine
  else if str_eqb name (bytes "->") then arrow Vector
  else sig_arg z name.

(** chess.c:2275-2299: the end of the comment; the label has an info. *)
Definition sig_end (z : reader) : reader :=
  match z_cur z with
  | None => z
  | Some (_, addr) =>
      let h := z_h z in
      let i := match h_infos h addr with Some i => i | None => info0 end in
      if i_rout i then z_with_h z (h_report h (RWarning WRedundant))
      else
        let h := h_with_infos h (upd_info (h_infos h) addr (mkInfo true (Some (z_sig z)) (i_marked i) (i_term i) (i_err i))) in
        z_with_h z (if z_sealed z then h else mark_routine h addr (z_sig z))
  end.

(** chess.c:2327-2410: a token. *)
Definition cast_arg (z : reader) (name : str) : reader :=
  let c := z_cast z in
  let '(l, z) := match z_state z with
    | PWstIn => (c_wst c, z)
    | PRstIn => (c_rst c, z)
    | _ => (c_wst c, z_with_hand z HNone)
    end in
  if Nat.ltb (List.length l) MAX_ARGS then
    let l := l ++ [parse_value name] in
    z_with_cast (z_with_bad z (parse_bad name)) (match z_state z with PRstIn => mkCast (c_wst c) l | _ => mkCast l (c_rst c) end)
  else give_up WTooMany z.
Definition cast_token (z : reader) (name : str) : reader :=
  let z := if z_sealed z then give_up WSealed z else z in
  if str_eqb name (bytes ".") then
    match z_state z with
    | PWstIn => z_with_state z PRstIn (z_sealed z)
    | _ => give_up WToken z
    end
  else if is_bang name then z_with_state z (z_state z) true
  else if is_arrow name then give_up WToken z
  else cast_arg z name.

(** chess.c:2411-2446 *)
Definition cast_end (z : reader) : reader :=
  match z_cur z with
  | None => z
  | Some (_, addr) =>
      let h := z_h z in
      match h_casts h addr with
      | Some _ => z_with_h z (h_report h (RWarning WRedundant))
      | None =>
          z_with_h z (mkChess (h_infos h) (h_order h) (h_jumps h)
            (fun a => if a =? addr then Some (z_cast z) else h_casts h a)
            (h_syms h) (h_rom h) (h_list h) (h_pool h) (h_node h) (h_next h) (h_success h) (h_reports h))
      end
  end.

(** chess.c:2133-2139 *)
Fixpoint replay (f : reader -> str -> reader) (l : list str) (z : reader) : reader :=
  match l with
  | [] => z
  | t :: l => match z_hand z with HNone => z | _ => replay f l (f z t) end
  end.

(** BUXN_CHESS_MAX_SIG_TOKENS and the size of tmp_buf, chess.c:12-13,171 *)
Definition MAX_SIG_TOKENS : nat := 33.
Definition TMP_BUF : Z := 528.
Definition buffered (l : list str) : Z := fold_left (fun n t => n + Z.of_nat (List.length t) + 1) l 0.

(** chess.c:2118-2161 *)
Definition parse_first (z : reader) (name : str) (trigger : bool) (second : handler) (f : reader -> str -> reader) : reader :=
  if trigger then
    let z := z_with_hand (z_with_state z PWstIn false) second in
    let z := replay f (z_tokens z) z in
    match z_hand z with HNone => z | _ => f z name end
  else if Nat.ltb (List.length (z_tokens z)) MAX_SIG_TOKENS then
    if TMP_BUF <? buffered (z_tokens z ++ [name]) then z_with_hand z HNone
    else z_with_tokens z (z_tokens z ++ [name])
  else z_with_hand z HNone.

(** chess.c:2302-2325, 2449-2469 and the dispatch on the handler. *)
Definition anno_token (z : reader) (name : str) : reader :=
  match z_hand z with
  | HNone => z
  | HSig1 =>
      parse_first (if is_arrow name then z_with_sig z (mkSig [] [] [] [] Vector) else z) name (is_arrow name) HSig2 sig_token
  | HSig2 => sig_token z name
  | HCast1 =>
      parse_first (if is_bang name then z_with_cast z (mkCast [] []) else z) name (is_bang name) HCast2 cast_token
  | HCast2 => cast_token z name
  end.
Definition anno_end (z : reader) : reader :=
  match z_hand z with
  | HNone | HSig1 | HCast1 => z
  | HSig2 => sig_end z
  | HCast2 => cast_end z
  end.

(** chess.c:2563-2596 *)
Definition read_comment (z : reader) (id : Z) (name : str) : reader :=
  if id =? 0 then
    match name, z_cur z with
    | [_], Some (t, _) =>
        let z := z_with_tokens z [] in
        match t with
        | SLabel => z_with_hand z HSig1
        | SOpcode | SLabelRef | SNumber | SText => z_with_hand z HCast1
        | _ => z
        end
    | _, _ => z
    end
  else if (id =? 1) && str_eqb name (bytes ")") then z_with_hand (anno_end z) HNone
  else if id =? 1 then anno_token z name
  else z_with_hand z HNone.

(** chess.c:2624-2642.  The region of the last symbol decides whether two
    bytes belong to the same symbol. *)
Definition same_region (a b : region) : bool :=
  str_eqb (r_file a) (r_file b) && (byte (r_start a) =? byte (r_start b)) && (byte (r_end a) =? byte (r_end b)).
Definition type_eqb (a b : sym_type) : bool :=
  match a, b with
  | SOpcode, SOpcode | SLabelRef, SLabelRef | SNumber, SNumber | SText, SText => true
  | _, _ => false
  end.
Definition read_byte (z : reader) (addr : Z) (s : symbol) : reader :=
  let '(y, ids) := match z_last z with
    | Some y => if type_eqb (s_type s) (y_type y) && same_region (s_reg s) (y_reg y) then (y, z_ids z)
                else (mkCsym (z_ids z) (s_type s) (match s_name s with Some n => n | None => [64] end) (s_reg s), z_ids z + 1)
    | None => (mkCsym (z_ids z) (s_type s) (match s_name s with Some n => n | None => [64] end) (s_reg s), z_ids z + 1)
    end in
  let h := z_h z in
  mkReader (mkChess (h_infos h) (h_order h) (h_jumps h) (h_casts h) (fun a => if a =? addr then Some y else h_syms h a)
              (h_rom h) (h_list h) (h_pool h) (h_node h) (h_next h) (h_success h) (h_reports h))
    (z_hand z) (z_cur z) (z_sig z) (z_cast z) (z_tokens z) (z_state z) (z_sealed z) (Some y) ids (z_bad z).

(** chess.c:2556-2646; [None] is a failed assert or a comment symbol without a
    name.  [z_bad] of the result: a byte outside a name was read. *)
Definition read_symbol (z : reader) (addr : Z) (s : symbol) : option reader :=
  match s_type s with
  | SComment => match s_name s with Some (c :: n) => Some (read_comment z (s_id s) (c :: n)) | _ => None end
  | SLabel =>
      if s_gen s then Some z
      else Some (mkReader (ensure_info (z_h z) addr) HNone (Some (SLabel, addr)) (z_sig z) (z_cast z) (z_tokens z)
                   (z_state z) (z_sealed z) (z_last z) (z_ids z) (z_bad z))
  | SOpcode =>
      if addr <? 256 then None
      else Some (read_byte (mkReader (z_h z) HNone (Some (SOpcode, addr)) (z_sig z) (z_cast z) (z_tokens z)
                              (z_state z) (z_sealed z) (z_last z) (z_ids z) (z_bad z)) addr s)
  | SLabelRef | SNumber | SText => if addr <? 256 then None else Some (read_byte z addr s)
  | SMacro =>
      Some (mkReader (z_h z) (z_hand z) None (z_sig z) (z_cast z) (z_tokens z) (z_state z) (z_sealed z) (z_last z) (z_ids z) (z_bad z))
  | _ => Some z
  end.

Fixpoint read_symbols (z : reader) (evs : list event) : option reader :=
  match evs with
  | [] => Some z
  | ESym a s :: evs =>
      match read_symbol z a s with
      | Some z => if z_bad z then None else read_symbols z evs
      | None => None
      end
  | _ :: evs => read_symbols z evs
  end.

(** chess.c:2473-2482 *)
Definition chess_begin (rom : Z -> Z) : chess :=
  mkChess (fun _ => None) [] (fun _ => false) (fun _ => None) (fun _ => None) rom [] [] (fun _ => v0) 0 true [].
Definition reader0 (rom : Z -> Z) : reader :=
  mkReader (chess_begin rom) HNone None (mkSig [] [] [] [] Vector) (mkCast [] []) [] PWstIn false None 0 false.

(** The bytes the host has when the analysis begins (src/asm.c:79-86 of the
    front end): the last value put at each address. *)
Fixpoint rom_of (evs : list event) (m : Z -> Z) : Z -> Z :=
  match evs with
  | [] => m
  | EPut a v :: evs => rom_of evs (upd m a v)
  | _ :: evs => rom_of evs m
  end.

(** src/asm.c:648-655 of the front end: the type check of what the assembler
    announced; [None] if the reader aborts. *)
Definition type_check (fuel : nat) (evs : list event) : option verdict :=
  match read_symbols (reader0 (rom_of evs (fun _ => 0))) evs with
  | None => None
  | Some z => Some (chess_end fuel (z_h z))
  end.
