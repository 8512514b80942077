(** An independent description of the assembly language (doc/asm.md and the
    uxntal reference): what a list of tokens means, in two passes.  The first
    pass, [step], gives every token its place and collects the labels; the
    second, [cell_byte], gives every byte its value with the addresses the
    labels finally have.  Nothing here depends on how the assembler works; from
    AsmModel only strings and the log of events are used. *)
From Verif Require Import Base AsmModel.
From Coq Require Import Ascii String.
Open Scope list_scope.

(** ** What is read off the log of a run, oldest event first *)
Definition assembles (fs : files) (file : str) (ok : bool) (evs : list event) : Prop :=
  exists n, forall m, (n <= m)%nat ->
  exists b, asm fs m file = (ok, b) /\ b_fault b = None /\ rev (b_out b) = evs.

(** How many files and macros are open inside the file given to the assembler:
    -1 before that one is opened; the deferred includes come after it is closed
    and count as included by it. *)
Definition depth_step (d : Z) (e : event) : Z :=
  match e with
  | EOpen _ | EEnter _ => d + 1
  | EClose _ | ELeave _ => Z.max 0 (d - 1)
  | _ => d
  end.
Definition depth (evs : list event) : Z := fold_left depth_step evs (-1).

(** A token handled: how deep, in which scope, at which address. *)
Record occ : Type := mkOcc { o_depth : Z; o_scope : str; o_addr : Z; o_lex : str }.
Definition trace_step (s : list occ * Z) (e : event) : list occ * Z :=
  match e with
  | ETok sc a l => (mkOcc (snd s) sc a l :: fst s, snd s)
  | _ => (fst s, depth_step (snd s) e)
  end.
(** The tokens, the last one first. *)
Definition trace (evs : list event) : list occ := fst (fold_left trace_step evs ([], -1)).

(** The byte that the ROM finally has at an address. *)
Definition rom_step (m : Z -> option Z) (e : event) : Z -> option Z :=
  match e with
  | EPut x v => fun a => if a =? x then Some v else m a
  | _ => m
  end.
Definition rom (evs : list event) : Z -> option Z := fold_left rom_step evs (fun _ => None).

(** ** Words *)
Definition RUNES : str := bytes "{}[]()|$#""@&/,_.-;=!?%~".
Definition rune (c : Z) : bool := existsb (Z.eqb c) RUNES.

Definition decimal (c : Z) : bool := (48 <=? c) && (c <=? 57).
Definition hexadecimal (c : Z) : bool := decimal c || ((97 <=? c) && (c <=? 102)).
Definition digit (c : Z) : Z := if decimal c then c - 48 else c - 87.
Definition value (base : Z) (s : str) : Z := fold_left (fun v c => v * base + digit c) s 0.

(** Numbers: one to four hexadecimal digits, "+" and a decimal byte, "++" and a
    decimal short; with the number of bytes.  No digits after the plus signs
    mean 0. *)
Inductive numeral : Type := NotNumber | BadNumber | Number (v : Z) (bytes : Z) (hex_digits : Z).
Definition decimal_number (s : str) (limit bytes : Z) : numeral :=
  if forallb decimal s then if value 10 s <=? limit then Number (value 10 s) bytes 0 else BadNumber
  else NotNumber.
Definition read_number (s : str) : numeral :=
  match s with
  | [] => NotNumber
  | 43 :: 43 :: s' => decimal_number s' 65535 2
  | 43 :: s' => decimal_number s' 255 1
  | _ =>
      if forallb hexadecimal s then
        if len s <=? 4 then Number (value 16 s) (if len s <=? 2 then 1 else 2) (len s) else BadNumber
      else NotNumber
  end.
(** A number in the code has two or four hexadecimal digits. *)
Definition read_literal (s : str) : option (Z * Z) :=
  match read_number s with
  | Number v n h => if (h =? 0) || (h =? 2) || (h =? 4) then Some (v, n) else None
  | _ => None
  end.

(** The operations, in the order of their codes. *)
Definition OPERATIONS : list string :=
  ["LIT"; "INC"; "POP"; "NIP"; "SWP"; "ROT"; "DUP"; "OVR"; "EQU"; "NEQ"; "GTH"; "LTH"; "JMP"; "JCN"; "JSR"; "STH";
   "LDZ"; "STZ"; "LDR"; "STR"; "LDA"; "STA"; "DEI"; "DEO"; "ADD"; "SUB"; "MUL"; "DIV"; "AND"; "ORA"; "EOR"; "SFT"]%string.
Fixpoint code_in (ops : list string) (w : str) (code : Z) : option Z :=
  match ops with
  | [] => None
  | o :: ops' => if str_dec (bytes o) w then Some code else code_in ops' w (code + 1)
  end.
Definition has (c : Z) (s : str) : bool := existsb (Z.eqb c) s.
(** Three letters and any of the modes 2, r and k, in any order and any number;
    LIT always keeps; BRK has no modes. *)
Definition mnemonic (w : str) : option Z :=
  if str_dec w (bytes "BRK") then Some 0
  else
    let modes := skipn 3 w in
    match code_in OPERATIONS (firstn 3 w) 0 with
    | Some c =>
        if forallb (fun m => has m (bytes "2rk")) modes
        then Some (c + (if has (chr "2") modes then 32 else 0) + (if has (chr "r") modes then 64 else 0)
                     + (if has (chr "k") modes || (c =? 0) then 128 else 0))
        else None
    | None => None
    end.

(** Names of labels and macros. *)
Definition valid_name (n : str) : bool :=
  match n with
  | [] => false
  | c :: _ => negb (rune c) && (match mnemonic n with Some _ => false | None => true end)
              && (match read_number n with NotNumber => true | _ => false end)
  end.

(** ** Programs *)
(** The ways of writing an address: its low byte; the distance in one byte; the
    whole address; the distance in two bytes. *)
Inductive mode : Type := Low | Near | Whole | Far.
Definition width (m : mode) : Z := match m with Low | Near => 1 | Whole | Far => 2 end.
(** What is referred to: a label by its full name, the [k]-th lambda, or an
    anonymous label, of which the address is known. *)
Inductive target : Type := Label (name : str) | Lambda (k : Z) | At (addr : Z).
Definition target_dec (a b : target) : {a = b} + {a <> b}.
Proof. decide equality; try apply Z.eq_dec; apply str_dec. Defined.

(** A reference written at [x] to the address [l]. *)
Definition encode (m : mode) (x l : Z) : option (list Z) :=
  match m with
  | Low => Some [l mod 256]
  | Near => let d := l - (x + 2) in if (-128 <=? d) && (d <=? 127) then Some [d mod 256] else None
  | Whole => Some [l / 256; l mod 256]
  | Far => let d := (l - (x + 2)) mod 65536 in Some [d / 256; d mod 256]
  end.

(** One byte of the ROM: a number, or the [i]-th byte of a reference written
    at [x]. *)
Inductive cell : Type := Byte (v : Z) | Part (m : mode) (t : target) (x : Z) (i : Z).

Record prog : Type := mkProg {
  p_addr : Z;                        (* where the next byte goes *)
  p_scope : str;                     (* of the local labels *)
  p_macros : list str;
  p_labels : list (target * Z);
  p_ats : list Z;                    (* anonymous labels not yet used, latest first *)
  p_open : list Z;                   (* lambdas not yet closed, innermost first *)
  p_next : Z;                        (* how many lambdas there were *)
  p_cells : list (Z * cell);         (* the bytes placed, last first *)
  p_trace : list occ                 (* the tokens, last first *)
}.

Definition empty : prog := mkProg 256 (bytes "RESET") [] [] [] [] 0 [] [].

Fixpoint assoc (t : target) (l : list (target * Z)) : option Z :=
  match l with
  | [] => None
  | (k, a) :: l' => if target_dec k t then Some a else assoc t l'
  end.
Definition address (p : prog) (t : target) : option Z :=
  match t with At a => Some a | _ => assoc t (p_labels p) end.

(** The byte of a cell, with the labels of the whole program. *)
Definition cell_byte (p : prog) (c : cell) : option Z :=
  match c with
  | Byte v => Some v
  | Part m t x i =>
      match address p t with
      | Some l => match encode m x l with Some bs => nth_error bs (Z.to_nat i) | None => None end
      | None => None
      end
  end.

(** ** The first pass *)
Definition with_addr (p : prog) (a : Z) : prog :=
  mkProg a (p_scope p) (p_macros p) (p_labels p) (p_ats p) (p_open p) (p_next p) (p_cells p) (p_trace p).
Definition with_scope (p : prog) (s : str) : prog :=
  mkProg (p_addr p) s (p_macros p) (p_labels p) (p_ats p) (p_open p) (p_next p) (p_cells p) (p_trace p).
Definition with_ats (p : prog) (l : list Z) : prog :=
  mkProg (p_addr p) (p_scope p) (p_macros p) (p_labels p) l (p_open p) (p_next p) (p_cells p) (p_trace p).
Definition with_open (p : prog) (l : list Z) (n : Z) : prog :=
  mkProg (p_addr p) (p_scope p) (p_macros p) (p_labels p) (p_ats p) l n (p_cells p) (p_trace p).
Definition with_macro (p : prog) (n : str) : prog :=
  mkProg (p_addr p) (p_scope p) (n :: p_macros p) (p_labels p) (p_ats p) (p_open p) (p_next p) (p_cells p) (p_trace p).
Definition with_label (p : prog) (t : target) : prog :=
  mkProg (p_addr p) (p_scope p) (p_macros p) ((t, p_addr p) :: p_labels p) (p_ats p) (p_open p) (p_next p) (p_cells p) (p_trace p).
Definition with_cells (p : prog) (l : list (Z * cell)) : prog :=
  mkProg (p_addr p) (p_scope p) (p_macros p) (p_labels p) (p_ats p) (p_open p) (p_next p) (l ++ p_cells p) (p_trace p).
Definition with_occ (p : prog) (o : occ) : prog :=
  mkProg (p_addr p) (p_scope p) (p_macros p) (p_labels p) (p_ats p) (p_open p) (p_next p) (p_cells p) (o :: p_trace p).

Definition bind {A B} (x : option A) (f : A -> option B) : option B := match x with Some a => f a | None => None end.

Definition is_macro (p : prog) (n : str) : bool := existsb (str_eqb n) (p_macros p).
Definition is_label (p : prog) (t : target) : bool := match assoc t (p_labels p) with Some _ => true | None => false end.

(** A byte goes into the ROM, that is between 0x100 and 0xffff. *)
Definition place_byte (p : prog) (v : Z) : option prog :=
  if (256 <=? p_addr p) && (p_addr p <=? 65535)
  then Some (with_addr (with_cells p [(p_addr p, Byte v)]) ((p_addr p + 1) mod 65536)) else None.
Fixpoint place_bytes (p : prog) (l : list Z) : option prog :=
  match l with
  | [] => Some p
  | v :: l' => bind (place_byte p v) (fun p => place_bytes p l')
  end.
Definition place_ref (p : prog) (m : mode) (t : target) : option prog :=
  let x := p_addr p in
  if (256 <=? x) && (x + width m <=? 65536)
  then Some (with_addr (with_cells p (match width m with
                                      | 1 => [(x, Part m t x 0)]
                                      | _ => [(x + 1, Part m t x 1); (x, Part m t x 0)]
                                      end)) ((x + width m) mod 65536))
  else None.

(** [name] within the scope. *)
Definition local (p : prog) (name : str) : option str :=
  if len (p_scope p) + 1 + len name <=? 47 then Some (p_scope p ++ chr "/" :: name) else None.

(** The target that is written [r] after the rune, and the program without it
    if it can be used only once. *)
Definition find_target (p : prog) (r : str) : option (target * prog) :=
  if str_dec r (bytes "{") then Some (Lambda (p_next p), with_open p (p_next p :: p_open p) (p_next p + 1))
  else if str_dec r (bytes "@") then
    match p_ats p with a :: l => Some (At a, with_ats p l) | [] => None end
  else
    bind (match r with
          | c :: n => if (c =? chr "&") || (c =? chr "/") then local p n else Some r
          | [] => None
          end) (fun n =>
    if valid_name n && negb (is_macro p n) then Some (Label n, p) else None).
Definition place_ref_to (p : prog) (m : mode) (r : str) : option prog :=
  bind (find_target p r) (fun '(t, p) => place_ref p m t).

Definition define (p : prog) (t : target) : option prog :=
  if is_label p t then None else Some (with_label p t).
Definition define_name (p : prog) (n : str) : option prog :=
  if valid_name n && negb (is_macro p n) then define p (Label n) else None.

Fixpoint before_slash (s : str) : str :=
  match s with [] => [] | c :: s' => if c =? chr "/" then [] else c :: before_slash s' end.

(** The amount of a padding: a number, or the address of a label that is
    already defined. *)
Definition padding (p : prog) (s : str) : option (Z * prog) :=
  match read_number s with
  | Number v _ _ => Some (v, p)
  | BadNumber => None
  | NotNumber =>
      if str_dec s (bytes "@") then match p_ats p with a :: l => Some (a, with_ats p l) | [] => None end
      else
        bind (match s with
              | c :: n => if (c =? chr "&") || (c =? chr "/") then local p n else Some s
              | [] => None
              end) (fun n =>
        bind (assoc (Label n) (p_labels p)) (fun a => Some (a, p)))
  end.

Definition number_bytes (vn : Z * Z) : list Z :=
  let '(v, n) := vn in if n =? 1 then [v mod 256] else [v / 256; v mod 256].

(** The deepest level at which a file can be included or a macro used. *)
Definition MAX_DEPTH : Z := 32.

(** The effect of the token [lex] at the level [d]; [None] if it is wrong. *)
Definition effect (p : prog) (d : Z) (lex : str) : option prog :=
  match lex with
  | [] => None
  | c :: r =>
      let op code m := bind (place_byte p code) (fun p => place_ref_to p m r) in
      if c =? chr "(" then Some p
      else if c =? chr ")" then None
      else if c =? chr "[" then Some p
      else if c =? chr "]" then match r with [] => Some p | _ => None end
      else if c =? chr "~" then if d <? MAX_DEPTH then Some p else None
      else if c =? chr "%" then
        if valid_name r && negb (is_macro p r) && negb (is_label p (Label r)) then Some (with_macro p r) else None
      else if c =? chr "@" then
        if str_dec r (bytes "@") then Some (with_ats p (p_addr p :: p_ats p))
        else bind (define_name p r) (fun p => Some (with_scope p (before_slash r)))
      else if c =? chr "&" then bind (local p r) (define_name p)
      else if c =? chr "!" then op 64 Far
      else if c =? chr "?" then op 32 Far
      else if c =? chr "}" then
        match r, p_open p with
        | [], k :: l => define (with_open p l (p_next p)) (Lambda k)
        | _, _ => None
        end
      else if c =? chr "{" then
        match r with [] => bind (place_byte p 96) (fun p => place_ref_to p Far lex) | _ => None end
      else if c =? chr "/" then bind (place_byte p 96) (fun p => place_ref_to p Far lex)
      else if c =? chr "|" then bind (padding p r) (fun '(v, p) => Some (with_addr p v))
      else if c =? chr "$" then bind (padding p r) (fun '(v, p) => Some (with_addr p ((p_addr p + v) mod 65536)))
      else if c =? chr "#" then
        bind (read_literal r) (fun vn => place_bytes p ((if snd vn =? 1 then 128 else 160) :: number_bytes vn))
      else if c =? chr "." then op 128 Low
      else if c =? chr "-" then place_ref_to p Low r
      else if c =? chr "," then op 128 Near
      else if c =? chr "_" then place_ref_to p Near r
      else if c =? chr ";" then op 160 Whole
      else if c =? chr "=" then place_ref_to p Whole r
      else if c =? 34 then match r with [] => None | _ => place_bytes p r end
      else
        match read_number lex with
        | Number _ _ _ => bind (read_literal lex) (fun vn => place_bytes p (number_bytes vn))
        | BadNumber => None
        | NotNumber =>
            match mnemonic lex with
            | Some v => place_byte p v
            | None =>
                if is_macro p lex then if d <? MAX_DEPTH then Some p else None
                else bind (place_byte p 96) (fun p => place_ref_to p Far lex)
            end
        end
  end.

(** One token; it is remembered where it was. *)
Definition step (p : prog) (d : Z) (lex : str) : option prog :=
  effect (with_occ p (mkOcc d (p_scope p) (p_addr p) lex)) d lex.
Fixpoint run (p : prog) (toks : list (Z * str)) : option prog :=
  match toks with
  | [] => Some p
  | (d, l) :: toks' => bind (step p d l) (fun p => run p toks')
  end.

(** The tokens of a trace, first one first. *)
Definition lexemes (tr : list occ) : list (Z * str) := rev (map (fun o => (o_depth o, o_lex o)) tr).

(** The whole program is right: its lambdas are closed and every reference is
    to something that is defined and within reach. *)
Definition complete (p : prog) : Prop :=
  p_open p = [] /\ forall a c, In (a, c) (p_cells p) -> cell_byte p c <> None.

(** The only byte placed at [a] is [c]. *)
Definition only_at (p : prog) (a : Z) (c : cell) : Prop :=
  filter (fun d => fst d =? a) (p_cells p) = [(a, c)].

(** ** Tokens and what they refer to *)
(** The runes and words that write a reference [r]: the bytes before it and how
    it is written. *)
Inductive writes (macros : list str) : str -> option Z -> mode -> str -> Prop :=
| writes_lit_low r : writes macros (chr "." :: r) (Some 128) Low r
| writes_low r : writes macros (chr "-" :: r) None Low r
| writes_lit_near r : writes macros (chr "," :: r) (Some 128) Near r
| writes_near r : writes macros (chr "_" :: r) None Near r
| writes_lit_whole r : writes macros (chr ";" :: r) (Some 160) Whole r
| writes_whole r : writes macros (chr "=" :: r) None Whole r
| writes_jmi r : writes macros (chr "!" :: r) (Some 64) Far r
| writes_jci r : writes macros (chr "?" :: r) (Some 32) Far r
| writes_sub r : writes macros (chr "/" :: r) (Some 96) Far (chr "/" :: r)
| writes_lambda : writes macros (bytes "{") (Some 96) Far (bytes "{")
| writes_word w : w <> [] -> rune (hd 0 w) = false -> read_number w = NotNumber -> mnemonic w = None ->
    ~ In w macros -> writes macros w (Some 96) Far w.

Definition lead (opc : option Z) : Z := match opc with Some _ => 1 | None => 0 end.

(** How many bytes a token puts into the ROM, if any. *)
Inductive emits (macros : list str) : str -> Z -> Prop :=
| emits_reference lex opc m r : writes macros lex opc m r -> emits macros lex (lead opc + width m)
| emits_literal r v n : read_literal r = Some (v, n) -> emits macros (chr "#" :: r) (1 + n)
| emits_text c r : emits macros (34 :: c :: r) (len (c :: r))
| emits_number lex v n : rune (hd 0 lex) = false -> read_literal lex = Some (v, n) -> emits macros lex n
| emits_operation lex v : rune (hd 0 lex) = false -> read_number lex = NotNumber -> mnemonic lex = Some v -> emits macros lex 1.

(** The bytes of the tokens that are not references. *)
Inductive spells : str -> list Z -> Prop :=
| spells_literal_byte r v : read_literal r = Some (v, 1) -> spells (chr "#" :: r) [128; v]
| spells_literal_short r v : read_literal r = Some (v, 2) -> spells (chr "#" :: r) [160; v / 256; v mod 256]
| spells_text c r : spells (34 :: c :: r) (c :: r)
| spells_byte lex v : rune (hd 0 lex) = false -> read_literal lex = Some (v, 1) -> spells lex [v]
| spells_short lex v : rune (hd 0 lex) = false -> read_literal lex = Some (v, 2) -> spells lex [v / 256; v mod 256]
| spells_operation lex v : rune (hd 0 lex) = false -> read_number lex = NotNumber -> mnemonic lex = Some v -> spells lex [v].

(** The token makes [n] a label: "@n", or "&m" in the scope s with n = s/m. *)
Definition defines (o : occ) (n : str) : Prop :=
  (o_lex o = chr "@" :: n /\ n <> bytes "@") \/
  exists m, o_lex o = chr "&" :: m /\ n = o_scope o ++ chr "/" :: m.
(** The label that is meant by [r] in the scope [s]. *)
Definition full_name (s : str) (r : str) : str :=
  match r with
  | c :: m => if (c =? chr "&") || (c =? chr "/") then s ++ chr "/" :: m else r
  | [] => []
  end.
(** The macros that the tokens define. *)
Definition macro_names (tr : list occ) : list str :=
  flat_map (fun o => match o_lex o with c :: r => if c =? chr "%" then [r] else [] | [] => [] end) tr.

(** Below [l1] are the tokens before [o], above [l2] those after it.  The token
    [o] puts a byte at [a]: *)
Definition covers (l1 : list occ) (o : occ) (a : Z) : Prop :=
  exists k, emits (macro_names l1) (o_lex o) k /\ o_addr o <= a < o_addr o + k.
(** No other token does. *)
Definition alone (l2 : list occ) (o : occ) (l1 : list occ) (a : Z) : Prop :=
  forall l4 d l3, l2 ++ o :: l1 = l4 ++ d :: l3 -> covers l3 d a -> l4 = l2.

(** How a reference of the token [o], of the mode [m], to the address [l] looks
    in the ROM. *)
Definition refers_to (evs : list event) (l2 : list occ) (o : occ) (l1 : list occ) (opc : option Z) (m : mode) (l : Z) : Prop :=
  let x := o_addr o + lead opc in
  256 <= o_addr o /\ x + width m <= 65536 /\
  (forall v, opc = Some v -> alone l2 o l1 (o_addr o) -> rom evs (o_addr o) = Some v) /\
  exists bs, encode m x l = Some bs /\
    forall i b, nth_error bs i = Some b -> alone l2 o l1 (x + Z.of_nat i) -> rom evs (x + Z.of_nat i) = Some b.

(** Pairs of tokens, like brackets: [up] opens and [down] closes.  In a list of
    tokens, the last one first, how many more are opened than closed: *)
Definition balance (up down : occ -> bool) (l : list occ) : Z :=
  fold_right (fun o n => n + (if up o then 1 else 0) - (if down o then 1 else 0)) 0 l.
(** Nothing is closed in [l] that was opened before. *)
Definition closed_inside (up down : occ -> bool) (l : list occ) : Prop :=
  forall a b, l = a ++ b -> 0 <= balance up down b.
(** What stands between a token that opens and the one that closes it. *)
Definition balanced (up down : occ -> bool) (l : list occ) : Prop :=
  balance up down l = 0 /\ closed_inside up down l.

Definition REFERENCE_RUNES : str := bytes ".-,_;=!?".
(** A lambda begins with "{", alone or after a rune for references, and ends
    with "}". *)
Definition opens (o : occ) : bool :=
  match o_lex o with
  | [c] => c =? chr "{"
  | [c; d] => has c REFERENCE_RUNES && (d =? chr "{")
  | _ => false
  end.
Definition closes (o : occ) : bool := str_eqb (o_lex o) (bytes "}").
(** An anonymous label is made by "@@" and used by "@" after a rune for
    references or for padding. *)
Definition makes_at (o : occ) : bool := str_eqb (o_lex o) (bytes "@@").
Definition uses_at (o : occ) : bool :=
  match o_lex o with
  | [c; d] => (has c REFERENCE_RUNES || has c (bytes "|$")) && (d =? chr "@")
  | _ => false
  end.

(** ** Texts *)
(** CR LF counts as LF. *)
Fixpoint lf (s : str) : str :=
  match s with
  | [] => []
  | c :: s' => match s' with d :: _ => if (c =? 13) && (d =? 10) then lf s' else c :: lf s' | [] => c :: lf s' end
  end.
(** A text file: bytes, and no CR without LF. *)
Definition text (s : str) : Prop := Forall is_byte s /\ ~ In 13 (lf s).

Definition blank (c : Z) : bool := has c [32; 9; 10; 11; 12; 13].
Fixpoint skip_blanks (s : str) : str :=
  match s with [] => [] | c :: s' => if blank c then skip_blanks s' else s end.
(** The characters before the next blank, and those behind it. *)
Fixpoint to_blank (s : str) : str * str :=
  match s with
  | [] => ([], [])
  | c :: s' => if blank c then ([], s') else let '(w, r) := to_blank s' in (c :: w, r)
  end.
Fixpoint to_quote (s : str) : option (str * str) :=
  match s with
  | [] => None
  | c :: s' => if c =? 34 then Some ([], s') else bind (to_quote s') (fun '(w, r) => Some (c :: w, r))
  end.

(** The first word of a text: up to 47 characters without blanks; or, after a
    quotation mark and a space, all up to the next quotation mark, which
    together with the first one makes up to 1024 characters. *)
Inductive first_word_is : Type := NoWord | Word (w rest : str) | BadWord.
Definition plain_word (s : str) : first_word_is :=
  let '(w, r) := to_blank s in if len w <=? 47 then Word w r else BadWord.
Definition first_word (s : str) : first_word_is :=
  match skip_blanks s with
  | [] => NoWord
  | c :: s' =>
      if c =? 34 then
        match s' with
        | d :: s'' =>
            if d =? 32 then
              match to_quote s'' with
              | Some (w, r) => if len w <=? 1023 then Word (34 :: w) r else BadWord
              | None => BadWord
              end
            else plain_word (c :: s')
        | [] => plain_word (c :: s')
        end
      else plain_word (c :: s')
  end.
(** All the words of a text. *)
Inductive words : str -> list str -> Prop :=
| words_end s : first_word s = NoWord -> words s []
| words_next s w r l : first_word s = Word w r -> words r l -> words s (w :: l).

(** [ws] are the next words of [s], and [rest] comes after them. *)
Inductive reads : str -> list str -> str -> Prop :=
| reads_nothing s : reads s [] s
| reads_word s w r ws rest : first_word s = Word w r -> reads r ws rest -> reads s (w :: ws) rest.
(** How many more words of [ws] are "(" than ")". *)
Definition parens (ws : list str) : Z :=
  fold_right (fun w n => n + (if str_dec w (bytes "(") then 1 else 0) - (if str_dec w (bytes ")") then 1 else 0)) 0 ws.
(** What comes in [s] after the word that opened a comment is the inside of the
    comment, where all "(" and ")" match, then the ")" that closes it, and then
    [rest]. *)
Definition comment (s rest : str) : Prop :=
  exists ws, reads s (ws ++ [bytes ")"]) rest /\ parens ws = 0 /\ forall ws1 ws2, ws = ws1 ++ ws2 -> 0 <= parens ws1.

(** The words of a text that does not define macros and includes no files,
    without what is inside the comments.  It is [whole] if it does not end with
    a word that is too long or in a comment that is not closed. *)
Definition simple (w : str) : Prop := ~ In (hd 0 w) (bytes "(~%").
Inductive code : str -> list str -> bool -> Prop :=
| code_end s : first_word s = NoWord -> code s [] true
| code_word s w r l whole : first_word s = Word w r -> simple w -> code r l whole -> code s (w :: l) whole
| code_comment s w r rest l whole : first_word s = Word w r -> hd 0 w = chr "(" -> comment r rest -> code rest l whole -> code s (w :: l) whole
| code_too_long s : first_word s = BadWord -> code s [] false
| code_unclosed s w r : first_word s = Word w r -> hd 0 w = chr "(" -> (forall rest, ~ comment r rest) -> code s [w] false.
