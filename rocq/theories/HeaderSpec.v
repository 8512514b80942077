(** How a C compiler reads a header such as the one of buxn-bindgen: words,
    numbers and signs, comments and directives left out, then enumerations,
    structs and two forms of function.  And what these functions do.

    This is a part of C (ISO C11, 6.4, 6.7.2, 6.7.9, 6.9.1): what it accepts is
    C with that meaning.  There is no line splicing and no conditional inclusion
    (a directive is a line that is left out, as the first time that a header is
    included). *)
From Verif Require Import Base AsmModel.
From Coq Require Import String.
Open Scope list_scope.

(** ** Tokens (6.4) *)
Inductive token : Type := Word (w : str) | Number (n : Z) | Sign (c : Z) | Bad (w : str).

Definition is_digit (c : Z) : bool := (48 <=? c) && (c <=? 57).
Definition in_word (c : Z) : bool := is_digit c || ((65 <=? c) && (c <=? 90)) || ((97 <=? c) && (c <=? 122)) || (c =? 95).
Definition is_blank (c : Z) : bool := (c =? 32) || (c =? 9) || (c =? 10).

(** Integer constants (6.4.4.1), without suffixes: decimal, octal after 0,
    hexadecimal after 0x. *)
Definition digit_value (c : Z) : option Z :=
  if is_digit c then Some (c - 48) else if (97 <=? c) && (c <=? 102) then Some (c - 97 + 10)
  else if (65 <=? c) && (c <=? 70) then Some (c - 65 + 10) else None.
Fixpoint in_base (base n : Z) (s : str) : option Z :=
  match s with
  | [] => Some n
  | c :: s' => match digit_value c with Some d => if d <? base then in_base base (base * n + d) s' else None | None => None end
  end.
Definition integer (s : str) : option Z :=
  match s with
  | 48 :: x :: s' => if (x =? 120) || (x =? 88) then match s' with [] => None | _ => in_base 16 0 s' end else in_base 8 0 (x :: s')
  | _ => in_base 10 0 s
  end.
Definition word_token (w : str) : list token :=
  match w with
  | [] => []
  | c :: _ => if is_digit c then match integer w with Some n => [Number n] | None => [Bad w] end else [Word w]
  end.

(** Where the text stands: outside or in a word, after a slash, in the rest of a
    line that is left out. *)
Inductive place : Type := Outside | Inside (w : str) | Slash | Skipped.
Definition read_char (p : place) (c : Z) : list token * place :=
  let fresh := if in_word c then ([], Inside [c]) else if is_blank c then ([], Outside)
    else if c =? 47 then ([], Slash) else if c =? 35 then ([], Skipped) else ([Sign c], Outside) in
  match p with
  | Outside => fresh
  | Inside w => if in_word c then ([], Inside (w ++ [c])) else (word_token w ++ fst fresh, snd fresh)
  | Slash => if c =? 47 then ([], Skipped) else (Sign 47 :: fst fresh, snd fresh)
  | Skipped => ([], if c =? 10 then Outside else Skipped)
  end.
Fixpoint tokens_from (p : place) (s : str) : list token :=
  match s with
  | [] => match p with Inside w => word_token w | Slash => [Sign 47] | _ => [] end
  | c :: s' => fst (read_char p c) ++ tokens_from (snd (read_char p c)) s'
  end.
Definition tokens (s : str) : list token := tokens_from Outside s.
(** The tokens of a text that is written down here. *)
Definition code (s : string) : list token := tokens (bytes s).

(** ** Names (6.4.1, 6.4.2) *)
Definition keywords : list str := map bytes
  ["auto"; "break"; "case"; "char"; "const"; "continue"; "default"; "do"; "double"; "else"; "enum"; "extern"; "float"; "for"; "goto"; "if";
   "inline"; "int"; "long"; "register"; "restrict"; "return"; "short"; "signed"; "sizeof"; "static"; "struct"; "switch"; "typedef"; "union";
   "unsigned"; "void"; "volatile"; "while"]%string.
Definition is_keyword (w : str) : bool := existsb (str_eqb w) keywords.
Definition is_name (w : str) : bool :=
  match w with [] => false | c :: _ => negb (is_digit c) && forallb in_word w && negb (is_keyword w) end.

(** ** Declarations *)
Inductive decl : Type :=
| Enumeration (constants : list (str * Z)) (type : option str)
| Structure (fields : list (str * bool)) (type : str)                         (* true: uint16_t, false: uint8_t *)
| Reader (type function : str) (fields : list (str * bool * str))             (* field, two bytes, constant *)
| Writer (type function : str) (fields : list (str * bool * str)).

Definition parser (A : Type) : Type := list token -> option (A * list token).
Definition token_eqb (a b : token) : bool :=
  match a, b with Word u, Word v => str_eqb u v | Number m, Number n => m =? n | Sign c, Sign d => c =? d | _, _ => false end.
Fixpoint eat (p ts : list token) : option (list token) :=
  match p, ts with
  | [], _ => Some ts
  | a :: p', b :: ts' => if token_eqb a b then eat p' ts' else None
  | _ :: _, [] => None
  end.
Definition skip (s : string) : parser unit := fun ts => match eat (code s) ts with Some r => Some (tt, r) | None => None end.
Definition name : parser str := fun ts => match ts with Word w :: r => if is_keyword w then None else Some (w, r) | _ => None end.
Definition number : parser Z := fun ts => match ts with Number n :: r => Some (n, r) | Sign 45 :: Number n :: r => Some (- n, r) | _ => None end.
Definition give {A} (x : A) : parser A := fun ts => Some (x, ts).
Definition andthen {A B} (p : parser A) (q : A -> parser B) : parser B := fun ts => match p ts with Some (x, r) => q x r | None => None end.
Definition orelse {A} (p q : parser A) : parser A := fun ts => match p ts with Some x => Some x | None => q ts end.
Notation "'let*' x ':=' p 'in' q" := (andthen p (fun x => q)) (at level 200, x name, p at level 100, q at level 200, right associativity).
Notation "p >> q" := (andthen p (fun _ => q)) (at level 100, q at level 200, right associativity).
(** As many as there are. *)
Fixpoint some_of {A} (fuel : nat) (p : parser A) : parser (list A) := fun ts =>
  match fuel with
  | O => Some ([], ts)
  | S fuel' => match p ts with Some (x, r) => match some_of fuel' p r with Some (l, r') => Some (x :: l, r') | None => None end | None => Some ([], ts) end
  end.
Definition many {A} (p : parser A) : parser (list A) := fun ts => some_of (List.length ts) p ts.
Definition never {A} : parser A := fun _ => None.

(** An enumeration has at least one constant (6.7.2.2). *)
Definition constant : parser (str * Z) := let* n := name in skip "=" >> let* v := number in skip "," >> give (n, v).
Definition constant_list : parser (list (str * Z)) := let* l := many constant in match l with [] => never | _ => give l end.
Definition enumeration : parser decl := skip "enum {" >> let* l := constant_list in skip "};" >> give (Enumeration l None).
Definition enumeration_type : parser decl := skip "typedef enum {" >> let* l := constant_list in skip "}" >> let* t := name in skip ";" >> give (Enumeration l (Some t)).
Definition width (one two : string) : parser bool := orelse (skip one >> give false) (skip two >> give true).
Definition member : parser (str * bool) := let* w := width "uint8_t" "uint16_t" in let* f := name in skip ";" >> give (f, w).
Definition structure : parser decl := skip "typedef struct {" >> let* l := many member in skip "}" >> let* t := name in skip ";" >> give (Structure l t).
Definition loaded : parser (str * bool * str) :=
  skip "." >> let* f := name in skip "=" >> let* w := width "buxn_vm_mem_load" "buxn_vm_mem_load2" in
  skip "(vm, addr +" >> let* c := name in skip ")," >> give (f, w, c).
Definition stored : parser (str * bool * str) :=
  let* w := width "buxn_vm_mem_store" "buxn_vm_mem_store2" in
  skip "(vm, addr +" >> let* c := name in skip ", value." >> let* f := name in skip ");" >> give (f, w, c).
Definition reader : parser decl :=
  skip "static inline" >> let* t := name in let* f := name in skip "(buxn_vm_t* vm, uint16_t addr) { return (" >> let* t' := name in skip ") {" >>
  let* l := many loaded in skip "}; }" >> if str_eqb t t' then give (Reader t f l) else never.
Definition writer : parser decl :=
  skip "static inline void" >> let* f := name in skip "(buxn_vm_t* vm, uint16_t addr, " >> let* t := name in skip "value) {" >>
  let* l := many stored in skip "}" >> give (Writer t f l).
Definition declaration : parser decl := orelse enumeration (orelse enumeration_type (orelse structure (orelse writer reader))).
(** The whole text, or nothing. *)
Definition read_header (text : str) : option (list decl) :=
  match many declaration (tokens text) with Some (l, []) => Some l | _ => None end.

(** ** What the functions do *)
Definition enumerators (ds : list decl) : list (str * Z) := flat_map (fun d => match d with Enumeration l _ => l | _ => [] end) ds.
(** The value of a constant; none if it is not declared, or twice. *)
Definition value_of (cs : list (str * Z)) (n : str) : option Z :=
  match filter (fun x => str_eqb n (fst x)) cs with [x] => Some (snd x) | _ => None end.
(** [buxn_vm_mem_load], [buxn_vm_mem_load2] and the two that store; the address
    is an uint16_t, the high byte comes first. *)
Definition load (two : bool) (m : arr) (a : Z) : Z := if two then 256 * m (a mod 65536) + m ((a + 1) mod 65536) else m (a mod 65536).
Definition store (two : bool) (m : arr) (a v : Z) : arr :=
  if two then upd (upd m (a mod 65536) (v / 256)) ((a + 1) mod 65536) (v mod 256) else upd m (a mod 65536) v.
(** A struct is a list of fields with their values. *)
Fixpoint run_reader (cs : list (str * Z)) (fields : list (str * bool * str)) (m : arr) (addr : Z) : option (list (str * Z)) :=
  match fields with
  | [] => Some []
  | (f, w, c) :: fields' =>
      match value_of cs c, run_reader cs fields' m addr with Some off, Some l => Some ((f, load w m (addr + off)) :: l) | _, _ => None end
  end.
Fixpoint run_writer (cs : list (str * Z)) (fields : list (str * bool * str)) (m : arr) (addr : Z) (value : list (str * Z)) : option arr :=
  match fields with
  | [] => Some m
  | (f, w, c) :: fields' =>
      match value_of cs c, value_of value f with Some off, Some v => run_writer cs fields' (store w m (addr + off) v) addr value | _, _ => None end
  end.
