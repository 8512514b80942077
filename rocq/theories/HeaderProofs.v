(** The text of BindgenModel as HeaderSpec reads it. *)
From Verif Require Import Base AsmModel TransportModel BindgenModel HeaderSpec.
From Coq Require Import ZifyBool String.
Open Scope list_scope.
Ltac Zify.zify_post_hook ::= Z.div_mod_to_equations.

(** ** Numbers *)
Lemma in_base_app b s : forall n t, in_base b n (s ++ t) = match in_base b n s with Some k => in_base b k t | None => None end.
Proof. induction s as [|c s IH]; intros n t; [reflexivity|]. cbn. destruct (digit_value c); [|reflexivity]. destruct (_ <? b); [apply IH|reflexivity]. Qed.
Lemma decimal_digit b d : 0 <= d < 10 -> 10 <= b -> forall n, in_base b n [48 + d] = Some (b * n + d).
Proof.
  intros D B n. cbn [in_base]. unfold digit_value, is_digit. replace ((48 <=? 48 + d) && (48 + d <=? 57)) with true by lia. replace (48 + d - 48) with d by lia.
  replace (d <? b) with true by lia. reflexivity.
Qed.
Lemma decimal_read f : forall n, 0 <= n < 10 ^ Z.of_nat f -> in_base 10 0 (decimal f n) = Some n.
Proof.
  induction f as [|f IH]; intros n H; [cbn in *; f_equal; lia|]. cbn [decimal]. rewrite in_base_app. destruct (Z.ltb_spec n 10).
  - change (in_base 10 0 []) with (Some 0). cbn match. rewrite decimal_digit by lia. f_equal. lia.
  - rewrite IH; [rewrite decimal_digit by lia; f_equal; lia|]. rewrite Nat2Z.inj_succ, Z.pow_succ_r in H by lia. lia.
Qed.
Lemma decimal_head f : forall n, 0 < n < 10 ^ Z.of_nat f -> exists c s, decimal f n = c :: s /\ 49 <= c <= 57.
Proof.
  induction f as [|f IH]; intros n H; [cbn in H; lia|]. cbn [decimal]. destruct (Z.ltb_spec n 10); [exists (48 + n mod 10), []; split; [reflexivity|lia]|].
  destruct (IH (n / 10)) as (c & s & -> & C); [rewrite Nat2Z.inj_succ, Z.pow_succ_r in H by lia; lia|]. exists c, (s ++ [48 + n mod 10]). auto.
Qed.
Lemma decimal_word f : forall n, 0 <= n -> forallb in_word (decimal f n) = true.
Proof.
  induction f as [|f IH]; intros n H; [reflexivity|]. cbn [decimal]. rewrite forallb_app. cbn [forallb]. unfold in_word at 2, is_digit.
  replace ((48 <=? 48 + n mod 10) && (48 + n mod 10 <=? 57)) with true by lia. cbn. rewrite andb_true_r. destruct (n <? 10); [reflexivity|]. apply IH. lia.
Qed.
Lemma decimal_token n : 0 <= n < 10 ^ 20 -> word_token (decimal 20 n) = [Number n] /\ forallb in_word (decimal 20 n) = true /\ decimal 20 n <> [].
Proof.
  intros H. split; [|split; [apply decimal_word; lia|cbn [decimal]; destruct (if n <? 10 then _ else _); discriminate]].
  destruct (Z.eq_dec n 0) as [->|N]; [reflexivity|]. destruct (decimal_head 20 n) as (c & s & E & C); [lia|]. pose proof (decimal_read 20 n ltac:(lia)) as R. rewrite E in *. cbn [word_token].
  unfold is_digit. replace ((48 <=? c) && (c <=? 57)) with true by lia. replace (integer (c :: s)) with (in_base 10 0 (c :: s)); [now rewrite R|].
  assert (D : c = 49 \/ c = 50 \/ c = 51 \/ c = 52 \/ c = 53 \/ c = 54 \/ c = 55 \/ c = 56 \/ c = 57) by lia.
  repeat (destruct D as [->|D]; [reflexivity|]). subst c. reflexivity.
Qed.
Lemma hex_digit d : 0 <= d < 16 -> in_word (digit d) = true /\ forall n, in_base 16 n [digit d] = Some (16 * n + d).
Proof.
  intros D. unfold digit. destruct (Z.ltb_spec d 10).
  - split; [unfold in_word, is_digit; lia|]. intros n. now apply decimal_digit.
  - split; [unfold in_word, is_digit; lia|]. intros n. cbn [in_base]. unfold digit_value, is_digit. replace ((48 <=? 87 + d) && (87 + d <=? 57)) with false by lia.
    replace ((97 <=? 87 + d) && (87 + d <=? 102)) with true by lia. replace (87 + d - 97 + 10) with d by lia. replace (d <? 16) with true by lia. reflexivity.
Qed.
Lemma hex_read n : 0 <= n < 65536 -> in_base 16 0 (hex n) = Some n /\ forallb in_word (hex n) = true /\ hex n <> [].
Proof.
  intros H. unfold hex. change [digit (n / 16 mod 16); digit (n mod 16)] with ([digit (n / 16 mod 16)] ++ [digit (n mod 16)]).
  rewrite !forallb_app. cbn [forallb]. destruct (hex_digit (n / 16 mod 16) ltac:(lia)) as [W1 D1]. destruct (hex_digit (n mod 16) ltac:(lia)) as [W2 D2].
  destruct (hex_digit (n / 256 mod 16) ltac:(lia)) as [W3 D3]. destruct (hex_digit (n / 4096) ltac:(lia)) as [W4 D4].
  assert (NB : forall k, in_base 16 k [] = Some k) by reflexivity. split; [|split].
  - assert (X : in_base 16 0 (if n <? 4096 return list Z then [] else [digit (n / 4096)]) = Some (n / 4096)) by (destruct (Z.ltb_spec n 4096); [rewrite NB|rewrite D4]; f_equal; lia).
    rewrite in_base_app, X. assert (Y : in_base 16 (n / 4096) (if n <? 256 return list Z then [] else [digit (n / 256 mod 16)]) = Some (n / 256)) by (destruct (Z.ltb_spec n 256); [rewrite NB|rewrite D3]; f_equal; lia).
    rewrite in_base_app, Y, in_base_app, D1, D2. f_equal. lia.
  - rewrite W1, W2. destruct (n <? 4096), (n <? 256); cbn; rewrite ?W3, ?W4; reflexivity.
  - intros E. repeat (apply app_eq_nil in E as [_ E]). discriminate.
Qed.

(** ** Tokens *)
Fixpoint run (p : place) (s : str) : list token * place :=
  match s with [] => ([], p) | c :: s' => let (t, q) := read_char p c in let (t', q') := run q s' in (t ++ t', q') end.
Lemma tokens_run s : forall p t, tokens_from p (s ++ t) = fst (run p s) ++ tokens_from (snd (run p s)) t.
Proof.
  induction s as [|c s IH]; intros p t; [reflexivity|]. cbn [app tokens_from run]. destruct (read_char p c) as [t1 q]. cbn [fst snd]. rewrite IH.
  destruct (run q s). cbn. now rewrite app_assoc.
Qed.
Lemma chunk l ts s : run Outside l = (ts, Outside) -> tokens (l ++ s) = ts ++ tokens s.
Proof. intros E. unfold tokens. now rewrite tokens_run, E. Qed.
Lemma inside w : forall a s, forallb in_word w = true -> tokens_from (Inside a) (w ++ s) = tokens_from (Inside (a ++ w)) s.
Proof.
  induction w as [|c w IH]; intros a s H; [now rewrite app_nil_r|]. cbn in H. apply andb_prop in H as [C W]. cbn [app tokens_from read_char]. rewrite C. cbn [fst snd app].
  rewrite IH by exact W. now rewrite <- app_assoc.
Qed.
Lemma a_word w c s : w <> [] -> forallb in_word w = true -> in_word c = false -> tokens (w ++ c :: s) = word_token w ++ tokens (c :: s).
Proof.
  intros N W C. destruct w as [|x w]; [congruence|]. cbn in W. apply andb_prop in W as [X W]. unfold tokens. cbn [app tokens_from]. unfold read_char at 1 2. rewrite X. cbn [fst snd].
  rewrite inside by exact W. cbn [app tokens_from]. unfold read_char at 1 2. rewrite C. cbn [fst snd]. unfold read_char. rewrite C. now rewrite <- app_assoc.
Qed.
Lemma skipped n s : ~ In 10 n -> tokens_from Skipped (n ++ 10 :: s) = tokens s.
Proof.
  induction n as [|c n IH]; intros H; [reflexivity|]. cbn [app tokens_from read_char fst snd]. replace (c =? 10) with false by (cbn in H; lia). apply IH. firstorder.
Qed.
Lemma comment_line n s : ~ In 10 n -> tokens (([9] ++ bytes "/// ") ++ n ++ [10; 9] ++ s) = tokens s.
Proof.
  intros H. unfold tokens at 1. rewrite tokens_run. change (run Outside ([9] ++ bytes "/// ")) with (@nil token, Skipped). cbn [fst snd]. rewrite app_nil_l.
  change ([10; 9] ++ s) with (10 :: [9] ++ s). rewrite skipped by exact H. rewrite (chunk [9] []) by reflexivity. reflexivity.
Qed.
Lemma a_name w c s : is_name w = true -> in_word c = false -> tokens (w ++ c :: s) = Word w :: tokens (c :: s).
Proof.
  intros N C. unfold is_name in N. destruct w as [|x w]; [discriminate|]. apply andb_prop in N as [N _]. apply andb_prop in N as [D W].
  rewrite a_word; [|discriminate|exact W|exact C]. cbn [word_token]. destruct (is_digit x); [discriminate|reflexivity].
Qed.
Lemma a_name2 w l s : is_name w = true -> match l with [] => true | c :: _ => in_word c end = false -> tokens (w ++ l ++ s) = Word w :: tokens (l ++ s).
Proof. intros N H. destruct l as [|c l]; [discriminate|]. cbn [app]. now apply a_name. Qed.
Lemma name_keyword w : is_name w = true -> is_keyword w = false.
Proof. unfold is_name. destruct w; [discriminate|]. intros H. apply andb_prop in H as [_ H]. now destruct (is_keyword _). Qed.
Lemma name_words w : is_name w = true -> forallb in_word w = true.
Proof. unfold is_name. destruct w; [discriminate|]. intros H. apply andb_prop in H as [H _]. now apply andb_prop in H as [_ H]. Qed.

(** ** The pieces *)
Definition number_tokens (v : Z) : list token := if v <? 0 then [Sign 45; Number (- v)] else [Number v].
Lemma signed_tokens v c s : -65536 < v < 65536 -> in_word c = false -> tokens (signed v ++ c :: s) = number_tokens v ++ tokens (c :: s).
Proof.
  intros V C. unfold signed, number_tokens. destruct (v <? 0) eqn:L.
  - destruct (decimal_token (- v)) as (T & W & N); [lia|]. change ((45 :: decimal 20 (- v)) ++ c :: s) with ([45] ++ decimal 20 (- v) ++ c :: s).
    rewrite (chunk [45] [Sign 45]) by reflexivity. rewrite a_word by auto. now rewrite T.
  - destruct (decimal_token v) as (T & W & N); [lia|]. rewrite a_word by auto. now rewrite T.
Qed.
Lemma hex_tokens v c s : 0 <= v < 65536 -> in_word c = false -> tokens ((bytes "0x" ++ hex v) ++ c :: s) = number_tokens v ++ tokens (c :: s).
Proof.
  intros V C. destruct (hex_read v V) as (R & W & N). rewrite a_word; [|discriminate| |exact C].
  - unfold number_tokens. replace (v <? 0) with false by lia. change (bytes "0x" ++ hex v) with (48 :: 120 :: hex v). cbn [word_token]. change (is_digit 48) with true. cbn match.
    replace (integer (48 :: 120 :: hex v)) with (in_base 16 0 (hex v)); [now rewrite R|]. cbn [integer]. destruct (hex v); [congruence|reflexivity].
  - rewrite forallb_app, W. reflexivity.
Qed.

Section Styles.
Variable styles : section_type -> style.
(** The type of a section, and the function names of a struct. *)
Definition type_name (t : section_type) (sc : str) : str := y_prefix (styles t) ++ map lower sc ++ y_suffix (styles t).
Definition function_name (sc : str) (what : string) : str := y_prefix (styles TCommand) ++ map lower sc ++ bytes what.
Definition constant_tokens (n : str) (v : Z) : list token := Word n :: code "=" ++ number_tokens v ++ code ",".
Definition in_range (t : section_type) (v : Z) : Prop := match t with TDevice => 0 <= v < 65536 | _ => -65536 < v < 65536 end.

Lemma const_text t name sc m v s : is_name (const_name styles t sc m) = true -> ~ In 10 name -> in_range t v ->
  tokens (piece_text styles (PConst t name sc m v) ++ s) = constant_tokens (const_name styles t sc m) v ++ tokens s.
Proof.
  intros N L R. unfold piece_text. set (cn := const_name styles t sc m) in *. clearbody cn. set (num := match t with TDevice => bytes "0x" ++ hex v | _ => signed v end).
  assert (NT : forall s, tokens (num ++ [44; 10] ++ s) = number_tokens v ++ tokens ([44; 10] ++ s)).
  { intros s'. destruct t; [apply hex_tokens|apply signed_tokens|apply signed_tokens]; auto. }
  transitivity (tokens (([9] ++ bytes "/// ") ++ name ++ [10; 9] ++ cn ++ bytes " = " ++ num ++ [44; 10] ++ s)).
  - f_equal. rewrite <- !app_assoc. unfold num. destruct t; rewrite <- ?app_assoc; reflexivity.
  - clearbody num. rewrite comment_line by exact L. rewrite a_name2 by (auto; reflexivity). rewrite (chunk (bytes " = ") (code "=")) by reflexivity. rewrite NT.
    rewrite (chunk [44; 10] (code ",")) by reflexivity. unfold constant_tokens. cbn [app]. now rewrite <- !app_assoc.
Qed.
Lemma begin_text t s : tokens (piece_text styles (PBegin t) ++ s) = code (match t with TCommand => "enum {" | _ => "typedef enum {" end) ++ tokens s.
Proof. destruct t; unfold piece_text; apply chunk; vm_compute; reflexivity. Qed.
Definition end_tokens (t : section_type) (sc : str) : list token :=
  match t with TCommand => code "};" | _ => code "}" ++ Word (type_name t sc) :: code ";" end.
Lemma end_text t sc s : (t <> TCommand -> is_name (type_name t sc) = true) -> tokens (piece_text styles (PEnd t sc) ++ s) = end_tokens t sc ++ tokens s.
Proof.
  intros N. assert (G : is_name (type_name t sc) = true -> tokens ((bytes "} " ++ y_prefix (styles t) ++ map lower sc ++ y_suffix (styles t) ++ bytes ";" ++ [10]) ++ s)
    = (code "}" ++ Word (type_name t sc) :: code ";") ++ tokens s).
  { intros NM. replace ((bytes "} " ++ y_prefix (styles t) ++ map lower sc ++ y_suffix (styles t) ++ bytes ";" ++ [10]) ++ s)
      with (bytes "} " ++ type_name t sc ++ 59 :: [10] ++ s) by (unfold type_name; now rewrite <- !app_assoc).
    rewrite (chunk (bytes "} ") (code "}")) by reflexivity. rewrite a_name by (auto; reflexivity). change (59 :: [10] ++ s) with ([59; 10] ++ s). rewrite (chunk [59; 10] (code ";")) by reflexivity.
    now rewrite <- app_assoc. }
  destruct t; [apply G, N; discriminate|apply G, N; discriminate|]. apply chunk. reflexivity.
Qed.

(** ** Structs *)
Definition field_ok (c : cstruct) (f : BindgenModel.field) : Prop :=
  is_name (map lower (d_name f)) = true /\ is_name (const_name styles TCommand (c_name c) (d_name f)) = true.
Definition field_tokens (f : BindgenModel.field) : list token :=
  code (if wide f then "uint16_t" else "uint8_t") ++ Word (map lower (d_name f)) :: code ";".
Definition load_tokens (c : cstruct) (f : BindgenModel.field) : list token :=
  code "." ++ Word (map lower (d_name f)) :: code "=" ++ code (if wide f then "buxn_vm_mem_load2" else "buxn_vm_mem_load") ++ code "(vm, addr +" ++
  Word (const_name styles TCommand (c_name c) (d_name f)) :: code "),".
Definition store_tokens (c : cstruct) (f : BindgenModel.field) : list token :=
  code (if wide f then "buxn_vm_mem_store2" else "buxn_vm_mem_store") ++ code "(vm, addr +" ++
  Word (const_name styles TCommand (c_name c) (d_name f)) :: code ", value." ++ Word (map lower (d_name f)) :: code ");".
Lemma field_text f s : is_name (map lower (d_name f)) = true ->
  tokens (([9] ++ (if wide f then bytes "uint16_t " else bytes "uint8_t ") ++ map lower (d_name f) ++ bytes ";" ++ [10]) ++ s) = field_tokens f ++ tokens s.
Proof.
  intros N. unfold field_tokens. set (n := map lower (d_name f)) in *. clearbody n.
  replace (([9] ++ (if wide f then bytes "uint16_t " else bytes "uint8_t ") ++ n ++ bytes ";" ++ [10]) ++ s)
    with (([9] ++ (if wide f then bytes "uint16_t " else bytes "uint8_t ")) ++ n ++ 59 :: [10] ++ s) by (now rewrite <- !app_assoc).
  rewrite (chunk _ (code (if wide f then "uint16_t" else "uint8_t"))) by (destruct (wide f); reflexivity). rewrite a_name by (auto; reflexivity).
  change (59 :: [10] ++ s) with ([59; 10] ++ s). rewrite (chunk [59; 10] (code ";")) by reflexivity. now rewrite <- app_assoc.
Qed.
Lemma load_text c f s : field_ok c f ->
  tokens (([9; 9] ++ bytes "." ++ map lower (d_name f) ++ bytes " = buxn_vm_mem_load" ++ (if wide f then bytes "2" else []) ++ bytes "(vm, addr + " ++
     const_name styles TCommand (c_name c) (d_name f) ++ bytes ")," ++ [10]) ++ s) = load_tokens c f ++ tokens s.
Proof.
  intros [N1 N2]. unfold load_tokens. set (n := map lower (d_name f)) in *. set (k := const_name styles TCommand (c_name c) (d_name f)) in *. clearbody n k.
  replace (([9; 9] ++ bytes "." ++ n ++ bytes " = buxn_vm_mem_load" ++ (if wide f then bytes "2" else []) ++ bytes "(vm, addr + " ++ k ++ bytes ")," ++ [10]) ++ s)
    with (([9; 9] ++ bytes ".") ++ n ++ 32 :: (bytes "= buxn_vm_mem_load" ++ (if wide f then bytes "2" else []) ++ bytes "(vm, addr + ") ++ k ++ 41 :: [44; 10] ++ s) by (now rewrite <- !app_assoc).
  rewrite (chunk _ (code ".")) by reflexivity. rewrite a_name by (auto; reflexivity).
  change (32 :: (bytes "= buxn_vm_mem_load" ++ (if wide f then bytes "2" else []) ++ bytes "(vm, addr + ") ++ k ++ 41 :: [44; 10] ++ s)
    with ((32 :: bytes "= buxn_vm_mem_load" ++ (if wide f then bytes "2" else []) ++ bytes "(vm, addr + ") ++ k ++ 41 :: [44; 10] ++ s).
  rewrite (chunk _ (code "=" ++ code (if wide f then "buxn_vm_mem_load2" else "buxn_vm_mem_load") ++ code "(vm, addr +")) by (destruct (wide f); reflexivity).
  rewrite a_name by (auto; reflexivity). change (41 :: [44; 10] ++ s) with ([41; 44; 10] ++ s). rewrite (chunk [41; 44; 10] (code "),")) by reflexivity.
  rewrite <- !app_assoc. cbn [app]. rewrite <- !app_assoc. reflexivity.
Qed.
Lemma store_text c f s : field_ok c f ->
  tokens (([9] ++ bytes "buxn_vm_mem_store" ++ (if wide f then bytes "2" else []) ++ bytes "(vm, addr + " ++
     const_name styles TCommand (c_name c) (d_name f) ++ bytes ", value." ++ map lower (d_name f) ++ bytes ");" ++ [10]) ++ s) = store_tokens c f ++ tokens s.
Proof.
  intros [N1 N2]. unfold store_tokens. set (n := map lower (d_name f)) in *. set (k := const_name styles TCommand (c_name c) (d_name f)) in *. clearbody n k.
  replace (([9] ++ bytes "buxn_vm_mem_store" ++ (if wide f then bytes "2" else []) ++ bytes "(vm, addr + " ++ k ++ bytes ", value." ++ n ++ bytes ");" ++ [10]) ++ s)
    with (([9] ++ bytes "buxn_vm_mem_store" ++ (if wide f then bytes "2" else []) ++ bytes "(vm, addr + ") ++ k ++ 44 :: bytes " value." ++ n ++ 41 :: [59; 10] ++ s) by (now rewrite <- !app_assoc).
  rewrite (chunk _ (code (if wide f then "buxn_vm_mem_store2" else "buxn_vm_mem_store") ++ code "(vm, addr +")) by (destruct (wide f); reflexivity). rewrite a_name by (auto; reflexivity).
  change (44 :: bytes " value." ++ n ++ 41 :: [59; 10] ++ s) with (bytes ", value." ++ n ++ 41 :: [59; 10] ++ s).
  rewrite (chunk _ (code ", value.")) by reflexivity. rewrite a_name by (auto; reflexivity). change (41 :: [59; 10] ++ s) with ([41; 59; 10] ++ s). rewrite (chunk [41; 59; 10] (code ");")) by reflexivity.
  rewrite <- !app_assoc. cbn [app]. rewrite <- !app_assoc. reflexivity.
Qed.
Lemma each {A} (text : A -> str) (ts : A -> list token) l : Forall (fun x => forall s, tokens (text x ++ s) = ts x ++ tokens s) l ->
  forall s, tokens (flat_map text l ++ s) = flat_map ts l ++ tokens s.
Proof. induction 1 as [|x l H _ IH]; intros s; [reflexivity|]. cbn. now rewrite <- !app_assoc, H, IH. Qed.

Record struct_ok (c : cstruct) : Prop := {
  so_type : is_name (type_name TCommand (c_name c)) = true;
  so_read : is_name (function_name (c_name c) "_read") = true;
  so_write : is_name (function_name (c_name c) "_write") = true;
  so_fields : Forall (field_ok c) (c_fields c) }.
Definition structure_tokens (c : cstruct) : list token :=
  code "typedef struct {" ++ flat_map field_tokens (c_fields c) ++ code "}" ++ Word (type_name TCommand (c_name c)) :: code ";".
Definition reader_tokens (c : cstruct) : list token :=
  code "static inline" ++ Word (type_name TCommand (c_name c)) :: Word (function_name (c_name c) "_read") ::
  code "(buxn_vm_t* vm, uint16_t addr) { return (" ++ Word (type_name TCommand (c_name c)) :: code ") {" ++ flat_map (load_tokens c) (c_fields c) ++ code "}; }".
Definition writer_tokens (c : cstruct) : list token :=
  code "static inline void" ++ Word (function_name (c_name c) "_write") :: code "(buxn_vm_t* vm, uint16_t addr, " ++
  Word (type_name TCommand (c_name c)) :: code "value) {" ++ flat_map (store_tokens c) (c_fields c) ++ code "}".
Lemma struct_tokens c s : struct_ok c -> tokens (struct_text styles c ++ s) = structure_tokens c ++ reader_tokens c ++ writer_tokens c ++ tokens s.
Proof.
  intros [T R W F]. unfold struct_text. cbv zeta.
  set (FT := flat_map _ (c_fields c)) at 1. set (LT := flat_map _ (c_fields c)) at 1. set (ST := flat_map _ (c_fields c)) at 1.
  assert (HF : forall s, tokens (FT ++ s) = flat_map field_tokens (c_fields c) ++ tokens s).
  { apply each. eapply Forall_impl; [|exact F]. intros f [N _] s'. now apply field_text. }
  assert (HL : forall s, tokens (LT ++ s) = flat_map (load_tokens c) (c_fields c) ++ tokens s).
  { apply each. eapply Forall_impl; [|exact F]. intros f N s'. now apply load_text. }
  assert (HS : forall s, tokens (ST ++ s) = flat_map (store_tokens c) (c_fields c) ++ tokens s).
  { apply each. eapply Forall_impl; [|exact F]. intros f N s'. now apply store_text. }
  clearbody FT LT ST. unfold structure_tokens, reader_tokens, writer_tokens.
  set (tn := type_name TCommand (c_name c)) in *. set (rn := function_name (c_name c) "_read") in *. set (wn := function_name (c_name c) "_write") in *.
  assert (E : forall a b, a = b -> tokens a = tokens b) by congruence.
  transitivity (tokens (([10] ++ bytes "typedef struct {" ++ [10]) ++ FT ++ bytes "} " ++ tn ++ (bytes ";" ++ [10; 10] ++ bytes "static inline ") ++ tn ++ [10] ++ rn ++
    (bytes "(buxn_vm_t* vm, uint16_t addr) {" ++ [10; 9] ++ bytes "return (") ++ tn ++ (bytes ") {" ++ [10]) ++ LT ++ ([9] ++ bytes "};" ++ [10] ++ bytes "}" ++ [10; 10] ++ bytes "static inline void" ++ [10]) ++
    wn ++ bytes "(buxn_vm_t* vm, uint16_t addr, " ++ tn ++ (bytes " value) {" ++ [10]) ++ ST ++ (bytes "}" ++ [10]) ++ s)).
  - apply E. unfold tn, rn, wn, type_name, function_name. rewrite <- !app_assoc. reflexivity.
  - clearbody tn rn wn. rewrite (chunk _ (code "typedef struct {")) by reflexivity. rewrite HF. rewrite (chunk (bytes "} ") (code "}")) by reflexivity. rewrite a_name2 by (auto; reflexivity).
    rewrite (chunk _ (code ";" ++ code "static inline")) by reflexivity. rewrite a_name2 by (auto; reflexivity).
    rewrite (chunk [10] []) by reflexivity. rewrite app_nil_l. rewrite a_name2 by (auto; reflexivity).
    rewrite (chunk _ (code "(buxn_vm_t* vm, uint16_t addr) { return (")) by reflexivity. rewrite a_name2 by (auto; reflexivity).
    rewrite (chunk _ (code ") {")) by reflexivity. rewrite HL. rewrite (chunk _ (code "}; }" ++ code "static inline void")) by reflexivity. rewrite a_name2 by (auto; reflexivity).
    rewrite (chunk _ (code "(buxn_vm_t* vm, uint16_t addr, ")) by reflexivity. rewrite a_name2 by (auto; reflexivity).
    rewrite (chunk _ (code "value) {")) by reflexivity. rewrite HS. rewrite (chunk _ (code "}")) by reflexivity.
    rewrite <- !app_assoc. cbn [app]. rewrite <- !app_assoc. cbn [app]. rewrite <- !app_assoc. reflexivity.
Qed.

(** ** Reading the tokens *)
Definition proper (t : token) : bool := match t with Bad _ => false | _ => true end.
Lemma str_same a : str_eqb a a = true.
Proof. unfold str_eqb. destruct (str_dec a a); congruence. Qed.
Lemma eat_ok p ts : forallb proper p = true -> eat p (p ++ ts) = Some ts.
Proof.
  induction p as [|a p IH]; intros H; [reflexivity|]. cbn in H. apply andb_prop in H as [A H]. cbn [app eat]. replace (token_eqb a a) with true; [now apply IH|].
  destruct a; cbn; rewrite ?str_same, ?Z.eqb_refl; auto; discriminate.
Qed.
Lemma skip_ok X ts : forallb proper (code X) = true -> skip X (code X ++ ts) = Some (tt, ts).
Proof. intros H. unfold skip. now rewrite eat_ok. Qed.
Lemma then_skip {B} X (q : parser B) ts : forallb proper (code X) = true -> andthen (skip X) (fun _ => q) (code X ++ ts) = q ts.
Proof. intros H. unfold andthen. now rewrite skip_ok. Qed.
Lemma then_name {B} w (q : str -> parser B) ts : is_name w = true -> andthen name q (Word w :: ts) = q w ts.
Proof. intros H. unfold andthen, name. now rewrite (name_keyword w H). Qed.
Lemma then_number {B} v (q : Z -> parser B) ts : andthen number q (number_tokens v ++ ts) = q v ts.
Proof. unfold andthen, number_tokens, number. destruct (v <? 0); cbn [app]; [|reflexivity]. now rewrite Z.opp_involutive. Qed.
Lemma then_width {B} (w : bool) a b (q : bool -> parser B) ts : forallb proper (code a) = true -> forallb proper (code b) = true -> (forall ts, skip a (code b ++ ts) = None) ->
  andthen (width a b) q (code (if w then b else a) ++ ts) = q w ts.
Proof.
  intros P1 P2 N. unfold andthen at 1, width, orelse. destruct w.
  - unfold andthen at 1. rewrite N. unfold andthen. rewrite skip_ok by exact P2. reflexivity.
  - unfold andthen. rewrite skip_ok by exact P1. reflexivity.
Qed.
Lemma then_many {A B C} (p : parser B) (enc : A -> list token) (val : A -> B) (q : list B -> parser C) xs rest :
  Forall (fun x => enc x <> [] /\ forall ts, p (enc x ++ ts) = Some (val x, ts)) xs -> p rest = None ->
  andthen (many p) q (flat_map enc xs ++ rest) = q (map val xs) rest.
Proof.
  intros F N. unfold andthen, many. assert (M : forall n, (List.length xs <= n)%nat -> some_of n p (flat_map enc xs ++ rest) = Some (map val xs, rest)).
  { induction F as [|x xs [_ P] F IH]; intros n L; [destruct n; cbn; [reflexivity|now rewrite N]|]. destruct n as [|n]; [cbn in L; lia|]. cbn [flat_map some_of map]. rewrite <- app_assoc, P, IH by (cbn in L; lia). reflexivity. }
  rewrite M; [reflexivity|]. rewrite app_length. clear M. enough (List.length xs <= List.length (flat_map enc xs))%nat by lia.
  induction F as [|x xs [NE _] F IH]; [cbn; lia|]. cbn. rewrite app_length. destruct (enc x); [congruence|]. cbn. lia.
Qed.
Ltac skips := rewrite then_skip by (vm_compute; reflexivity).

Lemma constant_read n v ts : is_name n = true -> constant (constant_tokens n v ++ ts) = Some ((n, v), ts).
Proof.
  intros N. unfold constant, constant_tokens. cbn [app]. rewrite then_name by exact N. rewrite <- !app_assoc. skips. rewrite then_number. skips. reflexivity.
Qed.
Lemma field_read_back f ts : is_name (map lower (d_name f)) = true -> member (field_tokens f ++ ts) = Some ((map lower (d_name f), wide f), ts).
Proof.
  intros N. unfold member, field_tokens. rewrite <- app_assoc. rewrite then_width by (try (vm_compute; reflexivity); intros; reflexivity). cbn [app]. rewrite then_name by exact N. skips. reflexivity.
Qed.
Definition access (c : cstruct) (f : BindgenModel.field) : str * bool * str := (map lower (d_name f), wide f, const_name styles TCommand (c_name c) (d_name f)).
Lemma load_read_back c f ts : field_ok c f -> loaded (load_tokens c f ++ ts) = Some (access c f, ts).
Proof.
  intros [N1 N2]. unfold loaded, load_tokens. rewrite <- app_assoc. skips. cbn [app]. rewrite then_name by exact N1. rewrite <- !app_assoc. skips.
  rewrite then_width by (try (vm_compute; reflexivity); intros; reflexivity). skips. cbn [app]. rewrite then_name by exact N2. skips. reflexivity.
Qed.
Lemma store_read_back c f ts : field_ok c f -> stored (store_tokens c f ++ ts) = Some (access c f, ts).
Proof.
  intros [N1 N2]. unfold stored, store_tokens. rewrite <- !app_assoc.
  rewrite then_width by (try (vm_compute; reflexivity); intros; reflexivity). skips. cbn [app]. rewrite then_name by exact N2. rewrite <- !app_assoc. skips. cbn [app]. rewrite then_name by exact N1. skips. reflexivity.
Qed.

(** ** Declarations *)
Definition enum_section : Type := section_type * str * list (str * Z).
Definition section_ok (s : enum_section) : Prop := let '(t, sc, cs) := s in
  cs <> [] /\ (t <> TCommand -> is_name (type_name t sc) = true) /\ ~ In 10 sc /\
  Forall (fun '(m, v) => is_name (const_name styles t sc m) = true /\ ~ In 10 m /\ in_range t v) cs.
Definition section_pieces (s : enum_section) : list piece := let '(t, sc, cs) := s in
  PBegin t :: map (fun '(m, v) => PConst t (sc ++ bytes "/" ++ m) sc m v) cs ++ [PEnd t sc].
Definition section_tokens (s : enum_section) : list token := let '(t, sc, cs) := s in
  code (match t with TCommand => "enum {" | _ => "typedef enum {" end) ++ flat_map (fun '(m, v) => constant_tokens (const_name styles t sc m) v) cs ++ end_tokens t sc.
Definition section_decl (s : enum_section) : decl := let '(t, sc, cs) := s in
  Enumeration (map (fun '(m, v) => (const_name styles t sc m, v)) cs) (match t with TCommand => None | _ => Some (type_name t sc) end).
Lemma section_text s rest : section_ok s -> tokens (flat_map (piece_text styles) (section_pieces s) ++ rest) = section_tokens s ++ tokens rest.
Proof.
  destruct s as [[t sc] cs]. intros (_ & T & NS & F). unfold section_pieces, section_tokens. cbn [flat_map]. rewrite <- !app_assoc, begin_text. f_equal.
  rewrite flat_map_app, <- !app_assoc. rewrite (flat_map_concat_map _ (map _ cs)), map_map, <- flat_map_concat_map.
  rewrite (each _ (fun '(m, v) => constant_tokens (const_name styles t sc m) v)).
  - f_equal. cbn [flat_map]. rewrite app_nil_r. now apply end_text.
  - eapply Forall_impl; [|exact F]. intros [m v] (N & NM & R) s. apply const_text; auto. rewrite !in_app_iff. cbn. intuition lia.
Qed.
Lemma constants_read (cs : list (str * Z)) (nm : str -> str) rest : cs <> [] -> Forall (fun '(m, v) => is_name (nm m) = true) cs -> constant rest = None ->
  constant_list (flat_map (fun '(m, v) => constant_tokens (nm m) v) cs ++ rest) = Some (map (fun '(m, v) => (nm m, v)) cs, rest).
Proof.
  intros NE F N. unfold constant_list. rewrite (then_many constant (fun '(m, v) => constant_tokens (nm m) v) (fun '(m, v) => (nm m, v))); auto.
  - destruct cs as [|[m v] cs]; [congruence|]. reflexivity.
  - eapply Forall_impl; [|exact F]. intros [m v] NM. split; [discriminate|]. intros ts. now apply constant_read.
Qed.
Lemma then_constants {B} (cs : list (str * Z)) (nm : str -> str) rest (q : list (str * Z) -> parser B) : cs <> [] -> Forall (fun '(m, v) => is_name (nm m) = true) cs -> constant rest = None ->
  andthen constant_list q (flat_map (fun '(m, v) => constant_tokens (nm m) v) cs ++ rest) = q (map (fun '(m, v) => (nm m, v)) cs) rest.
Proof. intros NE F N. unfold andthen. now rewrite constants_read. Qed.
Lemma section_read s ts : section_ok s -> declaration (section_tokens s ++ ts) = Some (section_decl s, ts).
Proof.
  destruct s as [[t sc] cs]. intros (NE & T & _ & F). unfold section_tokens, section_decl. rewrite <- !app_assoc.
  assert (F' : Forall (fun '(m, v) => is_name (const_name styles t sc m) = true) cs) by (eapply Forall_impl; [|exact F]; intros [m v] (N & _); exact N). clear F.
  assert (G : t <> TCommand -> enumeration_type (code "typedef enum {" ++ flat_map (fun '(m, v) => constant_tokens (const_name styles t sc m) v) cs ++ (code "}" ++ Word (type_name t sc) :: code ";") ++ ts)
     = Some (Enumeration (map (fun '(m, v) => (const_name styles t sc m, v)) cs) (Some (type_name t sc)), ts)).
  { intros NC. unfold enumeration_type. skips. rewrite (then_constants cs (const_name styles t sc)) by auto. rewrite <- app_assoc. skips. cbn [app]. rewrite then_name by (apply T; exact NC). skips. reflexivity. }
  assert (H : enumeration (code "enum {" ++ flat_map (fun '(m, v) => constant_tokens (const_name styles t sc m) v) cs ++ code "};" ++ ts)
     = Some (Enumeration (map (fun '(m, v) => (const_name styles t sc m, v)) cs) None, ts)).
  { unfold enumeration. skips. rewrite (then_constants cs (const_name styles t sc)) by auto. skips. reflexivity. }
  assert (NO : forall x, enumeration (code "typedef enum {" ++ x) = None) by reflexivity.
  unfold declaration, orelse at 1. destruct t; cbn [end_tokens].
  - rewrite NO. unfold orelse at 1. now rewrite G.
  - rewrite NO. unfold orelse at 1. now rewrite G.
  - now rewrite H.
Qed.
Definition structure_decl (c : cstruct) : decl := Structure (map (fun f => (map lower (d_name f), wide f)) (c_fields c)) (type_name TCommand (c_name c)).
Definition reader_decl (c : cstruct) : decl := Reader (type_name TCommand (c_name c)) (function_name (c_name c) "_read") (map (access c) (c_fields c)).
Definition writer_decl (c : cstruct) : decl := Writer (type_name TCommand (c_name c)) (function_name (c_name c) "_write") (map (access c) (c_fields c)).
Lemma structure_read c ts : struct_ok c -> declaration (structure_tokens c ++ ts) = Some (structure_decl c, ts).
Proof.
  intros [T _ _ F]. unfold structure_tokens. rewrite <- !app_assoc. set (x := flat_map _ _ ++ _).
  assert (N1 : enumeration (code "typedef struct {" ++ x) = None) by reflexivity. assert (N2 : enumeration_type (code "typedef struct {" ++ x) = None) by reflexivity.
  unfold declaration, orelse at 1. rewrite N1. unfold orelse at 1. rewrite N2. unfold orelse at 1. subst x. clear N1 N2. unfold structure. skips.
  rewrite (then_many member field_tokens (fun f => (map lower (d_name f), wide f))); [|eapply Forall_impl; [|exact F]|reflexivity].
  - skips. cbn [app]. rewrite then_name by exact T. skips. reflexivity.
  - intros f [N _]. split; [unfold field_tokens; destruct (wide f); discriminate|]. intros. now apply field_read_back.
Qed.
Lemma reader_read c ts : struct_ok c -> declaration (reader_tokens c ++ ts) = Some (reader_decl c, ts).
Proof.
  intros [T R _ F]. unfold reader_tokens. rewrite <- !app_assoc. cbn [app]. set (x := Word (function_name _ _) :: _).
  assert (N0 : skip "static inline void" (code "static inline" ++ Word (type_name TCommand (c_name c)) :: x) = None).
  { unfold skip. change (code "static inline void") with (code "static inline" ++ [Word (bytes "void")]). change (code "static inline") with [Word (bytes "static"); Word (bytes "inline")].
    cbn [app eat token_eqb]. rewrite !str_same. destruct (str_eqb (bytes "void") (type_name TCommand (c_name c))) eqn:E; [|reflexivity].
    unfold str_eqb in E. destruct (str_dec _ _) as [E'|]; [|discriminate]. rewrite <- E' in T. discriminate T. }
  assert (N1 : enumeration (code "static inline" ++ Word (type_name TCommand (c_name c)) :: x) = None) by reflexivity.
  assert (N2 : enumeration_type (code "static inline" ++ Word (type_name TCommand (c_name c)) :: x) = None) by reflexivity.
  assert (N3 : structure (code "static inline" ++ Word (type_name TCommand (c_name c)) :: x) = None) by reflexivity.
  assert (N4 : writer (code "static inline" ++ Word (type_name TCommand (c_name c)) :: x) = None) by (unfold writer, andthen at 1; now rewrite N0).
  unfold declaration, orelse at 1. rewrite N1. unfold orelse at 1. rewrite N2. unfold orelse at 1. rewrite N3. unfold orelse at 1. rewrite N4. clear N0 N1 N2 N3 N4. subst x.
  unfold reader. skips. rewrite then_name by exact T. rewrite then_name by exact R. rewrite <- !app_assoc. skips. cbn [app]. rewrite then_name by exact T. rewrite <- !app_assoc. skips.
  rewrite (then_many loaded (load_tokens c) (access c)); [|eapply Forall_impl; [|exact F]|reflexivity].
  - skips. rewrite str_same. reflexivity.
  - intros f N. split; [unfold load_tokens; discriminate|]. intros. now apply load_read_back.
Qed.
Lemma writer_read c ts : struct_ok c -> declaration (writer_tokens c ++ ts) = Some (writer_decl c, ts).
Proof.
  intros [T _ W F]. unfold writer_tokens. rewrite <- !app_assoc. cbn [app]. set (x := Word (function_name _ _) :: _).
  assert (N1 : enumeration (code "static inline void" ++ x) = None) by reflexivity.
  assert (N2 : enumeration_type (code "static inline void" ++ x) = None) by reflexivity.
  assert (N3 : structure (code "static inline void" ++ x) = None) by reflexivity.
  unfold declaration, orelse at 1. rewrite N1. unfold orelse at 1. rewrite N2. unfold orelse at 1. rewrite N3. unfold orelse at 1. clear N1 N2 N3. subst x.
  assert (G : writer (code "static inline void" ++ Word (function_name (c_name c) "_write") :: (code "(buxn_vm_t* vm, uint16_t addr, " ++ Word (type_name TCommand (c_name c)) :: code "value) {" ++
     flat_map (store_tokens c) (c_fields c) ++ code "}") ++ ts) = Some (writer_decl c, ts)); [|now rewrite G].
  unfold writer. skips. rewrite then_name by exact W. rewrite <- !app_assoc. skips. cbn [app]. rewrite then_name by exact T. rewrite <- !app_assoc. skips.
  rewrite (then_many stored (store_tokens c) (access c)); [|eapply Forall_impl; [|exact F]|reflexivity].
  - skips. reflexivity.
  - intros f N. split; [unfold store_tokens; destruct (wide f); discriminate|]. intros. now apply store_read_back.
Qed.

(** ** The header *)
Lemma directive l n s : run Outside l = ([], Skipped) -> ~ In 10 n -> tokens (l ++ n ++ [10] ++ s) = tokens s.
Proof. intros E N. unfold tokens at 1. rewrite tokens_run, E. cbn [fst snd]. rewrite app_nil_l. now apply skipped. Qed.
Definition struct_decls (c : cstruct) : list decl := [structure_decl c; reader_decl c; writer_decl c].
Lemma header_read guard args success g sections :
  g_out g = flat_map section_pieces sections -> Forall section_ok sections -> Forall struct_ok (g_cmds g) ->
  (forall n, guard = Some n -> ~ In 10 n) -> Forall (fun a => ~ In 10 a) args ->
  read_header (header_text styles guard args success g) = Some (map section_decl sections ++ flat_map struct_decls (g_cmds g)).
Proof.
  intros E S C G A.
  assert (T : tokens (header_text styles guard args success g) = flat_map section_tokens sections ++ flat_map (fun c => structure_tokens c ++ reader_tokens c ++ writer_tokens c) (g_cmds g)).
  { unfold header_text.
    assert (GT : forall s, tokens ((match guard with Some n => bytes "#ifndef " ++ n ++ [10] ++ bytes "#define " ++ n ++ [10; 10] | None => [] end) ++ s) = tokens s).
    { intros s. destruct guard as [n|]; [|reflexivity]. specialize (G n eq_refl).
      replace ((bytes "#ifndef " ++ n ++ [10] ++ bytes "#define " ++ n ++ [10; 10]) ++ s) with (bytes "#ifndef " ++ n ++ [10] ++ bytes "#define " ++ n ++ [10] ++ [10] ++ s) by (now rewrite <- !app_assoc).
      rewrite directive by (auto; reflexivity). rewrite directive by (auto; reflexivity). now rewrite (chunk [10] []) by reflexivity. }
    rewrite GT. clear GT.
    rewrite <- (app_assoc (flat_map (fun a => bytes " " ++ a) args)) || idtac.
    rewrite directive; [|reflexivity|].
    2: { intros I. apply in_flat_map in I as (a & IA & I). rewrite Forall_forall in A. cbn in I. destruct I as [I|I]; [discriminate|]. now apply (A a). }
    rewrite E. rewrite <- (app_nil_r (flat_map (fun c => structure_tokens c ++ reader_tokens c ++ writer_tokens c) (g_cmds g))).
    assert (ST : forall l s, Forall section_ok l -> tokens (flat_map (piece_text styles) (flat_map section_pieces l) ++ s) = flat_map section_tokens l ++ tokens s).
    { induction l as [|x l IH]; intros s F; [reflexivity|]. inversion F; subst. cbn [flat_map]. rewrite flat_map_app, <- !app_assoc, section_text by assumption. now rewrite IH. }
    rewrite ST by exact S. f_equal.
    rewrite (each (struct_text styles) (fun c => structure_tokens c ++ reader_tokens c ++ writer_tokens c)).
    - f_equal. destruct success.
      + rewrite app_nil_l. destruct guard; reflexivity.
      + rewrite (chunk _ []) by (vm_compute; reflexivity). rewrite app_nil_l. destruct guard; reflexivity.
    - eapply Forall_impl; [|exact C]. intros c O s. rewrite struct_tokens by exact O. now rewrite <- !app_assoc. }
  unfold read_header. rewrite T. clear T.
  set (items := map (fun s => (section_tokens s, section_decl s)) sections ++ flat_map (fun c => [(structure_tokens c, structure_decl c); (reader_tokens c, reader_decl c); (writer_tokens c, writer_decl c)]) (g_cmds g)).
  assert (I1 : flat_map section_tokens sections ++ flat_map (fun c => structure_tokens c ++ reader_tokens c ++ writer_tokens c) (g_cmds g) = flat_map fst items ++ []).
  { unfold items. rewrite app_nil_r, flat_map_app. f_equal.
    - clear. induction sections as [|s l IH]; [reflexivity|]. cbn. now rewrite IH.
    - clear. induction (g_cmds g) as [|c l IH]; [reflexivity|]. cbn [flat_map app fst]. rewrite IH. now rewrite <- !app_assoc. }
  assert (I2 : map section_decl sections ++ flat_map struct_decls (g_cmds g) = map snd items).
  { unfold items. rewrite map_app, map_map. cbn [snd]. f_equal. clear. induction (g_cmds g) as [|c l IH]; [reflexivity|]. cbn. now rewrite IH. }
  rewrite I1, I2. assert (F : Forall (fun x : list token * decl => fst x <> [] /\ forall ts, declaration (fst x ++ ts) = Some (snd x, ts)) items).
  { unfold items. apply Forall_app. split.
    - apply Forall_map. eapply Forall_impl; [|exact S]. intros s O. cbn [fst snd]. split; [destruct s as [[[] sc] cs]; discriminate|]. intros. now apply section_read.
    - apply Forall_flat_map. eapply Forall_impl; [|exact C]. intros c O. repeat constructor; cbn [fst snd]; try discriminate; intros; [now apply structure_read|now apply reader_read|now apply writer_read]. }
  pose proof (then_many declaration fst snd give items [] F eq_refl) as M. unfold andthen, give in M. destruct (many declaration (flat_map fst items ++ [])) as [[l r]|]; [|discriminate]. now injection M as -> ->.
Qed.
End Styles.
