(** C94: the header of buxn-bindgen, as C reads it.

    HeaderSpec has the part of C; the sections, constants and structs of a
    program are those of C79. *)
From Verif Require Import Base AsmModel AnnoModel AsmSound AsmSpec AsmFacts Props_Asm TransportModel Props_Anno BindgenModel HeaderSpec HeaderProofs Props_Bindgen.
From Coq Require Import ZifyBool String.
Open Scope list_scope.
Ltac Zify.zify_post_hook ::= Z.div_mod_to_equations.

(** ** Names *)
(** C has no "-" in names. *)
Definition upper_case (c : Z) : Z := if c =? 45 then 95 else if (97 <=? c) && (c <=? 122) then c - 97 + 65 else c.
Definition lower_case (c : Z) : Z := if c =? 45 then 95 else if (65 <=? c) && (c <=? 90) then c - 65 + 97 else c.
Section Styles.
(** The prefixes and suffixes that the user chose. *)
Variable styles : section_type -> style.
Definition c_constant (t : section_type) (sc m : str) : str := map upper_case (y_prefix (styles t) ++ sc ++ bytes "_" ++ m).
Definition c_type (t : section_type) (sc : str) : str := y_prefix (styles t) ++ map lower_case sc ++ y_suffix (styles t).
Definition c_function (sc : str) (what : string) : str := y_prefix (styles TCommand) ++ map lower_case sc ++ bytes what.
Definition c_field (m : str) : str := map lower_case m.

(** Everything that the header declares has a name that C accepts, and no section
    is empty. *)
Record legible (g : gen) : Prop := {
  l_constants : forall t n sc m v, In (PConst t n sc m v) (g_out g) -> is_name (c_constant t sc m) = true;
  l_types : forall t sc, In (PEnd t sc) (g_out g) -> t <> TCommand -> is_name (c_type t sc) = true;
  l_filled : forall l1 t t' sc l2, g_out g <> l1 ++ PBegin t :: PEnd t' sc :: l2;
  l_structs : forall c, In c (g_cmds g) -> is_name (c_type TCommand (c_name c)) = true /\
    is_name (c_function (c_name c) "_read") = true /\ is_name (c_function (c_name c) "_write") = true /\
    forall f, In f (c_fields c) -> is_name (c_field (d_name f)) = true /\ is_name (c_constant TCommand (c_name c) (d_name f)) = true }.

(** What the header should say: a section is an enumeration of its constants, a
    struct is a struct with a function that reads it and one that writes it. *)
Definition section_in_c (s : section_type * str * list (str * Z)) : decl :=
  let '(t, sc, cs) := s in
  Enumeration (map (fun '(m, v) => (c_constant t sc m, v)) cs) (match t with TCommand => None | _ => Some (c_type t sc) end).
Definition struct_in_c (c : cstruct) : list decl :=
  let fields := map (fun f => (c_field (d_name f), negb (d_size f =? 1), c_constant TCommand (c_name c) (d_name f))) (c_fields c) in
  [Structure (map fst fields) (c_type TCommand (c_name c));
   Reader (c_type TCommand (c_name c)) (c_function (c_name c) "_read") fields;
   Writer (c_type TCommand (c_name c)) (c_function (c_name c) "_write") fields].

(** ** The names of the model *)
Lemma upper_eq s : map upper s = map upper_case s.
Proof. apply map_ext. intros c. unfold upper, upper_case. destruct (c =? 45); auto. destruct (_ && _); lia. Qed.
Lemma lower_eq s : map lower s = map lower_case s.
Proof. apply map_ext. intros c. unfold lower, lower_case. destruct (c =? 45); auto. destruct (_ && _); lia. Qed.
Lemma constant_eq t sc m : const_name styles t sc m = c_constant t sc m.
Proof. unfold const_name, c_constant. rewrite !upper_eq, !map_app. reflexivity. Qed.
Lemma type_eq t sc : type_name styles t sc = c_type t sc.
Proof. unfold type_name, c_type. now rewrite lower_eq. Qed.
Lemma function_eq sc w : function_name styles sc w = c_function sc w.
Proof. unfold function_name, c_function. now rewrite lower_eq. Qed.
Lemma section_eq s : section_decl styles s = section_in_c s.
Proof. destruct s as [[t sc] cs]. cbn. rewrite type_eq. f_equal. apply map_ext. intros [m v]. now rewrite constant_eq. Qed.
Lemma struct_eq c : struct_decls styles c = struct_in_c c.
Proof.
  unfold struct_decls, struct_in_c, structure_decl, reader_decl, writer_decl. rewrite type_eq, !function_eq, map_map. cbn [fst].
  assert (A : map (fun f => (map lower (d_name f), wide f)) (c_fields c) = map (fun f => (c_field (d_name f), negb (d_size f =? 1))) (c_fields c)) by (apply map_ext; intros f; now rewrite lower_eq).
  assert (B : map (access styles c) (c_fields c)
    = map (fun f => (c_field (d_name f), negb (d_size f =? 1), c_constant TCommand (c_name c) (d_name f))) (c_fields c)) by (apply map_ext; intros f; unfold access; now rewrite lower_eq, constant_eq).
  now rewrite A, B.
Qed.

(** ** The sections *)
Lemma block_section ps : enum_block ps -> exists s, ps = section_pieces s.
Proof.
  intros (t & sc & cs & -> & F). assert (X : exists l, cs = map (fun '(m, v) => PConst t (sc ++ bytes "/" ++ m) sc m v) l).
  { induction F as [|p cs (m & v & _ & ->) F (l & ->)]; [exists []; reflexivity|]. exists ((m, v) :: l). reflexivity. }
  destruct X as (l & ->). exists (t, sc, l). reflexivity.
Qed.
Lemma printed_sections l : printed (flat_map section_pieces l) = flat_map (fun '(t, sc, cs) => map (fun '(m, v) => (t, sc ++ bytes "/" ++ m, m, v)) cs) l.
Proof.
  induction l as [|[[t sc] cs] l IH]; [reflexivity|]. cbn [flat_map]. rewrite printed_app, IH. f_equal. cbn [section_pieces]. change (PBegin t :: ?x) with ([PBegin t] ++ x). rewrite !printed_app. change (printed [PBegin t]) with (@nil (section_type * str * str * Z)).
  change (printed [PEnd t sc]) with (@nil (section_type * str * str * Z)). rewrite app_nil_r, app_nil_l. clear. induction cs as [|[m v] cs IHc]; [reflexivity|].
  cbn [map]. rewrite <- IHc. reflexivity.
Qed.
Definition item_in_range (it : item) : Prop := Forall (fun x : Z * symbol => 0 <= fst x < 65536) (symbols it).
Lemma section_base hist t sc b : Forall item_in_range hist -> section hist = Some (t, sc, b) -> 0 <= b < 65536.
Proof.
  induction 1 as [|it h I F IH]; [discriminate|]. destruct it as [a s|]; cbn [section]; [|exact IH]. destruct (definition s); [|exact IH]. destruct (announced h); [|exact IH].
  intros [= <- <- <-]. inversion I; subst. assumption.
Qed.
Lemma constants_range items : forall hist t n m v, Forall item_in_range hist -> Forall item_in_range items -> In (t, n, m, v) (constants hist items) -> in_range t v.
Proof.
  induction items as [|it items IH]; intros hist t n m v H I C; [contradiction|]. inversion I as [|? ? I1 I2]; subst. cbn [constants] in C. apply in_app_or in C as [C|C].
  - destruct it as [a s|]; cbn [constant_of] in C; [|contradiction]. destruct (s_type s); try contradiction.
    destruct (section (Single a s :: hist)) as [[[t0 sc] b]|] eqn:SE; [|contradiction]. apply section_base in SE; [|now constructor].
    destruct (after _ _) as [[|c m0]|]; try contradiction. destruct C as [C|[]]. injection C as -> <- <- <-. inversion I1; subst. cbn [fst] in *. unfold in_range. destruct t; lia.
  - exact (IH (it :: hist) t n m v ltac:(now constructor) I2 C).
Qed.
Lemma in_range_items items : Forall (fun x : Z * symbol => 0 <= fst x < 65536) (flat_map symbols items) -> Forall item_in_range items.
Proof. intros F. apply Forall_flat_map in F. exact F. Qed.
Lemma name_without c (f : Z -> Z) s : f c = c -> in_word c = false -> forallb in_word (map f s) = true -> ~ In c s.
Proof. intros E W F I. rewrite forallb_forall in F. specialize (F c). rewrite <- E in F at 1. rewrite in_map_iff in F. assert (X : in_word c = true) by (apply F; eauto). congruence. Qed.

Lemma sections_ok evs items g sections : symbols_are evs items -> Forall (fun x => 0 <= fst x < 65536) (symbols_of evs) -> generate evs = Ok g -> legible g ->
  g_out g = flat_map section_pieces sections -> Forall (section_ok styles) sections.
Proof.
  intros SA R GE L E. assert (RC : forall t n m v, In (t, n, m, v) (printed (g_out g)) -> in_range t v).
  { destruct (C79_constants evs items SA) as (g' & GE' & P). rewrite GE in GE'. injection GE' as <-. rewrite P. intros t n m v. apply constants_range; [constructor|].
    apply in_range_items. destruct SA as (S & _). now rewrite <- S. }
  apply Forall_forall. intros [[t sc] cs] I. assert (SUB : incl (section_pieces (t, sc, cs)) (g_out g)) by (rewrite E; intros p P; apply in_flat_map; eauto).
  assert (CN : forall m v, In (m, v) cs -> In (PConst t (sc ++ bytes "/" ++ m) sc m v) (g_out g)).
  { intros m v H. apply SUB. cbn. right. apply in_or_app. left. apply in_map_iff. exists (m, v). auto. }
  assert (NE : cs <> []).
  { intros ->. apply in_split in I as (l1 & l2 & ->). rewrite flat_map_app in E. cbn [flat_map section_pieces map app] in E. exact (l_filled g L _ _ _ _ _ E). }
  assert (NL : forall m v, In (m, v) cs -> ~ In 10 sc /\ ~ In 10 m).
  { intros m v H. pose proof (name_words _ (l_constants g L _ _ _ _ _ (CN m v H))) as W. unfold c_constant in W. apply (name_without 10 upper_case) in W; [|reflexivity|reflexivity]. rewrite !in_app_iff in W. tauto. }
  split; [exact NE|]. split; [|split].
  - intros NC. rewrite type_eq. apply (l_types g L); [|exact NC]. apply SUB. cbn. right. apply in_or_app. right. now left.
  - destruct cs as [|[m v] cs]; [congruence|]. apply (NL m v). now left.
  - apply Forall_forall. intros [m v] H. split; [rewrite constant_eq; exact (l_constants g L _ _ _ _ _ (CN m v H))|]. split; [apply (NL m v H)|].
    apply (RC t (sc ++ bytes "/" ++ m) m v). unfold printed. apply in_flat_map. eexists. split; [exact (CN m v H)|]. now left.
Qed.

Lemma the_sections evs items g : symbols_are evs items -> Forall (fun x => 0 <= fst x < 65536) (symbols_of evs) -> generate evs = Ok g -> legible g ->
  exists sections, g_out g = flat_map section_pieces sections /\ Forall (section_ok styles) sections.
Proof.
  intros SA R GE L. destruct (C79_sections evs items SA) as (g' & blocks & GE' & O & B). rewrite GE in GE'. injection GE' as <-.
  assert (X : exists sections, g_out g = flat_map section_pieces sections).
  { rewrite O. clear - B. induction B as [|b bs B1 B (l & E)]; [exists []; reflexivity|]. destruct (block_section b B1) as (s & ->). exists (s :: l). cbn. now rewrite E. }
  destruct X as (sections & E). exists sections. split; [exact E|]. now apply (sections_ok evs items g).
Qed.
Lemma the_header evs items g guard args success sections : symbols_are evs items -> generate evs = Ok g -> legible g -> (forall n, guard = Some n -> ~ In 10 n) -> Forall (fun a => ~ In 10 a) args ->
  g_out g = flat_map section_pieces sections -> Forall (section_ok styles) sections ->
  read_header (header_text styles guard args success g) = Some (map section_in_c sections ++ flat_map struct_in_c (g_cmds g)) /\
  flat_map (fun '(t, sc, cs) => map (fun '(m, v) => (t, sc ++ bytes "/" ++ m, m, v)) cs) sections = constants [] items.
Proof.
  intros SA GE L GD AR E OK. split.
  - rewrite (header_read styles guard args success g sections E); auto.
    + do 2 f_equal; [apply map_ext, section_eq|]. induction (g_cmds g) as [|c l IH]; [reflexivity|]. cbn [flat_map]. now rewrite struct_eq, IH.
    + apply Forall_forall. intros c C. destruct (l_structs g L c C) as (T & RD & WR & F). constructor; rewrite ?type_eq, ?function_eq; auto.
      apply Forall_forall. intros f H. destruct (F f H) as [F1 F2]. split; [now rewrite lower_eq|now rewrite constant_eq].
  - destruct (C79_constants evs items SA) as (g' & GE' & P). rewrite GE in GE'. injection GE' as <-. rewrite <- P, E. symmetry. apply printed_sections.
Qed.

(** ** C94 *)
(** The header is C: one enumeration per section, with exactly the constants of
    C79 and their values, and a struct and two functions per command. *)
Theorem C94_header evs items g guard args success : symbols_are evs items -> Forall (fun x => 0 <= fst x < 65536) (symbols_of evs) ->
  generate evs = Ok g -> legible g -> (forall n, guard = Some n -> ~ In 10 n) -> Forall (fun a => ~ In 10 a) args ->
  exists sections,
    read_header (header_text styles guard args success g) = Some (map section_in_c sections ++ flat_map struct_in_c (g_cmds g)) /\
    flat_map (fun '(t, sc, cs) => map (fun '(m, v) => (t, sc ++ bytes "/" ++ m, m, v)) cs) sections = constants [] items.
Proof.
  intros SA R GE L GD AR. destruct (the_sections evs items g SA R GE L) as (sections & E & OK). exists sections. now apply (the_header evs).
Qed.

(** ** The functions *)
Lemma str_eqb_false a b : a <> b -> str_eqb a b = false.
Proof. unfold str_eqb. destruct (str_dec a b); congruence. Qed.
Lemma value_of_in (cs : list (str * Z)) n v : NoDup (map fst cs) -> In (n, v) cs -> value_of cs n = Some v.
Proof.
  unfold value_of. intros N I. assert (F : filter (fun x => str_eqb n (fst x)) cs = [(n, v)]); [|now rewrite F].
  induction cs as [|[n' v'] cs IH]; [contradiction|]. cbn in N. inversion N as [|? ? N1 N2]; subst. cbn [filter fst]. destruct I as [[= -> ->]|I].
  - rewrite Props_Bindgen.str_eqb_refl. f_equal. assert (X : forall l, ~ In n (map fst l) -> filter (fun x : str * Z => str_eqb n (fst x)) l = []); [|now apply X].
    clear. induction l as [|[k w] l IH]; intros H; [reflexivity|]. cbn in *. rewrite str_eqb_false by (intros ->; tauto). apply IH. tauto.
  - rewrite str_eqb_false; [now apply IH|]. intros ->. apply N1. apply in_map_iff. exists (n', v). auto.
Qed.
Lemma same_length {A B} (P : A -> B -> Prop) l l' : Forall2 P l l' -> List.length l = List.length l'.
Proof. induction 1; cbn; congruence. Qed.
Lemma weaker {A B} (P Q : A -> B -> Prop) l l' : (forall a b, P a b -> Q a b) -> Forall2 P l l' -> Forall2 Q l l'.
Proof. intros H. induction 1; constructor; auto. Qed.
Definition accesses (sc : str) (fs : list (str * Z * Z)) : list (str * bool * str) :=
  map (fun '(m, a, n) => (c_field m, negb (u16 n =? 1), c_constant TCommand sc m)) fs.
Definition member_names (fs : list (str * Z * Z)) : list str := map (fun '(m, _, _) => c_field m) fs.
Lemma store_is_write w m m' off addr v : fits (off, w) v -> (forall x, m x = m' x) -> forall x, store w m (addr + off) v x = field_write m' addr (off, w) v x.
Proof.
  intros F E x. unfold store, field_write, upd, fits in *. cbn [snd] in F. destruct w.
  - rewrite high_byte, low_byte by lia. replace (u16 (u16 (addr + off) + 0)) with ((addr + off) mod 65536) by (unfold u16; lia).
    replace (u16 (u16 (addr + off) + 1)) with ((addr + off + 1) mod 65536) by (unfold u16; lia). now rewrite E.
  - unfold u8. rewrite (Z.mod_small v) by lia. unfold u16. now rewrite E.
Qed.
Lemma run_writer_is cs sc base addr value : NoDup (map fst cs) -> forall fs m m' vs,
  (forall mb a n, In (mb, a, n) fs -> In (c_constant TCommand sc mb, a - base) cs) ->
  Forall2 (fun '(mb, _, _) v => value_of value (c_field mb) = Some v) fs vs -> Forall2 fits (fields_of base fs) vs -> (forall x, m x = m' x) ->
  exists w, run_writer cs (accesses sc fs) m addr value = Some w /\ forall x, w x = struct_write m' addr (fields_of base fs) vs x.
Proof.
  intros N fs. induction fs as [|[[mb a] n] fs IH]; intros m m' vs C V F E; inversion V as [|? v ? vs' V1 V2]; subst; [exists m; split; [reflexivity|exact E]|].
  cbn [fields_of map] in F. inversion F as [|? ? ? ? F1 F2]; subst. cbn [accesses map run_writer]. rewrite (value_of_in cs _ (a - base) N) by (apply (C mb a n); now left). rewrite V1.
  apply IH; auto; [intros; eapply C; right; eauto|]. intros x. unfold wide in *. cbn [d_size] in *. now apply store_is_write.
Qed.
Lemma run_reader_is cs sc base addr m : NoDup (map fst cs) -> forall fs vs,
  (forall mb a n, In (mb, a, n) fs -> In (c_constant TCommand sc mb, a - base) cs) -> Forall2 fits (fields_of base fs) vs ->
  Forall2 (fun f v => map m (cells addr f) = encoded f v) (fields_of base fs) vs ->
  run_reader cs (accesses sc fs) m addr = Some (combine (member_names fs) vs).
Proof.
  intros N fs. induction fs as [|[[mb a] n] fs IH]; intros vs C F E; cbn [fields_of map] in *; inversion F as [|? v ? vs' F1 F2]; subst; inversion E as [|? ? ? ? E1 E2]; subst; [reflexivity|].
  cbn [accesses map run_reader member_names combine]. rewrite (value_of_in cs _ (a - base) N) by (apply (C mb a n); now left).
  fold (accesses sc fs). rewrite (IH vs'); auto; [|intros; eapply C; right; eauto]. do 3 f_equal. unfold wide in *. cbn [d_size] in *. unfold fits, encoded, cells, load in *. cbn [snd] in *.
  destruct (negb (u16 n =? 1)); cbn [map] in E1; [injection E1 as A1 A2|injection E1 as A1]; unfold u16 in A1; [unfold u16 in A2; rewrite A1, A2; lia|exact A1].
Qed.
Lemma case_fields a b : map lower_case a = map lower_case b -> map upper_case a = map upper_case b.
Proof.
  revert b. induction a as [|x a IH]; intros [|y b] H; try discriminate; [reflexivity|]. cbn in *. injection H as H1 H2. f_equal; [|auto].
  unfold lower_case, upper_case in *. destruct (x =? 45) eqn:?, (y =? 45) eqn:?, ((65 <=? x) && (x <=? 90)) eqn:?, ((65 <=? y) && (y <=? 90)) eqn:?, ((97 <=? x) && (x <=? 122)) eqn:?, ((97 <=? y) && (y <=? 122)) eqn:?; lia.
Qed.
Lemma members_apart cs sc base fs : NoDup (map fst cs) -> (forall mb a n, In (mb, a, n) fs -> In (c_constant TCommand sc mb, a - base) cs) ->
  forall from, spread from (fields_of base fs) -> NoDup (member_names fs) /\ forall mb a n, In (mb, a, n) fs -> from <= a - base.
Proof.
  intros N C. induction fs as [|[[mb a] n] fs IH]; intros from S; [split; [constructor|contradiction]|]. cbn [fields_of map spread] in S. destruct S as (S1 & S2 & S3).
  destruct (IH ltac:(intros; eapply C; right; eauto) _ S3) as [ND LE]. split.
  - cbn [member_names map]. constructor; [|exact ND]. intros I. apply in_map_iff in I as ([[mb' a'] n'] & E & I). specialize (LE mb' a' n' I).
    assert (U : c_constant TCommand sc mb' = c_constant TCommand sc mb) by (unfold c_constant; rewrite !map_app; now rewrite (case_fields _ _ E)).
    pose proof (C mb' a' n' (or_intror I)) as I1. pose proof (C mb a n (or_introl eq_refl)) as I2. rewrite U in I1.
    pose proof (value_of_in cs _ _ N I1) as V1. rewrite (value_of_in cs _ _ N I2) in V1. injection V1 as V1. destruct (wide _); lia.
  - intros mb' a' n' [[= <- <- <-]|I]; [lia|]. specialize (LE mb' a' n' I). destruct (wide _); lia.
Qed.

(** In C as in the header: for a command block whose members follow each other,
    the function that writes puts each value where the program has the member,
    and nothing elsewhere, and the function that reads gives the values back.
    No two constants may have the same name in C. *)
Theorem C94_functions evs pre block post sc base fs g guard args success : symbols_are evs (pre ++ block ++ post) ->
  Forall (fun x => 0 <= fst x < 65536) (symbols_of evs) -> generate evs = Ok g -> legible g -> (forall n, guard = Some n -> ~ In 10 n) -> Forall (fun a => ~ In 10 a) args ->
  NoDup (map (fun '(t, n, m, _) => c_constant t (group n) m) (constants [] (pre ++ block ++ post))) ->
  sc <> [] -> ~ In 47 sc -> announced (rev pre) = Some TCommand -> command_block sc base block fs -> Forall (elsewhere sc) post ->
  Forall (fun '(_, a, n) => 0 < n /\ a + n <= base + 65536) fs ->
  exists ds reads writes, read_header (header_text styles guard args success g) = Some ds /\
    In (Structure (map (fun '(m, _, n) => (c_field m, negb (n =? 1))) fs) (c_type TCommand sc)) ds /\
    In (Reader (c_type TCommand sc) (c_function sc "_read") reads) ds /\ In (Writer (c_type TCommand sc) (c_function sc "_write") writes) ds /\
    forall mem addr vs, Forall2 fits (fields_of base fs) vs ->
      let value := combine (member_names fs) vs in
      exists mem', run_writer (enumerators ds) writes mem addr value = Some mem' /\ run_reader (enumerators ds) reads mem' addr = Some value /\
        Forall2 (fun f v => map mem' (cells addr f) = encoded f v) (fields_of base fs) vs /\
        forall x, ~ In x (flat_map (cells addr) (fields_of base fs)) -> mem' x = mem x.
Proof.
  intros SA R GE L GD AR ND NE NS AN B EL SZ. destruct (the_sections evs _ g SA R GE L) as (sections & OE & OK).
  destruct (the_header evs _ g guard args success sections SA GE L GD AR OE OK) as (RH & CS).
  destruct (C79_struct evs pre block post sc base fs SA NE NS AN B EL) as (g' & GE' & IS & IC). rewrite GE in GE'. injection GE' as <-.
  destruct (C79_constants evs _ SA) as (g' & GE' & PR). rewrite GE in GE'. injection GE' as <-. rewrite PR in IC.
  set (ds := map section_in_c sections ++ flat_map struct_in_c (g_cmds g)) in *.
  assert (EN : enumerators ds = flat_map (fun '(t, sc, cs) => map (fun '(m, v) => (c_constant t sc m, v)) cs) sections).
  { unfold ds, enumerators. rewrite flat_map_app. assert (X : flat_map (fun d => match d with Enumeration l _ => l | _ => [] end) (flat_map struct_in_c (g_cmds g)) = []).
    { clear. induction (g_cmds g) as [|c l IH]; [reflexivity|]. cbn. exact IH. }
    rewrite X, app_nil_r. clear. induction sections as [|[[t sc] cs] l IH]; [reflexivity|]. cbn. now rewrite IH. }
  assert (EC : enumerators ds = map (fun '(t, n, m, v) => (c_constant t (group n) m, v)) (constants [] (pre ++ block ++ post))).
  { rewrite EN, <- CS. clear - OK. induction OK as [|[[t sc] cs] l O OK IH]; [reflexivity|]. cbn [flat_map]. rewrite map_app. apply f_equal2; [|exact IH]. rewrite map_map. apply map_ext_in. intros [m v] I.
    destruct O as (_ & _ & _ & O). rewrite Forall_forall in O. specialize (O _ I) as (NM & _). rewrite constant_eq in NM. apply name_words in NM.
    apply (name_without 47 upper_case) in NM; [|reflexivity|reflexivity]. rewrite !in_app_iff in NM. rewrite group_app by tauto. reflexivity. }
  assert (N : NoDup (map fst (enumerators ds))).
  { rewrite EC, map_map. erewrite map_ext; [exact ND|]. intros [[[t n] m] v]. reflexivity. }
  assert (C : forall mb a n, In (mb, a, n) fs -> In (c_constant TCommand sc mb, a - base) (enumerators ds)).
  { intros mb a n I. rewrite EC. apply in_map_iff. eexists (_, _, _, _). split; [|exact (IC mb a n I)]. cbn beta iota. now rewrite group_app. }
  assert (I2 : incl (struct_in_c (mkStruct sc (map (fun '(m, _, n) => mkField m (u16 n)) fs))) ds).
  { intros d D. apply in_or_app. right. apply in_flat_map. eauto. }
  clearbody ds. clear EN EC. exists ds, (accesses sc fs), (accesses sc fs). split; [exact RH|].
  assert (FE : map (fun f => (c_field (d_name f), negb (d_size f =? 1), c_constant TCommand sc (d_name f))) (map (fun '(m, _, n) => mkField m (u16 n)) fs) = accesses sc fs).
  { rewrite map_map. apply map_ext. now intros [[m a] n]. }
  unfold struct_in_c in I2. cbv zeta in I2. cbn [c_name c_fields] in I2. rewrite FE in I2.
  assert (L1 : exists m items, laid_out sc m base items fs) by (destruct B; eauto). destruct L1 as (m0 & items & L1).
  pose proof (laid_spread sc base m0 base items fs L1 ltac:(lia) SZ) as SP. rewrite Z.sub_diag in SP.
  destruct (members_apart (enumerators ds) sc base fs N C 0 SP) as [NDF LB].
  split; [|split; [apply I2; right; now left|split; [apply I2; right; right; now left|]]].
  - replace (map (fun '(m, _, n) => (c_field m, negb (n =? 1))) fs) with (map fst (accesses sc fs)); [apply I2; now left|]. unfold accesses. rewrite map_map. apply map_ext_in. intros [[m a] n] I.
    rewrite Forall_forall in SZ. specialize (SZ _ I). cbn beta iota in SZ. cbn [fst]. specialize (LB m a n I). f_equal. unfold u16. lia.
  - intros mem addr vs F value. destruct (C79_roundtrip sc base block fs mem addr vs B SZ F) as (_ & EN & OT).
    assert (V : Forall2 (fun '(mb, _, _) v => value_of value (c_field mb) = Some v) fs vs).
    { assert (LV : List.length fs = List.length vs) by (apply same_length in F; unfold fields_of in F; now rewrite map_length in F).
      assert (NV : NoDup (map fst value)). { unfold value. replace (map fst (combine (member_names fs) vs)) with (member_names fs); [exact NDF|].
        assert (LM : List.length (member_names fs) = List.length vs) by (unfold member_names; now rewrite map_length). clear - LM. revert vs LM. induction (member_names fs) as [|x l IH]; intros [|v vs] E; try discriminate; [reflexivity|]. cbn. f_equal. apply IH. now injection E. }
      assert (G : forall fs0 vs0, List.length fs0 = List.length vs0 -> incl (combine (member_names fs0) vs0) value -> Forall2 (fun '(mb, _, _) v => value_of value (c_field mb) = Some v) fs0 vs0).
      { clear - NV. induction fs0 as [|[[mb a] n] fs0 IH]; intros [|v vs0] E I; try discriminate; constructor.
        - apply value_of_in; [exact NV|]. apply I. now left.
        - apply IH; [now injection E|]. intros x X. apply I. now right. }
      apply G; [exact LV|apply incl_refl]. }
    destruct (run_writer_is (enumerators ds) sc base addr value N fs mem mem vs C V F ltac:(reflexivity)) as (mem' & RW & EM). exists mem'. split; [exact RW|].
    assert (EN' : Forall2 (fun f v => map mem' (cells addr f) = encoded f v) (fields_of base fs) vs).
    { eapply weaker; [|exact EN]. intros f v E. rewrite <- E. apply map_ext. exact EM. }
    split; [exact (run_reader_is (enumerators ds) sc base addr mem' N fs vs C F EN')|]. split; [exact EN'|]. intros x X. rewrite EM. now apply OT.
Qed.
End Styles.
Print Assumptions C94_header.
Print Assumptions C94_functions.

(** ** Where it goes wrong *)
Definition default_header (g : gen) : str := header_text default_styles None [] true g.
(** Two labels that differ only in the case of a letter, or in "-" and "_", have
    the same constant. *)
Definition two_cases : str := bytes "|100 (enum ) @color &red $1 &Red $1".
Theorem C94_names_refuted : ~ forall fs inp evs g ds, assembles fs inp true evs -> generate evs = Ok g -> read_header (default_header g) = Some ds ->
  NoDup (map fst (enumerators ds)).
Proof.
  intros H. assert (A : assembles (Props_Asm.one two_cases) (bytes "a") true (evs_of two_cases)) by assembled.
  let v := eval vm_compute in (generate (evs_of two_cases)) in set (res := v).
  assert (M : generate (evs_of two_cases) = res) by (vm_compute; reflexivity). subst res. specialize (fun ds => H _ _ _ _ ds A M). clear A M.
  match type of H with forall ds, read_header ?t = Some ds -> _ => let v := eval vm_compute in (read_header t) in match v with Some ?l => specialize (H l ltac:(vm_compute; reflexivity)) end end.
  vm_compute in H. inversion H as [|? ? N _]. apply N. now left.
Qed.
Print Assumptions C94_names_refuted.
(** A member that is called like a word of C: the header is not C. *)
Definition c_word : str := bytes "|100 (command ) @draw &int $1 ( end )".
(** A section without members: an enumeration without constants is not C. *)
Definition empty_section : str := bytes "|100 (enum ) @color BRK".
Theorem C94_is_c_refuted : ~ (forall fs inp evs g, assembles fs inp true evs -> generate evs = Ok g -> (forall l1 t t' sc l2, g_out g <> l1 ++ PBegin t :: PEnd t' sc :: l2) -> read_header (default_header g) <> None) /\
  ~ (forall fs inp evs g, assembles fs inp true evs -> generate evs = Ok g ->
     (forall c f, In c (g_cmds g) -> In f (c_fields c) -> is_name (c_field (d_name f)) = true) -> read_header (default_header g) <> None).
Proof.
  split; intros H.
  - assert (A : assembles (Props_Asm.one c_word) (bytes "a") true (evs_of c_word)) by assembled.
    let v := eval vm_compute in (generate (evs_of c_word)) in set (res := v).
    assert (M : generate (evs_of c_word) = res) by (vm_compute; reflexivity). subst res. apply (H _ _ _ _ A M); [|vm_compute; reflexivity].
    cbn [g_out]. intros l1 t t' sc l2 E. destruct l1 as [|p [|q [|r [|s l1]]]]; cbn in E; try discriminate E; injection E; intros; subst; try discriminate; destruct l1; discriminate.
  - assert (A : assembles (Props_Asm.one empty_section) (bytes "a") true (evs_of empty_section)) by assembled.
    let v := eval vm_compute in (generate (evs_of empty_section)) in set (res := v).
    assert (M : generate (evs_of empty_section) = res) by (vm_compute; reflexivity). subst res. apply (H _ _ _ _ A M); [|vm_compute; reflexivity].
    cbn [g_cmds]. intros c f [].
Qed.
Print Assumptions C94_is_c_refuted.
(** A last member of size 0 before the next command block is added to that one:
    its functions use a constant that is not declared. *)
Definition stale : str := bytes "|100 (command ) @one &x (command ) @two 01 &y $1 ( end )".
Theorem C94_declared_refuted : ~ forall fs inp evs g ds t f fields x, assembles fs inp true evs -> generate evs = Ok g -> read_header (default_header g) = Some ds ->
  In (Reader t f fields) ds -> In x fields -> value_of (enumerators ds) (snd x) <> None.
Proof.
  intros H. assert (A : assembles (Props_Asm.one stale) (bytes "a") true (evs_of stale)) by assembled.
  let v := eval vm_compute in (generate (evs_of stale)) in set (res := v).
  assert (M : generate (evs_of stale) = res) by (vm_compute; reflexivity). subst res. specialize (fun ds t f fields x => H _ _ _ _ ds t f fields x A M). clear A M.
  match type of H with forall ds t f fields x, read_header ?t0 = Some ds -> _ => let v := eval vm_compute in (read_header t0) in match v with Some ?l => specialize (fun t f fields x => H l t f fields x ltac:(vm_compute; reflexivity)) end end.
  match type of H with context [In _ ?l] => match l with context [Reader ?t ?f (?x :: ?r)] => apply (H t f (x :: r) x) end end; [do 6 right; left; reflexivity|left; reflexivity|vm_compute; reflexivity].
Qed.
Print Assumptions C94_declared_refuted.

(** ** A case *)
Definition drawn : gen := Eval vm_compute in match generate (evs_of drawing) with Ok g => g | Fault _ => gen_start end.
Definition drawing_items : list item := Eval vm_compute in block_items.
Definition drawing_syms : list (Z * symbol) := Eval vm_compute in symbols_of (evs_of drawing).
Example C94_case : assembles (Props_Asm.one drawing) (bytes "a") true (evs_of drawing) /\ generate (evs_of drawing) = Ok drawn /\ legible default_styles drawn /\
  symbols_of (evs_of drawing) = drawing_syms /\ Forall (fun x => 0 <= fst x < 65536) drawing_syms /\ block_items = drawing_items /\
  NoDup (map (fun '(t, n, m, _) => c_constant default_styles t (group n) m) (constants [] drawing_items)) /\
  Forall (fun '(_, a, n) => 0 < n /\ a + n <= 256 + 65536) [(bytes "x", 256, 2); (bytes "y", 258, 1); (bytes "color", 259, 1)] /\
  Forall2 fits (fields_of 256 [(bytes "x", 256, 2); (bytes "y", 258, 1); (bytes "color", 259, 1)]) [4660; 7; 8] /\
  read_header (header_text default_styles (Some (bytes "DRAW_H")) [bytes "draw.tal"] true drawn) = Some
    [Enumeration [(bytes "CMD_DRAW_X", 0); (bytes "CMD_DRAW_Y", 2); (bytes "CMD_DRAW_COLOR", 3)] None;
     Structure [(bytes "x", true); (bytes "y", false); (bytes "color", false)] (bytes "cmd_draw_t");
     Reader (bytes "cmd_draw_t") (bytes "cmd_draw_read") [(bytes "x", true, bytes "CMD_DRAW_X"); (bytes "y", false, bytes "CMD_DRAW_Y"); (bytes "color", false, bytes "CMD_DRAW_COLOR")];
     Writer (bytes "cmd_draw_t") (bytes "cmd_draw_write") [(bytes "x", true, bytes "CMD_DRAW_X"); (bytes "y", false, bytes "CMD_DRAW_Y"); (bytes "color", false, bytes "CMD_DRAW_COLOR")]].
Proof.
  split; [assembled|]. split; [vm_compute; reflexivity|]. split.
  - constructor; unfold drawn; cbn [g_out g_cmds].
    + intros t n sc m v I. repeat (destruct I as [I|I]; [try discriminate I; injection I as <- <- <- <- <-; vm_compute; reflexivity|]). contradiction.
    + intros t sc I NC. repeat (destruct I as [I|I]; [try discriminate I; injection I as <- <-; congruence|]). contradiction.
    + intros l1 t t' sc l2 E. destruct l1 as [|p [|q [|r [|s [|u l1]]]]]; cbn in E; try discriminate E; injection E; intros; subst; try discriminate; destruct l1; discriminate.
    + intros c [<-|[]]. cbn [c_name c_fields]. split; [vm_compute; reflexivity|]. split; [vm_compute; reflexivity|]. split; [vm_compute; reflexivity|].
      intros f I. repeat (destruct I as [<-|I]; [split; vm_compute; reflexivity|]). contradiction.
  - split; [vm_compute; reflexivity|]. split; [unfold drawing_syms; repeat constructor; cbn; lia|]. split; [vm_compute; reflexivity|]. split; [|split; [repeat (apply Forall_cons; [lia|]); apply Forall_nil|split; [cbn [fields_of map]; repeat (apply Forall2_cons; [vm_compute; split; congruence|]); apply Forall2_nil|vm_compute; reflexivity]]].
    match goal with |- NoDup ?x => let v := eval vm_compute in x in change (NoDup v) end. repeat (constructor; [cbn; intuition discriminate|]). constructor.
Qed.
