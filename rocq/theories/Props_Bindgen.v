(** Property C79: the header of buxn-bindgen (src/bindgen.c).

    As in Props_Anno the symbols of a program are a list of items, whole comments
    and other symbols.  The description looks back over the items and does not
    use the state of the generator. *)
From Verif Require Import Base AsmModel AnnoModel AsmSound AsmSpec AsmFacts Props_Asm TransportModel Props_Anno BindgenModel.
From Verif Require AsmWords.
From Coq Require Import ZifyBool String.
Open Scope list_scope.
Ltac Zify.zify_post_hook ::= Z.div_mod_to_equations.

(** ** Description *)
Definition ANNOS3 : list (str * anno_type) := [(bytes "device", APrefix); (bytes "enum", APrefix); (bytes "command", APrefix)].
(** The part of a name before the slash. *)
Fixpoint group (n : str) : str := match n with [] => [] | c :: n' => if c =? 47 then [] else c :: group n' end.
(** The rest of [n] if it starts with [p]. *)
Fixpoint after (p n : str) : option str :=
  match p, n with
  | [], _ => Some n
  | x :: p', y :: n' => if x =? y then after p' n' else None
  | _ :: _, [] => None
  end.

(** The annotation that makes the next definition start a section.  If several
    wait, the last kind in the order device, enum, command counts. *)
Definition announced (hist : list item) : option section_type :=
  match waiting ANNOS3 2 hist, waiting ANNOS3 1 hist, waiting ANNOS3 0 hist with
  | Some _, _, _ => Some TCommand
  | _, Some _, _ => Some TEnum
  | _, _, Some _ => Some TDevice
  | _, _, _ => None
  end.
(** The section one is in after these items, the latest item first: its kind, its
    name and the address where it starts. *)
Fixpoint section (hist : list item) : option (section_type * str * Z) :=
  match hist with
  | [] => None
  | Single a s :: h =>
      if definition s then match announced h with Some t => Some (t, group (name_of s), a) | None => section h end else section h
  | Comment _ _ _ :: h => section h
  end.
(** A label "section/member" in its section is a constant: kind, name of the
    label, member, value.  The value is the address, for a command the distance
    from its start. *)
Definition constant_of (hist : list item) (it : item) : list (section_type * str * str * Z) :=
  match it with
  | Single a s =>
      match s_type s, section (it :: hist) with
      | SLabel, Some (t, sc, base) =>
          match after (sc ++ bytes "/") (name_of s) with
          | Some (c :: m) => [(t, name_of s, c :: m, match t with TCommand => a - base | _ => a end)]
          | _ => []
          end
      | _, _ => []
      end
  | _ => []
  end.
Fixpoint constants (hist items : list item) : list (section_type * str * str * Z) :=
  match items with [] => [] | it :: items' => constant_of hist it ++ constants (it :: hist) items' end.
(** The constants that are printed. *)
Definition printed (ps : list piece) : list (section_type * str * str * Z) :=
  flat_map (fun p => match p with PConst t n _ m v => [(t, n, m, v)] | _ => [] end) ps.

(** Labels and macros have names, and not such that start with a slash. *)
Definition well_named (it : item) : Prop :=
  match it with
  | Single _ s => s_type s = SLabel \/ definition s = true -> exists n, s_name s = Some n /\ group n <> []
  | _ => True
  end.

(** ** Proofs *)
Lemma group_scope n : scope_of n = group n.
Proof. reflexivity. Qed.
Lemma group_local n : (local_of n = [] /\ forall sc c m, after (sc ++ bytes "/") n <> Some (c :: m) \/ sc <> group n) \/
  (local_of n <> [] /\ after (group n ++ bytes "/") n = Some (local_of n)).
Proof.
  induction n as [|x n IH].
  - left. split; auto. intros [|y sc] c m; left; cbn; discriminate.
  - cbn [local_of group]. destruct (Z.eqb_spec x 47) as [->|N].
    + cbn [app]. change (bytes "/") with [47]. cbn [after]. rewrite Z.eqb_refl. destruct n as [|y n]; [|right; split; [discriminate|reflexivity]].
      left. split; auto. intros [|z sc] c m; [left; discriminate|right; discriminate].
    + destruct IH as [[L H]|[L H]].
      * left. split; auto. intros sc c m. destruct sc as [|z sc].
        -- right. discriminate.
        -- destruct (Z.eqb_spec z x) as [->|]; [|right; congruence]. cbn [app after]. rewrite Z.eqb_refl. destruct (H sc c m) as [X|X]; [left; exact X|right; congruence].
      * right. split; auto. cbn [app after]. now rewrite Z.eqb_refl.
Qed.
Lemma after_app p : forall n m, after p n = Some m -> n = p ++ m.
Proof.
  induction p as [|x p IH]; intros [|y n] m; cbn; try congruence. destruct (Z.eqb_spec x y) as [->|]; [|discriminate]. intros H. f_equal. auto.
Qed.
Lemma group_app sc m : ~ In 47 sc -> group (sc ++ bytes "/" ++ m) = sc.
Proof. induction sc as [|x sc IH]; intros N; cbn; [reflexivity|]. destruct (Z.eqb_spec x 47) as [->|]; [exfalso; apply N; now left|]. f_equal. apply IH. intros I. apply N. now right. Qed.
Lemma group_noslash n : ~ In 47 (group n).
Proof. induction n as [|x n IH]; cbn; [tauto|]. destruct (Z.eqb_spec x 47); cbn; [tauto|]. intros [|]; auto. Qed.

Lemma str_eqb_spec a b : reflect (a = b) (str_eqb a b).
Proof. unfold str_eqb. destruct (str_dec a b); constructor; auto. Qed.

(** What the state of the generator stands for. *)
Definition placed (sec : option (section_type * str * Z)) (g : gen) : Prop :=
  match sec with
  | Some (t, sc, base) => g_scope g = sc /\ g_type g = t /\ g_base g = base /\ sc <> [] /\ ~ In 47 sc /\ (t = TCommand -> g_cmds g <> [])
  | None => g_scope g = []
  end.
Record follows (hist : list item) (g : gen) : Prop := mkFollows {
  w_spec : stands ANNOS3 hist (g_spec g);
  w_section : placed (section hist) g;
  w_pending : g_name g <> [] -> g_cmds g <> [] }.

Lemma add_field_ok l f : l <> [] -> exists l', add_field l f = Ok l' /\ l' <> [].
Proof.
  induction l as [|c l IH]; [congruence|]. intros _. destruct l as [|d l]; [eexists; split; [reflexivity|discriminate]|].
  destruct IH as (l' & E & N); [discriminate|]. cbn [add_field] in *. rewrite E. eexists. split; [reflexivity|discriminate].
Qed.
Lemma flush_ok g a : (g_name g <> [] -> g_cmds g <> []) ->
  exists g', flush g a = Ok g' /\ g_spec g' = g_spec g /\ g_scope g' = g_scope g /\ g_type g' = g_type g /\ g_base g' = g_base g /\
    g_out g' = g_out g /\ g_last g' = g_last g /\ (g_name g' <> [] -> g_cmds g' <> []) /\ (g_cmds g <> [] -> g_cmds g' <> []).
Proof.
  intros H. unfold flush. destruct (negb (a =? g_last g) && negb (str_eqb (g_name g) [])) eqn:C.
  - destruct (str_eqb_spec (g_name g) []); [rewrite andb_false_r in C; discriminate|].
    destruct (add_field_ok (g_cmds g) (mkField (g_name g) (u16 (a - g_last g))) (H n)) as (l' & E & N). rewrite E. eexists. split; [reflexivity|]. cbn. tauto.
  - exists g. tauto.
Qed.

(** A comment opens no section. *)
Lemma all_prefix i t : type_of ANNOS3 i = Some t -> t = APrefix.
Proof. unfold type_of. destruct i as [|[|[|[|]]]]; cbn; congruence. Qed.
Lemma comment_delivers hist b inner e l : delivers ANNOS3 hist (Comment b inner e) l -> Forall (fun v => v_anno v = None) l.
Proof.
  intros D. inversion D; subst; try constructor; try constructor.
  all: match goal with T : type_of ANNOS3 _ = Some _ |- _ => apply all_prefix in T; discriminate end.
Qed.
Lemma annotations_none g l : Forall (fun v => v_anno v = None) l -> handle_annotations g l = Ok g.
Proof. induction 1 as [|v l E F IH]; [reflexivity|]. cbn. unfold handle_annotation. now rewrite E. Qed.

Definition with_spec (g : gen) (p : aspec) : gen := mkGen p (g_scope g) (g_type g) (g_base g) (g_last g) (g_cmds g) (g_name g) (g_out g).
Fixpoint flush_all (g : gen) (addrs : list Z) : res gen :=
  match addrs with [] => Ok g | a :: l => match flush g a with Ok g => flush_all g l | Fault f => Fault f end end.
Lemma flush_spec g a p : flush (with_spec g p) a = match flush g a with Ok g' => Ok (with_spec g' p) | Fault f => Fault f end.
Proof. unfold flush. cbn. destruct (_ && _); [|reflexivity]. destruct (add_field _ _); reflexivity. Qed.
Lemma flush_keeps_spec g a g' : flush g a = Ok g' -> g_spec g' = g_spec g.
Proof. unfold flush. destruct (_ && _); [|congruence]. destruct (add_field _ _); [|discriminate]. now intros [= <-]. Qed.

Lemma comments_put l : forall g p' ds, Forall (fun i => s_type (snd i) = SComment) l -> handle_all (g_spec g) l = Ok (p', ds) -> Forall (fun v => v_anno v = None) ds ->
  put_symbols g l = match flush_all g (map fst l) with Ok g' => Ok (with_spec g' p') | Fault f => Fault f end.
Proof.
  induction l as [|[a s] l IH]; intros g p' ds T H F.
  - injection H as <- <-. cbn. destruct g; reflexivity.
  - inversion T as [|? ? T1 T2]; subst. cbn [snd] in T1. cbn [handle_all] in H. destruct (handle_symbol (g_spec g) a s) as [[p1 d1]|] eqn:HS; [|discriminate].
    destruct (handle_all p1 l) as [[p2 d2]|] eqn:HA; [|discriminate]. injection H as <- <-. apply Forall_app in F as [F1 F2].
    cbn [put_symbols map fst flush_all]. unfold put_symbol. rewrite HS, annotations_none by exact F1. rewrite T1. fold (with_spec g p1). rewrite flush_spec.
    destruct (flush g a) as [g1|] eqn:FL; [|reflexivity]. rewrite (IH (with_spec g1 p1) p2 d2 T2 HA F2).
    assert (X : forall l g, flush_all (with_spec g p1) l = match flush_all g l with Ok g' => Ok (with_spec g' p1) | Fault f => Fault f end).
    { clear. induction l as [|a l IH]; intros g; [reflexivity|]. cbn [flush_all]. rewrite flush_spec. destruct (flush g a); [apply IH|reflexivity]. }
    rewrite X. destruct (flush_all g1 (map fst l)); reflexivity.
Qed.

(** A definition opens the section that was announced. *)
Lemma definition_opens hist g a s n : s_name s = Some n -> group n <> [] ->
  exists g', handle_annotations g (flat_map (fun i => match waiting ANNOS3 i hist with Some r => [mkDelivery a s (Some i) r] | None => [] end) (seq 0 (List.length ANNOS3))) = Ok g' /\
    printed (g_out g') = printed (g_out g) /\ g_spec g' = g_spec g /\ g_name g' = g_name g /\
    match announced hist with
    | None => g' = g
    | Some t => g_scope g' = group n /\ g_type g' = t /\ g_base g' = a /\ g_last g' = a /\
        g_cmds g' = g_cmds g ++ match t with TCommand => [mkStruct (group n) []] | _ => [] end
    end.
Proof.
  intros N NE. change (seq 0 (List.length ANNOS3)) with [0%nat; 1%nat; 2%nat]. unfold announced. cbn [flat_map].
  assert (FP : forall g, printed (g_out (finalize g)) = printed (g_out g)).
  { intros g0. unfold finalize. destruct (g_scope g0); [reflexivity|]. cbn. unfold printed. rewrite flat_map_app. apply app_nil_r. }
  assert (FO : forall g, g_spec (finalize g) = g_spec g /\ g_name (finalize g) = g_name g /\ g_cmds (finalize g) = g_cmds g).
  { intros g0. unfold finalize. destruct (g_scope g0); repeat split; reflexivity. }
  assert (H : forall g i t r, nth_error types i = Some t -> exists g', handle_annotation g (mkDelivery a s (Some i) r) = Ok g' /\
     printed (g_out g') = printed (g_out g) /\ g_spec g' = g_spec g /\ g_name g' = g_name g /\
     g_scope g' = group n /\ g_type g' = t /\ g_base g' = a /\ g_last g' = a /\ g_cmds g' = g_cmds g ++ match t with TCommand => [mkStruct (group n) []] | _ => [] end).
  { intros g0 i t r T. unfold handle_annotation. cbn [v_anno v_sym v_addr]. rewrite T, N. destruct (FO g0) as (F1 & F2 & F3). eexists. split; [reflexivity|].
    cbn [g_out g_spec g_name g_scope g_type g_base g_last g_cmds]. rewrite F1, F2, F3. unfold printed in *. rewrite flat_map_app, FP. cbn. rewrite app_nil_r.
    repeat split; auto. destruct t; [now rewrite app_nil_r|now rewrite app_nil_r|reflexivity]. }
  destruct (waiting ANNOS3 0 hist) as [r0|], (waiting ANNOS3 1 hist) as [r1|], (waiting ANNOS3 2 hist) as [r2|]; cbn [app handle_annotations];
    repeat match goal with |- context [handle_annotation ?g (mkDelivery a s (Some ?i) ?r)] =>
      let t := eval cbv in (nth i types TDevice) in
      destruct (H g i t r eq_refl) as (? & -> & ? & ? & ? & ? & ? & ? & ? & ?) end;
    (eexists; split; [reflexivity|]); repeat split; auto; try congruence.
  all: cbn beta iota in *; repeat match goal with E : g_cmds _ = _ ++ [] |- _ => rewrite app_nil_r in E end; rewrite ?app_nil_r; congruence.
Qed.

(** The part of put_symbol for labels. *)
Definition label_put (g : gen) (addr : Z) (name : str) : res gen :=
  if str_eqb (scope_of name) (g_scope g) && negb (str_eqb (local_of name) []) then
    match flush g addr with
    | Fault f => Fault f
    | Ok g => Ok (mkGen (g_spec g) (g_scope g) (g_type g) (g_base g) addr (g_cmds g)
                    (match g_type g with TCommand => local_of name | _ => g_name g end)
                    (g_out g ++ [PConst (g_type g) name (scope_of name) (local_of name) (const_value (g_type g) addr (g_base g))]))
    end
  else Ok g.

Lemma printed_app a b : printed (a ++ b) = printed a ++ printed b.
Proof. apply flat_map_app. Qed.
Lemma flush_all_ok l : forall g, (g_name g <> [] -> g_cmds g <> []) ->
  exists g', flush_all g l = Ok g' /\ g_spec g' = g_spec g /\ g_scope g' = g_scope g /\ g_type g' = g_type g /\ g_base g' = g_base g /\
    g_out g' = g_out g /\ g_last g' = g_last g /\ (g_name g' <> [] -> g_cmds g' <> []) /\ (g_cmds g <> [] -> g_cmds g' <> []).
Proof.
  induction l as [|a l IH]; intros g H; [exists g; tauto|]. cbn [flush_all]. destruct (flush_ok g a H) as (g1 & E & A1 & A2 & A3 & A4 & A5 & A6 & A7 & A8).
  rewrite E. destruct (IH g1 A7) as (g2 & E2 & B1 & B2 & B3 & B4 & B5 & B6 & B7 & B8). exists g2. split; [exact E2|]. repeat split; try congruence; auto.
Qed.
Lemma good_comment b inner e : good (Comment b inner e) -> Forall (fun i => s_type (snd i) = SComment) (symbols (Comment b inner e)).
Proof.
  destruct b as [a b], e as [a' e]. intros ((T1 & _) & (T2 & _) & F). cbn [symbols]. constructor; [exact T1|]. apply Forall_app. split; [|repeat constructor; exact T2].
  eapply Forall_impl; [|exact F]. cbv beta. intros x X. apply X.
Qed.

(** What an item does. *)
Inductive effect (hist : list item) (g : gen) : item -> res gen -> Prop :=
| effect_comment b inner e p : effect hist g (Comment b inner e)
    (match flush_all g (map fst (symbols (Comment b inner e))) with Ok g' => Ok (with_spec g' p) | Fault f => Fault f end)
| effect_other a s p : definition s = false -> s_type s <> SLabel -> effect hist g (Single a s) (flush (with_spec g p) a)
| effect_definition a s n p g1 : definition s = true -> s_name s = Some n -> group n <> [] ->
    printed (g_out g1) = printed (g_out g) -> g_spec g1 = p -> g_name g1 = g_name g ->
    match announced hist with
    | None => g1 = with_spec g p
    | Some t => g_scope g1 = group n /\ g_type g1 = t /\ g_base g1 = a /\ g_last g1 = a /\
        g_cmds g1 = g_cmds g ++ match t with TCommand => [mkStruct (group n) []] | _ => [] end
    end ->
    effect hist g (Single a s) (match s_type s with SLabel => label_put g1 a n | _ => flush g1 a end)
| effect_generated a s n p : definition s = false -> s_type s = SLabel -> s_name s = Some n -> group n <> [] ->
    effect hist g (Single a s) (label_put (with_spec g p) a n).

Lemma item_put hist g it : stands ANNOS3 hist (g_spec g) -> good it -> well_named it ->
  exists p r, put_symbols g (symbols it) = r /\ effect hist g it r /\ stands ANNOS3 (it :: hist) p /\ (forall g', r = Ok g' -> g_spec g' = p).
Proof.
  intros S G W. destruct (item_step ANNOS3 hist (g_spec g) it S G) as (p & l & H & D & S'). exists p.
  assert (LS : forall g1 a n g', label_put g1 a n = Ok g' -> g_spec g' = g_spec g1).
  { intros g1 a n g'. unfold label_put. destruct (_ && _); [|congruence]. destruct (flush g1 a) as [g2|] eqn:F; [|discriminate]. intros [= <-]. cbn. now apply flush_keeps_spec in F. }
  destruct it as [a s|b inner e].
  - cbn [good] in G. cbn [symbols handle_all] in H. destruct (handle_symbol (g_spec g) a s) as [[p1 d1]|] eqn:HS; [|discriminate]. injection H as <- <-. rewrite app_nil_r in D.
    cbn [symbols put_symbols]. unfold put_symbol. rewrite HS. fold (with_spec g p1).
    assert (R1 : forall r : res gen, match r with Ok g0 => Ok g0 | Fault f => Fault f end = r) by (intros []; reflexivity).
    destruct (definition s) eqn:DS.
    + inversion D as [| | | | |? ? DS' |? ? DS']; subst; [|congruence]. destruct (W (or_intror DS)) as (n & N & NE).
      destruct (definition_opens hist (with_spec g p1) a s n N NE) as (g1 & E & P1 & P2 & P3 & P4). rewrite E.
      exists (match s_type s with SLabel => label_put g1 a n | _ => flush g1 a end). split; [|split; [|split; [exact S'|]]].
      * rewrite R1. destruct (s_type s); try reflexivity. rewrite N. reflexivity.
      * eapply (effect_definition hist g a s n p1 g1); auto. 
      * intros g' E'. destruct (s_type s); try (apply flush_keeps_spec in E'; rewrite E'; exact P2). apply LS in E'. rewrite E'. exact P2.
    + inversion D as [| | | | |? ? DS' |? ? DS']; subst; [congruence|]. cbn [handle_annotations]. destruct (s_type s) eqn:T; try congruence.
      all: try (exists (flush (with_spec g p1) a); split; [now rewrite R1|]; split; [apply effect_other; congruence|]; split; [exact S'|intros g' E'; apply flush_keeps_spec in E'; exact E']).
      destruct (W (or_introl T)) as (n & N & NE). rewrite N. exists (label_put (with_spec g p1) a n). split; [rewrite R1; reflexivity|]. split; [now apply effect_generated|]. split; [exact S'|].
      intros g' E'. apply LS in E'. exact E'.
  - eexists. split; [eapply comments_put; [apply good_comment; exact G|exact H|eapply comment_delivers; exact D]|]. split; [apply effect_comment|]. split; [exact S'|].
    intros g' E. destruct (flush_all _ _); [|discriminate]. now injection E as <-.
Qed.

Definition constant_in (sec : option (section_type * str * Z)) (a : Z) (n : str) : list (section_type * str * str * Z) :=
  match sec with
  | Some (t, sc, base) =>
      match after (sc ++ bytes "/") n with
      | Some (c :: m) => [(t, n, c :: m, match t with TCommand => a - base | _ => a end)]
      | _ => []
      end
  | None => []
  end.
Lemma after_group sc n c m : ~ In 47 sc -> after (sc ++ bytes "/") n = Some (c :: m) -> group n = sc /\ local_of n = c :: m.
Proof.
  intros N H. apply after_app in H. rewrite <- app_assoc in H. subst n. split; [now apply group_app|]. clear - N. induction sc as [|x sc IH]; cbn; [reflexivity|].
  destruct (Z.eqb_spec x 47) as [->|]; [exfalso; apply N; now left|]. apply IH. intros I. apply N. now right.
Qed.
Lemma label_put_ok sec g a n : placed sec g -> group n <> [] -> (g_name g <> [] -> g_cmds g <> []) ->
  exists g', label_put g a n = Ok g' /\ placed sec g' /\ printed (g_out g') = printed (g_out g) ++ constant_in sec a n /\ (g_name g' <> [] -> g_cmds g' <> []).
Proof.
  intros P NE PE. unfold label_put. rewrite group_scope. destruct (flush_ok g a PE) as (g1 & E & A1 & A2 & A3 & A4 & A5 & A6 & A7 & A8).
  destruct (str_eqb_spec (group n) (g_scope g)) as [EG|NG]; cbn [andb].
  - destruct (str_eqb_spec (local_of n) []) as [EL|NL]; cbn [negb].
    + exists g. split; [reflexivity|]. split; [exact P|]. split; [|exact PE]. unfold constant_in. destruct sec as [[[t sc] base]|]; [|now rewrite app_nil_r].
      destruct (after _ n) as [[|c m]|] eqn:AF; rewrite ?app_nil_r; try reflexivity. destruct P as (_ & _ & _ & _ & NS & _). apply after_group in AF as [_ AF]; [congruence|auto].
    + rewrite E. eexists. split; [reflexivity|]. destruct sec as [[[t sc] base]|]; [|exfalso; cbn in P; congruence]. destruct P as (P1 & P2 & P3 & P4 & P5 & P6). 
      split; [cbn; rewrite A2, A3, A4; tauto|]. cbn [g_out g_name g_cmds g_type]. split.
      * rewrite printed_app, A5. f_equal. rewrite A3, A4, P2, P3. cbn [printed flat_map app constant_in]. destruct (group_local n) as [[X _]|[_ X]]; [congruence|].
        replace (group n) with sc in X by congruence. rewrite X. destruct (local_of n) as [|c m]; [congruence|]. destruct t; reflexivity.
      * rewrite A3, P2. destruct t; auto.
  - exists g. split; [reflexivity|]. split; [exact P|]. split; [|exact PE]. unfold constant_in. destruct sec as [[[t sc] base]|]; [|now rewrite app_nil_r].
    destruct (after _ n) as [[|c m]|] eqn:AF; rewrite ?app_nil_r; try reflexivity. destruct P as (P1 & _ & _ & _ & NS & _). apply after_group in AF as [AF _]; [congruence|auto].
Qed.

Lemma placed_keep sec g g' : placed sec g -> g_scope g' = g_scope g -> g_type g' = g_type g -> g_base g' = g_base g -> (g_cmds g <> [] -> g_cmds g' <> []) -> placed sec g'.
Proof.
  destruct sec as [[[t sc] base]|]; cbn; [|congruence]. intros (P1 & P2 & P3 & P4 & P5 & P6) E1 E2 E3 E4. rewrite E1, E2, E3. repeat (split; auto).
Qed.
Lemma section_single a s hist : section (Single a s :: hist) =
  if definition s then match announced hist with Some t => Some (t, group (name_of s), a) | None => section hist end else section hist.
Proof. reflexivity. Qed.
Lemma constant_single hist a s n : s_name s = Some n -> s_type s = SLabel -> constant_of hist (Single a s) = constant_in (section (Single a s :: hist)) a n.
Proof. intros N T. unfold constant_of. rewrite T. unfold name_of. rewrite N. reflexivity. Qed.
Lemma constant_nolabel hist a s : s_type s <> SLabel -> constant_of hist (Single a s) = [].
Proof. intros T. unfold constant_of. destruct (s_type s); congruence. Qed.

Lemma item_follows hist g it : follows hist g -> good it -> well_named it ->
  exists g', put_symbols g (symbols it) = Ok g' /\ follows (it :: hist) g' /\ printed (g_out g') = printed (g_out g) ++ constant_of hist it.
Proof.
  intros [S P PE] G W. destruct (item_put hist g it S G W) as (p & r & -> & E & S' & SP).
  destruct E as [b inner e q|a s q D NL|a s n q g1 D N NE O1 O2 O3 O4|a s n q D T N NE].
  - destruct (flush_all_ok (map fst (symbols (Comment b inner e))) g PE) as (g1 & F & A1 & A2 & A3 & A4 & A5 & A6 & A7 & A8). rewrite F in *.
    eexists. split; [reflexivity|]. split; [|cbn; now rewrite A5, app_nil_r]. constructor; [rewrite (SP _ eq_refl); exact S'| |exact A7].
    apply (placed_keep _ g); auto.
  - destruct (flush_ok (with_spec g q) a PE) as (g1 & F & A1 & A2 & A3 & A4 & A5 & A6 & A7 & A8). rewrite F in *.
    exists g1. split; [reflexivity|]. split; [|rewrite A5, constant_nolabel, app_nil_r by auto; reflexivity]. constructor; [rewrite (SP _ eq_refl); exact S'| |exact A7].
    rewrite section_single, D. apply (placed_keep _ g); auto.
  - assert (P1 : placed (section (Single a s :: hist)) g1 /\ (g_name g1 <> [] -> g_cmds g1 <> [])).
    { rewrite section_single, D. destruct (announced hist) as [t|]; [|subst g1; split; [apply (placed_keep _ g); auto|exact PE]].
      destruct O4 as (Q1 & Q2 & Q3 & Q4 & Q5). rewrite O3, Q5. split.
      - cbn. unfold name_of. rewrite N, Q5. repeat split; auto; [apply group_noslash|]. intros ->. destruct (g_cmds g); discriminate.
      - intros X. destruct (g_cmds g); [destruct (PE X eq_refl)|discriminate]. }
    destruct P1 as [P1 PE1]. destruct (flush_ok g1 a PE1) as (g2 & F & A1 & A2 & A3 & A4 & A5 & A6 & A7 & A8).
    assert (FL : s_type s <> SLabel -> match s_type s with SLabel => label_put g1 a n | _ => flush g1 a end = Ok g2) by (intros; destruct (s_type s); congruence).
    destruct (s_type s) eqn:T; try (rewrite F in *; exists g2; split; [reflexivity|]; split; [|rewrite A5, O1, constant_nolabel, app_nil_r by congruence; reflexivity];
      constructor; [rewrite (SP _ eq_refl); exact S'|apply (placed_keep _ g1); auto|exact A7]).
    destruct (label_put_ok _ g1 a n P1 NE PE1) as (g3 & LP & B1 & B2 & B3). rewrite LP in *. exists g3. split; [reflexivity|]. split; [|rewrite B2, O1, (constant_single _ _ _ n) by auto; reflexivity].
    constructor; [rewrite (SP _ eq_refl); exact S'|exact B1|exact B3].
  - assert (P1 : placed (section (Single a s :: hist)) (with_spec g q)) by (rewrite section_single, D; apply (placed_keep _ g); auto).
    destruct (label_put_ok _ (with_spec g q) a n P1 NE PE) as (g3 & LP & B1 & B2 & B3). rewrite LP in *. exists g3. split; [reflexivity|].
    split; [|rewrite B2, (constant_single _ _ _ n) by auto; reflexivity]. constructor; [rewrite (SP _ eq_refl); exact S'|exact B1|exact B3].
Qed.

Lemma put_symbols_app l1 l2 : forall g, put_symbols g (l1 ++ l2) = match put_symbols g l1 with Ok g1 => put_symbols g1 l2 | Fault f => Fault f end.
Proof. induction l1 as [|[a s] l1 IH]; intros g; [reflexivity|]. cbn. destruct (put_symbol g a s); [apply IH|reflexivity]. Qed.
Lemma items_follow items : forall hist g, follows hist g -> Forall good items -> Forall well_named items ->
  exists g', put_symbols g (flat_map symbols items) = Ok g' /\ follows (rev items ++ hist) g' /\ printed (g_out g') = printed (g_out g) ++ constants hist items.
Proof.
  induction items as [|it items IH]; intros hist g F G W.
  - exists g. cbn. rewrite app_nil_r. auto.
  - inversion G; inversion W; subst. destruct (item_follows hist g it F) as (g1 & E1 & F1 & P1); auto. destruct (IH _ _ F1) as (g2 & E2 & F2 & P2); auto.
    exists g2. cbn [flat_map rev constants]. rewrite put_symbols_app, E1. split; [exact E2|]. split; [now rewrite <- app_assoc|]. now rewrite P2, P1, app_assoc.
Qed.
Lemma follows_start : follows [] gen_start.
Proof. constructor; [apply (stands_start ANNOS3)|reflexivity|cbn; congruence]. Qed.

(** The events whose symbols are these items. *)
Definition symbols_are (evs : list event) (items : list item) : Prop :=
  symbols_of evs = flat_map symbols items /\ Forall good items /\ Forall well_named items.

(** The header is written without a fault, and its constants are exactly the
    labels of the annotated sections, in order, each with its value. *)
Theorem C79_constants evs items : symbols_are evs items ->
  exists g, generate evs = Ok g /\ printed (g_out g) = constants [] items.
Proof.
  intros (E & G & W). destruct (items_follow items [] gen_start follows_start G W) as (g & P & _ & C). unfold generate. rewrite E, P.
  change (printed (g_out gen_start) ++ constants [] items) with (constants [] items) in C. eexists. split; [reflexivity|]. rewrite <- C. unfold finalize. destruct (g_scope g); [reflexivity|]. cbn. rewrite printed_app. apply app_nil_r.
Qed.
Print Assumptions C79_constants.

(** The constants stand between the lines that open and close their section. *)
Definition enum_block (ps : list piece) : Prop :=
  exists t sc cs, ps = PBegin t :: cs ++ [PEnd t sc] /\ Forall (fun p => exists m v, m <> [] /\ p = PConst t (sc ++ bytes "/" ++ m) sc m v) cs.
Definition open_block (t : section_type) (sc : str) (ps : list piece) : Prop :=
  exists cs, ps = PBegin t :: cs /\ Forall (fun p => exists m v, m <> [] /\ p = PConst t (sc ++ bytes "/" ++ m) sc m v) cs.
Definition nested (g : gen) : Prop :=
  exists blocks last, Forall enum_block blocks /\ g_out g = List.concat blocks ++ last /\
    match g_scope g with [] => last = [] | _ => open_block (g_type g) (g_scope g) last end.
Lemma nested_finalize g : nested g -> nested (finalize g) /\ g_scope (finalize g) = [].
Proof.
  intros (bs & last & F & E & L). unfold finalize. destruct (g_scope g) as [|c sc] eqn:S; [rewrite S; split; [exists bs, last; rewrite S; auto|reflexivity]|].
  split; [|reflexivity]. exists (bs ++ [last ++ [PEnd (g_type g) (c :: sc)]]), []. cbn. rewrite concat_app. cbn. rewrite !app_nil_r, E, app_assoc. split; [|auto].
  apply Forall_app. split; auto. constructor; auto. destruct L as (cs & -> & L). exists (g_type g), (c :: sc), cs. auto.
Qed.
Lemma nested_keep g g' : nested g -> g_out g' = g_out g -> g_scope g' = g_scope g -> g_type g' = g_type g -> nested g'.
Proof. intros (bs & last & N) E1 E2 E3. exists bs, last. now rewrite E1, E2, E3. Qed.
Lemma nested_annotation g v g' : nested g -> (forall n, s_name (v_sym v) = Some n -> group n <> []) -> handle_annotation g v = Ok g' -> nested g'.
Proof.
  intros N NE. unfold handle_annotation. destruct (v_anno v); [|now intros [= <-]]. destruct (nth_error types n) as [t|]; [|discriminate].
  destruct (s_name (v_sym v)) as [name|]; [|discriminate]. intros [= <-]. destruct (nested_finalize g N) as [(bs & last & F & E & L) S]. rewrite S in L. subst last.
  exists bs, [PBegin t]. cbn. rewrite E, app_nil_r. split; [exact F|]. split; [reflexivity|]. rewrite group_scope. specialize (NE name eq_refl). destruct (group name); [congruence|].
  exists []. auto.
Qed.
Lemma nested_annotations l : forall g g', nested g -> Forall (fun v => forall n, s_name (v_sym v) = Some n -> group n <> []) l -> handle_annotations g l = Ok g' -> nested g'.
Proof.
  induction l as [|v l IH]; intros g g' N F; cbn; [now intros [= <-]|]. inversion F; subst. destruct (handle_annotation g v) as [g1|] eqn:H; [|discriminate].
  apply IH; auto. eapply nested_annotation; eauto.
Qed.
Lemma flush_keeps g a g' : flush g a = Ok g' -> g_out g' = g_out g /\ g_scope g' = g_scope g /\ g_type g' = g_type g.
Proof. unfold flush. destruct (_ && _); [|intros [= <-]; auto]. destruct (add_field _ _); [|discriminate]. now intros [= <-]. Qed.
Lemma nested_label g a n g' : nested g -> group n <> [] -> label_put g a n = Ok g' -> nested g'.
Proof.
  intros N NE. unfold label_put. rewrite group_scope. destruct (str_eqb_spec (group n) (g_scope g)) as [E|]; cbn [andb]; [|now intros [= <-]].
  destruct (str_eqb_spec (local_of n) []) as [|NL]; cbn [negb]; [now intros [= <-]|]. destruct (flush g a) as [g1|] eqn:F; [|discriminate]. intros [= <-].
  destruct (flush_keeps _ _ _ F) as (K1 & K2 & K3). destruct N as (bs & last & FB & EO & L). rewrite K1, K2, K3. rewrite <- E in *. destruct (group n) as [|c sc] eqn:G; [congruence|].
  exists bs, (last ++ [PConst (g_type g) n (c :: sc) (local_of n) (const_value (g_type g) a (g_base g1))]). cbn [g_out g_scope g_type]. rewrite EO, app_assoc.
  split; [exact FB|]. split; [reflexivity|]. destruct L as (cs & -> & L). exists (cs ++ [PConst (g_type g) n (c :: sc) (local_of n) (const_value (g_type g) a (g_base g1))]). split; [reflexivity|].
  apply Forall_app. split; auto. constructor; auto. exists (local_of n), (const_value (g_type g) a (g_base g1)). split; auto.
  destruct (group_local n) as [[X _]|[_ X]]; [congruence|]. rewrite G in X. apply after_app in X. rewrite <- app_assoc in X. now rewrite <- X.
Qed.
Lemma nested_symbol g a s g' : nested g -> (s_type s = SLabel \/ definition s = true -> exists n, s_name s = Some n /\ group n <> []) ->
  (forall p ds, handle_symbol (g_spec g) a s = Ok (p, ds) -> Forall (fun v => v_anno v <> None -> forall n, s_name (v_sym v) = Some n -> group n <> []) ds) ->
  put_symbol g a s = Ok g' -> nested g'.
Proof.
  intros N W D. unfold put_symbol. destruct (handle_symbol (g_spec g) a s) as [[p ds]|] eqn:H; [|discriminate]. specialize (D p ds eq_refl). fold (with_spec g p).
  assert (A : forall l g g', nested g -> Forall (fun v => v_anno v <> None -> forall n, s_name (v_sym v) = Some n -> group n <> []) l -> handle_annotations g l = Ok g' -> nested g').
  { clear. induction l as [|v l IH]; intros g g' N F; cbn; [now intros [= <-]|]. inversion F; subst. destruct (handle_annotation g v) as [g1|] eqn:H; [|discriminate].
    apply IH; auto. destruct (v_anno v) eqn:V; [apply (nested_annotation g v g1 N); [|exact H]; apply H1; congruence|]. unfold handle_annotation in H. rewrite V in H. now injection H as <-. }
  destruct (handle_annotations (with_spec g p) ds) as [g1|] eqn:HA; [|discriminate]. apply (A ds (with_spec g p)) in HA; [|now apply (nested_keep g)|exact D].
  assert (FL : flush g1 a = Ok g' -> nested g') by (intros F; apply flush_keeps in F as (? & ? & ?); now apply (nested_keep g1)).
  destruct (s_type s) eqn:T; auto. destruct (s_name s) as [n|] eqn:NM; [|discriminate]. intros L. destruct (W (or_introl eq_refl)) as (n' & [= <-] & NE).
  apply (nested_label g1 a n g' HA NE). exact L.
Qed.
Lemma nested_items items : forall hist g g', stands ANNOS3 hist (g_spec g) -> nested g -> Forall good items -> Forall well_named items ->
  put_symbols g (flat_map symbols items) = Ok g' -> nested g'.
Proof.
  induction items as [|it items IH]; intros hist g g' S N G W H; [now injection H as <-|]. inversion G as [|? ? G1 G2]; inversion W as [|? ? W1 W2]; subst.
  cbn [flat_map] in H. rewrite put_symbols_app in H. destruct (put_symbols g (symbols it)) as [g1|] eqn:H1; [|discriminate].
  destruct (item_put hist g it S G1 W1) as (p & r & ER & _ & S' & SP). rewrite H1 in ER. subst r. specialize (SP _ eq_refl).
  apply (IH (it :: hist) g1 g'); auto; [rewrite SP; exact S'|]. clear IH H.
  destruct (item_step ANNOS3 hist (g_spec g) it S G1) as (p' & l & HA & D & _). destruct it as [a s|b inner e].
  - cbn [symbols put_symbols handle_all] in *. destruct (put_symbol g a s) as [g2|] eqn:P; [|discriminate]. injection H1 as ->.
    apply (nested_symbol g a s g1 N W1); auto. intros q ds E. rewrite E in HA. injection HA as -> <-. rewrite app_nil_r in D.
    inversion D as [| | | | |? ? DS|]; subst; [|constructor]. apply Forall_forall. intros v V _ n SN. apply in_flat_map in V as (i & _ & V). destruct (waiting ANNOS3 i hist); [|contradiction].
    destruct V as [<-|[]]. cbn in SN. destruct (W1 (or_intror DS)) as (n' & SN' & NE). congruence.
  - rewrite (comments_put _ _ _ _ (good_comment _ _ _ G1) HA (comment_delivers _ _ _ _ _ D)) in H1.
    destruct (flush_all g _) as [g2|] eqn:F; [|discriminate]. injection H1 as <-. clear - F N. revert g F N. generalize (map fst (symbols (Comment b inner e))).
    induction l as [|a l IH]; intros g F N; [injection F as <-; now apply (nested_keep g)|]. cbn in F. destruct (flush g a) as [g3|] eqn:F3; [|discriminate].
    apply (IH g3 F). apply flush_keeps in F3 as (? & ? & ?). now apply (nested_keep g).
Qed.
Theorem C79_sections evs items : symbols_are evs items ->
  exists g blocks, generate evs = Ok g /\ g_out g = List.concat blocks /\ Forall enum_block blocks.
Proof.
  intros (E & G & W). destruct (items_follow items [] gen_start follows_start G W) as (g & P & _ & _). unfold generate. rewrite E, P.
  assert (N : nested g) by (refine (nested_items items [] gen_start g (stands_start ANNOS3) _ G W P); exists [], []; repeat split; constructor).
  destruct (nested_finalize g N) as [(bs & last & F & O & L) S]. rewrite S in L. subst last. exists (finalize g), bs. rewrite O, app_nil_r. auto.
Qed.
Print Assumptions C79_sections.

(** ** Command blocks *)
(** An item without labels, macros or annotations whose symbols are all at
    allowed addresses. *)
Definition quiet (allowed : Z -> Prop) (it : item) : Prop :=
  match it with
  | Single a s => definition s = false /\ s_type s <> SLabel /\ allowed a
  | Comment (_, b) _ _ => annotation ANNOS3 b = None /\ Forall (fun i => allowed (fst i)) (symbols it)
  end.
Definition label_named (s : symbol) (n : str) : Prop := s_type s = SLabel /\ s_gen s = false /\ s_name s = Some n.
(** The items after the label of member [m] at address [a]: further members, each
    at an address of its own, and after the last one a symbol at another address.
    In between only symbols at the address of the member before or the one
    after.  The members with address and size: *)
Inductive laid_out (sc m : str) (a : Z) : list item -> list (str * Z * Z) -> Prop :=
| laid_last gap e : Forall (quiet (fun x => x = a \/ x = e)) gap -> Exists (fun it => In e (map fst (symbols it))) gap -> e <> a ->
    laid_out sc m a gap [(m, a, e - a)]
| laid_next gap m' a' s items fs : Forall (quiet (fun x => x = a \/ x = a')) gap -> a' <> a -> m' <> [] -> label_named s (sc ++ bytes "/" ++ m') ->
    laid_out sc m' a' items fs -> laid_out sc m a (gap ++ Single a' s :: items) ((m, a, a' - a) :: fs).
(** "(command )" stands before [d], which is the first member, or is the section
    itself and the first member comes after it, at the same address. *)
Inductive command_block (sc : str) (base : Z) : list item -> list (str * Z * Z) -> Prop :=
| block_direct d m items fs : label_named d (sc ++ bytes "/" ++ m) -> m <> [] -> laid_out sc m base items fs -> command_block sc base (Single base d :: items) fs
| block_headed d gap m s items fs : label_named d sc -> Forall (quiet (fun x => x = base)) gap -> label_named s (sc ++ bytes "/" ++ m) -> m <> [] ->
    laid_out sc m base items fs -> command_block sc base (Single base d :: gap ++ Single base s :: items) fs.

Lemma add_field_last l c f : add_field (l ++ [c]) f = Ok (l ++ [mkStruct (c_name c) (c_fields c ++ [f])]).
Proof.
  induction l as [|d l IH]; [reflexivity|]. cbn [app]. destruct (l ++ [c]) as [|x t] eqn:E; [destruct l; discriminate|]. cbn [add_field] in *. rewrite IH.
  reflexivity.
Qed.
Record mid (sc : str) (base : Z) (cs : list cstruct) (fs : list field) (pend : option (str * Z)) (g : gen) : Prop := mkMid {
  i_scope : g_scope g = sc; i_type : g_type g = TCommand; i_base : g_base g = base; i_cmds : g_cmds g = cs ++ [mkStruct sc fs];
  i_pend : match pend with Some (m, a) => g_name g = m /\ m <> [] /\ g_last g = a | None => g_name g = [] end }.
Definition flushed (pend : option (str * Z)) (x : Z) : list field * option (str * Z) :=
  match pend with
  | Some (m, a) => if x =? a then ([], pend) else ([mkField m (u16 (x - a))], None)
  | None => ([], None)
  end.
Lemma flush_mid sc base cs fs pend g x : mid sc base cs fs pend g ->
  exists g', flush g x = Ok g' /\ mid sc base cs (fs ++ fst (flushed pend x)) (snd (flushed pend x)) g'.
Proof.
  intros [S T B C P]. unfold flush. destruct pend as [[m a]|]; cbn [flushed].
  - destruct P as (P1 & P2 & P3). rewrite P1, P3. destruct (str_eqb_spec m []); [congruence|]. destruct (Z.eqb_spec x a); cbn [negb andb fst snd].
    + exists g. split; [reflexivity|]. rewrite app_nil_r. constructor; auto.
    + rewrite C, add_field_last. eexists. split; [reflexivity|]. constructor; cbn; auto.
  - rewrite P. replace (str_eqb [] []) with true by (destruct (str_eqb_spec [] []); congruence). rewrite andb_false_r. exists g. cbn. rewrite app_nil_r. split; [reflexivity|constructor; auto].
Qed.
Lemma mid_spec sc base cs fs pend g p : mid sc base cs fs pend g -> mid sc base cs fs pend (with_spec g p).
Proof. intros [S T B C P]. constructor; auto. Qed.
(** After some addresses of two. *)
Lemma flush_all_mid sc base cs fs m a e l : forall g, Forall (fun x => x = a \/ x = e) l -> e <> a -> mid sc base cs fs (Some (m, a)) g ->
  exists g', flush_all g l = Ok g' /\
    ((~ In e l /\ mid sc base cs fs (Some (m, a)) g') \/ (In e l /\ mid sc base cs (fs ++ [mkField m (u16 (e - a))]) None g')).
Proof.
  induction l as [|x l IH]; intros g F N M; [exists g; cbn; tauto|]. inversion F as [|? ? X F']; subst. destruct (flush_mid _ _ _ _ _ g x M) as (g1 & E & M1). cbn [flush_all]. rewrite E.
  cbn [flushed] in M1. destruct (Z.eqb_spec x a) as [->|NX].
  - cbn in M1. rewrite app_nil_r in M1. destruct (IH g1 F' N M1) as (g2 & E2 & [[H1 H2]|[H1 H2]]); exists g2; (split; [exact E2|]); [left|right]; cbn; split; auto. intros [->|]; auto.
  - destruct X as [-> | ->]; [congruence|]. cbn in M1. assert (X : forall l g, mid sc base cs (fs ++ [mkField m (u16 (e - a))]) None g -> exists g', flush_all g l = Ok g' /\ mid sc base cs (fs ++ [mkField m (u16 (e - a))]) None g').
    { clear. induction l as [|x l IH]; intros g M; [exists g; auto|]. destruct (flush_mid _ _ _ _ _ g x M) as (g1 & E & M1). cbn [flush_all]. rewrite E. apply IH. cbn in M1. now rewrite app_nil_r in M1. }
    destruct (X l g1 M1) as (g2 & E2 & M2). exists g2. split; [exact E2|]. right. cbn. auto.
Qed.
Lemma flush_all_none sc base cs fs l : forall g, mid sc base cs fs None g -> exists g', flush_all g l = Ok g' /\ mid sc base cs fs None g'.
Proof. induction l as [|x l IH]; intros g M; [exists g; auto|]. destruct (flush_mid _ _ _ _ _ g x M) as (g1 & E & M1). cbn [flush_all]. rewrite E. apply IH. cbn in M1. now rewrite app_nil_r in M1. Qed.

Lemma announced_quiet P it h : quiet P it -> announced (it :: h) = announced h.
Proof.
  unfold announced. destruct it as [a s|[a b] inner [a' e]]; cbn [quiet waiting].
  - intros (-> & _ & _). reflexivity.
  - intros (-> & _). reflexivity.
Qed.
Lemma announced_definition a s h : definition s = true -> announced (Single a s :: h) = None.
Proof. unfold announced. cbn [waiting]. intros ->. reflexivity. Qed.

(** The state between items. *)
Definition at_ (hist : list item) (g : gen) (M : gen -> Prop) : Prop := stands ANNOS3 hist (g_spec g) /\ announced hist = None /\ M g.
Lemma quiet_item hist g it P : quiet P it -> good it -> well_named it -> stands ANNOS3 hist (g_spec g) ->
  exists g1 p, (forall g', flush_all g (map fst (symbols it)) = Ok g' -> put_symbols g (symbols it) = Ok (g1 g') /\ stands ANNOS3 (it :: hist) (g_spec (g1 g')) /\ g1 g' = with_spec g' p).
Proof.
  intros Q G W S. destruct (item_put hist g it S G W) as (p & r & -> & E & S' & SP). exists (fun g' => with_spec g' p), p. intros g' F. 
  assert (X : r = Ok (with_spec g' p)).
  { destruct E as [b inner e q|a s q D NL|a s n q g1 D|a s n q D T].
    - rewrite F in *. specialize (SP _ eq_refl). cbn in SP. subst q. reflexivity.
    - cbn [symbols map fst flush_all] in F. rewrite flush_spec in *. destruct (flush g a); [|discriminate]. injection F as ->. specialize (SP _ eq_refl). cbn in SP. now subst q.
    - destruct Q as (Q & _). congruence.
    - destruct Q as (_ & Q & _). congruence. }
  subst r. auto.
Qed.
Lemma quiet_good_app l1 l2 (P : item -> Prop) : Forall P (l1 ++ l2) -> Forall P l1 /\ Forall P l2.
Proof. apply Forall_app. Qed.
Lemma quiet_addrs P it : quiet P it -> Forall P (map fst (symbols it)).
Proof.
  destruct it as [a s|[a b] inner e]; cbn [quiet].
  - intros (_ & _ & H). repeat constructor. exact H.
  - intros (_ & F). apply Forall_forall. intros x I. apply in_map_iff in I as (i & <- & I). rewrite Forall_forall in F. now apply F.
Qed.
Lemma gap_pending sc base cs fs m a e gap : forall hist g, Forall good gap -> Forall well_named gap -> Forall (quiet (fun x => x = a \/ x = e)) gap -> e <> a ->
  at_ hist g (mid sc base cs fs (Some (m, a))) ->
  exists g', put_symbols g (flat_map symbols gap) = Ok g' /\
    (at_ (rev gap ++ hist) g' (mid sc base cs fs (Some (m, a))) /\ ~ Exists (fun it => In e (map fst (symbols it))) gap \/
     at_ (rev gap ++ hist) g' (mid sc base cs (fs ++ [mkField m (u16 (e - a))]) None) /\ Exists (fun it => In e (map fst (symbols it))) gap).
Proof.
  assert (NONE : forall gap fs hist g P, Forall good gap -> Forall well_named gap -> Forall (quiet P) gap -> at_ hist g (mid sc base cs fs None) ->
    exists g', put_symbols g (flat_map symbols gap) = Ok g' /\ at_ (rev gap ++ hist) g' (mid sc base cs fs None)).
  { clear. induction gap as [|it gap IH]; intros fs hist g P G W Q A; [exists g; auto|]. inversion G; inversion W; inversion Q; subst. destruct A as (S & AN & M).
    destruct (quiet_item hist g it P) as (g1 & p & X); auto. destruct (flush_all_none _ _ _ _ (map fst (symbols it)) g M) as (g2 & F & M2).
    destruct (X g2 F) as (X1 & X2 & X3). destruct (IH fs (it :: hist) (g1 g2) P) as (g3 & E3 & A3); auto.
    { split; [exact X2|]. split; [rewrite (announced_quiet P) by auto; exact AN|rewrite X3; now apply mid_spec]. }
    exists g3. cbn [flat_map rev]. rewrite put_symbols_app, X1, <- app_assoc. auto. }
  induction gap as [|it gap IH]; intros hist g G W Q N A.
  - exists g. split; [reflexivity|]. left. split; [exact A|]. intros X. inversion X.
  - inversion G; inversion W; inversion Q; subst. destruct A as (S & AN & M).
    destruct (quiet_item hist g it (fun x => x = a \/ x = e)) as (g1 & p & X); auto.
    destruct (flush_all_mid _ _ _ _ m a e (map fst (symbols it)) g (quiet_addrs _ _ ltac:(eassumption)) N M) as (g2 & F & M2).
    destruct (X g2 F) as (X1 & X2 & X3). cbn [flat_map rev]. rewrite put_symbols_app, X1, <- app_assoc. cbn [app].
    assert (AN' : announced (it :: hist) = None) by (rewrite (announced_quiet (fun x => x = a \/ x = e)) by auto; exact AN).
    destruct M2 as [[NI M2]|[I M2]].
    + destruct (IH (it :: hist) (g1 g2)) as (g3 & E3 & A3); auto. { split; [exact X2|]. split; [exact AN'|rewrite X3; now apply mid_spec]. }
      exists g3. split; [exact E3|]. destruct A3 as [[A3 B3]|[A3 B3]]; [left|right]; split; auto. intros Y. inversion Y; subst; auto.
    + destruct (NONE gap (fs ++ [mkField m (u16 (e - a))]) (it :: hist) (g1 g2) (fun x => x = a \/ x = e)) as (g3 & E3 & A3); auto.
      { split; [exact X2|]. split; [exact AN'|rewrite X3; now apply mid_spec]. }
      exists g3. split; [exact E3|]. right. split; auto.
Qed.
Lemma gap_none sc base cs fs gap : forall hist g P, Forall good gap -> Forall well_named gap -> Forall (quiet P) gap -> at_ hist g (mid sc base cs fs None) ->
  exists g', put_symbols g (flat_map symbols gap) = Ok g' /\ at_ (rev gap ++ hist) g' (mid sc base cs fs None).
Proof.
  induction gap as [|it gap IH]; intros hist g P G W Q A; [exists g; auto|]. inversion G; inversion W; inversion Q; subst. destruct A as (S & AN & M).
  destruct (quiet_item hist g it P) as (g1 & p & X); auto. destruct (flush_all_none _ _ _ _ (map fst (symbols it)) g M) as (g2 & F & M2).
  destruct (X g2 F) as (X1 & X2 & X3). destruct (IH (it :: hist) (g1 g2) P) as (g3 & E3 & A3); auto.
  { split; [exact X2|]. split; [rewrite (announced_quiet P) by auto; exact AN|rewrite X3; now apply mid_spec]. }
  exists g3. cbn [flat_map rev]. rewrite put_symbols_app, X1, <- app_assoc. auto.
Qed.

Lemma label_definition s n : label_named s n -> definition s = true.
Proof. intros (T & G & _). unfold definition. now rewrite T, G. Qed.
Lemma member_split sc m : ~ In 47 sc -> scope_of (sc ++ bytes "/" ++ m) = sc /\ local_of (sc ++ bytes "/" ++ m) = m.
Proof.
  intros N. split; [now apply group_app|]. induction sc as [|x sc IH]; cbn; [reflexivity|]. destruct (Z.eqb_spec x 47) as [->|]; [exfalso; apply N; now left|]. apply IH. intros I. apply N. now right.
Qed.
Lemma str_eqb_refl a : str_eqb a a = true.
Proof. destruct (str_eqb_spec a a); congruence. Qed.

(** The label of a member. *)
Lemma label_member sc base cs fs pend g a m : sc <> [] -> ~ In 47 sc -> m <> [] -> mid sc base cs fs pend g ->
  exists g', label_put g a (sc ++ bytes "/" ++ m) = Ok g' /\ mid sc base cs (fs ++ fst (flushed pend a)) (Some (m, a)) g'.
Proof.
  intros NE NS NM M. destruct (member_split sc m NS) as [E1 E2]. unfold label_put. rewrite E1, E2, (i_scope _ _ _ _ _ _ M), str_eqb_refl.
  destruct (str_eqb_spec m []); [congruence|]. cbn [negb andb]. destruct (flush_mid _ _ _ _ _ g a M) as (g1 & F & [S T B C P]). rewrite F. eexists. split; [reflexivity|].
  constructor; cbn; auto. rewrite T. auto.
Qed.
Lemma member_item sc base cs fs pend hist g a m s : sc <> [] -> ~ In 47 sc -> m <> [] -> label_named s (sc ++ bytes "/" ++ m) ->
  at_ hist g (mid sc base cs fs pend) ->
  exists g', put_symbols g (symbols (Single a s)) = Ok g' /\ at_ (Single a s :: hist) g' (mid sc base cs (fs ++ fst (flushed pend a)) (Some (m, a))).
Proof.
  intros NE NS NM L (S & AN & M). pose proof (label_definition _ _ L) as D. destruct L as (T & GE & N).
  assert (GD : good (Single a s)) by (cbn; congruence). assert (GR : group (sc ++ bytes "/" ++ m) = sc) by now apply group_app.
  assert (WN : well_named (Single a s)) by (intros _; exists (sc ++ bytes "/" ++ m); split; congruence).
  destruct (item_put hist g (Single a s) S GD WN) as (p & r & -> & E & S' & SP).
  inversion E as [|? ? ? X|? ? n ? g1 X N' NE' O1 O2 O3 O4|? ? ? ? X]; subst; try congruence. rewrite T in *. rewrite AN in O4.
  replace n with (sc ++ bytes "/" ++ m) in * by congruence.
  assert (M1 : mid sc base cs fs pend g1) by (rewrite O4; now apply mid_spec).
  destruct (label_member _ _ _ _ _ g1 a m NE NS NM M1) as (g2 & F & M2). rewrite F in *. exists g2. split; [reflexivity|]. split; [rewrite (SP _ eq_refl); exact S'|]. split; [now apply announced_definition|exact M2].
Qed.

Lemma laid_run sc base cs : sc <> [] -> ~ In 47 sc -> forall m a items fs, laid_out sc m a items fs -> forall fs0 hist g,
  Forall good items -> Forall well_named items -> at_ hist g (mid sc base cs fs0 (Some (m, a))) ->
  exists g', put_symbols g (flat_map symbols items) = Ok g' /\
    at_ (rev items ++ hist) g' (mid sc base cs (fs0 ++ map (fun '(m, _, n) => mkField m (u16 n)) fs) None).
Proof.
  intros NE NS m a items fs L. induction L as [m a gap e Q X N|m a gap m' a' s items fs Q N NM LB L IH]; intros fs0 hist g G W A.
  - destruct (gap_pending sc base cs fs0 m a e gap hist g G W Q N A) as (g' & E & [[_ NX]|[A' _]]); [contradiction|]. exists g'. auto.
  - apply Forall_app in G as [G1 G2]. apply Forall_app in W as [W1 W2]. inversion G2; inversion W2; subst.
    destruct (gap_pending sc base cs fs0 m a a' gap hist g G1 W1 Q N A) as (g1 & E1 & A1).
    assert (M : exists g2, put_symbols g1 (symbols (Single a' s)) = Ok g2 /\
      at_ (Single a' s :: rev gap ++ hist) g2 (mid sc base cs (fs0 ++ [mkField m (u16 (a' - a))]) (Some (m', a')))).
    { destruct A1 as [[A1 _]|[A1 _]]; destruct (member_item _ _ _ _ _ _ g1 a' m' s NE NS NM LB A1) as (g2 & E2 & A2); exists g2; (split; [exact E2|]).
      - cbn [flushed] in A2. destruct (Z.eqb_spec a' a); [congruence|exact A2].
      - cbn [flushed fst] in A2. now rewrite app_nil_r in A2. }
    destruct M as (g2 & E2 & A2). destruct (IH _ _ g2 ltac:(assumption) ltac:(assumption) A2) as (g3 & E3 & A3). exists g3.
    rewrite flat_map_app. cbn [flat_map]. rewrite put_symbols_app, E1, put_symbols_app, E2. split; [exact E3|].
    cbn [map]. rewrite <- app_assoc in A3. cbn [app] in A3. rewrite rev_app_distr. cbn [rev]. rewrite <- !app_assoc. exact A3.
Qed.

(** Just after the section was opened. *)
Record opened (sc : str) (base : Z) (cs : list cstruct) (g : gen) : Prop := mkOpened {
  o_scope : g_scope g = sc; o_type : g_type g = TCommand; o_base : g_base g = base; o_cmds : g_cmds g = cs ++ [mkStruct sc []]; o_last : g_last g = base }.
Lemma flush_here g : flush g (g_last g) = Ok g.
Proof. unfold flush. now rewrite Z.eqb_refl. Qed.
Lemma flush_all_here l g : Forall (fun x => x = g_last g) l -> flush_all g l = Ok g.
Proof. induction l as [|x l IH]; intros F; [reflexivity|]. inversion F; subst. cbn [flush_all]. rewrite flush_here. auto. Qed.
Lemma opened_gap sc base cs gap : forall hist g, Forall good gap -> Forall well_named gap -> Forall (quiet (fun x => x = base)) gap -> at_ hist g (opened sc base cs) ->
  exists g', put_symbols g (flat_map symbols gap) = Ok g' /\ at_ (rev gap ++ hist) g' (opened sc base cs).
Proof.
  induction gap as [|it gap IH]; intros hist g G W Q A; [exists g; auto|]. inversion G; inversion W; inversion Q; subst. destruct A as (S & AN & O).
  destruct (quiet_item hist g it (fun x => x = base)) as (g1 & p & X); auto.
  assert (F : flush_all g (map fst (symbols it)) = Ok g).
  { apply flush_all_here. rewrite (o_last _ _ _ _ O). now apply quiet_addrs. }
  destruct (X g F) as (X1 & X2 & X3). destruct (IH (it :: hist) (g1 g)) as (g3 & E3 & A3); auto.
  { split; [exact X2|]. split; [rewrite (announced_quiet (fun x => x = base)) by auto; exact AN|]. rewrite X3. destruct O. constructor; auto. }
  exists g3. cbn [flat_map rev]. rewrite put_symbols_app, X1, <- app_assoc. auto.
Qed.
Lemma opened_label sc base cs g m : ~ In 47 sc -> m <> [] -> opened sc base cs g ->
  exists g', label_put g base (sc ++ bytes "/" ++ m) = Ok g' /\ mid sc base cs [] (Some (m, base)) g'.
Proof.
  intros NS NM [S T B C L]. destruct (member_split sc m NS) as [E1 E2]. unfold label_put. rewrite E1, E2, S, str_eqb_refl.
  destruct (str_eqb_spec m []); [congruence|]. cbn [negb andb]. rewrite <- L, flush_here. eexists. split; [reflexivity|]. constructor; cbn; auto; try congruence. rewrite T, L. auto.
Qed.
Lemma noslash_group sc : ~ In 47 sc -> group sc = sc /\ local_of sc = [].
Proof.
  induction sc as [|x sc IH]; intros N; [split; reflexivity|]. cbn. destruct (Z.eqb_spec x 47) as [->|]; [exfalso; apply N; now left|].
  destruct IH as [I1 I2]; [intros I; apply N; now right|]. split; congruence.
Qed.

(** A command block gives a struct with its members. *)
Lemma block_run sc base items fs hist g : sc <> [] -> ~ In 47 sc -> command_block sc base items fs -> Forall good items -> Forall well_named items ->
  stands ANNOS3 hist (g_spec g) -> announced hist = Some TCommand ->
  exists g', put_symbols g (flat_map symbols items) = Ok g' /\
    at_ (rev items ++ hist) g' (mid sc base (g_cmds g) (map (fun '(m, _, n) => mkField m (u16 n)) fs) None).
Proof.
  intros NE NS B G W S AN.
  assert (OPEN : forall d n, label_named d n -> group n = sc -> exists g1 p, opened sc base (g_cmds g) g1 /\ put_symbols g (symbols (Single base d)) = label_put g1 base n /\
    g_spec g1 = p /\ stands ANNOS3 (Single base d :: hist) p /\ announced (Single base d :: hist) = None).
  { intros d n L GR. pose proof (label_definition _ _ L) as D. destruct L as (T & GE & N).
    assert (GD : good (Single base d)) by (cbn; congruence).
    assert (WN : well_named (Single base d)) by (intros _; exists n; split; congruence).
    destruct (item_put hist g (Single base d) S GD WN) as (p & r & -> & E & S' & SP).
    inversion E as [|? ? ? X|? ? n' ? g1 X N' NE' O1 O2 O3 O4|? ? ? ? X]; subst; try congruence. rewrite T in *. rewrite AN in O4.
    replace n' with n in * by congruence. destruct O4 as (P1 & P2 & P3 & P4 & P5). exists g1, (g_spec g1). split; [constructor; auto; congruence|].
    split; [reflexivity|]. split; [reflexivity|]. split; [|now apply announced_definition].
    destruct (label_put g1 base n) as [g2|] eqn:LP.
    - rewrite <- (SP _ eq_refl) in S'. unfold label_put in LP. destruct (_ && _); [|congruence]. destruct (flush g1 base) as [g3|] eqn:F; [|discriminate]. injection LP as <-. cbn in S'.
      apply flush_keeps_spec in F. congruence.
    - exfalso. unfold label_put in LP. destruct (_ && _); [|discriminate]. rewrite <- P4 in LP. now rewrite flush_here in LP. }
  destruct B as [d m items fs LB NM L|d gap m s items fs LD Q LB NM L].
  - inversion G; inversion W; subst. destruct (OPEN d _ LB (group_app sc m NS)) as (g1 & p & O & E & SP & S1 & A1).
    destruct (opened_label sc base (g_cmds g) g1 m NS NM O) as (g2 & F & M). rewrite F in E.
    assert (S2 : stands ANNOS3 (Single base d :: hist) (g_spec g2)).
    { unfold label_put in F. destruct (_ && _); [|congruence]. destruct (flush g1 base) as [g3|] eqn:FL; [|discriminate]. injection F as <-. cbn. apply flush_keeps_spec in FL. congruence. }
    destruct (laid_run sc base (g_cmds g) NE NS m base items fs L [] (Single base d :: hist) g2) as (g3 & E3 & A3); auto. { split; [exact S2|]. auto. }
    exists g3. cbn [flat_map rev]. rewrite put_symbols_app, E, <- app_assoc. auto.
  - inversion G as [|? ? _ G']; inversion W as [|? ? _ W']; subst. apply Forall_app in G' as [G1 G2]. apply Forall_app in W' as [W1 W2]. inversion G2; inversion W2; subst.
    destruct (noslash_group sc NS) as [GR LO]. destruct (OPEN d _ LD GR) as (g1 & p & O & E & SP & S1 & A1).
    assert (F : label_put g1 base sc = Ok g1). { unfold label_put. rewrite LO, str_eqb_refl, andb_false_r. reflexivity. }
    rewrite F in E. destruct (opened_gap sc base (g_cmds g) gap (Single base d :: hist) g1 G1 W1 Q) as (g2 & E2 & S2 & A2 & O2). { split; [congruence|auto]. }
    assert (M : exists g3, put_symbols g2 (symbols (Single base s)) = Ok g3 /\ at_ (Single base s :: rev gap ++ Single base d :: hist) g3 (mid sc base (g_cmds g) [] (Some (m, base)))).
    { pose proof (label_definition _ _ LB) as D. destruct LB as (T & GE & N).
      destruct (item_put _ g2 (Single base s) S2 ltac:(assumption) ltac:(assumption)) as (p' & r & -> & E' & S' & SP').
      inversion E' as [|? ? ? X|? ? n' ? g4 X N' NE' O1' O2' O3' O4'|? ? ? ? X]; subst; try congruence. rewrite T in *. rewrite A2 in O4'.
      replace n' with (sc ++ bytes "/" ++ m) in * by congruence.
      assert (O5 : opened sc base (g_cmds g) g4) by (rewrite O4'; destruct O2; constructor; auto).
      destruct (opened_label sc base (g_cmds g) g4 m NS NM O5) as (g3 & F3 & M3). rewrite F3 in *. exists g3. split; [reflexivity|]. split; [rewrite (SP' _ eq_refl); exact S'|].
      split; [now apply announced_definition|exact M3]. }
    destruct M as (g3 & E3 & A3). destruct (laid_run sc base (g_cmds g) NE NS m base items fs L [] _ g3 ltac:(assumption) ltac:(assumption) A3) as (g4 & E4 & A4).
    exists g4. cbn [flat_map]. rewrite put_symbols_app, E, flat_map_app, put_symbols_app, E2. cbn [flat_map]. rewrite put_symbols_app, E3. split; [exact E4|].
    cbn [rev]. rewrite rev_app_distr. cbn [rev]. rewrite <- !app_assoc. exact A4.
Qed.

(** The struct stays as it is while no label of its group comes. *)
Definition kept (sc : str) (cs : list cstruct) (S : cstruct) (g : gen) : Prop :=
  exists more, g_cmds g = cs ++ S :: more /\ (more = [] -> g_name g = [] /\ (g_type g = TCommand -> g_scope g = sc)).
Definition elsewhere (sc : str) (it : item) : Prop :=
  match it with Single _ s => s_type s = SLabel -> group (name_of s) <> sc | Comment _ _ _ => True end.
Lemma add_field_more l : forall m f, m <> [] -> exists m', add_field (l ++ m) f = Ok (l ++ m') /\ m' <> [].
Proof.
  intros m f N. destruct (exists_last N) as (m1 & c & ->). rewrite app_assoc, add_field_last, <- app_assoc. eexists. split; [reflexivity|]. destruct m1; discriminate.
Qed.
Lemma kept_flush sc cs S g a : kept sc cs S g -> exists g', flush g a = Ok g' /\ kept sc cs S g'.
Proof.
  intros (more & C & M). unfold flush. destruct (negb (a =? g_last g) && negb (str_eqb (g_name g) [])) eqn:X; [|exists g; split; [reflexivity|now exists more]].
  destruct more as [|c more].
  - destruct M as [N _]; [reflexivity|]. rewrite N, str_eqb_refl, andb_false_r in X. discriminate.
  - rewrite C. change (cs ++ S :: c :: more) with (cs ++ [S] ++ (c :: more)). rewrite app_assoc. destruct (add_field_more (cs ++ [S]) (c :: more) (mkField (g_name g) (u16 (a - g_last g)))) as (m' & E & N'); [discriminate|].
    rewrite E. eexists. split; [reflexivity|]. exists m'. cbn. rewrite <- app_assoc. split; [reflexivity|]. congruence.
Qed.
Lemma kept_flush_all sc cs S l : forall g, kept sc cs S g -> exists g', flush_all g l = Ok g' /\ kept sc cs S g'.
Proof.
  induction l as [|a l IH]; intros g K; [exists g; auto|]. destruct (kept_flush sc cs S g a K) as (g1 & E & K1). cbn [flush_all]. rewrite E. auto.
Qed.
Lemma kept_spec sc cs S g p : kept sc cs S g -> kept sc cs S (with_spec g p).
Proof. intros (more & H). exists more. exact H. Qed.
Lemma kept_label sc cs S g a n : kept sc cs S g -> (g_scope g = sc -> group n <> sc) -> exists g', label_put g a n = Ok g' /\ kept sc cs S g'.
Proof.
  intros K N. unfold label_put. rewrite group_scope. destruct (str_eqb_spec (group n) (g_scope g)) as [E|]; cbn [andb]; [|exists g; auto].
  destruct (negb (str_eqb (local_of n) [])); [|exists g; auto]. destruct (kept_flush sc cs S g a K) as (g1 & F & (more & C & M)). rewrite F. eexists. split; [reflexivity|].
  exists more. cbn. split; [exact C|]. intros ->. destruct (M eq_refl) as [M1 M2]. apply flush_keeps in F as (_ & K2 & K3). rewrite K3 in *.
  destruct (g_type g) eqn:T; (split; [assumption|exact M2]) || (exfalso; apply N; [rewrite <- K2; auto|rewrite E; rewrite <- K2; auto]).
Qed.
Lemma kept_items sc cs S items : forall hist g, Forall good items -> Forall well_named items -> Forall (elsewhere sc) items -> stands ANNOS3 hist (g_spec g) -> kept sc cs S g ->
  exists g', put_symbols g (flat_map symbols items) = Ok g' /\ kept sc cs S g'.
Proof.
  induction items as [|it items IH]; intros hist g G W E ST K; [exists g; auto|]. inversion G as [|? ? G1 G2]; inversion W as [|? ? W1 W2]; inversion E as [|? ? E1 E2]; subst.
  destruct (item_put hist g it ST G1 W1) as (p & r & ER & EF & S' & SP).
  assert (X : exists g1, r = Ok g1 /\ kept sc cs S g1).
  { destruct EF as [b inner e q|a s q D NL|a s n q g1 D N NE O1 O2 O3 O4|a s n q D T N NE].
    - destruct (kept_flush_all sc cs S (map fst (symbols (Comment b inner e))) g K) as (g1 & F & K1). rewrite F. eexists. split; [reflexivity|now apply kept_spec].
    - apply kept_flush. now apply kept_spec.
    - assert (K1 : kept sc cs S g1).
      { destruct (announced hist) as [t|]; [|subst g1; now apply kept_spec]. destruct O4 as (P1 & P2 & P3 & P4 & P5). destruct K as (more & C & M). rewrite C in P5.
        destruct t; try (exists more; rewrite app_nil_r in P5; split; [exact P5|]; intros ->; destruct (M eq_refl); split; congruence).
        exists (more ++ [mkStruct (group n) []]). rewrite P5, <- app_assoc. cbn. split; [reflexivity|]. intros X. destruct more; discriminate. }
      destruct (s_type s) eqn:T; try now apply kept_flush. apply kept_label; auto. intros _. specialize (E1 T). unfold name_of in E1. now rewrite N in E1.
    - apply kept_label; [now apply kept_spec|]. intros _. specialize (E1 T). unfold name_of in E1. now rewrite N in E1. }
  destruct X as (g1 & -> & K1). cbn [flat_map]. rewrite put_symbols_app, ER. apply (IH (it :: hist)); auto. now rewrite (SP _ eq_refl).
Qed.

(** The constants of the members. *)
Lemma constants_app l1 : forall hist l2, constants hist (l1 ++ l2) = constants hist l1 ++ constants (rev l1 ++ hist) l2.
Proof.
  induction l1 as [|it l1 IH]; intros hist l2; [reflexivity|]. cbn [app constants rev]. rewrite IH, <- !app_assoc. reflexivity.
Qed.
Lemma section_quiet P it h : quiet P it -> section (it :: h) = section h.
Proof. destruct it as [a s|[a b] inner e]; cbn; [intros (-> & _)|]; auto. Qed.
Lemma section_quiets P l : forall h, Forall (quiet P) l -> section (rev l ++ h) = section h.
Proof. induction l as [|it l IH]; intros h F; [reflexivity|]. inversion F; subst. cbn [rev]. rewrite <- app_assoc, IH by auto. cbn [app]. eapply section_quiet; eauto. Qed.
Lemma announced_quiets P l : forall h, Forall (quiet P) l -> announced (rev l ++ h) = announced h.
Proof. induction l as [|it l IH]; intros h F; [reflexivity|]. inversion F; subst. cbn [rev]. rewrite <- app_assoc, IH by auto. cbn [app]. eapply announced_quiet; eauto. Qed.
Lemma after_self p m : after p (p ++ m) = Some m.
Proof. induction p as [|x p IH]; [reflexivity|]. cbn. now rewrite Z.eqb_refl. Qed.
Lemma member_constant sc base hist a s m : label_named s (sc ++ bytes "/" ++ m) -> m <> [] -> section (Single a s :: hist) = Some (TCommand, sc, base) ->
  constant_of hist (Single a s) = [(TCommand, sc ++ bytes "/" ++ m, m, a - base)].
Proof.
  intros (T & GE & N) NM S. unfold constant_of. rewrite T, S. unfold name_of. rewrite N. rewrite app_assoc, after_self. destruct m; [congruence|reflexivity].
Qed.
Lemma laid_constants sc base m a items fs : laid_out sc m a items fs -> forall hist x, announced hist = None -> section hist = Some (TCommand, sc, base) ->
  In x (tl fs) -> In (TCommand, sc ++ bytes "/" ++ fst (fst x), fst (fst x), snd (fst x) - base) (constants hist items).
Proof.
  intros L. induction L as [m a gap e Q X N|m a gap m' a' s items fs Q N NM LB L IH]; intros hist x AN S I; [contradiction|]. cbn [tl] in I.
  rewrite constants_app. cbn [constants]. apply in_or_app. right. pose proof (label_definition _ _ LB) as D.
  assert (S1 : section (Single a' s :: rev gap ++ hist) = Some (TCommand, sc, base)).
  { cbn [section]. rewrite D, (announced_quiets _ _ _ Q), AN, (section_quiets _ _ _ Q). exact S. }
  rewrite (member_constant sc base _ a' s m' LB NM S1). assert (H : fs = [] \/ exists n fs', fs = (m', a', n) :: fs') by (inversion L; subst; right; eauto).
  destruct H as [->|(n & fs' & ->)]; [contradiction|]. destruct I as [<-|I]; [left; reflexivity|right]. apply IH; auto. now apply announced_definition.
Qed.
Lemma block_constants sc base items fs hist x : ~ In 47 sc -> command_block sc base items fs -> announced hist = Some TCommand ->
  In x fs -> In (TCommand, sc ++ bytes "/" ++ fst (fst x), fst (fst x), snd (fst x) - base) (constants hist items).
Proof.
  intros NS B AN I.
  assert (OPEN : forall d n, label_named d n -> group n = sc -> section (Single base d :: hist) = Some (TCommand, sc, base)).
  { intros d n L GR. cbn [section]. rewrite (label_definition _ _ L), AN. destruct L as (_ & _ & N). unfold name_of. now rewrite N, GR. }
  destruct B as [d m items fs LB NM L|d gap m s items fs LD Q LB NM L].
  - cbn [constants]. pose proof (OPEN d _ LB (group_app sc m NS)) as S. rewrite (member_constant sc base hist base d m LB NM S).
    assert (H : exists n fs', fs = (m, base, n) :: fs') by (inversion L; subst; eauto). destruct H as (n & fs' & ->).
    destruct I as [<-|I]; [left; reflexivity|right]. apply (laid_constants sc base m base items _ L); auto. eapply announced_definition, label_definition; eauto.
  - destruct (noslash_group sc NS) as [GR _]. pose proof (OPEN d _ LD GR) as S. pose proof (announced_definition base d hist (label_definition _ _ LD)) as A1.
    cbn [constants]. apply in_or_app. right. rewrite constants_app. cbn [constants]. apply in_or_app. right.
    assert (S1 : section (Single base s :: rev gap ++ Single base d :: hist) = Some (TCommand, sc, base)).
    { cbn [section]. rewrite (label_definition _ _ LB), (announced_quiets _ _ _ Q), A1, (section_quiets _ _ _ Q). exact S. }
    rewrite (member_constant sc base _ base s m LB NM S1). assert (H : exists n fs', fs = (m, base, n) :: fs') by (inversion L; subst; eauto). destruct H as (n & fs' & ->).
    destruct I as [<-|I]; [left; reflexivity|right]. apply (laid_constants sc base m base items _ L); auto. eapply announced_definition, label_definition; eauto.
Qed.

(** A command block becomes a struct with one field per member, whose type is
    that of the distance to the next symbol, and a constant per member with the
    offset, whatever comes before and after it. *)
Theorem C79_struct evs pre block post sc base fs : symbols_are evs (pre ++ block ++ post) ->
  sc <> [] -> ~ In 47 sc -> announced (rev pre) = Some TCommand -> command_block sc base block fs -> Forall (elsewhere sc) post ->
  exists g, generate evs = Ok g /\
    In (mkStruct sc (map (fun '(m, _, n) => mkField m (u16 n)) fs)) (g_cmds g) /\
    forall m a n, In (m, a, n) fs -> In (TCommand, sc ++ bytes "/" ++ m, m, a - base) (printed (g_out g)).
Proof.
  intros SA NE NS AN B EL. destruct (C79_constants evs _ SA) as (g & GE & PR). exists g. split; [exact GE|]. split.
  - destruct SA as (E & G & W). apply Forall_app in G as [G1 G2]. apply Forall_app in G2 as [G2 G3]. apply Forall_app in W as [W1 W2]. apply Forall_app in W2 as [W2 W3].
    destruct (items_follow pre [] gen_start follows_start G1 W1) as (g1 & P1 & F1 & _). rewrite app_nil_r in F1.
    destruct (block_run sc base block fs (rev pre) g1 NE NS B G2 W2 (w_spec _ _ F1) AN) as (g2 & P2 & S2 & _ & M).
    destruct (kept_items sc (g_cmds g1) (mkStruct sc (map (fun '(m, _, n) => mkField m (u16 n)) fs)) post (rev block ++ rev pre) g2 G3 W3 EL S2) as (g3 & P3 & (more & K & _)).
    { exists []. split; [apply M|]. intros _. split; [apply (i_pend _ _ _ _ _ _ M)|]. intros _. apply M. }
    unfold generate in GE. rewrite E, !flat_map_app, put_symbols_app, P1, put_symbols_app, P2, P3 in GE. injection GE as <-.
    replace (g_cmds (finalize g3)) with (g_cmds g3) by (unfold finalize; destruct (g_scope g3); reflexivity). rewrite K. apply in_or_app. right. now left.
  - intros m a n I. rewrite PR, constants_app. apply in_or_app. right. rewrite constants_app. apply in_or_app. left. rewrite app_nil_r.
    exact (block_constants sc base block fs (rev pre) (m, a, n) NS B AN I).
Qed.
Print Assumptions C79_struct.

(** ** Reading and writing a command block *)
(** The addresses of a field at offset [off] and what a value looks like there. *)
Definition cells (addr : Z) (f : Z * bool) : list Z :=
  let '(off, w) := f in if w then [u16 (addr + off); u16 (addr + off + 1)] else [u16 (addr + off)].
Definition encoded (f : Z * bool) (v : Z) : list Z := if snd f then [v / 256; v mod 256] else [v].
Definition fits (f : Z * bool) (v : Z) : Prop := 0 <= v < if snd f then 65536 else 256.
Definition fields_of (base : Z) (fs : list (str * Z * Z)) : list (Z * bool) := map (fun '(m, a, n) => (a - base, wide (mkField m (u16 n)))) fs.

Fixpoint spread (from : Z) (fs : list (Z * bool)) : Prop :=
  match fs with [] => True | (off, w) :: fs' => let e := off + (if w then 2 else 1) in from <= off /\ e <= 65536 /\ spread e fs' end.
Lemma spread_mono fs : forall a b, a <= b -> spread b fs -> spread a fs.
Proof. destruct fs as [|[off w] fs]; cbn; intros; intuition lia. Qed.
Lemma spread_in fs : forall from off w, 0 <= from -> spread from fs -> In (off, w) fs -> from <= off /\ off + (if w then 2 else 1) <= 65536.
Proof.
  induction fs as [|[o v] fs IH]; intros from off w P S I; [contradiction|]. cbn in S. destruct S as (S1 & S2 & S3). destruct I as [[= -> ->]|I]; [auto|].
  destruct (IH (o + (if v then 2 else 1)) off w ltac:(destruct v; lia) S3 I). destruct v; lia.
Qed.
Lemma cells_range addr off w x : In x (cells addr (off, w)) -> exists i, x = u16 (addr + i) /\ off <= i < off + (if w then 2 else 1).
Proof.
  cbn. destruct w; cbn; intros H; repeat (destruct H as [<-|H]; [|]); try contradiction; [exists off|exists (off + 1)|exists off]; rewrite ?Z.add_assoc; split; auto; lia.
Qed.
Lemma u16_apart addr i j : 0 <= i < 65536 -> 0 <= j < 65536 -> u16 (addr + i) = u16 (addr + j) -> i = j.
Proof. unfold u16. intros. lia. Qed.
Lemma cells_apart addr fs from off w x : 0 <= off -> off + (if w : bool then 2 else 1) <= from -> spread from fs ->
  In x (cells addr (off, w)) -> ~ In x (flat_map (cells addr) fs).
Proof.
  intros P L S I J. apply in_flat_map in J as ([o v] & J1 & J2). destruct (spread_in fs from o v ltac:(destruct w; lia) S J1) as [A B].
  apply cells_range in I as (i & -> & I). apply cells_range in J2 as (j & E & J2).
  assert (0 <= i < 65536 /\ 0 <= j < 65536) as [? ?] by (destruct w, v; lia). apply u16_apart in E; auto. destruct w, v; lia.
Qed.
Lemma field_write_cells m addr f v x : fits f v -> field_write m addr f v x = m x \/ In x (cells addr f).
Proof.
  destruct f as [off w]. intros F. unfold field_write, cells, upd. destruct w; cbn.
  - destruct (Z.eqb_spec x (u16 (u16 (addr + off) + 1))) as [->|]; [right; right; left; unfold u16; lia|].
    destruct (Z.eqb_spec x (u16 (u16 (addr + off) + 0))) as [->|]; [right; left; unfold u16; lia|now left].
  - destruct (Z.eqb_spec x (u16 (addr + off))) as [->|]; auto.
Qed.
Lemma high_byte v : 0 <= v < 65536 -> Z.shiftr (Z.land v 65280) 8 = v / 256.
Proof.
  intros. rewrite Z.shiftr_land. change (Z.shiftr 65280 8) with (Z.ones 8). rewrite Z.land_ones, Z.shiftr_div_pow2 by lia. change (2 ^ 8) with 256. apply Z.mod_small. lia.
Qed.
Lemma low_byte v : Z.land v 255 = v mod 256.
Proof. change 255 with (Z.ones 8). now rewrite Z.land_ones by lia. Qed.
Lemma field_write_encoded m addr f v : fits f v -> map (field_write m addr f v) (cells addr f) = encoded f v.
Proof.
  destruct f as [off w]. unfold fits, encoded, cells, field_write, upd. cbn [snd]. destruct w; cbn [map]; intros F.
  - rewrite high_byte, low_byte by lia. replace (u16 (u16 (addr + off) + 0)) with (u16 (addr + off)) by (unfold u16; lia). replace (u16 (u16 (addr + off) + 1)) with (u16 (addr + off + 1)) by (unfold u16; lia).
    rewrite !Z.eqb_refl. destruct (Z.eqb_spec (u16 (addr + off)) (u16 (addr + off + 1))) as [E|]; [unfold u16 in E; lia|reflexivity].
  - rewrite Z.eqb_refl. unfold u8. rewrite Z.mod_small by lia. reflexivity.
Qed.
Lemma lor_join hi lo : 0 <= hi -> 0 <= lo < 256 -> Z.lor (Z.shiftl hi 8) lo = 256 * hi + lo.
Proof.
  intros. rewrite Z.lor_comm, (AsmWords.lor_disjoint lo hi 8) by lia. change (2 ^ 8) with 256. lia.
Qed.
Lemma field_read_encoded m addr f v : fits f v -> map m (cells addr f) = encoded f v -> field_read m addr f = v.
Proof.
  destruct f as [off w]. unfold fits, encoded, cells, field_read. cbn [snd]. destruct w; cbn [map]; intros F E.
  - replace (u16 (u16 (addr + off) + 0)) with (u16 (addr + off)) by (unfold u16; lia). replace (u16 (u16 (addr + off) + 1)) with (u16 (addr + off + 1)) by (unfold u16; lia).
    injection E as -> ->. rewrite lor_join by lia. lia.
  - congruence.
Qed.
Lemma struct_write_other addr fs : forall m vs x, Forall2 fits fs vs -> ~ In x (flat_map (cells addr) fs) -> struct_write m addr fs vs x = m x.
Proof.
  induction fs as [|f fs IH]; intros m vs x F N; inversion F; subst; [reflexivity|]. cbn [struct_write flat_map] in *. rewrite in_app_iff in N.
  rewrite IH by tauto. destruct (field_write_cells m addr f y x ltac:(assumption)); tauto.
Qed.
Lemma struct_write_encoded addr fs : forall from m vs, 0 <= from -> spread from fs -> Forall2 fits fs vs ->
  Forall2 (fun f v => map (struct_write m addr fs vs) (cells addr f) = encoded f v) fs vs.
Proof.
  induction fs as [|[off w] fs IH]; intros from m vs P S F; inversion F as [|? v ? vs' F1 F2]; subst; constructor.
  - destruct S as (S1 & S2 & S3). cbn [struct_write]. rewrite <- (field_write_encoded m addr (off, w) v F1). apply map_ext_in. intros x X.
    apply struct_write_other; auto. apply (cells_apart addr fs (off + (if w then 2 else 1)) off w x); auto; lia.
  - destruct S as (S1 & S2 & S3). cbn [struct_write]. eapply IH; [|exact S3|exact F2]. destruct w; lia.
Qed.
Lemma laid_spread sc base m a items fs : laid_out sc m a items fs -> base <= a -> Forall (fun '(_, a, n) => 0 < n /\ a + n <= base + 65536) fs ->
  spread (a - base) (fields_of base fs).
Proof.
  intros L. induction L as [m a gap e Q X N|m a gap m' a' s items fs Q N NM LB L IH]; intros B F; inversion F as [|? ? F12 F3]; subst; cbv beta iota in F12; destruct F12 as [F1 F2]; cbn [fields_of map spread].
  - unfold wide. cbn [d_size]. destruct (Z.eqb_spec (u16 (e - a)) 1) as [U|U]; cbn [negb]; repeat split; unfold u16 in U; lia.
  - fold (fields_of base fs). specialize (IH ltac:(lia) F3). assert (H : spread (a' - base) (fields_of base fs)) by exact IH.
    unfold wide. cbn [d_size]. destruct (Z.eqb_spec (u16 (a' - a)) 1) as [U|U]; cbn [negb]; (split; [lia|]); (split; [unfold u16 in U; lia|]); (eapply spread_mono; [|exact H]); unfold u16 in U; lia.
Qed.

(** The functions written for such a block: write puts each value at the address
    of its member, the high byte first, and changes nothing else; read gives the
    values back.  The members follow each other within 64 KiB. *)
Theorem C79_roundtrip sc base block fs mem addr vs : command_block sc base block fs ->
  Forall (fun '(_, a, n) => 0 < n /\ a + n <= base + 65536) fs -> Forall2 fits (fields_of base fs) vs ->
  let written := struct_write mem addr (fields_of base fs) vs in
  struct_read written addr (fields_of base fs) = vs /\
  Forall2 (fun f v => map written (cells addr f) = encoded f v) (fields_of base fs) vs /\
  forall x, ~ In x (flat_map (cells addr) (fields_of base fs)) -> written x = mem x.
Proof.
  intros B F V written. assert (L : exists m items, laid_out sc m base items fs) by (destruct B; eauto). destruct L as (m & items & L).
  pose proof (laid_spread sc base m base items fs L ltac:(lia) F) as S. rewrite Z.sub_diag in S.
  pose proof (struct_write_encoded addr (fields_of base fs) 0 mem vs ltac:(lia) S V) as W. fold written in W. split; [|split; [exact W|]].
  - clearbody written. unfold struct_read. clear - V W. induction V as [|f v fs' vs FV V IH]; [reflexivity|]. inversion W; subst. cbn [map]. f_equal; [now apply field_read_encoded|auto].
  - intros x X. now apply struct_write_other.
Qed.
Print Assumptions C79_roundtrip.

(** ** Where it goes wrong *)
(** The layout that the header gives to a struct: offset and width of each field. *)
Definition layout (g : gen) (c : cstruct) : list (Z * bool) :=
  map (fun f => (match find (fun x => str_eqb (snd (fst (fst x))) (c_name c ++ bytes "/" ++ d_name f)) (printed (g_out g)) with Some x => snd x | None => 0 end, wide f)) (c_fields c).
(** A macro between two members: its symbol has address 0, and the byte before it
    becomes a short that reaches into the next member. *)
Definition with_macro : str := bytes "%m { } |100 (command ) @draw/x $1 m &y $1 &z $1 ( end )".
Theorem C79_macro_refuted : ~ forall fs inp evs g c mem addr vs, assembles fs inp true evs -> generate evs = Ok g -> In c (g_cmds g) ->
  Forall2 fits (layout g c) vs -> struct_read (struct_write mem addr (layout g c) vs) addr (layout g c) = vs.
Proof.
  intros H. assert (A : assembles (Props_Asm.one with_macro) (bytes "a") true (evs_of with_macro)) by assembled.
  let v := eval vm_compute in (generate (evs_of with_macro)) in set (res := v).
  assert (M : generate (evs_of with_macro) = res) by (vm_compute; reflexivity). subst res.
  pose proof (fun c vs => H _ _ _ _ c (fun _ => 0) 0 vs A M) as X. clear H A M.
  match type of X with forall c vs, In c (g_cmds ?g) -> _ => specialize (X (hd (mkStruct [] []) (g_cmds g)) [258; 5; 0]) end.
  assert (Y : [261; 5; 0] = [258; 5; 0]).
  { apply X. - vm_compute. auto. - vm_compute. repeat constructor; intros; discriminate. }
  discriminate.
Qed.
Print Assumptions C79_macro_refuted.
(** Two bytes that are given as one number have a symbol each: the member becomes
    an uint8_t although the next one is two bytes on. *)
Definition with_short : str := bytes "|100 (command ) @draw &len 0102 &y 03 &z 04 BRK".
Theorem C79_short_refuted : ~ forall fs inp evs g c i off off' w w', assembles fs inp true evs -> generate evs = Ok g -> In c (g_cmds g) ->
  nth_error (layout g c) i = Some (off, w) -> nth_error (layout g c) (S i) = Some (off', w') -> off' = off + 2 -> w = true.
Proof.
  intros H. assert (A : assembles (Props_Asm.one with_short) (bytes "a") true (evs_of with_short)) by assembled.
  let v := eval vm_compute in (generate (evs_of with_short)) in set (res := v).
  assert (M : generate (evs_of with_short) = res) by (vm_compute; reflexivity). subst res.
  pose proof (fun c => H _ _ _ _ c 0%nat 0 2 false false A M) as X. clear H A M.
  match type of X with forall c, In c (g_cmds ?g) -> _ => specialize (X (hd (mkStruct [] []) (g_cmds g))) end.
  assert (Y : false = true).
  { apply X; vm_compute; auto. }
  discriminate.
Qed.
Print Assumptions C79_short_refuted.
(** The last member of a program is not in the struct. *)
Definition at_the_end : str := bytes "|100 (command ) @draw &x $1 &y $1".
Theorem C79_last_member_refuted : ~ forall fs inp evs g c, assembles fs inp true evs -> generate evs = Ok g -> In c (g_cmds g) ->
  forall n m v, In (TCommand, n, m, v) (printed (g_out g)) -> n = c_name c ++ bytes "/" ++ m -> exists f, In f (c_fields c) /\ d_name f = m.
Proof.
  intros H. assert (A : assembles (Props_Asm.one at_the_end) (bytes "a") true (evs_of at_the_end)) by assembled.
  let v := eval vm_compute in (generate (evs_of at_the_end)) in set (res := v).
  assert (M : generate (evs_of at_the_end) = res) by (vm_compute; reflexivity). subst res.
  pose proof (fun c => H _ _ _ _ c A M) as X. clear H A M.
  match type of X with forall c, In c (g_cmds ?g) -> _ => specialize (X (hd (mkStruct [] []) (g_cmds g))) end.
  destruct (X ltac:(vm_compute; auto) (bytes "draw/y") (bytes "y") 1) as (f & F & N); [vm_compute; auto|vm_compute; reflexivity|].
  vm_compute in F. destruct F as [<-|[]]. discriminate.
Qed.
Print Assumptions C79_last_member_refuted.

(** ** A case *)
Definition drawing : str := bytes "|100 (command ) @draw &x $2 &y $1 &color $1 ( end )".
Definition block_items : list item :=
  match symbols_of (evs_of drawing) with
  | c1 :: c2 :: (a1, s1) :: (a2, s2) :: (a3, s3) :: (a4, s4) :: b :: i :: e :: _ => [Comment c1 [] c2; Single a1 s1; Single a2 s2; Single a3 s3; Single a4 s4; Comment b [i] e]
  | _ => []
  end.
Example C79_case : assembles (Props_Asm.one drawing) (bytes "a") true (evs_of drawing) /\ symbols_are (evs_of drawing) block_items /\
  announced (rev (firstn 1 block_items)) = Some TCommand /\
  command_block (bytes "draw") 256 (skipn 1 block_items) [(bytes "x", 256, 2); (bytes "y", 258, 1); (bytes "color", 259, 1)] /\
  exists g, generate (evs_of drawing) = Ok g /\
    g_cmds g = [mkStruct (bytes "draw") [mkField (bytes "x") 2; mkField (bytes "y") 1; mkField (bytes "color") 1]] /\
    flat_map (piece_text default_styles) (g_out g) =
      [10] ++ bytes "enum {" ++ [10; 9] ++ bytes "/// draw/x" ++ [10; 9] ++ bytes "CMD_DRAW_X = 0," ++ [10; 9] ++ bytes "/// draw/y" ++ [10; 9] ++ bytes "CMD_DRAW_Y = 2," ++
      [10; 9] ++ bytes "/// draw/color" ++ [10; 9] ++ bytes "CMD_DRAW_COLOR = 3," ++ [10] ++ bytes "};" ++ [10].
Proof.
  split; [assembled|]. split; [|split; [vm_compute; reflexivity|split]].
  - split; [vm_compute; reflexivity|]. let v := eval vm_compute in block_items in replace block_items with v by (vm_compute; reflexivity). split.
    + repeat (apply Forall_cons; [first [ discriminate
        | split; [split; [reflexivity|split; [reflexivity|eexists; split; [reflexivity|discriminate]]]|split; [repeat split|]];
          repeat (apply Forall_cons; [split; [reflexivity|split; [discriminate|split; [intros [? ?]; discriminate|eexists; split; [reflexivity|discriminate]]]]|]); apply Forall_nil]|]).
      apply Forall_nil.
    + repeat constructor; intros _; eexists; (split; [reflexivity|discriminate]).
  - let v := eval vm_compute in block_items in replace block_items with v by (vm_compute; reflexivity). cbn [skipn].
    apply (block_headed _ _ _ [] (bytes "x")); [repeat split|constructor|repeat split|discriminate|].
    apply (laid_next _ _ 256 [] (bytes "y") 258); [constructor|lia|discriminate|repeat split|].
    apply (laid_next _ _ 258 [] (bytes "color") 259); [constructor|lia|discriminate|repeat split|].
    apply (laid_last _ _ 259 _ 260); [|constructor; vm_compute; auto|lia].
    repeat (apply Forall_cons; [split; [reflexivity|repeat (apply Forall_cons; [now right|]); apply Forall_nil]|]). apply Forall_nil.
  - eexists. split; [vm_compute; reflexivity|]. split; vm_compute; reflexivity.
Qed.
