(** The symbols of labels, macros and references to labels fit together, for
    every run: names are defined once, and a reference has the id of its label. *)
From Verif Require Import Base AsmModel AsmSound AsmScan AsmRun.
From Coq Require Import ZifyBool Ascii String.
Open Scope list_scope.
Ltac Zify.zify_post_hook ::= Z.div_mod_to_equations.

Definition syms_of (e : event) : list (Z * symbol) :=
  match e with
  | ESym a s => match s_type s with SMacro | SLabel | SLabelRef => [(a, s)] | _ => [] end
  | _ => []
  end.
Definition syms (out : list event) : list (Z * symbol) := flat_map syms_of out.
Definition def_name (x : Z * symbol) : list str :=
  match s_type (snd x), s_gen (snd x), s_name (snd x) with
  | SMacro, _, Some n | SLabel, false, Some n => [n]
  | _, _, _ => []
  end.
Definition defs (sy : list (Z * symbol)) : list str := flat_map def_name sy.

Definition gen_label (sy : list (Z * symbol)) (id : Z) : Prop :=
  exists a s, In (a, s) sy /\ s_type s = SLabel /\ s_gen s = true /\ s_id s = id.
Definition known (sy : list (Z * symbol)) (tab : list (str * node)) (lams : list fref) (x : Z * symbol) : Prop :=
  let s := snd x in
  match s_type s with
  | SMacro => exists n v toks ex, s_name s = Some n /\ lookup n tab = Some v /\ n_entry v = EnMacro (s_id s) toks ex
  | SLabel => s_gen s = false -> exists n v, s_name s = Some n /\ lookup n tab = Some v /\ n_entry v = EnLabel (s_id s) (fst x)
  | SLabelRef =>
      match s_name s with
      | Some n => exists v, lookup n tab = Some v /\
                    ((exists a, n_entry v = EnLabel (s_id s) a) \/ exists r refs, n_entry v = EnForward (s_id s) (r :: refs))
      | None => gen_label sy (s_id s) \/ exists r, In r lams /\ f_label r = s_id s
      end
  | _ => True
  end.
Record strong (sy : list (Z * symbol)) (tab : list (str * node)) (lams ats : list fref) : Prop := mkStrong {
  s_nodup : NoDup (defs sy);
  s_known : forall x, In x sy -> known sy tab lams x;
  s_defd : forall n v id a, lookup n tab = Some v -> n_entry v = EnLabel id a ->
             exists s, In (a, s) sy /\ s_type s = SLabel /\ s_gen s = false /\ s_id s = id /\ s_name s = Some n;
  s_ats : forall r, In r ats -> gen_label sy (f_label r);
  s_macd : forall n v id toks ex, lookup n tab = Some v -> n_entry v = EnMacro id toks ex ->
             exists a s, In (a, s) sy /\ s_type s = SMacro /\ s_id s = id /\ s_name s = Some n
}.

Definition view (b : basm) := (syms (b_out b), b_symtab b, b_lambdas b, b_ats b).
Definition Strong (b : basm) : Prop := strong (syms (b_out b)) (b_symtab b) (b_lambdas b) (b_ats b).
Definition Weak (b : basm) : Prop := NoDup (defs (syms (b_out b))).
Lemma strong_weak b : Strong b -> Weak b.
Proof. apply s_nodup. Qed.
Lemma strong_view b b' : view b' = view b -> Strong b -> Strong b'.
Proof. unfold view, Strong. intros [= -> -> -> ->]. auto. Qed.
Lemma weak_view b b' : view b' = view b -> Weak b -> Weak b'.
Proof. unfold view, Weak. intros [= -> _ _ _]. auto. Qed.

Definition quiet_ev (e : event) : Prop := syms_of e = [].
Lemma view_log b e : quiet_ev e -> view (log b e) = view b.
Proof. intros H. unfold view. cbn. rewrite H. reflexivity. Qed.
Lemma view_error b m r : view (error_ex b m r) = view b.
Proof. reflexivity. Qed.

(** ** Reading *)
Lemma view_peek b path inp : view (snd (fst (peek_char b path inp))) = view b.
Proof. unfold peek_char. destruct (b_buf b); [reflexivity|]. destruct inp; [reflexivity|]. destruct (_ =? IO_ERROR); reflexivity. Qed.
Lemma view_get b path inp p : view (snd (fst (fst (get_char b path inp p)))) = view b.
Proof.
  unfold get_char. pose proof (view_peek b path inp) as P. destruct (peek_char b path inp) as [[ch b1] inp1]. cbn [fst snd] in P.
  cbn zeta. destruct (_ || _); [exact P|]. destruct (_ =? 10); [exact P|]. destruct (_ =? 13); [|exact P].
  pose proof (view_peek (consume_char b1) path inp1) as P2. destruct (peek_char (consume_char b1) path inp1) as [[c2 b2] inp2].
  cbn [fst snd] in *. rewrite <- P. change (view b1) with (view (consume_char b1)). rewrite <- P2. destruct (_ =? 10); reflexivity.
Qed.
Lemma view_regular fuel : forall b path inp p start fin ch buf, view (snd (fst (scan_regular fuel b path inp p start fin ch buf))) = view b.
Proof.
  induction fuel as [|fuel IH]; intros; cbn [scan_regular]; [reflexivity|]. destruct (_ <? _); [|reflexivity].
  pose proof (view_get b path inp p) as G. destruct (get_char b path inp p) as [[[c b1] inp1] p1]. cbn [fst snd] in G.
  destruct (_ =? IO_ERROR); [exact G|]. destruct (_ || _); [exact G|]. now rewrite IH.
Qed.
Lemma view_long fuel : forall b path inp p start buf, view (snd (fst (scan_long_loop fuel b path inp p start buf))) = view b.
Proof.
  induction fuel as [|fuel IH]; intros; cbn [scan_long_loop]; [reflexivity|].
  pose proof (view_get b path inp p) as G. destruct (get_char b path inp p) as [[[c b1] inp1] p1]. cbn [fst snd] in G.
  destruct (_ =? IO_ERROR); [exact G|]. destruct (_ =? IO_EOF); [exact G|]. destruct (_ =? 34); [exact G|].
  destruct (_ <? _); [now rewrite IH|exact G].
Qed.
Lemma view_file fuel : forall b path inp p, view (snd (fst (next_in_file fuel b path inp p))) = view b.
Proof.
  induction fuel as [|fuel IH]; intros; cbn [next_in_file]; [reflexivity|].
  pose proof (view_get b path inp p) as G. destruct (get_char b path inp p) as [[[c b1] inp1] p1]. cbn [fst snd] in G.
  destruct (_ || _); [exact G|]. destruct (is_sep c); [now rewrite IH|]. destruct (_ =? 34).
  - pose proof (view_peek b1 path inp1) as P. destruct (peek_char b1 path inp1) as [[c2 b2] inp2]. cbn [fst snd] in P.
    destruct (_ =? 32); [|now rewrite view_regular, P]. unfold scan_long_string.
    pose proof (view_get b2 path inp2 p1) as G2. destruct (get_char b2 path inp2 p1) as [[[c3 b3] inp3] p3]. cbn [fst snd] in G2.
    now rewrite view_long, G2, P.
  - now rewrite view_regular.
Qed.
Lemma view_next b u : view (snd (fst (next_token b u))) = view b.
Proof.
  destruct u as [path inp p|rest arg]; cbn [next_token]; [apply view_file|]. unfold next_in_macro.
  destruct rest; [reflexivity|]. destruct arg; [|reflexivity]. destruct (expand _ _ _ _) as [[buf ex]|]; [|reflexivity].
  destruct (_ <? _); reflexivity.
Qed.

(** ** The table *)
Lemma lookup_update_same n v l w : lookup n l = Some w -> lookup n (update n v l) = Some v.
Proof.
  induction l as [|[k x] l IH]; [discriminate|]. cbn. destruct (str_dec k n) as [->|N]; cbn.
  - intros _. destruct (str_dec n n); congruence.
  - intros E. destruct (str_dec k n); [congruence|auto].
Qed.
Lemma lookup_update_other n m v l : m <> n -> lookup m (update n v l) = lookup m l.
Proof.
  intros D. induction l as [|[k x] l IH]; [reflexivity|]. cbn. destruct (str_dec k n) as [->|N]; cbn.
  - destruct (str_dec n m); congruence.
  - destruct (str_dec k m); auto.
Qed.
Lemma lookup_update_none n v l : lookup n l = None -> update n v l = l.
Proof.
  induction l as [|[k x] l IH]; [reflexivity|]. cbn. destruct (str_dec k n); [discriminate|]. intros E. now rewrite IH.
Qed.
Lemma lookup_app m n v l : lookup m (l ++ [(n, v)]) = match lookup m l with Some w => Some w | None => if str_dec n m then Some v else None end.
Proof. induction l as [|[k x] l IH]; [reflexivity|]. cbn. destruct (str_dec k m); auto. Qed.

(** The entry changes in a way that nothing else notices. *)
Definition same_def (e e' : entry) : Prop :=
  match e, e' with
  | EnMacro i _ _, EnMacro j _ _ => i = j
  | EnLabel i a, EnLabel j a' => i = j /\ a = a'
  | EnForward i refs, EnForward j refs' => i = j /\ (refs <> [] -> refs' <> [])
  | EnUnknown, EnForward _ _ => True
  | EnUnknown, EnUnknown => True
  | _, _ => False
  end.
Lemma strong_node sy tab lams ats n v w : lookup n tab = Some w -> same_def (n_entry w) (n_entry v) -> strong sy tab lams ats ->
  strong sy (update n v tab) lams ats.
Proof.
  intros L S [ND K D A M]. constructor; auto.
  - intros [a s] I. specialize (K _ I). unfold known in *. cbn [fst snd] in *.
    assert (U : forall m x, lookup m tab = Some x -> exists y, lookup m (update n v tab) = Some y /\ (y = x \/ (x = w /\ y = v))).
    { intros m x E. destruct (str_dec m n) as [->|N].
      - exists v. split; [eapply lookup_update_same; eauto|]. right. split; congruence.
      - exists x. split; [rewrite lookup_update_other; auto|]. auto. }
    destruct (s_type s); auto.
    + destruct K as (m & x & toks & ex & E1 & E2 & E3). destruct (U _ _ E2) as (y & E4 & [->|[-> ->]]); [eauto 7|].
      rewrite E3 in S. destruct (n_entry v) eqn:V; try contradiction. cbn in S. subst. eauto 7.
    + intros G. destruct (K G) as (m & x & E1 & E2 & E3). destruct (U _ _ E2) as (y & E4 & [->|[-> ->]]); [eauto 7|].
      rewrite E3 in S. destruct (n_entry v) eqn:V; try contradiction. cbn in S. destruct S; subst. eauto 7.
    + destruct (s_name s) as [m|]; [|auto]. destruct K as (x & E2 & E3). destruct (U _ _ E2) as (y & E4 & [->|[-> ->]]); [eauto|].
      exists v. split; auto. destruct E3 as [[a' E3]|(r & refs & E3)]; rewrite E3 in S; destruct (n_entry v) eqn:V; try contradiction; cbn in S; destruct S; subst.
      * eauto.
      * right. destruct refs0; [exfalso; apply H0; [discriminate|reflexivity]|eauto].
  - intros m x id a E1 E2. destruct (str_dec m n) as [->|N].
    + rewrite (lookup_update_same _ _ _ _ L) in E1. injection E1 as <-. rewrite E2 in S. destruct (n_entry w) eqn:W; try contradiction.
      destruct S; subst. eauto.
    + rewrite lookup_update_other in E1 by auto. eauto.
  - intros m x id toks ex E1 E2. destruct (str_dec m n) as [->|N].
    + rewrite (lookup_update_same _ _ _ _ L) in E1. injection E1 as <-. rewrite E2 in S. destruct (n_entry w) eqn:W; try contradiction.
      cbn in S. subst. eauto.
    + rewrite lookup_update_other in E1 by auto. eauto.
Qed.

Lemma not_defined sy tab lams ats n v : strong sy tab lams ats -> lookup n tab = Some v ->
  match n_entry v with EnUnknown | EnForward _ _ => True | _ => False end -> ~ In n (defs sy).
Proof.
  intros S L E I. unfold defs in I. rewrite in_flat_map in I. destruct I as ([a s] & I & X).
  pose proof (s_known _ _ _ _ S _ I) as K. unfold known, def_name in *. cbn [fst snd] in *.
  destruct (s_type s) eqn:T; try contradiction.
  - destruct (s_name s) eqn:N; [|contradiction]. destruct X as [<-|[]]. destruct K as (m & x & toks & ex & E1 & E2 & E3).
    injection E1 as <-. rewrite L in E2. injection E2 as <-. rewrite E3 in E. exact E.
  - destruct (s_gen s); [contradiction|]. destruct (s_name s) eqn:N; [|contradiction]. destruct X as [<-|[]].
    destruct (K eq_refl) as (m & x & E1 & E2 & E3). injection E1 as <-. rewrite L in E2. injection E2 as <-. rewrite E3 in E. exact E.
Qed.

Lemma gen_more sy l id : gen_label sy id -> gen_label (l ++ sy) id.
Proof. intros (a & s & I & R). exists a, s. split; auto. apply in_or_app. auto. Qed.
Lemma known_more sy l tab lams x : known sy tab lams x -> known (l ++ sy) tab lams x.
Proof.
  unfold known. destruct (s_type (snd x)); auto. destruct (s_name (snd x)); auto. intros [G|R]; auto. left. now apply gen_more.
Qed.
Lemma known_lams sy tab lams lams' x : incl lams lams' -> known sy tab lams x -> known sy tab lams' x.
Proof.
  intros C. unfold known. destruct (s_type (snd x)); auto. destruct (s_name (snd x)); auto. intros [G|(r & I & E)]; eauto.
Qed.

(** Symbols that refer to something known. *)
Lemma strong_refs sy tab lams ats l s : (forall x, In x l -> snd x = s) -> s_type s = SLabelRef ->
  (l <> [] -> known sy tab lams (0, s)) -> strong sy tab lams ats -> strong (l ++ sy) tab lams ats.
Proof.
  intros F T K [ND KN D A M].
  assert (DD : defs (l ++ sy) = defs sy).
  { unfold defs. rewrite flat_map_app. replace (flat_map def_name l) with (@nil str); [reflexivity|]. symmetry.
    clear K. induction l as [|x l IH]; auto. cbn. rewrite IH by (intros; apply F; now right). unfold def_name. rewrite (F x) by now left. now rewrite T. }
  constructor.
  - now rewrite DD.
  - intros x I. apply in_app_or in I as [I|I]; [|now apply known_more, KN].
    apply known_more. assert (l <> []) by (intros ->; contradiction). specialize (K H). unfold known in *. rewrite (F x I). cbn [snd] in K.
    rewrite T in *. exact K.
  - intros n v id a E1 E2. destruct (D _ _ _ _ E1 E2) as (y & I & R). exists y. split; auto. apply in_or_app. auto.
  - intros r I. apply gen_more. auto.
  - intros n v id toks ex E1 E2. destruct (M _ _ _ _ _ E1 E2) as (b & y & I & R). exists b, y. split; auto. apply in_or_app. auto.
Qed.

(** A label or a macro is defined. *)
Lemma strong_def sy tab lams ats n v w a s : lookup n tab = Some w ->
  match n_entry w with EnUnknown => True | EnForward i _ => s_type s = SLabel /\ i = s_id s | _ => False end ->
  (s_type s = SLabel /\ s_gen s = false /\ n_entry v = EnLabel (s_id s) a \/ s_type s = SMacro /\ exists toks, n_entry v = EnMacro (s_id s) toks false) ->
  s_name s = Some n ->
  strong sy tab lams ats -> strong ((a, s) :: sy) (update n v tab) lams ats.
Proof.
  intros L E V N S. assert (ND : ~ In n (defs sy)).
  { eapply not_defined; eauto. destruct (n_entry w); auto. }
  pose proof S as S0. destruct S as [S1 S2 S3 S4 S5].
  assert (U : forall m x, lookup m tab = Some x -> m <> n -> lookup m (update n v tab) = Some x) by (intros; now rewrite lookup_update_other).
  pose proof (lookup_update_same n v tab w L) as LN.
  constructor.
  - unfold defs. cbn [flat_map]. unfold def_name at 1. cbn [snd]. destruct V as [(T & G & V)|(T & toks & V)]; rewrite T, ?G, N; cbn; constructor; auto.
  - intros [b s'] [X|X].
    + injection X as <- <-. unfold known. cbn [fst snd]. destruct V as [(T & G & V)|(T & toks & V)]; rewrite T; [intros _|]; eauto 8.
    + apply (known_more _ [(a, s)]). specialize (S2 _ X). unfold known in *. cbn [fst snd] in *. destruct (s_type s') eqn:T'; auto.
      * destruct S2 as (m & x & toks & ex & E1 & E2 & E3). destruct (str_dec m n) as [->|D]; [rewrite L in E2; injection E2 as <-; rewrite E3 in E; contradiction|eauto 8].
      * intros G'. destruct (S2 G') as (m & x & E1 & E2 & E3). destruct (str_dec m n) as [->|D]; [rewrite L in E2; injection E2 as <-; rewrite E3 in E; contradiction|eauto 8].
      * destruct (s_name s') as [m|]; auto. destruct S2 as (x & E2 & E3). destruct (str_dec m n) as [->|D]; [|eauto].
        exists v. split; auto. left. exists a. rewrite L in E2. injection E2 as <-.
        destruct E3 as [[a' E3]|(r & refs & E3)]; rewrite E3 in E; [contradiction|]. destruct E as [T ->].
        destruct V as [(_ & _ & V)|(T2 & _)]; [exact V|congruence].
  - intros m x id' a' E1 E2. destruct (str_dec m n) as [->|D].
    + rewrite LN in E1. injection E1 as <-. destruct V as [(T & G & V)|(T & toks & V)]; rewrite V in E2; [|discriminate].
      injection E2 as <- <-. exists s. split; [now left|auto].
    + rewrite lookup_update_other in E1 by auto. destruct (S3 _ _ _ _ E1 E2) as (y & Y & R). exists y. split; [now right|auto].
  - intros r R. apply (gen_more _ [(a, s)]). auto.
  - intros m x id' toks' ex E1 E2. destruct (str_dec m n) as [->|D].
    + rewrite LN in E1. injection E1 as <-. destruct V as [(T & G & V)|(T & toks & V)]; rewrite V in E2; [discriminate|].
      injection E2 as <- <- <-. exists a, s. split; [now left|auto].
    + rewrite lookup_update_other in E1 by auto. destruct (S5 _ _ _ _ _ E1 E2) as (b & y & Y & R). exists b, y. split; [now right|auto].
Qed.
(** A generated label. *)
Lemma strong_generated sy tab lams ats a s : s_type s = SLabel -> s_gen s = true -> strong sy tab lams ats ->
  strong ((a, s) :: sy) tab lams ats /\ gen_label ((a, s) :: sy) (s_id s).
Proof.
  intros T G [S1 S2 S3 S4 S5]. split.
  - constructor.
    + unfold defs. cbn [flat_map]. unfold def_name at 1. cbn [snd]. rewrite T, G. exact S1.
    + intros x [<-|X]; [unfold known; cbn [snd]; rewrite T, G; discriminate|apply (known_more _ [(a, s)]); auto].
    + intros n v id b E1 E2. destruct (S3 _ _ _ _ E1 E2) as (y & Y & R). exists y. split; [now right|auto].
    + intros r R. apply (gen_more _ [(a, s)]). auto.
    + intros n v id toks ex E1 E2. destruct (S5 _ _ _ _ _ E1 E2) as (b & y & Y & R). exists b, y. split; [now right|auto].
  - exists a, s. split; [now left|auto].
Qed.

(** ** Code *)
Definition P (r : ret) : Prop := Weak (snd r) /\ (fst r = true -> Strong (snd r)).
Definition P3 (r : bool * basm * unit_) : Prop := Weak (snd (fst r)) /\ (fst (fst r) = true -> Strong (snd (fst r))).
Lemma P_strong r : Strong (snd r) -> P r.
Proof. split; auto using strong_weak. Qed.
Lemma P_andthen r g : P r -> (forall b, r = (true, b) -> Strong b -> P (g b)) -> P (andthen r g).
Proof. unfold andthen. destruct r as [[|] b]; intros [A B] H; [apply H; auto|split; [exact A|discriminate]]. Qed.
Lemma P_view b r : view (snd r) = view b -> Strong b -> P r.
Proof. intros V S. apply P_strong. eapply strong_view; eauto. Qed.
Lemma view_andthen b r g : view (snd r) = view b -> (forall b', view b' = view b -> view (snd (g b')) = view b) -> view (snd (andthen r g)) = view b.
Proof. unfold andthen. destruct r as [[|] b']; cbn [snd]; auto. Qed.

Lemma view_emit b t v : view (snd (emit b t v)) = view b.
Proof. unfold emit. destruct (_ <? _); reflexivity. Qed.
Lemma view_emit2 b t v : view (snd (emit2 b t v)) = view b.
Proof. unfold emit2. apply view_andthen; [apply view_emit|]. intros. now rewrite view_emit. Qed.
Lemma view_symbol b a s : match s_type s with SMacro | SLabel | SLabelRef => False | _ => True end -> view (put_symbol b a s) = view b.
Proof. intros H. apply view_log. unfold quiet_ev, syms_of. destruct (s_type s); auto; contradiction. Qed.
Lemma view_opcode b t op r : view (snd (emit_opcode b t op r)) = view b.
Proof. unfold emit_opcode. apply view_andthen; [apply view_emit|]. intros. cbn [snd]. rewrite view_symbol; [auto|exact Logic.I]. Qed.
Lemma view_byte b t v r : view (snd (emit_byte b t v r)) = view b.
Proof. unfold emit_byte. apply view_andthen; [apply view_emit|]. intros. cbn [snd]. rewrite view_symbol; [auto|exact Logic.I]. Qed.
Lemma view_short b t v r : view (snd (emit_short b t v r)) = view b.
Proof. unfold emit_short. apply view_andthen; [apply view_emit2|]. intros. cbn [snd]. unfold put_symbol2. now rewrite !view_symbol. Qed.
Lemma view_calc b t ty from to : view (snd (calculate_addr b t ty from to)) = view b.
Proof. destruct ty; cbn; auto. destruct (_ <? _); reflexivity. Qed.

(** Only symbols [s] are added. *)
Definition grown (s : symbol) (b b' : basm) : Prop :=
  exists l, (forall x, In x l -> snd x = s) /\ syms (b_out b') = l ++ syms (b_out b) /\
    b_symtab b' = b_symtab b /\ b_lambdas b' = b_lambdas b /\ b_ats b' = b_ats b.
Lemma grown_view s b b' : view b' = view b -> grown s b b'.
Proof. unfold view. intros [= A B C D]. exists []. split; [intros x []|]. auto. Qed.
Lemma grown_trans s a b c : grown s a b -> grown s b c -> grown s a c.
Proof.
  intros (l & F & A1 & A2 & A3 & A4) (l' & F' & B1 & B2 & B3 & B4). exists (l' ++ l).
  split; [intros x X; apply in_app_or in X as [X|X]; auto|]. rewrite B1, A1, app_assoc. repeat split; congruence.
Qed.
Lemma grown_symbol s b a : s_type s = SLabelRef -> grown s b (put_symbol b a s).
Proof.
  intros T. exists [(u16 a, s)]. split; [intros x [<-|[]]; auto|]. repeat split; auto. unfold syms. cbn. now rewrite T.
Qed.
Lemma grown_symbol2 s b a : s_type s = SLabelRef -> grown s b (put_symbol2 b a s).
Proof. intros T. eapply grown_trans; apply grown_symbol; auto. Qed.
Lemma grown_weak s b b' : grown s b b' -> s_type s = SLabelRef -> Weak b -> Weak b'.
Proof.
  intros (l & F & A1 & _) T W. unfold Weak in *. rewrite A1.
  assert (DD : forall l, (forall x, In x l -> snd x = s) -> defs (l ++ syms (b_out b)) = defs (syms (b_out b))).
  { clear - T. induction l as [|x l IH]; intros F; auto. unfold defs in *. cbn [flat_map app]. rewrite IH by (intros; apply F; now right).
    unfold def_name at 1. rewrite (F x) by now left. now rewrite T. }
  now rewrite DD.
Qed.
Lemma grown_strong s b b' : grown s b b' -> s_type s = SLabelRef -> known (syms (b_out b)) (b_symtab b) (b_lambdas b) (0, s) -> Strong b -> Strong b'.
Proof.
  intros (l & F & A1 & A2 & A3 & A4) T K S. unfold Strong. rewrite A1, A2, A3, A4. eapply strong_refs; eauto.
Qed.
Lemma grown_emit_addr b t ty size a s : s_type s = SLabelRef -> grown s b (snd (emit_addr b t ty size a (Some s))).
Proof.
  intros T. unfold emit_addr. destruct size.
  - destruct (match ty with RRel => _ | _ => _ end); [now apply grown_view|].
    pose proof (view_emit b t (Z.land (u16 a) 255)) as E. destruct (emit _ _ _) as [[|] b']; cbn [andthen snd] in *; [|now apply grown_view].
    eapply grown_trans; [apply grown_view, E|now apply grown_symbol].
  - pose proof (view_emit2 b t (u16 a)) as E. destruct (emit2 _ _ _) as [[|] b']; cbn [andthen snd] in *; [|now apply grown_view].
    eapply grown_trans; [apply grown_view, E|now apply grown_symbol2].
Qed.
Lemma view_emit_addr b t ty size a : view (snd (emit_addr b t ty size a None)) = view b.
Proof.
  unfold emit_addr. destruct size.
  - destruct (match ty with RRel => _ | _ => _ end); [reflexivity|]. apply view_andthen; [apply view_emit|auto].
  - apply view_andthen; [apply view_emit2|auto].
Qed.
Lemma P_backward b t ty size n id to r : Strong b ->
  known (syms (b_out b)) (b_symtab b) (b_lambdas b) (0, mkSymbol SLabelRef false id n (word_region (t_reg t) r)) ->
  P (emit_backward_ref b t ty size n id to true r).
Proof.
  intros S K. unfold emit_backward_ref. pose proof (view_calc b t ty (b_addr b) to) as V.
  destruct (calculate_addr _ _ _ _ _) as [a b']. cbn [snd] in V. apply P_strong.
  eapply grown_strong; [eapply grown_emit_addr| | |]; try reflexivity.
  - unfold view in V. injection V as -> -> -> _. exact K.
  - eapply strong_view; eauto.
Qed.
Lemma view_backward b t ty size n id to r : view (snd (emit_backward_ref b t ty size n id to false r)) = view b.
Proof.
  unfold emit_backward_ref. pose proof (view_calc b t ty (b_addr b) to) as V.
  destruct (calculate_addr _ _ _ _ _) as [a b']. cbn [snd] in V. now rewrite view_emit_addr.
Qed.
Lemma view_patch refs : forall b n id to, view (patch b refs n id to) = view b.
Proof.
  induction refs as [|x refs IH]; intros; cbn [patch]; auto.
  pose proof (view_backward (set_addr b (f_addr x)) (f_tok x) (f_type x) (f_size x) (Some n) id to false) as V.
  destruct (emit_backward_ref _ _ _ _ _ _ _ _ _) as [ok b']. now rewrite IH.
Qed.
Lemma grown_placeholder b t size n id r : grown (mkSymbol SLabelRef false id (Some n) (word_region (t_reg t) r)) b (snd (emit_placeholder b t size (Some (n, id)) r)).
Proof.
  unfold emit_placeholder. cbn zeta. destruct size.
  - pose proof (view_emit b t 1) as E. destruct (emit _ _ _) as [[|] b']; cbn [andthen snd] in *; [|now apply grown_view].
    eapply grown_trans; [apply grown_view, E|now apply grown_symbol].
  - pose proof (view_emit2 b t 1) as E. destruct (emit2 _ _ _) as [[|] b']; cbn [andthen snd] in *; [|now apply grown_view].
    eapply grown_trans; [apply grown_view, E|now apply grown_symbol2].
Qed.

Lemma P_forward b t ty size n v r : lookup n (b_symtab b) = Some v -> match n_entry v with EnUnknown | EnForward _ _ => True | _ => False end ->
  Strong b -> P (emit_forward_ref b t ty size n v r).
Proof.
  intros L E S. unfold emit_forward_ref.
  assert (G : forall id refs v b, Strong b -> lookup n (b_symtab b) = Some v -> n_entry v = EnForward id refs -> P (let addr := b_addr b in
      emit_placeholder b t size (Some (n, id)) r ;; b =>
      (true, set_node b n (set_entry v (EnForward id (mkRef t 0 0 addr ty size :: refs)))))).
  { clear. intros id refs v b S L E. cbn zeta. pose proof (grown_placeholder b t size n id r) as G.
    destruct (emit_placeholder _ _ _ _ _) as [ok b']. cbn [snd] in G.
    pose proof (grown_weak _ _ _ G eq_refl (strong_weak _ S)) as W. destruct ok; cbn [andthen]; [|split; [exact W|discriminate]].
    apply P_strong. cbn [snd]. destruct G as (l & F & A1 & A2 & A3 & A4). unfold Strong. cbn [set_node set_symtab b_out b_symtab b_lambdas b_ats].
    rewrite A1, A2, A3, A4. eapply strong_refs; [exact F|reflexivity| |].
    - intros _. unfold known. cbn [snd s_type s_name s_id]. eexists. split; [eapply lookup_update_same; eauto|]. right. cbn [set_entry n_entry]. eauto.
    - eapply strong_node; eauto. rewrite E. cbn. split; auto. discriminate. }
  destruct (n_entry v) as [|id toks ex|id a|id refs] eqn:X; try contradiction.
  - cbn [set_entry n_entry]. apply (G _ []); [|cbn; eapply lookup_update_same; eauto|reflexivity].
    unfold Strong. cbn [set_node set_symtab set_labels b_out b_symtab b_lambdas b_ats]. eapply strong_node; eauto. rewrite X. exact Logic.I.
  - rewrite X. apply G; auto.
Qed.
Lemma P_lambda_ref b t ty size r : Strong b -> P (emit_lambda_ref b t ty size r).
Proof.
  intros S. unfold emit_lambda_ref, emit_placeholder. cbn zeta. set (id := u16 (b_labels b + 1)).
  set (s := mkSymbol SLabelRef false id None (word_region (t_reg t) r)).
  assert (G : forall ok b', grown s b b' -> b_labels b' = id -> P (andthen (ok, b') (fun b0 => (true, set_lambdas (set_nlambdas b0 (u16 (b_nlambdas b0 + 1)))
           (mkRef t (b_labels b0) (b_nlambdas b0) (b_addr b) ty size :: b_lambdas b0))))).
  { intros ok b' G LB. pose proof (grown_weak _ _ _ G eq_refl (strong_weak _ S)) as W. destruct ok; cbn [andthen]; [|split; [exact W|discriminate]].
    apply P_strong. cbn [snd]. destruct G as (l & F & A1 & A2 & A3 & A4). unfold Strong. cbn [set_lambdas set_nlambdas b_out b_symtab b_lambdas b_ats b_labels].
    rewrite A1, A2, A3, A4, LB. eapply strong_refs; [exact F|reflexivity| |].
    - intros _. unfold known. cbn [snd s s_type s_name s_id]. right. eexists. split; [now left|]. reflexivity.
    - destruct S as [S1 S2 S3 S4 S5]. constructor; auto. intros x X. eapply known_lams; [|apply S2; auto]. apply incl_tl, incl_refl. }
  destruct size.
  - pose proof (view_emit (set_labels b id) t 1) as E. assert (LB : b_labels (snd (emit (set_labels b id) t 1)) = id) by (unfold emit; destruct (_ <? _); reflexivity).
    destruct (emit _ _ _) as [[|] b']; cbn [andthen snd] in E, LB |- *; [|apply (G false b'); auto; now apply grown_view].
    apply (G true); auto. eapply grown_trans; [apply grown_view; exact E|now apply grown_symbol].
  - pose proof (view_emit2 (set_labels b id) t 1) as E.
    assert (LB : b_labels (snd (emit2 (set_labels b id) t 1)) = id) by (unfold emit2, emit, andthen; repeat destruct (_ <? _); reflexivity).
    destruct (emit2 _ _ _) as [[|] b']; cbn [andthen snd] in E, LB |- *; [|apply (G false b'); auto; now apply grown_view].
    apply (G true); auto. eapply grown_trans; [apply grown_view; exact E|now apply grown_symbol2].
Qed.

Lemma find_names b t n : Strong b ->
  match find_or_create b t n with
  | (None, b') => view b' = view b
  | (Some v, b') => Strong b' /\ lookup n (b_symtab b') = Some v
  end.
Proof.
  intros S. unfold find_or_create. destruct n as [|x n]; [reflexivity|]. destruct (is_runic x); [reflexivity|].
  destruct (parse_opcode _); [reflexivity|]. destruct (is_number _); [reflexivity|].
  destruct (lookup _ _) as [v|] eqn:L; [auto|].
  cbn [set_symtab b_symtab]. rewrite lookup_app, L. split; [|destruct (str_dec (x :: n) (x :: n)); [reflexivity|contradiction]].
  unfold Strong. cbn [set_symtab b_out b_symtab b_lambdas b_ats]. destruct S as [S1 S2 S3 S4 S5]. constructor; auto.
  - intros [a s] I. specialize (S2 _ I). unfold known in *. cbn [fst snd] in *.
    assert (U : forall m x', lookup m (b_symtab b) = Some x' -> lookup m (b_symtab b ++ [(x :: n, mkNode t false EnUnknown)]) = Some x') by (intros m x' E; now rewrite lookup_app, E).
    destruct (s_type s); auto.
    + destruct S2 as (m & y & toks & ex & E1 & E2 & E3). eauto 8.
    + intros G. destruct (S2 G) as (m & y & E1 & E2 & E3). eauto 8.
    + destruct (s_name s); auto. destruct S2 as (y & E1 & E2). eauto.
  - intros m v id a E1 E2. rewrite lookup_app in E1. destruct (lookup m (b_symtab b)) eqn:M; [injection E1 as <-; eauto|].
    destruct (str_dec (x :: n) m); [injection E1 as <-; discriminate|discriminate].
  - intros m v id toks ex E1 E2. rewrite lookup_app in E1. destruct (lookup m (b_symtab b)) eqn:M; [injection E1 as <-; eauto|].
    destruct (str_dec (x :: n) m); [injection E1 as <-; discriminate|discriminate].
Qed.

Lemma u16_idem a : is_short a -> u16 a = a.
Proof. intros H. unfold u16, is_short in *. now apply Z.mod_small. Qed.
Lemma P_define b t n v id refs : is_short (b_addr b) -> lookup n (b_symtab b) = Some v ->
  match n_entry v with EnUnknown => True | EnForward i _ => i = id | _ => False end -> Strong b -> P (define_label b t n v id refs).
Proof.
  intros A L E S. apply P_strong. unfold define_label. cbn zeta. cbn [snd].
  set (b1 := set_node b n (set_entry v (EnLabel id (b_addr b)))).
  pose proof (view_patch refs b1 n id (b_addr b)) as V. set (b2 := patch b1 refs n id (b_addr b)) in *.
  unfold view in V. injection V as V1 V2 V3 V4. unfold Strong, put_symbol. cbn [log set_addr set_node set_symtab b_out b_symtab b_lambdas b_ats].
  change (syms (ESym (u16 (b_addr b)) (mkSymbol SLabel false id (Some n) (t_reg t)) :: b_out b2)) with ((u16 (b_addr b), mkSymbol SLabel false id (Some n) (t_reg t)) :: syms (b_out b2)).
  rewrite V1, V2, V3, V4, u16_idem by auto. cbn [b1 set_node set_symtab b_out b_symtab b_lambdas b_ats].
  assert (UU : forall x y l, update n x (update n y l) = update n x l).
  { clear. intros x y. induction l as [|[k w] l IH]; [reflexivity|]. cbn. destruct (str_dec k n) eqn:D; cbn; rewrite D; [reflexivity|]. now rewrite IH. }
  rewrite UU. eapply strong_def; eauto. destruct (n_entry v); auto.
Qed.
Lemma P_register b t n : is_short (b_addr b) -> Strong b -> P (register_label b t n).
Proof.
  intros A S. unfold register_label. pose proof (find_names b t n S) as F.
  assert (AD : b_addr (snd (find_or_create b t n)) = b_addr b).
  { unfold find_or_create. destruct n; [reflexivity|]. destruct (is_runic _); [reflexivity|]. destruct (parse_opcode _); [reflexivity|].
    destruct (is_number _); [reflexivity|]. destruct (lookup _ _); reflexivity. }
  destruct (find_or_create b t n) as [[v|] b']; cbn [snd] in AD.
  - destruct F as [S' L]. destruct (n_entry v) eqn:E.
    + apply P_define; cbn [set_labels b_addr b_symtab]; auto; [now rewrite AD|now rewrite E].
    + now apply P_strong.
    + now apply P_strong.
    + apply P_define; auto; [now rewrite AD|now rewrite E].
  - now apply (P_view b).
Qed.
Lemma view_local_name b t l : view (snd (resolve_local_name b t l)) = view b.
Proof. unfold resolve_local_name. destruct (_ <? _); reflexivity. Qed.
Lemma view_label_ref b t l : view (snd (resolve_label_ref b t l)) = view b.
Proof. unfold resolve_label_ref. destruct l; [reflexivity|]. destruct (_ || _); [apply view_local_name|reflexivity]. Qed.
Lemma pop_at_names b : Strong b ->
  match pop_at_label b with (Some l, b') => Strong b' /\ gen_label (syms (b_out b')) (f_label l) | (None, b') => Strong b' end.
Proof.
  intros S. unfold pop_at_label. destruct (b_ats b) as [|l rest] eqn:E; auto. destruct S as [S1 S2 S3 S4 S5].
  split; [|apply S4; rewrite E; now left]. unfold Strong. cbn. constructor; auto. intros r R. apply S4. rewrite E. now right.
Qed.
Lemma strong_set_referenced b n v r : lookup n (b_symtab b) = Some v -> Strong b -> Strong (set_node b n (set_referenced v r)).
Proof.
  intros L S. unfold Strong. cbn [set_node set_symtab b_out b_symtab b_lambdas b_ats]. eapply strong_node; eauto. cbn.
  destruct (n_entry v); cbn; auto.
Qed.
Lemma P_label_ref b t ty size n r : Strong b -> P (emit_label_ref b t ty size n r).
Proof.
  intros S. unfold emit_label_ref. destruct (str_eqb n [123]); [now apply P_lambda_ref|].
  pose proof (view_label_ref b t n) as V. destruct (resolve_label_ref b t n) as [[full|] b1]; cbn [snd] in V; [|now apply (P_view b)].
  assert (S1 : Strong b1) by (eapply strong_view; eauto).
  destruct (str_eqb full [64]).
  - pose proof (pop_at_names b1 S1) as Q. destruct (pop_at_label b1) as [[l|] b2]; [|now apply P_strong].
    destruct Q as [S2 G]. apply P_backward; auto. unfold known. cbn. auto.
  - destruct full as [|x full]; [now apply P_strong|]. destruct (is_runic x); [now apply P_strong|].
    pose proof (find_names b1 t (x :: full) S1) as F. destruct (find_or_create b1 t (x :: full)) as [[v|] b2]; [|now apply (P_view b1)].
    destruct F as [S2 L]. destruct (n_entry v) as [|id toks ex|id a|id refs] eqn:E.
    + apply P_forward; auto. now rewrite E.
    + now apply P_strong.
    + apply P_backward; [now apply strong_set_referenced|]. unfold known. cbn [snd s_type s_name s_id set_node set_symtab b_symtab].
      eexists. split; [eapply lookup_update_same; eauto|]. left. cbn. rewrite E. eauto.
    + apply P_forward; auto. now rewrite E.
Qed.
Lemma P_jsi b t : Strong b -> P (emit_jsi b t).
Proof.
  intros S. unfold emit_jsi. apply P_andthen; [apply (P_view b); auto; apply view_opcode|]. intros. now apply P_label_ref.
Qed.

Lemma view_comment_loop fuel : forall b u d, view (snd (fst (comment_loop fuel b u d))) = view b.
Proof.
  induction fuel as [|fuel IH]; intros; cbn [comment_loop]; [reflexivity|]. destruct (_ <=? _); [reflexivity|].
  pose proof (view_next b u) as N. destruct (next_token b u) as [[[t|] b1] u1]; cbn [fst snd] in N; [|exact N].
  destruct (t_lex t); [exact N|]. rewrite IH, view_symbol; [exact N|exact Logic.I].
Qed.
Lemma view_comment b t u : view (snd (fst (process_comment b t u))) = view b.
Proof.
  unfold process_comment. match goal with |- context [comment_loop ?f ?x ?u ?d] => pose proof (view_comment_loop f x u d) as V; destruct (comment_loop f x u d) as [[ok b1] u1] end.
  cbn [fst snd] in V. rewrite view_symbol in V by exact Logic.I. destruct ok; exact V.
Qed.
Lemma view_macro_open fuel : forall b t u, view (snd (fst (macro_open fuel b t u))) = view b.
Proof.
  induction fuel as [|fuel IH]; intros; cbn [macro_open]; [reflexivity|].
  pose proof (view_next b u) as N. destruct (next_token b u) as [[[x|] b1] u1]; cbn [fst snd] in N; [|exact N].
  cbn zeta. destruct (_ =? 40).
  - pose proof (view_comment b1 x u1) as V. destruct (process_comment b1 x u1) as [[[|] b2] u2]; cbn [fst snd] in V |- *; [now rewrite IH, V|now rewrite V].
  - assert (M : view (process_mark b1 x) = view b) by (unfold process_mark; rewrite view_symbol; [exact N|exact Logic.I]).
    destruct (_ =? 91); [now rewrite IH|]. destruct (_ =? 93); [destruct (_ =? 1); [now rewrite IH|exact N]|].
    destruct (_ =? 123); [destruct (_ =? 1)|]; exact N.
Qed.
Lemma view_macro_body fuel : forall b t u d l, view (snd (fst (macro_body fuel b t u d l))) = view b.
Proof.
  induction fuel as [|fuel IH]; intros; cbn [macro_body]; [reflexivity|]. destruct (_ <=? _); [reflexivity|].
  pose proof (view_next b u) as N. destruct (next_token b u) as [[[x|] b1] u1]; cbn [fst snd] in N; [|exact N].
  destruct (t_lex x); [exact N|]. destruct (_ =? 37); [exact N|]. cbn zeta. now rewrite IH.
Qed.
Lemma P_create_macro b t u n v : lookup n (b_symtab b) = Some v -> n_entry v = EnUnknown -> Strong b -> P3 (create_macro b t u n v).
Proof.
  intros L E S. unfold create_macro. cbn zeta. set (id := u16 (b_macros b + 1)).
  set (b1 := put_symbol (set_macros b id) 0 (mkSymbol SMacro false id (Some n) (t_reg t))).
  assert (ND : ~ In n (defs (syms (b_out b)))) by (eapply not_defined; eauto; now rewrite E).
  assert (W1 : Weak b1).
  { unfold Weak, b1, put_symbol. cbn [log set_macros b_out]. unfold syms. cbn [flat_map syms_of s_type app]. unfold defs. cbn [flat_map]. unfold def_name at 1.
    cbn [snd s_type s_gen s_name app]. constructor; [exact ND|]. apply (s_nodup _ _ _ _ S). }
  pose proof (view_macro_open (unit_fuel u) b1 t u) as V1. destruct (macro_open _ _ _ _) as [[[|] b2] u2]; cbn [fst snd] in V1;
    [|split; [exact (weak_view _ _ V1 W1)|discriminate]].
  pose proof (view_macro_body (unit_fuel u2) b2 t u2 1 []) as V2. destruct (macro_body _ _ _ _ _ _) as [[[toks|] b3] u3]; cbn [fst snd] in V2;
    rewrite V1 in V2; [|split; [exact (weak_view _ _ V2 W1)|discriminate]].
  unfold view in V2. injection V2 as A1 A2 A3 A4.
  assert (X : Strong (set_node b3 n (set_entry v (EnMacro id toks false)))).
  { unfold Strong. cbn [set_node set_symtab b_out b_symtab b_lambdas b_ats]. rewrite A1, A2, A3, A4.
    change (syms (b_out b1)) with ((u16 0, mkSymbol SMacro false id (Some n) (t_reg t)) :: syms (b_out b)).
    change (b_symtab b1) with (b_symtab b). change (b_lambdas b1) with (b_lambdas b). change (b_ats b1) with (b_ats b).
    eapply strong_def; eauto; [now rewrite E|right; split; [reflexivity|eexists; reflexivity]]. }
  split; cbn [fst snd]; auto using strong_weak.
Qed.
Lemma P3_view b r : view (snd (fst r)) = view b -> Strong b -> P3 r.
Proof. intros V S. assert (X : Strong (snd (fst r))) by (eapply strong_view; eauto). split; auto using strong_weak. Qed.
Lemma P_macro b t u : Strong b -> P3 (process_macro b t u).
Proof.
  intros S. unfold process_macro. pose proof (find_names b t (pop_front (t_lex t)) S) as F.
  destruct (find_or_create _ _ _) as [[v|] b']; [|now apply (P3_view b)]. destruct F as [S' L].
  destruct (n_entry v) eqn:E; try (now apply (P3_view b')). now apply P_create_macro.
Qed.
Lemma view_make_name b id : view (snd (make_lambda_name b id)) = view b.
Proof. unfold make_lambda_name. cbn [snd]. destruct (_ <=? _); reflexivity. Qed.
Lemma P_global b t : is_short (b_addr b) -> Strong b -> P (process_global_label b t).
Proof.
  intros A S. unfold process_global_label. destruct (str_eqb _ _).
  - cbn zeta. set (id := u16 (b_labels b + 1)). set (l := mkRef t id (b_nlambdas b) (b_addr b) RZero RByte).
    match goal with |- context [make_lambda_name ?x ?i] => pose proof (view_make_name x i) as V; destruct (make_lambda_name x i) as [nm b'] end.
    cbn [snd] in V. unfold view in V. injection V as V1 V2 V3 V4. apply P_strong. cbn [snd]. unfold Strong, put_symbol. cbn [log b_out b_symtab b_lambdas b_ats].
    change (syms (ESym (u16 (f_addr l)) (mkSymbol SLabel true id (Some nm) (t_reg t)) :: b_out b')) with ((u16 (f_addr l), mkSymbol SLabel true id (Some nm) (t_reg t)) :: syms (b_out b')).
    rewrite V1, V2, V3, V4. cbn [set_ats set_nlambdas set_labels b_out b_symtab b_lambdas b_ats].
    destruct (strong_generated _ _ _ _ (u16 (f_addr l)) (mkSymbol SLabel true id (Some nm) (t_reg t)) eq_refl eq_refl S) as [[S1 S2 S3 S4 S5] G].
    constructor; auto. intros r [<-|R]; auto.
  - apply P_andthen; [now apply P_register|]. intros b' _ S'. now apply P_strong.
Qed.
Lemma P_local b t : is_short (b_addr b) -> Strong b -> P (process_local_label b t).
Proof.
  intros A S. unfold process_local_label, resolve_local_name. destruct (_ <? _); [now apply P_strong|]. now apply P_register.
Qed.
Lemma padding_names b t : Strong b -> Strong (snd (resolve_padding b t)).
Proof.
  intros S. unfold resolve_padding. destruct (pop_front (t_lex t)) as [|x s]; [exact S|].
  destruct (is_number _); [destruct (parse_number _) as [m|[n z]]; exact S|].
  pose proof (view_label_ref b t (x :: s)) as V. destruct (resolve_label_ref _ _ _) as [[l|] b1]; cbn [snd] in V; [|eapply strong_view; eauto].
  assert (S1 : Strong b1) by (eapply strong_view; eauto). destruct (str_eqb l [64]).
  - pose proof (pop_at_names b1 S1) as Q. destruct (pop_at_label b1) as [[r|] b2]; [apply Q|exact Q].
  - destruct (lookup l (b_symtab b1)) as [v|] eqn:E; [|exact S1]. destruct (n_entry v); try exact S1. now apply strong_set_referenced.
Qed.
Lemma P_abs b t : Strong b -> P (process_abs_padding b t).
Proof. intros S. unfold process_abs_padding. pose proof (padding_names b t S) as Q. destruct (resolve_padding b t) as [[n|] b']; now apply P_strong. Qed.
Lemma P_rel b t : Strong b -> P (process_rel_padding b t).
Proof.
  intros S. unfold process_rel_padding. pose proof (padding_names b t S) as Q. destruct (resolve_padding b t) as [[n|] b']; apply P_strong; [|exact Q].
  cbn [snd]. destruct (_ <? _); exact Q.
Qed.
Lemma view_lit b t : view (snd (process_lit_number b t)) = view b.
Proof.
  unfold process_lit_number. destruct (literal _) as [m|[n z]]; [reflexivity|].
  destruct (_ =? 1); (apply view_andthen; [apply view_opcode|]); intros b' V; [now rewrite view_byte|now rewrite view_short].
Qed.
Lemma view_raw b t : view (snd (process_raw_number b t)) = view b.
Proof. unfold process_raw_number. destruct (literal _) as [m|[n z]]; [reflexivity|]. destruct (_ =? 1); [apply view_byte|apply view_short]. Qed.
Lemma P_close b t : Strong b -> P (process_lambda_close b t).
Proof.
  intros S. unfold process_lambda_close. destruct (b_lambdas b) as [|x rest] eqn:LM; [now apply P_strong|]. cbn zeta.
  pose proof (view_calc b (f_tok x) (f_type x) (f_addr x) (b_addr b)) as V. destruct (calculate_addr _ _ _ _ _) as [a b']. cbn [snd] in V.
  pose proof (view_emit_addr (set_addr b' (f_addr x)) (f_tok x) (f_type x) (f_size x) a) as V2.
  change (view (set_addr b' (f_addr x))) with (view b') in V2. rewrite V in V2.
  apply P_andthen; [now apply (P_view b)|]. intros b2 E S2. rewrite E in V2. cbn [snd] in V2.
  pose proof (view_make_name (set_addr b2 (b_addr b)) (f_lambda x)) as V3. destruct (make_lambda_name _ _) as [n b3]. cbn [snd] in V3.
  change (view (set_addr b2 (b_addr b))) with (view b2) in V3. rewrite V2 in V3. unfold view in V3. injection V3 as A1 A2 A3 A4.
  apply P_strong. cbn [snd]. unfold Strong, put_symbol. cbn [set_lambdas log b_out b_symtab b_lambdas b_ats].
  change (syms (ESym (u16 (b_addr b)) (mkSymbol SLabel true (f_label x) (Some n) (t_reg t)) :: b_out b3)) with ((u16 (b_addr b), mkSymbol SLabel true (f_label x) (Some n) (t_reg t)) :: syms (b_out b3)).
  rewrite A1, A2, A4.
  destruct (strong_generated _ _ _ _ (u16 (b_addr b)) (mkSymbol SLabel true (f_label x) (Some n) (t_reg t)) eq_refl eq_refl S) as [[S1' S2' S3' S4' S5'] G].
  constructor; auto. intros y Y. specialize (S2' y Y). unfold known in *. destruct (s_type (snd y)); auto. destruct (s_name (snd y)); auto.
  destruct S2' as [H|(r & R & F)]; [now left|]. rewrite LM in R. destruct R as [<-|R]; [left; cbn in G; now rewrite <- F|right; eauto].
Qed.
Lemma view_emit_text s : forall b t sym a, s_type sym = SText -> view (snd (emit_text b t sym a s)) = view b.
Proof.
  induction s as [|x s IH]; intros b t sym a T; cbn [emit_text]; [reflexivity|]. apply view_andthen; [apply view_emit|]. intros b' V.
  rewrite IH, view_symbol; auto. now rewrite T.
Qed.
Lemma view_text b t : view (snd (process_text b t)) = view b.
Proof. unfold process_text. destruct (_ <=? 1); [reflexivity|]. now apply view_emit_text. Qed.

(** ** Units *)
Section Nested.
Variable fs : files.
Variable pu : basm -> unit_ -> ret.
Variable level : Z.
Hypothesis PU : forall b u, wf b -> unit_ok u -> b_depth b = level + 1 -> level < MAX_PREPROCESSOR_DEPTH -> npost b (pu b u).
Hypothesis PS : forall b u, wf b -> unit_ok u -> b_depth b = level + 1 -> level < MAX_PREPROCESSOR_DEPTH -> Strong b -> P (pu b u).

Lemma P_file (b : basm) path : Strong b ->
  (forall c, P (pu (log b (EOpen path)) (UFile path c (mkPos 1 1 0)))) -> P (process_file fs pu b path).
Proof.
  intros S H. unfold process_file. destruct (find_file fs path) as [c|]; [|now apply P_strong].
  specialize (H c). cbn zeta. destruct (pu _ _) as [ok b1]. exact H.
Qed.
Lemma P_include b n t : wf b -> b_depth b = level -> level < MAX_PREPROCESSOR_DEPTH -> Strong b -> P (process_include fs pu b n t).
Proof.
  intros W D LM S. unfold process_include. destruct (existsb _ _); [now apply P_strong|]. cbn zeta.
  set (b1 := set_includes b _). set (b2 := set_depth b1 (b_depth b1 + 1)).
  assert (W2 : wf b2) by (apply wf_set_depth; [apply wf_includes; auto|pose proof (wf_depth _ W); cbn; lia]).
  assert (C3 : P (process_file fs pu b2 n)).
  { apply P_file; [exact S|]. intros c. apply PS; cbn; auto; [apply wf_log; auto|lia]. }
  destruct (process_file fs pu b2 n) as [ok b3]. destruct ok; exact C3.
Qed.
Lemma P_run_macro b t n v id toks ex arg u : Forall tok_ok toks -> wf b -> b_depth b = level -> level < MAX_PREPROCESSOR_DEPTH ->
  match arg with Some a => tok_ok a | None => True end -> lookup n (b_symtab b) = Some v -> n_entry v = EnMacro id toks ex ->
  Strong b -> P3 (run_macro pu b t n v id toks arg u).
Proof.
  intros T W D LM A L E S. unfold run_macro. set (b2 := set_node _ _ _). set (b3 := set_depth b2 _).
  assert (S2 : Strong b2). { unfold Strong, b2. cbn [set_node set_symtab b_out b_symtab b_lambdas b_ats]. eapply strong_node; eauto. now rewrite E. }
  assert (W3 : wf b3).
  { apply wf_set_depth; [apply wf_set_node; auto|]. cbn. pose proof (wf_depth _ W). lia. }
  assert (AA : wf (log b3 (EEnter n)) /\ unit_ok (UMacro toks arg) /\ b_depth (log b3 (EEnter n)) = level + 1).
  { split; [apply wf_log; auto|]. split; [split; auto|cbn; lia]. }
  destruct AA as (A1 & A2 & A3). pose proof (PU _ _ A1 A2 A3 LM) as N. pose proof (PS _ _ A1 A2 A3 LM S2) as C4.
  destruct (s_macd _ _ _ _ S _ _ _ _ _ L E) as (ma & ms & MI & MT & MD & MN).
  destruct (pu (log b3 (EEnter n)) (UMacro toks arg)) as [ok b4]. destruct C4 as [C4 C5]. cbn [fst snd] in *.
  destruct ok; [|split; [exact C4|discriminate]].
  assert (X : Strong (set_node (set_depth (log b4 (ELeave n)) (b_depth (log b4 (ELeave n)) - 1)) n (set_entry v (EnMacro id toks false)))).
  { specialize (C5 eq_refl). unfold Strong. cbn [set_node set_symtab set_depth log b_out b_symtab b_lambdas b_ats].
    change (syms (ELeave n :: b_out b4)) with (syms (b_out b4)).
    assert (IN : In (ma, ms) (syms (b_out b4))).
    { destruct N as [R _ _ _]. destruct (r_out _ _ R) as (l & RO & _). cbn [snd] in RO. rewrite RO. unfold syms. rewrite flat_map_app. apply in_or_app. right. exact MI. }
    pose proof (s_known _ _ _ _ C5 _ IN) as K. unfold known in K. cbn [snd] in K. rewrite MT in K.
    destruct K as (m & x & tk & ex' & K1 & K2 & K3). rewrite MN in K1. injection K1 as <-.
    eapply strong_node; eauto. rewrite K3. cbn. congruence. }
  split; cbn [fst snd]; auto using strong_weak.
Qed.
Lemma P_expand b t n v id toks ex u : wf b -> unit_ok u -> b_depth b = level -> Forall tok_ok toks ->
  lookup n (b_symtab b) = Some v -> n_entry v = EnMacro id toks ex -> Strong b -> P3 (expand_macro pu b t n v id toks ex u).
Proof.
  intros W U D T L E S. unfold expand_macro.
  destruct (Z.leb_spec MAX_PREPROCESSOR_DEPTH (b_depth b)); [now apply (P3_view b)|].
  destruct ex; [now apply (P3_view b)|].
  set (b1 := put_symbol b 0 _).
  assert (W1 : wf b1) by (apply wf_log; auto).
  assert (S1 : Strong b1) by exact S.
  destruct (last n 0 =? 58); [|eapply P_run_macro; eauto; lia].
  pose proof (view_next b1 u) as V.
  destruct (next_token b1 u) as [[a b2] u2] eqn:N. cbn [fst snd] in V.
  pose proof (next_token_props _ _ _ _ _ W1 U N) as [R2 W2 O2 M2 T2 B2 K2].
  assert (S2 : Strong b2) by (eapply strong_view; eauto).
  destruct a as [a|].
  - eapply P_run_macro; eauto; [rewrite (r_depth _ _ R2); cbn; lia|lia|apply T2|]. unfold view in V. injection V as _ -> _ _. exact L.
  - apply (P3_view b1); auto. cbn [fst snd]. destruct (b_success b2); exact V.
Qed.
Lemma P_keep r u : P r -> P3 (keep r u).
Proof. destruct r. auto. Qed.
Lemma P_word b t u : wf b -> unit_ok u -> b_depth b = level -> Strong b -> P3 (process_word pu b t u).
Proof.
  intros W U D S. unfold process_word. destruct (is_runic _); [now apply (P3_view b)|].
  destruct (parse_opcode (t_lex t)) as [[op red]|].
  - apply P_keep. apply (P_view b); auto. rewrite view_opcode. destruct red; reflexivity.
  - pose proof (find_or_create_props b t (t_lex t) W) as (R & W1 & B1 & K).
    pose proof (find_names b t (t_lex t) S) as F.
    destruct (find_or_create b t (t_lex t)) as [[v|] b1]; cbn [fst snd] in *; [|now apply (P3_view b)].
    destruct K as [V _]. destruct F as [S1 L].
    assert (D1 : b_depth b1 = level) by (rewrite (r_depth _ _ R); auto).
    assert (FW : match n_entry v with EnUnknown | EnForward _ _ => True | _ => False end ->
        P (emit_opcode b1 t 96 false ;; b' => emit_forward_ref b' t RRel RShort (t_lex t) v false)).
    { intros X. apply P_andthen; [apply (P_view b1); auto; apply view_opcode|]. intros b2 E2 S2. apply P_forward; auto.
      pose proof (view_opcode b1 t 96 false) as VV. rewrite E2 in VV. unfold view in VV. cbn [snd] in VV. injection VV as _ -> _ _. exact L. }
    destruct (n_entry v) as [|id toks ex|id a|id refs] eqn:E.
    + apply P_keep, FW, Logic.I.
    + eapply P_expand; [|auto|auto|auto| | |]; [apply wf_set_node; auto; cbn; rewrite E; auto|cbn; eapply lookup_update_same; eauto|exact E|now apply strong_set_referenced].
    + apply P_keep. set (b2 := set_node _ _ _).
      assert (S2 : Strong b2) by now apply strong_set_referenced.
      apply P_andthen; [apply (P_view b2); auto; apply view_opcode|]. intros b3 E3 S3. apply P_backward; auto.
      pose proof (view_opcode b2 t 96 false) as VV. rewrite E3 in VV. unfold view in VV. cbn [snd] in VV. injection VV as -> -> -> _.
      unfold known. cbn [snd s_type s_name s_id b2 set_node set_symtab b_symtab]. eexists. split; [eapply lookup_update_same; eauto|].
      left. cbn. rewrite E. eauto.
    + apply P_keep, FW, Logic.I.
Qed.
Lemma P_tilde b t : wf b -> b_depth b = level -> Strong b -> P (process_tilde fs pu b t).
Proof.
  intros W D S. unfold process_tilde. destruct (Z.leb_spec MAX_PREPROCESSOR_DEPTH (b_depth b)); [now apply P_strong|].
  cbn zeta. set (b1 := put_symbol _ _ _). assert (S1 : Strong b1) by exact S.
  destruct (_ =? 126).
  - destruct (existsb _ _); now apply P_strong.
  - apply P_include; auto; [apply wf_log; auto|lia].
Qed.
Lemma P_token b t u : wf b -> unit_ok u -> b_depth b = level -> Strong b -> P3 (process_token fs pu b t u).
Proof.
  intros W U D S. unfold process_token. cbn zeta. pose proof (wf_addr _ W) as A.
  assert (ERR : forall m, P3 (keep (error b t m) u)) by (intros; apply P_keep, P_strong, S).
  assert (OP : forall op ty sz n r, P3 (keep (emit_opcode b t op true ;; b => emit_label_ref b t ty sz n r) u)).
  { intros. apply P_keep, P_andthen; [apply (P_view b); auto; apply view_opcode|]. intros. now apply P_label_ref. }
  assert (REF : forall ty sz n r, P3 (keep (emit_label_ref b t ty sz n r) u)) by (intros; now apply P_keep, P_label_ref).
  assert (MARK : P3 (true, process_mark b t, u)) by (apply (P3_view b); auto).
  assert (COM : P3 (process_comment b t u)) by (apply (P3_view b); auto; apply view_comment).
  repeat match goal with
  | |- P3 (if ?c then _ else _) => destruct c
  end; auto using P_macro, P_word; apply P_keep; auto using P_tilde, P_global, P_local, P_close, P_jsi, P_abs, P_rel;
    apply (P_view b); auto using view_lit, view_text, view_raw.
Qed.
Lemma P_unit_loop fuel : forall b u, wf b -> unit_ok u -> b_depth b = level -> Strong b -> P (unit_loop fs pu fuel b u).
Proof.
  induction fuel as [|fuel IH]; intros b u W U D S; cbn [unit_loop]; [now apply P_strong|].
  pose proof (view_next b u) as V.
  destruct (next_token b u) as [[t b1] u1] eqn:N. cbn [fst snd] in V.
  pose proof (next_token_props _ _ _ _ _ W U N) as [R1 W1 O1 M1 T1 B1 K1].
  assert (S1 : Strong b1) by (eapply strong_view; eauto).
  destruct t as [t|]; [|now apply P_strong].
  destruct T1 as [Tok M2]. pose proof Tok as Tok'. unfold tok_ok in Tok.
  destruct (t_lex t) as [|c l] eqn:L; [congruence|]. rewrite <- L in *. cbn zeta.
  set (b2 := log b1 _).
  assert (W2 : wf b2) by (apply wf_log; auto).
  assert (S2 : Strong b2) by exact S1.
  assert (D2 : b_depth b2 = level) by (cbn; rewrite (r_depth _ _ R1); auto).
  pose proof (process_token_props fs pu level PU b2 t u1 W2 O1 D2 Tok') as [R3 W3 O3 M3 F3 B3 K3].
  pose proof (P_token b2 t u1 W2 O1 D2 S2) as [C3 C4].
  destruct (process_token fs pu b2 t u1) as [[ok b3] u3]. cbn [fst snd] in *.
  destruct ok; [|split; [exact C3|discriminate]]. apply IH; auto. rewrite (r_depth _ _ R3). auto.
Qed.
End Nested.

Lemma P_process_unit fs d : forall b u,
  wf b -> unit_ok u -> b_depth b <= MAX_PREPROCESSOR_DEPTH -> 33 <= b_depth b + Z.of_nat d -> Strong b -> P (process_unit fs d b u).
Proof.
  induction d as [|d IH]; intros b u W U D1 D2 C; cbn [process_unit].
  - now apply P_strong.
  - apply (P_unit_loop fs (process_unit fs d) (b_depth b)); auto.
    + intros b' u' W' U' D' L. apply process_unit_props; auto; lia.
    + intros b' u' W' U' D' L C'. apply IH; auto; lia.
Qed.
Lemma P_deferred fs fuel : forall i b, wf b -> b_depth b = 0 -> Strong b -> P (deferred_loop fs fuel i b).
Proof.
  induction fuel as [|fuel IH]; intros i b W D C; cbn [deferred_loop]; [now apply P_strong|].
  destruct (nth_error _ _) as [[n t]|]; [|now apply P_strong].
  pose proof (process_include_unit fs b n t W D) as [R1 W1 _ _].
  assert (C1 : P (process_include fs (process_unit fs DEPTH) b n t)).
  { apply (P_include fs (process_unit fs DEPTH) 0); [| |exact W|exact D|reflexivity|exact C].
    { intros b' u' W' U' D' _. apply process_unit_props; auto; rewrite D'; [discriminate|]. unfold DEPTH. lia. }
    intros b' u' W' U' D' _ C'. apply P_process_unit; auto; rewrite D'; [discriminate|]. unfold DEPTH. lia. }
  apply P_andthen; [exact C1|]. intros b' E S'. rewrite E in *. cbn [snd] in *. apply IH; auto. rewrite (r_depth _ _ R1). auto.
Qed.
Lemma view_fold {A} (f : basm -> A -> basm) l : (forall b x, view (f b x) = view b) -> forall b, view (fold_left f l b) = view b.
Proof. intros H. induction l as [|x l IH]; intros b; cbn; auto. now rewrite IH. Qed.
Lemma view_report_symbol b x : view (report_symbol b x) = view b.
Proof.
  destruct x as [n v]. unfold report_symbol. destruct (n_entry v); try reflexivity.
  - destruct (_ && _); reflexivity.
  - destruct (_ && _); reflexivity.
  - apply view_fold. reflexivity.
Qed.

(** Every run. *)
Theorem asm_names fs fuel file : Weak (snd (asm fs fuel file)).
Proof.
  assert (S0 : Strong start).
  { constructor; cbn; try constructor; try contradiction; discriminate. }
  unfold asm. pose proof (process_file_unit fs DEPTH start file wf_start) as PF.
  assert (C1 : P (process_file fs (process_unit fs DEPTH) start file)).
  { apply P_file; [exact S0|]. intros c. apply P_process_unit.
    - apply wf_log, wf_start.
    - exact Logic.I.
    - discriminate.
    - unfold DEPTH. cbn [b_depth start log]. lia.
    - exact S0. }
  destruct (process_file fs (process_unit fs DEPTH) start file) as [ok b]. destruct C1 as [C1 C1']. cbn [fst snd] in *.
  destruct PF as [R D W B F]; [discriminate|unfold DEPTH; cbn; lia|]. cbn [fst snd] in *. cbn [b_depth start] in D.
  destruct ok; cbn [negb]; auto. unfold resolve.
  pose proof (P_deferred fs fuel 0 b W D (C1' eq_refl)) as [C2 C3]. destruct (deferred_loop fs fuel 0 b) as [ok b2]. cbn [andthen fst snd] in *.
  destruct ok; cbn [fst snd]; auto.
  eapply weak_view; [|exact C2]. unfold report_ats, report_lambdas.
  rewrite view_fold by apply view_report_symbol. rewrite !view_fold by reflexivity. reflexivity.
Qed.

(** ** Runs without errors *)
Lemma success_fold_error {A} (f : A -> option region) m l : forall b, l <> [] -> b_success (fold_left (fun b r => error_ex b m (f r)) l b) = false.
Proof.
  assert (F : forall l b, b_success b = false -> b_success (fold_left (fun b r => error_ex b m (f r)) l b) = false).
  { induction l0 as [|x l0 IH]; intros b E; cbn; auto. }
  intros b. destruct l as [|x l]; [congruence|]. intros _. cbn. now apply F.
Qed.
Lemma rel_success b b' : rel b b' -> b_success b' = true -> b_success b = true.
Proof. intros R S. destruct (r_out _ _ R) as (e & _ & E & _). rewrite S in E. symmetry in E. now apply andb_true_iff in E. Qed.
Lemma success_symbols l : forall b, b_success (fold_left report_symbol l b) = true -> forall n v, In (n, v) l ->
  match n_entry v with EnForward _ (_ :: _) | EnUnknown => False | _ => True end.
Proof.
  induction l as [|x l IH]; intros b S n v I; [destruct I|]. cbn [fold_left] in S. destruct I as [->|I]; [|exact (IH _ S n v I)].
  assert (S1 : b_success (report_symbol b (n, v)) = true) by exact (rel_success _ _ (rel_fold report_symbol l rel_report_symbol _) S).
  unfold report_symbol in S1. destruct (n_entry v) as [| | |id [|r refs]]; auto; [discriminate|].
  rewrite (success_fold_error (fun r0 => Some (t_reg (f_tok r0)))) in S1; discriminate.
Qed.
Lemma lookup_in n tab v : lookup n tab = Some v -> In (n, v) tab.
Proof. induction tab as [|[k x] tab IH]; [discriminate|]. cbn. destruct (str_dec k n) as [->|]; [intros [= ->]; now left|right; auto]. Qed.

Theorem asm_references fs file n b : asm fs n file = (true, b) ->
  (forall m, (n <= m)%nat -> asm fs m file = (true, b)) ->
  forall a s, In (a, s) (syms (b_out b)) -> s_type s = SLabelRef ->
  exists a' s', In (a', s') (syms (b_out b)) /\ s_type s' = SLabel /\ s_id s' = s_id s /\
    match s_name s with Some x => s_gen s' = false /\ s_name s' = Some x | None => s_gen s' = true end.
Proof.
  intros E0 ALL.
  assert (S0 : Strong start).
  { constructor; cbn; try constructor; try contradiction; discriminate. }
  destruct (asm_sound fs file) as [k K]. 
  pose proof (process_file_unit fs DEPTH start file wf_start) as PF.
  assert (C1 : P (process_file fs (process_unit fs DEPTH) start file)).
  { apply P_file; [exact S0|]. intros c. apply P_process_unit.
    - apply wf_log, wf_start.
    - exact Logic.I.
    - discriminate.
    - unfold DEPTH. cbn [b_depth start log]. lia.
    - exact S0. }
  unfold asm in ALL. 
  destruct (process_file fs (process_unit fs DEPTH) start file) as [ok b1]. destruct C1 as [C1 C1']. cbn [fst snd] in *.
  destruct PF as [R D W B F]; [discriminate|unfold DEPTH; cbn; lia|]. cbn [fst snd] in *. cbn [b_depth start] in D.
  destruct ok; cbn [negb] in ALL.
  2:{ specialize (ALL n (le_n _)). injection ALL as S _. rewrite (F eq_refl) in S. discriminate. }
  destruct (deferred_terminates fs _ b1 0 (le_n _) W D) as [n' H]. set (m := Nat.max n n').
  specialize (ALL m (Nat.le_max_l _ _)). destruct (H m (Nat.le_max_r _ _)) as [E2 [R2 W2 B2 F2]].
  unfold resolve in ALL. rewrite E2 in ALL.
  pose proof (P_deferred fs n' 0 b1 W D (C1' eq_refl)) as [C2 C3]. destruct (deferred_loop fs n' 0 b1) as [ok b2]. cbn [fst snd] in *.
  destruct ok; cbn [andthen] in ALL.
  2:{ injection ALL as S <-. rewrite (F2 eq_refl) in S. discriminate. }
  specialize (C3 eq_refl). injection ALL as S E. rewrite E in S. 
  assert (V : view b = view b2).
  { rewrite <- E. unfold report_ats, report_lambdas. rewrite view_fold by apply view_report_symbol. rewrite !view_fold by reflexivity. reflexivity. }
  assert (SB : Strong b) by (eapply strong_view; eauto).
  assert (V1 : view (report_ats (report_lambdas b2)) = view b2).
  { unfold report_ats, report_lambdas. rewrite !view_fold by reflexivity. reflexivity. }
  assert (NL : b_lambdas b = []).
  { replace (b_lambdas b) with (b_lambdas b2) by (unfold view in V; congruence).
    destruct (b_lambdas b2) as [|x l] eqn:L; [reflexivity|exfalso].
    assert (S1 : b_success (report_ats (report_lambdas b2)) = true) by (refine (rel_success _ _ (rel_fold report_symbol _ rel_report_symbol _) _); rewrite E; exact S).
    assert (S2 : b_success (report_lambdas b2) = true) by exact (rel_success _ _ (rel_fold _ _ (fun b r => rel_warning b (f_tok r) MUnreferencedAt) _) S1).
    unfold report_lambdas in S2. rewrite (success_fold_error (fun r => Some (t_reg (f_tok r)))) in S2; [discriminate|rewrite L; discriminate]. }
  intros a s I T. pose proof (s_known _ _ _ _ SB _ I) as KN. unfold known in KN. cbn [snd] in KN. rewrite T in KN.
  destruct (s_name s) as [x|].
  - destruct KN as (v & L & [[a' X]|(r & refs & X)]).
    + destruct (s_defd _ _ _ _ SB _ _ _ _ L X) as (s' & Q1 & Q2 & Q3 & Q4 & Q5). exists a', s'. auto.
    + exfalso. pose proof (success_symbols (b_symtab (report_ats (report_lambdas b2))) (report_ats (report_lambdas b2))) as Q.
      rewrite E in Q. specialize (Q S x v). rewrite X in Q. apply Q. apply lookup_in.
      replace (b_symtab (report_ats (report_lambdas b2))) with (b_symtab b) by (unfold view in V, V1; congruence). exact L.
  - destruct KN as [(a' & s' & Q1 & Q2 & Q3 & Q4)|(r & Q & _)]; [|rewrite NL in Q; destruct Q]. exists a', s'. auto.
Qed.
