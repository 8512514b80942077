(** What the warnings about unused labels and macros go by: an invariant of the
    assembler that ties the table of names to the symbols and the tokens of the
    run so far. *)
From Verif Require Import Base AsmModel AsmSound AsmScan AsmRun AsmNames UnusedSpec.
From Verif Require AsmFlat.
From Coq Require FinFun.
From Coq Require Import ZifyBool Ascii String.
Open Scope list_scope.
Ltac Zify.zify_post_hook ::= Z.div_mod_to_equations.

(** The symbols that matter; a warning about an unused name counts as a comment,
    which the invariant excludes. *)
Definition alarm : Z * symbol := (0, mkSymbol SComment false 0 None (file_region [] no_pos no_pos)).
Definition syms_of (e : event) : list (Z * symbol) :=
  match e with
  | ESym a s => match s_type s with SMacro | SLabel | SLabelRef | SMacroRef => [(a, s)] | _ => [] end
  | EReport false MUnreferenced _ => [alarm]
  | _ => []
  end.
Definition syms (out : list event) : list (Z * symbol) := flat_map syms_of out.
(** The scope and the operand of each padding. *)
Definition pads_of (e : event) : list (str * str) :=
  match e with ETok sc _ (c :: l) => if (c =? 124) || (c =? 36) then [(sc, l)] else [] | _ => [] end.
Definition pads (out : list event) : list (str * str) := flat_map pads_of out.

Definition ref_type_ (t : sym_type) : Prop := t = SLabelRef \/ t = SMacroRef.
Definition used (sy : list (Z * symbol)) (pd : list (str * str)) (n : str) : Prop :=
  (exists a s, In (a, s) sy /\ ref_type_ (s_type s) /\ s_name s = Some n) \/
  (exists sc l, In (sc, l) pd /\ full_name sc l = n).
Definition padded (tab : list (str * node)) (p : str * str) : Prop :=
  is_number (snd p) = true \/ full_name (fst p) (snd p) = [64] \/
  exists v id a, lookup (full_name (fst p) (snd p)) tab = Some v /\ n_entry v = EnLabel id a /\ n_referenced v = true.
Definition known (tab : list (str * node)) (x : Z * symbol) : Prop :=
  let s := snd x in
  match s_type s with
  | SMacro => exists n v toks ex, s_name s = Some n /\ lookup n tab = Some v /\ n_entry v = EnMacro (s_id s) toks ex /\
                (n_referenced v = false -> s_reg s = t_reg (n_def v))
  | SLabel => s_gen s = false -> exists n v, s_name s = Some n /\ lookup n tab = Some v /\ n_entry v = EnLabel (s_id s) (fst x) /\
                (n_referenced v = false -> s_reg s = t_reg (n_def v))
  | SLabelRef =>
      match s_name s with
      | Some n => exists v, lookup n tab = Some v /\
                    ((exists a, n_entry v = EnLabel (s_id s) a /\ n_referenced v = true) \/ exists r refs, n_entry v = EnForward (s_id s) (r :: refs))
      | None => True
      end
  | SMacroRef => exists n v toks ex, s_name s = Some n /\ lookup n tab = Some v /\ n_entry v = EnMacro (s_id s) toks ex /\ n_referenced v = true
  | SComment => False
  | _ => True
  end.
Definition in_use (v : node) : Prop := n_referenced v = true \/ exists id r refs, n_entry v = EnForward id (r :: refs).
Definition pending (v : node) : Prop := match n_entry v with EnUnknown => True | EnForward _ [] => True | _ => False end.
(** [pend] is a name that has just been added, and its token. *)
Record strong (sy : list (Z * symbol)) (tab : list (str * node)) (pd : list (str * str)) (pend : option (str * token)) : Prop := mkStrong {
  s_known : forall x, In x sy -> known tab x;
  s_defd : forall n v id a, lookup n tab = Some v -> n_entry v = EnLabel id a ->
             exists s, In (a, s) sy /\ s_type s = SLabel /\ s_gen s = false /\ s_name s = Some n;
  s_macd : forall n v id toks ex, lookup n tab = Some v -> n_entry v = EnMacro id toks ex ->
             exists a s, In (a, s) sy /\ s_type s = SMacro /\ s_id s = id /\ s_name s = Some n;
  s_used : forall n v, lookup n tab = Some v -> in_use v -> used sy pd n;
  s_pads : forall p, In p pd -> padded tab p;
  s_tab : forall n v, lookup n tab = Some v -> is_number n = false /\ n <> [64];
  s_keys : NoDup (map fst tab);
  s_pend : forall n v, lookup n tab = Some v -> pending v -> pend = Some (n, n_def v) /\ n_referenced v = false
}.

Definition view (b : basm) := (syms (b_out b), b_symtab b, pads (b_out b)).
Definition StrongP (p : option (str * token)) (b : basm) : Prop := strong (syms (b_out b)) (b_symtab b) (pads (b_out b)) p.
Definition Strong := StrongP None.
Lemma strong_view p b b' : view b' = view b -> StrongP p b -> StrongP p b'.
Proof. unfold view, StrongP. intros [= -> -> ->]. auto. Qed.
Lemma strong_any p b : Strong b -> StrongP p b.
Proof. intros []. constructor; auto. intros n v L P. destruct (s_pend0 n v L P). discriminate. Qed.

Definition quiet_ev (e : event) : Prop := syms_of e = [] /\ pads_of e = [].
Lemma view_log b e : quiet_ev e -> view (log b e) = view b.
Proof. intros [H1 H2]. unfold view. cbn. now rewrite H1, H2. Qed.
Lemma view_error b m r : view (error_ex b m r) = view b.
Proof. reflexivity. Qed.

(** ** Reading *)
Lemma view_peek b path inp : view (snd (fst (peek_char b path inp))) = view b.
Proof. unfold peek_char. destruct (b_buf b); [reflexivity|]. destruct inp; [reflexivity|]. destruct (_ =? IO_ERROR); reflexivity. Qed.
Lemma view_get b path inp p : view (snd (fst (fst (get_char b path inp p)))) = view b.
Proof.
  unfold get_char. pose proof (view_peek b path inp) as P. destruct (peek_char b path inp) as [[ch b1] inp1]. cbn [fst snd] in P.
  cbn zeta. destruct (_ || _); [exact P|]. destruct (_ =? 10); [exact P|]. destruct (_ =? 13); [|exact P].
  pose proof (view_peek (consume_char b1) path inp1) as P2. destruct (peek_char (consume_char b1) path inp1) as [[c2 b2] inp2].
  cbn [fst snd] in *. rewrite <- P. change (view b1) with (view (consume_char b1)). rewrite <- P2. destruct (_ =? 10); reflexivity.
Qed.
Lemma view_regular fuel : forall b path inp p start fin ch buf, view (snd (fst (scan_regular fuel b path inp p start fin ch buf))) = view b.
Proof.
  induction fuel as [|fuel IH]; intros; cbn [scan_regular]; [reflexivity|]. destruct (_ <? _); [|reflexivity].
  pose proof (view_get b path inp p) as G. destruct (get_char b path inp p) as [[[c b1] inp1] p1]. cbn [fst snd] in G.
  destruct (_ =? IO_ERROR); [exact G|]. destruct (_ || _); [exact G|]. now rewrite IH.
Qed.
Lemma view_long fuel : forall b path inp p start buf, view (snd (fst (scan_long_loop fuel b path inp p start buf))) = view b.
Proof.
  induction fuel as [|fuel IH]; intros; cbn [scan_long_loop]; [reflexivity|].
  pose proof (view_get b path inp p) as G. destruct (get_char b path inp p) as [[[c b1] inp1] p1]. cbn [fst snd] in G.
  destruct (_ =? IO_ERROR); [exact G|]. destruct (_ =? IO_EOF); [exact G|]. destruct (_ =? 34); [exact G|].
  destruct (_ <? _); [now rewrite IH|exact G].
Qed.
Lemma view_file fuel : forall b path inp p, view (snd (fst (next_in_file fuel b path inp p))) = view b.
Proof.
  induction fuel as [|fuel IH]; intros; cbn [next_in_file]; [reflexivity|].
  pose proof (view_get b path inp p) as G. destruct (get_char b path inp p) as [[[c b1] inp1] p1]. cbn [fst snd] in G.
  destruct (_ || _); [exact G|]. destruct (is_sep c); [now rewrite IH|]. destruct (_ =? 34).
  - pose proof (view_peek b1 path inp1) as P. destruct (peek_char b1 path inp1) as [[c2 b2] inp2]. cbn [fst snd] in P.
    destruct (_ =? 32); [|now rewrite view_regular, P]. unfold scan_long_string.
    pose proof (view_get b2 path inp2 p1) as G2. destruct (get_char b2 path inp2 p1) as [[[c3 b3] inp3] p3]. cbn [fst snd] in G2.
    now rewrite view_long, G2, P.
  - now rewrite view_regular.
Qed.
Lemma view_next b u : view (snd (fst (next_token b u))) = view b.
Proof.
  destruct u as [path inp p|rest arg]; cbn [next_token]; [apply view_file|]. unfold next_in_macro.
  destruct rest; [reflexivity|]. destruct arg; [|reflexivity]. destruct (expand _ _ _ _) as [[buf ex]|]; [|reflexivity].
  destruct (_ <? _); reflexivity.
Qed.

(** ** The table *)
Definition same_def (e e' : entry) : Prop :=
  match e, e' with
  | EnMacro i _ _, EnMacro j _ _ => i = j
  | EnLabel i a, EnLabel j a' => i = j /\ a = a'
  | EnForward i refs, EnForward j refs' => i = j /\ (refs <> [] -> refs' <> [])
  | EnUnknown, EnForward _ _ => True
  | EnUnknown, EnUnknown => True
  | _, _ => False
  end.
Lemma nodup_snoc {A} (x : A) l : NoDup l -> ~ In x l -> NoDup (l ++ [x]).
Proof.
  induction 1 as [|y l N D IH]; cbn; intros I; [repeat constructor; auto|]. constructor; [|apply IH; auto].
  intros J. apply in_app_or in J as [J|[J|[]]]; auto.
Qed.
Lemma lookup_none n tab : lookup n tab = None -> ~ In n (map fst tab).
Proof.
  induction tab as [|[k x] tab IH]; [auto|]. cbn. destruct (str_dec k n) as [->|N]; [discriminate|]. intros E [I|I]; [auto|exact (IH E I)].
Qed.
Lemma number_head c l : is_number (c :: l) = true -> (c =? 38) || (c =? 47) = false.
Proof.
  intros H. destruct ((c =? 38) || (c =? 47)) eqn:E; auto. exfalso.
  assert (C : c = 38 \/ c = 47) by lia. destruct C as [-> | ->]; discriminate H.
Qed.
Lemma keys_update n v tab : map fst (update n v tab) = map fst tab.
Proof. induction tab as [|[k x] tab IH]; [reflexivity|]. cbn. destruct (str_dec k n) as [->|]; cbn; [reflexivity|now rewrite IH]. Qed.
Lemma used_more sy pd l lp n : used sy pd n -> used (l ++ sy) (lp ++ pd) n.
Proof.
  intros [(a & s & I & R)|(sc & k & I & R)]; [left; exists a, s|right; exists sc, k]; (split; [apply in_or_app; auto|auto]).
Qed.

(** References [s] and paddings are added and the node of [n] changes. *)
Lemma strong_step sy tab pd pend pend' l lp s n v w :
  lookup n tab = Some w -> same_def (n_entry w) (n_entry v) ->
  (n_referenced w = true -> n_referenced v = true) -> (n_referenced v = false -> n_def v = n_def w) ->
  (forall x, In x l -> snd x = s) -> ref_type_ (s_type s) -> (l <> [] -> known (update n v tab) (0, s)) ->
  (forall p, In p lp -> padded (update n v tab) p) ->
  (in_use v -> used (l ++ sy) (lp ++ pd) n) ->
  (forall m d, pend = Some (m, d) -> m = n) ->
  (pending v -> pend' = Some (n, n_def v) /\ n_referenced v = false) ->
  strong sy tab pd pend -> strong (l ++ sy) (update n v tab) (lp ++ pd) pend'.
Proof.
  intros L SD RF DF F T KS LP US PN PV [K D M U PD TB KY PE].
  pose proof (lookup_update_same n v tab w L) as LN.
  assert (UU : forall m x, lookup m tab = Some x -> exists y, lookup m (update n v tab) = Some y /\ (y = x \/ (m = n /\ x = w /\ y = v))).
  { intros m x E. destruct (str_dec m n) as [->|N].
    - exists v. split; [exact LN|]. right. repeat split; congruence.
    - exists x. split; [rewrite lookup_update_other; auto|]. auto. }
  assert (BK : forall m y, lookup m (update n v tab) = Some y -> (m = n /\ y = v) \/ (m <> n /\ lookup m tab = Some y)).
  { intros m y E. destruct (str_dec m n) as [->|N]; [left; split; congruence|]. right. rewrite lookup_update_other in E by auto. auto. }
  constructor.
  - intros [a s'] I. apply in_app_or in I as [I|I].
    + assert (NE : l <> []) by (intros ->; contradiction). specialize (KS NE). pose proof (F _ I) as FE. cbn [snd] in FE. subst s'.
      unfold known in *. cbn [snd] in *. destruct T as [T|T]; rewrite T in *; exact KS.
    + specialize (K _ I). unfold known in *. cbn [fst snd] in *. destruct (s_type s'); auto.
      * destruct K as (m & x & toks & ex & E1 & E2 & E3 & E4). destruct (UU _ _ E2) as (y & E5 & [->|(-> & -> & ->)]); [eauto 9|].
        rewrite E3 in SD. destruct (n_entry v) eqn:V; try contradiction. cbn in SD. subst. exists n, v, toks0, expanding. repeat (split; auto).
        intros X. rewrite (DF X). apply E4. destruct (n_referenced w); auto. rewrite RF in X; auto.
      * destruct K as (m & x & toks & ex & E1 & E2 & E3 & E4). destruct (UU _ _ E2) as (y & E5 & [->|(-> & -> & ->)]); [eauto 9|].
        rewrite E3 in SD. destruct (n_entry v) eqn:V; try contradiction. cbn in SD. subst. exists n, v, toks0, expanding. repeat (split; auto).
      * intros G. destruct (K G) as (m & x & E1 & E2 & E3 & E4). destruct (UU _ _ E2) as (y & E5 & [->|(-> & -> & ->)]); [eauto 9|].
        rewrite E3 in SD. destruct (n_entry v) eqn:V; try contradiction. cbn in SD. destruct SD; subst. exists n, v. repeat (split; auto).
        intros X. rewrite (DF X). apply E4. destruct (n_referenced w); auto. rewrite RF in X; auto.
      * destruct (s_name s') as [m|]; [|auto]. destruct K as (x & E2 & E3). destruct (UU _ _ E2) as (y & E4 & [->|(-> & -> & ->)]); [eauto|].
        exists v. split; auto. destruct E3 as [(a' & E3 & E5)|(r & refs & E3)]; rewrite E3 in SD; destruct (n_entry v) eqn:V; try contradiction; cbn in SD; destruct SD as [SD1 SD2]; subst.
        -- left. eauto.
        -- right. destruct refs0; [exfalso; apply SD2; [discriminate|reflexivity]|eauto].
  - intros m x id a E1 E2. destruct (BK _ _ E1) as [[-> ->]|[N E3]].
    + rewrite E2 in SD. destruct (n_entry w) eqn:W; try contradiction. destruct SD; subst.
      destruct (D _ _ _ _ L W) as (y & I & R). exists y. split; [apply in_or_app; auto|auto].
    + destruct (D _ _ _ _ E3 E2) as (y & I & R). exists y. split; [apply in_or_app; auto|auto].
  - intros m x id toks ex E1 E2. destruct (BK _ _ E1) as [[-> ->]|[N E3]].
    + rewrite E2 in SD. destruct (n_entry w) eqn:W; try contradiction. cbn in SD. subst.
      destruct (M _ _ _ _ _ L W) as (b & y & I & R). exists b, y. split; [apply in_or_app; auto|auto].
    + destruct (M _ _ _ _ _ E3 E2) as (b & y & I & R). exists b, y. split; [apply in_or_app; auto|auto].
  - intros m x E1 IU. destruct (BK _ _ E1) as [[-> ->]|[N E3]]; [auto|]. apply used_more. eauto.
  - intros p I. apply in_app_or in I as [I|I]; [auto|]. destruct (PD _ I) as [X|[X|(x & id & a & E1 & E2 & E3)]]; [now left|right; now left|].
    right. right. destruct (UU _ _ E1) as (y & E4 & [->|(E0 & -> & ->)]); [eauto 8|]. rewrite E2 in SD. destruct (n_entry v) eqn:V; try contradiction.
    exists v. eauto 8.
  - intros m x E1. destruct (BK _ _ E1) as [[-> ->]|[N E3]]; eauto.
  - now rewrite keys_update.
  - intros m x E1 PX. destruct (BK _ _ E1) as [[-> ->]|[N E3]]; [auto|]. destruct (PE _ _ E3 PX) as [X _]. elim N. eauto.
Qed.
Lemma strong_pads sy tab pd lp : (forall p, In p lp -> padded tab p) -> strong sy tab pd None -> strong sy tab (lp ++ pd) None.
Proof.
  intros LP [K D M U PD TB KY PE]. constructor; auto.
  - intros n v L I. apply (used_more sy pd [] lp). eauto.
  - intros p I. apply in_app_or in I as [I|I]; auto.
Qed.
(** Symbols without a name in the table. *)
Lemma strong_free sy tab pd pend l : (forall x, In x l -> known tab x) -> strong sy tab pd pend -> strong (l ++ sy) tab pd pend.
Proof.
  intros F [K D M U PD TB KY PE]. constructor; auto.
  - intros x I. apply in_app_or in I as [I|I]; auto.
  - intros n v id a E1 E2. destruct (D _ _ _ _ E1 E2) as (y & I & R). exists y. split; auto. apply in_or_app. auto.
  - intros n v id toks ex E1 E2. destruct (M _ _ _ _ _ E1 E2) as (b & y & I & R). exists b, y. split; auto. apply in_or_app. auto.
  - intros n v L I. apply (used_more sy pd l []). eauto.
Qed.

(** A label or a macro is defined. *)
Lemma strong_def sy tab pd pend n v w a s : lookup n tab = Some w ->
  match n_entry w with EnUnknown => True | EnForward i _ => s_type s = SLabel /\ i = s_id s | _ => False end ->
  (s_type s = SLabel /\ s_gen s = false /\ n_entry v = EnLabel (s_id s) a \/ s_type s = SMacro /\ exists toks, n_entry v = EnMacro (s_id s) toks false) ->
  s_name s = Some n ->
  n_referenced v = match n_entry w with EnForward _ (_ :: _) => true | _ => false end ->
  (n_referenced v = false -> s_reg s = t_reg (n_def v)) ->
  (forall m d, pend = Some (m, d) -> m = n) ->
  strong sy tab pd pend -> strong ((a, s) :: sy) (update n v tab) pd None.
Proof.
  intros L E V N RV DV PN S. pose proof S as [K D M U PD TB KY PE].
  pose proof (lookup_update_same n v tab w L) as LN.
  assert (BK : forall m y, lookup m (update n v tab) = Some y -> (m = n /\ y = v) \/ (m <> n /\ lookup m tab = Some y)).
  { intros m y X. destruct (str_dec m n) as [->|NE]; [left; split; congruence|]. right. rewrite lookup_update_other in X by auto. auto. }
  assert (UO : forall m x, lookup m tab = Some x -> m <> n -> lookup m (update n v tab) = Some x) by (intros; now rewrite lookup_update_other).
  constructor.
  - intros [b s'] [X|X].
    + injection X as <- <-. unfold known. cbn [fst snd]. destruct V as [(T & G & V)|(T & toks & V)]; rewrite T; [intros _|]; eauto 9.
    + specialize (K _ X). unfold known in *. cbn [fst snd] in *. destruct (s_type s') eqn:T'; auto.
      * destruct K as (m & x & toks & ex & E1 & E2 & E3 & E4). destruct (str_dec m n) as [->|NE]; [rewrite L in E2; injection E2 as <-; rewrite E3 in E; contradiction|eauto 9].
      * destruct K as (m & x & toks & ex & E1 & E2 & E3 & E4). destruct (str_dec m n) as [->|NE]; [rewrite L in E2; injection E2 as <-; rewrite E3 in E; contradiction|eauto 9].
      * intros G'. destruct (K G') as (m & x & E1 & E2 & E3 & E4). destruct (str_dec m n) as [->|NE]; [rewrite L in E2; injection E2 as <-; rewrite E3 in E; contradiction|eauto 9].
      * destruct (s_name s') as [m|]; auto. destruct K as (x & E2 & E3). destruct (str_dec m n) as [->|NE]; [|eauto].
        exists v. split; auto. left. exists a. rewrite L in E2. injection E2 as <-.
        destruct E3 as [(a' & E3 & _)|(r & refs & E3)]; rewrite E3 in E; [contradiction|]. destruct E as [T ->].
        destruct V as [(_ & _ & V)|(T2 & _)]; [|congruence]. rewrite E3 in RV. auto.
  - intros m x id' a' E1 E2. destruct (BK _ _ E1) as [[-> ->]|[NE E3]].
    + destruct V as [(T & G & V)|(T & toks & V)]; rewrite V in E2; [|discriminate]. injection E2 as <- <-. exists s. split; [now left|auto].
    + destruct (D _ _ _ _ E3 E2) as (y & Y & R). exists y. split; [now right|auto].
  - intros m x id' toks' ex E1 E2. destruct (BK _ _ E1) as [[-> ->]|[NE E3]].
    + destruct V as [(T & G & V)|(T & toks & V)]; rewrite V in E2; [discriminate|]. injection E2 as <- <- <-. exists a, s. split; [now left|auto].
    + destruct (M _ _ _ _ _ E3 E2) as (b & y & Y & R). exists b, y. split; [now right|auto].
  - intros m x E1 IU. apply (used_more sy pd [(a, s)] []). destruct (BK _ _ E1) as [[-> ->]|[NE E3]]; [|eauto]. apply (U _ w L).
    destruct IU as [IU|(id & r & refs & IU)].
    + rewrite RV in IU. right. destruct (n_entry w) as [| | |i [|r refs]]; try discriminate. eauto.
    + destruct V as [(_ & _ & V)|(_ & toks & V)]; rewrite V in IU; discriminate.
  - intros p I. destruct (PD _ I) as [X|[X|(x & id & a' & E1 & E2 & E3)]]; [now left|right; now left|].
    right. right. exists x, id, a'. split; auto. apply UO; auto. intros EN. rewrite EN, L in E1. injection E1 as <-. rewrite E2 in E. exact E.
  - intros m x E1. destruct (BK _ _ E1) as [[-> ->]|[NE E3]]; eauto.
  - now rewrite keys_update.
  - intros m x E1 PX. destruct (BK _ _ E1) as [[-> ->]|[NE E3]].
    + unfold pending in PX. destruct V as [(_ & _ & V)|(_ & toks & V)]; rewrite V in PX; contradiction.
    + destruct (PE _ _ E3 PX) as [X _]. elim NE. eauto.
Qed.

(** ** Code *)
Definition P (r : ret) : Prop := fst r = true -> Strong (snd r).
Definition P3 (r : bool * basm * unit_) : Prop := fst (fst r) = true -> Strong (snd (fst r)).
Lemma P_strong r : Strong (snd r) -> P r.
Proof. intros H _. exact H. Qed.
Lemma P_fails b : P (false, b).
Proof. discriminate. Qed.
Lemma P3_fails b u : P3 (false, b, u).
Proof. discriminate. Qed.
Lemma P_andthen r g : P r -> (forall b, r = (true, b) -> Strong b -> P (g b)) -> P (andthen r g).
Proof. unfold andthen. destruct r as [[|] b]; intros A H; [apply H; auto|discriminate]. Qed.
Lemma P_view b r : view (snd r) = view b -> Strong b -> P r.
Proof. intros V S. apply P_strong. eapply strong_view; eauto. Qed.
Lemma view_andthen b r g : view (snd r) = view b -> (forall b', view b' = view b -> view (snd (g b')) = view b) -> view (snd (andthen r g)) = view b.
Proof. unfold andthen. destruct r as [[|] b']; cbn [snd]; auto. Qed.

Lemma view_emit b t v : view (snd (emit b t v)) = view b.
Proof. unfold emit. destruct (_ <? _); reflexivity. Qed.
Lemma view_emit2 b t v : view (snd (emit2 b t v)) = view b.
Proof. unfold emit2. apply view_andthen; [apply view_emit|]. intros. now rewrite view_emit. Qed.
Lemma view_symbol b a s : match s_type s with SMacro | SLabel | SLabelRef | SMacroRef => False | _ => True end -> view (put_symbol b a s) = view b.
Proof. intros H. apply view_log. unfold quiet_ev, syms_of. destruct (s_type s); auto; contradiction. Qed.
Lemma view_opcode b t op r : view (snd (emit_opcode b t op r)) = view b.
Proof. unfold emit_opcode. apply view_andthen; [apply view_emit|]. intros. cbn [snd]. rewrite view_symbol; [auto|exact Logic.I]. Qed.
Lemma view_byte b t v r : view (snd (emit_byte b t v r)) = view b.
Proof. unfold emit_byte. apply view_andthen; [apply view_emit|]. intros. cbn [snd]. rewrite view_symbol; [auto|exact Logic.I]. Qed.
Lemma view_short b t v r : view (snd (emit_short b t v r)) = view b.
Proof. unfold emit_short. apply view_andthen; [apply view_emit2|]. intros. cbn [snd]. unfold put_symbol2. now rewrite !view_symbol. Qed.
Lemma view_calc b t ty from to : view (snd (calculate_addr b t ty from to)) = view b.
Proof. destruct ty; cbn; auto. destruct (_ <? _); reflexivity. Qed.


(** Only symbols [s] are added, at least one if all went well. *)
Definition grown (s : symbol) (b b' : basm) (ok : bool) : Prop :=
  exists l, (forall x, In x l -> snd x = s) /\ syms (b_out b') = l ++ syms (b_out b) /\
    b_symtab b' = b_symtab b /\ pads (b_out b') = pads (b_out b) /\ (ok = true -> l <> []).
Lemma grown_not s b b' : view b' = view b -> grown s b b' false.
Proof. unfold view. intros [= A B C]. exists []. split; [intros x []|]. repeat split; auto. discriminate. Qed.
Lemma grown_view s b b' b'' ok : view b' = view b -> grown s b' b'' ok -> grown s b b'' ok.
Proof. unfold view. intros [= A B C] (l & F & A1 & A2 & A3 & A4). exists l. rewrite <- A, <- B, <- C. auto. Qed.
Lemma ref_syms a s : ref_type_ (s_type s) -> syms_of (ESym a s) = [(a, s)].
Proof. intros [T|T]; unfold syms_of; now rewrite T. Qed.
Lemma grown_symbol s b a : ref_type_ (s_type s) -> grown s b (put_symbol b a s) true.
Proof.
  intros T. exists [(u16 a, s)]. split; [intros x [<-|[]]; auto|]. repeat split; auto; [|discriminate].
  unfold syms, put_symbol. cbn [log b_out flat_map]. now rewrite ref_syms.
Qed.
Lemma grown_symbol2 s b a : ref_type_ (s_type s) -> grown s b (put_symbol2 b a s) true.
Proof.
  intros T. unfold put_symbol2. destruct (grown_symbol s b a T) as (l & F & A1 & A2 & A3 & A4).
  match goal with |- grown _ _ (put_symbol ?c ?d _) _ => destruct (grown_symbol s c d T) as (l' & F' & B1 & B2 & B3 & B4) end.
  exists (l' ++ l). split; [intros x X; apply in_app_or in X as [X|X]; auto|]. rewrite B1, A1, app_assoc. repeat split; try congruence.
  intros _ E. apply app_eq_nil in E as [E _]. exact (B4 eq_refl E).
Qed.
Lemma grown_emit_addr b t ty size a s : ref_type_ (s_type s) -> grown s b (snd (emit_addr b t ty size a (Some s))) (fst (emit_addr b t ty size a (Some s))).
Proof.
  intros T. unfold emit_addr. destruct size.
  - destruct (match ty with RRel => _ | _ => _ end); [now apply grown_not|].
    pose proof (view_emit b t (Z.land (u16 a) 255)) as E. destruct (emit _ _ _) as [[|] b']; cbn [andthen fst snd] in *; [|now apply grown_not].
    eapply grown_view; [exact E|now apply grown_symbol].
  - pose proof (view_emit2 b t (u16 a)) as E. destruct (emit2 _ _ _) as [[|] b']; cbn [andthen fst snd] in *; [|now apply grown_not].
    eapply grown_view; [exact E|now apply grown_symbol2].
Qed.
Lemma view_emit_addr b t ty size a : view (snd (emit_addr b t ty size a None)) = view b.
Proof.
  unfold emit_addr. destruct size.
  - destruct (match ty with RRel => _ | _ => _ end); [reflexivity|]. apply view_andthen; [apply view_emit|auto].
  - apply view_andthen; [apply view_emit2|auto].
Qed.
Lemma grown_backward b t ty size n id to r : let x := emit_backward_ref b t ty size n id to true r in
  grown (mkSymbol SLabelRef false id n (word_region (t_reg t) r)) b (snd x) (fst x).
Proof.
  cbn zeta. unfold emit_backward_ref. pose proof (view_calc b t ty (b_addr b) to) as V.
  destruct (calculate_addr _ _ _ _ _) as [a b']. cbn [snd] in V. eapply grown_view; [exact V|]. apply grown_emit_addr. now left.
Qed.
(** A reference without a name. *)
Lemma grown_free s b b' ok : s_type s = SLabelRef -> s_name s = None -> grown s b b' ok -> Strong b -> Strong b'.
Proof.
  intros T N (l & F & A1 & A2 & A3 & _) S. unfold Strong, StrongP in *. rewrite A1, A2, A3. apply strong_free; auto.
  intros x I. unfold known. now rewrite (F x I), T, N.
Qed.
(** A reference to a label that is defined. *)
Lemma P_backward b t ty size n v id a r : Strong b -> lookup n (b_symtab b) = Some v -> n_entry v = EnLabel id a ->
  forall b0, view b0 = view (set_node b n (set_referenced v true)) -> P (emit_backward_ref b0 t ty size (Some n) id a true r).
Proof.
  intros S L E b0 V0. pose proof (grown_backward b0 t ty size (Some n) id a r) as G. cbn zeta in G.
  intros OK. rewrite OK in G. destruct G as (l & F & A1 & A2 & A3 & A4). unfold view in V0. injection V0 as V1 V2 V3.
  unfold Strong, StrongP in *. rewrite A1, A2, A3, V1, V2, V3. cbn [set_node set_symtab b_out b_symtab].
  eapply (strong_step _ _ _ None None l []); [exact L| | | |exact F| | | | | | |exact S]; try discriminate.
  - cbn. rewrite E. cbn. auto.
  - reflexivity.
  - now left.
  - intros _. unfold known. cbn [snd s_type s_name s_id]. eexists. split; [eapply lookup_update_same; eauto|]. left. cbn. eauto.
  - intros p [].
  - intros _. left. destruct l as [|[a' s] l]; [elim (A4 eq_refl); reflexivity|]. specialize (F _ (or_introl eq_refl)). cbn in F. subst s.
    exists a'. eexists. split; [now left|]. split; [now left|reflexivity].
  - intros X. unfold pending in X. cbn in X. rewrite E in X. contradiction.
Qed.
Lemma view_backward b t ty size n id to r : view (snd (emit_backward_ref b t ty size n id to false r)) = view b.
Proof.
  unfold emit_backward_ref. pose proof (view_calc b t ty (b_addr b) to) as V.
  destruct (calculate_addr _ _ _ _ _) as [a b']. cbn [snd] in V. now rewrite view_emit_addr.
Qed.
Lemma view_patch refs : forall b n id to, view (patch b refs n id to) = view b.
Proof.
  induction refs as [|x refs IH]; intros; cbn [patch]; auto.
  pose proof (view_backward (set_addr b (f_addr x)) (f_tok x) (f_type x) (f_size x) (Some n) id to false) as V.
  destruct (emit_backward_ref _ _ _ _ _ _ _ _ _) as [ok b']. now rewrite IH.
Qed.
Lemma grown_placeholder b t size n r : let x := emit_placeholder b t size n r in
  grown (mkSymbol SLabelRef false (match n with Some (_, id) => id | None => u16 (b_labels b + 1) end) (option_map fst n) (word_region (t_reg t) r)) b (snd x) (fst x).
Proof.
  cbn zeta. unfold emit_placeholder. destruct n as [[n id]|]; cbn [option_map fst]; destruct size; cbn zeta.
  - pose proof (view_emit b t 1) as E. destruct (emit _ _ _) as [[|] b']; cbn [andthen fst snd] in *; [|now apply grown_not].
    eapply grown_view; [exact E|apply grown_symbol; now left].
  - pose proof (view_emit2 b t 1) as E. destruct (emit2 _ _ _) as [[|] b']; cbn [andthen fst snd] in *; [|now apply grown_not].
    eapply grown_view; [exact E|apply grown_symbol2; now left].
  - match goal with |- context [emit ?c t 1] => pose proof (view_emit c t 1) as E; destruct (emit c t 1) as [[|] b'] end; cbn [andthen fst snd] in *; [|now apply grown_not].
    eapply grown_view; [exact E|apply grown_symbol; now left].
  - match goal with |- context [emit2 ?c t 1] => pose proof (view_emit2 c t 1) as E; destruct (emit2 c t 1) as [[|] b'] end; cbn [andthen fst snd] in *; [|now apply grown_not].
    eapply grown_view; [exact E|apply grown_symbol2; now left].
Qed.

Lemma P_forward b t t0 ty size n v r : lookup n (b_symtab b) = Some v -> match n_entry v with EnUnknown | EnForward _ _ => True | _ => False end ->
  StrongP (Some (n, t0)) b -> P (emit_forward_ref b t ty size n v r).
Proof.
  intros L E S. unfold emit_forward_ref.
  assert (G : forall id refs v b, StrongP (Some (n, t0)) b -> lookup n (b_symtab b) = Some v -> n_entry v = EnForward id refs -> P (let addr := b_addr b in
      emit_placeholder b t size (Some (n, id)) r ;; b =>
      (true, set_node b n (set_entry v (EnForward id (mkRef t 0 0 addr ty size :: refs)))))).
  { clear. intros id refs v b S L E. cbn zeta. pose proof (grown_placeholder b t size (Some (n, id)) r) as G. cbn [option_map fst] in G. cbn zeta in G.
    destruct (emit_placeholder _ _ _ _ _) as [[|] b']; cbn [fst snd] in G; [|discriminate].
    cbn [andthen]. apply P_strong. cbn [snd]. destruct G as (l & F & A1 & A2 & A3 & A4). unfold Strong, StrongP in *. cbn [set_node set_symtab b_out b_symtab].
    rewrite A1, A2, A3.
    eapply (strong_step _ _ _ _ None l []); [exact L| | | |exact F| | | | | | |exact S].
    - rewrite E. cbn. split; auto. discriminate.
    - auto.
    - auto.
    - now left.
    - intros _. unfold known. cbn [snd s_type s_name s_id]. eexists. split; [eapply lookup_update_same; eauto|]. right. cbn [set_entry n_entry]. eauto.
    - intros p [].
    - intros _. left. destruct l as [|[a' s] l]; [elim (A4 eq_refl); reflexivity|]. specialize (F _ (or_introl eq_refl)). cbn in F. subst s.
      exists a'. eexists. split; [now left|]. split; [now left|reflexivity].
    - intros m d [= <- _]. reflexivity.
    - intros []. }
  destruct (n_entry v) as [|id toks ex|id a|id refs] eqn:X; try contradiction.
  - cbn [set_entry n_entry]. apply (G _ []); [|cbn; eapply lookup_update_same; eauto|reflexivity].
    unfold StrongP in *. cbn [set_node set_symtab set_labels b_out b_symtab].
    destruct (s_pend _ _ _ _ S _ _ L) as [PN RN]; [unfold pending; now rewrite X|].
    eapply (strong_step _ _ _ _ _ [] [] (mkSymbol SLabelRef false 0 None (t_reg t))); [exact L| | | | | | | | | | |exact S].
    + rewrite X. exact Logic.I.
    + auto.
    + auto.
    + intros x [].
    + now left.
    + congruence.
    + intros p [].
    + intros [IU|(i & r0 & refs & IU)]; [cbn in IU; congruence|discriminate IU].
    + intros m d [= <- _]. reflexivity.
    + intros _. cbn. auto.
  - rewrite X. apply G; auto.
Qed.
Lemma P_lambda_ref b t ty size r : Strong b -> P (emit_lambda_ref b t ty size r).
Proof.
  intros S. unfold emit_lambda_ref. cbn zeta. pose proof (grown_placeholder b t size None r) as G. cbn zeta in G. cbn [option_map] in G.
  destruct (emit_placeholder _ _ _ _ _) as [[|] b']; cbn [fst snd andthen] in *; [|discriminate]. apply P_strong.
  refine (grown_free _ _ _ _ _ _ G S); reflexivity.
Qed.

Lemma find_names b t n : Strong b ->
  match find_or_create b t n with
  | (None, b') => view b' = view b
  | (Some v, b') => StrongP (Some (n, t)) b' /\ lookup n (b_symtab b') = Some v /\ (pending v \/ Strong b')
  end.
Proof.
  intros S. unfold find_or_create. destruct n as [|x n]; [reflexivity|]. destruct (is_runic x) eqn:RU; [reflexivity|].
  destruct (parse_opcode _); [reflexivity|]. destruct (is_number _) eqn:NU; [reflexivity|].
  destruct (lookup _ _) as [v|] eqn:L; [auto using strong_any|].
  cbn [set_symtab b_symtab]. rewrite lookup_app, L. split; [|split; [destruct (str_dec (x :: n) (x :: n)); [reflexivity|contradiction]|left; exact Logic.I]].
  unfold Strong, StrongP in *. cbn [set_symtab b_out b_symtab]. destruct S as [K D M U PD TB KY PE].
  assert (UU : forall m x', lookup m (b_symtab b) = Some x' -> lookup m (b_symtab b ++ [(x :: n, mkNode t false EnUnknown)]) = Some x') by (intros m x' E; now rewrite lookup_app, E).
  assert (BK : forall m y, lookup m (b_symtab b ++ [(x :: n, mkNode t false EnUnknown)]) = Some y -> lookup m (b_symtab b) = Some y \/ (m = x :: n /\ y = mkNode t false EnUnknown)).
  { intros m y E. rewrite lookup_app in E. destruct (lookup m (b_symtab b)); [auto|]. destruct (str_dec (x :: n) m); [|discriminate]. right. split; congruence. }
  constructor; auto.
  - intros [a s] I. specialize (K _ I). unfold known in *. cbn [fst snd] in *. destruct (s_type s); auto.
    + destruct K as (m & y & toks & ex & E1 & E2 & E3 & E4). eauto 9.
    + destruct K as (m & y & toks & ex & E1 & E2 & E3 & E4). eauto 9.
    + intros G. destruct (K G) as (m & y & E1 & E2 & E3 & E4). eauto 9.
    + destruct (s_name s); auto. destruct K as (y & E1 & E2). eauto.
  - intros m v id a E1 E2. destruct (BK _ _ E1) as [E|[-> ->]]; [eauto|discriminate].
  - intros m v id toks ex E1 E2. destruct (BK _ _ E1) as [E|[-> ->]]; [eauto|discriminate].
  - intros m v E1 IU. destruct (BK _ _ E1) as [E|[-> ->]]; [eauto|]. destruct IU as [IU|(i & r & refs & IU)]; discriminate IU.
  - intros p I. destruct (PD _ I) as [X|[X|(y & id & a & E1 & E2 & E3)]]; [now left|right; now left|]. right. right. eauto 8.
  - intros m v E1. destruct (BK _ _ E1) as [E|[-> ->]]; [eauto|]. split; [exact NU|]. intros [= -> _]. discriminate RU.
  - rewrite map_app. cbn [map fst]. apply nodup_snoc; auto. now apply lookup_none.
  - intros m v E1 PX. destruct (BK _ _ E1) as [E|[-> ->]]; [destruct (PE _ _ E PX); discriminate|]. auto.
Qed.

Lemma u16_idem a : is_short a -> u16 a = a.
Proof. intros H. unfold u16, is_short in *. now apply Z.mod_small. Qed.
Lemma P_define b t n v id refs : is_short (b_addr b) -> lookup n (b_symtab b) = Some v ->
  match n_entry v with EnUnknown => refs = [] | EnForward i rs => i = id /\ rs = refs | _ => False end -> StrongP (Some (n, t)) b -> P (define_label b t n v id refs).
Proof.
  intros A L E S. apply P_strong. unfold define_label. cbn zeta. cbn [snd].
  set (b1 := set_node b n (set_entry v (EnLabel id (b_addr b)))).
  pose proof (view_patch refs b1 n id (b_addr b)) as V. set (b2 := patch b1 refs n id (b_addr b)) in *.
  unfold view in V. injection V as V1 V2 V3. unfold Strong, StrongP in *. cbn [put_symbol log set_addr set_node set_symtab b_out b_symtab].
  change (syms (ESym (u16 (b_addr b)) (mkSymbol SLabel false id (Some n) (t_reg t)) :: b_out b2)) with ((u16 (b_addr b), mkSymbol SLabel false id (Some n) (t_reg t)) :: syms (b_out b2)).
  change (pads (ESym (u16 (b_addr b)) (mkSymbol SLabel false id (Some n) (t_reg t)) :: b_out b2)) with (pads (b_out b2)).
  rewrite V1, V2, V3, u16_idem by auto. cbn [b1 set_node set_symtab b_out b_symtab].
  assert (UU : forall x y l, update n x (update n y l) = update n x l).
  { clear. intros x y. induction l as [|[k w] l IH]; [reflexivity|]. cbn. destruct (str_dec k n) eqn:D; cbn; rewrite D; [reflexivity|]. now rewrite IH. }
  rewrite UU. eapply strong_def; eauto.
  - destruct (n_entry v); auto. destruct E. auto.
  - cbn [n_referenced]. destruct (n_entry v) as [| | |i [|r rs]]; try contradiction; [now rewrite E|destruct E as [_ <-]; reflexivity|destruct E as [_ <-]; reflexivity].
  - cbn [n_referenced n_def s_reg]. intros X. assert (PX : pending v).
    { unfold pending. destruct (n_entry v) as [| | |i [|r rs]]; try contradiction; auto. destruct E as [_ <-]. discriminate X. }
    destruct (s_pend _ _ _ _ S _ _ L PX) as [[= <-] _]. reflexivity.
  - intros m d [= <- _]. reflexivity.
Qed.
Lemma P_register b t n : is_short (b_addr b) -> Strong b -> P (register_label b t n).
Proof.
  intros A S. unfold register_label. pose proof (find_names b t n S) as F.
  assert (AD : b_addr (snd (find_or_create b t n)) = b_addr b).
  { unfold find_or_create. destruct n; [reflexivity|]. destruct (is_runic _); [reflexivity|]. destruct (parse_opcode _); [reflexivity|].
    destruct (is_number _); [reflexivity|]. destruct (lookup _ _); reflexivity. }
  destruct (find_or_create b t n) as [[v|] b']; cbn [snd] in AD.
  - destruct F as (S' & L & _). destruct (n_entry v) eqn:E.
    + apply P_define; cbn [set_labels b_addr b_symtab]; auto; [now rewrite AD|now rewrite E].
    + apply P_fails.
    + apply P_fails.
    + apply P_define; auto; [now rewrite AD|now rewrite E].
  - now apply (P_view b).
Qed.
Lemma view_local_name b t l : view (snd (resolve_local_name b t l)) = view b.
Proof. unfold resolve_local_name. destruct (_ <? _); reflexivity. Qed.
Lemma view_label_ref b t l : view (snd (resolve_label_ref b t l)) = view b.
Proof. unfold resolve_label_ref. destruct l; [reflexivity|]. destruct (_ || _); [apply view_local_name|reflexivity]. Qed.
Lemma view_pop_at b : view (snd (pop_at_label b)) = view b.
Proof. unfold pop_at_label. destruct (b_ats b); reflexivity. Qed.
Lemma P_label_ref b t ty size n r : Strong b -> P (emit_label_ref b t ty size n r).
Proof.
  intros S. unfold emit_label_ref. destruct (str_eqb n [123]); [now apply P_lambda_ref|].
  pose proof (view_label_ref b t n) as V. destruct (resolve_label_ref b t n) as [[full|] b1]; cbn [snd] in V; [|apply P_fails].
  assert (S1 : Strong b1) by (eapply strong_view; eauto).
  destruct (str_eqb full [64]).
  - pose proof (view_pop_at b1) as Q. destruct (pop_at_label b1) as [[l|] b2]; cbn [snd] in Q; [|apply P_fails].
    apply P_strong. pose proof (grown_backward b2 t ty size None (f_label l) (f_addr l) r) as G. cbn zeta in G.
    refine (grown_free _ _ _ _ _ _ G _); [reflexivity|reflexivity|]. eapply strong_view; eauto.
  - destruct full as [|x full]; [apply P_fails|]. destruct (is_runic x); [apply P_fails|].
    pose proof (find_names b1 t (x :: full) S1) as F. destruct (find_or_create b1 t (x :: full)) as [[v|] b2]; [|apply P_fails].
    destruct F as (S2 & L & S3). destruct (n_entry v) as [|id toks ex|id a|id refs] eqn:E.
    + eapply P_forward; eauto. now rewrite E.
    + apply P_fails.
    + destruct S3 as [S3|S3]; [unfold pending in S3; rewrite E in S3; contradiction|]. eapply P_backward; eauto.
    + eapply P_forward; eauto. now rewrite E.
Qed.
Lemma P_jsi b t : Strong b -> P (emit_jsi b t).
Proof.
  intros S. unfold emit_jsi. apply P_andthen; [apply (P_view b); auto; apply view_opcode|]. intros. now apply P_label_ref.
Qed.

Lemma view_comment_loop fuel : forall b u d, view (snd (fst (comment_loop fuel b u d))) = view b.
Proof.
  induction fuel as [|fuel IH]; intros; cbn [comment_loop]; [reflexivity|]. destruct (_ <=? _); [reflexivity|].
  pose proof (view_next b u) as N. destruct (next_token b u) as [[[t|] b1] u1]; cbn [fst snd] in N; [|exact N].
  destruct (t_lex t); [exact N|]. rewrite IH, view_symbol; [exact N|exact Logic.I].
Qed.
Lemma view_comment b t u : view (snd (fst (process_comment b t u))) = view b.
Proof.
  unfold process_comment. match goal with |- context [comment_loop ?f ?x ?u ?d] => pose proof (view_comment_loop f x u d) as V; destruct (comment_loop f x u d) as [[ok b1] u1] end.
  cbn [fst snd] in V. rewrite view_symbol in V by exact Logic.I. destruct ok; exact V.
Qed.
Lemma view_macro_open fuel : forall b t u, view (snd (fst (macro_open fuel b t u))) = view b.
Proof.
  induction fuel as [|fuel IH]; intros; cbn [macro_open]; [reflexivity|].
  pose proof (view_next b u) as N. destruct (next_token b u) as [[[x|] b1] u1]; cbn [fst snd] in N; [|exact N].
  cbn zeta. destruct (_ =? 40).
  - pose proof (view_comment b1 x u1) as V. destruct (process_comment b1 x u1) as [[[|] b2] u2]; cbn [fst snd] in V |- *; [now rewrite IH, V|now rewrite V].
  - assert (M : view (process_mark b1 x) = view b) by (unfold process_mark; rewrite view_symbol; [exact N|exact Logic.I]).
    destruct (_ =? 91); [now rewrite IH|]. destruct (_ =? 93); [destruct (_ =? 1); [now rewrite IH|exact N]|].
    destruct (_ =? 123); [destruct (_ =? 1)|]; exact N.
Qed.
Lemma view_macro_body fuel : forall b t u d l, view (snd (fst (macro_body fuel b t u d l))) = view b.
Proof.
  induction fuel as [|fuel IH]; intros; cbn [macro_body]; [reflexivity|]. destruct (_ <=? _); [reflexivity|].
  pose proof (view_next b u) as N. destruct (next_token b u) as [[[x|] b1] u1]; cbn [fst snd] in N; [|exact N].
  destruct (t_lex x); [exact N|]. destruct (_ =? 37); [exact N|]. cbn zeta. now rewrite IH.
Qed.
Lemma P_create_macro b t u n v : lookup n (b_symtab b) = Some v -> n_entry v = EnUnknown -> StrongP (Some (n, t)) b -> P3 (create_macro b t u n v).
Proof.
  intros L E S. unfold create_macro. cbn zeta. set (id := u16 (b_macros b + 1)).
  set (b1 := put_symbol (set_macros b id) 0 (mkSymbol SMacro false id (Some n) (t_reg t))).
  pose proof (view_macro_open (unit_fuel u) b1 t u) as V1. destruct (macro_open _ _ _ _) as [[[|] b2] u2]; cbn [fst snd] in V1; [|apply P3_fails].
  pose proof (view_macro_body (unit_fuel u2) b2 t u2 1 []) as V2. destruct (macro_body _ _ _ _ _ _) as [[[toks|] b3] u3]; cbn [fst snd] in V2;
    rewrite V1 in V2; [|apply P3_fails].
  unfold view in V2. injection V2 as A1 A2 A3. intros _. cbn [fst snd].
  unfold Strong, StrongP in *. cbn [set_node set_symtab b_out b_symtab]. rewrite A1, A2, A3.
  change (syms (b_out b1)) with ((u16 0, mkSymbol SMacro false id (Some n) (t_reg t)) :: syms (b_out b)).
  change (pads (b_out b1)) with (pads (b_out b)). change (b_symtab b1) with (b_symtab b).
  destruct (s_pend _ _ _ _ S _ _ L) as [[= ->] RN]; [unfold pending; now rewrite E|].
  eapply strong_def; eauto; [now rewrite E|right; split; [reflexivity|eexists; reflexivity]|cbn; now rewrite E|].
  intros m d [= <- _]. reflexivity.
Qed.
Lemma P3_view b r : view (snd (fst r)) = view b -> Strong b -> P3 r.
Proof. intros V S _. eapply strong_view; eauto. Qed.
Lemma P_macro b t u : Strong b -> P3 (process_macro b t u).
Proof.
  intros S. unfold process_macro. pose proof (find_names b t (pop_front (t_lex t)) S) as F.
  destruct (find_or_create _ _ _) as [[v|] b']; [|apply P3_fails]. destruct F as (S' & L & _).
  destruct (n_entry v) eqn:E; try apply P3_fails. now apply P_create_macro.
Qed.
Lemma view_make_name b id : view (snd (make_lambda_name b id)) = view b.
Proof. unfold make_lambda_name. cbn [snd]. destruct (_ <=? _); reflexivity. Qed.
Lemma strong_generated b a s : s_type s = SLabel -> s_gen s = true -> Strong b -> Strong (put_symbol b a s).
Proof.
  intros T G S. unfold Strong, StrongP in *. cbn [put_symbol log b_out b_symtab]. unfold syms, pads. cbn [flat_map syms_of pads_of]. rewrite T.
  apply (strong_free _ _ _ _ [(u16 a, s)]); auto. intros x [<-|[]]. unfold known. cbn [snd]. rewrite T. congruence.
Qed.
Lemma P_global b t : is_short (b_addr b) -> Strong b -> P (process_global_label b t).
Proof.
  intros A S. unfold process_global_label. destruct (str_eqb _ _).
  - cbn zeta. match goal with |- context [make_lambda_name ?x ?i] => pose proof (view_make_name x i) as V; destruct (make_lambda_name x i) as [nm b'] end.
    cbn [snd] in V. apply P_strong. cbn [snd]. apply strong_generated; auto. eapply strong_view; [exact V|]. exact S.
  - apply P_andthen; [now apply P_register|]. intros b' _ S'. now apply P_strong.
Qed.
Lemma P_local b t : is_short (b_addr b) -> Strong b -> P (process_local_label b t).
Proof.
  intros A S. unfold process_local_label, resolve_local_name. destruct (_ <? _); [now apply P_strong|]. now apply P_register.
Qed.
(** A padding, right after its token. *)
Lemma padding_names b c l t a : t_lex t = c :: l -> c = 124 \/ c = 36 -> Strong b ->
  forall x, fst (resolve_padding (log b (ETok (b_scope b) a (t_lex t))) t) = Some x ->
  Strong (snd (resolve_padding (log b (ETok (b_scope b) a (t_lex t))) t)).
Proof.
  intros T C S z. set (b0 := log b _).
  assert (SY : syms (b_out b0) = syms (b_out b)) by reflexivity.
  assert (PA : pads (b_out b0) = [(b_scope b, l)] ++ pads (b_out b)).
  { unfold b0, pads. rewrite T. cbn [log b_out flat_map pads_of]. destruct C as [-> | ->]; reflexivity. }
  assert (FREE : padded (b_symtab b) (b_scope b, l) -> forall b', view b' = view b0 -> Strong b').
  { intros PD b' V. eapply strong_view; [exact V|]. unfold Strong, StrongP in *. rewrite SY, PA. apply strong_pads; auto. intros p [<-|[]]. exact PD. }
  unfold resolve_padding. rewrite T. cbn [pop_front tl]. destruct l as [|x s]; [discriminate|].
  destruct (is_number _) eqn:NU.
  - destruct (parse_number _) as [m|[n k]]; [discriminate|]. intros _. apply FREE; [left; exact NU|reflexivity].
  - assert (FN : forall full b1, resolve_label_ref b0 t (x :: s) = (Some full, b1) -> full = full_name (b_scope b) (x :: s) /\ b1 = b0).
    { intros full b1. unfold resolve_label_ref, resolve_local_name, full_name. destruct ((x =? 38) || (x =? 47)) eqn:CH.
      - destruct (_ <? _); [discriminate|]. intros [= <- <-]. cbn. split; auto.
      - intros [= <- <-]. split; auto. }
    destruct (resolve_label_ref _ _ _) as [[full|] b1]; [|discriminate]. destruct (FN _ _ eq_refl) as [-> ->]. clear FN.
    destruct (str_eqb _ [64]) eqn:AT.
    + pose proof (view_pop_at b0) as Q. destruct (pop_at_label b0) as [[r|] b2]; [|discriminate]. cbn [snd] in Q. intros _. apply FREE; [|exact Q].
      right. left. apply str_eqb_eq in AT. exact AT.
    + change (b_symtab b0) with (b_symtab b). set (full := full_name (b_scope b) (x :: s)) in *. destruct (lookup full (b_symtab b)) as [v|] eqn:L; [|discriminate]. destruct (n_entry v) as [| |id ad|] eqn:E; try discriminate.
      intros _. cbn [snd]. unfold Strong, StrongP in *. cbn [set_node set_symtab b_out b_symtab]. rewrite SY, PA.
      eapply (strong_step _ _ _ None None [] [(b_scope b, x :: s)] (mkSymbol SLabelRef false 0 None (t_reg t))); [exact L| | | | | | | | | | |exact S]; try discriminate.
      * cbn. rewrite E. cbn. auto.
      * reflexivity.
      * intros y [].
      * now left.
      * congruence.
      * intros p [<-|[]]. right. right. eexists. exists id, ad. split; [eapply lookup_update_same; exact L|]. cbn. auto.
      * intros _. right. exists (b_scope b), (x :: s). split; [now left|reflexivity].
      * intros X. unfold pending in X. cbn in X. rewrite E in X. contradiction.
Qed.
Lemma P_abs b c l t a : t_lex t = c :: l -> c = 124 \/ c = 36 -> Strong b -> P (process_abs_padding (log b (ETok (b_scope b) a (t_lex t))) t).
Proof.
  intros T C S. pose proof (padding_names b c l t a T C S) as Q. unfold process_abs_padding. destruct (resolve_padding _ _) as [[n|] b']; [|apply P_fails].
  apply P_strong. exact (Q _ eq_refl).
Qed.
Lemma P_rel b c l t a : t_lex t = c :: l -> c = 124 \/ c = 36 -> Strong b -> P (process_rel_padding (log b (ETok (b_scope b) a (t_lex t))) t).
Proof.
  intros T C S. pose proof (padding_names b c l t a T C S) as Q. unfold process_rel_padding. destruct (resolve_padding _ _) as [[n|] b']; [|apply P_fails].
  apply P_strong. specialize (Q _ eq_refl). cbn [snd] in *. destruct (_ <? _); exact Q.
Qed.
Lemma view_lit b t : view (snd (process_lit_number b t)) = view b.
Proof.
  unfold process_lit_number. destruct (literal _) as [m|[n z]]; [reflexivity|].
  destruct (_ =? 1); (apply view_andthen; [apply view_opcode|]); intros b' V; [now rewrite view_byte|now rewrite view_short].
Qed.
Lemma view_raw b t : view (snd (process_raw_number b t)) = view b.
Proof. unfold process_raw_number. destruct (literal _) as [m|[n z]]; [reflexivity|]. destruct (_ =? 1); [apply view_byte|apply view_short]. Qed.
Lemma P_close b t : Strong b -> P (process_lambda_close b t).
Proof.
  intros S. unfold process_lambda_close. destruct (b_lambdas b) as [|x rest] eqn:LM; [apply P_fails|]. cbn zeta.
  pose proof (view_calc b (f_tok x) (f_type x) (f_addr x) (b_addr b)) as V. destruct (calculate_addr _ _ _ _ _) as [a b']. cbn [snd] in V.
  pose proof (view_emit_addr (set_addr b' (f_addr x)) (f_tok x) (f_type x) (f_size x) a) as V2.
  change (view (set_addr b' (f_addr x))) with (view b') in V2. rewrite V in V2.
  apply P_andthen; [now apply (P_view b)|]. intros b2 E S2.
  pose proof (view_make_name (set_addr b2 (b_addr b)) (f_lambda x)) as V3. destruct (make_lambda_name _ _) as [n b3]. cbn [snd] in V3.
  apply P_strong. cbn [snd]. match goal with |- Strong (set_lambdas ?y _) => change (Strong y) | _ => idtac end.
  apply strong_generated; auto. eapply strong_view; [exact V3|exact S2].
Qed.
Lemma view_emit_text s : forall b t sym a, s_type sym = SText -> view (snd (emit_text b t sym a s)) = view b.
Proof.
  induction s as [|x s IH]; intros b t sym a T; cbn [emit_text]; [reflexivity|]. apply view_andthen; [apply view_emit|]. intros b' V.
  rewrite IH, view_symbol; auto. now rewrite T.
Qed.
Lemma view_text b t : view (snd (process_text b t)) = view b.
Proof. unfold process_text. destruct (_ <=? 1); [reflexivity|]. now apply view_emit_text. Qed.

(** ** Units *)
Section Nested.
Variable fs : files.
Variable pu : basm -> unit_ -> ret.
Variable level : Z.
Hypothesis PU : forall b u, wf b -> unit_ok u -> b_depth b = level + 1 -> level < MAX_PREPROCESSOR_DEPTH -> npost b (pu b u).
Hypothesis PS : forall b u, wf b -> unit_ok u -> b_depth b = level + 1 -> level < MAX_PREPROCESSOR_DEPTH -> Strong b -> P (pu b u).

Lemma P_file (b : basm) path : Strong b ->
  (forall c, P (pu (log b (EOpen path)) (UFile path c (mkPos 1 1 0)))) -> P (process_file fs pu b path).
Proof.
  intros S H. unfold process_file. destruct (find_file fs path) as [c|]; [|now apply P_strong].
  specialize (H c). cbn zeta. destruct (pu _ _) as [ok b1]. exact H.
Qed.
Lemma P_include b n t : wf b -> b_depth b = level -> level < MAX_PREPROCESSOR_DEPTH -> Strong b -> P (process_include fs pu b n t).
Proof.
  intros W D LM S. unfold process_include. destruct (existsb _ _); [now apply P_strong|]. cbn zeta.
  set (b1 := set_includes b _). set (b2 := set_depth b1 (b_depth b1 + 1)).
  assert (W2 : wf b2) by (apply wf_set_depth; [apply wf_includes; auto|pose proof (wf_depth _ W); cbn; lia]).
  assert (C3 : P (process_file fs pu b2 n)).
  { apply P_file; [exact S|]. intros c. apply PS; cbn; auto; [apply wf_log; auto|lia]. }
  destruct (process_file fs pu b2 n) as [ok b3]. destruct ok; exact C3.
Qed.
Lemma P_run_macro b t n v id toks ex arg u : Forall tok_ok toks -> wf b -> b_depth b = level -> level < MAX_PREPROCESSOR_DEPTH ->
  match arg with Some a => tok_ok a | None => True end -> lookup n (b_symtab b) = Some v -> n_entry v = EnMacro id toks ex -> n_referenced v = true ->
  Strong b -> P3 (run_macro pu b t n v id toks arg u).
Proof.
  intros T W D LM A L E RV S. unfold run_macro. set (b2 := set_node _ _ _). set (b3 := set_depth b2 _).
  assert (STEP : forall b' x ex', lookup n (b_symtab b') = Some x -> (exists tk e, n_entry x = EnMacro id tk e) -> n_referenced x = true -> Strong b' ->
    Strong (set_node b' n (set_entry v (EnMacro id toks ex')))).
  { intros b' x ex' L' (tk & e & E') RX S'. pose proof S' as [_ _ _ SU _ _ _ _]. unfold Strong, StrongP in *. cbn [set_node set_symtab b_out b_symtab].
    eapply (strong_step _ _ _ None None [] [] (mkSymbol SMacroRef false 0 None (t_reg t))); [exact L'| | | | | | | | | | |exact S']; try discriminate.
    - rewrite E'. reflexivity.
    - intros _. exact RV.
    - cbn. congruence.
    - intros y [].
    - now right.
    - congruence.
    - intros p [].
    - intros _. eapply SU; [exact L'|now left].
    - intros []. }
  assert (S2 : Strong b2) by (apply (STEP b v true); eauto).
  assert (W3 : wf b3).
  { apply wf_set_depth; [apply wf_set_node; auto|]. cbn. pose proof (wf_depth _ W). lia. }
  assert (AA : wf (log b3 (EEnter n)) /\ unit_ok (UMacro toks arg) /\ b_depth (log b3 (EEnter n)) = level + 1).
  { split; [apply wf_log; auto|]. split; [split; auto|cbn; lia]. }
  destruct AA as (A1 & A2 & A3). pose proof (PU _ _ A1 A2 A3 LM) as N. pose proof (PS _ _ A1 A2 A3 LM S2) as C5.
  assert (UN : exists a s, In (a, s) (syms (b_out b)) /\ s_type s = SMacroRef /\ s_name s = Some n /\ s_id s = id).
  { destruct (s_used _ _ _ _ S _ _ L (or_introl RV)) as [(a & s & I & [R|R] & NM)|(sc & k & I & FN)].
    - pose proof (s_known _ _ _ _ S _ I) as K. unfold known in K. cbn [snd] in K. rewrite R, NM in K. destruct K as (x & LX & KX); rewrite L in LX; injection LX as <-; destruct KX as [(a' & EX & _)|(r & refs & EX)]; congruence.
    - pose proof (s_known _ _ _ _ S _ I) as K. unfold known in K. cbn [snd] in K. rewrite R, NM in K. destruct K as (m & x & tk & e & [= <-] & LX & EX & _).
      rewrite L in LX. injection LX as <-. exists a, s. repeat split; auto. congruence.
    - exfalso. destruct (s_tab _ _ _ _ S _ _ L) as [T1 T2]. destruct (s_pads _ _ _ _ S _ I) as [X|[X|(x & i & a & LX & EX & _)]]; cbn [fst snd] in *.
      + rewrite <- FN in T1. unfold full_name in T1. destruct k as [|c k]; [discriminate X|]. destruct ((c =? 38) || (c =? 47)) eqn:CC; [|congruence].
        eapply number_head in X. congruence.
      + congruence.
      + rewrite FN, L in LX. injection LX as <-. congruence. }
  destruct UN as (ma & ms & MI & MT & MN & MD).
  destruct (pu (log b3 (EEnter n)) (UMacro toks arg)) as [ok b4]. cbn [fst snd] in *.
  destruct ok; [|discriminate]. intros _. cbn [fst snd].
  specialize (C5 eq_refl).
  assert (IN : In (ma, ms) (syms (b_out b4))).
  { destruct N as [R _ _ _]. destruct (r_out _ _ R) as (l & RO & _). cbn [snd] in RO. rewrite RO. unfold syms. rewrite flat_map_app. apply in_or_app. right. exact MI. }
  pose proof (s_known _ _ _ _ C5 _ IN) as K. unfold known in K. cbn [snd] in K. rewrite MT in K.
  destruct K as (m & x & tk & ex' & K1 & K2 & K3 & K4). rewrite MN in K1. injection K1 as <-.
  eapply STEP; [exact K2|exists tk, ex'; congruence|exact K4|exact C5].
Qed.
Lemma P_expand b t n v id toks ex u : wf b -> unit_ok u -> b_depth b = level -> Forall tok_ok toks ->
  lookup n (b_symtab b) = Some v -> n_entry v = EnMacro id toks ex -> Strong b ->
  P3 (expand_macro pu (set_node b n (set_referenced v true)) t n (set_referenced v true) id toks ex u).
Proof.
  intros W U D T L E S. unfold expand_macro. set (v' := set_referenced v true). set (b0 := set_node b n v').
  destruct (Z.leb_spec MAX_PREPROCESSOR_DEPTH (b_depth b0)); [apply P3_fails|].
  destruct ex; [apply P3_fails|].
  assert (W0 : wf b0) by (apply wf_set_node; auto; cbn; rewrite E; exact T).
  set (b1 := put_symbol b0 0 _).
  assert (W1 : wf b1) by (apply wf_log; auto).
  assert (L1 : lookup n (b_symtab b1) = Some v') by (cbn; eapply lookup_update_same; eauto).
  assert (S1 : Strong b1).
  { unfold Strong, StrongP in *. unfold b1, b0, put_symbol. cbn [log set_node set_symtab b_out b_symtab].
    match goal with |- strong (syms (ESym ?a ?s :: _)) _ (pads (_ :: ?o)) _ => change (syms (ESym a s :: o)) with ([(a, s)] ++ syms o);
      change (pads (ESym a s :: o)) with ([] ++ pads o) end.
    eapply (strong_step _ _ _ None None); [exact L| | | | | | | | | | |exact S]; try discriminate.
    - cbn. rewrite E. reflexivity.
    - reflexivity.
    - intros y [<-|[]]. reflexivity.
    - now right.
    - intros _. unfold known. cbn [snd s_type s_name s_id]. exists n, v', toks, false. split; [reflexivity|]. split; [eapply lookup_update_same; eauto|]. split; [exact E|reflexivity].
    - intros p [].
    - intros _. left. eexists. eexists. split; [now left|]. split; [now right|reflexivity].
    - intros X. unfold pending, v' in X. cbn in X. rewrite E in X. contradiction. }
  assert (LM : level < MAX_PREPROCESSOR_DEPTH) by (rewrite <- D; change (b_depth b0) with (b_depth b) in H; lia).
  destruct (last n 0 =? 58); [|eapply P_run_macro; eauto].
  pose proof (view_next b1 u) as V.
  destruct (next_token b1 u) as [[a b2] u2] eqn:N. cbn [fst snd] in V.
  pose proof (next_token_props _ _ _ _ _ W1 U N) as [R2 W2 O2 M2 T2 B2 K2].
  assert (S2 : Strong b2) by (eapply strong_view; eauto).
  destruct a as [a|]; [|apply P3_fails].
  eapply P_run_macro; eauto; [rewrite (r_depth _ _ R2); cbn; lia|apply T2|]. unfold view in V. injection V as _ -> _. exact L1.
Qed.
Lemma P_keep r u : P r -> P3 (keep r u).
Proof. destruct r. auto. Qed.
Lemma P_word b t u : wf b -> unit_ok u -> b_depth b = level -> Strong b -> P3 (process_word pu b t u).
Proof.
  intros W U D S. unfold process_word. destruct (is_runic _); [now apply (P3_view b)|].
  destruct (parse_opcode (t_lex t)) as [[op red]|].
  - apply P_keep. apply (P_view b); auto. rewrite view_opcode. destruct red; reflexivity.
  - pose proof (find_or_create_props b t (t_lex t) W) as (R & W1 & B1 & K).
    pose proof (find_names b t (t_lex t) S) as F.
    destruct (find_or_create b t (t_lex t)) as [[v|] b1]; cbn [fst snd] in *; [|apply P3_fails].
    destruct K as [V _]. destruct F as (S1 & L & S3).
    assert (D1 : b_depth b1 = level) by (rewrite (r_depth _ _ R); auto).
    assert (FW : match n_entry v with EnUnknown | EnForward _ _ => True | _ => False end ->
        P (emit_opcode b1 t 96 false ;; b' => emit_forward_ref b' t RRel RShort (t_lex t) v false)).
    { intros X. pose proof (view_opcode b1 t 96 false) as VV. destruct (emit_opcode b1 t 96 false) as [[|] b2]; cbn [andthen snd] in *; [|apply P_fails].
      eapply P_forward; [|exact X|eapply strong_view; eauto]. unfold view in VV. injection VV as _ -> _. exact L. }
    destruct (n_entry v) as [|id toks ex|id a|id refs] eqn:E.
    + apply P_keep, FW, Logic.I.
    + destruct S3 as [S3|S3]; [unfold pending in S3; rewrite E in S3; contradiction|]. apply P_expand; auto.
    + destruct S3 as [S3|S3]; [unfold pending in S3; rewrite E in S3; contradiction|]. apply P_keep. set (b2 := set_node _ _ _).
      pose proof (view_opcode b2 t 96 false) as VV. destruct (emit_opcode b2 t 96 false) as [[|] b3]; cbn [andthen snd] in *; [|apply P_fails].
      eapply P_backward; eauto.
    + apply P_keep, FW, Logic.I.
Qed.
Lemma P_tilde b t : wf b -> b_depth b = level -> Strong b -> P (process_tilde fs pu b t).
Proof.
  intros W D S. unfold process_tilde. destruct (Z.leb_spec MAX_PREPROCESSOR_DEPTH (b_depth b)); [now apply P_strong|].
  cbn zeta. set (b1 := put_symbol _ _ _). assert (S1 : Strong b1) by exact S.
  destruct (_ =? 126).
  - destruct (existsb _ _); now apply P_strong.
  - apply P_include; auto; [apply wf_log; auto|lia].
Qed.
Lemma P_token b a t u : tok_ok t -> wf b -> unit_ok u -> b_depth b = level -> Strong b ->
  P3 (process_token fs pu (log b (ETok (b_scope b) a (t_lex t))) t u).
Proof.
  intros TO W0 U D0 S0. set (b0 := log b _).
  assert (W : wf b0) by (apply wf_log; auto). assert (D : b_depth b0 = level) by exact D0. pose proof (wf_addr _ W) as A.
  assert (S : hd 0 (t_lex t) <> 124 -> hd 0 (t_lex t) <> 36 -> Strong b0).
  { intros X Y. eapply strong_view; [|exact S0]. apply view_log. split; [reflexivity|]. unfold pads_of. destruct (t_lex t) as [|c l]; [reflexivity|].
    cbn [hd] in *. destruct (Z.eqb_spec c 124), (Z.eqb_spec c 36); congruence || reflexivity. }
  unfold process_token. cbn zeta.
  assert (PAD : hd 0 (t_lex t) = 124 \/ hd 0 (t_lex t) = 36 -> exists c l, t_lex t = c :: l /\ (c = 124 \/ c = 36)).
  { intros X. destruct (t_lex t) as [|c l]; [cbn in X; lia|]. eauto. }
  assert (SS : Strong b0 -> (forall m, P3 (keep (error b0 t m) u)) /\
    (forall op ty sz n r, P3 (keep (emit_opcode b0 t op true ;; b => emit_label_ref b t ty sz n r) u)) /\
    (forall ty sz n r, P3 (keep (emit_label_ref b0 t ty sz n r) u)) /\ P3 (true, process_mark b0 t, u) /\ P3 (process_comment b0 t u)).
  { intros X. split; [intros; apply P_keep, P_strong, X|]. split; [|split; [intros; now apply P_keep, P_label_ref|split; [apply (P3_view b0); auto|apply (P3_view b0); auto; apply view_comment]]].
    intros. apply P_keep, P_andthen; [apply (P_view b0); auto; apply view_opcode|]. intros. now apply P_label_ref. }
  change (chr "|"%char) with 124. change (chr "$"%char) with 36.
  destruct (Z.eqb_spec (hd 0 (t_lex t)) 124) as [HP|HP].
  { rewrite HP. cbn [Z.eqb Pos.eqb chr nat_of_ascii]. destruct (PAD (or_introl HP)) as (c & l & E & C).
    repeat match goal with |- context [124 =? ?x] => let y := eval vm_compute in (124 =? x) in change (124 =? x) with y; cbn iota end.
    apply P_keep. eapply P_abs; eauto. }
  destruct (Z.eqb_spec (hd 0 (t_lex t)) 36) as [HQ|HQ].
  { rewrite HQ. destruct (PAD (or_intror HQ)) as (c & l & E & C).
    repeat match goal with |- context [36 =? ?x] => let y := eval vm_compute in (36 =? x) in change (36 =? x) with y; cbn iota end.
    apply P_keep. eapply P_rel; eauto. }
  specialize (S HP HQ). destruct (SS S) as (ERR & OP & REF & MARK & COM). clear SS PAD.
  repeat match goal with
  | |- P3 (if ?c then _ else _) => destruct c
  end; auto using P_macro, P_word; apply P_keep; auto using P_tilde, P_global, P_local, P_close, P_jsi;
    apply (P_view b0); auto using view_lit, view_text, view_raw.
Qed.
Lemma P_unit_loop fuel : forall b u, wf b -> unit_ok u -> b_depth b = level -> Strong b -> P (unit_loop fs pu fuel b u).
Proof.
  induction fuel as [|fuel IH]; intros b u W U D S; cbn [unit_loop]; [now apply P_strong|].
  pose proof (view_next b u) as V.
  destruct (next_token b u) as [[t b1] u1] eqn:N. cbn [fst snd] in V.
  pose proof (next_token_props _ _ _ _ _ W U N) as [R1 W1 O1 M1 T1 B1 K1].
  assert (S1 : Strong b1) by (eapply strong_view; eauto).
  destruct t as [t|]; [|now apply P_strong].
  destruct T1 as [Tok M2]. pose proof Tok as Tok'. unfold tok_ok in Tok.
  destruct (t_lex t) as [|c l] eqn:L; [congruence|]. rewrite <- L in *. cbn zeta.
  assert (D1 : b_depth b1 = level) by (rewrite (r_depth _ _ R1); auto).
  pose proof (P_token b1 (b_addr b1) t u1 Tok' W1 O1 D1 S1) as C4.
  set (b2 := log b1 _) in *.
  assert (W2 : wf b2) by (apply wf_log; auto).
  assert (D2 : b_depth b2 = level) by exact D1.
  pose proof (process_token_props fs pu level PU b2 t u1 W2 O1 D2 Tok') as [R3 W3 O3 M3 F3 B3 K3].
  destruct (process_token fs pu b2 t u1) as [[ok b3] u3]. unfold P3 in C4. cbn [fst snd] in *.
  destruct ok; [|apply P_fails]. apply IH; auto. rewrite (r_depth _ _ R3). auto.
Qed.
End Nested.

Lemma P_process_unit fs d : forall b u,
  wf b -> unit_ok u -> b_depth b <= MAX_PREPROCESSOR_DEPTH -> 33 <= b_depth b + Z.of_nat d -> Strong b -> P (process_unit fs d b u).
Proof.
  induction d as [|d IH]; intros b u W U D1 D2 C; cbn [process_unit].
  - now apply P_strong.
  - apply (P_unit_loop fs (process_unit fs d) (b_depth b)); auto.
    + intros b' u' W' U' D' L. apply process_unit_props; auto; lia.
    + intros b' u' W' U' D' L C'. apply IH; auto; lia.
Qed.
Lemma P_deferred fs fuel : forall i b, wf b -> b_depth b = 0 -> Strong b -> P (deferred_loop fs fuel i b).
Proof.
  induction fuel as [|fuel IH]; intros i b W D C; cbn [deferred_loop]; [now apply P_strong|].
  destruct (nth_error _ _) as [[n t]|]; [|now apply P_strong].
  pose proof (process_include_unit fs b n t W D) as [R1 W1 _ _].
  assert (C1 : P (process_include fs (process_unit fs DEPTH) b n t)).
  { apply (P_include fs (process_unit fs DEPTH) 0); [| |exact W|exact D|reflexivity|exact C].
    { intros b' u' W' U' D' _. apply process_unit_props; auto; rewrite D'; [discriminate|]. unfold DEPTH. lia. }
    intros b' u' W' U' D' _ C'. apply P_process_unit; auto; rewrite D'; [discriminate|]. unfold DEPTH. lia. }
  apply P_andthen; [exact C1|]. intros b' E S'. rewrite E in *. cbn [snd] in *. apply IH; auto. rewrite (r_depth _ _ R1). auto.
Qed.

(** ** The warnings at the end *)
Lemma in_syms a s out : (s_type s = SMacro \/ s_type s = SLabel \/ ref_type_ (s_type s)) -> (In (a, s) (syms out) <-> In (ESym a s) out).
Proof.
  intros T. unfold syms. rewrite in_flat_map. split.
  - intros (e & I & X). unfold syms_of in X. destruct e as [| |a' s'|err m r| | | | |]; try contradiction.
    + destruct (s_type s'); try contradiction; destruct X as [[= -> ->]|[]]; exact I.
    + destruct err; [contradiction|]. destruct m; try contradiction. destruct X as [X|[]]. unfold alarm in X. injection X as _ <-. cbn in T.
      destruct T as [T|[T|[T|T]]]; discriminate.
  - intros I. exists (ESym a s). split; [exact I|]. unfold syms_of. destruct T as [T|[T|[T|T]]]; rewrite T; now left.
Qed.
Lemma in_pads sc l out : In (sc, l) (pads out) <-> exists a c, In (ETok sc a (c :: l)) out /\ (c = 124 \/ c = 36).
Proof.
  unfold pads. rewrite in_flat_map. split.
  - intros (e & I & X). unfold pads_of in X. destruct e as [sc' a [|c l']| | | | | | | |]; try contradiction.
    destruct ((c =? 124) || (c =? 36)) eqn:C; [|contradiction]. destruct X as [[= -> ->]|[]]. exists a, c. split; [exact I|lia].
  - intros (a & c & I & C). eexists. split; [exact I|]. unfold pads_of. replace ((c =? 124) || (c =? 36)) with true by lia. now left.
Qed.
Lemma used_refers out n : used (syms out) (pads out) n <-> refers_to out n.
Proof.
  unfold used, refers_to. split.
  - intros [(a & s & I & T & N)|(sc & l & I & F)]; [left; exists a, s|right].
    + apply in_syms in I; auto.
    + apply in_pads in I as (a & c & I & C). exists sc, a, c, l. auto.
  - intros [(a & s & I & T & N)|(sc & a & c & l & I & C & F)]; [left; exists a, s|right; exists sc, l].
    + split; [apply in_syms; [right; right; exact T|exact I]|split; [exact T|exact N]].
    + split; [apply in_pads; eauto|exact F].
Qed.

Definition unused_entry (nv : str * node) : Prop :=
  n_referenced (snd nv) = false /\ ~ capitalised (fst nv) /\
  match n_entry (snd nv) with EnMacro _ _ _ => True | EnLabel _ a => a <> 256 | _ => False end.
Definition no_report (e : event) : Prop := match e with EReport _ _ _ => False | _ => True end.
Lemma fold_error_in {A} (f : A -> option region) m l e : forall b, In e (b_out (fold_left (fun b r => error_ex b m (f r)) l b)) -> In e (b_out b) \/ exists r, e = EReport true m r.
Proof.
  induction l as [|x l IH]; intros b; cbn; [auto|]. intros I. destruct (IH _ I) as [[<-|J]|J]; eauto.
Qed.
Lemma fold_error_keep {A} (f : A -> option region) m l e : forall b, In e (b_out b) -> In e (b_out (fold_left (fun b r => error_ex b m (f r)) l b)).
Proof. induction l as [|x l IH]; intros b; cbn; [auto|]. intros I. apply IH. now right. Qed.
Lemma report_symbol_in b nv e : In e (b_out (report_symbol b nv)) <->
  In e (b_out b) \/ (e = EReport false MUnreferenced (Some (t_reg (n_def (snd nv)))) /\ unused_entry nv) \/
  (exists m r, e = EReport true m r /\ In e (b_out (report_symbol b nv))).
Proof.
  split; [|intros [I|[[-> U]|(m & r & _ & I)]]; auto].
  - intros I. destruct nv as [n v]. unfold report_symbol in I. cbn [snd]. destruct (n_entry v) eqn:E.
    + destruct I as [<-|I]; [|now left]. right. right. eexists. eexists. split; [reflexivity|]. unfold report_symbol. rewrite E. now left.
    + destruct (_ && _) eqn:C; [|now left]. destruct I as [<-|I]; [|now left]. right. left. split; [reflexivity|]. unfold unused_entry. cbn [fst snd]. rewrite E.
      rewrite !andb_true_iff, !negb_true_iff in C. destruct C as [[C1 C2] _]. split; [exact C1|]. split; [|exact Logic.I].
      intros (c & l & -> & R). unfold is_uppercased in C2. lia.
    + destruct (_ && _) eqn:C; [|now left]. destruct I as [<-|I]; [|now left]. right. left. split; [reflexivity|]. unfold unused_entry. cbn [fst snd]. rewrite E.
      rewrite !andb_true_iff, !negb_true_iff in C. destruct C as [[C1 C2] C3]. split; [exact C1|]. split; [|unfold RESET_VECTOR in C3; lia].
      intros (c & l & -> & R). unfold is_uppercased in C2. lia.
    + destruct (fold_error_in (fun r => Some (t_reg (f_tok r))) MUnresolved refs e b I) as [J|[r ->]]; [now left|]. right. right.
      exists MUnresolved, r. split; [reflexivity|]. unfold report_symbol. rewrite E. exact I.
  - destruct nv as [n v]. unfold report_symbol. destruct (n_entry v).
    + now right.
    + destruct (_ && _); [now right|exact I].
    + destruct (_ && _); [now right|exact I].
    + now apply (fold_error_keep (fun r => Some (t_reg (f_tok r)))).
  - destruct nv as [n v]. destruct U as (U1 & U2 & U3). cbn [fst snd] in *. unfold report_symbol. rewrite U1.
    assert (C : match n with c :: _ => is_uppercased c | [] => false end = false).
    { destruct n as [|c l]; [reflexivity|]. destruct (is_uppercased c) eqn:X; [|reflexivity]. elim U2. exists c, l. split; [reflexivity|]. unfold is_uppercased in X. lia. }
    rewrite C. destruct (n_entry v); try contradiction; cbn [negb andb]; [now left|]. unfold RESET_VECTOR. replace (addr =? 256) with false by lia. now left.
Qed.
Lemma reports_in l : forall b e,
  (no_report e -> (In e (b_out (fold_left report_symbol l b)) <-> In e (b_out b))) /\
  (forall r, e = EReport false MUnreferenced r -> (In e (b_out (fold_left report_symbol l b)) <->
     In e (b_out b) \/ exists nv, In nv l /\ unused_entry nv /\ r = Some (t_reg (n_def (snd nv))))).
Proof.
  induction l as [|x l IH]; intros b e; cbn [fold_left].
  - split; [reflexivity|]. intros r _. split; [auto|]. intros [I|(nv & [] & _)]. exact I.
  - destruct (IH (report_symbol b x) e) as [A B]. pose proof (report_symbol_in b x e) as R. split.
    + intros N. rewrite (A N), R. split; [|auto]. intros [I|[[-> _]|(m & r & -> & _)]]; [exact I|destruct N|destruct N].
    + intros r E. rewrite (B _ E), R. split.
      * intros [[I|[[E' U]|(m & q & E' & _)]]|(nv & I & U & Q)]; [now left| |congruence|right; exists nv; split; [now right|auto]].
        right. exists x. split; [now left|]. split; [exact U|]. congruence.
      * intros [I|(nv & [<-|I] & U & Q)]; [auto| |right; eauto]. left. right. left. split; [congruence|exact U].
Qed.
Lemma fold_log_in {A} (f : basm -> A -> basm) e l : (forall b x, In e (b_out (f b x)) <-> In e (b_out b)) -> forall b, In e (b_out (fold_left f l b)) <-> In e (b_out b).
Proof. intros H. induction l as [|x l IH]; intros b; cbn; [reflexivity|]. now rewrite IH, H. Qed.

(** Each of them once. *)
Definition is_alarm (e : event) : bool := match e with EReport false MUnreferenced _ => true | _ => false end.
Definition unused_entryb (nv : str * node) : bool :=
  negb (n_referenced (snd nv)) && negb (match fst nv with c :: _ => is_uppercased c | [] => false end) &&
  match n_entry (snd nv) with EnMacro _ _ _ => true | EnLabel _ a => negb (a =? 256) | _ => false end.
Lemma unused_entry_spec nv : unused_entryb nv = true <-> unused_entry nv.
Proof.
  destruct nv as [n v]. unfold unused_entryb, unused_entry. cbn [fst snd]. rewrite !andb_true_iff, !negb_true_iff.
  assert (C : match n with c :: _ => is_uppercased c | [] => false end = false <-> ~ capitalised n).
  { unfold capitalised, is_uppercased. split.
    - intros X (c & l & -> & R). lia.
    - intros X. destruct n as [|c l]; [reflexivity|]. destruct (_ && _) eqn:E; [|reflexivity]. elim X. exists c, l. split; [reflexivity|lia]. }
  rewrite C. destruct (n_entry v); split; intros ([A B] & D) || intros (A & B & D); repeat split; auto; try discriminate; try contradiction; lia.
Qed.
Lemma fold_error_alarms {A} (f : A -> option region) m l : forall b, filter is_alarm (b_out (fold_left (fun b r => error_ex b m (f r)) l b)) = filter is_alarm (b_out b).
Proof. induction l as [|x l IH]; intros b; cbn; [reflexivity|]. now rewrite IH. Qed.
Definition alarm_at (r : region) : event := EReport false MUnreferenced (Some r).
Lemma reports_alarms l : forall b, filter is_alarm (b_out (fold_left report_symbol l b)) =
  rev (map (fun nv => alarm_at (t_reg (n_def (snd nv)))) (filter unused_entryb l)) ++ filter is_alarm (b_out b).
Proof.
  induction l as [|[n v] l IH]; intros b; cbn [fold_left]; [reflexivity|]. rewrite IH. cbn [filter].
  assert (X : filter is_alarm (b_out (report_symbol b (n, v))) = (if unused_entryb (n, v) then [alarm_at (t_reg (n_def v))] else []) ++ filter is_alarm (b_out b)).
  { unfold report_symbol, unused_entryb, RESET_VECTOR. cbn [fst snd]. destruct (n_entry v).
    - rewrite andb_false_r. reflexivity.
    - cbn [negb]. destruct (_ && _); reflexivity.
    - destruct (_ && _); reflexivity.
    - rewrite andb_false_r. apply (fold_error_alarms (fun r => Some (t_reg (f_tok r)))). }
  rewrite X. destruct (unused_entryb (n, v)); [|reflexivity]. cbn [map rev snd]. now rewrite <- app_assoc.
Qed.
Lemma choose {A B} (R : A -> B -> Prop) l : (forall x, In x l -> exists y, R x y) -> exists l', Forall2 R l l'.
Proof.
  induction l as [|x l IH]; intros H; [exists []; constructor|]. destruct (H x (or_introl eq_refl)) as [y Y].
  destruct IH as [l' L]; [intros; apply H; now right|]. exists (y :: l'). now constructor.
Qed.
Lemma forall2_left {A B} (R : A -> B -> Prop) l l' x : Forall2 R l l' -> In x l -> exists y, In y l' /\ R x y.
Proof. induction 1 as [|a b l l' R0 F IH]; [intros []|]. intros [->|I]; [exists b; split; [now left|auto]|]. destruct (IH I) as (y & Y & Q). exists y. split; [now right|auto]. Qed.
Lemma forall2_right {A B} (R : A -> B -> Prop) l l' y : Forall2 R l l' -> In y l' -> exists x, In x l /\ R x y.
Proof. induction 1 as [|a b l l' R0 F IH]; [intros []|]. intros [->|I]; [exists a; split; [now left|auto]|]. destruct (IH I) as (x & X & Q). exists x. split; [now right|auto]. Qed.
Lemma flat_map_once {A B} (f : A -> list B) l x y n : NoDup (flat_map f l) -> In x l -> In y l -> In n (f x) -> In n (f y) -> x = y.
Proof.
  induction l as [|z l IH]; cbn; [intros _ []|]. intros ND X Y FX FY.
  assert (N1 : NoDup (flat_map f l)) by (clear - ND; induction (f z) as [|k q IH]; [exact ND|inversion ND; auto]).
  assert (N2 : forall w, In w l -> In n (f z) -> In n (f w) -> False).
  { intros w W Z1 Z2. clear - ND W Z1 Z2. induction (f z) as [|k q IH]; [destruct Z1|]. cbn in ND. inversion ND as [|? ? K ND']; subst. destruct Z1 as [->|Z1]; [|auto].
    apply K. apply in_or_app. right. apply in_flat_map. eauto. }
  destruct X as [->|X], Y as [->|Y]; auto; exfalso; eauto.
Qed.
Lemma view_fold {A} (f : basm -> A -> basm) l : (forall b x, view (f b x) = view b) -> forall b, view (fold_left f l b) = view b.
Proof. intros H. induction l as [|x l IH]; intros b; cbn; auto. now rewrite IH. Qed.
Theorem asm_unused fs file n b : asm fs n file = (true, b) ->
  (forall m, (n <= m)%nat -> asm fs m file = (true, b)) ->
  (forall reg, In (EReport false MUnreferenced reg) (b_out b) <->
    exists a s x, In (ESym a s) (b_out b) /\ defines s x /\ reg = Some (s_reg s) /\
      ~ refers_to (b_out b) x /\ ~ capitalised x /\ ~ (s_type s = SLabel /\ a = 256)) /\
  exists l, NoDup (map (fun x => s_name (snd x)) l) /\
    (forall a s, In (a, s) l <-> exists x, In (ESym a s) (b_out b) /\ defines s x /\ ~ refers_to (b_out b) x /\ ~ capitalised x /\ ~ (s_type s = SLabel /\ a = 256)) /\
    filter is_alarm (b_out b) = rev (map (fun x => alarm_at (s_reg (snd x))) l).
Proof.
  intros E0 ALL. pose proof (AsmNames.asm_names fs n file) as ONCE. rewrite E0 in ONCE. unfold AsmNames.Weak in ONCE. cbn [snd] in ONCE.
  assert (S0 : Strong start).
  { constructor; cbn; try constructor; try contradiction; discriminate. }
  pose proof (process_file_unit fs DEPTH start file wf_start) as PF.
  assert (C1 : P (process_file fs (process_unit fs DEPTH) start file)).
  { apply P_file; [exact S0|]. intros c. apply P_process_unit.
    - apply wf_log, wf_start.
    - exact Logic.I.
    - discriminate.
    - unfold DEPTH. cbn [b_depth start log]. lia.
    - exact S0. }
  unfold asm in ALL.
  destruct (process_file fs (process_unit fs DEPTH) start file) as [ok b1]. unfold P in C1. cbn [fst snd] in *.
  destruct PF as [R D W B F]; [discriminate|unfold DEPTH; cbn; lia|]. cbn [fst snd] in *. cbn [b_depth start] in D.
  destruct ok; cbn [negb] in ALL.
  2:{ specialize (ALL n (le_n _)). injection ALL as S _. rewrite (F eq_refl) in S. discriminate. }
  destruct (deferred_terminates fs _ b1 0 (le_n _) W D) as [n' H]. set (m := Nat.max n n').
  specialize (ALL m (Nat.le_max_l _ _)). destruct (H m (Nat.le_max_r _ _)) as [E2 [R2 W2 B2 F2]].
  unfold resolve in ALL. rewrite E2 in ALL.
  pose proof (P_deferred fs n' 0 b1 W D (C1 eq_refl)) as C3. unfold P in C3. destruct (deferred_loop fs n' 0 b1) as [ok b2]. cbn [fst snd] in *.
  destruct ok; cbn [andthen] in ALL.
  2:{ injection ALL as S <-. rewrite (F2 eq_refl) in S. discriminate. }
  specialize (C3 eq_refl). injection ALL as S E. rewrite E in S. clear H.
  set (b3 := report_ats (report_lambdas b2)) in *.
  assert (T3 : b_symtab b3 = b_symtab b2).
  { assert (X : view b3 = view b2) by (unfold b3, report_ats, report_lambdas; rewrite !view_fold by reflexivity; reflexivity). unfold view in X. congruence. }
  assert (I3 : forall e, no_report e \/ (exists r, e = EReport false MUnreferenced r) -> (In e (b_out b3) <-> In e (b_out b2))).
  { intros e X. unfold b3, report_ats, report_lambdas. rewrite !fold_log_in; [reflexivity| |]; intros b' r; cbn; (split; [|auto]);
      (intros [<-|I]; [|exact I]); destruct X as [[]|[q Q]]; discriminate Q. }
  assert (IB : forall e, no_report e -> (In e (b_out b) <-> In e (b_out b2))).
  { intros e N. rewrite <- E, (proj1 (reports_in _ _ e) N). auto. }
  assert (RT : forall x, refers_to (b_out b) x <-> used (syms (b_out b2)) (pads (b_out b2)) x).
  { intros x. rewrite used_refers. unfold refers_to. split.
    - intros [(a & s & I & Q)|(sc & a & c & l & I & Q)]; [left; exists a, s|right; exists sc, a, c, l]; (split; [apply IB in I; [exact I|exact Logic.I]|exact Q]).
    - intros [(a & s & I & Q)|(sc & a & c & l & I & Q)]; [left; exists a, s|right; exists sc, a, c, l]; (split; [apply IB; [exact Logic.I|exact I]|exact Q]). }
  unfold Strong, StrongP in C3. pose proof C3 as [SK SD SM SU SP ST SY SE].
  assert (LK : forall nv, In nv (b_symtab b2) -> lookup (fst nv) (b_symtab b2) = Some (snd nv)).
  { intros [k v] I. apply AsmFlat.lookup_in; auto. }
  assert (DEF : forall a s x, In (a, s) (syms (b_out b2)) -> defines s x -> exists v, lookup x (b_symtab b2) = Some v /\
      (n_referenced v = false -> s_reg s = t_reg (n_def v)) /\
      match n_entry v with EnMacro _ _ _ => s_type s = SMacro | EnLabel _ a' => s_type s = SLabel /\ a' = a | _ => False end).
  { intros a s x I [N T]. pose proof (SK _ I) as K. unfold known in K. cbn [fst snd] in K. destruct T as [T|[T G]]; rewrite T in K.
    - destruct K as (k & v & toks & ex & K1 & K2 & K3 & K4). rewrite N in K1. injection K1 as <-. exists v. rewrite K3. auto.
    - destruct (K G) as (k & v & K1 & K2 & K3 & K4). rewrite N in K1. injection K1 as <-. exists v. rewrite K3. auto. }
  assert (UNUSED : forall x v, lookup x (b_symtab b2) = Some v -> match n_entry v with EnMacro _ _ _ | EnLabel _ _ => True | _ => False end ->
      (n_referenced v = false <-> ~ used (syms (b_out b2)) (pads (b_out b2)) x)).
  { intros x v L EV. split.
    - intros RF [(a & s & I & T & N)|(sc & l & I & FN)].
      + pose proof (SK _ I) as K. unfold known in K. cbn [snd] in K. destruct T as [T|T]; rewrite T, ?N in K.
        * destruct K as (y & LY & KY). rewrite L in LY. injection LY as <-. destruct KY as [(a' & _ & KY)|(r & refs & KY)]; [congruence|]. rewrite KY in EV. exact EV.
        * destruct K as (k & y & toks & ex & [= <-] & LY & _ & KY). rewrite L in LY. injection LY as <-. congruence.
      + destruct (ST _ _ L) as [T1 T2]. destruct (SP _ I) as [X|[X|(y & id & a & LY & _ & KY)]]; cbn [fst snd] in *.
        * rewrite <- FN in T1. unfold full_name in T1. destruct l as [|c l]; [discriminate X|]. destruct ((c =? 38) || (c =? 47)) eqn:CC; [|congruence].
          apply number_head in X. congruence.
        * congruence.
        * rewrite FN, L in LY. injection LY as <-. congruence.
    - intros NU. destruct (n_referenced v) eqn:RF; [|reflexivity]. elim NU. eapply SU; [exact L|now left]. }
  assert (NONE : forall r, ~ In (EReport false MUnreferenced r) (b_out b2)).
  { intros r I. assert (X : In alarm (syms (b_out b2))) by (unfold syms; apply in_flat_map; eexists; split; [exact I|now left]). exact (SK _ X). }
  assert (ENTRY : forall x v, In (x, v) (b_symtab b2) -> unused_entry (x, v) -> exists a s, In (a, s) (syms (b_out b2)) /\ In (ESym a s) (b_out b) /\ defines s x /\
      s_reg s = t_reg (n_def v) /\ ~ refers_to (b_out b) x /\ ~ capitalised x /\ ~ (s_type s = SLabel /\ a = 256)).
  { intros x v I (U1 & U2 & U3). pose proof (LK _ I) as L. cbn [fst snd] in *.
    assert (X : exists a s, In (a, s) (syms (b_out b2)) /\ defines s x).
    { destruct (n_entry v) eqn:EV; try contradiction.
      - destruct (SM _ _ _ _ _ L EV) as (a & s & J & T & _ & N). exists a, s. split; [exact J|]. split; auto.
      - destruct (SD _ _ _ _ L EV) as (s & J & T & G & N). exists addr, s. split; [exact J|]. split; auto. }
    destruct X as (a & s & J & DS). destruct (DEF _ _ _ J DS) as (v' & L' & RG & KD). rewrite L in L'. injection L' as <-.
    exists a, s. split; [exact J|]. split; [apply IB; [exact Logic.I|]; apply in_syms in J; [exact J|]; destruct DS as [_ [T|[T _]]]; auto|].
    split; [exact DS|]. split; [now rewrite RG|]. split; [|split; [exact U2|]].
    - rewrite RT. apply (UNUSED _ _ L); [|exact U1]. destruct (n_entry v); auto.
    - intros [T ->]. destruct (n_entry v); try contradiction; [congruence|]. destruct KD as [_ KD]. congruence. }
  assert (BACK : forall a s x, In (ESym a s) (b_out b) -> defines s x -> ~ refers_to (b_out b) x -> ~ capitalised x -> ~ (s_type s = SLabel /\ a = 256) ->
      exists v, In (x, v) (b_symtab b2) /\ unused_entry (x, v) /\ s_reg s = t_reg (n_def v)).
  { intros a s x I DS NR NC NA.
    assert (J : In (a, s) (syms (b_out b2))).
    { apply in_syms; [destruct DS as [_ [T|[T _]]]; auto|]. apply IB in I; [exact I|exact Logic.I]. }
    destruct (DEF _ _ _ J DS) as (v & L & RG & KD). exists v. split; [now apply AsmNames.lookup_in|].
    assert (RF : n_referenced v = false).
    { apply (UNUSED _ _ L); [destruct (n_entry v); auto|]. now rewrite <- RT. }
    split; [|now rewrite RG].
    split; [exact RF|]. split; [exact NC|]. cbn [snd]. destruct (n_entry v); auto. intros ->. apply NA. destruct KD as [KD1 KD2]. auto. }
  split.
  - intros reg. rewrite <- E at 1. rewrite (proj2 (reports_in _ b3 _) reg eq_refl), I3 by eauto. rewrite T3. split.
    + intros [I|([x v] & I & U & ->)]; [elim (NONE _ I)|]. destruct (ENTRY _ _ I U) as (a & s & _ & Q1 & Q2 & Q3 & Q4). exists a, s, x. rewrite Q3. auto.
    + intros (a & s & x & I & DS & -> & NR & NC & NA). right. destruct (BACK _ _ _ I DS NR NC NA) as (v & Q1 & Q2 & Q3). exists (x, v). cbn [snd]. rewrite Q3. auto.
  - set (RR := fun (nv : str * node) (y : Z * symbol) => In (ESym (fst y) (snd y)) (b_out b) /\ defines (snd y) (fst nv) /\ s_reg (snd y) = t_reg (n_def (snd nv)) /\
      ~ refers_to (b_out b) (fst nv) /\ ~ capitalised (fst nv) /\ ~ (s_type (snd y) = SLabel /\ fst y = 256)).
    destruct (choose RR (filter unused_entryb (b_symtab b2))) as [l FR].
    { intros [x v] I. apply filter_In in I as [I U]. apply unused_entry_spec in U. destruct (ENTRY _ _ I U) as (a & s & _ & Q). exists (a, s). exact Q. }
    exists l. split; [|split].
    + assert (M : map (fun x => s_name (snd x)) l = map Some (map fst (filter unused_entryb (b_symtab b2)))).
      { clear - FR. induction FR as [|[n v] y l l' (_ & (N & _) & _) F IH]; [reflexivity|]. cbn. now rewrite IH, N. }
      rewrite M. apply Coq.Logic.FinFun.Injective_map_NoDup; [intros p q [= ->]; reflexivity|]. clear - SY. induction (b_symtab b2) as [|[k v] t IH]; [constructor|].
      cbn in SY |- *. inversion SY as [|? ? K ND]; subst. destruct (unused_entryb (k, v)); [|auto]. cbn. constructor; [|auto]. intros I. apply K.
      apply in_map_iff in I as (z & Z1 & Z2). apply filter_In in Z2 as [Z2 _]. apply in_map_iff. eauto.
    + intros a s. split.
      * intros I. destruct (forall2_right _ _ _ _ FR I) as ([x v] & _ & Q1 & Q2 & _ & Q3). exists x. auto.
      * intros (x & I & DS & NR & NC & NA). destruct (BACK _ _ _ I DS NR NC NA) as (v & Q1 & Q2 & Q3).
        destruct (forall2_left _ _ _ (x, v) FR) as ([a' s'] & J & K1 & K2 & _); [apply filter_In; split; [exact Q1|now apply unused_entry_spec]|].
        cbn [fst snd] in K1, K2. assert (X : (a, s) = (a', s')); [|rewrite X; exact J].
        assert (IS : forall a s, In (ESym a s) (b_out b) -> defines s x -> In (a, s) (AsmNames.syms (b_out b)) /\ In x (AsmNames.def_name (a, s))).
        { clear. intros a s I [N T]. split.
          - unfold AsmNames.syms. apply in_flat_map. exists (ESym a s). split; [exact I|]. unfold AsmNames.syms_of. destruct T as [T|[T _]]; rewrite T; now left.
          - unfold AsmNames.def_name. cbn [snd]. destruct T as [T|[T G]]; rewrite T, ?G, N; now left. }
        destruct (IS _ _ I DS) as [I1 I2]. destruct (IS _ _ K1 K2) as [I3' I4]. exact (flat_map_once _ _ _ _ x ONCE I1 I3' I2 I4).
    + assert (NO : filter is_alarm (b_out b3) = []).
      { destruct (filter is_alarm (b_out b3)) as [|e r] eqn:X; [reflexivity|]. assert (I : In e (filter is_alarm (b_out b3))) by (rewrite X; now left).
        apply filter_In in I as [I IE]. destruct e as [| | |[|] m' rg| | | | |]; try discriminate. destruct m'; try discriminate. apply I3 in I; [|eauto]. elim (NONE _ I). }
      rewrite <- E, reports_alarms, T3, NO, app_nil_r. f_equal. clear - FR. induction FR as [|[n v] y l l' (_ & _ & Q & _) F IH]; [reflexivity|]. cbn in *. now rewrite IH, Q.
Qed.
