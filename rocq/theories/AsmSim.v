(** The invariant between a state of the assembler and a program of AsmSpec,
    and how bytes and references keep it. *)
From Verif Require Import Base AsmModel AsmSpec AsmWords AsmLink.
From Coq Require Import ZifyBool Ascii String.
Open Scope list_scope.
Ltac Zify.zify_post_hook ::= Z.div_mod_to_equations.

(** ** Writing bytes *)
Definition over (x : Z) (bs : list Z) (m : Z -> option Z) (a : Z) : option Z :=
  if (x <=? a) && (a <? x + len bs) then nth_error bs (Z.to_nat (a - x)) else m a.

Record writes (b b' : basm) (bs : list Z) : Prop := mkWrites {
  w_range : 256 <= b_addr b /\ b_addr b + len bs <= 65536;
  w_addr : b_addr b' = (b_addr b + len bs) mod 65536;
  w_depth : b_depth b' = b_depth b;
  w_scope : b_scope b' = b_scope b;
  w_symtab : b_symtab b' = b_symtab b;
  w_lambdas : b_lambdas b' = b_lambdas b;
  w_ats : b_ats b' = b_ats b;
  w_tr : tr b' = tr b;
  w_mem : forall a, mem b' a = over (b_addr b) bs (mem b) a
}.

Lemma len_app (a b : str) : len (a ++ b) = len a + len b.
Proof. unfold len. rewrite app_length. lia. Qed.
Lemma len_nonneg (a : str) : 0 <= len a.
Proof. unfold len. lia. Qed.

Lemma writes_same b b1 b2 l : writes b b1 l -> same b1 b2 -> writes b b2 l.
Proof. intros [] []. constructor; congruence. Qed.
Lemma same_writes b b0 b1 l : same b b0 -> writes b0 b1 l -> writes b b1 l.
Proof.
  intros [] []. constructor; try congruence. intros a. rewrite w_mem0. rewrite e_addr. unfold over.
  destruct (_ && _); auto.
Qed.
Lemma writes_app b b1 b2 l1 l2 : writes b b1 l1 -> writes b1 b2 l2 -> l2 <> [] -> writes b b2 (l1 ++ l2).
Proof.
  intros [] [] N. assert (0 < len l2) by (destruct l2; [congruence|unfold len; cbn; lia]).
  pose proof (len_nonneg l1). assert (A : b_addr b1 = b_addr b + len l1) by lia.
  constructor; try congruence; rewrite ?len_app.
  - lia.
  - rewrite w_addr1. f_equal. lia.
  - intros a. rewrite w_mem1, A. unfold over. rewrite len_app. rewrite w_mem0. unfold over.
    destruct ((b_addr b + len l1 <=? a) && (a <? b_addr b + len l1 + len l2)) eqn:E1.
    + assert ((b_addr b <=? a) && (a <? b_addr b + (len l1 + len l2)) = true) as -> by lia.
      rewrite nth_error_app2 by (unfold len in *; lia). f_equal. unfold len in *. lia.
    + destruct ((b_addr b <=? a) && (a <? b_addr b + len l1)) eqn:E2.
      * assert ((b_addr b <=? a) && (a <? b_addr b + (len l1 + len l2)) = true) as -> by lia.
        rewrite nth_error_app1 by (unfold len in *; lia). reflexivity.
      * assert ((b_addr b <=? a) && (a <? b_addr b + (len l1 + len l2)) = false) as -> by lia. reflexivity.
Qed.

Lemma andthen_true r g b' : andthen r g = (true, b') -> exists b1, r = (true, b1) /\ g b1 = (true, b').
Proof. destruct r as [[|] b1]; cbn; [eauto|discriminate]. Qed.

Lemma emit_writes b t v b' : is_short (b_addr b) -> emit b t v = (true, b') -> writes b b' [v mod 256].
Proof.
  unfold is_short, emit. intros A. destruct (b_addr b <? RESET_VECTOR) eqn:E; [discriminate|]. intros [= <-].
  unfold RESET_VECTOR in E. constructor; auto; change (len [v mod 256]) with 1.
  - lia.
  - rewrite tr_log. change (tr (set_addr b (u16 (b_addr b + 1)))) with (tr b). destruct (tr b). reflexivity.
  - intros a. rewrite mem_log. cbn [rom_step]. unfold over. change (len [v mod 256]) with 1.
    destruct (a =? b_addr b) eqn:E2.
    + assert ((b_addr b <=? a) && (a <? b_addr b + 1) = true) as -> by lia.
      replace (Z.to_nat (a - b_addr b)) with 0%nat by lia. reflexivity.
    + assert ((b_addr b <=? a) && (a <? b_addr b + 1) = false) as -> by lia. reflexivity.
Qed.
Lemma writes_short b b' l : writes b b' l -> is_short (b_addr b').
Proof. intros []. unfold is_short. lia. Qed.
Lemma emit2_writes b t v b' : is_short (b_addr b) -> is_short v -> emit2 b t v = (true, b') -> writes b b' [v / 256; v mod 256].
Proof.
  intros A V H. apply andthen_true in H as (b1 & H1 & H2). apply emit_writes in H1; auto.
  apply emit_writes in H2; [|eapply writes_short; eauto].
  change [v / 256; v mod 256] with ([v / 256] ++ [v mod 256]).
  replace (Z.shiftr v 8 mod 256) with (v / 256) in H1.
  2:{ rewrite Z.shiftr_div_pow2 by lia. change (2 ^ 8) with 256. unfold is_short in V. lia. }
  replace (Z.land v 255 mod 256) with (v mod 256) in H2.
  2:{ change 255 with (Z.ones 8). rewrite Z.land_ones by lia. change (2 ^ 8) with 256. lia. }
  eapply writes_app; eauto. discriminate.
Qed.

Lemma emit_opcode_writes b t op r b' : is_short (b_addr b) -> emit_opcode b t op r = (true, b') -> writes b b' [op mod 256].
Proof.
  intros A H. apply andthen_true in H as (b1 & H1 & H2). apply emit_writes in H1; auto. injection H2 as <-.
  eapply writes_same; eauto with same.
Qed.
Lemma emit_byte_writes b t v r b' : is_short (b_addr b) -> emit_byte b t v r = (true, b') -> writes b b' [v mod 256].
Proof.
  intros A H. apply andthen_true in H as (b1 & H1 & H2). apply emit_writes in H1; auto. injection H2 as <-.
  eapply writes_same; eauto with same.
Qed.
Lemma emit_short_writes b t v r b' : is_short (b_addr b) -> is_short v -> emit_short b t v r = (true, b') -> writes b b' [v / 256; v mod 256].
Proof.
  intros A V H. apply andthen_true in H as (b1 & H1 & H2). apply emit2_writes in H1; auto. injection H2 as <-.
  eapply writes_same; eauto with same.
Qed.

Definition mode_of (ty : ref_type) (sz : ref_size) : option mode :=
  match ty, sz with
  | RZero, RByte => Some Low | RRel, RByte => Some Near | RAbs, RShort => Some Whole | RRel, RShort => Some Far
  | _, _ => None
  end.

Lemma emit_placeholder_writes b t ty sz s r b' m : mode_of ty sz = Some m -> is_short (b_addr b) ->
  emit_placeholder b t sz s r = (true, b') -> exists bs, len bs = width m /\ writes b b' bs.
Proof.
  intros M A. unfold emit_placeholder.
  set (x := match s with Some (n, id) => (Some n, id, b) | None => _ end).
  assert (X : same b (snd x)) by (subst x; destruct s as [[n id]|]; cbn; auto with same; apply same_set; auto).
  destruct x as [[n id] b0]. cbn [snd] in X. cbv zeta.
  assert (A0 : is_short (b_addr b0)) by (rewrite (e_addr _ _ X); auto).
  destruct sz; intros H; apply andthen_true in H as (b1 & H1 & H2); injection H2 as <-.
  - apply emit_writes in H1; auto. exists [1 mod 256]. split; [destruct ty; cbn in M; inversion M; reflexivity|].
    eapply same_writes; [exact X|]. eapply writes_same; eauto with same.
  - apply emit2_writes in H1; auto; [|unfold is_short; lia]. exists [1 / 256; 1 mod 256]. split; [destruct ty; cbn in M; inversion M; reflexivity|].
    eapply same_writes; [exact X|]. eapply writes_same; eauto with same.
Qed.

Definition distance (ty : ref_type) (from to : Z) : Z :=
  match ty with RZero => Z.land to 255 | RAbs => to | RRel => to - (from + 2) end.
Lemma calculate_distance b t ty from to : fst (calculate_addr b t ty from to) = distance ty from to /\ same b (snd (calculate_addr b t ty from to)).
Proof.
  destruct ty; cbn [calculate_addr fst snd distance]; split; auto with same. destruct (255 <? to); auto with same.
Qed.
Lemma emit_addr_writes b t ty sz to sym b' m : mode_of ty sz = Some m -> is_short (b_addr b) -> is_short to ->
  emit_addr b t ty sz (distance ty (b_addr b) to) sym = (true, b') ->
  exists bs, encode m (b_addr b) to = Some bs /\ writes b b' bs.
Proof.
  intros M A T. unfold emit_addr. cbv zeta.
  assert (O : forall b1, same b1 (match sym with Some s => put_symbol b1 (b_addr b) s | None => b1 end)) by (intros; destruct sym; auto with same).
  assert (O2 : forall b1, same b1 (match sym with Some s => put_symbol2 b1 (b_addr b) s | None => b1 end)) by (intros; destruct sym; auto with same).
  set (d := distance ty (b_addr b) to).
  assert (LL : forall x, Z.land (u16 x) 255 mod 256 = x mod 256).
  { intros x. change 255 with (Z.ones 8). rewrite Z.land_ones by lia. change (2 ^ 8) with 256. unfold u16. lia. }
  destruct sz.
  - match goal with |- (if ?c then _ else _) = _ -> _ => destruct c eqn:C end; [discriminate|].
    intros H. apply andthen_true in H as (b1 & H1 & H2). injection H2 as <-. apply emit_writes in H1; auto.
    rewrite LL in H1. destruct ty; cbn in M; inversion M; subst m; cbn [encode].
    + exists [to mod 256]. split; auto. replace (d mod 256) with (to mod 256) in H1; [eapply writes_same; eauto|].
      unfold d, distance. change 255 with (Z.ones 8). rewrite Z.land_ones by lia. change (2 ^ 8) with 256. lia.
    + change (to - (b_addr b + 2)) with d. cbv zeta.
      assert ((-128 <=? d) && (d <=? 127) = true) as -> by lia. exists [d mod 256]. split; auto. eapply writes_same; eauto.
  - intros H. apply andthen_true in H as (b1 & H1 & H2). injection H2 as <-.
    apply emit2_writes in H1; auto; [|unfold is_short, u16; lia].
    destruct ty; cbn in M; inversion M; subst m; cbn [encode].
    + exists [to / 256; to mod 256]. split; auto. replace (u16 d) with to in H1; [eapply writes_same; eauto|].
      unfold d, distance, u16, is_short in *. lia.
    + change (to - (b_addr b + 2)) with d. cbv zeta. change (d mod 65536) with (u16 d).
      eexists. split; auto. eapply writes_same; eauto.
Qed.
Lemma emit_backward_writes b t ty sz n id to w r b' m : mode_of ty sz = Some m -> is_short (b_addr b) -> is_short to ->
  emit_backward_ref b t ty sz n id to w r = (true, b') ->
  exists bs, encode m (b_addr b) to = Some bs /\ writes b b' bs.
Proof.
  intros M A T. unfold emit_backward_ref. pose proof (calculate_distance b t ty (b_addr b) to) as [D S].
  destruct (calculate_addr b t ty (b_addr b) to) as [d b0]. cbn [fst snd] in *. subst d.
  rewrite <- (e_addr _ _ S). intros H. apply (emit_addr_writes _ _ _ _ _ _ _ m) in H; auto; [|rewrite (e_addr _ _ S); auto].
  rewrite (e_addr _ _ S) in *. destruct H as (bs & E & W). exists bs. split; auto. eapply same_writes; eauto.
Qed.
Lemma encode_len m x l bs : encode m x l = Some bs -> len bs = width m.
Proof.
  destruct m; cbn [encode]; intros H; try (injection H as <-; reflexivity).
  cbv zeta in H. destruct (_ && _); [injection H as <-; reflexivity|discriminate].
Qed.

(** ** The invariant *)
Definition cells_t : Type := list (Z * cell).
Definition labels_t : Type := list (target * Z).
Definition addr_in (labels : labels_t) (t : target) : option Z := match t with At a => Some a | _ => assoc t labels end.
Definition byte_in (labels : labels_t) (c : cell) : option Z :=
  match c with
  | Byte v => Some v
  | Part m t x i =>
      match addr_in labels t with
      | Some l => match encode m x l with Some bs => nth_error bs (Z.to_nat i) | None => None end
      | None => None
      end
  end.
Definition only (cells : cells_t) (a : Z) (c : cell) : Prop := filter (fun d => fst d =? a) cells = [(a, c)].

(** The ROM. *)
Record mem_ok (m : Z -> option Z) (labels : labels_t) (cells : cells_t) : Prop := mkMemOk {
  k_in : forall a c, In (a, c) cells -> 256 <= a <= 65535;
  k_part : forall a md t x i, In (a, Part md t x i) cells -> a = x + i /\ 0 <= i < width md;
  k_range : forall a md t x i l, In (a, Part md t x i) cells -> addr_in labels t = Some l -> encode md x l <> None;
  k_mem : forall a c v, only cells a c -> byte_in labels c = Some v -> m a = Some v;
  k_none : forall a, (forall c, ~ In (a, c) cells) -> m a = None;
  k_some : forall a c, In (a, c) cells -> m a <> None
}.

Lemma only_in cells a c c' : only cells a c -> In (a, c') cells -> c' = c.
Proof.
  intros O H. assert (F : In (a, c') (filter (fun d => fst d =? a) cells)) by (apply filter_In; split; auto; cbn; lia).
  rewrite O in F. destruct F as [[= ->]|[]]. reflexivity.
Qed.
Lemma only_is_in cells a c : only cells a c -> In (a, c) cells.
Proof. intros O. assert (F : In (a, c) (filter (fun d => fst d =? a) cells)) by (rewrite O; left; auto). apply filter_In in F. tauto. Qed.

Lemma mem_ext m m' labels cells : (forall a, m' a = m a) -> mem_ok m labels cells -> mem_ok m' labels cells.
Proof.
  intros E []. constructor; auto.
  - intros a c v O B. rewrite E. eauto.
  - intros a N. rewrite E. auto.
  - intros a c N. rewrite E. eauto.
Qed.

(** One more byte. *)
Lemma mem_place m labels cells x c v :
  mem_ok m labels cells -> 256 <= x <= 65535 ->
  match c with
  | Byte _ => True
  | Part md t x0 i => x = x0 + i /\ 0 <= i < width md /\ forall l, addr_in labels t = Some l -> encode md x0 l <> None
  end ->
  (forall w, byte_in labels c = Some w -> w = v) ->
  mem_ok (over x [v] m) labels ((x, c) :: cells).
Proof.
  intros [KI KP KR KM KN KS] X C V.
  assert (OV : forall a, over x [v] m a = if a =? x then Some v else m a).
  { intros a. unfold over. change (len [v]) with 1. destruct (a =? x) eqn:E.
    - assert ((x <=? a) && (a <? x + 1) = true) as -> by lia. replace (Z.to_nat (a - x)) with 0%nat by lia. reflexivity.
    - assert ((x <=? a) && (a <? x + 1) = false) as -> by lia. reflexivity. }
  constructor.
  - intros a d [[= <- <-]|I]; eauto.
  - intros a md t x0 i [[= <- ->]|I]; [|eauto]. tauto.
  - intros a md t x0 i l [[= <- ->]|I]; [|eauto]. destruct C as (_ & _ & C). auto.
  - intros a d w O B. rewrite OV. unfold only in O. cbn [filter fst] in O. destruct (x =? a) eqn:E.
    + assert (a =? x = true) as -> by lia. injection O as _ <- _. f_equal. symmetry. auto.
    + assert (a =? x = false) as -> by lia. eapply KM; eauto.
  - intros a N. rewrite OV. destruct (a =? x) eqn:E; [exfalso; apply (N c); left; f_equal; lia|].
    apply KN. intros d I. apply (N d). right. auto.
  - intros a d I. rewrite OV. destruct (a =? x) eqn:E; [discriminate|].
    destruct I as [[= <- <-]|I]; [lia|]. eauto.
Qed.

(** What is known of the references to a target: they are [refs]. *)
Definition pending (cells : cells_t) (refs : list fref) (t : target) : Prop :=
  (forall a md x i, In (a, Part md t x i) cells ->
     exists r, In r refs /\ f_addr r = x /\ mode_of (f_type r) (f_size r) = Some md) /\
  (forall r, In r refs -> exists md, mode_of (f_type r) (f_size r) = Some md /\
     forall i, 0 <= i < width md -> In (f_addr r + i, Part md t (f_addr r) i) cells).

Definition name_ok (o : option node) (macros : list str) (labels : labels_t) (cells : cells_t) (n : str) : Prop :=
  match o with
  | None => ~ In n macros /\ assoc (Label n) labels = None /\ pending cells [] (Label n)
  | Some v =>
      match n_entry v with
      | EnUnknown => ~ In n macros /\ assoc (Label n) labels = None /\ pending cells [] (Label n)
      | EnMacro _ toks _ => In n macros /\ assoc (Label n) labels = None /\ pending cells [] (Label n) /\ Forall tokb toks
      | EnLabel _ a => ~ In n macros /\ assoc (Label n) labels = Some a
      | EnForward _ refs => ~ In n macros /\ assoc (Label n) labels = None /\ pending cells refs (Label n)
      end
  end.
Definition names_ok (symtab : list (str * node)) (macros : list str) (labels : labels_t) (cells : cells_t) : Prop :=
  forall n, name_ok (lookup n symtab) macros labels cells n.

Record lams_ok (lams : list fref) (labels : labels_t) (cells : cells_t) (opened : list Z) (next : Z) : Prop := mkLamsOk {
  l_open : Forall2 (fun r k => pending cells [r] (Lambda k)) lams opened;
  l_nodup : NoDup opened;
  l_undef : forall k, In k opened -> assoc (Lambda k) labels = None /\ k < next;
  l_cells : forall a md k x i, In (a, Part md (Lambda k) x i) cells -> k < next /\ (In k opened \/ assoc (Lambda k) labels <> None);
  l_done : forall k l, assoc (Lambda k) labels = Some l -> k < next
}.

Record sim0 (b : basm) (p : prog) : Prop := mkSim0 {
  i_addr : b_addr b = p_addr p;
  i_short : is_short (p_addr p);
  i_scope : b_scope b = p_scope p;
  i_scopeb : Forall is_byte (p_scope p);
  i_ats : map f_addr (b_ats b) = p_ats p;
  i_atshort : Forall is_short (p_ats p);
  i_labels : forall t l, assoc t (p_labels p) = Some l -> is_short l;
  i_tr : tr b = (p_trace p, b_depth b);
  i_names : names_ok (b_symtab b) (p_macros p) (p_labels p) (p_cells p);
  i_lams : lams_ok (b_lambdas b) (p_labels p) (p_cells p) (p_open p) (p_next p);
  i_mem : mem_ok (mem b) (p_labels p) (p_cells p)
}.

Lemma sim0_same b b' p : sim0 b p -> same b b' -> sim0 b' p.
Proof.
  intros [] []. constructor; try congruence; auto.
  - intros n. rewrite e_symtab. apply i_names0.
  - eapply mem_ext; eauto.
Qed.

(** ** The symbol table *)
Lemma lookup_update n m v l :
  lookup n (update m v l) = match lookup m l with Some _ => if str_dec n m then Some v else lookup n l | None => lookup n l end.
Proof.
  induction l as [|[k w] l IH]; [reflexivity|]. cbn [update lookup]. destruct (str_dec k m) as [->|N].
  - cbn [lookup]. destruct (str_dec m n) as [->|N2].
    + destruct (str_dec n n); congruence.
    + destruct (str_dec n m); [congruence|reflexivity].
  - cbn [lookup]. rewrite IH. destruct (str_dec k n) as [->|N2].
    + destruct (lookup m l); [|reflexivity]. destruct (str_dec n m); congruence.
    + reflexivity.
Qed.
Lemma lookup_snoc n m v l :
  lookup n (l ++ [(m, v)]) = match lookup n l with Some w => Some w | None => if str_dec m n then Some v else None end.
Proof.
  induction l as [|[k w] l IH]; [reflexivity|]. cbn [app lookup]. destruct (str_dec k n); auto.
Qed.

(** The node of one name is changed, to say the same. *)
Lemma names_set symtab macros labels cells n v w :
  names_ok symtab macros labels cells -> lookup n symtab = Some v -> name_ok (Some w) macros labels cells n ->
  names_ok (update n w symtab) macros labels cells.
Proof.
  intros N L W m. rewrite lookup_update, L. destruct (str_dec m n) as [->|D]; auto.
Qed.
Lemma sim0_node b p n v w : sim0 b p -> lookup n (b_symtab b) = Some v ->
  name_ok (Some w) (p_macros p) (p_labels p) (p_cells p) n -> sim0 (set_node b n w) p.
Proof. intros [] L W. constructor; auto. exact (names_set _ _ _ _ _ _ _ i_names0 L W). Qed.
Lemma sim0_find b t n v b' p : Forall is_byte n -> sim0 b p -> find_or_create b t n = (Some v, b') ->
  valid_name n = true /\ sim0 b' p /\ lookup n (b_symtab b') = Some v /\
  b_success b' = b_success b /\ b_labels b' = b_labels b /\ b_addr b' = b_addr b.
Proof.
  intros F S E. pose proof (find_or_create_spec b t n F) as H. rewrite E in H. destruct H as [V [[L ->]|(L & -> & ->)]].
  - auto 7.
  - split; auto. split.
    + destruct S. constructor; auto. intros m. cbn [b_symtab set_symtab]. rewrite lookup_snoc. specialize (i_names0 m).
      destruct (lookup m (b_symtab b)) eqn:LM; auto. destruct (str_dec n m) as [->|D]; auto.
    + split; auto. cbn. rewrite lookup_snoc, L. destruct (str_dec n n); congruence.
Qed.

(** ** Bytes *)
Lemma pending_more cells refs t x c :
  (forall md x0 i, c <> Part md t x0 i) -> pending cells refs t -> pending ((x, c) :: cells) refs t.
Proof.
  intros N [P1 P2]. split.
  - intros a md x0 i [[= _ ->]|I]; [exfalso; eapply N; eauto|eauto].
  - intros r I. destruct (P2 r I) as (md & M & H). exists md. split; auto. intros i R. right. auto.
Qed.
Lemma name_more o macros labels cells n x c :
  (forall md x0 i, c = Part md (Label n) x0 i -> exists id a v, o = Some v /\ n_entry v = EnLabel id a) ->
  name_ok o macros labels cells n -> name_ok o macros labels ((x, c) :: cells) n.
Proof.
  intros H.
  assert (D : (exists md x0 i, c = Part md (Label n) x0 i) \/ forall md x0 i, c <> Part md (Label n) x0 i).
  { destruct c as [v|md [m|k|l] x0 i]; try (right; intros; discriminate).
    destruct (str_dec m n) as [->|D]; [left; eauto|right; intros; congruence]. }
  destruct D as [(md & x0 & i & E)|D].
  - destruct (H _ _ _ E) as (id & a & v & -> & EL). cbn. rewrite EL. auto.
  - destruct o as [v|]; cbn; [destruct (n_entry v)|]; intuition auto using pending_more.
Qed.
Lemma Forall2_weaken {A B} (P Q : A -> B -> Prop) l l' : (forall a b, P a b -> Q a b) -> Forall2 P l l' -> Forall2 Q l l'.
Proof. intros H F. induction F; constructor; auto. Qed.
Lemma lams_more lams labels cells opened next x c :
  (forall md k x0 i, c <> Part md (Lambda k) x0 i) ->
  lams_ok lams labels cells opened next -> lams_ok lams labels ((x, c) :: cells) opened next.
Proof.
  intros N []. constructor; auto.
  - eapply Forall2_weaken; [|exact l_open0]. cbn. intros r k P. apply pending_more; auto.
  - intros a md k x0 i [[= _ ->]|I]; [exfalso; eapply N; eauto|eauto].
Qed.

Lemma sim0_byte b b' p v : sim0 b p -> writes b b' [v] -> exists p', place_byte p v = Some p' /\ sim0 b' p'.
Proof.
  intros [] []. unfold is_short in *. change (len [v]) with 1 in *. rewrite i_addr0 in *. unfold place_byte.
  assert ((256 <=? p_addr p) && (p_addr p <=? 65535) = true) as -> by lia. eexists. split; [reflexivity|].
  constructor; cbn; auto; try congruence.
  - unfold is_short. lia.
  - rewrite w_symtab0. intros n. apply name_more; [intros; discriminate|apply i_names0].
  - rewrite w_lambdas0. apply lams_more; auto. intros; discriminate.
  - eapply mem_ext; [exact w_mem0|]. apply mem_place; auto; [lia|]. cbn. congruence.
Qed.
Lemma writes_split b b' v w l : writes b b' (v :: w :: l) ->
  exists b1, writes b b1 [v] /\ writes b1 b' (w :: l).
Proof.
  intros W.
  set (b1 := log (set_addr b ((b_addr b + 1) mod 65536)) (EPut (b_addr b) v)).
  assert (L : len (v :: w :: l) = 2 + len l) by (unfold len; cbn [List.length]; lia). pose proof (len_nonneg l).
  destruct W. rewrite L in *.
  assert (W1 : writes b b1 [v]).
  { constructor; auto; change (len [v]) with 1; [lia| |].
    - unfold b1. rewrite tr_log. change (tr (set_addr b _)) with (tr b). destruct (tr b). reflexivity.
    - intros a. unfold b1. rewrite mem_log. cbn [rom_step]. unfold over. change (len [v]) with 1. destruct (a =? b_addr b) eqn:E2.
      + assert ((b_addr b <=? a) && (a <? b_addr b + 1) = true) as -> by lia.
        replace (Z.to_nat (a - b_addr b)) with 0%nat by lia. reflexivity.
      + assert ((b_addr b <=? a) && (a <? b_addr b + 1) = false) as -> by lia. reflexivity. }
  exists b1. split; auto.
  assert (A1 : b_addr b1 = b_addr b + 1) by (cbn; lia).
  assert (L1 : len (w :: l) = 1 + len l) by (unfold len; cbn [List.length]; lia).
  constructor; rewrite ?L1, ?A1; auto.
  - lia.
  - rewrite w_addr0. f_equal. lia.
  - rewrite w_tr0. symmetry. apply W1.
  - intros a. rewrite w_mem0. unfold over at 2. rewrite (w_mem _ _ _ W1). unfold over. rewrite L, L1. change (len [v]) with 1.
    destruct ((b_addr b + 1 <=? a) && (a <? b_addr b + 1 + (1 + len l))) eqn:E1.
    + assert ((b_addr b <=? a) && (a <? b_addr b + (2 + len l)) = true) as -> by lia.
      replace (Z.to_nat (a - b_addr b)) with (S (Z.to_nat (a - (b_addr b + 1)))) by lia. reflexivity.
    + destruct ((b_addr b <=? a) && (a <? b_addr b + 1)) eqn:E2.
      * assert ((b_addr b <=? a) && (a <? b_addr b + (2 + len l)) = true) as -> by lia.
        replace (Z.to_nat (a - b_addr b)) with 0%nat by lia. reflexivity.
      * assert ((b_addr b <=? a) && (a <? b_addr b + (2 + len l)) = false) as -> by lia. reflexivity.
Qed.
Lemma sim0_bytes l : forall b b' p, l <> [] -> sim0 b p -> writes b b' l -> exists p', place_bytes p l = Some p' /\ sim0 b' p'.
Proof.
  induction l as [|v l IH]; intros b b' p N S W; [congruence|]. destruct l as [|w l].
  - destruct (sim0_byte b b' p v S W) as (p' & E & S'). exists p'. cbn [place_bytes]. rewrite E. auto.
  - apply writes_split in W as (b1 & W1 & W2). destruct (sim0_byte b b1 p v S W1) as (p1 & E & S1).
    destruct (IH b1 b' p1) as (p' & E' & S'); auto; [discriminate|]. exists p'. split; auto.
    change (bind (place_byte p v) (fun p => place_bytes p (w :: l)) = Some p'). rewrite E. exact E'.
Qed.
