(** References and labels keep the invariant. *)
From Verif Require Import Base AsmModel AsmSpec AsmWords AsmLink AsmSim.
From Coq Require Import ZifyBool Ascii String.
Open Scope list_scope.
Ltac Zify.zify_post_hook ::= Z.div_mod_to_equations.

(** ** Placing a reference *)
Definition refcells (x : Z) (m : mode) (t : target) : cells_t :=
  match width m with
  | 1 => [(x, Part m t x 0)]
  | _ => [(x + 1, Part m t x 1); (x, Part m t x 0)]
  end.
Lemma in_refcells x m t a c : In (a, c) (refcells x m t) <-> exists i, 0 <= i < width m /\ a = x + i /\ c = Part m t x i.
Proof.
  unfold refcells. destruct m; cbn [width].
  all: split; [intros H|intros (i & R & -> & ->)].
  all: repeat match goal with H : In _ _ |- _ => destruct H as [[= <- <-]|H] | H : In _ [] |- _ => destruct H end.
  all: try (exists 0; split; [lia|split; [lia|reflexivity]]).
  all: try (exists 1; split; [lia|split; [lia|reflexivity]]).
  all: assert (i = 0 \/ i = 1) as [ -> | -> ] by lia; try lia; rewrite ?Z.add_0_r; cbn; auto.
Qed.

Lemma over_two x v w m a : over x [v; w] m a = over (x + 1) [w] (over x [v] m) a.
Proof.
  unfold over. change (len [v; w]) with 2. change (len [w]) with 1. change (len [v]) with 1.
  destruct ((x + 1 <=? a) && (a <? x + 1 + 1)) eqn:E1.
  - assert ((x <=? a) && (a <? x + 2) = true) as -> by lia. replace (Z.to_nat (a - x)) with 1%nat by lia.
    replace (Z.to_nat (a - (x + 1))) with 0%nat by lia. reflexivity.
  - destruct ((x <=? a) && (a <? x + 1)) eqn:E2.
    + assert ((x <=? a) && (a <? x + 2) = true) as -> by lia. replace (Z.to_nat (a - x)) with 0%nat by lia. reflexivity.
    + assert ((x <=? a) && (a <? x + 2) = false) as -> by lia. reflexivity.
Qed.

Lemma mem_place_ref m labels cells x md t bs :
  mem_ok m labels cells -> 256 <= x -> x + width md <= 65536 -> len bs = width md ->
  (forall l, addr_in labels t = Some l -> encode md x l = Some bs) ->
  mem_ok (over x bs m) labels (refcells x md t ++ cells).
Proof.
  intros M X1 X2 L E.
  assert (NN : forall l, addr_in labels t = Some l -> encode md x l <> None) by (intros l Hl; rewrite (E l Hl); discriminate).
  assert (BY : forall i w, byte_in labels (Part md t x i) = Some w -> nth_error bs (Z.to_nat i) = Some w).
  { intros i w. cbn. destruct (addr_in labels t) as [l|]; [|discriminate]. rewrite (E l eq_refl). auto. }
  assert (W : width md = 1 \/ width md = 2) by (destruct md; cbn; auto).
  unfold refcells. destruct W as [W|W]; rewrite W in *; cbn [app].
  - destruct bs as [|v [|w bs]]; unfold len in L; cbn in L; try lia.
    apply mem_place; auto; [lia|rewrite W; repeat split; auto; lia|].
    intros w Hw. apply BY in Hw. cbn in Hw. congruence.
  - destruct bs as [|v [|w [|z bs]]]; unfold len in L; cbn [List.length] in L; try lia.
    eapply mem_ext; [apply over_two|]. apply mem_place; [apply mem_place; auto| | |].
    + lia.
    + rewrite W. repeat split; auto; lia.
    + intros u Hu. apply BY in Hu. cbn in Hu. congruence.
    + lia.
    + rewrite W. repeat split; auto; lia.
    + intros u Hu. apply BY in Hu. change (Some w = Some u) in Hu. congruence.
Qed.

Lemma refcells_ind (P : cells_t -> Prop) x md t cells :
  P cells -> (forall y i cs, P cs -> P ((y, Part md t x i) :: cs)) -> P (refcells x md t ++ cells).
Proof. intros H0 H1. unfold refcells. destruct md; cbn [width app]; auto. Qed.

Lemma name_place_ref o macros labels cells n x md t :
  (t = Label n -> exists id a v, o = Some v /\ n_entry v = EnLabel id a) ->
  name_ok o macros labels cells n -> name_ok o macros labels (refcells x md t ++ cells) n.
Proof.
  intros H N. apply refcells_ind; auto. intros y i cs P. apply name_more; auto. intros md' x' i' [= -> -> -> ->]. auto.
Qed.
Lemma lams_place_ref lams labels cells opened next x md t : (forall k, t <> Lambda k) ->
  lams_ok lams labels cells opened next -> lams_ok lams labels (refcells x md t ++ cells) opened next.
Proof.
  intros H N. apply refcells_ind; auto. intros y i cs P. apply lams_more; auto. intros md' k x' i' [= -> -> -> ->]. eapply H; eauto.
Qed.
Lemma pending_other cells refs t x md t' : t <> t' -> pending cells refs t -> pending (refcells x md t' ++ cells) refs t.
Proof.
  intros N P. apply refcells_ind; auto. intros y i cs Q. apply pending_more; auto. congruence.
Qed.
Lemma pending_add cells refs t r md : mode_of (f_type r) (f_size r) = Some md ->
  pending cells refs t -> pending (refcells (f_addr r) md t ++ cells) (r :: refs) t.
Proof.
  intros M [P1 P2]. split.
  - intros a md' x i I. apply in_app_or in I as [I|I].
    + apply in_refcells in I as (j & _ & _ & [= -> -> ->]). exists r. cbn. auto.
    + destruct (P1 _ _ _ _ I) as (r' & I' & H). exists r'. cbn. auto.
  - intros r' [<-|I].
    + exists md. split; auto. intros i R. apply in_or_app. left. apply in_refcells. eauto.
    + destruct (P2 _ I) as (md' & M' & H). exists md'. split; auto. intros i R. apply in_or_app. right. auto.
Qed.

Lemma place_ref_eq p m t : 256 <= p_addr p -> p_addr p + width m <= 65536 ->
  place_ref p m t = Some (with_addr (with_cells p (refcells (p_addr p) m t)) ((p_addr p + width m) mod 65536)).
Proof.
  intros A B. unfold place_ref. cbv zeta. assert ((256 <=? p_addr p) && (p_addr p + width m <=? 65536) = true) as -> by lia. reflexivity.
Qed.

(** A reference of which the address is known. *)
Lemma sim0_known b b' p md t l bs :
  sim0 b p -> address p t = Some l -> (forall k, t <> Lambda k) ->
  (forall n, t = Label n -> exists id a v, lookup n (b_symtab b) = Some v /\ n_entry v = EnLabel id a) ->
  encode md (b_addr b) l = Some bs -> writes b b' bs ->
  exists p', place_ref p md t = Some p' /\ sim0 b' p'.
Proof.
  intros [] A NL N E []. rewrite i_addr in *. pose proof (encode_len _ _ _ _ E) as L. rewrite L in *.
  rewrite place_ref_eq by lia. eexists. split; [reflexivity|].
  constructor; cbn; auto; try congruence.
  - unfold is_short. lia.
  - rewrite w_symtab. intros n. apply name_place_ref; [|apply i_names]. intros ->. destruct (N n eq_refl) as (id & a & v & LK & EN).
    exists id, a, v. auto.
  - rewrite w_lambdas. apply lams_place_ref; auto.
  - eapply mem_ext; [exact w_mem|]. apply mem_place_ref; auto; try lia. intros l' A'.
    change (address p t = Some l') in A'. rewrite A in A'. injection A' as <-. exact E.
Qed.

(** A reference to a label that is not defined yet. *)
Lemma sim0_forward b b' p md n v id refs bs r w :
  sim0 b p -> lookup n (b_symtab b) = Some v -> n_entry v = EnForward id refs -> writes b b' bs -> len bs = width md ->
  mode_of (f_type r) (f_size r) = Some md -> f_addr r = b_addr b -> n_entry w = EnForward id (r :: refs) ->
  exists p', place_ref p md (Label n) = Some p' /\ sim0 (set_node b' n w) p'.
Proof.
  intros [] LK EN [] L M FA EW. rewrite i_addr in *. rewrite L in *.
  rewrite place_ref_eq by lia. eexists. split; [reflexivity|].
  pose proof (i_names n) as NN. rewrite LK in NN. cbn in NN. rewrite EN in NN. destruct NN as (N1 & N2 & N3).
  constructor; cbn; auto; try congruence.
  - unfold is_short. lia.
  - change (tr b' = (p_trace p, b_depth b')). congruence.
  - rewrite w_symtab. intros m. rewrite lookup_update, LK. destruct (str_dec m n) as [->|D].
    + cbn. rewrite EW. repeat split; auto; rewrite <- FA; apply pending_add; auto.
    + apply name_place_ref; [congruence|apply i_names].
  - rewrite w_lambdas. apply lams_place_ref; auto. congruence.
  - eapply mem_ext; [exact w_mem|]. apply mem_place_ref; auto; try lia. cbn. congruence.
Qed.

(** A reference to a lambda that begins here. *)
Lemma sim0_lambda b b' p md bs r :
  sim0 b p -> writes b b' bs -> len bs = width md ->
  mode_of (f_type r) (f_size r) = Some md -> f_addr r = b_addr b ->
  exists p', place_ref (with_open p (p_next p :: p_open p) (p_next p + 1)) md (Lambda (p_next p)) = Some p' /\
             sim0 (set_lambdas b' (r :: b_lambdas b')) p'.
Proof.
  intros [] [] L M FA. rewrite i_addr in *. rewrite L in *.
  rewrite place_ref_eq by (cbn; lia). eexists. split; [reflexivity|].
  constructor; cbn; auto; try congruence.
  - unfold is_short. lia.
  - change (tr b' = (p_trace p, b_depth b')). congruence.
  - rewrite w_symtab. intros n. apply name_place_ref; [discriminate|apply i_names].
  - rewrite w_lambdas. destruct i_lams.
    assert (U : assoc (Lambda (p_next p)) (p_labels p) = None).
    { destruct (assoc (Lambda (p_next p)) (p_labels p)) eqn:E; auto. apply l_done in E. lia. }
    constructor.
    + constructor.
      * rewrite <- FA. apply pending_add; auto. split; [|intros ? []]. intros a md' x i I. apply l_cells in I. lia.
      * assert (ND : forall k, In k (p_open p) -> k <> p_next p) by (intros k I; apply l_undef in I; lia).
        revert ND. clear - l_open. induction l_open as [|r' k lams ks P F IH]; intros ND; constructor.
        -- apply pending_other; auto. intros [= E]. apply (ND k); cbn; auto.
        -- apply IH. intros k' I. apply ND. right. auto.
    + constructor; auto. intros I. apply l_undef in I. lia.
    + intros k [<-|I]; [split; auto; lia|]. apply l_undef in I. split; [tauto|lia].
    + intros a md' k x i I. apply in_app_or in I as [I|I].
      * apply in_refcells in I as (j & _ & _ & [= -> -> -> ->]). split; [lia|]. left. cbn. auto.
      * apply l_cells in I as [I1 [I2|I2]]; split; try lia; auto. left. cbn. auto.
    + intros k l H. apply l_done in H. lia.
  - eapply mem_ext; [exact w_mem|]. apply mem_place_ref; auto; try lia.
    intros l Hl. exfalso. destruct i_lams. apply l_done in Hl. lia.
Qed.

(** ** Labels *)
Lemma mem_define m m' labels cells t l :
  (forall a, t <> At a) -> assoc t labels = None ->
  mem_ok m labels cells ->
  (forall a md x i, In (a, Part md t x i) cells -> encode md x l <> None) ->
  (forall a md x i bs, only cells a (Part md t x i) -> encode md x l = Some bs -> m' a = nth_error bs (Z.to_nat i)) ->
  (forall a, (forall md x i, ~ In (a, Part md t x i) cells) -> m' a = m a) ->
  (forall a, m' a = None -> m a = None) ->
  mem_ok m' ((t, l) :: labels) cells.
Proof.
  intros NA U [] R W K S.
  assert (AD : forall t' l', addr_in ((t, l) :: labels) t' = Some l' -> t' = t /\ l' = l \/ t' <> t /\ addr_in labels t' = Some l').
  { intros t' l' H.
    assert (B : addr_in ((t, l) :: labels) t' = if target_dec t t' then Some l else addr_in labels t').
    { destruct t'; try reflexivity. destruct (target_dec t (At addr)) as [E|_]; [exfalso; eapply NA; eauto|reflexivity]. }
    rewrite B in H. destruct (target_dec t t') as [->|N]; [left; split; congruence|right; auto]. }
  constructor; auto.
  - intros a md t' x i l' I A. destruct (AD _ _ A) as [[-> ->]|[N A']]; eauto.
  - intros a c v O B. destruct c as [w|md t' x i].
    + rewrite K; [eauto|]. intros md x i I. pose proof (only_in _ _ _ _ O I). discriminate.
    + cbn [byte_in] in B. destruct (addr_in ((t, l) :: labels) t') as [l'|] eqn:A; [|discriminate].
      destruct (AD _ _ A) as [[-> ->]|[N A']].
      * destruct (encode md x l) as [bs|] eqn:E; [|discriminate]. rewrite <- B. eapply W; eauto.
      * rewrite K; [eapply k_mem; eauto; cbn [byte_in]; rewrite A'; exact B|].
        intros md' x' i' I. pose proof (only_in _ _ _ _ O I). congruence.
  - intros a N. rewrite K; auto.
  - intros a c I H. apply S in H. eapply k_some; eauto.
Qed.

Definition encodes (r : fref) (to : Z) (bs : list Z) : Prop :=
  exists md, mode_of (f_type r) (f_size r) = Some md /\ encode md (f_addr r) to = Some bs.

Lemma emit_failed b t v b' : emit b t v = (false, b') -> b_success b' = false.
Proof. unfold emit. destruct (_ <? _); [intros [= <-]; reflexivity|discriminate]. Qed.
Lemma emit_success b t v : b_success (snd (emit b t v)) = true -> b_success b = true.
Proof. unfold emit. destruct (_ <? _); cbn; [discriminate|auto]. Qed.
Lemma emit2_failed b t v b' : emit2 b t v = (false, b') -> b_success b' = false.
Proof.
  unfold emit2. destruct (emit b t _) as [[|] b1] eqn:E; cbn; [apply emit_failed|]. intros [= <-]. eapply emit_failed; eauto.
Qed.
Lemma emit2_success b t v : b_success (snd (emit2 b t v)) = true -> b_success b = true.
Proof.
  unfold emit2. pose proof (emit_success b t (Z.shiftr v 8)) as S. destruct (emit b t _) as [[|] b1]; cbn in *; auto.
  intros H. apply emit_success in H. auto.
Qed.
Lemma emit_addr_failed b t ty sz a s b' : emit_addr b t ty sz a s = (false, b') -> b_success b' = false.
Proof.
  unfold emit_addr. destruct sz.
  - match goal with |- context [if ?c then error _ _ _ else _] => destruct c end; [intros [= <-]; reflexivity|].
    destruct (emit b t _) as [[|] b1] eqn:E; cbn; [discriminate|]. intros [= <-]. eapply emit_failed; eauto.
  - destruct (emit2 b t _) as [[|] b1] eqn:E; cbn; [discriminate|]. intros [= <-]. eapply emit2_failed; eauto.
Qed.
Lemma emit_addr_success b t ty sz a s : b_success (snd (emit_addr b t ty sz a s)) = true -> b_success b = true.
Proof.
  unfold emit_addr. destruct sz.
  - match goal with |- context [if ?c then error _ _ _ else _] => destruct c end; [discriminate|].
    match goal with |- context [emit b t ?v] => pose proof (emit_success b t v) as S; destruct (emit b t v) as [[|] b1] end; cbn in *; auto.
    destruct s; auto.
  - match goal with |- context [emit2 b t ?v] => pose proof (emit2_success b t v) as S; destruct (emit2 b t v) as [[|] b1] end; cbn in *; auto.
    destruct s; auto.
Qed.
Lemma emit_backward_failed b t ty sz n id to w r b' : emit_backward_ref b t ty sz n id to w r = (false, b') -> b_success b' = false.
Proof. unfold emit_backward_ref. destruct (calculate_addr _ _ _ _ _). apply emit_addr_failed. Qed.
Lemma emit_backward_success b t ty sz n id to w r : b_success (snd (emit_backward_ref b t ty sz n id to w r)) = true -> b_success b = true.
Proof.
  unfold emit_backward_ref. destruct (calculate_addr b t ty (b_addr b) to) as [d b1] eqn:E. intros H. apply emit_addr_success in H.
  destruct ty; cbn in E; injection E as <- <-; auto. destruct (255 <? to); auto.
Qed.
Lemma patch_success refs : forall b n id to, b_success (patch b refs n id to) = true -> b_success b = true.
Proof.
  induction refs as [|r refs IH]; intros b n id to; cbn [patch]; auto.
  match goal with |- context [emit_backward_ref ?b0 ?t ?ty ?sz ?n ?id ?to ?w ?r] =>
    pose proof (emit_backward_success b0 t ty sz n id to w r) as S; destruct (emit_backward_ref b0 t ty sz n id to w r) as [ok b1] end.
  cbn in *. intros H. apply IH in H. auto.
Qed.

Lemma patch_mem refs : forall b n id to,
  b_success (patch b refs n id to) = true -> is_short to ->
  (forall r, In r refs -> mode_of (f_type r) (f_size r) <> None /\ is_short (f_addr r)) ->
  let b' := patch b refs n id to in
  b_depth b' = b_depth b /\ b_scope b' = b_scope b /\ b_symtab b' = b_symtab b /\ b_lambdas b' = b_lambdas b /\
  b_ats b' = b_ats b /\ tr b' = tr b /\
  (forall r, In r refs -> exists bs, encodes r to bs) /\
  forall a,
    mem b' a = mem b a /\ (forall r bs, In r refs -> encodes r to bs -> ~ f_addr r <= a < f_addr r + len bs) \/
    exists r bs, In r refs /\ encodes r to bs /\ f_addr r <= a < f_addr r + len bs /\ mem b' a = nth_error bs (Z.to_nat (a - f_addr r)).
Proof.
  induction refs as [|r refs IH]; intros b n id to S T H.
  { cbn. repeat split; auto; try contradiction. }
  cbn [patch] in *.
  set (b0 := set_addr b (f_addr r)) in *.
  destruct (emit_backward_ref b0 (f_tok r) (f_type r) (f_size r) (Some n) id to false false) as [ok b1] eqn:E.
  destruct (H r (or_introl eq_refl)) as [M A]. destruct (mode_of (f_type r) (f_size r)) as [md|] eqn:MD; [|congruence].
  destruct ok.
  2:{ apply emit_backward_failed in E. apply patch_success in S. congruence. }
  apply (emit_backward_writes _ _ _ _ _ _ _ _ _ _ md) in E; auto.
  destruct E as (bs & EN & W). change (b_addr b0) with (f_addr r) in EN.
  assert (ER : encodes r to bs) by (exists md; auto).
  destruct (IH b1 n id to S T) as (I1 & I2 & I3 & I4 & I5 & I6 & I7 & I8); [intros r' I; apply H; right; auto|].
  destruct W. cbv zeta. unfold b0 in *. cbn in w_depth, w_scope, w_symtab, w_lambdas, w_ats, w_range, w_mem.
  change (tr (set_addr b (f_addr r))) with (tr b) in w_tr. change (mem (set_addr b (f_addr r))) with (mem b) in w_mem.
  repeat (split; [congruence|]). split.
  { intros r' [<-|I]; eauto. }
  intros a. destruct (I8 a) as [[K N]|(r' & bs' & I' & E' & R' & K)].
  - rewrite K, w_mem. unfold over. destruct ((f_addr r <=? a) && (a <? f_addr r + len bs)) eqn:C.
    + right. exists r, bs. split; [left; auto|]. repeat split; auto; lia.
    + left. split; auto. intros r' bs' [<-|I'] E'; [|eauto]. destruct ER as (m1 & X1 & X2), E' as (m2 & Y1 & Y2).
      assert (bs' = bs) by congruence. subst. lia.
  - right. exists r', bs'. split; [right; auto|]. auto.
Qed.
