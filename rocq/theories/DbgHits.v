(** C32: the decoder of the debugger against the behaviour of the VM. *)
From Verif Require Import Base VmModel VmSpec VmProofs VmStep VmRun DbgModel DbgSpec DbgProofs.
From Verif Require SystemProofs ScreenProofs.
From Coq Require Import ZifyBool.
Ltac Zify.zify_post_hook ::= Z.div_mod_to_equations.

Notation Rec := (list (bool * Z)) (only parsing).

(** ** What an instruction does, from the reference semantics *)
Lemma poke_well_typed v a x : well_typed v -> is_byte x -> well_typed (poke v a x).
Proof.
  intros (H1 & H2 & H3 & H4 & H5 & H6 & H7) Hx. unfold well_typed, poke. cbn.
  split; [auto|]. split; [auto|]. split; [auto|]. split; [auto|]. split; [auto|].
  split; [|auto]. intros i Hi. destruct (i =? a); auto.
Qed.

Definition entry (v : vm) (pc : Z) : st Rec :=
  mkSt Rec v (vm_wsp v) (vm_rsp v) 0 0 ((pc + 1) mod 65536) [].

Lemma entry_wf v pc : well_typed v -> wf_st Rec (entry v pc).
Proof.
  intros H. apply wf_well_typed in H. constructor; cbn; auto; try apply H. unfold is_short; lia.
Qed.
Lemma entry_at v pc : at_label Rec (entry v pc) (machine_of v pc).
Proof. reflexivity. Qed.

Lemma perform_abs l v pc b x : exec_label Rec rec_dei rec_deo true l (entry v pc) = Ok (b, x) ->
  perform l v pc = Some (abs Rec x, s_w Rec x).
Proof. unfold perform. fold (entry v pc). intros ->. reflexivity. Qed.

Lemma perform_fault l v pc f : exec_label Rec rec_dei rec_deo true l (entry v pc) = Fault f ->
  perform l v pc = None.
Proof. unfold perform. fold (entry v pc). intros ->. reflexivity. Qed.

Definition overflow (o : base) (r s : bool) (m : machine) : bool :=
  base_eqb o MUL && s &&
  (let q := if r then rst m else wst m in
   INT_MAX <? peek (cell q) 256 (depth q - 2 - 2) 2 * peek (cell q) 256 (depth q - 2) 2).

Lemma perform_poly o k r s v pc : well_typed v -> o <> DEI -> o <> DEO ->
  if overflow o r s (machine_of v pc) then perform (Poly o k r s) v pc = None
  else exists m, perform (Poly o k r s) v pc = Some (m, []) /\
                 machine_eq m (spec_poly o k r s (machine_of v pc)).
Proof.
  intros Hv H1 H2. unfold overflow. destruct (base_eqb o MUL && s && _) eqn:E; cbv zeta in E.
  - rewrite !andb_true_iff in E. destruct E as [[E1 E2] E3]. apply base_eqb_eq in E1. subst o s.
    eapply perform_fault. rewrite exec_poly.
    erewrite poly_MUL_overflow; [reflexivity| |apply entry_wf; auto|apply entry_at].
    cbv zeta. lia.
  - destruct (poly_refines Rec rec_dei rec_deo true o k r s (entry v pc) (machine_of v pc)) as (x & P1 & P2 & P3); auto.
    + intros -> ->. cbn [base_eqb andb] in E. cbv zeta. lia.
    + apply entry_wf; auto.
    + apply entry_at.
    + exists (abs Rec x). split; auto.
      rewrite (perform_abs _ _ _ true x).
      * destruct P3 as (P3 & _). rewrite P3. reflexivity.
      * rewrite exec_poly, P1. reflexivity.
Qed.

Lemma perform_imm l v pc : well_typed v ->
  l = BRK \/ l = JCI \/ l = JMI \/ l = JSI \/ (exists r s, l = LITop r s) ->
  exists m, perform l v pc = Some (m, []) /\ forall i, ram m i = vm_mem v i.
Proof.
  intros Hv [->|Hl].
  - eexists. split; [reflexivity|]. reflexivity.
  - assert (Hx : exists sp, (l = JCI /\ sp = spec_jci \/ l = JMI /\ sp = spec_jmi \/ l = JSI /\ sp = spec_jsi \/
       exists r s, l = LITop r s /\ sp = spec_lit r s) /\ forall i m, ram (sp m) i = ram m i).
    { destruct Hl as [->|[->|[->|(r & s & ->)]]].
      - exists spec_jci. auto.
      - exists spec_jmi. auto 6.
      - exists spec_jsi. auto 6.
      - exists (spec_lit r s). split; eauto 10. }
    destruct Hx as (sp & Hx & Hr).
    destruct (imm_refines Rec rec_dei rec_deo true l sp (entry v pc) (machine_of v pc) Hx
                (entry_wf v pc Hv) (entry_at v pc)) as (x & E1 & E2 & E3 & _).
    exists (abs Rec x). split.
    + rewrite (perform_abs _ _ _ true x E1). rewrite E3. reflexivity.
    + intros i. destruct E2 as (_ & _ & E2 & _). rewrite E2, Hr. reflexivity.
Qed.

(** Memory operands of the reference table: modulus and address. *)
Definition load_operand (o : base) (r : bool) (m : machine) : option (Z * Z) :=
  let q := if r then rst m else wst m in
  match o with
  | LDZ => Some (256, peek (cell q) 256 (depth q - 1) 1)
  | LDR => Some (65536, (ip m + 1) mod 65536 + signed (peek (cell q) 256 (depth q - 1) 1))
  | LDA => Some (65536, peek (cell q) 256 (depth q - 2) 2)
  | _ => None
  end.
Definition store_operand (o : base) (r : bool) (m : machine) : option (Z * Z) :=
  let q := if r then rst m else wst m in
  match o with
  | STZ => Some (256, peek (cell q) 256 (depth q - 1) 1)
  | STR => Some (65536, (ip m + 1) mod 65536 + signed (peek (cell q) 256 (depth q - 1) 1))
  | STA => Some (65536, peek (cell q) 256 (depth q - 2) 2)
  | _ => None
  end.
Definition in_operand (x : option (Z * Z)) (s : bool) (a : Z) : Prop :=
  match x with
  | Some (md, b) => a = b mod md \/ s = true /\ a = (b + 1) mod md
  | None => False
  end.

Lemma apply_stores_ext l : forall f g i, f i = g i -> apply_stores f l i = apply_stores g l i.
Proof.
  induction l as [|[a x] l IH]; intros f g i H; cbn; auto.
  apply IH. cbn. destruct (i =? a); auto.
Qed.

Lemma peek_ext f g md b (s : bool) : (forall i, i = b mod md \/ s = true /\ i = (b + 1) mod md -> f i = g i) ->
  peek f md b (width s) = peek g md b (width s).
Proof.
  intros H. unfold peek. destruct s; cbn [width].
  - change (2 =? 2) with true. cbv iota. rewrite !H by auto. reflexivity.
  - change (1 =? 2) with false. cbv iota. apply H. auto.
Qed.

(** The machine with another memory. *)
Definition with_ram (m : machine) (f : Z -> Z) : machine :=
  mkMachine (wst m) (rst m) f (devp m) (ip m).

Lemma machine_poke v pc a x : machine_of (poke v a x) pc =
  with_ram (machine_of v pc) (fun i => if i =? a then x else vm_mem v i).
Proof. reflexivity. Qed.

Lemma spec_poly_ram o k r s m f : o <> DEI -> o <> DEO ->
  (match load_operand o r m with
   | Some (md, b) => peek f md b (width s) = peek (ram m) md b (width s)
   | None => True end) ->
  wst (spec_poly o k r s (with_ram m f)) = wst (spec_poly o k r s m) /\
  rst (spec_poly o k r s (with_ram m f)) = rst (spec_poly o k r s m) /\
  ip (spec_poly o k r s (with_ram m f)) = ip (spec_poly o k r s m) /\
  devp (spec_poly o k r s (with_ram m f)) = devp (spec_poly o k r s m) /\
  exists l, ram (spec_poly o k r s (with_ram m f)) = apply_stores f l /\
            ram (spec_poly o k r s m) = apply_stores (ram m) l.
Proof.
  intros H1 H2 H.
  destruct o; try congruence; cbn [load_operand] in H; cbv zeta in H;
  try (repeat (split; [reflexivity|]); eexists; split; reflexivity).
  all: destruct r; unfold spec_poly, with_ram;
    cbn [wst rst ram devp ip operand_widths]; rewrite !operands1; cbn [reference pushes pushes_other stores goto];
    cbn [wst rst ram devp ip] in H; rewrite H;
    repeat (split; [reflexivity|]); exists []; split; reflexivity.
Qed.

Lemma stack_eq_sym a b : stack_eq a b -> stack_eq b a.
Proof. intros [H1 H2]. split; auto. intros i Hi. symmetry; auto. Qed.
Lemma stack_eq_trans a b c : stack_eq a b -> stack_eq b c -> stack_eq a c.
Proof. intros [H1 H2] [H3 H4]. split; [congruence|]. intros i Hi. rewrite H2, H4; auto. Qed.

Lemma place_inj q d bs bs' : length bs = length bs' -> Z.of_nat (length bs) <= 256 ->
  stack_eq (place q d bs) (place q d bs') -> bs = bs'.
Proof.
  intros Hl Hn [_ H]. apply (nth_ext _ _ 0 0); auto. intros n Hlt.
  specialize (H ((d + Z.of_nat n) mod 256) ltac:(lia)). cbn in H.
  rewrite <- Hl in H.
  rewrite Zminus_mod_idemp_l in H. replace (d + Z.of_nat n - d) with (Z.of_nat n) in H by lia.
  rewrite Z.mod_small in H by lia.
  replace (Z.of_nat n <? Z.of_nat (length bs)) with true in H by lia.
  rewrite Nat2Z.id in H. auto.
Qed.

Lemma bytes_of_inj (s : bool) x y : 0 <= x < (if s then 65536 else 256) -> 0 <= y < (if s then 65536 else 256) ->
  bytes_of (width s, x) = bytes_of (width s, y) -> x = y.
Proof.
  intros Hx Hy. destruct s; cbn; intros H.
  - injection H as H1 H2. lia.
  - injection H as H1. lia.
Qed.

(** A load instruction depends on each byte of its operand. *)
Lemma load_depends o k r s m f md b : load_operand o r m = Some (md, b) -> 0 < md ->
  bytes_on md (ram m) -> bytes_on md f ->
  stack_eq (wst (spec_poly o k r s (with_ram m f))) (wst (spec_poly o k r s m)) ->
  stack_eq (rst (spec_poly o k r s (with_ram m f))) (rst (spec_poly o k r s m)) ->
  peek f md b (width s) = peek (ram m) md b (width s).
Proof.
  intros Hl Hm Hb Hf Hw Hr.
  pose proof (peek_range f md b s Hm Hf) as R1.
  pose proof (peek_range (ram m) md b s Hm Hb) as R2.
  apply (bytes_of_inj s); auto.
  assert (L : forall x y, length (bytes_of (width s, x)) = length (bytes_of (width s, y))) by (intros; destruct s; reflexivity).
  assert (N : forall x, Z.of_nat (length (bytes_of (width s, x))) <= 256) by (intros; destruct s; vm_compute; discriminate).
  destruct o; cbn [load_operand] in Hl; try discriminate; cbv zeta in Hl; injection Hl as <- <-;
  destruct r; unfold spec_poly, with_ram in Hw, Hr;
  cbn [wst rst ram devp ip operand_widths] in Hw, Hr; rewrite !operands1 in Hw, Hr;
  cbn [reference pushes pushes_other stores goto flatten flat_map] in Hw, Hr;
  try rewrite !app_nil_r in Hw; try rewrite !app_nil_r in Hr.
  all: first [eapply (place_inj _ _ _ _ (L _ _) (N _)); exact Hw | eapply (place_inj _ _ _ _ (L _ _) (N _)); exact Hr].
Qed.

Lemma in_operand_dec x s a : in_operand x s a \/ ~ in_operand x s a.
Proof.
  destruct x as [[md b]|]; cbn; [|tauto].
  destruct (Z.eq_dec a (b mod md)), (Z.eq_dec a ((b + 1) mod md)), s; auto; right; intros [H|[H1 H2]]; auto; discriminate.
Qed.

Lemma load_operand_pos o r m md b : load_operand o r m = Some (md, b) -> md = 256 \/ md = 65536.
Proof. destruct o; cbn; try discriminate; intros H; injection H as <- <-; auto. Qed.

Lemma load_operand_ram o r m f : load_operand o r (with_ram m f) = load_operand o r m.
Proof. destruct o, r; reflexivity. Qed.

Lemma poly_loads o k r s v pc a : well_typed v -> o <> DEI -> o <> DEO ->
  (exists x, is_byte x /\ ~ same_except a (perform (Poly o k r s) v pc) (perform (Poly o k r s) (poke v a x) pc)) <->
  in_operand (load_operand o r (machine_of v pc)) s a.
Proof.
  intros Hv H1 H2.
  assert (Hmem : forall md, md = 256 \/ md = 65536 -> bytes_on md (vm_mem v)).
  { intros md Hmd i Hi. apply Hv. assert (65536 <= vm_msize v) by apply Hv. lia. }
  split.
  - intros (x & Hx & Hn).
    destruct (in_operand_dec (load_operand o r (machine_of v pc)) s a) as [|Hno]; auto. exfalso. apply Hn.
    pose proof (perform_poly o k r s v pc Hv H1 H2) as P.
    pose proof (perform_poly o k r s (poke v a x) pc (poke_well_typed v a x Hv Hx) H1 H2) as Q.
    rewrite machine_poke in Q.
    change (overflow o r s (with_ram (machine_of v pc) _)) with (overflow o r s (machine_of v pc)) in Q.
    destruct (overflow o r s (machine_of v pc)).
    { rewrite P, Q. exact I. }
    destruct P as (m1 & -> & M1), Q as (m2 & -> & M2).
    set (f := fun i => if i =? a then x else vm_mem v i) in *.
    destruct (spec_poly_ram o k r s (machine_of v pc) f H1 H2) as (E1 & E2 & E3 & E4 & l & E5 & E6).
    { destruct (load_operand o r (machine_of v pc)) as [[md b]|]; auto.
      apply peek_ext. intros i Hi. unfold f. destruct (Z.eqb_spec i a) as [->|]; auto.
      exfalso. apply Hno. exact Hi. }
    destruct M1 as (A1 & A2 & A3 & A4 & A5), M2 as (B1 & B2 & B3 & B4 & B5).
    rewrite E1 in B1. rewrite E2 in B2. rewrite E3 in B5. rewrite E4 in B4. rewrite E5 in B3. rewrite E6 in A3.
    cbn [same_except].
    split; [eapply stack_eq_trans; [eauto|apply stack_eq_sym; auto]|].
    split; [eapply stack_eq_trans; [eauto|apply stack_eq_sym; auto]|].
    split; [|split; [|split; [congruence|auto]]].
    + intros i Hi. rewrite A3, B3. apply apply_stores_ext. unfold f. replace (i =? a) with false by lia. reflexivity.
    + intros i Hi. rewrite A4, B4; auto.
  - intros Hin.
    destruct (load_operand o r (machine_of v pc)) as [[md b]|] eqn:El; [|contradiction].
    pose proof (load_operand_pos _ _ _ _ _ El) as Hmd.
    exists ((vm_mem v a + 1) mod 256). split; [unfold is_byte; lia|].
    set (x := (vm_mem v a + 1) mod 256). intros Hs.
    assert (Hx : is_byte x) by (unfold is_byte, x; lia).
    assert (Ha : 0 <= a < md) by (cbn [in_operand] in Hin; destruct Hin as [->|[_ ->]]; apply Z.mod_pos_bound; lia).
    assert (Hov : overflow o r s (machine_of v pc) = false).
    { unfold overflow. destruct o; try discriminate; reflexivity. }
    pose proof (perform_poly o k r s v pc Hv H1 H2) as P.
    pose proof (perform_poly o k r s (poke v a x) pc (poke_well_typed v a x Hv Hx) H1 H2) as Q.
    rewrite machine_poke in Q.
    change (overflow o r s (with_ram (machine_of v pc) _)) with (overflow o r s (machine_of v pc)) in Q.
    rewrite Hov in P, Q.
    destruct P as (m1 & E1 & M1), Q as (m2 & E2 & M2). rewrite E1, E2 in Hs. cbn [same_except] in Hs.
    destruct Hs as (S1 & S2 & _). destruct M1 as (A1 & A2 & _), M2 as (B1 & B2 & _).
    set (f := fun i => if i =? a then x else vm_mem v i) in *.
    assert (Hf : bytes_on md f).
    { intros i Hi. unfold f. destruct (i =? a); auto. apply (Hmem md); auto. }
    pose proof (load_depends o k r s (machine_of v pc) f md b El ltac:(lia) (Hmem md Hmd) Hf) as D.
    assert (D' : peek f md b (width s) = peek (vm_mem v) md b (width s)).
    { apply D.
      - eapply stack_eq_trans; [apply stack_eq_sym; exact B1|].
        eapply stack_eq_trans; [apply stack_eq_sym; exact S1|exact A1].
      - eapply stack_eq_trans; [apply stack_eq_sym; exact B2|].
        eapply stack_eq_trans; [apply stack_eq_sym; exact S2|exact A2]. }
    assert (Hneq : f a <> vm_mem v a).
    { unfold f. rewrite Z.eqb_refl. unfold x. pose proof (Hmem md Hmd a Ha) as Hb. unfold is_byte in Hb. lia. }
    apply Hneq. unfold peek in D'.
    assert (Hpos : 0 < md) by lia.
    destruct s; cbn [width] in D'; cbn [in_operand] in Hin.
    + change (2 =? 2) with true in D'. cbv iota in D'.
      assert (R : forall i, is_byte (f (i mod md)) /\ is_byte (vm_mem v (i mod md))).
      { intros i. split; [apply Hf|apply (Hmem md Hmd)]; apply Z.mod_pos_bound; auto. }
      pose proof (R b) as [R1 R2]. pose proof (R (b + 1)) as [R3 R4]. unfold is_byte in *.
      assert (f (b mod md) = vm_mem v (b mod md) /\ f ((b + 1) mod md) = vm_mem v ((b + 1) mod md)) as [Q1 Q2].
      { clear - D' R1 R2 R3 R4. lia. }
      destruct Hin as [->|[_ ->]]; auto.
    + change (1 =? 2) with false in D'. cbv iota in D'.
      destruct Hin as [->|[? _]]; [auto|discriminate].
Qed.

Lemma spec_poly_stores o k r s m : o <> DEI -> o <> DEO ->
  exists l, (forall f, ram (spec_poly o k r s (with_ram m f)) = apply_stores f l) /\
    forall a, In a (map fst l) <-> in_operand (store_operand o r m) s a.
Proof.
  intros H1 H2.
  assert (B : forall md b x a, In a (map fst (store_bytes md (width s) b x)) <->
                     (a = b mod md \/ s = true /\ a = (b + 1) mod md)).
  { intros. unfold store_bytes. destruct s; [change (width true =? 2) with true|change (width false =? 2) with false];
    cbn [map fst In]; intuition congruence. }
  destruct o; try congruence;
  try (exists []; split; [reflexivity|]; cbn [in_operand store_operand map]; intros a; tauto).
  all: destruct r; eexists; (split; [intros f; unfold spec_poly; cbn [ram operand_widths with_ram wst rst ip];
        rewrite operands2; cbn [reference stores]; reflexivity|]);
    intros a; rewrite B; cbn [store_operand in_operand]; cbv zeta; reflexivity.
Qed.

Lemma with_ram_id m : with_ram m (ram m) = m.
Proof. destruct m; reflexivity. Qed.

Lemma apply_stores_in l : forall f g a, In a (map fst l) -> apply_stores f l a = apply_stores g l a.
Proof.
  induction l as [|[b x] l IH]; intros f g a H; cbn in H; [contradiction|]. cbn.
  destruct (in_dec Z.eq_dec a (map fst l)) as [Hi|Hi]; [apply IH; auto|].
  destruct H as [<-|H]; [|contradiction]. apply apply_stores_ext. cbn. rewrite Z.eqb_refl. reflexivity.
Qed.
Lemma apply_stores_out l : forall f a, ~ In a (map fst l) -> apply_stores f l a = f a.
Proof.
  intros f a H. apply apply_stores_frame. intros b x Hi E. apply H. apply in_map_iff.
  exists (b, x). auto.
Qed.

Lemma poly_writes o k r s v pc a : well_typed v -> o <> DEI -> o <> DEO ->
  (exists m w, perform (Poly o k r s) v pc = Some (m, w) /\
    forall x, is_byte x ->
      exists m' w', perform (Poly o k r s) (poke v a x) pc = Some (m', w') /\ ram m' a = ram m a) <->
  in_operand (store_operand o r (machine_of v pc)) s a.
Proof.
  intros Hv H1 H2.
  assert (Q : forall x, is_byte x ->
    if overflow o r s (machine_of v pc) then perform (Poly o k r s) (poke v a x) pc = None
    else exists m, perform (Poly o k r s) (poke v a x) pc = Some (m, []) /\
       machine_eq m (spec_poly o k r s (with_ram (machine_of v pc) (fun i => if i =? a then x else vm_mem v i)))).
  { intros x Hx. pose proof (perform_poly o k r s (poke v a x) pc (poke_well_typed v a x Hv Hx) H1 H2) as Q.
    exact Q. }
  pose proof (perform_poly o k r s v pc Hv H1 H2) as P.
  destruct (spec_poly_stores o k r s (machine_of v pc) H1 H2) as (l & L1 & L2).
  rewrite <- L2. clear L2.
  split.
  - intros (m & w & E & H).
    destruct (overflow o r s (machine_of v pc)); [congruence|].
    destruct (in_dec Z.eq_dec a (map fst l)) as [|Hno]; auto. exfalso.
    set (x := (ram m a + 1) mod 256). assert (Hx : is_byte x) by (unfold is_byte, x; lia).
    destruct (H x Hx) as (m' & w' & E' & Er).
    destruct (Q x Hx) as (m2 & Q1 & Q2). rewrite E' in Q1. injection Q1 as -> ->.
    destruct Q2 as (_ & _ & Q2 & _). rewrite Q2, L1 in Er.
    rewrite apply_stores_out in Er by auto. rewrite Z.eqb_refl in Er. unfold x in Er.
    destruct (H ((ram m a + 2) mod 256)) as (m3 & w3 & E3 & Er3); [unfold is_byte; lia|].
    destruct (Q ((ram m a + 2) mod 256)) as (m4 & Q3 & Q4); [unfold is_byte; lia|].
    rewrite E3 in Q3. injection Q3 as -> ->. destruct Q4 as (_ & _ & Q4 & _). rewrite Q4, L1 in Er3.
    rewrite apply_stores_out in Er3 by auto. rewrite Z.eqb_refl in Er3. lia.
  - intros Hin.
    destruct (overflow o r s (machine_of v pc)) eqn:Hov.
    { exfalso. unfold overflow in Hov. rewrite !andb_true_iff in Hov. destruct Hov as [[Hov _] _].
      apply base_eqb_eq in Hov. subst o.
      pose proof (L1 (fun _ => 0)) as A. pose proof (L1 (fun _ => 1)) as B.
      change (ram (spec_poly MUL k r s (with_ram (machine_of v pc) (fun _ => 0)))) with (fun _ : Z => 0) in A.
      change (ram (spec_poly MUL k r s (with_ram (machine_of v pc) (fun _ => 1)))) with (fun _ : Z => 1) in B.
      pose proof (apply_stores_in l (fun _ => 0) (fun _ => 1) a Hin) as C.
      rewrite <- A, <- B in C. discriminate. }
    destruct P as (m1 & P1 & P2).
    exists m1, []. split; auto. intros x Hx. destruct (Q x Hx) as (m2 & Q1 & Q2).
    exists m2, []. split; auto.
    destruct P2 as (_ & _ & P2 & _), Q2 as (_ & _ & Q2 & _). rewrite P2, Q2, L1.
    rewrite <- (with_ram_id (machine_of v pc)). rewrite L1. apply apply_stores_in. auto.
Qed.

(** ** Device instructions *)
Definition ports_of (s : bool) (p : Z) : list Z := p :: (if s then [(p + 1) mod 256] else []).

Lemma sync_entry v pc : sync Rec (entry v pc) = v.
Proof. destruct v; reflexivity. Qed.

Lemma perform_DEO k r s v pc : well_typed v ->
  let m0 := machine_of v pc in
  perform (Poly DEO k r s) v pc =
  Some (machine_of (vm_set_dev (consume v k r (1 + width s))
          (apply_stores (vm_dev (consume v k r (1 + width s)))
             (store_bytes 256 (width s) (port_of r m0) (value_of r s m0)))) ((pc + 1) mod 65536),
        map (fun p => (true, p)) (ports_of s (port_of r m0))).
Proof.
  intros Hv m0.
  pose proof (exec_DEO Rec rec_dei rec_deo true k r s (entry v pc) (entry_wf v pc Hv)) as E.
  rewrite sync_entry in E. unfold host_out, rec_deo at 1 in E. cbn [rbind] in E.
  change (port_of r (VmProofs.abs Rec (entry v pc))) with (port_of r m0) in E.
  change (value_of r s (VmProofs.abs Rec (entry v pc))) with (value_of r s m0) in E.
  destruct s; cbn [rec_deo] in E; unfold rec_deo in E; cbv iota beta zeta in E;
  rewrite (perform_abs _ _ _ _ _ E); reflexivity.
Qed.

Lemma perform_DEI k r s v pc : well_typed v ->
  let m0 := machine_of v pc in
  exists m, perform (Poly DEI k r s) v pc = Some (m, map (fun p => (false, p)) (ports_of s (port_of r m0))) /\
    machine_eq m (push_value r s 0 (machine_of (consume v k r 1) ((pc + 1) mod 65536))).
Proof.
  intros Hv m0.
  pose proof (exec_DEI Rec rec_dei rec_deo true k r s (entry v pc) (entry_wf v pc Hv)) as E.
  rewrite sync_entry in E. unfold host_in, rec_dei in E. cbn [rbind] in E.
  change (port_of r (VmProofs.abs Rec (entry v pc))) with (port_of r m0) in E.
  assert (Hc : well_typed (consume v k r 1)) by (apply wf_well_typed, consume_wf, wf_well_typed, Hv).
  destruct s; cbv iota beta zeta in E; specialize (E Hc); destruct E as (x & E1 & E2 & E3 & _);
  exists (VmProofs.abs Rec x); rewrite (perform_abs _ _ _ _ _ E1), E3; (split; [reflexivity|exact E2]).
Qed.

Lemma consume_mem v k r n : vm_mem (consume v k r n) = vm_mem v.
Proof. destruct k, r; reflexivity. Qed.

Lemma consume_poke v k r n a x : consume (poke v a x) k r n = poke (consume v k r n) a x.
Proof. destruct k, r; reflexivity. Qed.

Lemma perform_device o k r s v pc : well_typed v -> o = DEI \/ o = DEO ->
  exists m, perform (Poly o k r s) v pc =
      Some (m, map (fun p => (base_eqb o DEO, p)) (ports_of s (port_of r (machine_of v pc)))) /\
    (forall i, ram m i = vm_mem v i) /\
    (forall a x, is_byte x ->
       same_except a (perform (Poly o k r s) v pc) (perform (Poly o k r s) (poke v a x) pc)).
Proof.
  intros Hv [ -> | -> ].
  - destruct (perform_DEI k r s v pc Hv) as (m & E1 & E2). exists m. split; [exact E1|]. split.
    + intros i. destruct E2 as (_ & _ & E2 & _). rewrite E2. cbn. rewrite consume_mem. reflexivity.
    + intros a x Hx. rewrite E1.
      destruct (perform_DEI k r s (poke v a x) pc (poke_well_typed v a x Hv Hx)) as (m' & E3 & E4).
      rewrite E3. rewrite consume_poke in E4.
      destruct E2 as (A1 & A2 & A3 & A4 & A5), E4 as (B1 & B2 & B3 & B4 & B5).
      cbn [same_except].
      split; [eapply stack_eq_trans; [exact A1|apply stack_eq_sym; exact B1]|].
      split; [eapply stack_eq_trans; [exact A2|apply stack_eq_sym; exact B2]|].
      split.
      * intros i Hi. rewrite A3, B3. cbn. replace (i =? a) with false by lia. reflexivity.
      * split; [|split; [rewrite A5, B5; reflexivity|reflexivity]].
        intros i Hi. rewrite A4, B4 by auto. reflexivity.
  - pose proof (perform_DEO k r s v pc Hv) as E. cbv zeta in E. eexists. split; [exact E|]. split.
    + intros i. cbn. rewrite consume_mem. reflexivity.
    + intros a x Hx. rewrite E.
      pose proof (perform_DEO k r s (poke v a x) pc (poke_well_typed v a x Hv Hx)) as E'. cbv zeta in E'.
      rewrite E', consume_poke. cbn [same_except].
      split; [apply stack_eq_refl|]. split; [apply stack_eq_refl|]. split; [|auto].
      intros i Hi. cbn. replace (i =? a) with false by lia. reflexivity.
Qed.

(** ** The three relations of the specification, computed *)
Lemma opcode_is_byte v pc : well_typed v -> is_short pc -> is_byte (opcode v pc).
Proof.
  intros Hv Hp. apply Hv. assert (65536 <= vm_msize v) by apply Hv. unfold is_short in Hp. lia.
Qed.

Definition op_of (v : vm) (pc : Z) : base := operation (opcode v pc mod 32).
Definition rmode (v : vm) (pc : Z) : bool := flag (opcode v pc) 64.
Definition smode (v : vm) (pc : Z) : bool := flag (opcode v pc) 32.

Lemma is_device_dec o : (o = DEI \/ o = DEO) \/ (o <> DEI /\ o <> DEO).
Proof. destruct o; (left; auto; fail) || (right; split; discriminate). Qed.

Lemma loads_iff v pc a : well_typed v -> is_short pc ->
  loads v pc a <->
  opcode v pc mod 32 <> 0 /\ in_operand (load_operand (op_of v pc) (rmode v pc) (machine_of v pc)) (smode v pc) a.
Proof.
  intros Hv Hp. unfold loads, immediate. rewrite dispatch_spec by (apply opcode_is_byte; auto).
  unfold spec_label. destruct (Z.eqb_spec (opcode v pc mod 32) 0) as [E0|E0]; [tauto|].
  fold (op_of v pc) (rmode v pc) (smode v pc).
  split.
  - intros (_ & l & x & E & Hx & Hn). split; auto. injection E as <-.
    destruct (is_device_dec (op_of v pc)) as [Hd|[Hd1 Hd2]].
    + exfalso. apply Hn.
      destruct (perform_device (op_of v pc) (flag (opcode v pc) 128) (rmode v pc) (smode v pc) v pc Hv Hd)
        as (m & _ & _ & H). apply H. auto.
    + eapply poly_loads; eauto.
  - intros (_ & Hin). split; auto.
    destruct (is_device_dec (op_of v pc)) as [[Hd|Hd]|[Hd1 Hd2]].
    + rewrite Hd in Hin. contradiction.
    + rewrite Hd in Hin. contradiction.
    + eapply (poly_loads _ (flag (opcode v pc) 128)) in Hin as (x & Hx & Hn); eauto.
Qed.

Lemma writes_iff v pc a : well_typed v -> is_short pc ->
  writes v pc a <->
  opcode v pc mod 32 <> 0 /\ in_operand (store_operand (op_of v pc) (rmode v pc) (machine_of v pc)) (smode v pc) a.
Proof.
  intros Hv Hp. unfold writes. rewrite dispatch_spec by (apply opcode_is_byte; auto).
  assert (N : forall l, (forall v, well_typed v -> exists m w, perform l v pc = Some (m, w) /\ forall i, ram m i = vm_mem v i) ->
    ~ exists l' m w, Some l = Some l' /\ perform l' v pc = Some (m, w) /\
        forall x, is_byte x -> exists m' w', perform l' (poke v a x) pc = Some (m', w') /\ ram m' a = ram m a).
  { intros l Hl (l' & m & w & E & E1 & H). injection E as <-.
    set (x := (ram m a + 1) mod 256). assert (Hx : is_byte x) by (unfold is_byte, x; lia).
    destruct (H x Hx) as (m' & w' & E2 & E3).
    destruct (Hl _ (poke_well_typed v a x Hv Hx)) as (m2 & w2 & E4 & E5). rewrite E2 in E4. injection E4 as -> ->.
    rewrite E5 in E3. cbn in E3. rewrite Z.eqb_refl in E3. 
    set (y := (ram m a + 2) mod 256). assert (Hy : is_byte y) by (unfold is_byte, y; lia).
    destruct (H y Hy) as (m3 & w3 & E6 & E7).
    destruct (Hl _ (poke_well_typed v a y Hv Hy)) as (m4 & w4 & E8 & E9). rewrite E6 in E8. injection E8 as -> ->.
    rewrite E9 in E7. cbn in E7. rewrite Z.eqb_refl in E7. unfold x, y in *. lia. }
  unfold spec_label. destruct (Z.eqb_spec (opcode v pc mod 32) 0) as [E0|E0].
  - split; [|tauto]. intros H. exfalso. revert H. apply N. intros v' Hv'.
    destruct (perform_imm (if opcode v pc =? 0 then BRK else if opcode v pc =? 32 then JCI
      else if opcode v pc =? 64 then JMI else if opcode v pc =? 96 then JSI
      else LITop (flag (opcode v pc) 64) (flag (opcode v pc) 32)) v' pc Hv') as (m & E & Hm); eauto.
    destruct (opcode v pc =? 0), (opcode v pc =? 32), (opcode v pc =? 64), (opcode v pc =? 96); auto; right; right; right; right; eauto.
  - fold (op_of v pc) (rmode v pc) (smode v pc).
    destruct (is_device_dec (op_of v pc)) as [Hd|[Hd1 Hd2]].
    + split.
      * intros H. exfalso. revert H. apply N. intros v' Hv'.
        destruct (perform_device (op_of v pc) (flag (opcode v pc) 128) (rmode v pc) (smode v pc) v' pc Hv' Hd)
          as (m & E & Hm & _). eauto.
      * intros (_ & H). destruct Hd as [Hd|Hd]; rewrite Hd in H; contradiction.
    + rewrite <- (poly_writes _ (flag (opcode v pc) 128)) by eauto. split.
      * intros (l & m & w & E & H). injection E as <-. split; auto. eauto.
      * intros (_ & m & w & H). eauto 6.
Qed.

Lemma touches_iff out v pc a : well_typed v -> is_short pc ->
  touches out v pc a <->
  opcode v pc mod 32 <> 0 /\ op_of v pc = (if out then DEO else DEI) /\
  In a (ports_of (smode v pc) (port_of (rmode v pc) (machine_of v pc))).
Proof.
  intros Hv Hp. unfold touches. rewrite dispatch_spec by (apply opcode_is_byte; auto).
  unfold spec_label. destruct (Z.eqb_spec (opcode v pc mod 32) 0) as [E0|E0].
  - split; [|tauto]. intros (l & m & w & E & E1 & H). exfalso.
    destruct (perform_imm (if opcode v pc =? 0 then BRK else if opcode v pc =? 32 then JCI
      else if opcode v pc =? 64 then JMI else if opcode v pc =? 96 then JSI
      else LITop (flag (opcode v pc) 64) (flag (opcode v pc) 32)) v pc Hv) as (m' & E' & _).
    { destruct (opcode v pc =? 0), (opcode v pc =? 32), (opcode v pc =? 64), (opcode v pc =? 96); auto; right; right; right; right; eauto. }
    injection E as <-. rewrite E1 in E'. injection E' as -> ->. contradiction.
  - fold (op_of v pc) (rmode v pc) (smode v pc).
    destruct (is_device_dec (op_of v pc)) as [Hd|[Hd1 Hd2]].
    + destruct (perform_device (op_of v pc) (flag (opcode v pc) 128) (rmode v pc) (smode v pc) v pc Hv Hd)
          as (m & E & _). split.
      * intros (l & m' & w & El & E' & H). injection El as <-. rewrite E in E'. injection E' as <- <-.
        change (In (out, a) (map (fun p => (base_eqb (op_of v pc) DEO, p))
          (ports_of (smode v pc) (port_of (rmode v pc) (machine_of v pc))))) in H.
        apply in_map_iff in H as (p & E2 & H). injection E2 as E2 ->. split; auto. split; auto.
        destruct Hd as [Hd|Hd]; rewrite Hd in E2 |- *; cbn in E2; subst out; reflexivity.
      * intros (_ & Eo & H). eexists _, _, _. split; [reflexivity|]. split; [exact E|].
        apply in_map_iff. exists a. split; auto. rewrite Eo. destruct out; reflexivity.
    + split.
      * intros (l & m & w & El & E & H). injection El as <-. exfalso.
        pose proof (perform_poly (op_of v pc) (flag (opcode v pc) 128) (rmode v pc) (smode v pc) v pc Hv Hd1 Hd2) as P.
        destruct (overflow _ _ _ _); [congruence|]. destruct P as (m' & P & _). rewrite E in P. injection P as -> ->.
        contradiction.
      * intros (_ & H & _). destruct out; contradiction.
Qed.

(** ** The decoder *)
Lemma has_bit x k m : 0 <= k -> m = 2 ^ k -> has x m = Z.testbit x k.
Proof.
  intros Hk ->. unfold has. rewrite ScreenProofs.land_pow2 by auto.
  pose proof (Z.pow_pos_nonneg 2 k ltac:(lia) Hk). destruct (Z.testbit x k); lia.
Qed.

Lemma has_flag x k m : 0 <= k -> m = 2 ^ k -> has x m = VmSpec.flag x m.
Proof.
  intros Hk ->. rewrite (has_bit x k) by auto. unfold VmSpec.flag.
  rewrite <- Z.bit0_odd, Z.div_pow2_bits by lia. f_equal.
Qed.

Definition second (s : bool) (a : Z) : Z := u16 (a + (if s then 1 else 0)).

Lemma join16 hi lo : is_byte hi -> is_byte lo -> Z.lor (u16 (Z.shiftl hi 8)) lo = 256 * hi + lo.
Proof.
  unfold is_byte. intros H1 H2.
  assert (E : u16 (Z.shiftl hi 8) = Z.shiftl hi 8).
  { unfold u16. rewrite Z.shiftl_mul_pow2 by lia. apply Z.mod_small. lia. }
  rewrite E. apply join_eq; auto. lia.
Qed.

Lemma decode_ok v pc : well_typed v -> is_short pc ->
  exists cls a1, decode pc v = Ok (cls, a1, second (smode v pc) a1) /\
   let m := machine_of v pc in
   let code := opcode v pc mod 32 in
   match (if code =? 0 then INC else operation code) with
   | LDZ => cls = ClsMemLoad /\ a1 = port_of (rmode v pc) m
   | STZ => cls = ClsMemStore /\ a1 = port_of (rmode v pc) m
   | DEI => cls = ClsDevLoad /\ a1 = port_of (rmode v pc) m
   | DEO => cls = ClsDevStore /\ a1 = port_of (rmode v pc) m
   | LDR => cls = ClsMemLoad /\ exists b, load_operand LDR (rmode v pc) m = Some (65536, b) /\ a1 = b mod 65536
   | LDA => cls = ClsMemLoad /\ exists b, load_operand LDA (rmode v pc) m = Some (65536, b) /\ a1 = b mod 65536
   | STR => cls = ClsMemStore /\ exists b, store_operand STR (rmode v pc) m = Some (65536, b) /\ a1 = b mod 65536
   | STA => cls = ClsMemStore /\ exists b, store_operand STA (rmode v pc) m = Some (65536, b) /\ a1 = b mod 65536
   | _ => cls = ClsOther
   end.
Proof.
  intros Hv Hp. pose proof (opcode_is_byte v pc Hv Hp) as Hop.
  unfold decode.
  assert (Hm : 65536 <= vm_msize v) by apply Hv.
  unfold aget at 1. rewrite in_bounds_true by (unfold is_short in *; lia). cbn [rbind]. fold (opcode v pc).
  replace (Z.land (opcode v pc) 31) with (opcode v pc mod 32)
    by (symmetry; exact (ScreenProofs.low_bits (opcode v pc) 5 32 ltac:(lia) eq_refl)).
  rewrite (has_flag _ 6 64) by (auto; lia). rewrite (has_flag _ 5 32) by (auto; lia).
  fold (rmode v pc) (smode v pc).
  unfold aget. rewrite !in_bounds_true by (unfold u8; lia). cbn [rbind].
  set (q := if rmode v pc then rst (machine_of v pc) else wst (machine_of v pc)).
  assert (Eq : (if rmode v pc then vm_rs v else vm_ws v) = cell q /\ (if rmode v pc then vm_rsp v else vm_wsp v) = depth q)
    by (unfold q; destruct (rmode v pc); split; reflexivity).
  destruct Eq as [-> ->].
  assert (Hq : forall i, is_byte (cell q (i mod 256))).
  { intros i. unfold q. destruct (rmode v pc); apply Hv; lia. }
  unfold u8.
  assert (E1 : cell q ((depth q - 1) mod 256) = port_of (rmode v pc) (machine_of v pc)) by reflexivity.
  assert (E2 : Z.lor (u16 (Z.shiftl (cell q ((depth q - 2) mod 256)) 8)) (cell q ((depth q - 1) mod 256)) =
               peek (cell q) 256 (depth q - 2) 2 mod 65536).
  { unfold peek. change (2 =? 2) with true. cbv iota. replace (depth q - 2 + 1) with (depth q - 1) by lia.
    pose proof (Hq (depth q - 2)) as B1. pose proof (Hq (depth q - 1)) as B2.
    rewrite join16 by auto. unfold is_byte in B1, B2.
    generalize dependent (cell q ((depth q - 2) mod 256)). generalize dependent (cell q ((depth q - 1) mod 256)).
    intros lo _ B2 hi B1. rewrite Z.mod_small by lia. reflexivity. }
  assert (E3 : u16 (pc + 1 + s8 (cell q ((depth q - 1) mod 256))) =
     ((pc + 1) mod 65536 + signed (peek (cell q) 256 (depth q - 1) 1)) mod 65536).
  { rewrite s8_signed by auto. unfold u16. rewrite Zplus_mod_idemp_l. reflexivity. }
  rewrite E2, E3. rewrite E1.
  assert (Hc : 0 <= opcode v pc mod 32 < 32) by lia.
  fold (second (smode v pc)).
  set (code := opcode v pc mod 32) in *. clearbody code.
  assert (D : In code [0;1;2;3;4;5;6;7;8;9;10;11;12;13;14;15;16;17;18;19;20;21;22;23;24;25;26;27;28;29;30;31]).
  { cbn. lia. }
  cbv zeta. cbn [load_operand store_operand]. fold q. cbn [ip machine_of].
  cbn [In] in D.
  Ltac one_code := eexists _, _; split; [reflexivity|];
    match goal with |- match ?x with _ => _ end => let y := eval vm_compute in x in change x with y end;
    cbv iota beta; eauto 6; fail.
  repeat (destruct D as [<-|D]; [one_code|]).
  contradiction.
Qed.

(** ** One breakpoint *)
Lemma matches_ungated b started pc v cls a1 a2 :
  has (b_mask b) BRKP_LOAD = false -> has (b_mask b) BRKP_STORE = false ->
  brkp_matches b started pc v cls a1 a2 = brkp_matches b started pc v ClsOther 0 0.
Proof.
  intros E1 E2. unfold brkp_matches. rewrite E1, E2. reflexivity.
Qed.

Lemma load_eqn v a : well_typed v -> dev_load2 v (u8 a) = port_vector v a.
Proof.
  intros H. rewrite SystemProofs.dev_load2_word by auto. unfold SystemSpec.word, port_vector, u8.
  rewrite Zmod_mod, Zplus_mod_idemp_l. reflexivity.
Qed.

Lemma at_word b s a :
  (b mod 65536 =? a) || (second s (b mod 65536) =? a) = true <-> in_operand (Some (65536, b)) s a.
Proof. unfold second, u16. cbn [in_operand]. destruct s; lia. Qed.

Lemma at_byte p s a : is_byte p -> (s = true -> p = 255 -> a <> 0 /\ a <> 256) ->
  (p =? a) || (second s p =? a) = true <-> in_operand (Some (256, p)) s a.
Proof. unfold second, u16, is_byte. cbn [in_operand]. intros H1 H2. destruct s; lia. Qed.

Lemma at_port p s a : is_byte p -> (s = true -> p = 255 -> a <> 0 /\ a <> 256) ->
  (p =? a) || (second s p =? a) = true <-> In a (ports_of s p).
Proof. unfold second, u16, is_byte, ports_of. intros H1 H2. destruct s; cbn [In]; lia. Qed.

Lemma wrapping_iff v pc : wrapping_access v pc <->
  In (opcode v pc mod 32) [16; 17; 22; 23] /\ smode v pc = true /\ port_of (rmode v pc) (machine_of v pc) = 255.
Proof.
  unfold wrapping_access. cbv zeta.
  assert (E : (if Z.odd (opcode v pc / 64) then vm_rs v else vm_ws v)
    (((if Z.odd (opcode v pc / 64) then vm_rsp v else vm_wsp v) - 1) mod 256) = port_of (rmode v pc) (machine_of v pc)).
  { unfold rmode, VmSpec.flag. destruct (Z.odd _); reflexivity. }
  rewrite E. unfold smode, VmSpec.flag. cbn [In].
  split; intros (H1 & H2 & H3); (split; [|split; auto]); lia.
Qed.

Definition exempt (b : brkp) (v : vm) (pc : Z) : Prop :=
  wrapping_access v pc -> b_addr b <> 0 /\ b_addr b <> 256.

Lemma operation_inj code o : 0 <= code < 32 -> code <> 0 -> operation code = o ->
  In code (match o with LDZ => [16] | STZ => [17] | DEI => [22] | DEO => [23] | _ => [code] end).
Proof.
  intros H1 H2 <-.
  assert (D : In code [1;2;3;4;5;6;7;8;9;10;11;12;13;14;15;16;17;18;19;20;21;22;23;24;25;26;27;28;29;30;31]).
  { cbn. lia. }
  cbn [In] in D. repeat (destruct D as [<-|D]; [left; reflexivity|]). contradiction.
Qed.

Ltac refute := let H := fresh in intros H; exfalso;
  first [discriminate H | tauto | destruct H as (_ & H & _); discriminate H].

Lemma class_iff b v pc cls a1 a2 : well_typed v -> is_short pc -> exempt b v pc ->
  decode pc v = Ok (cls, a1, a2) ->
  let at_addr := (a1 =? b_addr b) || (a2 =? b_addr b) in
  (is_mem_load cls && at_addr = true <-> loads v pc (b_addr b)) /\
  (is_mem_store cls && at_addr = true <-> writes v pc (b_addr b)) /\
  (is_dev_load cls && at_addr = true <-> touches false v pc (b_addr b)) /\
  (is_dev_store cls && at_addr = true <-> touches true v pc (b_addr b)).
Proof.
  intros Hv Hp Hx E. cbv zeta.
  destruct (decode_ok v pc Hv Hp) as (cls' & a1' & E' & M). rewrite E in E'. injection E' as <- <- ->.
  cbv zeta in M. rewrite loads_iff, writes_iff, !touches_iff by auto.
  unfold op_of in *. set (code := opcode v pc mod 32) in *.
  assert (Hc : 0 <= code < 32) by (unfold code; lia).
  assert (Hb : is_byte (port_of (rmode v pc) (machine_of v pc))).
  { unfold port_of. destruct (rmode v pc); apply Hv; lia. }
  assert (Hw : In code [16; 17; 22; 23] -> smode v pc = true ->
     port_of (rmode v pc) (machine_of v pc) = 255 -> b_addr b <> 0 /\ b_addr b <> 256).
  { intros W1 W2 W3. apply Hx. apply wrapping_iff. auto. }
  destruct (Z.eqb_spec code 0) as [E0|E0].
  { rewrite M. cbn. repeat split; intros; try discriminate; tauto. }
  assert (Hi := operation_inj code _ Hc E0 eq_refl).
  destruct (operation code) eqn:Eo;
  try (rewrite M; cbn [is_mem_load is_mem_store is_dev_load is_dev_store andb load_operand store_operand in_operand];
       split; [split; refute|split; [split; refute|split; split; refute]]; fail).
  all: try (assert (Hw' : smode v pc = true -> port_of (rmode v pc) (machine_of v pc) = 255 ->
              b_addr b <> 0 /\ b_addr b <> 256) by (apply Hw; destruct Hi as [<-|[]]; cbn; auto; fail)).
  all: destruct M as [-> M]; cbn [is_mem_load is_mem_store is_dev_load is_dev_store andb].
  all: try (subst a1).
  all: try (destruct M as (x & M & ->); cbn [load_operand store_operand] in M; injection M as M; subst x).
  all: split; [|split; [|split]].
  all: try (split; [discriminate|]; cbn [load_operand store_operand in_operand]; refute).
  all: try (rewrite at_word; cbn [load_operand store_operand]; tauto).
  all: try (rewrite at_byte by auto; cbn [load_operand store_operand];
            fold (port_of (rmode v pc) (machine_of v pc)); tauto).
  all: rewrite at_port by auto; tauto.
Qed.

Lemma matches_names b started v pc cls a1 a2 : well_typed v -> is_short pc -> exempt b v pc ->
  decode pc v = Ok (cls, a1, a2) ->
  brkp_matches b started pc v cls a1 a2 = true <-> names b started v pc.
Proof.
  intros Hv Hp Hx E. destruct (class_iff b v pc cls a1 a2 Hv Hp Hx E) as (L & S & DL & DS).
  unfold brkp_matches, names. cbv zeta.
  unfold BRKP_TYPE_MASK, BRKP_DEV, BRKP_EXEC, BRKP_LOAD, BRKP_STORE.
  rewrite (has_bit _ 2 4), (has_bit _ 3 8), (has_bit _ 4 16) by (auto; lia).
  change (Z.land (b_mask b) 1) with (Z.land (b_mask b) (2 ^ 0)).
  rewrite (ScreenProofs.land_pow2 (b_mask b) 0 ltac:(lia)).
  rewrite load_eqn by auto.
  destruct (Z.eqb_spec (b_mask b) 0) as [->|_].
  { rewrite !Z.testbit_0_l. split; [discriminate|]. intros [[H _]|[[H _]|[H _]]]; discriminate. }
  destruct (Z.testbit (b_mask b) 0).
  - change (2 ^ 0 =? 1) with true. cbv iota.
    rewrite !orb_true_iff, <- !andb_assoc, !andb_true_iff, <- DL, <- DS, !andb_true_iff, Z.eqb_eq. tauto.
  - change (0 =? 1) with false. cbv iota.
    rewrite !orb_true_iff, <- !andb_assoc, !andb_true_iff, <- L, <- S, !andb_true_iff, Z.eqb_eq. tauto.
Qed.

Lemma matches_gated b started v pc : well_typed v ->
  Z.testbit (b_mask b) 3 = false -> Z.testbit (b_mask b) 4 = false ->
  brkp_matches b started pc v ClsOther 0 0 = true <-> names b started v pc.
Proof.
  intros Hv E3 E4. unfold brkp_matches, names. cbv zeta. rewrite E3, E4.
  unfold BRKP_TYPE_MASK, BRKP_DEV, BRKP_EXEC, BRKP_LOAD, BRKP_STORE.
  rewrite (has_bit _ 2 4) by (auto; lia).
  change (Z.land (b_mask b) 1) with (Z.land (b_mask b) (2 ^ 0)).
  rewrite (ScreenProofs.land_pow2 (b_mask b) 0 ltac:(lia)).
  rewrite load_eqn by auto. cbn [is_dev_load is_dev_store is_mem_load is_mem_store].
  rewrite !andb_false_r, !orb_false_r.
  destruct (Z.eqb_spec (b_mask b) 0) as [->|_].
  { rewrite !Z.testbit_0_l. split; [discriminate|]. intros [[H _]|[[H _]|[H _]]]; discriminate. }
  destruct (Z.testbit (b_mask b) 0).
  - change (2 ^ 0 =? 1) with true. cbv iota. rewrite !andb_true_iff, Z.eqb_eq. 
    split; [intros [[H1 H2] H3]; auto|]. intros [(H1 & H2 & H3)|[[H _]|[H _]]]; try discriminate. auto.
  - change (0 =? 1) with false. cbv iota. rewrite !andb_true_iff, Z.eqb_eq.
    split; [auto|]. intros [H|[[H _]|[H _]]]; try discriminate. auto.
Qed.

(** ** The search *)
Definition match_spec (d : dbg) (P : brkp -> Prop) (id : Z) : Prop :=
  id = 255 /\ none (d_tab d) P \/ lowest (d_tab d) P id.

Lemma find_spec d started pc v cls a1 a2 : forall k i, 0 <= i -> i + Z.of_nat k <= 255 ->
  exists id, find_brkp k i d started pc v cls a1 a2 = Ok id /\
    let P := fun j => brkp_matches (d_tab d j) started pc v cls a1 a2 = true in
    (id = 255 /\ (forall j, i <= j < i + Z.of_nat k -> ~ P j) \/
     i <= id < i + Z.of_nat k /\ P id /\ forall j, i <= j < id -> ~ P j).
Proof.
  induction k as [|k IH]; intros i Hi Hk; cbn [find_brkp].
  - exists 255. split; auto. left. split; auto. intros; lia.
  - unfold tab_get. rewrite in_bounds_true by lia. cbn [rbind].
    destruct (brkp_matches (d_tab d i) started pc v cls a1 a2) eqn:E.
    + exists i. split; auto. cbv zeta. right. split; [lia|]. split; auto. intros; lia.
    + destruct (IH (i + 1)) as (id & E1 & H); try lia. exists id. split; auto. cbv zeta in *.
      destruct H as [[H1 H2]|(H1 & H2 & H3)].
      * left. split; auto. intros j Hj. destruct (Z.eq_dec j i) as [->|]; [congruence|]. apply H2. lia.
      * right. split; [lia|]. split; auto. intros j Hj. destruct (Z.eq_dec j i) as [->|]; [congruence|].
        apply H3. lia.
Qed.

Lemma names_zero b started v pc : b_mask b = 0 -> ~ names b started v pc.
Proof.
  intros E. unfold names. rewrite E, !Z.testbit_0_l. intros [[H _]|[[H _]|[H _]]]; discriminate.
Qed.

Lemma match_generic d started pc v (P : brkp -> Prop) : tab_inv d -> well_typed v -> is_short pc ->
  (forall b, b_mask b = 0 -> ~ P b) ->
  (forall id cls a1 a2, 0 <= id < 255 -> decode pc v = Ok (cls, a1, a2) ->
     brkp_matches (d_tab d id) started pc v cls a1 a2 = true <-> P (d_tab d id)) ->
  (forall b, Z.testbit (b_mask b) 3 = false -> Z.testbit (b_mask b) 4 = false ->
     brkp_matches b started pc v ClsOther 0 0 = true <-> P b) ->
  exists id, match_brkp d started pc v = Ok id /\ match_spec d P id.
Proof.
  intros HI Hv Hp P0 P1 P2. destruct HI as [H1 H2 H3 H4 H5 H6]. unfold mask_of in *.
  unfold match_brkp. destruct (Z.eqb_spec (d_mask d) 0) as [E|E].
  { exists 255. split; auto. left. split; auto. intros j Hj N.
    revert N. apply P0. destruct (Z_lt_dec j (d_n d)); [|apply H3; lia].
    apply Z.bits_inj'. intros k Hk. rewrite Z.testbit_0_l.
    destruct (Z.testbit (b_mask (d_tab d j)) k) eqn:Eb; auto.
    assert (Hb : Z.testbit (d_mask d) k = true) by (apply H6; auto; exists j; split; [lia|auto]).
    rewrite E, Z.testbit_0_l in Hb. discriminate. }
  assert (Hd : exists cls a1 a2,
    (if has (d_mask d) (Z.lor BRKP_LOAD BRKP_STORE) then decode pc v else Ok (ClsOther, 0, 0)) = Ok (cls, a1, a2) /\
    forall j, 0 <= j < d_n d ->
      (brkp_matches (d_tab d j) started pc v cls a1 a2 = true <-> P (d_tab d j))).
  { destruct (has _ _) eqn:Eh.
    - destruct (decode_ok v pc Hv Hp) as (cls & a1 & E1 & _). eexists _, _, _. split; [exact E1|].
      intros j Hj. apply P1; auto. lia.
    - eexists _, _, _. split; [reflexivity|]. intros j Hj.
      assert (Hz : Z.land (d_mask d) 24 = 0).
      { unfold has in Eh. change (Z.lor BRKP_LOAD BRKP_STORE) with 24 in Eh.
        assert (0 <= Z.land (d_mask d) 24) by (apply Z.land_nonneg; right; vm_compute; discriminate). lia. }
      assert (Hbit : forall k, 0 <= k -> Z.testbit 24 k = true -> Z.testbit (b_mask (d_tab d j)) k = false).
      { intros k Hk Ek. destruct (Z.testbit (b_mask (d_tab d j)) k) eqn:Eb; auto.
        assert (Hm : Z.testbit (d_mask d) k = true) by (apply H6; eauto).
        assert (Hl : Z.testbit (Z.land (d_mask d) 24) k = true) by (rewrite Z.land_spec, Hm, Ek; auto).
        rewrite Hz, Z.testbit_0_l in Hl. discriminate. }
      apply P2; auto; apply Hbit; auto; lia. }
  destruct Hd as (cls & a1 & a2 & Ed & Hd). rewrite Ed. cbn [rbind].
  destruct (find_spec d started pc v cls a1 a2 (Z.to_nat (d_n d)) 0) as (id & Ef & Hf); try lia.
  exists id. split; auto. cbv zeta in Hf. rewrite Z2Nat.id in Hf by lia. unfold match_spec.
  destruct Hf as [[F1 F2]|(F1 & F2 & F3)].
  - left. split; auto. intros j Hj N. destruct (Z_lt_dec j (d_n d)).
    + apply (F2 j); [lia|]. apply Hd; auto. lia.
    + revert N. apply P0. apply H3. lia.
  - right. split; [lia|]. split; [apply Hd; auto; lia|].
    intros j Hj N. apply (F3 j); auto. apply Hd; auto. lia.
Qed.

Lemma match_brkp_spec d started pc v : tab_inv d -> well_typed v -> is_short pc ->
  (forall id, 0 <= id < 255 -> exempt (d_tab d id) v pc) ->
  exists id, match_brkp d started pc v = Ok id /\
    match_spec d (fun b => names b started v pc) id.
Proof.
  intros HI Hv Hp Hx. apply match_generic; auto.
  - intros b. apply names_zero.
  - intros id cls a1 a2 Hid E. apply matches_names; auto.
  - intros b. apply matches_gated. auto.
Qed.

(** ** The wrapping case *)
Lemma matches_wrapping b started v pc cls a1 a2 : well_typed v -> is_short pc -> wrapping_access v pc ->
  decode pc v = Ok (cls, a1, a2) ->
  brkp_matches b started pc v cls a1 a2 = true <-> misnames b started v pc.
Proof.
  intros Hv Hp Hw E. apply wrapping_iff in Hw as (W1 & W2 & W3).
  destruct (decode_ok v pc Hv Hp) as (cls' & a1' & E' & M). rewrite E in E'. injection E' as <- <- ->.
  cbv zeta in M. rewrite W3 in M.
  unfold brkp_matches, misnames. cbv zeta.
  unfold BRKP_TYPE_MASK, BRKP_DEV, BRKP_EXEC, BRKP_LOAD, BRKP_STORE.
  rewrite (has_bit _ 2 4), (has_bit _ 3 8), (has_bit _ 4 16) by (auto; lia).
  change (Z.land (b_mask b) 1) with (Z.land (b_mask b) (2 ^ 0)).
  rewrite (ScreenProofs.land_pow2 (b_mask b) 0 ltac:(lia)).
  rewrite load_eqn by auto. rewrite W2 in *.
  destruct (Z.eqb_spec (b_mask b) 0) as [->|_].
  { rewrite !Z.testbit_0_l. split; [discriminate|]. intros [[H _]|[[H _]|[H _]]]; discriminate. }
  set (code := opcode v pc mod 32) in *. clearbody code.
  cbn [In] in W1.
  destruct W1 as [<-|[<-|[<-|[<-|[]]]]];
  match type of M with match ?x with _ => _ end => let y := eval vm_compute in x in change x with y in M end;
  cbv iota beta in M; destruct M as [-> ->]; unfold second, u16; change ((255 + 1) mod 65536) with 256;
  cbn [is_dev_load is_dev_store is_mem_load is_mem_store];
  destruct (Z.testbit (b_mask b) 0);
  [change (2 ^ 0 =? 1) with true|change (0 =? 1) with false
  |change (2 ^ 0 =? 1) with true|change (0 =? 1) with false
  |change (2 ^ 0 =? 1) with true|change (0 =? 1) with false
  |change (2 ^ 0 =? 1) with true|change (0 =? 1) with false]; cbv iota;
  destruct (Z.testbit (b_mask b) 2), (Z.testbit (b_mask b) 3), (Z.testbit (b_mask b) 4), started; cbn [andb orb]; lia.
Qed.

Lemma misnames_gated b started v pc : well_typed v ->
  Z.testbit (b_mask b) 3 = false -> Z.testbit (b_mask b) 4 = false ->
  brkp_matches b started pc v ClsOther 0 0 = true <-> misnames b started v pc.
Proof.
  intros Hv E3 E4. rewrite matches_gated by auto. unfold names, misnames. rewrite E3, E4.
  cbv zeta. destruct (Z.testbit (b_mask b) 0); (split; intros [H|[[H _]|[H _]]]; try discriminate; auto).
Qed.

Lemma match_brkp_wrapping d started pc v : tab_inv d -> well_typed v -> is_short pc ->
  wrapping_access v pc ->
  exists id, match_brkp d started pc v = Ok id /\
    match_spec d (fun b => misnames b started v pc) id.
Proof.
  intros HI Hv Hp Hx. apply match_generic; auto.
  - intros b E. unfold misnames. rewrite E, !Z.testbit_0_l. intros [[H _]|[[H _]|[H _]]]; discriminate.
  - intros id cls a1 a2 Hid E. apply matches_wrapping; auto.
  - intros b. apply misnames_gated. auto.
Qed.
