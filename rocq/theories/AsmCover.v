(** Every run of the assembler that succeeds gives a symbol to every byte it
    puts into the ROM, and the symbols of opcodes and numbers tell the truth. *)
From Verif Require Import Base AsmModel AsmSound AsmScan AsmRun.
From Coq Require Import ZifyBool Ascii String.
Open Scope list_scope.
Ltac Zify.zify_post_hook ::= Z.div_mod_to_equations.

Definition byte_type (t : sym_type) : bool :=
  match t with SLabelRef | SOpcode | SNumber | SText => true | _ => false end.
Definition covers (out : list event) (a : Z) : Prop := exists s, In (ESym a s) out /\ byte_type (s_type s) = true.
Definition put_at (out : list event) (a : Z) : Prop := exists v, In (EPut a v) out.
Definition labref (out : list event) (a : Z) : Prop := exists s, In (ESym a s) out /\ s_type s = SLabelRef.
(** The value put last; the newest event is first. *)
Fixpoint val (out : list event) (a : Z) : option Z :=
  match out with
  | [] => None
  | EPut x v :: out' => if a =? x then Some v else val out' a
  | _ :: out' => val out' a
  end.
Definition says (s : symbol) (v : option Z) : Prop :=
  match s_type s with
  | SOpcode => v = Some (s_id s)
  | SNumber => v = Some (u8 (s_id s)) \/ v = Some (u8 (Z.shiftr (s_id s) 8))
  | _ => True
  end.
Definition truth (out : list event) : Prop :=
  forall a s, In (ESym a s) out -> (forall s', In (ESym a s') out -> byte_type (s_type s') = true -> s' = s) -> says s (val out a).

Definition ref_at (out : list event) (r : fref) : Prop :=
  labref out (f_addr r) /\ (f_size r = RShort -> labref out (u16 (f_addr r + 1))).
Definition entry_at (out : list event) (e : entry) : Prop :=
  match e with EnForward _ refs => Forall (ref_at out) refs | _ => True end.

Record good (out : list event) (lams : list fref) (tab : list (str * node)) : Prop := mkGood {
  g_cover : forall a, put_at out a <-> covers out a;
  g_truth : truth out;
  g_lams : Forall (ref_at out) lams;
  g_tab : Forall (fun nv => entry_at out (n_entry (snd nv))) tab
}.
Definition Cov (b : basm) : Prop := b_success b = true -> good (b_out b) (b_lambdas b) (b_symtab b).

(** ** Growing logs *)
Lemma labref_more out e a : labref out a -> labref (e ++ out) a.
Proof. intros (s & I & T). exists s. split; auto. apply in_or_app; auto. Qed.
Lemma ref_more out e r : ref_at out r -> ref_at (e ++ out) r.
Proof. intros [A B]. split; [apply labref_more; auto|]. intros S. apply labref_more; auto. Qed.
Lemma refs_more out e l : Forall (ref_at out) l -> Forall (ref_at (e ++ out)) l.
Proof. intros F. eapply Forall_impl; [|exact F]. intros. apply ref_more; auto. Qed.
Lemma entry_more out e x : entry_at out x -> entry_at (e ++ out) x.
Proof. destruct x; cbn; auto. apply refs_more. Qed.
Lemma tab_more out e (l : list (str * node)) :
  Forall (fun nv => entry_at out (n_entry (snd nv))) l -> Forall (fun nv => entry_at (e ++ out) (n_entry (snd nv))) l.
Proof. intros F. eapply Forall_impl; [|exact F]. intros. apply entry_more; auto. Qed.

Lemma in_tail {A} (x y : A) l : x <> y -> In x (y :: l) -> In x l.
Proof. intros N [E|I]; congruence. Qed.

Definition neutral (e : event) : Prop :=
  match e with EPut _ _ => False | ESym _ s => byte_type (s_type s) = false | _ => True end.

Lemma good_neutral out lams tab e : neutral e -> good out lams tab -> good (e :: out) lams tab.
Proof.
  intros N [C T L S].
  assert (P : forall a v, In (EPut a v) (e :: out) <-> In (EPut a v) out).
  { intros a v. split; [|right; auto]. apply in_tail. intros <-. exact N. }
  assert (Y : forall a s, byte_type (s_type s) = true -> (In (ESym a s) (e :: out) <-> In (ESym a s) out)).
  { intros a s B. split; [|right; auto]. apply in_tail. intros <-. cbn in N. congruence. }
  assert (V : forall a, val (e :: out) a = val out a) by (destruct e; cbn in *; tauto).
  constructor.
  - intros a. specialize (C a). unfold put_at, covers in *. split.
    + intros [v I]. apply P in I. destruct (proj1 C (ex_intro _ v I)) as (s & I2 & B). exists s. split; auto. right; auto.
    + intros (s & I & B). apply Y in I; auto. destruct (proj2 C (ex_intro _ s (conj I B))) as [v I2]. exists v. right; auto.
  - intros a s I U. rewrite V. destruct (byte_type (s_type s)) eqn:B.
    + apply T; [apply (proj1 (Y a s B)); auto|]. intros s' I' B'. apply U; auto. right; auto.
    + unfold says. destruct (s_type s); cbn in B; auto; discriminate.
  - exact (refs_more out [e] lams L).
  - exact (tab_more out [e] tab S).
Qed.

(** One byte with its symbol. *)
Lemma good_byte out lams tab a v s : byte_type (s_type s) = true -> says s (Some v) ->
  good out lams tab -> good (ESym a s :: EPut a v :: out) lams tab.
Proof.
  intros B Y [C T L S]. constructor.
  - intros x. specialize (C x). unfold put_at, covers in *. split.
    + intros [w [E|[E|I]]]; [discriminate|injection E as -> ->; exists s; split; [left; auto|auto]|].
      destruct (proj1 C (ex_intro _ w I)) as (s' & I' & B'). exists s'. split; auto. right; right; auto.
    + intros (s' & [E|[E|I]] & B'); [injection E as -> ->; exists v; right; left; auto|discriminate|].
      destruct (proj2 C (ex_intro _ s' (conj I B'))) as [w I']. exists w. right; right; auto.
  - intros x s' I U. cbn. destruct (Z.eqb_spec x a) as [->|N].
    + rewrite <- (U s); auto. left; auto.
    + apply T; [destruct I as [E|[E|I]]; [congruence|discriminate|auto]|].
      intros s2 I2. apply U. right; right; auto.
  - exact (refs_more out [_; _] lams L).
  - exact (tab_more out [_; _] tab S).
Qed.

(** Two. *)
Lemma good_short out lams tab a1 a2 v1 v2 s : byte_type (s_type s) = true -> a1 <> a2 -> says s (Some v1) -> says s (Some v2) ->
  good out lams tab -> good (ESym a2 s :: ESym a1 s :: EPut a2 v2 :: EPut a1 v1 :: out) lams tab.
Proof.
  intros B N Y1 Y2 [C T L S]. constructor.
  - intros x. specialize (C x). unfold put_at, covers in *. split.
    + intros [w [E|[E|[E|[E|I]]]]]; try discriminate.
      * injection E as -> ->; exists s; split; [left; auto|auto].
      * injection E as -> ->; exists s; split; [right; left; auto|auto].
      * destruct (proj1 C (ex_intro _ w I)) as (s' & I' & B'). exists s'. split; auto. do 4 right; auto.
    + intros (s' & [E|[E|[E|[E|I]]]] & B'); try discriminate.
      * injection E as -> ->; exists v2; do 2 right; left; auto.
      * injection E as -> ->; exists v1; do 3 right; left; auto.
      * destruct (proj2 C (ex_intro _ s' (conj I B'))) as [w I']. exists w. do 4 right; auto.
  - intros x s' I U. cbn. destruct (Z.eqb_spec x a2) as [->|N2]; [|destruct (Z.eqb_spec x a1) as [->|N1]].
    + rewrite <- (U s); auto. left; auto.
    + rewrite <- (U s); auto. right; left; auto.
    + apply T; [destruct I as [E|[E|[E|[E|I]]]]; try congruence|].
      intros s2 I2. apply U. do 4 right; auto.
  - exact (refs_more out [_; _; _; _] lams L).
  - exact (tab_more out [_; _; _; _] tab S).
Qed.

(** A byte of a reference is overwritten. *)
Lemma good_patch out lams tab a v : labref out a -> good out lams tab -> good (EPut a v :: out) lams tab.
Proof.
  intros (r & Ir & Tr) [C T L S]. assert (Br : byte_type (s_type r) = true) by (rewrite Tr; auto). constructor.
  - intros x. specialize (C x). unfold put_at, covers in *. split.
    + intros [w [E|I]].
      * injection E as -> ->. exists r. split; auto. right; auto.
      * destruct (proj1 C (ex_intro _ w I)) as (s' & I' & B'). exists s'. split; auto. right; auto.
    + intros (s' & [E|I] & B'); [discriminate|].
      destruct (proj2 C (ex_intro _ s' (conj I B'))) as [w I']. exists w. right; auto.
  - intros x s' I U. cbn. apply in_tail in I; [|discriminate]. destruct (Z.eqb_spec x a) as [->|N].
    + assert (r = s') by (apply U; auto; right; auto). subst s'. unfold says. rewrite Tr. auto.
    + apply T; auto. intros s2 I2. apply U. right; auto.
  - exact (refs_more out [_] lams L).
  - exact (tab_more out [_] tab S).
Qed.

(** ** States *)
Lemma cov_failed b : b_success b = false -> Cov b.
Proof. intros F S. congruence. Qed.
Lemma cov_error b m r : Cov (error_ex b m r).
Proof. apply cov_failed. reflexivity. Qed.
Lemma cov_log b e : neutral e -> Cov b -> Cov (log b e).
Proof. intros N C S. cbn. apply good_neutral; auto. Qed.
Lemma cov_symbol b a s : byte_type (s_type s) = false -> Cov b -> Cov (put_symbol b a s).
Proof. intros N C. apply cov_log; auto. Qed.
Lemma cov_warning b t m : Cov b -> Cov (warning b t m).
Proof. apply cov_log. exact I. Qed.
Lemma cov_same b b' : b_success b' = b_success b -> b_out b' = b_out b -> b_lambdas b' = b_lambdas b -> b_symtab b' = b_symtab b ->
  Cov b -> Cov b'.
Proof. intros E1 E2 E3 E4 C S. rewrite E2, E3, E4. apply C. congruence. Qed.

Lemma Forall_update (P : str * node -> Prop) n v l : (forall k, P (k, v)) -> Forall P l -> Forall P (update n v l).
Proof.
  intros H. induction 1 as [|[k w] l P1 F IH]; cbn; [constructor|]. destruct (str_dec k n); constructor; auto.
Qed.
Lemma Forall_lookup (P : node -> Prop) l n v : Forall (fun nv => P (snd nv)) l -> lookup n l = Some v -> P v.
Proof.
  induction 1 as [|[k w] l P1 F IH]; cbn; [discriminate|]. destruct (str_dec k n); auto. intros [= <-]. auto.
Qed.
Lemma cov_set_node b n v : (b_success b = true -> entry_at (b_out b) (n_entry v)) -> Cov b -> Cov (set_node b n v).
Proof.
  intros E C S. destruct (C S) as [G1 G2 G3 G4]. cbn in *. constructor; auto. apply Forall_update; auto.
Qed.
Lemma cov_set_lambdas b l : (b_success b = true -> Forall (ref_at (b_out b)) l) -> Cov b -> Cov (set_lambdas b l).
Proof. intros E C S. destruct (C S) as [G1 G2 G3 G4]. cbn in *. constructor; auto. Qed.

Lemma cov_andthen b r g : post b r -> Cov (snd r) -> (forall b', rel b b' -> wf b' -> Cov b' -> Cov (snd (g b'))) -> Cov (snd (andthen r g)).
Proof.
  intros [R W _ _] C G. rewrite andthen_eq. destruct (fst r); cbn; auto.
Qed.

(** What is said of a reference stays. *)
Lemma grown b b' (P : list event -> Prop) : rel b b' -> (forall o e, P o -> P (e ++ o)) ->
  (b_success b = true -> P (b_out b)) -> (b_success b' = true -> P (b_out b')).
Proof.
  intros R M H S. destruct (r_out _ _ R) as (e & O & Su & _). rewrite O. apply M. apply H.
  rewrite Su in S. destruct (b_success b); auto.
Qed.

(** ** Bytes *)
Lemma says_u8 s v : says s (Some v) -> says s (Some v).
Proof. auto. Qed.

Lemma emit_inv b t v : emit b t v = (true, log (set_addr b (u16 (b_addr b + 1))) (EPut (b_addr b) (u8 v))) /\ 256 <= b_addr b \/
  fst (emit b t v) = false /\ b_success (snd (emit b t v)) = false.
Proof.
  unfold emit, RESET_VECTOR. destruct (Z.ltb_spec (b_addr b) 256); [right|left]; auto.
Qed.
Lemma u16_id a : is_short a -> u16 a = a.
Proof. unfold is_short, u16. intros. rewrite Z.mod_small; lia. Qed.

Lemma cov_emit_sym b t v s : wf b -> Cov b -> byte_type (s_type s) = true -> says s (Some (u8 v)) ->
  Cov (snd (emit b t v ;; b' => (true, put_symbol b' (b_addr b) s))).
Proof.
  intros W C B Y. destruct (emit_inv b t v) as [[E G]|[F S]].
  - rewrite E. cbn [andthen snd]. unfold put_symbol. rewrite (u16_id (b_addr b)) by apply W.
    intros S. cbn in S |- *. apply good_byte; auto.
  - rewrite andthen_eq, F. apply cov_failed; auto.
Qed.

Lemma cov_emit2_sym b t v s : wf b -> Cov b -> byte_type (s_type s) = true ->
  says s (Some (u8 (Z.shiftr v 8))) -> says s (Some (u8 (Z.land v 255))) ->
  Cov (snd (emit2 b t v ;; b' => (true, put_symbol2 b' (b_addr b) s))).
Proof.
  intros W C B Y1 Y2. unfold emit2. destruct (emit_inv b t (Z.shiftr v 8)) as [[E G]|[F S]].
  2:{ rewrite !andthen_eq, F. cbn [fst snd]. apply cov_failed; auto. }
  rewrite E. cbn [andthen].
  match goal with |- context [emit ?b1 t ?x] => destruct (emit_inv b1 t x) as [[E2 G2]|[F S]] end.
  - rewrite E2. cbn [andthen snd]. unfold put_symbol2, put_symbol. rewrite (u16_id (b_addr b)) by apply W.
    intros S. cbn in S |- *. apply good_short; auto. intros X. cbn in G2. unfold u16 in X, G2. rewrite Z.mod_small in G2; [lia|].
    destruct W as [Wa _ _ _ _ _]. unfold is_short in Wa. lia.
  - rewrite !andthen_eq, F. cbn [fst snd]. apply cov_failed; auto.
Qed.

Lemma cov_emit_opcode b t op r : is_byte op -> wf b -> Cov b -> Cov (snd (emit_opcode b t op r)).
Proof. intros B W C. apply cov_emit_sym; auto. cbn. unfold u8, is_byte in *. rewrite Z.mod_small; auto. Qed.
Lemma lor_byte x y : is_byte x -> is_byte y -> is_byte (Z.lor x y).
Proof.
  intros X Y. unfold is_byte in *. assert (E : Z.lor x y mod 2 ^ 8 = Z.lor x y).
  { rewrite <- Z.land_ones by lia. rewrite Z.land_lor_distr_l, !Z.land_ones by lia. change (2 ^ 8) with 256. rewrite !Z.mod_small; lia. }
  change (2 ^ 8) with 256 in E. lia.
Qed.
Lemma op_flags_byte s : forall op r op' r', is_byte op -> op_flags s op r = Some (op', r') -> is_byte op'.
Proof.
  induction s as [|c s IH]; intros op r op' r' B; cbn [op_flags]; [intros [= <- _]; auto|]. cbn zeta.
  destruct (c =? 50); [apply IH, lor_byte; auto; unfold is_byte; lia|].
  destruct (c =? 114); [apply IH, lor_byte; auto; unfold is_byte; lia|].
  destruct (c =? 107); [apply IH, lor_byte; auto; unfold is_byte; lia|discriminate].
Qed.
Lemma index_of_lt x l : forall i j, index_of x l i = Some j -> i <= j < i + Z.of_nat (List.length l).
Proof.
  induction l as [|y l IH]; intros i j; cbn [index_of List.length]; [discriminate|].
  destruct (y =? x); [intros [= <-]; lia|]. intros E. apply IH in E. lia.
Qed.
Lemma parse_opcode_byte w op r : parse_opcode w = Some (op, r) -> is_byte op.
Proof.
  unfold parse_opcode. destruct w as [|a [|b [|c fl]]]; try discriminate. cbn zeta.
  destruct (_ =? _). { destruct fl; [|discriminate]. intros [= <- _]. unfold is_byte. lia. }
  destruct (index_of _ _ _) as [i|] eqn:E; [|discriminate]. apply op_flags_byte.
  apply index_of_lt in E. change (Z.of_nat (List.length BASE_OPCODES)) with 32 in E. unfold is_byte. destruct (i =? 0); lia.
Qed.
#[export] Hint Extern 1 (is_byte _) => (unfold is_byte; lia) : core.
Lemma cov_emit_byte b t v r : wf b -> Cov b -> Cov (snd (emit_byte b t v r)).
Proof. intros W C. apply cov_emit_sym; auto. left. reflexivity. Qed.
Lemma u8_land v : u8 (Z.land v 255) = u8 v.
Proof. unfold u8. change 255 with (Z.ones 8). rewrite Z.land_ones by lia. change (2 ^ 8) with 256. apply Z.mod_mod. lia. Qed.
Lemma cov_emit_short b t v r : wf b -> Cov b -> Cov (snd (emit_short b t v r)).
Proof. intros W C. apply cov_emit2_sym; auto. right. reflexivity. left. cbn. now rewrite u8_land. Qed.

(** ** References *)
(** A reference with a symbol: covered, and the symbol is there. *)
Definition is_ref (s : symbol) : Prop := s_type s = SLabelRef.
Lemma is_ref_byte s : is_ref s -> byte_type (s_type s) = true.
Proof. intros ->. reflexivity. Qed.
Lemma is_ref_says s v : is_ref s -> says s v.
Proof. unfold says. intros ->. exact I. Qed.

Definition placed (a : Z) (size : ref_size) (out : list event) : Prop :=
  labref out a /\ (size = RShort -> labref out (u16 (a + 1))).

Lemma placed_byte b t v s : wf b -> is_ref s ->
  let r := (emit b t v ;; b' => (true, put_symbol b' (b_addr b) s)) in
  b_success (snd r) = true -> placed (b_addr b) RByte (b_out (snd r)).
Proof.
  intros W Ir. cbn zeta. destruct (emit_inv b t v) as [[E G]|[F S]].
  - rewrite E. cbn [andthen snd]. intros _. unfold put_symbol. rewrite (u16_id (b_addr b)) by apply W.
    split; [|discriminate]. exists s. split; [left; auto|auto].
  - rewrite andthen_eq, F. cbn [snd]. congruence.
Qed.
Lemma placed_short b t v s : wf b -> is_ref s ->
  let r := (emit2 b t v ;; b' => (true, put_symbol2 b' (b_addr b) s)) in
  b_success (snd r) = true -> placed (b_addr b) RShort (b_out (snd r)).
Proof.
  intros W Ir. cbn zeta. rewrite andthen_eq. destruct (fst (emit2 b t v)) eqn:F.
  - cbn [snd]. intros _. unfold put_symbol2, put_symbol. rewrite (u16_id (b_addr b)) by apply W.
    split; [|intros _]; exists s; (split; [|auto]); [right; left; auto|left; auto].
  - cbn [snd]. pose proof (p_failed _ _ (post_emit2 b t v W) F). congruence.
Qed.

Lemma cov_placeholder b t sz s r : wf b -> Cov b ->
  let res := emit_placeholder b t sz s r in
  Cov (snd res) /\ (b_success (snd res) = true -> placed (b_addr b) sz (b_out (snd res))).
Proof.
  intros W C. cbn zeta. unfold emit_placeholder. destruct s as [[n id]|].
  - destruct sz; split; try (apply placed_byte || apply placed_short); auto; try reflexivity.
    + apply cov_emit_sym; auto; try reflexivity; try exact I.
    + apply cov_emit2_sym; auto; try reflexivity; try exact I.
  - assert (W' : wf (set_labels b (u16 (b_labels b + 1)))) by (apply wf_labels; auto).
    destruct sz; split; try (apply (placed_byte (set_labels b _)) || apply (placed_short (set_labels b _))); auto; try reflexivity.
    + apply (cov_emit_sym (set_labels b _)); auto; try reflexivity; try exact I.
    + apply (cov_emit2_sym (set_labels b _)); auto; try reflexivity; try exact I.
Qed.

Lemma cov_forward_ref b t ty sz n v r : wf b -> Cov b -> entry_ok (n_entry v) ->
  (b_success b = true -> entry_at (b_out b) (n_entry v)) -> Cov (snd (emit_forward_ref b t ty sz n v r)).
Proof.
  intros W C V E. unfold emit_forward_ref.
  assert (G : forall b v id refs, wf b -> Cov b -> (b_success b = true -> Forall (ref_at (b_out b)) refs) ->
    Cov (snd (emit_placeholder b t sz (Some (n, id)) r ;; b' =>
      (true, set_node b' n (set_entry v (EnForward id (mkRef t 0 0 (b_addr b) ty sz :: refs))))))).
  { clear. intros b v id refs W C F.
    destruct (cov_placeholder b t sz (Some (n, id)) r W C) as [C1 P1].
    pose proof (post_emit_placeholder b t sz (Some (n, id)) r W) as [R1 W1 _ _].
    rewrite andthen_eq. destruct (fst _); [|exact C1]. cbn [snd].
    apply cov_set_node; auto. intros S. cbn. constructor.
    - exact (P1 S).
    - revert S. apply (grown b _ (fun o => Forall (ref_at o) refs)); auto. intros. apply refs_more; auto. }
  destruct (n_entry v) as [|id toks ex|id a|id refs] eqn:Ev.
  - cbn [n_entry set_entry].
    apply (G (set_node (set_labels b (u16 (b_labels b + 1))) n (set_entry v (EnForward (u16 (b_labels b + 1)) [])))
             (set_entry v (EnForward (u16 (b_labels b + 1)) []))); [apply wf_set_node; [apply wf_labels; auto|cbn; auto]|apply cov_set_node; [cbn; auto|exact C]|cbn; auto].
  - rewrite Ev. cbn. exact C.
  - rewrite Ev. cbn. exact C.
  - rewrite Ev. apply G; auto.
Qed.

Lemma cov_lambda_ref b t ty sz r : wf b -> Cov b -> Cov (snd (emit_lambda_ref b t ty sz r)).
Proof.
  intros W C. unfold emit_lambda_ref.
  destruct (cov_placeholder b t sz None r W C) as [C1 P1].
  rewrite andthen_eq. destruct (fst _); [|exact C1]. cbn [snd].
  apply (cov_set_lambdas (set_nlambdas _ _)); [|exact C1]. intros S. cbn in S |- *. constructor; [exact (P1 S)|].
  exact (g_lams _ _ _ (C1 S)).
Qed.

(** With a symbol, as written; without, over a reference. *)
Lemma cov_emit_addr b t ty sz a s : wf b -> Cov b ->
  match s with Some s => is_ref s | None => b_success b = true -> placed (b_addr b) sz (b_out b) end ->
  Cov (snd (emit_addr b t ty sz a s)).
Proof.
  intros W C H. unfold emit_addr. destruct sz.
  - destruct (match ty with RRel => _ | _ => false end); [apply cov_error|]. destruct s as [s|].
    + apply cov_emit_sym; auto using is_ref_byte, is_ref_says.
    + destruct (emit_inv b t (Z.land (u16 a) 255)) as [[E G]|[F S]].
      * rewrite E. cbn [andthen snd]. intros S. cbn in S |- *. apply good_patch; auto. apply H; auto.
      * rewrite andthen_eq, F. apply cov_failed; auto.
  - destruct s as [s|].
    + apply cov_emit2_sym; auto using is_ref_byte, is_ref_says.
    + unfold emit2. destruct (emit_inv b t (Z.shiftr (u16 a) 8)) as [[E G]|[F S]].
      2:{ rewrite !andthen_eq, F. cbn [fst snd]. apply cov_failed; auto. }
      rewrite E. cbn [andthen].
      match goal with |- context [emit ?b1 t ?x] => destruct (emit_inv b1 t x) as [[E2 G2]|[F S]] end.
      * rewrite E2. cbn [andthen snd]. intros S. cbn in S |- *. destruct (H S) as [H1 H2].
        apply good_patch; [|apply good_patch; auto]. apply (labref_more _ [_]). auto.
      * rewrite !andthen_eq, F. cbn [fst snd]. apply cov_failed; auto.
Qed.

Lemma cov_calculate b t ty from to : Cov b -> Cov (snd (calculate_addr b t ty from to)).
Proof. intros C. destruct ty; cbn; auto. destruct (255 <? to); auto. apply cov_warning; auto. Qed.
Lemma calculate_same b t ty from to : b_addr (snd (calculate_addr b t ty from to)) = b_addr b /\
  (forall a sz, placed a sz (b_out b) -> placed a sz (b_out (snd (calculate_addr b t ty from to)))) /\
  b_success (snd (calculate_addr b t ty from to)) = b_success b /\ b_lambdas (snd (calculate_addr b t ty from to)) = b_lambdas b.
Proof.
  destruct ty; cbn; auto. destruct (255 <? to); cbn; auto. split; auto. split; auto.
  intros a sz [A B]. split; [apply (labref_more _ [_]); auto|]. intros S. apply (labref_more _ [_]); auto.
Qed.
Lemma cov_backward_ref b t ty sz n id to w r : wf b -> Cov b ->
  (w = false -> b_success b = true -> placed (b_addr b) sz (b_out b)) -> Cov (snd (emit_backward_ref b t ty sz n id to w r)).
Proof.
  intros W C H. unfold emit_backward_ref.
  pose proof (calculate_props b t ty (b_addr b) to) as P. pose proof (calculate_same b t ty (b_addr b) to) as (Q1 & Q2 & Q3 & _).
  pose proof (cov_calculate b t ty (b_addr b) to C) as C1.
  destruct (calculate_addr b t ty (b_addr b) to) as [a b1]. cbn [fst snd] in *.
  apply cov_emit_addr; auto; [apply P; auto|]. destruct w; [reflexivity|]. rewrite Q1, Q3. intros S. apply Q2. auto.
Qed.

Lemma cov_patch refs : forall b n id to, wf b -> Cov b -> Forall (fun r => is_short (f_addr r)) refs ->
  (b_success b = true -> Forall (ref_at (b_out b)) refs) -> Cov (patch b refs n id to).
Proof.
  induction refs as [|r refs IH]; intros b n id to W C F P; cbn [patch]; auto.
  inversion F; subst.
  assert (W0 : wf (set_addr b (f_addr r))) by (apply wf_set_addr; auto).
  pose proof (post_emit_backward_ref (set_addr b (f_addr r)) (f_tok r) (f_type r) (f_size r) (Some n) id to false false W0) as [R1 W1 _ _].
  assert (C1 : Cov (snd (emit_backward_ref (set_addr b (f_addr r)) (f_tok r) (f_type r) (f_size r) (Some n) id to false false))).
  { apply cov_backward_ref; auto. intros _ S. specialize (P S). inversion P; auto. }
  destruct (emit_backward_ref _ _ _ _ _ _ _ _ _) as [ok b1]. cbn [fst snd] in *.
  apply IH; auto. apply (grown (set_addr b (f_addr r)) b1 (fun o => Forall (ref_at o) refs)); auto.
  - intros. apply refs_more; auto.
  - cbn. intros S. specialize (P S). inversion P; auto.
Qed.

Lemma cov_define b t n v id refs : wf b -> Cov b -> Forall (fun r => is_short (f_addr r)) refs ->
  (b_success b = true -> Forall (ref_at (b_out b)) refs) -> Cov (snd (define_label b t n v id refs)).
Proof.
  intros W C F P. unfold define_label. cbn [snd].
  apply cov_symbol; [reflexivity|].
  match goal with |- Cov (set_addr ?b1 ?a) => apply (cov_same b1) end; try reflexivity.
  apply cov_set_node; [cbn; auto|]. apply cov_patch; auto.
  - apply wf_set_node; auto. cbn. apply W.
  - apply cov_set_node; [cbn; auto|auto].
Qed.

Lemma find_cov b t n : Cov b -> Cov (snd (find_or_create b t n)) /\
  match fst (find_or_create b t n) with
  | Some v => b_success (snd (find_or_create b t n)) = true -> entry_at (b_out (snd (find_or_create b t n))) (n_entry v)
  | None => True
  end.
Proof.
  intros C. unfold find_or_create. destruct n as [|c n']; [split; [apply cov_error|exact I]|].
  destruct (is_runic c); [split; [apply cov_error|exact I]|].
  destruct (parse_opcode _); [split; [apply cov_error|exact I]|].
  destruct (is_number _); [split; [apply cov_error|exact I]|].
  destruct (lookup _ _) as [v|] eqn:L; cbn [fst snd].
  - split; auto. intros S. exact (Forall_lookup (fun v => entry_at (b_out b) (n_entry v)) _ _ _ (g_tab _ _ _ (C S)) L).
  - split; [|cbn; auto]. intros S. destruct (C S) as [G1 G2 G3 G4]. cbn in *. constructor; auto.
    apply Forall_app. split; auto. repeat constructor.
Qed.

Lemma cov_register b t n : wf b -> Cov b -> Cov (snd (register_label b t n)).
Proof.
  intros W C. unfold register_label. pose proof (find_or_create_props b t n W) as (R & W1 & B1 & K).
  destruct (find_cov b t n C) as [C1 K2].
  destruct (find_or_create b t n) as [[v|] b1]; cbn [fst snd] in *; auto. destruct K as [V _].
  destruct (n_entry v) as [|id toks ex|id a|id refs] eqn:E; try apply cov_error.
  - apply cov_define; auto using wf_labels.
  - apply cov_define; auto.
Qed.

Lemma cov_local b t l : Cov b -> Cov (snd (resolve_local_name b t l)).
Proof. intros C. unfold resolve_local_name. destruct (_ <? _); cbn [snd]; [apply cov_error|auto]. Qed.
Lemma cov_resolve b t l : Cov b -> Cov (snd (resolve_label_ref b t l)).
Proof.
  intros C. unfold resolve_label_ref. destruct l as [|c l]; [apply cov_error|].
  destruct (_ || _); [apply cov_local; auto|auto].
Qed.
Lemma cov_pop b : Cov b -> Cov (snd (pop_at_label b)).
Proof. intros C. unfold pop_at_label. destruct (b_ats b); exact C. Qed.

Lemma cov_label_ref b t ty sz n r : wf b -> Cov b -> Cov (snd (emit_label_ref b t ty sz n r)).
Proof.
  intros W C. unfold emit_label_ref. destruct (str_eqb n [123]); [apply cov_lambda_ref; auto|].
  pose proof (resolve_label_props b t n W) as Pr. pose proof (cov_resolve b t n C) as C1.
  destruct (resolve_label_ref b t n) as [[full|] b1]; cbn [fst snd] in *; auto.
  assert (W1 : wf b1) by apply Pr.
  destruct (str_eqb full [64]).
  - pose proof (pop_props b1 W1) as Pp. pose proof (cov_pop b1 C1) as C2. destruct (pop_at_label b1) as [[l|] b2]; cbn [fst snd] in *; [|apply cov_error].
    apply cov_backward_ref; [apply Pp|auto|discriminate].
  - destruct full as [|c full]; [apply cov_error|]. destruct (is_runic c); [apply cov_error|].
    pose proof (find_or_create_props b1 t (c :: full) W1) as (R & W2 & B2 & K).
    destruct (find_cov b1 t (c :: full) C1) as [C2 K2].
    destruct (find_or_create b1 t (c :: full)) as [[v|] b2]; cbn [fst snd] in *; auto. destruct K as [V _].
    destruct (n_entry v) as [|id toks ex|id a|id refs] eqn:E.
    + apply cov_forward_ref; auto; rewrite E; auto.
    + apply cov_error.
    + apply cov_backward_ref; [apply wf_set_node; auto; cbn; rewrite E; auto|apply cov_set_node; [cbn; rewrite E; auto|auto]|discriminate].
    + apply cov_forward_ref; auto; rewrite E; auto.
Qed.

Lemma cov_jsi b t : wf b -> Cov b -> Cov (snd (emit_jsi b t)).
Proof.
  intros W C. unfold emit_jsi. apply (cov_andthen b); auto using post_emit_opcode, cov_emit_opcode.
  intros. apply cov_label_ref; auto.
Qed.

(** ** Reading *)
Lemma cov_peek b path inp : Cov b -> Cov (snd (fst (peek_char b path inp))).
Proof.
  intros C. unfold peek_char. destruct (b_buf b); auto. destruct inp as [|x l].
  - change (IO_EOF =? IO_ERROR) with false. exact C.
  - destruct (x =? IO_ERROR); [apply cov_error|exact C].
Qed.
Lemma cov_get b path inp p : Cov b -> Cov (snd (fst (fst (get_char b path inp p)))).
Proof.
  intros C. unfold get_char. pose proof (cov_peek b path inp C) as C1.
  destruct (peek_char b path inp) as [[ch b1] inp1]. cbn [fst snd] in *.
  destruct (_ || _); [exact C1|]. destruct (ch =? 10); [exact C1|]. destruct (ch =? 13); [|exact C1].
  pose proof (cov_peek (consume_char b1) path inp1 C1) as C2.
  destruct (peek_char (consume_char b1) path inp1) as [[nx b2] inp2]. cbn [fst snd] in *. destruct (nx =? 10); exact C2.
Qed.
Lemma cov_regular fuel : forall b path inp p start fin ch buf, Cov b -> Cov (snd (fst (scan_regular fuel b path inp p start fin ch buf))).
Proof.
  induction fuel as [|fuel IH]; intros b path inp p start fin ch buf C; cbn [scan_regular]; [exact C|].
  destruct (_ <? _); [|apply cov_error]. pose proof (cov_get b path inp p C) as C1.
  destruct (get_char b path inp p) as [[[c b1] inp1] p1]. cbn [fst snd] in *.
  destruct (c =? IO_ERROR); [exact C1|]. destruct (_ || _); [exact C1|]. apply IH; auto.
Qed.
Lemma cov_long fuel : forall b path inp p start buf, Cov b -> Cov (snd (fst (scan_long_loop fuel b path inp p start buf))).
Proof.
  induction fuel as [|fuel IH]; intros b path inp p start buf C; cbn [scan_long_loop]; [exact C|].
  pose proof (cov_get b path inp p C) as C1.
  destruct (get_char b path inp p) as [[[c b1] inp1] p1]. cbn [fst snd] in *.
  destruct (c =? IO_ERROR); [exact C1|]. destruct (c =? IO_EOF); [apply cov_error|].
  destruct (c =? 34); [exact C1|]. destruct (_ <? _); [apply IH; auto|apply cov_error].
Qed.
Lemma cov_in_file fuel : forall b path inp p, Cov b -> Cov (snd (fst (next_in_file fuel b path inp p))).
Proof.
  induction fuel as [|fuel IH]; intros b path inp p C; cbn [next_in_file]; [exact C|].
  pose proof (cov_get b path inp p C) as C1.
  destruct (get_char b path inp p) as [[[c b1] inp1] p1]. cbn [fst snd] in *.
  destruct (_ || _); [exact C1|]. destruct (is_sep c); [apply IH; auto|].
  destruct (c =? 34); [|apply cov_regular; auto].
  pose proof (cov_peek b1 path inp1 C1) as C2. destruct (peek_char b1 path inp1) as [[d b2] inp2]. cbn [fst snd] in *.
  destruct (d =? 32); [|apply cov_regular; auto]. unfold scan_long_string.
  pose proof (cov_get b2 path inp2 p1 C2) as C3.
  destruct (get_char b2 path inp2 p1) as [[[e b3] inp3] p3]. cbn [fst snd] in *. apply cov_long; auto.
Qed.
Lemma cov_next b u : Cov b -> Cov (snd (fst (next_token b u))).
Proof.
  intros C. destruct u as [path inp p|rest arg]; cbn [next_token]; [apply cov_in_file; auto|].
  unfold next_in_macro. destruct rest as [|t rest]; auto. destruct arg as [a|]; auto.
  destruct (expand _ _ _ _) as [[buf ex]|]; [|apply cov_error]. destruct (_ <? _); [apply cov_error|exact C].
Qed.

(** ** The pieces of the language *)
Lemma cov_comment_loop fuel : forall b u depth, Cov b -> Cov (snd (fst (comment_loop fuel b u depth))).
Proof.
  induction fuel as [|fuel IH]; intros b u depth C; cbn [comment_loop]; [exact C|].
  destruct (depth <=? 0); auto. pose proof (cov_next b u C) as C1. destruct (next_token b u) as [[[t|] b1] u1]; cbn [fst snd] in *; auto.
  destruct (t_lex t); [exact C1|]. apply IH. apply cov_symbol; auto.
Qed.
Lemma cov_comment b t u : Cov b -> Cov (snd (fst (process_comment b t u))).
Proof.
  intros C. unfold process_comment.
  assert (C0 : Cov (put_symbol b (b_addr b) (mkSymbol SComment false 0 (Some (t_lex t)) (t_reg t)))) by (apply cov_symbol; auto).
  pose proof (cov_comment_loop (unit_fuel u) _ u 1 C0) as C1.
  destruct (comment_loop _ _ _ _) as [[ok b1] u1]. cbn [fst snd] in *. destruct ok; [auto|apply cov_error].
Qed.
Lemma cov_mark b t : Cov b -> Cov (process_mark b t).
Proof. intros C. apply cov_symbol; auto. Qed.
Lemma cov_macro_open fuel : forall b t u, Cov b -> Cov (snd (fst (macro_open fuel b t u))).
Proof.
  induction fuel as [|fuel IH]; intros b t u C; cbn [macro_open]; [exact C|].
  pose proof (cov_next b u C) as C1. destruct (next_token b u) as [[[x|] b1] u1]; cbn [fst snd] in *; [|apply cov_error].
  cbn zeta. destruct (_ =? 40).
  { pose proof (cov_comment b1 x u1 C1) as C2. destruct (process_comment b1 x u1) as [[ok b2] u2]. cbn [fst snd] in *.
    destruct ok; auto. }
  destruct (_ =? 91); [apply IH, cov_mark; auto|].
  destruct (_ =? 93). { destruct (_ =? 1); [apply IH, cov_mark; auto|apply cov_error]. }
  destruct (_ =? 123); [|apply cov_error]. destruct (_ =? 1); [auto|apply cov_error].
Qed.
Lemma cov_macro_body fuel : forall b t u depth toks, Cov b -> Cov (snd (fst (macro_body fuel b t u depth toks))).
Proof.
  induction fuel as [|fuel IH]; intros b t u depth toks C; cbn [macro_body]; [exact C|].
  destruct (depth <=? 0); auto.
  pose proof (cov_next b u C) as C1. destruct (next_token b u) as [[[x|] b1] u1]; cbn [fst snd] in *; [|apply cov_error].
  destruct (t_lex x) as [|c l]; [exact C1|]. destruct (c =? 37); [apply cov_error|]. apply IH; auto.
Qed.
Lemma cov_macro b t u : Cov b -> Cov (snd (fst (process_macro b t u))).
Proof.
  intros C. unfold process_macro. destruct (find_cov b t (pop_front (t_lex t)) C) as [C1 _].
  destruct (find_or_create b t (pop_front (t_lex t))) as [[v|] b1]; cbn [fst snd] in *; auto.
  destruct (n_entry v); try apply cov_error. unfold create_macro.
  set (b2 := put_symbol _ _ _). assert (C2 : Cov b2) by (apply cov_symbol; auto).
  pose proof (cov_macro_open (unit_fuel u) b2 t u C2) as C3. destruct (macro_open _ _ _ _) as [[ok b3] u3]. cbn [fst snd] in *.
  destruct ok; auto. pose proof (cov_macro_body (unit_fuel u3) b3 t u3 1 [] C3) as C4.
  destruct (macro_body _ _ _ _ _ _) as [[[toks|] b4] u4]; cbn [fst snd] in *; auto.
  apply cov_set_node; [cbn|]; auto.
Qed.

Lemma cov_lambda_name b id : Cov b -> Cov (snd (make_lambda_name b id)).
Proof. intros C. cbn. destruct (_ <=? _); auto. apply cov_log; auto. exact I. Qed.
Lemma cov_global b t : wf b -> Cov b -> Cov (snd (process_global_label b t)).
Proof.
  intros W C. unfold process_global_label. destruct (str_eqb _ _).
  - match goal with |- context [make_lambda_name ?b1 ?id] => pose proof (cov_lambda_name b1 id C) as C1; destruct (make_lambda_name b1 id) as [n b2] end.
    cbn [fst snd] in *. apply cov_symbol; auto.
  - apply (cov_andthen b); [apply post_register_label; auto|apply cov_register; auto|]. intros b' _ _ C'. exact C'.
Qed.
Lemma cov_local_label b t : wf b -> Cov b -> Cov (snd (process_local_label b t)).
Proof.
  intros W C. unfold process_local_label. pose proof (resolve_local_props b t (pop_front (t_lex t)) W) as (R & W1 & B1 & K).
  pose proof (cov_local b t (pop_front (t_lex t)) C) as C1.
  destruct (resolve_local_name b t (pop_front (t_lex t))) as [[n|] b1]; cbn [fst snd] in *; auto. apply cov_register; auto.
Qed.
Lemma cov_padding b t : Cov b -> Cov (snd (resolve_padding b t)).
Proof.
  intros C. unfold resolve_padding. destruct (pop_front (t_lex t)) as [|c s'] eqn:Es; [apply cov_error|]. rewrite <- Es.
  destruct (is_number _). { destruct (parse_number _) as [m|[n z]]; [apply cov_error|exact C]. }
  pose proof (cov_resolve b t (pop_front (t_lex t)) C) as C1. destruct (resolve_label_ref _ _ _) as [[l|] b1]; cbn [fst snd] in *; auto.
  destruct (str_eqb l [64]).
  { pose proof (cov_pop b1 C1) as C2. destruct (pop_at_label b1) as [[x|] b2]; cbn [fst snd] in *; [auto|apply cov_error]. }
  destruct (lookup l (b_symtab b1)) as [v|] eqn:L; [|apply cov_error].
  destruct (n_entry v) eqn:En; try apply cov_error. cbn [snd]. apply cov_set_node; auto. cbn. rewrite En. cbn. auto.
Qed.
Lemma cov_abs b t : Cov b -> Cov (snd (process_abs_padding b t)).
Proof.
  intros C. unfold process_abs_padding. pose proof (cov_padding b t C) as C1.
  destruct (resolve_padding b t) as [[n|] b1]; exact C1.
Qed.
Lemma cov_rel b t : Cov b -> Cov (snd (process_rel_padding b t)).
Proof.
  intros C. unfold process_rel_padding. pose proof (cov_padding b t C) as C1.
  destruct (resolve_padding b t) as [[n|] b1]; cbn [fst snd] in *; auto. destruct (_ <? _); [apply cov_warning|]; exact C1.
Qed.
Lemma cov_lit b t : wf b -> Cov b -> Cov (snd (process_lit_number b t)).
Proof.
  intros W C. unfold process_lit_number. destruct (literal _) as [m|[n z]]; [apply cov_error|].
  destruct (z =? 1); apply (cov_andthen b); auto using post_emit_opcode, cov_emit_opcode, cov_emit_byte, cov_emit_short.
Qed.
Lemma cov_raw b t : wf b -> Cov b -> Cov (snd (process_raw_number b t)).
Proof.
  intros W C. unfold process_raw_number. destruct (literal _) as [m|[n z]]; [apply cov_error|].
  destruct (z =? 1); auto using cov_emit_byte, cov_emit_short.
Qed.
Lemma cov_close b t : wf b -> Cov b -> Cov (snd (process_lambda_close b t)).
Proof.
  intros W C. unfold process_lambda_close. destruct (b_lambdas b) as [|r rest] eqn:L; [apply cov_error|].
  pose proof (wf_lambdas _ W) as F. rewrite L in F. inversion F as [|? ? F1 F2]; subst.
  pose proof (calculate_props b (f_tok r) (f_type r) (f_addr r) (b_addr b) W) as (R1 & W1 & B1).
  pose proof (calculate_same b (f_tok r) (f_type r) (f_addr r) (b_addr b)) as (Q1 & Q2 & Q3 & Q4).
  pose proof (cov_calculate b (f_tok r) (f_type r) (f_addr r) (b_addr b) C) as C1.
  destruct (calculate_addr b (f_tok r) (f_type r) (f_addr r) (b_addr b)) as [a b1]. cbn [fst snd] in *.
  assert (W2 : wf (set_addr b1 (f_addr r))) by (apply wf_set_addr; auto).
  assert (Fr : b_success b1 = true -> Forall (ref_at (b_out b1)) (r :: rest)).
  { intros S. specialize (C1 S). rewrite <- L, <- Q4. apply C1. }
  apply (cov_andthen (set_addr b1 (f_addr r))).
  - apply post_emit_addr; auto.
  - apply cov_emit_addr; auto. cbn. intros S. specialize (Fr S). inversion Fr; auto.
  - intros b2 R2 W3 C2.
    match goal with |- context [make_lambda_name ?b3 ?id] => pose proof (cov_lambda_name b3 id C2) as C3;
      pose proof (make_lambda_props b3 id) as (R3 & _ & _); assert (NM : fst (make_lambda_name b3 id) = lambda_name id) by reflexivity;
      destruct (make_lambda_name b3 id) as [n b4] end.
    cbn [fst snd] in *. subst n. apply cov_set_lambdas; [|apply cov_symbol; auto].
    cbn [b_success put_symbol log b_out].
    apply (grown b4 (put_symbol b4 (b_addr b) (mkSymbol SLabel true (f_label r) (Some (lambda_name (f_lambda r))) (t_reg t))) (fun o => Forall (ref_at o) rest));
      [apply rel_put_symbol; cbn; eauto|intros; apply refs_more; auto|].
    apply (grown (set_addr b2 (b_addr b)) b4 (fun o => Forall (ref_at o) rest)); auto; [intros; apply refs_more; auto|].
    cbn. apply (grown (set_addr b1 (f_addr r)) b2 (fun o => Forall (ref_at o) rest)); auto; [intros; apply refs_more; auto|].
    cbn. intros S. specialize (Fr S). inversion Fr; auto.
Qed.

Lemma cov_emit_text s : forall b t sym a, s_type sym = SText -> u16 a = b_addr b -> wf b -> Cov b -> Cov (snd (emit_text b t sym a s)).
Proof.
  induction s as [|c s IH]; intros b t sym a T A W C; cbn [emit_text]; [exact C|].
  pose proof (post_emit b t c W) as [R1 W1 _ _].
  pose proof (emit_inv b t c) as [[E G]|[F S]].
  2:{ rewrite andthen_eq, F. apply cov_failed; auto. }
  rewrite E in *. cbn [andthen snd] in *. apply IH; auto.
  - cbn. rewrite <- A. unfold u16. lia.
  - apply wf_log; auto.
  - intros S. cbn in S |- *. rewrite A. apply good_byte; auto; [rewrite T; auto|]. unfold says. rewrite T. exact I.
Qed.
Lemma cov_text b t : wf b -> Cov b -> Cov (snd (process_text b t)).
Proof.
  intros W C. unfold process_text. destruct (_ <=? _); [apply cov_error|]. apply cov_emit_text; auto. apply u16_id, W.
Qed.

(** ** Units *)
Section Nested.
Variable fs : files.
Variable pu : basm -> unit_ -> ret.
Variable level : Z.
Hypothesis PU : forall b u, wf b -> unit_ok u -> b_depth b = level + 1 -> level < MAX_PREPROCESSOR_DEPTH -> npost b (pu b u).
Hypothesis PC : forall b u, wf b -> unit_ok u -> b_depth b = level + 1 -> level < MAX_PREPROCESSOR_DEPTH -> Cov b -> Cov (snd (pu b u)).

Lemma cov_process_file (b : basm) path :
  (forall c, Cov (snd (pu (log b (EOpen path)) (UFile path c (mkPos 1 1 0))))) -> Cov (snd (process_file fs pu b path)).
Proof.
  intros H. unfold process_file. destruct (find_file fs path) as [c|]; [|apply cov_error].
  specialize (H c). cbn zeta. destruct (pu _ _) as [ok b1]. cbn [fst snd] in *. apply cov_log; auto. exact I.
Qed.

Lemma cov_include b n t : wf b -> b_depth b = level -> level < MAX_PREPROCESSOR_DEPTH -> Cov b -> Cov (snd (process_include fs pu b n t)).
Proof.
  intros W D LM C. unfold process_include. destruct (existsb _ _); [exact C|]. cbn zeta.
  set (b1 := set_includes b _). set (b2 := set_depth b1 (b_depth b1 + 1)).
  assert (W2 : wf b2) by (apply wf_set_depth; [apply wf_includes; auto|pose proof (wf_depth _ W); cbn; lia]).
  assert (C3 : Cov (snd (process_file fs pu b2 n))).
  { apply cov_process_file. intros c. apply PC; cbn; auto; [apply wf_log; auto|lia|apply cov_log; [exact I|exact C]]. }
  destruct (process_file fs pu b2 n) as [ok b3]. cbn [fst snd] in *. destruct ok; [exact C3|apply cov_error].
Qed.

Lemma cov_run_macro b t n v id toks arg u : Forall tok_ok toks -> wf b -> b_depth b = level -> level < MAX_PREPROCESSOR_DEPTH ->
  match arg with Some a => tok_ok a | None => True end -> Cov b -> Cov (snd (fst (run_macro pu b t n v id toks arg u))).
Proof.
  intros T W D LM A C. unfold run_macro. set (b2 := set_node _ _ _). set (b3 := set_depth b2 _).
  assert (C2 : Cov b2) by (apply cov_set_node; [cbn; auto|auto]).
  assert (W3 : wf b3).
  { apply wf_set_depth; [apply wf_set_node; auto|]. cbn. pose proof (wf_depth _ W). lia. }
  assert (C4 : Cov (snd (pu (log b3 (EEnter n)) (UMacro toks arg)))).
  { apply PC; [apply wf_log; auto|split; auto|cbn; lia|auto|]. apply cov_log; [exact I|exact C2]. }
  destruct (pu (log b3 (EEnter n)) (UMacro toks arg)) as [ok b4]. cbn [fst snd] in *.
  destruct ok; [|apply cov_error]. apply cov_set_node; [cbn; auto|].
  apply (cov_same (log b4 (ELeave n))); try reflexivity. apply cov_log; auto. exact I.
Qed.

Lemma cov_expand b t n v id toks ex u :
  wf b -> unit_ok u -> b_depth b = level -> Forall tok_ok toks -> Cov b -> Cov (snd (fst (expand_macro pu b t n v id toks ex u))).
Proof.
  intros W U D T C. unfold expand_macro.
  destruct (Z.leb_spec MAX_PREPROCESSOR_DEPTH (b_depth b)); [apply cov_error|].
  destruct ex; [apply cov_error|].
  set (b1 := put_symbol b 0 _).
  assert (W1 : wf b1) by (apply wf_log; auto).
  assert (C1 : Cov b1) by (apply cov_symbol; auto).
  destruct (last n 0 =? 58); [|apply cov_run_macro; auto; lia].
  pose proof (cov_next b1 u C1) as C2.
  destruct (next_token b1 u) as [[a b2] u2] eqn:N. cbn [fst snd] in C2.
  pose proof (next_token_props _ _ _ _ _ W1 U N) as [R2 W2 O2 M2 T2 B2 K2].
  destruct a as [a|].
  - apply cov_run_macro; auto; [|lia|apply T2]. rewrite (r_depth _ _ R2). cbn. lia.
  - cbn [fst snd]. destruct (b_success b2); [apply cov_error|auto].
Qed.

Lemma snd_keep r u : snd (fst (keep r u)) = snd r.
Proof. destruct r. reflexivity. Qed.

Lemma cov_word b t u : wf b -> unit_ok u -> b_depth b = level -> Cov b -> Cov (snd (fst (process_word pu b t u))).
Proof.
  intros W U D C. unfold process_word. destruct (is_runic _); [exact C|].
  destruct (parse_opcode (t_lex t)) as [[op red]|] eqn:PO.
  - apply parse_opcode_byte in PO. rewrite snd_keep. destruct red; apply cov_emit_opcode; auto; [apply wf_log; auto|apply cov_warning; auto].
  - pose proof (find_or_create_props b t (t_lex t) W) as (R & W1 & B1 & K).
    destruct (find_cov b t (t_lex t) C) as [C1 K1].
    destruct (find_or_create b t (t_lex t)) as [[v|] b1]; cbn [fst snd] in *; auto.
    destruct K as [V _].
    assert (D1 : b_depth b1 = level) by (rewrite (r_depth _ _ R); auto).
    assert (FW : forall x, n_entry v = x -> Cov (snd (emit_opcode b1 t 96 false ;; b' => emit_forward_ref b' t RRel RShort (t_lex t) v false))).
    { intros _ _. apply (cov_andthen b1); auto using post_emit_opcode, cov_emit_opcode.
      intros b2 R2 W2 C2. apply cov_forward_ref; auto. apply (grown b1 b2 (fun o => entry_at o (n_entry v))); auto. intros; apply entry_more; auto. }
    destruct (n_entry v) as [|id toks ex|id a|id refs] eqn:E.
    + rewrite snd_keep. eapply FW; eauto.
    + apply cov_expand; auto; [apply wf_set_node; auto; cbn; rewrite E; auto|]. apply cov_set_node; [cbn; rewrite E; cbn; auto|auto].
    + rewrite snd_keep. set (b2 := set_node _ _ _).
      assert (W2 : wf b2) by (apply wf_set_node; auto; cbn; rewrite E; auto).
      assert (C2 : Cov b2) by (apply cov_set_node; [cbn; rewrite E; cbn; auto|auto]).
      apply (cov_andthen b2); auto using post_emit_opcode, cov_emit_opcode. intros. apply cov_backward_ref; auto. discriminate.
    + rewrite snd_keep. eapply FW; eauto.
Qed.

Lemma cov_tilde b t : wf b -> b_depth b = level -> Cov b -> Cov (snd (process_tilde fs pu b t)).
Proof.
  intros W D C. unfold process_tilde. destruct (Z.leb_spec MAX_PREPROCESSOR_DEPTH (b_depth b)); [apply cov_error|].
  cbn zeta. set (b1 := put_symbol _ _ _). assert (C1 : Cov b1) by (apply cov_symbol; auto).
  destruct (_ =? 126).
  - destruct (existsb _ _); exact C1.
  - apply cov_include; auto; [apply wf_log; auto|lia].
Qed.

Lemma cov_token b t u : wf b -> unit_ok u -> b_depth b = level -> Cov b -> Cov (snd (fst (process_token fs pu b t u))).
Proof.
  intros W U D C. unfold process_token. cbn zeta.
  assert (ERR : forall m, Cov (snd (fst (keep (error b t m) u)))) by (intros; apply cov_error).
  assert (OP : forall op ty sz n r, is_byte op -> Cov (snd (fst (keep (emit_opcode b t op true ;; b => emit_label_ref b t ty sz n r) u)))).
  { intros. rewrite snd_keep. apply (cov_andthen b); auto using post_emit_opcode, cov_emit_opcode, cov_label_ref. }
  assert (REF : forall ty sz n r, Cov (snd (fst (keep (emit_label_ref b t ty sz n r) u)))) by (intros; rewrite snd_keep; apply cov_label_ref; auto).
  assert (MARK : Cov (process_mark b t)) by (apply cov_mark; auto).
  repeat match goal with
  | |- Cov (snd (fst (if ?c then _ else _))) => destruct c
  end; auto; try (rewrite snd_keep); auto using cov_comment, cov_macro, cov_tilde, cov_global, cov_local_label, cov_close, cov_jsi, cov_abs, cov_rel, cov_lit, cov_text, cov_raw, cov_word.
Qed.

Lemma cov_unit_loop fuel : forall b u, wf b -> unit_ok u -> b_depth b = level -> Cov b -> Cov (snd (unit_loop fs pu fuel b u)).
Proof.
  induction fuel as [|fuel IH]; intros b u W U D C; cbn [unit_loop]; [exact C|].
  pose proof (cov_next b u C) as C1.
  destruct (next_token b u) as [[t b1] u1] eqn:N. cbn [fst snd] in C1.
  pose proof (next_token_props _ _ _ _ _ W U N) as [R1 W1 O1 M1 T1 B1 K1].
  destruct t as [t|]; [|exact C1].
  destruct T1 as [Tok M2]. pose proof Tok as Tok'. unfold tok_ok in Tok.
  destruct (t_lex t) as [|c l] eqn:L; [congruence|]. rewrite <- L in *. cbn zeta.
  set (b2 := log b1 _).
  assert (W2 : wf b2) by (apply wf_log; auto).
  assert (C2 : Cov b2) by (apply cov_log; [exact I|auto]).
  assert (D2 : b_depth b2 = level) by (cbn; rewrite (r_depth _ _ R1); auto).
  pose proof (process_token_props fs pu level PU b2 t u1 W2 O1 D2 Tok') as [R3 W3 O3 M3 F3 B3 K3].
  pose proof (cov_token b2 t u1 W2 O1 D2 C2) as C3.
  destruct (process_token fs pu b2 t u1) as [[ok b3] u3]. cbn [fst snd] in *.
  destruct ok; auto. apply IH; auto. rewrite (r_depth _ _ R3). auto.
Qed.
End Nested.

Lemma cov_process_unit fs d : forall b u,
  wf b -> unit_ok u -> b_depth b <= MAX_PREPROCESSOR_DEPTH -> 33 <= b_depth b + Z.of_nat d -> Cov b -> Cov (snd (process_unit fs d b u)).
Proof.
  induction d as [|d IH]; intros b u W U D1 D2 C; cbn [process_unit].
  - exact C.
  - apply (cov_unit_loop fs (process_unit fs d) (b_depth b)); auto.
    + intros b' u' W' U' D' L. apply process_unit_props; auto; lia.
    + intros b' u' W' U' D' L C'. apply IH; auto; lia.
Qed.

Lemma cov_deferred fs fuel : forall i b, wf b -> b_depth b = 0 -> Cov b -> Cov (snd (deferred_loop fs fuel i b)).
Proof.
  induction fuel as [|fuel IH]; intros i b W D C; cbn [deferred_loop]; [exact C|].
  destruct (nth_error _ _) as [[n t]|]; [|exact C].
  pose proof (process_include_unit fs b n t W D) as [R1 W1 _ _].
  assert (C1 : Cov (snd (process_include fs (process_unit fs DEPTH) b n t))).
  { apply (cov_include fs (process_unit fs DEPTH) 0); [| |exact W|exact D|reflexivity|exact C].
    - intros b' u' W' U' D' _. apply process_unit_props; auto; rewrite D'; [discriminate|]. unfold DEPTH. lia.
    - intros b' u' W' U' D' _ C'. apply cov_process_unit; auto; rewrite D'; [discriminate|]. unfold DEPTH. lia. }
  destruct (process_include fs (process_unit fs DEPTH) b n t) as [ok b1]. cbn [fst snd andthen] in *.
  destruct ok; auto. apply IH; auto. rewrite (r_depth _ _ R1). auto.
Qed.

Lemma cov_fold {A} (f : basm -> A -> basm) l : (forall b x, Cov b -> Cov (f b x)) -> forall b, Cov b -> Cov (fold_left f l b).
Proof. intros H. induction l as [|x l IH]; intros b C; cbn; auto. Qed.

Theorem asm_covered fs fuel file : Cov (snd (asm fs fuel file)).
Proof.
  assert (C0 : Cov start).
  { intros _. constructor; cbn; try constructor; cbn.
    - intros [v []].
    - intros (s & [] & _).
    - intros a s []. }
  unfold asm. pose proof (process_file_unit fs DEPTH start file wf_start) as P.
  assert (C1 : Cov (snd (process_file fs (process_unit fs DEPTH) start file))).
  { apply cov_process_file. intros c. apply cov_process_unit.
    - apply wf_log, wf_start.
    - exact I.
    - discriminate.
    - unfold DEPTH. cbn [b_depth start log]. lia.
    - apply cov_log; [exact I|auto]. }
  destruct (process_file fs (process_unit fs DEPTH) start file) as [ok b]. cbn [fst snd] in *.
  destruct P as [R D W B F]; [discriminate|unfold DEPTH; cbn; lia|]. cbn [fst snd] in *. cbn [b_depth start] in D.
  destruct ok; cbn [negb]; auto. unfold resolve.
  pose proof (cov_deferred fs fuel 0 b W D C1) as C2. destruct (deferred_loop fs fuel 0 b) as [ok b2]. cbn [andthen fst snd] in *.
  destruct ok; cbn [fst snd]; auto.
  apply cov_fold. { intros b' [n v] C'. unfold report_symbol. destruct (n_entry v); try apply cov_error.
    - destruct (_ && _); auto. apply cov_warning; auto.
    - destruct (_ && _); auto. apply cov_warning; auto.
    - apply cov_fold; auto. intros. apply cov_error. }
  unfold report_ats. apply cov_fold; [intros; apply cov_warning; auto|].
  unfold report_lambdas. apply cov_fold; auto. intros. apply cov_error.
Qed.
