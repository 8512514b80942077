(** The constants of the type checker against the machine. *)
From Verif Require Import Base VmModel AsmModel ChessModel ChessProofs ChessSize ChessDelta ValueSpec VmProofs.
From Coq Require Import ZifyBool Permutation.
Open Scope list_scope.
Ltac Zify.zify_post_hook ::= Z.div_mod_to_equations.

(** ** Lists of values *)

Lemma vals_ext k k' : k_len k = k_len k' -> (forall i, 0 <= i < k_len k -> k_at k i = k_at k' i) -> vals k = vals k'.
Proof.
  intros L E. unfold vals. rewrite <- L. apply map_ext_in. intros i Hi. apply in_seq in Hi. apply E. lia.
Qed.
Lemma vals_nil k : k_len k <= 0 -> vals k = [].
Proof. intros H. unfold vals. replace (Z.to_nat (k_len k)) with O by lia. reflexivity. Qed.
Lemma vals_cons k : 0 < k_len k -> forall z, vals k = k_at k (k_len k - 1) :: vals (mkStk (k_len k - 1) z (k_at k)).
Proof.
  intros H z. unfold vals. cbn [k_len k_at]. replace (Z.to_nat (k_len k)) with (S (Z.to_nat (k_len k - 1))) by lia.
  cbn [seq map]. f_equal; [f_equal; lia|]. rewrite <- seq_shift, map_map. apply map_ext. intros i. f_equal. lia.
Qed.
Lemma vals_put k n z z' v : 0 <= n -> vals (mkStk (n + 1) z (put_at k n v)) = v :: vals (mkStk n z' k).
Proof.
  intros H. rewrite (vals_cons (mkStk (n + 1) z (put_at k n v))) with (z := z'); cbn [k_len k_at]; [|lia].
  replace (n + 1 - 1) with n by lia. unfold put_at at 1. rewrite Z.eqb_refl. f_equal.
  apply vals_ext; cbn [k_len k_at]; [reflexivity|]. intros i Hi. unfold put_at. replace (i =? n) with false by lia. reflexivity.
Qed.
Lemma vals_put_top k z z' v : 0 < k_len k ->
  vals (mkStk (k_len k) z (put_at (k_at k) (k_len k - 1) v)) = v :: vals (mkStk (k_len k - 1) z' (k_at k)).
Proof.
  intros H. pose proof (vals_put (k_at k) (k_len k - 1) z z' v ltac:(lia)) as E.
  replace (k_len k - 1 + 1) with (k_len k) in E by lia. exact E.
Qed.
Lemma vals_size k z : vals k = vals (mkStk (k_len k) z (k_at k)).
Proof. apply vals_ext; reflexivity. Qed.
Lemma width_pos l : 0 <= width l.
Proof. induction l as [|v l IH]; cbn; [lia|]. unfold vsize. destruct (v_short v); lia. Qed.

Lemma right_at_mod v f sp sp' : sp mod 256 = sp' mod 256 -> right_at v f sp -> right_at v f sp'.
Proof.
  intros E R C. specialize (R C).
  replace ((sp' - 1) mod 256) with ((sp - 1) mod 256) by lia.
  replace ((sp' - 2) mod 256) with ((sp - 2) mod 256) by lia. exact R.
Qed.
Lemma right_mod l f : forall sp sp', sp mod 256 = sp' mod 256 -> right_about l f sp -> right_about l f sp'.
Proof.
  induction l as [|v l IH]; intros sp sp' E R; cbn in *; [exact I|]. destruct R as [R1 R2].
  split; [eapply right_at_mod; eauto|]. eapply IH; [|exact R2]. lia.
Qed.
(** Only the cells below the pointer matter. *)
Lemma right_frame l f g : forall sp, (forall i, 1 <= i <= width l -> g ((sp - i) mod 256) = f ((sp - i) mod 256)) ->
  right_about l f sp -> right_about l g sp.
Proof.
  induction l as [|v l IH]; intros sp E R; cbn in *; [exact I|]. destruct R as [R1 R2].
  pose proof (width_pos l). assert (vsize v = 1 \/ vsize v = 2) as V by (unfold vsize; destruct (v_short v); auto).
  split.
  - intros C. specialize (R1 C). unfold vsize in *. destruct (v_short v).
    + rewrite (E 2), (E 1) by lia. exact R1.
    + rewrite (E 1) by lia. exact R1.
  - apply IH; [|exact R2]. intros i Hi. replace (sp - vsize v - i) with (sp - (vsize v + i)) by lia. apply E. lia.
Qed.

(** ** The pool *)

Definition pool_ok (x : ctx) : Prop :=
  NoDup (h_pool (x_h x) ++ x_values x) /\ forall n, In n (h_pool (x_h x) ++ x_values x) -> n < h_next (x_h x).

Lemma alloc_pool x v n y : pool_ok x -> alloc_node x v = (n, y) ->
  pool_ok y /\ h_node (x_h y) n = v /\ n < h_next (x_h y) /\ ~ In n (h_pool (x_h y)) /\
  (forall w, half_ok (x_h x) w -> half_ok (x_h y) w).
Proof.
  intros [P1 P2] E. unfold alloc_node in E. destruct (h_pool (x_h x)) as [|m pool] eqn:Ep; inversion E; subst; clear E; cbn.
  - split; [split; cbn|split; [|split; [|split]]].
    + cbn in P1. constructor; [|exact P1]. intros I. apply P2 in I. lia.
    + intros k [<-|I]; [lia|]. apply P2 in I. lia.
    + unfold put_at. rewrite Z.eqb_refl. reflexivity.
    + lia.
    + auto.
    + intros w H U. specialize (H U). cbn. destruct H as (H1 & H2 & H3). split; [exact H1|split; [exact H2|]].
      intros n En. specialize (H3 n En) as (A & B & C). cbn. unfold put_at. replace (n =? h_next (x_h x)) with false by lia.
      split; [lia|]. split; [auto|exact C].
  - cbn in P1. inversion P1 as [|? ? N1 N2]; subst. split; [split; cbn|split; [|split; [|split]]].
    + apply NoDup_Add with (a := n) (l := pool ++ x_values x); [apply Add_app|]. split; auto.
    + intros k I. apply P2. apply in_app_or in I. cbn in I. cbn. destruct I as [I|[I|I]]; [right|left|right]; auto; apply in_or_app; auto.
    + unfold put_at. rewrite Z.eqb_refl. reflexivity.
    + apply P2. left. reflexivity.
    + intros I. apply N1. apply in_or_app. auto.
    + intros w H U. specialize (H U). cbn. destruct H as (H1 & H2 & H3). split; [exact H1|split; [exact H2|]].
      intros k En. specialize (H3 k En) as (A & B & C). rewrite Ep in B. cbn. unfold put_at.
      assert (k <> n) by (intros ->; apply B; left; reflexivity). replace (k =? n) with false by lia.
      split; [exact A|]. split; [intros J; apply B; right; exact J|exact C].
Qed.
Lemma alloc_same x v n y : alloc_node x v = (n, y) ->
  (forall p, get_stack p y = get_stack p x) /\ x_op y = x_op x /\ x_pc y = x_pc x /\ h_list (x_h y) = h_list (x_h x) /\ x_term y = x_term x
  /\ h_reports (x_h y) = h_reports (x_h x).
Proof.
  unfold alloc_node. destruct (h_pool _); intros E; inversion E; subst; repeat split; intros [[] []]; reflexivity.
Qed.

(** ** Popping *)

Definition num (two : bool) (f : arr) (sp : Z) : Z :=
  if two then 256 * f ((sp - 2) mod 256) + f ((sp - 1) mod 256) else f ((sp - 1) mod 256).

Record popped (p : which) (two : bool) (v : value) (x x' : ctx) : Prop := {
  p_else : forall q, q <> p -> get_stack q x' = get_stack q x;
  p_pool : pool_ok x';
  p_half : forall w, half_ok (x_h x) w -> half_ok (x_h x') w;
  p_same : x_op x' = x_op x /\ x_pc x' = x_pc x /\ h_list (x_h x') = h_list (x_h x) /\ h_reports (x_h x') = h_reports (x_h x);
  p_len : is_byte (k_len (get_stack p x'));
  p_rest : Forall (half_ok (x_h x')) (vals (get_stack p x')) /\ Forall in_range (vals (get_stack p x'));
  p_v : half_ok (x_h x') v /\ in_range v /\ v_short v = two;
  p_width : width (vals (get_stack p x)) = wbytes two + width (vals (get_stack p x'));
  p_right : forall f sp, (forall i, is_byte (f i)) -> right_about (vals (get_stack p x)) f sp ->
    (v_const v = true -> v_val v = num two f sp) /\ right_about (vals (get_stack p x')) f (sp - wbytes two)
}.

Lemma get_set p q x k : get_stack q (set_stack p x k) = if same_stack q p then k else get_stack q x.
Proof. destruct p as [[] []], q as [[] []]; reflexivity. Qed.
Lemma same_stack_refl p : same_stack p p = true.
Proof. apply same_stack_spec. reflexivity. Qed.
Lemma same_stack_ne p q : q <> p -> same_stack q p = false.
Proof. intros H. destruct (same_stack q p) eqn:E; [apply same_stack_spec in E; contradiction|reflexivity]. Qed.
Lemma set_same p x k : x_h (set_stack p x k) = x_h x /\ x_values (set_stack p x k) = x_values x /\
  x_op (set_stack p x k) = x_op x /\ x_pc (set_stack p x k) = x_pc x /\ x_term (set_stack p x k) = x_term x.
Proof. destruct p as [[] []]; repeat split. Qed.
Lemma pool_set p x k : pool_ok x -> pool_ok (set_stack p x k).
Proof. destruct p as [[] []]; exact (fun H => H). Qed.
Lemma error_term m x : x_term (error m x) = true.
Proof. reflexivity. Qed.

Lemma in_range_byte v f sp : in_range v -> v_short v = false -> (forall i, is_byte (f i)) -> right_at v f sp ->
  v_const v = true -> v_val v = f ((sp - 1) mod 256).
Proof.
  intros R S B H C. specialize (H C). specialize (R C). rewrite S in *. specialize (B ((sp - 1) mod 256)). unfold is_byte in B. lia.
Qed.

Lemma pop_byte_spec p x v x' : pool_ok x -> is_byte (k_len (get_stack p x)) ->
  Forall (half_ok (x_h x)) (vals (get_stack p x)) -> Forall in_range (vals (get_stack p x)) ->
  pop_byte p x = COk (v, x') -> x_term x' = false -> popped p false v x x'.
Proof.
  intros P L H R E T. unfold pop_byte in E. destruct (k_size (get_stack p x) <? 1); [inj E; discriminate T|].
  unfold top_of in E. destruct (k_len (get_stack p x) =? 0) eqn:L0; [discriminate|].
  set (k := get_stack p x) in *. set (top := k_at k (k_len k - 1)) in *.
  assert (Lp : 0 < k_len k) by (unfold is_byte in L; lia).
  assert (Vk : vals k = top :: vals (mkStk (k_len k - 1) 0 (k_at k))) by (apply vals_cons; exact Lp).
  rewrite Vk in H, R. inversion H as [|? ? H1 H2]; subst. inversion R as [|? ? R1 R2]; subst.
  destruct (v_short top) eqn:S.
  - destruct (alloc_node x top) as [n y] eqn:A. inj E.
    destruct (alloc_pool _ _ _ _ P A) as (A1 & A2 & A3 & A4 & A5).
    destruct (alloc_same _ _ _ _ A) as (B1 & B2 & B3 & B4 & B5 & B6).
    set (k' := mkStk (k_len k) (u8 (k_size k - 1)) (put_at (k_at k) (k_len k - 1) (half_hi n top))).
    destruct (set_same p y k') as (S1 & S2 & S3 & S4 & S5).
    assert (Vk' : vals k' = half_hi n top :: vals (mkStk (k_len k - 1) 0 (k_at k))) by (apply vals_put_top; exact Lp).
    assert (Nt : v_hi top = false /\ v_lo top = false).
    { destruct (v_hi top) eqn:Eh, (v_lo top) eqn:El; auto; destruct (H1 ltac:(auto)) as [X _]; congruence. }
    assert (Hh : half_ok (x_h y) (half_hi n top)).
    { intros _. cbn. split; [reflexivity|split; [reflexivity|]]. intros m Em. injection Em as <-. rewrite A2.
      split; [exact A3|split; [exact A4|]]. split; [exact S|]. split; [apply Nt|]. split; [apply Nt|].
      intros C. specialize (R1 C). rewrite S in R1. rewrite C. split; [exact R1|]. split; [reflexivity|].
      rewrite Z.shiftr_div_pow2 by lia. reflexivity. }
    assert (Hl : half_ok (x_h y) (half_lo n top)).
    { intros _. cbn. split; [reflexivity|split; [reflexivity|]]. intros m Em. injection Em as <-. rewrite A2.
      split; [exact A3|split; [exact A4|]]. split; [exact S|]. split; [apply Nt|]. split; [apply Nt|].
      intros C. specialize (R1 C). rewrite S in R1. rewrite C. split; [exact R1|]. split; [reflexivity|].
      change 255 with (Z.ones 8). rewrite Z.land_ones by lia. reflexivity. }
    assert (Rh : in_range (half_hi n top)).
    { intros C. cbn in C. specialize (R1 C). rewrite S in R1. cbn. rewrite C, Z.shiftr_div_pow2 by lia. cbn. lia. }
    assert (Rl : in_range (half_lo n top)).
    { intros C. cbn in C. specialize (R1 C). rewrite S in R1. cbn. rewrite C. change 255 with (Z.ones 8). rewrite Z.land_ones by lia. cbn. lia. }
    constructor; rewrite ?S1, ?S3, ?S4, ?get_set, ?same_stack_refl.
    + intros q Hq. rewrite get_set, (same_stack_ne _ _ Hq). apply B1.
    + apply pool_set, A1.
    + exact A5.
    + auto.
    + exact L.
    + rewrite Vk'. split; constructor; auto. eapply Forall_impl; [exact A5|exact H2].
    + auto.
    + fold k. rewrite Vk, Vk'. cbn [width wbytes]. unfold vsize. rewrite S. cbn [half_hi v_short]. lia.
    + fold k. rewrite Vk, Vk'. intros f sp Bf [Q1 Q2]. cbn [right_about]. split; [|split].
      * intros C. cbn in C. specialize (Q1 C). rewrite S in Q1. cbn. rewrite C. change 255 with (Z.ones 8). rewrite Z.land_ones by lia.
        pose proof (Bf ((sp - 1) mod 256)) as G1. unfold is_byte in G1. change (2 ^ 8) with 256. lia.
      * intros C. cbn in C. specialize (Q1 C). rewrite S in Q1. cbn. rewrite C, Z.shiftr_div_pow2 by lia.
        replace (sp - 1 - 1) with (sp - 2) by lia.
        pose proof (Bf ((sp - 1) mod 256)) as G1. pose proof (Bf ((sp - 2) mod 256)) as G2. unfold is_byte in G1, G2. change (2 ^ 8) with 256. lia.
      * replace (sp - wbytes false - vsize (half_hi n top)) with (sp - vsize top); [exact Q2|]. unfold vsize. rewrite S. cbn. lia.
  - inj E. set (k' := mkStk (k_len k - 1) (u8 (k_size k - 1)) (k_at k)).
    destruct (set_same p x k') as (S1 & S2 & S3 & S4 & S5).
    assert (Vk' : vals k' = vals (mkStk (k_len k - 1) 0 (k_at k))) by (exact (vals_size k' 0)).
    constructor; rewrite ?S1, ?S3, ?S4, ?get_set, ?same_stack_refl.
    + intros q Hq. rewrite get_set, (same_stack_ne _ _ Hq). reflexivity.
    + apply pool_set, P.
    + auto.
    + auto.
    + cbn. unfold is_byte in *. lia.
    + rewrite Vk'. auto.
    + auto.
    + fold k. rewrite Vk, Vk'. cbn [width wbytes]. unfold vsize. rewrite S. lia.
    + fold k. rewrite Vk, Vk'. intros f sp Bf [Q1 Q2]. split.
      * intros C. cbn. eapply in_range_byte; eauto.
      * unfold vsize in Q2. rewrite S in Q2. exact Q2.
Qed.
Lemma pop_term {A} (m : C A) x a x' : ok_step m -> has_info x -> m x = COk (a, x') -> x_term x' = false -> x_term x = false.
Proof.
  intros O Hi E T. destruct (x_term x) eqn:Tx; auto. pose proof (O _ _ _ Hi E) as G. rewrite (g_term _ _ G Tx) in T. discriminate.
Qed.
Lemma right_two hi lo f sp : (forall i, is_byte (f i)) -> in_range hi -> in_range lo ->
  (v_const lo = true -> v_val lo = num false f sp) ->
  (v_const hi = true -> v_val hi = num false f (sp - 1)) ->
  v_const (merged hi lo) = true -> v_val (merged hi lo) = num true f sp.
Proof.
  intros B Rh Rl L H C. cbn in C. destruct (v_const hi) eqn:Ch; [|discriminate]. destruct (v_const lo) eqn:Cl; [|discriminate].
  cbn. rewrite Ch, Cl. cbn [andb]. rewrite L, H by reflexivity. unfold num. replace (sp - 1 - 1) with (sp - 2) by lia.
  pose proof (B ((sp - 1) mod 256)) as B1. pose proof (B ((sp - 2) mod 256)) as B2. unfold is_byte in *.
  set (a := f ((sp - 2) mod 256)) in *. set (b := f ((sp - 1) mod 256)) in *.
  rewrite join_eq by (unfold is_byte; lia). unfold u16. lia.
Qed.

Lemma pop_short_spec p x v x' : pool_ok x -> has_info x -> is_byte (k_len (get_stack p x)) ->
  Forall (half_ok (x_h x)) (vals (get_stack p x)) -> Forall in_range (vals (get_stack p x)) ->
  pop_short p x = COk (v, x') -> x_term x' = false -> popped p true v x x'.
Proof.
  intros P Hi L H R E T. unfold pop_short in E. destruct (k_size (get_stack p x) <? 2); [inj E; discriminate T|].
  unfold top_of in E. destruct (k_len (get_stack p x) =? 0) eqn:L0; [discriminate|].
  destruct (v_short (k_at (get_stack p x) (k_len (get_stack p x) - 1))) eqn:S.
  - inj E. set (k := get_stack p x) in *. set (top := k_at k (k_len k - 1)) in *.
    assert (Lp : 0 < k_len k) by (unfold is_byte in L; lia).
    assert (Vk : vals k = top :: vals (mkStk (k_len k - 1) 0 (k_at k))) by (apply vals_cons; exact Lp).
    rewrite Vk in H, R. inversion H as [|? ? H1 H2]; subst. inversion R as [|? ? R1 R2]; subst.
    set (k' := mkStk (k_len k - 1) (u8 (k_size k - 2)) (k_at k)).
    destruct (set_same p x k') as (S1 & S2 & S3 & S4 & S5).
    assert (Vk' : vals k' = vals (mkStk (k_len k - 1) 0 (k_at k))) by (exact (vals_size k' 0)).
    constructor; rewrite ?S1, ?S3, ?S4, ?get_set, ?same_stack_refl.
    + intros q Hq. rewrite get_set, (same_stack_ne _ _ Hq). reflexivity.
    + apply pool_set, P.
    + auto.
    + auto.
    + cbn. unfold is_byte in *. lia.
    + rewrite Vk'. auto.
    + auto.
    + fold k. rewrite Vk, Vk'. cbn [width wbytes]. unfold vsize. rewrite S. lia.
    + fold k. rewrite Vk, Vk'. intros f sp Bf [Q1 Q2]. split.
      * intros C. specialize (Q1 C). rewrite S in Q1. exact Q1.
      * unfold vsize in Q2. rewrite S in Q2. exact Q2.
  - destruct (k_len _ <? 2); [discriminate|].
    destruct (pop_byte p x) as [[lo y]|] eqn:E1; [|discriminate].
    destruct (pop_byte p y) as [[hi z]|] eqn:E2; [|discriminate]. inj E.
    pose proof (ok_pop_byte _ _ _ _ Hi E1) as G1. pose proof (goes_has _ _ G1 Hi) as Hy.
    assert (Ty : x_term y = false) by (eapply pop_term; [apply (ok_pop_byte p)| |exact E2|]; auto).
    pose proof (pop_byte_spec _ _ _ _ P L H R E1 Ty) as [A1 A2 A3 A4 A5 [A6 A6'] A7 A8 A9].
    pose proof (pop_byte_spec _ _ _ _ A2 A5 A6 A6' E2 T) as [B1 B2 B3 B4 B5 [B6 B6'] B7 B8 B9].
    constructor.
    + intros q Hq. rewrite B1, A1; auto.
    + exact B2.
    + auto.
    + destruct A4 as (-> & -> & -> & ->) || (destruct A4 as (<- & <- & <- & <-)). exact B4.
    + exact B5.
    + auto.
    + split; [|split; [|reflexivity]].
      * intros [X|X]; discriminate X.
      * destruct A7 as (_ & Rl & Sl), B7 as (_ & Rh & Sh). intros C. cbn in C. cbn [v_short merged].
        cbn. rewrite C. unfold u16. lia.
    + rewrite A8, B8. cbn. lia.
    + intros f sp Bf Q. destruct (A9 f sp Bf Q) as [Q1 Q2]. destruct (B9 _ _ Bf Q2) as [Q3 Q4]. split.
      * apply right_two; auto; [apply B7|apply A7].
      * eapply right_mod; [|exact Q4]. cbn. f_equal. lia.
Qed.
Lemma pop_from_spec p two x v x' : pool_ok x -> has_info x -> is_byte (k_len (get_stack p x)) ->
  Forall (half_ok (x_h x)) (vals (get_stack p x)) -> Forall in_range (vals (get_stack p x)) ->
  pop_from p two x = COk (v, x') -> x_term x' = false -> popped p two v x x'.
Proof. destruct two; unfold pop_from; intros; [eapply pop_short_spec|eapply pop_byte_spec]; eauto. Qed.

(** ** Pushing *)

(** The value [v] stands for the number [n] the machine pushes. *)
Definition means (v : value) (n : Z) : Prop :=
  v_const v = true -> if v_short v then v_val v = n mod 65536 else v_val v mod 256 = n mod 256.
(** [f'] is [f] with [n] pushed at [sp]. *)
Definition pushed (two : bool) (n : Z) (f f' : arr) (sp : Z) : Prop :=
  (if two then f' (sp mod 256) = (n / 256) mod 256 /\ f' ((sp + 1) mod 256) = n mod 256 else f' (sp mod 256) = n mod 256) /\
  forall i, 1 <= i <= 256 - wbytes two -> f' ((sp - i) mod 256) = f ((sp - i) mod 256).

Lemma right_pushed l f f' sp v n : pushed (v_short v) n f f' sp -> means v n -> width l + vsize v <= 256 ->
  right_about l f sp -> right_about (v :: l) f' (sp + vsize v).
Proof.
  intros [P1 P2] M Wd R. cbn [right_about]. split.
  - intros C. specialize (M C). unfold vsize. destruct (v_short v).
    + replace (sp + 2 - 2) with sp by lia. replace (sp + 2 - 1) with (sp + 1) by lia. destruct P1 as [-> ->]. lia.
    + replace (sp + 1 - 1) with sp by lia. rewrite P1. exact M.
  - replace (sp + vsize v - vsize v) with sp by lia. eapply right_frame; [|exact R].
    intros i Hi. apply P2. unfold vsize in *. destruct (v_short v); cbn; lia.
Qed.
Lemma push_value_spec x k v f f' sp n : is_byte (k_len k) -> Forall (half_ok (x_h x)) (vals k) -> half_ok (x_h x) v ->
  pushed (v_short v) n f f' sp -> means v n -> width (vals k) + vsize v <= 256 -> (forall i, is_byte (f i)) ->
  right_about (vals k) f sp ->
  let k' := push_value (h_node (x_h x)) k v in
  is_byte (k_len k') /\ Forall (half_ok (x_h x)) (vals k') /\ right_about (vals k') f' (sp + vsize v) /\
  width (vals k') <= width (vals k) + vsize v.
Proof.
  intros L H Hv Pu M Wd Bf R. pose proof (right_pushed _ _ _ _ _ _ Pu M Wd R) as R'. unfold push_value.
  set (top := if 0 <? k_len k then k_at k (k_len k - 1) else v0).
  destruct (rejoins top v) as [m|] eqn:J; cbv zeta.
  - unfold rejoins in J. destruct (v_lo v) eqn:Lv; [|discriminate]. destruct (v_hi top) eqn:Ht; [|discriminate]. cbn [andb] in J.
    destruct (v_whole top) as [a|] eqn:Wt; [|discriminate]. destruct (v_whole v) as [b|] eqn:Wv; [|discriminate].
    destruct (a =? b) eqn:Eab; [|discriminate]. injection J as ->. assert (b = m) as -> by lia.
    unfold top in Ht. destruct (0 <? k_len k) eqn:L0; [|discriminate Ht].
    assert (Vk : vals k = top :: vals (mkStk (k_len k - 1) 0 (k_at k))).
    { unfold top. apply vals_cons. lia. }
    assert (Vk' : forall z, vals (mkStk (k_len k) z (put_at (k_at k) (k_len k - 1) (h_node (x_h x) m))) =
      h_node (x_h x) m :: vals (mkStk (k_len k - 1) 0 (k_at k))) by (intros; apply vals_put_top; lia).
    rewrite Vk in *. inversion H as [|? ? H1 H2]; subst. fold top in Ht.
    destruct (H1 (or_introl Ht)) as (St & _ & Wt'). destruct (Wt' _ Wt) as (N1 & N2 & N3 & N4 & N5 & N6).
    destruct (Hv (or_intror Lv)) as (Sv & X1 & Wv'). destruct (Wv' _ Wv) as (_ & _ & _ & _ & _ & N7).
    rewrite Lv in X1. assert (Hiv : v_hi v = false) by (destruct (v_hi v); [discriminate X1|reflexivity]).
    split; [exact L|]. rewrite Vk'. split; [|split].
    + constructor; [|exact H2]. intros [X|X]; congruence.
    + cbn [right_about] in *. destruct R' as [R1 [R2 R3]]. unfold vsize in *. rewrite Sv, St in *. rewrite N3. split.
      * intros C. destruct (N6 C) as (G1 & G2 & G3), (N7 C) as (_ & G4 & G5). rewrite Ht in G3. rewrite Hiv in G5.
        specialize (R1 G4). specialize (R2 G2). rewrite Sv in R1. rewrite St in R2. rewrite N3.
        replace (sp + 1 - 2) with (sp - 1) by lia. replace (sp + 1 - 1 - 1) with (sp - 1) in R2 by lia. lia.
      * eapply right_mod; [|exact R3]. f_equal. lia.
    + cbn [width]. unfold vsize. rewrite N3, St, Sv. lia.
  - split; [apply u8_byte|]. unfold u8. assert (K : k_len k < 255 \/ k_len k = 255) by (unfold is_byte in L; lia). destruct K as [K|K].
    + replace ((k_len k + 1) mod 256) with (k_len k + 1) by (unfold is_byte in L; lia).
      rewrite (vals_put (k_at k) (k_len k) _ (k_size k)) by (unfold is_byte in L; lia).
      rewrite <- (vals_size k). split; [constructor; auto|]. split; [exact R'|]. cbn [width]. lia.
    + rewrite (vals_nil (mkStk ((k_len k + 1) mod 256) _ _)) by (cbn [k_len]; rewrite K; cbn; lia).
      cbn. split; [constructor|]. split; [exact I|]. pose proof (width_pos (vals k)). unfold vsize. destruct (v_short v); lia.
Qed.
Lemma raw_push_spec h k v f sp : is_byte (k_len k) -> Forall (half_ok h) (vals k) -> half_ok h v ->
  right_at v f (sp + vsize v) -> right_about (vals k) f sp ->
  is_byte (k_len (raw_push k v)) /\ Forall (half_ok h) (vals (raw_push k v)) /\ right_about (vals (raw_push k v)) f (sp + vsize v)
  /\ width (vals (raw_push k v)) <= width (vals k) + vsize v.
Proof.
  intros L H Hv Rv R. split; [apply u8_byte|]. unfold raw_push, u8.
  assert (K : k_len k < 255 \/ k_len k = 255) by (unfold is_byte in L; lia). destruct K as [K|K].
  - replace ((k_len k + 1) mod 256) with (k_len k + 1) by (unfold is_byte in L; lia).
    rewrite (vals_put (k_at k) (k_len k) _ (k_size k)) by (unfold is_byte in L; lia).
    rewrite <- (vals_size k). split; [constructor; auto|]. split; [|cbn [width]; lia]. cbn [right_about]. split; [exact Rv|].
    replace (sp + vsize v - vsize v) with sp by lia. exact R.
  - rewrite (vals_nil (mkStk ((k_len k + 1) mod 256) _ _)) by (cbn [k_len]; rewrite K; cbn; lia).
    cbn. split; [constructor|]. split; [exact I|]. pose proof (width_pos (vals k)). unfold vsize. destruct (v_short v); lia.
Qed.
