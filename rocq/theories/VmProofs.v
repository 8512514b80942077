(** Lemmas about the VM model. *)
From Verif Require Import Base VmModel VmSpec.
From Coq Require Import ZifyBool.
Ltac Zify.zify_post_hook ::= Z.div_mod_to_equations.

Arguments Z.add : simpl never.
Arguments Z.sub : simpl never.
Arguments Z.mul : simpl never.
Arguments Z.modulo : simpl never.
Arguments Z.div : simpl never.
Arguments Z.pow : simpl never.
Arguments Z.lor : simpl never.
Arguments Z.land : simpl never.
Arguments Z.shiftl : simpl never.
Arguments Z.shiftr : simpl never.
Arguments Z.eqb : simpl never.
Arguments Z.ltb : simpl never.
Arguments Z.leb : simpl never.

(** ** Arithmetic *)

Lemma u8_range x : 0 <= u8 x < 256.
Proof. unfold u8; lia. Qed.
Lemma u16_range x : 0 <= u16 x < 65536.
Proof. unfold u16; lia. Qed.
Lemma u8_id x : is_byte x -> u8 x = x.
Proof. unfold u8, is_byte; intros; apply Z.mod_small; lia. Qed.
Lemma u16_id x : is_short x -> u16 x = x.
Proof. unfold u16, is_short; intros; apply Z.mod_small; lia. Qed.

Lemma join_eq hi lo : 0 <= hi -> is_byte lo -> Z.lor (Z.shiftl hi 8) lo = 256 * hi + lo.
Proof.
  intros Hh [Hl1 Hl2].
  rewrite <- Z.lxor_lor.
  - rewrite <- Z.add_nocarry_lxor.
    + rewrite Z.shiftl_mul_pow2 by lia. change (2^8) with 256. lia.
    + apply Z.bits_inj'; intros n Hn.
      rewrite Z.land_spec, Z.bits_0, Z.shiftl_spec by lia.
      destruct (Z.ltb_spec n 8).
      * rewrite Z.testbit_neg_r by lia. reflexivity.
      * destruct (Z.eq_dec lo 0) as [->|]; [rewrite Z.bits_0, andb_false_r; reflexivity|].
        rewrite (Z.bits_above_log2 lo n), andb_false_r; auto.
        assert (Z.log2 lo < 8); [|lia]. apply Z.log2_lt_pow2; simpl; lia.
  - apply Z.bits_inj'; intros n Hn.
    rewrite Z.land_spec, Z.bits_0, Z.shiftl_spec by lia.
    destruct (Z.ltb_spec n 8).
    + rewrite Z.testbit_neg_r by lia. reflexivity.
    + destruct (Z.eq_dec lo 0) as [->|]; [rewrite Z.bits_0, andb_false_r; reflexivity|].
      rewrite (Z.bits_above_log2 lo n), andb_false_r; auto.
      assert (Z.log2 lo < 8); [|lia]. apply Z.log2_lt_pow2; simpl; lia.
Qed.

Lemma in_bounds_true n i : 0 <= i < n -> in_bounds n i = true.
Proof. unfold in_bounds; lia. Qed.

(** ** Well-formed states *)

Definition bytes_on (n : Z) (f : arr) : Prop := forall i, 0 <= i < n -> is_byte (f i).

Record wf_vm (v : vm) : Prop := {
  wf_wsp : is_byte (vm_wsp v);
  wf_rsp : is_byte (vm_rsp v);
  wf_ws : bytes_on 256 (vm_ws v);
  wf_rs : bytes_on 256 (vm_rs v);
  wf_dev : bytes_on 256 (vm_dev v);
  wf_mem : bytes_on (vm_msize v) (vm_mem v);
  wf_msize : 65536 <= vm_msize v
}.

Set Default Proof Using "Type".
Section Proofs.
Variable W : Type.

Notation st := (st W).

Record wf_st (s : st) : Prop := {
  wfs_vm : wf_vm (s_vm _ s);
  wfs_wsp : is_byte (s_wsp _ s);
  wfs_rsp : is_byte (s_rsp _ s);
  wfs_pc : is_short (s_pc _ s)
}.

(** The machine a state of the interpreter stands for: the locals are the
    current stack pointers. *)
Definition abs (s : st) : machine :=
  mkMachine (mkStack (s_wsp _ s) (vm_ws (s_vm _ s)))
            (mkStack (s_rsp _ s) (vm_rs (s_vm _ s)))
            (vm_mem (s_vm _ s)) (vm_dev (s_vm _ s)) (s_pc _ s).

(** ** Stack micro-operations *)

Lemma getstack_bytes r s : wf_vm (s_vm _ s) -> bytes_on 256 (getstack W r s).
Proof. intros H; unfold getstack; destruct r; apply H. Qed.

Lemma getstack_setptr r k r' p s : getstack W r (setptr W k r' p s) = getstack W r s.
Proof. destruct k, r'; reflexivity. Qed.

Lemma setptr_vm k r p s : s_vm _ (setptr W k r p s) = s_vm _ s.
Proof. destruct k, r; reflexivity. Qed.

Lemma pop_eq k r s x :
  bytes_on 256 (getstack W r x) ->
  pop W k r s x =
  Ok (peek (getstack W r x) 256 (getptr W k r x - width s) (width s),
      setptr W k r ((getptr W k r x - width s) mod 256) x).
Proof.
  intros H. unfold pop, bind, ret.
  destruct s; unfold width; cbn match.
  - unfold pop2, bind, ret, stack_read, aget.
    rewrite !in_bounds_true by apply u8_range.
    rewrite !getstack_setptr. cbn match.
    unfold peek. cbn match.
    change (2 =? 2) with true. cbn match.
    set (p := getptr W k r x).
    assert (E : u8 (u8 (p - 2) + 1) = (p - 2 + 1) mod 256).
    { unfold u8. rewrite Zplus_mod_idemp_l. reflexivity. }
    rewrite E. unfold u8.
    rewrite join_eq.
    + rewrite u16_id; auto. unfold is_short.
      pose proof (H ((p - 2) mod 256) ltac:(lia)).
      pose proof (H ((p - 2 + 1) mod 256) ltac:(lia)).
      unfold is_byte in *. lia.
    + pose proof (H ((p - 2) mod 256) ltac:(lia)). unfold is_byte in *. lia.
    + apply H. lia.
  - unfold pop1, stack_read, aget.
    rewrite in_bounds_true by apply u8_range.
    rewrite getstack_setptr. unfold peek. cbn match.
    change (1 =? 2) with false. cbn match.
    rewrite (u8_id (u8 _)) by apply u8_range.
    unfold u8. rewrite u16_id; auto.
    pose proof (H ((getptr W k r x - 1) mod 256) ltac:(lia)).
    unfold is_short, is_byte in *. lia.
Qed.

(** Writing bytes at successive circular positions. *)
Fixpoint wr (c : arr) (p : Z) (bs : list Z) : arr :=
  match bs with
  | [] => c
  | b :: t => wr (upd c (p mod 256) b) (p + 1) t
  end.

Lemma wr_mod c p bs : wr c (p mod 256) bs = wr c p bs.
Proof.
  revert c p. induction bs as [|b bs IH]; intros; cbn [wr]; auto.
  rewrite Zmod_mod. rewrite <- (IH _ (p mod 256 + 1)), <- (IH _ (p + 1)).
  f_equal. apply Zplus_mod_idemp_l.
Qed.

Lemma wr_app c p bs cs : wr (wr c p bs) (p + Z.of_nat (length bs)) cs = wr c p (bs ++ cs).
Proof.
  revert c p. induction bs as [|b bs IH]; intros.
  - cbn. f_equal. lia.
  - cbn [wr app length]. rewrite <- IH. f_equal. lia.
Qed.

Lemma wr_app' c p n bs cs : n = Z.of_nat (length bs) ->
  wr (wr c p bs) ((p + n) mod 256) cs = wr c p (bs ++ cs).
Proof. intros ->. rewrite wr_mod. apply wr_app. Qed.

Lemma wr_place c d p bs i :
  0 <= i < 256 -> Z.of_nat (length bs) <= 256 ->
  wr c p bs i = cell (place (mkStack d c) p bs) i.
Proof.
  unfold place. cbn [cell].
  revert c p. induction bs as [|b bs IH]; intros c p Hi Hl.
  - cbn [wr length]. replace ((i - p) mod 256 <? Z.of_nat 0) with false by lia. reflexivity.
  - cbn [wr]. rewrite IH by (cbn [length] in Hl; lia).
    cbn [length]. cbv zeta.
    destruct (Z.eq_dec ((i - p) mod 256) 0) as [E|E].
    + replace ((i - (p + 1)) mod 256) with 255 by lia.
      rewrite E. cbn [length] in Hl.
      replace (255 <? Z.of_nat (length bs)) with false by lia.
      replace (0 <? Z.of_nat (S (length bs))) with true by lia.
      cbn. unfold upd. replace (i =? p mod 256) with true by lia. reflexivity.
    + replace ((i - (p + 1)) mod 256) with ((i - p) mod 256 - 1) by lia.
      destruct (Z.ltb_spec ((i - p) mod 256) (Z.of_nat (S (length bs)))).
      * replace ((i - p) mod 256 - 1 <? Z.of_nat (length bs)) with true by lia.
        replace (Z.to_nat ((i - p) mod 256)) with (S (Z.to_nat ((i - p) mod 256 - 1))) by lia.
        reflexivity.
      * replace ((i - p) mod 256 - 1 <? Z.of_nat (length bs)) with false by lia.
        unfold upd. replace (i =? p mod 256) with false by lia. reflexivity.
Qed.

Lemma bytes_of_length s v : Z.of_nat (length (bytes_of (width s, v))) = width s.
Proof. destruct s; reflexivity. Qed.

Lemma push_eq r s v x :
  0 <= getptr W false r x < 256 ->
  push W r s v x =
  Ok (tt, setptr W false r ((getptr W false r x + width s) mod 256)
            (setstack W r (wr (getstack W r x) (getptr W false r x) (bytes_of (width s, v))) x)).
Proof.
  intros H. unfold push. destruct s; unfold width, bytes_of.
  - change (2 =? 2) with true. cbn match. cbn [wr].
    unfold push2, bind, stack_write, aset.
    rewrite in_bounds_true by auto.
    rewrite in_bounds_true by apply u8_range.
    unfold u8.
    replace (getptr W false r x mod 256) with (getptr W false r x) by lia.
    rewrite Z.shiftr_div_pow2 by lia.
    change (2^8) with 256.
    destruct r; reflexivity.
  - change (1 =? 2) with false. cbn match. cbn [wr].
    unfold push1, bind, stack_write, aset.
    rewrite in_bounds_true by auto.
    unfold u8.
    replace (getptr W false r x mod 256) with (getptr W false r x) by lia.
    destruct r; reflexivity.
Qed.

Lemma peek_range f md a s : 0 < md -> bytes_on md f ->
  0 <= peek f md a (width s) < (if s then 65536 else 256).
Proof.
  intros Hm H. unfold peek. destruct s; cbn [width].
  - change (2 =? 2) with true. cbn match.
    pose proof (H (a mod md) ltac:(apply Z.mod_pos_bound; lia)).
    pose proof (H ((a + 1) mod md) ltac:(apply Z.mod_pos_bound; lia)).
    unfold is_byte in *. lia.
  - change (1 =? 2) with false. cbn match.
    pose proof (H (a mod md) ltac:(apply Z.mod_pos_bound; lia)). auto.
Qed.

Lemma bytes_of_u16 s v : bytes_of (width s, u16 v) = bytes_of (width s, v).
Proof.
  destruct s; unfold bytes_of, width, u16.
  - change (2 =? 2) with true. cbn match. f_equal; [|f_equal]; lia.
  - change (1 =? 2) with false. cbn match. f_equal; lia.
Qed.

(** ** Memory micro-operations *)

Lemma mem_read_eq a x : wf_vm (s_vm _ x) -> 0 <= a < 65536 ->
  mem_read W a x = Ok (vm_mem (s_vm _ x) a, x).
Proof.
  intros H Ha. unfold mem_read, aget.
  rewrite in_bounds_true by (destruct H; lia). reflexivity.
Qed.

Definition mem_ok (v : vm) : Prop := 65536 <= vm_msize v /\ bytes_on (vm_msize v) (vm_mem v).

Lemma load_eq' md s a x : mem_ok (s_vm _ x) -> 0 < md <= 65536 ->
  load W md s a x = Ok (peek (vm_mem (s_vm _ x)) md a (width s), x).
Proof.
  intros [H1 H2] Hm.
  assert (Hr : forall i, 0 <= i < 65536 -> mem_read W i x = Ok (vm_mem (s_vm _ x) i, x)).
  { intros i Hi. unfold mem_read, aget. rewrite in_bounds_true by lia. reflexivity. }
  unfold load, peek. destruct s; cbn [width].
  - change (2 =? 2) with true. cbn match. unfold bind, ret.
    pose proof (Z.mod_pos_bound a md ltac:(lia)).
    pose proof (Z.mod_pos_bound (a + 1) md ltac:(lia)).
    rewrite !Hr by lia.
    rewrite join_eq; auto.
    + apply H2. lia.
    + apply H2. lia.
  - change (1 =? 2) with false. cbn match.
    pose proof (Z.mod_pos_bound a md ltac:(lia)).
    rewrite Hr by lia. reflexivity.
Qed.

Lemma load_eq md s a x : wf_vm (s_vm _ x) -> 0 < md <= 65536 ->
  load W md s a x = Ok (peek (vm_mem (s_vm _ x)) md a (width s), x).
Proof. intros H. apply load_eq'. split; apply H. Qed.

Definition set_mem (x : st) (m : arr) : st :=
  mkSt W (vm_set_mem (s_vm _ x) m) (s_wsp _ x) (s_rsp _ x) (s_kwsp _ x) (s_krsp _ x) (s_pc _ x) (s_w _ x).

Lemma store_eq md s a v x : wf_vm (s_vm _ x) -> 0 < md <= 65536 ->
  store W md s a v x =
  Ok (tt, set_mem x (apply_stores (vm_mem (s_vm _ x)) (store_bytes md (width s) a v))).
Proof.
  intros H Hm. unfold store, store_bytes. destruct s; cbn [width].
  - change (2 =? 2) with true. cbn match. unfold bind.
    pose proof (Z.mod_pos_bound a md ltac:(lia)).
    pose proof (Z.mod_pos_bound (a + 1) md ltac:(lia)).
    pose proof (wf_msize _ H).
    unfold mem_write, aset.
    rewrite in_bounds_true by lia. cbn [s_vm vm_set_mem vm_msize vm_mem].
    rewrite in_bounds_true by lia.
    unfold u8. rewrite Z.shiftr_div_pow2 by lia. change (2^8) with 256.
    reflexivity.
  - change (1 =? 2) with false. cbn match.
    pose proof (Z.mod_pos_bound a md ltac:(lia)).
    pose proof (wf_msize _ H).
    unfold mem_write, aset. rewrite in_bounds_true by lia. reflexivity.
Qed.

(** ** Decoding *)

Definition all_bytes : list Z := map Z.of_nat (seq 0 256).
Lemma all_bytes_in op : is_byte op -> In op all_bytes.
Proof.
  intros H. unfold all_bytes. apply in_map_iff. exists (Z.to_nat op).
  unfold is_byte in H. split; [lia|]. apply in_seq. lia.
Qed.

Definition base_eqb (a b : base) : bool :=
  match a, b with
  | INC, INC | POP, POP | NIP, NIP | SWP, SWP | ROT, ROT | DUP, DUP | OVR, OVR | EQU, EQU
  | NEQ, NEQ | GTH, GTH | LTH, LTH | JMP, JMP | JCN, JCN | JSR, JSR | STH, STH | LDZ, LDZ
  | STZ, STZ | LDR, LDR | STR, STR | LDA, LDA | STA, STA | DEI, DEI | DEO, DEO | ADD, ADD
  | SUB, SUB | MUL, MUL | DIV, DIV | AND, AND | ORA, ORA | EOR, EOR | SFT, SFT => true
  | _, _ => false
  end.
Lemma base_eqb_eq a b : base_eqb a b = true -> a = b.
Proof. destruct a, b; cbn; congruence. Qed.

Definition spec_label (op : Z) : label :=
  if op mod 32 =? 0 then
    if op =? 0 then BRK
    else if op =? 32 then JCI
    else if op =? 64 then JMI
    else if op =? 96 then JSI
    else LITop (flag op 64) (flag op 32)
  else Poly (operation (op mod 32)) (flag op 128) (flag op 64) (flag op 32).

Definition label_eqb (a b : label) : bool :=
  match a, b with
  | BRK, BRK | JCI, JCI | JMI, JMI | JSI, JSI => true
  | LITop r s, LITop r' s' => Bool.eqb r r' && Bool.eqb s s'
  | Poly o k r s, Poly o' k' r' s' =>
      base_eqb o o' && Bool.eqb k k' && Bool.eqb r r' && Bool.eqb s s'
  | _, _ => false
  end.
Lemma label_eqb_eq a b : label_eqb a b = true -> a = b.
Proof.
  destruct a, b; cbn; try congruence.
  - rewrite andb_true_iff, !eqb_true_iff. intros [-> ->]; auto.
  - rewrite !andb_true_iff, !eqb_true_iff. intros [[[H ->] ->] ->].
    apply base_eqb_eq in H as ->; auto.
Qed.

Lemma dispatch_spec op : is_byte op -> dispatch op = Some (spec_label op).
Proof.
  intros H. apply all_bytes_in in H. revert op H.
  assert (E : forallb (fun op => match dispatch op with
                                 | Some l => label_eqb l (spec_label op)
                                 | None => false end) all_bytes = true)
    by (vm_compute; reflexivity).
  intros op H. rewrite forallb_forall in E. specialize (E op H).
  destruct (dispatch op); [|discriminate]. f_equal. apply label_eqb_eq; auto.
Qed.

(** ** One polymorphic instruction *)

Lemma s8_signed x : is_byte x -> s8 x = signed x.
Proof.
  unfold is_byte, s8, signed. intros H.
  rewrite Z.mod_small by lia. reflexivity.
Qed.

(** What a non-device instruction leaves alone besides the abstract machine. *)
Definition same_rest (x x' : st) : Prop :=
  s_w _ x' = s_w _ x /\ vm_msize (s_vm _ x') = vm_msize (s_vm _ x) /\
  vm_wsp (s_vm _ x') = vm_wsp (s_vm _ x) /\ vm_rsp (s_vm _ x') = vm_rsp (s_vm _ x).

Lemma stack_eq_wr d c p p' q bs :
  Z.of_nat (length bs) <= 256 ->
  d = (p' + Z.of_nat (length bs)) mod 256 -> p mod 256 = p' mod 256 ->
  stack_eq (mkStack d (wr c p bs)) (place (mkStack q c) p' bs).
Proof.
  intros Hl Hd Hp. split.
  - exact Hd.
  - intros i Hi. cbn [cell]. rewrite <- (wr_mod c p), Hp, wr_mod.
    apply wr_place; auto.
Qed.

Lemma stack_eq_refl a : stack_eq a a.
Proof. split; auto. Qed.

Lemma stack_eq_place0 d c d' p :
  d = p mod 256 -> stack_eq (mkStack d c) (place (mkStack d' c) p []).
Proof.
  intros ->. split.
  - cbn. f_equal. lia.
  - intros i Hi. unfold place. cbn [cell length].
    replace ((i - p) mod 256 <? Z.of_nat 0) with false; auto. lia.
Qed.

Lemma peek_mod f md a b w : a mod md = b mod md -> 0 < md -> peek f md a w = peek f md b w.
Proof.
  intros H Hm. unfold peek. rewrite H.
  replace ((a + 1) mod md) with ((b + 1) mod md); auto.
  rewrite <- (Zplus_mod_idemp_l a), <- (Zplus_mod_idemp_l b). congruence.
Qed.

Lemma wr_nil c p : wr c p [] = c.
Proof. reflexivity. Qed.

Lemma peek1 f md a : peek f md a 1 = f (a mod md).
Proof. reflexivity. Qed.

Lemma bytes_of_mod (s : bool) v v' :
  v mod (if s then 65536 else 256) = v' mod (if s then 65536 else 256) ->
  bytes_of (width s, v) = bytes_of (width s, v').
Proof.
  destruct s; unfold bytes_of, width; intros H.
  - change (2 =? 2) with true. cbn match. f_equal; [|f_equal]; lia.
  - change (1 =? 2) with false. cbn match. f_equal; auto.
Qed.

Lemma bytes_of_length1 v : Z.of_nat (length (bytes_of (1, v))) = 1.
Proof. reflexivity. Qed.
Lemma bytes_of_length2 v : Z.of_nat (length (bytes_of (2, v))) = 2.
Proof. reflexivity. Qed.
Lemma bytes_of_u16_1 v : bytes_of (1, u16 v) = bytes_of (1, v).
Proof. apply (bytes_of_u16 false). Qed.
Lemma bytes_of_u16_2 v : bytes_of (2, u16 v) = bytes_of (2, v).
Proof. apply (bytes_of_u16 true). Qed.

Lemma peek_mod_sub f a c w : peek f 256 (a mod 256 - c) w = peek f 256 (a - c) w.
Proof. apply peek_mod; [|lia]. rewrite Zminus_mod_idemp_l. reflexivity. Qed.

Lemma peek_mod_sub2 f a c d w : peek f 256 (a mod 256 - c - d) w = peek f 256 (a - c - d) w.
Proof.
  replace (a mod 256 - c - d) with (a mod 256 - (c + d)) by lia.
  rewrite peek_mod_sub. f_equal; lia.
Qed.

Ltac eq_peeks :=
  repeat match goal with
  | |- peek ?f ?m ?a ?w :: _ = peek ?f ?m ?b ?w :: _ => replace a with b by lia; f_equal
  end; try reflexivity.

Lemma operands1 q a : operands q [a] = [peek (cell q) 256 (depth q - a) a].
Proof. unfold operands. cbn [operands_at total fold_right]. eq_peeks. Qed.
Lemma operands2 q a b : operands q [a; b] =
  [peek (cell q) 256 (depth q - b - a) a; peek (cell q) 256 (depth q - b) b].
Proof. unfold operands. cbn [operands_at total fold_right]. eq_peeks. Qed.
Lemma operands3 q a b c : operands q [a; b; c] =
  [peek (cell q) 256 (depth q - c - b - a) a; peek (cell q) 256 (depth q - c - b) b;
   peek (cell q) 256 (depth q - c) c].
Proof. unfold operands. cbn [operands_at total fold_right]. eq_peeks. Qed.

Lemma stack_eq_wr' d c p p' q bs bs' n :
  Z.of_nat (length bs) = n -> n <= 256 -> bs = bs' ->
  d = (p' + n) mod 256 -> p mod 256 = p' mod 256 ->
  stack_eq (mkStack d (wr c p bs)) (place (mkStack q c) p' bs').
Proof. intros <- ? <- ? ?. apply stack_eq_wr; auto. Qed.

Lemma int32_ok v : INT_MIN <= v <= INT_MAX -> int32 v = Ok v.
Proof. intros H. unfold int32, in_int. replace (_ && _) with true by lia. reflexivity. Qed.

Lemma width_cases s : width s = 1 \/ width s = 2.
Proof. destruct s; auto. Qed.

(** The state seen by a label: [pc] already points behind the opcode. *)
Definition at_label (x : st) (m : machine) : Prop :=
  abs x = mkMachine (wst m) (rst m) (ram m) (devp m) ((ip m + 1) mod 65536).

Definition no_mul_overflow (o : base) (r s : bool) (m : machine) : Prop :=
  o = MUL -> s = true ->
  let q := if r then rst m else wst m in
  peek (cell q) 256 (depth q - 2 - 2) 2 * peek (cell q) 256 (depth q - 2) 2 <= INT_MAX.

Definition refines (c : M W unit) (sp : machine -> machine) (x : st) (m : machine) : Prop :=
  exists x', c x = Ok (tt, x') /\ machine_eq (abs x') (sp m) /\ same_rest x x'.

Lemma mul_bound a b n : 0 <= a < n -> 0 <= b < n -> 0 <= a * b <= (n - 1) * (n - 1).
Proof. nia. Qed.

Lemma land15 b : is_byte b -> Z.land b 15 = b mod 16.
Proof. intros. change 15 with (Z.ones 4). rewrite Z.land_ones by lia. reflexivity. Qed.

Lemma land240 b : is_byte b -> Z.shiftr (Z.land b 240) 4 = b / 16.
Proof.
  intros H. apply all_bytes_in in H. revert b H.
  assert (E : forallb (fun b => Z.shiftr (Z.land b 240) 4 =? b / 16) all_bytes = true)
    by (vm_compute; reflexivity).
  rewrite forallb_forall in E. intros b H. specialize (E b H). lia.
Qed.

Lemma sft_eq a b : is_short a -> is_byte b ->
  int32 (Z.shiftl (Z.shiftr a (Z.land b 15)) (Z.shiftr (Z.land b 240) 4)) =
  Ok (a / 2 ^ (b mod 16) * 2 ^ (b / 16)).
Proof.
  intros Ha Hb. rewrite land15, land240 by auto. unfold is_short, is_byte in *.
  rewrite Z.shiftr_div_pow2, Z.shiftl_mul_pow2 by lia.
  apply int32_ok. unfold INT_MIN, INT_MAX.
  assert (0 < 2 ^ (b mod 16)) by (apply Z.pow_pos_nonneg; lia).
  assert (0 < 2 ^ (b / 16) <= 2 ^ 15).
  { split; [apply Z.pow_pos_nonneg; lia|apply Z.pow_le_mono_r; lia]. }
  change (2 ^ 15) with 32768 in *.
  assert (0 <= a / 2 ^ (b mod 16) <= 65535).
  { split; [apply Z.div_pos; lia|]. apply Z.div_le_upper_bound; nia. }
  nia.
Qed.

Lemma peek_byte f a : bytes_on 256 f -> is_byte (peek f 256 a 1).
Proof. intros H. apply (peek_range f 256 a false ltac:(lia) H). Qed.
Lemma peek_short f a s : bytes_on 256 f -> is_short (peek f 256 a (width s)).
Proof.
  intros H. pose proof (peek_range f 256 a s ltac:(lia) H). unfold is_short. destruct s; lia.
Qed.

Lemma jump_target s pc a : (s = false -> is_byte a) ->
  (if s then a else pc_rel pc a) = target s pc a.
Proof.
  intros H. unfold target, pc_rel. destruct s; auto.
  rewrite s8_signed by auto. reflexivity.
Qed.

Lemma store_bytes_mod md w a b v : 0 < md -> a mod md = b mod md ->
  store_bytes md w a v = store_bytes md w b v.
Proof.
  intros Hm H. unfold store_bytes. rewrite H.
  replace ((a + 1) mod md) with ((b + 1) mod md); auto.
  rewrite <- (Zplus_mod_idemp_l a), <- (Zplus_mod_idemp_l b). congruence.
Qed.

Lemma pc_rel_mod pc a : is_byte a -> pc_rel pc a mod 65536 = (pc + signed a) mod 65536.
Proof. intros H. unfold pc_rel, u16. rewrite s8_signed, Zmod_mod by auto. reflexivity. Qed.


Variable dei : Z -> vm -> W -> res (Z * vm * W).
Variable deo : Z -> vm -> W -> res (vm * W).
Variable hi_first : bool.

Notation step := (step W dei deo hi_first).
Notation poly_op := (poly_op W dei deo hi_first).
Notation exec_label := (exec_label W dei deo hi_first).

Definition poly (o : base) (k r s : bool) : M W unit :=
  bind W (keep_prologue W k r) (fun _ => poly_op o k r s).

Ltac norm_state :=
  cbn [keep_prologue setptr getptr getstack setstack s_vm s_wsp s_rsp s_kwsp s_krsp s_pc s_w
       vm_ws vm_rs vm_wsp vm_rsp vm_mem vm_dev vm_msize vm_set_ws vm_set_rs vm_set_mem vm_set_dev
       vm_set_ptrs set_mem negb].


(** Sequential pushes collapse to one [wr]. *)
Ltac lens := rewrite ?app_length, ?Nat2Z.inj_add, ?bytes_of_length, ?bytes_of_length1, ?bytes_of_length2.
Ltac merge := repeat (rewrite wr_app' by (lens; lia)).


Ltac start Hb Hc :=
  let Hw := fresh "Hw" in let Hm := fresh "Hm" in
  intros Hw Hm; unfold at_label in Hm;
  match goal with x : VmModel.st W |- _ =>
    destruct x as [[vwsp vrsp ws rs dev mem msz] wsp rsp kwsp krsp pc w] end;
  match goal with m : machine |- _ => destruct m as [[wd wc] [rd rc] rm dv ipm] end;
  unfold abs in Hm; cbn in Hm;
  injection Hm as -> -> -> -> -> -> ->;
  destruct Hw as [Hv Hws Hrs Hpc]; cbn in Hws, Hrs, Hpc;
  pose proof (wf_ws _ Hv) as Hb; pose proof (wf_rs _ Hv) as Hc; cbn in Hb, Hc;
  unfold refines, poly, bind at 1.

Ltac run1 :=
  match goal with
  | |- context [VmModel.pop W ?k ?r ?s ?x] =>
      rewrite (pop_eq k r s x) by (norm_state; assumption); norm_state
  | |- context [VmModel.push W ?r ?s ?v ?x] =>
      rewrite (push_eq r s v x) by (norm_state; first [assumption | apply Z.mod_pos_bound; lia]); norm_state
  | |- context [VmModel.load W ?md ?s ?v ?x] =>
      rewrite (load_eq md s v x) by (first [assumption | lia]); norm_state
  | |- context [VmModel.store W ?md ?s ?a ?v ?x] =>
      rewrite (store_eq md s a v x) by (first [assumption | lia]); norm_state
  end.

Ltac finish_state :=
  eexists; split; [reflexivity|]; split; [|repeat split];
  unfold abs, spec_poly; norm_state;
  cbn [wst rst ram devp ip depth cell operand_widths];
  rewrite ?operands1, ?operands2, ?operands3;
  cbn [wst rst ram devp ip depth cell reference total fold_right flatten pushes pushes_other
       stores goto flat_map apply_stores fold_left];
  change (width false) with 1; change (width true) with 2;
  rewrite ?peek_mod_sub, ?peek_mod_sub2, ?peek_mod_sub, ?Zminus_mod_idemp_l, ?app_nil_r, ?Z.add_0_r;
  merge; rewrite <- ?app_assoc; rewrite ?bytes_of_u16, ?bytes_of_u16_1, ?bytes_of_u16_2;
  rewrite ?Zplus_mod_idemp_l, ?Zminus_mod_idemp_l.


Ltac solve_stack :=
  first
    [ apply stack_eq_refl
    | apply stack_eq_place0; unfold is_byte in *; lia
    | eapply stack_eq_wr'; [lens; reflexivity
                           | lia | | lia | lia]; try reflexivity ].

Ltac solve_machine :=
  match goal with |- context [width ?s] => pose proof (width_cases s) | _ => idtac end;
  split; [solve_stack|split; [solve_stack|split; [cbn; reflexivity|split; [reflexivity|]]]];
  cbn [ip]; try reflexivity.

Ltac step_poly :=
  match goal with |- context [keep_prologue W ?k ?r] => destruct k, r end;
  norm_state; cbn [VmModel.poly_op]; unfold bind; repeat run1; unfold VmModel.ret; finish_state.

Lemma poly_refines_A o k r s x m :
  In o [INC; POP; NIP; SWP; ROT; DUP; OVR; STH; LDZ; STZ; LDA; STA] ->
  wf_st x -> at_label x m -> refines (poly o k r s) (spec_poly o k r s) x m.
Proof.
  intros Ho. start Hb Hc.
  cbn in Ho.
  repeat match type of Ho with _ \/ _ => destruct Ho as [<-|Ho] end; try contradiction;
  step_poly; solve_machine.
Qed.

Lemma poly_refines_cmp o k r s x m :
  In o [EQU; NEQ; GTH; LTH] ->
  wf_st x -> at_label x m -> refines (poly o k r s) (spec_poly o k r s) x m.
Proof.
  intros Ho. start Hb Hc.
  cbn in Ho.
  repeat match type of Ho with _ \/ _ => destruct Ho as [<-|Ho] end; try contradiction;
  match goal with |- context [keep_prologue W ?k ?r] => destruct k, r end;
  norm_state; cbn [VmModel.poly_op]; unfold cmp_op, bind; repeat run1; unfold VmModel.ret; finish_state;
  solve_machine;
  rewrite ?Z.gtb_ltb; try (f_equal; f_equal; unfold b2z; destruct (_ =? _); reflexivity).
  all: unfold b2z; reflexivity.
Qed.

Ltac ranges Hb Hc :=
  match goal with
  | |- context [peek ?f 256 ?a (width ?s)] =>
      match goal with
      | H : 0 <= peek f 256 a (width s) < _ |- _ => fail 1
      | _ => let H := fresh "R" in
             first [pose proof (peek_range f 256 a s ltac:(lia) Hb) as H
                   |pose proof (peek_range f 256 a s ltac:(lia) Hc) as H]
      end
  end.

Lemma cdiv_checked a b : (if negb (b =? 0) then cdiv a b else Ok 0) = Ok (if b =? 0 then 0 else Z.quot a b).
Proof using . unfold cdiv. destruct (b =? 0); reflexivity. Qed.

Lemma poly_refines_bin o k r s x m :
  In o [ADD; SUB; DIV; AND; ORA; EOR] ->
  wf_st x -> at_label x m -> refines (poly o k r s) (spec_poly o k r s) x m.
Proof.
  intros Ho. start Hb Hc.
  cbn in Ho.
  repeat match type of Ho with _ \/ _ => destruct Ho as [<-|Ho] end; try contradiction;
  match goal with |- context [keep_prologue W ?k ?r] => destruct k, r end;
  norm_state; cbn [VmModel.poly_op]; unfold bin_op, bind; repeat run1; unfold lift;
  repeat ranges Hb Hc;
  rewrite ?int32_ok by (unfold INT_MIN, INT_MAX; destruct s; cbn match in *; lia);
  rewrite ?cdiv_checked;
  repeat run1; finish_state; solve_machine.
  all: repeat ranges Hb Hc.
  all: match goal with |- context [(if ?b =? 0 then _ else Z.quot _ _)] =>
         destruct (Z.eqb_spec b 0); auto;
         rewrite Z.quot_div_nonneg by (destruct s; cbn match in *; lia); auto end.
Qed.

Lemma poly_refines_MUL k r s x m :
  no_mul_overflow MUL r s m ->
  wf_st x -> at_label x m -> refines (poly MUL k r s) (spec_poly MUL k r s) x m.
Proof.
  intros Ho. start Hb Hc. specialize (Ho eq_refl).
  destruct k, r; cbn [rst wst cell depth] in Ho;
  norm_state; cbn [VmModel.poly_op]; unfold bin_op, bind; repeat run1; unfold lift;
  rewrite ?peek_mod_sub, ?peek_mod_sub2;
  repeat ranges Hb Hc;
  rewrite ?int32_ok by (unfold INT_MIN, INT_MAX in *; destruct s;
    [ specialize (Ho eq_refl); cbn [width] in *; cbn match in *; nia
    | match goal with |- _ <= ?a * ?b <= _ => pose proof (mul_bound a b 256 ltac:(assumption) ltac:(assumption)); lia end]);
  repeat run1; finish_state; solve_machine.
Qed.


Lemma poly_refines_SFT k r s x m :
  wf_st x -> at_label x m -> refines (poly SFT k r s) (spec_poly SFT k r s) x m.
Proof.
  start Hb Hc.
  destruct k, r;
  norm_state; cbn [VmModel.poly_op]; unfold bind; repeat run1; unfold lift;
  change (width false) with 1;
  rewrite sft_eq by (first [apply peek_short | apply peek_byte]; assumption);
  repeat run1; finish_state; solve_machine.
Qed.

Ltac fix_target :=
  rewrite jump_target by (intros ->; apply peek_byte; assumption).

Lemma poly_refines_jump o k r s x m :
  In o [JMP; JSR] ->
  wf_st x -> at_label x m -> refines (poly o k r s) (spec_poly o k r s) x m.
Proof.
  intros Ho. start Hb Hc.
  cbn in Ho.
  repeat match type of Ho with _ \/ _ => destruct Ho as [<-|Ho] end; try contradiction;
  match goal with |- context [keep_prologue W ?k ?r] => destruct k, r end;
  norm_state; cbn [VmModel.poly_op]; unfold bind, jump, getpc, setpc; repeat run1;
  unfold bind; norm_state; fix_target; finish_state; solve_machine.
Qed.

Lemma poly_refines_JCN k r s x m :
  wf_st x -> at_label x m -> refines (poly JCN k r s) (spec_poly JCN k r s) x m.
Proof.
  start Hb Hc.
  destruct k, r;
  norm_state; cbn [VmModel.poly_op]; unfold bind, jump, getpc, setpc; repeat run1;
  unfold bind; norm_state;
  change (width false) with 1; rewrite ?peek_mod_sub, ?peek_mod_sub2;
  match goal with |- context [negb (?c =? 0)] => destruct (c =? 0) eqn:Ec end;
  cbn [negb]; norm_state; try fix_target; unfold ret; finish_state;
  rewrite Ec; solve_machine.
Qed.

Lemma poly_refines_rel o k r s x m :
  In o [LDR; STR] ->
  wf_st x -> at_label x m -> refines (poly o k r s) (spec_poly o k r s) x m.
Proof.
  intros Ho. start Hb Hc.
  cbn in Ho.
  repeat match type of Ho with _ \/ _ => destruct Ho as [<-|Ho] end; try contradiction;
  match goal with |- context [keep_prologue W ?k ?r] => destruct k, r end;
  norm_state; cbn [VmModel.poly_op]; unfold bind, getpc; repeat run1;
  unfold bind; norm_state; repeat run1; change (width false) with 1;
  try (erewrite peek_mod by (first [apply pc_rel_mod; apply peek_byte; assumption | lia]));
  try (erewrite store_bytes_mod by (first [apply pc_rel_mod; apply peek_byte; assumption | lia]));
  finish_state; solve_machine.
Qed.

End Proofs.
