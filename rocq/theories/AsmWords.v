(** The words of AsmSpec are those of the assembler. *)
From Verif Require Import Base AsmModel AsmSpec.
From Coq Require Import ZifyBool Ascii String.
Open Scope list_scope.

Lemma str_eqb_true a b : str_eqb a b = true <-> a = b.
Proof. unfold str_eqb. destruct (str_dec a b); split; congruence. Qed.
Lemma str_eqb_false a b : str_eqb a b = false <-> a <> b.
Proof. unfold str_eqb. destruct (str_dec a b); split; congruence. Qed.

(** ** Numbers *)

Lemma decimal_digit c : decimal c = is_digit c.
Proof. reflexivity. Qed.
Lemma hexadecimal_hex c : hexadecimal c = is_hex c.
Proof. reflexivity. Qed.
Lemma digit_value c : is_hex c = true -> digit c = hex_value c.
Proof. unfold digit, hex_value. change (decimal c) with (is_digit c). destruct (is_digit c); lia. Qed.
Lemma digit_range c : hexadecimal c = true -> 0 <= digit c < 16.
Proof. unfold hexadecimal, digit. destruct (decimal c) eqn:E; unfold decimal in E; lia. Qed.
Lemma decimal_range c : decimal c = true -> 0 <= digit c < 10 /\ digit c = c - 48.
Proof. unfold digit. intros H. rewrite H. unfold decimal in H. lia. Qed.

Lemma value_snoc base s c : value base (s ++ [c]) = value base s * base + digit c.
Proof. unfold value. rewrite fold_left_app. reflexivity. Qed.

Lemma value_bound s : forallb hexadecimal s = true -> 0 <= value 16 s < 16 ^ Z.of_nat (List.length s).
Proof.
  induction s as [|c s IH] using rev_ind; [cbn; lia|]. rewrite forallb_app. cbn [forallb]. intros H.
  apply andb_true_iff in H as [H1 H2]. rewrite andb_true_r in H2. specialize (IH H1). pose proof (digit_range c H2).
  rewrite value_snoc, app_length. cbn [List.length]. rewrite Nat2Z.inj_add, Z.pow_add_r by lia. cbn. lia.
Qed.

(** From the last digit to the first: [n] digits are read already, making [v]. *)
Lemma lor_disjoint v w i : 0 <= i -> 0 <= v < 2 ^ i -> 0 <= w -> Z.lor v (Z.shiftl w i) = v + w * 2 ^ i.
Proof.
  intros Hi Hv Hw. rewrite Z.shiftl_mul_pow2 by lia.
  assert (L : Z.land v (w * 2 ^ i) = 0).
  { apply Z.bits_inj'. intros n Hn. rewrite Z.land_spec, Z.bits_0. destruct (Z.lt_ge_cases n i) as [L|L].
    - rewrite Z.mul_pow2_bits_low by lia. apply andb_false_r.
    - destruct (Z.eq_dec v 0) as [->|N]; [rewrite Z.bits_0; reflexivity|].
      rewrite (Z.bits_above_log2 v n); [reflexivity|lia|]. apply Z.log2_lt_pow2; [lia|].
      eapply Z.lt_le_trans; [apply Hv|]. apply Z.pow_le_mono_r; lia. }
  symmetry. apply Z.add_nocarry_lxor in L as L2. rewrite L2.
  apply Z.lxor_lor. auto.
Qed.

Lemma parse_hex_spec s : forall i v, 0 <= i -> i + Z.of_nat (List.length s) <= 4 -> 0 <= v < 2 ^ (4 * i) ->
  parse_hex s i v = if forallb hexadecimal s then Some (value 16 (rev s) * 2 ^ (4 * i) + v) else None.
Proof.
  induction s as [|c s IH]; intros i v Hi Hl Hv; cbn [parse_hex forallb rev].
  - cbn. reflexivity.
  - change (hexadecimal c) with (is_hex c). destruct (is_hex c) eqn:H; [|reflexivity]. cbn [andb].
    cbn [List.length] in Hl.
    assert (D : 0 <= digit c < 16) by (apply digit_range; auto).
    rewrite <- digit_value by auto. replace (i * 4) with (4 * i) by lia. rewrite lor_disjoint by lia.
    assert (P : 2 ^ (4 * (i + 1)) = 2 ^ (4 * i) * 16).
    { replace (4 * (i + 1)) with (4 * i + 4) by lia. rewrite Z.pow_add_r by lia. reflexivity. }
    assert (B : 2 ^ (4 * (i + 1)) <= 65536).
    { change 65536 with (2 ^ 16). apply Z.pow_le_mono_r; lia. }
    assert (V : 0 <= v + digit c * 2 ^ (4 * i) < 2 ^ (4 * (i + 1))) by nia.
    replace (u16 (v + digit c * 2 ^ (4 * i))) with (v + digit c * 2 ^ (4 * i))
      by (unfold u16; rewrite Z.mod_small; lia).
    rewrite IH by lia. destruct (forallb hexadecimal s) eqn:F; [|reflexivity]. f_equal.
    rewrite value_snoc, P. ring.
Qed.

Lemma forallb_rev {A} (f : A -> bool) l : forallb f (rev l) = forallb f l.
Proof. induction l as [|x l IH]; [reflexivity|]. cbn. rewrite forallb_app, IH. cbn. rewrite andb_true_r. apply andb_comm. Qed.

Lemma parse_hex_value s : len s <= 4 ->
  parse_hex (rev s) 0 0 = if forallb hexadecimal s then Some (value 16 s) else None.
Proof.
  unfold len. intros L. rewrite parse_hex_spec; rewrite ?rev_length; cbn -[rev]; try lia.
  rewrite forallb_rev, rev_involutive. rewrite Z.mul_1_r, Z.add_0_r. reflexivity.
Qed.

Lemma value_mono s : forallb decimal s = true -> forall v, 0 <= v -> v <= fold_left (fun v c => v * 10 + digit c) s v.
Proof.
  induction s as [|c s IH]; intros F v Hv; cbn [fold_left]; [lia|]. cbn in F. apply andb_true_iff in F as [F1 F2].
  apply decimal_range in F1 as [F1 _]. specialize (IH F2 (v * 10 + digit c) ltac:(lia)). lia.
Qed.

Lemma parse_dec_spec limit s : 0 <= limit <= 65535 -> forall v, 0 <= v <= limit -> forallb decimal s = true ->
  parse_dec s limit v =
  if fold_left (fun v c => v * 10 + digit c) s v <=? limit then inr (fold_left (fun v c => v * 10 + digit c) s v) else inl MNumberBig.
Proof.
  intros Hl. induction s as [|c s IH]; intros v Hv F; cbn [parse_dec fold_left].
  - destruct (v <=? limit) eqn:E; [reflexivity|lia].
  - cbn in F. apply andb_true_iff in F as [F1 F2]. rewrite <- decimal_digit, F1.
    apply decimal_range in F1 as [F1 E1].
    replace (u32 (u32 (v * 10) + (c - 48))) with (v * 10 + digit c).
    2:{ unfold u32. rewrite E1 in *. rewrite (Z.mod_small (v * 10)) by lia. rewrite Z.mod_small; lia. }
    pose proof (value_mono s F2 (v * 10 + digit c) ltac:(lia)) as M.
    destruct (limit <? v * 10 + digit c) eqn:L.
    + destruct (_ <=? limit) eqn:E; [lia|reflexivity].
    + apply IH; auto. lia.
Qed.

Lemma parse_dec_value limit s : 0 <= limit <= 65535 -> forallb decimal s = true ->
  parse_dec s limit 0 = if value 10 s <=? limit then inr (value 10 s) else inl MNumberBig.
Proof. intros H F. apply (parse_dec_spec limit s H 0); auto. lia. Qed.
Lemma parse_dec_bad limit s v : forallb decimal s = false -> exists m, parse_dec s limit v = inl m.
Proof.
  revert v. induction s as [|c s IH]; intros v F; [discriminate|]. cbn [parse_dec]. cbn in F.
  rewrite <- decimal_digit. destruct (decimal c); [|eauto]. cbn in F. cbn zeta. destruct (limit <? _); eauto.
Qed.
Lemma value10_nonneg s : forallb decimal s = true -> 0 <= value 10 s.
Proof. intros F. apply (value_mono s F 0). lia. Qed.

(** How a string begins. *)
Inductive begins : str -> Prop :=
| begins_nil : begins []
| begins_2 s : begins (43 :: 43 :: s)
| begins_1 s : (forall s', s <> 43 :: s') -> begins (43 :: s)
| begins_0 c s : c <> 43 -> begins (c :: s).
Lemma begins_any s : begins s.
Proof.
  destruct s as [|c s]; [constructor|]. destruct (Z.eq_dec c 43) as [->|N]; [|constructor; auto].
  destruct s as [|d s]; [constructor; congruence|]. destruct (Z.eq_dec d 43) as [->|N]; constructor; congruence.
Qed.
Lemma not43 {A} c (x y : A) : c <> 43 -> match c with 43 => x | _ => y end = y.
Proof.
  intros N. destruct c as [|c|c]; auto. do 6 (destruct c as [c|c|]; auto; try congruence).
Qed.
Lemma pluses_1 s : (forall s', s <> 43 :: s') -> pluses (43 :: s) = 1.
Proof.
  intros N. unfold pluses. destruct s as [|d s]; auto. apply not43. intros ->. apply (N s). reflexivity.
Qed.
Lemma pluses_0 c s : c <> 43 -> pluses (c :: s) = 0.
Proof. intros N. unfold pluses. apply (not43 c); auto. Qed.
Lemma read_number_1 s : (forall s', s <> 43 :: s') -> read_number (43 :: s) = decimal_number s 255 1.
Proof.
  intros N. unfold read_number. destruct s as [|d s]; auto. apply not43. intros ->. apply (N s). reflexivity.
Qed.
Lemma read_number_0 c s : c <> 43 -> read_number (c :: s) =
  if forallb hexadecimal (c :: s) then
    if len (c :: s) <=? 4 then Number (value 16 (c :: s)) (if len (c :: s) <=? 2 then 1 else 2) (len (c :: s)) else BadNumber
  else NotNumber.
Proof. intros N. unfold read_number. apply (not43 c); auto. Qed.

Lemma is_number_spec s : is_number s = match read_number s with NotNumber => false | _ => true end.
Proof.
  destruct (begins_any s) as [|s|s N|c s N]; auto.
  - change (forallb decimal s = match decimal_number s 65535 2 with NotNumber => false | _ => true end).
    unfold decimal_number. destruct (forallb decimal s); auto. destruct (_ <=? _); auto.
  - rewrite read_number_1 by auto. unfold is_number. rewrite pluses_1 by auto.
    change (forallb decimal s = match decimal_number s 255 1 with NotNumber => false | _ => true end).
    unfold decimal_number. destruct (forallb decimal s); auto. destruct (_ <=? _); auto.
  - rewrite read_number_0 by auto. unfold is_number. rewrite pluses_0 by auto. change (0 <? 0) with false. cbv iota.
    change (forallb is_hex (c :: s)) with (forallb hexadecimal (c :: s)).
    destruct (forallb hexadecimal (c :: s)); auto. destruct (_ <=? _); auto.
Qed.

Lemma parse_number_spec s :
  match read_number s with
  | Number v n _ => parse_number s = inr (v, n) /\ is_short v /\ (n = 1 /\ is_byte v \/ n = 2)
  | _ => exists m, parse_number s = inl m
  end.
Proof.
  unfold is_short, is_byte.
  destruct (begins_any s) as [|s|s N|c s N].
  - cbn. eauto.
  - cbn [read_number]. unfold decimal_number, parse_number. cbn [pluses]. change (2 =? 0) with false. cbv beta iota zeta.
    change (skipn (Z.to_nat 2) (43 :: 43 :: s)) with s. change (2 =? 1) with false. cbv iota.
    destruct (forallb decimal s) eqn:F.
    + rewrite parse_dec_value by (auto; lia). pose proof (value10_nonneg s F). destruct (value 10 s <=? 65535) eqn:E; [|eauto].
      repeat split; auto; try lia. unfold u16. rewrite Z.mod_small by lia. reflexivity.
    + destruct (parse_dec_bad 65535 s 0 F) as [m ->]. eauto.
  - rewrite read_number_1 by auto. unfold decimal_number, parse_number. rewrite pluses_1 by auto. change (1 =? 0) with false. cbv beta iota zeta.
    change (skipn (Z.to_nat 1) (43 :: s)) with s. change (1 =? 1) with true. cbv iota.
    destruct (forallb decimal s) eqn:F.
    + rewrite parse_dec_value by (auto; lia). pose proof (value10_nonneg s F). destruct (value 10 s <=? 255) eqn:E; [|eauto].
      repeat split; auto; try lia. unfold u16. rewrite Z.mod_small by lia. reflexivity.
    + destruct (parse_dec_bad 255 s 0 F) as [m ->]. eauto.
  - rewrite read_number_0 by auto. unfold parse_number. rewrite pluses_0 by auto. change (0 =? 0) with true. cbv beta iota zeta.
    destruct (forallb hexadecimal (c :: s)) eqn:F.
    + destruct (len (c :: s) <=? 4) eqn:L; destruct (4 <? len (c :: s)) eqn:L2; try lia; [|eauto].
      rewrite parse_hex_value by lia. rewrite F. split; auto. pose proof (value_bound (c :: s) F) as B.
      unfold len in *. assert (16 ^ Z.of_nat (List.length (c :: s)) <= 16 ^ 4) by (apply Z.pow_le_mono_r; lia).
      destruct (Z.of_nat (List.length (c :: s)) <=? 2) eqn:E; [|lia].
      assert (16 ^ Z.of_nat (List.length (c :: s)) <= 16 ^ 2) by (apply Z.pow_le_mono_r; lia). lia.
    + destruct (4 <? len (c :: s)) eqn:L2; [eauto|]. rewrite parse_hex_value by lia. rewrite F. eauto.
Qed.

Lemma literal_spec s :
  match read_literal s with
  | Some (v, n) => literal s = inr (v, n) /\ is_short v /\ (n = 1 /\ is_byte v \/ n = 2)
  | None => exists m, literal s = inl m
  end.
Proof.
  pose proof (parse_number_spec s) as P. unfold read_literal, literal.
  destruct (begins_any s) as [|s|s N|c s N].
  - cbn. eauto.
  - change (negb (43 =? 43)) with false. cbn [andb]. cbn [read_number] in *. unfold decimal_number in *.
    destruct (forallb decimal s); [|auto]. destruct (_ <=? _); auto.
  - change (negb (43 =? 43)) with false. cbn [andb]. rewrite read_number_1 in * by auto. unfold decimal_number in *.
    destruct (forallb decimal s); [|auto]. destruct (_ <=? _); auto.
  - destruct (c =? 43) eqn:E; [lia|]. cbn [negb andb]. rewrite read_number_0 in * by auto.
    destruct (forallb hexadecimal (c :: s)) eqn:F.
    + destruct (len (c :: s) <=? 4) eqn:L.
      * destruct (len (c :: s) =? 2) eqn:E2; cbn [negb andb orb].
        { rewrite orb_true_r. cbn. auto. }
        destruct (len (c :: s) =? 4) eqn:E4; cbn [negb andb orb].
        { rewrite orb_true_r. cbn. auto. }
        assert (len (c :: s) =? 0 = false) as -> by (unfold len; cbn; lia). cbn. eauto.
      * destruct (_ && _); eauto.
    + destruct (_ && _); eauto.
Qed.

(** ** Mnemonics *)
Ltac Zify.zify_post_hook ::= Z.div_mod_to_equations.
Lemma low_part c : 0 <= c < 128 -> u32 (s8 c) = c.
Proof. intros H. unfold u32, s8. rewrite (Z.mod_small c 256) by lia. cbv zeta. destruct (c <? 128) eqn:E; lia. Qed.
Lemma high_part c : 128 <= c < 256 -> u32 (s8 c) = c - 256 + 4294967296.
Proof. intros H. unfold u32, s8. rewrite (Z.mod_small c 256) by lia. cbv zeta. destruct (c <? 128) eqn:E; lia. Qed.
Lemma bit31 x : 2147483648 <= x < 4294967296 -> Z.testbit x 31 = true.
Proof. intros H. rewrite Z.testbit_true by lia. change (2 ^ 31) with 2147483648. lia. Qed.
Lemma shift_u32 x n k : 0 <= n -> 2 ^ n = k -> u32 (Z.shiftl x n) = (x * k) mod 4294967296.
Proof. intros H <-. rewrite Z.shiftl_mul_pow2 by auto. reflexivity. Qed.

Lemma ref_code_low a b c : 0 <= a < 128 -> 0 <= b < 128 -> 0 <= c < 128 -> ref_code a b c = a * 65536 + b * 256 + c.
Proof.
  intros A B C. unfold ref_code. rewrite !low_part by auto.
  rewrite (shift_u32 a 16 65536), (shift_u32 b 8 256) by (auto; lia).
  rewrite (Z.mod_small (a * 65536)), (Z.mod_small (b * 256)) by lia.
  rewrite (Z.lor_comm (a * 65536)).
  pose proof (lor_disjoint (b * 256) a 16 ltac:(lia) ltac:(lia) ltac:(lia)) as L1.
  rewrite Z.shiftl_mul_pow2 in L1 by lia. change (2 ^ 16) with 65536 in L1. rewrite L1.
  rewrite Z.lor_comm.
  pose proof (lor_disjoint c (b + a * 256) 8 ltac:(lia) ltac:(lia) ltac:(lia)) as L2.
  rewrite Z.shiftl_mul_pow2 in L2 by lia. change (2 ^ 8) with 256 in L2.
  replace ((b + a * 256) * 256) with (b * 256 + a * 65536) in L2 by ring. rewrite L2. ring.
Qed.
Lemma ref_code_high a b c : is_byte a -> is_byte b -> is_byte c -> 128 <= a \/ 128 <= b \/ 128 <= c ->
  Z.testbit (ref_code a b c) 31 = true.
Proof.
  unfold is_byte. intros A B C H. unfold ref_code. rewrite !Z.lor_spec.
  rewrite (shift_u32 _ 16 65536), (shift_u32 _ 8 256) by (auto; lia).
  destruct H as [H|[H|H]].
  - rewrite (high_part a) by lia. replace ((a - 256 + 4294967296) * 65536) with ((a - 256) * 65536 + 65536 * 4294967296) by ring.
    rewrite Z_mod_plus_full. rewrite (bit31 (_ mod _)) by lia. reflexivity.
  - rewrite (high_part b) by lia. replace ((b - 256 + 4294967296) * 256) with ((b - 256) * 256 + 256 * 4294967296) by ring.
    rewrite Z_mod_plus_full. rewrite (bit31 (((b - 256) * 256) mod _)) by lia. rewrite orb_true_r. reflexivity.
  - rewrite (high_part c) by lia. rewrite (bit31 (c - 256 + _)) by lia. rewrite orb_true_r. reflexivity.
Qed.
Lemma ref_code_eq a b c x y z : is_byte a -> is_byte b -> is_byte c -> 0 <= x < 128 -> 0 <= y < 128 -> 0 <= z < 128 ->
  ref_code x y z = ref_code a b c -> [x; y; z] = [a; b; c].
Proof.
  intros A B C X Y Z E. rewrite (ref_code_low x y z) in E by auto.
  destruct (Z_lt_ge_dec a 128) as [La|La], (Z_lt_ge_dec b 128) as [Lb|Lb], (Z_lt_ge_dec c 128) as [Lc|Lc].
  1:{ unfold is_byte in *. rewrite ref_code_low in E by lia. f_equal; [lia|]. f_equal; [lia|]. f_equal. lia. }
  all: exfalso; assert (T : Z.testbit (x * 65536 + y * 256 + z) 31 = true) by (rewrite E; apply ref_code_high; auto; lia);
    rewrite Z.testbit_true in T by lia; change (2 ^ 31) with 2147483648 in T; lia.
Qed.

Definition ascii3 (s : string) : bool :=
  match bytes s with [x; y; z] => (x <? 128) && (y <? 128) && (z <? 128) && (0 <=? x) && (0 <=? y) && (0 <=? z) | _ => false end.
Lemma code_of_eq s a b c : ascii3 s = true -> is_byte a -> is_byte b -> is_byte c ->
  (code_of s =? ref_code a b c) = if str_dec (bytes s) [a; b; c] then true else false.
Proof.
  unfold ascii3, code_of. destruct (bytes s) as [|x [|y [|z [|w r]]]] eqn:E; try discriminate. intros R A B C.
  destruct (str_dec [x; y; z] [a; b; c]) as [D|D].
  - injection D as -> -> ->. apply Z.eqb_refl.
  - apply Z.eqb_neq. intros F. apply D. apply ref_code_eq; auto; lia.
Qed.

Lemma index_code ops : forallb ascii3 ops = true -> forall a b c i, is_byte a -> is_byte b -> is_byte c ->
  index_of (ref_code a b c) (map code_of ops) i = code_in ops [a; b; c] i.
Proof.
  induction ops as [|o ops IH]; intros F a b c i A B C; [reflexivity|]. cbn [map index_of code_in].
  cbn in F. apply andb_true_iff in F as [F1 F2]. rewrite code_of_eq by auto.
  destruct (str_dec _ _); auto.
Qed.

Lemma code_in_range ops w i c : code_in ops w i = Some c -> i <= c < i + Z.of_nat (List.length ops).
Proof.
  revert i. induction ops as [|o ops IH]; intros i; cbn [code_in List.length]; [discriminate|].
  destruct (str_dec _ _); [intros [= ->]; lia|]. intros H. apply IH in H. lia.
Qed.
Lemma code_in_long ops w i : forallb ascii3 ops = true -> List.length w <> 3%nat -> code_in ops w i = None.
Proof.
  revert i. induction ops as [|o ops IH]; intros i F L; [reflexivity|]. cbn in F. apply andb_true_iff in F as [F1 F2].
  cbn [code_in]. destruct (str_dec (bytes o) w) as [E|E]; auto. exfalso. apply L. rewrite <- E.
  unfold ascii3 in F1. destruct (bytes o) as [|x [|y [|z [|v r]]]]; try discriminate. reflexivity.
Qed.

Definition is_mode (m : Z) : bool := (m =? 50) || ((m =? 114) || ((m =? 107) || false)).
Definition modes_ok (s : str) : bool := forallb is_mode s.
Lemma op_flags_spec s : forall op red,
  option_map fst (op_flags s op red) =
  if modes_ok s
  then Some (Z.lor op (Z.lor (Z.lor (if has 50 s then 32 else 0) (if has 114 s then 64 else 0)) (if has 107 s then 128 else 0)))
  else None.
Proof.
  induction s as [|c s IH]; intros op red.
  - cbn. rewrite Z.lor_0_r. reflexivity.
  - cbn [op_flags]. cbv zeta. unfold modes_ok, has in *. cbn [forallb existsb]. unfold is_mode at 1.
    rewrite (Z.eqb_sym 50 c), (Z.eqb_sym 114 c), (Z.eqb_sym 107 c).
    destruct (c =? 50) eqn:E1.
    { rewrite IH. assert (c =? 114 = false) as -> by lia. assert (c =? 107 = false) as -> by lia. cbn [orb andb].
      destruct (forallb _ s); auto. f_equal. rewrite <- Z.lor_assoc. f_equal.
      repeat match goal with |- context [existsb ?f s] => destruct (existsb f s) end; reflexivity. }
    destruct (c =? 114) eqn:E2.
    { rewrite IH. assert (c =? 107 = false) as -> by lia. cbn [orb andb].
      destruct (forallb _ s); auto. f_equal. rewrite <- Z.lor_assoc. f_equal.
      repeat match goal with |- context [existsb ?f s] => destruct (existsb f s) end; reflexivity. }
    destruct (c =? 107) eqn:E3.
    { rewrite IH. cbn [orb andb].
      destruct (forallb _ s); auto. f_equal. rewrite <- Z.lor_assoc. f_equal.
      repeat match goal with |- context [existsb ?f s] => destruct (existsb f s) end; reflexivity. }
    reflexivity.
Qed.

Lemma combine_modes c m2 mr mk : 0 <= c < 32 ->
  Z.lor (if c =? 0 then 128 else c) (Z.lor (Z.lor (if m2 : bool then 32 else 0) (if mr : bool then 64 else 0)) (if mk : bool then 128 else 0)) =
  c + (if m2 then 32 else 0) + (if mr then 64 else 0) + (if mk || (c =? 0) then 128 else 0).
Proof.
  intros H.
  assert (F : forallb (fun c => forallb (fun m2 : bool => forallb (fun mr : bool => forallb (fun mk : bool =>
    Z.lor (if c =? 0 then 128 else c) (Z.lor (Z.lor (if m2 then 32 else 0) (if mr then 64 else 0)) (if mk then 128 else 0)) =?
    c + (if m2 then 32 else 0) + (if mr then 64 else 0) + (if mk || (c =? 0) then 128 else 0)) [true; false]) [true; false]) [true; false])
    (map Z.of_nat (seq 0 32)) = true) by (vm_compute; reflexivity).
  rewrite forallb_forall in F. specialize (F c). rewrite in_map_iff in F.
  assert (I : exists x, Z.of_nat x = c /\ In x (seq 0 32)) by (exists (Z.to_nat c); split; [lia|apply in_seq; lia]).
  specialize (F I). rewrite forallb_forall in F. specialize (F m2 ltac:(destruct m2; cbn; auto)).
  rewrite forallb_forall in F. specialize (F mr ltac:(destruct mr; cbn; auto)).
  rewrite forallb_forall in F. specialize (F mk ltac:(destruct mk; cbn; auto)). apply Z.eqb_eq in F. exact F.
Qed.

Lemma parse_opcode_spec w : Forall is_byte w -> option_map fst (parse_opcode w) = mnemonic w.
Proof.
  intros F. unfold mnemonic.
  destruct w as [|a [|b [|c fl]]].
  1-3: destruct (str_dec _ _) as [E|_]; [discriminate|]; cbn [firstn]; rewrite code_in_long; [reflexivity..|discriminate].
  inversion F as [|? ? A F1]; subst. inversion F1 as [|? ? B F2]; subst. inversion F2 as [|? ? C F3]; subst.
  cbn [parse_opcode firstn skipn]. rewrite Z.eqb_sym. rewrite code_of_eq by auto.
  destruct (str_dec (bytes "BRK") [a; b; c]) as [E|E].
  - injection E as <- <- <-. destruct fl; [reflexivity|]. destruct (str_dec _ _) as [E|_]; [discriminate|]. reflexivity.
  - destruct (str_dec (a :: b :: c :: fl) (bytes "BRK")) as [E'|_].
    { exfalso. apply E. rewrite <- E'. injection E' as -> -> -> ->. reflexivity. }
    change BASE_OPCODES with (map code_of OPERATIONS). rewrite index_code by auto.
    destruct (code_in OPERATIONS [a; b; c] 0) as [i|] eqn:I; [|reflexivity].
    apply code_in_range in I. change (Z.of_nat (List.length OPERATIONS)) with 32 in I.
    rewrite op_flags_spec. change (forallb (fun m => has m (bytes "2rk")) fl) with (modes_ok fl). destruct (modes_ok fl); [|reflexivity]. f_equal.
    apply combine_modes. lia.
Qed.

(** ** Names *)
Lemma rune_runic c : rune c = is_runic c.
Proof. reflexivity. Qed.
Lemma find_or_create_spec b t n : Forall is_byte n ->
  match find_or_create b t n with
  | (Some v, b') => valid_name n = true /\
      (lookup n (b_symtab b) = Some v /\ b' = b \/
       lookup n (b_symtab b) = None /\ v = mkNode t false EnUnknown /\ b' = set_symtab b (b_symtab b ++ [(n, v)]))
  | (None, _) => valid_name n = false
  end.
Proof.
  intros F. unfold find_or_create, valid_name. destruct n as [|c n]; [reflexivity|].
  change (rune c) with (is_runic c). destruct (is_runic c); [reflexivity|]. rewrite <- parse_opcode_spec by auto.
  destruct (parse_opcode (c :: n)) as [[op red]|]; [reflexivity|]. cbn [option_map negb andb].
  rewrite is_number_spec. destruct (read_number (c :: n)); try reflexivity.
  destruct (lookup (c :: n) (b_symtab b)) as [v|] eqn:L; split; auto.
Qed.
Lemma valid_name_valid n : valid_name n = true -> n <> [] /\ mnemonic n = None /\ read_number n = NotNumber /\ rune (hd 0 n) = false.
Proof.
  destruct n as [|c n]; [discriminate|]. unfold valid_name. intros H. apply andb_true_iff in H as [H1 H3]. apply andb_true_iff in H1 as [H1 H2].
  repeat split; try discriminate.
  - destruct (mnemonic _); [discriminate|reflexivity].
  - destruct (read_number _); try discriminate. reflexivity.
  - change (rune c = false). destruct (rune c); [discriminate|reflexivity].
Qed.
