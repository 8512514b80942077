(** The addresses of tokens and labels are 16 bits wide, and a reference is
    followed by the next token. *)
From Verif Require Import Base AsmModel AsmSound AsmRun AsmSpec AsmWords AsmProg AsmFacts.
From Coq Require Import ZifyBool Ascii String.
Open Scope list_scope.
Ltac Zify.zify_post_hook ::= Z.div_mod_to_equations.

Record ranged (p : prog) : Prop := mkRanged {
  g_addr : is_short (p_addr p);
  g_labels : forall t a, In (t, a) (p_labels p) -> is_short a;
  g_ats : Forall is_short (p_ats p);
  g_trace : Forall (fun o => is_short (o_addr o)) (p_trace p)
}.
Lemma ranged_move p p' : ranged p -> is_short (p_addr p') -> p_labels p' = p_labels p -> incl (p_ats p') (p_ats p) ->
  p_trace p' = p_trace p -> ranged p'.
Proof.
  intros [A B C D] E1 E2 E3 E4. constructor; auto.
  - rewrite E2. auto.
  - rewrite Forall_forall in *. auto.
  - rewrite E4. auto.
Qed.
Lemma short_mod x : is_short (x mod 65536).
Proof. unfold is_short. lia. Qed.
Lemma place_byte_ranged p v p' : ranged p -> place_byte p v = Some p' -> ranged p'.
Proof.
  intros R H. unfold place_byte in H. destruct (_ && _); [|discriminate]. injection H as <-.
  eapply ranged_move; eauto; cbn; auto using short_mod, incl_refl.
Qed.
Lemma place_bytes_ranged l : forall p p', ranged p -> place_bytes p l = Some p' -> ranged p'.
Proof.
  induction l as [|v l IH]; intros p p' R H; cbn [place_bytes] in H; [congruence|].
  destruct (place_byte p v) as [p1|] eqn:E; [|discriminate]. cbn [bind] in H. eapply IH; [|exact H]. eapply place_byte_ranged; eauto.
Qed.
Lemma decimal_number_short t limit k v n h : decimal_number t limit k = Number v n h -> limit <= 65535 -> is_short v.
Proof.
  unfold decimal_number. destruct (forallb decimal t) eqn:F; [|discriminate].
  destruct (Z.leb_spec (value 10 t) limit); [|discriminate]. intros [= <- _ _] L. split; [|lia]. clear -F. unfold value.
  assert (G : forall a, 0 <= a -> 0 <= fold_left (fun v c => v * 10 + digit c) t a); [|apply G; lia].
  induction t as [|c t IH]; intros a A; cbn [fold_left]; auto. cbn in F. apply andb_true_iff in F as [F1 F2]. apply IH; auto.
  assert (0 <= digit c) by (unfold digit, decimal in *; destruct (_ && _) eqn:E; lia). lia.
Qed.
Lemma read_number_short s v n h : read_number s = Number v n h -> is_short v.
Proof.
  intros R.
  assert (HX : forall t v n h, (if forallb hexadecimal t then
        if len t <=? 4 then Number (value 16 t) (if len t <=? 2 then 1 else 2) (len t) else BadNumber
      else NotNumber) = Number v n h -> is_short v).
  { intros t v0 n0 h0. destruct (forallb hexadecimal t) eqn:F; [|discriminate]. apply value_bound in F.
    destruct (Z.leb_spec (len t) 4) as [L|]; [|discriminate]. intros [= <- _ _].
    assert (0 <= len t) by (unfold len; lia).
    assert (16 ^ len t <= 16 ^ 4) by (apply Z.pow_le_mono_r; lia). change (16 ^ 4) with 65536 in *. unfold is_short. lia. }
  unfold read_number in R. destruct s as [|c s]; [discriminate|].
  assert (PL : c = 43 \/ c <> 43) by lia. destruct PL as [->|N].
  - destruct s as [|c s]; [eapply decimal_number_short; [exact R|lia]|]. assert (PL : c = 43 \/ c <> 43) by lia. destruct PL as [->|N].
    + eapply decimal_number_short; [exact R|lia].
    + assert (R' : decimal_number (c :: s) 255 1 = Number v n h).
      { clear -R N. destruct c as [|q|q]; auto. do 6 (destruct q as [q|q|]; auto); congruence. }
      eapply decimal_number_short; [exact R'|lia].
  - apply (HX (c :: s) v n h). clear -R N. destruct c as [|q|q]; auto. do 6 (destruct q as [q|q|]; auto); congruence.
Qed.
Lemma assoc_in t l a : assoc t l = Some a -> In (t, a) l.
Proof. induction l as [|[k b] l IH]; cbn; [discriminate|]. destruct (target_dec k t); [intros [= ->]; left; congruence|auto]. Qed.
Lemma padding_short p s v p1 : ranged p -> padding p s = Some (v, p1) ->
  is_short v /\ p_labels p1 = p_labels p /\ incl (p_ats p1) (p_ats p) /\ p_trace p1 = p_trace p /\ p_addr p1 = p_addr p.
Proof.
  intros R H. unfold padding in H. destruct (read_number s) eqn:E.
  - destruct (str_dec _ _).
    + destruct (p_ats p) as [|a l] eqn:A; [discriminate|]. injection H as <- <-. split.
      * pose proof (g_ats _ R) as X. rewrite A in X. inversion X; auto.
      * cbn. split; auto. split; auto. apply incl_tl, incl_refl.
    + destruct s as [|c n']; [discriminate|].
      assert (G : forall o : option str, bind o (fun n => bind (assoc (Label n) (p_labels p)) (fun a => Some (a, p))) = Some (v, p1) ->
        is_short v /\ p_labels p1 = p_labels p /\ incl (p_ats p1) (p_ats p) /\ p_trace p1 = p_trace p /\ p_addr p1 = p_addr p).
      { intros [m|]; [|discriminate]. cbn [bind]. destruct (assoc (Label m) (p_labels p)) as [a|] eqn:A; [|discriminate]. intros [= <- <-].
        split; [eapply (g_labels _ R), assoc_in, A|]. auto using incl_refl. }
      eapply G, H.
  - discriminate.
  - injection H as <- <-. split; [eapply read_number_short; eauto|]. auto using incl_refl.
Qed.
Lemma place_ref_ranged p m t p' : ranged p -> place_ref p m t = Some p' -> ranged p'.
Proof.
  intros R H. unfold place_ref in H. destruct (_ && _); [|discriminate]. injection H as <-.
  eapply ranged_move; eauto; cbn; auto using short_mod, incl_refl.
Qed.
Lemma refers_ranged p r t p' : ranged p -> refers p r t p' -> ranged p'.
Proof.
  intros R [H|a l H A|n _ _ _ _ _]; auto.
  - eapply ranged_move; eauto; cbn; auto using g_addr, incl_refl.
  - eapply ranged_move; eauto; cbn; auto using g_addr. rewrite A. apply incl_tl, incl_refl.
Qed.
Lemma label_ranged p t : ranged p -> ranged (with_label p t).
Proof. intros R. destruct R as [A B C D]. constructor; auto. intros t' a [[= _ <-]|I]; eauto. Qed.
Lemma step_ranged p d lex p' : ranged p -> step p d lex = Some p' -> ranged p'.
Proof.
  intros R H. unfold step in H. set (p0 := with_occ p _) in H.
  assert (R0 : ranged p0).
  { destruct R as [A B C D]. constructor; auto. constructor; auto. }
  clearbody p0. clear R. apply effect_kind in H.
  destruct H as [lex N H|r V M A| |r N V M A|r n L V M A|k l O A|r v p1 P|r v p1 P|r vn p' P Q|r p' N P|lex vn p' R1 R2 R3 P|lex v p' R1 R2 R3 P|lex opc m r p1 t p2 p' W P R S]; auto.
  - eapply ranged_move; eauto; cbn; auto using g_addr, incl_refl.
  - destruct R0 as [A B C D]. constructor; auto. constructor; auto.
  - apply (ranged_move (with_label p0 (Label r))); cbn; auto using label_ranged, g_addr, incl_refl.
  - apply label_ranged; auto.
  - apply label_ranged. eapply ranged_move; eauto; cbn; auto using g_addr, incl_refl.
  - apply padding_short in P as (P1 & P2 & P3 & P4 & P5); auto. eapply ranged_move; eauto.
  - apply padding_short in P as (P1 & P2 & P3 & P4 & P5); auto. eapply ranged_move; eauto. apply short_mod.
  - eapply place_bytes_ranged; eauto.
  - eapply place_bytes_ranged; eauto.
  - eapply place_bytes_ranged; eauto.
  - eapply place_byte_ranged; eauto.
  - eapply place_ref_ranged; [|exact S]. eapply refers_ranged; [|exact R]. destruct opc; [eapply place_byte_ranged; eauto|congruence].
Qed.
Lemma run_ranged toks p : run empty toks = Some p -> ranged p.
Proof.
  apply (run_ind ranged).
  - intros p1 d lex p2 R S. eapply step_ranged; eauto.
  - constructor; cbn; auto; [unfold is_short; lia|contradiction].
Qed.

Lemma writes_next p d lex p' opc m r : step p d lex = Some p' -> writes (p_macros p) lex opc m r ->
  256 <= p_addr p /\ p_addr p + lead opc + width m <= 65536 /\ p_addr p' = (p_addr p + lead opc + width m) mod 65536.
Proof.
  intros S W. unfold step in S. destruct (effect_writes (with_occ p _) d lex opc m r p' W S) as (p1 & t & p2 & P & R & Q).
  pose proof (refers_addr _ _ _ _ R) as E2.
  assert (E3 : 256 <= p_addr p2 /\ p_addr p2 + width m <= 65536 /\ p_addr p' = (p_addr p2 + width m) mod 65536).
  { unfold place_ref in Q. destruct (_ && _) eqn:E; [|discriminate]. injection Q as <-. cbn. lia. }
  assert (1 <= width m) by (destruct m; cbn; lia).
  destruct opc as [v|]; cbn [lead].
  - apply place_byte_range in P as (P1 & P2 & P3). cbn [with_occ p_addr] in *.
    assert (p_addr p < 65535).
    { destruct (Z.eq_dec (p_addr p) 65535) as [Z|Z]; [|lia]. rewrite Z in P2. cbn in P2. lia. }
    rewrite Z.mod_small in P2 by lia. rewrite E2, P2 in *. split; [lia|]. split; [lia|]. tauto.
  - subst p1. cbn [with_occ p_addr] in *. rewrite E2 in *. split; [lia|]. split; [lia|].
    rewrite Z.add_0_r. tauto.
Qed.

(** Every token of a successful run is at a 16 bit address. *)
Lemma success_addr fs file evs o : assembles fs file true evs -> In o (trace evs) -> is_short (o_addr o).
Proof.
  intros A I. destruct (assembles_program _ _ _ A) as (q & R & TR & _). apply run_ranged in R. destruct R as [_ _ _ T]. rewrite TR in T.
  rewrite Forall_forall in T. auto.
Qed.
(** The token after a reference. *)
Lemma success_next fs file evs l2 j o l1 opc m r : assembles fs file true evs -> trace evs = l2 ++ j :: o :: l1 ->
  writes (macro_names l1) (o_lex o) opc m r -> o_addr j = (o_addr o + lead opc + width m) mod 65536.
Proof.
  intros A T W. destruct (assembles_program _ _ _ A) as (q & R & TR & _). rewrite <- TR in *.
  destruct (run_split _ _ _ _ R T) as (p1 & p2 & R1 & T1 & O1 & S1 & T2 & R2).
  assert (X : lexemes (o :: l1) = lexemes (p_trace p1)) by (rewrite T1; reflexivity). rewrite X in R1. 
  destruct (run_split p1 [] o l1 R1 T1) as (p3 & p4 & R3 & T3 & O3 & S3 & T4 & R4). cbn in R4. injection R4 as ->.
  rewrite O1. cbn [occ_at o_addr].
  assert (W' : writes (p_macros p3) (o_lex o) opc m r) by (rewrite (i_macros _ (run_inv _ _ R3)), T3; exact W).
  destruct (writes_next _ _ _ _ _ _ _ S3 W') as (_ & _ & E). rewrite E. rewrite O3. reflexivity.
Qed.
