(** The reader of annotations of the type checker: proofs for C89 and C90. *)
From Verif Require Import Base VmModel AsmModel ChessModel AsmWords ValueSpec ChessValue SigSpec.
From Coq Require Import ZifyBool String.
Open Scope list_scope.
Ltac Zify.zify_post_hook ::= Z.div_mod_to_equations.

Definition fits (w : str) : Prop := (1 <= List.length w <= 255)%nat.

(** ** Values *)
Lemma cut_fits w : fits w -> cut_name w = w.
Proof. intros H. unfold cut_name, fits, u8 in *. rewrite Z.mod_small by lia. rewrite Nat2Z.id. apply firstn_all. Qed.
Lemma bad_fits w : fits w -> parse_bad w = false.
Proof. unfold fits, parse_bad, u8. intros H. rewrite Z.mod_small by lia. lia. Qed.
Lemma last_app (l : str) c d : last (l ++ [c]) d = c.
Proof. apply last_last. Qed.
Lemma last_is_spec c w : c <> 0 -> (last_char w =? c) = true <-> last_is c w.
Proof.
  intros Hc. unfold last_char, last_is. rewrite Z.eqb_eq. split.
  - intros H. destruct (exists_last (l := w)) as (b & d & ->); [intros ->; cbn in H; lia|]. rewrite last_last in H. exists b. congruence.
  - intros (b & ->). apply last_last.
Qed.
Lemma parse_reads w : fits w -> reads_as w (parse_value w).
Proof.
  intros F. unfold parse_value. rewrite (cut_fits _ F). cbv zeta.
  set (star := last_char w =? 42). set (inner := if star then removelast w else w).
  assert (Hw : w = inner ++ (if star then [42] else [])).
  { unfold inner, star. destruct (last_char w =? 42) eqn:E; [|symmetry; apply app_nil_r]. apply last_is_spec in E as (b & ->); [|lia].
    rewrite removelast_last. reflexivity. }
  set (br := match inner with c :: _ => (c =? 91) && (last_char inner =? 93) | [] => false end).
  assert (Hb : br = true <-> exists b, inner = [91] ++ b ++ [93]).
  { unfold br. destruct inner as [|c l]; [split; [discriminate|intros (b & E); discriminate]|]. split.
    - intros E. apply andb_prop in E as [E1 E2]. apply Z.eqb_eq in E1 as ->. apply last_is_spec in E2 as (b & E2); [|lia].
      destruct b as [|d b]; [discriminate|]. injection E2 as <- ->. exists b. reflexivity.
    - intros (b & E). cbn [app] in E. injection E as -> ->. rewrite Z.eqb_refl. cbn [andb]. apply last_is_spec; [lia|]. exists (91 :: b). reflexivity. }
  exists (if br then removelast (tl inner) else inner), inner, star, br.
  split; [exact Hw|]. split; [intros E L; apply last_is_spec in L; [|lia]; unfold star in E; congruence|]. split.
  { destruct br eqn:E; [|reflexivity]. destruct (proj1 Hb eq_refl) as (b & ->). cbn [app tl]. rewrite removelast_last. reflexivity. }
  split; [intros E X; apply Hb in X; congruence|]. reflexivity.
Qed.
Lemma parse_all l : Forall fits l -> Forall2 reads_as l (map parse_value l).
Proof. induction 1; cbn; constructor; auto. apply parse_reads. assumption. Qed.

(** ** A small machine for the words *)
Record pst : Type := mkPst { p_w : list str; p_r : list str; q_w : list str; q_r : list str; p_t : rtype; p_s : pstate; p_seal : bool }.
Definition full (l : list str) : bool := negb (Nat.ltb (List.length l) 8).
Definition tok_name (p : pst) (w : str) : option pst :=
  match p_s p with
  | PWstIn => if full (p_w p) then None else Some (mkPst (p_w p ++ [w]) (p_r p) (q_w p) (q_r p) (p_t p) (p_s p) (p_seal p))
  | PRstIn => if full (p_r p) then None else Some (mkPst (p_w p) (p_r p ++ [w]) (q_w p) (q_r p) (p_t p) (p_s p) (p_seal p))
  | PWstOut => if full (q_w p) then None else Some (mkPst (p_w p) (p_r p) (q_w p ++ [w]) (q_r p) (p_t p) (p_s p) (p_seal p))
  | PRstOut => if full (q_r p) then None else Some (mkPst (p_w p) (p_r p) (q_w p) (q_r p ++ [w]) (p_t p) (p_s p) (p_seal p))
  end.
Definition tok (p : pst) (w : str) : option pst :=
  let arrow t := match p_s p with
    | PWstIn | PRstIn => Some (mkPst (p_w p) (p_r p) (q_w p) (q_r p) t PWstOut (p_seal p))
    | _ => None end in
  if p_seal p then None
  else if str_eqb w dot then
    match p_s p with
    | PWstIn => Some (mkPst (p_w p) (p_r p) (q_w p) (q_r p) (p_t p) PRstIn (p_seal p))
    | PWstOut => Some (mkPst (p_w p) (p_r p) (q_w p) (q_r p) (p_t p) PRstOut (p_seal p))
    | _ => None
    end
  else if str_eqb w bang then Some (mkPst (p_w p) (p_r p) (q_w p) (q_r p) (p_t p) (p_s p) true)
  else if str_eqb w to_caller then arrow Subroutine
  else if str_eqb w to_vector then arrow Vector
  else tok_name p w.
Fixpoint toks (p : pst) (l : list str) : option pst :=
  match l with [] => Some p | w :: l => match tok p w with Some p => toks p l | None => None end end.
Lemma toks_app l l' : forall p, toks p (l ++ l') = match toks p l with Some p => toks p l' | None => None end.
Proof. induction l as [|w l IH]; intros p; cbn; [reflexivity|]. destruct (tok p w); auto. Qed.

(** ** The words that it takes are those of a signature *)
Definition seal (b : bool) : list str := if b then [bang] else [].
Definition arrow_of (t : rtype) : str := match t with Vector => to_vector | Subroutine => to_caller end.
Definition taken (pre : list str) (p : pst) : Prop :=
  names (p_w p) /\ names (p_r p) /\ names (q_w p) /\ names (q_r p) /\
  match p_s p with
  | PWstIn => pre = p_w p ++ seal (p_seal p) /\ p_r p = [] /\ q_w p = [] /\ q_r p = []
  | PRstIn => pre = p_w p ++ [dot] ++ p_r p ++ seal (p_seal p) /\ q_w p = [] /\ q_r p = []
  | PWstOut => exists ins, both ins (p_w p) (p_r p) /\ pre = ins ++ [arrow_of (p_t p)] ++ q_w p ++ seal (p_seal p) /\ q_r p = []
  | PRstOut => exists ins, both ins (p_w p) (p_r p) /\ pre = ins ++ [arrow_of (p_t p)] ++ q_w p ++ [dot] ++ q_r p ++ seal (p_seal p)
  end.
Lemma names_nil : names [].
Proof. split; [cbn; lia|constructor]. Qed.
Lemma names_snoc l w : names l -> full l = false -> is_name w -> names (l ++ [w]).
Proof.
  intros [N1 N2] F I. split; [|apply Forall_app; split; [exact N2|constructor; [exact I|constructor]]].
  rewrite app_length. cbn. unfold full in F. apply Bool.negb_false_iff in F. apply Nat.ltb_lt in F. lia.
Qed.
Definition pst0 (t : rtype) : pst := mkPst [] [] [] [] t PWstIn false.
Lemma tok_taken pre p w p' : taken pre p -> tok p w = Some p' -> taken (pre ++ [w]) p'.
Proof.
  destruct p as [pw pr qw qr pt ps sl]. unfold taken. cbn [p_w p_r q_w q_r p_t p_s p_seal]. intros (N1 & N2 & N3 & N4 & H). unfold tok. cbn [p_w p_r q_w q_r p_t p_s p_seal].
  destruct sl; [discriminate|]. cbn [seal] in H. rewrite ?app_nil_r in H.
  destruct (str_eqb w dot) eqn:E1.
  { apply str_eqb_true in E1 as ->. destruct ps; try discriminate; intros X; injection X as <-; cbn [p_w p_r q_w q_r p_t p_s p_seal seal].
    - destruct H as (-> & -> & -> & ->). split; [exact N1|]. split; [exact N2|]. split; [exact N3|]. split; [exact N4|]. rewrite ?app_nil_r. auto.
    - destruct H as (ins & B & -> & ->). split; [exact N1|]. split; [exact N2|]. split; [exact N3|]. split; [exact N4|]. exists ins. split; [exact B|]. rewrite ?app_nil_r, <- !app_assoc. reflexivity. }
  destruct (str_eqb w bang) eqn:E2.
  { apply str_eqb_true in E2 as ->. intros X; injection X as <-; cbn [p_w p_r q_w q_r p_t p_s p_seal seal].
    split; [exact N1|]. split; [exact N2|]. split; [exact N3|]. split; [exact N4|]. destruct ps.
    - destruct H as (-> & -> & -> & ->). auto 12.
    - destruct H as (-> & -> & ->). cbn [app]. rewrite <- ?app_assoc. cbn [app]. auto 12.
    - destruct H as (ins & B & -> & ->). exists ins. split; [exact B|]. rewrite <- !app_assoc. auto 12.
    - destruct H as (ins & B & ->). exists ins. split; [exact B|]. rewrite <- !app_assoc. cbn [app]. rewrite <- ?app_assoc. reflexivity. }
  assert (Ha : forall t, w = arrow_of t -> match ps with PWstIn | PRstIn => Some (mkPst pw pr qw qr t PWstOut false) | _ => None end = Some p' ->
    taken (pre ++ [w]) p').
  { intros t Ew X. destruct ps; try discriminate; injection X as <-; unfold taken; cbn [p_w p_r q_w q_r p_t p_s p_seal seal];
      (split; [exact N1|]; split; [exact N2|]; split; [exact N3|]; split; [exact N4|]).
    - destruct H as (-> & -> & -> & ->). exists pw. split; [split; [exact N1|split; [exact N2|auto]]|]. cbn. subst w. auto 12.
    - destruct H as (-> & -> & ->). exists (pw ++ [dot] ++ pr). split; [split; [exact N1|split; [exact N2|auto]]|]. cbn. subst w. auto. }
  destruct (str_eqb w to_caller) eqn:E3; [apply str_eqb_true in E3; intros X; exact (Ha Subroutine E3 X)|].
  assert (Hn : str_eqb w to_vector = false -> is_name w).
  { intros E4. apply str_eqb_false in E1, E2, E3, E4. red. auto. }
  destruct (str_eqb w to_vector) eqn:E4; [apply str_eqb_true in E4; intros X; exact (Ha Vector E4 X)|]. specialize (Hn eq_refl). clear Ha.
  unfold tok_name. cbn [p_w p_r q_w q_r p_t p_s p_seal]. destruct ps.
  - destruct (full pw) eqn:F; [discriminate|]. intros X; injection X as <-. cbn [p_w p_r q_w q_r p_t p_s p_seal seal].
    destruct H as (-> & -> & -> & ->). rewrite !app_nil_r. split; [apply names_snoc; auto|]. auto 12.
  - destruct (full pr) eqn:F; [discriminate|]. intros X; injection X as <-. cbn [p_w p_r q_w q_r p_t p_s p_seal seal].
    destruct H as (-> & -> & ->). rewrite !app_nil_r. split; [exact N1|]. split; [apply names_snoc; auto|]. rewrite <- ?app_assoc. cbn [app]. auto 12.
  - destruct (full qw) eqn:F; [discriminate|]. intros X; injection X as <-. cbn [p_w p_r q_w q_r p_t p_s p_seal seal].
    destruct H as (ins & B & -> & ->). split; [exact N1|]. split; [exact N2|]. split; [apply names_snoc; auto|]. split; [exact N4|].
    exists ins. split; [exact B|]. rewrite !app_nil_r, <- !app_assoc. auto 12.
  - destruct (full qr) eqn:F; [discriminate|]. intros X; injection X as <-. cbn [p_w p_r q_w q_r p_t p_s p_seal seal].
    destruct H as (ins & B & ->). split; [exact N1|]. split; [exact N2|]. split; [exact N3|]. split; [apply names_snoc; auto|].
    exists ins. split; [exact B|]. rewrite ?app_nil_r, <- !app_assoc. cbn [app]. rewrite <- ?app_assoc. reflexivity.
Qed.
Lemma toks_taken l : forall pre p p', taken pre p -> toks p l = Some p' -> taken (pre ++ l) p'.
Proof.
  induction l as [|w l IH]; intros pre p p' H E; cbn in E; [injection E as <-; rewrite app_nil_r; exact H|].
  destruct (tok p w) as [p1|] eqn:E1; [|discriminate]. replace (pre ++ w :: l) with ((pre ++ [w]) ++ l) by (rewrite <- app_assoc; reflexivity).
  eapply IH; [eapply tok_taken; eauto|exact E].
Qed.
Lemma taken0 t : taken [] (pst0 t).
Proof. unfold taken, pst0. cbn. pose proof names_nil. auto 10. Qed.

Lemma is_name_toks w : is_name w -> str_eqb w dot = false /\ str_eqb w bang = false /\ str_eqb w to_caller = false /\ str_eqb w to_vector = false.
Proof. intros (A & B & C & D). rewrite !str_eqb_false. auto. Qed.
Lemma toks_names l : forall p, p_seal p = false -> Forall is_name l ->
  (List.length (match p_s p with PWstIn => p_w p | PRstIn => p_r p | PWstOut => q_w p | PRstOut => q_r p end) + List.length l <= 8)%nat ->
  toks p l = Some (match p_s p with
    | PWstIn => mkPst (p_w p ++ l) (p_r p) (q_w p) (q_r p) (p_t p) (p_s p) false
    | PRstIn => mkPst (p_w p) (p_r p ++ l) (q_w p) (q_r p) (p_t p) (p_s p) false
    | PWstOut => mkPst (p_w p) (p_r p) (q_w p ++ l) (q_r p) (p_t p) (p_s p) false
    | PRstOut => mkPst (p_w p) (p_r p) (q_w p) (q_r p ++ l) (p_t p) (p_s p) false
    end).
Proof.
  induction l as [|w l IH]; intros [pw pr qw qr pt ps sl] S F L; cbn [p_w p_r q_w q_r p_t p_s p_seal] in *; subst sl.
  - destruct ps; rewrite app_nil_r; reflexivity.
  - inversion F as [|? ? Fw Fl]; subst. destruct (is_name_toks _ Fw) as (E1 & E2 & E3 & E4).
    cbn [toks]. unfold tok. cbn [p_w p_r q_w q_r p_t p_s p_seal]. rewrite E1, E2, E3, E4. unfold tok_name, full. cbn [p_w p_r q_w q_r p_t p_s p_seal].
    cbn [List.length] in L. destruct ps;
      (match goal with |- context [Nat.ltb ?a 8] => replace (Nat.ltb a 8) with true by (symmetry; apply Nat.ltb_lt; lia) end; cbn [negb];
       rewrite IH; cbn [p_w p_r q_w q_r p_t p_s p_seal]; [rewrite <- app_assoc; reflexivity|reflexivity|exact Fl|rewrite app_length; cbn; lia]).
Qed.
Lemma toks_both text w r t : both text w r ->
  exists s, (s = PWstIn \/ s = PRstIn) /\ toks (pst0 t) text = Some (mkPst w r [] [] t s false).
Proof.
  intros ([L1 N1] & [L2 N2] & [(-> & ->)| ->]).
  - exists PWstIn. split; [auto|]. rewrite (toks_names w (pst0 t)) by (auto; cbn; lia). reflexivity.
  - exists PRstIn. split; [auto|]. rewrite toks_app, (toks_names w (pst0 t)) by (auto; cbn; lia). cbn [pst0 p_s p_w p_r q_w q_r p_t app toks].
    unfold tok at 1. cbn [p_seal p_s p_w p_r q_w q_r p_t]. replace (str_eqb dot dot) with true by reflexivity.
    rewrite (toks_names r) by (auto; cbn; lia). reflexivity.
Qed.
Lemma toks_signature text w r w' r' v tr t : is_signature text w r w' r' v tr ->
  exists p, toks (pst0 t) text = Some p /\ p_w p = w /\ p_r p = r /\ q_w p = w' /\ q_r p = r' /\ p_t p = (if v then Vector else Subroutine) /\ p_seal p = tr.
Proof.
  intros (ins & outs & B1 & B2 & -> & _). rewrite toks_app. destruct (toks_both ins w r t B1) as (s0 & Hs & ->).
  set (p1 := mkPst w r [] [] (if v then Vector else Subroutine) PWstOut false).
  assert (E1 : toks (mkPst w r [] [] t s0 false) ([if v then to_vector else to_caller] ++ outs ++ (if tr then [bang] else [])) = toks p1 (outs ++ (if tr then [bang] else []))).
  { cbn [app toks]. unfold tok at 1. cbn [p_seal p_s p_w p_r q_w q_r p_t]. destruct v, Hs as [-> | ->]; reflexivity. }
  rewrite E1, toks_app. destruct B2 as ([L1 N1] & [L2 N2] & Hb).
  assert (E2 : exists s, toks p1 outs = Some (mkPst w r w' r' (if v then Vector else Subroutine) s false)).
  { destruct Hb as [(-> & ->)| ->].
    - exists PWstOut. rewrite (toks_names w' p1) by (auto; cbn; lia). reflexivity.
    - exists PRstOut. rewrite toks_app, (toks_names w' p1) by (auto; cbn; lia). cbn [p1 p_s p_w p_r q_w q_r p_t app toks].
      unfold tok at 1. cbn [p_seal p_s p_w p_r q_w q_r p_t]. replace (str_eqb dot dot) with true by reflexivity.
      rewrite (toks_names r') by (auto; cbn; lia). reflexivity. }
  destruct E2 as (s & ->). destruct tr; cbn [toks].
  - unfold tok. cbn [p_seal]. replace (str_eqb bang dot) with false by reflexivity. replace (str_eqb bang bang) with true by reflexivity.
    eexists. split; [reflexivity|]. cbn. auto 10.
  - eexists. split; [reflexivity|]. cbn. auto 10.
Qed.

(** ** The two stages of the reader *)
Definition keeps (z z' : reader) : Prop :=
  z_cur z' = z_cur z /\ h_infos (z_h z') = h_infos (z_h z) /\ h_list (z_h z') = h_list (z_h z) /\ h_casts (z_h z') = h_casts (z_h z) /\ z_bad z' = z_bad z.
Lemma keeps_refl z : keeps z z.
Proof. repeat split. Qed.
Lemma keeps_trans a b c : keeps a b -> keeps b c -> keeps a c.
Proof. intros (A1 & A2 & A3 & A4 & A5) (B1 & B2 & B3 & B4 & B5). repeat split; congruence. Qed.
Definition run (f : reader -> str -> reader) (z : reader) (l : list str) : reader :=
  fold_left (fun z w => match z_hand z with HNone => z | _ => f z w end) l z.
Lemma run_app f l l' z : run f z (l ++ l') = run f (run f z l) l'.
Proof. apply fold_left_app. Qed.
Lemma run_none f l : forall z, z_hand z = HNone -> run f z l = z.
Proof. induction l as [|w l IH]; intros z H; cbn; [reflexivity|]. rewrite H. apply IH, H. Qed.
Lemma replay_run f l : forall z, replay f l z = run f z l.
Proof.
  induction l as [|w l IH]; intros z; cbn; [reflexivity|]. destruct (z_hand z) eqn:E; [|apply IH..].
  symmetry. apply run_none, E.
Qed.
Lemma buffered_size l : buffered l = text_size l.
Proof.
  unfold buffered. assert (G : forall n, fold_left (fun n t => n + Z.of_nat (List.length t) + 1) l n = n + text_size l).
  { induction l as [|w l IH]; intros n; cbn [fold_left text_size]; [lia|]. rewrite IH. lia. }
  rewrite G. lia.
Qed.
Lemma text_size_app a b : text_size (a ++ b) = text_size a + text_size b.
Proof. induction a as [|w a IH]; cbn [app text_size]; lia. Qed.
Lemma text_size_pos a : 0 <= text_size a.
Proof. induction a as [|w a IH]; cbn [text_size]; lia. Qed.

Section Stage.
Variables first second : handler.
Variable trig : str -> bool.
Variable prep : reader -> reader.
Variable f : reader -> str -> reader.
Hypothesis H1 : forall z w, z_hand z = first -> anno_token z w = parse_first (if trig w then prep z else z) w (trig w) second f.
Hypothesis H2 : forall z w, z_hand z = second -> anno_token z w = f z w.
Hypothesis H3 : forall z w, z_hand z = second -> z_hand (f z w) = second \/ z_hand (f z w) = HNone.
Hypothesis H5 : second <> HNone.
Hypothesis H6 : forall z, z_tokens (prep z) = z_tokens z.

Definition annos (z : reader) (l : list str) : reader := fold_left anno_token l z.
Lemma annos_none l : forall z, z_hand z = HNone -> annos z l = z.
Proof. induction l as [|w l IH]; intros z H; cbn; [reflexivity|]. unfold anno_token at 2. rewrite H. apply IH, H. Qed.
Lemma annos_second l : forall z, z_hand z = second \/ z_hand z = HNone -> annos z l = run f z l /\ (z_hand (run f z l) = second \/ z_hand (run f z l) = HNone).
Proof using H2 H3 H5.
  clear H1 H6.
  induction l as [|w l IH]; intros z [H|H]; try (split; [reflexivity|cbn; auto]; fail).
  - cbn [annos fold_left run]. rewrite (H2 _ _ H), H. destruct (IH (f z w) (H3 _ _ H)) as [I1 I2]. unfold annos, run in *.
    destruct second; [contradiction|..]; (split; [exact I1|exact I2]).
  - rewrite annos_none, run_none by exact H. auto.
Qed.
(** The reader when the second stage begins. *)
Definition begun (z : reader) (l : list str) : reader := z_with_hand (z_with_state (prep (z_with_tokens z l)) PWstIn false) second.
Lemma annos_first l : forall z, z_hand z = first -> existsb trig l = false -> z_tokens z = z_tokens z ->
  (List.length (z_tokens z ++ l) <= 33)%nat -> text_size (z_tokens z ++ l) <= 528 ->
  annos z l = z_with_tokens z (z_tokens z ++ l).
Proof using H1.
  clear H2 H3 H5 H6.
  induction l as [|w l IH]; intros z H T _ L S.
  - cbn. rewrite app_nil_r. destruct z; reflexivity.
  - cbn [existsb] in T. apply Bool.orb_false_iff in T as [T1 T2]. cbn [annos fold_left]. rewrite (H1 _ _ H), T1. unfold parse_first.
    rewrite app_length in L. cbn [List.length] in L. replace (Nat.ltb (List.length (z_tokens z)) MAX_SIG_TOKENS) with true by (symmetry; apply Nat.ltb_lt; unfold MAX_SIG_TOKENS; lia).
    rewrite buffered_size. replace (z_tokens z ++ w :: l) with ((z_tokens z ++ [w]) ++ l) in S by (rewrite <- app_assoc; reflexivity).
    assert (Hs : text_size (z_tokens z ++ [w]) <= 528) by (rewrite text_size_app in S; pose proof (text_size_pos l); lia).
    unfold TMP_BUF. replace (528 <? text_size (z_tokens z ++ [w])) with false by lia.
    fold (annos (z_with_tokens z (z_tokens z ++ [w])) l). rewrite IH.
    + cbn [z_tokens z_with_tokens]. rewrite <- app_assoc. reflexivity.
    + exact H.
    + exact T2.
    + reflexivity.
    + cbn [z_tokens z_with_tokens]. rewrite !app_length. cbn. lia.
    + cbn [z_tokens z_with_tokens]. exact S.
Qed.
Lemma annos_over l : forall z, z_hand z = first -> existsb trig l = false ->
  ~ ((List.length (z_tokens z ++ l) <= 33)%nat /\ text_size (z_tokens z ++ l) <= 528) -> (List.length (z_tokens z) <= 33)%nat -> text_size (z_tokens z) <= 528 ->
  z_hand (annos z l) = HNone /\ keeps z (annos z l).
Proof using H1.
  clear H2 H3 H5 H6.
  induction l as [|w l IH]; intros z H T N L S.
  - rewrite app_nil_r in N. tauto.
  - cbn [existsb] in T. apply Bool.orb_false_iff in T as [T1 T2]. cbn [annos fold_left]. rewrite (H1 _ _ H), T1. unfold parse_first.
    destruct (Nat.ltb (List.length (z_tokens z)) MAX_SIG_TOKENS) eqn:L1.
    + apply Nat.ltb_lt in L1. unfold MAX_SIG_TOKENS in L1. rewrite buffered_size. unfold TMP_BUF. destruct (528 <? text_size (z_tokens z ++ [w])) eqn:S1.
      * fold (annos (z_with_hand z HNone) l). rewrite annos_none by reflexivity. split; [reflexivity|repeat split].
      * fold (annos (z_with_tokens z (z_tokens z ++ [w])) l). destruct (IH (z_with_tokens z (z_tokens z ++ [w]))) as [I1 I2].
        -- exact H.
        -- exact T2.
        -- cbn [z_tokens z_with_tokens]. rewrite <- app_assoc. exact N.
        -- cbn [z_tokens z_with_tokens]. rewrite app_length. cbn. lia.
        -- cbn [z_tokens z_with_tokens]. lia.
        -- split; [exact I1|]. eapply keeps_trans; [|exact I2]. repeat split.
    + fold (annos (z_with_hand z HNone) l). rewrite annos_none by reflexivity. split; [reflexivity|repeat split].
Qed.
Lemma annos_split z pre w post : z_hand z = first -> z_tokens z = [] -> existsb trig pre = false -> trig w = true ->
  (List.length pre <= 33)%nat -> text_size pre <= 528 ->
  annos z (pre ++ w :: post) = run f (begun z pre) (pre ++ w :: post).
Proof using H1 H2 H3 H5 H6.
  intros H T E Ew L S. unfold annos. rewrite fold_left_app. fold (annos z pre). rewrite annos_first by (rewrite ?T; auto). rewrite T. cbn [app fold_left].
  rewrite H1 by exact H. rewrite Ew. unfold parse_first.
  change (z_tokens (z_with_hand (z_with_state (prep (z_with_tokens z pre)) PWstIn false) second)) with (z_tokens (prep (z_with_tokens z pre))). rewrite H6. cbn [z_tokens z_with_tokens].
  fold (begun z pre). rewrite replay_run.
  set (z1 := run f (begun z pre) pre).
  assert (Hz : z_hand z1 = second \/ z_hand z1 = HNone) by (apply (annos_second pre (begun z pre)); left; reflexivity).
  assert (E1 : match z_hand z1 with HNone => z1 | _ => f z1 w end = run f z1 [w]) by (destruct (z_hand z1) eqn:E1; cbn; rewrite E1; reflexivity).
  rewrite E1. fold (annos (run f z1 [w]) post). rewrite (proj1 (annos_second post (run f z1 [w]) ltac:(apply (annos_second [w] z1 Hz)))).
  unfold z1. rewrite <- !run_app. reflexivity.
Qed.
End Stage.

(** ** The second stage follows the words *)
Definition rep (z : reader) (p : pst) : Prop :=
  z_sig z = mkSig (map parse_value (p_w p)) (map parse_value (p_r p)) (map parse_value (q_w p)) (map parse_value (q_r p)) (p_t p) /\
  z_state z = p_s p /\ z_sealed z = p_seal p.
Definition same (z z' : reader) : Prop := z_h z' = z_h z /\ z_cur z' = z_cur z /\ z_bad z' = z_bad z /\ z_hand z' = z_hand z.
Lemma same_keeps z z' : same z z' -> keeps z z'.
Proof. intros (A & B & C & _). unfold keeps. rewrite A, B, C. repeat split. Qed.
Lemma same_trans a b c : same a b -> same b c -> same a c.
Proof. intros (A1 & A2 & A3 & A4) (B1 & B2 & B3 & B4). repeat split; congruence. Qed.
Lemma keeps_give m z : keeps z (give_up m z).
Proof. repeat split. Qed.
Lemma sig_arg_keeps z w : fits w -> keeps z (sig_arg z w) /\ (z_hand z = HNone -> z_hand (sig_arg z w) = HNone).
Proof.
  intros F. unfold sig_arg. cbv zeta. match goal with |- context [Nat.ltb ?a ?b] => destruct (Nat.ltb a b) end; [|split; [apply keeps_give|reflexivity]].
  unfold keeps. cbn [z_cur z_h z_bad z_hand z_with_sig z_with_bad]. rewrite (bad_fits _ F), Bool.orb_false_r. repeat split; auto.
Qed.
Lemma sig_token_lost z w : fits w -> z_hand (if z_sealed z then give_up WSealed z else z) = HNone -> keeps z (sig_token z w) /\ z_hand (sig_token z w) = HNone.
Proof.
  intros F H. unfold sig_token. set (z1 := if z_sealed z then give_up WSealed z else z) in *.
  assert (K : keeps z z1) by (unfold z1; destruct (z_sealed z); [apply keeps_give|apply keeps_refl]). cbv zeta.
  assert (G : forall z2, keeps z1 z2 -> keeps z z2) by (intros z2; apply keeps_trans, K).
  destruct (str_eqb w (bytes ".")); [destruct (z_state z1); (split; [apply G; repeat split|try exact H; reflexivity])|].
  destruct (is_bang w); [split; [apply G; repeat split|exact H]|].
  destruct (str_eqb w (bytes "--")); [destruct (z_state z1); (split; [apply G; repeat split|try exact H; reflexivity])|].
  destruct (str_eqb w (bytes "->")); [destruct (z_state z1); (split; [apply G; repeat split|try exact H; reflexivity])|].
  destruct (sig_arg_keeps z1 w F) as [A B]. split; [apply G, A|apply B, H].
Qed.
Lemma sig_token_step z p w : fits w -> rep z p ->
  match tok p w with
  | Some p' => rep (sig_token z w) p' /\ same z (sig_token z w)
  | None => z_hand (sig_token z w) = HNone /\ keeps z (sig_token z w)
  end.
Proof.
  intros F (R1 & R2 & R3). unfold tok. destruct (p_seal p) eqn:Sl.
  { destruct (sig_token_lost z w F) as [A B]; [rewrite R3; reflexivity|]. auto. }
  unfold sig_token. rewrite R3. cbv zeta. rewrite R3, R2. fold dot. unfold is_bang. fold bang to_caller to_vector.
  destruct (str_eqb w dot).
  { destruct (p_s p); cbn; try (split; [reflexivity|repeat split]); (split; [repeat split; assumption|repeat split]). }
  destruct (str_eqb w bang); [split; [repeat split; assumption|repeat split]|].
  destruct (str_eqb w to_caller).
  { destruct (p_s p); try (split; [reflexivity|repeat split]); (split; [|repeat split]); unfold rep; cbn; rewrite R1; cbn; auto. }
  destruct (str_eqb w to_vector).
  { destruct (p_s p); try (split; [reflexivity|repeat split]); (split; [|repeat split]); unfold rep; cbn; rewrite R1; cbn; auto. }
  unfold tok_name, sig_arg. cbv zeta. rewrite R2, R1. unfold full.
  destruct (p_s p) eqn:Sp; cbn [g_win g_rin g_wout g_rout g_type]; rewrite map_length; unfold MAX_ARGS;
    match goal with |- context [Nat.ltb ?a 8] => destruct (Nat.ltb a 8) end; cbn [negb];
    try (split; [reflexivity|repeat split]);
    (split; [unfold rep; cbn [z_sig z_state z_sealed z_with_sig z_with_bad p_w p_r q_w q_r p_t p_s p_seal]; rewrite map_app, ?Sl, ?R2; auto|
       unfold same; cbn; rewrite (bad_fits _ F), Bool.orb_false_r; auto]).
Qed.
Lemma run_sig l : forall z p, Forall fits l -> rep z p -> z_hand z = HSig2 ->
  match toks p l with
  | Some p' => rep (run sig_token z l) p' /\ same z (run sig_token z l)
  | None => z_hand (run sig_token z l) = HNone /\ keeps z (run sig_token z l)
  end.
Proof.
  induction l as [|w l IH]; intros z p F R H; cbn [toks run fold_left]; [split; [exact R|repeat split]|].
  inversion F as [|? ? F1 F2]; subst. rewrite H. pose proof (sig_token_step z p w F1 R) as S. destruct (tok p w) as [p'|].
  - destruct S as [S1 S2]. pose proof S2 as (_ & _ & _ & S3). specialize (IH (sig_token z w) p' F2 S1 ltac:(congruence)). destruct (toks p' l).
    + destruct IH as [I1 I2]. split; [exact I1|eapply same_trans; eauto].
    + destruct IH as [I1 I2]. split; [exact I1|eapply keeps_trans; [apply same_keeps, S2|exact I2]].
  - destruct S as [S1 S2]. fold (run sig_token (sig_token z w) l). rewrite run_none by exact S1. auto.
Qed.

(** ** Casts: the same words but for the arrow *)
Definition inside (p : pst) : Prop := (p_s p = PWstIn \/ p_s p = PRstIn) /\ q_w p = [] /\ q_r p = [].
Definition crep (z : reader) (p : pst) : Prop :=
  z_cast z = mkCast (map parse_value (p_w p)) (map parse_value (p_r p)) /\ z_state z = p_s p /\ z_sealed z = p_seal p.
Lemma cast_arg_keeps z w : fits w -> keeps z (cast_arg z w) /\ (z_hand z = HNone -> z_hand (cast_arg z w) = HNone).
Proof.
  intros F. unfold cast_arg. destruct (z_state z); cbv zeta;
    (match goal with |- context [Nat.ltb ?a ?b] => destruct (Nat.ltb a b) end; [|split; [repeat split|reflexivity]]);
    unfold keeps; cbn [z_cur z_h z_bad z_hand z_with_cast z_with_bad z_with_hand]; rewrite (bad_fits _ F), Bool.orb_false_r; repeat split; auto.
Qed.
Lemma cast_token_lost z w : fits w -> z_hand (if z_sealed z then give_up WSealed z else z) = HNone -> keeps z (cast_token z w) /\ z_hand (cast_token z w) = HNone.
Proof.
  intros F H. unfold cast_token. set (z1 := if z_sealed z then give_up WSealed z else z) in *.
  assert (K : keeps z z1) by (unfold z1; destruct (z_sealed z); [apply keeps_give|apply keeps_refl]). cbv zeta.
  assert (G : forall z2, keeps z1 z2 -> keeps z z2) by (intros z2; apply keeps_trans, K).
  destruct (str_eqb w (bytes ".")); [destruct (z_state z1); (split; [apply G; repeat split|try exact H; reflexivity])|].
  destruct (is_bang w); [split; [apply G; repeat split|exact H]|].
  destruct (is_arrow w); [split; [apply G; repeat split|reflexivity]|].
  destruct (cast_arg_keeps z1 w F) as [A B]. split; [apply G, A|apply B, H].
Qed.
Definition ctok (p : pst) (w : str) : option pst := if is_arrow w then None else tok p w.
Lemma ctok_inside p w p' : inside p -> ctok p w = Some p' -> inside p'.
Proof.
  destruct p as [pw pr qw qr pt ps sl]. unfold inside, ctok, tok. cbn [p_w p_r q_w q_r p_t p_s p_seal]. intros (I & -> & ->). destruct (is_arrow w) eqn:A; [discriminate|].
  unfold is_arrow in A. fold to_caller to_vector in A. apply Bool.orb_false_iff in A as [-> ->].
  destruct sl; [discriminate|]. unfold tok_name. cbn [p_w p_r q_w q_r p_t p_s p_seal].
  destruct I as [-> | ->]; (destruct (str_eqb w dot); [try discriminate; intros X; injection X as <-; cbn; auto|]);
    (destruct (str_eqb w bang); [intros X; injection X as <-; cbn; auto|]);
    (match goal with |- context [full ?l] => destruct (full l) end; [discriminate|intros X; injection X as <-; cbn; auto]).
Qed.
Lemma cast_token_step z p w : fits w -> crep z p -> inside p ->
  match ctok p w with
  | Some p' => crep (cast_token z w) p' /\ same z (cast_token z w)
  | None => z_hand (cast_token z w) = HNone /\ keeps z (cast_token z w)
  end.
Proof.
  intros F (R1 & R2 & R3) (I & _ & _). unfold ctok, tok. destruct (p_seal p) eqn:Sl.
  { destruct (cast_token_lost z w F) as [A B]; [rewrite R3; reflexivity|]. destruct (is_arrow w); auto. }
  unfold cast_token. rewrite R3. cbv zeta. rewrite R3, R2. fold dot. unfold is_bang. fold bang.
  destruct (is_arrow w) eqn:A.
  { assert (D : str_eqb w dot = false /\ str_eqb w bang = false).
    { unfold is_arrow in A. apply Bool.orb_true_iff in A as [A|A]; apply str_eqb_true in A as ->; split; reflexivity. }
    destruct D as [-> ->]. split; [reflexivity|repeat split]. }
  unfold is_arrow in A. fold to_caller to_vector in A. apply Bool.orb_false_iff in A as [-> ->].
  destruct (str_eqb w dot).
  { destruct I as [-> | ->]; cbn; try (split; [reflexivity|repeat split]); (split; [repeat split; assumption|repeat split]). }
  destruct (str_eqb w bang); [split; [repeat split; assumption|repeat split]|].
  unfold tok_name, cast_arg. rewrite R2, R1. unfold full.
  destruct I as [I | I]; rewrite I in *; cbn [c_wst c_rst]; rewrite map_length; unfold MAX_ARGS;
    match goal with |- context [Nat.ltb ?a 8] => destruct (Nat.ltb a 8) end; cbn [negb];
    try (split; [reflexivity|repeat split]);
    (split; [unfold crep; cbn [z_cast z_state z_sealed z_with_cast z_with_bad p_w p_r q_w q_r p_t p_s p_seal]; rewrite map_app, ?Sl, ?R2; auto|
       unfold same; cbn; rewrite (bad_fits _ F), Bool.orb_false_r; auto]).
Qed.
Fixpoint ctoks (p : pst) (l : list str) : option pst :=
  match l with [] => Some p | w :: l => match ctok p w with Some p => ctoks p l | None => None end end.
Lemma ctoks_toks l : forall p, ctoks p l = if existsb is_arrow l then None else toks p l.
Proof.
  induction l as [|w l IH]; intros p; [reflexivity|]. cbn [ctoks existsb toks]. unfold ctok. destruct (is_arrow w); [reflexivity|]. cbn [orb].
  destruct (tok p w); [apply IH|]. destruct (existsb is_arrow l); reflexivity.
Qed.
Lemma run_cast l : forall z p, Forall fits l -> crep z p -> inside p -> z_hand z = HCast2 ->
  match ctoks p l with
  | Some p' => crep (run cast_token z l) p' /\ inside p' /\ same z (run cast_token z l)
  | None => z_hand (run cast_token z l) = HNone /\ keeps z (run cast_token z l)
  end.
Proof.
  induction l as [|w l IH]; intros z p F R I H; cbn [ctoks run fold_left]; [split; [exact R|split; [exact I|repeat split]]|].
  inversion F as [|? ? F1 F2]; subst. rewrite H. pose proof (cast_token_step z p w F1 R I) as S. destruct (ctok p w) as [p'|] eqn:E.
  - destruct S as [S1 S2]. pose proof S2 as (_ & _ & _ & S3). specialize (IH (cast_token z w) p' F2 S1 (ctok_inside _ _ _ I E) ltac:(congruence)). destruct (ctoks p' l).
    + destruct IH as (I1 & I2 & I3). split; [exact I1|split; [exact I2|eapply same_trans; eauto]].
    + destruct IH as [I1 I2]. split; [exact I1|eapply keeps_trans; [apply same_keeps, S2|exact I2]].
  - destruct S as [S1 S2]. fold (run cast_token (cast_token z w) l). rewrite run_none by exact S1. auto.
Qed.

(** ** The whole comment *)
Lemma first_split (t : str -> bool) (l : list str) : existsb t l = false \/ exists pre w post, l = pre ++ w :: post /\ existsb t pre = false /\ t w = true.
Proof.
  induction l as [|w l IH]; [left; reflexivity|]. cbn [existsb]. destruct (t w) eqn:E; [right; exists [], w, l; auto|]. destruct IH as [IH|(pre & x & post & -> & A & B)]; [left; exact IH|].
  right. exists (w :: pre), x, post. cbn. rewrite E. auto.
Qed.
Lemma split_unique (t : str -> bool) a x b : forall c y d, a ++ x :: b = c ++ y :: d -> existsb t a = false -> existsb t c = false -> t x = true -> t y = true -> a = c.
Proof.
  induction a as [|w a IH]; intros [|v c] y d E A C X Y; cbn in *; [reflexivity|..].
  - injection E as -> _. rewrite X in C. discriminate.
  - injection E as <- _. rewrite Y in A. discriminate.
  - injection E as <- E. apply Bool.orb_false_iff in A as [_ A], C as [_ C]. f_equal. eapply IH; eauto.
Qed.
Lemma is_arrow_iff w : is_arrow w = true <-> w = to_caller \/ w = to_vector.
Proof. unfold is_arrow. fold to_caller to_vector. rewrite Bool.orb_true_iff, !str_eqb_true. reflexivity. Qed.
Lemma is_bang_iff w : is_bang w = true <-> w = bang.
Proof. unfold is_bang. fold bang. apply str_eqb_true. Qed.
Lemma name_plain w : is_name w -> is_arrow w = false /\ is_bang w = false.
Proof. intros (A & B & C & D). split; apply Bool.not_true_iff_false; rewrite ?is_arrow_iff, ?is_bang_iff; tauto. Qed.
Lemma names_plain l : names l -> existsb is_arrow l = false /\ existsb is_bang l = false.
Proof.
  intros [_ H]. induction H as [|w l Hw _ [I1 I2]]; [split; reflexivity|]. destruct (name_plain w Hw) as [E1 E2]. cbn. rewrite E1, E2. auto.
Qed.
Lemma both_plain text w r : both text w r -> existsb is_arrow text = false /\ existsb is_bang text = false /\ (List.length text <= 17)%nat.
Proof.
  intros (A & B & C). destruct (names_plain _ A) as [A1 A2], (names_plain _ B) as [B1 B2], A as [A3 _], B as [B3 _]. destruct C as [(-> & ->)| ->].
  - split; [exact A1|split; [exact A2|lia]].
  - rewrite !existsb_app, !app_length, A1, A2, B1, B2. cbn. split; [reflexivity|split; [reflexivity|lia]].
Qed.
Definition sig_of (w r w' r' : list str) (v : bool) : signature :=
  mkSig (map parse_value w) (map parse_value r) (map parse_value w') (map parse_value r') (if v then Vector else Subroutine).
Definition sprep (z : reader) : reader := z_with_sig z (mkSig [] [] [] [] Vector).
Definition cprep (z : reader) : reader := z_with_cast z (mkCast [] []).
Lemma sig_H1 z w : z_hand z = HSig1 -> anno_token z w = parse_first (if is_arrow w then sprep z else z) w (is_arrow w) HSig2 sig_token.
Proof. intros H. unfold anno_token. rewrite H. reflexivity. Qed.
Lemma cast_H1 z w : z_hand z = HCast1 -> anno_token z w = parse_first (if is_bang w then cprep z else z) w (is_bang w) HCast2 cast_token.
Proof. intros H. unfold anno_token. rewrite H. reflexivity. Qed.
Lemma sig_H2 z w : z_hand z = HSig2 -> anno_token z w = sig_token z w.
Proof. intros H. unfold anno_token. rewrite H. reflexivity. Qed.
Lemma cast_H2 z w : z_hand z = HCast2 -> anno_token z w = cast_token z w.
Proof. intros H. unfold anno_token. rewrite H. reflexivity. Qed.
Lemma sig_H3 z w : z_hand z = HSig2 -> z_hand (sig_token z w) = HSig2 \/ z_hand (sig_token z w) = HNone.
Proof.
  intros H. unfold sig_token. set (z1 := if z_sealed z then give_up WSealed z else z).
  assert (H1 : z_hand z1 = HSig2 \/ z_hand z1 = HNone) by (unfold z1; destruct (z_sealed z); auto). cbv zeta.
  destruct (str_eqb w (bytes ".")); [destruct (z_state z1); auto|]. destruct (is_bang w); [exact H1|].
  destruct (str_eqb w (bytes "--")); [destruct (z_state z1); auto|]. destruct (str_eqb w (bytes "->")); [destruct (z_state z1); auto|].
  unfold sig_arg. cbv zeta. match goal with |- context [Nat.ltb ?a ?b] => destruct (Nat.ltb a b) end; auto.
Qed.
Lemma cast_H3 z w : z_hand z = HCast2 -> z_hand (cast_token z w) = HCast2 \/ z_hand (cast_token z w) = HNone.
Proof.
  intros H. unfold cast_token. set (z1 := if z_sealed z then give_up WSealed z else z).
  assert (H1 : z_hand z1 = HCast2 \/ z_hand z1 = HNone) by (unfold z1; destruct (z_sealed z); auto). cbv zeta.
  destruct (str_eqb w (bytes ".")); [destruct (z_state z1); auto|]. destruct (is_bang w); [exact H1|].
  destruct (is_arrow w); [auto|]. unfold cast_arg. destruct (z_state z1); cbv zeta; match goal with |- context [Nat.ltb ?a ?b] => destruct (Nat.ltb a b) end; auto.
Qed.
(** The words of a comment after a label. *)
Lemma sig_words z text : z_hand z = HSig1 -> z_tokens z = [] -> Forall fits text ->
  (exists w r w' r' v tr, is_signature text w r w' r' v tr /\ z_hand (annos z text) = HSig2 /\ z_h (annos z text) = z_h z /\ z_cur (annos z text) = z_cur z /\
     z_bad (annos z text) = z_bad z /\ z_sig (annos z text) = sig_of w r w' r' v /\ z_sealed (annos z text) = tr) \/
  ((forall w r w' r' v tr, ~ is_signature text w r w' r' v tr) /\ z_hand (annos z text) <> HSig2 /\ z_hand (annos z text) <> HCast2 /\ keeps z (annos z text)).
Proof.
  intros H T F. destruct (first_split is_arrow text) as [N|(pre & x & post & E & Np & Nx)].
  - right. split.
    { intros w r w' r' v tr (ins & outs & _ & _ & E & _). rewrite E, existsb_app in N. apply Bool.orb_false_iff in N as [_ N]. destruct v; discriminate. }
    destruct (Nat.leb (List.length text) 33 && (text_size text <=? 528)) eqn:L.
    + apply andb_prop in L as [L1 L2]. apply Nat.leb_le in L1.
      rewrite (annos_first HSig1 HSig2 is_arrow sprep sig_token sig_H1 text z H N eq_refl) by (rewrite T; cbn [app]; lia).
      rewrite T. cbn [z_hand z_with_tokens]. rewrite H. split; [discriminate|split; [discriminate|repeat split]].
    + destruct (annos_over HSig1 HSig2 is_arrow sprep sig_token sig_H1) with (l := text) (z := z) as [A B].
      * exact H.
      * exact N.
      * rewrite T. cbn [app]. intros [X1 X2]. apply Nat.leb_le in X1. lia.
      * rewrite T. cbn. lia.
      * rewrite T. cbn. lia.
      * rewrite A. split; [discriminate|split; [discriminate|exact B]].
  - assert (Hx : x = to_caller \/ x = to_vector) by (apply is_arrow_iff, Nx).
    destruct (Nat.leb (List.length pre) 33 && (text_size pre <=? 528)) eqn:L.
    + apply andb_prop in L as [L1 L2]. apply Nat.leb_le in L1.
      assert (A : annos z text = run sig_token (begun HSig2 sprep z pre) text).
      { rewrite E. apply (annos_split HSig1 HSig2 is_arrow sprep sig_token sig_H1 sig_H2 sig_H3).
        - discriminate.
        - reflexivity.
        - exact H.
        - exact T.
        - exact Np.
        - exact Nx.
        - exact L1.
        - lia. }
      set (b := begun HSig2 sprep z pre) in *. rewrite A.
      pose proof (run_sig text b (pst0 Vector) F ltac:(repeat split) eq_refl) as R.
      destruct (toks (pst0 Vector) text) as [p|] eqn:Et.
      * left. destruct R as [(R1 & R2 & R3) (R4 & R5 & R6 & R7)].
        pose proof (toks_taken text [] _ _ (taken0 Vector) Et) as (N1 & N2 & N3 & N4 & Tk). change ([] ++ text) with text in Tk.
        assert (Ha : forall s, existsb is_arrow (seal s) = false) by (intros []; reflexivity).
        assert (Hin : existsb is_arrow text = true) by (rewrite E, existsb_app; cbn; rewrite Nx, Bool.orb_true_r; reflexivity).
        assert (G : exists ins outs, both ins (p_w p) (p_r p) /\ both outs (q_w p) (q_r p) /\ text = ins ++ [arrow_of (p_t p)] ++ outs ++ seal (p_seal p)).
        { destruct (p_s p).
          - destruct Tk as (Tk & _). rewrite Tk, existsb_app, Ha, (proj1 (names_plain _ N1)) in Hin. discriminate.
          - destruct Tk as (Tk & _). rewrite Tk, !existsb_app, Ha, (proj1 (names_plain _ N1)), (proj1 (names_plain _ N2)) in Hin. discriminate.
          - destruct Tk as (ins & B & Tk & Q). exists ins, (q_w p). split; [exact B|]. split; [|exact Tk]. split; [exact N3|]. split; [exact N4|]. auto.
          - destruct Tk as (ins & B & Tk). exists ins, (q_w p ++ [dot] ++ q_r p). split; [exact B|]. split; [|rewrite Tk, <- !app_assoc; reflexivity]. split; [exact N3|]. split; [exact N4|]. auto. }
        destruct G as (ins & outs & B1 & B2 & G).
        exists (p_w p), (p_r p), (q_w p), (q_r p), (match p_t p with Vector => true | _ => false end), (p_seal p).
        assert (Ep : ins = pre).
        { eapply (split_unique is_arrow ins _ _ pre); [rewrite <- E, G; reflexivity|apply (both_plain _ _ _ B1)|exact Np| |exact Nx]. destruct (p_t p); reflexivity. }
        split.
        { exists ins, outs. split; [exact B1|]. split; [exact B2|]. split; [|rewrite Ep; lia]. rewrite G. destruct (p_t p), (p_seal p); reflexivity. }
        split; [rewrite R7; reflexivity|]. split; [exact R4|]. split; [exact R5|]. split; [exact R6|]. split; [|exact R3].
        rewrite R1. unfold sig_of. destruct (p_t p); reflexivity.
      * right. destruct R as [R1 R2]. split.
        { intros w r w' r' v tr S. destruct (toks_signature _ _ _ _ _ _ _ Vector S) as (p & X & _). congruence. }
        rewrite R1. split; [discriminate|]. split; [discriminate|]. eapply keeps_trans; [|exact R2]. repeat split.
    + right. split.
      { intros w r w' r' v tr (ins & outs & B1 & B2 & G & S).
        assert (Ep : ins = pre).
        { eapply (split_unique is_arrow ins _ _ pre); [rewrite <- E, G; reflexivity|apply (both_plain _ _ _ B1)|exact Np| |exact Nx]. destruct v; reflexivity. }
        destruct (both_plain _ _ _ B1) as (_ & _ & Lp). rewrite Ep in *. assert (X : Nat.leb (List.length pre) 33 = true) by (apply Nat.leb_le; lia). rewrite X in L. lia. }
      rewrite E. unfold annos. rewrite fold_left_app. fold (annos z pre).
      destruct (annos_over HSig1 HSig2 is_arrow sprep sig_token sig_H1) with (l := pre) (z := z) as [A B].
      * exact H.
      * exact Np.
      * rewrite T. cbn [app]. intros [X1 X2]. apply Nat.leb_le in X1. lia.
      * rewrite T. cbn. lia.
      * rewrite T. cbn. lia.
      * fold (annos (annos z pre) (x :: post)). rewrite (annos_none (x :: post)) by exact A. rewrite A. split; [discriminate|split; [discriminate|exact B]].
Qed.
(** The words of a comment after an opcode. *)
Lemma cast_words z text : z_hand z = HCast1 -> z_tokens z = [] -> Forall fits text ->
  (exists w r, is_cast text w r /\ z_hand (annos z text) = HCast2 /\ z_h (annos z text) = z_h z /\ z_cur (annos z text) = z_cur z /\
     z_bad (annos z text) = z_bad z /\ z_cast (annos z text) = mkCast (map parse_value w) (map parse_value r)) \/
  ((forall w r, ~ is_cast text w r) /\ z_hand (annos z text) <> HSig2 /\ z_hand (annos z text) <> HCast2 /\ keeps z (annos z text)).
Proof.
  intros H T F. destruct (first_split is_bang text) as [N|(pre & x & post & E & Np & Nx)].
  - right. split.
    { intros w r (ins & _ & E & _). rewrite E, existsb_app in N. apply Bool.orb_false_iff in N as [_ N]. discriminate. }
    destruct (Nat.leb (List.length text) 33 && (text_size text <=? 528)) eqn:L.
    + apply andb_prop in L as [L1 L2]. apply Nat.leb_le in L1.
      rewrite (annos_first HCast1 HCast2 is_bang cprep cast_token cast_H1 text z H N eq_refl) by (rewrite T; cbn [app]; lia).
      rewrite T. cbn [z_hand z_with_tokens]. rewrite H. split; [discriminate|split; [discriminate|repeat split]].
    + destruct (annos_over HCast1 HCast2 is_bang cprep cast_token cast_H1) with (l := text) (z := z) as [A B].
      * exact H.
      * exact N.
      * rewrite T. cbn [app]. intros [X1 X2]. apply Nat.leb_le in X1. lia.
      * rewrite T. cbn. lia.
      * rewrite T. cbn. lia.
      * rewrite A. split; [discriminate|split; [discriminate|exact B]].
  - assert (Hx : x = bang) by (apply is_bang_iff, Nx). subst x.
    destruct (Nat.leb (List.length pre) 33 && (text_size pre <=? 528)) eqn:L.
    + apply andb_prop in L as [L1 L2]. apply Nat.leb_le in L1.
      assert (A : annos z text = run cast_token (begun HCast2 cprep z pre) text).
      { rewrite E. apply (annos_split HCast1 HCast2 is_bang cprep cast_token cast_H1 cast_H2 cast_H3).
        - discriminate.
        - reflexivity.
        - exact H.
        - exact T.
        - exact Np.
        - exact Nx.
        - exact L1.
        - lia. }
      set (b := begun HCast2 cprep z pre) in *. rewrite A.
      pose proof (run_cast text b (pst0 Vector) F ltac:(repeat split) ltac:(unfold inside; cbn; auto) eq_refl) as R.
      assert (Hb : existsb is_bang text = true) by (rewrite E, existsb_app; cbn; rewrite Bool.orb_true_r; reflexivity).
      destruct (ctoks (pst0 Vector) text) as [p|] eqn:Et.
      * left. destruct R as [(R1 & R2 & R3) (I & R4 & R5 & R6 & R7)].
        rewrite ctoks_toks in Et. destruct (existsb is_arrow text) eqn:Ea; [discriminate|].
        pose proof (toks_taken text [] _ _ (taken0 Vector) Et) as (N1 & N2 & N3 & N4 & Tk). change ([] ++ text) with text in Tk.
        assert (G : exists ins, both ins (p_w p) (p_r p) /\ text = ins ++ [bang]).
        { destruct I as [[I|I] _]; rewrite I in Tk.
          - destruct Tk as (Tk & Q & _). exists (p_w p). split; [split; [exact N1|split; [exact N2|auto]]|]. destruct (p_seal p); [exact Tk|].
            rewrite Tk, existsb_app, (proj2 (names_plain _ N1)) in Hb. discriminate.
          - destruct Tk as (Tk & _). exists (p_w p ++ [dot] ++ p_r p). split; [split; [exact N1|split; [exact N2|auto]]|]. destruct (p_seal p); [rewrite Tk, <- !app_assoc; reflexivity|].
            rewrite Tk, !existsb_app, (proj2 (names_plain _ N1)), (proj2 (names_plain _ N2)) in Hb. discriminate. }
        destruct G as (ins & B1 & G). exists (p_w p), (p_r p).
        assert (Ep : ins = pre).
        { eapply (split_unique is_bang ins _ _ pre); [rewrite <- E, G; reflexivity|apply (both_plain _ _ _ B1)|exact Np|reflexivity|exact Nx]. }
        split; [exists ins; split; [exact B1|split; [exact G|rewrite Ep; lia]]|].
        split; [rewrite R7; reflexivity|]. split; [exact R4|]. split; [exact R5|]. split; [exact R6|exact R1].
      * right. destruct R as [R1 R2]. split.
        { intros w r (ins & B & G & S). rewrite ctoks_toks in Et.
          destruct (both_plain _ _ _ B) as (Ba & _). rewrite G, existsb_app, Ba in Et. cbn [existsb orb] in Et. replace (is_arrow bang) with false in Et by reflexivity. cbn [orb] in Et.
          rewrite toks_app in Et. destruct (toks_both ins w r Vector B) as (s & _ & X). rewrite X in Et. discriminate Et. }
        rewrite R1. split; [discriminate|]. split; [discriminate|]. eapply keeps_trans; [|exact R2]. repeat split.
    + right. split.
      { intros w r (ins & B1 & G & S).
        assert (Ep : ins = pre).
        { eapply (split_unique is_bang ins _ _ pre); [rewrite <- E, G; reflexivity|apply (both_plain _ _ _ B1)|exact Np|reflexivity|exact Nx]. }
        destruct (both_plain _ _ _ B1) as (_ & _ & Lp). rewrite Ep in *. assert (X : Nat.leb (List.length pre) 33 = true) by (apply Nat.leb_le; lia). rewrite X in L. lia. }
      rewrite E. unfold annos. rewrite fold_left_app. fold (annos z pre).
      destruct (annos_over HCast1 HCast2 is_bang cprep cast_token cast_H1) with (l := pre) (z := z) as [A B].
      * exact H.
      * exact Np.
      * rewrite T. cbn [app]. intros [X1 X2]. apply Nat.leb_le in X1. lia.
      * rewrite T. cbn. lia.
      * rewrite T. cbn. lia.
      * fold (annos (annos z pre) (bang :: post)). rewrite (annos_none (bang :: post)) by exact A. rewrite A. split; [discriminate|split; [discriminate|exact B]].
Qed.

(** ** The events *)
Lemma fits_words text : Forall (fun w => w <> bytes ")" /\ (1 <= List.length w <= 255)%nat) text -> Forall fits text.
Proof. intros H. eapply Forall_impl; [|exact H]. intros w [_ F]. exact F. Qed.
Lemma Forall_pre {A} (P : A -> Prop) l l' : Forall P (l ++ l') -> Forall P l.
Proof. intros H. apply Forall_app in H. tauto. Qed.
Lemma word_event id w e : comment_word id w e -> exists a s, e = ESym a s /\ s_type s = SComment /\ s_id s = id /\ s_name s = Some w.
Proof. unfold comment_word. destruct e; try contradiction. intros H. eexists _, _. split; [reflexivity|exact H]. Qed.
Lemma read_words ws : forall text z rest, Forall2 (comment_word 1) text ws ->
  Forall (fun w => w <> bytes ")" /\ (1 <= List.length w <= 255)%nat) text ->
  (forall l l', text = l ++ l' -> z_bad (annos z l) = false) ->
  read_symbols z (ws ++ rest) = read_symbols (annos z text) rest.
Proof.
  induction ws as [|e ws IH]; intros text z rest F W B; inversion F as [|w ? l ? F1 F2]; subst; [reflexivity|].
  inversion W as [|? ? [W1 W2] W3]; subst. destruct (word_event _ _ _ F1) as (a & s & -> & T & I & N). cbn [app read_symbols]. unfold read_symbol. rewrite T, N.
  destruct w as [|c w]; [cbn in W2; lia|]. rewrite I. unfold read_comment.
  apply str_eqb_false in W1. rewrite W1. change (1 =? 0) with false. change (1 =? 1) with true. cbn [andb].
  assert (B1 : z_bad (anno_token z (c :: w)) = false) by (apply (B [c :: w] l eq_refl)). rewrite B1.
  rewrite (IH l) ; [reflexivity|exact F2|exact W3|]. intros m m' ->. apply (B ((c :: w) :: m) m' eq_refl).
Qed.
Lemma anno_bad z : z_bad (anno_end z) = z_bad z.
Proof.
  unfold anno_end, sig_end, cast_end. destruct (z_hand z); try reflexivity; destruct (z_cur z) as [[t a]|]; try reflexivity; cbv zeta.
  - match goal with |- context [i_rout ?i] => destruct (i_rout i) end; reflexivity.
  - destruct (h_casts (z_h z) a); reflexivity.
Qed.
Definition opened (z : reader) (d : handler) : reader := z_with_hand (z_with_tokens z []) d.
Lemma read_whole z text evs t a d : is_comment text evs -> z_bad z = false -> z_cur z = Some (t, a) ->
  (t = SLabel /\ d = HSig1 \/ t = SOpcode /\ d = HCast1) ->
  (forall l l', text = l ++ l' -> z_bad (annos (opened z d) l) = false) ->
  read_symbols z evs = Some (z_with_hand (anno_end (annos (opened z d) text)) HNone).
Proof.
  intros (o & ws & c & -> & O & F & C & W) B Cu D P.
  destruct (word_event _ _ _ O) as (ao & so & -> & O1 & O2 & O3). destruct (word_event _ _ _ C) as (ac & sc & -> & C1 & C2 & C3).
  change (bytes "(") with [40] in O3. change (bytes ")") with [41] in C3.
  assert (E : read_comment z 0 [40] = opened z d).
  { unfold read_comment. cbn [Z.eqb]. rewrite Cu. destruct D as [[-> ->]|[-> ->]]; reflexivity. }
  cbn [read_symbols]. unfold read_symbol. rewrite O1, O3, O2, E.
  replace (z_bad (opened z d)) with false by (symmetry; exact B).
  rewrite (read_words ws text) by assumption. cbn [read_symbols]. unfold read_symbol. rewrite C1, C3, C2.
  change (read_comment (annos (opened z d) text) 1 [41]) with (z_with_hand (anno_end (annos (opened z d) text)) HNone).
  cbn [z_bad z_with_hand]. rewrite anno_bad, (P text []) by (symmetry; apply app_nil_r). reflexivity.
Qed.
Lemma reads_all l : Forall fits l -> Forall2 reads_as l (map parse_value l).
Proof. intros H. induction H; constructor; [apply parse_reads; assumption|assumption]. Qed.
Lemma sig_unique text w r w' r' v tr x s x' s' u tt : is_signature text w r w' r' v tr -> is_signature text x s x' s' u tt ->
  w = x /\ r = s /\ w' = x' /\ r' = s' /\ v = u /\ tr = tt.
Proof.
  intros A B. destruct (toks_signature _ _ _ _ _ _ _ Vector A) as (p & E & <- & <- & <- & <- & V1 & <-).
  destruct (toks_signature _ _ _ _ _ _ _ Vector B) as (q & E' & <- & <- & <- & <- & V2 & <-). rewrite E in E'. injection E' as <-.
  rewrite V1 in V2. destruct v, u; try discriminate; auto 10.
Qed.
Lemma sig_parts text w r w' r' v tr : Forall fits text -> is_signature text w r w' r' v tr -> Forall fits w /\ Forall fits r /\ Forall fits w' /\ Forall fits r'.
Proof.
  intros F (ins & outs & B1 & B2 & -> & _). apply Forall_app in F as [F1 F2]. apply Forall_app in F2 as [_ F2]. apply Forall_app in F2 as [F2 _].
  assert (G : forall t x y, both t x y -> Forall fits t -> Forall fits x /\ Forall fits y).
  { intros t x y (_ & _ & [(-> & ->)| ->]) H; [split; [exact H|constructor]|]. apply Forall_app in H as [H1 H2]. apply Forall_app in H2 as [_ H2]. auto. }
  destruct (G _ _ _ B1 F1), (G _ _ _ B2 F2). auto.
Qed.
Lemma cast_parts text w r : Forall fits text -> is_cast text w r -> Forall fits w /\ Forall fits r.
Proof.
  intros F (ins & B1 & -> & _). apply Forall_app in F as [H _]. destruct B1 as (_ & _ & [(-> & ->)| ->]); [split; [exact H|constructor]|].
  apply Forall_app in H as [H1 H2]. apply Forall_app in H2 as [_ H2]. auto.
Qed.
Lemma cast_unique text w r x s : is_cast text w r -> is_cast text x s -> w = x /\ r = s.
Proof.
  intros (i & B & -> & _) (j & B' & E & _). apply app_inj_tail in E as [<- _].
  destruct (toks_both _ _ _ Vector B) as (p & _ & E1), (toks_both _ _ _ Vector B') as (q & _ & E2). rewrite E1 in E2. injection E2 as -> -> _. auto.
Qed.
Lemma vals_fold l : forall k, 0 <= k_len k -> k_len k + Z.of_nat (List.length l) <= 255 -> vals (fold_left raw_push l k) = rev l ++ vals k.
Proof.
  induction l as [|v l IH]; intros k H L; [reflexivity|]. cbn [fold_left rev List.length] in *.
  rewrite IH.
  - rewrite <- app_assoc. f_equal. unfold raw_push, u8. rewrite Z.mod_small by lia. cbn [app]. rewrite (vals_put _ _ _ (k_size k)) by exact H. destruct k; reflexivity.
  - cbn. unfold u8. apply Z.mod_pos_bound. lia.
  - cbn. unfold u8. rewrite Z.mod_small by lia. lia.
Qed.
Lemma entry_starts a s : (List.length (g_win s) <= 8)%nat -> (List.length (g_rin s) <= 8)%nat -> starts_as (entry_of a s) a s.
Proof.
  intros H1 H2. split; [reflexivity|]. split; [reflexivity|]. unfold entry_of. cbn [e_wst e_rst]. split.
  - rewrite vals_fold by (cbn; lia). rewrite (vals_nil empty_stack) by (cbn; lia). apply app_nil_r.
  - rewrite rev_app_distr. destruct (g_type s); cbn [is_sub]; (rewrite vals_fold; [f_equal|cbn; unfold u8; lia|cbn; unfold u8; lia]).
Qed.
