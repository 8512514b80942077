From Verif Require Import Base HandoverModel HandoverSpec.

Section Proofs.
Context {note : Type}.
Implicit Types (s : hstate note) (evs : list (hevent note)).

Lemma hset_eq {A} (f : bool -> nat -> A) b i x : hset f b i x b i = x.
Proof. unfold hset. rewrite Bool.eqb_reflx, Nat.eqb_refl. reflexivity. Qed.
Lemma hset_other {A} (f : bool -> nat -> A) b i x b' i' : b <> b' \/ i <> i' -> hset f b i x b' i' = f b' i'.
Proof.
  intros H. unfold hset. destruct (Bool.eqb b b') eqn:E1; [|reflexivity]. destruct (Nat.eqb i i') eqn:E2; [|reflexivity].
  apply Bool.eqb_prop in E1. apply Nat.eqb_eq in E2. destruct H; contradiction.
Qed.
Lemma hset_cases {A} (f : bool -> nat -> A) b i x b' i' :
  (b = b' /\ i = i' /\ hset f b i x b' i' = x) \/ ((b <> b' \/ i <> i') /\ hset f b i x b' i' = f b' i').
Proof.
  destruct (Bool.bool_dec b b') as [E|N]; [destruct (Nat.eq_dec i i') as [E2|N2]|].
  - left. subst. rewrite hset_eq. auto.
  - right. rewrite hset_other by auto. auto.
  - right. rewrite hset_other by auto. auto.
Qed.

Lemma handed_app i st a b : handed i st (a ++ b) = handed i st a ++ handed i (@waiting note i st a) b.
Proof.
  revert st. induction a as [|e a IH]; intros st; [reflexivity|]. destruct e; cbn; auto. destruct st; cbn; [f_equal|]; apply IH.
Qed.
Lemma waiting_app i st a b : waiting i st (a ++ b) = @waiting note i (waiting i st a) b.
Proof. revert st. induction a as [|e a IH]; intros st; [reflexivity|]. destruct e; cbn; auto. Qed.
Lemma received_app i a b : received i (a ++ b) = received i a ++ @received note i b.
Proof. induction a as [|e a IH]; [reflexivity|]. destruct e; cbn; auto. destruct (Nat.eqb _ _); cbn; [f_equal|]; auto. Qed.
Lemma sent_app i a b : sent i (a ++ b) = sent i a ++ @sent note i b.
Proof. induction a as [|e a IH]; [reflexivity|]. destruct e; cbn; auto. destruct (Nat.eqb _ _); cbn; [f_equal|]; auto. Qed.

Definition olist {A} (o : option A) : list A := match o with Some x => [x] | None => [] end.

(** Handed over and not yet received. *)
Definition pending s (i : nat) : list note :=
  match h_incoming _ s with
  | None => []
  | Some b => match h_apc _ s with
              | AIdle => olist (h_buf _ s b i)
              | ARead _ k => if (k <=? i)%nat then olist (h_buf _ s b i) else []
              end
  end.

Definition pointers s : Prop :=
  match h_epc _ s with
  | ESwap => h_incoming _ s = None \/ h_incoming _ s = Some (h_outgoing _ s)
  | EClear k => (k < VOICES)%nat /\ (h_incoming _ s = None \/ h_incoming _ s = Some (negb (h_outgoing _ s)))
  | ERun => h_incoming _ s = None \/ h_incoming _ s = Some (negb (h_outgoing _ s))
  end /\
  match h_apc _ s with AIdle => True | ARead b k => h_incoming _ s = Some b /\ (k <= VOICES)%nat end.

Definition staging s evs (i : nat) : Prop :=
  match h_epc _ s with
  | ERun => h_buf _ s (h_outgoing _ s) i = waiting i None evs /\ (h_buf _ s (h_outgoing _ s) i <> None -> h_should _ s = true)
  | ESwap => waiting i None evs = None
  | EClear k => waiting i None evs = None /\ ((i < k)%nat -> h_buf _ s (h_outgoing _ s) i = None)
  end.

Definition inv s evs : Prop :=
  pointers s /\ forall i, (i < VOICES)%nat -> staging s evs i /\ handed i None evs = received i evs ++ pending s i.

Lemma inv_init : inv (h_init note) [].
Proof.
  split; [split; cbn; auto|]. intros i _. split; [split; cbn; auto; intros H; contradiction|reflexivity].
Qed.

Lemma negb_ne b : negb b <> b.
Proof. destruct b; discriminate. Qed.

Lemma inv_step acq l s s' evs e : inv s evs -> hstep note acq l s = Some (s', e) -> inv s' (evs ++ e).
Proof.
  intros ((P1 & P2) & C) E. destruct l as [i n| | | | | |]; cbn [hstep] in E.
  - unfold h_send in E. destruct (h_epc _ s) eqn:EP; try discriminate. destruct (i <? VOICES)%nat eqn:EI; [|discriminate].
    injection E as <- <-. split; [split; [unfold h_write; cbn; exact P1|exact P2]|]. intros j Hj. destruct (C j Hj) as (C1 & C2).
    unfold staging in C1. rewrite EP in C1. destruct C1 as (C1 & C3). split.
    + cbn. rewrite waiting_app. cbn. destruct (Nat.eqb_spec j i) as [->|N].
      * rewrite hset_eq. auto.
      * rewrite hset_other by auto. auto.
    + rewrite handed_app, received_app, C2. cbn [handed received]. rewrite !app_nil_r. f_equal.
      unfold pending. cbn. destruct (h_incoming _ s) as [b|] eqn:EB; [|reflexivity].
      assert (N : h_outgoing _ s <> b) by (destruct P1 as [|P1]; [congruence|]; injection P1 as ->; intros X; apply (negb_ne (h_outgoing _ s)); auto).
      rewrite hset_other by auto. reflexivity.
  - unfold h_try in E. destruct (h_epc _ s) eqn:EP; try discriminate. destruct (h_should _ s) eqn:ES; [|discriminate].
    destruct (h_incoming _ s) as [b|] eqn:EB.
    + injection E as <- <-. rewrite app_nil_r. split; [split; [rewrite EP, EB; exact P1|rewrite EB; exact P2]|exact C].
    + injection E as <- <-. split; [split; cbn; [auto|]|].
      { destruct (h_apc _ s); [auto|]. destruct P2; congruence. }
      intros j Hj. destruct (C j Hj) as (C1 & C2). unfold staging in C1. rewrite EP in C1. destruct C1 as (C1 & C3). split.
      * cbn. rewrite waiting_app. reflexivity.
      * rewrite handed_app, received_app, C2. cbn [handed received]. rewrite app_nil_r.
        unfold pending. rewrite EB. cbn. rewrite app_nil_r. f_equal.
        destruct (h_apc _ s) as [|b k]; [|destruct P2; congruence]. rewrite <- C1. destruct (h_buf _ s _ j); reflexivity.
  - unfold h_swap in E. destruct (h_epc _ s) eqn:EP; try discriminate. injection E as <- <-. rewrite app_nil_r.
    split; [split; cbn; [|exact P2]|].
    { split; [unfold VOICES; lia|]. rewrite Bool.negb_involutive. exact P1. }
    intros j Hj. destruct (C j Hj) as (C1 & C2). unfold staging in C1. rewrite EP in C1. split; [|exact C2].
    cbn. split; [exact C1|lia].
  - unfold h_clear in E. destruct (h_epc _ s) as [| |k] eqn:EP; try discriminate.
    destruct P1 as (PK & P1).
    assert (PEND : forall m sh ep j, pending (h_write _ s k m sh ep) j = pending s j).
    { intros m sh ep j. unfold pending. cbn. destruct (h_incoming _ s) as [b|] eqn:EB; [|reflexivity].
      assert (N : h_outgoing _ s <> b) by (destruct P1 as [|P1]; [congruence|]; injection P1 as ->; intros X; apply (negb_ne (h_outgoing _ s)); auto).
      rewrite hset_other by auto. reflexivity. }
    assert (CLR : forall sh ep j, (j < S k)%nat -> (j < VOICES)%nat -> h_buf _ (h_write _ s k None sh ep) (h_outgoing _ s) j = None).
    { intros sh ep j Hj Hj'. cbn. destruct (Nat.eq_dec k j) as [->|N]; [apply hset_eq|]. rewrite hset_other by auto.
      destruct (C j Hj') as (C1 & _). unfold staging in C1. rewrite EP in C1. apply C1. lia. }
    destruct (S k =? VOICES)%nat eqn:EK; injection E as <- <-; rewrite app_nil_r.
    + apply Nat.eqb_eq in EK. split; [split; [exact P1|exact P2]|]. intros j Hj. destruct (C j Hj) as (C1 & C2).
      unfold staging in C1. rewrite EP in C1. destruct C1 as (C1 & C3). split.
      * unfold staging. change (h_epc _ _) with ERun. cbv iota. change (h_outgoing _ (h_write _ _ _ _ _ _)) with (h_outgoing _ s).
        rewrite CLR by lia. split; [auto|]. intros X. contradiction.
      * rewrite PEND. exact C2.
    + apply Nat.eqb_neq in EK. split; [split; [cbn; split; [lia|exact P1]|exact P2]|]. intros j Hj. destruct (C j Hj) as (C1 & C2).
      unfold staging in C1. rewrite EP in C1. destruct C1 as (C1 & C3). split.
      * unfold staging. change (h_epc _ _) with (EClear (S k)). cbv iota. change (h_outgoing _ (h_write _ _ _ _ _ _)) with (h_outgoing _ s).
        split; [auto|]. intros X. apply CLR; auto.
      * rewrite PEND. exact C2.
  - unfold h_load in E. destruct (h_apc _ s) eqn:EA; [|discriminate]. destruct (h_incoming _ s) as [b|] eqn:EB.
    + injection E as <- <-. rewrite app_nil_r. split; [split; cbn; [exact P1|split; [auto|lia]]|].
      intros j Hj. destruct (C j Hj) as (C1 & C2). split; [exact C1|]. rewrite C2. unfold pending. cbn. rewrite EB, EA. reflexivity.
    + injection E as <- <-. rewrite app_nil_r. split; [split; [rewrite EB; exact P1|rewrite EA; auto]|exact C].
  - unfold h_recv in E. destruct (h_apc _ s) as [|b k] eqn:EA; [discriminate|]. destruct (k <? VOICES)%nat eqn:EK; [|discriminate].
    apply Nat.ltb_lt in EK. destruct P2 as (P2 & P3).
    injection E as <- <-. split; [split; cbn; [exact P1|split; [auto|lia]]|].
    intros j Hj. destruct (C j Hj) as (C1 & C2). split.
    + unfold staging in *. cbn. rewrite !waiting_app. destruct (h_buf _ s b k); exact C1.
    + rewrite handed_app, received_app, C2. assert (HN : forall st, handed j st (match h_buf _ s b k with Some n => [Received note k n] | None => [] end) = []) by (intros; destruct (h_buf _ s b k); reflexivity).
      rewrite HN, app_nil_r, <- app_assoc. f_equal. unfold pending. cbn. rewrite P2, EA.
      destruct (Nat.lt_trichotomy j k) as [L|[->|G]].
      * rewrite (proj2 (Nat.leb_gt k j)) by lia. replace (match j with O => false | S m' => _ end) with false by (destruct j; [auto|symmetry; apply Nat.leb_gt; lia]).
        destruct (h_buf _ s b k); cbn; [|reflexivity]. destruct (Nat.eqb_spec j k); [lia|reflexivity].
      * rewrite Nat.leb_refl. replace (match k with O => false | S m' => _ end) with false by (destruct k; [auto|symmetry; apply Nat.leb_gt; lia]).
        destruct (h_buf _ s b k); cbn; [|reflexivity]. rewrite Nat.eqb_refl. reflexivity.
      * rewrite (proj2 (Nat.leb_le k j)) by lia. replace (match j with O => false | S m' => _ end) with true by (destruct j; [lia|symmetry; apply Nat.leb_le; lia]).
        destruct (h_buf _ s b k); cbn; [|reflexivity]. destruct (Nat.eqb_spec j k); [lia|reflexivity].
  - unfold h_store in E. destruct (h_apc _ s) as [|b k] eqn:EA; [discriminate|]. destruct (k =? VOICES)%nat eqn:EK; [|discriminate].
    apply Nat.eqb_eq in EK. injection E as <- <-. rewrite app_nil_r. destruct P2 as (P2 & P3). split; [split; cbn; [|auto]|].
    { destruct (h_epc _ s); auto. destruct P1; auto. }
    intros j Hj. destruct (C j Hj) as (C1 & C2). split; [exact C1|]. rewrite C2. unfold pending. cbn. rewrite P2, EA.
    rewrite (proj2 (Nat.leb_gt k j)) by lia. reflexivity.
Qed.

Lemma inv_run acq ls : forall s s' evs e, inv s evs -> hrun note acq ls s = Some (s', e) -> inv s' (evs ++ e).
Proof.
  induction ls as [|l ls IH]; intros s s' evs e HI E; cbn in E.
  - injection E as <- <-. rewrite app_nil_r. exact HI.
  - destruct (hstep note acq l s) as [[s1 e1]|] eqn:E1; [|discriminate].
    destruct (hrun note acq ls s1) as [[s2 e2]|] eqn:E2; [|discriminate]. injection E as <- <-.
    rewrite app_assoc. eapply IH; [eapply inv_step; eauto|exact E2].
Qed.

(** ** Data races, with an acquiring exchange *)
Definition clocks s : Prop :=
  h_race _ s = false /\
  (forall b i, h_wr _ s b i <= h_eclk _ s)%nat /\ (forall b i, h_rd _ s b i <= h_aclk _ s)%nat /\
  (forall i, h_rd _ s (match h_epc _ s with ESwap => negb (h_outgoing _ s) | _ => h_outgoing _ s end) i <= h_eknows _ s)%nat /\
  (h_incoming _ s = None -> forall b i, (h_rd _ s b i <= h_amsg _ s)%nat) /\
  (forall b i, h_incoming _ s = Some b -> (h_wr _ s b i <= h_emsg _ s)%nat) /\
  match h_apc _ s with AIdle => True | ARead b _ => forall i, (h_wr _ s b i <= h_aknows _ s)%nat end.

Lemma clocks_step l s s' e : pointers s -> clocks s -> hstep note true l s = Some (s', e) -> clocks s'.
Proof.
  intros (P1 & P2) (K1 & K2 & K3 & K4 & K5 & K6 & K7) E.
  assert (WRITE : forall i m sh ep, match h_epc _ s with ESwap => False | _ => True end -> match ep with ESwap => False | _ => True end ->
    clocks (h_write _ s i m sh ep)).
  { intros i m sh ep HE HE'.
    assert (N : forall b, h_incoming _ s = Some b -> h_outgoing _ s <> b).
    { intros b EB. destruct (h_epc _ s); [|contradiction|destruct P1 as (_ & P1)];
        (destruct P1 as [|P1]; [congruence|]; rewrite EB in P1; injection P1 as ->; intros X; apply (negb_ne (h_outgoing _ s)); auto). }
    assert (R : forall j, (h_rd _ s (h_outgoing _ s) j <= h_eknows _ s)%nat).
    { intros j. destruct (h_epc _ s); [apply K4|contradiction|apply K4]. }
    unfold clocks, h_write. cbn. split; [|split; [|split; [|split; [|split; [|split]]]]].
    - rewrite K1. cbn. apply Nat.ltb_ge. apply R.
    - intros b j. destruct (hset_cases (h_wr _ s) (h_outgoing _ s) i (h_eclk _ s) b j) as [(_ & _ & ->)|(_ & ->)]; auto.
    - exact K3.
    - destruct ep; [exact R|contradiction|exact R].
    - exact K5.
    - intros b j EB. rewrite hset_other by auto. auto.
    - destruct (h_apc _ s) as [|b k]; [auto|]. intros j. destruct P2 as (P2 & _). rewrite hset_other by auto. auto. }
  destruct l as [i n| | | | | |]; cbn [hstep] in E.
  - unfold h_send in E. destruct (h_epc _ s) eqn:EP; try discriminate. destruct (i <? VOICES)%nat; [|discriminate].
    injection E as <- <-. apply WRITE; auto.
  - unfold h_try in E. destruct (h_epc _ s) eqn:EP; try discriminate. destruct (h_should _ s); [|discriminate].
    destruct (h_incoming _ s) as [b|] eqn:EB.
    + injection E as <- <-. split; [auto|]. rewrite EP, EB. auto 10.
    + injection E as <- <-. unfold clocks. cbn. specialize (K5 eq_refl).
      split; [auto|]. split; [intros; auto|]. split; [auto|]. split; [intros i; specialize (K5 (negb (h_outgoing _ s)) i); lia|].
      split; [discriminate|]. split; [intros; apply K2|exact K7].
  - unfold h_swap in E. destruct (h_epc _ s) eqn:EP; try discriminate. injection E as <- <-. unfold clocks. cbn. auto 10.
  - unfold h_clear in E. destruct (h_epc _ s) as [| |k] eqn:EP; try discriminate.
    destruct (S k =? VOICES)%nat; injection E as <- <-; apply WRITE; auto.
  - unfold h_load in E. destruct (h_apc _ s) eqn:EA; [|discriminate]. destruct (h_incoming _ s) as [b|] eqn:EB.
    + injection E as <- <-. unfold clocks. cbn. split; [auto|]. split; [auto|]. split; [auto|]. split; [auto|].
      split; [discriminate|]. split; [auto|]. intros i. specialize (K6 b i eq_refl). lia.
    + injection E as <- <-. split; [auto|]. rewrite EB, EA. auto 10.
  - unfold h_recv in E. destruct (h_apc _ s) as [|b k] eqn:EA; [discriminate|]. destruct (k <? VOICES)%nat; [|discriminate].
    destruct P2 as (P2 & P3). injection E as <- <-. unfold clocks. cbn.
    split; [rewrite K1; cbn; apply Nat.ltb_ge; apply K7|]. split; [auto|].
    split; [intros b' j; destruct (hset_cases (h_rd _ s) b k (h_aclk _ s) b' j) as [(_ & _ & ->)|(_ & ->)]; auto|].
    split; [|split; [rewrite P2; discriminate|split; [auto|exact K7]]].
    intros j. rewrite hset_other; [apply K4|]. left.
    destruct (h_epc _ s); [|destruct P1 as [|P1]; [congruence|]; rewrite P2 in P1; injection P1 as ->; intros X; symmetry in X; revert X; apply negb_ne|destruct P1 as (_ & P1)];
      (destruct P1 as [|P1]; [congruence|]; rewrite P2 in P1; injection P1 as ->; apply negb_ne).
  - unfold h_store in E. destruct (h_apc _ s) as [|b k] eqn:EA; [discriminate|]. destruct (k =? VOICES)%nat eqn:EK; [|discriminate].
    injection E as <- <-. unfold clocks. cbn. split; [auto|]. split; [auto|]. split; [intros; auto|]. split; [auto|]. split; [auto|]. split; [discriminate|auto].
Qed.

Lemma clocks_run ls : forall s s' evs e, inv s evs -> clocks s -> hrun note true ls s = Some (s', e) -> clocks s'.
Proof.
  induction ls as [|l ls IH]; intros s s' evs e HI HC E; cbn in E.
  - injection E as <- <-. exact HC.
  - destruct (hstep note true l s) as [[s1 e1]|] eqn:E1; [|discriminate].
    destruct (hrun note true ls s1) as [[s2 e2]|] eqn:E2; [|discriminate]. injection E as <- <-.
    eapply IH; [eapply inv_step; eauto|eapply clocks_step; eauto; apply HI|exact E2].
Qed.
Lemma clocks_init : clocks (h_init note).
Proof. unfold clocks. cbn. auto 15. Qed.

(** ** Consequences for the notes *)
Lemma sublist_refl {A} (l : list A) : sublist l l.
Proof. induction l; constructor; auto. Qed.
Lemma sublist_nil {A} (l : list A) : sublist [] l.
Proof. induction l; constructor; auto. Qed.

Lemma handed_sublist i : forall evs st, sublist (handed i st evs) (olist st ++ @sent note i evs).
Proof.
  induction evs as [|e evs IH]; intros st; cbn [handed sent]; [apply sublist_nil|]. destruct e as [j n| |j n].
  - specialize (IH (if Nat.eqb i j then Some n else st)). destruct (Nat.eqb i j); [|exact IH].
    destruct st; cbn in *; [apply sl_skip|]; exact IH.
  - specialize (IH None). cbn in IH. destruct st; cbn; [apply sl_keep|]; exact IH.
  - apply IH.
Qed.
Lemma sublist_prefix {A} (l m k : list A) : sublist (l ++ m) k -> sublist l k.
Proof.
  intros H. remember (l ++ m) as lm eqn:E. revert l m E. induction H as [|x a b H IH|x a b H IH]; intros l m E.
  - destruct l; [constructor|discriminate].
  - destruct l; [apply sublist_nil|]. cbn in E. injection E as <- E. constructor. eapply IH. exact E.
  - constructor. eapply IH. exact E.
Qed.
Lemma sublist_in {A} (l k : list A) x : sublist l k -> In x l -> In x k.
Proof. induction 1; cbn; intuition. Qed.
Lemma sublist_nodup {A} (l k : list A) : sublist l k -> NoDup k -> NoDup l.
Proof.
  induction 1; intros N; auto; inversion N as [|? ? X Y]; subst; auto. constructor; auto. intros I. apply X. eapply sublist_in; eauto.
Qed.

(** A note sent is replaced, handed over, or waiting. *)
Lemma sent_fate i n : forall evs, waiting i (Some n) evs = Some n \/ In n (handed i (Some n) evs) \/
  (exists a b n', evs = a ++ Sent note i n' :: b /\ ~ In (Handed note) a).
Proof.
  induction evs as [|e evs IH]; cbn [waiting handed]; [auto|]. destruct e as [j m| |j m].
  - destruct (Nat.eqb_spec i j) as [->|N].
    + right. right. exists [], evs, m. auto.
    + destruct IH as [IH|[IH|(a & b & n' & -> & X)]]; auto. right. right. exists (Sent note j m :: a), b, n'. split; [reflexivity|].
      intros [Y|Y]; [discriminate|auto].
  - right. left. left. reflexivity.
  - destruct IH as [IH|[IH|(a & b & n' & -> & X)]]; auto. right. right. exists (Received note j m :: a), b, n'. split; [reflexivity|].
      intros [Y|Y]; [discriminate|auto].
Qed.

(** ** Progress *)
Definition emu_finish s : list (label note) :=
  match h_epc _ s with
  | ERun => [] | ESwap => LSwap note :: repeat (LClear note) 4 | EClear k => repeat (LClear note) (4 - k)
  end.

Lemma hrun_app acq l1 l2 s s1 e1 s2 e2 : hrun note acq l1 s = Some (s1, e1) -> hrun note acq l2 s1 = Some (s2, e2) ->
  hrun note acq (l1 ++ l2) s = Some (s2, e1 ++ e2).
Proof.
  revert s e1. induction l1 as [|l l1 IH]; intros s e1 E1 E2; cbn in *.
  - injection E1 as <- <-. exact E2.
  - destruct (hstep note acq l s) as [[s' e']|]; [|discriminate].
    destruct (hrun note acq l1 s') as [[s'' e'']|] eqn:E; [|discriminate]. injection E1 as <- <-.
    rewrite (IH _ _ E E2), app_assoc. reflexivity.
Qed.

(** The audio thread alone empties the pointer. *)
Lemma audio_drains acq s : pointers s ->
  exists ls s' e, hrun note acq ls s = Some (s', e) /\ Forall (fun l => ~ is_send l) ls /\ h_incoming _ s' = None /\ h_apc _ s' = AIdle /\
    h_epc _ s' = h_epc _ s /\ h_should _ s' = h_should _ s.
Proof.
  intros (_ & P2).
  assert (R : forall k s, h_apc _ s <> AIdle -> match h_apc _ s with ARead _ i => (i + k)%nat = VOICES | _ => False end ->
    exists ls s' e, hrun note acq ls s = Some (s', e) /\ Forall (fun l => ~ is_send l) ls /\ h_incoming _ s' = None /\ h_apc _ s' = AIdle /\
      h_epc _ s' = h_epc _ s /\ h_should _ s' = h_should _ s).
  { induction k as [|k IH]; intros t _ H; destruct (h_apc _ t) as [|b i] eqn:EA; try contradiction.
    - exists [LStore note]. cbn. unfold h_store. rewrite EA. replace (i =? VOICES)%nat with true by (symmetry; apply Nat.eqb_eq; lia).
      eexists _, _. split; [reflexivity|]. split; [apply Forall_cons; [cbn; auto|apply Forall_nil]|]. cbn. auto.
    - assert (EL : (i <? VOICES)%nat = true) by (apply Nat.ltb_lt; lia).
      destruct (hstep note acq (LRecv note) t) as [[t1 e1]|] eqn:E1; cbn in E1; unfold h_recv in E1; rewrite EA, EL in E1; [|discriminate].
      injection E1 as <- <-. 
      set (t1 := mkH note (h_incoming _ t) (h_outgoing _ t) (h_buf _ t) (h_should _ t) (h_epc _ t) (ARead b (S i))
          (h_eclk _ t) (h_aclk _ t) (h_eknows _ t) (h_aknows _ t) (h_emsg _ t) (h_amsg _ t)
          (h_wr _ t) (hset (h_rd _ t) b i (h_aclk _ t)) (h_race _ t || (h_aknows _ t <? h_wr _ t b i)%nat)).
      destruct (IH t1) as (ls & s' & e & X1 & X2 & X3 & X4 & X5 & X6); [cbn; discriminate|cbn; lia|].
      exists (LRecv note :: ls). cbn [hrun hstep]. unfold h_recv. rewrite EA, EL. fold t1. rewrite X1.
      eexists _, _. split; [reflexivity|]. split; [apply Forall_cons; [cbn; auto|exact X2]|]. auto. }
  destruct (h_apc _ s) as [|b i] eqn:EA.
  - destruct (h_incoming _ s) as [b|] eqn:EB.
    + set (s1 := mkH note (Some b) (h_outgoing _ s) (h_buf _ s) (h_should _ s) (h_epc _ s) (ARead b 0)
          (h_eclk _ s) (h_aclk _ s) (h_eknows _ s) (Nat.max (h_aknows _ s) (h_emsg _ s)) (h_emsg _ s) (h_amsg _ s) (h_wr _ s) (h_rd _ s) (h_race _ s)).
      destruct (R 4%nat s1) as (ls & s' & e & X1 & X2 & X3 & X4 & X5 & X6); [cbn; discriminate|reflexivity|].
      exists (LLoad note :: ls). cbn [hrun hstep]. unfold h_load. rewrite EA, EB. fold s1. rewrite X1.
      eexists _, _. split; [reflexivity|]. split; [apply Forall_cons; [cbn; auto|exact X2]|]. auto.
    + exists [], s, []. split; [reflexivity|]. split; [apply Forall_nil|]. auto.
  - destruct P2 as (P2 & P3). apply (R (VOICES - i)%nat s); [congruence|]. rewrite EA. lia.
Qed.

(** The emulator thread alone finishes a hand-over. *)
Lemma emu_finishes acq s : pointers s ->
  exists ls s' e, hrun note acq ls s = Some (s', e) /\ Forall (fun l => ~ is_send l) ls /\ h_epc _ s' = ERun /\
    h_incoming _ s' = h_incoming _ s /\ h_apc _ s' = h_apc _ s /\ (h_epc _ s <> ERun -> h_should _ s' = false).
Proof.
  intros (P1 & _).
  assert (R : forall k s, match h_epc _ s with EClear i => (i + S k)%nat = VOICES | _ => False end ->
    exists ls s' e, hrun note acq ls s = Some (s', e) /\ Forall (fun l => ~ is_send l) ls /\ h_epc _ s' = ERun /\
    h_incoming _ s' = h_incoming _ s /\ h_apc _ s' = h_apc _ s /\ (h_epc _ s <> ERun -> h_should _ s' = false)).
  { induction k as [|k IH]; intros t H; destruct (h_epc _ t) as [| |i] eqn:EP; try contradiction.
    - exists [LClear note]. cbn. unfold h_clear. rewrite EP. replace (S i =? VOICES)%nat with true by (symmetry; apply Nat.eqb_eq; lia).
      eexists _, _. split; [reflexivity|]. split; [apply Forall_cons; [cbn; auto|apply Forall_nil]|]. cbn. auto.
    - assert (EL : (S i =? VOICES)%nat = false) by (apply Nat.eqb_neq; lia).
      set (t1 := h_write note t i None (h_should _ t) (EClear (S i))).
      destruct (IH t1) as (ls & s' & e & X1 & X2 & X3 & X4 & X5 & X6); [cbn; lia|].
      exists (LClear note :: ls). cbn [hrun hstep]. unfold h_clear. rewrite EP, EL. fold t1. rewrite X1.
      eexists _, _. split; [reflexivity|]. split; [apply Forall_cons; [cbn; auto|exact X2]|]. cbn in X6. repeat (split; [auto|]). intros _. apply X6. discriminate. }
  destruct (h_epc _ s) as [| |i] eqn:EP.
  - exists [], s, []. split; [reflexivity|]. split; [apply Forall_nil|]. split; [exact EP|]. split; [auto|]. split; [auto|]. intros X. contradiction.
  - set (s1 := mkH note (h_incoming _ s) (negb (h_outgoing _ s)) (h_buf _ s) (h_should _ s) (EClear 0) (h_apc _ s)
      (h_eclk _ s) (h_aclk _ s) (h_eknows _ s) (h_aknows _ s) (h_emsg _ s) (h_amsg _ s) (h_wr _ s) (h_rd _ s) (h_race _ s)).
    destruct (R 3%nat s1) as (ls & s' & e & X1 & X2 & X3 & X4 & X5 & X6); [reflexivity|].
    exists (LSwap note :: ls). cbn [hrun hstep]. unfold h_swap. rewrite EP. fold s1. rewrite X1.
    eexists _, _. split; [reflexivity|]. split; [apply Forall_cons; [cbn; auto|exact X2]|]. cbn in X6. repeat (split; [auto|]). intros _. apply X6. discriminate.
  - rewrite <- EP. apply (R (VOICES - S i)%nat s). rewrite EP. destruct P1. unfold VOICES in *. lia.
Qed.
End Proofs.
