(** Proofs about the trie. *)
From Verif Require Import Base HamtModel.

Section Trie.
Context {K : Type} (eq_dec : forall a b : K, {a = b} + {a <> b}).

Lemma slot_cases h : slot h = 0 \/ slot h = 1 \/ slot h = 2 \/ slot h = 3.
Proof.
  unfold slot. change 3 with (Z.ones 2) at 1 2 3 4. rewrite Z.land_ones by lia.
  pose proof (Z.mod_pos_bound h (2 ^ 2) ltac:(lia)). change (2 ^ 2) with 4 in *. lia.
Qed.

(** Storing a new key where the search for it ended. *)
Lemma get_store (t : trie K) : forall h k a h' k' path,
  search eq_dec t h k = (None, path) -> (k' = k -> h' = h) ->
  get eq_dec (store t path k a) h' k' = if eq_dec k k' then Some a else get eq_dec t h' k'.
Proof.
  induction t as [|k0 a0 c0 IH0 c1 IH1 c2 IH2 c3 IH3]; intros h k a h' k' path S Same.
  - cbn in S. injection S as <-. unfold get. cbn [store search].
    destruct (eq_dec k k'); auto.
    replace (child (slot h') Null Null Null Null) with (@Null K) by (unfold child; destruct (slot h' =? 0), (slot h' =? 1), (slot h' =? 2); reflexivity).
    reflexivity.
  - cbn [search] in S. destruct (eq_dec k0 k) as [|N]; [discriminate|].
    destruct (search eq_dec (child (slot h) c0 c1 c2 c3) (Z.shiftr h 2) k) as [r p] eqn:E.
    injection S as -> <-.
    assert (G' : forall x y (d0 d1 d2 d3 : trie K), get eq_dec (Node x y d0 d1 d2 d3) h' k' =
                if eq_dec x k' then Some y else get eq_dec (child (slot h') d0 d1 d2 d3) (Z.shiftr h' 2) k').
    { intros. unfold get. cbn [search]. destruct (eq_dec x k'); auto.
      destruct (search eq_dec (child (slot h') d0 d1 d2 d3) (Z.shiftr h' 2) k'); reflexivity. }
    cbn [store].
    assert (Sh : k' = k -> Z.shiftr h' 2 = Z.shiftr h 2) by (intros X; rewrite (Same X); reflexivity).
    assert (Ss : k' = k -> slot h' = slot h) by (intros X; rewrite (Same X); reflexivity).
    destruct (slot_cases h) as [Z0 | [Z0 | [Z0 | Z0]]]; rewrite Z0 in *; cbn [Z.eqb Pos.eqb] in *;
    rewrite !G'; destruct (eq_dec k0 k') as [D | D]; try (destruct (eq_dec k k'); [congruence | reflexivity]).
    all: unfold child in *; cbn [Z.eqb Pos.eqb] in *.
    all: destruct (slot_cases h') as [Z1 | [Z1 | [Z1 | Z1]]]; rewrite Z1 in *; cbn [Z.eqb Pos.eqb];
      first [ eapply IH0; eassumption | eapply IH1; eassumption | eapply IH2; eassumption | eapply IH3; eassumption
            | destruct (eq_dec k k') as [X | X]; [exfalso; assert (k' = k) by auto; specialize (Ss H); lia | reflexivity] ].
Qed.

Section History.
Variable hash : K -> Z.

(** The nodes created by a sequence of insertions, the n-th at [fresh n]. *)
Fixpoint insert_all (fresh : Z) (t : trie K) (ks : list K) : trie K :=
  match ks with
  | [] => t
  | k :: ks' => insert_all (fresh + 1) (fst (intern eq_dec hash fresh t k)) ks'
  end.

(** The number of the first occurrence of a key. *)
Fixpoint first (n : Z) (ks : list K) (k : K) : option Z :=
  match ks with
  | [] => None
  | k0 :: ks' => if eq_dec k0 k then Some n else first (n + 1) ks' k
  end.

Lemma intern_get t fresh k k' :
  get eq_dec (fst (intern eq_dec hash fresh t k)) (hash k') k' =
  match get eq_dec t (hash k') k' with
  | Some a => Some a
  | None => if eq_dec k k' then Some fresh else None
  end.
Proof.
  unfold intern. destruct (search eq_dec t (hash k) k) as [[a|] path] eqn:S; cbn [fst].
  - destruct (get eq_dec t (hash k') k') eqn:G; auto.
    destruct (eq_dec k k') as [<- |]; auto. unfold get in G. rewrite S in G. discriminate.
  - rewrite (get_store t _ _ fresh _ _ _ S) by (intros ->; reflexivity).
    destruct (eq_dec k k') as [<- |].
    + unfold get. rewrite S. reflexivity.
    + destruct (get eq_dec t (hash k') k'); reflexivity.
Qed.

Lemma insert_all_get ks : forall t fresh k,
  get eq_dec (insert_all fresh t ks) (hash k) k =
  match get eq_dec t (hash k) k with Some a => Some a | None => first fresh ks k end.
Proof.
  induction ks as [|k0 ks IH]; intros t fresh k; cbn [insert_all first].
  - destruct (get eq_dec t (hash k) k); reflexivity.
  - rewrite IH, intern_get. destruct (get eq_dec t (hash k) k); auto.
    destruct (eq_dec k0 k); reflexivity.
Qed.

Lemma first_some n ks k : (exists a, first n ks k = Some a) <-> In k ks.
Proof.
  revert n. induction ks as [|k0 ks IH]; intros n; cbn.
  - split; [intros [a H]; discriminate | tauto].
  - destruct (eq_dec k0 k) as [-> |N]; [split; eauto|]. rewrite IH. split; [tauto|]. intros [|]; tauto.
Qed.

Lemma first_range n ks k a : first n ks k = Some a ->
  n <= a /\ nth_error ks (Z.to_nat (a - n)) = Some k /\
  forall j, n <= j < a -> nth_error ks (Z.to_nat (j - n)) <> Some k.
Proof.
  revert n. induction ks as [|k0 ks IH]; intros n; cbn [first]; [discriminate|].
  destruct (eq_dec k0 k) as [-> |N].
  - intros E; injection E as ->. rewrite Z.sub_diag. cbn. repeat split; auto; lia.
  - intros E. apply IH in E as (H1 & H2 & H3). split; [lia|].
    replace (Z.to_nat (a - n)) with (S (Z.to_nat (a - (n + 1)))) by lia. cbn [nth_error]. split; auto.
    intros j Hj. destruct (Z.eq_dec j n) as [-> |].
    + rewrite Z.sub_diag. cbn. congruence.
    + replace (Z.to_nat (j - n)) with (S (Z.to_nat (j - (n + 1)))) by lia. cbn [nth_error]. apply H3; lia.
Qed.
End History.
End Trie.
