(** C38: the trie is a finite map. *)
From Verif Require Import Base HamtModel HamtProofs.

(** C38: after any sequence of insertions, for every hash function, a lookup
    finds a key exactly if it was inserted, ... *)
Theorem C38_found_iff_inserted {K} eq_dec (hash : K -> Z) ks k :
  (exists a, get eq_dec (insert_all eq_dec hash 0 Null ks) (hash k) k = Some a) <-> In k ks.
Proof. rewrite insert_all_get. exact (first_some eq_dec hash 0 ks k). Qed.
Print Assumptions C38_found_iff_inserted.

(** ... and returns the node that its first insertion created: the [a]-th
    insertion is the first one of this key. *)
Theorem C38_first_node {K} eq_dec (hash : K -> Z) ks k a :
  get eq_dec (insert_all eq_dec hash 0 Null ks) (hash k) k = Some a ->
  0 <= a /\ nth_error ks (Z.to_nat a) = Some k /\
  forall j, 0 <= j < a -> nth_error ks (Z.to_nat j) <> Some k.
Proof.
  rewrite insert_all_get. change (first eq_dec 0 ks k = Some a -> 0 <= a /\ nth_error ks (Z.to_nat a) = Some k /\
    forall j, 0 <= j < a -> nth_error ks (Z.to_nat j) <> Some k). intros E. apply first_range in E as (H1 & H2 & H3).
  rewrite Z.sub_0_r in H2. repeat split; auto. intros j Hj E. apply (H3 j); auto. now rewrite Z.sub_0_r.
Qed.
Print Assumptions C38_first_node.

(** What inserting returns is what a lookup finds from then on, whatever is
    inserted before and after. *)
Theorem C38_insert_returns_node {K} eq_dec (hash : K -> Z) before k after :
  let t := insert_all eq_dec hash 0 Null before in
  let n := Z.of_nat (length before) in
  get eq_dec (insert_all eq_dec hash (n + 1) (fst (intern eq_dec hash n t k)) after) (hash k) k =
    Some (snd (intern eq_dec hash n t k)).
Proof.
  intros t n. rewrite insert_all_get, intern_get. unfold intern, get.
  destruct (search eq_dec t (hash k) k) as [[a|] path]; cbn [fst snd]; auto.
  destruct (eq_dec k k); [reflexivity | congruence].
Qed.
Print Assumptions C38_insert_returns_node.

(** Interned strings (asm.c:727-751): two insertions return the same node
    exactly if the keys are equal, so comparing pointers compares strings. *)
Theorem C38_pointers_compare_strings {K} eq_dec (hash : K -> Z) before k middle k' :
  let t := insert_all eq_dec hash 0 Null before in
  let n := Z.of_nat (length before) in
  let t' := insert_all eq_dec hash (n + 1) (fst (intern eq_dec hash n t k)) middle in
  let n' := n + 1 + Z.of_nat (length middle) in
  snd (intern eq_dec hash n' t' k') = snd (intern eq_dec hash n t k) <-> k' = k.
Proof.
  intros t n t' n'.
  assert (App : forall l l' f s, insert_all eq_dec hash f s (l ++ l') =
            insert_all eq_dec hash (f + Z.of_nat (length l)) (insert_all eq_dec hash f s l) l').
  { induction l as [|x l IH]; intros l' f s; cbn [app insert_all length].
    - now rewrite Z.add_0_r.
    - rewrite IH. f_equal. lia. }
  assert (Et : t' = insert_all eq_dec hash 0 Null (before ++ k :: middle)).
  { rewrite App. cbn [insert_all]. rewrite Z.add_0_l. reflexivity. }
  pose proof (C38_insert_returns_node eq_dec hash before k middle) as G. cbv zeta in G.
  change (get eq_dec t' (hash k) k = Some (snd (intern eq_dec hash n t k))) in G.
  split.
  - intros E. unfold intern at 1 in E. destruct (search eq_dec t' (hash k') k') as [[a|] path] eqn:S; cbn [snd] in E.
    + assert (G' : get eq_dec t' (hash k') k' = Some a) by (unfold get; rewrite S; reflexivity).
      rewrite <- E in G. rewrite Et in G, G'.
      apply C38_first_node in G as (_ & G & _). apply C38_first_node in G' as (_ & G' & _). congruence.
    + exfalso. rewrite <- E in G. rewrite Et in G. apply C38_first_node in G as (_ & G & _).
      assert (nth_error (before ++ k :: middle) (Z.to_nat n') <> None) as H by congruence.
      apply nth_error_Some in H. rewrite app_length in H. cbn [length] in H. lia.
  - intros ->. unfold intern at 1. unfold get in G.
    destruct (search eq_dec t' (hash k) k) as [[a|] path]; cbn [fst snd] in *; congruence.
Qed.
Print Assumptions C38_pointers_compare_strings.

(** Five keys that all have the same hash. *)
Example C38_example :
  let t := insert_all Z.eq_dec (fun _ => 7) 0 Null [10; 20; 10; 30; 40; 20; 50] in
  map (get Z.eq_dec t 7) [10; 20; 30; 40; 50; 60] = [Some 0; Some 1; Some 3; Some 4; Some 6; None].
Proof. vm_compute. reflexivity. Qed.
