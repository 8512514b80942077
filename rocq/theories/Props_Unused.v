(** Property C105: the assembler warns about the labels and macros that are not
    used, about all of them and about no others.

    [defines s n] says that the symbol [s] is that of the definition of [n],
    [refers_to evs n] that a symbol of the run refers to [n] or a padding has it
    as operand, [capitalised n] that it starts with a capital letter
    (UnusedSpec). *)
From Verif Require Import Base AsmModel AsmSound AsmScan AsmRun AsmSpec AsmFacts Props_Asm PlaceSpec Props_Place UnusedSpec.
From Verif Require AsmUnused.
From Coq Require Import ZifyBool Ascii String.
Open Scope list_scope.
Ltac Zify.zify_post_hook ::= Z.div_mod_to_equations.

(** After success, for all files: there is a warning exactly at the definitions
    of the names that nothing refers to, do not start with a capital letter and
    are not labels at 0x100, where the program starts. *)
Theorem C105_unused fs file evs : assembles fs file true evs ->
  forall reg, In (EReport false MUnreferenced reg) evs <->
    exists a s n, In (ESym a s) evs /\ defines s n /\ reg = Some (s_reg s) /\
      ~ refers_to evs n /\ ~ capitalised n /\ ~ (s_type s = SLabel /\ a = 256).
Proof.
  intros A. destruct (assembled_out _ _ _ _ A) as (k & b & -> & H).
  pose proof (proj1 (AsmUnused.asm_unused fs file k b (H k (le_n _)) H)) as U.
  assert (RR : forall n, refers_to (rev (b_out b)) n <-> refers_to (b_out b) n).
  { intros n. unfold refers_to. split; (intros [(a & s & I & Q)|(sc & a & c & l & I & Q)]; [left; exists a, s|right; exists sc, a, c, l]);
      (split; [apply in_rev; rewrite ?rev_involutive; exact I|exact Q]). }
  intros reg. rewrite <- in_rev, (U reg). split; intros (a & s & n & I & D & R & N & Q); exists a, s, n.
  - split; [apply -> in_rev; exact I|]. rewrite RR. auto.
  - split; [apply in_rev; exact I|]. rewrite <- RR. auto.
Qed.
Print Assumptions C105_unused.

(** Each of them once: the warnings of the run are those of a list of
    definitions with different names, and these are all the unused ones. *)
Theorem C105_once fs file evs : assembles fs file true evs ->
  exists l : list (Z * symbol), NoDup (map (fun x => s_name (snd x)) l) /\
    (forall a s, In (a, s) l <-> exists n, In (ESym a s) evs /\ defines s n /\
      ~ refers_to evs n /\ ~ capitalised n /\ ~ (s_type s = SLabel /\ a = 256)) /\
    filter (fun e => match e with EReport false MUnreferenced _ => true | _ => false end) evs =
      map (fun x => EReport false MUnreferenced (Some (s_reg (snd x)))) l.
Proof.
  intros A. destruct (assembled_out _ _ _ _ A) as (k & b & -> & H).
  destruct (proj2 (AsmUnused.asm_unused fs file k b (H k (le_n _)) H)) as (l & ND & IL & FL).
  exists l. split; [exact ND|]. split.
  - assert (RR : forall n, refers_to (rev (b_out b)) n <-> refers_to (b_out b) n).
    { intros n. unfold refers_to. split; (intros [(a & s & I & Q)|(sc & a & c & r & I & Q)]; [left; exists a, s|right; exists sc, a, c, r]);
        (split; [apply in_rev; rewrite ?rev_involutive; exact I|exact Q]). }
    intros a s. rewrite IL. split; intros (n & I & D & N & Q); exists n.
    + split; [apply -> in_rev; exact I|]. rewrite RR. auto.
    + split; [apply in_rev; exact I|]. rewrite <- RR. auto.
  - assert (FR : forall (f : event -> bool) u, filter f (rev u) = rev (filter f u)).
    { intros f u. induction u as [|e u IH]; [reflexivity|]. cbn. rewrite filter_app, IH. cbn. destruct (f e); [reflexivity|]. now rewrite app_nil_r. }
    rewrite FR. unfold AsmUnused.is_alarm in FL. rewrite FL, rev_involutive. reflexivity.
Qed.
Print Assumptions C105_once.

(** Of these, [used] and [pad] are referred to, [Dev] is capitalised and [start]
    is where the program starts; [idle] and [none] are not used. *)
Definition names : str := bytes "%used { ADD } %none { SUB } |10 @Dev |20 @pad |0100 @start used $pad @idle BRK".
Definition place (l0 l1 : Z) : option region := Some (mkRegion (bytes "a") (mkPos 1 (l0 + 1) l0) (mkPos 1 (l1 + 1) l1)).
Example C105_case : assembles (Props_Asm.one names) (bytes "a") true (evs_of names) /\
  filter (fun e => match e with EReport _ _ _ => true | _ => false end) (evs_of names) =
    [EReport false MUnreferenced (place 14 19); EReport false MUnreferenced (place 69 74)].
Proof. split; [assembled|]. vm_compute. reflexivity. Qed.
