(** Property C80: comments in the symbols of an assembled program, which is what
    the tools with annotations (src/asm/annotation.c, src/bindgen.c, the debugger)
    rely on. *)
From Verif Require Import Base AsmModel AnnoModel AsmSound AsmSpec AsmFacts Props_Asm TransportModel Props_Anno BindgenModel Props_Bindgen AsmComments.
From Coq Require Import ZifyBool String.
Open Scope list_scope.
Ltac Zify.zify_post_hook ::= Z.div_mod_to_equations.

(** In every run the symbols are single ones and whole comments: a comment starts
    with a symbol of id 0, each further word has the depth of its parentheses as
    id, all at one address, and it ends where the depth is 0.  Only a run that
    fails can end within a comment. *)
Theorem C80_comments fs file ok evs : assembles fs file ok evs ->
  exists items l, symbols_of evs = flat_map symbols items ++ l /\ Forall proper items /\ (l = [] \/ ok = false /\ unfinished l).
Proof.
  intros (n & A). destruct (A n ltac:(lia)) as (b & E & F & O). pose proof (asm_whole fs n file) as W. pose proof (asm_ok fs n file) as K. rewrite E in W, K. cbn [fst snd] in W, K.
  change (symbols_of evs) with (flat_map sym_of evs). rewrite <- O. destruct W as [(items & S & P)|[(items & l & S & P & U) X]].
  - exists items, []. rewrite app_nil_r. auto.
  - exists items, l. split; [exact S|]. split; [exact P|]. right. split; [congruence|exact U].
Qed.
Print Assumptions C80_comments.

(** The number of opening parentheses within a comment. *)
Definition opens (l : list (Z * symbol)) : Z := Z.of_nat (List.length (filter (fun x => str_eqb (name_of (snd x)) (bytes "(")) l)).
Definition shallow (it : item) : Prop := match it with Single _ _ => True | Comment _ inner _ => opens inner < 65535 end.

Lemma opens_cons x l : opens (x :: l) = (if str_eqb (name_of (snd x)) (bytes "(") then 1 else 0) + opens l.
Proof. unfold opens. cbn [filter]. destruct (str_eqb _ _); cbn [List.length]; lia. Qed.
Lemma opens_nonneg l : 0 <= opens l.
Proof. unfold opens. lia. Qed.
Lemma words_inner a e : forall inner d, words a d (inner ++ [e]) 0 -> d + opens inner < 65536 ->
  (s_type (snd e) = SComment /\ s_id (snd e) = 1 /\ s_name (snd e) = Some (bytes ")")) /\
  Forall (fun i => s_type (snd i) = SComment /\ s_id (snd i) <> 0 /\ ~ (s_id (snd i) = 1 /\ s_name (snd i) = Some (bytes ")")) /\ exists n, named (snd i) n) inner.
Proof.
  induction inner as [|x inner IH]; intros d W D; cbn [app] in W.
  - inversion W as [|? ? ? ? P (A & T & G & ID & c & n & N) W']; subst. assert (E : depth_after d (name_of (snd e)) = 0) by (inversion W'; auto). split; [|constructor].
    unfold depth_after, name_of in E. rewrite N in E. destruct (str_eqb_spec (c :: n) (bytes "(")); [lia|]. destruct (str_eqb_spec (c :: n) (bytes ")")) as [X|]; [|lia].
    assert (d = 1) by lia. subst d. rewrite ID. split; [exact T|]. split; [reflexivity|]. now rewrite N, X.
  - inversion W as [|? ? ? ? P (A & T & G & ID & c & n & N) W']; subst. rewrite opens_cons in D. pose proof (opens_nonneg inner) as ON.
    assert (S : d < 65536 - opens inner) by (destruct (str_eqb _ _); lia).
    assert (D' : depth_after d (name_of (snd x)) + opens inner < 65536) by (unfold depth_after; destruct (str_eqb _ _); [lia|]; destruct (str_eqb _ _); lia).
    destruct (IH _ W' D') as [H1 H2]. split; [exact H1|]. constructor; [|exact H2].
    assert (U : u16 d = d) by (unfold u16; apply Z.mod_small; lia). split; [exact T|]. split; [rewrite ID, U; lia|]. split; [|exists (c :: n); split; [exact N|discriminate]].
    intros [I1 I2]. rewrite ID, U in I1. subst d. unfold depth_after, name_of in W'. rewrite I2 in W'.
    replace (str_eqb (bytes ")") (bytes "(")) with false in W' by reflexivity. rewrite str_eqb_refl in W'. clear - W'. inversion W' as [? X|? ? ? ? X]; [|lia]. destruct inner; discriminate.
Qed.
Lemma proper_good it : proper it -> shallow it -> good it /\ well_named it.
Proof.
  destruct it as [a s|[a b] inner [a' e]]; cbn [proper shallow].
  - intros (T & N & _ & _) _. split; [exact T|]. intros D. assert (L : s_type s = SLabel \/ s_type s = SMacro).
    { destruct D as [D|D]; [now left|]. unfold definition in D. destruct (s_type s); try discriminate; auto. }
    destruct (N L) as (c & n & E & X). exists (c :: n). split; [exact E|]. cbn. destruct (Z.eqb_spec c 47); [contradiction|discriminate].
  - intros ((_ & T & _ & ID & n & N) & W) S. split; [|exact Logic.I]. destruct (words_inner a (a', e) inner 1 W ltac:(lia)) as [H1 H2]. cbn [snd] in *.
    split; [|split; [exact H1|exact H2]]. split; [exact T|]. split; [exact ID|]. exists (bytes "(" ++ n). split; [exact N|discriminate].
Qed.

(** So a program that assembles, with comments less than 65536 deep, is one that
    the annotations of C47 and the header of C79 are about. *)
Theorem C80_annotations fs file evs : assembles fs file true evs ->
  exists items, symbols_of evs = flat_map symbols items /\ Forall proper items /\
    (Forall shallow items -> symbols_are evs items /\
       (forall annos, exists p l, handle_all (start_spec (fresh annos)) (symbols_of evs) = Ok (p, l) /\ deliveries annos [] items l) /\
       exists g, generate evs = Ok g /\ printed (g_out g) = constants [] items).
Proof.
  intros A. destruct (C80_comments fs file true evs A) as (items & l & E & P & L). destruct L as [->|[X _]]; [|discriminate]. rewrite app_nil_r in E.
  exists items. split; [exact E|]. split; [exact P|]. intros S.
  assert (G : symbols_are evs items).
  { split; [exact E|]. rewrite !Forall_forall in *. split; intros it I; apply (proper_good it); auto. }
  split; [exact G|]. split; [|now apply C79_constants]. intros annos. rewrite E. apply C47_deliveries. apply G.
Qed.
Print Assumptions C80_annotations.

(** A case: a nested comment, a macro with a comment in it that is used twice. *)
Definition commented : str := bytes "%m ( x ) { ( a ( b ) ) #01 } @run m m ( c".
Definition commented2 : str := bytes "%m { ( a ( b ) ) #01 } @run m m".
Example C80_case : assembles (Props_Asm.one commented) (bytes "a") false (evs_of commented) /\
  assembles (Props_Asm.one commented2) (bytes "a") true (evs_of commented2) /\
  map (fun x => (s_id (snd x), name_of (snd x))) (filter (fun x => match s_type (snd x) with SComment => true | _ => false end) (symbols_of (evs_of commented2))) =
  let c := [(0, bytes "("); (1, bytes "a"); (1, bytes "("); (2, bytes "b"); (2, bytes ")"); (1, bytes ")")] in c ++ c.
Proof. split; [assembled|]. split; [assembled|]. vm_compute. reflexivity. Qed.

(** ** C77: flags and ids *)
Lemma words_flags a : forall d l d', words a d l d' -> Forall (fun x => s_type (snd x) = SComment /\ s_gen (snd x) = false) l.
Proof. induction 1 as [|d x l d' P (A & T & G & _) W IH]; constructor; auto. Qed.
(** Whatever the outcome: only labels are marked as generated, and such a label
    has a name that starts with '@'; the symbol of a bracket has the id 0. *)
Theorem C77_generated fs file ok evs : assembles fs file ok evs ->
  forall a s, In (ESym a s) evs ->
  (s_gen s = true -> s_type s = SLabel /\ exists n, s_name s = Some (64 :: n)) /\ (s_type s = SMark -> s_id s = 0 /\ exists n, s_name s = Some n).
Proof.
  intros A a s I. destruct (C80_comments fs file ok evs A) as (items & l & E & P & L).
  assert (J : In (a, s) (symbols_of evs)) by (change (symbols_of evs) with (flat_map sym_of evs); apply in_flat_map; exists (ESym a s); split; [exact I|now left]).
  assert (Q : calm s \/ s_type s = SComment /\ s_gen s = false).
  { rewrite E in J. apply in_app_or in J as [J|J].
    - apply in_flat_map in J as (it & X & Y). rewrite Forall_forall in P. specialize (P _ X). destruct it as [a' s'|[a' c] inner e]; cbn [proper] in P.
      + destruct Y as [[= -> ->]|[]]. now left.
      + destruct P as ((_ & T & G & _) & W). right. apply words_flags in W. rewrite Forall_forall in W. destruct Y as [[= -> ->]|Y]; [auto|]. exact (W (a, s) Y).
    - destruct L as [->|[_ (a' & x & inner & d & -> & (_ & T & G & _) & W & _)]]; [destruct J|]. right. apply words_flags in W. rewrite Forall_forall in W.
      destruct J as [->|J]; [auto|]. exact (W (a, s) J). }
  destruct Q as [(_ & _ & Q1 & Q2)|[T G]]; [auto|]. rewrite T, G. split; discriminate.
Qed.
Print Assumptions C77_generated.
Definition marked : str := bytes "@run [ #01 ] @@ !@ run { BRK } ".
Example C77_generated_case : assembles (Props_Asm.one marked) (bytes "a") true (evs_of marked) /\
  map (fun x => (s_id (snd x), name_of (snd x))) (filter (fun x => match s_type (snd x) with SMark => true | _ => s_gen (snd x) end) (symbols_of (evs_of marked))) =
  [(0, bytes "["); (0, bytes "]"); (2, bytes "@02"); (3, bytes "@01")].
Proof. split; [assembled|]. vm_compute. reflexivity. Qed.
