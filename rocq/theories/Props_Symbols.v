(** C69: every byte of the ROM has a symbol (doc/asm.md:24).
    C70: the symbols of opcodes and numbers tell what the byte is.
    C71: the debug file and the ROM viewer show them.

    The claims are about the calls of [buxn_asm_put_rom] and
    [buxn_asm_put_symbol] in a run (AsmSpec.assembles), for every set of source
    files with any includes and macros. *)
From Verif Require Import Base AsmModel AsmSound AsmSpec AsmFacts AsmRun AsmCover Props_Asm FrontModel Props_Front RomvizModel Props_Romviz.
From Coq Require Import ZifyBool String Sorted.
Open Scope list_scope.
Ltac Zify.zify_post_hook ::= Z.div_mod_to_equations.

(** The symbols that describe a byte; the others mark a place or a piece of the
    source. *)
Definition describes_byte (s : symbol) : Prop :=
  s_type s = SOpcode \/ s_type s = SNumber \/ s_type s = SLabelRef \/ s_type s = SText.

Lemma describes_type s : describes_byte s <-> byte_type (s_type s) = true.
Proof. unfold describes_byte. destruct (s_type s); cbn; intuition (auto; discriminate). Qed.

(** For the examples: the symbols that describe an address. *)
Definition symbols_at (evs : list event) (a : Z) : list symbol :=
  flat_map (fun e => match e with ESym x s => if (x =? a) && byte_type (s_type s) then [s] else [] | _ => [] end) evs.
Lemma symbols_at_spec evs a s : In s (symbols_at evs a) <-> In (ESym a s) evs /\ describes_byte s.
Proof.
  unfold symbols_at. rewrite in_flat_map, describes_type. split.
  - intros (e & I & H). destruct e; try contradiction. destruct (_ && _) eqn:C; [|contradiction]. destruct H as [<-|[]].
    apply andb_prop in C as [C1 C2]. apply Z.eqb_eq in C1. subst. auto.
  - intros [I B]. eexists. split; [exact I|]. cbn. rewrite Z.eqb_refl, B. left. auto.
Qed.

Lemma rom_app a b x : rom (a ++ b) x = fold_left rom_step b (rom a) x.
Proof. unfold rom. now rewrite fold_left_app. Qed.
Lemma rom_val out x : rom (rev out) x = val out x.
Proof.
  induction out as [|e out IH]; [reflexivity|]. cbn [rev]. rewrite rom_app. cbn [fold_left].
  destruct e; cbn [rom_step val]; auto. now rewrite IH.
Qed.
Lemma val_put out x : (exists v, val out x = Some v) <-> put_at out x.
Proof.
  unfold put_at. induction out as [|e out IH]; cbn [val].
  - split; [intros [v E]; discriminate|intros [v []]].
  - destruct e; try (rewrite IH; split; intros [v I]; [exists v; right; auto|exists v; destruct I as [E|I]; [discriminate|auto]]).
    destruct (Z.eqb_spec x addr) as [->|N].
    + split; [intros _; exists value; left; auto|eauto].
    + rewrite IH. split; intros [v I]; [exists v; right; auto|exists v; destruct I as [E|I]; [congruence|auto]].
Qed.

Lemma assembled_good fs file evs : assembles fs file true evs -> exists out, evs = rev out /\ exists lams tab, good out lams tab.
Proof.
  intros [n H]. destruct (H n (le_n _)) as (b & E & _ & <-). exists (b_out b). split; auto.
  destruct (asm_sound fs file) as [n' H']. set (m := Nat.max n n').
  destruct (H m (Nat.le_max_l _ _)) as (b' & E' & _ & O').
  destruct (H' m (Nat.le_max_r _ _)) as (E2 & _ & S).
  rewrite <- E2, E' in S. cbn in S. symmetry in S.
  assert (b_out b' = b_out b) by (rewrite <- (rev_involutive (b_out b)), <- O'; now rewrite rev_involutive).
  pose proof (asm_covered fs m file) as C. rewrite E' in C. cbn [snd] in C.
  do 2 eexists. rewrite <- H0. exact (C S).
Qed.

(** ** C69 *)
(** In a run without errors, an address gets a byte if and only if a symbol
    describes it. *)
Theorem C69_every_byte_has_a_symbol fs file evs : assembles fs file true evs -> forall a,
  (exists v, rom evs a = Some v) <-> exists s, In (ESym a s) evs /\ describes_byte s.
Proof.
  intros A a. destruct (assembled_good fs file evs A) as (out & -> & lams & tab & G).
  setoid_rewrite rom_val. rewrite val_put, (g_cover _ _ _ G a). unfold covers.
  split; intros (s & I & D); exists s; (split; [|apply describes_type; auto]); [apply -> in_rev; auto|apply in_rev; auto].
Qed.
Print Assumptions C69_every_byte_has_a_symbol.

Definition with_macro : str := bytes "%two: { #^ ^ } |0100 two: 12 @l ;l !{ ,&x } ""ab &x ".
Example C69_case : assembles (Props_Asm.one with_macro) (bytes "a") true (evs_of with_macro) /\
  rom (evs_of with_macro) 268 = Some 98 /\ rom (evs_of with_macro) 269 = None.
Proof. split; [assembled|]. split; vm_compute; reflexivity. Qed.

(** After an error it need not be so: here the second byte of the number does
    not fit and the first has no symbol. *)
Definition at_the_end : str := bytes "|ffff 1234 ".
Theorem C69_after_an_error_refuted : ~ forall fs file ok evs, assembles fs file ok evs -> forall a,
  (exists v, rom evs a = Some v) -> exists s, In (ESym a s) evs /\ describes_byte s.
Proof.
  intros H. destruct (H (Props_Asm.one at_the_end) (bytes "a") false (evs_of at_the_end) ltac:(assembled) 65535) as (s & I & D).
  - eexists. vm_compute. reflexivity.
  - assert (X : In s (symbols_at (evs_of at_the_end) 65535)) by exact (proj2 (symbols_at_spec _ _ _) (conj I D)).
    replace (symbols_at (evs_of at_the_end) 65535) with (@nil symbol) in X by (vm_compute; reflexivity). exact X.
Qed.
Print Assumptions C69_after_an_error_refuted.

(** ** C70 *)
(** An address that is described in one way only has the byte that is
    described: the opcode of an opcode, one of the two bytes of a number. *)
Definition only_symbol (evs : list event) (a : Z) (s : symbol) : Prop :=
  In (ESym a s) evs /\ forall s', In (ESym a s') evs -> describes_byte s' -> s' = s.

Lemma only_says fs file evs a s : assembles fs file true evs -> only_symbol evs a s -> says s (rom evs a).
Proof.
  intros A [I U]. destruct (assembled_good fs file evs A) as (out & -> & lams & tab & G).
  rewrite rom_val. apply (g_truth _ _ _ G); [apply in_rev; auto|].
  intros s' I' B. apply U; [apply -> in_rev; auto|apply describes_type; auto].
Qed.

Theorem C70_opcode fs file evs a s : assembles fs file true evs -> only_symbol evs a s -> s_type s = SOpcode ->
  rom evs a = Some (s_id s).
Proof. intros A O T. pose proof (only_says _ _ _ _ _ A O) as S. unfold says in S. now rewrite T in S. Qed.
Print Assumptions C70_opcode.

Theorem C70_number fs file evs a s : assembles fs file true evs -> only_symbol evs a s -> s_type s = SNumber ->
  rom evs a = Some (s_id s mod 256) \/ rom evs a = Some (s_id s / 256 mod 256).
Proof.
  intros A O T. pose proof (only_says _ _ _ _ _ A O) as S. unfold says in S. rewrite T, Z.shiftr_div_pow2 in S by lia. exact S.
Qed.
Print Assumptions C70_number.

Example C70_case : exists s, only_symbol (evs_of with_macro) 257 s /\ s_type s = SNumber /\ s_id s = 18 /\ rom (evs_of with_macro) 257 = Some 18.
Proof.
  assert (E : exists s, symbols_at (evs_of with_macro) 257 = [s] /\ s_type s = SNumber /\ s_id s = 18).
  { eexists. split; [vm_compute; reflexivity|]. split; reflexivity. }
  destruct E as (s & E & T & V). exists s. split; [|split; [auto|split; [auto|vm_compute; reflexivity]]].
  split; [refine (proj1 (proj1 (symbols_at_spec _ _ _) _)); rewrite E; left; auto|]. intros s' I D.
  assert (X : In s' (symbols_at (evs_of with_macro) 257)) by exact (proj2 (symbols_at_spec _ _ _) (conj I D)). rewrite E in X. destruct X as [<-|[]]. reflexivity.
Qed.

(** If code is written over code the symbols are no help, not even the last one:
    a reference that is completed later writes over what is there by then. *)
Definition overlap : str := bytes "|0100 =l |0101 INC |0200 @l ".
Theorem C70_last_symbol_refuted : exists evs before s after,
  assembles (Props_Asm.one overlap) (bytes "a") true evs /\ evs = before ++ ESym 257 s :: after /\
  (forall s', In (ESym 257 s') after -> ~ describes_byte s') /\ s_type s = SOpcode /\ rom evs 257 <> Some (s_id s).
Proof.
  exists (evs_of overlap).
  let l := eval vm_compute in (evs_of overlap) in
  match l with ?a :: ?b :: ?c :: ?d :: ?e :: ?f :: ?g :: ?h :: ?i :: ?j :: ESym 257 ?s :: ?r => exists [a; b; c; d; e; f; g; h; i; j], s, r end.
  split; [assembled|]. split; [vm_compute; reflexivity|]. split.
  - intros s' I D. repeat destruct I as [I|I]; try discriminate; contradiction.
  - split; [reflexivity|]. vm_compute. discriminate.
Qed.
Print Assumptions C70_last_symbol_refuted.

(** ** C71 *)
(** The addresses that are described, in the order of the run. *)
Definition described (evs : list event) : list (Z * symbol) :=
  flat_map (fun e => match e with ESym a s => if byte_type (s_type s) then [(a, s)] else [] | _ => [] end) evs.
Lemma described_spec evs a s : In (a, s) (described evs) <-> In (ESym a s) evs /\ describes_byte s.
Proof.
  unfold described. rewrite in_flat_map, describes_type. split.
  - intros (e & I & H). destruct e; try contradiction. destruct (byte_type _) eqn:B; [|contradiction]. destruct H as [[= <- <-]|[]]. auto.
  - intros [I B]. eexists. split; [exact I|]. cbn. rewrite B. left. reflexivity.
Qed.
(** A program that goes upwards: no code over code, no jump back. *)
Definition ascending (evs : list event) : Prop := StronglySorted (fun p q => fst p < fst q) (described evs).

(** The entry of the debug file for a symbol: the same kind, the same place in
    the same file. *)
Definition kind (t : sym_type) : Z :=
  match t with SOpcode => 0 | SLabelRef => 1 | SNumber => 2 | SText => 3 | _ => -1 end.
Definition entry_for (s : symbol) (d : dsym) : Prop :=
  d_type d = kind (s_type s) /\ r_file (d_reg d) = r_file (s_reg s) /\
  byte (r_start (d_reg d)) = byte (r_start (s_reg s)) /\ byte (r_end (d_reg d)) = byte (r_end (s_reg s)).

(** The state of the front end, newest first. *)
Definition all (x : front) : list dsym := match x_cur x with Some c => c :: x_dbg x | None => x_dbg x end.
Definition code_syms (l : list dsym) : list dsym := filter (fun d => negb (d_type d =? DBG_LABEL)) l.
Record dbg_inv (x : front) (seen : list (Z * symbol)) : Prop := mkDbgInv {
  i_sorted : StronglySorted (fun s t => d_max t < d_min s) (code_syms (all x));
  i_ranges : Forall (fun d => d_type d <> DBG_LABEL -> d_min d <= d_max d) (all x);
  i_below : forall d b, In d (all x) -> d_type d <> DBG_LABEL -> (forall p, In p seen -> fst p < b) -> d_max d < b;
  i_found : forall a s, In (a, s) seen -> exists d, In d (all x) /\ d_min d <= a <= d_max d /\ entry_for s d
}.

Lemma str_eqb_eq a b : str_eqb a b = true -> a = b.
Proof. unfold str_eqb. destruct (str_dec a b); [auto|discriminate]. Qed.

Lemma in_code d l : In d (code_syms l) <-> In d l /\ d_type d <> DBG_LABEL.
Proof. unfold code_syms. rewrite filter_In. split; intros [A B]; split; auto; lia. Qed.

(** What the routine does with the list. *)
Lemma put_dbg_all x t a s : let fresh := mkDsym t (s_id s) a a (s_reg s) in
  all (put_dbg_sym x t a s) = fresh :: all x \/
  exists c rest, all x = c :: rest /\ all (put_dbg_sym x t a s) = mkDsym (d_type c) (d_id c) (d_min c) a (d_reg c) :: rest /\
    d_type c = t /\ r_file (d_reg c) = r_file (s_reg s) /\
    byte (r_start (d_reg c)) = byte (r_start (s_reg s)) /\ byte (r_end (d_reg c)) = byte (r_end (s_reg s)).
Proof.
  cbn zeta. unfold put_dbg_sym, all. destruct (x_cur x) as [c|]; cbn; auto.
  destruct (_ && _) eqn:C; cbn; auto. right. exists c, (x_dbg x). repeat (apply andb_prop in C as [C ?]).
  split; auto. split; auto. split; [lia|]. split; [symmetry; apply str_eqb_eq; auto|]. lia.
Qed.

Lemma inv_label x seen a s : dbg_inv x seen -> dbg_inv (put_dbg_sym x DBG_LABEL a s) seen.
Proof.
  intros [O R B F]. destruct (put_dbg_all x DBG_LABEL a s) as [E|(c & rest & E1 & E & T & _)].
  - constructor; rewrite ?E.
    + exact O.
    + constructor; [cbn; congruence|auto].
    + intros d b [<-|I] N; [cbn in N; congruence|]. apply B; auto.
    + intros y s' I. destruct (F y s' I) as (d & I' & D). exists d. split; [right; auto|auto].
  - constructor; rewrite ?E; rewrite E1 in *.
    + unfold code_syms in *. cbn [filter d_type] in *. rewrite T in *. exact O.
    + inversion R; subst. constructor; [cbn; congruence|auto].
    + intros d b [<-|I] N; [cbn in N; congruence|]. apply B; [right|]; auto.
    + intros y s' I. destruct (F y s' I) as (d & [<-|I'] & D & G).
      * exfalso. destruct G as [G _]. rewrite T in G. destruct (s_type s'); discriminate.
      * exists d. split; [right; auto|auto].
Qed.

Lemma inv_byte x seen t a s : kind (s_type s) = t -> 0 <= t -> dbg_inv x seen -> (forall p, In p seen -> fst p < a) ->
  dbg_inv (put_dbg_sym x t a s) (seen ++ [(a, s)]).
Proof.
  intros K T0 [O R B F] A.
  assert (TL : t <> DBG_LABEL) by (destruct (s_type s); cbn in K; subst t; discriminate || lia).
  assert (Low : forall d, In d (all x) -> d_type d <> DBG_LABEL -> d_max d < a) by (intros; apply B; auto).
  destruct (put_dbg_all x t a s) as [E|(c & rest & E1 & E & T & P1 & P2 & P3)].
  - constructor; rewrite ?E.
    + unfold code_syms. cbn [filter d_type]. replace (t =? DBG_LABEL) with false by lia. cbn [negb]. constructor; auto.
      apply Forall_forall. intros d I. apply (in_code d) in I as [I N]. cbn. auto.
    + constructor; [cbn; lia|auto].
    + intros d b [<-|I] N G; [cbn; apply (G (a, s)); apply in_or_app; right; left; auto|].
      apply B; auto. intros p I'. apply G. apply in_or_app; auto.
    + intros y s' I. apply in_app_or in I as [I|[[= <- <-]|[]]].
      * destruct (F y s' I) as (d & I' & D). exists d. split; [right; auto|auto].
      * eexists. split; [left; reflexivity|]. cbn. split; [lia|]. repeat split. auto.
  - rewrite E1 in *. pose proof (Low c ltac:(left; auto) ltac:(congruence)) as Lc.
    inversion R as [|? ? Rc Rr]; subst. specialize (Rc ltac:(congruence)).
    constructor; rewrite ?E.
    + unfold code_syms in *. cbn [filter d_type] in *. replace (d_type c =? DBG_LABEL) with false in * by lia. cbn [negb] in *.
      inversion O; subst. constructor; auto.
    + constructor; [cbn; lia|auto].
    + intros d b [<-|I] N G; [cbn; apply (G (a, s)); apply in_or_app; right; left; auto|].
      apply B; [right; auto|auto|]. intros p I'. apply G. apply in_or_app; auto.
    + intros y s' I. apply in_app_or in I as [I|[[= <- <-]|[]]].
      * destruct (F y s' I) as (d & [<-|I'] & D & G).
        -- eexists. split; [left; reflexivity|]. cbn. split; [lia|exact G].
        -- exists d. split; [right; auto|auto].
      * eexists. split; [left; reflexivity|]. cbn. split; [lia|]. split; auto.
Qed.

Lemma inv_same x x' seen : x_dbg x' = x_dbg x -> x_cur x' = x_cur x -> dbg_inv x seen -> dbg_inv x' seen.
Proof.
  intros E1 E2 I. assert (E : all x' = all x) by (unfold all; now rewrite E1, E2).
  destruct I. constructor; rewrite E; auto.
Qed.

Lemma described_app a b : described (a ++ b) = described a ++ described b.
Proof. apply flat_map_app. Qed.
Lemma sorted_app {A} (R : A -> A -> Prop) l1 x l2 : StronglySorted R (l1 ++ x :: l2) -> forall y, In y l1 -> R y x.
Proof.
  induction l1 as [|z l1 IH]; cbn; intros S y []; inversion S as [|? ? S' F]; subst.
  - rewrite Forall_forall in F. apply F. apply in_or_app. right. left. auto.
  - apply IH; auto.
Qed.

Lemma inv_run evs : forall x seen x', dbg_inv x seen -> StronglySorted (fun p q => fst p < fst q) (seen ++ described evs) ->
  front_run x evs = FOk x' -> dbg_inv x' (seen ++ described evs).
Proof.
  induction evs as [|e evs IH]; intros x seen x' I S; cbn [front_run].
  - intros [= <-]. cbn. rewrite app_nil_r. auto.
  - assert (SAME : forall x1, front_event x e = FOk x1 -> dbg_inv x1 (seen ++ described [e]) -> front_run x1 evs = FOk x' ->
      dbg_inv x' (seen ++ described (e :: evs))).
    { intros x1 _ I1 R. change (e :: evs) with ([e] ++ evs). rewrite described_app, app_assoc. apply (IH x1); auto.
      rewrite <- app_assoc, <- described_app. exact S. }
    destruct (front_event x e) as [x1|f|] eqn:E; try discriminate. apply (SAME x1); auto.
    destruct e; cbn [front_event] in E; try (cbn; rewrite app_nil_r; injection E as <-; auto; fail).
    + cbn. rewrite app_nil_r. unfold put_rom in E. destruct (aset _ _ _ _); [|discriminate]. injection E as <-. apply (inv_same x); auto.
    + unfold front_symbol in E. unfold described. cbn [flat_map].
      assert (LOW : byte_type (s_type sym) = true -> forall p, In p seen -> fst p < addr).
      { intros Bt p Ip. unfold described in S. cbn [flat_map] in S. rewrite Bt in S. cbn [app] in S.
        exact (sorted_app (fun p q => fst p < fst q) seen (addr, sym) _ S p Ip). }
      destruct (s_type sym) eqn:T; cbn [byte_type app] in *; rewrite ?app_nil_r.
      * injection E as <-. apply (inv_same x); auto.
      * injection E as <-. auto.
      * injection E as <-. auto.
      * injection E as <-. auto.
      * injection E as <-. auto.
      * destruct (s_name sym) as [n|]; [|discriminate]. destruct (s_id sym =? 0); [discriminate|]. injection E as <-.
        apply inv_label. apply (inv_same x); auto.
      * destruct (s_id sym =? 0); [discriminate|]. injection E as <-. apply inv_byte; auto; [rewrite T; reflexivity|discriminate].
      * injection E as <-. apply inv_byte; auto; [rewrite T; reflexivity|discriminate].
      * injection E as <-. apply inv_byte; auto; [rewrite T; reflexivity|discriminate].
      * injection E as <-. apply inv_byte; auto; [rewrite T; reflexivity|discriminate].
    + cbn. rewrite app_nil_r. injection E as <-. apply (inv_same x); auto.
Qed.

Lemma sorted_rev {A} (R : A -> A -> Prop) l : StronglySorted R l -> StronglySorted (fun x y => R y x) (rev l).
Proof.
  assert (SN : forall (Q : A -> A -> Prop) l x, StronglySorted Q l -> (forall y, In y l -> Q y x) -> StronglySorted Q (l ++ [x])).
  { intros Q l0 x. induction 1 as [|y l0 S IH F]; cbn; intros H; [repeat constructor|].
    constructor; [apply IH; auto|]. apply Forall_app. split; auto. }
  induction 1 as [|x l S IH F]; cbn; [constructor|]. apply SN; auto. intros y I. apply in_rev in I. rewrite Forall_forall in F. auto.
Qed.
Lemma filter_rev' {A} (f : A -> bool) l : filter f (rev l) = rev (filter f l).
Proof. induction l as [|x l IH]; cbn; auto. rewrite filter_app, IH. cbn. destruct (f x); cbn; auto using app_nil_r. Qed.

(** The debug file of an upward program: the entries are in the order that the
    viewer needs and every symbol that describes a byte has an entry for it. *)
Theorem C71_debug_file evs o syms : ascending evs -> front_main true evs = FEnd 0 o -> o_dbg o = Some syms ->
  in_order syms /\
  forall a s, In (ESym a s) evs -> describes_byte s -> exists d, In d syms /\ d_min d <= a <= d_max d /\ entry_for s d.
Proof.
  intros A M D. unfold front_main in M. destruct (front_run front0 evs) as [x|f|] eqn:R; try discriminate.
  injection M as <-. injection D as <-.
  assert (I : dbg_inv x ([] ++ described evs)).
  { apply (inv_run evs front0 [] x); auto. constructor; cbn; try constructor; [intros d b []|intros a s []]. }
  cbn [app] in I. destruct I as [O Rg B F]. change (debug_symbols x) with (rev (all x)). split.
  - split.
    + unfold code_syms in O. rewrite filter_rev'. apply sorted_rev in O. exact O.
    + apply Forall_rev. auto.
  - intros a s I Ds. destruct (F a s) as (d & I' & H); [apply described_spec; auto|]. exists d. split; auto. apply -> in_rev. auto.
Qed.
Print Assumptions C71_debug_file.

(** So the viewer shows every byte of the ROM with the kind and the place of a
    symbol of its address. *)
Theorem C71_viewer fs file evs o syms view_pos line_offset width height rom_size lo cells p c v :
  assembles fs file true evs -> ascending evs -> front_main true evs = FEnd 0 o -> o_dbg o = Some syms ->
  0 <= view_pos -> 0 <= line_offset -> 0 <= width -> 4 <= height -> rom_size <= 65280 ->
  frame view_pos line_offset width height rom_size syms = Ok (lo, cells) -> In (p, c) cells ->
  rom evs (256 + p) = Some v ->
  exists s d, In (ESym (256 + p) s) evs /\ describes_byte s /\ c = Some d /\ entry_for s d.
Proof.
  intros A U M D V L W H Rs F I Rv.
  destruct (C71_debug_file evs o syms U M D) as [O K].
  destruct (proj1 (C69_every_byte_has_a_symbol fs file evs A (256 + p)) (ex_intro _ v Rv)) as (s & Is & Ds).
  destruct (K _ s Is Ds) as (d & Id & Rd & Ed).
  pose proof (C67_right_symbol view_pos line_offset width height rom_size syms lo cells p c O V L W H Rs F I) as C.
  assert (Ld : d_type d <> DBG_LABEL) by (destruct Ed as [-> _]; destruct Ds as [->|[->|[->| ->]]]; discriminate).
  destruct c as [d'|]; [|exfalso; apply (C d); repeat split; auto; lia].
  exists s, d. split; auto. split; auto. split; auto. f_equal.
  destruct C as (I' & L' & R').
  (* entries that share an address are the same *)
  destruct O as [O _]. revert O. fold (code_syms syms).
  assert (J : In d (code_syms syms) /\ In d' (code_syms syms)) by (split; apply in_code; auto).
  revert J. generalize (code_syms syms). clear - Rd R'. intros l [J1 J2] O. induction O as [|x l S IH F]; [contradiction|].
  rewrite Forall_forall in F. destruct J1 as [<-|J1], J2 as [<-|J2]; auto.
  - specialize (F _ J2). lia.
  - specialize (F _ J1). lia.
Qed.
Print Assumptions C71_viewer.

(** For the examples. *)
Fixpoint ascends (l : list (Z * symbol)) : bool :=
  match l with
  | p :: ((q :: _) as l') => (fst p <? fst q) && ascends l'
  | _ => true
  end.
Lemma ascends_ok evs : ascends (described evs) = true -> ascending evs.
Proof.
  unfold ascending. generalize (described evs). intros l H. apply Sorted_StronglySorted.
  { intros p q r A B. lia. }
  revert H. induction l as [|p [|q l] IH]; intros H; [constructor|repeat constructor|]. cbn [ascends] in H.
  apply andb_prop in H as [H1 H2]. constructor; [apply IH; exact H2|]. constructor. lia.
Qed.

Example C71_case : ascending (evs_of with_macro) /\ exists o, front_main true (evs_of with_macro) = FEnd 0 o /\
  match o_dbg o with Some syms => List.length syms | None => 0%nat end = 13%nat.
Proof.
  split; [apply ascends_ok; vm_compute; reflexivity|]. eexists. split; vm_compute; reflexivity.
Qed.

(** For other programs it does not hold: symbols of the same place in the source
    that follow each other are merged into one entry, whatever their addresses.
    Here the byte at 0x200 is described and has no entry. *)
Definition merged : str := bytes "%m { INC } |0200 m |0100 m ".
Theorem C71_any_program_refuted : exists o syms s,
  assembles (Props_Asm.one merged) (bytes "a") true (evs_of merged) /\
  front_main true (evs_of merged) = FEnd 0 o /\ o_dbg o = Some syms /\
  In s (symbols_at (evs_of merged) 512) /\ forall d, In d syms -> ~ (d_min d <= 512 <= d_max d).
Proof.
  do 3 eexists. split; [assembled|]. split; [vm_compute; reflexivity|]. split; [reflexivity|].
  split; [match goal with |- In _ ?l => let l' := eval vm_compute in l in replace l with l' by (vm_compute; reflexivity) end; left; reflexivity|].
  intros d I. repeat destruct I as [<-|I]; try contradiction; cbn; lia.
Qed.
Print Assumptions C71_any_program_refuted.

(** Nor does the entry have the number of the symbol: the argument of a macro
    is no part of the place.  Here the entry for the reference to [lb] has the
    number of [la], so that the viewer goes to [la]. *)
Definition argument : str := bytes "%m: { =^ } |0100 m: la m: lb @la @lb ".
Theorem C71_number_refuted : exists o syms s,
  assembles (Props_Asm.one argument) (bytes "a") true (evs_of argument) /\ ascending (evs_of argument) /\
  front_main true (evs_of argument) = FEnd 0 o /\ o_dbg o = Some syms /\
  symbols_at (evs_of argument) 258 = [s] /\ s_name s = Some (bytes "lb") /\
  forall d, In d syms -> d_min d <= 258 <= d_max d -> d_id d <> s_id s.
Proof.
  do 3 eexists. split; [assembled|]. split; [apply ascends_ok; vm_compute; reflexivity|].
  split; [vm_compute; reflexivity|]. split; [reflexivity|]. split; [vm_compute; reflexivity|]. split; [reflexivity|].
  intros d I. repeat destruct I as [<-|I]; try contradiction; cbn; lia.
Qed.
Print Assumptions C71_number_refuted.
