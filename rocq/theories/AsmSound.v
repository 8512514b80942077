(** Facts about every run of the assembler, successful or not: the log only
    grows, an error is reported exactly when [b_success] is cleared, bytes go to
    valid addresses, no assert fails and no loop runs out of fuel. *)
From Verif Require Import Base AsmModel.
From Coq Require Import ZifyBool.

Arguments is_runic : simpl never.
Arguments is_number : simpl never.
Arguments parse_opcode : simpl never.
Arguments bytes : simpl never.
Arguments chr : simpl never.

Definition is_err (e : event) : bool := match e with EReport true _ _ => true | _ => false end.
(** A name that [find_or_create] takes. *)
Definition good_name (n : str) : Prop :=
  match n with [] => False | c :: _ => is_runic c = false /\ parse_opcode n = None /\ is_number n = false end.
Definition named (s : symbol) : Prop :=
  match s_type s with
  | SLabel => exists n, s_name s = Some n /\ if s_gen s then exists id, n = lambda_name id else good_name n
  | SMacro => exists n, s_name s = Some n /\ good_name n
  | _ => True
  end.
Lemma create_good b t n v b' : find_or_create b t n = (Some v, b') -> good_name n.
Proof.
  unfold find_or_create, good_name. destruct n; [discriminate|]. destruct (is_runic z); [discriminate|].
  destruct (parse_opcode _); [discriminate|]. destruct (is_number _); [discriminate|]. auto.
Qed.
Definition ok_put (e : event) : Prop :=
  match e with
  | EPut a v => 256 <= a <= 65535 /\ is_byte v
  | ESym a s => is_short a /\ named s
  | _ => True
  end.
Definition noerr (l : list event) : bool := forallb (fun e => negb (is_err e)) l.

Lemma noerr_app a b : noerr (a ++ b) = noerr a && noerr b.
Proof. apply forallb_app. Qed.

(** ** Well-formed states *)
Definition tok_ok (t : token) : Prop := t_lex t <> [].
Definition entry_ok (e : entry) : Prop :=
  match e with
  | EnUnknown => True
  | EnMacro _ toks _ => Forall tok_ok toks
  | EnLabel _ a => is_short a
  | EnForward _ refs => Forall (fun r => is_short (f_addr r)) refs
  end.
Record wf (b : basm) : Prop := mkWf {
  wf_addr : is_short (b_addr b);
  wf_sym : Forall (fun nv => entry_ok (n_entry (snd nv))) (b_symtab b);
  wf_lambdas : Forall (fun r => is_short (f_addr r)) (b_lambdas b);
  wf_ats : Forall (fun r => is_short (f_addr r)) (b_ats b);
  wf_depth : 0 <= b_depth b;
  wf_err : b_buf b = Some IO_ERROR -> b_success b = false
}.

(** How deeply files and macros are nested after the events. *)
Fixpoint nest (l : list event) : Z :=
  match l with
  | [] => 0
  | EOpen _ :: l' | EEnter _ :: l' => nest l' + 1
  | EClose _ :: l' | ELeave _ :: l' => nest l' - 1
  | _ :: l' => nest l'
  end.
Lemma nest_app a b : nest (a ++ b) = nest a + nest b.
Proof. induction a as [|e a IH]; [reflexivity|]. cbn [nest app]. rewrite IH. destruct e; lia. Qed.

(** Events made at the depth [d]: they open and close whole units, not too
    deeply. *)
Definition nested (d : Z) (evs : list event) : Prop :=
  nest evs = 0 /\ forall p s, evs = p ++ s -> 0 <= nest s <= Z.max 0 (MAX_PREPROCESSOR_DEPTH - d).

Lemma nested_nil d : nested d [].
Proof. split; auto. intros p s E. symmetry in E. apply app_eq_nil in E. destruct E as [-> ->]. cbn. lia. Qed.
Lemma nested_app d a b : nested d a -> nested d b -> nested d (a ++ b).
Proof.
  intros [A1 A2] [B1 B2]. split; [rewrite nest_app; lia|]. intros p s E.
  destruct (app_eq_app _ _ _ _ E) as [l [[E1 E2]|[E1 E2]]]; subst.
  - rewrite nest_app, B1. specialize (A2 _ _ eq_refl). lia.
  - exact (B2 _ _ eq_refl).
Qed.
Lemma nested_one d e : match e with EOpen _ | EClose _ | EEnter _ | ELeave _ => False | _ => True end -> nested d [e].
Proof.
  intros H. split; [destruct e; cbn; auto; contradiction|]. intros p s E.
  destruct p as [|x p].
  - cbn in E. subst. destruct e; cbn; try contradiction; lia.
  - injection E as -> E. symmetry in E. apply app_eq_nil in E. destruct E as [-> ->]. cbn. lia.
Qed.
(** A unit opened and closed at the depth [d]. *)
Lemma nested_unit d o evs c :
  d < MAX_PREPROCESSOR_DEPTH -> nested (d + 1) evs -> nest [o] = 1 -> nest [c] = -1 -> nested d (c :: evs ++ [o]).
Proof.
  intros D [E1 E2] O C.
  assert (Cn : forall l, nest (c :: l) = nest l - 1).
  { intros l. change (c :: l) with ([c] ++ l). rewrite nest_app. lia. }
  split; [rewrite Cn, nest_app; lia|]. intros p s E. destruct p as [|x p].
  - cbn in E. subst s. rewrite Cn, nest_app. lia.
  - injection E as -> E. destruct (app_eq_app _ _ _ _ E) as [l [[X1 X2]|[X1 X2]]]; subst.
    + rewrite nest_app, O. specialize (E2 _ _ eq_refl). lia.
    + destruct l as [|y l]; cbn in X2.
      * subst s. rewrite O. lia.
      * injection X2 as <- X2. symmetry in X2. apply app_eq_nil in X2. destruct X2 as [-> ->]. cbn. lia.
Qed.

(** ** How a state grows *)
Record rel (b b' : basm) : Prop := mkRel {
  r_out : exists evs, b_out b' = evs ++ b_out b /\ b_success b' = b_success b && noerr evs /\ Forall ok_put evs /\
                      nested (b_depth b) evs;
  r_depth : b_depth b' = b_depth b;
  r_fault : b_fault b' = b_fault b;
  r_includes : incl (b_includes b) (b_includes b')
}.

Lemma rel_refl b : rel b b.
Proof.
  constructor; auto.
  - exists []. split; [reflexivity|]. split; [symmetry; apply andb_true_r|]. split; [constructor|apply nested_nil].
  - apply incl_refl.
Qed.
Lemma rel_trans a b c : rel a b -> rel b c -> rel a c.
Proof.
  intros [(e1 & O1 & S1 & P1 & X1) D1 F1 I1] [(e2 & O2 & S2 & P2 & X2) D2 F2 I2]. constructor; try congruence.
  - exists (e2 ++ e1). rewrite O2, O1, app_assoc. split; [reflexivity|]. split.
    + rewrite S2, S1, noerr_app. destruct (b_success a), (noerr e1), (noerr e2); reflexivity.
    + split; [apply Forall_app; auto|]. apply nested_app; auto. rewrite <- D1. auto.
  - eapply incl_tran; eauto.
Qed.
Lemma rel_failed b b' : rel b b' -> b_success b = false -> b_success b' = false.
Proof. intros [(e & _ & S & _ & _) _ _ _] F. rewrite S, F. reflexivity. Qed.

(** The number of characters in the buffer that are still to be read. *)
Definition bit (c : option Z) : nat := match c with Some c => if c =? IO_EOF then 0 else 1 | None => 0 end.
(** The buffer does not get fuller. *)
Definition bufle (b b' : basm) : Prop := (bit (b_buf b') <= bit (b_buf b))%nat.
Definition mu (b : basm) (u : unit_) : nat :=
  match u with UFile _ inp _ => 2 * List.length inp + bit (b_buf b) | UMacro rest _ => List.length rest end.
Definition unit_ok (u : unit_) : Prop :=
  match u with
  | UFile _ _ _ => True
  | UMacro rest arg => Forall tok_ok rest /\ match arg with Some a => tok_ok a | None => True end
  end.

Lemma mu_bufle b b' u : bufle b b' -> (mu b' u <= mu b u)%nat.
Proof. unfold bufle, mu. destruct u; lia. Qed.

(** What every C function does: from [b], with result [ok] and state [b']. *)
Record post (b : basm) (r : ret) : Prop := mkPost {
  p_rel : rel b (snd r);
  p_wf : wf (snd r);
  p_buf : bufle b (snd r);
  p_failed : fst r = false -> b_success (snd r) = false
}.

Lemma andthen_eq r g : andthen r g = if fst r then g (snd r) else (false, snd r).
Proof. destruct r as [ok b]. reflexivity. Qed.

Lemma post_andthen b r g :
  post b r -> (forall b', fst r = true -> rel b b' -> wf b' -> bufle b b' -> post b' (g b')) -> post b (andthen r g).
Proof.
  intros [R W B F] H. rewrite andthen_eq. destruct (fst r) eqn:E.
  - destruct (H _ eq_refl R W B) as [R' W' B' F']. constructor; auto.
    + eapply rel_trans; eauto.
    + unfold bufle in *. lia.
  - constructor; auto.
Qed.
Lemma post_ok b b' : rel b b' -> wf b' -> bufle b b' -> post b (true, b').
Proof. intros. constructor; auto. discriminate. Qed.
Lemma post_from b b1 r : rel b b1 -> bufle b b1 -> post b1 r -> post b r.
Proof.
  intros R B [R' W' B' F']. constructor; auto.
  - eapply rel_trans; eauto.
  - unfold bufle in *; lia.
Qed.

(** ** Primitive changes *)
(** Any change that leaves the log, the success flag, the depth, the fault and
    the includes alone. *)
Lemma rel_quiet b b' :
  b_out b' = b_out b -> b_success b' = b_success b -> b_depth b' = b_depth b -> b_fault b' = b_fault b ->
  b_includes b' = b_includes b -> rel b b'.
Proof.
  intros O S D F I. constructor; auto.
  - exists []. rewrite O, S, andb_true_r. auto using nested_nil.
  - rewrite I. apply incl_refl.
Qed.
Definition no_unit (e : event) : Prop := match e with EOpen _ | EClose _ | EEnter _ | ELeave _ => False | _ => True end.
Lemma rel_log b e : is_err e = false -> ok_put e -> no_unit e -> rel b (log b e).
Proof.
  intros E P U. constructor; auto.
  - exists [e]. split; [reflexivity|]. split.
    + cbn. rewrite E, andb_true_r. reflexivity.
    + split; [constructor; auto|]. apply nested_one; auto.
  - apply incl_refl.
Qed.
Lemma rel_error b m r : rel b (error_ex b m r).
Proof.
  constructor; auto.
  - exists [EReport true m r]. split; [reflexivity|]. split.
    + cbn. symmetry; apply andb_false_r.
    + split; [repeat constructor|]. apply nested_one; exact I.
  - apply incl_refl.
Qed.

Ltac quiet := apply rel_quiet; reflexivity.

Lemma wf_log b e : wf b -> wf (log b e).
Proof. intros [A S L T D X]. constructor; auto. Qed.
Lemma wf_error b m r : wf b -> wf (error_ex b m r).
Proof. intros [A S L T D X]. constructor; auto. Qed.
Lemma wf_buf b c : wf b -> (c = Some IO_ERROR -> b_success b = false) -> wf (set_buf b c).
Proof. intros [A S L T D X]. constructor; auto. Qed.
Lemma wf_set_addr b a : wf b -> is_short a -> wf (set_addr b a).
Proof. intros [A S L T D X] H. constructor; auto. Qed.
Lemma wf_labels b a : wf b -> wf (set_labels b a).
Proof. intros [A S L T D X]. constructor; auto. Qed.
Lemma wf_nlambdas b a : wf b -> wf (set_nlambdas b a).
Proof. intros [A S L T D X]. constructor; auto. Qed.
Lemma wf_macros b a : wf b -> wf (set_macros b a).
Proof. intros [A S L T D X]. constructor; auto. Qed.
Lemma wf_scope b a : wf b -> wf (set_scope b a).
Proof. intros [A S L T D X]. constructor; auto. Qed.
Lemma wf_includes b a : wf b -> wf (set_includes b a).
Proof. intros [A S L T D X]. constructor; auto. Qed.
Lemma wf_deferred b a : wf b -> wf (set_deferred b a).
Proof. intros [A S L T D X]. constructor; auto. Qed.
Lemma wf_set_lambdas b l : wf b -> Forall (fun r => is_short (f_addr r)) l -> wf (set_lambdas b l).
Proof. intros [A S L T D X] H. constructor; auto. Qed.
Lemma wf_set_ats b l : wf b -> Forall (fun r => is_short (f_addr r)) l -> wf (set_ats b l).
Proof. intros [A S L T D X] H. constructor; auto. Qed.
Lemma wf_set_depth b d : wf b -> 0 <= d -> wf (set_depth b d).
Proof. intros [A S L T D X] H. constructor; auto. Qed.
Lemma wf_set_symtab b l : wf b -> Forall (fun nv => entry_ok (n_entry (snd nv))) l -> wf (set_symtab b l).
Proof. intros [A S L T D X] H. constructor; auto. Qed.

Lemma update_ok n v l :
  Forall (fun nv : str * node => entry_ok (n_entry (snd nv))) l -> entry_ok (n_entry v) ->
  Forall (fun nv => entry_ok (n_entry (snd nv))) (update n v l).
Proof.
  intros F V. induction F as [|[k w] l' Hx Hl IH]; [constructor|].
  cbn. destruct (str_dec k n); constructor; auto.
Qed.
Lemma wf_set_node b n v : wf b -> entry_ok (n_entry v) -> wf (set_node b n v).
Proof. intros W V. apply wf_set_symtab; auto. apply update_ok; auto. apply W. Qed.
Lemma lookup_ok l n v :
  Forall (fun nv : str * node => entry_ok (n_entry (snd nv))) l -> lookup n l = Some v -> entry_ok (n_entry v).
Proof.
  induction 1 as [|[k w] l' Hx Hl IH]; cbn; [discriminate|].
  destruct (str_dec k n); auto. intros [= <-]. auto.
Qed.

Lemma u16_short x : is_short (u16 x).
Proof. unfold is_short, u16. pose proof (Z.mod_pos_bound x 65536). lia. Qed.
Lemma u8_byte x : is_byte (u8 x).
Proof. unfold is_byte, u8. pose proof (Z.mod_pos_bound x 256). lia. Qed.
Global Hint Resolve u16_short u8_byte : core.

Lemma post_error b t m : wf b -> post b (error b t m).
Proof.
  intros W. constructor; cbn.
  - apply rel_error.
  - apply wf_error; auto.
  - unfold bufle; auto.
  - reflexivity.
Qed.
Lemma post_error_ex b m r : wf b -> post b (false, error_ex b m r).
Proof.
  intros W. constructor; cbn.
  - apply rel_error.
  - apply wf_error; auto.
  - unfold bufle; auto.
  - reflexivity.
Qed.
Lemma bufle_refl b : bufle b b.
Proof. unfold bufle; lia. Qed.
Lemma bufle_trans a b c : bufle a b -> bufle b c -> bufle a c.
Proof. unfold bufle; lia. Qed.
Lemma post_ret b : wf b -> post b (true, b).
Proof. intros. apply post_ok; auto using rel_refl, bufle_refl. Qed.
Ltac nm := unfold named; cbn; try discriminate; auto; try (intros; discriminate).
Lemma short_u16 a : is_short (u16 a).
Proof. apply Z.mod_pos_bound. lia. Qed.
Lemma rel_put_symbol b a s : named s -> rel b (put_symbol b a s).
Proof. intros. apply rel_log; cbn; auto using short_u16. Qed.
Lemma post_put_symbol b a s : named s -> wf b -> post b (true, put_symbol b a s).
Proof. intros. apply post_ok; [apply rel_put_symbol; auto| apply wf_log; auto | unfold bufle; cbn; lia]. Qed.

Lemma rel_warning b t m : rel b (warning b t m).
Proof. apply rel_log; cbn; auto. Qed.

(** ** Emitting *)
Lemma post_emit b t v : wf b -> post b (emit b t v).
Proof.
  intros W. unfold emit. destruct (Z.ltb_spec (b_addr b) RESET_VECTOR).
  - eapply post_from; [| |apply post_error; apply wf_set_addr; auto]; [quiet | unfold bufle; cbn; lia].
  - apply post_ok.
    + eapply rel_trans; [|apply rel_log; [reflexivity| |exact I]].
      * quiet.
      * cbn. destruct W as [A _ _ _ _ _]. unfold is_short, RESET_VECTOR in *. split; auto; lia.
    + apply wf_log, wf_set_addr; auto.
    + unfold bufle; cbn; lia.
Qed.
Lemma post_emit2 b t v : wf b -> post b (emit2 b t v).
Proof. intros W. apply post_andthen; auto using post_emit. Qed.

Lemma post_then_symbol b r (f : basm -> basm) :
  post b r -> (forall b', rel b' (f b') /\ (wf b' -> wf (f b')) /\ b_buf (f b') = b_buf b') ->
  post b (andthen r (fun b => (true, f b))).
Proof.
  intros P H. apply post_andthen; auto. intros b' _ R W B. destruct (H b') as (R' & W' & B').
  apply post_ok; auto. unfold bufle. rewrite B'. lia.
Qed.
Lemma rel_put_symbol2 b a s : named s -> rel b (put_symbol2 b a s).
Proof. intros N. unfold put_symbol2. eapply rel_trans; apply rel_put_symbol; exact N. Qed.

Lemma post_emit_opcode b t op r : wf b -> post b (emit_opcode b t op r).
Proof.
  intros W. apply (post_then_symbol b (emit b t op) (fun b' => put_symbol b' _ _)); [apply post_emit; auto|].
  intros b'. split; [apply rel_put_symbol; nm|]. split; [apply wf_log|reflexivity].
Qed.
Lemma post_emit_byte b t op r : wf b -> post b (emit_byte b t op r).
Proof.
  intros W. apply (post_then_symbol b (emit b t op) (fun b' => put_symbol b' _ _)); [apply post_emit; auto|].
  intros b'. split; [apply rel_put_symbol; nm|]. split; [apply wf_log|reflexivity].
Qed.
Lemma post_emit_short b t op r : wf b -> post b (emit_short b t op r).
Proof.
  intros W. apply (post_then_symbol b (emit2 b t op) (fun b' => put_symbol2 b' _ _)); [apply post_emit2; auto|].
  intros b'. split; [apply rel_put_symbol2; nm|]. split; [intros; apply wf_log, wf_log; auto|reflexivity].
Qed.

Lemma post_emit_placeholder b t sz s r : wf b -> post b (emit_placeholder b t sz s r).
Proof.
  intros W. unfold emit_placeholder.
  assert (G : forall b1 name id, wf b1 -> rel b b1 -> bufle b b1 ->
    post b (let sym := mkSymbol SLabelRef false id name (word_region (t_reg t) r) in
            let addr := b_addr b1 in
            match sz with
            | RByte => emit b1 t 1 ;; b => (true, put_symbol b addr sym)
            | RShort => emit2 b1 t 1 ;; b => (true, put_symbol2 b addr sym)
            end)).
  { intros b1 name id W1 R1 B1. cbn zeta. eapply post_from; eauto. destruct sz.
    - apply (post_then_symbol b1 (emit b1 t 1) (fun b' => put_symbol b' _ _)); [apply post_emit; auto|].
      intros b'. split; [apply rel_put_symbol; nm|]. split; [apply wf_log|reflexivity].
    - apply (post_then_symbol b1 (emit2 b1 t 1) (fun b' => put_symbol2 b' _ _)); [apply post_emit2; auto|].
      intros b'. split; [apply rel_put_symbol2; nm|]. split; [intros; apply wf_log, wf_log; auto|reflexivity]. }
  destruct s as [[n id]|]; apply G; auto using rel_refl, bufle_refl.
  - apply wf_labels; auto.
  - quiet.
  - unfold bufle; cbn; lia.
Qed.

Lemma post_set b b1 b' : post b (true, b1) -> rel b1 b' -> b_buf b' = b_buf b1 -> (wf b1 -> wf b') -> post b (true, b').
Proof.
  intros [R W B _] R' B' W'. cbn in *. apply post_ok; auto.
  - eapply rel_trans; eauto.
  - unfold bufle in *. rewrite B'. lia.
Qed.

Lemma rel_set_node b n v : rel b (set_node b n v).
Proof. quiet. Qed.

Lemma post_emit_forward_ref b t ty sz n v r :
  wf b -> entry_ok (n_entry v) ->
  match n_entry v with EnUnknown | EnForward _ _ => True | _ => False end ->
  post b (emit_forward_ref b t ty sz n v r).
Proof.
  intros W V K. unfold emit_forward_ref.
  assert (G : forall b1 v id refs, wf b1 -> rel b b1 -> bufle b b1 -> Forall (fun r => is_short (f_addr r)) refs ->
    post b (let addr := b_addr b1 in
      emit_placeholder b1 t sz (Some (n, id)) r ;; b =>
      (true, set_node b n (set_entry v (EnForward id (mkRef t 0 0 addr ty sz :: refs)))))).
  { intros b1 v1 id refs W1 R1 B1 F1. cbn zeta. eapply post_from; eauto.
    apply (post_then_symbol b1 (emit_placeholder b1 t sz (Some (n, id)) r) (fun b' => set_node b' _ _)); [apply post_emit_placeholder; auto|].
    intros b'. split; [apply rel_set_node|]. split; [|reflexivity].
    intros W'. apply wf_set_node; auto. cbn. constructor; auto. cbn. apply W1. }
  destruct (n_entry v) as [|id toks ex|id a|id refs] eqn:E; try contradiction; cbn [n_entry set_entry].
  - apply G; auto.
    + apply wf_set_node; [apply wf_labels; auto|cbn; constructor].
    + quiet.
    + unfold bufle; cbn; lia.
  - rewrite E. apply G; auto using rel_refl, bufle_refl.
Qed.

Lemma post_emit_lambda_ref b t ty sz r : wf b -> post b (emit_lambda_ref b t ty sz r).
Proof.
  intros W. unfold emit_lambda_ref.
  apply (post_then_symbol b (emit_placeholder b t sz None r) (fun b' => set_lambdas (set_nlambdas b' _) _)); [apply post_emit_placeholder; auto|].
  intros b'. split; [quiet|]. split; [|reflexivity].
  intros W'. apply wf_set_lambdas; [apply wf_nlambdas; auto|]. constructor; cbn; [apply W|apply W'].
Qed.

Lemma calculate_props b t ty from to :
  wf b -> let r := calculate_addr b t ty from to in rel b (snd r) /\ wf (snd r) /\ b_buf (snd r) = b_buf b.
Proof.
  intros W. destruct ty; cbn; auto using rel_refl.
  destruct (255 <? to); auto using rel_refl, rel_warning. split; [apply rel_warning|]. split; [apply wf_log; auto|reflexivity].
Qed.

Lemma post_emit_addr b t ty sz a s : match s with Some s => named s | None => True end -> wf b -> post b (emit_addr b t ty sz a s).
Proof.
  intros N W. unfold emit_addr. destruct sz.
  - destruct (match ty with RRel => _ | _ => _ end); [apply post_error; auto|].
    apply (post_then_symbol b (emit b t _) (fun b' => match s with Some s => put_symbol b' _ s | None => b' end)); [apply post_emit; auto|].
    intros b'. destruct s; [|auto using rel_refl]. split; [apply rel_put_symbol; nm|]. split; [apply wf_log|reflexivity].
  - apply (post_then_symbol b (emit2 b t _) (fun b' => match s with Some s => put_symbol2 b' _ s | None => b' end)); [apply post_emit2; auto|].
    intros b'. destruct s; [|auto using rel_refl]. split; [apply rel_put_symbol2; nm|]. split; [intros; apply wf_log, wf_log; auto|reflexivity].
Qed.

Lemma post_emit_backward_ref b t ty sz n id to w r : wf b -> post b (emit_backward_ref b t ty sz n id to w r).
Proof.
  intros W. unfold emit_backward_ref. pose proof (calculate_props b t ty (b_addr b) to W) as (R & W' & B).
  destruct (calculate_addr b t ty (b_addr b) to) as [a b1]. cbn in *.
  eapply post_from; [exact R| |apply post_emit_addr; [destruct w; nm|auto]]. unfold bufle. rewrite B. lia.
Qed.

Lemma find_or_create_props b t n :
  wf b ->
  let r := find_or_create b t n in
  rel b (snd r) /\ wf (snd r) /\ b_buf (snd r) = b_buf b /\
  match fst r with
  | None => b_success (snd r) = false
  | Some v => entry_ok (n_entry v) /\ (match n with [] => False | c :: _ => is_runic c = false end)
  end.
Proof.
  intros W. unfold find_or_create. destruct n as [|c n']; [cbn; auto using rel_error, wf_error|].
  destruct (is_runic c) eqn:Rc; [cbn; auto using rel_error, wf_error|].
  destruct (parse_opcode (c :: n')); [cbn; auto using rel_error, wf_error|].
  destruct (is_number (c :: n')); [cbn; auto using rel_error, wf_error|].
  destruct (lookup (c :: n') (b_symtab b)) eqn:L.
  - cbn. split; [apply rel_refl|]. split; [auto|]. split; [auto|]. split; auto. exact (lookup_ok _ _ _ (wf_sym _ W) L).
  - cbn. split; [quiet|]. split; [|auto].
    apply wf_set_symtab; auto. apply Forall_app. split; [apply W|repeat constructor].
Qed.

Lemma patch_props refs : forall b n id to,
  wf b -> Forall (fun r => is_short (f_addr r)) refs ->
  rel b (patch b refs n id to) /\ wf (patch b refs n id to) /\ bufle b (patch b refs n id to).
Proof.
  induction refs as [|r refs IH]; intros b n id to W F; cbn [patch].
  - auto using rel_refl, bufle_refl.
  - inversion F as [|? ? F1 F2]; subst.
    pose proof (post_emit_backward_ref (set_addr b (f_addr r)) (f_tok r) (f_type r) (f_size r) (Some n) id to false false
                  (wf_set_addr _ _ W F1)) as [R' W' B' _].
    destruct (emit_backward_ref _ _ _ _ _ _ _ _ _) as [ok b1]. cbn in *.
    destruct (IH b1 n id to W' F2) as (R2 & W2 & B2). split.
    + eapply rel_trans; [|exact R2]. eapply rel_trans; [|exact R']. quiet.
    + split; auto. unfold bufle in *. cbn in *. lia.
Qed.

Lemma post_register_label b t n : wf b -> post b (register_label b t n).
Proof.
  intros W. unfold register_label. pose proof (find_or_create_props b t n W) as (R & W1 & B1 & K).
  pose proof (create_good b t n) as GN. destruct (find_or_create b t n) as [[v|] b1]; cbn in *.
  2:{ constructor; auto. unfold bufle. cbn. rewrite B1. lia. }
  destruct K as [V _]. specialize (GN _ _ eq_refl).
  eapply post_from; [exact R| |]; [unfold bufle; rewrite B1; lia|].
  assert (G : forall id refs b2, wf b2 -> rel b1 b2 -> bufle b1 b2 -> Forall (fun r => is_short (f_addr r)) refs -> post b1 (define_label b2 t n v id refs)).
  { intros id refs b2 W2 R2 B2 F. unfold define_label.
    pose proof (patch_props refs (set_node b2 n (set_entry v (EnLabel id (b_addr b2)))) n id (b_addr b2)
      ltac:(apply wf_set_node; auto; cbn; apply W2) F) as (R3 & W3 & B3).
    set (b3 := patch _ _ _ _ _) in *.
    apply post_ok.
    - eapply rel_trans; [|apply rel_put_symbol; cbn; eauto]. eapply rel_trans; [exact R2|].
      eapply rel_trans; [apply rel_set_node|]. eapply rel_trans; [exact R3|]. quiet.
    - apply wf_log. apply wf_set_addr; [|apply W2]. apply wf_set_node; auto. cbn. apply W2.
    - unfold bufle in *. cbn in *. lia. }
  destruct (n_entry v) as [|id toks ex|id a|id refs] eqn:E.
  - apply G; auto. + apply wf_labels; auto. + quiet. + unfold bufle; cbn; lia.
  - apply post_error; auto.
  - apply post_error; auto.
  - apply G; [auto | apply rel_refl | apply bufle_refl |]. exact V.
Qed.

Lemma resolve_local_props b t n :
  wf b -> let r := resolve_local_name b t n in
  rel b (snd r) /\ wf (snd r) /\ b_buf (snd r) = b_buf b /\ (fst r = None -> b_success (snd r) = false).
Proof.
  intros W. unfold resolve_local_name. destruct (_ <? _); cbn; auto using rel_error, wf_error.
  split; [apply rel_refl|]. repeat split; auto; try apply W; try discriminate.
Qed.
Lemma resolve_label_props b t n :
  wf b -> let r := resolve_label_ref b t n in
  rel b (snd r) /\ wf (snd r) /\ b_buf (snd r) = b_buf b /\ (fst r = None -> b_success (snd r) = false).
Proof.
  intros W. unfold resolve_label_ref. destruct n as [|c n']; [cbn; auto using rel_error, wf_error|].
  destruct (_ || _); [apply resolve_local_props; auto|].
  cbn. split; [apply rel_refl|]. repeat split; auto; try apply W; try discriminate.
Qed.
Lemma pop_props b :
  wf b -> let r := pop_at_label b in
  rel b (snd r) /\ wf (snd r) /\ b_buf (snd r) = b_buf b /\ (forall l, fst r = Some l -> is_short (f_addr l)).
Proof.
  intros W. unfold pop_at_label. destruct (b_ats b) as [|l rest] eqn:E; cbn.
  - split; [apply rel_refl|]. split; auto. split; auto. discriminate.
  - pose proof (wf_ats _ W) as F. rewrite E in F. inversion F; subst. split; [quiet|]. split; [apply wf_set_ats; auto|].
    split; auto. intros l' [= <-]. auto.
Qed.

Ltac bf := unfold bufle in *; cbn [fst snd b_buf set_addr set_depth set_buf set_success set_labels set_nlambdas set_macros set_includes set_symtab set_scope set_lambdas set_ats set_deferred set_fault log put_symbol error_ex warning set_node] in *;
  repeat match goal with H : b_buf _ = b_buf _ |- _ => rewrite H in *; clear H end; lia.

Lemma post_emit_label_ref b t ty sz n r : wf b -> post b (emit_label_ref b t ty sz n r).
Proof.
  intros W. unfold emit_label_ref. destruct (str_eqb n [123]); [apply post_emit_lambda_ref; auto|].
  pose proof (resolve_label_props b t n W) as (R & W1 & B1 & K).
  destruct (resolve_label_ref b t n) as [[full|] b1]; cbn [fst snd] in *.
  2:{ constructor; auto. bf. }
  eapply post_from; [exact R|bf|]. clear K.
  destruct (str_eqb full [64]).
  - pose proof (pop_props b1 W1) as (R2 & W2 & B2 & K2). destruct (pop_at_label b1) as [[l|] b2]; cbn [fst snd] in *.
    + eapply post_from; [exact R2|bf|]. apply post_emit_backward_ref; auto.
    + eapply post_from; [exact R2|bf|]. apply post_error; auto.
  - destruct full as [|c full']; [apply post_error; auto|].
    destruct (is_runic c); [apply post_error; auto|].
    pose proof (find_or_create_props b1 t (c :: full') W1) as (R3 & W3 & B3 & K3).
    destruct (find_or_create b1 t (c :: full')) as [[v|] b3]; cbn [fst snd] in *.
    2:{ constructor; auto. bf. }
    destruct K3 as [V _]. eapply post_from; [exact R3|bf|].
    destruct (n_entry v) as [|id toks ex|id a|id refs] eqn:E.
    + apply post_emit_forward_ref; auto; rewrite E; auto.
    + apply post_error; auto.
    + eapply post_from; [apply rel_set_node|bf|]. apply post_emit_backward_ref.
      apply wf_set_node; auto. cbn. rewrite E. auto.
    + apply post_emit_forward_ref; auto; rewrite E; auto.
Qed.

Lemma post_emit_jsi b t : wf b -> post b (emit_jsi b t).
Proof. intros W. apply post_andthen; auto using post_emit_opcode, post_emit_label_ref. Qed.
