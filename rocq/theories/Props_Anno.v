(** Property C47: the annotations of a program and what they are delivered to.

    The stream of symbols is described as a list of items: a whole comment, or a
    symbol that is not part of a comment.  [deliveries] says, looking back over
    the items before, what each item makes the spy deliver.  Nothing here uses
    the state of the spy. *)
From Verif Require Import Base AsmModel AnnoModel AsmSpec Props_Asm.
From Coq Require Import ZifyBool String.
Open Scope list_scope.

(** ** The description *)
Inductive item : Type :=
| Single (addr : Z) (s : symbol)
| Comment (start : Z * symbol) (inner : list (Z * symbol)) (close : Z * symbol).
Definition named (s : symbol) (n : str) : Prop := s_name s = Some n /\ n <> [].
Definition good (it : item) : Prop :=
  match it with
  | Single _ s => s_type s <> SComment
  | Comment (_, b) inner (_, e) =>
      (s_type b = SComment /\ s_id b = 0 /\ exists n, named b n) /\
      (s_type e = SComment /\ s_id e = 1 /\ s_name e = Some (bytes ")")) /\
      Forall (fun i => s_type (snd i) = SComment /\ s_id (snd i) <> 0 /\ ~ (s_id (snd i) = 1 /\ s_name (snd i) = Some (bytes ")")) /\ exists n, named (snd i) n) inner
  end.
Definition symbols (it : item) : list (Z * symbol) :=
  match it with Single a s => [(a, s)] | Comment b inner e => b :: inner ++ [e] end.

Definition name_of (s : symbol) : str := match s_name s with Some n => n | None => [] end.
(** A definition: a macro or a label that has its name from the source. *)
Definition definition (s : symbol) : bool := match s_type s with SMacro | SLabel => negb (s_gen s) | _ => false end.
(** What is inside the comment: from the first word to the last. *)
Definition extent (b : symbol) (inner : list (Z * symbol)) (e : symbol) : region :=
  mkRegion (r_file (s_reg b))
    (r_start (s_reg (match inner with i :: _ => snd i | [] => b end)))
    (match rev inner with i :: _ => r_end (s_reg (snd i)) | [] => r_start (s_reg e) end).
(** "( ... -- ... )" *)
Definition is_signature (b : symbol) (inner : list (Z * symbol)) : bool :=
  (len (name_of b) =? 1) && existsb (fun i => str_eqb (name_of (snd i)) (bytes "--") || str_eqb (name_of (snd i)) (bytes "->")) inner.
(** "(name ... )": which annotation, if any. *)
Definition annotation (annos : list (str * anno_type)) (b : symbol) : option nat :=
  if len (name_of b) =? 1 then None
  else find (fun i => match nth_error annos i with Some (n, _) => str_eqb n (tl (name_of b)) | None => false end) (seq 0 (List.length annos)).
Definition type_of (annos : list (str * anno_type)) (i : nat) : option anno_type := option_map snd (nth_error annos i).

(** Looking back: the items before are in [hist], the latest one first. *)
(** The latest symbol outside of comments. *)
Fixpoint latest (f : symbol -> bool) (hist : list item) : option (Z * symbol) :=
  match hist with
  | Single a s :: hist' => if f s then Some (a, s) else latest f hist'
  | Comment _ _ _ :: hist' => latest f hist'
  | [] => None
  end.
(** The definition that the comment directly follows, comments aside. *)
Definition just_defined (hist : list item) : option (Z * symbol) :=
  match latest (fun _ => true) hist with
  | Some (a, s) => if definition s then Some (a, s) else None
  | None => None
  end.
(** The latest token with an address in the ROM. *)
Definition latest_token (hist : list item) : option (Z * symbol) := latest (fun s => in_rom (s_type s)) hist.
(** The prefix annotation [i] that waits for a definition: the latest one after
    the latest definition. *)
Fixpoint waiting (annos : list (str * anno_type)) (i : nat) (hist : list item) : option region :=
  match hist with
  | Single _ s :: hist' => if definition s then None else waiting annos i hist'
  | Comment (_, b) inner (_, e) :: hist' =>
      match annotation annos b with
      | Some j => if Nat.eqb i j then match type_of annos j with Some APrefix => Some (extent b inner e) | _ => waiting annos i hist' end
                  else waiting annos i hist'
      | None => waiting annos i hist'
      end
  | [] => None
  end.

(** An annotation that has nothing to be attached to is delivered all the same,
    with a symbol that has no name. *)
Definition attached (where_ : option (Z * symbol)) (v : delivery) : Prop :=
  match where_ with
  | Some (a, s) => v_addr v = a /\ v_sym v = s
  | None => v_addr v = 0 /\ s_name (v_sym v) = None
  end.
Inductive delivers (annos : list (str * anno_type)) (hist : list item) : item -> list delivery -> Prop :=
| delivers_signature a b inner a' e d : is_signature b inner = true -> just_defined hist = Some d -> s_name (snd d) <> None ->
    delivers annos hist (Comment (a, b) inner (a', e)) [mkDelivery (fst d) (snd d) None (extent b inner e)]
| delivers_immediate a b inner a' e i v : annotation annos b = Some i -> type_of annos i = Some AImmediate ->
    attached (latest_token hist) v -> v_anno v = Some i -> v_region v = extent b inner e ->
    delivers annos hist (Comment (a, b) inner (a', e)) [v]
| delivers_postfix a b inner a' e i v : annotation annos b = Some i -> type_of annos i = Some APostfix ->
    attached (just_defined hist) v -> v_anno v = Some i -> v_region v = extent b inner e ->
    delivers annos hist (Comment (a, b) inner (a', e)) [v]
| delivers_later a b inner a' e i : annotation annos b = Some i -> type_of annos i = Some APrefix ->
    delivers annos hist (Comment (a, b) inner (a', e)) []
| delivers_text a b inner a' e : annotation annos b = None ->
    (is_signature b inner = false \/ just_defined hist = None \/ exists d, just_defined hist = Some d /\ s_name (snd d) = None) ->
    delivers annos hist (Comment (a, b) inner (a', e)) []
| delivers_definition a s : definition s = true ->
    delivers annos hist (Single a s)
      (flat_map (fun i => match waiting annos i hist with Some r => [mkDelivery a s (Some i) r] | None => [] end) (seq 0 (List.length annos)))
| delivers_nothing a s : definition s = false -> delivers annos hist (Single a s) [].
Inductive deliveries (annos : list (str * anno_type)) : list item -> list item -> list delivery -> Prop :=
| deliveries_end hist : deliveries annos hist [] []
| deliveries_next hist it items l l' : delivers annos hist it l -> deliveries annos (it :: hist) items l' -> deliveries annos hist (it :: items) (l ++ l').

(** ** The spy follows it *)
Definition fresh (annos : list (str * anno_type)) : list anno := map (fun a => mkAnno (fst a) (snd a) None) annos.
Definition kinds (annos : list anno) : list (str * anno_type) := map (fun a => (a_name a, a_type a)) annos.

Lemma find_anno_spec l n : forall i, find_anno l n i =
  find (fun j => match nth_error (kinds l) (j - i) with Some (m, _) => str_eqb m n | None => false end) (seq i (List.length l)).
Proof.
  induction l as [|a l IH]; intros i; [reflexivity|]. cbn [find_anno List.length seq find]. rewrite Nat.sub_diag. cbn [kinds map nth_error].
  destruct (str_eqb (a_name a) n); [reflexivity|]. rewrite IH.
  assert (X : forall q, (forall j, In j q -> (S i <= j)%nat) ->
    find (fun j => match nth_error (kinds l) (j - S i) with Some (m, _) => str_eqb m n | None => false end) q =
    find (fun j => match nth_error (kinds (a :: l)) (j - i) with Some (m, _) => str_eqb m n | None => false end) q).
  { induction q as [|j q IHq]; intros H; [reflexivity|]. cbn [find]. 
    assert (S i <= j)%nat by (apply H; left; auto). replace (j - i)%nat with (S (j - S i)) by lia. cbn [kinds map nth_error].
    rewrite IHq by (intros; apply H; right; auto). reflexivity. }
  apply X. intros j J. apply in_seq in J. lia.
Qed.
Lemma find_anno_annotation l b : find_anno l (tl (name_of b)) 0 = find (fun i => match nth_error (kinds l) i with Some (n, _) => str_eqb n (tl (name_of b)) | None => false end) (seq 0 (List.length (kinds l))).
Proof.
  rewrite find_anno_spec. assert (L : List.length (kinds l) = List.length l) by apply map_length. rewrite L. clear L. generalize (seq 0 (List.length l)). induction l0 as [|j q IH]; [reflexivity|].
  cbn [find]. rewrite IH, Nat.sub_0_r. reflexivity.
Qed.

(** What the state of the spy stands for. *)
Record stands (annos : list (str * anno_type)) (hist : list item) (p : aspec) : Prop := mkStands {
  q_kinds : kinds (p_annos p) = annos;
  q_waiting : forall i a, nth_error (p_annos p) i = Some a -> a_region a = waiting annos i hist;
  q_def : match just_defined hist with Some (a, s) => p_def_addr p = a /\ p_def p = s | None => p_def_addr p = 0 /\ s_name (p_def p) = None end;
  q_rom : match latest_token hist with Some (a, s) => p_rom_addr p = a /\ p_rom p = s | None => p_rom_addr p = 0 /\ s_name (p_rom p) = None end
}.

Lemma kinds_set l : forall i r, kinds (set_region l i r) = kinds l.
Proof. induction l as [|a l IH]; intros [|i] r; cbn; auto. f_equal. apply IH. Qed.
Lemma nth_set l : forall i r j, nth_error (set_region l i r) j =
  option_map (fun a => if Nat.eqb j i then mkAnno (a_name a) (a_type a) (Some r) else a) (nth_error l j).
Proof.
  induction l as [|a l IH]; intros [|i] r [|j]; cbn [set_region nth_error option_map]; try reflexivity.
  - change (Nat.eqb (S j) 0) with false. destruct (nth_error l j); reflexivity.
  - rewrite IH. destruct (nth_error l j); reflexivity.
Qed.
Lemma deferred_kinds l : forall i a s, kinds (fst (deferred l i a s)) = kinds l.
Proof.
  induction l as [|x l IH]; intros i a s; [reflexivity|]. cbn [deferred]. specialize (IH (S i) a s). destruct (deferred l (S i) a s) as [l' o].
  destruct (a_region x); cbn [fst kinds map a_name a_type] in *; f_equal; exact IH.
Qed.
Lemma deferred_none l : forall i a s j x, nth_error (fst (deferred l i a s)) j = Some x -> a_region x = None.
Proof.
  induction l as [|y l IH]; intros i a s j x; [destruct j; discriminate|]. cbn [deferred]. specialize (IH (S i) a s). destruct (deferred l (S i) a s) as [l' o].
  destruct (a_region y) eqn:R; cbn [fst] in *; destruct j as [|j]; cbn [nth_error]; intros H; eauto; injection H as <-; auto.
Qed.
Lemma deferred_out l a s (f : nat -> option region) : forall i, (forall j x, nth_error l j = Some x -> a_region x = f (i + j)%nat) ->
  snd (deferred l i a s) = flat_map (fun i => match f i with Some r => [mkDelivery a s (Some i) r] | None => [] end) (seq i (List.length l)).
Proof.
  induction l as [|x l IH]; intros i H; [reflexivity|]. cbn [deferred List.length seq flat_map].
  assert (H0 : a_region x = f i) by (rewrite <- (Nat.add_0_r i); apply H; reflexivity).
  specialize (IH (S i) ltac:(intros j y E; rewrite Nat.add_succ_comm; apply H; exact E)).
  destruct (deferred l (S i) a s) as [l' o]. cbn [snd] in IH. rewrite H0. destruct (f i); cbn [snd app]; congruence.
Qed.

(** Inside a comment. *)
Definition still (p p' : aspec) : Prop :=
  p_annos p' = p_annos p /\ p_def p' = p_def p /\ p_rom p' = p_rom p /\ p_def_addr p' = p_def_addr p /\ p_rom_addr p' = p_rom_addr p /\
  p_current p' = p_current p /\ p_start p' = p_start p.
Lemma middle inner : forall p, Forall (fun i => s_type (snd i) = SComment /\ s_id (snd i) <> 0 /\ ~ (s_id (snd i) = 1 /\ s_name (snd i) = Some (bytes ")")) /\ exists n, named (snd i) n) inner ->
  exists p', handle_all p inner = Ok (p', []) /\ still p p' /\
    p_first p' = match p_first p with Some r => Some r | None => match inner with i :: _ => Some (s_reg (snd i)) | [] => None end end /\
    p_last p' = match rev inner with i :: _ => Some (s_reg (snd i)) | [] => p_last p end /\
    p_kind p' = match p_kind p with
                | KMightBeType => if existsb (fun i => str_eqb (name_of (snd i)) (bytes "--") || str_eqb (name_of (snd i)) (bytes "->")) inner then KIsType else KMightBeType
                | k => k end.
Proof.
  induction inner as [|[a s] inner IH]; intros p F.
  - exists p. cbn [handle_all rev existsb]. split; auto. split; [unfold still; tauto|]. split; [destruct (p_first p); auto|]. split; auto. destruct (p_kind p); auto.
  - inversion F as [|? ? (T & I & N & n & NM & NE) F']; subst. cbn [snd] in *. cbn [handle_all]. unfold handle_symbol. rewrite T. cbn [in_rom].
    rewrite NM. destruct n as [|c n']; [congruence|]. remember (c :: n') as n eqn:En. 
    assert (X : handle_symbol p a s = Ok (comment_middle p s n, [])).
    { unfold handle_symbol. rewrite T. cbn [in_rom]. rewrite NM, En. rewrite <- En. destruct (Z.eqb_spec (s_id s) 0); [lia|].
      destruct (Z.eqb_spec (s_id s) 1); [|reflexivity]. cbn [andb]. unfold str_eqb at 1. destruct (str_dec n (bytes ")")) as [E|]; [|reflexivity].
      exfalso. apply N. rewrite NM, E. auto. }
    destruct (IH (comment_middle p s n) F') as (p' & H & S & E1 & E2 & E3).
    exists p'. split.
    + rewrite En. destruct (Z.eqb_spec (s_id s) 0); [lia|]. rewrite <- En.
      assert (Y : (s_id s =? 1) && str_eqb n (bytes ")") = false).
      { destruct (Z.eqb_spec (s_id s) 1); [|reflexivity]. cbn [andb]. unfold str_eqb. destruct (str_dec n (bytes ")")) as [E|]; [|reflexivity].
        exfalso. apply N. rewrite NM, E. auto. }
      rewrite Y, H. reflexivity.
    + split; [exact S|]. split; [rewrite E1; cbn [comment_middle p_first]; destruct (p_first p); reflexivity|]. split.
      * rewrite E2. cbn [rev comment_middle p_last]. destruct (rev inner); reflexivity.
      * rewrite E3. cbn [comment_middle p_kind existsb snd]. assert (NO : name_of s = n) by (unfold name_of; rewrite NM; reflexivity). rewrite NO.
        destruct (p_kind p); auto. destruct (str_eqb n (bytes "--") || str_eqb n (bytes "->")); reflexivity.
Qed.

Lemma handle_all_app l1 l2 p p1 o1 : handle_all p l1 = Ok (p1, o1) ->
  handle_all p (l1 ++ l2) = match handle_all p1 l2 with Ok (p2, o2) => Ok (p2, o1 ++ o2) | Fault f => Fault f end.
Proof.
  revert p o1. induction l1 as [|[a s] l1 IH]; intros p o1 H; cbn [handle_all app] in *.
  - injection H as <- <-. destruct (handle_all p l2) as [[]|]; reflexivity.
  - destruct (handle_symbol p a s) as [[p' o']|]; [|discriminate]. destruct (handle_all p' l1) as [[p2 o2]|] eqn:E; [|discriminate]. injection H as <- <-.
    rewrite (IH _ _ E). destruct (handle_all p2 l2) as [[]|]; [rewrite app_assoc|]; reflexivity.
Qed.

Lemma item_step annos hist p it : stands annos hist p -> good it ->
  exists p' l, handle_all p (symbols it) = Ok (p', l) /\ delivers annos hist it l /\ stands annos (it :: hist) p'.
Proof.
  intros [K W D R] G. destruct it as [a s|[a b] inner [a' e]].
  - cbn [good] in G. cbn [symbols handle_all].
    set (p1 := if in_rom (s_type s) then mkAspec (p_annos p) (p_def p) s (p_def_addr p) a (p_current p) (p_start p) (p_first p) (p_last p) (p_kind p) else p).
    assert (A1 : p_annos p1 = p_annos p) by (unfold p1; destruct (in_rom _); reflexivity).
    assert (R1 : match latest_token (Single a s :: hist) with Some (a, s) => p_rom_addr p1 = a /\ p_rom p1 = s | None => p_rom_addr p1 = 0 /\ s_name (p_rom p1) = None end).
    { unfold latest_token, p1. cbn [latest]. destruct (in_rom (s_type s)); [cbn; auto|]. exact R. }
    assert (HS : handle_symbol p a s = if definition s
      then let '(annos, l) := deferred (p_annos p1) 0 a s in
        Ok (mkAspec annos s (p_rom p1) a (p_rom_addr p1) (p_current p1) (p_start p1) (p_first p1) (p_last p1) (p_kind p1), l)
      else let d := p_def p1 in
        Ok (mkAspec (p_annos p1) (mkSymbol (s_type d) (s_gen d) (s_id d) None (s_reg d)) (p_rom p1) 0 (p_rom_addr p1)
              (p_current p1) (p_start p1) (p_first p1) (p_last p1) (p_kind p1), [])).
    { unfold handle_symbol, definition. fold p1. destruct (s_type s); try reflexivity. congruence. }
    rewrite HS. destruct (definition s) eqn:DS.
    + pose proof (deferred_kinds (p_annos p1) 0 a s) as DK. pose proof (deferred_none (p_annos p1) 0 a s) as DN.
      assert (DO : snd (deferred (p_annos p1) 0 a s) = flat_map (fun i => match waiting annos i hist with Some r => [mkDelivery a s (Some i) r] | None => [] end) (seq 0 (List.length annos))).
      { rewrite (deferred_out (p_annos p1) a s (fun i => waiting annos i hist)).
        - f_equal. f_equal. rewrite A1, <- K. symmetry. apply map_length.
        - intros j x E. rewrite A1 in E. exact (W j x E). }
      destruct (deferred (p_annos p1) 0 a s) as [annos' l]. cbn [fst snd] in *.
      eexists _, _. split; [reflexivity|]. split.
      * rewrite app_nil_r, DO. apply delivers_definition. auto.
      * constructor; cbn [p_annos p_def p_def_addr p_rom p_rom_addr]; auto.
        -- rewrite DK, A1. exact K.
        -- intros i x E. cbn [waiting]. rewrite DS. exact (DN i x E).
        -- unfold just_defined. cbn [latest]. rewrite DS. auto.
    + cbv zeta. eexists _, _. split; [reflexivity|]. split; [apply delivers_nothing; auto|].
      constructor; cbn [p_annos p_def p_def_addr p_rom p_rom_addr]; auto.
      * rewrite A1. exact K.
      * intros i x E. cbn [waiting]. rewrite DS. rewrite A1 in E. exact (W i x E).
      * unfold just_defined. cbn [latest]. rewrite DS. cbn. auto.
  - destruct G as ((T1 & I1 & n & N1 & NE1) & (T2 & I2 & N2) & F). cbn [symbols].
    assert (H1 : handle_symbol p a b = Ok (comment_start p b n, [])).
    { unfold handle_symbol. rewrite T1. cbn [in_rom]. rewrite N1. destruct n; [congruence|]. rewrite I1. reflexivity. }
    destruct (middle inner (comment_start p b n) F) as (p2 & H2 & (S1 & S2 & S3 & S4 & S5 & S6 & S7) & E1 & E2 & E3).
    assert (H3 : handle_symbol p2 a' e = Ok (comment_end p2 e)).
    { unfold handle_symbol. rewrite T2. cbn [in_rom]. rewrite N2, I2. reflexivity. }
    cbn [handle_all]. rewrite H1, (handle_all_app _ _ _ _ _ H2). cbn [handle_all]. rewrite H3. clear H1 H2 H3.
    cbn [comment_start p_annos p_def p_rom p_def_addr p_rom_addr p_current p_start p_first p_last p_kind] in *.
    assert (NB : name_of b = n) by (unfold name_of; rewrite N1; reflexivity).
    unfold comment_end. rewrite S7.
    set (reg := mkRegion _ _ _).
    assert (RG : reg = extent b inner e).
    { unfold reg, extent. rewrite E1, E2. f_equal; [destruct inner; reflexivity|destruct (rev inner); reflexivity]. }
    clearbody reg. subst reg.
    assert (LB : (len (name_of b) =? 1) = Nat.eqb (List.length n) 1).
    { rewrite NB. unfold len. destruct (Nat.eqb_spec (List.length n) 1); lia. }
    assert (ST : forall q, kinds (p_annos q) = annos -> (forall i x, nth_error (p_annos q) i = Some x -> a_region x = waiting annos i (Comment (a, b) inner (a', e) :: hist)) ->
      p_def q = p_def p -> p_def_addr q = p_def_addr p -> p_rom q = p_rom p -> p_rom_addr q = p_rom_addr p ->
      stands annos (Comment (a, b) inner (a', e) :: hist) q).
    { intros q KL WL Q1 Q2 Q3 Q4. constructor; auto.
      - change (just_defined (Comment (a, b) inner (a', e) :: hist)) with (just_defined hist). rewrite Q1, Q2. exact D.
      - change (latest_token (Comment (a, b) inner (a', e) :: hist)) with (latest_token hist). rewrite Q3, Q4. exact R. }
    assert (KA : kinds (p_annos p2) = annos) by (rewrite S1; exact K).
    destruct (Nat.eqb_spec (List.length n) 1) as [L1|L1].
    + assert (AN : annotation annos b = None) by (unfold annotation; rewrite LB; reflexivity).
      assert (WA : forall i x, nth_error (p_annos p2) i = Some x -> a_region x = waiting annos i (Comment (a, b) inner (a', e) :: hist)).
      { intros i x E. cbn [waiting]. rewrite AN. rewrite S1 in E. exact (W i x E). }
      assert (SG : is_signature b inner = existsb (fun i => str_eqb (name_of (snd i)) (bytes "--") || str_eqb (name_of (snd i)) (bytes "->")) inner).
      { unfold is_signature. rewrite LB. reflexivity. }
      rewrite S2, S6. rewrite E3.
      destruct (just_defined hist) as [[da ds]|] eqn:JD; destruct D as [D1 D2].
      * rewrite D2. destruct (s_name ds) as [dn|] eqn:DN.
        -- rewrite <- SG. destruct (is_signature b inner) eqn:SI.
           ++ eexists _, _. split; [reflexivity|]. split; [|apply ST; cbn [p_annos p_def p_def_addr p_rom p_rom_addr]; auto; congruence]. cbn [app]. rewrite S4, D1.
              apply (delivers_signature annos hist a b inner a' e (da, ds)); auto. cbn. congruence.
           ++ eexists _, _. split; [reflexivity|]. split; [|apply ST; cbn [p_annos p_def p_def_addr p_rom p_rom_addr]; auto; congruence]. apply delivers_text; auto.
        -- eexists _, _. split; [reflexivity|]. split; [|apply ST; cbn [p_annos p_def p_def_addr p_rom p_rom_addr]; auto; congruence]. apply delivers_text; auto. right. right. eexists. split; [exact JD|auto].
      * rewrite D2. eexists _, _. split; [reflexivity|]. split; [|apply ST; cbn [p_annos p_def p_def_addr p_rom p_rom_addr]; auto; congruence]. apply delivers_text; auto.
    + assert (AN : annotation annos b = find_anno (p_annos p) (tl n) 0).
      { unfold annotation. rewrite LB, <- NB, find_anno_annotation, K. reflexivity. }
      assert (SG : is_signature b inner = false).
      { unfold is_signature. rewrite LB. reflexivity. }
      rewrite S6, E3.
      destruct (find_anno (p_annos p) (tl n) 0) as [i|] eqn:FA.
      * rewrite S1. destruct (nth_error (p_annos p) i) as [x|] eqn:NX.
        -- assert (TY : type_of annos i = Some (a_type x)).
           { unfold type_of. rewrite <- K. unfold kinds. rewrite nth_error_map, NX. reflexivity. }
           destruct (a_type x) eqn:AT.
           ++ eexists _, _. split; [reflexivity|]. split.
              ** cbn [app]. eapply delivers_immediate; eauto. unfold attached. cbn [v_addr v_sym]. rewrite S3, S5. exact R.
              ** apply ST; cbn [p_annos p_def p_def_addr p_rom p_rom_addr]; auto. intros j y E. cbn [waiting]. rewrite AN. rewrite (W j y E).
                 destruct (Nat.eqb_spec j i) as [->|]; [|reflexivity]. rewrite TY. reflexivity.
           ++ eexists _, _. split; [reflexivity|]. split; [eapply delivers_later; eauto|].
              apply ST; cbn [p_annos p_def p_def_addr p_rom p_rom_addr]; auto; [rewrite kinds_set; exact K|]. intros j y E. rewrite nth_set in E. destruct (nth_error (p_annos p) j) as [z|] eqn:NZ; [|discriminate].
              cbn [option_map] in E. cbn [waiting]. rewrite AN. destruct (Nat.eqb_spec j i) as [->|].
              ** injection E as <-. rewrite TY. reflexivity.
              ** injection E as <-. exact (W j z NZ).
           ++ eexists _, _. split; [reflexivity|]. split.
              ** cbn [app]. eapply delivers_postfix; eauto. unfold attached. cbn [v_addr v_sym]. rewrite S2, S4. exact D.
              ** apply ST; cbn [p_annos p_def p_def_addr p_rom p_rom_addr]; auto. intros j y E. cbn [waiting]. rewrite AN. rewrite (W j y E).
                 destruct (Nat.eqb_spec j i) as [->|]; [|reflexivity]. rewrite TY. reflexivity.
        -- exfalso. rewrite find_anno_spec in FA. apply find_some in FA as [_ FA]. rewrite Nat.sub_0_r in FA. unfold kinds in FA. rewrite nth_error_map, NX in FA. discriminate.
      * eexists _, _. split; [reflexivity|]. split; [apply delivers_text; auto|]. apply ST; cbn [p_annos p_def p_def_addr p_rom p_rom_addr]; auto.
        intros i x E. cbn [waiting]. rewrite AN. rewrite S1 in E. exact (W i x E).
Qed.

Lemma stands_start annos : stands annos [] (start_spec (fresh annos)).
Proof.
  constructor; cbn; auto.
  - unfold kinds, fresh. rewrite map_map. cbn. rewrite <- (map_id annos) at 2. apply map_ext. intros []; reflexivity.
  - intros i a E. unfold fresh in E. rewrite nth_error_map in E. destruct (nth_error annos i); [|discriminate]. injection E as <-. reflexivity.
Qed.

(** For every list of annotations and every stream of symbols made of whole
    comments and other symbols, the handler is called exactly with the
    deliveries that the description gives, in that order. *)
Theorem C47_deliveries annos items : Forall good items ->
  exists p l, handle_all (start_spec (fresh annos)) (flat_map symbols items) = Ok (p, l) /\ deliveries annos [] items l.
Proof.
  intros G. assert (H : forall hist p, stands annos hist p -> exists p' l, handle_all p (flat_map symbols items) = Ok (p', l) /\ deliveries annos hist items l).
  { induction items as [|it items IH]; intros hist p S.
    - exists p, []. split; [reflexivity|constructor].
    - inversion G as [|? ? G1 G2]; subst. destruct (item_step annos hist p it S G1) as (p1 & l1 & H1 & D1 & S1).
      destruct (IH G2 _ _ S1) as (p2 & l2 & H2 & D2). exists p2, (l1 ++ l2). split; [|constructor; auto].
      cbn [flat_map]. rewrite (handle_all_app _ _ _ _ _ H1), H2. reflexivity. }
  apply (H [] _ (stands_start annos)).
Qed.
Print Assumptions C47_deliveries.

(** ** Once each *)
Definition of_anno (i : nat) (v : delivery) : bool := match v_anno v with Some j => Nat.eqb i j | None => false end.
Definition delivered (i : nat) (l : list delivery) : nat := List.length (filter (of_anno i) l).
Definition is_comment (annos : list (str * anno_type)) (i : nat) (it : item) : bool :=
  match it with Comment (_, b) _ _ => match annotation annos b with Some j => Nat.eqb i j | None => false end | Single _ _ => false end.
Definition is_definition (it : item) : bool := match it with Single _ s => definition s | _ => false end.
Definition written (annos : list (str * anno_type)) (i : nat) (items : list item) : nat := List.length (filter (is_comment annos i) items).

Lemma delivered_app i l l' : delivered i (l ++ l') = (delivered i l + delivered i l')%nat.
Proof. unfold delivered. rewrite filter_app, app_length. reflexivity. Qed.
Lemma delivered_definition i a s (f : nat -> option region) n : forall k, 
  delivered i (flat_map (fun j => match f j with Some r => [mkDelivery a s (Some j) r] | None => [] end) (seq k n)) =
  if (Nat.leb k i && Nat.ltb i (k + n))%bool then match f i with Some _ => 1%nat | None => 0%nat end else 0%nat.
Proof.
  induction n as [|n IH]; intros k; cbn [seq flat_map].
  - destruct (Nat.leb_spec k i), (Nat.ltb_spec i (k + 0)); cbn; auto; lia.
  - rewrite delivered_app, IH. assert (X : delivered i (match f k with Some r => [mkDelivery a s (Some k) r] | None => [] end) = if Nat.eqb i k then match f i with Some _ => 1%nat | None => 0%nat end else 0%nat).
    { unfold delivered, of_anno. destruct (Nat.eqb_spec i k) as [->|N]; destruct (f k); cbn [filter v_anno]; auto.
      - rewrite Nat.eqb_refl. reflexivity.
      - destruct (Nat.eqb_spec i k); [congruence|reflexivity]. }
    rewrite X. destruct (Nat.eqb_spec i k), (Nat.leb_spec k i), (Nat.leb_spec (S k) i), (Nat.ltb_spec i (k + S n)), (Nat.ltb_spec i (S k + n)); cbn [andb]; lia.
Qed.
Lemma annotation_type annos b i : annotation annos b = Some i -> type_of annos i <> None.
Proof.
  unfold annotation, type_of. destruct (_ =? _); [discriminate|]. intros H. apply find_some in H as [_ H]. destruct (nth_error annos i) as [[]|]; cbn; congruence.
Qed.
Lemma waiting_prefix annos i hist : type_of annos i <> Some APrefix -> waiting annos i hist = None.
Proof.
  intros T. induction hist as [|[a s|[a b] inner [a' e]] hist IH]; cbn [waiting]; auto.
  - destruct (definition s); auto.
  - destruct (annotation annos b) as [j|]; auto. destruct (Nat.eqb_spec i j) as [<-|]; auto. destruct (type_of annos i) as [[]|]; auto. congruence.
Qed.
Lemma waiting_some annos i hist : waiting annos i hist <> None -> type_of annos i = Some APrefix.
Proof.
  intros W. destruct (type_of annos i) as [t|] eqn:T; [|destruct W; apply waiting_prefix; congruence].
  destruct t; auto; destruct W; apply waiting_prefix; congruence.
Qed.
Lemma waiting_in annos i hist : waiting annos i hist <> None -> (i < List.length annos)%nat.
Proof.
  intros W. apply waiting_some in W. unfold type_of in W. apply nth_error_Some. destruct (nth_error annos i); [discriminate|discriminate W].
Qed.
(** What an item delivers of annotation [i]. *)
Lemma delivers_count annos hist it l i : delivers annos hist it l ->
  delivered i l = (if is_definition it then match waiting annos i hist with Some _ => 1 | None => 0 end
                   else if is_comment annos i it then match type_of annos i with Some APrefix | None => 0 | _ => 1 end else 0)%nat.
Proof.
  intros D. destruct D as [a b inner a' e d S J N|a b inner a' e j v A T AT V1 V2|a b inner a' e j v A T AT V1 V2|a b inner a' e j A T|a b inner a' e A X|a s DS|a s DS];
    cbn [is_definition is_comment]; try rewrite A.
  - unfold is_signature in S. assert (A : annotation annos b = None) by (unfold annotation; destruct (_ =? _); [reflexivity|discriminate]). rewrite A. reflexivity.
  - unfold delivered, of_anno. cbn [filter]. rewrite V1. destruct (Nat.eqb_spec i j) as [->|]; [rewrite T|]; reflexivity.
  - unfold delivered, of_anno. cbn [filter]. rewrite V1. destruct (Nat.eqb_spec i j) as [->|]; [rewrite T|]; reflexivity.
  - destruct (Nat.eqb_spec i j) as [->|]; [rewrite T|]; reflexivity.
  - reflexivity.
  - rewrite DS, (delivered_definition i a s (fun j => waiting annos j hist)). change (Nat.leb 0 i) with true. cbn [andb].
    destruct (waiting annos i hist) eqn:W; [|destruct (Nat.ltb _ _); reflexivity].
    pose proof (waiting_in annos i hist ltac:(congruence)). destruct (Nat.ltb_spec i (0 + List.length annos)); [reflexivity|lia].
  - rewrite DS. reflexivity.
Qed.

(** Every immediate or postfix annotation of the source is delivered once. *)
Theorem C47_once annos items l i : deliveries annos [] items l -> type_of annos i = Some AImmediate \/ type_of annos i = Some APostfix ->
  delivered i l = written annos i items.
Proof.
  generalize (@nil item). intros hist D T. induction D as [hist|hist it items l l' D1 D2 IH]; [reflexivity|].
  rewrite delivered_app, IH, (delivers_count _ _ _ _ i D1), (waiting_prefix annos i hist) by (destruct T; congruence). unfold written. cbn [filter].
  destruct it as [a s|[a b] inner [a' e]]; cbn [is_definition is_comment].
  - destruct (definition s); reflexivity.
  - destruct (annotation annos b) as [j|]; [|reflexivity]. destruct (Nat.eqb i j); [|reflexivity]. destruct T as [-> | ->]; reflexivity.
Qed.
Print Assumptions C47_once.

(** A prefix annotation is answered if a definition comes before the same
    annotation comes again. *)
Fixpoint answer (annos : list (str * anno_type)) (i : nat) (after : list item) : nat :=
  match after with
  | [] => 0
  | it :: after' => if is_definition it then 1 else if is_comment annos i it then 0 else answer annos i after'
  end.
Fixpoint answered (annos : list (str * anno_type)) (i : nat) (items : list item) : nat :=
  match items with
  | [] => 0
  | it :: items' => (if is_comment annos i it then answer annos i items' else 0) + answered annos i items'
  end.
Lemma waiting_step annos i it hist : type_of annos i = Some APrefix ->
  match waiting annos i (it :: hist) with Some _ => true | None => false end =
  if is_definition it then false else if is_comment annos i it then true else match waiting annos i hist with Some _ => true | None => false end.
Proof.
  intros T. destruct it as [a s|[a b] inner [a' e]]; cbn [waiting is_definition is_comment].
  - destruct (definition s); reflexivity.
  - destruct (annotation annos b) as [j|]; [|reflexivity]. destruct (Nat.eqb_spec i j) as [<-|]; [|reflexivity]. rewrite T. reflexivity.
Qed.
Theorem C47_prefix_once annos items l i : deliveries annos [] items l -> type_of annos i = Some APrefix ->
  delivered i l = answered annos i items.
Proof.
  intros D T. assert (H : forall hist items l, deliveries annos hist items l ->
    delivered i l = (answered annos i items + match waiting annos i hist with Some _ => answer annos i items | None => 0 end)%nat).
  { clear D items l. intros hist items l D. induction D as [hist|hist it items l l' D1 D2 IH].
    - cbn. destruct (waiting annos i hist); reflexivity.
    - rewrite delivered_app, IH, (delivers_count _ _ _ _ i D1), T. cbn [answered answer].
      pose proof (waiting_step annos i it hist T) as W.
      assert (EX : is_definition it = true -> is_comment annos i it = false) by (destruct it; [reflexivity|discriminate]).
      destruct (is_definition it); [rewrite EX by auto|destruct (is_comment annos i it)];
        destruct (waiting annos i (it :: hist)); try discriminate; destruct (waiting annos i hist); try discriminate; lia. }
  rewrite (H [] items l D). cbn [waiting]. lia.
Qed.
Print Assumptions C47_prefix_once.

Lemma answered_written annos i items :
  (forall pre it post, items = pre ++ it :: post -> is_comment annos i it = true -> answer annos i post = 1%nat) -> answered annos i items = written annos i items.
Proof.
  induction items as [|it items IH]; intros H; [reflexivity|]. cbn [answered]. unfold written. cbn [filter].
  rewrite IH by (intros pre it' post E; apply (H (it :: pre) it' post); rewrite E; reflexivity).
  pose proof (H [] it items eq_refl) as H0. destruct (is_comment annos i it); [rewrite H0 by auto|]; reflexivity.
Qed.
(** ... to that definition: *)
Theorem C47_prefix_target annos items l i a b inner a' e pre mid ad d post : deliveries annos [] items l ->
  items = pre ++ Comment (a, b) inner (a', e) :: mid ++ Single ad d :: post ->
  annotation annos b = Some i -> type_of annos i = Some APrefix ->
  Forall (fun it => is_definition it = false /\ is_comment annos i it = false) mid -> definition d = true ->
  In (mkDelivery ad d (Some i) (extent b inner e)) l.
Proof.
  intros D E A T F DD. subst items.
  assert (SPLIT : forall hist pre0 it post0 l0, deliveries annos hist (pre0 ++ it :: post0) l0 ->
    exists l1 l2, (forall v, In v l2 -> In v l0) /\ delivers annos (rev pre0 ++ hist) it l1 /\ deliveries annos (rev pre0 ++ hist) (it :: post0) l2 /\ (forall v, In v l1 -> In v l0)).
  { intros hist pre0. revert hist. induction pre0 as [|x pre0 IH]; intros hist it post0 l0 H; cbn [app] in H; inversion H as [|? ? ? l1 l2 H1 H2]; subst.
    - exists l1, (l1 ++ l2). cbn [rev app]. split; [auto|]. split; [auto|]. split; [auto|]. intros v I. apply in_or_app. auto.
    - destruct (IH _ _ _ _ H2) as (m1 & m2 & P1 & P2 & P3 & P4). exists m1, m2. cbn [rev]. rewrite <- app_assoc. cbn [app].
      split; [intros v I; apply in_or_app; auto|]. split; [auto|]. split; [auto|]. intros v I; apply in_or_app; auto. }
  rewrite app_comm_cons, app_assoc in D. destruct (SPLIT _ _ _ _ _ D) as (l1 & _ & _ & D1 & _ & I).
  apply I. inversion D1 as [| | | | |? ? _ EL|? ? DS]; subst; [|congruence].
  assert (W : waiting annos i (rev (pre ++ Comment (a, b) inner (a', e) :: mid) ++ []) = Some (extent b inner e)).
  { rewrite app_nil_r, rev_app_distr. cbn [rev]. rewrite <- app_assoc. 
    assert (FR : Forall (fun it => is_definition it = false /\ is_comment annos i it = false) (rev mid)) by (apply Forall_rev; exact F).
    induction FR as [|it m [F1 F2] FR IH]; cbn [app].
    - cbn [waiting]. rewrite A, Nat.eqb_refl, T. reflexivity.
    - destruct it as [x s|[x y] z [x' z']]; cbn [waiting is_definition is_comment] in *.
      + rewrite F1. exact IH.
      + destruct (annotation annos y) as [j|]; [rewrite F2|]; exact IH. }
  apply in_flat_map. exists i. split.
  - apply in_seq. pose proof (waiting_in annos i _ ltac:(rewrite W; discriminate)). lia.
  - rewrite W. left. reflexivity.
Qed.
Print Assumptions C47_prefix_target.

(** ** Sources *)
Definition stream (evs : list event) : list (Z * symbol) := flat_map (fun e => match e with ESym a s => [(a, s)] | _ => [] end) evs.
Definition shown (annos : list (str * anno_type)) (src : str) : option (list (Z * option str * option nat * Z)) :=
  match handle_all (start_spec (fresh annos)) (stream (evs_of src)) with
  | Ok (_, l) => Some (map (fun v => (v_addr v, s_name (v_sym v), v_anno v, col (r_start (v_region v)))) l)
  | Fault _ => None
  end.
Definition ANNOS : list (str * anno_type) :=
  [(bytes "device", APrefix); (bytes "enum", APrefix); (bytes "doc", APostfix); (bytes "here", AImmediate)].

(** All kinds in one source: the address, the name of the symbol, which
    annotation, and the column where it begins. *)
Example C47_case :
  shown ANNOS (bytes "(enum a ) ( text ) @x (doc b ) ( a -- b ) 80 ( a -- b ) (here c ( d ) ) (device ) @y/z ( -> ) (other )") =
    Some [(256, Some (bytes "x"), Some 1%nat, 7); (256, Some (bytes "x"), Some 2%nat, 28); (256, Some (bytes "x"), None, 34);
          (256, None, Some 3%nat, 63); (257, Some (bytes "y/z"), Some 0%nat, 73); (257, Some (bytes "y/z"), None, 90)].
Proof. vm_compute. reflexivity. Qed.

(** The claim fails for prefix annotations: one that is repeated before the
    definition is lost, and different ones arrive in the order of the table of
    annotations, not of the source. *)
Theorem C47_repeated_prefix_refuted :
  let x := bytes "(enum a ) (enum b ) @x" in
  assembles (Props_Asm.one x) (bytes "a") true (evs_of x) /\ shown ANNOS x = Some [(256, Some (bytes "x"), Some 1%nat, 17)].
Proof. split; [assembled|vm_compute; reflexivity]. Qed.
Print Assumptions C47_repeated_prefix_refuted.
Theorem C47_order_refuted :
  let x := bytes "(enum a ) (device b ) @x" in
  assembles (Props_Asm.one x) (bytes "a") true (evs_of x) /\
  shown ANNOS x = Some [(256, Some (bytes "x"), Some 0%nat, 19); (256, Some (bytes "x"), Some 1%nat, 7)].
Proof. split; [assembled|vm_compute; reflexivity]. Qed.
Print Assumptions C47_order_refuted.
(** An annotation for the definition before it is delivered even if there is
    none, with a symbol that has no name. *)
Theorem C47_postfix_of_nothing_refuted :
  let x := bytes "@x 80 (doc b )" in
  assembles (Props_Asm.one x) (bytes "a") true (evs_of x) /\ shown ANNOS x = Some [(0, None, Some 2%nat, 12)].
Proof. split; [assembled|vm_compute; reflexivity]. Qed.
Print Assumptions C47_postfix_of_nothing_refuted.
