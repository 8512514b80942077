(** The positions and texts of all tokens, symbols and reports, for every run. *)
From Verif Require Import Base AsmModel PlaceSpec.
From Coq Require Import ZifyBool Ascii String.
Open Scope list_scope.
Ltac Zify.zify_post_hook ::= Z.div_mod_to_equations.

Lemma len_app (a b : str) : len (a ++ b) = len a + len b.
Proof. unfold len. rewrite app_length. lia. Qed.
Lemma len_cons (x : Z) b : len (x :: b) = 1 + len b.
Proof. unfold len. cbn [List.length]. lia. Qed.
Lemma len_nil : len [] = 0.
Proof. reflexivity. Qed.
Lemma len_nonneg s : 0 <= len s.
Proof. unfold len. lia. Qed.

(** ** Places *)
Lemma ends_start : ends_at [] (mkPos 1 1 0).
Proof. exists [], []. cbn. repeat split; auto; lia. Qed.
Lemma ends_char pre p x : x <> 10 -> ends_at pre p -> ends_at (pre ++ [x]) (mkPos (line p) (col p + 1) (byte p + 1)).
Proof.
  intros N (ls & cur & -> & L & I & A & B & C). exists ls, (cur ++ [x]). cbn [line col byte].
  split; [now rewrite app_assoc|]. split; auto. split.
  - intros X. apply in_app_or in X as [X|[X|[]]]; auto.
  - rewrite !len_app in *. rewrite !len_cons, len_nil. repeat split; auto; lia.
Qed.
Lemma ends_newline pre p : ends_at pre p -> ends_at (pre ++ [10]) (mkPos (line p + 1) 1 (byte p + 1)).
Proof.
  intros (ls & cur & -> & L & I & A & B & C). exists ((ls ++ cur) ++ [10]), []. cbn [line col byte].
  split; [now rewrite app_nil_r|]. split; eauto. split; [intros []|].
  rewrite !len_app in *. rewrite len_cons, !len_nil. unfold newlines in *. rewrite !count_occ_app.
  assert (count_occ Z.eq_dec cur 10 = 0%nat) by now apply count_occ_not_In.
  cbn [count_occ]. destruct (Z.eq_dec 10 10); [|lia]. repeat split; lia.
Qed.
Lemma ends_byte pre p : ends_at pre p -> byte p = len pre.
Proof. now intros (ls & cur & _ & _ & _ & _ & _ & C). Qed.

Section Place.
Variable fs : files.
Hypothesis PL : plain fs.

(** ** What is known about tokens, events and states *)
Definition occ (x : Z) : Prop := occurs fs x \/ In x (47 :: DEFAULT_LABEL_SCOPE).
(** Unless a macro uses its argument, a name has no separators either. *)
Definition char_ok (x : Z) : Prop := occ x /\ (occurs fs 94 \/ is_sep x = false).

Definition tok_at (t : token) : Prop :=
  exists c before word after,
    find_file fs (r_file (t_reg t)) = Some c /\ c = before ++ word ++ after /\
    ends_at before (r_start (t_reg t)) /\ ends_at (before ++ word) (r_end (t_reg t)) /\
    hd 10 word <> 10 /\
    (word = t_lex t \/ (exists l, t_lex t = 34 :: l /\ word = 34 :: 32 :: l) \/ In 94 word) /\
    Forall occ (t_lex t) /\ (hd 0 (t_lex t) = 34 \/ Forall char_ok (t_lex t)).

Definition reg_ok (r : region) : Prop := exists c, region_in fs r c.

Definition label_text (w n : str) : Prop :=
  w = 64 :: n \/ (exists scope l, n = scope ++ 47 :: l /\ w = 38 :: l) \/ In 94 w.
Definition macro_text (w n : str) : Prop := w = 37 :: n \/ In 94 w.

(** Names do not begin with a rune (asm.c:359-372). *)
Definition good_name (n : str) : Prop := match n with x :: _ => is_runic x = false | [] => False end.
Definition def_ok (P : str -> str -> Prop) (s : symbol) : Prop :=
  exists n c, s_name s = Some n /\ good_name n /\ Forall char_ok n /\ find_file fs (r_file (s_reg s)) = Some c /\ P (text c (s_reg s)) n.
Definition sym_ok (s : symbol) : Prop :=
  reg_ok (s_reg s) /\ (s_type s = SLabel -> s_gen s = false -> def_ok label_text s) /\ (s_type s = SMacro -> def_ok macro_text s).
Definition ev_ok (e : event) : Prop :=
  match e with
  | ESym _ s => sym_ok s
  | EReport _ m (Some r) => reg_ok r \/ (m = MCannotOpen /\ find_file fs (r_file r) = None /\ r_start r = no_pos /\ r_end r = no_pos)
  | EReport _ _ None => False
  | _ => True
  end.

Definition ref_ok (r : fref) : Prop := tok_at (f_tok r).
Definition entry_ok (e : entry) : Prop :=
  match e with EnMacro _ toks _ => Forall tok_at toks | EnForward _ refs => Forall ref_ok refs | _ => True end.
Definition node_ok (v : node) : Prop := tok_at (n_def v) /\ entry_ok (n_entry v).

Record inv (b : basm) : Prop := mkInv {
  i_buf : b_buf b = None;
  i_out : Forall ev_ok (b_out b);
  i_tab : Forall (fun nv => node_ok (snd nv)) (b_symtab b);
  i_lam : Forall ref_ok (b_lambdas b);
  i_ats : Forall ref_ok (b_ats b);
  i_def : Forall (fun nt => tok_at (snd nt)) (b_deferred b);
  i_scope : Forall char_ok (b_scope b)
}.

Definition file_at (c inp : list Z) (p : pos) : Prop := inp = [] \/ exists before, c = before ++ inp /\ ends_at before p.
Definition unit_at (u : unit_) : Prop :=
  match u with
  | UFile path inp p => exists c, find_file fs path = Some c /\ file_at c inp p
  | UMacro rest arg => Forall tok_at rest /\ match arg with Some t => tok_at t | None => True end
  end.

(** ** Regions *)
Lemma tok_reg t : tok_at t -> reg_ok (t_reg t).
Proof.
  intros (c & pre & w & post & F & E & S & T & H & L & K). exists c. split; auto.
  split; [exists pre, (w ++ post); auto|]. split; [exists (pre ++ w), post; rewrite <- app_assoc; auto|].
  rewrite (ends_byte _ _ S), (ends_byte _ _ T), len_app. pose proof (len_nonneg w). lia.
Qed.
Lemma tok_text t c pre w post : find_file fs (r_file (t_reg t)) = Some c -> c = pre ++ w ++ post ->
  ends_at pre (r_start (t_reg t)) -> ends_at (pre ++ w) (r_end (t_reg t)) -> text c (t_reg t) = w.
Proof.
  intros F E S T. unfold text. rewrite (ends_byte _ _ S), (ends_byte _ _ T), len_app.
  unfold len. replace (Z.to_nat (Z.of_nat (List.length pre) + Z.of_nat (List.length w) - Z.of_nat (List.length pre))) with (List.length w) by lia.
  rewrite Nat2Z.id, E, skipn_app, Nat.sub_diag, skipn_all, skipn_O. cbn [app].
  rewrite firstn_app, Nat.sub_diag, firstn_all, firstn_O. apply app_nil_r.
Qed.
Lemma tok_first t : tok_at t -> exists c pre x w post, find_file fs (r_file (t_reg t)) = Some c /\ c = pre ++ x :: w ++ post /\
  x <> 10 /\ ends_at pre (r_start (t_reg t)) /\ ends_at (pre ++ x :: w) (r_end (t_reg t)).
Proof.
  intros (c & pre & w & post & F & E & S & T & H & L & K). destruct w as [|x w]; [cbn in H; contradiction|].
  exists c, pre, x, w, post. cbn in H. auto.
Qed.
Lemma tok_rune t r : tok_at t -> reg_ok (rune_region (t_reg t) r).
Proof.
  intros H. unfold rune_region. destruct r; [|now apply tok_reg].
  destruct (tok_first t H) as (c & pre & x & w & post & F & E & N & S & T). exists c. split; [auto|]. cbn [r_start r_end].
  split; [exists pre, (x :: w ++ post); auto|]. split; [exists (pre ++ [x]), (w ++ post)|cbn; lia].
  split; [rewrite <- app_assoc; auto|]. now apply ends_char.
Qed.
Lemma tok_word t r : tok_at t -> reg_ok (word_region (t_reg t) r).
Proof.
  intros H. unfold word_region. destruct r; [|now apply tok_reg].
  destruct (tok_first t H) as (c & pre & x & w & post & F & E & N & S & T). exists c. split; [auto|]. cbn [r_start r_end].
  split; [exists (pre ++ [x]), (w ++ post); split; [rewrite <- app_assoc; auto|now apply ends_char]|].
  split; [exists (pre ++ x :: w), post; rewrite <- app_assoc; auto|]. cbn [byte].
  rewrite (ends_byte _ _ S), (ends_byte _ _ T), len_app, len_cons. pose proof (len_nonneg w). lia.
Qed.

(** ** States *)
Ltac inv_set := intros []; constructor; auto.
Lemma inv_addr b v : inv b -> inv (set_addr b v). Proof. inv_set. Qed.
Lemma inv_depth b v : inv b -> inv (set_depth b v). Proof. inv_set. Qed.
Lemma inv_labels b v : inv b -> inv (set_labels b v). Proof. inv_set. Qed.
Lemma inv_nlambdas b v : inv b -> inv (set_nlambdas b v). Proof. inv_set. Qed.
Lemma inv_macros b v : inv b -> inv (set_macros b v). Proof. inv_set. Qed.
Lemma inv_includes b v : inv b -> inv (set_includes b v). Proof. inv_set. Qed.
Lemma inv_fault b v : inv b -> inv (set_fault b v). Proof. inv_set. Qed.
Lemma inv_success b v : inv b -> inv (set_success b v). Proof. inv_set. Qed.
Lemma inv_buf b : inv b -> inv (set_buf b None). Proof. inv_set. Qed.
Lemma inv_scope b v : Forall char_ok v -> inv b -> inv (set_scope b v). Proof. intros H. inv_set. Qed.
Lemma inv_lambdas b v : Forall ref_ok v -> inv b -> inv (set_lambdas b v). Proof. intros H. inv_set. Qed.
Lemma inv_ats b v : Forall ref_ok v -> inv b -> inv (set_ats b v). Proof. intros H. inv_set. Qed.
Lemma inv_deferred b v : Forall (fun nt => tok_at (snd nt)) v -> inv b -> inv (set_deferred b v). Proof. intros H. inv_set. Qed.
Lemma inv_log b e : ev_ok e -> inv b -> inv (log b e).
Proof. intros H []. constructor; auto. cbn. constructor; auto. Qed.
Lemma inv_error_ex b m r : (reg_ok r \/ (m = MCannotOpen /\ find_file fs (r_file r) = None /\ r_start r = no_pos /\ r_end r = no_pos)) -> inv b -> inv (error_ex b m (Some r)).
Proof. intros H I. unfold error_ex. apply inv_log; [exact H|]. now apply inv_success. Qed.
Lemma inv_error b t m : tok_at t -> inv b -> inv (snd (error b t m)).
Proof. intros H I. apply inv_error_ex; auto. left. now apply tok_reg. Qed.
Lemma inv_warning b t m : tok_at t -> inv b -> inv (warning b t m).
Proof. intros H I. apply inv_log; auto. left. now apply tok_reg. Qed.
Lemma inv_symbol b a s : sym_ok s -> inv b -> inv (put_symbol b a s).
Proof. intros H I. now apply inv_log. Qed.
Lemma inv_symbol2 b a s : sym_ok s -> inv b -> inv (put_symbol2 b a s).
Proof. intros H I. unfold put_symbol2. now repeat apply inv_symbol. Qed.

Lemma lookup_in n l v : lookup n l = Some v -> In (n, v) l.
Proof.
  induction l as [|[k w] l IH]; [discriminate|]. cbn. destruct (str_dec k n) as [->|]; [intros [= ->]; now left|]. right. auto.
Qed.
Lemma inv_lookup b n v : inv b -> lookup n (b_symtab b) = Some v -> node_ok v.
Proof. intros I E. apply lookup_in in E. pose proof (i_tab _ I) as F. rewrite Forall_forall in F. exact (F _ E). Qed.
Lemma update_ok n v l : node_ok v -> Forall (fun nv : str * node => node_ok (snd nv)) l -> Forall (fun nv : str * node => node_ok (snd nv)) (update n v l).
Proof.
  intros H F. induction F as [|[k w] l X F IH]; cbn; auto. destruct (str_dec k n); constructor; auto.
Qed.
Lemma inv_node b n v : node_ok v -> inv b -> inv (set_node b n v).
Proof. intros H []. constructor; auto. cbn. now apply update_ok. Qed.

Lemma sym_plain t g id n r : t <> SLabel -> t <> SMacro -> reg_ok r -> sym_ok (mkSymbol t g id n r).
Proof. intros A B R. split; [auto|]. split; cbn; intros; contradiction. Qed.
Lemma sym_generated t id n r : t <> SMacro -> reg_ok r -> sym_ok (mkSymbol t true id n r).
Proof. intros A R. split; [auto|]. split; cbn; intros; [discriminate|contradiction]. Qed.

(** ** Reading *)
Definition pend (o : option Z) : list Z := match o with None => [] | Some x => if x =? IO_EOF then [] else [x] end.
Definition sync (b : basm) (c before inp : list Z) : Prop :=
  c = before ++ pend (b_buf b) ++ inp /\ (b_buf b = Some IO_EOF -> inp = []).

Lemma get_char_place b path c pre inp p : Forall (fun x => 0 <= x < 256 /\ x <> 13) c -> sync b c pre inp -> ends_at pre p ->
  exists ch inp' p', get_char b path inp p = (ch, set_buf b None, inp', p') /\
  ((ch = IO_EOF /\ inp' = []) \/
   (0 <= ch < 256 /\ c = pre ++ ch :: inp' /\ ends_at (pre ++ [ch]) p')).
Proof.
  intros B [E X] P. unfold get_char, peek_char. destruct (b_buf b) as [x|] eqn:U.
  - cbn [pend] in E. destruct (Z.eqb_spec x IO_EOF) as [->|N].
    + do 3 eexists. split; [reflexivity|]. left. split; auto.
    + cbn [app] in E. assert (Q : 0 <= x < 256 /\ x <> 13).
      { rewrite Forall_forall in B. apply B. rewrite E. apply in_elt. }
      replace (x =? IO_ERROR) with false by (cbv [IO_ERROR]; lia). cbn [orb].
      destruct (Z.eqb_spec x 10) as [->|N10].
      * do 3 eexists. split; [reflexivity|]. right. split; [lia|]. split; auto. cbn [line col byte]. now apply ends_newline.
      * replace (x =? 13) with false by lia. do 3 eexists. split; [reflexivity|]. right. split; [lia|]. split; auto. now apply ends_char.
  - cbn [pend app] in E. destruct inp as [|x r].
    + do 3 eexists. split; [reflexivity|]. left. split; auto.
    + assert (Q : 0 <= x < 256 /\ x <> 13).
      { rewrite Forall_forall in B. apply B. rewrite E. apply in_elt. }
      replace (x =? IO_ERROR) with false by (cbv [IO_ERROR]; lia). cbn [orb].
      replace (x =? IO_EOF) with false by (cbv [IO_EOF]; lia).
      replace (x =? IO_ERROR) with false by (cbv [IO_ERROR]; lia). cbn [orb].
      destruct (Z.eqb_spec x 10) as [->|N10].
      * do 3 eexists. split; [reflexivity|]. right. split; [lia|]. split; auto. cbn [line col byte]. now apply ends_newline.
      * replace (x =? 13) with false by lia. do 3 eexists. split; [reflexivity|]. right. split; [lia|]. split; auto. now apply ends_char.
Qed.

(** After reading. *)
Definition scan_ok (r : scan) : Prop :=
  let '(t, b, u) := r in inv b /\ unit_at u /\ match t with Some t => tok_at t | None => True end.

Lemma u8_byte x : 0 <= x < 256 -> u8 x = x.
Proof. intros. unfold u8. now apply Z.mod_small. Qed.

Lemma chars_ok path c l : find_file fs path = Some c -> incl l c -> Forall occ l.
Proof. intros F I. apply Forall_forall. intros x X. left. exists path, c. auto. Qed.

Lemma region_ok path c pre w post p q : find_file fs path = Some c -> c = pre ++ w ++ post -> ends_at pre p -> ends_at (pre ++ w) q ->
  reg_ok (mkRegion path p q).
Proof.
  intros F E S T. exists c. split; [auto|]. cbn [r_start r_end]. split; [exists pre, (w ++ post); auto|].
  split; [exists (pre ++ w), post; rewrite <- app_assoc; auto|].
  rewrite (ends_byte _ _ S), (ends_byte _ _ T), len_app. pose proof (len_nonneg w). lia.
Qed.

Lemma hd_app (d : Z) w x : w <> [] -> hd d (w ++ [x]) = hd d w.
Proof. destruct w; [contradiction|reflexivity]. Qed.

Lemma scan_regular_place path c : find_file fs path = Some c -> forall fuel b pre word ch inp p start fin,
  inv (set_buf b None) -> 0 <= ch < 256 -> hd 10 (word ++ [ch]) <> 10 ->
  Forall (fun x => is_sep x = false) (word ++ [ch]) ->
  c = (pre ++ word ++ [ch]) ++ pend (b_buf b) ++ inp -> (b_buf b = Some IO_EOF -> inp = []) ->
  ends_at pre start -> ends_at (pre ++ word) fin -> ends_at (pre ++ word ++ [ch]) p ->
  (b_buf b = None \/ (word = [] /\ fuel <> O)) ->
  scan_ok (scan_regular fuel b path inp p start fin ch (rev word)).
Proof.
  intros F. pose proof (PL _ _ F) as B. induction fuel as [|fuel IH]; intros b pre word ch inp p start fin I C H NS E X S T P N.
  all: cbn [scan_regular].
  - destruct N as [N|[_ N]]; [|contradiction].
    assert (Ib : inv b) by (destruct I; constructor; auto).
    split; [now apply inv_fault|]. split; auto. exists c. split; auto. right. eexists. split; [|exact P].
    rewrite E, N. reflexivity.
  - destruct (len (rev word) <? MAX_TOKEN_LEN) eqn:L.
    + destruct (get_char_place b path c (pre ++ word ++ [ch]) inp p B (conj E X) P) as (ch' & inp' & p' & G & K). rewrite G.
      assert (W : c = pre ++ (word ++ [ch]) ++ pend (b_buf b) ++ inp) by (rewrite E, <- !app_assoc; reflexivity).
      assert (TK : tok_at (mkTok (rev (u8 ch :: rev word)) (file_region path start p))).
      { exists c, pre, (word ++ [ch]), (pend (b_buf b) ++ inp). cbn [t_lex t_reg r_file r_start r_end file_region].
        rewrite u8_byte by auto. cbn [rev]. rewrite rev_involutive.
        split; auto. split; auto. split; auto. split; auto. split; auto. split; auto.
        assert (OC : Forall occ (word ++ [ch])) by (apply (chars_ok path c); auto; rewrite W; apply incl_appr, incl_appl, incl_refl).
        split; auto. right. rewrite Forall_forall in *. intros x X'. split; auto. }
      destruct K as [(-> & ->)|(C' & E' & P')].
      * change (IO_EOF =? IO_ERROR) with false. cbv iota. cbn [orb]. rewrite Z.eqb_refl. cbn [orb].
        split; auto. split; auto. exists c. split; auto. left. auto.
      * replace (ch' =? IO_ERROR) with false by (cbv [IO_ERROR]; lia).
        replace (ch' =? IO_EOF) with false by (cbv [IO_EOF]; lia). cbn [orb].
        assert (E'' : c = (pre ++ (word ++ [ch]) ++ [ch']) ++ inp') by (rewrite E', <- !app_assoc; reflexivity).
        assert (P'' : ends_at (pre ++ (word ++ [ch]) ++ [ch']) p') by (rewrite <- !app_assoc in *; exact P').
        destruct (is_sep ch') eqn:SP.
        -- split; auto. split; auto. exists c. split; auto. right. eauto.
        -- replace (u8 ch :: rev word) with (rev (word ++ [ch])) by (rewrite rev_unit, u8_byte; auto).
           apply (IH (set_buf b None) pre (word ++ [ch])); cbn; auto; try discriminate.
           ++ rewrite hd_app; [auto|]. now destruct word.
           ++ apply Forall_app; auto.
    + destruct N as [N|[-> _]]; [|cbn in L; discriminate].
      assert (Ib : inv b) by (destruct I; constructor; auto).
      split; [|split; auto].
      * apply inv_error_ex; auto. left. eapply (region_ok path c pre word ([ch] ++ inp)); eauto.
        rewrite E, N. cbn [pend app]. rewrite <- !app_assoc. reflexivity.
      * exists c. split; auto. right. eexists. split; [|exact P]. rewrite E, N. reflexivity.
Qed.

Lemma scan_long_place path c : find_file fs path = Some c -> forall fuel b pre l inp p start,
  inv b -> c = (pre ++ 34 :: 32 :: l) ++ inp -> ends_at pre start -> ends_at (pre ++ 34 :: 32 :: l) p ->
  scan_ok (scan_long_loop fuel b path inp p start (rev (34 :: l))).
Proof.
  intros F. pose proof (PL _ _ F) as B. induction fuel as [|fuel IH]; intros b pre l inp p start I E S P.
  all: cbn [scan_long_loop].
  - split; [now apply inv_fault|]. split; auto. exists c. split; auto. right. eauto.
  - destruct (get_char_place b path c (pre ++ 34 :: 32 :: l) inp p B) as (ch' & inp' & p' & G & K); auto.
    { split; [rewrite (i_buf _ I); exact E|]. rewrite (i_buf _ I). discriminate. }
    rewrite G. assert (I' : inv (set_buf b None)) by now apply inv_buf.
    assert (W : c = pre ++ (34 :: 32 :: l) ++ inp) by (rewrite E, <- !app_assoc; reflexivity).
    assert (R : reg_ok (file_region path start p)) by (eapply region_ok; eauto).
    destruct K as [(-> & ->)|(C' & E' & P')].
    + change (IO_EOF =? IO_ERROR) with false. cbv iota. rewrite Z.eqb_refl.
      split; [|split; auto]; [apply inv_error_ex; auto|exists c; split; auto; left; auto].
    + replace (ch' =? IO_ERROR) with false by (cbv [IO_ERROR]; lia).
      replace (ch' =? IO_EOF) with false by (cbv [IO_EOF]; lia).
      assert (U : unit_at (UFile path inp' p')) by (exists c; split; auto; right; eexists; split; [|exact P']; rewrite <- app_assoc; exact E').
      destruct (ch' =? 34).
      * split; auto. split; auto. exists c, pre, (34 :: 32 :: l), inp. cbn [t_lex t_reg r_file r_start r_end file_region].
        split; auto. split; auto. split; auto. split; auto. split; [cbn; lia|].
        rewrite rev_involutive. split; [right; left; eauto|]. split; [|now left].
        apply (chars_ok path c); auto. rewrite W. intros x [<-|X]; apply in_or_app; right; [left; auto|right; right; apply in_or_app; auto].
      * destruct (_ <? _).
        -- change (u8 ch' :: rev (34 :: l)) with (u8 ch' :: rev (34 :: l)). rewrite u8_byte by auto.
           rewrite <- (rev_unit (34 :: l)). cbn [app]. apply (IH _ pre (l ++ [ch'])); auto.
           ++ rewrite E', <- !app_assoc. cbn [app]. rewrite <- app_assoc. reflexivity.
           ++ rewrite <- app_assoc in P'. exact P'.
        -- split; [apply inv_error_ex; auto|auto].
Qed.

Lemma file_sync b c inp p : b_buf b = None -> file_at c inp p -> 
  inp = [] \/ exists pre, sync b c pre inp /\ ends_at pre p.
Proof.
  intros U [->|(pre & E & P)]; [left; auto|]. right. exists pre. split; auto. split; rewrite U; [exact E|discriminate].
Qed.

Lemma next_in_file_place path c : find_file fs path = Some c -> forall fuel b inp p, inv b -> file_at c inp p ->
  scan_ok (next_in_file fuel b path inp p).
Proof.
  intros F. pose proof (PL _ _ F) as B. induction fuel as [|fuel IH]; intros b inp p I A; cbn [next_in_file].
  - split; [now apply inv_fault|]. split; auto. exists c. split; auto.
  - destruct (file_sync b c inp p (i_buf _ I) A) as [->|(pre & E & P)].
    + unfold get_char, peek_char. rewrite (i_buf _ I). change (IO_EOF =? IO_ERROR) with false. cbv iota. cbn [orb]. rewrite Z.eqb_refl.
      change (IO_EOF =? IO_ERROR) with false. cbv iota. cbn [orb]. rewrite Z.eqb_refl.
      split; [|split; auto]; [destruct I; constructor; auto|exists c; split; auto; left; auto].
    + destruct (get_char_place b path c pre inp p B E P) as (ch & inp' & p' & G & K). rewrite G.
      assert (I' : inv (set_buf b None)) by now apply inv_buf.
      destruct K as [(-> & ->)|(C' & E' & P')].
      * change (IO_EOF =? IO_ERROR) with false. cbn [orb]. rewrite Z.eqb_refl. split; auto. split; auto. exists c. split; auto. left; auto.
      * replace (ch =? IO_ERROR) with false by (cbv [IO_ERROR]; lia).
        replace (ch =? IO_EOF) with false by (cbv [IO_EOF]; lia). cbn [orb].
        assert (E1 : c = (pre ++ [ch]) ++ inp') by (rewrite <- app_assoc; exact E').
        destruct (is_sep ch) eqn:SP; [apply IH; auto; right; eauto|].
        assert (N10 : ch <> 10) by (intros ->; discriminate SP).
        destruct (Z.eqb_spec ch 34) as [->|N].
        -- unfold peek_char. change (b_buf (set_buf b None)) with (@None Z). destruct inp' as [|x r].
           ++ change (IO_EOF =? IO_ERROR) with false. cbv iota. change (IO_EOF =? 32) with false. cbv iota.
              apply (scan_regular_place path c F _ _ pre []); cbn [app rev]; auto.
              ** rewrite app_nil_r. exact P.
              ** right. split; auto. unfold char_fuel. lia.
           ++ assert (Q : 0 <= x < 256 /\ x <> 13) by (rewrite Forall_forall in B; apply B; rewrite E1; apply in_elt).
              replace (x =? IO_ERROR) with false by (cbv [IO_ERROR]; lia). cbv iota.
              destruct (Z.eqb_spec x 32) as [->|NX].
              ** unfold scan_long_string.
                 destruct (get_char_place (set_buf (set_buf b None) (Some 32)) path c (pre ++ [34]) r p' B) as (ch2 & inp2 & p2 & G2 & K2); auto.
                 { split; [exact E1|discriminate]. }
                 rewrite G2. destruct K2 as [(-> & ->)|(C2 & E2 & P2)].
                 { unfold get_char, peek_char in G2. cbn in G2. discriminate. }
                 assert (ch2 :: inp2 = 32 :: r) by (apply (app_inv_head (pre ++ [34])); congruence).
                 injection H as -> ->. apply (scan_long_place path c F _ _ pre []); auto.
                 --- rewrite E1, <- !app_assoc. reflexivity.
                 --- rewrite <- app_assoc in P2. exact P2.
              ** apply (scan_regular_place path c F _ _ pre []); cbn [app rev]; auto.
                 --- cbn [b_buf set_buf pend]. replace (x =? IO_EOF) with false by (cbv [IO_EOF]; lia). exact E1.
                 --- cbn. intros [= ->]. unfold IO_EOF in Q. lia.
                 --- rewrite app_nil_r. exact P.
                 --- right. split; auto. unfold char_fuel. lia.
        -- apply (scan_regular_place path c F _ _ pre []); cbn [app rev]; auto.
           ++ cbn. discriminate.
           ++ rewrite app_nil_r. exact P.
Qed.

Lemma expand_place template : forall arg buf ex r e, expand template arg buf ex = Some (r, e) ->
  (forall P : Z -> Prop, Forall P template -> Forall P arg -> Forall P buf -> Forall P r) /\
  (e = true -> ex = true \/ In 94 template).
Proof.
  induction template as [|x t IH]; intros arg buf ex r e; cbn [expand].
  - intros [= <- <-]. split; auto.
  - destruct (Z.eqb_spec x 94) as [->|N].
    + destruct (_ <? _); [discriminate|]. intros E. destruct (IH _ _ _ _ _ E) as [A _]. split; [|right; now left].
      intros P X Y Z'. inversion X; subst. apply A; auto. apply Forall_app. auto.
    + destruct (_ <? _); [discriminate|]. intros E. destruct (IH _ _ _ _ _ E) as [A D]. split.
      * intros P X Y Z'. inversion X; subst. apply A; auto. apply Forall_app. auto.
      * intros H. destruct (D H); auto. right. now right.
Qed.

Lemma next_in_macro_place b rest arg : inv b -> unit_at (UMacro rest arg) -> scan_ok (next_in_macro b rest arg).
Proof.
  intros I [R A]. unfold next_in_macro. destruct rest as [|t rest]; [split; auto; split; [split; auto|auto]|].
  inversion R as [|? ? Rt Rr]; subst. destruct arg as [a|]; [|split; auto; split; [split; auto|auto]].
  assert (X : inv (error_ex b MExpandedTooLong (Some (t_reg t)))) by (apply inv_error_ex; auto; left; now apply tok_reg).
  destruct (expand _ _ _ _) as [[buf ex]|] eqn:E; [|split; auto; split; [split; auto|auto]].
  destruct (_ <? _); [split; auto; split; [split; auto|auto]|].
  split; auto. split; [split; auto|]. destruct ex; auto.
  destruct (expand_place _ _ _ _ _ _ E) as [C D]. destruct (D eq_refl) as [Y|Y]; [discriminate|].
  destruct Rt as (c & pre & w & post & F & Ec & S & T & H & L & K).
  destruct A as (ca & prea & wa & posta & Fa & Eca & Sa & Ta & Ha & La & Ka).
  exists c, pre, w, post. cbn [t_lex t_reg]. split; auto. split; auto. split; auto. split; auto. split; auto.
  assert (OC : Forall occ buf) by (apply (C occ); [apply K|apply Ka|auto]).
  assert (O94 : occurs fs 94) by (destruct K as [K _]; rewrite Forall_forall in K; destruct (K 94 Y) as [O|O]; [exact O|cbn in O; lia]).
  split; [right; right|split; [exact OC|right; eapply Forall_impl; [|exact OC]; intros x X'; split; auto]].
  destruct L as [->|[(l & L1 & ->)|L]]; auto. rewrite L1 in Y. destruct Y as [Y|Y]; [discriminate|]. now right; right.
Qed.

Lemma next_token_place b u : inv b -> unit_at u -> scan_ok (next_token b u).
Proof.
  intros I U. destruct u as [path inp p|rest arg]; cbn [next_token].
  - destruct U as (c & F & A). eapply next_in_file_place; eauto.
  - now apply next_in_macro_place.
Qed.
(** ** Every function keeps the invariant *)
Hint Resolve inv_addr inv_depth inv_labels inv_nlambdas inv_macros inv_includes inv_fault inv_success inv_error inv_warning
  tok_reg tok_rune tok_word : place.
Definition rok (r : ret) : Prop := inv (snd r).
Definition rok3 (r : bool * basm * unit_) : Prop := inv (snd (fst r)) /\ unit_at (snd r).

Lemma rok_andthen r g : rok r -> (forall b, inv b -> rok (g b)) -> rok (andthen r g).
Proof. unfold andthen, rok. destruct r as [[|] b]; cbn [snd]; auto. Qed.
Lemma rok_error b t m : tok_at t -> inv b -> rok (error b t m).
Proof. apply inv_error. Qed.
Lemma sym_tok ty g id n t : ty <> SLabel -> ty <> SMacro -> tok_at t -> sym_ok (mkSymbol ty g id n (t_reg t)).
Proof. intros. apply sym_plain; auto with place. Qed.

Lemma emit_place b t v : tok_at t -> inv b -> rok (emit b t v).
Proof.
  intros T I. unfold emit. destruct (_ <? _); [apply rok_error; auto with place|].
  apply inv_log; [exact Logic.I|auto with place].
Qed.
Lemma emit2_place b t v : tok_at t -> inv b -> rok (emit2 b t v).
Proof. intros T I. unfold emit2. apply rok_andthen; [now apply emit_place|]. intros. now apply emit_place. Qed.
Lemma emit_opcode_place b t op r : tok_at t -> inv b -> rok (emit_opcode b t op r).
Proof.
  intros T I. unfold emit_opcode. apply rok_andthen; [now apply emit_place|]. intros b' I'. apply inv_symbol; auto.
  apply sym_plain; try discriminate. auto with place.
Qed.
Lemma emit_byte_place b t v r : tok_at t -> inv b -> rok (emit_byte b t v r).
Proof.
  intros T I. unfold emit_byte. apply rok_andthen; [now apply emit_place|]. intros b' I'. apply inv_symbol; auto.
  apply sym_plain; try discriminate. auto with place.
Qed.
Lemma emit_short_place b t v r : tok_at t -> inv b -> rok (emit_short b t v r).
Proof.
  intros T I. unfold emit_short. apply rok_andthen; [now apply emit2_place|]. intros b' I'. apply inv_symbol2; auto.
  apply sym_plain; try discriminate. auto with place.
Qed.
Lemma placeholder_place b t size s r : tok_at t -> inv b -> rok (emit_placeholder b t size s r).
Proof.
  intros T I. unfold emit_placeholder.
  assert (G : forall id name b, inv b -> rok (let sym := mkSymbol SLabelRef false id name (word_region (t_reg t) r) in
    let addr := b_addr b in match size with
    | RByte => emit b t 1 ;; b => (true, put_symbol b addr sym)
    | RShort => emit2 b t 1 ;; b => (true, put_symbol2 b addr sym) end)).
  { intros id name b' I'. assert (S : sym_ok (mkSymbol SLabelRef false id name (word_region (t_reg t) r))) by (apply sym_plain; try discriminate; auto with place).
    cbn zeta. destruct size; apply rok_andthen; auto using emit_place, emit2_place; intros; [now apply inv_symbol|now apply inv_symbol2]. }
  destruct s as [[n id]|]; apply G; auto with place.
Qed.
Lemma forward_place b t ty size n v r : tok_at t -> node_ok v -> inv b -> rok (emit_forward_ref b t ty size n v r).
Proof.
  intros T [V1 V2] I. unfold emit_forward_ref.
  assert (G : forall id refs v b, inv b -> n_entry v = EnForward id refs -> node_ok v -> rok (let addr := b_addr b in
      emit_placeholder b t size (Some (n, id)) r ;; b =>
      (true, set_node b n (set_entry v (EnForward id (mkRef t 0 0 addr ty size :: refs)))))).
  { intros id refs v' b' I' E [W1 W2]. cbn zeta. apply rok_andthen; [now apply placeholder_place|]. intros b2 I2.
    apply inv_node; auto. split; [exact W1|]. cbn. rewrite E in W2. constructor; auto. }
  destruct (n_entry v) as [|id toks ex|id a|id refs] eqn:E.
  - cbn [set_entry n_entry]. apply (G _ []); auto; [|split; [exact V1|cbn; auto]].
    apply inv_node; auto with place. split; [exact V1|cbn; auto].
  - rewrite E. now apply inv_fault.
  - rewrite E. now apply inv_fault.
  - rewrite E. apply G; auto. split; auto. now rewrite E.
Qed.
Lemma lambda_ref_place b t ty size r : tok_at t -> inv b -> rok (emit_lambda_ref b t ty size r).
Proof.
  intros T I. unfold emit_lambda_ref. apply rok_andthen; [now apply placeholder_place|]. intros b' I'.
  apply inv_lambdas; auto with place. constructor; [exact T|]. apply (i_lam _ I').
Qed.
Lemma calc_place b t ty from to : tok_at t -> inv b -> inv (snd (calculate_addr b t ty from to)).
Proof. intros T I. destruct ty; cbn; auto. destruct (_ <? _); auto with place. Qed.
Lemma emit_addr_place b t ty size a s : tok_at t -> match s with Some s => sym_ok s | None => True end -> inv b -> rok (emit_addr b t ty size a s).
Proof.
  intros T S I. unfold emit_addr. destruct size.
  - destruct (match ty with RRel => _ | _ => _ end); [apply rok_error; auto|].
    apply rok_andthen; [now apply emit_place|]. intros. destruct s; auto. now apply inv_symbol.
  - apply rok_andthen; [now apply emit2_place|]. intros. destruct s; auto. now apply inv_symbol2.
Qed.
Lemma backward_place b t ty size n id to w r : tok_at t -> inv b -> rok (emit_backward_ref b t ty size n id to w r).
Proof.
  intros T I. unfold emit_backward_ref. pose proof (calc_place b t ty (b_addr b) to T I) as C.
  destruct (calculate_addr _ _ _ _ _) as [a b']. cbn [snd] in C. apply emit_addr_place; auto.
  destruct w; auto. apply sym_plain; try discriminate. auto with place.
Qed.
Lemma patch_place refs : forall b n id to, Forall ref_ok refs -> inv b -> inv (patch b refs n id to).
Proof.
  induction refs as [|x refs IH]; intros b n id to F I; cbn [patch]; auto. inversion F; subst.
  pose proof (backward_place (set_addr b (f_addr x)) (f_tok x) (f_type x) (f_size x) (Some n) id to false false H1 (inv_addr _ _ I)) as B.
  destruct (emit_backward_ref _ _ _ _ _ _ _ _ _) as [ok b']. apply IH; auto.
Qed.

(** The token defines the name. *)
Definition defines (P : str -> str -> Prop) (t : token) (n : str) : Prop :=
  Forall char_ok n /\ forall w, w = t_lex t \/ (exists l, t_lex t = 34 :: l /\ w = 34 :: 32 :: l) \/ In 94 w -> P w n.
Lemma defines_def P t n id : tok_at t -> good_name n -> defines P t n -> def_ok P (mkSymbol SLabel false id (Some n) (t_reg t)) /\ def_ok P (mkSymbol SMacro false id (Some n) (t_reg t)).
Proof.
  intros (c & pre & w & post & F & E & S & T & H & L & K) G [C D].
  split; exists n, c; (split; [reflexivity|split; [exact G|]; split; [exact C|split; [exact F|]]]); cbn [s_reg]; rewrite (tok_text t c pre w post); auto.
Qed.

Lemma define_place b t n v id refs : tok_at t -> good_name n -> defines label_text t n -> tok_at (n_def v) -> Forall ref_ok refs -> inv b -> rok (define_label b t n v id refs).
Proof.
  intros T G D V F I. unfold define_label, rok. cbn [snd]. apply inv_symbol.
  - split; [cbn; auto with place|]. split; [|discriminate]. intros _ _. exact (proj1 (defines_def _ t n id T G D)).
  - apply inv_addr, inv_node; [split; [exact V|exact Logic.I]|]. apply patch_place; auto. apply inv_node; auto. split; [exact V|exact Logic.I].
Qed.
Lemma find_place b t n : tok_at t -> inv b -> inv (snd (find_or_create b t n)) /\ forall v, fst (find_or_create b t n) = Some v -> node_ok v /\ good_name n.
Proof.
  intros T I. unfold find_or_create. destruct n as [|x n]; [split; [now apply inv_error|discriminate]|].
  destruct (is_runic x) eqn:G; [split; [now apply inv_error|discriminate]|].
  destruct (parse_opcode _); [split; [now apply inv_error|discriminate]|].
  destruct (is_number _); [split; [now apply inv_error|discriminate]|].
  destruct (lookup _ _) as [v|] eqn:L.
  - split; auto. intros v' [= <-]. split; [now apply (inv_lookup b _ _ I L)|exact G].
  - assert (N : node_ok (mkNode t false EnUnknown)) by (split; [exact T|exact Logic.I]). split; [|intros v [= <-]; split; [exact N|exact G]].
    cbn [snd]. destruct I. constructor; auto. cbn. apply Forall_app. split; auto.
Qed.
Lemma register_place b t n : tok_at t -> defines label_text t n -> inv b -> rok (register_label b t n).
Proof.
  intros T D I. unfold register_label. destruct (find_place b t n T I) as [I' V].
  destruct (find_or_create b t n) as [[v|] b']; cbn [fst snd] in *; auto.
  destruct (V v eq_refl) as [[V1 V2] G]. destruct (n_entry v); try (now apply rok_error); apply define_place; auto with place.
Qed.
Lemma local_name_place b t l : tok_at t -> inv b -> inv (snd (resolve_local_name b t l)).
Proof. intros T I. unfold resolve_local_name. destruct (_ <? _); auto. now apply inv_error. Qed.
Lemma label_ref_name_place b t l : tok_at t -> inv b -> inv (snd (resolve_label_ref b t l)).
Proof.
  intros T I. unfold resolve_label_ref. destruct l; [now apply inv_error|]. destruct (_ || _); auto. now apply local_name_place.
Qed.
Lemma pop_at_place b : inv b -> inv (snd (pop_at_label b)) /\ forall l, fst (pop_at_label b) = Some l -> ref_ok l.
Proof.
  intros I. unfold pop_at_label. pose proof (i_ats _ I) as A. destruct (b_ats b) as [|l r] eqn:E; cbn [fst snd]; [split; auto; discriminate|].
  inversion A; subst. split; [now apply inv_ats|]. intros l' [= <-]. auto.
Qed.
Lemma emit_label_ref_place b t ty size n r : tok_at t -> inv b -> rok (emit_label_ref b t ty size n r).
Proof.
  intros T I. unfold emit_label_ref. destruct (str_eqb n [123]); [now apply lambda_ref_place|].
  pose proof (label_ref_name_place b t n T I) as I1. destruct (resolve_label_ref b t n) as [[full|] b1]; cbn [snd] in I1; auto.
  destruct (str_eqb full [64]).
  - destruct (pop_at_place b1 I1) as [I2 _]. destruct (pop_at_label b1) as [[l|] b2]; cbn [fst snd] in *; [now apply backward_place|now apply rok_error].
  - destruct full as [|x full]; [now apply rok_error|]. destruct (is_runic x); [now apply rok_error|].
    destruct (find_place b1 t (x :: full) T I1) as [I2 V]. destruct (find_or_create b1 t (x :: full)) as [[v|] b2]; cbn [fst snd] in *; auto.
    specialize (V v eq_refl). destruct V as [V _]. destruct (n_entry v) eqn:E; try (now apply forward_place); try (now apply rok_error).
    apply backward_place; auto. apply inv_node; auto.
Qed.
Lemma jsi_place b t : tok_at t -> inv b -> rok (emit_jsi b t).
Proof. intros T I. unfold emit_jsi. apply rok_andthen; [now apply emit_opcode_place|]. intros. now apply emit_label_ref_place. Qed.

Lemma comment_loop_place fuel : forall b u d, inv b -> unit_at u -> rok3 (comment_loop fuel b u d).
Proof.
  induction fuel as [|fuel IH]; intros b u d I U; cbn [comment_loop]; [split; auto; now apply inv_fault|].
  destruct (_ <=? _); [split; auto|]. pose proof (next_token_place b u I U) as N.
  destruct (next_token b u) as [[[t|] b'] u']; destruct N as (I' & U' & T); [|split; auto].
  destruct (t_lex t) eqn:L; [split; auto; now apply inv_fault|]. apply IH; auto. apply inv_symbol; auto.
  apply sym_tok; auto; discriminate.
Qed.
Lemma comment_place b t u : tok_at t -> inv b -> unit_at u -> rok3 (process_comment b t u).
Proof.
  intros T I U. unfold process_comment.
  assert (I1 : inv (put_symbol b (b_addr b) (mkSymbol SComment false 0 (Some (t_lex t)) (t_reg t)))) by (apply inv_symbol; auto; apply sym_tok; auto; discriminate).
  pose proof (comment_loop_place (unit_fuel u) _ u 1 I1 U) as [I2 U2]. destruct (comment_loop _ _ _ _) as [[[|] b'] u']; split; auto.
  cbn in *. apply inv_error_ex; auto. left. auto with place.
Qed.
Lemma mark_place b t : tok_at t -> inv b -> inv (process_mark b t).
Proof. intros T I. apply inv_symbol; auto. apply sym_tok; auto; discriminate. Qed.
Lemma macro_open_place fuel : forall b t u, tok_at t -> inv b -> unit_at u -> rok3 (macro_open fuel b t u).
Proof.
  induction fuel as [|fuel IH]; intros b t u T I U; cbn [macro_open]; [split; auto; now apply inv_fault|].
  pose proof (next_token_place b u I U) as N. destruct (next_token b u) as [[[x|] b'] u']; destruct N as (I' & U' & X);
    [|split; auto; now apply inv_error].
  cbn zeta. destruct (_ =? 40).
  - pose proof (comment_place b' x u' X I' U') as [I2 U2]. destruct (process_comment b' x u') as [[[|] b2] u2]; cbn in *; [auto|split; auto].
  - destruct (_ =? 91); [apply IH; auto; now apply mark_place|].
    destruct (_ =? 93); [destruct (_ =? 1); [apply IH; auto; now apply mark_place|split; auto; now apply inv_error]|].
    destruct (_ =? 123); [destruct (_ =? 1); split; auto; now apply inv_error|split; auto; now apply inv_error].
Qed.
Lemma macro_body_place fuel : forall b t u d toks, tok_at t -> Forall tok_at toks -> inv b -> unit_at u ->
  let '(r, b', u') := macro_body fuel b t u d toks in inv b' /\ unit_at u' /\ match r with Some l => Forall tok_at l | None => True end.
Proof.
  induction fuel as [|fuel IH]; intros b t u d toks T K I U; cbn [macro_body]; [split; auto; now apply inv_fault|].
  destruct (_ <=? _); [split; auto; split; auto; now apply Forall_rev|].
  pose proof (next_token_place b u I U) as N. destruct (next_token b u) as [[[x|] b'] u']; destruct N as (I' & U' & X);
    [|split; auto; apply inv_error_ex; auto; left; auto with place].
  destruct (t_lex x) eqn:L; [split; auto; now apply inv_fault|].
  destruct (_ =? 37); [split; auto; now apply inv_error|]. cbn zeta. apply IH; auto. destruct (_ <? _); auto.
Qed.
Lemma create_macro_place b t u n v : tok_at t -> good_name n -> defines macro_text t n -> tok_at (n_def v) -> inv b -> unit_at u -> rok3 (create_macro b t u n v).
Proof.
  intros T G D V I U. unfold create_macro. cbn zeta.
  assert (I1 : inv (put_symbol (set_macros b (u16 (b_macros b + 1))) 0 (mkSymbol SMacro false (u16 (b_macros b + 1)) (Some n) (t_reg t)))).
  { apply inv_symbol; auto with place. split; [cbn; auto with place|]. split; [discriminate|]. intros _. exact (proj2 (defines_def _ t n _ T G D)). }
  pose proof (macro_open_place (unit_fuel u) _ t u T I1 U) as [I2 U2].
  destruct (macro_open _ _ _ _) as [[[|] b2] u2]; cbn [fst snd] in I2, U2; [|split; auto].
  pose proof (macro_body_place (unit_fuel u2) b2 t u2 1 [] T (Forall_nil _) I2 U2) as B.
  destruct (macro_body _ _ _ _ _ _) as [[[l|] b3] u3]; destruct B as (I3 & U3 & L); split; auto.
  apply inv_node; auto. split; auto.
Qed.

Lemma hd_pop t x : t_lex t <> [] -> hd 0 (t_lex t) = x -> t_lex t = x :: pop_front (t_lex t).
Proof. destruct (t_lex t); [contradiction|]. cbn. intros _ ->. reflexivity. Qed.
Lemma tok_chars t : tok_at t -> hd 0 (t_lex t) <> 34 -> Forall char_ok (t_lex t).
Proof. intros (c & pre & w & post & F & E & S & T & H & L & _ & [K|K]) N; [contradiction|exact K]. Qed.

Lemma process_macro_place b t u : tok_at t -> t_lex t <> [] -> hd 0 (t_lex t) = 37 -> inv b -> unit_at u -> rok3 (process_macro b t u).
Proof.
  intros T NE H I U. unfold process_macro. pose proof (hd_pop t 37 NE H) as L. set (n := pop_front (t_lex t)) in *.
  destruct (find_place b t n T I) as [I' V]. destruct (find_or_create b t n) as [[v|] b']; cbn [fst snd] in *; [|split; auto].
  destruct (V v eq_refl) as [[V1 V2] G]. destruct (n_entry v); try (split; auto; now apply inv_error).
  apply create_macro_place; auto. pose proof (tok_chars t T ltac:(rewrite H; discriminate)) as C. rewrite L in C. inversion C; subst. split; auto.
  intros w [->|[(l & E & _)|W]]; [left; auto|rewrite L in E; discriminate|right; auto].
Qed.

Lemma make_name_place b id : inv b -> inv (snd (make_lambda_name b id)).
Proof. intros I. unfold make_lambda_name. cbn. destruct (_ <=? _); auto. now apply inv_log. Qed.
Lemma up_to_slash_ok s : Forall char_ok s -> Forall char_ok (up_to_slash s).
Proof. induction 1; cbn; auto. destruct (_ =? 47); auto. Qed.
Lemma global_label_place b t : tok_at t -> t_lex t <> [] -> hd 0 (t_lex t) = 64 -> inv b -> rok (process_global_label b t).
Proof.
  intros T NE H I. unfold process_global_label. pose proof (hd_pop t 64 NE H) as L. set (n := pop_front (t_lex t)) in *.
  pose proof (tok_chars t T ltac:(rewrite H; discriminate)) as C. rewrite L in C. inversion C; subst.
  destruct (str_eqb n [64]).
  - cbn zeta. match goal with |- context [make_lambda_name ?x ?i] => assert (X : inv x); [|pose proof (make_name_place x i X) as Y; destruct (make_lambda_name x i) as [nm b']] end.
    + apply inv_ats; auto with place. constructor; [exact T|]. apply (i_ats _ I).
    + apply inv_symbol; auto. apply sym_generated; [discriminate|]. auto with place.
  - apply rok_andthen.
    + apply register_place; auto. split; auto. intros w [->|[(l & E & _)|W]]; [left; auto|rewrite L in E; discriminate|right; right; auto].
    + intros b' I'. apply inv_scope; auto. now apply up_to_slash_ok.
Qed.
Lemma local_label_place b t : tok_at t -> t_lex t <> [] -> hd 0 (t_lex t) = 38 -> inv b -> rok (process_local_label b t).
Proof.
  intros T NE H I. unfold process_local_label. pose proof (hd_pop t 38 NE H) as L. set (n := pop_front (t_lex t)) in *.
  pose proof (tok_chars t T ltac:(rewrite H; discriminate)) as C. rewrite L in C. inversion C; subst. unfold resolve_local_name.
  destruct (_ <? _); [now apply inv_error|]. apply register_place; auto. split.
  - apply Forall_app. split; [apply (i_scope _ I)|]. constructor; auto. split; [right; now left|right; reflexivity].
  - intros w [->|[(l & E & _)|W]]; [right; left; eauto|rewrite L in E; discriminate|right; right; auto].
Qed.

Lemma padding_place b t : tok_at t -> inv b -> inv (snd (resolve_padding b t)).
Proof.
  intros T I. unfold resolve_padding. destruct (pop_front (t_lex t)) as [|x s]; [now apply inv_error|].
  destruct (is_number _); [destruct (parse_number _) as [m|[n z]]; auto; now apply inv_error|].
  pose proof (label_ref_name_place b t (x :: s) T I) as I1. destruct (resolve_label_ref _ _ _) as [[l|] b1]; cbn [snd] in I1; auto.
  destruct (str_eqb l [64]).
  - destruct (pop_at_place b1 I1) as [I2 _]. destruct (pop_at_label b1) as [[r|] b2]; cbn [fst snd] in *; auto. now apply inv_error.
  - destruct (lookup l (b_symtab b1)) as [v|] eqn:E; [|now apply inv_error].
    destruct (inv_lookup _ _ _ I1 E) as [V1 V2]. destruct (n_entry v) eqn:N; try (now apply inv_error).
    cbn [snd]. apply inv_node; auto. split; auto. cbn. now rewrite N.
Qed.
Lemma abs_padding_place b t : tok_at t -> inv b -> rok (process_abs_padding b t).
Proof.
  intros T I. unfold process_abs_padding. pose proof (padding_place b t T I) as P. destruct (resolve_padding b t) as [[n|] b']; cbn in P; auto.
  now apply inv_addr.
Qed.
Lemma rel_padding_place b t : tok_at t -> inv b -> rok (process_rel_padding b t).
Proof.
  intros T I. unfold process_rel_padding. pose proof (padding_place b t T I) as P. destruct (resolve_padding b t) as [[n|] b']; cbn in P; auto.
  cbn zeta. unfold rok. cbn [snd]. destruct (_ <? _); auto with place.
Qed.
Lemma lit_place b t : tok_at t -> inv b -> rok (process_lit_number b t).
Proof.
  intros T I. unfold process_lit_number. destruct (literal _) as [m|[n z]]; [now apply rok_error|].
  destruct (_ =? 1); (apply rok_andthen; [now apply emit_opcode_place|]); intros; [now apply emit_byte_place|now apply emit_short_place].
Qed.
Lemma raw_place b t : tok_at t -> inv b -> rok (process_raw_number b t).
Proof.
  intros T I. unfold process_raw_number. destruct (literal _) as [m|[n z]]; [now apply rok_error|].
  destruct (_ =? 1); [now apply emit_byte_place|now apply emit_short_place].
Qed.
Lemma lambda_close_place b t : tok_at t -> inv b -> rok (process_lambda_close b t).
Proof.
  intros T I. unfold process_lambda_close. pose proof (i_lam _ I) as L. destruct (b_lambdas b) as [|x rest]; [now apply rok_error|].
  inversion L; subst. cbn zeta. pose proof (calc_place b (f_tok x) (f_type x) (f_addr x) (b_addr b) H1 I) as C.
  destruct (calculate_addr _ _ _ _ _) as [a b']. cbn [snd] in C. apply rok_andthen; [apply emit_addr_place; auto with place|].
  intros b2 I2. pose proof (make_name_place (set_addr b2 (b_addr b)) (f_lambda x) (inv_addr _ _ I2)) as M.
  destruct (make_lambda_name _ _) as [n b3]. cbn [snd] in M. unfold rok. cbn [snd].
  apply inv_lambdas; auto. apply inv_symbol; auto. apply sym_generated; [discriminate|]. auto with place.
Qed.
Lemma emit_text_place s : forall b t sym a, tok_at t -> sym_ok sym -> inv b -> rok (emit_text b t sym a s).
Proof.
  induction s as [|x s IH]; intros b t sym a T S I; cbn [emit_text]; auto.
  apply rok_andthen; [now apply emit_place|]. intros. apply IH; auto. now apply inv_symbol.
Qed.
Lemma text_place b t : tok_at t -> inv b -> rok (process_text b t).
Proof.
  intros T I. unfold process_text. destruct (_ <=? 1); [now apply rok_error|]. apply emit_text_place; auto. apply sym_tok; auto; discriminate.
Qed.

Section Nested.
Variable pu : basm -> unit_ -> ret.
Hypothesis PU : forall b u, inv b -> unit_at u -> rok (pu b u).

Lemma file_place b path : inv b -> rok (process_file fs pu b path).
Proof.
  intros I. unfold process_file. destruct (find_file fs path) as [c|] eqn:F.
  - assert (U : unit_at (UFile path c (mkPos 1 1 0))) by (exists c; split; auto; right; exists []; split; auto; apply ends_start).
    pose proof (PU (log b (EOpen path)) _ (inv_log b (EOpen path) Logic.I I) U) as P.
    destruct (pu _ _) as [ok b']. now apply inv_log.
  - apply inv_error_ex; auto.
Qed.
Lemma include_place b n t : tok_at t -> inv b -> rok (process_include fs pu b n t).
Proof.
  intros T I. unfold process_include. destruct (existsb _ _); auto. cbn zeta.
  match goal with |- context [process_file fs pu ?x n] => pose proof (file_place x n) as P; destruct (process_file fs pu x n) as [ok b'] end.
  unfold rok in P. cbn [snd] in P. assert (I' : inv (set_depth b' (b_depth b' - 1))) by (apply inv_depth, P; auto with place).
  destruct ok; auto. unfold error. apply inv_error_ex; auto. left. cbn. auto with place.
Qed.
Lemma run_macro_place b t n v id toks arg u : tok_at t -> tok_at (n_def v) -> Forall tok_at toks -> match arg with Some a => tok_at a | None => True end ->
  inv b -> unit_at u -> rok3 (run_macro pu b t n v id toks arg u).
Proof.
  intros T V K A I U. unfold run_macro. cbn zeta.
  match goal with |- context [pu ?x ?y] => assert (P : rok (pu x y)); [apply PU|destruct (pu x y) as [ok b']] end.
  - apply inv_log; [exact Logic.I|]. apply inv_depth, inv_node; auto. split; auto.
  - split; auto.
  - unfold rok in P. cbn [snd] in P. split; auto. cbn [fst snd].
    assert (X : inv (set_node (set_depth (log b' (ELeave n)) (b_depth (log b' (ELeave n)) - 1)) n (set_entry v (EnMacro id toks false)))).
    { apply inv_node; [split; auto|]. apply inv_depth, inv_log; auto. exact Logic.I. }
    destruct ok; auto. apply inv_error_ex; auto. left. auto with place.
Qed.
Lemma expand_macro_place b t n v id toks ex u : tok_at t -> tok_at (n_def v) -> Forall tok_at toks -> inv b -> unit_at u ->
  rok3 (expand_macro pu b t n v id toks ex u).
Proof.
  intros T V K I U. unfold expand_macro. destruct (_ <=? _); [split; auto; now apply inv_error|].
  destruct ex; [split; auto; now apply inv_error|]. cbn zeta.
  assert (I1 : inv (put_symbol b 0 (mkSymbol SMacroRef false id (Some n) (t_reg t)))) by (apply inv_symbol; auto; apply sym_tok; auto; discriminate).
  destruct (_ =? 58); [|apply run_macro_place; auto].
  pose proof (next_token_place _ u I1 U) as N. destruct (next_token _ u) as [[[x|] b'] u']; destruct N as (I' & U' & X).
  - apply run_macro_place; auto.
  - split; auto. cbn [fst snd]. destruct (b_success b'); auto. now apply inv_error.
Qed.
Lemma keep_place r u : rok r -> unit_at u -> rok3 (keep r u).
Proof. destruct r as [ok b]. intros R U. split; auto. Qed.
Lemma word_place b t u : tok_at t -> inv b -> unit_at u -> rok3 (process_word pu b t u).
Proof.
  intros T I U. unfold process_word. destruct (is_runic _); [split; auto; now apply inv_fault|].
  destruct (parse_opcode _) as [[op red]|].
  - apply keep_place; auto. apply emit_opcode_place; auto. destruct red; auto with place.
  - destruct (find_place b t (t_lex t) T I) as [I' V]. destruct (find_or_create b t (t_lex t)) as [[v|] b']; cbn [fst snd] in *; [|split; auto].
    pose proof (proj1 (V v eq_refl)) as W. pose proof W as [V1 V2]. destruct (n_entry v) eqn:E.
    + apply keep_place; auto. apply rok_andthen; [now apply emit_opcode_place|]. intros. apply forward_place; auto.
    + apply expand_macro_place; auto. apply inv_node; auto.
    + apply keep_place; auto. apply rok_andthen; [apply emit_opcode_place; auto|]. 2: intros; now apply backward_place.
      apply inv_node; auto.
    + apply keep_place; auto. apply rok_andthen; [now apply emit_opcode_place|]. intros. apply forward_place; auto.
Qed.
Lemma tilde_place b t : tok_at t -> inv b -> rok (process_tilde fs pu b t).
Proof.
  intros T I. unfold process_tilde. destruct (_ <=? _); [now apply rok_error|]. cbn zeta.
  assert (I1 : forall n, inv (put_symbol b (b_addr b) (mkSymbol SInclude false 0 (Some n) (t_reg t)))) by (intros; apply inv_symbol; auto; apply sym_tok; auto; discriminate).
  destruct (_ =? 126).
  - destruct (existsb _ _); [apply I1|]. apply inv_deferred; [|apply I1]. apply Forall_app. split; [|auto].
    apply (i_def _ (I1 (pop_front (pop_front (t_lex t))))).
  - apply include_place; auto.
Qed.
Lemma token_place b t u : tok_at t -> t_lex t <> [] -> inv b -> unit_at u -> rok3 (process_token fs pu b t u).
Proof.
  intros T NE I U. unfold process_token. cbn zeta.
  assert (O : forall op k, (forall b, inv b -> rok (k b)) -> rok3 (keep (emit_opcode b t op true ;; b => k b) u)).
  { intros op k K. apply keep_place; auto. apply rok_andthen; auto. now apply emit_opcode_place. }
  assert (Er : forall m, rok3 (keep (error b t m) u)) by (intros; apply keep_place; auto; now apply rok_error).
  assert (M : rok3 (true, process_mark b t, u)) by (split; auto; now apply mark_place).
  destruct (_ =? chr "("); [now apply comment_place|].
  destruct (_ =? chr ")"); [auto|].
  destruct (_ =? chr "["); [auto|].
  destruct (_ =? chr "]"); [destruct (_ =? 1); auto|].
  destruct (_ =? chr "~"); [apply keep_place; auto; now apply tilde_place|].
  destruct (Z.eqb_spec (hd 0 (t_lex t)) (chr "%")) as [E|_]; [now apply process_macro_place|].
  destruct (Z.eqb_spec (hd 0 (t_lex t)) (chr "@")) as [E|_]; [apply keep_place; auto; now apply global_label_place|].
  destruct (Z.eqb_spec (hd 0 (t_lex t)) (chr "&")) as [E|_]; [apply keep_place; auto; now apply local_label_place|].
  destruct (_ =? chr "!"); [apply O; intros; now apply emit_label_ref_place|].
  destruct (_ =? chr "?"); [apply O; intros; now apply emit_label_ref_place|].
  destruct (_ =? chr "}"); [destruct (_ =? 1); auto; apply keep_place; auto; now apply lambda_close_place|].
  destruct (_ =? chr "{"); [destruct (_ =? 1); auto; apply keep_place; auto; now apply jsi_place|].
  destruct (_ =? chr "/"); [apply keep_place; auto; now apply jsi_place|].
  destruct (_ =? chr "|"); [apply keep_place; auto; now apply abs_padding_place|].
  destruct (_ =? chr "$"); [apply keep_place; auto; now apply rel_padding_place|].
  destruct (_ =? chr "#"); [apply keep_place; auto; now apply lit_place|].
  destruct (_ =? chr "."); [apply O; intros; now apply emit_label_ref_place|].
  destruct (_ =? chr "-"); [apply keep_place; auto; now apply emit_label_ref_place|].
  destruct (_ =? chr ","); [apply O; intros; now apply emit_label_ref_place|].
  destruct (_ =? chr "_"); [apply keep_place; auto; now apply emit_label_ref_place|].
  destruct (_ =? chr ";"); [apply O; intros; now apply emit_label_ref_place|].
  destruct (_ =? chr "="); [apply keep_place; auto; now apply emit_label_ref_place|].
  destruct (_ =? 34); [apply keep_place; auto; now apply text_place|].
  destruct (is_number _); [apply keep_place; auto; now apply raw_place|]. now apply word_place.
Qed.
Lemma unit_loop_place fuel : forall b u, inv b -> unit_at u -> rok (unit_loop fs pu fuel b u).
Proof.
  induction fuel as [|fuel IH]; intros b u I U; cbn [unit_loop]; [now apply inv_fault|].
  pose proof (next_token_place b u I U) as N. destruct (next_token b u) as [[[t|] b'] u']; destruct N as (I' & U' & T); auto.
  destruct (t_lex t) eqn:L; [now apply inv_fault|]. cbn zeta.
  assert (NE : t_lex t <> []) by now rewrite L.
  pose proof (token_place (log b' (ETok (b_scope b') (b_addr b') (z :: s))) t u' T NE (inv_log b' (ETok _ _ _) Logic.I I') U') as [I2 U2].
  destruct (process_token _ _ _ _ _) as [[[|] b2] u2]; auto.
Qed.
End Nested.

Lemma process_unit_place d : forall b u, inv b -> unit_at u -> rok (process_unit fs d b u).
Proof.
  induction d as [|d IH]; intros b u I U; cbn [process_unit]; [now apply inv_fault|]. now apply unit_loop_place.
Qed.
Lemma deferred_place fuel : forall i b, inv b -> rok (deferred_loop fs fuel i b).
Proof.
  induction fuel as [|fuel IH]; intros i b I; cbn [deferred_loop]; [now apply inv_fault|].
  destruct (nth_error (b_deferred b) i) as [[n t]|] eqn:E; auto.
  apply rok_andthen; auto. apply include_place; auto using process_unit_place.
  pose proof (i_def _ I) as F. rewrite Forall_forall in F. exact (F _ (nth_error_In _ _ E)).
Qed.
Lemma fold_place {A} (f : basm -> A -> basm) (P : A -> Prop) (H : forall b x, P x -> inv b -> inv (f b x)) l :
  forall b, Forall P l -> inv b -> inv (fold_left f l b).
Proof. induction l as [|x l IH]; intros b F I; cbn; auto. inversion F; subst. auto. Qed.
Lemma resolve_place fuel b : inv b -> rok (resolve fs fuel b).
Proof.
  intros I. unfold resolve. apply rok_andthen; [now apply deferred_place|]. intros b1 I1. unfold rok. cbn [snd].
  assert (A : inv (report_lambdas b1)).
  { apply (fold_place _ ref_ok); auto; [|apply (i_lam _ I1)]. intros. apply inv_error_ex; auto. left. auto with place. }
  assert (B : inv (report_ats (report_lambdas b1))).
  { apply (fold_place _ ref_ok); auto; [|apply (i_ats _ A)]. intros. apply inv_warning; auto. }
  apply (fold_place _ (fun nv => node_ok (snd nv))); auto; [|apply (i_tab _ B)].
  intros bb [n v] [V1 V2] Ib. cbn [snd] in *. unfold report_symbol. destruct (n_entry v); cbn [entry_ok] in V2.
  - now apply inv_error.
  - destruct (_ && _); auto with place.
  - destruct (_ && _); auto with place.
  - apply (fold_place _ ref_ok); auto. intros. apply inv_error_ex; auto. left. auto with place.
Qed.
Lemma start_place : inv start.
Proof.
  constructor; cbn; auto. apply Forall_forall. intros x X. split; [right; right; exact X|]. right. cbn in X. repeat (destruct X as [<-|X]; [reflexivity|]). destruct X.
Qed.
Theorem asm_place fuel file : inv (snd (asm fs fuel file)).
Proof.
  unfold asm. pose proof (file_place (process_unit fs DEPTH) (process_unit_place DEPTH) start file start_place) as P.
  destruct (process_file _ _ _ _) as [ok b]. unfold rok in P. cbn [snd] in P. destruct (negb ok); auto.
  pose proof (resolve_place fuel b P) as R. destruct (resolve _ _ _) as [ok' b']. exact R.
Qed.
End Place.
