(** Reading tokens, for every run. *)
From Verif Require Import Base AsmModel AsmSound.
From Coq Require Import ZifyBool.

Definition mm (b : basm) (inp : list Z) : nat := 2 * List.length inp + bit (b_buf b).

Lemma peek_props b path inp c b' inp' :
  wf b -> peek_char b path inp = (c, b', inp') ->
  rel b b' /\ wf b' /\ (mm b' inp' <= mm b inp)%nat /\
  (c = IO_EOF -> bit (b_buf b') = 0%nat) /\ (c = IO_ERROR -> b_success b' = false) /\
  (b_buf b = None -> c <> IO_ERROR /\ (c <> IO_EOF -> (mm b' inp' < mm b inp)%nat)) /\
  (c <> IO_EOF -> (1 <= mm b inp)%nat /\ (mm (consume_char b') inp' < mm b inp)%nat).
Proof.
  intros W. unfold peek_char. destruct (b_buf b) as [d|] eqn:B.
  - intros [= <- <- <-]. split; [apply rel_refl|]. split; auto. split; [lia|].
    split; [intros ->; rewrite B; reflexivity|]. split; [intros ->; apply W; auto|].
    split; [discriminate|]. intros N. unfold mm. rewrite B. cbn. destruct (Z.eqb_spec d IO_EOF); [contradiction|]. lia.
  - destruct inp as [|x r].
    + change (IO_EOF =? IO_ERROR) with false. cbv iota. intros [= <- <- <-].
      split; [quiet|]. split; [apply wf_buf; auto; discriminate|].
      unfold mm. cbn. rewrite B. cbn. split; [lia|]. repeat split; auto; try discriminate; try congruence.
    + destruct (Z.eqb_spec x IO_ERROR) as [->|N].
      * intros [= <- <- <-]. split; [eapply rel_trans; [|apply rel_error]; quiet|].
        split.
        { destruct W as [W1 W2 W3 W4 W5 W6]. constructor; auto. }
        unfold mm. cbn. rewrite B. cbn. repeat split; auto; try discriminate; try lia.
      * intros [= <- <- <-]. split; [quiet|]. split; [apply wf_buf; auto; congruence|].
        unfold mm. cbn. rewrite B. cbn. destruct (Z.eqb_spec x IO_EOF); repeat split; auto; try congruence; lia.
Qed.

Lemma get_char_props b path inp p c b' inp' p' :
  wf b -> get_char b path inp p = (c, b', inp', p') ->
  rel b b' /\ wf b' /\ (mm b' inp' <= mm b inp)%nat /\
  (c = IO_EOF -> bit (b_buf b') = 0%nat) /\ (c = IO_ERROR -> b_success b' = false) /\
  (c <> IO_EOF -> (mm b' inp' < mm b inp)%nat).
Proof.
  intros W. unfold get_char.
  destruct (peek_char b path inp) as [[ch b1] inp1] eqn:P.
  destruct (peek_props _ _ _ _ _ _ W P) as (R1 & W1 & M1 & E1 & F1 & N1 & G1).
  assert (Rc : rel b (consume_char b1)) by (eapply rel_trans; [exact R1|quiet]).
  assert (Wc : wf (consume_char b1)) by (apply wf_buf; auto; discriminate).
  assert (Mc : (mm (consume_char b1) inp1 <= mm b inp)%nat) by (unfold mm in *; cbn; lia).
  cbn zeta.
  destruct (Z.eqb_spec ch IO_ERROR) as [->|NE]; [|destruct (Z.eqb_spec ch IO_EOF) as [->|NF]]; cbn [orb].
  - intros [= <- <- <- <-]. split; [auto|]. split; [auto|]. split; [auto|].
    split; [discriminate|]. split; [intros _; apply F1; auto|]. intros _. apply G1. discriminate.
  - intros [= <- <- <- <-]. split; [auto|]. split; [auto|]. split; [auto|].
    split; [reflexivity|]. split; [discriminate|]. congruence.
  - destruct (G1 NF) as [_ G].
    destruct (Z.eqb_spec ch 10) as [->|]; [|destruct (Z.eqb_spec ch 13) as [->|]].
    + intros [= <- <- <- <-]. split; [auto|]. split; [auto|]. split; [auto|]. split; [reflexivity|]. split; [discriminate|auto].
    + destruct (peek_char (consume_char b1) path inp1) as [[nx b2] inp2] eqn:P2.
      destruct (peek_props _ _ _ _ _ _ Wc P2) as (R2 & W2 & M2 & E2 & F2 & N2 & G2).
      intros [= <- <- <- <-]. destruct (Z.eqb_spec nx 10) as [->|].
      * split; [eapply rel_trans; [exact Rc|]; eapply rel_trans; [exact R2|]; quiet|].
        split; [apply wf_buf; auto; discriminate|]. unfold mm in *. cbn in *. split; [lia|].
        split; [discriminate|]. split; [discriminate|]. intros _. lia.
      * split; [eapply rel_trans; eauto|]. split; [auto|]. split; [lia|]. split; [auto|]. split; [auto|]. lia.
    + intros [= <- <- <- <-]. split; [auto|]. split; [auto|]. split; [auto|]. split; [auto|]. split; [congruence|auto].
Qed.

(** What a scanner does from [b] and [inp]. *)
Definition scan_post (b : basm) (inp : list Z) (r : scan) : Prop :=
  let '(t, b', u') := r in
  rel b b' /\ wf b' /\
  exists path inp' p', u' = UFile path inp' p' /\ (mm b' inp' <= mm b inp)%nat /\
  match t with
  | Some t => tok_ok t
  | None => b_success b' = true -> bit (b_buf b') = 0%nat
  end.

Lemma scan_post_from b inp b1 inp1 r : rel b b1 -> (mm b1 inp1 <= mm b inp)%nat -> scan_post b1 inp1 r -> scan_post b inp r.
Proof.
  intros R M. unfold scan_post. destruct r as [[t b'] u']. intros (R' & W & path & inp' & p' & -> & M' & K).
  split; [eapply rel_trans; eauto|]. split; auto. exists path, inp', p'. split; auto. split; auto. lia.
Qed.
Lemma scan_post_error b inp path p m r : wf b -> scan_post b inp (None, error_ex b m r, UFile path inp p).
Proof.
  intros W. split; [apply rel_error|]. split; [apply wf_error; auto|]. exists path, inp, p.
  split; auto. split; [unfold mm; cbn; lia|]. cbn. discriminate.
Qed.

Lemma rev_not_nil {A} (x : A) l : rev (x :: l) <> [].
Proof. cbn. intros E. apply app_eq_nil in E. destruct E. discriminate. Qed.

Lemma scan_regular_props fuel : forall b path inp p start fin ch buf,
  wf b -> (mm b inp < fuel)%nat -> scan_post b inp (scan_regular fuel b path inp p start fin ch buf).
Proof.
  induction fuel as [|fuel IH]; intros b path inp p start fin ch buf W M; [lia|].
  cbn [scan_regular]. destruct (len buf <? MAX_TOKEN_LEN); [|apply scan_post_error; auto].
  destruct (get_char b path inp p) as [[[c b1] inp1] p1] eqn:G.
  destruct (get_char_props _ _ _ _ _ _ _ _ W G) as (R1 & W1 & M1 & E1 & F1 & N1).
  destruct (Z.eqb_spec c IO_ERROR) as [->|NE].
  - split; auto. split; auto. exists path, inp1, p1. split; auto. split; [lia|]. intros S. rewrite F1 in S by auto. discriminate.
  - destruct (Z.eqb_spec c IO_EOF) as [->|NF]; cbn [orb]; [|destruct (is_sep c)].
    + split; auto. split; auto. exists path, inp1, p1. split; auto. split; [lia|]. apply rev_not_nil.
    + split; auto. split; auto. exists path, inp1, p1. split; auto. split; [lia|]. apply rev_not_nil.
    + specialize (N1 NF). eapply scan_post_from; [exact R1|exact M1|]. apply IH; auto. lia.
Qed.

Lemma scan_long_props fuel : forall b path inp p start buf,
  wf b -> buf <> [] -> (mm b inp < fuel)%nat -> scan_post b inp (scan_long_loop fuel b path inp p start buf).
Proof.
  induction fuel as [|fuel IH]; intros b path inp p start buf W NB M; [lia|].
  cbn [scan_long_loop].
  destruct (get_char b path inp p) as [[[c b1] inp1] p1] eqn:G.
  destruct (get_char_props _ _ _ _ _ _ _ _ W G) as (R1 & W1 & M1 & E1 & F1 & N1).
  destruct (Z.eqb_spec c IO_ERROR) as [->|NE].
  - split; auto. split; auto. exists path, inp1, p1. split; auto. split; [lia|]. intros S. rewrite F1 in S by auto. discriminate.
  - destruct (Z.eqb_spec c IO_EOF) as [->|NF].
    + eapply scan_post_from; [exact R1|exact M1|]. apply scan_post_error; auto.
    + destruct (c =? 34).
      * split; auto. split; auto. exists path, inp1, p1. split; auto. split; [lia|]. cbn.
        destruct buf; [congruence|apply rev_not_nil].
      * specialize (N1 NF). destruct (len buf <? MAX_LONG_STRING_LEN).
        -- eapply scan_post_from; [exact R1|exact M1|]. apply IH; auto; [discriminate|lia].
        -- eapply scan_post_from; [exact R1|exact M1|]. apply scan_post_error; auto.
Qed.

Lemma bit_le c : (bit c <= 1)%nat.
Proof. destruct c as [c|]; cbn; [destruct (c =? IO_EOF)|]; lia. Qed.
Lemma char_fuel_enough b inp : (mm b inp < char_fuel inp)%nat.
Proof. unfold mm, char_fuel. pose proof (bit_le (b_buf b)). lia. Qed.

(** With a token, something has been consumed. *)
Definition scan_post' (b : basm) (inp : list Z) (r : scan) : Prop :=
  scan_post b inp r /\
  match r with
  | (Some _, b', UFile _ inp' _) => (mm b' inp' < mm b inp)%nat
  | _ => True
  end.

Lemma next_in_file_props fuel : forall b path inp p,
  wf b -> (mm b inp < fuel)%nat -> scan_post' b inp (next_in_file fuel b path inp p).
Proof.
  assert (Fr : forall b inp b1 inp1 r, rel b b1 -> (mm b1 inp1 < mm b inp)%nat -> scan_post b1 inp1 r -> scan_post' b inp r).
  { intros b inp b1 inp1 r R M S. split; [eapply scan_post_from; eauto; lia|].
    destruct r as [[[t|] b'] [path inp' p'|]]; auto.
    destruct S as (_ & _ & path' & inp2 & p2 & [= -> -> ->] & M' & _). lia. }
  assert (Fr' : forall b inp b1 inp1 r, rel b b1 -> (mm b1 inp1 < mm b inp)%nat -> scan_post' b1 inp1 r -> scan_post' b inp r).
  { intros b inp b1 inp1 r R M [S _]. eapply Fr; eauto. }
  induction fuel as [|fuel IH]; intros b path inp p W M; [lia|].
  cbn [next_in_file].
  destruct (get_char b path inp p) as [[[c b1] inp1] p1] eqn:G.
  destruct (get_char_props _ _ _ _ _ _ _ _ W G) as (R1 & W1 & M1 & E1 & F1 & N1).
  destruct (Z.eqb_spec c IO_ERROR) as [->|NE].
  { cbn [orb]. split; [|exact I]. split; auto. split; auto. exists path, inp1, p1. split; auto. split; [lia|].
    intros S. rewrite F1 in S by auto. discriminate. }
  destruct (Z.eqb_spec c IO_EOF) as [->|NF]; cbn [orb].
  { split; [|exact I]. split; auto. split; auto. exists path, inp1, p1. split; auto. }
  specialize (N1 NF).
  destruct (is_sep c); [eapply Fr'; [exact R1|exact N1|]; apply IH; auto; lia|].
  destruct (c =? 34).
  - destruct (peek_char b1 path inp1) as [[d b2] inp2] eqn:P.
    destruct (peek_props _ _ _ _ _ _ W1 P) as (R2 & W2 & M2 & _).
    destruct (d =? 32).
    + unfold scan_long_string. destruct (get_char b2 path inp2 p1) as [[[x b3] inp3] p3] eqn:G3.
      destruct (get_char_props _ _ _ _ _ _ _ _ W2 G3) as (R3 & W3 & M3 & _).
      eapply (Fr b inp b3 inp3); [|lia|].
      * eapply rel_trans; [exact R1|]. eapply rel_trans; eauto.
      * apply scan_long_props; auto; [discriminate|apply char_fuel_enough].
    + eapply (Fr b inp b2 inp2); [eapply rel_trans; eauto|lia|]. apply scan_regular_props; auto. apply char_fuel_enough.
  - eapply (Fr b inp b1 inp1); [exact R1|exact N1|]. apply scan_regular_props; auto. apply char_fuel_enough.
Qed.

Lemma expand_not_nil template : forall arg buf ex r, arg <> [] -> (template <> [] \/ buf <> []) ->
  expand template arg buf ex = Some r -> fst r <> [].
Proof.
  induction template as [|c template IH]; intros arg buf ex r A N E; cbn [expand] in E.
  - injection E as <-. cbn. destruct N; auto; congruence.
  - destruct (c =? 94).
    + destruct (_ <? _); [discriminate|]. apply (fun H => IH _ _ _ _ A H E). right. destruct arg; [congruence|]. destruct buf; discriminate.
    + destruct (_ <? _); [discriminate|]. apply (fun H => IH _ _ _ _ A H E). right. destruct buf; discriminate.
Qed.

(** The general statement for a unit. *)
Record next_post (b : basm) (u : unit_) (t : option token) (b' : basm) (u' : unit_) : Prop := mkNext {
  n_rel : rel b b';
  n_wf : wf b';
  n_ok : unit_ok u';
  n_mu : (mu b' u' <= mu b u)%nat;
  n_tok : match t with
          | Some t => tok_ok t /\ (mu b' u' < mu b u)%nat
          | None => b_success b' = true -> match u with UFile _ _ _ => bit (b_buf b') = 0%nat | UMacro _ _ => True end
          end;
  n_macro : match u with UFile _ _ _ => True | UMacro _ _ => b_buf b' = b_buf b end;
  n_kind : match u, u' with UFile _ _ _, UFile _ _ _ | UMacro _ _, UMacro _ _ => True | _, _ => False end
}.

Lemma next_token_props b u t b' u' : wf b -> unit_ok u -> next_token b u = (t, b', u') -> next_post b u t b' u'.
Proof.
  intros W U. destruct u as [path inp p|rest arg]; cbn [next_token].
  - intros E. pose proof (next_in_file_props (char_fuel inp) b path inp p W (char_fuel_enough b inp)) as [S C].
    rewrite E in S, C. destruct S as (R & W' & path' & inp' & p' & -> & M & K).
    constructor; auto. destruct t; auto.
  - destruct U as [U1 U2]. unfold next_in_macro.
    assert (OK : forall r, Forall tok_ok r -> unit_ok (UMacro r arg)) by (intros; split; auto).
    assert (ERR : forall m r, next_post b (UMacro rest arg) None (error_ex b m r) (UMacro rest arg)).
    { intros. constructor; auto using rel_error, wf_error. }
    destruct rest as [|x rest'].
    { intros [= <- <- <-]. constructor; auto using rel_refl. }
    inversion U1 as [|? ? X1 X2]; subst.
    assert (GO : forall t', tok_ok t' -> next_post b (UMacro (x :: rest') arg) (Some t') b (UMacro rest' arg)).
    { intros t' T. constructor; auto using rel_refl; cbn [mu List.length]; try split; auto. }
    destruct arg as [a|].
    2:{ intros [= <- <- <-]. auto. }
    destruct (expand (t_lex x) (t_lex a) [] false) as [[buf ex]|] eqn:E.
    2:{ intros [= <- <- <-]. apply ERR. }
    destruct (_ <? _).
    { intros [= <- <- <-]. apply ERR. }
    intros [= <- <- <-]. apply GO. destruct ex; auto. unfold tok_ok. cbn.
    apply (expand_not_nil (t_lex x) (t_lex a) [] false (buf, true)); auto.
Qed.

Lemma unit_fuel_enough b u : (mu b u + 2 < unit_fuel u)%nat.
Proof. destruct u; cbn; [unfold char_fuel; pose proof (bit_le (b_buf b))|]; lia. Qed.
