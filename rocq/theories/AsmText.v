(** The scanner finds the words of the text. *)
From Verif Require Import Base AsmModel AsmSound AsmScan AsmRun AsmSpec AsmWords AsmStep.
From Coq Require Import ZifyBool Ascii String.
Open Scope list_scope.

(** The characters still to be read. *)
Definition stream (b : basm) (inp : list Z) : list Z :=
  match b_buf b with None => inp | Some c => if c =? IO_EOF then [] else c :: inp end.
Definition buf_ok (b : basm) (inp : list Z) : Prop := b_buf b = Some IO_EOF -> inp = [].

Lemma lf_plain c s : c <> 13 -> lf (c :: s) = c :: lf s.
Proof. intros N. cbn [lf]. destruct s as [|d s]; auto. destruct (Z.eqb_spec c 13); [contradiction|]. reflexivity. Qed.
Lemma lf_crlf s : lf (13 :: 10 :: s) = 10 :: lf s.
Proof. change (lf (13 :: 10 :: s)) with (lf (10 :: s)). apply lf_plain. lia. Qed.
Lemma lf_cr d s : d <> 10 -> lf (13 :: d :: s) = 13 :: lf (d :: s).
Proof. intros N. cbn [lf]. destruct (Z.eqb_spec d 10); [contradiction|]. reflexivity. Qed.

Lemma text_cons c s : text (c :: s) -> is_byte c /\
  ((c <> 13 /\ text s /\ lf (c :: s) = c :: lf s) \/ (exists s', c = 13 /\ s = 10 :: s' /\ text s' /\ lf (c :: s) = 10 :: lf s')).
Proof.
  intros [B C]. inversion B as [|? ? B1 B2]; subst. split; auto. destruct (Z.eq_dec c 13) as [->|N].
  - right. destruct s as [|d s]. { exfalso. apply C. left. auto. }
    destruct (Z.eq_dec d 10) as [->|N].
    + exists s. inversion B2; subst. rewrite lf_crlf in *. repeat split; auto. intros I. apply C. right. auto.
    + exfalso. apply C. rewrite lf_cr by auto. left. auto.
  - left. rewrite lf_plain in * by auto. repeat split; auto. intros I. apply C. right. auto.
Qed.
Lemma text_nil : text [].
Proof. split; auto. Qed.

(** One character. *)
Lemma get_char_text b path inp p : text (stream b inp) -> buf_ok b inp ->
  match lf (stream b inp) with
  | [] => exists p', get_char b path inp p = (IO_EOF, set_buf b None, [], p')
  | x :: r => exists inp' p', get_char b path inp p = (x, set_buf b None, inp', p') /\ lf inp' = r /\ text inp' /\ is_byte x /\
                (List.length inp' < List.length (stream b inp))%nat
  end.
Proof.
  intros T K. unfold get_char, peek_char.
  assert (G : forall c s (b0 : basm), text (c :: s) -> set_buf b0 None = set_buf b None ->
    match lf (c :: s) with
    | [] => False
    | x :: r => exists inp' p',
       (let b1 := consume_char b0 in
        let p1 := mkPos (line p) (col p + 1) (byte p + 1) in
        if (c =? IO_ERROR) || (c =? IO_EOF) then (c, b1, s, p1)
        else if c =? 10 then (c, b1, s, mkPos (line p1 + 1) 1 (byte p1))
        else if c =? 13 then
          let '(next, b2, inp2) := match b_buf b1 with
                                   | Some c => (c, b1, s)
                                   | None => let '(c, inp') := match s with [] => (IO_EOF, []) | x :: r => (x, r) end in
                                             let b' := set_buf b1 (Some c) in
                                             if c =? IO_ERROR then (0, error_ex b' MIoError (Some (file_region path no_pos no_pos)), inp')
                                             else (c, b', inp')
                                   end in
          let b2 := if next =? 10 then consume_char b2 else b2 in
          (next, b2, inp2, mkPos (line p1 + 1) 1 (byte p1))
        else (c, b1, s, p1)) = (x, set_buf b None, inp', p') /\ lf inp' = r /\ text inp' /\ is_byte x /\
        (List.length inp' < List.length (c :: s))%nat
    end).
  { intros c s b0 T0 E0. destruct (text_cons _ _ T0) as [B [(N & T1 & ->)|(s' & -> & -> & T1 & ->)]].
    - unfold is_byte in B. unfold IO_ERROR, IO_EOF. assert (E : (c =? -2) || (c =? -1) = false) by lia. cbv zeta. rewrite E.
      destruct (Z.eqb_spec c 10); [|destruct (Z.eqb_spec c 13); [contradiction|]]; eexists s, _; (split; [unfold consume_char; rewrite E0; reflexivity|]);
        repeat split; auto; try apply T1; cbn; lia.
    - eexists s', _. split; [rewrite <- E0; reflexivity|]. repeat split; try apply T1; try (unfold is_byte; lia); cbn; lia. }
  unfold stream in *. destruct (b_buf b) as [c|] eqn:BB.
  - unfold buf_ok in K. destruct (Z.eqb_spec c IO_EOF) as [->|N].
    + rewrite (K BB) in *. cbn. eexists. reflexivity.
    + specialize (G c inp b T eq_refl). rewrite (proj2 (Z.eqb_neq _ _) N) in G. destruct (lf (c :: inp)); [contradiction|]. exact G.
  - destruct inp as [|c s].
    + cbn. eexists. reflexivity.
    + specialize (G c s (set_buf b (Some c)) T eq_refl). destruct (lf (c :: s)) as [|x r]; [contradiction|].
      destruct (text_cons _ _ T) as [B _]. unfold is_byte in B.
      assert (N : (c =? IO_ERROR) = false) by (unfold IO_ERROR; lia). rewrite N. exact G.
Qed.

Lemma blank_sep c : blank c = is_sep c.
Proof. unfold blank, has, is_sep. cbn [existsb]. lia. Qed.
Lemma text_byte_io x : is_byte x -> (x =? IO_ERROR) = false /\ (x =? IO_EOF) = false.
Proof. unfold is_byte, IO_ERROR, IO_EOF. lia. Qed.
Lemma stream_clean b inp : stream (set_buf b None) inp = inp.
Proof. reflexivity. Qed.
Lemma buf_ok_clean b inp : buf_ok (set_buf b None) inp.
Proof. discriminate. Qed.
Lemma u8_id x : is_byte x -> u8 x = x.
Proof. unfold is_byte, u8. intros. apply Z.mod_small. lia. Qed.

(** What a scan gives: a token, or an error. *)
Definition found (b : basm) (path : str) (w rest : str) (r : scan) : Prop :=
  exists reg inp' p', r = (Some (mkTok w reg), set_buf b None, UFile path inp' p') /\ lf inp' = rest /\ text inp'.
Definition bad (r : scan) : Prop := fst (fst r) = None /\ b_success (snd (fst r)) = false.

Lemma scan_regular_text fuel : forall b path inp p start fin ch buf,
  text (stream b inp) -> buf_ok b inp -> is_byte ch -> (List.length (stream b inp) < fuel)%nat ->
  let r := scan_regular fuel b path inp p start fin ch buf in
  let '(w, rest) := to_blank (lf (stream b inp)) in
  if len buf + 1 + len w <=? 47 then found b path (rev buf ++ ch :: w) rest r else bad r.
Proof.
  induction fuel as [|fuel IH]; intros b path inp p start fin ch buf T K B F r; [lia|].
  assert (LN : forall s : str, 0 <= len s) by (intros; unfold len; lia).
  subst r. cbn [scan_regular]. pose proof (LN buf). destruct (Z.ltb_spec (len buf) MAX_TOKEN_LEN) as [L|L]; unfold MAX_TOKEN_LEN in L.
  - pose proof (get_char_text b path inp p T K) as G. destruct (lf (stream b inp)) as [|x s] eqn:E.
    + destruct G as (p' & ->). cbn. replace (len buf + 1 + 0 <=? 47) with true by lia.
      eexists _, [], _. split; [|split; [reflexivity|apply text_nil]]. rewrite u8_id by auto. cbn [rev]. reflexivity.
    + destruct G as (inp' & p' & -> & E1 & T1 & B1 & L1). destruct (text_byte_io _ B1) as [-> ->]. cbn [orb to_blank]. rewrite blank_sep.
      destruct (is_sep x).
      * change (len []) with 0. replace (len buf + 1 + 0 <=? 47) with true by lia.
        eexists _, inp', _. split; [|auto]. rewrite u8_id by auto. cbn [rev]. reflexivity.
      * pose proof (IH (set_buf b None) path inp' p' start p x (u8 ch :: buf)) as I. rewrite stream_clean in I.
        specialize (I T1 (buf_ok_clean _ _) B1 ltac:(lia)). rewrite E1 in I. destruct (to_blank s) as [w rest].
        assert (LE : len (u8 ch :: buf) + 1 + len w = len buf + 1 + len (x :: w)) by (unfold len; cbn [List.length]; lia).
        cbv zeta in I. rewrite LE in I. destruct (_ <=? 47); auto.
        destruct I as (reg & inp2 & p2 & R & E2 & T2). eexists _, inp2, p2. split; [|auto]. rewrite R. rewrite u8_id by auto.
        cbn [rev]. rewrite <- app_assoc. reflexivity.
  - destruct (to_blank _) as [w rest]. pose proof (LN w). replace (len buf + 1 + len w <=? 47) with false by lia. split; reflexivity.
Qed.

Lemma scan_long_text fuel : forall b path inp p start buf,
  b_buf b = None -> text inp -> (List.length inp < fuel)%nat -> len buf <= 1024 ->
  let r := scan_long_loop fuel b path inp p start buf in
  match to_quote (lf inp) with
  | Some (w, rest) => if len buf + len w <=? 1024 then found b path (rev buf ++ w) rest r else bad r
  | None => bad r
  end.
Proof.
  induction fuel as [|fuel IH]; intros b path inp p start buf BB T F LB r; [lia|]. subst r. cbn [scan_long_loop].
  assert (ST : stream b inp = inp) by (unfold stream; rewrite BB; auto).
  pose proof (get_char_text b path inp p) as G. rewrite ST in G. specialize (G T ltac:(unfold buf_ok; rewrite BB; discriminate)).
  assert (BN : set_buf b None = b) by (destruct b; cbn in *; subst; reflexivity). rewrite BN in G.
  destruct (lf inp) as [|x s] eqn:E.
  - destruct G as (p' & ->). cbn. split; reflexivity.
  - destruct G as (inp' & p' & -> & E1 & T1 & B1 & L1). destruct (text_byte_io _ B1) as [-> ->]. cbn [to_quote].
    destruct (Z.eqb_spec x 34).
    + replace (len buf + len [] <=? 1024) with true by (unfold len in *; cbn in *; lia).
      eexists _, inp', _. rewrite app_nil_r, BN. split; [reflexivity|auto].
    + destruct (Z.ltb_spec (len buf) MAX_LONG_STRING_LEN) as [L|L]; unfold MAX_LONG_STRING_LEN in L.
      * pose proof (IH b path inp' p' start (u8 x :: buf) BB T1 ltac:(lia) ltac:(unfold len in *; cbn [List.length]; lia)) as I.
        rewrite E1 in I. destruct (to_quote s) as [[w rest]|]; cbn [bind]; auto.
        assert (LE : len (u8 x :: buf) + len w = len buf + len (x :: w)) by (unfold len; cbn [List.length]; lia).
        cbv zeta in I. rewrite LE in I. destruct (_ <=? 1024); auto.
        destruct I as (reg & inp2 & p2 & R & E2 & T2). eexists _, inp2, p2. split; [|auto]. rewrite R. rewrite u8_id by auto.
        cbn [rev]. rewrite <- app_assoc. reflexivity.
      * assert (BD : bad (None, error_ex b MStringTooLong (Some (file_region path start p)), UFile path inp' p')) by (split; reflexivity).
        destruct (to_quote s) as [[w rest]|]; cbn [bind]; auto.
        replace (len buf + len (x :: w) <=? 1024) with false by (unfold len in *; cbn [List.length]; lia). auto.
Qed.

(** The next token of a file is its first word. *)
Lemma next_in_file_text fuel : forall b path inp p,
  b_buf b = None -> text inp -> (List.length inp < fuel)%nat ->
  let r := next_in_file fuel b path inp p in
  match first_word (lf inp) with
  | NoWord => exists p', r = (None, b, UFile path [] p')
  | Word w rest => found b path w rest r
  | BadWord => bad r
  end.
Proof.
  induction fuel as [|fuel IH]; intros b path inp p BB T F r; [lia|]. subst r. cbn [next_in_file].
  assert (ST : stream b inp = inp) by (unfold stream; rewrite BB; auto).
  assert (BN : set_buf b None = b) by (destruct b; cbn in *; subst; reflexivity).
  pose proof (get_char_text b path inp p) as G. rewrite ST, BN in G. specialize (G T ltac:(unfold buf_ok; rewrite BB; discriminate)).
  destruct (lf inp) as [|x s] eqn:E.
  - destruct G as (p' & ->). cbn. eexists. reflexivity.
  - destruct G as (inp' & p' & -> & E1 & T1 & B1 & L1). destruct (text_byte_io _ B1) as [-> ->]. cbn [orb].
    unfold first_word. cbn [skip_blanks]. rewrite blank_sep. destruct (is_sep x) eqn:SX.
    + pose proof (IH b path inp' p' BB T1 ltac:(lia)) as I. unfold first_word in I. rewrite E1 in I. exact I.
    + assert (RG : forall b0 inp0, set_buf b0 None = b -> lf (stream b0 inp0) = s -> text (stream b0 inp0) -> buf_ok b0 inp0 ->
        match plain_word (x :: s) with
        | NoWord => False
        | Word w rest => found b path w rest (scan_regular (char_fuel inp0) b0 path inp0 p' p p x [])
        | BadWord => bad (scan_regular (char_fuel inp0) b0 path inp0 p' p p x [])
        end).
      { intros b0 inp0 BE E0 T0 K0. pose proof (scan_regular_text (char_fuel inp0) b0 path inp0 p' p p x [] T0 K0 B1) as R.
        assert (FU : (List.length (stream b0 inp0) < char_fuel inp0)%nat).
        { unfold stream, char_fuel. destruct (b_buf b0); [destruct (_ =? _)|]; cbn [List.length]; lia. }
        specialize (R FU). cbv zeta in R. rewrite E0 in R.
        unfold plain_word. cbn [to_blank]. rewrite blank_sep, SX. destruct (to_blank s) as [w rest].
        assert (LE : len [] + 1 + len w = len (x :: w)) by (unfold len; cbn [List.length]; lia). rewrite LE in R.
        destruct (_ <=? 47); auto. unfold found in *. rewrite BE in R. rewrite BN. exact R. }
      assert (RG0 : match plain_word (x :: s) with
        | NoWord => False
        | Word w rest => found b path w rest (scan_regular (char_fuel inp') b path inp' p' p p x [])
        | BadWord => bad (scan_regular (char_fuel inp') b path inp' p' p p x [])
        end).
      { assert (ST' : stream b inp' = inp') by (unfold stream; rewrite BB; auto).
        apply RG; auto; try (rewrite ST'; auto). unfold buf_ok. rewrite BB. discriminate. }
      destruct (Z.eqb_spec x 34) as [->|N34].
      2:{ destruct (plain_word (x :: s)); [contradiction|auto|auto]. }
      unfold peek_char. rewrite BB. destruct inp' as [|c inp2].
      { cbn in E1. subst s. cbn [IO_EOF IO_ERROR Z.eqb]. change (-1 =? -2) with false. cbv iota. change (IO_EOF =? 32) with false. cbv iota.
        specialize (RG (set_buf b (Some IO_EOF)) [] BN eq_refl text_nil ltac:(intros _; reflexivity)).
        destruct (plain_word [34]); [contradiction|auto|auto]. }
      destruct (text_cons _ _ T1) as [BC TC]. destruct (text_byte_io _ BC) as [NE NF]. rewrite NE. rewrite <- E1 in *.
      set (b1 := set_buf b (Some c)).
      assert (ST1 : stream b1 inp2 = c :: inp2) by (unfold stream, b1; cbn; rewrite NF; reflexivity).
      assert (K1 : buf_ok b1 inp2) by (unfold buf_ok, b1; cbn; intros [= ->]; discriminate).
      destruct (Z.eqb_spec c 32) as [->|N32].
      * rewrite lf_plain by lia. cbn [Z.eqb]. change (32 =? 32) with true. cbv iota. unfold scan_long_string.
        pose proof (get_char_text b1 path inp2 p') as G2. rewrite ST1 in G2. specialize (G2 T1 K1). rewrite lf_plain in G2 by lia.
        destruct G2 as (inp3 & p3 & -> & E3 & T3 & _ & L3). change (set_buf b1 None) with (set_buf b None). rewrite BN.
        pose proof (scan_long_text (char_fuel inp3) b path inp3 p3 p [34] BB T3 ltac:(unfold char_fuel; lia) ltac:(cbn; lia)) as SL.
        cbv zeta in SL. rewrite E3 in SL. destruct (to_quote (lf inp2)) as [[w rest]|]; auto.
        destruct (Z.leb_spec (len w) 1023); destruct (Z.leb_spec (len [34] + len w) 1024); cbn [len List.length Z.of_nat] in *; try lia; auto;
          unfold len in *; cbn in *; lia.
      * specialize (RG b1 inp2 BN ltac:(rewrite ST1; auto) ltac:(rewrite ST1; auto) K1).
        destruct TC as [(NC & TC & ->)|(s' & -> & -> & TC & ->)].
        -- destruct (Z.eqb_spec c 32); [contradiction|]. rewrite lf_plain in RG by auto.
           destruct (plain_word (34 :: c :: lf inp2)); [contradiction|auto|auto].
        -- change (10 =? 32) with false. cbv iota. rewrite lf_crlf in RG. destruct (plain_word (34 :: 10 :: lf s')); [contradiction|auto|auto].
Qed.
