(** Proofs about the graphical emulator: what a run leaves alone, and the
    console buffers. *)
From Verif Require Import Base VmModel VmSpec VmProofs VmWorld SystemModel InputModel FileModel FileSpec MetaModel AudioModel ScreenModel ScreenSpec ScreenProofs CliModel CliSpec CliProofs GuiModel GuiSpec.
From Coq Require Import ZifyBool.
Open Scope list_scope.
Ltac Zify.zify_post_hook ::= Z.div_mod_to_equations.

(** What both callbacks keep, a run keeps. *)
Lemma execute_keeps W dei deo (I : W -> Prop) hi_first :
  (forall a v w b v' w', is_byte a -> I w -> dei a v w = Ok (b, v', w') -> I w') ->
  (forall a v w v' w', is_byte a -> I w -> deo a v w = Ok (v', w') -> I w') ->
  forall kw kr fuel pc v w v' w', I w -> execute W dei deo hi_first None kw kr fuel pc v w = Done _ v' w' -> I w'.
Proof.
  intros KI KO kw kr fuel pc v w v' w' HI E.
  assert (HH : hosts_related W W (fun x y => x = y /\ I x) dei deo dei deo).
  { split; intros a u x y Ha (<- & HX).
    - destruct (dei a u x) as [[[b u'] x']|f] eqn:D; cbn; [|auto]. repeat split; auto. eapply KI; eauto.
    - destruct (deo a u x) as [[u' x']|f] eqn:D; cbn; [|auto]. repeat split; auto. eapply KO; eauto. }
  pose proof (execute_related _ _ _ _ _ _ _ hi_first HH fuel kw kr pc v w w (conj eq_refl HI)) as R.
  rewrite E in R. cbn in R. tauto.
Qed.

(** ** The console *)
Lemma c_string_ok size data l : forall n i, 0 <= i -> i + Z.of_nat (length l) < size -> (length l < n)%nat ->
  (forall k, (k < length l)%nat -> data (i + Z.of_nat k) = nth k l 0) -> data (i + Z.of_nat (length l)) = 0 ->
  c_string n size data i = Ok (up_to_zero l).
Proof.
  induction l as [|c l IH]; intros n i Hi Hs Hn Hd H0; (destruct n as [|n]; [cbn in Hn; lia|]); cbn [c_string up_to_zero length] in *.
  - unfold aget, in_bounds. destruct ((0 <=? i) && (i <? size)) eqn:E; [|lia]. cbn [rbind]. rewrite Z.add_0_r in H0. rewrite H0. reflexivity.
  - unfold aget, in_bounds. destruct ((0 <=? i) && (i <? size)) eqn:E; [|lia]. cbn [rbind].
    pose proof (Hd 0%nat ltac:(lia)) as D0. cbn in D0. rewrite Z.add_0_r in D0. rewrite D0.
    destruct (c =? 0); [reflexivity|]. rewrite IH; [reflexivity|lia|lia|lia| |].
    + intros k Hk. replace (i + 1 + Z.of_nat k) with (i + Z.of_nat (S k)) by lia. rewrite Hd by lia. reflexivity.
    + replace (i + 1 + Z.of_nat (length l)) with (i + Z.of_nat (S (length l))) by lia. exact H0.
Qed.

(** The buffer holds the text [rest]. *)
Definition holds_text (b : buf) (rest : list Z) : Prop :=
  b_pos b = Z.of_nat (length rest) /\ (length rest < 255)%nat /\ forall k, (k < length rest)%nat -> b_data b (Z.of_nat k) = nth k rest 0.

Lemma flush_ok pos data rest : pos = Z.of_nat (length rest) -> (length rest <= 255)%nat ->
  (forall k, (k < length rest)%nat -> data (Z.of_nat k) = nth k rest 0) ->
  exists b, rbind (aset CONSOLE_BUFFER_SIZE data pos 0) (fun data =>
    rbind (c_string (Z.to_nat CONSOLE_BUFFER_SIZE) CONSOLE_BUFFER_SIZE data 0) (fun text =>
    Ok (mkBuf 0 data, Some text))) = Ok (b, Some (up_to_zero rest)) /\ holds_text b [].
Proof.
  intros -> HL HD. unfold aset, in_bounds, CONSOLE_BUFFER_SIZE. destruct ((0 <=? _) && (_ <? 256)) eqn:E; [|lia]. cbn [rbind].
  rewrite (c_string_ok 256 _ rest); [|lia|lia|lia| |].
  - eexists. split; [reflexivity|]. split; [reflexivity|]. cbn. split; [lia|intros; lia].
  - intros k Hk. cbn [Z.add]. rewrite upd_ne by lia. apply HD. exact Hk.
  - cbn [Z.add]. apply upd_eq.
Qed.

Lemma putc_ok b rest ch : holds_text b rest ->
  exists b', putc b ch =
    Ok (b', if ch =? 10 then Some (up_to_zero rest)
            else if (length rest =? 254)%nat then Some (up_to_zero (rest ++ [ch])) else None) /\
  holds_text b' (if (ch =? 10) || (length rest =? 254)%nat then [] else rest ++ [ch]).
Proof.
  intros (HP & HL & HD). unfold putc. destruct (ch =? 10) eqn:E; cbn [negb orb rbind].
  - destruct (flush_ok (b_pos b) (b_data b) rest HP ltac:(lia) HD) as (b' & -> & HB). eauto.
  - unfold aset at 1, in_bounds at 1, CONSOLE_BUFFER_SIZE at 1. destruct ((0 <=? b_pos b) && (b_pos b <? 256)) eqn:E1; [|lia]. cbn [rbind].
    set (data := upd (b_data b) (b_pos b) ch).
    assert (HD' : forall k, (k < length (rest ++ [ch]))%nat -> data (Z.of_nat k) = nth k (rest ++ [ch]) 0).
    { intros k Hk. rewrite app_length in Hk. cbn in Hk. unfold data. destruct (Nat.eq_dec k (length rest)) as [->|N].
      - rewrite <- HP, upd_eq, app_nth2, Nat.sub_diag by lia. reflexivity.
      - rewrite upd_ne, app_nth1 by lia. apply HD. lia. }
    change (CONSOLE_BUFFER_SIZE - 1) with 255 in *.
    destruct (length rest =? 254)%nat eqn:E2.
    + destruct (b_pos b + 1 >=? 255) eqn:E3; [|lia]. cbn [b_data b_pos].
      destruct (flush_ok (b_pos b + 1) data (rest ++ [ch])) as (b' & -> & HB); [rewrite app_length; cbn; lia|rewrite app_length; cbn; lia|exact HD'|]. eauto.
    + destruct (b_pos b + 1 >=? 255) eqn:E3; [lia|]. eexists. split; [reflexivity|].
      split; [cbn [b_pos]; rewrite app_length; cbn; lia|]. split; [rewrite app_length; cbn; lia|exact HD'].
Qed.

Lemma printed_step cs log rest ch : printed cs log rest ->
  printed (cs ++ [ch])
    (log ++ if ch =? 10 then [up_to_zero rest] else if (length rest =? 254)%nat then [up_to_zero (rest ++ [ch])] else [])
    (if (ch =? 10) || (length rest =? 254)%nat then [] else rest ++ [ch]).
Proof.
  intros (ps & -> & HP & N & L & ->). unfold printed. destruct (ch =? 10) eqn:E; cbn [orb].
  - assert (ch = 10) by lia. subst ch. exists (ps ++ [(rest, true)]). split.
    { rewrite map_app, concat_app. cbn [map concat piece]. rewrite !app_nil_r, app_assoc. reflexivity. }
    split; [apply Forall_app; split; [exact HP|constructor; [split; auto|constructor]]|]. split; [intros []|]. split; [cbn; lia|].
    rewrite map_app. reflexivity.
  - assert (N' : ~ In 10 (rest ++ [ch])) by (intros X; apply in_app_or in X; cbn in X; destruct X as [X|[X|[]]]; [auto|lia]).
    destruct (length rest =? 254)%nat eqn:E2.
    + exists (ps ++ [(rest ++ [ch], false)]). split.
      { rewrite map_app, concat_app. cbn [map concat piece]. rewrite !app_nil_r, app_assoc. reflexivity. }
      split; [apply Forall_app; split; [exact HP|constructor; [split; auto; rewrite app_length; cbn; lia|constructor]]|]. split; [intros []|]. split; [cbn; lia|].
      rewrite map_app. reflexivity.
    + exists ps. split; [rewrite app_assoc; reflexivity|]. split; [exact HP|]. split; [exact N'|]. split; [rewrite app_length; cbn; lia|].
      rewrite app_nil_r. reflexivity.
Qed.

(** What a port access of the GUI does to the text: only a write to 24 or 25. *)
Section Gui.
Variable H : Type.
Variable hs : host H.
Variable now : nat -> option tm.
Variable voices : nat -> Z -> voice.
Variable junk : arr.

Definition same_text (g g' : gui H) : Prop := g_out g' = g_out g /\ g_err g' = g_err g /\ g_log g' = g_log g.
Definition same_input (g g' : gui H) : Prop := g_mouse g' = g_mouse g /\ g_controller g' = g_controller g.
Lemma put_screen_same g s : same_text g (put_screen H g s) /\ same_input g (put_screen H g s).
Proof. unfold put_screen. destruct (_ && _); repeat split. Qed.

Lemma dei_same a v g b v' g' : gui_dei H now voices a v g = Ok (b, v', g') -> same_text g g' /\ same_input g g'.
Proof.
  unfold gui_dei. intros E.
  destruct (gui_dei_target a); try (injection E as <- <- <-; repeat split; fail).
  - destruct (screen_dei _ _ _) as [(b0, s)|]; [|discriminate]. cbn [rbind] in E. injection E as <- <- <-. destruct (put_screen_same g s) as (A & B). split; [exact A|exact B].
  - destruct (audio_dei _ _ _ _) as [((b0, v0), c)|]; [|discriminate]. cbn [rbind] in E. injection E as <- <- <-. repeat split.
  - destruct (cli_dei H now a v _) as [((b0, v0), t)|]; [|discriminate]. cbn [rbind] in E. injection E as <- <- <-. repeat split.
  - destruct (cli_dei H now a v _) as [((b0, v0), t)|]; [|discriminate]. cbn [rbind] in E. injection E as <- <- <-. repeat split.
Qed.

Lemma deo_same a v g v' g' : gui_deo H hs junk a v g = Ok (v', g') ->
  same_input g g' /\ (gui_deo_target a <> Console -> same_text g g').
Proof.
  unfold gui_deo. intros E.
  destruct (gui_deo_target a) eqn:TG; try (injection E as <- <-; repeat split; fail).
  - unfold system_deo in E.
    destruct (a =? 3). { destruct (expansion v) as [v0|]; [|discriminate]. injection E as <- <-. repeat split. }
    destruct (a =? 4). { injection E as <- <-. repeat split. }
    destruct (a =? 5). { injection E as <- <-. repeat split. }
    destruct (a =? 7).
    { unfold gui_set_metadata in E. destruct (parse_from_memory _ _) as [m|]; [|discriminate]. cbn [rbind] in E.
      destruct (md_content m); [|injection E as <- <-; repeat split].
      destruct (apply_metadata _ _ _ _ _) as [x|]; [|discriminate]. cbn [rbind] in E. injection E as <- <-. repeat split. }
    destruct (_ || _). { unfold gui_theme_changed in E. injection E as <- <-. repeat split. }
    destruct (a =? 14); [|injection E as <- <-; repeat split].
    destruct (negb _); [unfold gui_debug in E|]; injection E as <- <-; repeat split.
  - split; [|congruence]. unfold console_deo in E.
    destruct (a =? 24).
    { unfold gui_write in E. destruct (putc _ _) as [(b, l)|]; [|discriminate]. cbn [rbind] in E. injection E as <- <-. repeat split. }
    destruct (a =? 25).
    { unfold gui_error in E. destruct (putc _ _) as [(b, l)|]; [|discriminate]. cbn [rbind] in E. injection E as <- <-. repeat split. }
    injection E as <- <-. repeat split.
  - destruct (screen_deo _ _ _) as [s|]; [|discriminate]. cbn [rbind] in E. injection E as <- <-. destruct (put_screen_same g s) as (A & B). split; [exact B|intros _; exact A].
  - destruct (audio_deo _ _ _); injection E as <- <-; repeat split.
  - destruct (cli_deo H hs a v _) as [(v0, t)|]; [|discriminate]. cbn [rbind] in E. injection E as <- <-. repeat split.
Qed.

Definition text_ok (w : gui H * list (Z * vm)) : Prop :=
  let (g, record) := w in
  (exists rest, holds_text (g_out g) rest /\ printed (written 24 record) (lines_of false (g_log g)) rest) /\
  (exists rest, holds_text (g_err g) rest /\ printed (written 25 record) (lines_of true (g_log g)) rest).

Lemma written_snoc p record a v : written p (record ++ [(a, v)]) = written p record ++ if a =? p then [vm_dev v p] else [].
Proof. unfold written. rewrite map_app, concat_app. cbn. rewrite app_nil_r. reflexivity. Qed.
Lemma lines_app e log l : lines_of e (log ++ l) = lines_of e log ++ lines_of e l.
Proof. unfold lines_of. rewrite map_app, concat_app. reflexivity. Qed.

Lemma text_step a v g record v' g' : is_byte a -> text_ok (g, record) -> gui_deo H hs junk a v g = Ok (v', g') -> text_ok (g', record ++ [(a, v)]).
Proof.
  intros Ha ((ro & HO & PO) & (re & HE & PE)) E.
  assert (SAME : a <> 24 -> a <> 25 -> same_text g g' -> text_ok (g', record ++ [(a, v)])).
  { intros N1 N2 (S1 & S2 & S3). unfold text_ok. rewrite !written_snoc, S1, S2, S3.
    replace (a =? 24) with false by lia. replace (a =? 25) with false by lia. rewrite !app_nil_r. split; [exists ro|exists re]; auto. }
  destruct (gui_deo_target a) eqn:TG.
  2:{ unfold gui_deo in E. rewrite TG in E. unfold console_deo in E.
    destruct (a =? 24) eqn:E1; [|destruct (a =? 25) eqn:E2].
    - assert (a = 24) by lia. subst a. unfold gui_write in E. destruct (putc_ok (g_out g) ro (vm_dev v 24) HO) as (b & EP & HB). rewrite EP in E. cbn [rbind] in E.
      injection E as <- <-. unfold text_ok. cbn [g_out g_err g_log set_text]. rewrite !written_snoc, !lines_app. cbn [Z.eqb Pos.eqb]. rewrite app_nil_r. split.
      + eexists. split; [exact HB|]. pose proof (printed_step _ _ _ (vm_dev v 24) PO) as P.
        destruct (vm_dev v 24 =? 10); [exact P|]. destruct (length ro =? 254)%nat; exact P.
      + exists re. split; [exact HE|]. destruct (vm_dev v 24 =? 10); [|destruct (length ro =? 254)%nat]; cbn [lines_of map concat Bool.eqb app]; unfold lines_of; cbn; rewrite app_nil_r; exact PE.
    - assert (a = 25) by lia. subst a. unfold gui_error in E. destruct (putc_ok (g_err g) re (vm_dev v 25) HE) as (b & EP & HB). rewrite EP in E. cbn [rbind] in E.
      injection E as <- <-. unfold text_ok. cbn [g_out g_err g_log set_text]. rewrite !written_snoc, !lines_app. cbn [Z.eqb Pos.eqb]. rewrite app_nil_r. split.
      + exists ro. split; [exact HO|]. destruct (vm_dev v 25 =? 10); [|destruct (length re =? 254)%nat]; unfold lines_of; cbn; rewrite app_nil_r; exact PO.
      + eexists. split; [exact HB|]. pose proof (printed_step _ _ _ (vm_dev v 25) PE) as P.
        destruct (vm_dev v 25 =? 10); [exact P|]. destruct (length re =? 254)%nat; exact P.
    - injection E as <- <-. apply SAME; [lia|lia|repeat split]. }
  all: assert (N : a <> 24 /\ a <> 25) by (split; intros ->; vm_compute in TG; discriminate);
    apply SAME; [tauto|tauto|]; eapply deo_same; [exact E|rewrite TG; discriminate].
Qed.
End Gui.
