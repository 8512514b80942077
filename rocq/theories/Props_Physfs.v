(** The files of the host through PhysFS (C99). *)
From Verif Require Import Base VmModel SystemSpec FileModel FileSpec FileProofs FileDevice PhysfsModel PhysfsSpec.
From Verif Require Import VmSpec VmInv Props_File.
From Coq Require Import ZifyBool Lia.
Open Scope list_scope.
Ltac Zify.zify_post_hook ::= Z.div_mod_to_equations.

(** *** Logs *)
Section Logs.
Variable H : Type.
Variable hs : host H.
Lemma happened_app a b h h1 h2 : happened hs b h h1 -> happened hs a h1 h2 -> happened hs (a ++ b) h h2.
Proof. revert h2. induction a as [|c a IH]; cbn; intros h2 B A; [subst; auto|]. destruct A as (h3 & A1 & A2). eauto. Qed.

Definition follows (Q : call -> Prop) (s s' : fs H) : Prop :=
  exists new, fs_log H s' = new ++ fs_log H s /\ happened hs new (fs_host H s) (fs_host H s') /\ Forall Q new.
Variable Q : call -> Prop.
Lemma follows_refl s s' : fs_host H s' = fs_host H s -> fs_log H s' = fs_log H s -> follows Q s s'.
Proof. intros A B. exists []. rewrite B. split; [reflexivity|]. split; [exact A|constructor]. Qed.
Lemma follows_trans s1 s2 s3 : follows Q s1 s2 -> follows Q s2 s3 -> follows Q s1 s3.
Proof.
  intros (a & A1 & A2 & A3) (b & B1 & B2 & B3). exists (b ++ a). rewrite B1, A1, app_assoc. split; [reflexivity|].
  split; [eapply happened_app; eauto|apply Forall_app; auto].
Qed.
Lemma follows_called s h c : Q c -> happens hs c (fs_host H s) h -> follows Q s (called H s h c).
Proof. intros A B. exists [c]. split; [reflexivity|]. split; [exists (fs_host H s); split; [reflexivity|exact B]|auto]. Qed.
Lemma follows_to s s1 s2 : follows Q s s1 -> fs_host H s2 = fs_host H s1 -> fs_log H s2 = fs_log H s1 -> follows Q s s2.
Proof. intros (a & A1 & A2 & A3) B C. exists a. rewrite B, C. auto. Qed.

Lemma read_dir_follows x : (forall r, Q (CReadDir x r)) -> forall fuel s len addr total pos n buf r, read_dir_loop H hs fuel s len addr total pos n buf x = Ok r ->
  let '(s', _, _, _, _) := r in follows Q s s' /\ fs_file H s' = fs_file H s.
Proof.
  intros QX. induction fuel as [|fuel IH]; intros s len addr total pos n buf r E; cbn [read_dir_loop] in E; destruct (negb (len >? 0)).
  - injection E as <-. split; [apply follows_refl; reflexivity|reflexivity].
  - discriminate E.
  - injection E as <-. split; [apply follows_refl; reflexivity|reflexivity].
  - assert (D : forall s0 m r0 n0 a0 t0 p0 q0 b0, read_dir_loop H hs fuel (set_memory H s0 m) n0 a0 t0 p0 q0 b0 x = Ok r0 ->
      let '(s', _, _, _, _) := r0 in follows Q s0 s' /\ fs_file H s' = fs_file H s0).
    { intros s0 m r0 n0 a0 t0 p0 q0 b0 E0. apply IH in E0. destruct r0 as [[[[s' ?] ?] ?] ?]. destruct E0 as [(w & W1 & W2 & W3) E0]. split; [exists w; auto|exact E0]. }
    destruct (pos >=? n).
    + unfold do_readdir in E. destruct (h_readdir hs x (fs_host H s)) as [rr h1] eqn:ER.
      assert (F1 : follows Q s (called H s h1 (CReadDir x rr))) by (apply follows_called; [apply QX|exact ER]).
      destruct rr as [[name st]|].
      * destruct (format_stat _ _ _ _ _); cbn [rbind] in E; [|discriminate E].
        destruct (_ >? _).
        -- injection E as <-. auto.
        -- destruct (aset _ _ 4 _); cbn [rbind] in E; [|discriminate E].
           destruct (put_bytes _ _ 5 _); cbn [rbind] in E; [|discriminate E].
           destruct (aset _ _ _ 10); cbn [rbind] in E; [|discriminate E].
           destruct (get_bytes _ _ _ _); cbn [rbind] in E; [|discriminate E].
           destruct (put_bytes _ _ _ _); cbn [rbind] in E; [|discriminate E].
           apply D in E. destruct r as [[[[s' ?] ?] ?] ?]. destruct E as [E1 E2]. split; [eapply follows_trans; eauto|exact E2].
      * injection E as <-. auto.
    + destruct (get_bytes _ _ _ _); cbn [rbind] in E; [|discriminate E].
      destruct (put_bytes _ _ _ _); cbn [rbind] in E; [|discriminate E]. apply D in E. exact E.
Qed.
Lemma read_file_follows x : (forall n l, 0 < n -> Q (CRead x n l)) -> forall fuel s len addr total s' n, read_file_loop H hs fuel s len addr total x = Ok (s', n) -> follows Q s s'.
Proof.
  intros QX. induction fuel as [|fuel IH]; intros s len addr total s' n E; cbn [read_file_loop] in E; destruct (len >? 0) eqn:LL; cbn [negb] in E.
  - discriminate E.
  - injection E as <- _. apply follows_refl; reflexivity.
  - unfold do_fread in E. destruct (h_fread hs x len (fs_host H s)) as [l h1] eqn:ER.
    assert (F1 : follows Q s (called H s h1 (CRead x len l))) by (apply follows_called; [apply QX; lia|exact ER]).
    destruct (put_bytes _ _ _ _); cbn [rbind] in E; [|discriminate E]. destruct (_ =? 0).
    + injection E as <- _. eapply follows_to; [exact F1|reflexivity|reflexivity].
    + apply IH in E. eapply follows_trans; [eapply follows_to; [exact F1|reflexivity|reflexivity]|exact E].
  - injection E as <- _. apply follows_refl; reflexivity.
Qed.
Lemma get_bytes_length : forall n m bound a l, get_bytes n m bound a = Ok l -> length l = n.
Proof using.
  induction n as [|n IH]; cbn; intros m bound a l E; [injection E as <-; reflexivity|].
  destruct (aget bound m a); cbn [rbind] in E; [|discriminate E]. destruct (get_bytes n m bound (a + 1)) eqn:G; cbn [rbind] in E; [|discriminate E].
  injection E as <-. cbn. f_equal. eapply IH; exact G.
Qed.
Lemma write_file_follows x : (forall n l, 0 < Z.of_nat (length l) < 65536 -> Q (CWrite x l n)) -> forall fuel s len addr total s' n, len < 65536 -> write_file_loop H hs fuel s len addr total x = Ok (s', n) -> follows Q s s'.
Proof.
  intros QX. induction fuel as [|fuel IH]; intros s len addr total s' n B E; cbn [write_file_loop] in E; destruct (len >? 0) eqn:LL; cbn [negb] in E.
  - discriminate E.
  - injection E as <- _. apply follows_refl; reflexivity.
  - destruct (get_bytes _ _ _ _) as [l|] eqn:G; cbn [rbind] in E; [|discriminate E]. apply get_bytes_length in G.
    unfold do_fwrite in E. destruct (h_fwrite hs x l (fs_host H s)) as [w h1] eqn:ER.
    assert (F1 : follows Q s (called H s h1 (CWrite x l w))) by (apply follows_called; [apply QX; lia|exact ER]).
    destruct (_ =? 0).
    + injection E as <- _. exact F1.
    + apply IH in E; [|unfold u16; lia]. eapply follows_trans; [exact F1|exact E].
  - injection E as <- _. apply follows_refl; reflexivity.
Qed.
End Logs.

Lemma clamp_short v base x : (if port2 v base 10 >? u16 x then u16 x else port2 v base 10) < 65536.
Proof. destruct (_ >? _) eqn:E; unfold u16 in *; lia. Qed.

Section Port.
Variable H : Type.
Variable hs : host H.
Let any : call -> Prop := fun _ => True.
Let F := follows H hs any.
Lemma close_follows s mode : F s (close_on_mode_change H hs s mode).
Proof.
  unfold F, close_on_mode_change. destruct (_ && _); [|apply follows_refl; reflexivity].
  destruct (is_sentinel _); [apply follows_refl; reflexivity|].
  destruct (_ =? TYPE_REGULAR); [|destruct (_ =? TYPE_DIRECTORY)].
  - eapply follows_to; [apply follows_called; [exact Logic.I|]|reflexivity|reflexivity]. reflexivity.
  - eapply follows_to; [apply follows_called; [exact Logic.I|]|reflexivity|reflexivity]. reflexivity.
  - apply follows_refl; reflexivity.
Qed.
Lemma stat_follows s p : F s (snd (do_stat H hs s p)).
Proof. unfold F, do_stat. destruct (h_stat hs p (fs_host H s)) as [r h] eqn:E. apply follows_called; [exact Logic.I|]. cbn. rewrite E. reflexivity. Qed.
Lemma fopen_follows s p m : F s (snd (do_fopen H hs s p m)).
Proof. unfold F, do_fopen. destruct (h_fopen hs p m (fs_host H s)) as [r h] eqn:E. apply follows_called; [exact Logic.I|]. exact E. Qed.
Lemma opendir_follows s p : F s (snd (do_opendir H hs s p)).
Proof. unfold F, do_opendir. destruct (h_opendir hs p (fs_host H s)) as [r h] eqn:E. apply follows_called; [exact Logic.I|]. exact E. Qed.
Lemma open_follows s base mode s' : open_if_closed H hs s base mode = Ok s' -> F s s'.
Proof.
  unfold open_if_closed. intros E. destruct (is_null _); [|injection E as <-; apply follows_refl; reflexivity].
  destruct (read_path _ _) as [[p|]|]; cbn [rbind] in E; [|injection E as <-; apply follows_refl; reflexivity|discriminate E].
  pose proof (stat_follows s p) as S. destruct (do_stat H hs s p) as [st s1]. cbn [snd] in S.
  pose proof (fopen_follows s1 p mode) as O. pose proof (opendir_follows s1 p) as D.
  destruct (do_fopen H hs s1 p mode) as [x s2]. destruct (do_opendir H hs s1 p) as [x3 s3]. cbn [snd] in O, D.
  repeat (match type of E with context [if ?c then _ else _] => destruct c end); injection E as <-;
  first [eapply follows_to; [eapply follows_trans; [exact S|exact O]|reflexivity|reflexivity]
        |eapply follows_to; [eapply follows_trans; [exact S|exact D]|reflexivity|reflexivity]
        |eapply follows_to; [exact S|reflexivity|reflexivity]].
Qed.
Lemma set_mode_follows s base mode s' : set_mode H hs s base mode = Ok s' -> F s s'.
Proof. unfold set_mode. intros E. apply open_follows in E. eapply follows_trans; [apply close_follows|exact E]. Qed.

Lemma deo_follows s base port s' : file_deo H hs s base port = Ok s' -> F s s'.
Proof.
  unfold file_deo. intros E.
  destruct (port =? 5); [|destruct (port =? 6); [|destruct (port =? 9); [|destruct (port =? 13); [|destruct (port =? 15)]]]].
  - unfold port_stat in E. destruct (negb _).
    + destruct (format_stat _ _ _ _ _); cbn [rbind] in E; [|discriminate E]. injection E as <-. apply follows_refl; reflexivity.
    + destruct (read_path _ _) as [[p|]|]; cbn [rbind] in E; [|injection E as <-; apply follows_refl; reflexivity|discriminate E].
      pose proof (stat_follows s p) as S. destruct (do_stat H hs s p) as [st s1]. cbn [snd] in S.
      destruct (format_stat _ _ _ _ _); cbn [rbind] in E; [|discriminate E]. injection E as <-. eapply follows_to; [exact S|reflexivity|reflexivity].
  - unfold port_delete in E. destruct (read_path _ _) as [[p|]|]; cbn [rbind] in E; [|injection E as <-; apply follows_refl; reflexivity|discriminate E].
    unfold do_delete in E. destruct (h_delete hs p (fs_host H s)) as [r h] eqn:D. injection E as <-.
    eapply follows_to; [apply (follows_called H hs any s h (CDelete p)); [exact Logic.I|cbn; rewrite D; reflexivity]|reflexivity|reflexivity].
  - unfold port_name in E. destruct (negb _); injection E as <-; [|apply follows_refl; reflexivity].
    destruct (_ =? TYPE_REGULAR); [|destruct (_ =? TYPE_DIRECTORY)].
    + eapply follows_to; [apply follows_called; [exact Logic.I|]|reflexivity|reflexivity]. reflexivity.
    + eapply follows_to; [apply follows_called; [exact Logic.I|]|reflexivity|reflexivity]. reflexivity.
    + apply follows_refl; reflexivity.
  - unfold port_read in E. destruct (set_mode H hs s base MODE_READ) as [s1|] eqn:M; cbn [rbind] in E; [|discriminate E]. apply set_mode_follows in M.
    destruct (is_null _); [injection E as <-; eapply follows_to; [exact M|reflexivity|reflexivity]|].
    destruct (_ =? TYPE_DIRECTORY); [|destruct (_ =? TYPE_REGULAR)].
    + destruct (read_dir_loop _ _ _ _ _ _ _ _ _ _ _) as [[[[[s2 ?] ?] ?] ?]|] eqn:R; cbn [rbind] in E; [|discriminate E].
      apply (read_dir_follows H hs any _ (fun _ => Logic.I)) in R. injection E as <-. eapply follows_to; [eapply follows_trans; [exact M|exact (proj1 R)]|reflexivity|reflexivity].
    + destruct (read_file_loop _ _ _ _ _ _ _ _) as [[s2 ?]|] eqn:R; cbn [rbind] in E; [|discriminate E].
      apply (read_file_follows H hs any _ (fun _ _ _ => Logic.I)) in R. injection E as <-. eapply follows_to; [eapply follows_trans; [exact M|exact R]|reflexivity|reflexivity].
    + injection E as <-. eapply follows_to; [exact M|reflexivity|reflexivity].
  - unfold port_write in E. destruct (set_mode H hs s base _) as [s1|] eqn:M; cbn [rbind] in E; [|discriminate E]. apply set_mode_follows in M.
    destruct (_ && _).
    + destruct (write_file_loop _ _ _ _ _ _ _ _) as [[s2 ?]|] eqn:R; cbn [rbind] in E; [|discriminate E].
      apply (write_file_follows H hs any _ (fun _ _ _ => Logic.I)) in R; [|unfold clamp_length; apply clamp_short]. injection E as <-. eapply follows_to; [eapply follows_trans; [exact M|exact R]|reflexivity|reflexivity].
    + injection E as <-. eapply follows_to; [exact M|reflexivity|reflexivity].
  - injection E as <-. apply follows_refl; reflexivity.
Qed.
End Port.

(** The log is what happened: every port write changes the host by exactly the
    calls it adds to the log. *)
Theorem C99_log_is_what_happened : forall H (hs : host H) v f h log base port s, file_deo H hs (mkFs H v f h log) base port = Ok s ->
  exists new, fs_log H s = new ++ log /\ happened hs new h (fs_host H s).
Proof. intros H hs v f h log base port s E. destruct (deo_follows _ _ _ _ _ _ E) as (new & A & B & _). exists new. auto. Qed.

(** *** PhysFS keeps what the file device needs. *)
Lemma stat_fine {P} (L : lib P) path h : stat_ok (fst (phys_stat P L path h)).
Proof.
  unfold phys_stat. destruct (_ || _); [unfold stat_ok, TYPE_DIRECTORY; cbn; lia|]. destruct (l_stat L _ _) as [[[t n]|] p]; cbn [fst]; [|unfold stat_ok, TYPE_INVALID; cbn; lia].
  pose proof (Z.mod_pos_bound n (2 ^ 64) eq_refl) as B.
  destruct (t =? FT_REGULAR); [|destruct (t =? FT_DIRECTORY)]; unfold stat_ok; cbn [st_type st_size]; unfold TYPE_REGULAR, TYPE_DIRECTORY, TYPE_INVALID; split; lia || apply B.
Qed.
Theorem C99_contract : forall P (L : lib P), lib_ok L -> host_ok (physfs P L).
Proof.
  intros P L (R & W & _). split; [|split; [|split]].
  - intros p h. apply stat_fine.
  - intros x n h N. cbv zeta. cbn [h_fread physfs]. unfold phys_fread. destruct x; try (cbn; split; [lia|constructor]).
    destruct (l_eof L h0 (ph_lib h)); [cbn; split; [lia|constructor]|]. specialize (R h0 n (ph_lib h) N). destruct (l_read L h0 n (ph_lib h)) as [[l|] p]; cbn [fst] in *; [exact R|cbn; split; [lia|constructor]].
  - intros x l h. cbn [h_fwrite physfs]. unfold phys_fwrite. destruct x; cbn [fst]; try lia.
    specialize (W h0 l (ph_lib h)). destruct (l_write L h0 l (ph_lib h)) as [n p]. cbn [fst] in *. destruct (n >=? 0) eqn:E; [|lia]. unfold u16. lia.
  - intros x h. cbn [h_readdir physfs]. unfold phys_readdir. destruct (slot_of P x h) as [[i [fs [[|name rest]|]]]|]; cbn [fst]; try exact Logic.I.
    pose proof (stat_fine L (map u8 name) h) as S. destruct (phys_stat P L (map u8 name) h) as [st h1]. cbn [fst] in *. split; [|exact S].
    apply Forall_forall. intros c C. apply in_map_iff in C. destruct C as (y & <- & _). unfold is_byte, u8. lia.
Qed.

(** *** The table of directories *)
Definition used (s : slot) : Prop := exists l r, s = mkSlot (Some l) (Some r).
Definition tidy {P} (o0 o1 : owner) (h : phys P) : Prop :=
  ph_crashed h = false /\ exists a b, ph_dirs h = [a; b] /\
  ((a = free_slot /\ b = free_slot /\ owns_dir o0 = 0 /\ owns_dir o1 = 0) \/
   (used a /\ b = free_slot /\ ((o0 = OwnsDir 0 /\ owns_dir o1 = 0) \/ (o1 = OwnsDir 0 /\ owns_dir o0 = 0))) \/
   (a = free_slot /\ used b /\ ((o0 = OwnsDir 1 /\ owns_dir o1 = 0) \/ (o1 = OwnsDir 1 /\ owns_dir o0 = 0))) \/
   (used a /\ used b /\ ((o0 = OwnsDir 0 /\ o1 = OwnsDir 1) \/ (o0 = OwnsDir 1 /\ o1 = OwnsDir 0)))).
Lemma tidy_swap {P} o0 o1 (h : phys P) : tidy o0 o1 h -> tidy o1 o0 h.
Proof. intros (A & a & b & B & C). split; [exact A|]. exists a, b. split; [exact B|]. tauto. Qed.
Lemma tidy_lib {P} o0 o1 (h : phys P) (p : P) : tidy o0 o1 h -> tidy o0 o1 (mkPhys p (ph_dirs h) (ph_crashed h)).
Proof. intros T. exact T. Qed.
Lemma tidy_owner {P} o0 o0' o1 (h h' : phys P) : tidy o0 o1 h -> owns_dir o0 = 0 -> owns_dir o0' = 0 -> ph_dirs h' = ph_dirs h -> ph_crashed h' = ph_crashed h -> tidy o0' o1 h'.
Proof.
  intros (A & a & b & B & C) Z0 Z1 D K. split; [congruence|]. exists a, b. rewrite D. split; [exact B|].
  assert (N : forall i, o0 <> OwnsDir i) by (intros i ->; discriminate Z0).
  destruct C as [(C1 & C2 & C3 & C4)|[(C1 & C2 & [(C3 & C4)|(C3 & C4)])|[(C1 & C2 & [(C3 & C4)|(C3 & C4)])|(C1 & C2 & [(C3 & C4)|(C3 & C4)])]]];
    try (exfalso; eapply N; eassumption); tauto.
Qed.

Definition lists_files {P} (L : lib P) : Prop := forall p s, fst (l_enumerate L p s) <> None.
Lemma readdir_dirs {P} (L : lib P) i n l cur h r h' : slot_of P (HReal i) h = Some (n, mkSlot (Some l) (Some cur)) -> phys_readdir P L (HReal i) h = (r, h') ->
  ph_crashed h' = ph_crashed h /\ (ph_dirs h' = ph_dirs h \/ ph_dirs h' = set_nth n (ph_dirs h) (mkSlot (Some l) (Some (tl cur)))).
Proof.
  intros S E. unfold phys_readdir in E. rewrite S in E. destruct cur as [|name rest]; [injection E as _ <-; auto|].
  destruct (phys_stat P L (map u8 name) h) as [st h1] eqn:ST.
  assert (D : ph_dirs h1 = ph_dirs h /\ ph_crashed h1 = ph_crashed h).
  { unfold phys_stat in ST. destruct (_ || _); [injection ST as _ <-; auto|]. destruct (l_stat L _ _). injection ST as _ <-. auto. }
  injection E as _ <-. cbn. destruct D as [-> ->]. auto.
Qed.
Lemma step_tidy {P} (L : lib P) o0 o0' o1 c h h' : lists_files L -> tidy o0 o1 h -> next o0 c = Some o0' -> happens (physfs P L) c h h' ->
  tidy o0' o1 h' /\ (forall p, c <> COpenDir p None).
Proof.
  intros LF T N Hp. destruct c; cbn [happens physfs h_stat h_delete h_fopen h_opendir h_fclose h_closedir h_fread h_fwrite h_readdir] in Hp.
  - (* stat *) cbn in N. injection N as <-. split; [|discriminate]. unfold phys_stat in Hp. destruct (_ || _); [subst h'; exact T|].
    destruct (l_stat L _ _); subst h'; exact T.
  - (* delete *) cbn in N. injection N as <-. split; [|discriminate]. unfold phys_delete in Hp. destruct (l_delete L _ _); subst h'; exact T.
  - (* open *) split; [|discriminate]. cbn in N. destruct o0; try discriminate N. injection N as <-.
    assert (D : ph_dirs h' = ph_dirs h /\ ph_crashed h' = ph_crashed h).
    { unfold phys_fopen in Hp. destruct (mode =? _); [destruct (l_open_read L _ _)|destruct (mode =? _); [destruct (l_open_write L _ _)|destruct (mode =? _); [destruct (l_open_append L _ _)|]]]; injection Hp as _ <-; auto. }
    eapply tidy_owner; [exact T|reflexivity|destruct result; reflexivity|apply D|apply D].
  - (* opendir *) cbn in N. destruct o0; try discriminate N. injection N as <-.
    destruct T as (A & a & b & B & C). unfold phys_opendir in Hp.
    assert (Nd : forall i, Nobody <> OwnsDir i) by discriminate.
    assert (CC : (a = free_slot /\ ((b = free_slot /\ owns_dir o1 = 0) \/ (used b /\ o1 = OwnsDir 1))) \/ (used a /\ b = free_slot /\ o1 = OwnsDir 0))
      by (destruct C as [(C1 & C2 & C3 & C4)|[(C1 & C2 & [(C3 & C4)|(C3 & C4)])|[(C1 & C2 & [(C3 & C4)|(C3 & C4)])|(C1 & C2 & [(C3 & C4)|(C3 & C4)])]]]; try discriminate C3; auto).
    rewrite B in Hp. pose proof (LF (if list_eqb (strip path) [46] then [47] else strip path) (ph_lib h)) as LE.
    destruct (l_enumerate L _ _) as [r p]. cbn [fst] in LE. destruct r as [names|]; [|congruence].
    destruct CC as [(-> & CC)|((l & r & ->) & -> & CC)]; cbn in Hp; injection Hp as <- <-.
    + split; [|discriminate]. split; [exact A|]. eexists _, _. split; [reflexivity|]. destruct CC as [(-> & CC)|(CC1 & ->)].
      * right. left. split; [exists names, names; reflexivity|]. auto.
      * right. right. right. split; [exists names, names; reflexivity|]. auto.
    + split; [|discriminate]. split; [exact A|]. eexists _, _. split; [reflexivity|]. right. right. right. split; [exists l, r; reflexivity|]. split; [exists names, names; reflexivity|]. auto.
  - (* close *) split; [|discriminate]. destruct h0; cbn in N; try discriminate N. destruct o0; try discriminate N. destruct (_ =? _); try discriminate N. injection N as <-.
    subst h'. eapply tidy_owner; [exact T|reflexivity|reflexivity|reflexivity|reflexivity].
  - (* closedir *) split; [|discriminate]. destruct h0; cbn in N; try discriminate N. destruct o0; try discriminate N. destruct (h0 =? h1) eqn:E; try discriminate N. injection N as <-.
    assert (h0 = h1) by lia. subst h1. destruct T as (A & a & b & B & C). subst h'. unfold phys_closedir, slot_of.
    destruct C as [(C1 & C2 & C3 & C4)|[(C1 & C2 & [(C3 & C4)|(C3 & C4)])|[(C1 & C2 & [(C3 & C4)|(C3 & C4)])|(C1 & C2 & [(C3 & C4)|(C3 & C4)])]]];
      try discriminate C3; try discriminate C4; injection C3 as ->; cbn; rewrite B; cbn; (split; [exact A|]); eexists _, _; (split; [reflexivity|]); tauto.
  - (* read *) split; [|discriminate]. destruct h0; cbn in N; try discriminate N. destruct o0; try discriminate N. destruct (_ =? _); try discriminate N. injection N as <-.
    unfold phys_fread in Hp. destruct (l_eof L _ _); [injection Hp as _ <-; exact T|]. destruct (l_read L _ _ _). injection Hp as _ <-. exact T.
  - (* write *) split; [|discriminate]. destruct h0; cbn in N; try discriminate N. destruct o0; try discriminate N. destruct (_ =? _); try discriminate N. injection N as <-.
    unfold phys_fwrite in Hp. destruct (l_write L _ _ _). injection Hp as _ <-. exact T.
  - (* readdir *) split; [|discriminate]. destruct h0; cbn in N; try discriminate N. destruct o0; try discriminate N. destruct (h0 =? h1) eqn:E; try discriminate N. injection N as <-.
    assert (h0 = h1) by lia. subst h1. destruct T as (A & a & b & B & C). unfold phys_readdir, slot_of in Hp.
    assert (R : forall n s, (nth_error (ph_dirs h) n = Some s) -> used s -> h0 = Z.of_nat n -> ph_crashed h' = ph_crashed h /\ exists s', used s' /\ (ph_dirs h' = ph_dirs h \/ ph_dirs h' = set_nth n (ph_dirs h) s')).
    { intros n s Nn (l & cur & ->) ->. assert (SO : slot_of P (HReal (Z.of_nat n)) h = Some (n, mkSlot (Some l) (Some cur))).
      { unfold slot_of. replace (Z.of_nat n <? 0) with false by lia. rewrite Nat2Z.id, Nn. reflexivity. }
      destruct (readdir_dirs L _ _ _ _ _ _ _ SO Hp) as (K & D). split; [exact K|]. exists (mkSlot (Some l) (Some (tl cur))). split; [exists l, (tl cur); reflexivity|exact D]. }
    rewrite B in R.
    destruct C as [(C1 & C2 & C3 & C4)|[(C1 & C2 & [(C3 & C4)|(C3 & C4)])|[(C1 & C2 & [(C3 & C4)|(C3 & C4)])|(C1 & C2 & [(C3 & C4)|(C3 & C4)])]]];
      try discriminate C3; try discriminate C4; injection C3 as ->;
      first [destruct (R 0%nat a eq_refl C1 eq_refl) as (K & s' & U & D) | destruct (R 1%nat b eq_refl C2 eq_refl) as (K & s' & U & D)];
      (split; [congruence|]); destruct D as [D|D]; rewrite D; eexists _, _; (split; [reflexivity|]); tauto.
Qed.

Lemma log_tidy {P} (L : lib P) o1 new : lists_files L -> forall o0 o0' h h', tidy o0 o1 h -> accept new o0 = Some o0' -> happened (physfs P L) new h h' ->
  tidy o0' o1 h' /\ (forall p, ~ In (COpenDir p None) new).
Proof.
  intros LF. induction new as [|c new IH]; cbn; intros o0 o0' h h' T A E.
  - injection A as <-. subst h'. auto.
  - destruct E as (h1 & E1 & E2). destruct (accept new o0) as [o2|] eqn:A2; [|discriminate A].
    destruct (IH _ _ _ _ T A2 E1) as (T1 & N1). destruct (step_tidy L _ _ _ _ _ _ LF T1 A E2) as (T2 & N2).
    split; [exact T2|]. intros p [X|X]; [exact (N2 p X)|exact (N1 p X)].
Qed.

Lemma deo_tidy {P} (L : lib P) : lib_ok L -> lists_files L -> forall v f h log o1 base port s, file_ok f -> well_typed v -> 0 <= base <= 240 ->
  file_deo _ (physfs P L) (mkFs _ v f h log) base port = Ok s -> tidy (recorded f) o1 h ->
  file_ok (fs_file _ s) /\ tidy (recorded (fs_file _ s)) o1 (fs_host _ s) /\ (forall p, In (COpenDir p None) (fs_log _ s) -> In (COpenDir p None) log).
Proof.
  intros LO LF v f h log o1 base port s G V B E T.
  destruct (C99_log_is_what_happened _ _ _ _ _ _ _ _ _ E) as (new & N1 & N2).
  destruct (file_deo_spec _ (physfs P L) (C99_contract P L LO) (mkFs _ v f h log) base port (conj V G) B) as (s2 & new2 & E2 & ((_ & G2) & P2 & P3 & _)).
  rewrite E in E2. injection E2 as <-. cbn [fs_log fs_file] in P2, P3. rewrite N1 in P2. apply app_inv_tail in P2. subst new2.
  destruct (log_tidy L o1 new LF _ _ _ _ T P3 N2) as (T2 & X). split; [exact G2|]. split; [exact T2|].
  intros p I. rewrite N1 in I. apply in_app_or in I. destruct I as [I|I]; [exfalso; exact (X p I)|exact I].
Qed.
Lemma initial_ok : file_ok initial_file.
Proof. unfold file_ok, handle_ok, dir_ok, stat_ok, is_short, is_byte, initial_file, TYPE_INVALID; cbn. intuition lia. Qed.

(** Whatever the two devices do: no directory that is not open is used, every
    directory that is opened gets an entry of the table, never the one of the
    other device, and there are as many lists of names as open directories. *)
Theorem C99_directories : forall P (L : lib P) f0 l0 f1 l1 h, lib_ok L -> lists_files L -> running L f0 l0 f1 l1 h ->
  ph_crashed h = false /\ (forall p, ~ In (COpenDir p None) (l0 ++ l1)) /\
  (forall i, recorded f0 = OwnsDir i -> recorded f1 <> OwnsDir i) /\ lists_alive h = owns_dir (recorded f0) + owns_dir (recorded f1).
Proof.
  intros P L f0 l0 f1 l1 h LO LF R.
  assert (I : file_ok f0 /\ file_ok f1 /\ tidy (recorded f0) (recorded f1) h /\ (forall p, ~ In (COpenDir p None) l0) /\ (forall p, ~ In (COpenDir p None) l1)).
  { induction R as [p|f0 l0 f1 l1 h p R IH|f0 l0 f1 l1 h v base port s R IH V B E|f0 l0 f1 l1 h v base port s R IH V B E].
    - split; [apply initial_ok|]. split; [apply initial_ok|]. split; [|auto]. split; [reflexivity|]. eexists _, _. split; [reflexivity|]. left. auto.
    - exact IH.
    - destruct IH as (G0 & G1 & T & N0 & N1). destruct (deo_tidy L LO LF _ _ _ _ _ _ _ _ G0 V B E T) as (A & C & D). split; [exact A|]. split; [exact G1|]. split; [exact C|]. split; [|exact N1]. intros p X. exact (N0 p (D p X)).
    - destruct IH as (G0 & G1 & T & N0 & N1). destruct (deo_tidy L LO LF _ _ _ _ _ _ _ _ G1 V B E (tidy_swap _ _ _ T)) as (A & C & D). split; [exact G0|]. split; [exact A|]. split; [apply tidy_swap, C|]. split; [exact N0|]. intros p X. exact (N1 p (D p X)). }
  destruct I as (_ & _ & (A & a & b & B & C) & N0 & N1). split; [exact A|]. split; [intros p X; apply in_app_or in X; destruct X as [X|X]; [exact (N0 p X)|exact (N1 p X)]|].
  unfold lists_alive. rewrite B.
  destruct C as [(-> & -> & C3 & C4)|[((l & r & ->) & -> & [(C3 & C4)|(C3 & C4)])|[(-> & (l & r & ->) & [(C3 & C4)|(C3 & C4)])|((l & r & ->) & (l2 & r2 & ->) & [(C3 & C4)|(C3 & C4)])]]];
    (split; [intros i X Y; rewrite X in *; rewrite Y in *; try discriminate; congruence|]); cbn; rewrite C3, C4; reflexivity.
Qed.

(** Any program, in a machine with two file devices and any other devices. *)
Theorem C99_runs : forall P (L : lib P) R odei odeo hi_first N, lib_ok L -> lists_files L -> 65536 <= N ->
  host_good N (fun _ : R => True) (fun _ => False) odei odeo ->
  forall fuel kw kr pc v p r, well_typed v -> is_short pc -> vm_msize v = N ->
  match execute (files (phys P) R) (files_dei odei) (files_deo (physfs P L) odeo) hi_first None kw kr fuel pc v
          (mkFiles initial_file [] initial_file [] (mkPhys p no_dirs false) r) with
  | Crash _ f => exists n, n > 2147483647 /\ f = SignedOverflow n
  | Done _ v' w => ph_crashed (fh w) = false /\ lists_alive (fh w) = owns_dir (recorded (d0 w)) + owns_dir (recorded (d1 w))
  | VmModel.OutOfFuel _ => True
  end.
Proof.
  intros P L R odei odeo hi N LO LF HN [HI HO] fuel kw kr pc v p r Hv Hp Hs.
  pose (I := fun w : files (phys P) R => running L (d0 w) (l0 w) (d1 w) (l1 w) (fh w) /\ file_ok (d0 w) /\ file_ok (d1 w)).
  assert (HOK : host_ok (physfs P L)) by (apply C99_contract, LO).
  assert (G : host_good N I (fun _ => False) (files_dei odei) (files_deo (physfs P L) odeo)).
  { split; intros a u x Ha Hu Hn Hx.
    - unfold files_dei. destruct (device_id a =? 160); [exact (conj Hu (conj Hn Hx))|].
      destruct (device_id a =? 176); [exact (conj Hu (conj Hn Hx))|].
      specialize (HI a u (rest x) Ha Hu Hn Logic.I). destruct (odei a u (rest x)) as [[[b u'] r']|]; cbn in *; [|auto].
      destruct HI as (A & B & _). auto.
    - unfold files_deo. destruct Hx as (X & X0 & X1).
      assert (Q : forall f log base, file_ok f -> 0 <= base <= 240 ->
        exists s, file_deo _ (physfs P L) (mkFs _ u f (fh x) log) base (Z.land a 15) = Ok s /\
        well_typed (fs_vm _ s) /\ vm_msize (fs_vm _ s) = N /\ file_ok (fs_file _ s)).
      { intros f log base G0 Hb.
        destruct (file_deo_spec _ (physfs P L) HOK (mkFs _ u f (fh x) log) base (Z.land a 15) (conj Hu G0) Hb) as (s & new & E & ((P0 & P1) & _ & _ & _ & P5 & _)).
        exists s. split; auto. split; auto. split; [destruct P5 as (_ & _ & _ & _ & _ & P5); cbn in P5; congruence|exact P1]. }
      destruct (device_id a =? 160).
      { destruct (Q (d0 x) (l0 x) 160 X0 ltac:(lia)) as (s & E & A & B & C). rewrite E. cbn.
        split; auto. split; auto. split; [|auto]. cbn. exact (run_first L _ _ _ _ _ u 160 _ s X Hu ltac:(lia) E). }
      destruct (device_id a =? 176).
      { destruct (Q (d1 x) (l1 x) 176 X1 ltac:(lia)) as (s & E & A & B & C). rewrite E. cbn.
        split; auto. split; auto. split; [|auto]. cbn. exact (run_second L _ _ _ _ _ u 176 _ s X Hu ltac:(lia) E). }
      specialize (HO a u (rest x) Ha Hu Hn Logic.I). destruct (odeo a u (rest x)) as [[u' r']|]; cbn in *; [|auto].
      destruct HO as (A & B & _). split; auto. split; auto. split; auto. }
  assert (I0 : I (mkFiles initial_file [] initial_file [] (mkPhys p no_dirs false) r)) by (split; [apply run_init|split; apply initial_ok]).
  pose proof (execute_good _ _ _ hi N I _ G fuel kw kr pc v _ Hv Hp Hs I0) as E.
  destruct (execute _ _ _ _ _ _ _ _ _ _ _); auto.
  - destruct E as (_ & _ & (E & _)). destruct (C99_directories P L _ _ _ _ _ LO LF E) as (A & _ & _ & B). auto.
  - tauto.
Qed.

(** *** Contents *)
Lemma same_name v base p q : name_at v base p -> name_at v base q -> q = p.
Proof.
  intros (A & B & C) (A' & B' & C').
  assert (L : length p = length q).
  { destruct (Z.lt_trichotomy (Z.of_nat (length p)) (Z.of_nat (length q))) as [L|[L|L]]; [|lia|].
    - destruct (B' (Z.of_nat (length p))) as [_ X]; [lia|]. exfalso. auto.
    - destruct (B (Z.of_nat (length q))) as [_ X]; [lia|]. exfalso. auto. }
  apply (nth_ext _ _ 0 0); [lia|]. intros n Hn.
  destruct (B (Z.of_nat n)) as [X _]; [lia|]. destruct (B' (Z.of_nat n)) as [Y _]; [lia|].
  rewrite Nat2Z.id in X, Y. congruence.
Qed.
Lemma owns_file f x : recorded f = OwnsFile x -> f_handle f = HReal x /\ st_type (f_stat f) = 1.
Proof. unfold recorded. destruct (f_handle f); try discriminate. destruct (st_type (f_stat f) =? 1) eqn:E; [|discriminate]. intros [= ->]. split; [reflexivity|lia]. Qed.

Section Contents.
Variable P : Type.
Variable L : lib P.
Hypothesis LO : lib_ok L.
Let hs := physfs P L.
Let HOK : host_ok hs := C99_contract P L LO.

Lemma reads_take rest x new : readable L rest -> Forall (fun c => exists n l, 0 < n /\ c = CRead (HReal x) n l) new -> forall h h' l,
  happened hs new h h' -> rest (ph_lib h) x l ->
  exists b, l = bytes_read new ++ b /\ rest (ph_lib h') x b /\ (forall n older, new = CRead (HReal x) n [] :: older -> b = []).
Proof using.
  intros RD F. induction F as [|c new (n & bs & N & ->) F IH]; intros h h' l E R0.
  - cbn in E. subst h'. exists l. split; [reflexivity|]. split; [exact R0|discriminate].
  - destruct E as (h1 & E1 & E2). destruct (IH _ _ _ E1 R0) as (b & -> & R1 & _).
    assert (BR : forall t, bytes_read (CRead (HReal x) n bs :: new) ++ t = bytes_read new ++ bs ++ t).
    { intros t. change (CRead (HReal x) n bs :: new) with ([CRead (HReal x) n bs] ++ new). rewrite bytes_read_app. unfold bytes_read at 2. cbn. rewrite app_nil_r, app_assoc. reflexivity. }
    cbn [happens hs physfs h_fread] in E2. unfold phys_fread in E2. destruct (RD (ph_lib h1) x b n R1 N) as (Ra & Rb).
    destruct (l_eof L x (ph_lib h1)) eqn:Eo.
    + injection E2 as <- <-. exists b. rewrite BR. split; [reflexivity|]. split; [exact R1|]. intros. apply Ra. reflexivity.
    + destruct (Rb eq_refl) as (a & b' & p' & -> & La & Lb & Lr & R2). rewrite Lr in E2. injection E2 as <- <-.
      exists b'. rewrite BR. split; [reflexivity|]. split; [exact R2|]. intros n0 older [= _ -> _]. specialize (Lb eq_refl). destruct b'; [reflexivity|discriminate Lb].
Qed.

Lemma read_from rest v base x l : readable L rest -> well_typed v -> 0 <= base <= 240 -> forall s s1, set_mode _ hs s base MODE_READ = Ok s1 -> fs_vm _ s1 = v ->
  recorded (fs_file _ s1) = OwnsFile x -> rest (ph_lib (fs_host _ s1)) x l -> reg2 v base 12 <> 0 ->
  let n := Z.min (room (reg2 v base 12) (reg2 v base 10)) (Z.of_nat (length l)) in
  exists s', port_read _ hs s base = Ok s' /\ f_success (fs_file _ s') = n /\ slice (vm_mem (fs_vm _ s')) (reg2 v base 12) n = firstn (Z.to_nat n) l /\
  rest (ph_lib (fs_host _ s')) x (skipn (Z.to_nat n) l) /\ recorded (fs_file _ s') = OwnsFile x.
Proof using LO.
  intros RD V B s s1 M V1 O R0 Z0 n. destruct (owns_file _ _ O) as (Hh & Ht). destruct (clamp_room v base 12 V B) as (C1 & C2 & C3 & _ & C5 & _). specialize (C5 Z0).
  unfold port_read. rewrite M. cbn [rbind]. rewrite V1, !port2_reg by auto. rewrite C5 in C1, C2 |- *.
  set (addr := reg2 v base 12) in *. set (len := room addr (reg2 v base 10)) in *. rewrite Hh, Ht. cbn [is_null]. change (1 =? TYPE_DIRECTORY) with false. change (1 =? TYPE_REGULAR) with true. cbv iota.
  destruct (read_file_loop_spec _ hs HOK (HReal x) (Z.to_nat len) s1 len addr 0) as (s2 & new & bs & E & K1 & K2 & K3 & K4 & K5 & K6 & K7 & K8 & K9 & K10); try lia.
  { rewrite V1. exact V. }
  rewrite E. cbn [rbind]. eexists. split; [reflexivity|].
  assert (FO : follows _ hs (fun c => exists n l, 0 < n /\ c = CRead (HReal x) n l) s1 s2) by (eapply read_file_follows; [|exact E]; eauto).
  destruct FO as (new' & F1 & F2 & F3). rewrite F1 in K6. apply app_inv_tail in K6. subst new'.
  destruct (reads_take rest x new RD F3 _ _ _ F2 R0) as (b & -> & R1 & R2). rewrite K7 in *.
  assert (N : n = Z.of_nat (length bs)).
  { unfold n. rewrite K7, app_length. destruct K10 as [K10|(older & K10)]; [lia|]. rewrite (R2 _ _ K10). cbn [length]. lia. }
  clearbody n.
  rewrite N, Nat2Z.id. cbn [fs_file fs_vm fs_host set_success set_file f_set_success f_success].
  split; [lia|]. split; [|split].
  - rewrite firstn_app, Nat.sub_diag, firstn_all. cbn. rewrite app_nil_r. transitivity (slice (put (vm_mem v) addr bs) addr (Z.of_nat (length bs))); [|apply slice_put].
    apply slice_ext. intros j _. rewrite <- V1. apply K4.
  - rewrite skipn_app, Nat.sub_diag, skipn_all. exact R1.
  - rewrite K5. exact O.
Qed.

(** A read of an open file delivers the next bytes of its contents, as many as
    were asked for or all that are left. *)
Theorem C99_reads_the_contents : forall rest v f h log base x l, readable L rest -> reachable hs f h log -> well_typed v -> 0 <= base <= 240 ->
  recorded f = OwnsFile x -> f_mode f = 0 -> rest (ph_lib h) x l -> reg2 v base 12 <> 0 ->
  let n := Z.min (room (reg2 v base 12) (reg2 v base 10)) (Z.of_nat (length l)) in
  exists s', file_deo _ hs (mkFs _ v f h log) base 13 = Ok s' /\ f_success (fs_file _ s') = n /\ slice (vm_mem (fs_vm _ s')) (reg2 v base 12) n = firstn (Z.to_nat n) l /\
  rest (ph_lib (fs_host _ s')) x (skipn (Z.to_nat n) l) /\ recorded (fs_file _ s') = OwnsFile x.
Proof using LO.
  intros rest v f h log base x l RD R V B O M R0 Z0. destruct (reachable_good _ hs HOK f h log R) as [G _].
  change (file_deo _ hs (mkFs _ v f h log) base 13) with (port_read _ hs (mkFs _ v f h log) base).
  destruct (set_mode_spec _ hs HOK (mkFs _ v f h log) base MODE_READ (conj V G) B) as (s1 & new & E & _ & _ & _ & _ & _ & S6 & _).
  rewrite S6 in E; [|cbn; rewrite (proj1 (owns_file _ _ O)); discriminate|exact M].
  apply (read_from rest v base x l RD V B _ _ E); auto.
Qed.

(** The first read of a file opens it under the name that the program gave. *)
Theorem C99_first_read : forall rest v f h log base p x l size p1 p2, readable L rest -> reachable hs f h log -> well_typed v -> 0 <= base <= 240 ->
  f_handle f = HNull -> name_at v base p -> strip p <> [47] -> strip p <> [46] ->
  l_stat L (strip p) (ph_lib h) = (Some (FT_REGULAR, size), p1) -> l_open_read L (strip p) p1 = (Some x, p2) -> rest p2 x l -> reg2 v base 12 <> 0 ->
  let n := Z.min (room (reg2 v base 12) (reg2 v base 10)) (Z.of_nat (length l)) in
  exists s', file_deo _ hs (mkFs _ v f h log) base 13 = Ok s' /\ f_success (fs_file _ s') = n /\ slice (vm_mem (fs_vm _ s')) (reg2 v base 12) n = firstn (Z.to_nat n) l /\
  rest (ph_lib (fs_host _ s')) x (skipn (Z.to_nat n) l) /\ recorded (fs_file _ s') = OwnsFile x.
Proof using LO.
  intros rest v f h log base p x l size p1 p2 RD R V B Hn Np N1 N2 ST OP R0 Z0.
  change (file_deo _ hs (mkFs _ v f h log) base 13) with (port_read _ hs (mkFs _ v f h log) base).
  assert (LE : forall a b, list_eqb a b = true -> a = b).
  { induction a as [|y a IH]; intros [|z b] E; try discriminate E; [reflexivity|]. cbn in E. apply andb_prop in E. destruct E as [E1 E2]. rewrite (IH _ E2). f_equal. lia. }
  assert (PS : phys_stat P L p h = (mkStat TYPE_REGULAR (size mod 2 ^ 64), mkPhys p1 (ph_dirs h) (ph_crashed h))).
  { unfold phys_stat. destruct (list_eqb (strip p) [47]) eqn:E1; [apply LE in E1; contradiction|]. destruct (list_eqb (strip p) [46]) eqn:E2; [apply LE in E2; contradiction|].
    cbn [orb]. rewrite ST. reflexivity. }
  assert (M : exists s1, set_mode _ hs (mkFs _ v f h log) base MODE_READ = Ok s1 /\ fs_vm _ s1 = v /\ recorded (fs_file _ s1) = OwnsFile x /\ ph_lib (fs_host _ s1) = p2).
  { unfold set_mode, close_on_mode_change. cbn [fs_file]. rewrite Hn. cbn [is_null negb andb]. unfold open_if_closed. cbn [fs_file fs_vm]. rewrite Hn. cbn [is_null].
    destruct (read_path_spec v base V B) as (r & -> & RP). cbn [rbind]. destruct r as [q|]; [|exfalso; exact (RP p Np)]. rewrite (same_name _ _ _ _ Np RP).
    unfold do_stat. cbn [fs_host]. change (h_stat hs p h) with (phys_stat P L p h). rewrite PS. cbn [st_type]. change (TYPE_REGULAR =? TYPE_REGULAR) with true. cbv iota.
    unfold do_fopen. cbn [fs_host called]. change (h_fopen hs p MODE_READ) with (phys_fopen P L p MODE_READ). unfold phys_fopen. change (MODE_READ =? MODE_READ) with true. cbv iota. cbn [ph_lib]. rewrite OP.
    eexists. split; [reflexivity|]. auto. }
  destruct M as (s1 & M & V1 & O1 & L1). apply (read_from rest v base x l RD V B _ _ M V1 O1); [rewrite L1; exact R0|exact Z0].
Qed.

Lemma writes_add text x new : writable L text -> Forall (fun c => exists n l, 0 < Z.of_nat (length l) < 65536 /\ c = CWrite (HReal x) l n) new -> forall h h' l,
  happened hs new h h' -> text (ph_lib h) x l -> text (ph_lib h') x (l ++ bytes_written new).
Proof using.
  intros WR F. induction F as [|c new (n & bs & N & ->) F IH]; intros h h' l E T0.
  - cbn in E. subst h'. unfold bytes_written. cbn. rewrite app_nil_r. exact T0.
  - destruct E as (h1 & E1 & E2). specialize (IH _ _ _ E1 T0). cbn [happens hs physfs h_fwrite] in E2. unfold phys_fwrite in E2.
    destruct (WR (ph_lib h1) x _ bs IH) as (k & p' & W1 & W2 & W3). rewrite W1 in E2. injection E2 as <- <-.
    change (CWrite (HReal x) bs (if k >=? 0 then u16 k else 0) :: new) with ([CWrite (HReal x) bs (if k >=? 0 then u16 k else 0)] ++ new).
    rewrite bytes_written_app, app_assoc. unfold bytes_written at 2. cbn [rev map app]. cbn [List.concat]. rewrite app_nil_r.
    replace (Z.to_nat (if k >=? 0 then u16 k else 0)) with (Z.to_nat k); [exact W3|]. destruct (k >=? 0) eqn:K; unfold u16; lia.
Qed.
(** A write to an open file adds the bytes of the memory to it, as many as the
    device says, and all of them if the library always takes some. *)
Theorem C99_writes_the_bytes : forall text v f h log base x l, writable L text -> reachable hs f h log -> well_typed v -> 0 <= base <= 240 ->
  recorded f = OwnsFile x -> f_mode f = (if vm_dev v (base + 7) =? 0 then 1 else 2) -> text (ph_lib h) x l -> reg2 v base 14 <> 0 ->
  exists s', file_deo _ hs (mkFs _ v f h log) base 15 = Ok s' /\ fs_vm _ s' = v /\ recorded (fs_file _ s') = OwnsFile x /\
  text (ph_lib (fs_host _ s')) x (l ++ slice (vm_mem v) (reg2 v base 14) (f_success (fs_file _ s'))) /\
  ((forall p x l, l <> [] -> 0 < fst (l_write L x l p)) -> f_success (fs_file _ s') = room (reg2 v base 14) (reg2 v base 10)).
Proof using LO.
  intros text v f h log base x l WR R V B O M T0 Z0. destruct (reachable_good _ hs HOK f h log R) as [G _]. destruct (owns_file _ _ O) as (Hh & Ht).
  change (file_deo _ hs (mkFs _ v f h log) base 15) with (port_write _ hs (mkFs _ v f h log) base). unfold port_write. cbn [fs_vm].
  set (mode := if vm_dev v (base + 7) =? 0 then MODE_WRITE else MODE_APPEND).
  destruct (set_mode_spec _ hs HOK (mkFs _ v f h log) base mode (conj V G) B) as (s1 & new0 & E & _ & _ & _ & _ & _ & S6 & _).
  rewrite S6 in E; [|cbn; rewrite Hh; discriminate|exact M]. rewrite E. cbn [rbind fs_file fs_vm]. rewrite Hh, Ht. cbn [is_null negb andb]. change (1 =? TYPE_REGULAR) with true. cbv iota.
  rewrite !port2_reg by auto. destruct (clamp_room v base 14 V B) as (C1 & C2 & C3 & _ & C5 & _). specialize (C5 Z0). rewrite C5 in C1, C2 |- *.
  set (addr := reg2 v base 14) in *. set (len := room addr (reg2 v base 10)) in *.
  destruct (write_file_loop_spec _ hs HOK (HReal x) (Z.to_nat len) (mkFs _ v f h log) len addr 0) as (s2 & new & n & W & K1 & K2 & K3 & K4 & K5 & K6 & K7); cbn [fs_vm]; try lia; auto.
  rewrite W. cbn [rbind]. eexists. split; [reflexivity|].
  assert (FO : follows _ hs (fun c => exists n l, 0 < Z.of_nat (length l) < 65536 /\ c = CWrite (HReal x) l n) (mkFs _ v f h log) s2) by (eapply write_file_follows; [| |exact W]; [eauto|lia]).
  destruct FO as (new' & F1 & F2 & F3). rewrite F1 in K4. apply app_inv_tail in K4. subst new'.
  cbn [fs_file fs_vm fs_host set_success set_file f_set_success f_success] in *. split; [exact K2|]. split; [rewrite K3; exact O|]. rewrite Z.add_0_l. split.
  - rewrite <- K5. exact (writes_add text x new WR F3 _ _ _ F2 T0).
  - intros PR. destruct K7 as [K7|(older & K7)]; [exact K7|exfalso]. subst new. inversion F3 as [|c cs (n1 & bs & Nb & E1) F4]. subst. injection E1 as E1 _.
    destruct F2 as (h1 & _ & F2). cbn [happens hs physfs h_fwrite] in F2. unfold phys_fwrite in F2. rewrite E1 in F2.
    assert (NE : bs <> []) by (intros ->; cbn in Nb; lia). specialize (PR (ph_lib h1) x bs NE). pose proof (proj1 (proj2 LO) x bs (ph_lib h1)) as WL.
    destruct (l_write L x bs (ph_lib h1)) as [k p']. cbn [fst] in *. injection F2 as F2 _. destruct (k >=? 0) eqn:KK; unfold u16 in F2; lia.
Qed.
End Contents.

(** *** Directories *)
Lemma owns_dir_handle f i : file_ok f -> recorded f = OwnsDir i -> f_handle f = HReal i /\ st_type (f_stat f) = 2.
Proof.
  unfold recorded, file_ok, handle_ok. destruct (f_handle f); try discriminate. intros (T & _). destruct (st_type (f_stat f) =? 1) eqn:E; [discriminate|]. intros [= ->]. split; [reflexivity|lia].
Qed.
Lemma strip_plain name : plain name -> strip name = name /\ list_eqb name [47] || list_eqb name [46] = false.
Proof.
  intros (A & B). split.
  - unfold strip. destruct name as [|a [|b t]]; try reflexivity.
    + destruct a as [|a|a]; try reflexivity. repeat (destruct a as [a|a|]; try reflexivity).
    + assert (N : b <> 47) by (intros ->; apply A; right; left; reflexivity).
      destruct a as [|a|a]; try reflexivity. repeat (destruct a as [a|a|]; try reflexivity).
      destruct b as [|b|b]; try reflexivity. repeat (destruct b as [b|b|]; try reflexivity). contradiction.
  - destruct name as [|a [|b t]]; try reflexivity.
    + cbn. assert (a <> 47) by (intros ->; apply A; left; reflexivity). assert (a <> 46) by (intros ->; apply B; reflexivity). lia.
    + cbn. rewrite !andb_false_r. reflexivity.
Qed.

Lemma skipn_skipn' {A} (a b : nat) (l : list A) : skipn b (skipn a l) = skipn (a + b) l.
Proof. revert l. induction a as [|a IH]; intros l; [reflexivity|]. destruct l as [|x l]; [rewrite !skipn_nil; reflexivity|]. apply IH. Qed.
Lemma firstn_plus {A} (a b : nat) (l : list A) : firstn (a + b) l = firstn a l ++ firstn b (skipn a l).
Proof. revert l. induction a as [|a IH]; intros l; [reflexivity|]. destruct l as [|x l]; [rewrite skipn_nil, !firstn_nil; reflexivity|]. cbn. rewrite IH. reflexivity. Qed.
Lemma name_bytes name : Forall is_byte name -> map u8 name = name.
Proof. induction 1 as [|c name C F IH]; [reflexivity|]. cbn. rewrite IH. f_equal. unfold u8, is_byte in *. lia. Qed.

Lemma set_nth_same : forall n l s s0, nth_error l n = Some s0 -> nth_error (set_nth n l s) n = Some s.
Proof. induction n as [|n IH]; intros [|y l] s s0 E; try discriminate E; [reflexivity|]. cbn in *. eapply IH; exact E. Qed.

Section Listing.
Variable P : Type.
Variable L : lib P.
Hypothesis LO : lib_ok L.
Variable st : list Z -> option (Z * Z).
Hypothesis ST : forall n p, l_stat L n p = (st n, p).
Hypothesis SIZE : forall n t z, st n = Some (t, z) -> -1 <= z < 2 ^ 63.
Let hs := physfs P L.
Let HOK : host_ok hs := C99_contract P L LO.
Definition entry (name : list Z) : list Z := line (name, status (st name)).
Definition fine (name : list Z) : Prop := plain name /\ Forall is_byte name.

Lemma stat_plain name h : plain name -> phys_stat P L name h = (status (st name), h).
Proof using ST SIZE.
  intros PL. destruct (strip_plain _ PL) as (E1 & E2). unfold phys_stat. rewrite E1, E2, ST. destruct h as [p d c]. unfold with_lib. cbn [ph_lib ph_dirs ph_crashed]. f_equal.
  destruct (st name) as [[t z]|] eqn:S; [|reflexivity]. specialize (SIZE _ _ _ S). unfold status, FT_REGULAR, FT_DIRECTORY, TYPE_REGULAR, TYPE_DIRECTORY, TYPE_INVALID.
  destruct t as [|t|t]; [|destruct t; reflexivity|reflexivity].
  change (0 =? 0) with true. cbv iota. f_equal. destruct (z <? 0) eqn:Z0.
  - rewrite <- (Z.mod_add z 1 (2 ^ 64)) by discriminate. rewrite Z.mul_1_l. apply Z.mod_small. lia.
  - apply Z.mod_small. lia.
Qed.
Lemma dirs_take i files new : Forall (fun c => exists r, c = CReadDir (HReal (Z.of_nat i)) r) new -> forall h h' cur, Forall fine cur ->
  happened hs new h h' -> nth_error (ph_dirs h) i = Some (mkSlot files (Some cur)) ->
  exists k, listing new = concat (map entry (firstn k cur)) /\ nth_error (ph_dirs h') i = Some (mkSlot files (Some (skipn k cur))) /\
  (forall x older, new = CReadDir x None :: older -> skipn k cur = []) /\ (forall x e older, new = CReadDir x (Some e) :: older -> In (fst e) cur).
Proof using ST SIZE.
  intros F. induction F as [|c new (r & ->) F IH]; intros h h' cur FN E N.
  - cbn in E. subst h'. exists 0%nat. split; [reflexivity|]. split; [exact N|]. split; discriminate.
  - destruct E as (h1 & E1 & E2). destruct (IH _ _ _ FN E1 N) as (k & K1 & K2 & _).
    assert (LI : forall c, listing (c :: new) = listing new ++ listing [c]) by (intros c; change (c :: new) with ([c] ++ new); apply listing_app).
    cbn [happens hs physfs h_readdir] in E2. unfold phys_readdir, slot_of in E2. replace (Z.of_nat i <? 0) with false in E2 by lia. rewrite Nat2Z.id, K2 in E2.
    destruct (skipn k cur) as [|name rest] eqn:SK.
    + injection E2 as <- <-. exists k. rewrite LI, K1. split; [cbn; apply app_nil_r|]. rewrite SK. split; [exact K2|]. split; [auto|discriminate].
    + assert (FS : fine name). { rewrite Forall_forall in FN. apply FN. rewrite <- (firstn_skipn k cur), SK. apply in_or_app. right. left. reflexivity. }
      rewrite (name_bytes name) in E2 by apply FS. rewrite (stat_plain name h1) in E2 by apply FS. injection E2 as <- <-.
      assert (LK : (length (firstn k cur) = k)%nat) by (apply firstn_length_le; destruct (Nat.le_gt_cases k (length cur)); [assumption|]; rewrite skipn_all2 in SK by lia; discriminate SK).
      exists (S k). split; [|split; [|split]].
      * rewrite LI, K1. assert (FK : firstn (S k) cur = firstn k cur ++ [name]).
        { replace (S k) with (k + 1)%nat by lia. rewrite firstn_plus, SK. reflexivity. }
        rewrite FK, map_app, concat_app. f_equal.
      * cbn [ph_dirs]. assert (SKK : skipn (S k) cur = rest) by (replace (S k) with (k + 1)%nat by lia; rewrite <- skipn_skipn', SK; reflexivity).
        rewrite SKK. eapply set_nth_same. exact K2.
      * discriminate.
      * intros x e older [= <- <- <-]. cbn. rewrite <- (firstn_skipn k cur), SK. apply in_or_app. right. left. reflexivity.
Qed.

Lemma dir_read v f h log base s i : file_ok f -> well_typed v -> 0 <= base <= 240 -> recorded f = OwnsDir i -> f_mode f = 0 ->
  file_deo _ hs (mkFs _ v f h log) base 13 = Ok s ->
  file_ok (fs_file _ s) /\ recorded (fs_file _ s) = OwnsDir i /\ f_mode (fs_file _ s) = 0 /\
  follows _ hs (fun c => exists r, c = CReadDir (HReal i) r) (mkFs _ v f h log) s.
Proof using LO.
  intros G V B O M E. destruct (owns_dir_handle _ _ G O) as (Hh & Ht).
  destruct (port_read_spec _ hs HOK (mkFs _ v f h log) base (conj V G) B) as (s2 & new & bs & E2 & ((_ & G2) & _) & _ & _ & K).
  change (port_read _ hs (mkFs _ v f h log) base) with (file_deo _ hs (mkFs _ v f h log) base 13) in E2. rewrite E in E2. injection E2 as <-.
  destruct K as (K1 & K2 & K3 & K4); [cbn; rewrite Hh; discriminate|exact M|]. cbn [fs_file] in K1. split; [exact G2|]. split; [congruence|]. split; [exact K3|].
  change (file_deo _ hs (mkFs _ v f h log) base 13) with (port_read _ hs (mkFs _ v f h log) base) in E. unfold port_read in E.
  destruct (set_mode_spec _ hs HOK (mkFs _ v f h log) base MODE_READ (conj V G) B) as (s1 & new0 & E1 & _ & _ & _ & _ & _ & S6 & _).
  rewrite S6 in E1; [|cbn; rewrite Hh; discriminate|exact M]. rewrite E1 in E. cbn [rbind fs_file fs_vm] in E. rewrite Hh, Ht in E. cbn [is_null] in E. change (2 =? TYPE_DIRECTORY) with true in E. cbv iota in E.
  destruct (read_dir_loop _ _ _ _ _ _ _ _ _ _ _) as [[[[[s2 ?] ?] ?] ?]|] eqn:RL; cbn [rbind] in E; [|discriminate E].
  eapply (read_dir_follows _ hs (fun c => exists r, c = CReadDir (HReal i) r)) in RL; [|eauto]. injection E as <-. eapply follows_to; [exact (proj1 RL)|reflexivity|reflexivity].
Qed.

(** A directory that is open for reading gives a line for each of its names in
    order, with the size that the library has for that name. *)
Theorem C99_listing : forall base f h log d f' h' log' i files cur, 0 <= base <= 240 -> reachable hs f h log ->
  reads hs base f h log d f' h' log' -> recorded f = OwnsDir (Z.of_nat i) -> f_mode f = 0 -> leftover f = [] ->
  nth_error (ph_dirs h) i = Some (mkSlot files (Some cur)) -> Forall fine cur ->
  exists k, d ++ leftover f' = concat (map entry (firstn k cur)) /\ nth_error (ph_dirs h') i = Some (mkSlot files (Some (skipn k cur))) /\
  file_ok f' /\ recorded f' = OwnsDir (Z.of_nat i) /\ f_mode f' = 0.
Proof using LO ST SIZE.
  intros base f h log d f' h' log' i files cur B R RD O M LE N FN. destruct (reachable_good _ hs HOK f h log R) as [G _]. clear R.
  assert (X : exists k, (exists new, log' = new ++ log /\ listing new = concat (map entry (firstn k cur))) /\ nth_error (ph_dirs h') i = Some (mkSlot files (Some (skipn k cur))) /\
    file_ok f' /\ recorded f' = OwnsDir (Z.of_nat i) /\ f_mode f' = 0).
  { clear LE. revert cur N FN G O M. induction RD as [f h log|f h log v s d f' h' log' Hv E RD IH]; intros cur N FN G O M.
    - exists 0%nat. split; [exists []; auto|]. auto.
    - destruct (dir_read _ _ _ _ _ _ _ G Hv B O M E) as (G1 & O1 & M1 & (n1 & F1 & F2 & F3)). cbn [fs_log fs_host] in F1, F2.
      destruct (dirs_take i files n1 F3 _ _ cur FN F2 N) as (k1 & K1 & K2 & _).
      assert (FN1 : Forall fine (skipn k1 cur)) by (rewrite <- (firstn_skipn k1 cur) in FN; apply Forall_app in FN; apply FN).
      destruct (IH (skipn k1 cur) K2 FN1 G1 O1 M1) as (k2 & (n2 & A1 & A2) & A3 & A4).
      exists (k1 + k2)%nat. split; [|split; [rewrite <- skipn_skipn'; exact A3|exact A4]].
      exists (n2 ++ n1). split; [rewrite A1, F1, app_assoc; reflexivity|]. rewrite listing_app, K1, A2, <- concat_app, <- map_app. do 2 f_equal. symmetry. apply firstn_plus. }
  destruct X as (k & (new & X1 & X2) & X3 & X4 & X5 & X6). exists k.
  destruct (reads_gen _ hs base HOK B f h log d f' h' log' RD G _ X5) as (new' & Y1 & Y2 & _). rewrite X1 in Y1. apply app_inv_tail in Y1. subst new'.
  rewrite Y2, LE, X2. auto.
Qed.

(** When a read comes back short, the program has the whole listing. *)
Theorem C99_whole_listing : forall base f h log d f' h' log' i files cur v s, 0 <= base <= 240 -> reachable hs f h log ->
  reads hs base f h log d f' h' log' -> recorded f = OwnsDir (Z.of_nat i) -> f_mode f = 0 -> leftover f = [] ->
  nth_error (ph_dirs h) i = Some (mkSlot files (Some cur)) -> Forall fine cur -> (forall n, In n cur -> Z.of_nat (length n) <= 256) ->
  well_typed v -> file_deo _ hs (mkFs _ v f' h' log') base 13 = Ok s ->
  reg2 v base 12 <> 0 -> f_success (fs_file _ s) < room (reg2 v base 12) (reg2 v base 10) ->
  d ++ slice (vm_mem (fs_vm _ s)) (reg2 v base 12) (f_success (fs_file _ s)) = concat (map entry cur).
Proof using LO ST SIZE.
  intros base f h log d f' h' log' i files cur v s B R RD O M LE N FN SH V E Z0 SR.
  destruct (C99_listing base f h log d f' h' log' i files cur B R RD O M LE N FN) as (k & K1 & K2 & G1 & O1 & M1).
  assert (FN1 : Forall fine (skipn k cur)) by (rewrite <- (firstn_skipn k cur) in FN; apply Forall_app in FN; apply FN).
  destruct (dir_read _ _ _ _ _ _ _ G1 V B O1 M1 E) as (_ & O2 & _ & (n1 & F1 & F2 & F3)). cbn [fs_log fs_host] in F1, F2.
  destruct (dirs_take i files n1 F3 _ _ _ FN1 F2 K2) as (k1 & A1 & _ & A3 & A4).
  destruct (port_read_spec _ hs HOK (mkFs _ v f' h' log') base (conj V G1) B) as (s2 & new & bs & E2 & (_ & P2 & _) & (S1 & S2 & S3 & S4) & _).
  change (port_read _ hs (mkFs _ v f' h' log') base) with (file_deo _ hs (mkFs _ v f' h' log') base 13) in E2. rewrite E in E2. injection E2 as <-.
  cbn [fs_log fs_vm fs_file] in *. rewrite F1 in P2. apply app_inv_tail in P2. subst new.
  destruct (clamp_room v base 12 V B) as (_ & _ & _ & _ & C5 & _). specialize (C5 Z0). rewrite C5 in *.
  assert (SL : slice (vm_mem (fs_vm _ s)) (reg2 v base 12) (f_success (fs_file _ s)) = bs).
  { rewrite S1. transitivity (slice (put (vm_mem v) (reg2 v base 12) bs) (reg2 v base 12) (Z.of_nat (length bs))); [|apply slice_put]. apply slice_ext. intros j _. apply S3. }
  rewrite SL. destruct S4 as [(Q & _)|[(y & Q & _)|(y & Q1 & _ & _ & Q4 & Q5)]]; [congruence|congruence|].
  destruct Q5 as [Q5|(r & older & Q5 & Q6 & Q7)]; [lia|]. rewrite Q6, app_nil_r in Q4. change (pending (f_pos f') (f_len f') (f_buf f')) with (leftover f') in Q4.
  destruct r as [e|].
  - exfalso. unfold fits in Q7. assert (IN : In (fst e) cur) by (rewrite <- (firstn_skipn k cur); apply in_or_app; right; eapply A4; exact Q5). specialize (SH _ IN). lia.
  - rewrite Q4, app_assoc, K1, A1, <- concat_app, <- map_app. do 2 f_equal. rewrite <- (firstn_skipn k cur) at 3. f_equal. specialize (A3 _ _ Q5). rewrite <- (firstn_skipn k1 (skipn k cur)) at 2. rewrite A3, app_nil_r. reflexivity.
Qed.
End Listing.

(** ./name is name. *)
Theorem C99_dot_slash : forall P (L : lib P) p h, (forall q, p <> 46 :: 47 :: q) -> let q := 46 :: 47 :: p in
  (forall m, h_fopen (physfs P L) q m h = h_fopen (physfs P L) p m h) /\ h_opendir (physfs P L) q h = h_opendir (physfs P L) p h /\
  h_delete (physfs P L) q h = h_delete (physfs P L) p h /\ h_stat (physfs P L) q h = h_stat (physfs P L) p h.
Proof.
  intros P L p h N q. assert (S : strip q = strip p).
  { cbn. unfold strip. destruct p as [|a [|b t]]; try reflexivity.
    - destruct a as [|a|a]; try reflexivity. repeat (destruct a as [a|a|]; try reflexivity).
    - destruct a as [|a|a]; try reflexivity. repeat (destruct a as [a|a|]; try reflexivity).
      destruct b as [|b|b]; try reflexivity. repeat (destruct b as [b|b|]; try reflexivity). exfalso. exact (N t eq_refl). }
  cbn [physfs h_fopen h_opendir h_delete h_stat]. unfold phys_fopen, phys_opendir, phys_delete, phys_stat. rewrite S. auto.
Qed.

(** *** A disk with a file f of five bytes and a directory d with a file a of
    three.  The state is what is left to read from handle 7. *)
Definition disk_stat (n : list Z) : option (Z * Z) :=
  if list_eqb n [102] then Some (0, 5) else if list_eqb n [100] then Some (1, 0) else if list_eqb n [100; 47; 97] then Some (0, 3) else None.
Definition disk (broken : bool) : lib (list Z) :=
  mkLib _ (fun n p => if list_eqb n [102] then (Some 7, [1; 2; 3; 4; 5]) else (None, p)) (fun _ p => (None, p)) (fun _ p => (None, p)) (fun _ p => p)
    (fun _ p => match p with [] => true | _ => false end) (fun _ n p => (Some (map u8 (firstn (Z.to_nat n) p)), skipn (Z.to_nat n) p)) (fun _ _ p => (-1, p))
    (fun n p => (if broken then None else if list_eqb n [47] then Some [[102]; [100]] else if list_eqb n [100] then Some [[97]] else Some [], p)) (fun _ p => (false, p)) (fun n p => (disk_stat n, p)).
Ltac all_bytes := repeat (apply Forall_cons; [first [assumption | unfold is_byte; lia]|]); apply Forall_nil.
Lemma disk_ok b : lib_ok (disk b).
Proof.
  split; [|split].
  - intros x n p N. cbn. rewrite map_length, firstn_length. split; [lia|]. apply Forall_forall. intros c C. apply in_map_iff in C. destruct C as (y & <- & _). unfold is_byte, u8. lia.
  - intros x l p. cbn. lia.
  - intros n p. destruct b; [exact Logic.I|]. cbn. destruct (list_eqb n [47]); [|destruct (list_eqb n [100])]; repeat (apply Forall_cons; [all_bytes|]); apply Forall_nil.
Qed.
(** The program asks for [n] bytes of what is called [name], at address 0x0300. *)
Definition asks (name : list Z) (n : Z) : vm := file_vm [0;0;0;0;0;0;0;0; 2;0; 0;n; 3;0; 0;0] (name ++ [0]).
Lemma asks_ok name n : Forall is_byte name -> is_byte n -> well_typed (asks name n).
Proof. intros A B. apply file_vm_wt; [all_bytes|apply Forall_app; split; [exact A|all_bytes]]. Qed.

Example C99_case_read :
  exists s', file_deo _ (physfs _ (disk false)) (mkFs _ (asks [46; 47; 102] 3) initial_file (mkPhys [] no_dirs false) []) 160 13 = Ok s' /\
  f_success (fs_file _ s') = 3 /\ slice (vm_mem (fs_vm _ s')) 768 3 = [1; 2; 3] /\ ph_lib (fs_host _ s') = [4; 5].
Proof.
  destruct (C99_first_read _ (disk false) (disk_ok false) (fun p x l => p = l /\ Forall is_byte l) (asks [46; 47; 102] 3) initial_file (mkPhys [] no_dirs false) [] 160 [46; 47; 102] 7 [1; 2; 3; 4; 5] 5 [] [1; 2; 3; 4; 5])
    as (s' & A & B & C & D & _); try reflexivity; try discriminate.
  - intros p x l n (-> & F) N. split; [destruct l; [reflexivity|discriminate]|]. intros E. exists (firstn (Z.to_nat n) l), (skipn (Z.to_nat n) l), (skipn (Z.to_nat n) l). split; [symmetry; apply firstn_skipn|].
    assert (F1 : Forall is_byte (firstn (Z.to_nat n) l) /\ Forall is_byte (skipn (Z.to_nat n) l)) by (rewrite <- (firstn_skipn (Z.to_nat n) l) in F; apply Forall_app in F; exact F).
    split; [rewrite firstn_length; lia|]. split; [destruct l; [reflexivity|]; destruct (Z.to_nat n) eqn:K; [lia|discriminate]|]. split; [cbn; rewrite (name_bytes _ (proj1 F1)); reflexivity|]. split; [reflexivity|apply F1].
  - apply reach_init.
  - apply asks_ok; [all_bytes|unfold is_byte; lia].
  - lia.
  - split; [cbn; lia|]. split; [|reflexivity]. intros k K. assert (E : k = 0 \/ k = 1 \/ k = 2) by (cbn in K; lia). destruct E as [-> | [-> | ->]]; split; vm_compute; congruence.
  - split; [reflexivity|]. all_bytes.
  - exists s'. split; [exact A|]. cbn in B, C, D. split; [exact B|]. split; [exact C|]. apply D.
Qed.

(** The listing of the root: "0005 f" and "---- d". *)
Definition listed (b : bool) (name : list Z) : res (list Z * bool) :=
  rbind (file_deo _ (physfs _ (disk b)) (mkFs _ (asks name 32) initial_file (mkPhys [] no_dirs false) []) 160 13) (fun s =>
  Ok (slice (vm_mem (fs_vm _ s)) 768 (f_success (fs_file _ s)), ph_crashed (fs_host _ s))).
Example C99_case_list : listed false [46] = Ok ([48;48;48;53;32;102;10; 45;45;45;45;32;100;10], false) /\ listed false [46] = Ok (concat (map (entry disk_stat) [[102]; [100]]), false).
Proof. vm_compute. auto. Qed.
(** A read of no bytes opens the directory, as the hypotheses of C99_listing want it. *)
Example C99_case_open : rbind (file_deo _ (physfs _ (disk false)) (mkFs _ (asks [46] 0) initial_file (mkPhys [] no_dirs false) []) 160 13) (fun s =>
  Ok (recorded (fs_file _ s), f_mode (fs_file _ s), leftover (fs_file _ s), nth_error (ph_dirs (fs_host _ s)) 0)) = Ok (OwnsDir 0, 0, [], Some (mkSlot (Some [[102]; [100]]) (Some [[102]; [100]]))).
Proof. vm_compute. reflexivity. Qed.
Lemma list_asks : forall b name, Forall is_byte name -> match file_deo _ (physfs _ (disk b)) (mkFs _ (asks name 32) initial_file (mkPhys [] no_dirs false) []) 160 13 with
  Ok s => running (disk b) (fs_file _ s) (fs_log _ s) initial_file [] (fs_host _ s) | _ => True end.
Proof.
  intros b name F. destruct (file_deo _ _ _ _ _) as [s|] eqn:E; [|exact Logic.I]. eapply run_first; [apply run_init| | |exact E]; [|lia].
  apply asks_ok; [exact F|unfold is_byte; lia].
Qed.

(** When PHYSFS_enumerateFiles fails, the next read goes through NULL. *)
Theorem C99_failed_enumeration_is_handled_refuted :
  ~ (forall P (L : lib P) f0 l0 f1 l1 h, lib_ok L -> running L f0 l0 f1 l1 h -> ph_crashed h = false).
Proof.
  intros C. pose proof (list_asks true [100] ltac:(all_bytes)) as R.
  destruct (file_deo _ (physfs _ (disk true)) _ _ _) as [s|] eqn:E; [|vm_compute in E; discriminate E].
  specialize (C _ _ _ _ _ _ _ (disk_ok true) R).
  assert (X : listed true [100] = Ok ([], true)) by (vm_compute; reflexivity). unfold listed in X. rewrite E in X. cbn [rbind] in X. injection X as _ X. congruence.
Qed.

(** In a directory other than the root, the sizes are not those of the files. *)
Theorem C99_subdirectory_sizes_refuted :
  ~ (forall P (L : lib P) st p v names s, lib_ok L -> lists_files L -> (forall n q, l_stat L n q = (st n, q)) -> well_typed v -> forall dir, name_at v 160 dir ->
     fst (l_enumerate L dir p) = Some names -> file_deo _ (physfs P L) (mkFs _ v initial_file (mkPhys p no_dirs false) []) 160 13 = Ok s -> recorded (fs_file _ s) = OwnsDir 0 ->
     exists rest, concat (map (fun n => line (n, status (st (dir ++ [47] ++ n)))) names) = slice (vm_mem (fs_vm _ s)) (reg2 v 160 12) (f_success (fs_file _ s)) ++ rest).
Proof.
  intros C. destruct (file_deo _ (physfs _ (disk false)) (mkFs _ (asks [100] 32) initial_file (mkPhys [] no_dirs false) []) 160 13) as [s|] eqn:E; [|vm_compute in E; discriminate E].
  destruct (C _ (disk false) disk_stat [] (asks [100] 32) [[97]] s (disk_ok false)) with (dir := [100]) as (rest & X); auto.
  - intros n q. cbn. destruct (list_eqb n [47]); [discriminate|]. destruct (list_eqb n [100]); discriminate.
  - apply asks_ok; [all_bytes|unfold is_byte; lia].
  - split; [cbn; lia|]. split; [|reflexivity]. intros k K. assert (k = 0) by (cbn in K; lia). subst k. split; vm_compute; congruence.
  - assert (Y : match file_deo _ (physfs _ (disk false)) (mkFs _ (asks [100] 32) initial_file (mkPhys [] no_dirs false) []) 160 13 with Ok s => recorded (fs_file _ s) | Fault _ => Nobody end = OwnsDir 0) by (vm_compute; reflexivity).
    rewrite E in Y. exact Y.
  - assert (Y : listed false [100] = Ok ([33;33;33;33;32;97;10], false)) by (vm_compute; reflexivity). unfold listed in Y. rewrite E in Y. cbn [rbind] in Y. injection Y as Y _.
    change (reg2 (asks [100] 32) 160 12) with 768 in X. rewrite Y in X. vm_compute in X. discriminate X.
Qed.

Print Assumptions C99_log_is_what_happened.
Print Assumptions C99_contract.
Print Assumptions C99_directories.
Print Assumptions C99_runs.
Print Assumptions C99_reads_the_contents.
Print Assumptions C99_first_read.
Print Assumptions C99_writes_the_bytes.
Print Assumptions C99_listing.
Print Assumptions C99_whole_listing.
Print Assumptions C99_dot_slash.
Print Assumptions C99_failed_enumeration_is_handled_refuted.
Print Assumptions C99_subdirectory_sizes_refuted.
