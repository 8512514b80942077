From Verif Require Import Base VmModel VmWorld InputModel InputSpec.
From Coq Require Import ZifyBool.
Ltac Zify.zify_post_hook ::= Z.div_mod_to_equations.

(** Attach a constant device state to an outcome. *)
Definition attach {D R} (d : D) (o : outcome R) : outcome (D * R) :=
  match o with Done _ v r => Done _ v (d, r) | Crash _ f => Crash _ f | OutOfFuel _ => OutOfFuel _ end.

(** Bitwise dispatch is the page number. *)
Lemma page_table : forallb (fun n => let a := Z.of_nat n in device_id a =? page a) (seq 0 256) = true.
Proof. vm_compute. reflexivity. Qed.
Lemma device_id_page a : is_byte a -> device_id a = page a.
Proof.
  intros H. unfold is_byte in H. pose proof page_table as T. rewrite forallb_forall in T.
  specialize (T (Z.to_nat a)). cbv zeta in T. rewrite Z2Nat.id in T by lia.
  apply Z.eqb_eq, T, in_seq. lia.
Qed.

Lemma vector_eq v pg : 0 <= pg < 255 -> dev_load2 v pg = vector v pg.
Proof.
  intros H. unfold dev_load2, vector, load2, u8. rewrite Z.add_0_r.
  rewrite !(Z.mod_small pg), !(Z.mod_small (pg + 1)) by lia. auto.
Qed.

Section Frozen.
Variables D R : Type.
Variable odei : Z -> vm -> R -> res (Z * vm * R).
Variable odeo : Z -> vm -> R -> res (vm * R).
Variable hi_first : bool.
Variables (kw kr : Z) (fuel : nat).
Variable pg : Z.
Variable dev_dei : vm -> D -> Z -> Z.
Variable d : D.
Variable port : Z -> option Z.
Variable out : Z -> vm -> R -> res (vm * R).
Variable deo : Z -> vm -> D * R -> res (vm * (D * R)).
Hypothesis Hport : forall v a, is_byte a -> page a = pg ->
  dev_dei v d a = match port a with Some b => b | None => vm_dev v a end.
Hypothesis Hdeo : forall a v r, is_byte a -> deo a v (d, r) = beside_out R d (const_deo R odeo pg out a v r).

(** A run with the device in state [d] is a run with constant ports. *)
Lemma frozen_execute pc v r :
  execute (D * R) (dispatch_dei R odei pg dev_dei) deo hi_first None kw kr fuel pc v (d, r) =
  attach d (execute R (const_dei R odei pg port) (const_deo R odeo pg out) hi_first None kw kr fuel pc v r).
Proof using Hport Hdeo.
  assert (HH : hosts_related (D * R) R (fun w r => w = (d, r))
    (dispatch_dei R odei pg dev_dei) deo (const_dei R odei pg port) (const_deo R odeo pg out)).
  { split; intros a u w r' Ha ->.
    - unfold dispatch_dei, const_dei. cbn [fst snd]. rewrite device_id_page by auto.
      destruct (page a =? pg) eqn:E.
      + rewrite Hport by (auto; lia). cbn. auto.
      + destruct (odei a u r') as [[[b v'] w']|]; cbn; auto.
    - rewrite Hdeo by auto. destruct (const_deo R odeo pg out a u r') as [[v' w']|]; cbn; auto. }
  pose proof (execute_related _ _ _ _ _ _ _ hi_first HH fuel kw kr pc v (d, r) r eq_refl) as E.
  unfold rel_outcome in E.
  destruct (execute (D * R) _ _ _ _ _ _ _ _ _ _), (execute R _ _ _ _ _ _ _ _ _ _); cbn;
    try contradiction; auto; try congruence.
  destruct E as [-> ->]. auto.
Qed.
End Frozen.

Lemma arg_events_cons a rest :
  arg_events (a :: rest) =
  (map (fun c => (2, c mod 256)) a ++ [(if Z.of_nat (length (a :: rest)) =? 1 then 4 else 3, 10)]) ++ arg_events rest.
Proof.
  cbn [arg_events]. rewrite <- app_assoc. f_equal. destruct rest; cbn [length app arg_events]; auto.
  replace (_ =? 1) with false by lia. auto.
Qed.

(** ** Console *)
Section Console.
Variable R : Type.
Variable odei : Z -> vm -> R -> res (Z * vm * R).
Variable odeo : Z -> vm -> R -> res (vm * R).
Variables handle_write handle_error : Z -> vm -> R -> res (vm * R).
Variable hi_first : bool.
Variables (kw kr : Z) (fuel : nat).
Notation out := (console_deo R handle_write handle_error).
Notation send_data := (send_data R odei odeo handle_write handle_error hi_first kw kr fuel).
Notation send_chars := (send_chars R odei odeo handle_write handle_error hi_first kw kr fuel).
Notation send_args := (send_args R odei odeo handle_write handle_error hi_first kw kr fuel).
Notation react := (react R odei odeo hi_first kw kr fuel 16).
Notation deliver := (deliver R odei odeo hi_first kw kr fuel 16 console_port out).

Lemma send_data_eq t b v argv t0 b0 r :
  send_data t b v (mkConsole argv t0 b0, r) =
  attach (mkConsole argv (u8 t) (u8 b)) (react (console_port (u8 t, u8 b)) out v r).
Proof using All.
  unfold InputModel.send_data, InputSpec.react. cbn [fst snd c_argv]. rewrite vector_eq by lia.
  apply frozen_execute.
  - intros u a Ha Hp. unfold console_dei, console_port. cbn [fst snd c_type c_value].
    destruct (a =? 18); auto. destruct (a =? 23); auto.
  - intros a u x Ha. unfold with_console_deo, const_deo. cbn [fst snd].
    rewrite device_id_page by auto. destruct (page a =? 16); auto.
Qed.

Lemma deliver_app es es' v r :
  deliver (es ++ es') v r = match deliver es v r with Done _ v' r' => deliver es' v' r' | o => o end.
Proof using All.
  revert v r. induction es as [|e es IH]; intros; cbn [app InputSpec.deliver]; auto.
  destruct (react (console_port e) out v r); auto.
Qed.

Lemma send_chars_eq arg : forall v argv t0 b0 r, Forall (fun c => c <> 0) arg -> 
  let t := if Z.of_nat (length argv) =? 1 then 4 else 3 in
  send_chars arg v (mkConsole argv t0 b0, r) =
  attach (mkConsole argv t 10) (deliver (map (fun c => (2, c mod 256)) arg ++ [(t, 10)]) v r).
Proof using All.
  induction arg as [|c arg IH]; intros v argv t0 b0 r HF t; cbn [map app]; cbn [InputModel.send_chars].
  - cbn [fst c_argv]. unfold t. cbn [InputSpec.deliver].
    destruct (_ =? 1); rewrite send_data_eq.
    + change (u8 4) with 4. change (u8 10) with 10. destruct (react _ out v r); reflexivity.
    + change (u8 3) with 3. change (u8 10) with 10. destruct (react _ out v r); reflexivity.
  - inversion HF; subst. replace (c =? 0) with false by lia. cbn [negb].
    rewrite send_data_eq. cbn [InputSpec.deliver]. change (u8 2) with 2. change (u8 c) with (c mod 256).
    destruct (react _ out v r); cbn [attach]; auto.
    rewrite IH by auto. reflexivity.
Qed.


Lemma send_args_eq argv : forall n v t0 b0 r, Forall (Forall (fun c => c <> 0)) argv -> (length argv <= n)%nat ->
  send_args n v (mkConsole argv t0 b0, r) =
  match argv with
  | [] => Done _ v (mkConsole [] t0 b0, r)
  | _ => attach (mkConsole [] 4 10) (deliver (arg_events argv) v r)
  end.
Proof using All.
  induction argv as [|a rest IH]; intros n v t0 b0 r HF Hn.
  - destruct n; reflexivity.
  - destruct n as [|n]; [cbn in Hn; lia|]. inversion HF; subst.
    rewrite arg_events_cons, deliver_app.
    cbn [InputModel.send_args fst c_argv]. rewrite send_chars_eq by auto. cbv zeta.
    set (t := if Z.of_nat (length (a :: rest)) =? 1 then 4 else 3).
    destruct (deliver (map _ a ++ _) v r) as [v' r'| |]; cbn [attach]; auto.
    cbn [fst snd c_argv tl c_type c_value]. rewrite IH by (auto; cbn in Hn; lia).
    destruct rest as [|a2 rest]; auto.
Qed.
End Console.

(** ** Bits *)
Definition bits8 (b0 b1 b2 b3 b4 b5 b6 b7 : bool) : Z :=
  let g (b : bool) x := if b then x else 0 in
  g b0 1 + (g b1 2 + (g b2 4 + (g b3 8 + (g b4 16 + (g b5 32 + (g b6 64 + (g b7 128 + 0))))))).
Lemma byte_of_bits_eq f : byte_of_bits f = bits8 (f 0) (f 1) (f 2) (f 3) (f 4) (f 5) (f 6) (f 7).
Proof. reflexivity. Qed.
Lemma set_bits f btn down : 0 <= btn < 8 ->
  u8 (if down : bool then Z.lor (byte_of_bits f) (u8 (Z.shiftl 1 btn))
      else Z.land (byte_of_bits f) (Z.lnot (u8 (Z.shiftl 1 btn))))
  = byte_of_bits (fun b => if btn =? b then down else f b).
Proof.
  intros H. rewrite !byte_of_bits_eq.
  generalize (f 0) (f 1) (f 2) (f 3) (f 4) (f 5) (f 6) (f 7). intros b0 b1 b2 b3 b4 b5 b6 b7.
  assert (btn = 0 \/ btn = 1 \/ btn = 2 \/ btn = 3 \/ btn = 4 \/ btn = 5 \/ btn = 6 \/ btn = 7) as C by lia.
  repeat (destruct C as [->|C]); [..|subst btn];
  destruct b0, b1, b2, b3, b4, b5, b6, b7, down; vm_compute; reflexivity.
Qed.
Lemma test_bits f btn : 0 <= btn < 8 -> (Z.land (byte_of_bits f) (u8 (Z.shiftl 1 btn)) >? 0) = f btn.
Proof.
  intros H. rewrite !byte_of_bits_eq.
  assert (btn = 0 \/ btn = 1 \/ btn = 2 \/ btn = 3 \/ btn = 4 \/ btn = 5 \/ btn = 6 \/ btn = 7) as C by lia.
  repeat (destruct C as [->|C]); [..|subst btn];
  destruct (f 0), (f 1), (f 2), (f 3), (f 4), (f 5), (f 6), (f 7); vm_compute; reflexivity.
Qed.
Lemma bits_byte f : is_byte (byte_of_bits f).
Proof.
  rewrite byte_of_bits_eq. unfold is_byte.
  destruct (f 0), (f 1), (f 2), (f 3), (f 4), (f 5), (f 6), (f 7); vm_compute; split; congruence.
Qed.
Lemma byte_of_bits_ext f g : (forall b, 0 <= b < 8 -> f b = g b) -> byte_of_bits f = byte_of_bits g.
Proof. intros H. rewrite !byte_of_bits_eq, !H by lia. reflexivity. Qed.

Lemma mouse_shift b : 0 <= b < 8 -> int32 (Z.shiftl 1 b) = Ok (Z.shiftl 1 b).
Proof.
  intros H. assert (b = 0 \/ b = 1 \/ b = 2 \/ b = 3 \/ b = 4 \/ b = 5 \/ b = 6 \/ b = 7) as C by lia.
  repeat (destruct C as [->|C]); [..|subst b]; reflexivity.
Qed.

Section Pads.
Variable R : Type.
Variable odei : Z -> vm -> R -> res (Z * vm * R).
Variable odeo : Z -> vm -> R -> res (vm * R).
Variable hi_first : bool.
Variables (kw kr : Z) (fuel : nat).
Definition no_out (a : Z) (v : vm) (r : R) : res (vm * R) := Ok (v, r).

Lemma execute_zero W dei deo hook v w : execute W dei deo hi_first hook kw kr fuel 0 v w = Done W v w.
Proof using All. reflexivity. Qed.

Lemma send_event_eq D pg (dev_dei : vm -> D -> Z -> Z) port d v r : 0 <= pg < 255 ->
  (forall v a, is_byte a -> page a = pg -> dev_dei v d a = match port a with Some b => b | None => vm_dev v a end) ->
  send_event R odei odeo hi_first kw kr fuel pg dev_dei v (d, r) =
  attach d (react R odei odeo hi_first kw kr fuel pg port no_out v r).
Proof using All.
  intros Hpg Hport. unfold send_event, react. rewrite vector_eq by auto.
  destruct (vector v pg =? 0) eqn:E; cbn [negb].
  - apply Z.eqb_eq in E. rewrite E. reflexivity.
  - apply frozen_execute; auto.
    intros a u x Ha. unfold with_inert_deo, const_deo. cbn [fst snd].
    rewrite device_id_page by auto. destruct (page a =? pg); auto.
Qed.

(** The controller after history [h]. *)
Definition pad_inv (h : list pad_event) (k : controller) : Prop :=
  (forall i, 0 <= i < 4 -> k_buttons k i = pad_byte h i) /\ k_ch k = 0.

Lemma pad_ports h k : (forall i, 0 <= i < 4 -> k_buttons k i = pad_byte h i) ->
  k_ch k = match h with Char c :: _ => c mod 256 | _ => 0 end ->
  forall (v : vm) a, controller_dei v k a = match pad_port h a with Some b => b | None => vm_dev v a end.
Proof using All.
  intros H C v a. unfold controller_dei, pad_port. rewrite C, !H by lia.
  repeat match goal with |- context [if ?b then _ else _] => destruct b end; auto.
Qed.

Definition pad_valid (e : pad_event) : Prop :=
  match e with Button i b _ => 0 <= i < 4 /\ 0 <= b < 8 | Char _ => True end.

Definition send_pad (e : pad_event) : vm -> controller * R -> outcome (controller * R) :=
  match e with
  | Button i b d => send_button R odei odeo hi_first kw kr fuel i b d
  | Char c => send_char R odei odeo hi_first kw kr fuel c
  end.

Lemma send_pad_eq e h k v r : pad_valid e -> pad_inv h k ->
  exists k', pad_inv (e :: h) k' /\
  send_pad e v (k, r) = attach k' (react R odei odeo hi_first kw kr fuel 128 (pad_port (e :: h)) no_out v r).
Proof using All.
  intros He [H1 H2]. destruct e as [i b d|c]; cbn [send_pad].
  - destruct He as [Hi Hb]. unfold send_button, controller_set_button, aget, aset. cbn [fst snd].
    replace (in_bounds 4 i) with true by (unfold in_bounds; lia). cbn [rbind].
    set (k' := mkController _ _).
    assert (P : forall j, 0 <= j < 4 -> k_buttons k' j = pad_byte (Button i b d :: h) j).
    { intros j Hj. cbn [k' k_buttons]. unfold upd, pad_byte. cbn [is_down]. destruct (j =? i) eqn:E.
      - assert (j = i) by lia. subst j. rewrite H1 by auto. unfold pad_byte. rewrite set_bits by auto.
        rewrite Z.eqb_refl. reflexivity.
      - replace (i =? j) with false by lia. cbn [andb]. rewrite H1 by auto. reflexivity. }
    exists k'. split; [split; auto|].
    apply send_event_eq; [lia|]. intros. apply pad_ports; auto.
  - unfold send_char. cbn [fst snd].
    rewrite (send_event_eq _ 128 controller_dei (pad_port (Char c :: h))); [|lia|].
    + exists (mkController (k_buttons k) 0). split; [split; auto|].
      destruct (react _ _ _ _ _ _ _ _ _ _ _ _); reflexivity.
    + intros. apply pad_ports; auto.
Qed.

(** Deliver a list of events one after the other. *)
Fixpoint send_pads (es : list pad_event) (v : vm) (w : controller * R) : outcome (controller * R) :=
  match es with
  | [] => Done _ v w
  | e :: rest => match send_pad e v w with Done _ v' w' => send_pads rest v' w' | o => o end
  end.

Lemma send_pads_eq es : forall h k v r, Forall pad_valid es -> pad_inv h k ->
  exists k', pad_inv (rev es ++ h) k' /\
  send_pads es v (k, r) =
  match deliver R odei odeo hi_first kw kr fuel 128 pad_port no_out (histories h es) v r with
  | Done _ v' r' => Done _ v' (k', r') | Crash _ f => Crash _ f | OutOfFuel _ => OutOfFuel _ end.
Proof using All.
  induction es as [|e es IH]; intros h k v r HF HI.
  - exists k. split; auto.
  - inversion HF; subst. destruct (send_pad_eq e h k v r) as (k1 & I1 & E1); auto.
    cbn [send_pads histories deliver]. rewrite E1.
    destruct (react R odei odeo hi_first kw kr fuel 128 (pad_port (e :: h)) no_out v r) as [v1 r1|f|] eqn:E; cbn [attach].
    + destruct (IH (e :: h) k1 v1 r1) as (k2 & I2 & E2); auto.
      exists k2. split; [|exact E2]. cbn [rev]. rewrite <- app_assoc. exact I2.
    + destruct (IH (e :: h) k1 v r) as (k2 & I2 & _); auto.
      exists k2. split; [|reflexivity]. cbn [rev]. rewrite <- app_assoc. exact I2.
    + destruct (IH (e :: h) k1 v r) as (k2 & I2 & _); auto.
      exists k2. split; [|reflexivity]. cbn [rev]. rewrite <- app_assoc. exact I2.
Qed.

(** Mouse *)
Fixpoint send_mice (es : list (Z * bool)) (v : vm) (w : mouse * R) : outcome (mouse * R) :=
  match es with
  | [] => Done _ v w
  | (b, d) :: rest =>
      match send_mouse_button R odei odeo hi_first kw kr fuel b d v w with
      | Done _ v' w' => send_mice rest v' w' | o => o end
  end.

Lemma mouse_ports x y sx sy h (v : vm) a :
  mouse_dei v (mkMouse x y (byte_of_bits (mouse_down h)) sx sy) a =
  match mouse_port x y sx sy h a with Some b => b | None => vm_dev v a end.
Proof using All.
  unfold mouse_dei, mouse_port. cbn [m_x m_y m_state m_sx m_sy].
  rewrite !Z.shiftr_div_pow2 by lia. unfold u8. change (2 ^ 8) with 256.
  pose proof (bits_byte (mouse_down h)) as B. unfold is_byte in B. rewrite (Z.mod_small (byte_of_bits _)) by lia.
  repeat match goal with |- context [if ?b then _ else _] => destruct b end; auto.
Qed.


Lemma send_mice_eq x y sx sy es : forall h v r, Forall (fun e => 0 <= fst e < 8) es ->
  send_mice es v (mkMouse x y (byte_of_bits (mouse_down h)) sx sy, r) =
  attach (mkMouse x y (byte_of_bits (mouse_down (rev es ++ h))) sx sy)
    (deliver R odei odeo hi_first kw kr fuel 144 (mouse_port x y sx sy) no_out (histories h es) v r).
Proof using All.
  induction es as [|[b d] es IH]; intros h v r HF; [reflexivity|].
  inversion HF as [|? ? Hb HF']; subst. cbn [fst] in Hb.
  cbn [send_mice histories deliver]. unfold send_mouse_button, mouse_set_button.
  cbn [fst snd m_x m_y m_state m_sx m_sy]. rewrite mouse_shift by auto. cbn [rbind].
  rewrite set_bits by auto.
  change (byte_of_bits (fun b0 => if b =? b0 then d else mouse_down h b0)) with (byte_of_bits (mouse_down ((b, d) :: h))).
  rewrite (send_event_eq _ 144 mouse_dei (mouse_port x y sx sy ((b, d) :: h))) by (first [lia|intros; apply mouse_ports]).
  destruct (react R odei odeo hi_first kw kr fuel 144 (mouse_port x y sx sy ((b, d) :: h)) no_out v r); cbn [attach]; auto.
  rewrite IH by auto. cbn [rev]. rewrite <- app_assoc. reflexivity.
Qed.
End Pads.
