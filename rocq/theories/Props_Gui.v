(** Properties C82 and C83 of the graphical emulator: the console and the input events. *)
From Verif Require Import Base VmModel VmSpec VmProofs VmWorld SystemModel InputModel FileModel FileSpec MetaModel AudioModel ScreenModel ScreenSpec ScreenProofs
  CliModel CliSpec CliProofs InputSpec InputProofs GuiModel GuiSpec GuiProofs.
From Coq Require Import ZifyBool.
Open Scope list_scope.
Ltac Zify.zify_post_hook ::= Z.div_mod_to_equations.

(** ** C82
    The emulator runs vectors one after the other; between two runs the host may
    do anything that writes no console output.  The runs are recorded: every
    write of a program to a port, with the machine at that moment. *)
Section Console.
Variable H : Type.
Variable hs : host H.
Variable now : nat -> option tm.
Variable voices : nat -> Z -> voice.
Variable junk : arr.
Inductive session : gui H -> list (Z * vm) -> Prop :=
| session_start g : b_pos (g_out g) = 0 -> b_pos (g_err g) = 0 -> g_log g = [] -> session g []
| session_host g record g' : session g record -> g_out g' = g_out g -> g_err g' = g_err g -> g_log g' = g_log g -> session g' record
| session_run g record hi_first kw kr fuel pc v v' g' record' : session g record ->
    execute _ (recorded_in _ (gui_dei H now voices)) (recorded_out _ (gui_deo H hs junk)) hi_first None kw kr fuel pc v (g, record) = Done _ v' (g', record') ->
    session g' record'.

Lemma session_text g record : session g record -> text_ok H (g, record).
Proof.
  induction 1 as [g A B C|g record g' S (IHo & IHe) A B C|g record hf kw kr fuel pc v v' g' record' S IH E].
  - assert (P : printed [] [] []) by (exists []; cbn; repeat split; auto; lia).
    unfold text_ok. rewrite C. split; exists []; (split; [|exact P]); (split; [assumption|cbn; split; [lia|intros; lia]]).
  - unfold text_ok in *. rewrite A, B, C. auto.
  - revert E. apply (execute_keeps _ _ _ (text_ok H)); [| |exact IH].
    + intros a u [g0 r0] b u' [g1 r1] Ha HI X. unfold recorded_in in X. cbn [fst snd] in X.
      destruct (gui_dei H now voices a u g0) as [((b0, u0), g2)|] eqn:D; [|discriminate]. injection X as -> -> -> ->.
      destruct (dei_same H now voices _ _ _ _ _ _ D) as ((S1 & S2 & S3) & _). unfold text_ok in *. rewrite S1, S2, S3. exact HI.
    + intros a u [g0 r0] u' [g1 r1] Ha HI X. unfold recorded_out in X. cbn [fst snd] in X.
      destruct (gui_deo H hs junk a u g0) as [(u0, g2)|] eqn:D; [|discriminate]. injection X as -> -> <-. eapply text_step; eauto.
Qed.
End Console.

(** What is logged for a stream is what the programs wrote to its port, cut after
    every newline and after 255 bytes. *)
Theorem C82_console :
  forall H hs now voices junk g record, session H hs now voices junk g record ->
  (exists rest, printed (written 24 record) (lines_of false (g_log g)) rest) /\
  (exists rest, printed (written 25 record) (lines_of true (g_log g)) rest).
Proof.
  intros H hs now voices junk g record S. destruct (session_text H hs now voices junk g record S) as ((ro & _ & PO) & (re & _ & PE)). eauto.
Qed.
Print Assumptions C82_console.

(** The record changes nothing. *)
Theorem C82_record :
  forall H hs now voices junk hi_first kw kr fuel pc v g record,
  match execute _ (recorded_in _ (gui_dei H now voices)) (recorded_out _ (gui_deo H hs junk)) hi_first None kw kr fuel pc v (g, record),
        run_vector H hs now voices junk hi_first kw kr fuel pc v g with
  | Done _ v1 (g1, _), Done _ v2 g2 => v1 = v2 /\ g1 = g2
  | Crash _ f, Crash _ f' => f = f'
  | OutOfFuel _, OutOfFuel _ => True
  | _, _ => False
  end.
Proof.
  intros H hs now voices junk hf kw kr fuel pc v g record. unfold run_vector.
  assert (HH : hosts_related _ (gui H) (fun w g => fst w = g)
    (recorded_in _ (gui_dei H now voices)) (recorded_out _ (gui_deo H hs junk)) (gui_dei H now voices) (gui_deo H hs junk)).
  { split; intros a u [x r] y Ha <-; cbn [fst].
    - unfold recorded_in. cbn [fst snd]. destruct (gui_dei H now voices a u x) as [((b, u'), x')|]; cbn; auto.
    - unfold recorded_out. cbn [fst snd]. destruct (gui_deo H hs junk a u x) as [(u', x')|]; cbn; auto. }
  pose proof (execute_related _ _ _ _ _ _ _ hf HH fuel kw kr pc v (g, record) g eq_refl) as R. unfold rel_outcome in R.
  destruct (execute (gui H * list (Z * vm)) _ _ _ _ _ _ _ _ _ _) as [v1 [g1 r1]|f|], (execute (gui H) _ _ _ _ _ _ _ _ _ _); auto.
Qed.
Print Assumptions C82_record.

(** No console write fails: the 256 bytes of the buffer are enough. *)
Theorem C82_in_bounds :
  forall H hs now voices junk g record a v, session H hs now voices junk g record -> a = 24 \/ a = 25 ->
  exists g', gui_deo H hs junk a v g = Ok (v, g').
Proof.
  intros H hs now voices junk g record a v S A. destruct (session_text H hs now voices junk g record S) as ((ro & HO & _) & (re & HE & _)).
  destruct A as [-> | ->]; unfold gui_deo.
  - change (gui_deo_target 24) with Console. unfold console_deo. cbn [Z.eqb Pos.eqb]. unfold gui_write.
    destruct (putc_ok (g_out g) ro (vm_dev v 24) HO) as (b & -> & _). cbn [rbind]. eexists. reflexivity.
  - change (gui_deo_target 25) with Console. unfold console_deo. cbn [Z.eqb Pos.eqb]. unfold gui_error.
    destruct (putc_ok (g_err g) re (vm_dev v 25) HE) as (b & -> & _). cbn [rbind]. eexists. reflexivity.
Qed.
Print Assumptions C82_in_bounds.

(** The cuts are determined by the bytes. *)
Definition put_step (x : list (list Z) * list Z) (ch : Z) : list (list Z) * list Z :=
  let (log, rest) := x in
  (log ++ (if ch =? 10 then [up_to_zero rest] else if (length rest =? 254)%nat then [up_to_zero (rest ++ [ch])] else []),
   if (ch =? 10) || (length rest =? 254)%nat then [] else rest ++ [ch]).
Lemma put_text log text : forall rest, ~ In 10 text -> (length rest + length text < 255)%nat ->
  fold_left put_step text (log, rest) = (log, rest ++ text).
Proof.
  induction text as [|c text IH]; intros rest N L; cbn [fold_left]; [rewrite app_nil_r; reflexivity|].
  cbn [length] in L. unfold put_step at 2. replace (c =? 10) with false by (cbn in N; lia). replace (length rest =? 254)%nat with false by lia.
  cbn [orb]. rewrite app_nil_r. rewrite IH; [rewrite <- app_assoc; reflexivity|intros X; apply N; right; exact X|rewrite app_length; cbn; lia].
Qed.
Lemma printed_fold cs log rest : printed cs log rest -> fold_left put_step cs ([], []) = (log, rest).
Proof.
  intros (ps & -> & HP & N & L & ->).
  assert (G : forall log0, fold_left put_step (concat (map piece ps)) (log0, []) = (log0 ++ map (fun '(t, _) => up_to_zero t) ps, [])).
  { clear N L rest. induction ps as [|[t nl] ps IH]; intros log0; cbn [map concat]; [cbn; rewrite app_nil_r; reflexivity|].
    inversion HP as [|? ? HX HP']; subst. cbv beta iota in HX. destruct HX as (N & L). rewrite fold_left_app.
    assert (X : fold_left put_step (piece (t, nl)) (log0, []) = (log0 ++ [up_to_zero t], [])).
    { destruct nl; cbn [piece].
      - rewrite fold_left_app, put_text by (auto; cbn; lia). reflexivity.
      - destruct (exists_last (l := t)) as (t' & c & ->); [intros ->; discriminate|].
        rewrite app_length in L. cbn in L. rewrite fold_left_app, put_text; [|intros X; apply N; apply in_or_app; auto|cbn; lia].
        cbn [fold_left put_step app]. replace (c =? 10) with false by (assert (c <> 10) by (intros ->; apply N; apply in_or_app; cbn; auto); lia).
        replace (length t' =? 254)%nat with true by lia. reflexivity. }
    rewrite X, IH by exact HP'. rewrite <- app_assoc. reflexivity. }
  rewrite fold_left_app, G, put_text by (auto; cbn; lia). reflexivity.
Qed.
Theorem C82_determined :
  forall cs log rest log' rest', printed cs log rest -> printed cs log' rest' -> log' = log /\ rest' = rest.
Proof. intros cs log rest log' rest' A B. pose proof (printed_fold _ _ _ A). pose proof (printed_fold _ _ _ B). split; congruence. Qed.
Print Assumptions C82_determined.

(** So lines of text of fewer than 255 characters are logged as they are. *)
Lemma up_to_zero_id l : ~ In 0 l -> up_to_zero l = l.
Proof.
  induction l as [|c l IH]; intros N; cbn; [reflexivity|]. replace (c =? 0) with false by (cbn in N; lia). rewrite IH; [reflexivity|intros X; apply N; right; exact X].
Qed.
Theorem C82_lines :
  forall H hs now voices junk g record lines rest, session H hs now voices junk g record ->
  Forall (fun l => ~ In 0 l /\ ~ In 10 l /\ (length l < 255)%nat) lines -> ~ In 10 rest -> (length rest < 255)%nat ->
  written 24 record = concat (map (fun l => l ++ [10]) lines) ++ rest ->
  lines_of false (g_log g) = lines.
Proof.
  intros H hs now voices junk g record lines rest S HL N L E. destruct (C82_console H hs now voices junk g record S) as ((r & P) & _).
  assert (Q : printed (written 24 record) lines rest).
  { exists (map (fun l => (l, true)) lines). rewrite !map_map. split; [exact E|]. split; [|split; [exact N|]; split; [exact L|]].
    - apply Forall_map. eapply Forall_impl; [|exact HL]. intros l (_ & A & B). split; assumption.
    - clear E. induction HL as [|l lines (A & _) HL IH]; cbn; [reflexivity|]. rewrite up_to_zero_id by exact A. rewrite <- IH. reflexivity. }
  apply (C82_determined _ _ _ _ _ Q P).
Qed.
Print Assumptions C82_lines.

(** A zero byte hides the rest of its line, and 255 characters followed by a
    newline come out as two lines, the second one empty.  [session_of cs] is what
    a program that writes [cs] to port 0x18 does. *)
Definition ex_gui0 : gui unit :=
  mkGui (mkConsole [] 0 0) (mkMouse 0 0 0 0 0) (mkController (fun _ => 0) 0) (mkScreen 0 0 0 0 0 0 0 0 0 64 32 (mkRect 0 0 0 0) (mkRect 0 0 0 0) (fun _ => 0))
    (fun _ => 0) (fun _ => 0) (mkBuf 0 (fun _ => 0)) (mkBuf 0 (fun _ => 0)) [] [] 0 []
    (mkTerm [] [] 0 initial_file [] initial_file [] tt) [] [].
(** A program in the zero page area from 0x100 on. *)
Definition ex_prog (code : list Z) : vm :=
  mkVm 0 0 (fun _ => 0) (fun _ => 0) (fun _ => 0) (fun i => nth (Z.to_nat (i - 256)) code 0) 65536.
Definition no_host : host unit := mkHost unit (fun _ _ h => (None, h)) (fun _ h => h) (fun _ _ h => ([], h)) (fun _ _ h => (0, h)) (fun _ h => (None, h))
  (fun _ h => h) (fun _ h => (None, h)) (fun _ h => (false, h)) (fun _ h => (mkStat 0 0, h)).
(** LIT c LIT 18 DEO for every byte, then BRK. *)
Definition writes (cs : list Z) : list Z := flat_map (fun c => [128; c; 128; 24; 23]) cs ++ [0].
Definition typed_out (cs : list Z) : outcome (gui unit * list (Z * vm)) :=
  execute _ (recorded_in _ (gui_dei unit (fun _ => None) (fun _ _ => mkVoice 0 0 0 0 0 0 0 0 0 0 0 0 0 0 0))) (recorded_out _ (gui_deo unit no_host (fun _ => 0)))
    true None 0 0 (3 * length cs + 1) 256 (ex_prog (writes cs)) (ex_gui0, []).
Definition logged (cs : list Z) : option (list Z * list (bool * list Z)) :=
  match typed_out cs with Done _ _ (g, record) => Some (written 24 record, g_log g) | _ => None end.
Lemma typed_session cs v g record : typed_out cs = Done _ v (g, record) ->
  session unit no_host (fun _ => None) (fun _ _ => mkVoice 0 0 0 0 0 0 0 0 0 0 0 0 0 0 0) (fun _ => 0) g record.
Proof. intros E. eapply session_run; [apply (session_start _ _ _ _ _ ex_gui0); reflexivity|exact E]. Qed.
Lemma logged_session cs out log : logged cs = Some (out, log) ->
  exists g record, session unit no_host (fun _ => None) (fun _ _ => mkVoice 0 0 0 0 0 0 0 0 0 0 0 0 0 0 0) (fun _ => 0) g record /\
  written 24 record = out /\ g_log g = log.
Proof.
  intros X. unfold logged in X. destruct (typed_out cs) as [v [g record]| |] eqn:E; [|discriminate X|discriminate X].
  injection X as X1 X2. exists g, record. split; [exact (typed_session _ _ _ _ E)|auto].
Qed.
Theorem C82_zero_refuted :
  exists hs now voices junk g record lines, session unit hs now voices junk g record /\
  written 24 record = concat (map (fun l => l ++ [10]) lines) /\ Forall (fun l => ~ In 10 l /\ (length l < 255)%nat) lines /\
  lines_of false (g_log g) <> lines.
Proof.
  assert (X : logged [72; 0; 105; 10] = Some ([72; 0; 105; 10], [(false, [72])])) by (vm_compute; reflexivity).
  destruct (logged_session _ _ _ X) as (g & record & S & X1 & X2).
  eexists no_host, (fun _ => None), (fun _ _ => mkVoice 0 0 0 0 0 0 0 0 0 0 0 0 0 0 0), (fun _ => 0), g, record, [[72; 0; 105]].
  split; [exact S|]. split; [exact X1|].
  split; [repeat constructor; cbn; lia|]. rewrite X2. discriminate.
Qed.
Print Assumptions C82_zero_refuted.
Theorem C82_long_refuted :
  exists hs now voices junk g record line, session unit hs now voices junk g record /\
  written 24 record = line ++ [10] /\ ~ In 10 line /\ ~ In 0 line /\ length line = 255%nat /\
  lines_of false (g_log g) = [line; []].
Proof.
  set (line := repeat 65 255).
  assert (X : logged (line ++ [10]) = Some (line ++ [10], [(false, line); (false, [])])) by (vm_compute; reflexivity).
  destruct (logged_session _ _ _ X) as (g & record & S & X1 & X2).
  exists no_host, (fun _ => None), (fun _ _ => mkVoice 0 0 0 0 0 0 0 0 0 0 0 0 0 0 0), (fun _ => 0), g, record, line.
  split; [exact S|]. split; [exact X1|].
  assert (R : forall c, In c line -> c = 65) by (intros c; apply repeat_spec).
  split; [intros Y; apply R in Y; discriminate|]. split; [intros Y; apply R in Y; discriminate|]. split; [reflexivity|].
  rewrite X2. reflexivity.
Qed.
Print Assumptions C82_long_refuted.
Example C82_case : logged [72; 105; 10; 10; 111; 107] = Some ([72; 105; 10; 10; 111; 107], [(false, [72; 105]); (false, [])]).
Proof. vm_compute. reflexivity. Qed.

(** ** C83
    The devices after the events [h], newest first, and during the run for its
    newest event. *)
Definition consistent {H} (h : list gui_event) (g : gui H) : Prop :=
  m_state (g_mouse g) = byte_of_bits (mouse_held h) /\ m_sx (g_mouse g) = 0 /\ m_sy (g_mouse g) = 0 /\
  k_buttons (g_controller g) 0 = byte_of_bits (pad_held h) /\ (forall i, 1 <= i < 4 -> k_buttons (g_controller g) i = 0) /\
  k_ch (g_controller g) = 0.
Definition consistent_during {H} (e : gui_event) (h : list gui_event) (g : gui H) : Prop :=
  m_state (g_mouse g) = byte_of_bits (mouse_held (e :: h)) /\
  (m_sx (g_mouse g), m_sy (g_mouse g)) = match e with Scroll x y => (x, - y) | _ => (0, 0) end /\
  k_buttons (g_controller g) 0 = byte_of_bits (pad_held (e :: h)) /\ (forall i, 1 <= i < 4 -> k_buttons (g_controller g) i = 0) /\
  k_ch (g_controller g) = char_of e.
(** Where the pointer is: a movement puts it there, but not outside the screen. *)
Definition position {H} (g : gui H) : Z * Z := (m_x (g_mouse g), m_y (g_mouse g)).
Definition clip (x limit : Z) : Z := Z.max 0 (Z.min x limit).
Definition placed {H} (e : gui_event) (g : gui H) : Z * Z :=
  match e with MouseMove x y => (clip x (s_w (g_screen g)), clip y (s_h (g_screen g))) | _ => position g end.
(** Nothing but the mouse and the controller differs. *)
Definition same_but_input {H} (g g' : gui H) : Prop :=
  g' = set_controller H (set_mouse H g (g_mouse g')) (g_controller g').

Section Events.
Variable H : Type.
Variable hs : host H.
Variable now : nat -> option tm.
Variable voices : nat -> Z -> voice.
Variable junk : arr.
Variable hi_first : bool.
Variables (kw kr : Z) (fuel : nat).
Notation run_vector := (run_vector H hs now voices junk hi_first kw kr fuel).
Notation gui_handle := (gui_handle H hs now voices junk hi_first kw kr fuel).

(** Evaluate the vector of a page, if there is one. *)
Definition evaluate (page : option Z) (v : vm) (g : gui H) : outcome (gui H) :=
  match page with
  | Some p => if vector v p =? 0 then Done _ v g else run_vector (vector v p) v g
  | None => Done _ v g
  end.

Lemma run_input pc v g v' g' : run_vector pc v g = Done _ v' g' -> same_input H g g'.
Proof.
  intros E. unfold GuiModel.run_vector in E. revert E. apply (execute_keeps _ _ _ (same_input H g)); [| |split; reflexivity].
  - intros a u w b u' w' Ha (A & B) X. destruct (dei_same H now voices _ _ _ _ _ _ X) as (_ & C & D). split; congruence.
  - intros a u w u' w' Ha (A & B) X. destruct (deo_same H hs junk _ _ _ _ _ X) as ((C & D) & _). split; congruence.
Qed.
Lemma pressed_eq f st btn down : 0 <= btn < 8 -> st = byte_of_bits f ->
  u8 (if down : bool then Z.lor st (u8 (Z.shiftl 1 btn)) else Z.land st (Z.lnot (u8 (Z.shiftl 1 btn)))) = byte_of_bits (fun b => if btn =? b then down else f b).
Proof. intros Hb ->. apply set_bits. exact Hb. Qed.
Lemma set_button_eq f k btn down : 0 <= btn < 8 -> k_buttons k 0 = byte_of_bits f ->
  controller_set_button k 0 btn down = Ok (mkController (upd (k_buttons k) 0 (byte_of_bits (fun b => if btn =? b then down else f b))) (k_ch k)).
Proof.
  intros Hb E. unfold controller_set_button, aget, aset. change (in_bounds 4 0) with true. cbv iota. cbn [rbind].
  rewrite (pressed_eq f) by assumption. reflexivity.
Qed.
Lemma mouse_button_eq f m btn down : 0 <= btn < 8 -> m_state m = byte_of_bits f ->
  mouse_set_button m btn down = Ok (mkMouse (m_x m) (m_y m) (byte_of_bits (fun b => if btn =? b then down else f b)) (m_sx m) (m_sy m)).
Proof. intros Hb E. unfold mouse_set_button. rewrite mouse_shift by exact Hb. cbn [rbind]. rewrite (pressed_eq f) by assumption. reflexivity. Qed.

Lemma button_same b : button_of b = bit_of_button b.
Proof. unfold button_of, bit_of_button. destruct (b =? 0) eqn:E0; [replace b with 0 by lia; reflexivity|]. destruct (b =? 1) eqn:E1; [replace b with 1 by lia; reflexivity|].
  destruct (b =? 2) eqn:E2; [replace b with 2 by lia; reflexivity|]. destruct b as [|[[p|p|]|[p|p|]|]|p]; try reflexivity; discriminate. Qed.
Lemma bit_range b x : bit_of_button b = Some x -> 0 <= x < 8.
Proof. rewrite <- button_same. unfold button_of. repeat match goal with |- context [if ?c then _ else _] => destruct c end; intros [= <-]; lia. Qed.
Lemma evaluate_input p v g v' g' : evaluate p v g = Done _ v' g' -> same_input H g g'.
Proof.
  unfold evaluate. destruct p as [p|]; [|intros [= <- <-]; split; reflexivity]. destruct (_ =? 0); [intros [= <- <-]; split; reflexivity|]. apply run_input.
Qed.
Lemma mouse_update_eq v g : gui_mouse_update H hs now voices junk hi_first kw kr fuel v g = evaluate (Some 144) v g.
Proof. unfold gui_mouse_update, evaluate. rewrite vector_eq by lia. destruct (_ =? 0); reflexivity. Qed.
Lemma controller_event_eq v g : gui_controller_event H hs now voices junk hi_first kw kr fuel v g = evaluate (Some 128) v g.
Proof. unfold gui_controller_event, evaluate. rewrite vector_eq by lia. destruct (_ =? 0); reflexivity. Qed.

(** The tail of a mouse event. *)
Definition scrolled (g : gui H) : gui H := let m := g_mouse g in set_mouse H g (mkMouse (m_x m) (m_y m) (m_state m) 0 0).
Lemma mouse_tail e h v g1 : consistent_during e h g1 -> char_of e = 0 ->
  match evaluate (Some 144) v g1 with
  | Done _ v' g' => exists g2, seq_ H (gui_mouse_update H hs now voices junk hi_first kw kr fuel v g1) (fun v g => Done _ v (scrolled g)) = Done _ v' g2 /\
      (consistent (e :: h) g2 /\ position g2 = position g1) /\ same_but_input g' g2
  | o => seq_ H (gui_mouse_update H hs now voices junk hi_first kw kr fuel v g1) (fun v g => Done _ v (scrolled g)) = o
  end.
Proof.
  intros (C1 & C2 & C3 & C4 & C5) CH. rewrite mouse_update_eq. destruct (evaluate (Some 144) v g1) as [v' g'| |] eqn:E; [|reflexivity|reflexivity].
  destruct (evaluate_input _ _ _ _ _ E) as (S1 & S2). cbn [seq_]. eexists. split; [reflexivity|]. split; [|reflexivity].
  split; [|unfold position; cbn; rewrite S1; reflexivity]. unfold consistent, scrolled. cbn. rewrite S1, S2. repeat split; auto; congruence.
Qed.

Ltac during := unfold consistent_during; cbn [g_mouse g_controller set_mouse set_controller move_mouse m_state m_sx m_sy k_buttons k_ch mouse_held pad_held char_of].
(** One event: what its vector is evaluated with, and what is left. *)
Lemma handle_event e h t v g : consistent h g -> is_touch_event e = false -> event_typed e ->
  0 <= s_w (g_screen g) < 65536 -> 0 <= s_h (g_screen g) < 65536 ->
  exists g1, (consistent_during e h g1 /\ position g1 = placed e g) /\ same_but_input g g1 /\ fst (gui_handle e t v g) = t /\
  match evaluate (page_of e) v g1 with
  | Done _ v' g' => exists g2, snd (gui_handle e t v g) = Done _ v' g2 /\ (consistent (e :: h) g2 /\ position g2 = position g1) /\ same_but_input g' g2
  | o => snd (gui_handle e t v g) = o
  end.
Proof.
  intros (M1 & M2 & M3 & K1 & K2 & K3) NT ET HW HH.
  assert (SELF : forall x : gui H, same_but_input x x) by (intros []; reflexivity).
  destruct e as [button down|x y|x y|kind id|k down|code ctrl alt shift|]; try discriminate NT.
  - (* a mouse button *)
    unfold GuiModel.gui_handle, gui_event_mouse, page_of. rewrite button_same.
    destruct (bit_of_button button) as [b|] eqn:EB.
    + unfold press. rewrite (mouse_button_eq (mouse_held h)) by (auto; eapply bit_range; eauto). cbn [rbind gui_event_other fst snd seq_].
      eexists. split; [split; [|]|split; [|split; [reflexivity|apply (mouse_tail _ h v); [|reflexivity]]]]; cycle 3.
      all: try (during; rewrite EB, M2, M3; repeat split; auto).
      all: destruct g; reflexivity.
    + cbn [rbind gui_event_other fst snd seq_ evaluate]. exists g. split; [split; [during; rewrite EB; rewrite M2, M3; auto 10|reflexivity]|]. split; [auto|]. split; [reflexivity|].
      exists g. split; [reflexivity|]. split; [|auto]. split; [|reflexivity]. unfold consistent. cbn [mouse_held pad_held]. rewrite EB. auto 10.
  - (* scrolling *)
    destruct ET as (X & Y). unfold GuiModel.gui_handle, gui_event_mouse, to_int16, page_of.
    destruct ((-32768 <=? x) && (x <=? 32767)) eqn:EX; [|lia]. destruct ((-32768 <=? y) && (y <=? 32767)) eqn:EY; [|lia]. cbn [rbind gui_event_other fst snd seq_].
    assert (SY : s16 (- y) = - y) by (unfold s16; cbv zeta; destruct (- y mod 65536 <? 32768) eqn:E; lia).
    eexists. split; [split; [|]|split; [|split; [reflexivity|apply (mouse_tail _ h v); [|reflexivity]]]]; cycle 3.
    all: try (during; rewrite ?SY; repeat split; auto).
    all: destruct g; reflexivity.
  - (* a movement *)
    unfold GuiModel.gui_handle, gui_event_mouse, page_of. cbn [rbind gui_event_other fst snd seq_].
    eexists. split; [split; [|]|split; [|split; [reflexivity|apply (mouse_tail _ h v); [|reflexivity]]]]; cycle 3.
    all: try (during; rewrite ?M2, ?M3; repeat split; auto).
    all: try (destruct g; reflexivity).
    cbn. unfold placed, position, clip. cbn. f_equal; unfold clamp_pos, u16; repeat match goal with |- context [if ?c then _ else _] => destruct c eqn:? end; lia.
  - (* a key *)
    unfold GuiModel.gui_handle, gui_event_mouse. cbn [gui_event_other].
    destruct (bit_of_key k) as [b|] eqn:EB.
    + assert (KB : key_button k = Some b /\ key_char k = 0 /\ 0 <= b < 8 /\ page_of (Key k down) = Some 128 /\ char_of (Key k down) = 0)
        by (destruct k; cbn in EB; try discriminate EB; injection EB as <-; repeat split; (reflexivity || lia)).
      destruct KB as (-> & -> & RB & -> & CH). unfold gui_send_button. rewrite (set_button_eq (pad_held h)) by assumption. cbn [or_crash fst snd].
      rewrite controller_event_eq.
      match goal with |- context [evaluate _ _ ?x] => exists x end.
      split; [split; [|reflexivity]; unfold consistent_during; rewrite CH; during; rewrite EB, M2, M3, upd_eq; repeat split; auto; intros i Hi; rewrite upd_ne by lia; auto|].
      split; [destruct g; reflexivity|]. split; [reflexivity|].
      destruct (evaluate _ _ _) as [v' g'| |] eqn:E; [|reflexivity|reflexivity].
      destruct (evaluate_input _ _ _ _ _ E) as (S1 & S2). cbn [seq_ Z.gtb Z.compare andb]. exists g'. split; [reflexivity|]. split; [|auto]. split; [|unfold position; rewrite S1; reflexivity].
      unfold consistent. rewrite S1, S2. cbn [g_mouse g_controller set_controller k_buttons k_ch mouse_held pad_held]. rewrite EB, upd_eq.
      repeat split; auto. intros i Hi. rewrite upd_ne by lia. auto.
    + assert (KB : key_button k = None) by (destruct k; cbn in EB; (discriminate EB || reflexivity)). rewrite KB. cbn [seq_ fst snd].
      destruct ((key_char k >? 0) && down) eqn:EC.
      * assert (KC : down = true /\ page_of (Key k down) = Some 128 /\ char_of (Key k down) = key_char k /\ u8 (key_char k) = key_char k)
          by (destruct k, down; cbn in EC; try discriminate EC; repeat split; reflexivity).
        destruct KC as (-> & -> & CH & U). unfold gui_send_char. rewrite U. rewrite controller_event_eq.
        match goal with |- context [evaluate _ _ ?x] => exists x end.
        split; [split; [|reflexivity]; unfold consistent_during; rewrite CH; during; rewrite EB, M2, M3; auto 10|]. split; [destruct g; reflexivity|]. split; [reflexivity|].
        destruct (evaluate _ _ _) as [v' g'| |] eqn:E; [|reflexivity|reflexivity].
        destruct (evaluate_input _ _ _ _ _ E) as (S1 & S2). cbn [seq_]. eexists. split; [reflexivity|]. split; [|destruct g'; reflexivity]. split; [|unfold position; cbn [g_mouse set_controller]; rewrite S1; reflexivity].
        unfold consistent. cbn [g_mouse g_controller set_controller k_buttons k_ch]. rewrite S1, S2. cbn [g_mouse g_controller set_controller k_buttons k_ch mouse_held pad_held]. rewrite EB. auto 10.
      * assert (KC : page_of (Key k down) = None /\ char_of (Key k down) = 0)
          by (destruct k, down; cbn in EC, EB; try discriminate EC; try discriminate EB; split; reflexivity).
        destruct KC as (-> & CH). exists g. split; [split; [|reflexivity]; unfold consistent_during; rewrite CH; during; rewrite EB, M2, M3; auto 10|]. split; [auto|]. split; [reflexivity|].
        cbn [evaluate]. exists g. split; [reflexivity|]. split; [|auto]. split; [|reflexivity]. unfold consistent. cbn [mouse_held pad_held]. rewrite EB. auto 10.
  - (* a character *)
    unfold GuiModel.gui_handle, gui_event_mouse. cbn [gui_event_other fst snd]. cbn [event_typed] in ET. cbn [page_of char_of].
    destruct (code <=? 127) eqn:EC.
    + rewrite (set_button_eq (pad_held h)) by (assumption || lia). cbn [or_crash].
      erewrite set_button_eq by (lia || (cbn [k_buttons]; apply upd_eq)). cbn [or_crash k_buttons k_ch].
      erewrite set_button_eq by (lia || (cbn [k_buttons]; apply upd_eq)). cbn [or_crash k_buttons k_ch].
      unfold gui_send_char. rewrite controller_event_eq.
      assert (PB : forall f, byte_of_bits (fun b => if 2 =? b then shift else if 1 =? b then alt else if 0 =? b then ctrl else f b) =
        byte_of_bits (fun b => if b =? 0 then ctrl else if b =? 1 then alt else if b =? 2 then shift else f b)).
      { intros f. apply byte_of_bits_ext. intros b Hb. rewrite (Z.eqb_sym 2 b), (Z.eqb_sym 1 b), (Z.eqb_sym 0 b).
        destruct (b =? 0) eqn:E0, (b =? 1) eqn:E1, (b =? 2) eqn:E2; try reflexivity; lia. }
      match goal with |- context [evaluate _ _ ?x] => exists x end.
      split; [split; [|reflexivity]; during; cbn [g_mouse g_controller set_controller k_buttons k_ch]; rewrite EC, M2, M3, upd_eq, PB; repeat split; auto;
        [intros i Hi; rewrite !upd_ne by lia; auto|unfold u8; lia]|].
      split; [destruct g; reflexivity|]. split; [reflexivity|].
      destruct (evaluate _ _ _) as [v' g'| |] eqn:E; [|reflexivity|reflexivity].
      destruct (evaluate_input _ _ _ _ _ E) as (S1 & S2). cbn [seq_]. eexists. split; [reflexivity|]. split; [|destruct g'; reflexivity]. split; [|unfold position; cbn [g_mouse set_controller]; rewrite S1; reflexivity].
      unfold consistent. cbn [g_mouse g_controller set_controller k_buttons k_ch]. rewrite S1, S2. cbn [g_mouse g_controller set_controller k_buttons k_ch mouse_held pad_held].
      rewrite EC, upd_eq, PB. repeat split; auto. intros i Hi. rewrite !upd_ne by lia. auto.
    + exists g. split; [split; [|reflexivity]; during; rewrite EC, M2, M3; auto 10|]. split; [auto|]. split; [reflexivity|].
      cbn [evaluate seq_]. exists g. split; [reflexivity|]. split; [|auto]. split; [|reflexivity]. unfold consistent. cbn [mouse_held pad_held]. rewrite EC. auto 10.
  - (* anything else *)
    exists g. split; [split; [|reflexivity]; during; rewrite M2, M3; auto 10|]. split; [auto|]. split; [reflexivity|]. cbn. exists g. split; [reflexivity|]. split; [split; [|reflexivity]; unfold consistent; cbn [mouse_held pad_held]; auto 10|auto].
Qed.

(** A touch event, and the mouse state after the others. *)
Lemma handle_state e t v g t' v' g' f : gui_handle e t v g = (t', Done _ v' g') -> m_state (g_mouse g) = byte_of_bits f -> is_touch_event e = false ->
  t' = t /\ exists f', m_state (g_mouse g') = byte_of_bits f' /\ (is_left_button e = false -> f' 0 = f 0).
Proof.
  intros E S NT.
  assert (TAIL : forall o (k : bool) f1, (forall v1 g1, o = Done _ v1 g1 -> m_state (g_mouse g1) = byte_of_bits f1) ->
    seq_ H o (fun v g => if k then seq_ H (gui_mouse_update H hs now voices junk hi_first kw kr fuel v g) (fun v g => Done _ v (scrolled g)) else Done _ v g) = Done _ v' g' ->
    m_state (g_mouse g') = byte_of_bits f1).
  { intros o k f1 HO X. destruct o as [v1 g1| |]; try discriminate X. specialize (HO v1 g1 eq_refl). cbn [seq_] in X. destruct k; [|injection X as <- <-; exact HO].
    rewrite mouse_update_eq in X. destruct (evaluate (Some 144) v1 g1) as [v2 g2| |] eqn:EV; try discriminate X. cbn [seq_] in X. injection X as <- <-.
    destruct (evaluate_input _ _ _ _ _ EV) as (S1 & _). cbn. rewrite S1. exact HO. }
  unfold GuiModel.gui_handle in E. destruct (gui_event_mouse H e g) as [(k, g1)|] eqn:EM; [|discriminate E].
  destruct (gui_event_other H hs now voices junk hi_first kw kr fuel e t v g1) as [t1 o] eqn:EO. injection E as <- E.
  assert (X : t1 = t /\ exists f1, (forall v1 g1, o = Done _ v1 g1 -> m_state (g_mouse g1) = byte_of_bits f1) /\ (is_left_button e = false -> f1 0 = f 0)).
  { assert (KEEP : forall v2 g2 v3 g3, gui_controller_event H hs now voices junk hi_first kw kr fuel v2 g2 = Done _ v3 g3 -> g_mouse g3 = g_mouse g2).
    { intros v2 g2 v3 g3 X. rewrite controller_event_eq in X. apply (evaluate_input _ _ _ _ _ X). }
    destruct e as [button down|x y|x y|kind id|key down|code ctrl alt shift|]; try discriminate NT; cbn [gui_event_other] in EO; injection EO as <- <-; (split; [reflexivity|]); cbn [gui_event_mouse] in EM.
    - rewrite button_same in EM. destruct (bit_of_button button) as [b|] eqn:EB.
      + unfold press in EM. rewrite (mouse_button_eq f) in EM by (auto; eapply bit_range; eauto). cbn [rbind] in EM. injection EM as <- <-.
        eexists. split; [intros v1 g1 [= <- <-]; reflexivity|]. cbv beta. intros NL. destruct (b =? 0) eqn:B0; [|reflexivity]. exfalso.
        assert (button = 0) by (rewrite <- button_same in EB; unfold button_of in EB; repeat match type of EB with context [if ?c then _ else _] => destruct c eqn:? end; try discriminate EB; injection EB as <-; lia). subst button. discriminate NL.
      + injection EM as <- <-. exists f. split; [intros v1 g1 [= <- <-]; exact S|auto].
    - destruct (to_int16 x); [|discriminate EM]. destruct (to_int16 y); [|discriminate EM]. cbn [rbind] in EM. injection EM as <- <-. exists f. split; [intros v1 g1 [= <- <-]; exact S|auto].
    - injection EM as <- <-. exists f. split; [intros v1 g1 [= <- <-]; exact S|auto].
    - injection EM as <- <-. exists f. split; [|auto]. intros v1 g1 X.
      assert (B : forall o2, (forall v2 g2, o2 = Done _ v2 g2 -> m_state (g_mouse g2) = byte_of_bits f) ->
        seq_ H o2 (fun v g => if (key_char key >? 0) && down then gui_send_char H hs now voices junk hi_first kw kr fuel (key_char key) v g else Done _ v g) = Done _ v1 g1 -> m_state (g_mouse g1) = byte_of_bits f).
      { intros o2 HO Y. destruct o2 as [v2 g2| |]; try discriminate Y. cbn [seq_] in Y. specialize (HO _ _ eq_refl). destruct (_ && down); [|injection Y as <- <-; exact HO].
        unfold gui_send_char in Y. destruct (gui_controller_event _ _ _ _ _ _ _ _ _ _ _) as [v3 g3| |] eqn:EC; try discriminate Y. cbn [seq_] in Y. injection Y as <- <-. cbn. rewrite (KEEP _ _ _ _ EC). exact HO. }
      revert X. apply B. intros v2 g2 Y. destruct (key_button key); [|injection Y as <- <-; exact S]. unfold gui_send_button in Y.
      destruct (controller_set_button _ _ _ _); [|discriminate Y]. cbn [or_crash] in Y. rewrite (KEEP _ _ _ _ Y). exact S.
    - injection EM as <- <-. exists f. split; [|auto]. intros v1 g1 X. destruct (code <=? 127); [|injection X as <- <-; exact S].
      unfold or_crash in X. repeat match type of X with context [controller_set_button ?a ?b ?c ?d] => destruct (controller_set_button a b c d); [|discriminate X] end.
      unfold gui_send_char in X.
      destruct (gui_controller_event _ _ _ _ _ _ _ _ _ _ _) as [v3 g3| |] eqn:EC; try discriminate X. cbn [seq_] in X. injection X as <- <-. cbn. rewrite (KEEP _ _ _ _ EC). exact S.
    - injection EM as <- <-. exists f. split; [intros v1 g1 [= <- <-]; exact S|auto]. }
  destruct X as (-> & f1 & HO & HF). split; [reflexivity|]. exists f1. split; [|exact HF]. eapply TAIL; [exact HO|exact E].
Qed.

Lemma touch_state kind id t v g t' v' g' f : gui_handle (Touch kind id) t v g = (t', Done _ v' g') -> m_state (g_mouse g) = byte_of_bits f ->
  exists f', m_state (g_mouse g') = byte_of_bits f' /\ (second_touch t' = None -> (second_touch t = None -> f 0 = false) -> f' 0 = false).
Proof.
  intros E S. unfold GuiModel.gui_handle in E. cbn [gui_event_mouse gui_event_other] in E.
  assert (UPD : forall v1 g1 v2 g2, gui_mouse_update H hs now voices junk hi_first kw kr fuel v1 g1 = Done _ v2 g2 -> g_mouse g2 = g_mouse g1).
  { intros v1 g1 v2 g2 X. rewrite mouse_update_eq in X. apply (evaluate_input _ _ _ _ _ X). }
  destruct kind as [|dx dy|]; cbn [process_touch] in E.
  - destruct (first_touch t), (second_touch t) eqn:E2; cbn [seq_] in E; injection E as <- <- <-; exists f; cbn [second_touch]; rewrite ?E2; (split; [exact S|]); intros X Y; try discriminate X; auto.
  - destruct (is_touch (first_touch t) id); [|cbn [seq_] in E; injection E as <- <- <-; exists f; split; [exact S|auto]].
    destruct (second_touch t) as [id2|] eqn:E2.
    + unfold press in E. rewrite (mouse_button_eq f) in E by (auto; lia). cbn [rbind or_crash] in E.
      destruct (gui_mouse_update _ _ _ _ _ _ _ _ _ _ _) as [v1 g1| |] eqn:EU; cbn [seq_] in E; try discriminate E. injection E as <- <- <-.
      eexists. split; [rewrite (UPD _ _ _ _ EU); reflexivity|]. rewrite E2. discriminate.
    + cbn [or_crash] in E. destruct (gui_mouse_update _ _ _ _ _ _ _ _ _ _ _) as [v1 g1| |] eqn:EU; cbn [seq_] in E; try discriminate E. injection E as <- <- <-.
      exists f. split; [rewrite (UPD _ _ _ _ EU); exact S|auto].
  - destruct (is_touch (first_touch t) id) eqn:E1; [cbn [seq_] in E; injection E as <- <- <-; exists f; split; [exact S|auto]|].
    destruct (is_touch (second_touch t) id) eqn:E2; [|cbn [seq_] in E; injection E as <- <- <-; exists f; split; [exact S|auto]].
    unfold mouse_check_button in E. rewrite mouse_shift in E by lia. cbn [rbind or_crash] in E.
    apply pair_equal_spec in E. destruct E as (<- & E). cbn [second_touch].
    set (o := if negb _ then _ else _) in E.
    assert (HO : forall v1 g1, o = Done _ v1 g1 -> exists f1, m_state (g_mouse g1) = byte_of_bits f1).
    { intros v1 g1 X. unfold o in X. destruct (negb _); [|injection X as <- <-; eauto]. unfold press in X. rewrite (mouse_button_eq f) in X by (auto; lia). cbn [rbind or_crash] in X.
      rewrite (UPD _ _ _ _ X). eexists. reflexivity. }
    destruct o as [v1 g1| |]; cbn [seq_] in E; try discriminate E. destruct (HO v1 g1 eq_refl) as (f1 & S1).
    unfold press in E. rewrite (mouse_button_eq f1) in E by (auto; lia). cbn [rbind or_crash] in E.
    destruct (gui_mouse_update _ _ _ _ _ _ _ _ _ _ _) as [v2 g2| |] eqn:EU; cbn [seq_] in E; try discriminate E. injection E as <- <-.
    eexists. split; [rewrite (UPD _ _ _ _ EU); reflexivity|]. reflexivity.
Qed.

(** The emulator in use: events, newest first, with anything else the emulator
    does in between (frames, other vectors), which does not set the input. *)
Inductive used : list gui_event -> touches -> gui H -> Prop :=
| used_start g : consistent [] g -> used [] (mkTouches None None) g
| used_event h t e v g t' v' g' : used h t g -> event_typed e -> 0 <= s_w (g_screen g) < 65536 -> 0 <= s_h (g_screen g) < 65536 ->
    gui_handle e t v g = (t', Done _ v' g') -> used (e :: h) t' g'
| used_other h t g g' : used h t g -> g_mouse g' = g_mouse g -> g_controller g' = g_controller g -> used h t g'
| used_run h t pc v g v' g' : used h t g -> run_vector pc v g = Done _ v' g' -> used h t g'.
End Events.

(** During the run for an event and after it, the devices are what the events say. *)
Theorem C83_event :
  forall H hs now voices junk hi_first kw kr fuel e h t v (g : gui H),
  consistent h g -> is_touch_event e = false -> event_typed e ->
  0 <= s_w (g_screen g) < 65536 -> 0 <= s_h (g_screen g) < 65536 ->
  let handle := gui_handle H hs now voices junk hi_first kw kr fuel in
  exists g1, (consistent_during e h g1 /\ position g1 = placed e g) /\ same_but_input g g1 /\ fst (handle e t v g) = t /\
  match evaluate H hs now voices junk hi_first kw kr fuel (page_of e) v g1 with
  | Done _ v' g' => exists g2, snd (handle e t v g) = Done _ v' g2 /\ (consistent (e :: h) g2 /\ position g2 = position g1) /\ same_but_input g' g2
  | o => snd (handle e t v g) = o
  end.
Proof. intros. apply handle_event; assumption. Qed.
Print Assumptions C83_event.

(** So however the emulator is used, the state is that of the events. *)
Theorem C83_history :
  forall H hs now voices junk hi_first kw kr fuel h t (g : gui H), used H hs now voices junk hi_first kw kr fuel h t g ->
  Forall (fun e => is_touch_event e = false) h -> consistent h g.
Proof.
  intros H hs now voices junk hf kw kr fuel h t g U.
  induction U as [g C|h t e v g t' v' g' U IH T W1 W2 E|h t g g' U IH M K|h t pc v g v' g' U IH E]; intros F.
  - exact C.
  - inversion F as [|? ? NT F']; subst.
    destruct (handle_event H hs now voices junk hf kw kr fuel e h t v g (IH F') NT T W1 W2) as (g1 & _ & _ & _ & R). rewrite E in R. cbn [snd] in R.
    destruct (evaluate _ _ _ _ _ _ _ _ _ _ _ _) as [v1 g3| |]; [|discriminate R|discriminate R]. destruct R as (g2 & [= <- <-] & (C & _) & _). exact C.
  - specialize (IH F). unfold consistent in *. rewrite M, K. exact IH.
  - specialize (IH F). destruct (run_input H hs now voices junk hf kw kr fuel _ _ _ _ _ E) as (M & K). unfold consistent in *. rewrite M, K. exact IH.
Qed.
Print Assumptions C83_history.

(** What a program reads then. *)
Theorem C83_ports :
  forall H now voices h v (g : gui H), consistent h g ->
  gui_dei H now voices 150 v g = Ok (byte_of_bits (mouse_held h), v, g) /\
  gui_dei H now voices 130 v g = Ok (byte_of_bits (pad_held h), v, g).
Proof.
  intros H now voices h v g (M & _ & _ & K & _). unfold gui_dei. change (gui_dei_target 150) with Mouse. change (gui_dei_target 130) with Controller. cbv iota.
  change (mouse_dei v (g_mouse g) 150) with (u8 (m_state (g_mouse g))). change (controller_dei v (g_controller g) 130) with (k_buttons (g_controller g) 0).
  rewrite M, K. pose proof (bits_byte (mouse_held h)) as B. unfold is_byte in B. unfold u8. rewrite Z.mod_small by exact B. auto.
Qed.
Print Assumptions C83_ports.

(** Without a second finger on it, the touch screen holds no button. *)
Lemma bit0 f : Z.testbit (byte_of_bits f) 0 = f 0.
Proof. rewrite byte_of_bits_eq. destruct (f 0), (f 1), (f 2), (f 3), (f 4), (f 5), (f 6), (f 7); reflexivity. Qed.
Theorem C83_touch :
  forall H hs now voices junk hi_first kw kr fuel h t (g : gui H), used H hs now voices junk hi_first kw kr fuel h t g ->
  Forall (fun e => is_left_button e = false) h -> second_touch t = None -> Z.testbit (m_state (g_mouse g)) 0 = false.
Proof.
  intros H hs now voices junk hf kw kr fuel h t g U F.
  assert (X : exists f, m_state (g_mouse g) = byte_of_bits f /\ (second_touch t = None -> f 0 = false)).
  { revert F. induction U as [g C|h t e v g t' v' g' U IH T W1 W2 E|h t g g' U IH M K|h t pc v g v' g' U IH E]; intros F.
    - destruct C as (C & _). eexists. split; [exact C|]. reflexivity.
    - inversion F as [|? ? NL F']; subst. destruct (IH F') as (f & S & Z0). destruct (is_touch_event e) eqn:NT.
      + destruct e; try discriminate NT. destruct (touch_state H hs now voices junk hf kw kr fuel _ _ _ _ _ _ _ _ f E S) as (f' & S' & Z1). eauto.
      + destruct (handle_state H hs now voices junk hf kw kr fuel _ _ _ _ _ _ _ f E S NT) as (-> & f' & S' & Z1). exists f'. split; [exact S'|]. intros X. rewrite Z1; auto.
    - rewrite M. auto.
    - destruct (run_input H hs now voices junk hf kw kr fuel _ _ _ _ _ E) as (M & _). rewrite M. auto. }
  intros N. destruct X as (f & -> & Z0). rewrite bit0. auto.
Qed.
Print Assumptions C83_touch.

(** What the fingers on the touch screen do.  The first one drags the pointer,
    and holds the left button while a second one is down; lifting the second
    one is a click.  [g1] is [g] with the pointer at [pos] and the buttons [f]. *)
Definition pointer_at {H} (g : gui H) (pos : Z * Z) (f : Z -> bool) (g1 : gui H) : Prop :=
  position g1 = pos /\ m_state (g_mouse g1) = byte_of_bits f /\
  (m_sx (g_mouse g1), m_sy (g_mouse g1)) = (m_sx (g_mouse g), m_sy (g_mouse g)) /\ g_controller g1 = g_controller g /\ same_but_input g g1.
(** The buttons [f], but the left one. *)
Definition with_left (down : bool) (f : Z -> bool) (b : Z) : bool := if b =? 0 then down else f b.
Theorem C83_fingers :
  forall H hs now voices junk hi_first kw kr fuel kind id first second v (g : gui H) f,
  m_state (g_mouse g) = byte_of_bits f -> 0 <= s_w (g_screen g) < 65536 -> 0 <= s_h (g_screen g) < 65536 ->
  let run_mouse := evaluate H hs now voices junk hi_first kw kr fuel (Some 144) in
  let '(t', out) := gui_handle H hs now voices junk hi_first kw kr fuel (Touch kind id) (mkTouches first second) v g in
  let idle := out = Done _ v g in
  match kind with
  | Began =>
      idle /\ t' = match first, second with
                   | None, _ => mkTouches (Some id) second
                   | Some _, None => mkTouches first (Some id)
                   | Some _, Some _ => mkTouches first second
                   end
  | Moved dx dy =>
      t' = mkTouches first second /\ (first <> Some id -> idle) /\
      (first = Some id -> exists g1, out = run_mouse v g1 /\
        pointer_at g (clip (fst (position g) + dx) (s_w (g_screen g)), clip (snd (position g) + dy) (s_h (g_screen g)))
          (match second with Some _ => with_left true f | None => f end) g1)
  | Ended =>
      (first = Some id -> t' = mkTouches None second /\ idle) /\
      (first <> Some id -> second <> Some id -> t' = mkTouches first second /\ idle) /\
      (first <> Some id -> second = Some id -> t' = mkTouches first None /\
        exists g1, pointer_at g (position g) (with_left true f) g1 /\
        (* a click: the button goes down, unless it is down, and up *)
        match (if f 0 then Done _ v g1 else run_mouse v g1) with
        | Done _ v1 g2 => exists g3, pointer_at g2 (position g2) (with_left false f) g3 /\ out = run_mouse v1 g3
        | o => out = o
        end)
  end.
Proof.
  intros H hs now voices junk hf kw kr fuel kind id first second v g f S HW HH. cbv zeta.
  set (upd := gui_mouse_update H hs now voices junk hf kw kr fuel).
  assert (UPD : forall v g, upd v g = evaluate H hs now voices junk hf kw kr fuel (Some 144) v g) by (intros; apply mouse_update_eq).
  unfold gui_handle. cbn [gui_event_mouse gui_event_other].
  assert (DONE : forall o : outcome (gui H), seq_ H o (fun v g => Done _ v g) = o) by (intros []; reflexivity).
  assert (ISF : forall o, is_touch o id = true <-> o = Some id).
  { intros [i|]; cbn; split; intros X; try discriminate X; [f_equal; lia|inversion X; apply Z.eqb_refl]. }
  assert (EXT : forall b, byte_of_bits (fun x => if 0 =? x then b else f x) = byte_of_bits (with_left b f)).
  { intros b. apply byte_of_bits_ext. intros x _. unfold with_left. rewrite Z.eqb_sym. reflexivity. }
  assert (U16 : forall x l, 0 <= l < 65536 -> u16 (clamp_pos x l) = clip x l).
  { intros x l Hl. unfold clamp_pos, clip, u16. destruct (x <? 0) eqn:E1; [|destruct (x >? l) eqn:E2]; lia. }
  assert (PT : forall g m pos f', (m_x m, m_y m) = pos -> m_state m = byte_of_bits f' -> (m_sx m, m_sy m) = (m_sx (g_mouse g), m_sy (g_mouse g)) ->
    pointer_at g pos f' (set_mouse H g m)).
  { intros [] m pos f' P1 P2 P3. split; [exact P1|]. split; [exact P2|]. split; [exact P3|]. split; reflexivity. }
  destruct kind as [|dx dy|]; cbn [process_touch first_touch second_touch].
  - destruct first, second; cbn [seq_]; auto.
  - rewrite DONE. split; [reflexivity|]. split.
    { intros N. destruct (is_touch first id) eqn:E; [apply ISF in E; contradiction|reflexivity]. }
    intros ->. rewrite (proj2 (ISF _) eq_refl). destruct second.
    + unfold press. rewrite (mouse_button_eq f) by (auto; lia). cbn [rbind or_crash]. eexists. split; [apply UPD|].
      apply (PT g); cbn -[byte_of_bits clip]; [rewrite !U16 by assumption; reflexivity|apply EXT|reflexivity].
    + cbn [or_crash]. eexists. split; [apply UPD|].
      apply PT; cbn -[byte_of_bits clip]; [rewrite !U16 by assumption; reflexivity|exact S|reflexivity].
  - destruct (is_touch first id) eqn:E1.
    { apply ISF in E1 as ->. cbn [seq_]. split; [auto|]. split; intros N; contradiction. }
    assert (N1 : first <> Some id) by (intros X; apply ISF in X; congruence).
    destruct (is_touch second id) eqn:E2.
    2:{ assert (N2 : second <> Some id) by (intros X; apply ISF in X; congruence). cbn [seq_]. split; [intros X; contradiction|]. split; [auto|]. intros _ X; contradiction. }
    apply ISF in E2 as ->. rewrite DONE. split; [intros X; contradiction|]. split; [intros _ X; contradiction|]. intros _ _. split; [reflexivity|].
    unfold mouse_check_button. rewrite mouse_shift by lia. cbn [rbind or_crash]. rewrite S, test_bits by lia.
    unfold press. destruct (f 0) eqn:F0; cbn [negb].
    + exists g. split.
      { split; [reflexivity|]. split; [rewrite S; apply byte_of_bits_ext; intros b _; unfold with_left; destruct (b =? 0) eqn:Eb; [replace b with 0 by lia; exact F0|reflexivity]|]. destruct g; repeat split; reflexivity. }
      cbn [seq_]. rewrite (mouse_button_eq f) by (auto; lia). cbn [rbind or_crash]. eexists. split; [|apply UPD].
      apply PT; cbn -[byte_of_bits clip]; [reflexivity|apply EXT|reflexivity].
    + rewrite (mouse_button_eq f) by (auto; lia). cbn [rbind or_crash]. fold upd. match goal with |- context [upd v ?x] => exists x end. split.
      { apply PT; cbn -[byte_of_bits clip]; [reflexivity|apply EXT|reflexivity]. }
      set (g1 := set_mouse H g _). fold upd. rewrite <- (UPD v g1). destruct (upd v g1) as [v1 g2| |] eqn:EU; cbn [seq_]; try reflexivity.
      assert (S2 : m_state (g_mouse g2) = byte_of_bits (with_left true f)).
      { rewrite UPD in EU. destruct (evaluate_input _ _ _ _ _ _ _ _ _ _ _ _ _ _ EU) as (M & _). rewrite M. cbn -[byte_of_bits]. apply EXT. }
      rewrite (mouse_button_eq (with_left true f)) by (auto; lia). cbn [rbind or_crash]. eexists. split; [|apply UPD].
      apply PT; cbn -[byte_of_bits clip]; [reflexivity| |reflexivity].
      apply byte_of_bits_ext. intros b _. unfold with_left. rewrite Z.eqb_sym. destruct (b =? 0); reflexivity.
Qed.
Print Assumptions C83_fingers.

(** Keys that share a button are not told apart: with both control keys down,
    letting one go releases the button. *)
Definition ex_handle := gui_handle unit no_host (fun _ => None) (fun _ _ => mkVoice 0 0 0 0 0 0 0 0 0 0 0 0 0 0 0) (fun _ => 0) true 0 0 100.
Definition ex_events (es : list gui_event) : option (gui unit) :=
  fold_left (fun o e => match o with Some g => match snd (ex_handle e (mkTouches None None) (ex_prog []) g) with Done _ _ g' => Some g' | _ => None end | None => None end)
    es (Some ex_gui0).
Fixpoint key_down (k : key -> bool) (h : list gui_event) : bool :=
  match h with [] => false | Key k' down :: h => if k k' then down else key_down k h | _ :: h => key_down k h end.
Theorem C83_both_keys_refuted :
  exists es g, ex_events es = Some g /\ key_down (fun k => match k with LeftControl => true | _ => false end) (rev es) = true /\
  Z.testbit (k_buttons (g_controller g) 0) 0 = false.
Proof.
  exists [Key LeftControl true; Key RightControl true; Key RightControl false]. eexists. split; [vm_compute; reflexivity|]. split; reflexivity.
Qed.
Print Assumptions C83_both_keys_refuted.
(** A drag with a second finger, and a click. *)
Fixpoint ex_touches (es : list gui_event) (t : touches) (g : gui unit) : option (touches * gui unit) :=
  match es with
  | [] => Some (t, g)
  | e :: es => match ex_handle e t (ex_prog []) g with (t', Done _ _ g') => ex_touches es t' g' | _ => None end
  end.
Example C83_fingers_case :
  match ex_touches [Touch Began 7; Touch (Moved 30 20) 7; Touch Began 9; Touch (Moved (-5) 3) 7; Touch (Moved 1 1) 9] (mkTouches None None) ex_gui0 with
  | Some (t, g) => (t, position g, m_state (g_mouse g)) = (mkTouches (Some 7) (Some 9), (25, 23), 1)
  | None => False
  end.
Proof. vm_compute. reflexivity. Qed.
(** The pointer can be one pixel outside the screen. *)
Theorem C83_position_refuted :
  exists x y g, ex_events [MouseMove x y] = Some g /\ ~ m_x (g_mouse g) < s_w (g_screen g).
Proof. exists 500, 10. eexists. split; [vm_compute; reflexivity|]. cbn. lia. Qed.
Print Assumptions C83_position_refuted.
Example C83_case :
  match ex_events [MouseButton 0 true; MouseButton 1 true; Key Up true; MouseButton 0 false; Char 97 false true false; Scroll 1 2; MouseMove 5 (-3)] with
  | Some g => (m_state (g_mouse g), k_buttons (g_controller g) 0, k_ch (g_controller g), m_sy (g_mouse g), position g) = (4, 18, 0, 0, (5, 0))
  | None => False
  end.
Proof. vm_compute. reflexivity. Qed.
