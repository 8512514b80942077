(** Proofs about wire.c: what the client is told (C55) and a lost client (C56). *)
From Coq Require Import ZifyBool.
From Verif Require Import Base VmModel VmSpec VmProofs DbgModel DbgSpec DbgProofs DbgHits DbgSteps DbgRun
  ProtoModel ProtoSpec ProtoProofs.

(** ** Sending *)
Definition sent (w : wire) (vs : list value) : wire :=
  mkWire (w_in w) (w_open w) (w_room w - length vs) (w_sent w ++ vs) (w_reply w) (w_pause w) (w_cmd w).

Lemma send_ok w m M vs : carries m M vs -> (3 <= w_room w)%nat -> send w m = POk (sent w vs, true).
Proof.
  intros (Hl & Hw & _) Hr. destruct (Hw (w_room w - length vs)%nat (w_sent w)) as (m1 & E).
  replace (length vs + (w_room w - length vs))%nat with (w_room w) in E by lia.
  unfold protocol_msg in E. unfold send.
  destruct (msg_header (Wr (w_room w) (w_sent w)) m) as [[x m2]|s|f]; cbn [pbind] in E; try discriminate.
  destruct (sent_of x). rewrite E. reflexivity.
Qed.

Lemma notify_ok w m M vs : carries m M vs -> (3 <= w_room w)%nat -> w_open w = true ->
  notify w m = POk (sent w vs).
Proof. intros H1 H2 H3. unfold notify. rewrite H3, (send_ok _ _ _ _ H1 H2). reflexivity. Qed.

Lemma no_cmd_typed t a b : c_typed (mkM t a b no_cmd).
Proof. split; cbn; unfold is_short, is_byte; lia. Qed.

Lemma reads_carried m M vs rest Ms : carries m M vs -> reads_as rest Ms -> reads_as (vs ++ rest) (M :: Ms).
Proof.
  intros (_ & _ & H) HR. apply reads_cons with (s' := rest); auto.
  intros m0 Hp. destruct (H m0 rest Hp) as (m' & E & Hh & _). eauto.
Qed.

(** ** The commands to come *)
Inductive stream_of : list cmd -> list value -> Prop :=
| stream_nil : stream_of [] []
| stream_cons c cs m vs s : carries m (MsgReq c) vs -> stream_of cs s -> stream_of (c :: cs) (vs ++ s).

Lemma written_stream cs s : written (map MsgReq cs) s -> Forall request_ok cs -> stream_of cs s.
Proof.
  revert s. induction cs as [|c cs IH]; intros s H Hok; inversion H; subst; [constructor|].
  inversion Hok; subst. destruct (round_trip m (MsgReq c)) as (vs' & C); auto.
  assert (vs = vs').
  { pose proof C as (Hl & Hw & _). destruct (Hw (room - length vs')%nat out) as (m1 & E).
    replace (length vs' + (room - length vs'))%nat with room in E by lia.
    match goal with H : protocol_msg _ _ = POk (Wr room' _, _) |- _ => rewrite E in H; injection H as _ E6 _ end. apply app_inv_head in E6. auto. }
  subst vs'. eapply stream_cons; eauto.
Qed.

Definition in_ok (w : wire) (input : list cmd) : Prop :=
  match input with
  | [] => w_in w = None \/ w_in w = Some []
  | _ => exists s, w_in w = Some s /\ stream_of input s
  end.

Lemma stream_in_ok w input s : w_in w = Some s -> stream_of input s -> in_ok w input.
Proof. intros E H. destruct input; [|cbn; eauto]. inversion H; subst. cbn. auto. Qed.

(** ** Event sequences *)
Inductive place : Type := Outside | Began | Serving.

Fixpoint shape (p : place) (log : list event) : Prop :=
  match log with
  | [] => p = Outside
  | EvBeginExec _ :: l | EvEndExec :: l => p = Outside /\ shape Outside l
  | EvBeginBreak _ :: l => p = Outside /\ shape Began l
  | EvCmd _ _ :: l => p <> Outside /\ shape Serving l
  | EvEndBreak :: l => p <> Outside /\ shape Outside l
  end.

Definition event_ok (e : event) : Prop :=
  match e with
  | EvBeginExec a => is_short a
  | EvBeginBreak id => is_byte id
  | EvCmd c r => reply_fits c r
  | _ => True
  end.

(** The commands of the log are taken from the front of [input]; what is left. *)
Fixpoint takes (input : list cmd) (log : list event) (rest : list cmd) : Prop :=
  match log with
  | [] => input = rest
  | EvCmd c _ :: l =>
      match input with
      | [] => c = CmdResume /\ takes [] l rest
      | c' :: input' => c = c' /\ takes input' l rest
      end
  | _ :: l => takes input l rest
  end.

Definition pause_notice (p : place) (log : list event) : list message :=
  match p, log with Began, EvCmd _ _ :: _ => [MsgPaused] | _, _ => [] end.

Lemma transcript_break input id l :
  transcript input (EvBeginBreak id :: l) = MsgBeginBreak id :: pause_notice Began l ++ transcript input l.
Proof. destruct l as [|[] l]; reflexivity. Qed.

(** ** The wire serves the core *)
(** The reply that has not been sent yet. *)
Definition pending (w : wire) (pend : option (cmd * reply)) : Prop :=
  w_reply w = match pend with Some _ => true | None => false end /\
  match pend with
  | Some (c, r) => holds (mkM 6 0 0 (w_cmd w)) (MsgRep c r) /\ message_ok (MsgRep c r) /\
                   c_typed (mkM 6 0 0 (w_cmd w))
  | None => True
  end.
Definition pending_msg (pend : option (cmd * reply)) : list message :=
  match pend with Some (c, r) => [MsgRep c r] | None => [] end.

Lemma maybe_reply_ok w pend : pending w pend -> w_open w = true -> (3 * length (pending_msg pend) <= w_room w)%nat ->
  exists vs, maybe_reply w = POk (set_reply (sent w vs) false) /\ (length vs <= 3 * length (pending_msg pend))%nat /\
    (forall rest Ms, reads_as rest Ms -> reads_as (vs ++ rest) (pending_msg pend ++ Ms)).
Proof.
  intros [E1 E2] Ho Hr. unfold maybe_reply. rewrite Ho, E1. destruct pend as [[c r]|]; cbn [andb].
  - destruct E2 as (H1 & H2 & H3). destruct (round_trip _ _ H1 H2 H3) as (vs & C). exists vs.
    cbn [pending_msg length] in Hr. rewrite (send_ok _ _ _ _ C) by lia. cbn [pbind].
    split; auto. split; [cbn; destruct C; lia|]. intros. cbn. eapply reads_carried; eauto.
  - exists []. split; [|split; [cbn; lia|auto]]. destruct w; cbn in *. unfold sent, set_reply. cbn.
    rewrite app_nil_r, Nat.sub_0_r, E1. reflexivity.
Qed.

Lemma maybe_pause_ok w : w_open w = true -> (3 <= w_room w)%nat ->
  exists vs, maybe_send_pause w = POk (set_pause (sent w vs) false) /\
    (length vs <= 3 * (if w_pause w then 1 else 0))%nat /\
    (forall rest Ms, reads_as rest Ms ->
       reads_as (vs ++ rest) ((if w_pause w then [MsgPaused] else []) ++ Ms)).
Proof.
  intros Ho Hr. unfold maybe_send_pause. rewrite Ho. destruct (w_pause w) eqn:Ep; cbn [andb].
  - destruct (round_trip (mkM 4 0 0 no_cmd) MsgPaused) as (vs & C); [reflexivity|exact I|apply no_cmd_typed|].
    exists vs. rewrite (send_ok _ _ _ _ C) by lia. cbn [pbind].
    split; auto. split; [destruct C; lia|]. intros. cbn. eapply reads_carried; eauto.
  - exists []. split; [|split; [cbn; lia|auto]]. destruct w; cbn in *. unfold sent, set_pause. cbn.
    rewrite app_nil_r, Nat.sub_0_r, Ep. reflexivity.
Qed.

(** The answer of the core ends up in the reply. *)
Lemma answer_holds w c r : holds_cmd (w_cmd w) c -> reply_fits c r -> request_ok c ->
  c_typed (mkM 6 0 0 (w_cmd w)) ->
  let q := w_cmd (wire_answer w r) in
  holds (mkM 6 0 0 q) (MsgRep c r) /\ message_ok (MsgRep c r) /\ c_typed (mkM 6 0 0 q).
Proof.
  intros Hc Hf Ho [T1 T2]. cbv zeta. split; [|split; [split; auto|]].
  - split; [reflexivity|].
    destruct c as [[]| | | | |id|id b|addr size|addr size values|addr size|addr size values|], r; cbn in Hf;
      try contradiction; cbn in Hc |- *; auto; intuition; try (exists []; rewrite app_nil_r; auto).
  - destruct r; cbn; split; auto; destruct c as [[]| | | | | | | | | | |]; cbn in Hf; tauto.
Qed.

Section Feed.
Variable junk : list event -> cmsg.
Hypothesis Hjunk : forall l, c_typed (junk l).

Lemma feed_ok log : forall p pend input w rest,
  shape p log -> (pend <> None -> p = Serving) ->
  (p = Began -> w_pause w = true) -> (p = Serving -> w_pause w = false) ->
  w_open w = true -> in_ok w input -> pending w pend ->
  Forall event_ok log -> Forall request_ok input -> takes input log rest ->
  (3 * length (pending_msg pend ++ pause_notice p log ++ transcript input log) <= w_room w)%nat ->
  exists w' qs vs,
    wire_feed junk w log = POk (w', qs) /\ w_sent w' = w_sent w ++ vs /\
    reads_as vs (pending_msg pend ++ pause_notice p log ++ transcript input log) /\
    Forall2 handed_out qs (executed log).
Proof.
  induction log as [|e log IH]; intros p pend input w rest Hs Hpp Hb Hsv Ho Hin Hpe Hev Hrq Htk Hroom.
  - cbn in Hs. subst p. assert (pend = None) by (destruct pend; auto; discriminate Hpp; discriminate).
    subst pend. exists w, [], []. cbn. rewrite app_nil_r. repeat split; constructor.
  - inversion Hev as [|? ? He Hev']; subst.
    assert (Hout : p = Outside -> pend = None).
    { intros ->. destruct pend; auto. discriminate Hpp. discriminate. }
    assert (NOTE : forall m M p' w0, event_ok e -> p = Outside -> p' <> Serving ->
       holds m M -> message_ok M -> c_typed m ->
       shape p' log -> takes input log rest ->
       w0 = set_pause w (w_pause w0) -> (p' = Began -> w_pause w0 = true) ->
       pause_notice p (e :: log) ++ transcript input (e :: log) =
         M :: pause_notice p' log ++ transcript input log ->
       executed (e :: log) = executed log ->
       exists vs1, notify w0 m = POk (sent w0 vs1) /\
       exists w' qs vs, wire_feed junk (sent w0 vs1) log = POk (w', qs) /\ w_sent w' = w_sent w ++ vs /\
         reads_as vs (pending_msg pend ++ pause_notice p (e :: log) ++ transcript input (e :: log)) /\
         Forall2 handed_out qs (executed (e :: log))).
    { intros m M p' w0 _ Ep Hp' Hh Hok Hty Hsh Htk' Ew Hb' Et Ex. rewrite (Hout Ep) in *.
      destruct (round_trip _ _ Hh Hok Hty) as (vs1 & C).
      cbn [pending_msg app] in Hroom |- *. rewrite Et in Hroom |- *. cbn [length] in Hroom.
      assert (R0 : w_room w0 = w_room w) by (rewrite Ew; reflexivity).
      exists vs1. split. { apply (notify_ok _ _ _ _ C); [lia|]. rewrite Ew. exact Ho. }
      destruct (IH p' None input (sent w0 vs1) rest) as (w' & qs & vs & F1 & F2 & F3 & F4); auto.
      - congruence.
      - intros ->. congruence.
      - cbn. rewrite Ew. exact Ho.
      - assert (E : w_in (sent w0 vs1) = w_in w) by (cbn; rewrite Ew; reflexivity).
        unfold in_ok. rewrite E. exact Hin.
      - destruct Hpe as [E1 _]. split; [cbn; rewrite Ew; exact E1|exact I].
      - cbn [w_room sent pending_msg app]. rewrite R0. destruct C as [Hl _]. lia.
      - exists w', qs, (vs1 ++ vs). split; auto. split.
        + rewrite F2. cbn. rewrite Ew, <- app_assoc. reflexivity.
        + split; [|rewrite Ex; auto]. eapply reads_carried; eauto. }
    destruct e as [a|id|c r| |]; cbn [shape] in Hs.
    + destruct Hs as [Ep Hs]. destruct (NOTE (mkM 0 a 0 no_cmd) (MsgBeginExec a) Outside w)
        as (vs1 & E & w' & qs & vs & F); auto; try discriminate; try (split; reflexivity).
      * apply no_cmd_typed.
      * destruct w; reflexivity.
      * rewrite Ep. reflexivity.
      * exists w', qs, vs. destruct F as (F & G). split; [|exact G].
        cbn [wire_feed]. unfold wire_begin_exec. rewrite E. cbn [pbind]. rewrite F. reflexivity.
    + destruct Hs as [Ep Hs]. destruct (NOTE (mkM 2 0 id no_cmd) (MsgBeginBreak id) Began (set_pause w true))
        as (vs1 & E & w' & qs & vs & F); auto; try discriminate; try (split; reflexivity).
      * apply no_cmd_typed.
      * rewrite Ep. cbn [pause_notice app]. apply transcript_break.
      * exists w', qs, vs. destruct F as (F & G). split; [|exact G].
        cbn [wire_feed]. unfold wire_begin_break. rewrite Ho, E. cbn [pbind]. rewrite F. reflexivity.
    + (* a command *)
      destruct Hs as [Hne Hs]. cbn [wire_feed]. unfold wire_next_command.
      assert (P1 : exists vs0, maybe_send_pause w = POk (set_pause (sent w vs0) false) /\
        (length vs0 <= 3 * length (pause_notice p (EvCmd c r :: log)))%nat /\
        (forall s Ms, reads_as s Ms -> reads_as (vs0 ++ s) (pause_notice p (EvCmd c r :: log) ++ Ms))).
      { destruct p; [congruence| |].
        - destruct (maybe_pause_ok w Ho) as (vs0 & E & Hl & Hr).
          { rewrite !app_length in Hroom. cbn [pause_notice length] in Hroom. lia. }
          rewrite (Hb eq_refl) in Hl, Hr. exists vs0. auto.
        - exists []. split; [|split; [cbn; lia|auto]]. unfold maybe_send_pause.
          rewrite Ho, (Hsv eq_refl). destruct w; cbn in *. unfold sent, set_pause. cbn.
          rewrite app_nil_r, Nat.sub_0_r, (Hsv eq_refl). reflexivity. }
      destruct P1 as (vs0 & E0 & L0 & R0). rewrite E0. cbn [pbind].
      assert (Pp : pend = None \/ pause_notice p (EvCmd c r :: log) = []).
      { destruct pend; auto. right. rewrite Hpp by discriminate. reflexivity. }
      set (w0 := set_pause (sent w vs0) false).
      assert (Hpe0 : pending w0 pend) by exact Hpe.
      destruct (maybe_reply_ok w0 pend Hpe0) as (vs1 & E1 & L1 & R1); [exact Ho| |].
      { cbn. rewrite !app_length in Hroom. lia. }
      rewrite E1. cbn [pbind]. set (w1 := set_reply (sent w0 vs1) false).
      assert (RR : forall s Ms, reads_as s Ms ->
        reads_as (vs0 ++ vs1 ++ s) (pending_msg pend ++ pause_notice p (EvCmd c r :: log) ++ Ms)).
      { intros s Ms H. destruct Pp as [-> |En].
        - cbn [pending_msg app] in *. apply R0. apply R1 in H. exact H.
        - rewrite En in *. cbn [app length] in *. apply (R1 s Ms) in H. apply R0 in H. exact H. }
      assert (Win : w_in w1 = w_in w) by reflexivity. rewrite Win.
      assert (Ws : w_sent w1 = (w_sent w ++ vs0) ++ vs1) by reflexivity.
      assert (Wr1 : (w_room w <= w_room w1 + length vs0 + length vs1)%nat) by (cbn; lia).
      destruct input as [|c' input']; cbn [takes] in Htk; destruct Htk as [Ec Htk].
      * (* nothing to come: resume *)
        cbn [transcript] in Hroom |- *.
        assert (LOST : exists wl, (match w_in w with
            | Some inp =>
              match protocol_msg (Rd inp) (junk log) with
              | PFault f => PFault f
              | PErr _ => POk (mkWire None (w_open w1) (w_room w1) (w_sent w1) (w_reply w1) (w_pause w1) (w_cmd w1), None)
              | POk (x, m) =>
                if m_type m =? 5 then
                  POk (mkWire (Some match x with Rd rest => rest | Wr _ _ => [] end)
                        (w_open w1) (w_room w1) (w_sent w1) true (w_pause w1) (m_cmd m), Some (m_cmd m))
                else POk (mkWire None (w_open w1) (w_room w1) (w_sent w1) (w_reply w1) (w_pause w1) (w_cmd w1), None)
              end
            | None => POk (w1, None)
            end) = POk (wl, None) /\ wl = mkWire (w_in wl) (w_open w1) (w_room w1) (w_sent w1) (w_reply w1) (w_pause w1) (w_cmd w1) /\ in_ok wl []).
        { destruct Hin as [Hin|Hin]; rewrite Hin.
          - exists w1. split; auto. split; [destruct w1; reflexivity|]. left. rewrite Win. exact Hin.
          - eexists. cbn. split; [reflexivity|]. split; [reflexivity|]. left. reflexivity. }
        destruct LOST as (wl & El & Ewl & Hinl). rewrite El. cbn [pbind].
        destruct (IH Serving None [] wl rest) as (w' & qs & vs & F1 & F2 & F3 & F4); auto; try congruence.
        -- intros _. rewrite Ewl. reflexivity.
        -- rewrite Ewl. exact Ho.
        -- split; [rewrite Ewl; reflexivity|exact I].
        -- cbn [pending_msg pause_notice app] in *. rewrite Ewl. cbn [w_room].
           rewrite !app_length in Hroom. lia.
        -- rewrite F1. cbn [pbind app]. exists w', (None :: qs), (vs0 ++ vs1 ++ vs).
           split; auto. split.
           { rewrite F2, Ewl. cbn [w_sent]. rewrite Ws, !app_assoc. reflexivity. }
           split; [apply RR; exact F3|]. cbn [executed]. constructor; auto.
      * (* a command of the client *)
        subst c'. destruct Hin as (s & Hin & Hst). rewrite Hin. inversion Hst as [|? ? m vs2 s' Hc Hst']; subst.
        inversion Hrq as [|? ? Hrc Hrq']; subst.
        pose proof Hc as (_ & _ & Hrd). destruct (Hrd (junk log) s' I) as (m' & Em & Hm & Hty).
        rewrite Em. destruct Hm as [Ht Hm]. rewrite Ht. change (5 =? 5) with true. cbn iota; cbn [pbind].
        set (w2 := mkWire (Some s') (w_open w1) (w_room w1) (w_sent w1) true (w_pause w1) (m_cmd m')).
        assert (Hty' : c_typed (mkM 6 0 0 (w_cmd w2))) by (exact (Hty (Hjunk log))).
        destruct (answer_holds w2 c r Hm He Hrc Hty') as (A1 & A2 & A3).
        cbn [transcript] in Hroom |- *.
        destruct (IH Serving (Some (c, r)) input' (wire_answer w2 r) rest) as (w' & qs & vs & F1 & F2 & F3 & F4);
          auto; try discriminate.
        -- apply (stream_in_ok _ _ s'); auto.
        -- split; [reflexivity|]. auto.
        -- cbn [pending_msg pause_notice app length] in *. cbn [wire_answer w_room w2].
           rewrite !app_length in Hroom. cbn [length] in Hroom. lia.
        -- cbv zeta in F1. cbn [pbind]. rewrite F1. cbn [pbind app].
           exists w', (Some (m_cmd m') :: qs), (vs0 ++ vs1 ++ vs).
           split; auto. split.
           { rewrite F2. cbn [wire_answer w_sent w2]. rewrite Ws, !app_assoc. reflexivity. }
           split; [apply RR; exact F3|]. cbn [executed]. constructor; auto.
    + (* the end of a break *)
      destruct Hs as [Hne Hs].
      assert (En : pause_notice p (EvEndBreak :: log) = []) by (destruct p; reflexivity).
      rewrite En in *. cbn [app transcript] in Hroom |- *.
      cbn [wire_feed]. unfold wire_end_break.
      rewrite !app_length in Hroom. cbn [length] in Hroom.
      destruct (maybe_reply_ok w pend Hpe Ho) as (vs1 & E1 & L1 & R1); [lia|].
      rewrite E1. cbn [pbind]. set (w1 := set_reply (sent w vs1) false).
      destruct (round_trip (mkM 3 0 0 no_cmd) MsgEndBreak) as (vs2 & C); [reflexivity|exact I|apply no_cmd_typed|].
      assert (Wr1 : (w_room w <= w_room w1 + length vs1)%nat) by (cbn; lia).
      rewrite (notify_ok w1 _ _ _ C) by (auto; lia). cbn [pbind].
      destruct (IH Outside None input (sent w1 vs2) rest) as (w' & qs & vs & F1 & F2 & F3 & F4); auto; try congruence.
      * split; reflexivity.
      * cbn [pending_msg pause_notice app]. cbn [sent w_room]. destruct C as [Hl _]. lia.
      * rewrite F1. cbn [pbind app]. exists w', qs, (vs1 ++ vs2 ++ vs). split; auto. split.
        { rewrite F2. cbn. rewrite !app_assoc. reflexivity. }
        split; auto. apply R1. eapply reads_carried; eauto.
    + destruct Hs as [Ep Hs]. destruct (NOTE (mkM 1 0 0 no_cmd) MsgEndExec Outside w)
        as (vs1 & E & w' & qs & vs & F); auto; try discriminate; try reflexivity.
      * apply no_cmd_typed.
      * destruct w; reflexivity.
      * rewrite Ep. reflexivity.
      * exists w', qs, vs. destruct F as (F & G). split; [|exact G].
        cbn [wire_feed]. unfold wire_end_exec. rewrite E. cbn [pbind]. rewrite F. reflexivity.
Qed.
End Feed.

(** ** The core takes the commands in order *)
Lemma takes_app l1 l2 : forall a b c, takes a l1 b -> takes b l2 c -> takes a (l1 ++ l2) c.
Proof.
  induction l1 as [|e l1 IH]; intros a b c; cbn [takes app].
  - intros ->. auto.
  - destruct e; eauto. destruct a; intros [-> H] H2; eauto.
Qed.

Lemma shape_app l1 l2 : forall p, shape p l1 -> shape Outside l2 -> shape p (l1 ++ l2).
Proof.
  induction l1 as [|e l1 IH]; intros p; cbn [shape app].
  - intros ->. auto.
  - destruct e; intros [? ?] ?; auto.
Qed.
Lemma shape_group g : break_group g -> shape Outside g.
Proof.
  intros [id Hid|id asked go r Ha Hg]; cbn.
  - split; auto. split; auto; discriminate.
  - split; auto. assert (A : forall p, p <> Outside -> shape p (asked ++ [EvCmd go r; EvEndBreak])).
    { induction Ha as [|e asked (c & r' & -> & _) _ IH]; intros p Hp; cbn.
      - repeat split; auto; discriminate.
      - split; auto. apply IH. discriminate. }
    apply A. discriminate.
Qed.
Lemma shape_groups g : break_groups g -> shape Outside g.
Proof. induction 1; [reflexivity|]. apply shape_app; auto. apply shape_group; auto. Qed.
Lemma shape_sessions l : sessions l -> shape Outside l.
Proof.
  induction 1 as [|pc s rest (g & Hg & ->) _ IH]; [reflexivity|].
  cbn. split; auto. apply shape_app; auto. apply shape_app; [apply shape_groups; auto|cbn; auto].
Qed.

Section Core.
Variable W : Type.
Variable dei : Z -> vm -> W -> res (Z * vm * W).
Variable deo : Z -> vm -> W -> res (vm * W).
Hypothesis HH : host_well_typed dei deo.

Lemma from_reachable input s : reachable_from W dei deo input s -> reachable W dei deo s.
Proof. induction 1; [constructor 1|constructor 2|constructor 3]; auto. Qed.

Lemma serve_fits pc c v d w g r v' d' w' : cmd_ok c -> well_typed v -> is_short pc -> tab_inv d ->
  serve W dei deo pc c v d w = Ok (g, r, v', d', w') -> reply_fits c r.
Proof.
  intros Hc Hv Hp Hd. pose proof (ti_n _ Hd) as Hn.
  destruct c as [[]| | | | |id|id b|addr size|addr size values|addr size|addr size values|]; cbn [DbgModel.serve];
    intros H; try (injection H as <- <- <- <- <-; exact I).
  - injection H as <- <- <- <- <-. exact Hp.
  - injection H as <- <- <- <- <-. split; [apply Hv|]. reflexivity.
  - injection H as <- <- <- <- <-. split; [apply Hv|]. reflexivity.
  - injection H as <- <- <- <- <-. cbn. unfold is_byte. lia.
  - unfold BRKP_NONE in H. destruct (Z.eqb_spec id 255).
    + injection H as <- <- <- <- <-. cbn. auto.
    + apply rbind_ok in H as (b & Eb & H). injection H as <- <- <- <- <-. cbn. split; auto.
      unfold tab_get in Eb. destruct (in_bounds 255 id) eqn:Ei; [|discriminate]. injection Eb as <-.
      apply (ti_ok _ Hd). unfold in_bounds in Ei. lia.
  - apply rbind_ok in H as (d1 & _ & H). injection H as <- <- <- <- <-. exact I.
  - destruct Hc as [_ Hsz]. unfold is_byte in Hsz.
    pose proof (dev_read_cases W dei deo HH (Z.to_nat size) 0 addr v w Hv) as Hc.
    destruct (dev_read_loop W dei (Z.to_nat size) 0 addr v w) as [[[l v1] w1]|f]; cbn [rbind] in H; [|discriminate].
    injection H as <- <- <- <- <-. cbn. lia.
  - apply rbind_ok in H as ([v1 w1] & _ & H). injection H as <- <- <- <- <-. exact I.
  - destruct Hc as [_ Hsz]. unfold is_short in Hsz.
    destruct (mem_read_spec v ltac:(apply Hv) (Z.to_nat size) 0 addr) as (l & E & Hl & _).
    rewrite E in H. cbn [rbind] in H. injection H as <- <- <- <- <-. cbn. lia.
  - apply rbind_ok in H as (l & _ & H). injection H as <- <- <- <- <-. exact I.
Qed.

Lemma pause_takes pc : is_short pc -> forall input log v d w v' d' w' input' log',
  Forall cmd_ok input -> well_typed v -> T log d ->
  pause_loop W dei deo input pc log v d w = Ok (v', d', w', input', log') ->
  exists ev, log' = log ++ ev /\ takes input ev input' /\ Forall event_ok ev.
Proof.
  intros Hp. induction input as [|c rest IH]; intros log v d w v' d' w' input' log' Hok Hv HT; cbn [DbgModel.pause_loop].
  - intros H. cbn in H. injection H as <- <- <- <- <-. eexists. split; [reflexivity|].
    split; [cbn; auto|]. repeat constructor.
  - intros H. apply rbind_ok in H as ([[[[g r] v1] d1] w1] & E & H). inversion Hok; subst.
    pose proof (serve_fits _ _ _ _ _ _ _ _ _ _ H2 Hv Hp (proj1 HT) E) as Hf.
    pose proof (serve_cases W dei deo pc c v d w HH H2 Hv) as Hv1. rewrite E in Hv1.
    pose proof (T_serve _ _ _ _ _ _ _ _ _ _ _ _ _ _ H2 HT E) as HT1.
    destruct g.
    + apply IH in H as (ev & -> & Ht & He); auto. exists (EvCmd c r :: ev). rewrite <- app_assoc.
      split; auto. split; [cbn; auto|]. constructor; auto.
    + injection H as <- <- <- <- <-. exists [EvCmd c r]. split; auto. split; [cbn; auto|]. repeat constructor. auto.
Qed.

Lemma hook_takes pc v w s v' w' s' : reachable W dei deo s -> is_short pc -> well_typed v ->
  dbg_hook W dei deo pc v (w, s) = Ok (v', (w', s')) ->
  exists ev, ds_log s' = ds_log s ++ ev /\ takes (ds_in s) ev (ds_in s') /\ Forall event_ok ev.
Proof.
  intros HR Hp Hv H. pose proof (reachable_T _ _ _ _ HR) as [HT Hok].
  destruct s as [d0 input log0]. cbn [ds_dbg ds_in ds_log] in *.
  apply hook_cases in H. cbv zeta in H. destruct H as (id & d' & log4 & E1 & E2 & E3 & E4).
  set (d := set_executing d0 true) in *.
  set (start := if negb (d_executing d0) then [EvBeginExec pc] else []) in *.
  assert (HT1 : T (log0 ++ start) d).
  { unfold start. destruct (negb _).
    - apply T_other with (d := d0); auto; discriminate.
    - rewrite app_nil_r. apply T_same with (d := d0); auto. }
  destruct (match_brkp_range d (negb (d_executing d0)) pc v (proj1 HT1) Hv Hp) as (id' & E & Hid).
  rewrite E1 in E. injection E as <-.
  assert (Hidb : is_byte id) by (pose proof (ti_n _ (proj1 HT1)); unfold is_byte; unfold BRKP_NONE in *; lia).
  assert (Hstart : forall l, takes l start l /\ Forall event_ok start).
  { intros l. unfold start. destruct (negb _); cbn; split; auto. }
  set (fin := if vm_mem v' pc =? 0 then [EvEndExec] else []) in *.
  assert (Hfin : forall l, takes l fin l /\ Forall event_ok fin).
  { intros l. unfold fin. destruct (_ =? 0); cbn; split; auto. repeat constructor. }
  destruct (stop_now d v id).
  - destruct E2 as (log3 & E2 & ->).
    destruct (pause_takes pc Hp _ _ _ _ _ _ _ _ _ _ Hok Hv (T_other _ _ (EvBeginBreak id) d HT1 ltac:(discriminate) eq_refl eq_refl eq_refl) E2)
      as (ev & -> & Ht & He).
    exists (start ++ [EvBeginBreak id] ++ ev ++ [EvEndBreak] ++ fin). split.
    { rewrite E4, <- !app_assoc. reflexivity. }
    split.
    + eapply takes_app; [apply Hstart|]. cbn [app takes]. eapply takes_app; [exact Ht|]. cbn. apply Hfin.
    + apply Forall_app. split; [apply (Hstart input)|]. constructor; auto. apply Forall_app. split; auto.
      constructor; [exact I|]. apply (Hfin input).
  - destruct E2 as (-> & -> & -> & E2 & ->).
    exists (start ++ (if id =? BRKP_NONE then [] else [EvBeginBreak id; EvEndBreak]) ++ fin). split.
    { rewrite E4, <- !app_assoc. reflexivity. }
    rewrite E2. split.
    + eapply takes_app; [apply Hstart|]. destruct (id =? BRKP_NONE); cbn; apply Hfin.
    + apply Forall_app. split; [apply (Hstart input)|].
      destruct (id =? BRKP_NONE); cbn; [|constructor; auto; constructor; [exact I|]]; apply (Hfin input).
Qed.

Lemma from_takes input s : reachable_from W dei deo input s ->
  takes input (ds_log s) (ds_in s) /\ Forall event_ok (ds_log s).
Proof.
  induction 1 as [Hin|s HR IH|c HR [IH1 IH2] (Hp & Hv & w & w' & H)].
  - cbn. auto.
  - exact IH.
  - apply hook_takes in H as (ev & -> & Ht & He); auto.
    + split; [eapply takes_app; eauto|]. apply Forall_app. auto.
    + eapply from_reachable; eauto.
Qed.

Lemma from_shape input s : reachable_from W dei deo input s -> shape Outside (ds_log s).
Proof.
  intros HR. apply from_reachable, reachable_nested in HR as (closed & Hc & H).
  apply shape_sessions in Hc. destruct (d_executing _).
  - destruct H as (pc & rest & (g & Hg & ->) & ->). apply shape_app; auto. cbn. split; auto.
    apply shape_groups; auto.
  - rewrite H. exact Hc.
Qed.

(** C55 *)
Lemma client_told junk input stream s w :
  (forall l, c_typed (junk l)) -> Forall request_ok input -> written (map MsgReq input) stream ->
  reachable_from W dei deo input s -> connected w stream ->
  (3 * length (transcript input (ds_log s)) <= w_room w)%nat ->
  exists w' qs, wire_feed junk w (ds_log s) = POk (w', qs) /\
    reads_as (w_sent w') (transcript input (ds_log s)) /\
    Forall2 handed_out qs (executed (ds_log s)).
Proof.
  intros Hj Hrq Hw HR (C1 & C2 & C3 & C4 & C5) Hroom.
  pose proof (from_takes _ _ HR) as [Ht He]. pose proof (from_shape _ _ HR) as Hs.
  apply written_stream in Hw; auto.
  destruct (feed_ok junk Hj (ds_log s) Outside None input w (ds_in s)) as (w' & qs & vs & F1 & F2 & F3 & F4);
    auto; try congruence.
  - eapply stream_in_ok; eauto.
  - split; [exact C4|exact I].
  - exists w', qs. split; auto. rewrite F2, C3. auto.
Qed.
End Core.

(** ** C56: a client that is gone *)
Lemma send_keeps w m w' ok : send w m = POk (w', ok) ->
  w_in w' = w_in w /\ w_open w' = w_open w /\ w_reply w' = w_reply w /\ w_pause w' = w_pause w.
Proof.
  unfold send. destruct (msg_header _ m) as [[x m1]|s|f]; try discriminate.
  - destruct (sent_of x). destruct (msg_body x m1) as [[x' m2]|s|f]; try discriminate.
    + destruct (sent_of x'). intros H. injection H as <- <-. auto.
    + intros H. injection H as <- <-. auto.
  - intros H. injection H as <- <-. auto.
Qed.

Lemma maybe_reply_in w w' : maybe_reply w = POk w' -> w_in w = None -> w_in w' = None.
Proof.
  unfold maybe_reply. destruct (_ && _); [|intros H; injection H as <-; auto].
  destruct (send w _) as [[w1 ok]|s|f] eqn:E; try discriminate. apply send_keeps in E as (E & _).
  intros H. injection H as <-. destruct ok; cbn; congruence.
Qed.
Lemma maybe_pause_in w w' : maybe_send_pause w = POk w' -> w_in w = None -> w_in w' = None.
Proof.
  unfold maybe_send_pause. destruct (_ && _); [|intros H; injection H as <-; auto].
  destruct (send w _) as [[w1 ok]|s|f] eqn:E; try discriminate. apply send_keeps in E as (E & _).
  intros H. injection H as <-. destruct ok; cbn; congruence.
Qed.

Lemma next_command_lost w junk w' q : wire_next_command w junk = POk (w', q) ->
  (w_in w = None -> q = None) /\ (q = None -> w_in w' = None).
Proof.
  unfold wire_next_command. intros H.
  destruct (maybe_send_pause w) as [w1|s|f] eqn:E1; try discriminate. cbn [pbind] in H.
  destruct (maybe_reply w1) as [w2|s|f] eqn:E2; try discriminate. cbn [pbind] in H.
  split.
  - intros Hn. apply (maybe_pause_in _ _ E1) in Hn. apply (maybe_reply_in _ _ E2) in Hn.
    rewrite Hn in H. injection H as _ <-. reflexivity.
  - intros ->. destruct (w_in w2) eqn:E.
    + destruct (protocol_msg _ junk) as [[x m]|s|f]; try discriminate.
      * destruct (m_type m =? 5); [discriminate|]. injection H as <-. reflexivity.
      * injection H as <-. reflexivity.
    + injection H as <-. exact E.
Qed.

Lemma closed_silent junk log : forall w w' qs, w_open w = false ->
  wire_feed junk w log = POk (w', qs) -> w_sent w' = w_sent w /\ w_open w' = false.
Proof.
  assert (R : forall w, w_open w = false -> maybe_reply w = POk w) by (intros w E; unfold maybe_reply; rewrite E; reflexivity).
  assert (S : forall w, w_open w = false -> maybe_send_pause w = POk w) by (intros w E; unfold maybe_send_pause; rewrite E; reflexivity).
  assert (N : forall w m, w_open w = false -> notify w m = POk w) by (intros w m E; unfold notify; rewrite E; reflexivity).
  induction log as [|e log IH]; intros w w' qs Ho H; cbn [wire_feed] in H.
  - injection H as <- <-. auto.
  - destruct e as [a|id|c r| |].
    + unfold wire_begin_exec in H. rewrite N in H by auto. cbn [pbind] in H.
      destruct (wire_feed junk w log) as [[w1 qs1]|s|f] eqn:E; try discriminate. injection H as <- <-. eauto.
    + unfold wire_begin_break in H. rewrite Ho in H. cbn [pbind] in H.
      destruct (wire_feed junk w log) as [[w1 qs1]|s|f] eqn:E; try discriminate. injection H as <- <-. eauto.
    + unfold wire_next_command in H. rewrite S in H by auto. cbn [pbind] in H. rewrite R in H by auto. cbn [pbind] in H.
      set (X := match w_in w with Some _ => _ | None => _ end) in H.
      destruct X as [[w1 q]|s|f] eqn:EX; try discriminate. cbn [pbind] in H.
      assert (K : w_sent w1 = w_sent w /\ w_open w1 = false).
      { subst X. destruct (w_in w); [|injection EX as <- <-; auto].
        destruct (protocol_msg _ _) as [[x m]|s|f]; try discriminate.
        - destruct (m_type m =? 5); injection EX as <- <-; auto.
        - injection EX as <- <-; auto. }
      destruct K as [K1 K2].
      set (w2 := match q with Some _ => wire_answer w1 r | None => w1 end) in H.
      assert (K' : w_sent w2 = w_sent w /\ w_open w2 = false) by (subst w2; destruct q; auto).
      destruct K' as [K1' K2'].
      destruct (wire_feed junk w2 log) as [[w3 qs1]|s|f] eqn:E; try discriminate. injection H as <- <-.
      apply IH in E; auto. destruct E. split; congruence.
    + unfold wire_end_break in H. rewrite R in H by auto. cbn [pbind] in H. rewrite N in H by auto. cbn [pbind] in H.
      destruct (wire_feed junk w log) as [[w1 qs1]|s|f] eqn:E; try discriminate. injection H as <- <-. eauto.
    + unfold wire_end_exec in H. rewrite N in H by auto. cbn [pbind] in H.
      destruct (wire_feed junk w log) as [[w1 qs1]|s|f] eqn:E; try discriminate. injection H as <- <-. eauto.
Qed.
