(** Proofs about the wire protocol: reading undoes writing. *)
From Coq Require Import ZifyBool.
From Verif Require Import Base VmModel VmSpec DbgModel DbgSpec ProtoModel ProtoSpec.

Lemma u8_small x : 0 <= x < 256 -> u8 x = x.
Proof. intros. unfold u8. apply Z.mod_small. lia. Qed.

(** The default branches. *)
Lemma cmd_body_other req x q : 11 <= q_type q -> cmd_body req x q = POk (x, q).
Proof.
  intros H. unfold cmd_body. destruct (q_type q) as [|p|p]; try lia.
  do 4 (try (destruct p as [p|p|]; try reflexivity; try lia)).
Qed.
Lemma info_other x q : q_type q = 0 -> 4 <= q_info q -> cmd_body false x q = POk (x, q).
Proof.
  intros E H. unfold cmd_body. rewrite E. destruct (q_info q) as [|p|p]; try lia.
  do 3 (try (destruct p as [p|p|]; try reflexivity; try lia)).
Qed.

Lemma int_back bits y x : 0 <= y < 2 ^ bits -> rw_int bits (Some (VInt y)) x = POk (VInt y, y).
Proof. intros H. unfold rw_int. replace (_ && _) with true by lia. reflexivity. Qed.

Lemma mint_write bits get set q : mint bits get set None q = POk (VInt (get q), set q (get q)).
Proof. reflexivity. Qed.
Lemma mint_read bits get set y q : 0 <= y < 2 ^ bits ->
  mint bits get set (Some (VInt y)) q = POk (VInt y, set q y).
Proof. intros H. unfold mint. rewrite int_back by auto. reflexivity. Qed.

Lemma firstn_values (l beyond : list Z) n : Z.of_nat (length l) = n ->
  firstn (Z.to_nat n) (l ++ beyond) = l.
Proof.
  intros H. replace (Z.to_nat n) with (length l + 0)%nat by lia.
  rewrite firstn_app_2. cbn. apply app_nil_r.
Qed.

Lemma blob_write len cap l beyond : Z.of_nat (length l) = len ->
  rw_blob len cap None (l ++ beyond) = POk (VBlob l, (l ++ beyond, len)).
Proof.
  intros H. unfold rw_blob. rewrite app_length. replace (_ <=? _) with true by lia.
  rewrite firstn_values by auto. reflexivity.
Qed.
Lemma blob_read len cap l old : Z.of_nat (length l) <= len -> Z.of_nat (length l) <= cap ->
  rw_blob len cap (Some (VBlob l)) old = POk (VBlob l, (l, Z.of_nat (length l))).
Proof.
  intros H1 H2. unfold rw_blob. replace (_ <=? len) with true by lia.
  replace (_ <=? cap) with true by lia. reflexivity.
Qed.

(** The three values of a message. *)
Lemma write_msg room out m t : m_type m = t -> 0 <= t < 256 ->
  protocol_msg (Wr (S room) out) m = msg_body (Wr room (out ++ [VInt t])) (set_mtype m t).
Proof.
  intros E H. unfold protocol_msg, msg_header, item. rewrite E, u8_small by auto. reflexivity.
Qed.
Lemma read_msg rest m t : 0 <= t < 256 ->
  protocol_msg (Rd (VInt t :: rest)) m = msg_body (Rd rest) (set_mtype m t).
Proof.
  intros H. unfold protocol_msg, msg_header, item. rewrite int_back by (change (2 ^ 8) with 256; auto). reflexivity.
Qed.

Definition is_cmd (req : bool) : Z := if req then 5 else 6.
Lemma write_cmd room out m req t : m_type m = is_cmd req -> q_type (m_cmd m) = t -> 0 <= t < 256 ->
  protocol_msg (Wr (S (S room)) out) m =
  pbind (cmd_body req (Wr room ((out ++ [VInt (is_cmd req)]) ++ [VInt t])) (set_qtype (m_cmd m) t))
    (fun '(x, q) => POk (x, set_mcmd (set_mtype m (is_cmd req)) q)).
Proof.
  intros E1 E2 H. rewrite (write_msg _ _ _ (is_cmd req)) by (auto; unfold is_cmd; destruct req; lia).
  unfold msg_body. destruct req; cbn -[cmd_body u8 rw_int];
    change (u8 5) with 5; change (u8 6) with 6; rewrite E2, (u8_small t) by auto; reflexivity.
Qed.
Lemma read_cmd rest m req t : 0 <= t < 256 ->
  protocol_msg (Rd (VInt (is_cmd req) :: VInt t :: rest)) m =
  pbind (cmd_body req (Rd rest) (set_qtype (m_cmd m) t))
    (fun '(x, q) => POk (x, set_mcmd (set_mtype m (is_cmd req)) q)).
Proof.
  intros H. rewrite read_msg by (unfold is_cmd; destruct req; lia).
  unfold msg_body. destruct req; cbn -[cmd_body u8 rw_int];
    change (u8 5) with 5; change (u8 6) with 6; cbn -[cmd_body rw_int];
    rewrite int_back by (change (2 ^ 8) with 256; auto); reflexivity.
Qed.

(** ** Round trip *)
(** [vs] is the encoding of [m], and reading it recovers [M]. *)
Definition carries (m : cmsg) (M : message) (vs : list value) : Prop :=
  (length vs <= 3)%nat /\
  (forall room out, exists m1,
     protocol_msg (Wr (length vs + room) out) m = POk (Wr room (out ++ vs), m1)) /\
  (forall m0 rest, prepared m0 M -> exists m',
     protocol_msg (Rd (vs ++ rest)) m0 = POk (Rd rest, m') /\ holds m' M /\ (c_typed m0 -> c_typed m')).

(** A command whose body is [v], or empty. *)
Lemma carries_cmd m M req t body :
  m_type m = is_cmd req -> q_type (m_cmd m) = t -> 0 <= t < 256 -> (length body <= 1)%nat ->
  (forall room out, exists q,
     cmd_body req (Wr (length body + room) out) (set_qtype (m_cmd m) t) = POk (Wr room (out ++ body), q)) ->
  (forall m0 rest, prepared m0 M -> exists q,
     cmd_body req (Rd (body ++ rest)) (set_qtype (m_cmd m0) t) = POk (Rd rest, q) /\
     holds (set_mcmd (set_mtype m0 (is_cmd req)) q) M /\
     (c_typed m0 -> is_short (q_baddr q) /\ is_byte (q_bmask q))) ->
  carries m M (VInt (is_cmd req) :: VInt t :: body).
Proof.
  intros E1 E2 Ht Hl Hw Hr. split; [cbn; lia|]. split.
  - intros room out. destruct (Hw room ((out ++ [VInt (is_cmd req)]) ++ [VInt t])) as (q & E).
    cbn [length Nat.add]. rewrite (write_cmd _ _ _ req t) by auto. rewrite E. cbn.
    eexists. do 3 f_equal. rewrite <- !app_assoc. reflexivity.
  - intros m0 rest Hp. destruct (Hr m0 rest Hp) as (q & E & Hh & Ht').
    cbn [app]. rewrite read_cmd by auto. rewrite E. cbn. eexists. split; [reflexivity|]. split; auto.
Qed.

Ltac small := unfold is_byte, is_short, is_bytes in *; try change (2 ^ 8) with 256; try change (2 ^ 16) with 65536; cbn [set_qtype q_type q_info]; lia.
Ltac same_cmd req t body := exists (VInt (is_cmd req) :: VInt t :: body); apply carries_cmd;
  [assumption|assumption|lia|cbn; lia| |].

Lemma round_trip m M : holds m M -> message_ok M -> c_typed m -> exists vs, carries m M vs.
Proof.
  intros Hm Hok Hty. destruct M as [addr| |id| | |c|c r]; cbn [holds message_ok] in *.
  - destruct Hm as [E1 E2]. exists [VInt 0; VInt addr]. split; [cbn; lia|]. split.
    + intros room out. eexists. cbn [length Nat.add]. rewrite (write_msg _ _ _ 0) by (auto; lia).
      cbn. rewrite <- app_assoc, E2. reflexivity.
    + intros m0 rest _. eexists. cbn [app]. rewrite read_msg by lia. unfold msg_body. cbn -[rw_int].
      rewrite int_back by (change (2 ^ 16) with 65536; unfold is_short in Hok; lia). cbn. auto.
  - exists [VInt 1]. split; [cbn; lia|]. split; intros; eexists; cbn [length Nat.add app];
      [rewrite (write_msg _ _ _ 1) by (auto; lia)|rewrite read_msg by lia]; cbn; auto.
  - destruct Hm as [E1 E2]. exists [VInt 2; VInt id]. split; [cbn; lia|]. split.
    + intros room out. eexists. cbn [length Nat.add]. rewrite (write_msg _ _ _ 2) by (auto; lia).
      cbn. rewrite <- app_assoc, E2. reflexivity.
    + intros m0 rest _. eexists. cbn [app]. rewrite read_msg by lia. unfold msg_body. cbn -[rw_int].
      rewrite int_back by (change (2 ^ 8) with 256; unfold is_byte in Hok; lia). cbn. auto.
  - exists [VInt 3]. split; [cbn; lia|]. split; intros; eexists; cbn [length Nat.add app];
      [rewrite (write_msg _ _ _ 3) by (auto; lia)|rewrite read_msg by lia]; cbn; auto.
  - exists [VInt 4]. split; [cbn; lia|]. split; intros; eexists; cbn [length Nat.add app];
      [rewrite (write_msg _ _ _ 4) by (auto; lia)|rewrite read_msg by lia]; cbn; auto.
  - (* requests *)
    destruct Hm as [E1 Hq]. change 5 with (is_cmd true) in E1.
    destruct c as [i| | | | |id|id b|addr size|addr size values|addr size|addr size values|];
      cbn [holds_cmd request_ok] in *.
    + destruct Hq as [Hq Hi]. same_cmd true 0 [VInt (q_info (m_cmd m))].
      * intros; eexists; reflexivity.
      * intros m0 rest _. cbn -[mint]. rewrite mint_read by (destruct i; cbn [is_info] in *; small). cbn.
        eexists; split; [reflexivity|]. split; auto.
    + same_cmd true 1 (@nil value); intros; cbn; rewrite ?app_nil_r; eauto 10.
    + same_cmd true 2 (@nil value); intros; cbn; rewrite ?app_nil_r; eauto 10.
    + same_cmd true 3 (@nil value); intros; cbn; rewrite ?app_nil_r; eauto 10.
    + same_cmd true 4 (@nil value); intros; cbn; rewrite ?app_nil_r; eauto 10.
    + destruct Hq as [Hq Q1]. same_cmd true 5 [VInt id].
      * intros; eexists; cbn. rewrite Q1. reflexivity.
      * intros m0 rest _. cbn -[mint]. rewrite mint_read by small. cbn. eauto 10.
    + destruct Hq as (Hq & Q1 & Q2 & Q3), Hok as (K1 & K2 & K3).
      same_cmd true 6 [VRec [(KId, VInt id); (KAddr, VInt (b_addr b)); (KMask, VInt (b_mask b))]].
      * intros; eexists; cbn. rewrite Q1, Q2, Q3. reflexivity.
      * intros m0 rest _. cbn -[mint]. rewrite mint_read by small. cbn -[mint].
        rewrite mint_read by small. cbn -[mint]. rewrite mint_read by small. cbn.
        eexists; split; [reflexivity|]. auto 10.
    + destruct Hq as (Hq & Q1 & Q2), Hok as (K1 & K2).
      same_cmd true 7 [VRec [(KAddr, VInt addr); (KSize, VInt size)]].
      * intros; eexists; cbn. rewrite Q1, Q2. reflexivity.
      * intros m0 rest _. cbn -[mint]. rewrite mint_read by small. cbn -[mint].
        rewrite mint_read by small. cbn. eauto 10.
    + destruct Hq as (Hq & Q1 & Q2 & Q3 & beyond & Q4), Hok as (K1 & K2 & K3).
      same_cmd true 8 [VRec [(KAddr, VInt addr); (KValues, VBlob values)]].
      * intros; cbn -[rw_blob]; unfold write_values; cbn -[rw_blob]. rewrite Q1, Q2, Q4, blob_write by auto. cbn. eauto.
      * intros m0 rest _. cbn -[mint write_values]. rewrite mint_read by small. cbn -[mint rw_blob]; unfold write_values; cbn -[mint rw_blob u8].
        rewrite blob_read by small. cbn. eexists; split; [reflexivity|].
        rewrite K3, u8_small by small. cbn. split; [|auto]. unfold is_bytes. intuition.
        exists []. rewrite app_nil_r. auto.
    + destruct Hq as (Hq & Q1 & Q2), Hok as (K1 & K2).
      same_cmd true 9 [VRec [(KAddr, VInt addr); (KSize, VInt size)]].
      * intros; cbn; unfold mem_read_size; cbn. rewrite Q1, Q2. change MAX_MEM_ACCESS with 4096. replace (4096 <? size) with false by lia.
        cbn. eauto.
      * intros m0 rest _. cbn -[mint]. rewrite mint_read by small. cbn -[mint]; unfold mem_read_size.
        rewrite mint_read by small. cbn. change MAX_MEM_ACCESS with 4096.
        replace (4096 <? size) with false by lia. cbn. eauto 10.
    + destruct Hq as (Hq & Q1 & Q2 & Q3 & beyond & Q4), Hok as (K1 & K2 & K3).
      same_cmd true 10 [VRec [(KAddr, VInt addr); (KValues, VBlob values)]].
      * intros; cbn -[rw_blob]; unfold write_values; cbn -[rw_blob]. rewrite Q1, Q2, Q4, blob_write by auto. cbn. eauto.
      * intros m0 rest _. cbn -[mint write_values]. rewrite mint_read by small. cbn -[mint rw_blob]; unfold write_values; cbn -[mint rw_blob u8].
        rewrite blob_read by (change MAX_MEM_ACCESS with 4096; small). cbn. eexists; split; [reflexivity|].
        rewrite K3, u8_small by small. cbn. split; [|auto]. unfold is_bytes. intuition.
        exists []. rewrite app_nil_r. auto.
    + exists (VInt (is_cmd true) :: VInt (q_type (m_cmd m)) :: []). apply carries_cmd; auto; try lia.
      * intros. rewrite cmd_body_other by (cbn [set_qtype q_type]; lia). rewrite app_nil_r. eauto.
      * intros m0 rest _. rewrite cmd_body_other by (cbn [set_qtype q_type]; lia). eexists; split; [reflexivity|].
        split; [split; [reflexivity|exact Hq]|auto].
  - (* replies *)
    destruct Hm as (E1 & Hq & Hr). destruct Hok as [Hok Hfit]. change 6 with (is_cmd false) in E1.
    destruct Hty as [Hty1 Hty2].
    destruct c as [i| | | | |id|id b|addr size|addr size values|addr size|addr size values|];
      cbn [holds_cmd request_ok] in *.
    + destruct Hq as [Hq Hi]. destruct i, r; cbn in Hfit, Hr, Hi; try contradiction.
      * same_cmd false 0 [VInt pc].
        -- intros; cbn. rewrite Hi. cbn. rewrite Hr. eauto.
        -- intros m0 rest [Hp1 Hp2]. cbn in Hp1, Hp2. cbn -[mint]. rewrite Hp2. cbn -[mint].
           rewrite mint_read by small. cbn. eexists; split; [reflexivity|]. cbn. auto.
      * destruct Hr as [R1 R2], Hfit as [F1 F2]. same_cmd false 0 [VRec [(KPointer, VInt pointer); (KData, VBlob data)]].
        -- intros; cbn -[rw_blob]. rewrite Hi. cbn -[rw_blob]; unfold stack_data; cbn -[rw_blob]. rewrite R1, R2.
           pose proof (blob_write 256 256 data []) as B. rewrite app_nil_r in B. rewrite B by lia. cbn. eauto.
        -- intros m0 rest [Hp1 Hp2]. cbn in Hp1, Hp2. cbn -[mint stack_data]. rewrite Hp2. cbn -[mint stack_data].
           rewrite mint_read by small. cbn -[rw_blob]; unfold stack_data. rewrite blob_read by (rewrite F2; lia). cbn -[Z.of_nat].
           rewrite F2. cbn. eexists; split; [reflexivity|]. cbn. auto 10.
      * destruct Hr as [R1 R2], Hfit as [F1 F2]. same_cmd false 0 [VRec [(KPointer, VInt pointer); (KData, VBlob data)]].
        -- intros; cbn -[rw_blob]. rewrite Hi. cbn -[rw_blob]; unfold stack_data; cbn -[rw_blob]. rewrite R1, R2.
           pose proof (blob_write 256 256 data []) as B. rewrite app_nil_r in B. rewrite B by lia. cbn. eauto.
        -- intros m0 rest [Hp1 Hp2]. cbn in Hp1, Hp2. cbn -[mint stack_data]. rewrite Hp2. cbn -[mint stack_data].
           rewrite mint_read by small. cbn -[rw_blob]; unfold stack_data. rewrite blob_read by (rewrite F2; lia). cbn -[Z.of_nat].
           rewrite F2. cbn. eexists; split; [reflexivity|]. cbn. auto 10.
      * same_cmd false 0 [VInt n].
        -- intros; cbn. rewrite Hi. cbn. rewrite Hr. eauto.
        -- intros m0 rest [Hp1 Hp2]. cbn in Hp1, Hp2. cbn -[mint]. rewrite Hp2. cbn -[mint].
           rewrite mint_read by small. cbn. eexists; split; [reflexivity|]. cbn. auto.
      * same_cmd false 0 (@nil value).
        -- intros. rewrite info_other by (first [assumption|reflexivity|cbn [set_qtype q_type q_info]; lia]). rewrite app_nil_r. eauto.
        -- intros m0 rest [Hp1 Hp2]. cbn in Hp1, Hp2. rewrite info_other by (first [assumption|reflexivity|cbn [set_qtype q_type q_info]; lia]).
           eexists; split; [reflexivity|]. cbn. auto.
    + destruct r; try contradiction. same_cmd false 1 (@nil value); intros; cbn; rewrite ?app_nil_r; eauto 10.
    + destruct r; try contradiction. same_cmd false 2 (@nil value); intros; cbn; rewrite ?app_nil_r; eauto 10.
    + destruct r; try contradiction. same_cmd false 3 (@nil value); intros; cbn; rewrite ?app_nil_r; eauto 10.
    + destruct r; try contradiction. same_cmd false 4 (@nil value); intros; cbn; rewrite ?app_nil_r; eauto 10.
    + destruct Hq as [Hq Q1]. same_cmd false 5 [VRec [(KAddr, VInt (q_baddr (m_cmd m))); (KMask, VInt (q_bmask (m_cmd m)))]].
      * intros; cbn; eauto.
      * intros m0 rest Hp. cbn in Hp. destruct Hp as [P1 P2]. cbn -[mint]. rewrite mint_read by small. cbn -[mint].
        rewrite mint_read by small. cbn. eexists; split; [reflexivity|]. cbn.
        split; [|auto]. split; auto. split; auto.
        destruct r; cbn in *; auto; contradiction.
    + destruct r; try contradiction. destruct Hq as (Hq & _). same_cmd false 6 (@nil value).
      * intros; cbn; rewrite ?app_nil_r; eauto 10.
      * intros m0 rest Hp; cbn in *. eexists; split; [reflexivity|]. split; [cbn; tauto|intros []; cbn; auto].
    + destruct r; try contradiction. cbn in Hfit, Hr. destruct Hr as [beyond Hr]. destruct Hq as (Hq & Q1 & Q2).
      same_cmd false 7 [VBlob l].
      * intros; cbn -[rw_blob]; unfold read_reply; cbn -[rw_blob]. rewrite Q2, Hr, blob_write by auto. cbn -[Z.eqb]. rewrite Z.eqb_refl. cbn. eauto.
      * intros m0 rest Hp. cbn in Hp. destruct Hp as (P1 & P2 & P3). cbn -[rw_blob]; unfold read_reply; cbn -[rw_blob].
        rewrite P3, blob_read by lia. cbn -[Z.eqb Z.of_nat]. rewrite Hfit, Z.eqb_refl. cbn.
        eexists; split; [reflexivity|]. cbn. split; [|auto]. intuition. exists []. rewrite app_nil_r. auto.
    + destruct r; try contradiction. destruct Hq as (Hq & _). same_cmd false 8 (@nil value).
      * intros; cbn; rewrite ?app_nil_r; eauto 10.
      * intros m0 rest Hp; cbn in *. eexists; split; [reflexivity|]. split; [cbn; tauto|intros []; cbn; auto].
    + destruct r; try contradiction. cbn in Hfit, Hr. destruct Hr as [beyond Hr]. destruct Hq as (Hq & Q1 & Q2).
      same_cmd false 9 [VBlob l].
      * intros; cbn -[rw_blob]; unfold read_reply; cbn -[rw_blob]. rewrite Q2, Hr, blob_write by auto. cbn -[Z.eqb]. rewrite Z.eqb_refl. cbn. eauto.
      * intros m0 rest Hp. cbn in Hp. destruct Hp as (P1 & P2 & P3). cbn -[rw_blob]; unfold read_reply; cbn -[rw_blob].
        rewrite P3, blob_read by lia. cbn -[Z.eqb Z.of_nat]. rewrite Hfit, Z.eqb_refl. cbn.
        eexists; split; [reflexivity|]. cbn. split; [|auto]. intuition. exists []. rewrite app_nil_r. auto.
    + destruct r; try contradiction. destruct Hq as (Hq & _). same_cmd false 10 (@nil value).
      * intros; cbn; rewrite ?app_nil_r; eauto 10.
      * intros m0 rest Hp; cbn in *. eexists; split; [reflexivity|]. split; [cbn; tauto|intros []; cbn; auto].
    + destruct r; try contradiction.
      exists (VInt (is_cmd false) :: VInt (q_type (m_cmd m)) :: []). apply carries_cmd; auto; try lia.
      * intros. rewrite cmd_body_other by small. rewrite app_nil_r. eauto.
      * intros m0 rest Hp. rewrite cmd_body_other by small. cbn. eexists; split; [reflexivity|]. auto.
Qed.

(** ** The limits *)
Lemma mem_write_long m addr n values :
  holds m (MsgReq (CmdMemWrite addr n values)) -> is_short addr -> n <= 4096 ->
  exists vs,
    (forall room out, exists m1, protocol_msg (Wr (length vs + room) out) m = POk (Wr room (out ++ vs), m1)) /\
    (forall m0 rest, exists m',
       protocol_msg (Rd (vs ++ rest)) m0 = POk (Rd rest, m') /\
       holds m' (MsgReq (CmdMemWrite addr (n mod 256) (firstn (Z.to_nat (n mod 256)) values)))).
Proof.
  intros (E1 & Hq & Q1 & Q2 & Q3 & beyond & Q4) Ha Hn.
  exists (VInt (is_cmd true) :: VInt 10 :: [VRec [(KAddr, VInt addr); (KValues, VBlob values)]]). split.
  - intros room out. cbn [length Nat.add]. rewrite (write_cmd _ _ _ true 10) by (auto; lia).
    cbn -[rw_blob]; unfold write_values; cbn -[rw_blob]. rewrite Q1, Q2, Q4, blob_write by auto. cbn.
    rewrite <- !app_assoc. eauto.
  - intros m0 rest. cbn [app]. rewrite read_cmd by lia. cbn -[mint write_values].
    rewrite mint_read by small. cbn -[mint rw_blob]; unfold write_values; cbn -[mint rw_blob u8].
    rewrite blob_read by (change MAX_MEM_ACCESS with 4096; lia). cbn -[u8 firstn Z.of_nat].
    eexists; split; [reflexivity|]. cbn -[u8 firstn Z.modulo]. rewrite Q3. unfold u8, is_bytes.
    assert (0 <= n mod 256 <= n).
    { pose proof (Z.mod_pos_bound n 256 ltac:(lia)). pose proof (Z.mod_le n 256 ltac:(lia) ltac:(lia)). lia. }
    repeat split; auto.
    + rewrite firstn_length. lia.
    + exists (skipn (Z.to_nat (n mod 256)) values). symmetry. apply firstn_skipn.
Qed.

Lemma mem_write_too_long m addr n values :
  holds m (MsgReq (CmdMemWrite addr n values)) -> is_short addr -> 4096 < n ->
  exists vs,
    (forall room out, exists m1, protocol_msg (Wr (length vs + room) out) m = POk (Wr room (out ++ vs), m1)) /\
    (forall m0 rest, protocol_msg (Rd (vs ++ rest)) m0 = PErr SMalformed).
Proof.
  intros (E1 & Hq & Q1 & Q2 & Q3 & beyond & Q4) Ha Hn.
  exists (VInt (is_cmd true) :: VInt 10 :: [VRec [(KAddr, VInt addr); (KValues, VBlob values)]]). split.
  - intros room out. cbn [length Nat.add]. rewrite (write_cmd _ _ _ true 10) by (auto; lia).
    cbn -[rw_blob]; unfold write_values; cbn -[rw_blob]. rewrite Q1, Q2, Q4, blob_write by auto. cbn.
    rewrite <- !app_assoc. eauto.
  - intros m0 rest. cbn [app]. rewrite read_cmd by lia. cbn -[mint write_values].
    rewrite mint_read by small. cbn -[mint rw_blob]; unfold write_values; cbn -[mint rw_blob u8].
    unfold rw_blob. change MAX_MEM_ACCESS with 4096. replace (_ <=? 4096) with false by lia. reflexivity.
Qed.

Lemma mem_read_too_long m addr n room out :
  holds m (MsgReq (CmdMemRead addr n)) -> 4096 < n ->
  protocol_msg (Wr (S (S (S room))) out) m = PErr SMalformed.
Proof.
  intros (E1 & Hq & Q1 & Q2) Hn. rewrite (write_cmd _ _ _ true 9) by (auto; lia).
  cbn; unfold mem_read_size; cbn. rewrite Q1, Q2. change MAX_MEM_ACCESS with 4096.
  replace (4096 <? n) with true by lia. reflexivity.
Qed.

(** ** Reading never leaves the buffers *)
Definition no_fault {A} (r : pres A) : Prop := match r with PFault _ => False | _ => True end.

Lemma no_fault_bind A B (r : pres A) (f : A -> pres B) :
  no_fault r -> (forall a, no_fault (f a)) -> no_fault (pbind r f).
Proof. destruct r; cbn; auto. Qed.

Lemma int_safe bits v x : no_fault (rw_int bits (Some v) x).
Proof. destruct v; cbn; auto. destruct (_ && _); cbn; auto. Qed.
Lemma mint_safe bits get set v q : no_fault (mint bits get set (Some v) q).
Proof. apply no_fault_bind; [apply int_safe|]. intros [? ?]. exact I. Qed.
Lemma blob_safe len cap v l : len <= cap -> no_fault (rw_blob len cap (Some v) l).
Proof.
  intros H. destruct v; cbn -[Z.of_nat]; auto. destruct (Z.leb_spec (Z.of_nat (length bytes)) len); cbn; auto.
  replace (_ <=? cap) with true by lia. exact I.
Qed.
Lemma stack_data_safe v q : no_fault (stack_data (Some v) q).
Proof.
  apply no_fault_bind; [apply blob_safe; lia|]. intros [? [? len]]. destruct (negb (len =? 256)); exact I.
Qed.
Lemma read_reply_safe v q : no_fault (read_reply (Some v) q).
Proof.
  apply no_fault_bind; [apply blob_safe; lia|]. intros [? [? len]]. destruct (negb (len =? q_size q)); exact I.
Qed.
Lemma write_values_safe max v q : max <= 4096 -> no_fault (write_values max (Some v) q).
Proof. intros H. apply no_fault_bind; [apply blob_safe; auto|]. intros [? [? ?]]. exact I. Qed.
Lemma mem_read_size_safe v q : no_fault (mem_read_size (Some v) q).
Proof.
  apply no_fault_bind; [apply mint_safe|]. intros [? ?]. destruct (_ <? _); exact I.
Qed.
Lemma fields_safe (fs : list (@field ccmd)) :
  Forall (fun kf => forall v q, no_fault (snd kf (Some v) q)) fs ->
  forall kvs q, no_fault (read_fields fs kvs q).
Proof.
  intros H. induction kvs as [|[k v] kvs IH]; intros q; cbn; auto.
  destruct (field_of fs k) as [f|] eqn:E; auto. apply no_fault_bind; [|intros [? ?]; apply IH].
  clear IH. induction fs as [|[k' f'] fs IH]; [discriminate|]. inversion H; subst. cbn in E.
  destruct (key_eqb k k'); [injection E as <-; apply H2|apply IH; auto].
Qed.
Lemma record_safe (fs : list (@field ccmd)) v q :
  Forall (fun kf => forall v q, no_fault (snd kf (Some v) q)) fs -> no_fault (rw_record fs (Some v) q).
Proof.
  intros H. destruct v; cbn; auto. apply no_fault_bind; [apply fields_safe; auto|]. intros ?. exact I.
Qed.
Lemma item_safe A (f : option value -> A -> pres (value * A)) inp a :
  (forall v a, no_fault (f (Some v) a)) -> no_fault (item f (Rd inp) a).
Proof.
  intros H. destruct inp; cbn; auto. apply no_fault_bind; auto. intros [? ?]. exact I.
Qed.

Lemma read_safe inp m : no_fault (protocol_msg (Rd inp) m).
Proof.
  unfold protocol_msg, msg_header.
  destruct inp as [|v inp]; [exact I|]. cbn [item].
  destruct (rw_int 8 (Some v) (u8 (m_type m))) as [[v' t]|s|f] eqn:E; cbn [pbind]; [|exact I|].
  2:{ pose proof (int_safe 8 v (u8 (m_type m))) as H. rewrite E in H. exact H. }
  set (m1 := set_mtype m t). clearbody m1. clear.
  assert (C : forall req x q, reading x = true -> no_fault (cmd_body req x q)).
  { intros req x q Hx. destruct x as [|s]; [discriminate|]. unfold cmd_body.
    assert (HF : forall fs, Forall (fun kf => forall v q, no_fault (snd kf (Some v) q)) fs ->
      no_fault (item (rw_record fs) (Rd s) q)).
    { intros fs H. apply item_safe. intros. apply record_safe. auto. }
    assert (HI : forall bits get set, no_fault (item (mint bits get set) (Rd s) q)).
    { intros. apply item_safe. intros. apply mint_safe. }
    assert (H0 : forall (P : ctx * ccmd), no_fault (POk P)) by (intros; exact I).
    repeat match goal with
    | |- no_fault (match ?e with _ => _ end) => destruct e
    end; auto;
    try (apply item_safe; intros; apply read_reply_safe);
    apply HF; repeat constructor; cbn [snd]; intros;
      auto using mint_safe, stack_data_safe, mem_read_size_safe;
      apply write_values_safe; unfold MAX_MEM_ACCESS; lia. }
  unfold msg_body.
  assert (C5 : no_fault (pbind (item (rw_int 8) (Rd inp) (u8 (q_type (m_cmd m1)))) (fun '(x, t) =>
      pbind (cmd_body (u8 (m_type m1) =? 5) x (set_qtype (m_cmd m1) t)) (fun '(x, q) =>
      POk (x, set_mcmd m1 q))))).
  { destruct inp as [|v inp]; [exact I|]. cbn [item].
    pose proof (int_safe 8 v (u8 (q_type (m_cmd m1)))) as H.
    destruct (rw_int 8 (Some v) _) as [[v' t]|s|f]; cbn [pbind]; [|exact I|exact H].
    apply no_fault_bind; [apply C; reflexivity|]. intros [? ?]. exact I. }
  assert (CI : forall bits x k, no_fault (pbind (item (rw_int bits) (Rd inp) x) (fun '(x, a) => POk (x, k a : cmsg)))).
  { intros. apply no_fault_bind; [apply item_safe; intros; apply int_safe|]. intros [? ?]. exact I. }
  repeat match goal with
  | |- no_fault (match ?e with _ => _ end) => destruct e
  end; try exact I; try apply CI; apply C5.
Qed.

(** A structure says one thing only. *)
Lemma is_info_unique x i j : is_info x i -> is_info x j -> i = j.
Proof. destruct i, j; cbn; intros; auto; lia. Qed.
Lemma is_bytes_unique n mem l1 l2 : is_bytes n mem l1 -> is_bytes n mem l2 -> l1 = l2.
Proof.
  intros [H1 [b1 E1]] [H2 [b2 E2]]. rewrite E1 in E2.
  assert (L : length l1 = length l2) by lia. clear - E2 L.
  revert l2 E2 L. induction l1 as [|x l1 IH]; intros [|y l2] E L; try discriminate; auto.
  injection E as -> E. f_equal. apply IH; auto.
Qed.
Lemma holds_cmd_unique q c c' : holds_cmd q c -> holds_cmd q c' -> c = c'.
Proof.
  destruct c as [i| | | | |id|id b|addr size|addr size values|addr size|addr size values|],
    c' as [i'| | | | |id'|id' b'|addr' size'|addr' size' values'|addr' size'|addr' size' values'|];
    cbn [holds_cmd]; intros H H'; auto; try lia.
  - destruct H, H'. f_equal. eapply is_info_unique; eauto.
  - destruct H, H'. congruence.
  - destruct H as (? & ? & ? & ?), H' as (? & ? & ? & ?). destruct b, b'; cbn in *. congruence.
  - destruct H as (? & ? & ?), H' as (? & ? & ?). congruence.
  - destruct H as (_ & E1 & E2 & E3), H' as (_ & E1' & E2' & E3').
    rewrite <- E2 in E3. rewrite <- E2' in E3'.
    rewrite (is_bytes_unique _ _ _ _ E3 E3'). congruence.
  - destruct H as (? & ? & ?), H' as (? & ? & ?). congruence.
  - destruct H as (_ & E1 & E2 & E3), H' as (_ & E1' & E2' & E3').
    rewrite <- E2 in E3. rewrite <- E2' in E3'.
    rewrite (is_bytes_unique _ _ _ _ E3 E3'). congruence.
Qed.
Lemma holds_unique m M M' : message_ok M -> message_ok M' -> holds m M -> holds m M' -> M = M'.
Proof.
  destruct M as [| | | | |c|c r], M' as [| | | | |c'|c' r']; cbn [holds message_ok]; intros O O' H H'; auto;
    try lia; try (destruct H, H'; congruence); try (destruct H as (? & _), H' as (? & _); congruence).
  - destruct H as [H1 H2], H' as [H1' H2']. f_equal. eapply holds_cmd_unique; eauto.
  - destruct H as (H1 & H2 & H3), H' as (H1' & H2' & H3').
    pose proof (holds_cmd_unique _ _ _ H2 H2') as <-. f_equal. destruct O as [_ O], O' as [_ O'].
    clear - O O' H3 H3'.
    destruct c as [[]| | | | |id|id b|addr size|addr size values|addr size|addr size values|], r, r';
      cbn in O, O', H3, H3'; auto; try contradiction; try lia; try congruence;
      try (destruct H3, H3'; congruence).
    + destruct b as [a1 k1], b0 as [a2 k2], H3, H3'; cbn in *. congruence.
    + f_equal. apply (is_bytes_unique size (q_values (m_cmd m))); split; auto.
    + f_equal. apply (is_bytes_unique size (q_values (m_cmd m))); split; auto.
Qed.
