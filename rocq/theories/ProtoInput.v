(** Proofs: whatever arrives on the stream, an accepted request is within the
    limits. *)
From Coq Require Import ZifyBool.
From Verif Require Import Base VmModel VmSpec DbgModel DbgSpec ProtoModel ProtoSpec ProtoProofs.

Lemma mint_inv bits get set v q v' q' : mint bits get set (Some v) q = POk (v', q') ->
  exists y, 0 <= y < 2 ^ bits /\ q' = set q y.
Proof.
  unfold mint, rw_int. destruct v; try discriminate. destruct (_ && _) eqn:E; try discriminate.
  cbn. intros H. injection H as _ <-. exists z. split; auto. lia.
Qed.
Lemma write_values_inv max v q v' q' : write_values max (Some v) q = POk (v', q') ->
  exists l, Z.of_nat (length l) <= max /\ q' = set_qsize (set_qvalues q l) (u8 (Z.of_nat (length l))).
Proof.
  unfold write_values, rw_blob. destruct v; try discriminate.
  destruct (Z.leb_spec (Z.of_nat (length bytes)) max); try discriminate.
  destruct (_ <=? 4096); try discriminate. cbn -[Z.of_nat u8]. intros E. injection E as _ <-. eauto.
Qed.
Lemma mem_read_size_inv v q v' q' : mem_read_size (Some v) q = POk (v', q') ->
  exists y, 0 <= y <= 4096 /\ q' = set_qsize q y.
Proof.
  unfold mem_read_size. destruct (mint 16 q_size set_qsize (Some v) q) as [[v1 q1]|s|f] eqn:E; try discriminate.
  cbn [pbind]. apply mint_inv in E as (y & Hy & ->). cbn [q_size set_qsize]. unfold MAX_MEM_ACCESS.
  destruct (Z.ltb_spec 4096 y); try discriminate. intros E. injection E as _ <-. exists y. split; auto. lia.
Qed.

(** What the five records establish. *)
Definition got (t : Z) (k : key) (q : ccmd) : Prop :=
  q_type q = t /\
  match k with
  | KId => is_byte (q_id q)
  | KMask => is_byte (q_bmask q)
  | KAddr => if t =? 6 then is_short (q_baddr q)
             else if (t =? 7) || (t =? 8) then is_byte (q_addr q) else is_short (q_addr q)
  | KSize => if t =? 7 then is_byte (q_size q) else 0 <= q_size q <= 4096
  | KValues => is_byte (q_size q) /\ q_size q <= Z.of_nat (length (q_values q))
  | _ => True
  end.

Definition record_of (t : Z) : list (@field ccmd) :=
  if t =? 6 then [(KId, mint 8 q_id set_qid); (KAddr, mint 16 q_baddr set_qbaddr);
                  (KMask, mint 8 q_bmask set_qbmask)]
  else if t =? 7 then [(KAddr, mint 8 q_addr set_qaddr); (KSize, mint 8 q_size set_qsize)]
  else if t =? 8 then [(KAddr, mint 8 q_addr set_qaddr); (KValues, write_values 256)]
  else if t =? 9 then [(KAddr, mint 16 q_addr set_qaddr); (KSize, mem_read_size)]
  else [(KAddr, mint 16 q_addr set_qaddr); (KValues, write_values MAX_MEM_ACCESS)].

Lemma u8_le n : 0 <= n -> is_byte (u8 n) /\ u8 n <= n.
Proof.
  intros H. unfold is_byte, u8. pose proof (Z.mod_pos_bound n 256 ltac:(lia)).
  pose proof (Z.mod_le n 256 ltac:(lia) ltac:(lia)). lia.
Qed.

(** Records of a request: once a key has been seen its field is in range. *)
Lemma record_got t kvs q q' (K : key -> bool) : 6 <= t <= 10 ->
  (* keys that do not occur in this record are not tracked *)
  (forall k, K k = match field_of (record_of t) k with Some _ => true | None => false end) ->
  q_type q = t -> read_fields (record_of t) kvs q = POk q' ->
  q_type q' = t /\ forall k, In k (map fst kvs) -> K k = true -> got t k q'.
Proof.
  intros Ht HK Eq H.
  set (P := fun k c => q_type c = t /\ (K k = true -> got t k c)).
  assert (HP : forall k f, field_of (record_of t) k = Some f -> forall v c v' c',
    f (Some v) c = POk (v', c') -> q_type c = t -> P k c' /\ forall k', P k' c -> P k' c').
  { intros k f Ef v c v' c' Ec Et.
    assert (Hcase : t = 6 \/ t = 7 \/ t = 8 \/ t = 9 \/ t = 10) by lia.
    unfold P. destruct Hcase as [E|[E|[E|[E|E]]]]; rewrite E in *; clear E;
      cbn in Ef, HK; pose proof (HK KPointer); pose proof (HK KData); pose proof (HK KAddr);
      pose proof (HK KMask); pose proof (HK KId); pose proof (HK KSize); pose proof (HK KValues);
      pose proof (HK KOther); clear HK; cbn in *;
      destruct k; try discriminate Ef; injection Ef as <-;
      first [ apply mint_inv in Ec as (y & Hy & ->)
            | apply write_values_inv in Ec as (l & Hl & ->)
            | apply mem_read_size_inv in Ec as (y & Hy & ->) ];
      try (change (2 ^ 8) with 256 in Hy); try (change (2 ^ 16) with 65536 in Hy);
      try pose proof (u8_le (Z.of_nat (length l)) ltac:(lia)) as Hu;
      (split; [split; [exact Et|intros _; split; [exact Et|cbn -[u8]; unfold is_byte, is_short in *; lia]]|]);
      intros k' [_ HP']; (split; [exact Et|]); intros Hk'; specialize (HP' Hk'); destruct HP' as [_ HP'];
      (split; [exact Et|]);
      destruct k'; try congruence; cbn -[u8] in *; try exact HP'; unfold is_byte, is_short in *; lia. }
  assert (HP2 : forall c c', read_fields (record_of t) kvs c = POk c' -> q_type c = t ->
    q_type c' = t /\ forall k, (In k (map fst kvs) \/ P k c) -> K k = true -> P k c').
  { clear H q q' Eq. induction kvs as [|[k0 v] kvs IH]; intros c c' H Et; cbn in H.
    - injection H as <-. split; auto. intros k [[]|Hk] _; auto.
    - destruct (field_of (record_of t) k0) as [f|] eqn:E.
      + destruct (f (Some v) c) as [[v' c1]|s|x] eqn:E1; try discriminate. cbn [pbind] in H.
        destruct (HP _ _ E _ _ _ _ E1 Et) as [A1 A2].
        assert (Et1 : q_type c1 = t) by exact (proj1 A1).
        destruct (IH _ _ H Et1) as [B1 B2]. split; auto. intros k [[Hk|Hk]|Hk] HKk; try (cbn in Hk; subst k).
        * apply B2; [right; exact A1|exact HKk].
        * apply B2; auto.
        * apply B2; auto.
      + destruct (IH _ _ H Et) as [B1 B2]. split; auto. intros k [[Hk|Hk]|Hk] HKk; try (cbn in Hk; subst k); [|apply B2; auto|apply B2; auto].
        rewrite HK in HKk. cbn in HKk. rewrite E in HKk. discriminate. }
  destruct (HP2 _ _ H Eq) as [A1 A2]. split; auto. intros k Hk HKk. apply A2; auto.
Qed.

Lemma request_limits s m0 s' m : complete s ->
  protocol_msg (Rd s) m0 = POk (Rd s', m) -> m_type m = 5 ->
  exists c, holds_cmd (m_cmd m) c /\ request_ok c.
Proof.
  intros Hc H Ht. unfold protocol_msg, msg_header in H.
  destruct s as [|v s]; [discriminate|]. cbn [item] in H.
  destruct v as [t| |]; try discriminate. cbn [rw_int] in H.
  destruct ((0 <=? t) && (t <? 2 ^ 8)) eqn:Et; try discriminate. cbn [pbind] in H.
  change (2 ^ 8) with 256 in Et.
  assert (t = 5).
  { unfold msg_body in H. cbn [m_type set_mtype] in H. rewrite u8_small in H by lia.
    destruct (Z.eq_dec t 5); auto. exfalso. revert H.
    assert (C : forall bits x k, (forall a : Z, m_type (k a) = t) ->
      pbind (item (rw_int bits) (Rd s) x) (fun '(x, a) => POk (x, k a : cmsg)) = POk (Rd s', m) -> False).
    { intros bits x k Hk HE. destruct (item _ _ _) as [[x1 a]|?|?]; try discriminate. injection HE as _ <-.
      rewrite Hk in Ht. congruence. }
    assert (C6 : pbind (item (rw_int 8) (Rd s) (u8 (q_type (m_cmd (set_mtype m0 t))))) (fun '(x, t0) =>
      pbind (cmd_body (t =? 5) x (set_qtype (m_cmd (set_mtype m0 t)) t0)) (fun '(x, q) =>
      POk (x, set_mcmd (set_mtype m0 t) q))) = POk (Rd s', m) -> False).
    { intros HE. destruct (item _ _ _) as [[x1 a]|?|?]; try discriminate. cbn [pbind] in HE.
      destruct (cmd_body _ _ _) as [[x2 q]|?|?]; try discriminate. injection HE as _ <-. cbn in Ht. congruence. }
    assert (C1 : POk (Rd s, set_mtype m0 t) = POk (Rd s', m) -> False).
    { intros HE. injection HE as _ <-. cbn in Ht. congruence. }
    destruct t as [|p|p]; [|do 3 (try destruct p as [p|p|])|]; try discriminate; try lia;
      first [exact C1|exact C6|apply C; reflexivity]. }
  subst t. clear Et.
  change (pbind (item (rw_int 8) (Rd s) (u8 (q_type (m_cmd m0)))) (fun '(x, t) =>
    pbind (cmd_body true x (set_qtype (m_cmd m0) t)) (fun '(x, q) =>
    POk (x, set_mcmd (set_mtype m0 5) q))) = POk (Rd s', m)) in H.
  destruct s as [|v s]; [discriminate|]. cbn [item] in H.
  destruct v as [t| |]; try discriminate. cbn [rw_int] in H.
  destruct ((0 <=? t) && (t <? 2 ^ 8)) eqn:Et; try discriminate. cbn [pbind] in H.
  change (2 ^ 8) with 256 in Et.
  destruct (cmd_body true (Rd s) (set_qtype (m_cmd m0) t)) as [[x q]|?|?] eqn:E; try discriminate.
  cbn [pbind] in H. injection H as -> <-. cbn [m_cmd set_mcmd].
  destruct (Z_le_gt_dec 11 t) as [Hbig|Hsmall].
  { rewrite cmd_body_other in E by (cbn [q_type set_qtype]; lia). injection E as <- <-.
    exists CmdOther. cbn [holds_cmd request_ok q_type set_qtype]. split; [lia|exact I]. }
  assert (Ht' : t = 0 \/ t = 1 \/ t = 2 \/ t = 3 \/ t = 4 \/ t = 5 \/ 6 <= t <= 10) by lia.
  destruct Ht' as [Ht'|[Ht'|[Ht'|[Ht'|[Ht'|[Ht'|Ht']]]]]].
  - subst t. cbn -[mint] in E. destruct s as [|v s]; [discriminate|]. cbn -[mint] in E.
    destruct (mint 8 q_info set_qinfo (Some v) _) as [[v' q']|?|?] eqn:Em; try discriminate.
    cbn in E. injection E as <- <-. apply mint_inv in Em as (y & Hy & ->). change (2 ^ 8) with 256 in Hy.
    destruct (Z.eq_dec y 0) as [ -> |]; [exists (CmdInfo InfoPc); cbn; auto|].
    destruct (Z.eq_dec y 1) as [ -> |]; [exists (CmdInfo InfoWst); cbn; auto|].
    destruct (Z.eq_dec y 2) as [ -> |]; [exists (CmdInfo InfoRst); cbn; auto|].
    destruct (Z.eq_dec y 3) as [ -> |]; [exists (CmdInfo InfoNbrkps); cbn; auto|].
    exists (CmdInfo InfoOther). split; [|exact I]. split; [reflexivity|].
    cbn [is_info q_info set_qinfo set_qtype]. lia.
  - subst t. cbn in E. injection E as <- <-. exists CmdResume. split; [reflexivity|exact I].
  - subst t. cbn in E. injection E as <- <-. exists CmdStepOver. split; [reflexivity|exact I].
  - subst t. cbn in E. injection E as <- <-. exists CmdStepIn. split; [reflexivity|exact I].
  - subst t. cbn in E. injection E as <- <-. exists CmdStepOut. split; [reflexivity|exact I].
  - subst t. cbn -[mint] in E. destruct s as [|v s]; [discriminate|]. cbn -[mint] in E.
    destruct (mint 8 q_id set_qid (Some v) _) as [[v' q']|?|?] eqn:Em; try discriminate.
    cbn in E. injection E as <- <-. apply mint_inv in Em as (y & Hy & ->). change (2 ^ 8) with 256 in Hy.
    exists (CmdBrkpGet y). split; [split; reflexivity|]. cbn. unfold is_byte. lia.
  - assert (E' : item (rw_record (record_of t)) (Rd s) (set_qtype (m_cmd m0) t) = POk (Rd s', q)).
    { assert (Hcase : t = 6 \/ t = 7 \/ t = 8 \/ t = 9 \/ t = 10) by lia.
      destruct Hcase as [Hx|[Hx|[Hx|[Hx|Hx]]]]; rewrite Hx in *; exact E. }
    destruct s as [|v s]; [discriminate|]. cbn [item] in E'. destruct v as [| |kvs]; try discriminate.
    cbn [rw_record] in E'.
    destruct (read_fields (record_of t) kvs (set_qtype (m_cmd m0) t)) as [q1|?|?] eqn:Er; try discriminate.
    cbn [pbind] in E'. injection E' as _ <-.
    apply (record_got t kvs _ _ _ Ht' (fun k => eq_refl)) in Er; [|reflexivity]. destruct Er as [Eq HG].
    cbn [complete] in Hc.
    assert (Hcase : t = 6 \/ t = 7 \/ t = 8 \/ t = 9 \/ t = 10) by lia.
    destruct Hcase as [Hx|[Hx|[Hx|[Hx|Hx]]]]; rewrite Hx in *; cbn in Hc.
    + destruct (HG KId) as [_ G1]; [auto|reflexivity|]. destruct (HG KAddr) as [_ G2]; [auto|reflexivity|].
      destruct (HG KMask) as [_ G3]; [auto|reflexivity|]. cbn in G1, G2, G3.
      exists (CmdBrkpSet (q_id q1) (mkBrkp (q_baddr q1) (q_bmask q1))). cbn. auto.
    + destruct (HG KAddr) as [_ G1]; [auto|reflexivity|]. destruct (HG KSize) as [_ G2]; [auto|reflexivity|].
      exists (CmdDevRead (q_addr q1) (q_size q1)). cbn in *. auto.
    + destruct (HG KAddr) as [_ G1]; [auto|reflexivity|]. destruct (HG KValues) as [_ G2]; [auto|reflexivity|].
      exists (CmdDevWrite (q_addr q1) (q_size q1) (firstn (Z.to_nat (q_size q1)) (q_values q1))).
      cbn -[firstn] in *. unfold is_byte, is_bytes in *. rewrite firstn_length.
      repeat split; auto; try lia. exists (skipn (Z.to_nat (q_size q1)) (q_values q1)). symmetry. apply firstn_skipn.
    + destruct (HG KAddr) as [_ G1]; [auto|reflexivity|]. destruct (HG KSize) as [_ G2]; [auto|reflexivity|].
      exists (CmdMemRead (q_addr q1) (q_size q1)). cbn [holds_cmd request_ok] in *. auto.
    + destruct (HG KAddr) as [_ G1]; [auto|reflexivity|]. destruct (HG KValues) as [_ G2]; [auto|reflexivity|].
      exists (CmdMemWrite (q_addr q1) (q_size q1) (firstn (Z.to_nat (q_size q1)) (q_values q1))).
      cbn -[firstn] in *. unfold is_byte, is_bytes in *. rewrite firstn_length.
      repeat split; auto; try lia; try apply G1. exists (skipn (Z.to_nat (q_size q1)) (q_values q1)). symmetry. apply firstn_skipn.
Qed.
