From Verif Require Import Base VmModel VmProofs MetaModel MetaSpec.
From Coq Require Import ZifyBool.
Ltac Zify.zify_post_hook ::= Z.div_mod_to_equations.

(** Reading the result of the C function. *)
Definition view (m : metadata) : parsed :=
  match md_content m with
  | None => Nothing
  | Some t => Meta (md_version m) t (md_content_len m)
      (match md_ext m with Some e => Some (e, md_num_ext m) | None => None end)
  end.

Lemma scan_spec img size limit : limit <= size -> forall n a, 0 <= a -> limit - a <= Z.of_nat n ->
  exists r, scan n img size a limit = Ok r /\
  match r with
  | None => forall j, a <= j < limit -> img j <> 0
  | Some z => first_zero img a limit z
  end.
Proof.
  intros Hs. induction n as [|n IH]; intros a Ha Hn; cbn [scan].
  - replace (a >=? limit) with true by lia. eexists. split; [reflexivity|]. intros j Hj; exfalso; lia.
  - destruct (a >=? limit) eqn:E.
    + eexists. split; [reflexivity|]. intros j Hj; exfalso; lia.
    + unfold aget. rewrite in_bounds_true by lia. cbn [rbind]. destruct (img a =? 0) eqn:Z0.
      * eexists. split; [reflexivity|]. repeat split; try lia.
      * destruct (IH (a + 1)) as (r & E1 & E2); try lia. exists r. split; auto.
        destruct r as [z|].
        -- destruct E2 as (A & B & C). repeat split; try lia.
           intros j Hj. destruct (Z.eq_dec j a); [subst; lia|]. apply C; lia.
        -- intros j Hj. destruct (Z.eq_dec j a); [subst; lia|]. apply E2; lia.
Qed.

Lemma quot_fit limit e n : e <= limit -> 0 < n -> (Z.quot (limit - e) 3 <? n) = negb (e + 3 * n <=? limit).
Proof. intros. rewrite Z.quot_div_nonneg by lia. lia. Qed.

Lemma parse_spec img size addr limit :
  0 <= addr < size -> limit <= size -> size < 2147483648 -> (forall i, 0 <= i < size -> is_byte (img i)) ->
  exists m, parse_internal img size addr limit = Ok m /\ describes img limit addr (view m) /\
    (md_ext m = None -> md_num_ext m = 0).
Proof.
  intros Ha Hl Hz Hb. unfold parse_internal. unfold aget at 1. rewrite in_bounds_true by auto. cbn [rbind].
  destruct (scan_spec img size limit Hl (Z.to_nat (limit - (addr + 1))) (addr + 1)) as (r & E & S); try lia.
  rewrite E. cbn [rbind]. destruct r as [z|].
  - pose proof S as (Z1 & Z2 & Z3).
    assert (L : s32 (z - (addr + 1)) = z - (addr + 1)).
    { unfold s32, u32. rewrite Z.mod_small by lia. destruct (_ <? _) eqn:?; lia. }
    destruct (z <? limit - 2) eqn:F.
    + unfold aget. rewrite in_bounds_true by lia. cbn [rbind].
      pose proof (Hb (z + 1) ltac:(lia)) as B. unfold is_byte in B.
      destruct (img (z + 1) >? 0) eqn:N.
      * rewrite quot_fit by lia. destruct (z + 2 + 3 * img (z + 1) <=? limit) eqn:Q; cbn [negb rbind].
        -- eexists. split; [reflexivity|]. split; [|discriminate]. cbn. exists z. rewrite L.
           split; [exact S|]. repeat split; unfold ext_fit; auto; lia.
        -- eexists. split; [reflexivity|]. split; [|reflexivity]. cbn. exists z. rewrite L.
           split; [exact S|]. repeat split; unfold ext_fit; auto; lia.
      * cbn [rbind]. eexists. split; [reflexivity|]. split; [|cbn; lia]. cbn. exists z. rewrite L.
        split; [exact S|]. repeat split; unfold ext_fit; auto; lia.
    + cbn [rbind]. eexists. split; [reflexivity|]. split; [|reflexivity]. cbn. exists z. rewrite L.
      split; [exact S|]. repeat split; unfold ext_fit; auto; lia.
  - eexists. split; [reflexivity|]. split; [|reflexivity]. cbn. intros j Hj. apply S. lia.
Qed.

Lemma get_ext_spec img size limit start m i :
  0 <= start -> limit <= size -> (forall i, 0 <= i < size -> is_byte (img i)) ->
  describes img limit start (view m) -> (md_ext m = None -> md_num_ext m = 0) ->
  md_content m <> None -> 0 <= i ->
  get_ext img size m i =
  match md_ext m with
  | Some e => if i <? md_num_ext m then Ok (img (e + 3 * i), 256 * img (e + 3 * i + 1) + img (e + 3 * i + 2)) else Ok (0, 0)
  | None => Ok (0, 0)
  end.
Proof.
  intros Hs Hl Hb D HN HC Hi. unfold get_ext, view in *.
  destruct (md_content m) as [t|]; [|congruence].
  destruct (md_ext m) as [e|].
  - destruct (i <? md_num_ext m) eqn:E; auto.
    cbn in D. destruct D as (z & (Z1 & _) & _ & _ & _ & (F1 & F2 & F3) & F4 & F5).
    unfold aget. rewrite !in_bounds_true by lia. cbn [rbind].
    pose proof (Hb (e + (3 * i + 1)) ltac:(lia)). pose proof (Hb (e + (3 * i + 2)) ltac:(lia)).
    rewrite join_eq by (unfold is_byte in *; lia). unfold is_byte in *.
    replace (e + (3 * i + 1)) with (e + 3 * i + 1) in * by lia.
    replace (e + (3 * i + 2)) with (e + 3 * i + 2) in * by lia.
    unfold u16. rewrite Z.mod_small by lia. auto.
  - rewrite HN by auto. replace (i <? 0) with false by lia. auto.
Qed.

Lemma from_memory_spec v a : (forall i, 0 <= i < vm_msize v -> is_byte (vm_mem v i)) ->
  65536 <= vm_msize v < 2147483648 -> is_short a ->
  exists m, parse_from_memory v a = Ok m /\ describes (vm_mem v) 65535 a (view m) /\
    (md_ext m = None -> md_num_ext m = 0).
Proof.
  intros Hb Hs Ha. unfold parse_from_memory, is_short in *. replace (a >=? vm_msize v) with false by lia.
  apply parse_spec; auto; lia.
Qed.

Lemma rom_announces_dec rom size : {addr | rom_announces rom size addr} + {forall addr, ~ rom_announces rom size addr}.
Proof.
  unfold rom_announces.
  destruct (Z_le_dec 6 size); [|right; intros; lia].
  destruct (Z.eq_dec (rom 0) 160); [|right; intros; lia].
  destruct (Z.eq_dec (rom 3) 128); [|right; intros; lia].
  destruct (Z.eq_dec (rom 4) 6); [|right; intros; lia].
  destruct (Z.eq_dec (rom 5) 55); [|right; intros; lia].
  destruct (Z_lt_dec 256 (256 * rom 1 + rom 2)); [|right; intros; lia].
  left. exists (256 * rom 1 + rom 2). repeat split; auto.
Qed.

Lemma from_rom_none rom size : (forall i, 0 <= i < size -> is_byte (rom i)) ->
  (forall addr, ~ rom_announces rom size addr) -> parse_from_rom rom size = Ok NO_METADATA.
Proof.
  intros Hb H. unfold parse_from_rom. destruct (size <? 6) eqn:S; auto.
  unfold aget. rewrite !in_bounds_true by lia. cbn [rbind].
  destruct (rom 0 =? 160) eqn:E0; auto. destruct (rom 3 =? 128) eqn:E3; auto.
  destruct (rom 4 =? 6) eqn:E4; auto. destruct (rom 5 =? 55) eqn:E5; auto. cbn [negb].
  pose proof (Hb 1 ltac:(lia)). pose proof (Hb 2 ltac:(lia)).
  rewrite join_eq by (unfold is_byte in *; lia). unfold is_byte in *. unfold u16. rewrite Z.mod_small by lia.
  destruct (256 * rom 1 + rom 2 <=? 256) eqn:L; auto.
  exfalso. apply (H (256 * rom 1 + rom 2)). unfold rom_announces. lia.
Qed.

Lemma from_rom_some rom size addr : (forall i, 0 <= i < size -> is_byte (rom i)) ->
  rom_announces rom size addr -> parse_from_rom rom size = parse_internal rom size (addr - 256) size.
Proof.
  intros Hb (S & E0 & E3 & E4 & E5 & -> & L). unfold parse_from_rom.
  replace (size <? 6) with false by lia.
  pose proof (Hb 1 ltac:(lia)). pose proof (Hb 2 ltac:(lia)).
  unfold aget. rewrite !in_bounds_true by lia. cbn [rbind]. rewrite E0, E3, E4, E5. cbn [negb Z.eqb Pos.eqb].
  rewrite join_eq by (unfold is_byte in *; lia). unfold is_byte in *. unfold u16. rewrite Z.mod_small by lia.
  replace (_ <=? 256) with false by lia. auto.
Qed.
