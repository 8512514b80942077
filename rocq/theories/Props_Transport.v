(** C64-C66: the strings that name a connection of the debugger, the
    descriptors of its sockets and the wrapper that starts a program with it.

    Vocabulary (TransportModel): [from_str little junk s] is what
    buxn_dbg_transport_from_str asks the host for, on a machine that is
    little-endian or not, when the uninitialised buffer on its stack holds
    [junk].  Strings have no zero bytes. *)
From Verif Require Import Base TransportModel.
From Coq Require Import ZifyBool Ascii String Permutation.
Open Scope list_scope.
Ltac Zify.zify_post_hook ::= Z.div_mod_to_equations.

Definition no_nul (s : str) : Prop := Forall (fun c => c <> 0) s.
Definition no_colon (s : str) : Prop := Forall (fun c => c <> 58) s.

Lemma parse_flag_app flag arg : parse_flag (flag ++ arg) flag = Some arg.
Proof. induction flag as [|f flag IH]; cbn; [reflexivity|]. now rewrite Z.eqb_refl. Qed.

Lemma len_cons c (s : str) : len (c :: s) = len s + 1.
Proof. unfold len. cbn [List.length]. lia. Qed.
Lemma len_app (a b : str) : len (a ++ b) = len a + len b.
Proof. unfold len. rewrite app_length. lia. Qed.
Lemma len_pos (s : str) : 0 <= len s.
Proof. unfold len. lia. Qed.

(** *** Copies *)
Lemma copy_ok n s : forall m p, 0 <= p -> p + len s <= n ->
  exists m', copy_to n m p s = Ok m' /\
    (forall i, 0 <= i < len s -> m' (p + i) = nth (Z.to_nat i) s 0) /\
    (forall a, a < p \/ p + len s <= a -> m' a = m a).
Proof.
  induction s as [|c s IH]; intros m p P L; cbn [copy_to].
  - exists m. split; [reflexivity|]. split; [intros i Hi; cbn in Hi; lia|auto].
  - rewrite len_cons in L. pose proof (len_pos s). unfold aset, in_bounds.
    replace ((0 <=? p) && (p <? n)) with true by lia. cbn [rbind].
    destruct (IH (upd m p c) (p + 1) ltac:(lia) ltac:(lia)) as (m' & E & A & B). exists m'. split; [exact E|]. rewrite len_cons. split.
    + intros i Hi. destruct (Z.eq_dec i 0) as [->|N].
      * replace (p + 0) with p by lia. rewrite B by lia. unfold upd. now rewrite Z.eqb_refl.
      * replace (p + i) with (p + 1 + (i - 1)) by lia. rewrite A by lia.
        replace (Z.to_nat i) with (S (Z.to_nat (i - 1))) by lia. reflexivity.
    + intros a Ha. rewrite B by lia. unfold upd. destruct (a =? p) eqn:X; [lia|reflexivity].
Qed.

(** The bytes [s] and then a zero lie at [p]. *)
Lemma c_str_reads n m s : forall fuel p, no_nul s -> (List.length s < fuel)%nat -> 0 <= p -> p + len s < n ->
  (forall i, 0 <= i < len s -> m (p + i) = nth (Z.to_nat i) s 0) -> m (p + len s) = 0 ->
  c_str_at fuel n m p = Ok s.
Proof.
  induction s as [|c s IH]; intros fuel p N F P L A Z; (destruct fuel as [|fuel]; [cbn in F; lia|]); cbn [c_str_at].
  - unfold aget, in_bounds. change (len []) with 0 in *. rewrite Z.add_0_r in *. replace ((0 <=? p) && (p <? n)) with true by lia.
    cbn [rbind]. now rewrite Z.
  - rewrite len_cons in *. pose proof (len_pos s). inversion N as [|? ? N1 N2]; subst. unfold aget, in_bounds.
    replace ((0 <=? p) && (p <? n)) with true by lia. cbn [rbind].
    assert (E : m p = c). { specialize (A 0 ltac:(lia)). now rewrite Z.add_0_r in A. }
    rewrite E. replace (c =? 0) with false by lia. rewrite IH; auto; [cbn in F; lia|lia|lia| |].
    + intros i Hi. replace (p + 1 + i) with (p + (i + 1)) by lia. rewrite A by lia.
      replace (Z.to_nat (i + 1)) with (S (Z.to_nat i)) by lia. reflexivity.
    + rewrite <- Z. f_equal. lia.
Qed.

(** What is read goes on with what follows the bytes. *)
Lemma c_str_goes_on n m s : forall fuel p, no_nul s -> (List.length s <= fuel)%nat -> 0 <= p -> p + len s <= n ->
  (forall i, 0 <= i < len s -> m (p + i) = nth (Z.to_nat i) s 0) ->
  c_str_at fuel n m p = rmap (app s) (c_str_at (fuel - List.length s) n m (p + len s)).
Proof.
  induction s as [|c s IH]; intros fuel p N F P L A.
  - change (len []) with 0. rewrite Z.add_0_r. cbn [List.length]. rewrite Nat.sub_0_r.
    unfold rmap. destruct (c_str_at fuel n m p); reflexivity.
  - destruct fuel as [|fuel]; [cbn in F; lia|]. rewrite len_cons in *. pose proof (len_pos s).
    inversion N as [|? ? N1 N2]; subst. cbn [c_str_at List.length Nat.sub]. unfold aget at 1, in_bounds at 1.
    replace ((0 <=? p) && (p <? n)) with true by lia. cbn [rbind].
    assert (E : m p = c). { specialize (A 0 ltac:(lia)). now rewrite Z.add_0_r in A. }
    rewrite E. replace (c =? 0) with false by lia.
    rewrite IH; auto; [|cbn in F; lia|lia|lia|].
    + replace (p + 1 + len s) with (p + (len s + 1)) by lia. unfold rmap.
      destruct (c_str_at (fuel - List.length s) n m (p + (len s + 1))); reflexivity.
    + intros i Hi. replace (p + 1 + i) with (p + (i + 1)) by lia. rewrite A by lia.
      replace (Z.to_nat (i + 1)) with (S (Z.to_nat i)) by lia. reflexivity.
Qed.

Lemma nth_eq (l l' : list Z) : List.length l = List.length l' -> (forall i, (i < List.length l)%nat -> nth i l 0 = nth i l' 0) -> l = l'.
Proof. intros. now apply (nth_ext _ _ 0 0). Qed.

Lemma nth_taken buf n i : (i < Z.to_nat n)%nat -> nth i (taken buf n) 0 = buf (Z.of_nat i).
Proof.
  intros H. unfold taken. rewrite (nth_indep _ 0 (buf (Z.of_nat 0))) by (rewrite map_length, seq_length; lia).
  rewrite (map_nth (fun i => buf (Z.of_nat i))), seq_nth by lia. reflexivity.
Qed.

Lemma unix_addr_eq name : unix_addr name = Ok (if len name <=? 107 then Some (name ++ [0]) else None).
Proof.
  unfold unix_addr, SUN_PATH. pose proof (len_pos name). destruct (len name >=? 108) eqn:G.
  { now replace (len name <=? 107) with false by lia. }
  replace (len name <=? 107) with true by lia.
  destruct (copy_ok 108 name (fun _ => 0) 0 ltac:(lia) ltac:(lia)) as (m' & -> & A & B). cbn [rbind].
  unfold aset, in_bounds. replace ((0 <=? len name) && (len name <? 108)) with true by lia. cbn [rbind]. do 2 f_equal.
  apply nth_eq; [unfold taken, len; rewrite map_length, seq_length, app_length; cbn; lia|].
  intros i Hi. unfold taken in Hi. rewrite map_length, seq_length in Hi. rewrite nth_taken by exact Hi. unfold upd.
  destruct (Z.of_nat i =? len name) eqn:X.
  - rewrite app_nth2 by (unfold len in *; lia). unfold len in *. now replace (i - List.length name)%nat with 0%nat by lia.
  - rewrite app_nth1 by (unfold len in *; lia). specialize (A (Z.of_nat i)). rewrite Z.add_0_l, Nat2Z.id in A. apply A. unfold len in *. lia.
Qed.

Lemma abstract_addr_eq name : abstract_addr name = Ok (if len name <=? 107 then Some (0 :: name) else None).
Proof.
  unfold abstract_addr, SUN_PATH. pose proof (len_pos name). destruct (len name >=? 108) eqn:G.
  { now replace (len name <=? 107) with false by lia. }
  replace (len name <=? 107) with true by lia.
  destruct (copy_ok 108 name (fun _ => 0) 1 ltac:(lia) ltac:(lia)) as (m' & -> & A & B). cbn [rbind].
  unfold aset, in_bounds. change ((0 <=? 0) && (0 <? 108)) with true. cbn [rbind]. do 2 f_equal.
  apply nth_eq; [unfold taken, len; rewrite map_length, seq_length; cbn; lia|].
  intros i Hi. unfold taken in Hi. rewrite map_length, seq_length in Hi. rewrite nth_taken by exact Hi. unfold upd.
  destruct i as [|i]; [reflexivity|]. replace (Z.of_nat (S i) =? 0) with false by lia.
  cbn [nth]. specialize (A (Z.of_nat i)). rewrite Nat2Z.id in A. rewrite <- A by (unfold len in *; lia). f_equal. lia.
Qed.

(** ** C64 *)
(** A file, a Unix socket and an abstract socket get exactly the name that is
    written behind the scheme (a path with its zero, an abstract name behind a
    zero); a name that does not fit in [sun_path] is refused.  No name makes
    the code write outside the array. *)
Theorem C64_named_connections little junk name :
  from_str little junk (bytes "file:" ++ name) = Ok (TFile name) /\
  (len name <= 107 ->
     from_str little junk (bytes "unix-connect:" ++ name) = Ok (TUnix false (name ++ [0])) /\
     from_str little junk (bytes "unix-listen:" ++ name) = Ok (TUnix true (name ++ [0])) /\
     from_str little junk (bytes "abstract-connect:" ++ name) = Ok (TUnix false (0 :: name)) /\
     from_str little junk (bytes "abstract-listen:" ++ name) = Ok (TUnix true (0 :: name))) /\
  (len name > 107 ->
     from_str little junk (bytes "unix-connect:" ++ name) = Ok TFail /\
     from_str little junk (bytes "unix-listen:" ++ name) = Ok TFail /\
     from_str little junk (bytes "abstract-connect:" ++ name) = Ok TFail /\
     from_str little junk (bytes "abstract-listen:" ++ name) = Ok TFail).
Proof.
  assert (E : from_str little junk (bytes "unix-connect:" ++ name) = on_path false (unix_addr name) /\
    from_str little junk (bytes "unix-listen:" ++ name) = on_path true (unix_addr name) /\
    from_str little junk (bytes "abstract-connect:" ++ name) = on_path false (abstract_addr name) /\
    from_str little junk (bytes "abstract-listen:" ++ name) = on_path true (abstract_addr name))
    by (repeat split; reflexivity).
  destruct E as (-> & -> & -> & ->). rewrite unix_addr_eq, abstract_addr_eq. split; [reflexivity|].
  split; intros L; [replace (len name <=? 107) with true by lia|replace (len name <=? 107) with false by lia]; repeat split; reflexivity.
Qed.
Print Assumptions C64_named_connections.

(** A string with no scheme of the code is refused as invalid. *)
Definition schemes : list str :=
  map bytes ["file:"; "unix-connect:"; "unix-listen:"; "abstract-connect:"; "abstract-listen:"; "tcp-connect:"; "tcp-listen:"]%string.
Lemma parse_flag_some flag : forall s arg, parse_flag s flag = Some arg -> s = flag ++ arg.
Proof.
  induction flag as [|f flag IH]; intros s arg E; [cbn in *; now injection E|]. destruct s as [|c s]; [discriminate|].
  cbn [parse_flag] in E. destruct (f =? c) eqn:X; [|discriminate]. cbn [app]. f_equal; [lia|]. now apply IH.
Qed.
Theorem C64_other_strings little junk s :
  (forall scheme arg, In scheme schemes -> s <> scheme ++ arg) -> from_str little junk s = Ok TInvalid.
Proof.
  intros H. unfold from_str.
  repeat match goal with |- context [parse_flag s ?f] => destruct (parse_flag s f) as [a|] eqn:?;
    [exfalso; eapply (H f a); [unfold schemes; cbn [map In]; tauto|now apply parse_flag_some]|] end.
  reflexivity.
Qed.
Print Assumptions C64_other_strings.

(** The header documents a scheme "fifo:" that does not exist. *)
Theorem C64_fifo_refuted : ~ forall little junk path, from_str little junk (bytes "fifo:" ++ path) = Ok (TFile path).
Proof. intros H. specialize (H true (fun _ => 0) (bytes "/tmp/f")). vm_compute in H. discriminate. Qed.
Print Assumptions C64_fifo_refuted.

(** *** TCP, outgoing *)
Lemma colon_found a b : no_colon a -> forall i, colon (a ++ 58 :: b) i = Some (i + len a).
Proof.
  induction 1 as [|c a H1 H2 IH]; intros i; cbn [app colon]; [cbn; f_equal; lia|].
  replace (c =? 58) with false by lia. rewrite IH, len_cons. f_equal. lia.
Qed.

Lemma in_app_nul a c b : no_nul (a ++ c :: b) -> no_nul a /\ no_nul b.
Proof. intros H. apply Forall_app in H as [H1 H2]. inversion H2; subst. now split. Qed.

(** The bytes of the buffer behind the address, as C reads a string there. *)
Definition left_over (junk : arr) (p : Z) : res str := c_str_at (Z.to_nat (22 - p)) 22 junk p.

Lemma c_str_frame n m m' : forall fuel p, (forall a, p <= a -> m a = m' a) -> c_str_at fuel n m p = c_str_at fuel n m' p.
Proof.
  induction fuel as [|fuel IH]; intros p H; cbn [c_str_at]; [reflexivity|]. unfold aget.
  destruct (in_bounds n p); [|reflexivity]. cbn [rbind]. rewrite (H p) by lia. destruct (m' p =? 0); [reflexivity|].
  rewrite (IH (p + 1)) by (intros; apply H; lia). reflexivity.
Qed.
Lemma c_str_fuel n m : forall fuel k p, 0 <= p -> n - p <= Z.of_nat fuel -> c_str_at (fuel + k) n m p = c_str_at fuel n m p.
Proof.
  induction fuel as [|fuel IH]; intros k p P L.
  - destruct k; cbn [c_str_at Nat.add]; [reflexivity|]. unfold aget, in_bounds. now replace ((0 <=? p) && (p <? n)) with false by lia.
  - cbn [Nat.add c_str_at]. unfold aget. destruct (in_bounds n p); [|reflexivity]. cbn [rbind].
    destruct (m p =? 0); [reflexivity|]. rewrite (IH k (p + 1)) by lia. reflexivity.
Qed.

(** "tcp-connect:<node>:<service>", if it has at most 22 characters behind the
    scheme, looks up the node; but as the service it takes the one that is
    written followed by whatever the stack holds up to the next zero byte. *)
Theorem C64_tcp_connect little junk node service :
  no_nul (node ++ 58 :: service) -> no_colon node -> len node + 1 + len service <= 22 ->
  from_str little junk (bytes "tcp-connect:" ++ node ++ 58 :: service) =
  rmap (fun rest => TConnect node (service ++ rest)) (left_over junk (len node + 1 + len service)).
Proof.
  intros N C L. change (from_str little junk (bytes "tcp-connect:" ++ node ++ 58 :: service)) with (tcp_connect junk (node ++ 58 :: service)).
  destruct (in_app_nul _ _ _ N) as [N1 N2]. pose proof (len_pos node). pose proof (len_pos service).
  assert (LA : len (node ++ 58 :: service) = len node + 1 + len service) by (rewrite len_app, len_cons; lia).
  unfold tcp_connect, TCP_BUF. rewrite LA. replace (len node + 1 + len service >? 22) with false by lia.
  destruct (copy_ok 22 (node ++ 58 :: service) junk 0 ltac:(lia) ltac:(lia)) as (m' & -> & A & B). cbn [rbind].
  rewrite colon_found by exact C. rewrite Z.add_0_l. unfold aset, in_bounds.
  replace ((0 <=? len node) && (len node <? 22)) with true by lia. cbn [rbind].
  rewrite (c_str_reads 22 _ node); auto; try lia.
  2: unfold len in *; lia.
  2:{ intros i Hi. unfold upd. replace (0 + i =? len node) with false by lia. rewrite A by lia.
      apply app_nth1. unfold len in *. lia. }
  2:{ unfold upd. rewrite Z.add_0_l. now rewrite Z.eqb_refl. }
  cbn [rbind]. rewrite (c_str_goes_on 22 _ service); auto; try lia.
  2: unfold len in *; lia.
  2:{ intros i Hi. unfold upd. replace (len node + 1 + i =? len node) with false by lia.
      replace (len node + 1 + i) with (0 + (len node + (i + 1))) by lia. rewrite A by lia.
      rewrite app_nth2 by (unfold len in *; lia).
      replace (Z.to_nat (len node + (i + 1)) - List.length node)%nat with (S (Z.to_nat i)) by (unfold len in *; lia). reflexivity. }
  unfold left_over. set (p := len node + 1 + len service) in *.
  rewrite (c_str_frame 22 _ junk).
  2:{ intros a Ha. unfold upd. replace (a =? len node) with false by lia. apply B. lia. }
  replace (23 - List.length service)%nat with (Z.to_nat (22 - p) + (23 - List.length service - Z.to_nat (22 - p)))%nat by (unfold len in *; lia).
  rewrite c_str_fuel by lia. unfold rmap. destruct (c_str_at _ 22 junk p); reflexivity.
Qed.
Print Assumptions C64_tcp_connect.

(** So it asks for the service that is written exactly if the stack happens to
    hold a zero there, which it never does for 22 characters. *)
Corollary C64_tcp_connect_iff little junk node service :
  no_nul (node ++ 58 :: service) -> no_colon node -> len node + 1 + len service <= 22 ->
  from_str little junk (bytes "tcp-connect:" ++ node ++ 58 :: service) = Ok (TConnect node service) <->
  len node + 1 + len service < 22 /\ junk (len node + 1 + len service) = 0.
Proof.
  intros N C L. rewrite C64_tcp_connect by auto. pose proof (len_pos node). pose proof (len_pos service).
  set (p := len node + 1 + len service) in *. unfold left_over, rmap. destruct (Z.eq_dec p 22) as [->|].
  - cbn. split; [discriminate|lia].
  - replace (Z.to_nat (22 - p)) with (S (Z.to_nat (21 - p))) by lia. cbn [c_str_at]. unfold aget, in_bounds.
    replace ((0 <=? p) && (p <? 22)) with true by lia. cbn [rbind]. destruct (junk p =? 0) eqn:X.
    + cbn [rbind]. rewrite app_nil_r. split; [intros _; lia|reflexivity].
    + destruct (c_str_at _ 22 junk (p + 1)) as [r|f]; cbn [rbind]; split; try discriminate; [|lia|lia].
      intros [= E]. apply (f_equal (@List.length Z)) in E. rewrite app_length in E. cbn in E. lia.
Qed.
Print Assumptions C64_tcp_connect_iff.

(** "tcp-connect:<address>:<port> connects to an address" does not hold. *)
Theorem C64_tcp_connect_refuted : ~ forall little junk node service,
  no_nul (node ++ 58 :: service) -> no_colon node -> len node + 1 + len service <= 22 ->
  from_str little junk (bytes "tcp-connect:" ++ node ++ 58 :: service) = Ok (TConnect node service).
Proof.
  intros H. specialize (H true (fun a => if a =? 13 then 0 else 49) (bytes "127.0.0.1") (bytes "80")).
  assert (E : from_str true (fun a => if a =? 13 then 0 else 49) (bytes "tcp-connect:127.0.0.1:80") = Ok (TConnect (bytes "127.0.0.1") (bytes "801")))
    by (vm_compute; reflexivity).
  change (bytes "tcp-connect:" ++ bytes "127.0.0.1" ++ 58 :: bytes "80") with (bytes "tcp-connect:127.0.0.1:80") in H.
  rewrite E in H. vm_compute in H. assert (X : Ok (TConnect [49; 50; 55; 46; 48; 46; 48; 46; 49] [56; 48; 49]) = Ok (TConnect [49; 50; 55; 46; 48; 46; 48; 46; 49] [56; 48])).
  { apply H; [repeat constructor; discriminate|repeat constructor; discriminate|discriminate]. }
  discriminate.
Qed.
Print Assumptions C64_tcp_connect_refuted.

(** With 22 characters the buffer is read past its end. *)
Example C64_tcp_connect_overrun :
  no_nul (bytes "localhost.example:8080") /\ len (bytes "localhost.example:8080") = 22 /\
  forall little junk, from_str little junk (bytes "tcp-connect:localhost.example:8080") = Fault (OobRead 22).
Proof.
  split; [repeat constructor; discriminate|]. split; [reflexivity|]. intros little junk.
  apply (C64_tcp_connect little junk (bytes "localhost.example") (bytes "8080")); [repeat constructor; discriminate|repeat constructor; discriminate|discriminate].
Qed.

(** *** TCP, incoming *)
Lemma digits_app s : forall acc t, Forall (fun c => is_digit c = true) s -> digits (s ++ t) acc = digits t (digits s acc).
Proof. induction s as [|c s IH]; intros acc t F; cbn; [reflexivity|]. inversion F as [|? ? F1 F2]; subst. rewrite F1. now apply IH. Qed.
Lemma decimal_digits fuel : forall n, 0 <= n -> Forall (fun c => is_digit c = true) (decimal fuel n).
Proof.
  induction fuel as [|fuel IH]; intros n N; cbn [decimal]; [constructor|]. apply Forall_app. split.
  - destruct (n <? 10); [constructor|]. apply IH. apply Z.div_pos; lia.
  - constructor; [unfold is_digit; lia|constructor].
Qed.
Lemma decimal_value fuel : forall n, 0 <= n < 10 ^ Z.of_nat fuel -> digits (decimal fuel n) 0 = n.
Proof.
  induction fuel as [|fuel IH]; intros n N; [cbn in *; lia|]. cbn [decimal].
  assert (D : is_digit (48 + n mod 10) = true) by (unfold is_digit; lia).
  rewrite Nat2Z.inj_succ, Z.pow_succ_r in N by lia.
  destruct (n <? 10) eqn:X; cbn [app digits].
  - rewrite D. lia.
  - rewrite digits_app by (apply decimal_digits; lia). rewrite IH by lia. cbn [digits]. rewrite D. lia.
Qed.
Lemma decimal_head fuel n : 0 <= n -> exists c t, decimal (S fuel) n = c :: t /\ is_digit c = true.
Proof.
  intros N. pose proof (decimal_digits (S fuel) n N) as F. destruct (decimal (S fuel) n) as [|c t] eqn:E.
  - cbn [decimal] in E. apply app_eq_nil in E. destruct E; discriminate.
  - exists c, t. inversion F; subst. now split.
Qed.
Lemma strtol_digits s : Forall (fun c => is_digit c = true) s -> strtol s = (if digits s 0 >? LONG_MAX then (LONG_MAX, true) else
   if digits s 0 <? - LONG_MAX - 1 then (- LONG_MAX - 1, true) else (digits s 0, false)).
Proof.
  intros F. unfold strtol. destruct s as [|c t]; [reflexivity|]. inversion F as [|? ? D _]; subst.
  assert (is_space c = false) as S by (unfold is_space, is_digit in *; lia). cbn [skip_spaces]. rewrite S.
  replace (c =? 45) with false by (unfold is_digit in *; lia). replace (c =? 43) with false by (unfold is_digit in *; lia). reflexivity.
Qed.
Lemma strtol_decimal fuel n : 0 <= n < 10 ^ Z.of_nat fuel -> n <= LONG_MAX -> strtol (decimal fuel n) = (n, false).
Proof.
  intros N L. rewrite strtol_digits by (apply decimal_digits; lia). rewrite decimal_value by exact N. unfold LONG_MAX in *.
  replace (n >? 9223372036854775807) with false by lia. now replace (n <? _) with false by lia.
Qed.

(** "tcp-listen:<port>" on a little-endian machine listens on the port with
    the two bytes exchanged. *)
Theorem C64_tcp_listen junk port : 0 <= port < 65536 ->
  from_str true junk (bytes "tcp-listen:" ++ decimal 5 port) = Ok (TListen (port mod 256 * 256 + port / 256)) /\
  from_str false junk (bytes "tcp-listen:" ++ decimal 5 port) = Ok (TListen port).
Proof.
  intros P. assert (E : forall l, from_str l junk (bytes "tcp-listen:" ++ decimal 5 port) = Ok (tcp_listen l (decimal 5 port))) by reflexivity.
  rewrite !E. unfold tcp_listen. rewrite strtol_decimal by (change (10 ^ Z.of_nat 5) with 100000; unfold LONG_MAX; lia). unfold as_network, u16. rewrite (Z.mod_small port 65536) by lia. auto.
Qed.
Print Assumptions C64_tcp_listen.

Lemma strtol_negative fuel n : 0 <= n < 10 ^ Z.of_nat fuel -> n <= LONG_MAX -> strtol (45 :: decimal fuel n) = (- n, false).
Proof.
  intros N L. unfold strtol. cbn [skip_spaces is_space]. change (is_space 45) with false. cbn beta iota zeta. change (45 =? 45) with true. cbn beta iota zeta.
  rewrite decimal_value by exact N. unfold LONG_MAX in *. replace (- n >? 9223372036854775807) with false by lia. now replace (- n <? _) with false by lia.
Qed.
(** A port below zero is not refused: the socket listens on its residue. *)
Theorem C64_negative_port junk port : 0 < port < 65536 ->
  from_str false junk (bytes "tcp-listen:-" ++ decimal 5 port) = Ok (TListen (65536 - port)).
Proof.
  intros P. change (from_str false junk (bytes "tcp-listen:-" ++ decimal 5 port)) with (@Ok target (tcp_listen false (45 :: decimal 5 port))).
  unfold tcp_listen. rewrite strtol_negative by (change (10 ^ Z.of_nat 5) with 100000; unfold LONG_MAX; lia). unfold as_network, u16.
  do 2 f_equal. lia.
Qed.
Print Assumptions C64_negative_port.

Theorem C64_tcp_listen_refuted : ~ forall little junk port, 0 <= port < 65536 ->
  from_str little junk (bytes "tcp-listen:" ++ decimal 5 port) = Ok (TListen port).
Proof.
  intros H. pose proof (H true (fun _ => 0) 8080 ltac:(lia)) as E.
  rewrite (proj1 (C64_tcp_listen (fun _ => 0) 8080 ltac:(lia))) in E. vm_compute in E. discriminate.
Qed.
Print Assumptions C64_tcp_listen_refuted.

Example C64_listen_case : decimal 5 8080 = bytes "8080" /\
  from_str true (fun _ => 0) (bytes "tcp-listen:8080") = Ok (TListen 36895).
Proof. split; reflexivity. Qed.

(** ** C65 *)
(** The descriptors that the host handed out, those that were closed, and the
    one that is returned. *)
Definition fd_list (o : option Z) : list Z := match o with Some fd => [fd] | None => [] end.
Definition opened (l : list call) : list Z :=
  flat_map (fun c => match c with CSocket o => fd_list o | CAccept _ (AFd fd) => [fd] | _ => [] end) l.
Definition closed (l : list call) : list Z :=
  flat_map (fun c => match c with CClose o => fd_list o | _ => [] end) l.

(** What accept answers in the end. *)
Definition first_answer (rs : list accepted) : option (option Z) :=
  match filter (fun r => match r with AIntr => false | _ => true end) rs with
  | [] => None
  | AFd fd :: _ => Some (Some fd)
  | _ => Some None
  end.

Lemma accept_spec fd rs l r : accept_loop fd rs = (l, r) -> r = first_answer rs /\
  forall ret, r = Some ret -> opened l = fd_list ret /\ closed l = fd_list fd.
Proof.
  revert l r. induction rs as [|a rs IH]; intros l r E; cbn in E.
  - injection E as <- <-. split; [reflexivity|discriminate].
  - destruct a as [c| |].
    + injection E as <- <-. split; [reflexivity|]. intros ret [= <-]. cbn. now rewrite app_nil_r.
    + destruct (accept_loop fd rs) as [l' r'] eqn:X. injection E as <- <-. destruct (IH _ _ eq_refl) as [A B].
      split; [exact A|]. intros ret R. destruct (B ret R). now split.
    + injection E as <- <-. split; [reflexivity|]. intros ret [= <-]. cbn. now rewrite app_nil_r.
Qed.

(** However the calls of the host turn out, when the function returns every
    descriptor that was opened has been closed, except the one it returns; and
    it returns the first answer of accept that is not an interruption. *)
Theorem C65_listen fd bind_ok listen_ok rs l ret :
  stream_listen fd bind_ok listen_ok rs = (l, Some ret) ->
  Permutation (opened l) (closed l ++ fd_list ret) /\
  (bind_ok = true -> listen_ok = true -> first_answer rs = Some ret) /\
  (bind_ok = false \/ listen_ok = false -> ret = None).
Proof.
  intros E. unfold stream_listen in E. destruct bind_ok; cbn [negb] in E.
  - destruct listen_ok; cbn [negb] in E.
    + destruct (accept_loop fd rs) as [l' r] eqn:X. injection E as <- ->. destruct (accept_spec _ _ _ _ X) as [A B].
      destruct (B ret eq_refl) as [O C]. split; [|split; [auto|intros [|]; discriminate]].
      change (Permutation (fd_list fd ++ opened l') (closed l' ++ fd_list ret)). rewrite C, O. reflexivity.
    + injection E as <- <-. cbn. rewrite !app_nil_r. split; [reflexivity|]. split; [discriminate|auto].
  - injection E as <- <-. cbn. rewrite !app_nil_r. split; [reflexivity|]. split; [discriminate|auto].
Qed.
Print Assumptions C65_listen.

Theorem C65_connect fd connect_ok l ret :
  stream_connect fd connect_ok = (l, Some ret) ->
  l = CSocket fd :: CConnect fd connect_ok :: (if connect_ok then [] else [CClose fd]) /\
  Permutation (opened l) (closed l ++ fd_list ret) /\ ret = (if connect_ok then fd else None).
Proof.
  intros E. unfold stream_connect in E. destruct connect_ok; injection E as <- <-; (split; [reflexivity|]); cbn; rewrite ?app_nil_r; split; reflexivity.
Qed.
Print Assumptions C65_connect.

Example C65_case : exists l, stream_listen (Some 3) true true [AIntr; AIntr; AFd 4] = (l, Some (Some 4)) /\ opened l = [3; 4] /\ closed l = [3].
Proof. eexists. split; [reflexivity|]. split; reflexivity. Qed.

(** ** C66 *)
(** The wrapper runs the command behind "--" with the last transport given,
    and a program started by it finds the descriptor it was given. *)
Definition default_transport : str := bytes "abstract-listen:buxn/vm".
Theorem C66_command transports command : command <> [] ->
  wrapper_main (map (app (bytes "-transport=")) transports ++ bytes "--" :: command) =
  WRun (last transports default_transport) command.
Proof.
  intros C. unfold wrapper_main. fold default_transport. generalize default_transport as d.
  induction transports as [|t ts IH]; intros d.
  - destruct command as [|c cs]; [easy|reflexivity].
  - cbn [map app]. change (wrapper_args d (((bytes "-transport=") ++ t) :: map (app (bytes "-transport=")) ts ++ bytes "--" :: command))
      with (wrapper_args t (map (app (bytes "-transport=")) ts ++ bytes "--" :: command)).
    rewrite IH. destruct ts as [|t' ts]; [reflexivity|]. f_equal. change (last (t :: t' :: ts) d) with (last (t' :: ts) d).
    clear. revert t'. induction ts as [|x ts IH]; intros t'; [reflexivity|]. cbn in *. destruct ts; [reflexivity|]. apply (IH x).
Qed.
Print Assumptions C66_command.

(** Without "--" the command starts at the first argument that is no option. *)
Theorem C66_command_alone transports c command :
  (forall rest, c <> bytes "--help" ++ rest) -> (forall rest, c <> bytes "-transport=" ++ rest) -> c <> bytes "--" ->
  wrapper_main (map (app (bytes "-transport=")) transports ++ c :: command) =
  WRun (last transports default_transport) (c :: command).
Proof.
  intros H1 H2 H3. unfold wrapper_main. fold default_transport. generalize default_transport as d.
  induction transports as [|t ts IH]; intros d.
  - cbn [map app wrapper_args last].
    destruct (parse_flag c (bytes "--help")) as [r|] eqn:P; [apply parse_flag_some in P; destruct (H1 r P)|].
    destruct (parse_flag c (bytes "-transport=")) as [r|] eqn:Q; [apply parse_flag_some in Q; destruct (H2 r Q)|].
    unfold str_eqb. destruct (str_dec c (bytes "--")); [contradiction|reflexivity].
  - cbn [map app]. change (wrapper_args d (((bytes "-transport=") ++ t) :: map (app (bytes "-transport=")) ts ++ c :: command))
      with (wrapper_args t (map (app (bytes "-transport=")) ts ++ c :: command)).
    rewrite IH. destruct ts as [|t' ts]; [reflexivity|]. f_equal. change (last (t :: t' :: ts) d) with (last (t' :: ts) d).
    clear. revert t'. induction ts as [|x ts IH]; intros t'; [reflexivity|]. cbn in *. destruct ts; [reflexivity|]. apply (IH x).
Qed.
Print Assumptions C66_command_alone.

Lemma decimal_length fuel : forall n k, 0 <= n < 10 ^ Z.of_nat k -> (0 < k)%nat -> (List.length (decimal fuel n) <= k)%nat.
Proof.
  induction fuel as [|fuel IH]; intros n k N K; cbn [decimal]; [cbn; lia|]. rewrite app_length. cbn [List.length].
  destruct (n <? 10) eqn:X; [cbn; lia|]. destruct k as [|k]; [lia|]. rewrite Nat2Z.inj_succ, Z.pow_succ_r in N by lia.
  destruct k as [|k]; [cbn in N; lia|]. specialize (IH (n / 10) (S k) ltac:(lia) ltac:(lia)). lia.
Qed.
Theorem C66_descriptor fd : 0 <= fd < INT_MAX -> dbg_fd (Some (dbg_fd_env fd)) = Some fd.
Proof.
  intros F. unfold INT_MAX in F. unfold dbg_fd, dbg_fd_env.
  rewrite firstn_all2 by (apply decimal_length; [change (10 ^ Z.of_nat 10) with 10000000000; lia|lia]).
  rewrite strtol_decimal by (change (10 ^ Z.of_nat 20) with 100000000000000000000; unfold LONG_MAX; lia). unfold INT_MAX. cbn [negb andb].
  replace ((0 <=? fd) && (fd <? 2147483647)) with true by lia. reflexivity.
Qed.
Print Assumptions C66_descriptor.

(** A number below zero is not a descriptor: the emulator runs without debugger. *)
Theorem C66_no_descriptor n : 0 < n <= INT_MAX -> dbg_fd (Some (45 :: decimal 20 n)) = None.
Proof.
  intros F. unfold INT_MAX in F. unfold dbg_fd.
  rewrite strtol_negative by (change (10 ^ Z.of_nat 20) with 100000000000000000000; unfold LONG_MAX; lia).
  replace (0 <=? - n) with false by lia. reflexivity.
Qed.
Print Assumptions C66_no_descriptor.

Example C66_case : wrapper_main [bytes "-transport=tcp-listen:1"; bytes "--"; bytes "buxn-cli"; bytes "--help"] =
    WRun (bytes "tcp-listen:1") [bytes "buxn-cli"; bytes "--help"] /\ dbg_fd_env 104 = bytes "104".
Proof. split; reflexivity. Qed.
