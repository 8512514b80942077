From Verif Require Import Base VmModel VmSpec VmProofs VmRun VmInv VmWorld SystemModel SystemSpec SystemProofs
  FileModel FileSpec FileProofs FileDevice InputModel InputSpec InputProofs CliModel CliSpec.
From Coq Require Import ZifyBool.
Ltac Zify.zify_post_hook ::= Z.div_mod_to_equations.
Open Scope list_scope.

Lemma exit_code_code v : exit_code v = if state v =? 0 then -1 else code v.
Proof.
  unfold exit_code, code, state. destruct (_ =? 0) eqn:E; auto.
  change 127 with (Z.ones 7). rewrite Z.land_ones by lia. reflexivity.
Qed.
Lemma code_range v : 0 <= code v < 128.
Proof. unfold code. lia. Qed.
Lemma exit_code_pos v : (exit_code v >? 0) = negb (code v =? 0).
Proof.
  rewrite exit_code_code. pose proof (code_range v). destruct (state v =? 0) eqn:E; [|lia].
  unfold code, state in *. apply Z.eqb_eq in E. rewrite E. reflexivity.
Qed.
Lemma exit_code_neg v : (exit_code v <? 0) = (state v =? 0).
Proof. rewrite exit_code_code. pose proof (code_range v). destruct (state v =? 0) eqn:E; lia. Qed.
Lemma exit_code_final v : (if exit_code v <? 0 then 0 else exit_code v) = code v.
Proof.
  rewrite exit_code_neg, exit_code_code. destruct (state v =? 0) eqn:E; auto.
  unfold code, state in *. apply Z.eqb_eq in E. rewrite E. reflexivity.
Qed.

Lemma drop_attach D R (d : D) (o : outcome R) : drop (attach d o) = o.
Proof. destruct o; reflexivity. Qed.

Lemma vector_short v : well_typed v -> is_short (vector v 16).
Proof.
  intros Hv. rewrite <- vector_eq by lia. rewrite dev_load2_word by auto.
  apply word_range; [lia|]. apply Hv.
Qed.

Section Session.
Variable R : Type.
Variable odei : Z -> vm -> R -> res (Z * vm * R).
Variable odeo : Z -> vm -> R -> res (vm * R).
Variables handle_write handle_error : Z -> vm -> R -> res (vm * R).
Variable hi_first : bool.
Variables (kw kr : Z) (fuel : nat).
Notation out := (console_deo R handle_write handle_error).

Lemma start_eq argv v r :
  execute (console * R) (dispatch_dei R odei 16 console_dei)
    (with_console_deo R odeo handle_write handle_error) hi_first None kw kr fuel
    BootModel.RESET_VECTOR v (console_init argv 0, r) =
  attach (console_init argv 0) (start R odei odeo out hi_first kw kr fuel argv v r).
Proof.
  unfold start, BootModel.RESET_VECTOR. apply frozen_execute.
  - intros u a Ha Hp. unfold console_dei, console_port, console_init. cbn [fst snd c_type c_value].
    destruct (a =? 18); auto. destruct (a =? 23); auto. destruct argv; auto.
  - intros a u x Ha. unfold with_console_deo, const_deo. cbn [fst snd].
    rewrite device_id_page by auto. destruct (page a =? 16); auto.
Qed.

Lemma input_loop_eq stdin : forall v c r,
  drop (input_loop R odei odeo handle_write handle_error hi_first kw kr fuel stdin v (c, r)) =
  listen R odei odeo out hi_first kw kr fuel (map (fun c => (1, c mod 256)) stdin ++ [(4, 0)]) v r.
Proof.
  induction stdin as [|ch rest IH]; intros v [av t b] r; cbn [input_loop map app listen];
    rewrite exit_code_neg, vector_eq by lia; (destruct (_ && _); [|reflexivity]).
  - unfold send_input_end. rewrite send_data_eq, drop_attach.
    change (u8 4, u8 0) with (4, 0). destruct (react _ _ _ _ _ _ _ _ _ _ _ _); reflexivity.
  - unfold send_input. rewrite send_data_eq.
    change (u8 1, u8 ch) with (1, ch mod 256). destruct (react _ _ _ _ _ _ _ _ _ _ _ _); cbn [attach]; auto.
Qed.

Lemma exit_code_then v : negb (code v =? 0) = true -> exit_code v = code v.
Proof using.
  rewrite exit_code_code. destruct (state v =? 0) eqn:E; auto.
  unfold code, state in *. apply Z.eqb_eq in E. rewrite E. cbn. discriminate.
Qed.

Lemma then_forget (o : outcome (console * R)) (k : vm -> console * R -> ended (console * R)) (k' : vm -> R -> ended R) :
  (forall v w, forget (k v w) = k' v (snd w)) -> forget (then_ o k) = then_ (drop o) k'.
Proof using. intros Hk. destruct o; cbn; auto. Qed.

Lemma boot_eq argv stdin v r : Forall (Forall (fun c => c <> 0)) argv ->
  forget (boot R odei odeo handle_write handle_error hi_first kw kr fuel argv stdin v r) =
  session R odei odeo out hi_first kw kr fuel argv stdin v r.
Proof.
  intros Ha. unfold boot, session. rewrite start_eq.
  destruct (start _ _ _ _ _ _ _ _ _ _ _) as [v1 r1| |]; cbn [attach then_]; auto.
  rewrite exit_code_pos. destruct (negb (code v1 =? 0)) eqn:E1; [cbn [forget snd]; rewrite exit_code_then; auto|].
  unfold console_init. rewrite send_args_eq by auto.
  replace (match argv with [] => Done (console * R) v1 (mkConsole [] (b2z (0 <? Z.of_nat (length argv))) 0, r1)
    | _ :: _ => attach (mkConsole [] 4 10) (deliver R odei odeo hi_first kw kr fuel 16 console_port out (arg_events argv) v1 r1) end)
    with (attach (match argv with [] => mkConsole [] 0 0 | _ => mkConsole [] 4 10 end)
            (deliver R odei odeo hi_first kw kr fuel 16 console_port out (arg_events argv) v1 r1))
    by (destruct argv; reflexivity).
  destruct (deliver _ _ _ _ _ _ _ _ _ _ _ _ _) as [v2 r2| |]; cbn [attach then_]; auto.
  rewrite exit_code_pos. destruct (negb (code v2 =? 0)) eqn:E2; [cbn [forget snd]; rewrite exit_code_then; auto|].
  rewrite <- (input_loop_eq stdin v2 (match argv with [] => mkConsole [] 0 0 | _ => mkConsole [] 4 10 end) r2).
  apply then_forget. intros v3 w. cbn [forget]. rewrite exit_code_final. reflexivity.
Qed.

End Session.

(** Every session in which the devices keep an invariant. *)
Section Good.
Variable R : Type.
Variable odei : Z -> vm -> R -> res (Z * vm * R).
Variable odeo : Z -> vm -> R -> res (vm * R).
Variable hi_first : bool.
Variables (kw kr : Z) (fuel : nat).
Variable N : Z.
Variable I : R -> Prop.
Variable F : fault -> Prop.
Variable dout : Z -> vm -> R -> res (vm * R).
Hypothesis Hi : forall a v w, is_byte a -> well_typed v -> vm_msize v = N -> I w -> good_in N I F (odei a v w).
Hypothesis Ho : forall a v w, is_byte a -> page a <> 16 -> well_typed v -> vm_msize v = N -> I w -> good_out N I F (odeo a v w).
Hypothesis Hd : forall a v w, is_byte a -> well_typed v -> vm_msize v = N -> I w -> good_out N I F (dout a v w).

Definition good_outcome (o : outcome R) : Prop :=
  match o with
  | Done _ v w => well_typed v /\ vm_msize v = N /\ I w
  | Crash _ f => (exists n, n > 2147483647 /\ f = SignedOverflow n) \/ F f
  | OutOfFuel _ => True
  end.
Definition good_end (e : ended R) : Prop :=
  match e with
  | Ended n v w => n = code v /\ well_typed v /\ vm_msize v = N /\ I w
  | Quit _ => False
  | Failed f => (exists n, n > 2147483647 /\ f = SignedOverflow n) \/ F f
  | Running => True
  end.
Lemma const_good port : host_good N I F (const_dei R odei 16 port) (const_deo R odeo 16 dout).
Proof using Hi Ho Hd.
  split; intros a v w Ha Hv Hn Hw.
  - unfold const_dei. destruct (_ =? _); auto. cbn. auto.
  - unfold const_deo. destruct (_ =? _) eqn:E; auto. apply Ho; auto. lia.
Qed.
Lemma start_good argv v r : well_typed v -> vm_msize v = N -> I r ->
  good_outcome (start R odei odeo dout hi_first kw kr fuel argv v r).
Proof using Hi Ho Hd.
  intros. unfold start, good_outcome. apply (execute_good R _ _ hi_first N I F (const_good _)); auto.
  unfold is_short; lia.
Qed.
Lemma react_good port v r : well_typed v -> vm_msize v = N -> I r ->
  good_outcome (react R odei odeo hi_first kw kr fuel 16 port dout v r).
Proof using Hi Ho Hd.
  intros. unfold react, good_outcome. apply (execute_good R _ _ hi_first N I F (const_good _)); auto.
  apply vector_short; auto.
Qed.
Lemma deliver_good es : forall v r, well_typed v -> vm_msize v = N -> I r ->
  good_outcome (deliver R odei odeo hi_first kw kr fuel 16 console_port dout es v r).
Proof using Hi Ho Hd.
  induction es as [|e es IH]; intros v r Hv Hn Hr; cbn [deliver]; [cbn; auto|].
  pose proof (react_good (console_port e) v r Hv Hn Hr) as G.
  destruct (react _ _ _ _ _ _ _ _ _ _ _ _); auto. destruct G as (A & B & C). auto.
Qed.
Lemma listen_good es : forall v r, well_typed v -> vm_msize v = N -> I r ->
  good_outcome (listen R odei odeo dout hi_first kw kr fuel es v r).
Proof using Hi Ho Hd.
  induction es as [|e es IH]; intros v r Hv Hn Hr; cbn [listen]; [cbn; auto|].
  destruct (_ && _); [|cbn; auto].
  pose proof (react_good (console_port e) v r Hv Hn Hr) as G.
  destruct (react _ _ _ _ _ _ _ _ _ _ _ _); auto. destruct G as (A & B & C). auto.
Qed.
Lemma then_good o k : good_outcome o ->
  (forall v r, well_typed v -> vm_msize v = N -> I r -> good_end (k v r)) -> good_end (then_ o k).
Proof using. destruct o; cbn; auto. intros (A & B & C) K. auto. Qed.
Lemma session_good argv stdin v r : well_typed v -> vm_msize v = N -> I r ->
  good_end (session R odei odeo dout hi_first kw kr fuel argv stdin v r).
Proof using Hi Ho Hd.
  intros Hv Hn Hr. unfold session. apply then_good; [apply start_good; auto|].
  intros v1 r1 H1 H2 H3. destruct (negb _); [cbn; auto|]. apply then_good; [apply deliver_good; auto|].
  intros v2 r2 H4 H5 H6. destruct (negb _); [cbn; auto|]. apply then_good; [apply listen_good; auto|].
  intros v3 r3 H7 H8 H9. cbn; auto.
Qed.
End Good.

(** Two sessions whose devices are related. *)
Section Related.
Variables R V : Type.
Variable P : R -> V -> Prop.
Variable dei : Z -> vm -> R -> res (Z * vm * R).
Variable deo : Z -> vm -> R -> res (vm * R).
Variable out : Z -> vm -> R -> res (vm * R).
Variable dei' : Z -> vm -> V -> res (Z * vm * V).
Variable deo' : Z -> vm -> V -> res (vm * V).
Variable out' : Z -> vm -> V -> res (vm * V).
Variable hi_first : bool.
Variables (kw kr : Z) (fuel : nat).
Hypothesis HH : hosts_related R V P dei deo dei' deo'.
Hypothesis HO : forall a v w w', is_byte a -> P w w' -> rel_out R V P (out a v w) (out' a v w').

Lemma const_related port : hosts_related R V P (const_dei R dei 16 port) (const_deo R deo 16 out)
  (const_dei V dei' 16 port) (const_deo V deo' 16 out').
Proof using HH HO.
  destruct HH as [H1 H2]. split; intros a v w w' Ha Hw.
  - unfold const_dei. destruct (_ =? _); auto. cbn. auto.
  - unfold const_deo. destruct (_ =? _); auto.
Qed.
Notation rel := (rel_outcome R V P).
Lemma react_related port v w w' : P w w' ->
  rel (react R dei deo hi_first kw kr fuel 16 port out v w) (react V dei' deo' hi_first kw kr fuel 16 port out' v w').
Proof using HH HO. intros Hw. unfold react. apply (execute_related _ _ _ _ _ _ _ hi_first (const_related port)); auto. Qed.
Lemma deliver_related es : forall v w w', P w w' ->
  rel (deliver R dei deo hi_first kw kr fuel 16 console_port out es v w)
      (deliver V dei' deo' hi_first kw kr fuel 16 console_port out' es v w').
Proof using HH HO.
  induction es as [|e es IH]; intros v w w' Hw; cbn [deliver]; [cbn; auto|].
  pose proof (react_related (console_port e) v w w' Hw) as G. unfold rel_outcome in G.
  destruct (react R _ _ _ _ _ _ _ _ _ _ _), (react V _ _ _ _ _ _ _ _ _ _ _); try contradiction; auto.
  destruct G as [-> G]. auto.
Qed.
Lemma listen_related es : forall v w w', P w w' ->
  rel (listen R dei deo out hi_first kw kr fuel es v w) (listen V dei' deo' out' hi_first kw kr fuel es v w').
Proof using HH HO.
  induction es as [|e es IH]; intros v w w' Hw; cbn [listen]; [cbn; auto|].
  destruct (_ && _); [|cbn; auto].
  pose proof (react_related (console_port e) v w w' Hw) as G. unfold rel_outcome in G.
  destruct (react R _ _ _ _ _ _ _ _ _ _ _), (react V _ _ _ _ _ _ _ _ _ _ _); try contradiction; auto.
  destruct G as [-> G]. auto.
Qed.
Definition rel_end (a : ended R) (b : ended V) : Prop :=
  match a, b with
  | Ended n v w, Ended n' v' w' => n = n' /\ v = v' /\ P w w'
  | Quit n, Quit n' => n = n'
  | Failed f, Failed g => f = g
  | Running, Running => True
  | _, _ => False
  end.
Lemma then_related a b k k' : rel a b -> (forall v w w', P w w' -> rel_end (k v w) (k' v w')) ->
  rel_end (then_ a k) (then_ b k').
Proof using. destruct a, b; cbn; try contradiction; auto. intros [-> Hw] K. auto. Qed.
Lemma session_related argv stdin v w w' : P w w' ->
  rel_end (session R dei deo out hi_first kw kr fuel argv stdin v w)
          (session V dei' deo' out' hi_first kw kr fuel argv stdin v w').
Proof using HH HO.
  intros Hw. unfold session. apply then_related.
  { unfold start. apply (execute_related _ _ _ _ _ _ _ hi_first (const_related _)); auto. }
  intros v1 w1 w1' H1. destruct (negb _); [cbn; auto|]. apply then_related; [apply deliver_related; auto|].
  intros v2 w2 w2' H2. destruct (negb _); [cbn; auto|]. apply then_related; [apply listen_related; auto|].
  intros v3 w3 w3' H3. cbn. auto.
Qed.
End Related.
