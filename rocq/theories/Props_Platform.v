(** C102: what the graphical emulator makes of its command line. *)
From Verif Require Props_Boot BootModel BootProofs.
From Verif Require Import Base VmModel VmSpec VmProofs VmWorld SystemModel InputModel InputSpec FileModel FileSpec FileProofs MetaModel MetaSpec MetaProofs AudioModel ScreenModel ScreenSpec ScreenProofs CliModel CliSpec CliProofs GuiModel GuiSpec GuiProofs Props_Gui Props_Start PlatformModel.
From Coq Require Import Ascii String ZifyBool.
Open Scope list_scope.
Ltac Zify.zify_post_hook ::= Z.div_mod_to_equations.

(** ** Specification *)
Definition text (s : string) : list Z := map (fun c => Z.of_nat (nat_of_ascii c)) (list_ascii_of_string s).
(** Options; there is no scale on Windows. *)
Definition sets_level (o : list Z) : Prop := exists value, o = text "-log-level=" ++ value.
Definition sets_scale (o value : list Z) : Prop := o = text "-scale=" ++ value.
Definition is_option (windows : bool) (o : list Z) : Prop := sets_level o \/ windows = false /\ exists value, sets_scale o value.
Definition names_level (o : list Z) (l : level) : Prop :=
  exists word, o = text "-log-level=" ++ text word /\
  In (word, l) [("trace", Trace); ("debug", Debug); ("info", Info); ("warn", Warn); ("error", Error); ("fatal", Fatal)]%string.
(** The last option of a kind decides. *)
Definition level_of (opts : list (list Z)) (start l : level) : Prop :=
  (Forall (fun o => forall k, ~ names_level o k) opts /\ l = start) \/
  exists before o after, opts = before ++ o :: after /\ names_level o l /\ Forall (fun o => forall k, ~ names_level o k) after.
Definition scale_of (opts : list (list Z)) (s : option (list Z)) : Prop :=
  (Forall (fun o => forall value, ~ sets_scale o value) opts /\ s = None) \/
  exists before o after value, opts = before ++ o :: after /\ sets_scale o value /\ s = Some value /\ Forall (fun o => forall value, ~ sets_scale o value) after.
(** The words after the options: two dashes end them, and so does any other word. *)
Inductive words (windows : bool) : list (list Z) -> list (list Z) -> Prop :=
| words_end : words windows [] []
| words_dashes rest : words windows (text "--" :: rest) rest
| words_other w rest : ~ is_option windows w -> w <> text "--" -> words windows (w :: rest) (w :: rest).
(** The executable cannot be read, or does not end in the mark of rom2exe. *)
Definition no_rom (self : option (list Z)) : Prop :=
  match self with None => True | Some exe => forall body, exe <> body ++ text "bemb" end.

(** ** The loop over the options *)
Lemma get_arg_spec prefix arg value : get_arg arg prefix = Some value <-> arg = prefix ++ value.
Proof.
  revert arg. induction prefix as [|c prefix IH]; intros [|a arg]; cbn [get_arg app]; split; intros E; try discriminate; try congruence.
  - destruct (a =? c) eqn:X; [|discriminate]. apply IH in E. f_equal; [lia|exact E].
  - injection E as -> E. rewrite Z.eqb_refl. apply IH, E.
Qed.
Lemma streq_spec a b : streq a b = true <-> a = b.
Proof.
  revert b. induction a as [|x a IH]; intros [|y b]; cbn [streq]; split; intros E; try discriminate; try congruence; auto.
  - apply andb_prop in E as [E1 E2]. apply IH in E2. f_equal; [lia|exact E2].
  - injection E as -> E. rewrite Z.eqb_refl. cbn. apply IH, E.
Qed.
Lemma streq_refl a : streq a a = true.
Proof. apply streq_spec; reflexivity. Qed.
Lemma get_arg_app prefix value : get_arg (prefix ++ value) prefix = Some value.
Proof. apply get_arg_spec; reflexivity. Qed.

Lemma read_level_spec value l :
  names_level (text "-log-level=" ++ value) (read_level value l) \/
  (forall k, ~ names_level (text "-log-level=" ++ value) k) /\ read_level value l = l.
Proof.
  unfold read_level.
  repeat match goal with
  | |- context [if streq value ?w then _ else _] => let E := fresh "E" in destruct (streq value w) eqn:E
  end;
  try (left; match goal with E : streq value ?w = true |- names_level _ ?k => apply streq_spec in E; subst value;
    let s := match k with Trace => constr:("trace"%string) | Debug => constr:("debug"%string) | Info => constr:("info"%string)
             | Warn => constr:("warn"%string) | Error => constr:("error"%string) | Fatal => constr:("fatal"%string) end in
    exists s; split; [reflexivity|cbn; tauto] end).
  right. split; [|reflexivity]. intros k (w & A & I). apply app_inv_head in A. subst value. cbn in I.
  repeat (destruct I as [I|I]; [injection I as <- <-; match goal with E : streq (text ?w) _ = false |- _ => cbn in E end; discriminate|]). exact I.
Qed.
Lemma level_not_scale value v : text "-log-level=" ++ value <> text "-scale=" ++ v.
Proof. cbn. intros E. injection E as E. discriminate. Qed.
Lemma scale_no_level o value l : sets_scale o value -> ~ names_level o l.
Proof. intros -> (w & E & _). symmetry in E. revert E. apply level_not_scale. Qed.

Lemma level_of_cons o opts start l l1 :
  (names_level o l1 \/ (forall k, ~ names_level o k) /\ l1 = start) -> level_of opts l1 l -> level_of (o :: opts) start l.
Proof.
  intros O [[F ->]|(b & x & a & -> & N & F)].
  - destruct O as [O|[O ->]]; [right; exists [], o, opts; auto|left; split; [constructor; auto|reflexivity]].
  - right. exists (o :: b), x, a. auto.
Qed.
Definition scale_from (opts : list (list Z)) (start s : option (list Z)) : Prop :=
  (Forall (fun o => forall value, ~ sets_scale o value) opts /\ s = start) \/
  exists before o after value, opts = before ++ o :: after /\ sets_scale o value /\ s = Some value /\ Forall (fun o => forall value, ~ sets_scale o value) after.
Lemma scale_cons o opts start s s1 :
  ((exists value, sets_scale o value /\ s1 = Some value) \/ (forall k, ~ sets_scale o k) /\ s1 = start) -> scale_from opts s1 s -> scale_from (o :: opts) start s.
Proof.
  intros O [[F ->]|(b & x & a & k & -> & N & E & F)].
  - destruct O as [(k & O & ->)|[O ->]]; [right; exists [], o, opts, k; auto|left; split; [constructor; auto|reflexivity]].
  - right. exists (o :: b), x, a, k. auto.
Qed.

Lemma options_spec windows opts rest ws start s : Forall (is_option windows) opts -> words windows rest ws ->
  exists l s', options windows (opts ++ rest) start s = (l, s', ws) /\ level_of opts start l /\ scale_from opts s s'.
Proof.
  intros F R. revert start s. induction F as [|o opts O F IH]; intros start s; cbn [app].
  - exists start, s. split; [|split; left; auto]. destruct R as [|rest|w rest NO ND]; cbn [options].
    + reflexivity.
    + cbn [get_arg text]. destruct windows; reflexivity.
    + destruct (get_arg w _) as [value|] eqn:E; [apply get_arg_spec in E; exfalso; apply NO; left; exists value; exact E|].
      destruct (if windows then None else get_arg w _) as [value|] eqn:E2.
      { destruct windows; [discriminate|]. apply get_arg_spec in E2. exfalso; apply NO; right. split; [reflexivity|exists value; exact E2]. }
      destruct (streq w _) eqn:E3; [apply streq_spec in E3; contradiction|reflexivity].
  - destruct O as [[value ->]|[-> [value ->]]].
    + destruct (IH (read_level value start) s) as (l & s' & E & L & S). exists l, s'. split; [|split].
      * cbn [options]. change (text "-log-level=") with [45; 108; 111; 103; 45; 108; 101; 118; 101; 108; 61] at 1. rewrite get_arg_app. exact E.
      * eapply level_of_cons; [apply read_level_spec|exact L].
      * eapply scale_cons; [right; split; [intros k; apply level_not_scale|reflexivity]|exact S].
    + destruct (IH start (Some value)) as (l & s' & E & L & S). exists l, s'. split; [|split].
      * cbn [options]. destruct (get_arg (text "-scale=" ++ value) _) as [x|] eqn:E2.
        { apply get_arg_spec in E2. symmetry in E2. exfalso; revert E2. apply level_not_scale. }
        change (text "-scale=") with [45; 115; 99; 97; 108; 101; 61]. rewrite get_arg_app. exact E.
      * eapply level_of_cons; [right; split; [intros k; eapply scale_no_level; reflexivity|reflexivity]|exact L].
      * eapply scale_cons; [left; exists value; split; reflexivity|exact S].
Qed.
Lemma is_option_dec windows o : {is_option windows o} + {~ is_option windows o}.
Proof.
  destruct (get_arg o (text "-log-level=")) as [v|] eqn:E; [left; left; exists v; apply get_arg_spec, E|].
  destruct windows.
  - right. intros [[v ->]|[X _]]; [rewrite get_arg_app in E; discriminate|discriminate].
  - destruct (get_arg o (text "-scale=")) as [v|] eqn:E2; [left; right; split; [reflexivity|]; exists v; apply get_arg_spec, E2|].
    right. intros [[v ->]|[_ [v ->]]]; [rewrite get_arg_app in E|rewrite get_arg_app in E2]; discriminate.
Qed.

(** ** C102 *)
(** Every command line is options followed by words, in one way. *)
Theorem C102_every_line : forall windows args,
  exists opts rest ws, (args = opts ++ rest /\ Forall (is_option windows) opts /\ words windows rest ws) /\
  forall opts' rest' ws', args = opts' ++ rest' -> Forall (is_option windows) opts' -> words windows rest' ws' -> opts' = opts /\ rest' = rest /\ ws' = ws.
Proof.
  assert (D : forall windows, ~ is_option windows (text "--")).
  { intros windows [[v E]|[_ [v E]]]; revert E; cbn; intros E; discriminate E. }
  assert (W : forall windows rest ws, words windows rest ws -> match rest with [] => True | w :: _ => ~ is_option windows w end).
  { intros windows rest ws [| |]; auto. }
  assert (U : forall windows rest ws ws', words windows rest ws -> words windows rest ws' -> ws' = ws).
  { intros windows rest ws ws' [| |w r O N]; intros X; inversion X; subst; auto; contradiction. }
  intros windows args.
  assert (X : exists opts rest ws, args = opts ++ rest /\ Forall (is_option windows) opts /\ words windows rest ws).
  { induction args as [|o args IH]; [exists [], [], []; split; [reflexivity|split; constructor]|].
    destruct (is_option_dec windows o) as [O|O].
    - destruct IH as (opts & rest & ws & -> & F & R). exists (o :: opts), rest, ws. auto.
    - destruct (list_eq_dec Z.eq_dec o (text "--")) as [->|N].
      + exists [], (text "--" :: args), args. split; [reflexivity|]. split; constructor.
      + exists [], (o :: args), (o :: args). split; [reflexivity|]. split; constructor; auto. }
  destruct X as (opts & rest & ws & E & F & R). exists opts, rest, ws. split; [auto|]. intros opts' rest' ws' E' F' R'.
  assert (Y : opts' = opts /\ rest' = rest).
  { subst args. revert opts' F' E'. induction F as [|o opts O F IH]; intros opts' F' E'.
    - destruct F' as [|o' opts' O' F']; [split; [reflexivity|symmetry; exact E']|]. cbn in E'. subst rest. apply W in R. contradiction.
    - destruct F' as [|o' opts' O' F']; cbn in E'; [subst rest'; apply W in R'; contradiction|]. injection E' as <- E'. destruct (IH opts' F' E') as [-> ->]. auto. }
  destruct Y as [-> ->]. split; [reflexivity|]. split; [reflexivity|]. eapply U; eauto.
Qed.
Print Assumptions C102_every_line.

(** A plain emulator: the last option of each kind counts, the first word names the
    ROM, which is boot.rom if there is none, and the others go to the program. *)
Theorem C102_plain : forall windows open debug name opts rest ws, no_rom (open name) ->
  Forall (is_option windows) opts -> words windows rest ws ->
  exists p, platform_init windows open debug (name :: opts ++ rest) = Ok p /\
    level_of opts (if debug then Trace else Info) (p_level p) /\ scale_of opts (p_scale p) /\
    p_rom p = match open (hd (text "boot.rom") ws) with Some data => Some (None, BootModel.mkRfile data 0) | None => None end /\
    p_args p = tl ws.
Proof.
  intros windows open debug name opts rest ws N F R. set (start := if debug then Trace else Info).
  assert (E : platform_init windows open debug (name :: opts ++ rest) = Ok (standalone_init windows open start (opts ++ rest))).
  { cbn [platform_init]. fold start. destruct (open name) as [exe|]; [|reflexivity].
    destruct (Props_Boot.C48_not_found exe 0 N) as (f & ->). reflexivity. }
  exists (standalone_init windows open start (opts ++ rest)). split; [exact E|].
  destruct (options_spec windows opts rest ws start None F R) as (l & s & O & L & S). unfold standalone_init. rewrite O. cbn [p_level p_scale p_rom p_args].
  split; [exact L|]. split; [exact S|]. split; [|reflexivity]. destruct ws; cbn [hd]; destruct (open _); reflexivity.
Qed.
Print Assumptions C102_plain.

(** An executable made by rom2exe: it boots its ROM, and all words, even those that
    look like options, go to the program. *)
Theorem C102_embedded : forall windows open debug name args runner rom room exe, 0 <= room -> 0 < BootModel.zlen rom < 2147483648 ->
  BootModel.rom2exe (Some runner) (Some rom) true room = Ok (BootModel.Exit 0 (Some exe)) -> open name = Some exe ->
  exists f, platform_init windows open debug (name :: args) = Ok (mkPlatform (if debug then Trace else Info) None (Some (Some (BootModel.zlen rom), f)) args) /\
    fst (BootModel.fread f (BootModel.zlen rom)) = rom.
Proof.
  intros windows open debug name args runner rom room exe R0 Hz He O. destruct (Props_Boot.C48_found runner rom room exe 0 R0 Hz He) as (f & E & D).
  exists f. split; [|exact D]. cbn [platform_init]. rewrite O, E. cbn [rbind]. replace (BootModel.zlen rom =? 0) with false by lia. reflexivity.
Qed.
Print Assumptions C102_embedded.

(** Without any word, not even a name, a null pointer is opened. *)
Theorem C102_no_name_refuted : forall windows open debug, platform_init windows open debug [] = Fault BadHandle.
Proof. reflexivity. Qed.
Print Assumptions C102_no_name_refuted.

(** ** From the command line to the program *)
(** The ROM that a command line boots and the arguments its program gets. *)
Inductive boots (windows : bool) (open : list Z -> option (list Z)) (rom : list Z) : list (list Z) -> list (list Z) -> Prop :=
| boots_file name opts rest ws : no_rom (open name) -> Forall (is_option windows) opts -> words windows rest ws ->
    open (hd (text "boot.rom") ws) = Some rom -> boots windows open rom (name :: opts ++ rest) (tl ws)
| boots_embedded name runner room exe args : 0 <= room -> 0 < BootModel.zlen rom < 2147483648 ->
    BootModel.rom2exe (Some runner) (Some rom) true room = Ok (BootModel.Exit 0 (Some exe)) -> open name = Some exe ->
    boots windows open rom (name :: args) args.

Lemma reads_spec limit f left_ rom : BootModel.zlen rom < left_ ->
  (limit = None /\ f = BootModel.mkRfile rom 0 \/ limit = Some (BootModel.zlen rom) /\ fst (BootModel.fread f (BootModel.zlen rom)) = rom) ->
  rom_reads (S (List.length (BootModel.f_data f))) limit f left_ = map Some (match rom with [] => [] | _ => [rom] end).
Proof.
  intros HL HC. pose proof (BootProofs.zlen_nonneg rom) as P0. cbn [rom_reads]. destruct (left_ >? 0) eqn:G; [|lia].
  assert (R : exists f', BootModel.stdio_read limit f left_ = (rom, option_map (fun l => l - BootModel.zlen rom) limit, f') /\
                         forall k, BootModel.stdio_read (option_map (fun l => l - BootModel.zlen rom) limit) f' k = ([], option_map (fun l => l - BootModel.zlen rom) limit, f')).
  { destruct HC as [[-> ->]|[-> D]]; unfold BootModel.stdio_read; cbn [option_map].
    - unfold BootModel.fread; cbn [BootModel.f_data BootModel.f_pos]. cbn [Z.to_nat skipn]. rewrite firstn_all2 by (unfold BootModel.zlen in HL; lia).
      eexists; split; [reflexivity|]. intros k. cbn [BootModel.f_data BootModel.f_pos]. rewrite skipn_all2 by (unfold BootModel.zlen; lia). rewrite firstn_nil. change (BootModel.zlen []) with 0. rewrite Z.add_0_r. reflexivity.
    - replace (BootModel.zlen rom <? left_) with true by lia. destruct (BootModel.fread f (BootModel.zlen rom)) as [buf f'] eqn:E. cbn [fst] in D. subst buf.
      exists f'. split; [reflexivity|]. intros k. replace (BootModel.zlen rom - BootModel.zlen rom) with 0 by lia.
      assert (Q : (if 0 <? k then 0 else k) <= 0) by (destruct (0 <? k) eqn:K; lia). unfold BootModel.fread. destruct (Z.to_nat (if 0 <? k then 0 else k)) eqn:K; [|lia].
      cbn [firstn]. change (BootModel.zlen []) with 0. destruct f' as [d q]. cbn [BootModel.f_data BootModel.f_pos]. replace (q + 0) with q by lia. reflexivity. }
  destruct R as (f' & R1 & R2). rewrite R1. destruct rom as [|b rom]; [reflexivity|].
  set (r := b :: rom) in *. destruct (BootModel.zlen r >? 0) eqn:Z0; [|unfold r, BootModel.zlen in Z0; cbn [List.length] in Z0; lia]. cbn [map]. f_equal.
  destruct (List.length (BootModel.f_data f)) as [|n]; [reflexivity|]. cbn [rom_reads]. destruct (left_ - BootModel.zlen r >? 0); [|reflexivity]. rewrite R2. reflexivity.
Qed.

(** The program is the ROM, loaded whole, run from 0x100, with those arguments typed
    into its console. *)
Theorem C102_start :
  forall H hs now voices junk hi_first kw kr fuel windows open debug rom args argv v (g : gui H),
  65536 <= vm_msize v < 2147483648 -> (forall i, 0 <= i < vm_msize v -> is_byte (vm_mem v i)) ->
  boots windows open rom args argv -> Forall is_byte rom -> BootModel.zlen rom < vm_msize v - 256 -> Forall (fun a => ~ In 0 a) args ->
  exists mem titles o, (forall j, mem j = put (vm_mem v) 256 rom j) /\ titles_of mem (vm_msize v - 256) titles /\
  gui_process H hs now voices junk hi_first kw kr fuel windows open debug args v g = Ok (Launched (Started _ o)) /\
  same_outcome H o (match run_vector H hs now voices junk hi_first kw kr fuel 256 (vm_set_mem v mem) (begun H argv titles g) with
                    | Done _ v' g' => typing H hs now voices junk hi_first kw kr fuel (arg_events argv) v' g'
                    | o => o
                    end).
Proof.
  intros H hs now voices junk hf kw kr fuel windows open debug rom args argv v g HS HB B FB HF FA.
  assert (P : exists p limit f, platform_init windows open debug args = Ok p /\ p_rom p = Some (limit, f) /\ p_args p = argv /\
            (limit = None /\ f = BootModel.mkRfile rom 0 \/ limit = Some (BootModel.zlen rom) /\ fst (BootModel.fread f (BootModel.zlen rom)) = rom)).
  { destruct B as [name opts rest ws N F R O|name runner room exe args R0 Hz He O].
    - destruct (C102_plain windows open debug name opts rest ws N F R) as (p & E & _ & _ & D & A). rewrite O in D. exists p, None, (BootModel.mkRfile rom 0). split; [exact E|]. split; [exact D|]. split; [exact A|]. left; auto.
    - destruct (C102_embedded windows open debug name args runner rom room exe R0 Hz He O) as (f & E & D). eexists _, _, f. split; [exact E|]. cbn. auto. }
  assert (FV : Forall (fun a => ~ In 0 a) argv).
  { destruct B as [name opts rest ws N F R O|name runner room exe args R0 Hz He O]; inversion FA as [|? ? _ FA']; subst; auto.
    apply Forall_app in FA' as [_ FA']. assert (FW : Forall (fun a => ~ In 0 a) ws) by (destruct R; auto; inversion FA'; auto).
    destruct FW; [constructor|assumption]. }
  destruct P as (p & limit & f & E & D & A & C). unfold gui_process. rewrite E. cbn [rbind]. rewrite D, A, (reads_spec limit f _ rom HF C).
  assert (CC : List.concat (match rom with [] => [] | _ => [rom] end) = rom) by (destruct rom; [reflexivity|cbn; now rewrite app_nil_r]).
  destruct (C86_start H hs now voices junk hf kw kr fuel (match rom with [] => [] | _ => [rom] end) argv v g HS HB) as (mem & titles & o & M & T & L & S); rewrite ?CC; auto.
  { destruct rom; repeat constructor; discriminate. }
  rewrite CC in M. exists mem, titles, o. rewrite L. cbn [rbind]. auto.
Qed.
Print Assumptions C102_start.

(** A ROM that cannot be opened is reported, and nothing runs. *)
Theorem C102_missing :
  forall H hs now voices junk hi_first kw kr fuel windows open debug name opts rest ws v (g : gui H), no_rom (open name) ->
  Forall (is_option windows) opts -> words windows rest ws -> open (hd (text "boot.rom") ws) = None ->
  gui_process H hs now voices junk hi_first kw kr fuel windows open debug (name :: opts ++ rest) v g = Ok NoRom.
Proof.
  intros H hs now voices junk hf kw kr fuel windows open debug name opts rest ws v g N F R O.
  destruct (C102_plain windows open debug name opts rest ws N F R) as (p & E & _ & _ & D & _). unfold gui_process. rewrite E. cbn [rbind]. rewrite D, O. reflexivity.
Qed.
Print Assumptions C102_missing.

(** So an executable made by rom2exe does what the plain emulator does with the ROM
    in a file, whatever the file is called. *)
Theorem C102_exe_is_rom :
  forall H hs now voices junk hi_first kw kr fuel windows open debug plain file exe runner room rom args v (g : gui H),
  0 <= room -> 0 < BootModel.zlen rom < 2147483648 -> BootModel.zlen rom < vm_msize v - 256 ->
  BootModel.rom2exe (Some runner) (Some rom) true room = Ok (BootModel.Exit 0 (Some exe)) ->
  forall name, open name = Some exe -> no_rom (open plain) -> open file = Some rom ->
  gui_process H hs now voices junk hi_first kw kr fuel windows open debug (name :: args) v g =
  gui_process H hs now voices junk hi_first kw kr fuel windows open debug (plain :: text "--" :: file :: args) v g.
Proof.
  intros H hs now voices junk hf kw kr fuel windows open debug plain file exe runner room rom args v g R0 Hz HF He name O N OF.
  destruct (C102_embedded windows open debug name args runner rom room exe R0 Hz He O) as (f & E & D).
  destruct (C102_plain windows open debug plain [] (text "--" :: file :: args) (file :: args) N ltac:(constructor) ltac:(constructor)) as (p & E2 & _ & _ & D2 & A2).
  cbn [app] in E2. cbn [hd] in D2. rewrite OF in D2. unfold gui_process. rewrite E, E2. cbn [rbind p_rom p_args]. rewrite D2, A2. cbn [tl].
  rewrite (reads_spec (Some (BootModel.zlen rom)) f _ rom HF) by auto. rewrite (reads_spec None (BootModel.mkRfile rom 0) _ rom HF) by auto. reflexivity.
Qed.
Print Assumptions C102_exe_is_rom.

(** One would like a command line to mean the same everywhere, but on Windows a
    scale is the name of a ROM. *)
Theorem C102_same_on_windows_refuted :
  ~ (forall open debug args, rmap p_rom (platform_init true open debug args) = rmap p_rom (platform_init false open debug args)).
Proof.
  intros K. specialize (K (fun n => if streq n (text "a.rom") then Some [0] else None) true (map text ["buxn-gui"; "-scale=2"; "a.rom"]%string)). vm_compute in K. discriminate K.
Qed.
Print Assumptions C102_same_on_windows_refuted.

(** Options, an unknown level, two dashes, a ROM whose name looks like an option, and
    two arguments. *)
Definition c102_open (n : list Z) : option (list Z) :=
  if streq n (text "-scale=") then Some [128; 7; 0] else if streq n (text "game") then Some Props_Boot.ex_exe else None.
Definition c102_opts : list (list Z) := map text ["-log-level=warn"; "-scale=2"; "-log-level=loud"; "-scale=1.5"]%string.
Example C102_case :
  no_rom (c102_open (text "buxn-gui")) /\ Forall (is_option false) c102_opts /\ words false (map text ["--"; "-scale="; "a"; "b"]%string) (map text ["-scale="; "a"; "b"]%string) /\
  platform_init false c102_open true (text "buxn-gui" :: c102_opts ++ map text ["--"; "-scale="; "a"; "b"]%string) =
    Ok (mkPlatform Warn (Some (text "1.5")) (Some (None, BootModel.mkRfile [128; 7; 0] 0)) (map text ["a"; "b"]%string)) /\
  rmap (fun p => (option_map fst (p_rom p), p_args p)) (platform_init false c102_open true (map text ["game"; "-scale=2"; "--"; "x"]%string)) =
    Ok (Some (Some 4), map text ["-scale=2"; "--"; "x"]%string) /\
  boots false c102_open Props_Boot.ex_rom (map text ["game"; "--"]%string) [text "--"] /\
  boots false c102_open [128; 7; 0] (text "buxn-gui" :: c102_opts ++ map text ["--"; "-scale="; "a"; "b"]%string) (map text ["a"; "b"]%string).
Proof.
  assert (F : Forall (is_option false) c102_opts).
  { constructor; [left; exists (text "warn"); reflexivity|]. constructor; [right; split; [reflexivity|]; exists (text "2"); reflexivity|].
    constructor; [left; exists (text "loud"); reflexivity|]. constructor; [right; split; [reflexivity|]; exists (text "1.5"); reflexivity|constructor]. }
  assert (W : words false (map text ["--"; "-scale="; "a"; "b"]%string) (map text ["-scale="; "a"; "b"]%string)) by constructor.
  split; [exact Logic.I|]. split; [exact F|]. split; [exact W|]. split; [vm_compute; reflexivity|]. split; [vm_compute; reflexivity|]. split.
  - eapply boots_embedded with (runner := Props_Boot.ex_runner) (room := 1000); [lia|vm_compute; auto|vm_compute; reflexivity|vm_compute; reflexivity].
  - eapply (boots_file false c102_open [128; 7; 0] (text "buxn-gui") c102_opts _ (map text ["-scale="; "a"; "b"]%string)); [exact Logic.I|exact F|exact W|reflexivity].
Qed.
