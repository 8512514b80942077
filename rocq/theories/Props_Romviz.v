(** C67 and C68: what the ROM viewer shows.

    Vocabulary: [frame view_pos line_offset width height rom_size syms] are the
    cells that src/romviz.c draws on a terminal of the given size for the
    symbols of a debug file; a cell is a position in the ROM file, whose byte
    is at the address [256 + position], with the symbol that gives the colour
    and, under the cursor, the description. *)
From Verif Require Import Base AsmModel AsmSound AsmSpec AsmFacts FrontModel Props_Asm Props_Front RomvizModel.
From Coq Require Import ZifyBool Sorted String.
Open Scope list_scope.
Ltac Zify.zify_post_hook ::= Z.div_mod_to_equations.

(** A symbol describes the byte at an address: labels do not. *)
Definition describes (syms : list dsym) (address : Z) (s : dsym) : Prop :=
  In s syms /\ d_type s <> DBG_LABEL /\ d_min s <= address <= d_max s.

(** The symbols other than labels follow each other in memory. *)
Definition in_order (syms : list dsym) : Prop :=
  StronglySorted (fun s t => d_max s < d_min t) (filter (fun s => negb (d_type s =? DBG_LABEL)) syms) /\
  Forall (fun s => d_type s <> DBG_LABEL -> d_min s <= d_max s) syms.

Lemma in_order_tail s syms : in_order (s :: syms) -> in_order syms.
Proof.
  intros [A B]. inversion B; subst. split; auto. cbn in A. destruct (negb _); auto. now inversion A.
Qed.
Lemma in_order_later s syms t : in_order (s :: syms) -> d_type s <> DBG_LABEL -> In t syms -> d_type t <> DBG_LABEL -> d_max s < d_min t.
Proof.
  intros [A _] N I M. cbn in A. replace (d_type s =? DBG_LABEL) with false in A by lia. cbn in A. inversion A as [|? ? _ F]; subst.
  rewrite Forall_forall in F. apply F. apply filter_In. split; auto. lia.
Qed.

(** From an index on: the symbol is found, and what was passed over lies below. *)
Lemma find_from_spec a : forall rest i, in_order rest ->
  exists k, snd (find_from a rest i) = i + Z.of_nat k /\
  (forall s, In s (firstn k rest) -> d_type s = DBG_LABEL \/ d_max s < a) /\
  match fst (find_from a rest i) with
  | Some s => describes rest a s
  | None => forall s, ~ describes rest a s
  end.
Proof.
  induction rest as [|s rest IH]; intros i O; cbn [find_from].
  - exists 0%nat. cbn. split; [lia|]. split; [intros ? []|]. intros s [[] _].
  - pose proof (in_order_tail _ _ O) as O'. destruct (d_type s =? DBG_LABEL) eqn:L.
    + destruct (IH (i + 1) O') as (k & E & P & D). exists (S k). split; [lia|]. split.
      * intros t [<-|T]; [left; lia|auto].
      * destruct (fst _) as [t|]; [destruct D as (I & J & K); split; [now right|auto]|].
        intros t (I & J & K). destruct I as [<-|I]; [lia|]. apply (D t). repeat split; auto; lia.
    + destruct ((d_min s <=? a) && (a <=? d_max s)) eqn:C.
      * exists 0%nat. cbn. split; [lia|]. split; [intros ? []|]. split; [now left|]. lia.
      * destruct (d_min s >? a) eqn:G.
        -- exists 0%nat. cbn. split; [lia|]. split; [intros ? []|]. intros t (I & J & K). destruct I as [<-|I]; [lia|].
           assert (d_max s < d_min t) by (eapply in_order_later; eauto; lia).
           destruct O as [_ F]. rewrite Forall_forall in F. pose proof (F s ltac:(now left) ltac:(lia)). lia.
        -- destruct (IH (i + 1) O') as (k & E & P & D). exists (S k). split; [lia|]. split.
           ++ intros t [<-|T]; [right; lia|auto].
           ++ destruct (fst _) as [t|]; [destruct D as (I & J & K); split; [now right|auto]|].
              intros t (I & J & K). destruct I as [<-|I]; [lia|]. apply (D t). repeat split; auto; lia.
Qed.

Lemma in_order_skipn n : forall syms, in_order syms -> in_order (skipn n syms).
Proof. induction n as [|n IH]; intros syms O; [exact O|]. destruct syms as [|s syms]; [exact O|]. cbn. eapply IH, in_order_tail; eauto. Qed.

Lemma firstn_plus {A} i k (l : list A) : firstn (i + k) l = firstn i l ++ firstn k (skipn i l).
Proof. revert l. induction i as [|i IH]; intros l; [reflexivity|]. destruct l; cbn; [now rewrite firstn_nil|]. now rewrite IH. Qed.

Lemma find_symbol_spec a cur syms : in_order syms -> 0 <= cur -> is_short a ->
  (forall s, In s (firstn (Z.to_nat cur) syms) -> d_type s = DBG_LABEL \/ d_max s < a) ->
  cur <= snd (find_symbol a cur syms) /\
  (forall s, In s (firstn (Z.to_nat (snd (find_symbol a cur syms))) syms) -> d_type s = DBG_LABEL \/ d_max s < a) /\
  match fst (find_symbol a cur syms) with
  | Some s => describes syms a s
  | None => forall s, ~ describes syms a s
  end.
Proof.
  intros O C A P. unfold find_symbol, u16. unfold is_short in A. rewrite Z.mod_small by lia.
  destruct (find_from_spec a (skipn (Z.to_nat cur) syms) cur (in_order_skipn _ _ O)) as (k & E & Q & D).
  rewrite E. split; [lia|]. split.
  - replace (Z.to_nat (cur + Z.of_nat k)) with (Z.to_nat cur + k)%nat by lia. rewrite firstn_plus.
    intros s I. apply in_app_or in I as [I|I]; auto.
  - destruct (fst _) as [s|].
    + destruct D as (I & J). split; [|exact J]. rewrite <- (firstn_skipn (Z.to_nat cur) syms). apply in_or_app. now right.
    + intros s (I & J & K). rewrite <- (firstn_skipn (Z.to_nat cur) syms) in I. apply in_app_or in I as [I|I].
      * destruct (P s I); [contradiction|lia].
      * apply (D s). split; auto.
Qed.

Lemma draw_spec syms rom_size : in_order syms -> rom_size <= 65280 -> forall n from cur p s, 0 <= from -> 0 <= cur ->
  (forall s, In s (firstn (Z.to_nat cur) syms) -> d_type s = DBG_LABEL \/ d_max s < from + 256) ->
  In (p, s) (draw n from rom_size cur syms) ->
  match s with Some s => describes syms (256 + p) s | None => forall s, ~ describes syms (256 + p) s end.
Proof.
  intros O R. induction n as [|n IH]; intros from cur p s F C P I; [destruct I|]. cbn [draw] in I.
  destruct (from >=? rom_size) eqn:G; [destruct I|].
  pose proof (find_symbol_spec (from + 256) cur syms O C ltac:(unfold is_short; lia) P) as (C' & P' & D).
  destruct (find_symbol (from + 256) cur syms) as [s' cur']. cbn [fst snd] in *. destruct I as [E|I].
  - injection E as <- <-. replace (256 + from) with (from + 256) by lia. exact D.
  - apply (IH (from + 1) cur'); auto; [lia|lia|]. intros t T. destruct (P' t T); [now left|right; lia].
Qed.

(** Which positions are drawn. *)
Lemma draw_cells syms rom_size : forall n from cur p, 0 <= from ->
  (exists s, In (p, s) (draw n from rom_size cur syms)) <-> from <= p < from + Z.of_nat n /\ p < rom_size.
Proof.
  induction n as [|n IH]; intros from cur p F; cbn [draw].
  - split; [intros [s []]|lia].
  - destruct (from >=? rom_size) eqn:G; [split; [intros [s []]|lia]|].
    destruct (find_symbol (from + 256) cur syms) as [s' cur']. split.
    + intros [s [E|I]]; [injection E as <- <-; lia|]. assert (X : exists s, In (p, s) (draw n (from + 1) rom_size cur' syms)) by eauto.
      apply IH in X; lia.
    + intros H. destruct (Z.eq_dec p from) as [->|]; [eexists; now left|].
      destruct (proj2 (IH (from + 1) cur' p ltac:(lia)) ltac:(lia)) as [s I]. exists s. now right.
Qed.

Lemma frame_inv v lo w h rs syms lo' cells : frame v lo w h rs syms = Ok (lo', cells) ->
  scroll v lo w h = Ok lo' /\
  cells = draw (Z.to_nat ((h - HEADER_LINES) * bytes_per_row w)) (lo' * bytes_per_row w) rs 0 syms.
Proof.
  unfold frame. destruct (scroll v lo w h) as [l|f]; cbn [rbind]; [|discriminate]. intros E.
  split; [f_equal; congruence|congruence].
Qed.
Lemma scroll_nonneg v lo w h lo' : 0 <= v -> 0 <= lo -> 0 <= w -> 4 <= h -> scroll v lo w h = Ok lo' -> 0 <= lo'.
Proof.
  intros V L W H. unfold scroll, cdiv. destruct (bytes_per_row w =? 0) eqn:B; [discriminate|]. cbn [rbind]. unfold bytes_per_row, HEADER_LINES, SPACE_PER_BYTE in *.
  assert (0 <= Z.quot v (Z.quot (Z.quot w 3) 4 * 4)).
  { apply Z.quot_pos; [lia|]. assert (0 <= Z.quot (Z.quot w 3) 4) by (apply Z.quot_pos; [apply Z.quot_pos; lia|lia]). lia. }
  set (q := Z.quot v _) in *. clearbody q. intros [= <-]. destruct (q <? lo) eqn:X; destruct (_ >? _) eqn:Y; lia.
Qed.

(** ** C67 *)
(** For a debug file whose symbols are in the order of their addresses, every
    byte on the screen is shown with the symbol that describes it, and as
    undescribed if there is none.  65280 bytes are all that fit above 0x100. *)
Theorem C67_right_symbol view_pos line_offset width height rom_size syms lo cells p s :
  in_order syms -> 0 <= view_pos -> 0 <= line_offset -> 0 <= width -> 4 <= height -> rom_size <= 65280 ->
  frame view_pos line_offset width height rom_size syms = Ok (lo, cells) -> In (p, s) cells ->
  match s with Some s => describes syms (256 + p) s | None => forall s, ~ describes syms (256 + p) s end.
Proof.
  intros O V L W H R F I. apply frame_inv in F as [S ->].
  pose proof (scroll_nonneg _ _ _ _ _ V L W H S) as N.
  assert (B : 0 <= bytes_per_row width) by (unfold bytes_per_row, SPACE_PER_BYTE; assert (0 <= Z.quot (Z.quot width 3) 4) by (apply Z.quot_pos; [apply Z.quot_pos; lia|lia]); lia).
  apply (draw_spec syms rom_size O R _ _ 0 p s) in I; auto; [nia|lia|]. intros t [].
Qed.
Print Assumptions C67_right_symbol.

(** The cursor, and only what lies in the ROM, is on the screen. *)
Theorem C67_cursor_visible view_pos line_offset width height rom_size syms :
  0 <= view_pos < rom_size -> 0 <= line_offset -> 12 <= width -> 4 <= height ->
  exists lo cells, frame view_pos line_offset width height rom_size syms = Ok (lo, cells) /\
  (exists s, In (view_pos, s) cells) /\ forall p s, In (p, s) cells -> 0 <= p < rom_size.
Proof.
  intros V L W H. unfold frame.
  assert (B : 4 <= bytes_per_row width).
  { unfold bytes_per_row, SPACE_PER_BYTE. assert (1 <= Z.quot (Z.quot width 3) 4); [|lia].
    rewrite !Z.quot_div_nonneg by (try apply Z.quot_pos; lia). lia. }
  set (n := bytes_per_row width) in *.
  assert (E : exists lo, scroll view_pos line_offset width height = Ok lo /\ 0 <= lo /\ lo <= view_pos / n <= lo + height - 4).
  { unfold scroll, cdiv. fold n. replace (n =? 0) with false by lia. cbn [rbind]. rewrite Z.quot_div_nonneg by lia.
    assert (0 <= view_pos / n) by (apply Z.div_pos; lia). unfold HEADER_LINES. set (q := view_pos / n) in *. clearbody q.
    eexists. split; [reflexivity|]. destruct (q <? line_offset) eqn:X; destruct (_ >? _) eqn:Y; lia. }
  destruct E as (lo & -> & P & Q). cbn [rbind]. exists lo. eexists. split; [reflexivity|].
  assert (D : n * (view_pos / n) <= view_pos < n * (view_pos / n) + n) by lia. split.
  - apply draw_cells; [nia|]. rewrite Z2Nat.id by (unfold HEADER_LINES; nia). unfold HEADER_LINES.
    set (q := view_pos / n) in *. clearbody q n. nia.
  - intros p s I. assert (X : exists s, In (p, s) (draw (Z.to_nat ((height - HEADER_LINES) * n)) (lo * n) rom_size 0 syms)) by eauto.
    apply draw_cells in X; nia.
Qed.
Print Assumptions C67_cursor_visible.

(** On a terminal of less than twelve columns the viewer divides by zero. *)
Theorem C67_narrow_terminal_refuted view_pos line_offset width height rom_size syms : 0 <= width < 12 ->
  frame view_pos line_offset width height rom_size syms = Fault DivByZero.
Proof.
  intros W. unfold frame, scroll, cdiv. replace (bytes_per_row width) with 0; [reflexivity|].
  unfold bytes_per_row, SPACE_PER_BYTE. rewrite !Z.quot_div_nonneg by (try apply Z.quot_pos; lia). lia.
Qed.
Print Assumptions C67_narrow_terminal_refuted.

(** The order of the symbols is needed, and the assembler does not provide it:
    in the debug file of this program, which writes the second byte first, the
    first byte has a symbol, but the viewer shows it without. *)
Definition backwards : str := bytes "|0101 INC |0100 01 ".
Theorem C67_any_program_refuted : exists o syms lo cells s,
  assembles (Props_Asm.one backwards) (bytes "a") true (evs_of backwards) /\
  front_main true (evs_of backwards) = FEnd 0 o /\ o_rom o = Some [1; 1] /\ o_dbg o = Some syms /\
  frame 0 0 80 24 2 syms = Ok (lo, cells) /\ In (0, None) cells /\ describes syms 256 s.
Proof.
  do 5 eexists. split; [assembled|]. split; [vm_compute; reflexivity|]. split; [reflexivity|]. split; [reflexivity|].
  split; [vm_compute; reflexivity|]. split; [left; reflexivity|].
  split; [right; left; reflexivity|]. cbn. unfold DBG_LABEL. lia.
Qed.
Print Assumptions C67_any_program_refuted.

Definition forwards : str := bytes "|0100 INC @l #0203 $2 ""ab ;l ".
Example C67_case : exists o syms lo cells,
  assembles (Props_Asm.one forwards) (bytes "a") true (evs_of forwards) /\
  front_main true (evs_of forwards) = FEnd 0 o /\ o_dbg o = Some syms /\ in_order syms /\
  frame 0 0 80 24 11 syms = Ok (lo, cells) /\
  map (fun c => option_map d_type (snd c)) cells =
    [Some DBG_OPCODE; Some DBG_OPCODE; Some DBG_NUMBER; Some DBG_NUMBER; None; None; Some DBG_TEXT; Some DBG_TEXT;
     Some DBG_OPCODE; Some DBG_LABEL_REF; Some DBG_LABEL_REF].
Proof.
  do 4 eexists. split; [assembled|]. split; [vm_compute; reflexivity|]. split; [reflexivity|]. split.
  - split; [vm_compute; repeat constructor|]. repeat constructor; cbn; unfold DBG_LABEL; lia.
  - split; [vm_compute; reflexivity|]. reflexivity.
Qed.

(** ** C68 *)
(** The text that is printed for a symbol lies inside the source file. *)
Theorem C68_inside_source size sb eb : 0 < size ->
  let '(start, count) := text_range size sb eb in 0 <= start /\ 0 <= count /\ start + count <= size - 1 /\ start <= size - 1.
Proof.
  intros S. unfold text_range. set (st := if sb >=? size then size - 1 else sb). set (en := if eb >=? size then size - 1 else eb).
  assert (st <= size - 1) by (unfold st; destruct (sb >=? size) eqn:?; lia).
  assert (en <= size - 1) by (unfold en; destruct (eb >=? size) eqn:?; lia). clearbody st en.
  destruct (st <? 0) eqn:?; match goal with |- context [if en <? ?x then _ else _] => destruct (en <? x) eqn:? end; lia.
Qed.
Print Assumptions C68_inside_source.

(** It is the text of the symbol, unless that ends with the last byte of the
    file: then the last byte is missing. *)
Theorem C68_text size sb eb : 0 <= sb < eb -> eb <= size ->
  text_range size sb eb = (sb, if eb =? size then eb - sb - 1 else eb - sb).
Proof.
  intros S E. unfold text_range. replace (sb >=? size) with false by lia. replace (sb <? 0) with false by lia.
  destruct (eb =? size) eqn:X.
  - replace (eb >=? size) with true by lia. destruct (size - 1 <? sb) eqn:Y; apply (f_equal2 pair); lia.
  - replace (eb >=? size) with false by lia. replace (eb <? sb) with false by lia. reflexivity.
Qed.
Print Assumptions C68_text.
Theorem C68_whole_text_refuted : exists src o s,
  assembles (Props_Asm.one src) (bytes "a") true (evs_of src) /\
  front_main true (evs_of src) = FEnd 0 o /\ o_dbg o = Some [s] /\
  let sb := byte (r_start (d_reg s)) in let eb := byte (r_end (d_reg s)) in
  0 <= sb < eb /\ eb <= len src /\ text_range (len src) sb eb <> (sb, eb - sb).
Proof.
  exists (bytes "|0100 INC"). do 2 eexists. split; [assembled|]. split; [vm_compute; reflexivity|]. split; [reflexivity|].
  vm_compute. repeat split; discriminate.
Qed.
Print Assumptions C68_whole_text_refuted.

(** The arrow keys move the cursor by a byte or a row and stop at the ends of the
    ROM; Enter on a reference goes to the first label of the symbol file with the
    number of the reference that is not in the zero page, and nowhere on anything
    else. *)
Definition arrow (k : key) : Prop := k <> KEnter.
Theorem C68_arrows k view_pos n rom_size focus syms : arrow k -> 0 <= view_pos < rom_size -> 0 < n ->
  press k view_pos n rom_size focus syms =
    match k with
    | KRight => Z.min (view_pos + 1) (rom_size - 1) | KLeft => Z.max (view_pos - 1) 0
    | KUp => Z.max (view_pos - n) 0 | KDown => Z.min (view_pos + n) (rom_size - 1) | KEnter => -1
    end /\
  0 <= press k view_pos n rom_size focus syms < rom_size.
Proof. intros A V N. destruct k; cbn [press]; try (repeat match goal with |- context [if ?c then _ else _] => destruct c eqn:? end; lia). now destruct A. Qed.
Print Assumptions C68_arrows.
Theorem C68_enter_elsewhere view_pos n rom_size focus syms : (forall s, focus = Some s -> d_type s <> 1) ->
  press KEnter view_pos n rom_size focus syms = view_pos.
Proof. intros F. destruct focus as [s|]; cbn [press]; [|reflexivity]. specialize (F s eq_refl). change DBG_LABEL_REF with 1. destruct (d_type s =? 1) eqn:E; [lia|reflexivity]. Qed.
Print Assumptions C68_enter_elsewhere.

(** What Enter looks at is the symbol of the byte under the cursor. *)
Lemma draw_focused syms rom_size v c : forall n from cur, In (v, c) (draw n from rom_size cur syms) -> focused v (draw n from rom_size cur syms) = c.
Proof.
  induction n as [|n IH]; intros from cur I; [destruct I|]. cbn [draw] in *. destruct (from >=? rom_size); [destruct I|].
  destruct (find_symbol (from + 256) cur syms) as [s cur']. unfold focused. cbn [find fst]. destruct (from =? v) eqn:E.
  - destruct I as [I|I]; [injection I as _ <-; reflexivity|].
    exfalso. assert (X : forall n from cur, In (v, c) (draw n from rom_size cur syms) -> from <= v).
    { clear. induction n as [|n IH]; intros from cur I; [destruct I|]. cbn [draw] in I. destruct (from >=? rom_size); [destruct I|].
      destruct (find_symbol (from + 256) cur syms) as [s cur']. destruct I as [I|I]; [injection I as <- _; lia|]. apply IH in I. lia. }
    apply X in I. lia.
  - destruct I as [I|I]; [injection I as <- _; lia|]. exact (IH _ _ I).
Qed.
Theorem C68_focus view_pos line_offset width height rom_size syms lo cells c :
  frame view_pos line_offset width height rom_size syms = Ok (lo, cells) -> In (view_pos, c) cells -> focused view_pos cells = c.
Proof. intros F I. apply frame_inv in F as [_ ->]. apply draw_focused, I. Qed.
Print Assumptions C68_focus.

Lemma enter_label view_pos n rom_size s syms : d_type s = DBG_LABEL_REF ->
  (exists l1 t l2, syms = l1 ++ t :: l2 /\ press KEnter view_pos n rom_size (Some s) syms = d_min t - 256 /\
     d_type t = DBG_LABEL /\ d_id t = d_id s /\ 256 <= d_min t /\
     forall x, In x l1 -> ~ (d_type x = DBG_LABEL /\ d_id x = d_id s /\ 256 <= d_min x)) \/
  (press KEnter view_pos n rom_size (Some s) syms = view_pos /\
   forall x, In x syms -> ~ (d_type x = DBG_LABEL /\ d_id x = d_id s /\ 256 <= d_min x)).
Proof.
  intros T. cbn [press]. rewrite T. cbn [Z.eqb DBG_LABEL_REF]. change (1 =? 1) with true. cbn match.
  induction syms as [|x syms IH]; cbn [follow]; [right; split; [reflexivity|intros ? []]|].
  destruct ((d_type x =? DBG_LABEL) && (d_id x =? d_id s) && (d_min x >=? 256)) eqn:C.
  - left. exists [], x, syms. split; [reflexivity|]. split; [reflexivity|]. split; [lia|]. split; [lia|]. split; [lia|]. intros ? [].
  - destruct IH as [(l1 & t & l2 & -> & P & A & B & D & F)|[P F]].
    + left. exists (x :: l1), t, l2. split; [reflexivity|]. split; [exact P|]. repeat (split; [assumption|]).
      intros y [<-|I]; [lia|auto].
    + right. split; [exact P|]. intros y [<-|I]; [lia|auto].
Qed.
Theorem C68_enter view_pos n rom_size s syms : d_type s = 1 ->
  (exists l1 t l2, syms = l1 ++ t :: l2 /\ press KEnter view_pos n rom_size (Some s) syms = d_min t - 256 /\
     d_type t = 4 /\ d_id t = d_id s /\ 256 <= d_min t /\
     forall x, In x l1 -> ~ (d_type x = 4 /\ d_id x = d_id s /\ 256 <= d_min x)) \/
  (press KEnter view_pos n rom_size (Some s) syms = view_pos /\
   forall x, In x syms -> ~ (d_type x = 4 /\ d_id x = d_id s /\ 256 <= d_min x)).
Proof. exact (enter_label view_pos n rom_size s syms). Qed.
Print Assumptions C68_enter.
