(** * P_codes: custom codes with bracketed parts, sections, optional digits and other number
    pictures (property C92). *)
From Verif Require Import GoBase GoFloat GoUnicode GoTime L_base M_value M_dates M_numbers M_fmt M_formats M_cell M_sheet
  L_simple L_float L_sci L_cell L_sheet S_formats S_cell S_sheet S_dates S_display S_custom L_formats P_formats P_display L_custom L_numcode P_custom.
From Coq Require Import Reals Lra Lia ZifyBool ZifyNat.
From Flocq Require Import Core IEEE754.BinarySingleNaN.
Open Scope Z_scope.
Local Opaque f_to_int64 convert_to_date.

(** ** Brackets *)
Lemma rm_delim_enough : forall n m o c s, (List.length s <= n)%nat -> (List.length s <= m)%nat -> rm_delim n o c s = rm_delim m o c s.
Proof.
  induction n as [|n IH]; intros m o c s Hn Hm.
  - destruct s; [|simpl in Hn; lia]. destruct m; reflexivity.
  - destruct m as [|m]; [destruct s; [reflexivity|simpl in Hm; lia]|]. destruct s as [|x s]; [reflexivity|].
    simpl in Hn, Hm. cbn [rm_delim].
    assert (D : forall k, (List.length (zdrop k s) <= List.length s)%nat) by (intros k; unfold zdrop; rewrite skipn_length; lia).
    destruct (x =? o).
    + cbv zeta. destruct (index_byte c s <? 0).
      * f_equal. apply IH; lia.
      * specialize (D (index_byte c s + 1)). apply IH; lia.
    + f_equal. apply IH; lia.
Qed.
Lemma rm_brackets_app : forall a s, ~ In 91 a -> rm_brackets (a ++ s) = a ++ rm_brackets s.
Proof.
  unfold rm_brackets. induction a as [|x a IH]; intros s H; [reflexivity|]. rewrite <- !app_comm_cons. cbn [List.length rm_delim].
  destruct (Z.eqb_spec x 91) as [->|N]; [exfalso; apply H; left; reflexivity|]. f_equal. apply IH. intros Q. apply H. right. exact Q.
Qed.
Lemma rm_brackets_one : forall u s, ~ In 93 u -> rm_brackets (91 :: u ++ 93 :: s) = rm_brackets s.
Proof.
  intros u s H. unfold rm_brackets. cbn [List.length rm_delim]. change (91 =? 91) with true. cbv iota zeta.
  assert (E : index_byte 93 (u ++ 93 :: s) = zlen u).
  { unfold index_byte. apply index_at; [|reflexivity]. apply Forall_forall. intros b Hb. apply Z.eqb_neq. intros <-. contradiction. }
  rewrite E. pose proof (zlen_nonneg _ u). destruct (Z.ltb_spec (zlen u) 0); [lia|].
  assert (D : zdrop (zlen u + 1) (u ++ 93 :: s) = s).
  { unfold zdrop. replace (Z.to_nat (zlen u + 1)) with (List.length u + 1)%nat by (unfold zlen; lia).
    rewrite skipn_app, skipn_all2 by lia. replace (List.length u + 1 - List.length u)%nat with 1%nat by lia. reflexivity. }
  rewrite D. apply rm_delim_enough; [|lia]. rewrite app_length. simpl. lia.
Qed.
Lemma make_by_brackets : forall s t, rm_brackets s = rm_brackets t -> make_formatter s = make_formatter t.
Proof.
  intros s t E. unfold make_formatter, make_section at 2 4. rewrite E. cbv zeta.
  destruct (containsb (bs ";") (rm_brackets t)); [|reflexivity]. destruct (split_byte 59 (rm_brackets t)); [|reflexivity].
  unfold make_section. rewrite E. reflexivity.
Qed.
Lemma bracket_make : forall a u b, ~ In 91 a -> ~ In 93 u -> make_formatter (a ++ bs "[" ++ u ++ bs "]" ++ b) = make_formatter (a ++ b).
Proof.
  intros a u b Ha Hu. apply make_by_brackets. rewrite (rm_brackets_app a (bs "[" ++ _)), (rm_brackets_app a b) by auto. f_equal. apply (rm_brackets_one u b Hu).
Qed.
Lemma bracket_not_general : forall a u b, to_lower (a ++ bs "[" ++ u ++ bs "]" ++ b) <> bs "general".
Proof.
  intros a u b E. assert (Q : In 91 (to_lower (a ++ bs "[" ++ u ++ bs "]" ++ b))).
  { unfold to_lower. apply in_map_iff. exists 91. split; [reflexivity|]. apply in_or_app. right. left. reflexivity. }
  rewrite E in Q. cbv in Q. lia.
Qed.

(** C92.  A colour, a locale or any other part in square brackets has no influence: the code is
    taken as if the part were not there. *)
Theorem C92_brackets : forall x id a u b, ~ In 91 a -> ~ In 93 u -> to_lower (a ++ b) <> bs "general" ->
  fx_add x id (a ++ bs "[" ++ u ++ bs "]" ++ b) = fx_add x id (a ++ b).
Proof.
  intros x id a u b Ha Hu HG. unfold fx_add.
  pose proof (bracket_not_general a u b) as HB. apply str_eqb_neq in HG, HB. rewrite HG, HB.
  rewrite (bracket_make a u b Ha Hu). reflexivity.
Qed.

(** the currency symbol of a code such as #,##0.00 [$EUR-407] is one of those parts: no symbol
    is shown *)
Theorem C92_currency_refuted : forall x id u pre group p post v, reach_fx x -> free_id x id -> ~ In 93 u ->
  lits_ok pre -> lits_ok post -> ~ In LPct pre -> ~ In LPct post -> 1 <= Z.of_nat p <= 1000 -> f_is_finite v = true ->
  exists ip fp g, shows_fixed (Z.of_nat p) (B2R v) (Bsign v) (minus (Bsign v) ++ ip ++ [46] ++ fp) /\ grouped group ip g /\
    let t := lits_show pre ++ minus (Bsign v) ++ g ++ bs "." ++ fp ++ lits_show post in
    puts (fst (fx_add x id (number_code pre group (Fixed p) post ++ bs "[$" ++ u ++ bs "]"))) id (GF64 v) t /\
    puts (fst (fx_add x id (bs "[$" ++ u ++ bs "]" ++ number_code pre group (Fixed p) post))) id (GF64 v) t.
Proof.
  intros x id u pre group p post v Hx HI Hu H1 H2 N1 N2 Hp F.
  destruct (C82_decimals x id pre group p post v Hx HI H1 H2 N1 N2 Hp F) as (_ & ip & fp & g & D1 & _ & D3 & D4 & _).
  exists ip, fp, g. split; [exact D1|]. split; [exact D3|]. cbv zeta.
  set (nc := number_code pre group (Fixed p) post) in *.
  assert (NG : to_lower nc <> bs "general") by (apply number_formatter; auto).
  assert (NB : ~ In 91 nc).
  { pose proof H1 as [Fp _]. pose proof H2 as [Fq _]. unfold nc, number_code. rewrite !in_app_iff. intros [Q|[Q|Q]].
    - pose proof (lits_bytes _ Fp) as L. rewrite Forall_forall in L. apply (proj1 (L _ Q)). cbv; tauto.
    - pose proof (digits_bytes group (Fixed p)) as L. rewrite Forall_forall in L. apply L in Q. cbv in Q. lia.
    - pose proof (lits_bytes _ Fq) as L. rewrite Forall_forall in L. apply (proj1 (L _ Q)). cbv; tauto. }
  assert (Hu' : ~ In 93 (36 :: u)) by (intros [Q|Q]; [discriminate|contradiction]).
  assert (E1 : fx_add x id (nc ++ bs "[$" ++ u ++ bs "]") = fx_add x id nc).
  { change (bs "[$" ++ u ++ bs "]") with (bs "[" ++ (36 :: u) ++ bs "]" ++ []). rewrite C92_brackets; rewrite ?app_nil_r; auto. }
  assert (E2 : fx_add x id (bs "[$" ++ u ++ bs "]" ++ nc) = fx_add x id nc).
  { change (bs "[$" ++ u ++ bs "]" ++ nc) with ([] ++ bs "[" ++ (36 :: u) ++ bs "]" ++ nc). rewrite C92_brackets; auto. }
  rewrite E1, E2. auto.
Qed.

(** conditions such as [>=100] are such parts too: the sections are chosen by sign alone *)
Theorem C92_condition_refuted : forall x id u p q v, proper v -> free_id x id -> ~ In 93 u -> Forall plain_section [p; q] ->
  fx_apply (fst (fx_add x id (bs "[" ++ u ++ bs "]" ++ p ++ bs ";" ++ q))) id v =
  match chosen_section [p; q] v with
  | Some sec => fx_apply (fst (fx_add x id sec)) id v
  | None => fx_apply x 0 v
  end.
Proof.
  intros x id u p q v Hv HI Hu HP. destruct (high_id id (proj1 (proj1 HI))) as (G1 & _ & _).
  assert (NB : ~ builtin id) by (intros Q; unfold builtin in Q; rewrite G1 in Q; apply Q; reflexivity).
  rewrite <- (C26_sections x id p q [] v Hv NB (proj2 HI) HP).
  pose proof (C92_brackets x id [] u (p ++ bs ";" ++ q)) as E. change ([] ++ ?z) with z in E. rewrite E; auto.
  apply to_lower_59. apply in_or_app. right. left. reflexivity.
Qed.

(** ** The word General with other parts *)
Lemma lower_cases : forall c k, 97 <= k <= 122 -> (if (65 <=? c) && (c <=? 90) then c + 32 else c) = k -> c = k \/ c = k - 32.
Proof. intros c k Hk. destruct (Z.leb_spec 65 c), (Z.leb_spec c 90); cbn [andb]; lia. Qed.
Lemma general_static : forall s, is_general s -> make_formatter s = (FStatic s, StringCell) /\ ~ In 91 s /\ ~ In 59 s.
Proof.
  intros s H. unfold is_general, to_lower in H.
  do 7 (destruct s as [|? s]; [discriminate H|]). destruct s; [|discriminate H]. cbn [map] in H. change (bs "general") with [103; 101; 110; 101; 114; 97; 108] in H.
  injection H as H1 H2 H3 H4 H5 H6 H7.
  apply lower_cases in H1; [|lia]. apply lower_cases in H2; [|lia]. apply lower_cases in H3; [|lia]. apply lower_cases in H4; [|lia].
  apply lower_cases in H5; [|lia]. apply lower_cases in H6; [|lia]. apply lower_cases in H7; [|lia].
  destruct H1 as [->| ->], H2 as [->| ->], H3 as [->| ->], H4 as [->| ->], H5 as [->| ->], H6 as [->| ->], H7 as [->| ->];
    (split; [vm_compute; reflexivity|split; cbn [In]; lia]).
Qed.

(** [Red]General and the like show the word itself, whatever the value *)
Theorem C92_general_refuted : forall x id a u b v, reach_fx x -> free_id x id -> is_general (a ++ b) -> ~ In 93 u ->
  let x' := fst (fx_add x id (a ++ bs "[" ++ u ++ bs "]" ++ b)) in
  puts x' id (GF64 v) (a ++ b) /\ forall w, fx_apply x' id w = Ok (a ++ b, true).
Proof.
  intros x id a u b v _ HI HG Hu x'. destruct (general_static _ HG) as (M & NB & _).
  assert (Ha : ~ In 91 a) by (intros Q; apply NB, in_or_app; left; exact Q).
  rewrite <- (bracket_make a u b Ha Hu) in M.
  destruct (added x id _ _ _ HI (bracket_not_general a u b) M) as (A1 & A2 & A3 & A4). fold x' in A2, A3, A4.
  destruct (high_id id (proj1 (proj1 HI))) as (_ & _ & N0).
  split; [|intros w; rewrite A4; reflexivity].
  exists [GStr (sprint (GF64 v)); GCType StringCell; GInt KUint16 id]. split.
  - unfold make_put_cell. rewrite A3, N0. unfold new_cell_with_type. simpl. unfold set_format_number. simpl. rewrite ?N0. reflexivity.
  - unfold cell_string. simpl. rewrite A4. reflexivity.
Qed.

(** ** Sections of date codes *)
Lemma sections_type : forall p q rest, Forall (fun s => Forall (fun c => c <> 59 /\ c <> 91) s) (p :: q :: rest) ->
  make_formatter (join (bs ";") (p :: q :: rest)) =
  (switch_fmt (fst (make_section p)) (map (fun q => fst (make_section q)) (q :: rest)), snd (make_section p)).
Proof.
  intros p q rest H. change (bs ";") with [59]. set (parts := p :: q :: rest) in *.
  assert (B : Forall (fun b => b <> 91) (join [59] parts)).
  { apply Forall_forall. intros b Hb. apply join_in in Hb as [[<-|[]]|(r & H1 & H2)]; [lia|].
    rewrite Forall_forall in H. specialize (H r H1). rewrite Forall_forall in H. apply H in H2. tauto. }
  unfold make_formatter. cbv zeta. rewrite rm_brackets_id by auto.
  assert (C : containsb (bs ";") (join [59] parts) = true).
  { change (bs ";") with [59]. apply containsb_byte. unfold parts.
    change (join [59] (p :: q :: rest)) with (p ++ [59] ++ join [59] (q :: rest)).
    apply in_or_app. right. left. reflexivity. }
  rewrite C. rewrite L_simple.split_join.
  - unfold parts. destruct (make_section p) eqn:E. reflexivity.
  - discriminate.
  - eapply Forall_impl; [|exact H]. intros s Hs Hin. rewrite Forall_forall in Hs. apply Hs in Hin. tauto.
Qed.

(** year, month, day and time as Go writes them for debugging *)
Definition iso : list dtok :=
  [DYear4; T "-"; DMonth2; T "-"; DDay2; T " "; DHour2; T ":"; DMin2; T ":"; DSec2].
Lemma trim_incl : forall l, incl (trim_zeros l) l.
Proof.
  assert (E : forall x l, trim_zeros (x :: l) = if x =? 48 then trim_zeros l else x :: l).
  { intros x l. destruct (Z.eqb_spec x 48) as [->|N]; [reflexivity|]. unfold trim_zeros. 
    destruct x as [|q|q]; try reflexivity. repeat (destruct q as [q|q|]; try reflexivity). congruence. }
  induction l as [|x l IH]; [easy|]. rewrite E. destruct (x =? 48); [|easy]. intros y Q. right. apply IH. exact Q.
Qed.
Lemma trim_repeat : forall n, trim_zeros (repeat 48 n) = [].
Proof. induction n; simpl; auto. Qed.
Lemma pad_int_dig : forall w n, 0 <= n -> Forall is_dig (pad_int w n).
Proof.
  intros w n H. unfold pad_int. destruct (Z.ltb_spec n 0); [lia|]. cbn [app]. apply Forall_app. split.
  - apply Forall_forall. intros c Q. apply repeat_spec in Q. subst. unfold is_dig. lia.
  - apply utoa_numeral. lia.
Qed.
Lemma time_string_iso : forall t, 1900 <= t_year t -> exists u f, time_string t = u ++ f ++ bs " +0000 UTC" /\
  code_shows (moment_at t) iso u /\ (f = [] \/ exists d, f = bs "." ++ d /\ Forall is_dig d) /\
  (mo_ns (moment_at t) mod 1000000000 = 0 -> f = []).
Proof.
  intros t Hy. exists (time_format (bs "2006-01-02 15:04:05") t), (render_chunk t (CFrac true 9 46)). split; [|split].
  - unfold time_string, time_format.
    assert (E : layout_chunks (List.length (bs "2006-01-02 15:04:05.999999999 -0700 MST")) (bs "2006-01-02 15:04:05.999999999 -0700 MST") =
      layout_chunks (List.length (bs "2006-01-02 15:04:05")) (bs "2006-01-02 15:04:05") ++ CFrac true 9 46 :: [CLit 32; CZone 0 2; CLit 32; CTZ]) by reflexivity.
    rewrite E, flat_map_app. reflexivity.
  - apply layout_shows; auto. cbv. intros Q. repeat (destruct Q as [Q|Q]; [discriminate|]). exact Q.
  - cbn [render_chunk]. cbv zeta. assert (N : 0 <= t_nanos t) by (unfold t_nanos; apply Z.mod_pos_bound; reflexivity).
    set (dd := rev (trim_zeros (rev (firstn (Z.to_nat 9) (pad_int 9 (t_nanos t)))))).
    assert (D : Forall is_dig dd).
    { apply Forall_forall. intros c Q. unfold dd in Q. apply in_rev in Q. apply trim_incl in Q. apply in_rev in Q.
      pose proof (pad_int_dig 9 _ N) as P. rewrite Forall_forall in P. apply P. revert Q. rewrite <- (firstn_skipn (Z.to_nat 9) (pad_int 9 (t_nanos t))) at 2.
      intros Q. apply in_or_app. left. exact Q. }
    split.
    + destruct dd as [|c r]; [left; reflexivity|]. right. exists (c :: r). split; [reflexivity|exact D].
    + cbn [moment_at mo_ns]. intros E. change 1000000000 with ns_per_sec in E. fold (t_nanos t) in E.
      unfold dd. rewrite E. reflexivity.
Qed.

Lemma code_text_plain : forall code, date_code code -> plain_section (code_text code).
Proof.
  intros code HD. split; [|apply date_code_formatter; auto]. destruct HD as (HF & _).
  eapply Forall_impl; [|apply T_bytes; exact HF]. cbv beta. tauto.
Qed.

Lemma pos_class : forall v, f_is_finite v = true -> (0 < B2R v)%R -> sign_class v = 1 /\ Bsign v = false.
Proof.
  intros [s|s| |s m e Hb] F H; try discriminate; [simpl in H; lra|]. destruct s; [|split; reflexivity]. exfalso.
  assert (B2R (B754_finite true m e Hb) < 0)%R by (apply F2R_lt_0; reflexivity). lra.
Qed.
Lemma neg_class : forall v, f_is_finite v = true -> (B2R v < 0)%R -> sign_class v = -1 /\ Bsign v = true.
Proof.
  intros [s|s| |s m e Hb] F H; try discriminate; [simpl in H; lra|]. destruct s; [split; reflexivity|]. exfalso.
  assert (0 < B2R (B754_finite false m e Hb))%R by (apply F2R_gt_0; reflexivity). lra.
Qed.

(** A date code followed by further sections, such as yyyy-mm-dd;@ -- the form Excel itself
    writes -- is not used for the dates of a sheet: the cell shows Go's debugging text instead of
    what the code says.  Apply, given the number itself, shows what the code says. *)
Theorem C92_date_section_refuted : forall x id code q rest val, reach_fx x -> free_id x id -> date_code code -> serial val ->
  Forall plain_section (q :: rest) -> (List.length rest <= 1)%nat ->
  let text := join (bs ";") (code_text code :: q :: rest) in let x' := fst (fx_add x id text) in
  snd (fx_add x id text) = None /\
  exists p u f s, moment_of (fx_1904 x) (B2R val) p /\
    code_shows p iso u /\ (f = [] \/ exists d, f = bs "." ++ d /\ Forall is_dig d) /\ (mo_ns p mod 1000000000 = 0 -> f = []) /\
    puts x' id (GF64 val) (u ++ f ++ bs " +0000 UTC") /\
    code_shows p (flat_map (item_shows (has_ampm code)) code) s /\ fx_apply x' id (GF64 val) = Ok (s, true).
Proof.
  intros x id code q rest val Hx HI HD HS HP HL text x'. pose proof HS as [F HR].
  pose proof (code_text_plain code HD) as PC. destruct (date_code_formatter code HD) as [G M].
  set (lay := concat (map (lay (has_ampm code)) code)) in *.
  assert (MS : make_section (code_text code) = (FTime lay, DateCell)) by (rewrite <- (plain_make _ PC); exact M).
  assert (HM : make_formatter text = (switch_fmt (FTime lay) (map (fun q => fst (make_section q)) (q :: rest)), DateCell)).
  { unfold text. rewrite sections_type, MS; [reflexivity|]. constructor; [apply PC|]. eapply Forall_impl; [|exact HP]. intros s Hs. apply Hs. }
  assert (NG : to_lower text <> bs "general").
  { apply to_lower_59. unfold text. change (join (bs ";") (code_text code :: q :: rest)) with (code_text code ++ [59] ++ join (bs ";") (q :: rest)).
    apply in_or_app. right. left. reflexivity. }
  destruct (added x id text _ _ HI NG HM) as (A1 & A2 & A3 & A4). fold x' in A2, A3, A4. split; [exact A1|].
  destruct (serial_moment (fx_1904 x) val F HR) as [SM SY]. set (t := convert_to_date (fx_1904 x) val) in *.
  destruct (high_id id (proj1 (proj1 HI))) as (_ & _ & N0).
  destruct (time_string_iso t SY) as (u & f & TS & CU & CF & C0).
  exists (moment_at t), u, f, (time_format lay t). split; [exact SM|]. split; [exact CU|]. split; [exact CF|]. split; [exact C0|]. split; [|split].
  - exists [GTime t; GCType DateCell; GInt KUint16 id]. split.
    + unfold make_put_cell. rewrite A3, N0. unfold new_cell_with_type. simpl. rewrite A2. fold t. unfold set_format_number.
      simpl. rewrite ?N0. reflexivity.
    + unfold cell_string. simpl. rewrite A4. unfold switch_fmt. cbn [ff_eval to_f64].
      destruct rest as [|r [|]]; [| |simpl in HL; lia]; cbn [map nth ff_eval ident_text bind]; rewrite TS; reflexivity.
  - apply layout_shows; auto; [apply seen_no_DHour|]. destruct HD as (HF & _ & HA & _). exact (chunks_code (has_ampm code) code HF HA).
  - rewrite A4. pose proof (switch_chosen (fx_1904 x) (FTime lay) (map (fun q => fst (make_section q)) (q :: rest)) (GF64 val) I) as SC.
    rewrite SC. cbn [value_class].
    assert (C1 : sign_class val = 1).
    { apply pos_class; auto. lra. }
    rewrite C1. reflexivity.
Qed.

(** ** Elapsed time *)
Definition elapsed_codes : list string := ["[h]:mm:ss"; "[hh]:mm:ss"; "[h]:mm"; "[hh]:mm"; "[mm]:ss"; "[m]:ss"]%string.
(** a custom code for a duration loses the bracketed hours or minutes: what is shown begins with
    the colon, for every number *)
Theorem C92_elapsed_refuted : forall x id code v, reach_fx x -> free_id x id -> In code elapsed_codes ->
  exists t, puts (fst (fx_add x id (bs code))) id (GF64 v) (bs ":" ++ t).
Proof.
  intros x id code v _ HI Hc. destruct (high_id id (proj1 (proj1 HI))) as (_ & _ & N0).
  assert (K : to_lower (bs code) <> bs "general" /\ exists lay, make_formatter (bs code) = (FTime lay, DateCell) /\
    exists k, layout_chunks (List.length lay) lay = CLit 58 :: k).
  { cbv [elapsed_codes In] in Hc. repeat (destruct Hc as [<-|Hc]; [split; [discriminate|]; eexists; split; [vm_compute; reflexivity|]; eexists; vm_compute; reflexivity|]). destruct Hc. }
  destruct K as (NG & lay & M & k & Lk). destruct (added x id _ _ _ HI NG M) as (A1 & A2 & A3 & A4).
  set (x' := fst (fx_add x id (bs code))) in *. set (t := convert_to_date (fx_1904 x) v) in *.
  exists (flat_map (render_chunk t) k), [GTime t; GCType DateCell; GInt KUint16 id]. split.
  - unfold make_put_cell. rewrite A3, N0. unfold new_cell_with_type. simpl. rewrite A2. fold t. unfold set_format_number.
    simpl. rewrite ?N0. reflexivity.
  - unfold cell_string. simpl. rewrite A4. change (Ok (time_format lay t) = Ok (bs ":" ++ flat_map (render_chunk t) k)).
    unfold time_format. rewrite Lk. reflexivity.
Qed.

(** ** Optional digits *)
Definition optional_code (group : bool) (p k : nat) : gostr :=
  bs (if group then "#,##0" else "0") ++ bs "." ++ repeat 48 p ++ repeat 35 k.
Lemma optional_formatter : forall group p k, (1 <= p + k)%nat -> to_lower (optional_code group p k) <> bs "general" /\
  make_formatter (optional_code group p k) =
  (let f := FSprintf (mkFmt (Z.of_nat p + 1) (Some (Z.of_nat p)) VF false) 1 in if group then FCommas f else f, FloatCell).
Proof.
  intros group p k Hk. set (s := optional_code group p k).
  assert (HS : Forall (fun c => In c (bs "#,0.")) s).
  { unfold s, optional_code. repeat (apply Forall_app; split).
    - destruct group; repeat constructor; cbv; tauto.
    - repeat constructor; cbv; tauto.
    - apply Forall_forall. intros c Q. apply repeat_spec in Q. subst. cbv; tauto.
    - apply Forall_forall. intros c Q. apply repeat_spec in Q. subst. cbv; tauto. }
  assert (NB : forall c, ~ In c (bs "#,0.") -> ~ In c s).
  { intros c Hc Q. rewrite Forall_forall in HS. auto. }
  assert (I46 : In 46 s) by (unfold s, optional_code; apply in_or_app; right; left; reflexivity).
  split.
  { intros E. assert (In 46 (bs "general")) by (rewrite <- E; unfold to_lower; apply in_map_iff; exists 46; split; auto). cbv in H. lia. }
  assert (RB : rm_brackets s = s) by (apply rm_delim_id; auto; apply NB; cbv; lia).
  unfold make_formatter. rewrite RB. rewrite (containsb_not (bs ";") s 59); [|left; reflexivity|apply NB; cbv; lia].
  unfold make_section. rewrite RB.
  assert (RL : rm_literals s = s) by (apply rm_delim_id; auto; apply NB; cbv; lia).
  rewrite RL. rewrite (contains_any_not (bs "ymdhs")).
  2: { eapply Forall_impl; [|exact HS]. cbv. intros; lia. }
  rewrite (contains_any_in (bs ".Ee") s 46), (contains_any_not (bs "Ee")); [|eapply Forall_impl; [|exact HS]; cbv; intros; lia|cbv; tauto|exact I46].
  assert (RE : rm_exp s = s).
  { unfold rm_exp. rewrite <- (app_nil_r s) at 2. rewrite rm_exp_word; [|rewrite app_nil_r; auto|].
    - destruct (List.length s - List.length s)%nat; apply app_nil_r.
    - eapply Forall_impl; [|exact HS]. cbv beta. intros c Q. cbv [bs In] in Q; simpl in Q. unfold is_e. lia. }
  rewrite RE.
  set (H := bs (if group then "###" else "")).
  assert (E2 : remove_byte 44 s = H ++ 48 :: 46 :: repeat 48 p ++ repeat 35 k).
  { unfold s, optional_code. rewrite !remove_app. rewrite (remove_not 44 (repeat 48 p)), (remove_not 44 (repeat 35 k)) by (intros Q; apply repeat_spec in Q; lia).
    unfold H. destruct group; reflexivity. }
  assert (P1 : index_any (bs "0") (remove_byte 44 s) = zlen H).
  { rewrite E2. unfold index_any. apply index_at; [unfold H; destruct group; repeat constructor|reflexivity]. }
  assert (P2 : index_byte 46 (remove_byte 44 s) = zlen H + 1).
  { rewrite E2. unfold index_byte. replace (H ++ 48 :: 46 :: repeat 48 p ++ repeat 35 k) with ((H ++ [48]) ++ 46 :: repeat 48 p ++ repeat 35 k) by (rewrite <- app_assoc; reflexivity).
    rewrite index_at; [rewrite zlen_app; reflexivity|unfold H; destruct group; repeat constructor|reflexivity]. }
  assert (P3 : last_index_any (bs "0.") (remove_byte 44 s) = zlen H + 1 + Z.of_nat p).
  { rewrite E2. assert (T35 : Forall (fun x => existsb (Z.eqb x) (bs "0.") = false) (repeat 35 k)).
    { apply Forall_forall. intros c Q. apply repeat_spec in Q. subst. reflexivity. }
    unfold last_index_any. destruct p as [|p].
    - cbn [repeat app]. replace (H ++ 48 :: 46 :: repeat 35 k) with ((H ++ [48]) ++ 46 :: repeat 35 k) by (rewrite <- app_assoc; reflexivity).
      rewrite last_at; [rewrite zlen_app; change (zlen [48]) with 1; lia|reflexivity|exact T35].
    - rewrite repeat_snoc. replace (H ++ 48 :: 46 :: (repeat 48 p ++ [48]) ++ repeat 35 k) with ((H ++ 48 :: 46 :: repeat 48 p) ++ 48 :: repeat 35 k)
        by (rewrite <- !app_assoc; cbn [app]; rewrite <- ?app_assoc; reflexivity).
      rewrite last_at; [|reflexivity|exact T35]. rewrite zlen_app, !zlen_cons. unfold zlen at 2. rewrite repeat_length. lia. }
  rewrite P1, P2, P3.
  replace (zlen H + 1 + Z.of_nat p - zlen H) with (Z.of_nat p + 1) by lia.
  replace (zlen H + 1 + Z.of_nat p - (zlen H + 1)) with (Z.of_nat p) by lia.
  rewrite (containsb_not (bs "%") (remove_byte 44 s) 37); [|left; reflexivity|].
  2: { unfold remove_byte. rewrite filter_In. intros [Q _]. revert Q. apply NB. cbv; lia. }
  assert (CC : containsb (bs ",") s = group).
  { destruct group; [reflexivity|]. apply (containsb_not _ _ 44); [left; reflexivity|]. unfold s, optional_code. rewrite !in_app_iff.
    intros [Q|[Q|[Q|Q]]]; [cbv in Q; lia|cbv in Q; lia|apply repeat_spec in Q; lia|apply repeat_spec in Q; lia]. }
  rewrite CC.
  assert (SS : sur_split s = ([], Some [])).
  { assert (M : Forall (fun c => is_num_mark c = true) s).
    { eapply Forall_impl; [|exact HS]. cbv beta. intros c Q. cbv [bs In] in Q; simpl in Q. destruct Q as [<-|[<-|[<-|[<-|[]]]]]; reflexivity. }
    assert (NE : exists c r, s = c :: r) by (unfold s, optional_code; destruct group; do 2 eexists; reflexivity).
    unfold sur_split. destruct NE as (c & r & Ec). rewrite Ec in *. cbn [take_while]. inversion M as [|? ? M1 M2]; subst. rewrite M1. cbn [negb List.length skipn].
    do 2 f_equal. rewrite <- (app_nil_r (c :: r)). apply trim_left_app; [exact M|discriminate]. }
  rewrite SS. destruct group; reflexivity.
Qed.

Lemma format_f_whole : forall x, f_is_finite x = true -> exists n, 0 <= n /\ (Rabs (IZR n - Rabs (B2R x)) <= / 2)%R /\
  format_f 0 x = minus (Bsign x) ++ utoa n.
Proof.
  intros x Hf. unfold format_f. rewrite Hf. destruct (f_ratio x) as [[s n] d] eqn:E.
  destruct (f_ratio_real x s n d Hf E) as (Hn & Hd & Hr & ->). change (10 ^ 0) with 1. rewrite Z.mul_1_r.
  destruct (round_half_even_spec n d Hn Hd) as (Q0 & Q1). set (q := round_half_even n d) in *.
  exists q. split; [exact Q0|]. split.
  - rewrite Hr. assert (Hdr : (0 < IZR d)%R) by (apply IZR_lt; auto).
    assert (A : (- IZR d <= 2 * (IZR d * IZR q - IZR n) <= IZR d)%R).
    { rewrite <- !mult_IZR, <- minus_IZR, <- mult_IZR, <- opp_IZR. split; apply IZR_le; lia. }
    replace (IZR q - IZR n / IZR d)%R with ((IZR d * IZR q - IZR n) / IZR d)%R by (field; lra).
    apply Rabs_le. split.
    + apply Rle_div_of; lra.
    + apply Rdiv_le_of; lra.
  - unfold place_point. change (0 <=? 0) with true. cbv iota zeta. unfold pad_left.
    pose proof (utoa_numeral q Q0) as (N1 & _). destruct (utoa q) as [|c r]; [congruence|]. rewrite zlen_cons. pose proof (zlen_nonneg _ r).
    replace (Z.to_nat (0 + 1 - (1 + zlen r))) with 0%nat by lia. destruct (Bsign x); reflexivity.
Qed.
(** Optional decimals, as in 0.##, #,##0.0# or 0.00###, are never shown: the number is rounded to
    the decimals that are not optional, and without any the point is not shown either. *)
Theorem C92_optional_refuted : forall x id group p k v, reach_fx x -> free_id x id -> (1 <= p + k)%nat -> f_is_finite v = true ->
  let code := optional_code group p k in let x' := fst (fx_add x id code) in
  snd (fx_add x id code) = None /\
  ((p = 0)%nat -> exists n d g, (Rabs (IZR n - Rabs (B2R v)) <= / 2)%R /\ nat_numeral n d /\ grouped group d g /\
     puts x' id (GF64 v) (minus (Bsign v) ++ g)) /\
  ((1 <= p)%nat -> exists ip fp g, shows_fixed (Z.of_nat p) (B2R v) (Bsign v) (minus (Bsign v) ++ ip ++ [46] ++ fp) /\ grouped group ip g /\
     puts x' id (GF64 v) (minus (Bsign v) ++ g ++ bs "." ++ fp)).
Proof.
  intros x id group p k v _ HI Hk F code x'. destruct (optional_formatter group p k Hk) as [NG M].
  destruct (high_id id (proj1 (proj1 HI))) as (_ & _ & N0).
  destruct (added x id _ _ _ HI NG M) as (A1 & A2 & A3 & A4). split; [exact A1|]. destruct (fmul_one v F) as (E1 & E2 & E3).
  fold code in A3, A4. fold x' in A3, A4. cbv zeta in A4. split.
  - intros ->. change (Z.of_nat 0) with 0 in *. 
    assert (Z0 : exists n, 0 <= n /\ (Rabs (IZR n - Rabs (B2R v)) <= / 2)%R /\ format_f 0 (fmul v (f_of_Z 1)) = minus (Bsign v) ++ utoa n).
    { rewrite <- E1, <- E3. apply format_f_whole. exact E2. }
    destruct Z0 as (n & Hn & Hr & Ef). pose proof (utoa_numeral n Hn) as N.
    assert (E : forall m, ff_eval m (FSprintf (mkFmt (0 + 1) (Some 0) VF false) 1) (GF64 v) = Ok (minus (Bsign v) ++ utoa n ++ [])).
    { intros m. cbn [ff_eval sprintf_text]. change (wants_int (mkFmt (0 + 1) (Some 0) VF false)) with false. cbv iota. f_equal.
      unfold sprintf_float. cbn [fm_verb fm_prec fm_wid fm_pct]. rewrite Ef, !app_nil_r. unfold pad_left.
      assert (1 <= zlen (utoa n)) by (destruct N as (N1 & _); destruct (utoa n) as [|c r]; [congruence|]; rewrite zlen_cons; pose proof (zlen_nonneg _ r); lia).
      rewrite zlen_app. pose proof (zlen_nonneg _ (minus (Bsign v))). replace (Z.to_nat (0 + 1 - _)) with 0%nat by lia. reflexivity. }
    destruct group.
    + destruct (C23_commas (fx_1904 x) (FSprintf (mkFmt (0 + 1) (Some 0) VF false) 1) (GF64 v) (Bsign v) (utoa n) []) as (g & Hg & _ & Eg); auto; try apply N.
      exists n, (utoa n), g. split; [exact Hr|]. split; [exact N|]. split; [exact Hg|]. apply put_float; auto. rewrite A4. rewrite Eg. rewrite app_nil_r. reflexivity.
    + exists n, (utoa n), (utoa n). split; [exact Hr|]. split; [exact N|]. split; [reflexivity|]. apply put_float; auto. rewrite A4, E, app_nil_r. reflexivity.
  - intros Hp. destruct (eval_fixed (fx_1904 x) false group p v _ ltac:(lia) eq_refl E2) as (ip & fp & g & D1 & D2 & D3 & D4). rewrite E1, E3 in *.
    exists ip, fp, g. split; [exact D1|]. split; [exact D3|]. apply put_float; auto. rewrite A4. unfold number_ff in D4. cbn [fst] in *. rewrite D4. reflexivity.
Qed.

(** ** Other number pictures *)
Definition scaled_codes : list (string * string) :=
  [("#,##0,", ""); ("#,##0,,", ""); ("#,##0,""K""", "K"); ("#,##0,,"" M""", " M")]%string.
Lemma surround_nil : forall m f post v t, ff_eval m f v = Ok t -> ff_eval m (FSurround [] f post) v = Ok (t ++ post).
Proof. intros m f post v t E. cbn [ff_eval]. rewrite E. reflexivity. Qed.
(** a comma after the digits means thousands, two mean millions; the number is shown unscaled *)
Theorem C92_scaling_refuted : forall x id code suffix z, reach_fx x -> free_id x id -> In (code, suffix) scaled_codes ->
  exists d u, nat_numeral (Z.abs z) d /\ in_thousands d u /\
    puts (fst (fx_add x id (bs code))) id (GInt KInt64 z) (minus (z <? 0) ++ u ++ bs suffix).
Proof.
  intros x id code suffix z _ HI Hc. destruct (high_id id (proj1 (proj1 HI))) as (_ & _ & N0).
  destruct (eval_whole (fx_1904 x) false true z) as (d & u & D1 & D2 & D3). exists d, u. split; [exact D1|]. split; [exact D2|].
  assert (K : to_lower (bs code) <> bs "general" /\
    (make_formatter (bs code) = (number_ff false true Whole, IntegerCell) /\ bs suffix = [] \/
     make_formatter (bs code) = (FSurround [] (number_ff false true Whole) (bs suffix), IntegerCell))).
  { cbv [scaled_codes In] in Hc.
    destruct Hc as [Hc|[Hc|[Hc|[Hc|[]]]]]; injection Hc as <- <-; (split; [discriminate|]); [left|left|right|right]; try split; vm_compute; reflexivity. }
  destruct K as (NG & [[M S0]|M]).
  - destruct (added x id _ _ _ HI NG M) as (A1 & A2 & A3 & A4). apply put_int; auto. rewrite A4, D3, S0, app_nil_r. reflexivity.
  - destruct (added x id _ _ _ HI NG M) as (A1 & A2 & A3 & A4). apply put_int; auto. rewrite A4, (surround_nil _ _ _ _ _ D3), <- app_assoc. reflexivity.
Qed.

Definition fraction_codes : list (string * string) := [("# ?/?", " ?/?"); ("# ??/??", " ??/??"); ("# ?/8", " ?/8"); ("# ??/16", " ??/16")]%string.
(** a custom fraction code shows the whole part and then the pattern itself *)
Theorem C92_fraction_refuted : forall x id code suffix v, reach_fx x -> free_id x id -> In (code, suffix) fraction_codes ->
  f_is_finite v = true -> (Rabs (B2R v) < IZR (2 ^ 62))%R ->
  exists d, nat_numeral (Z.abs (Ztrunc (B2R v))) d /\
    puts (fst (fx_add x id (bs code))) id (GF64 v) (minus (Ztrunc (B2R v) <? 0) ++ d ++ bs suffix).
Proof.
  intros x id code suffix v _ HI Hc F HB. destruct (high_id id (proj1 (proj1 HI))) as (_ & _ & N0).
  assert (TI : f_to_int64 v = Ztrunc (B2R v)) by (apply f_to_int64_trunc; auto; apply trunc_range; exact HB).
  destruct (eval_whole (fx_1904 x) false false (Ztrunc (B2R v))) as (d & u & D1 & D2 & D3). exists d. split; [exact D1|]. simpl in D2. subst u.
  assert (K : to_lower (bs code) <> bs "general" /\ make_formatter (bs code) = (FSurround [] (number_ff false false Whole) (bs suffix), IntegerCell)).
  { cbv [fraction_codes In] in Hc. destruct Hc as [Hc|[Hc|[Hc|[Hc|[]]]]]; injection Hc as <- <-; (split; [discriminate|]); vm_compute; reflexivity. }
  destruct K as (NG & M). destruct (added x id _ _ _ HI NG M) as (A1 & A2 & A3 & A4). apply put_float_int; auto.
  rewrite TI, A4, (surround_nil _ _ _ _ _ D3), <- app_assoc. reflexivity.
Qed.

(** pictures that distribute the digits: all digits are shown in the first group and the rest of
    the picture as text *)
Theorem C92_picture_refuted : forall x id z, reach_fx x -> free_id x id -> 0 <= z ->
  exists d, nat_numeral z d /\
    puts (fst (fx_add x id (bs "###-####"))) id (GInt KInt64 z) (d ++ bs "-####") /\
    puts (fst (fx_add x id (bs "000-00-0000"))) id (GInt KInt64 z) (repeat 32 (10 - List.length d) ++ d ++ bs "-00-0000").
Proof.
  intros x id z _ HI Hz. destruct (high_id id (proj1 (proj1 HI))) as (_ & _ & N0).
  exists (utoa z). split; [apply utoa_numeral; auto|].
  assert (IT : itoa z = utoa z) by (unfold itoa; destruct (Z.ltb_spec z 0); [lia|reflexivity]).
  assert (K1 : make_formatter (bs "###-####") = (FSurround [] (FSprintf (mkFmt 0 None VD false) 1) (bs "-####"), IntegerCell)) by (vm_compute; reflexivity).
  assert (K2 : make_formatter (bs "000-00-0000") = (FSurround [] (FSprintf (mkFmt 10 None VD false) 1) (bs "-00-0000"), IntegerCell)) by (vm_compute; reflexivity).
  assert (E : forall m w, ff_eval m (FSprintf (mkFmt w None VD false) 1) (GInt KInt64 z) = Ok (pad_left 32 w (utoa z))).
  { intros m w. cbn [ff_eval]. f_equal. unfold sprintf_text, sprintf_int, int_text. cbn [fm_verb fm_prec fm_wid fm_pct]. rewrite IT, app_nil_r. reflexivity. }
  destruct (added x id (bs "###-####") _ _ HI ltac:(discriminate) K1) as (A1 & A2 & A3 & A4). destruct (added x id (bs "000-00-0000") _ _ HI ltac:(discriminate) K2) as (B1 & B2 & B3 & B4).
  split; apply put_int; auto.
  - rewrite A4, (surround_nil _ _ _ _ _ (E (fx_1904 x) 0)). cbn [bind]. unfold pad_left.
    replace (Z.to_nat (0 - zlen (utoa z))) with 0%nat by (pose proof (zlen_nonneg _ (utoa z)); lia). reflexivity.
  - rewrite B4, (surround_nil _ _ _ _ _ (E (fx_1904 x) 10)). cbn [bind]. unfold pad_left, zlen.
    replace (Z.to_nat (10 - Z.of_nat (List.length (utoa z)))) with (10 - List.length (utoa z))%nat by lia. rewrite <- app_assoc. reflexivity.
Qed.

(** ** The accounting code *)
Definition accounting : string := "_(* #,##0.00_);_(* \(#,##0.00\);_(* ""-""??_);_(@_)".
Definition acc_num : ffun := FCommas (FSprintf (mkFmt 3 (Some 2) VF false) 1).
Lemma accounting_formatter : make_formatter (bs accounting) =
  (FSwitch (FSurround [] acc_num []) (FSurround (bs "(") acc_num (bs ")")) (FSurround (bs "-") (FSprintf (mkFmt 0 None VD false) 1) []) FIdent, FloatCell).
Proof. vm_compute. reflexivity. Qed.
Lemma acc_eval : forall m v, f_is_finite v = true -> exists ip fp g, shows_fixed 2 (B2R v) (Bsign v) (minus (Bsign v) ++ ip ++ [46] ++ fp) /\
  in_thousands ip g /\ ff_eval m acc_num (GF64 v) = Ok (minus (Bsign v) ++ g ++ [46] ++ fp).
Proof.
  intros m v F. destruct (fmul_one v F) as (E1 & E2 & E3).
  destruct (eval_fixed m false true 2 v _ ltac:(lia) eq_refl E2) as (ip & fp & g & D1 & D2 & D3 & D4). rewrite E1, E3 in *.
  exists ip, fp, g. split; [exact D1|]. split; [exact D3|exact D4].
Qed.
(** positive numbers are shown in thousands with two decimals (without the blanks the code asks for) *)
Theorem C92_accounting : forall x id v, reach_fx x -> free_id x id -> f_is_finite v = true -> (0 < B2R v)%R ->
  exists ip fp g, shows_fixed 2 (B2R v) false (ip ++ [46] ++ fp) /\ in_thousands ip g /\
    puts (fst (fx_add x id (bs accounting))) id (GF64 v) (g ++ bs "." ++ fp).
Proof.
  intros x id v _ HI F Hv. destruct (high_id id (proj1 (proj1 HI))) as (_ & _ & N0).
  destruct (added x id (bs accounting) _ _ HI ltac:(discriminate) accounting_formatter) as (A1 & A2 & A3 & A4).
  destruct (acc_eval (fx_1904 x) v F) as (ip & fp & g & D1 & D2 & D3).
  destruct (pos_class v F Hv) as (C1 & S).
  rewrite S in *. exists ip, fp, g. split; [exact D1|]. split; [exact D2|]. apply put_float; auto. rewrite A4. cbn [ff_eval to_f64].
  destruct (sign_class_spec v) as [Q1 Q2]. rewrite C1 in Q1, Q2. rewrite <- Q1, <- Q2. change (1 =? 0) with false. change (1 <? 0) with false. cbv iota.
  cbn [ff_eval] in D3. rewrite D3. cbn [bind app]. rewrite app_nil_r. reflexivity.
Qed.
(** a negative number has its minus sign inside the parentheses, and zero is shown as -0 instead
    of - *)
Theorem C92_accounting_refuted : forall x id, reach_fx x -> free_id x id ->
  (forall v, f_is_finite v = true -> (B2R v < 0)%R -> exists ip fp g, shows_fixed 2 (B2R v) true (bs "-" ++ ip ++ [46] ++ fp) /\ in_thousands ip g /\
     puts (fst (fx_add x id (bs accounting))) id (GF64 v) (bs "(-" ++ g ++ bs "." ++ fp ++ bs ")")) /\
  puts (fst (fx_add x id (bs accounting))) id (GF64 f_zero) (bs "-0").
Proof.
  intros x id _ HI. destruct (high_id id (proj1 (proj1 HI))) as (_ & _ & N0).
  destruct (added x id (bs accounting) _ _ HI ltac:(discriminate) accounting_formatter) as (A1 & A2 & A3 & A4). split.
  - intros v F Hv. destruct (acc_eval (fx_1904 x) v F) as (ip & fp & g & D1 & D2 & D3).
    destruct (neg_class v F Hv) as (C1 & S). rewrite S in *. exists ip, fp, g. split; [exact D1|]. split; [exact D2|]. apply put_float; auto.
    rewrite A4. cbn [ff_eval to_f64].
    destruct (sign_class_spec v) as [Q1 Q2]. rewrite C1 in Q1, Q2. rewrite <- Q1, <- Q2. change (-1 =? 0) with false. change (-1 <? 0) with true. cbv iota.
    cbn [ff_eval] in D3. rewrite D3. cbn [bind app minus]. rewrite <- !app_assoc. reflexivity.
  - apply put_float; auto. rewrite A4. vm_compute. reflexivity.
Qed.

(** ** Cases *)
Example C92_ex_brackets : let x := fst (fx_add new_formatter 164 (bs "[Red][$-409]#,##0.00")) in
  x = fst (fx_add new_formatter 164 (bs "#,##0.00")) /\
  shows x 164 (GF64 (fl (bs "1234.5"))) (bs "1,234.50") = true.
Proof. split; vm_compute; reflexivity. Qed.
Example C92_ex_date : date_code [Fld D1; Sep 45; Fld Mmm; Sep 45; Fld Yy] /\ plain_section (bs "@") /\
  join (bs ";") (code_text [Fld D1; Sep 45; Fld Mmm; Sep 45; Fld Yy] :: [bs "@"]) = bs "d-mmm-yy;@" /\
  let x := fst (fx_add new_formatter 164 (bs "[$-409]d-mmm-yy;@")) in
  (c <- make_put_cell x (GF64 (f_of_Z 43835)) 164 ;; cell_string x c) = Ok (bs "2020-01-05 00:00:00 +0000 UTC") /\
  fx_apply x 164 (GF64 (f_of_Z 43835)) = Ok (bs "5-Jan-20", true).
Proof.
  split; [|split; [|split; [reflexivity|]]].
  - split; [|split; [|split; [|split]]].
    + repeat constructor; cbv [item_ok separators bs In]; simpl; tauto.
    + intros k. do 7 (destruct k as [|k]; [simpl; lia|]). simpl. lia.
    + cbv. repeat split; try discriminate; intros [Q _]; discriminate.
    + right. split; [repeat constructor|]. left. repeat constructor.
    + exists D1. left. reflexivity.
  - change (bs "@") with [64]. split; [|discriminate]. constructor; [lia|]. constructor.
  - split; vm_compute; reflexivity.
Qed.
Example C92_ex_general : is_general (bs "General") /\
  shows (fst (fx_add new_formatter 164 (bs "[Blue]General"))) 164 (GF64 (fl (bs "12.5"))) (bs "General") = true.
Proof. split; [reflexivity|vm_compute; reflexivity]. Qed.
Example C92_ex_condition :
  shows (fst (fx_add new_formatter 164 (bs "[>=100]0.0;0.00"))) 164 (GF64 (fl (bs "12.345"))) (bs "12.3") = true.
Proof. vm_compute. reflexivity. Qed.
Example C92_ex_currency :
  shows (fst (fx_add new_formatter 164 (bs "[$EUR-407] #,##0.00"))) 164 (GF64 (fl (bs "1234.5"))) (bs " 1,234.50") = true.
Proof. vm_compute. reflexivity. Qed.
Example C92_ex_optional : optional_code true 1 1 = bs "#,##0.0#" /\
  shows (fst (fx_add new_formatter 164 (bs "0.##"))) 164 (GF64 (fl (bs "12.75"))) (bs "13") = true /\
  shows (fst (fx_add new_formatter 164 (bs "#,##0.0#"))) 164 (GF64 (fl (bs "1234.57"))) (bs "1,234.6") = true.
Proof. split; [reflexivity|split; vm_compute; reflexivity]. Qed.
Example C92_ex_accounting : let x := fst (fx_add new_formatter 164 (bs accounting)) in
  shows x 164 (GF64 (fl (bs "1234.5"))) (bs "1,234.50") = true /\ shows x 164 (GF64 (fl (bs "-1234.5"))) (bs "(-1,234.50)") = true.
Proof. split; vm_compute; reflexivity. Qed.
Example C92_ex_other :
  shows (fst (fx_add new_formatter 164 (bs "#,##0,""K"""))) 164 (GInt KInt64 1234567) (bs "1,234,567K") = true /\
  shows (fst (fx_add new_formatter 164 (bs "# ?/?"))) 164 (GInt KInt64 3) (bs "3 ?/?") = true /\
  shows (fst (fx_add new_formatter 164 (bs "000-00-0000"))) 164 (GInt KInt64 123456789) (bs " 123456789-00-0000") = true.
Proof. repeat split; vm_compute; reflexivity. Qed.

Print Assumptions C92_brackets.
Print Assumptions C92_currency_refuted.
Print Assumptions C92_condition_refuted.
Print Assumptions C92_general_refuted.
Print Assumptions C92_date_section_refuted.
Print Assumptions C92_elapsed_refuted.
Print Assumptions C92_optional_refuted.
Print Assumptions C92_scaling_refuted.
Print Assumptions C92_fraction_refuted.
Print Assumptions C92_picture_refuted.
Print Assumptions C92_accounting.
Print Assumptions C92_accounting_refuted.
