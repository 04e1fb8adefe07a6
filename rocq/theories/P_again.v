(** * P_again: property C100 — what grate2tsv wrote, opened and converted again. *)
From Coq Require Import Permutation.
From Verif Require Import M_tsv P_tsv GoBase GoFloat M_grate M_value M_formats M_sheet M_simple M_biff M_xls M_xlsx M_open M_cmd S_sheet S_grid S_formats S_display S_text L_base S_simple S_grate S_cfb S_open P_simple P_open P_refuse P_cmd.

(** ** the statement *)
(** all rows have the same, positive number of cells: what the sheets of workbooks deliver *)
Definition rect (rows : list (list gostr)) : Prop := exists n, 0 < n /\ Forall (fun r => zlen r = n) rows.
(** the default flags: white space normalized, blank rows left out *)
Definition normal (fl : flags) : Prop := fl_pretend fl = false /\ fl_newlines fl = true /\ fl_trim fl = true /\ fl_skip fl = true.
(** no line is longer than the text reader takes *)
Definition fits (rows : list (list gostr)) : Prop := Forall (fun r => zlen (join [9] r) <= 65535) rows /\ zlen rows <= 2 ^ 50.

(** ** normalizing twice *)
Definition neat (t : gostr) : Prop := (forall a b, t <> a ++ 32 :: 32 :: b) /\ Forall (fun c => c <> 9 /\ c <> 10 /\ c <> 13) t.
Lemma neat_sub : forall a t b, neat (a ++ t ++ b) -> neat t.
Proof.
  intros a t b [H1 H2]. split; [|rewrite !Forall_app in H2; apply H2]. intros x y E. subst t. apply (H1 (a ++ x) (y ++ b)). rewrite <- !app_assoc. reflexivity.
Qed.
Lemma condensed_neat : forall s t, condensed s t -> neat t.
Proof.
  intros s t C. split; [|exact (condensed_plain _ _ C)].
  assert (HD : forall s t, condensed s t -> (forall c s', s = c :: s' -> is_nl c = false) -> forall b, t <> 32 :: b).
  { intros s1 t1 C1 H b E. subst t1. inversion C1 as [|c s2 t2 B C2|r s2 t2 NE F N C2]; subst; [discriminate B|]. destruct r as [|c r]; [congruence|]. inversion F; subst. rewrite (H c (r ++ s2) eq_refl) in *. discriminate. }
  induction C as [|c s t B C IH|r s t NE F N C IH]; intros a b E.
  - destruct a; discriminate.
  - destruct a as [|x a]; cbn [app] in E; injection E as E1 E2; [subst c; discriminate B|]. exact (IH a b E2).
  - destruct a as [|x a]; cbn [app] in E; [injection E as E2; exact (HD s t C N b E2)|]. injection E as E1 E2. exact (IH a b E2).
Qed.
Lemma neat_runs : forall t, neat t -> newlines_replace t = t.
Proof.
  intros t. unfold newlines_replace. intros H.
  assert (K : runs_to is_nl 32 false t = t /\ ((forall b, t <> 32 :: b) -> runs_to is_nl 32 true t = t)); [|apply K].
  induction t as [|c t IH]; [split; reflexivity|]. destruct IH as [I1 I2]; [apply (neat_sub [c] t []); rewrite app_nil_r; exact H|]. destruct H as [H1 H2]. inversion H2 as [|? ? Hc _]; subst. cbn [runs_to].
  destruct (is_nl c) eqn:B.
  - assert (c = 32) by (unfold is_nl in B; lia). subst c. split; [|intros N; destruct (N t eq_refl)]. f_equal. apply I2. intros b ->. apply (H1 [] b). reflexivity.
  - rewrite I1. split; reflexivity.
Qed.
Lemma trim_trimmed : forall t, (forall r x, In r space_runes -> t <> r ++ x) -> (forall r x, In r space_runes -> t <> x ++ r) -> trim_space t = t.
Proof.
  intros t H1 H2. destruct (trim_space_spec t) as (a & b & E & Fa & Fb & _). destruct a as [|r a]; [|exfalso; inversion Fa as [|? ? Ir _]; subst; cbn [List.concat] in E; rewrite <- app_assoc in E; exact (H1 r _ Ir E)].
  cbn [List.concat app] in E. destruct b as [|r b] using rev_ind; [cbn [List.concat] in E; rewrite app_nil_r in E; symmetry; exact E|]. exfalso. apply Forall_app in Fb. destruct Fb as [_ Fb]. inversion Fb as [|? ? Ir _]; subst. rewrite concat_app in E. cbn [List.concat] in E. rewrite app_nil_r, app_assoc in E. exact (H2 r _ Ir E).
Qed.
Lemma cell_again : forall fl x, fl_newlines fl = true -> fl_trim fl = true -> cell_value fl (cell_written fl x) = cell_value fl x /\ cell_written fl (cell_written fl x) = cell_written fl x.
Proof.
  intros fl x E1 E2. unfold cell_written, cell_value. rewrite E1, E2. set (y := newlines_replace x). pose proof (trim_space_spec y) as S. pose proof (condensed_neat _ _ (newlines_spec x)) as N. fold y in N.
  destruct S as (a & b & E & _ & _ & S1 & S2). rewrite E in N at 1. apply neat_sub in N. rewrite neat_runs by exact N. rewrite trim_trimmed by assumption. auto.
Qed.
Lemma keep_again : forall fl row, fl_newlines fl = true -> fl_trim fl = true -> keep_row fl (map (cell_written fl) row) = keep_row fl row.
Proof.
  intros fl row E1 E2. unfold keep_row. f_equal. induction row as [|x row IH]; [reflexivity|]. cbn [map existsb]. rewrite IH. destruct (cell_again fl x E1 E2) as [-> _]. reflexivity.
Qed.

(** ** C100 *)
(** Converting twice is converting once. *)
Theorem C100_normal : forall fl rows, fl_newlines fl = true -> fl_trim fl = true -> kept fl (kept fl rows) = kept fl rows.
Proof.
  intros fl rows E1 E2. unfold kept. induction rows as [|r rows IH]; [reflexivity|]. cbn [filter]. destruct (keep_row fl r) eqn:K; [|exact IH]. cbn [map filter]. rewrite keep_again, K by assumption. cbn [map]. f_equal; [|exact IH].
  rewrite map_map. apply map_ext. intros x. apply cell_again; assumption.
Qed.
Lemma kept_rect : forall fl rows, rect rows -> rect (kept fl rows).
Proof.
  intros fl rows (n & P & F). exists n. split; [exact P|]. unfold kept. apply Forall_forall. intros r H. apply in_map_iff in H. destruct H as (q & <- & H). apply filter_In in H. rewrite Forall_forall in F. rewrite <- (F q (proj1 H)). unfold zlen. rewrite map_length. reflexivity.
Qed.
Lemma rect_shape : forall rows, rect rows -> shape_ok rows.
Proof.
  intros rows (n & P & F). assert (W : forall c, width_count c rows = if n =? c then zlen rows else 0).
  { intros c. unfold width_count. clear P. destruct (Z.eqb_spec n c) as [->|N].
    - f_equal. induction F as [|r rows H F IH]; [reflexivity|]. cbn [filter]. rewrite H, Z.eqb_refl, IH. reflexivity.
    - induction F as [|r rows H F IH]; [reflexivity|]. cbn [filter]. rewrite H. destruct (Z.eqb_spec n c); [contradiction|exact IH]. }
  destruct (Z.ltb_spec 1 n) as [L|L].
  - destruct (Z.leb_spec (zlen rows) 25) as [S|S]; [left|right].
    + intros c Hc. rewrite W. destruct (n =? c); lia.
    + exists n. rewrite W, Z.eqb_refl. lia.
  - left. intros c Hc. rewrite W. destruct (Z.eqb_spec n c); lia.
Qed.
(** The sheets of workbooks are rectangles. *)
Theorem C100_rectangles : forall x ws rows cols ts, text_rows x ws rows cols ts -> rect ts.
Proof.
  intros x ws rows cols ts (_ & _ & [(_ & _ & _ & ->)|(_ & F)]); [exists 1; split; [lia|constructor]|]. eexists. split; [|exact F]. pose proof (extent_ge (map (fun o : gop => snd (fst o)) ws) (Z.max 1 cols)). lia.
Qed.
Lemma kept_fields : forall fl rows r, fl_newlines fl = true -> fl_trim fl = true -> In r (kept fl rows) -> Forall (fun f => Forall (fun c => c <> 9 /\ c <> 10 /\ c <> 13) f) r.
Proof.
  intros fl rows r E1 E2 I. unfold kept in I. apply in_map_iff in I. destruct I as (q & <- & _). apply Forall_forall. intros f Hf. apply in_map_iff in Hf. destruct Hf as (y & <- & _). destruct (C66_cell fl y E1 E2) as (_ & _ & _ & F). exact F.
Qed.
Lemma join_plain : forall r, Forall (fun f => Forall (fun c => c <> 9 /\ c <> 10 /\ c <> 13) f) r -> Forall (fun c => c <> 10 /\ c <> 13) (join [9] r).
Proof.
  induction 1 as [|f r H F IH]; [constructor|]. assert (Hf : Forall (fun c => c <> 10 /\ c <> 13) f) by (eapply Forall_impl; [|exact H]; cbn beta; intros; lia). destruct r as [|g r]; [exact Hf|].
  change (join [9] (f :: g :: r)) with (f ++ [9] ++ join [9] (g :: r)). rewrite !Forall_app. split; [exact Hf|]. split; [|exact IH]. repeat constructor; lia.
Qed.
Lemma kept_plain : forall fl rows, normal fl -> Forall (fun r => zlen (join [9] r) <= 65535) (kept fl rows) -> plain_table (kept fl rows).
Proof.
  intros fl rows (_ & E1 & E2 & E3) L. unfold plain_table. rewrite Forall_forall in *. intros row I. pose proof (kept_fields _ _ _ E1 E2 I) as F. pose proof (join_plain _ F) as J. split; [|split; [|split; [auto|]]].
  - unfold kept in I. apply in_map_iff in I. destruct I as (r & <- & I). apply filter_In in I. destruct I as (_ & I). unfold keep_row in I. rewrite E3 in I. cbn [negb] in I. rewrite orb_false_r in I. apply existsb_exists in I. destruct I as (x & I & _). destruct r; [destruct I|discriminate].
  - eapply Forall_impl; [|exact F]. intros f H. rewrite Forall_forall in H. split; intros C; specialize (H _ C); lia.
  - intros x C. rewrite C in J. apply Forall_app in J. destruct J as [_ J]. inversion J; lia.
Qed.
(** Open takes the written file for text again, with the rows that were written; grater prints
    these, and grate2tsv writes the same bytes again. *)
Theorem C100_again : forall fuel sizes sp1 sp2 sp3 unzip order iter rd srt hist fn w rows fl data nr nc e,
  sorts_by_priority srt -> Permutation hist (stock fuel sizes sp1 sp2 sp3 unzip order iter rd) -> any_order iter ->
  normal fl -> rect rows -> fits (kept fl rows) -> write_rows fl rows 0 0 = (data, nr, nc) ->
  os_file w fn = FileData data None -> ~ compound data -> unzip data = inr e ->
  let openf fn := open_book (fst (open_file (registered srt hist) fn w)) in
  fst (open_file (registered srt hist) fn w) = Ok (SrcSimple (mkSimple fn (kept fl rows) (-1))) /\
  grater_files openf [fn] = Ok (map (fun r => POut (join [9] r ++ [10])) (kept fl rows)) /\
  forall md5hex, exists st, process_file md5hex (fun _ => None) fl openf fn = (if zlen (kept fl rows) =? 0 then [] else [mkOut (out_path md5hex fn (M_simple.path_base fn)) data], Ok [st]) /\
    ps_file st = fn /\ ps_sheet st = M_simple.path_base fn /\ ps_rows st = nr /\ ps_err st = None.
Proof.
  intros fuel sizes sp1 sp2 sp3 unzip order iter rd srt hist fn w rows fl data nr nc e HS HP HI HN HR [F1 F2] HW HF NC HU openf.
  destruct (C66_rows fl rows) as (ncols & W' & _). rewrite W' in HW. injection HW as <- <- _. clear W'. change (flat_map (fun row => join [9] row ++ [10]) (kept fl rows)) with (tsv_text (kept fl rows)) in *.
  pose proof (kept_plain fl rows HN F1) as PT. pose proof (rect_shape _ (kept_rect fl rows HR)) as SH.
  destruct (C90_tsv_file fuel sizes sp1 sp2 sp3 unzip order iter rd srt hist fn w (kept fl rows) e HS HP HI PT F2 SH HF NC HU) as (P & W). split; [|split].
  - erewrite C75_tsv_file; [reflexivity|..]; eassumption.
  - unfold openf. rewrite P. cbn [flat_map]. rewrite app_nil_r. reflexivity.
  - intros md5hex. destruct HN as (N1 & N2 & N3 & N4). destruct (W md5hex fl N1) as (rs & E & F). inversion F as [|? st ? rs' (Q1 & Q2 & Q3 & Q4) F' EA EB]. subst rs. inversion F'. subst rs'. exists st. unfold openf. rewrite E. cbn [flat_map written_table tb_single tb_name tb_rows] in *. rewrite C100_normal in * by assumption. unfold written_table. cbn [tb_single tb_rows tb_name].
    split; [|split; [exact Q1|split; [exact Q2|split; [|exact Q3]]]].
    + destruct (zlen (kept fl rows) =? 0); cbn [app]; rewrite ?C100_normal by assumption; reflexivity.
    + rewrite Q4. destruct (Z.eqb_spec (zlen (kept fl rows)) 0); lia.
Qed.
(** For every sheet of every source: the file that grate2tsv writes for it, opened again, holds
    the rows that were written. *)
Theorem C100_tables : forall fuel sizes sp1 sp2 sp3 unzip order iter rd srt hist openf fn s ts t fl md5hex,
  sorts_by_priority srt -> Permutation hist (stock fuel sizes sp1 sp2 sp3 unzip order iter rd) -> any_order iter -> normal fl ->
  openf fn = Ok s -> holds_tables s ts -> In t ts -> tb_single t = false -> rect (tb_rows t) -> fits (kept fl (tb_rows t)) ->
  exists o, In o (fst (process_file md5hex (fun _ => None) fl (fun fn => open_book (openf fn)) fn)) /\ o_path o = out_path md5hex fn (tb_name t) /\
    forall w e, os_file w (o_path o) = FileData (o_data o) None -> ~ compound (o_data o) -> unzip (o_data o) = inr e ->
      fst (open_file (registered srt hist) (o_path o) w) = Ok (SrcSimple (mkSimple (o_path o) (kept fl (tb_rows t)) (-1))).
Proof.
  intros fuel sizes sp1 sp2 sp3 unzip order iter rd srt hist openf fn s ts t fl md5hex HS HP HI HN EO HT IT ST HR HF. destruct (C90_commands openf fn s ts EO HT) as (_ & W). destruct (W md5hex fl (proj1 HN)) as (rs & E & _). rewrite E. cbn [fst].
  destruct (C66_rows fl (tb_rows t)) as (nc & WR & _). eexists. split; [apply in_flat_map; exists t; split; [exact IT|]; unfold written_table; rewrite ST; left; reflexivity|]. split; [reflexivity|]. cbn [o_path o_data]. intros w e OS NC HU.
  destruct (C100_again fuel sizes sp1 sp2 sp3 unzip order iter rd srt hist _ w (tb_rows t) fl _ _ nc e HS HP HI HN HR HF WR OS NC HU) as (K & _). exact K.
Qed.
(** Violated for long rows: when a written line has more than 65535 bytes, the file is not opened
    at all. *)
Lemma lines_text : forall rows ls, Forall (fun r => ~ In 10 (join [9] r)) rows -> Lines (tsv_text rows) ls -> ls = map (join [9]) rows.
Proof.
  assert (K : forall a b x y, ~ In 10 a -> ~ In 10 b -> a ++ 10 :: x = b ++ 10 :: y -> a = b /\ x = y).
  { induction a as [|c a IH]; intros [|d b] x y Ha Hb E; cbn [app] in E; [injection E as E2|injection E as E1 E2|injection E as E1 E2|injection E as E1 E2]; subst.
    - auto.
    - exfalso. apply Hb. left. reflexivity.
    - exfalso. apply Ha. left. reflexivity.
    - destruct (IH b x y) as [-> ->]; auto; intros H; [apply Ha|apply Hb]; right; exact H. }
  induction rows as [|r rows IH]; intros ls F L; cbn [tsv_text flat_map map] in *.
  - inversion L as [|l NE _ E|l rest ls' _ _ E]; subst; [reflexivity|congruence|destruct l; discriminate].
  - inversion F as [|? ? Fr F']; subst. rewrite <- app_assoc in L. cbn [app] in L. inversion L as [E|l NE NI E|l rest ls' NI L' E]; subst.
    + destruct (join [9] r); discriminate.
    + exfalso. apply NI. apply in_or_app. right. left. reflexivity.
    + destruct (K _ _ _ _ NI Fr E) as [-> ->]. rewrite (IH ls' F' L'). reflexivity.
Qed.
Theorem C100_long_refuted : forall sizes sp1 sp2 sp3 unzip order iter rd srt fn w rows fl data nr nc e r,
  sorts_by_priority srt -> any_order iter -> normal fl -> write_rows fl rows 0 0 = (data, nr, nc) -> zlen data <= 2 ^ 50 ->
  In r (kept fl rows) -> 65535 < zlen (join [9] r) ->
  os_file w fn = FileData data None -> ~ compound data -> unzip data = inr e ->
  exists N, forall fuel hist, (N <= fuel)%nat -> Permutation hist (stock fuel sizes sp1 sp2 sp3 unzip order iter rd) -> exists e', fst (open_file (registered srt hist) fn w) = Err e'.
Proof.
  intros sizes sp1 sp2 sp3 unzip order iter rd srt fn w rows fl data nr nc e r HS HI HN HW HL IR LR HF NC HU.
  destruct (C66_rows fl rows) as (ncols & W' & _). rewrite W' in HW. injection HW as <- <- _. clear W'. change (flat_map (fun row => join [9] row ++ [10]) (kept fl rows)) with (tsv_text (kept fl rows)) in *.
  destruct (C98_text sizes sp1 sp2 sp3 unzip order iter rd srt HS HI fn w (tsv_text (kept fl rows)) e HF HL HU NC) as [_ R]. apply R. intros rows' (ls & H1 & H2 & _).
  apply lines_text in H1; [|apply Forall_forall; intros q Hq C; destruct HN as (_ & N2 & N3 & _); pose proof (join_plain _ (kept_fields _ _ _ N2 N3 Hq)) as J; rewrite Forall_forall in J; specialize (J _ C); lia].
  subst ls. rewrite Forall_forall in H2. specialize (H2 _ (in_map (join [9]) _ _ IR)). lia.
Qed.

(** ** a sheet that meets the hypotheses *)
Example ex_C100 : let rows := [[bs " a "; [98; 10; 10; 99]]; [[]; [194; 160]]; [[]; bs "d"]] in rect rows /\ normal default_flags /\ fits (kept default_flags rows) /\
  fst (fst (write_rows default_flags rows 0 0)) = [97; 9; 98; 32; 99; 10; 9; 100; 10].
Proof. intros rows. split; [exists 2; split; [lia|repeat constructor]|]. split; [repeat split|]. split; [split; [vm_compute; repeat constructor; discriminate|vm_compute; discriminate]|reflexivity]. Qed.
Example ex_C100_long : forall n, 65535 < Z.of_nat n -> let r := repeat 97 n in In [r] (kept default_flags [[r]]) /\ 65535 < zlen (join [9] [r]).
Proof.
  intros n Hn r. assert (V : cell_written default_flags r = r).
  { unfold cell_written, cell_value. cbn [fl_trim fl_newlines default_flags].
    assert (NE : neat r) by (split; [intros a b E; assert (I : In 32 r) by (rewrite E; apply in_or_app; right; left; reflexivity); apply repeat_spec in I; discriminate|apply Forall_forall; intros c H; apply repeat_spec in H; lia]).
    rewrite neat_runs by exact NE. apply trim_trimmed; intros q x Iq E; (assert (A : Forall (fun c => c = 97) q) by (apply Forall_forall; intros c Hc; apply (repeat_spec n); fold r; rewrite E; apply in_or_app; auto)); cbn [In space_runes] in Iq; repeat (destruct Iq as [<-|Iq]; [inversion A; discriminate|]); destruct Iq. }
  split.
  - unfold kept. cbn [filter]. assert (KR : keep_row default_flags [r] = true) by (unfold keep_row; cbn [existsb]; unfold cell_written in V; cbn [fl_trim default_flags] in V; rewrite V; destruct r as [|c r'] eqn:ER; [destruct n; [lia|discriminate]|reflexivity]). rewrite KR. cbn [map]. rewrite V. left. reflexivity.
  - cbn [join]. unfold zlen, r. rewrite repeat_length. lia.
Qed.

Print Assumptions C100_normal.
Print Assumptions C100_rectangles.
Print Assumptions C100_again.
Print Assumptions C100_tables.
Print Assumptions C100_long_refuted.
