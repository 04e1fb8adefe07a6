(** * P_names: property C99 — a sheet name that is listed more than once. *)
From Verif Require Import M_tsv P_tsv GoBase GoFloat M_grate M_value M_numbers M_fmt M_formats M_cell M_sheet M_simple M_biff M_xls M_xlsx M_open M_cmd S_sheet L_base P_xlsx P_cmd.

(** ** the statement *)
(** what reading a sheet gives once it has been read before: nothing *)
Definition again (r : res gsheet) : res gsheet := match r with Ok sh => Ok (M_tsv.mkSheet (sh_empty sh) []) | _ => r end.
(** the answer for [n] after the sheets [before] have been read, if each alone would give [get] *)
Definition seen_at (get : gostr -> res gsheet) (before : list gostr) (n : gostr) : res gsheet :=
  if existsb (str_eqb n) before then again (get n) else get n.
Definition ends (r : res gsheet) : Prop := r <> Panic /\ r <> NoFuel.
(** the file written for a sheet, and the line reported *)
Definition tsv_of (md5hex : gostr -> gostr) (fl : flags) (fn n : gostr) (r : res gsheet) : list tsvout :=
  match r with Ok sh => if sh_empty sh then [] else [mkOut (out_path md5hex fn n) (flat_map (fun row => join [9] row ++ [10]) (kept fl (M_tsv.sh_rows sh)))] | _ => [] end.
Definition line_of (fl : flags) (fn n : gostr) (r : res gsheet) (st : stats) : Prop :=
  ps_file st = fn /\ ps_sheet st = n /\
  match r with
  | Ok sh => ps_err st = None /\ ps_rows st = if sh_empty sh then 0 else zlen (kept fl (M_tsv.sh_rows sh))
  | Err e => ps_err st = Some e /\ ps_rows st = 0
  | _ => False
  end.
Definition prints (r : res gsheet) : list printed := match r with Ok sh => map (fun row => POut (join [9] row ++ [10])) (M_tsv.sh_rows sh) | Err e => [PErr e] | _ => [] end.
(** the answers for the names of a list, one after the other *)
Fixpoint in_turn (get : gostr -> res gsheet) (before names : list gostr) : list (gostr * res gsheet) :=
  match names with [] => [] | n :: names => (n, seen_at get before n) :: in_turn get (before ++ [n]) names end.

(** ** one Get after another *)
Definition is_xlsx (s : source) : Prop := match s with SrcXlsx _ _ => True | _ => False end.
Lemma get_xlsx : forall s n, is_xlsx s -> is_xlsx (fst (src_get s n)).
Proof. intros [w|fn o|t] n H; try contradiction. cbn [src_get]. destruct (doc_get o n) as [[o1 [i [e|]]]| | |]; try exact I. destruct (coll o1 i); exact I. Qed.
Lemma read_end : forall sh, read_sheet (at_end sh) = Ok (M_tsv.mkSheet (is_empty sh) []).
Proof.
  intros sh. unfold read_sheet, at_end. cbn [M_sheet.sh_rows read_rows]. unfold next. cbn [M_sheet.sh_rows sh_cur]. destruct (Z.ltb_spec (zlen (M_sheet.sh_rows sh)) (zlen (M_sheet.sh_rows sh) + 1)) as [_|]; [reflexivity|lia].
Qed.
Lemma again_again : forall r, again (again r) = again r.
Proof. intros [sh| | |]; reflexivity. Qed.
Lemma again_ends : forall r, ends r -> ends (again r).
Proof. intros [sh| | |] [A B]; split; try congruence; discriminate. Qed.
Lemma read_ok : forall sh r, read_sheet sh = Ok r -> sh_empty r = is_empty sh.
Proof. intros sh r H. unfold read_sheet in H. destruct (read_rows _ sh); try discriminate. cbn [bind] in H. injection H as <-. reflexivity. Qed.
(** reading rows never returns an error *)
Definition noerr {A} (r : res A) : Prop := forall e, r <> Err e.
Lemma noerr_ok : forall A (a : A), noerr (Ok a). Proof. intros A a e. discriminate. Qed.
Lemma noerr_panic : forall A, noerr (@Panic A). Proof. intros A e. discriminate. Qed.
Lemma noerr_nofuel : forall A, noerr (@NoFuel A). Proof. intros A e. discriminate. Qed.
Lemma noerr_bind : forall A B (r : res A) (f : A -> res B), noerr r -> (forall a, noerr (f a)) -> noerr (bind r f).
Proof. intros A B [a|e| |] f H F; cbn [bind]; [apply F| |apply noerr_panic|apply noerr_nofuel]. exfalso. exact (H e eq_refl). Qed.
Lemma noerr_if : forall A (b : bool) (x y : res A), noerr x -> noerr y -> noerr (if b then x else y).
Proof. intros A []; auto. Qed.
#[local] Hint Resolve noerr_ok noerr_panic noerr_nofuel noerr_bind noerr_if : noe.
Lemma idx_noe : forall A (l : list A) i, noerr (idx l i).
Proof. intros A l i. unfold idx. destruct (0 <=? i); [destruct (nth_error _ _)|]; auto with noe. Qed.
Lemma loop_noe : forall k val maxn maxd sign z diff denom numer ld ln, noerr (frac_loop k val maxn maxd sign z diff denom numer ld ln).
Proof. induction k as [|k IH]; intros; cbn [frac_loop]; auto with noe. Qed.
Lemma frac_noe : forall n v, noerr (frac_text n v).
Proof.
  intros n v. unfold frac_text. generalize frac_fuel. intros k. destruct (to_f64 v) as [f|]; [|auto with noe]. apply noerr_bind; [|intros [[w m] d]; auto with noe]. unfold decimal_to_whole_fraction. destruct (f_modf f) as [a b]. apply noerr_if; [apply noerr_ok|]. apply noerr_bind; [|intros [x y]; auto with noe].
  unfold decimal_to_fraction. destruct (if flt _ _ then _ else _) as [sg z]. destruct (f_modf _) as [u w]. do 3 (apply noerr_if; [apply noerr_ok|]). apply loop_noe.
Qed.
Lemma eval_noe : forall m f v, noerr (ff_eval m f v).
Proof.
  intros m f v. induction f; cbn [ff_eval]; auto with noe.
  - apply noerr_bind; [assumption|]. intros [|c l]; [apply noerr_panic|]. unfold neg_parens. repeat (match goal with |- noerr (match ?x with _ => _ end) => destruct x end); auto with noe.
  - apply noerr_bind; [assumption|]. intros [|c l]; [apply noerr_panic|apply noerr_ok].
  - destruct (to_f64 v); auto with noe.
  - apply frac_noe.
  - destruct (to_f64 v); auto with noe.
Qed.
Lemma apply_noe : forall x n v, noerr (fx_apply x n v).
Proof. intros x n v. unfold fx_apply. destruct (zfind n go_formatters); [apply noerr_bind; [apply eval_noe|auto with noe]|]. destruct (zfind n (fx_codes x)); [apply noerr_bind; [apply eval_noe|auto with noe]|apply noerr_panic]. Qed.
Lemma string_noe : forall x c, noerr (cell_string x c).
Proof.
  intros x c. unfold cell_string. apply noerr_bind.
  - unfold M_cell.cell_type. apply noerr_if; [apply noerr_ok|]. apply noerr_bind; [apply idx_noe|]. intros []; auto with noe.
  - assert (N : noerr (format_no c)) by (unfold format_no; apply noerr_if; [|apply noerr_ok]; apply noerr_bind; [apply idx_noe|]; intros []; auto with noe; match goal with |- noerr (match ?y with _ => _ end) => destruct y end; auto with noe).
    assert (D : noerr (n <- format_no c ;; '(fs, ok) <- fx_apply x n (cell_value c) ;; Ok (if ok : bool then fs else sprint (cell_value c)))) by (apply noerr_bind; [exact N|]; intros n; apply noerr_bind; [apply apply_noe|]; intros [a b]; apply noerr_ok).
    intros []; try exact D; auto with noe. destruct (cell_value c); auto with noe.
Qed.
Lemma fill_noe : forall A B (f : A -> res B) n l i, (forall a, noerr (f a)) -> noerr (fill_row f n i l).
Proof. intros A B f n l. induction l as [|a l IH]; intros i F; cbn [fill_row]; auto 6 with noe. Qed.
Lemma strings_noe : forall s, noerr (strings s).
Proof. intros s. unfold strings, row_map. apply noerr_bind; [apply idx_noe|]. intros r. apply noerr_bind; [apply fill_noe; apply string_noe|auto with noe]. Qed.
Lemma rows_noe : forall fuel s, noerr (read_rows fuel s).
Proof. induction fuel as [|fuel IH]; intros s; cbn [read_rows]; [auto with noe|]. destruct (next s) as [[] s1]; [|auto with noe]. apply noerr_bind; [apply strings_noe|]. intros r. apply noerr_bind; [apply IH|auto with noe]. Qed.
Lemma sheet_noe : forall s, noerr (read_sheet s).
Proof. intros s. unfold read_sheet. apply noerr_bind; [apply rows_noe|auto with noe]. Qed.
(** Getting and reading a sheet of an XLSX file again gives its error again, or no rows. *)
Lemma get_again : forall s n, is_xlsx s -> ends (snd (src_get s n)) -> snd (src_get (fst (src_get s n)) n) = again (snd (src_get s n)).
Proof.
  intros [w|fn o|t] n K E; try contradiction. clear K. cbn [src_get] in *.
  assert (RD : forall sh, ends (read_sheet sh) -> read_sheet (at_end sh) = again (read_sheet sh)).
  { intros sh [E1 E2]. rewrite read_end. pose proof (sheet_noe sh) as NE. destruct (read_sheet sh) as [r|e| |] eqn:R; [cbn [again]; rewrite (read_ok _ _ R); reflexivity|destruct (NE e eq_refl)|congruence|congruence]. }
  unfold doc_get in *. destruct (xo_closed o) eqn:CL; [cbn [fst snd src_get]; unfold doc_get; rewrite CL; reflexivity|].
  destruct (find_sheet (xd_sheets (xo_doc o)) n 0) as [[i x]|] eqn:F; [|cbn [fst snd src_get]; unfold doc_get; rewrite CL, F; reflexivity].
  pose proof (find_named _ _ _ _ _ F) as (_ & FN & EX). rewrite Nat.sub_0_r in FN. assert (LI : (i < List.length (xd_sheets (xo_doc o)))%nat) by (apply nth_error_Some; congruence).
  (* the entry found afterwards *)
  assert (AF : forall s', xh_name s' = xh_name x -> find_sheet (set_nth (xd_sheets (xo_doc o)) i s') n 0 = Some (i, s')).
  { intros s' Hs. destruct (find_same (xd_sheets (xo_doc o)) (set_nth (xd_sheets (xo_doc o)) i s') n 0 (set_nth_names _ _ _ _ FN Hs)) as [[H1 _]|(k & a & b & H1 & H2 & _ & H4)]; [congruence|]. cbn [Nat.add] in *. rewrite H2. assert (k = i) by congruence. subst k. rewrite nth_set_nth in H4 by exact LI. congruence. }
  assert (G : forall s' sh, xh_name s' = xh_name x -> xh_err s' = Some None -> xh_wrapped s' = Some sh -> snd (src_get (SrcXlsx fn (mkXO (with_sheets (xo_doc o) (set_nth (xd_sheets (xo_doc o)) i s')) (xo_closed o))) n) = read_sheet sh).
  { intros s' sh Hn He Hw. cbn [src_get]. unfold doc_get. cbn [xo_closed xo_doc with_sheets xd_sheets]. rewrite CL, AF, He by exact Hn. unfold coll. cbn [xo_doc with_sheets xd_sheets]. rewrite nth_set_nth, Hw by exact LI. reflexivity. }
  destruct (xh_err x) as [[e|]|] eqn:XE.
  - cbn [fst snd src_get]. unfold doc_get. rewrite CL, F, XE. reflexivity.
  - unfold coll, set_coll in *. rewrite FN in *. destruct (xh_wrapped x) as [sh|] eqn:XW; [|destruct E; cbn in *; congruence]. cbn [fst snd] in *. etransitivity; [try rewrite <- CL; eapply G; [..|reflexivity]; [reflexivity|exact XE]|]. apply RD. exact E.
  - destruct (parse_xsheet (xo_doc o) (xh_doc x)) as [[sh e]| | |] eqn:P; cbn [bind] in *; try (cbn [fst snd src_get]; unfold doc_get; rewrite CL, F, XE, P; reflexivity).
    destruct e as [e|].
    + cbn [fst snd src_get]. unfold doc_get. cbn [xo_closed xo_doc with_sheets xd_sheets]. rewrite AF by reflexivity. reflexivity.
    + unfold coll, set_coll in *. cbn [xo_doc with_sheets xd_sheets xo_closed] in *. rewrite nth_set_nth in * by exact LI. cbn [xh_wrapped xh_rel xh_name xh_doc xh_err fst snd] in *.
      assert (SS : forall A (l : list A) i x y, (i < List.length l)%nat -> set_nth (set_nth l i x) i y = set_nth l i y).
      { clear. intros A l i x y L. unfold set_nth. rewrite firstn_app, firstn_firstn, Nat.min_id, firstn_length_le, Nat.sub_diag by lia. cbn [firstn]. rewrite app_nil_r. f_equal. f_equal.
        rewrite skipn_app, firstn_length_le by lia. rewrite (skipn_all2 (firstn i l)) by (rewrite firstn_length_le; lia). replace (S i - i)%nat with 1%nat by lia. reflexivity. }
      unfold with_sheets at 1. cbn [xd_zip xd_primary xd_rels xd_strings xd_xfs xd_fmt]. rewrite SS by exact LI. etransitivity; [try rewrite <- CL; eapply G; [..|reflexivity]; reflexivity|]. apply RD. exact E.
Qed.
Lemma get_other : forall s a b, is_xlsx s -> a <> b -> snd (src_get (fst (src_get s a)) b) = snd (src_get s b).
Proof. intros s a b K N. apply C90_independent; [exact N|]. destruct s; try contradiction; exact I. Qed.
(** the source after a list of Gets *)
Definition after (s : source) (before : list gostr) : source := fold_left (fun s n => fst (src_get s n)) before s.
Lemma get_after : forall before s b, is_xlsx s -> Forall (fun n => ends (snd (src_get s n))) (b :: before) ->
  snd (src_get (after s before) b) = seen_at (fun n => snd (src_get s n)) before b.
Proof.
  induction before as [|a before IH]; intros s b K F; [reflexivity|]. inversion F as [|? ? Fb F1]; subst. inversion F1 as [|? ? Fa F2]; subst.
  assert (ST : forall n, ends (snd (src_get s n)) -> ends (snd (src_get (fst (src_get s a)) n))).
  { intros n H. destruct (list_eq_dec Z.eq_dec a n) as [<-|N]; [rewrite get_again by assumption; apply again_ends; exact H|rewrite get_other by assumption; exact H]. }
  change (after s (a :: before)) with (after (fst (src_get s a)) before). rewrite IH.
  - unfold seen_at. cbn [existsb]. destruct (list_eq_dec Z.eq_dec b a) as [->|N].
    + rewrite str_eqb_refl. cbn [orb]. rewrite get_again by assumption. destruct (existsb _ before); [apply again_again|reflexivity].
    + assert (Q : str_eqb b a = false) by (apply str_eqb_neq; exact N). rewrite Q. cbn [orb]. rewrite get_other by (auto; congruence). reflexivity.
  - apply get_xlsx. exact K.
  - constructor; [apply ST; exact Fb|]. eapply Forall_impl; [|exact F2]. cbn beta. intros n. apply ST.
Qed.

(** the answers to a list of names *)
Fixpoint run (s : source) (names : list gostr) : list (gostr * res gsheet) :=
  match names with [] => [] | n :: names => (n, snd (src_get s n)) :: run (fst (src_get s n)) names end.
Lemma run_in_turn : forall names s before, is_xlsx s -> Forall (fun n => ends (snd (src_get s n))) (before ++ names) ->
  run (after s before) names = in_turn (fun n => snd (src_get s n)) before names.
Proof.
  induction names as [|n names IH]; intros s before K F; [reflexivity|]. cbn [run in_turn]. rewrite get_after; [f_equal| exact K|].
  - replace (fst (src_get (after s before) n)) with (after s (before ++ [n])) by (unfold after; rewrite fold_left_app; reflexivity). apply IH; [exact K|]. rewrite <- app_assoc. exact F.
  - apply Forall_app in F. destruct F as [F1 F2]. inversion F2; subst. constructor; assumption.
Qed.
Lemma run_xls : forall w names, run (SrcXls w) names = map (fun n => (n, snd (src_get (SrcXls w) n))) names.
Proof. intros w names. induction names as [|n names IH]; [reflexivity|]. cbn [run map src_get fst snd] in *. rewrite IH. reflexivity. Qed.
Lemma run_distinct : forall names s, is_xlsx s -> NoDup names -> run s names = map (fun n => (n, snd (src_get s n))) names.
Proof.
  induction names as [|n names IH]; intros s K ND; [reflexivity|]. inversion ND as [|? ? NI ND']; subst. cbn [run map]. f_equal. rewrite IH by (auto using get_xlsx). apply map_ext_in. intros m Hm. rewrite get_other; [reflexivity|exact K|]. intros ->. contradiction.
Qed.

(** ** the loops of the commands over the answers *)
Lemma process_eq : forall md5hex create fl fn wb names s results, run s names = map (fun n => (n, M_tsv.wb_get wb n)) names ->
  process_src md5hex create fl fn s names results = process_sheets md5hex create fl fn wb names results.
Proof.
  intros md5hex create fl fn wb names. induction names as [|n names IH]; intros s results R; [reflexivity|]. cbn [run map] in R. injection R as R1 R2. cbn [process_src process_sheets]. rewrite <- R1. destruct (src_get s n) as [s1 r]. cbn [fst snd] in *.
  destruct r as [sh|e| |]; auto. destruct (sh_empty sh); [auto|]. destruct (write_rows fl (M_tsv.sh_rows sh) 0 0) as [[data nr] nc]. destruct (fl_pretend fl); [auto|]. destruct (create _); [reflexivity|]. rewrite IH by exact R2. reflexivity.
Qed.
Lemma grater_eq : forall wb names s, run s names = map (fun n => (n, M_tsv.wb_get wb n)) names -> grater_src s names = grater_sheets wb names.
Proof.
  intros wb names. induction names as [|n names IH]; intros s R; [reflexivity|]. cbn [run map] in R. injection R as R1 R2. cbn [grater_src grater_sheets]. unfold grater_sheet. rewrite <- R1. destruct (src_get s n) as [s1 r]. cbn [fst snd] in *. rewrite IH by exact R2. destruct r; reflexivity.
Qed.
Lemma process_run : forall md5hex fl fn names s acc, fl_pretend fl = false -> Forall (fun p => ends (snd p)) (run s names) ->
  exists rs, process_src md5hex (fun _ => None) fl fn s names acc = (flat_map (fun p => tsv_of md5hex fl fn (fst p) (snd p)) (run s names), Ok (acc ++ rs)) /\
    Forall2 (fun p st => line_of fl fn (fst p) (snd p) st) (run s names) rs.
Proof.
  intros md5hex fl fn names. induction names as [|n names IH]; intros s acc HP F; [exists []; rewrite app_nil_r; split; [reflexivity|constructor]|]. cbn [run] in *. inversion F as [|? ? [N1 N2] F']; subst. cbn [snd] in N1, N2. cbn [process_src flat_map].
  destruct (src_get s n) as [s1 r] eqn:G. cbn [fst snd] in *. unfold tsv_of at 1. cbn [fst snd].
  destruct r as [sh|e| |]; [|destruct (IH s1 (acc ++ [mkStats fn n 0 0 (Some e)]) HP F') as (rs & -> & R)|congruence|congruence].
  - destruct (sh_empty sh) eqn:Em.
    + destruct (IH s1 (acc ++ [mkStats fn n 0 0 None]) HP F') as (rs & -> & R). rewrite <- app_assoc. cbn [app]. eexists. split; [reflexivity|]. constructor; [|exact R]. unfold line_of. cbn [fst snd]. rewrite Em. auto.
    + destruct (C66_rows fl (M_tsv.sh_rows sh)) as (nc & -> & _). rewrite HP. destruct (IH s1 (acc ++ [mkStats fn n (zlen (kept fl (M_tsv.sh_rows sh))) nc None]) HP F') as (rs & -> & R). rewrite <- app_assoc. cbn [app]. eexists. split; [reflexivity|]. constructor; [|exact R]. unfold line_of. cbn [fst snd]. rewrite Em. auto.
  - rewrite <- app_assoc. cbn [app]. eexists. split; [reflexivity|]. constructor; [|exact R]. unfold line_of. cbn [fst snd]. auto.
Qed.
Lemma grater_run : forall names s, Forall (fun p => ends (snd p)) (run s names) -> grater_src s names = Ok (flat_map (fun p => prints (snd p)) (run s names)).
Proof.
  induction names as [|n names IH]; intros s F; [reflexivity|]. cbn [run] in *. inversion F as [|? ? [N1 N2] F']; subst. cbn [snd] in N1, N2. cbn [grater_src flat_map snd]. destruct (src_get s n) as [s1 r]. cbn [fst snd] in *. rewrite IH by exact F'. destruct r; try congruence; reflexivity.
Qed.
Lemma seen_ends : forall get before n, ends (get n) -> ends (seen_at get before n).
Proof. intros get before n H. unfold seen_at. destruct (existsb _ _); [apply again_ends|]; exact H. Qed.
Lemma turn_ends : forall get names before, Forall (fun n => ends (get n)) names -> Forall (fun p => ends (snd p)) (in_turn get before names).
Proof. intros get names. induction names as [|n names IH]; intros before F; cbn [in_turn]; inversion F; subst; constructor; [apply seen_ends; assumption|apply IH; assumption]. Qed.

(** ** C99 *)
(** When all names differ (and for XLS workbooks in any case) the commands see every sheet as if
    it alone were read from the file as it was opened: the model of C66 and C90. *)
Theorem C99_distinct : forall s, NoDup (src_list s) \/ (exists w, s = SrcXls w) ->
  (forall md5hex create fl openf fn, openf fn = Ok s -> process_file md5hex create fl (fun fn => open_book (openf fn)) fn = process_source md5hex create fl fn s) /\
  (forall openf fn, openf fn = Ok s -> grater_files (fun fn => open_book (openf fn)) [fn] = grater_source s).
Proof.
  intros s H. assert (R : run s (src_list s) = map (fun n => (n, M_tsv.wb_get (src_book s) n)) (src_list s)).
  { cbn [src_book M_tsv.wb_get]. destruct s as [w|fn o|t]; [apply run_xls|apply run_distinct; [exact I|]; destruct H as [H|(w & E)]; [exact H|discriminate]|reflexivity]. }
  split; [intros md5hex create fl openf fn E|intros openf fn E].
  - unfold process_file, process_source. rewrite E. cbn [open_book src_book M_tsv.wb_list]. symmetry. apply process_eq. exact R.
  - unfold grater_files, grater_source. rewrite E. cbn [open_book src_book M_tsv.wb_list]. rewrite (grater_eq (src_book s)) by exact R. unfold src_book. destruct (grater_sheets _ _); cbn [bind]; try reflexivity. rewrite app_nil_r. reflexivity.
Qed.
(** The sheets of an XLSX file, whatever names it lists: a sheet that was read before has the
    error it had, or no rows left. *)
Theorem C99_sequence : forall fn o names, let s := SrcXlsx fn o in Forall (fun n => ends (snd (src_get s n))) names ->
  run s names = in_turn (fun n => snd (src_get s n)) [] names.
Proof. intros fn o names s F. apply (run_in_turn names s []); [exact I|exact F]. Qed.
Theorem C99_commands : forall fn0 o, let s := SrcXlsx fn0 o in let seq := in_turn (fun n => snd (src_get s n)) [] (src_list s) in
  Forall (fun n => ends (snd (src_get s n))) (src_list s) ->
  grater_source s = Ok (flat_map (fun p => prints (snd p)) seq) /\
  forall md5hex fl fn, fl_pretend fl = false -> exists rs, process_source md5hex (fun _ => None) fl fn s = (flat_map (fun p => tsv_of md5hex fl fn (fst p) (snd p)) seq, Ok rs) /\
    Forall2 (fun p st => line_of fl fn (fst p) (snd p) st) seq rs.
Proof.
  intros fn0 o s seq F. assert (E : run s (src_list s) = seq) by (apply C99_sequence; exact F). assert (Q : Forall (fun p => ends (snd p)) (run s (src_list s))) by (rewrite E; apply turn_ends; exact F). split.
  - unfold grater_source. rewrite grater_run, E by exact Q. reflexivity.
  - intros md5hex fl fn HP. unfold process_source. destruct (process_run md5hex fl fn (src_list s) s [] HP Q) as (rs & P1 & P2). exists rs. rewrite P1, <- E. split; [reflexivity|exact P2].
Qed.
(** A name listed twice: grate2tsv writes the rows of the sheet and then creates the same file
    again, for nothing (os.Create empties it; see C93 for what is left on disk); the second line of
    the results says that the sheet has no rows. *)
Lemma turn_app : forall get a before b, in_turn get before (a ++ b) = in_turn get before a ++ in_turn get (before ++ a) b.
Proof. intros get a. induction a as [|n a IH]; intros before b; cbn [app in_turn]; [rewrite app_nil_r; reflexivity|]. rewrite IH, <- app_assoc. reflexivity. Qed.
Lemma kept_nil : forall fl, kept fl [] = [].
Proof. reflexivity. Qed.
Theorem C99_twice_refuted : forall fn0 o a n b c sh, let s := SrcXlsx fn0 o in src_list s = a ++ n :: b ++ n :: c -> ~ In n a ->
  Forall (fun n => ends (snd (src_get s n))) (src_list s) -> snd (src_get s n) = Ok sh -> sh_empty sh = false ->
  forall md5hex fl fn, fl_pretend fl = false -> exists o1 o2 o3 r1 x r2 y r3,
    process_source md5hex (fun _ => None) fl fn s =
      (o1 ++ mkOut (out_path md5hex fn n) (flat_map (fun row => join [9] row ++ [10]) (kept fl (M_tsv.sh_rows sh))) :: o2 ++ mkOut (out_path md5hex fn n) [] :: o3, Ok (r1 ++ x :: r2 ++ y :: r3)) /\
    List.length r1 = List.length a /\ List.length r2 = List.length b /\ ps_sheet x = n /\ ps_rows x = zlen (kept fl (M_tsv.sh_rows sh)) /\ ps_sheet y = n /\ ps_rows y = 0.
Proof.
  intros fn0 o a n b c sh s L NI F G NE md5hex fl fn HP. destruct (C99_commands fn0 o F) as (_ & W). fold s in W. destruct (W md5hex fl fn HP) as (rs & P1 & P2). clear W. rewrite L in P1, P2. rewrite turn_app in P1, P2. cbn [app in_turn] in P1, P2. rewrite turn_app in P1, P2. cbn [app in_turn] in P1, P2.
  set (get := fun n => snd (src_get s n)) in *.
  assert (S1 : seen_at get a n = Ok sh). { unfold seen_at. destruct (existsb (str_eqb n) a) eqn:X; [|exact G]. apply existsb_exists in X. destruct X as (m & Hm & Em). apply str_eqb_eq in Em. subst m. contradiction. }
  assert (S2 : seen_at get ((a ++ [n]) ++ b) n = Ok (M_tsv.mkSheet false [])). { unfold seen_at. assert (X : existsb (str_eqb n) ((a ++ [n]) ++ b) = true) by (apply existsb_exists; exists n; split; [rewrite !in_app_iff; cbn; tauto|apply str_eqb_refl]). rewrite X. unfold get. rewrite G. cbn [again]. rewrite NE. reflexivity. }
  rewrite S1, S2 in P1, P2. rewrite flat_map_app in P1. cbn [flat_map fst snd] in P1. rewrite flat_map_app in P1. cbn [flat_map fst snd] in P1. cbn [tsv_of sh_empty M_tsv.sh_rows] in P1. rewrite NE in P1. cbn [app] in P1.
  apply Forall2_app_inv_l in P2. destruct P2 as (r1 & r' & Q1 & Q2 & ->). inversion Q2 as [|? x ? r'' X Q3]; subst. apply Forall2_app_inv_l in Q3. destruct Q3 as (r2 & r4 & Q4 & Q5 & ->). inversion Q5 as [|? y ? r3 Y Q6]; subst.
  assert (LT : forall l bf, List.length (in_turn get bf l) = List.length l) by (induction l as [|m l IH]; intros bf; [reflexivity|cbn [in_turn List.length]; rewrite IH; reflexivity]).
  unfold line_of in X, Y. cbn [fst snd] in X, Y. rewrite NE in X. cbn [sh_empty M_tsv.sh_rows] in Y. exists (flat_map (fun p => tsv_of md5hex fl fn (fst p) (snd p)) (in_turn get [] a)). do 2 eexists. exists r1, x, r2, y, r3. split; [rewrite P1; reflexivity|].
  assert (LF : forall A B (R : A -> B -> Prop) l m, Forall2 R l m -> List.length m = List.length l) by (induction 1; cbn [List.length]; congruence). apply LF in Q1, Q4. rewrite LT in Q1, Q4. repeat split; try tauto; try congruence.
Qed.

(** ** a document that lists a name twice *)
Definition ex_two : xdoc :=
  mkXDoc [(bs "s", inl (mkXml (ex_c "A1" "str" (ex_v "x") ++ ex_c "B2" "str" (ex_v "y")) EEOF))] [] [] [mkXSh (bs "rId1") (bs "Data") (bs "s") None None; mkXSh (bs "rId2") (bs "Data") (bs "t") None None] [] [] new_formatter.
Example ex_C99_twice : let s := SrcXlsx (bs "f") (mkXO ex_two false) in
  src_list s = [] ++ bs "Data" :: [] ++ bs "Data" :: [] /\ exists sh, snd (src_get s (bs "Data")) = Ok sh /\ sh_empty sh = false /\ M_tsv.sh_rows sh <> [] /\
  Forall (fun n => ends (snd (src_get s n))) (src_list s).
Proof.
  intros s. split; [reflexivity|]. destruct (snd (src_get s (bs "Data"))) as [sh| | |] eqn:G; vm_compute in G; try discriminate. injection G as <-. eexists. split; [reflexivity|]. split; [reflexivity|]. split; [discriminate|].
  cbn. repeat constructor; vm_compute; discriminate.
Qed.
Example ex_C99_distinct : NoDup (src_list (SrcXlsx (bs "f") (mkXO (ex_doc [] []) false))).
Proof. repeat constructor. intros []. Qed.

Print Assumptions C99_distinct.
Print Assumptions C99_sequence.
Print Assumptions C99_commands.
Print Assumptions C99_twice_refuted.
