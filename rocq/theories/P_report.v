(** * P_report: property C103, the results file of grate2tsv *)
From Verif Require Import GoBase L_base M_tsv M_report P_tsv.
From Verif Require M_simple S_simple L_simple P_simple.
From Coq Require Import Lia ZifyBool ZifyNat Permutation.
Import S_simple.

(** ** what became of a file, in the words of a user *)
Inductive outcome :=
| Failed (why : gostr)                                                       (* the file could not be converted *)
| Sheets (l : list (gostr * Z * Z * option gostr)).                          (* per sheet: name, rows, columns, and what was wrong *)
(** the six fields of a record *)
Definition records (now fn : gostr) (o : outcome) : list (list gostr) :=
  match o with
  | Failed e => [[now; fn; bs "-"; bs "-"; bs "-"; e]]
  | Sheets l => map (fun '(s, r, c, e) => [now; fn; s; itoa r; itoa c; match e with None => bs "-" | Some e => e end]) l
  end.
Definition header_record : list gostr := [bs "time"; bs "filename"; bs "sheet"; bs "rows"; bs "columns"; bs "errors"].

(** what processFile returns, as an outcome *)
Definition outcome_of (etext : gerr -> gostr) (r : res (list stats)) : outcome :=
  match r with
  | Ok rs => Sheets (map (fun s => (ps_sheet s, ps_rows s, ps_cols s, option_map etext (ps_err s))) rs)
  | Err e => Failed (etext e)
  | _ => Sheets []
  end.
Lemma sheets_file : forall md5hex create fl fn wb names acc outs rs, Forall (fun s => ps_file s = fn) acc -> process_sheets md5hex create fl fn wb names acc = (outs, Ok rs) -> Forall (fun s => ps_file s = fn) rs.
Proof.
  intros md5hex create fl fn wb. induction names as [|s names IH]; intros acc outs rs A E; cbn [process_sheets] in E; [injection E as _ <-; exact A|].
  assert (AP : forall r c e, Forall (fun s => ps_file s = fn) (acc ++ [mkStats fn s r c e])) by (intros; apply Forall_app; split; [exact A|constructor; [reflexivity|constructor]]).
  destruct (wb_get wb s) as [sh|e| |]; try discriminate; [|exact (IH _ _ _ (AP _ _ _) E)].
  destruct (sh_empty sh); [exact (IH _ _ _ (AP _ _ _) E)|]. destruct (write_rows fl (sh_rows sh) 0 0) as ((data & nr) & nc). destruct (fl_pretend fl); [exact (IH _ _ _ (AP _ _ _) E)|].
  destruct (create (out_path md5hex fn s)); [discriminate|]. destruct (process_sheets md5hex create fl fn wb names (acc ++ [mkStats fn s nr nc None])) as (o2, r2) eqn:E2. injection E as _ ->. exact (IH _ _ _ (AP _ _ _) E2).
Qed.
(** the lines of one file *)
Theorem C103_file : forall md5hex create fl openf etext now fn,
  List.concat (j_lines (tsv_job md5hex create fl openf etext now fn)) = tsv_text (records now fn (outcome_of etext (snd (process_file md5hex create fl openf fn)))).
Proof.
  intros md5hex create fl openf etext now fn. unfold tsv_job. destruct (process_file md5hex create fl openf fn) as (outs, r) eqn:E. cbn [j_lines snd].
  assert (F : forall rs, r = Ok rs -> Forall (fun s => ps_file s = fn) rs).
  { intros rs ->. unfold process_file in E. destruct (openf fn) as [wb|e| |]; try discriminate. destruct (wb_list wb) as [names|e| |]; try discriminate. exact (sheets_file _ _ _ _ _ _ _ _ _ (Forall_nil _) E). }
  destruct r as [rs|e| |]; cbn [result_lines outcome_of records]; try reflexivity.
  specialize (F rs eq_refl). unfold tsv_text. rewrite map_map. rewrite flat_map_concat_map, map_map. f_equal. clear E. induction F as [|s rs Es F IH]; [reflexivity|]. cbn [map]. rewrite IH. f_equal. unfold tabbed. rewrite Es. destruct (ps_err s); reflexivity.
Qed.

Section run.
Variables (md5hex : gostr -> gostr) (create : gostr -> option gerr) (fl : flags) (openf : gostr -> res gbook) (etext : gerr -> gostr).
Variables (now name : nat -> gostr).
Definition the_jobs (i : nat) : job := tsv_job md5hex create fl openf etext (now i) (name i).
Definition the_outcome (i : nat) : outcome := outcome_of etext (snd (process_file md5hex create fl openf (name i))).
Lemma concat_jobs : forall order, List.concat (flat_map (fun i => j_lines (the_jobs i)) order) = tsv_text (flat_map (fun i => records (now i) (name i) (the_outcome i)) order).
Proof.
  induction order as [|i order IH]; [reflexivity|]. cbn [flat_map]. rewrite concat_app, IH. unfold the_jobs at 1. rewrite C103_file. unfold tsv_text. rewrite flat_map_app. reflexivity.
Qed.
(** when the program ends the results file is what it was, a header if it was empty, and then the
    records of each file, once and together *)
Theorem C103_run : forall old nfiles nworkers s, gsteps the_jobs (gstart nfiles nworkers [stats_opened old]) s -> g_main s = MExit ->
  exists order, Permutation (seq 0 nfiles) order /\
    List.concat (g_stats s) = (if zlen old =? 0 then tsv_text [header_record] else old) ++ tsv_text (flat_map (fun i => records (now i) (name i) (the_outcome i)) order).
Proof.
  intros old n m s S E. destruct (C65_exit the_jobs n m _ s S E) as ((order & P & G) & _). exists order. split; [exact P|]. rewrite G. cbn [app List.concat]. rewrite concat_jobs. f_equal.
  unfold stats_opened. destruct (Z.eqb_spec (zlen old) 0) as [L|L]; [|reflexivity]. destruct old; [reflexivity|unfold zlen in L; cbn [List.length] in L; lia].
Qed.
(** grate opens the results file of a run, and shows the header and the records, whatever their
    number, if the texts in them are without tabs and newlines *)
Definition printable (r : list gostr) : Prop := Forall plain_field r /\ zlen (join [9] r) <= 65535 /\ forall x, join [9] r <> x ++ [13].
Lemma records_six : forall now fn o r, In r (records now fn o) -> zlen r = 6.
Proof. intros nw fn [e|l] r H; cbn [records] in H; [destruct H as [<-|[]]; reflexivity|]. apply in_map_iff in H. destruct H as ((((s & a) & b) & e) & <- & _). reflexivity. Qed.
Lemma width_all : forall c rows, Forall (fun r => zlen r = c) rows -> forall d, width_count d rows = if d =? c then zlen rows else 0.
Proof.
  intros c rows F d. unfold width_count. induction F as [|r rows E F IH]; [destruct (d =? c); reflexivity|]. cbn [filter]. rewrite E. destruct (Z.eqb_spec c d) as [->|N].
  - rewrite Z.eqb_refl in *. unfold zlen in *. cbn [List.length]. lia.
  - rewrite IH. destruct (Z.eqb_spec d c); congruence.
Qed.
Lemma shape_six : forall rows, Forall (fun r => zlen r = 6) rows -> shape_ok rows.
Proof.
  intros rows F. unfold shape_ok. destruct (Z.le_gt_cases (zlen rows) 25) as [L|L].
  - left. intros c _. rewrite (width_all 6 rows F). destruct (c =? 6); lia.
  - right. exists 6. rewrite (width_all 6 rows F), Z.eqb_refl. lia.
Qed.
Theorem C103_open : forall it fn nfiles nworkers s, any_order it -> gsteps the_jobs (gstart nfiles nworkers [stats_opened []]) s -> g_main s = MExit ->
  (forall i r, (i < nfiles)%nat -> In r (records (now i) (name i) (the_outcome i)) -> printable r) ->
  zlen (flat_map (fun i => records (now i) (name i) (the_outcome i)) (seq 0 nfiles)) < 2 ^ 50 ->
  exists order, Permutation (seq 0 nfiles) order /\
    M_simple.open_tsv it fn (M_simple.FileData (List.concat (g_stats s)) None) = Ok (M_simple.mkSimple fn (header_record :: flat_map (fun i => records (now i) (name i) (the_outcome i)) order) (-1)).
Proof.
  intros it fn n m s Hit S E P L. destruct (C103_run [] n m s S E) as (order & O & G). exists order. split; [exact O|]. rewrite G. change (zlen [] =? 0) with true. cbn match.
  set (rows := flat_map (fun i => records (now i) (name i) (the_outcome i)) order) in *.
  replace (tsv_text [header_record] ++ tsv_text rows) with (tsv_text (header_record :: rows)) by reflexivity.
  assert (R : forall r, In r rows -> printable r /\ zlen r = 6).
  { intros r H. apply in_flat_map in H. destruct H as (i & Hi & H). split; [|exact (records_six _ _ _ _ H)]. apply (P i); [|exact H]. apply (Permutation_in _ (Permutation_sym O)) in Hi. apply in_seq in Hi. lia. }
  assert (H6 : zlen header_record = 6) by reflexivity.
  apply P_simple.C04_tsv_round_trip; [exact Hit| | |].
  - unfold plain_table. constructor.
    + split; [discriminate|]. split; [|split; [vm_compute; discriminate|]]. 2:{ intros x C. apply (f_equal (fun l => last l 0)) in C. rewrite last_last in C. vm_compute in C. discriminate. }
      unfold header_record. repeat constructor; intros C; vm_compute in C; repeat (destruct C as [C|C]; [discriminate|]); exact C.
    + apply Forall_forall. intros r H. destruct (R r H) as ((A & B & C) & D). split; [intros ->; vm_compute in D; discriminate|]. auto.
  - assert (Z1 : zlen rows = zlen (flat_map (fun i => records (now i) (name i) (the_outcome i)) (seq 0 n))) by (unfold zlen, rows; f_equal; apply Permutation_length; apply Permutation_flat_map; symmetry; exact O).
    unfold zlen in *. cbn [List.length]. lia.
  - apply shape_six. constructor; [exact H6|]. apply Forall_forall. intros r H. exact (proj2 (R r H)).
Qed.
End run.

(** the records tell the outcome: no two outcomes have the same records, unless an error reads "-" *)
Definition clear_text (o : outcome) : Prop := match o with Failed _ => True | Sheets l => Forall (fun '(_, _, _, e) => e <> Some (bs "-")) l end.
Lemma itoa_minus : forall n, itoa n <> bs "-".
Proof.
  intros n H. unfold itoa in H. destruct (Z.ltb_spec n 0) as [L|L].
  - injection H as H. destruct (utoa_spec (- n) ltac:(lia)) as (_ & _ & A). contradiction.
  - destruct (utoa_spec n L) as (A & _ & _). rewrite H in A. inversion A as [|? ? B _]. unfold digit in B. lia.
Qed.
Theorem C103_tells : forall now fn o now' fn' o', clear_text o -> clear_text o' -> records now fn o = records now' fn' o' -> o = o' /\ (records now fn o <> [] -> now = now' /\ fn = fn').
Proof.
  intros now fn o now' fn' o' C C' E. destruct o as [e|l], o' as [e'|l']; cbn [records] in E.
  - injection E as -> -> ->. auto.
  - destruct l' as [|(((s & a) & b) & e') l']; [discriminate|]. cbn [map] in E. injection E as _ _ _ E _ _. exfalso. exact (itoa_minus a (eq_sym E)).
  - destruct l as [|(((s & a) & b) & e) l]; [discriminate|]. cbn [map] in E. injection E as _ _ _ E _ _. exfalso. exact (itoa_minus a E).
  - split.
    + f_equal. revert l' C' E. cbn [clear_text] in *. induction C as [|(((s & a) & b) & e) l Ce C IH]; intros [|(((s' & a') & b') & e') l'] C' E; try discriminate; [reflexivity|]. cbn [map] in E. inversion C' as [|? ? Ce' Cl']; subst. injection E as _ _ -> Ea Eb Ee El.
      apply itoa_inj in Ea, Eb. subst. f_equal; [|exact (IH _ Cl' El)]. destruct e, e'; cbn in *; congruence.
    + intros N. destruct l as [|(((s & a) & b) & e) l]; [exfalso; apply N; reflexivity|]. destruct l' as [|(((s' & a') & b') & e') l']; [discriminate|]. cbn [map] in E. injection E as -> -> _ _ _ _ _. auto.
Qed.

(** violations *)
(** a sheet name with tabs and a newline (a sheet name of an XLSX file may have them) is a record of its own: the
    results of a workbook with one sheet read as those of a workbook with two *)
Definition one_sheet (s : gostr) : gostr -> res gbook := fun _ => Ok (mkBook (Ok [s]) (fun _ => Ok (mkSheet true []))).
Definition two_sheets (a b : gostr) : gostr -> res gbook := fun _ => Ok (mkBook (Ok [a; b]) (fun _ => Ok (mkSheet true []))).
Theorem C103_forged_refuted : forall md5hex create fl etext now fn a b, exists s,
  List.concat (j_lines (tsv_job md5hex create fl (one_sheet s) etext now fn)) = List.concat (j_lines (tsv_job md5hex create fl (two_sheets a b) etext now fn)) /\
  outcome_of etext (snd (process_file md5hex create fl (one_sheet s) fn)) = Sheets [(s, 0, 0, None)] /\
  outcome_of etext (snd (process_file md5hex create fl (two_sheets a b) fn)) = Sheets [(a, 0, 0, None); (b, 0, 0, None)].
Proof.
  intros md5hex create fl etext now fn a b. exists (a ++ [9; 48; 9; 48; 9; 45; 10] ++ now ++ [9] ++ fn ++ [9] ++ b). split; [|split; reflexivity].
  rewrite !C103_file. cbn [process_file one_sheet two_sheets wb_list process_sheets wb_get sh_empty app snd outcome_of map records ps_sheet ps_rows ps_cols ps_err option_map tsv_text flat_map join].
  change (itoa 0) with [48]. change (bs "-") with [45]. repeat (rewrite <- ?app_assoc; cbn [app]). reflexivity.
Qed.
(** when the last line of an earlier run is incomplete, the first record of this run is glued to it *)
Theorem C103_glued_refuted : forall old now fn e, old <> [] -> ~ In 10 old -> ~ In 10 now -> ~ In 10 fn -> ~ In 10 e -> 
  split_byte 10 (stats_opened old ++ tsv_text (records now fn (Failed e))) = [old ++ join [9] [now; fn; bs "-"; bs "-"; bs "-"; e]; []].
Proof.
  intros old now fn e N O A B C. unfold stats_opened. destruct (Z.eqb_spec (zlen old) 0) as [L|L]; [destruct old; [congruence|unfold zlen in L; cbn [List.length] in L; lia]|].
  cbn [records tsv_text flat_map]. rewrite app_nil_r, app_assoc. rewrite L_simple.split_byte_app; [reflexivity|]. cbn [join]. rewrite !in_app_iff. change (bs "-") with [45]. intros H.
  repeat match type of H with _ \/ _ => destruct H as [H|H] | In _ [_] => destruct H as [H|[]]; discriminate end; contradiction.
Qed.

(** a run with a file that cannot be opened and one with two sheets *)
Definition ex_open (fn : gostr) : res gbook := if str_eqb fn (bs "x") then Err ENotInFormat else Ok (mkBook (Ok [bs "s"; bs "t"]) (fun s => if str_eqb s (bs "s") then Ok (mkSheet false [[bs "a"; bs "b"]]) else Err ENotInFormat)).
Definition ex_name (i : nat) : gostr := match i with O => bs "x" | _ => bs "y" end.
Example ex_C103 : exists s, gsteps (the_jobs (fun x => x) (fun _ => None) default_flags ex_open (fun _ => bs "bad") (fun _ => bs "12:00") ex_name) (gstart 2 3 [stats_opened []]) s /\ g_main s = MExit /\
  (forall i r, (i < 2)%nat -> In r (records (bs "12:00") (ex_name i) (the_outcome (fun x => x) (fun _ => None) default_flags ex_open (fun _ => bs "bad") ex_name i)) -> printable r) /\
  the_outcome (fun x => x) (fun _ => None) default_flags ex_open (fun _ => bs "bad") ex_name 0 = Failed (bs "bad") /\
  the_outcome (fun x => x) (fun _ => None) default_flags ex_open (fun _ => bs "bad") ex_name 1 = Sheets [(bs "s", 1, 1, None); (bs "t", 0, 0, Some (bs "bad"))].
Proof.
  destruct (C65_exits (the_jobs (fun x => x) (fun _ => None) default_flags ex_open (fun _ => bs "bad") (fun _ => bs "12:00") ex_name) 2 3 [stats_opened []] ltac:(lia) _ (gsteps_refl _ _)) as (s & S & E).
  exists s. split; [exact S|]. split; [exact E|]. split; [|split; vm_compute; reflexivity].
  assert (P : forall r, In r [[bs "12:00"; bs "x"; bs "-"; bs "-"; bs "-"; bs "bad"]; [bs "12:00"; bs "y"; bs "s"; bs "1"; bs "1"; bs "-"]; [bs "12:00"; bs "y"; bs "t"; bs "0"; bs "0"; bs "bad"]] -> printable r).
  { intros r H. unfold printable. assert (Q : Forall plain_field r /\ zlen (join [9] r) <= 65535 /\ last (join [9] r) 0 <> 13).
    { repeat (destruct H as [<-|H]; [split; [repeat constructor; intros C; vm_compute in C; repeat (destruct C as [C|C]; [discriminate|]); exact C|split; vm_compute; discriminate]|]). destruct H. }
    destruct Q as (A & B & C). split; [exact A|]. split; [exact B|]. intros x X. rewrite X, last_last in C. congruence. }
  intros i r L H. apply P. destruct i as [|[|i]]; [|right|lia]; vm_compute in H |- *; tauto.
Qed.

Print Assumptions C103_file.
Print Assumptions C103_run.
Print Assumptions C103_open.
Print Assumptions C103_tells.
Print Assumptions C103_forged_refuted.
Print Assumptions C103_glued_refuted.
