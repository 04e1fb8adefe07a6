(** * P_which: C107 — which packages open, and which compound files are left to other readers. *)
From Verif Require Import GoBase GoUnicode M_simple GoPath L_base M_grate S_grate L_grate P_grate M_slicereader M_cfb S_cfb L_cfb P_cfb M_fmt M_formats M_sheet M_xls M_xlsx S_cell S_xlsx L_xlsxpkg S_sheet S_xrobust P_xrobust S_xsays P_xsays P_xsaysfile S_open S_which.
From Coq Require Import Lia ZifyBool ZifyNat Permutation.
Local Opaque fx_add path_join path_base trim_suffix parse_int.

Lemma styles_iff : forall z names d, loaded z d ->
  ((exists d', parse_parts parse_styles names d = Ok d') <-> Forall (fun n => exists l, whole z n l /\ styles_sound l) names) /\
  (forall d', parse_parts parse_styles names d = Ok d' -> loaded z d' /\ xd_rels d' = xd_rels d).
Proof.
  intros z. induction names as [|n names IH]; intros d L; cbn [parse_parts].
  { split; [split; [constructor|exists d; reflexivity]|]. intros d' [= <-]. auto. }
  destruct L as (L1 & L2 & L3). unfold need. rewrite L3. destruct (open_xml z n) as [x|e] eqn:O.
  2: { split; [split; [intros (d' & [=])|]|intros d' [=]]. intros F. apply Forall_inv in F. destruct F as (l & (x & O' & _) & _). congruence. }
  destruct (C87_styles x d L1) as [[S1 S1'] S2]. destruct (parse_styles x d) as [d1|e1| |] eqn:PS; cbn [bind].
  - specialize (S2 ltac:(discriminate)). destruct (end_err (xm_end x)) as [e2|] eqn:EE; [discriminate|]. destruct S2 as (d1' & [= <-] & A & B & C & _).
    assert (R : xd_rels d1 = xd_rels d). { unfold parse_styles in PS. destruct (styles_loop _ _); cbn [bind] in PS; try discriminate. rewrite EE in PS. injection PS as <-. reflexivity. }
    destruct (IH d1) as [I1 I2]; [split; [exact A|split; [exact B|congruence]]|]. split.
    + rewrite I1. split; [intros F; constructor; [|exact F]|intros F; exact (Forall_inv_tail F)]. exists (xm_toks x). split; [exists x; auto|]. intros pre t post E1 E2. assert (X : Ok d1 = Panic) by (apply S1'; eauto). discriminate.
    + intros d' H. destruct (I2 d' H) as [Q1 Q2]. split; [exact Q1|congruence].
  - specialize (S2 ltac:(discriminate)). destruct (end_err (xm_end x)) as [e2|] eqn:EE; [|destruct S2 as (? & [=] & _)]. split; [split; [intros (d' & [=])|]|intros d' [=]]. intros F. apply Forall_inv in F. destruct F as (l & (x' & O' & _ & E') & _). congruence.
  - split; [split; [intros (d' & [=])|]|intros d' [=]]. intros F. apply Forall_inv in F. destruct F as (l & (x' & O' & T' & E') & SS). assert (x' = x) by congruence. subst x' l. destruct (S1 eq_refl) as (pre & t & post & A & B). elim (SS pre t post A B).
  - specialize (S2 ltac:(discriminate)). destruct (end_err (xm_end x)); [discriminate|]. destruct S2 as (? & [=] & _).
Qed.
Lemma shared_iff : forall z names d, xd_zip d = z ->
  ((exists d', parse_parts parse_shared names d = Ok d') <-> Forall (fun n => exists l, whole z n l) names).
Proof.
  intros z. induction names as [|n names IH]; intros d L; cbn [parse_parts]; [split; [constructor|exists d; reflexivity]|].
  unfold need. rewrite L. destruct (open_xml z n) as [x|e] eqn:O.
  2: { split; [intros (d' & [=])|]. intros F. apply Forall_inv in F. destruct F as (l & x & O' & _). congruence. }
  unfold parse_shared at 1. destruct (end_err (xm_end x)) as [e2|] eqn:EE; cbn [bind].
  - split; [intros (d' & [=])|]. intros F. apply Forall_inv in F. destruct F as (l & x' & O' & _ & E'). congruence.
  - rewrite IH by exact L. split; [intros F; constructor; [|exact F]|intros F; exact (Forall_inv_tail F)]. exists (xm_toks x), x. auto.
Qed.
Lemma workbook_iff : forall l d, (exists d', workbook_loop l d = Ok d') <-> Forall (fun a => map_attr a (bs "id") <> None /\ map_attr a (bs "name") <> None) (elements "sheet" l).
Proof.
  induction l as [|t l IH]; intros d; cbn [workbook_loop]; [split; [constructor|exists d; reflexivity]|].
  destruct t as [n a|n|v|]; cbn [elements flat_map app]; fold (elements "sheet" l); try apply IH. destruct (str_eqb n (bs "sheet")); [|apply IH]. cbn [app].
  destruct (map_attr a (bs "id")) as [id|] eqn:E1; [destruct (map_attr a (bs "name")) as [nm|] eqn:E2|].
  - rewrite IH. split; [intros F; constructor; [split; congruence|exact F]|intros F; exact (Forall_inv_tail F)].
  - split; [intros (d' & [=])|intros F; apply Forall_inv in F; tauto].
  - split; [intros (d' & [=])|intros F; apply Forall_inv in F; tauto].
Qed.

(** An archive opens exactly if it is a package. *)
Theorem C107_package : forall order z, (forall l, Permutation l (order l)) -> (exists d, open_xlsx order (XZip z) = Ok d) <-> is_package z.
Proof.
  intros order z HO. cbn [open_xlsx]. unfold open_doc, is_package.
  destruct (open_xml z (bs "_rels/.rels")) as [x1|e1] eqn:O1. 2: { split; [intros (d & [=])|]. intros (top & sub & wb & (x & O & _) & _). congruence. }
  unfold parse_rels. destruct (end_err (xm_end x1)) as [e1|] eqn:E1. { split; [intros (d & [=])|]. intros (top & sub & wb & (x & O & _ & E) & _). congruence. }
  assert (L0 : loaded z (new_xdoc z)) by (split; [apply rf_new|split; [constructor|reflexivity]]). pose proof (rels_loaded z [] (xm_toks x1) _ L0) as L1.
  destruct (rels_look [] (xm_toks x1) (new_xdoc z)) as (A1 & A2 & _). set (d1 := rels_loop [] (xm_toks x1) (new_xdoc z)) in *. clearbody d1. cbn [new_xdoc xd_rels xd_primary] in *. change (office_in (relations [] (xm_toks x1)) []) with (rel_office_target (relations [] (xm_toks x1))) in A2.
  assert (T1 : forall top, whole z (bs "_rels/.rels") top -> top = xm_toks x1) by (intros top (x & O & T & _); congruence).
  destruct (xd_primary d1) as [|p0 p1] eqn:EP. { split; [intros (d & [=])|]. intros (top & sub & wb & W & NP & _). rewrite (T1 _ W) in NP. congruence. }
  set (p := p0 :: p1) in *. assert (NP : p <> []) by discriminate. clearbody p. cbv zeta. fold (dir_of p). change (path_join [dir_of p; bs "_rels"; path_base p ++ bs ".rels"]) with (rels_file p).
  unfold need at 1. destruct (open_xml z (rels_file p)) as [x2|e2] eqn:O2. 2: { split; [intros (d & [=])|]. intros (top & sub & wb & W & _ & (x & O & _) & _). rewrite (T1 _ W), <- A2 in O. congruence. }
  destruct (end_err (xm_end x2)) as [e2|] eqn:E2. { split; [intros (d & [=])|]. intros (top & sub & wb & W & _ & (x & O & _ & E) & _). rewrite (T1 _ W), <- A2 in O. congruence. }
  assert (T2 : forall sub, whole z (rels_file p) sub -> sub = xm_toks x2) by (intros sub (x & O & T & _); congruence).
  pose proof (rels_loaded z (dir_of p) (xm_toks x2) _ L1) as L2.
  destruct (rels_look (dir_of p) (xm_toks x2) d1) as (B1 & B2 & _). set (d2 := rels_loop (dir_of p) (xm_toks x2) d1) in *. clearbody d2. set (es := relations [] (xm_toks x1) ++ relations (dir_of p) (xm_toks x2)) in *.
  assert (PR : xd_primary d2 = rel_office_target es). { rewrite B2, EP. change (rel_office_target es) with (office_in es []). unfold es. rewrite office_app. f_equal. exact A2. }
  assert (LK : forall ty id, sfind id (rels_of (xd_rels d2) (rel_uri ty)) = rel_lookup es ty id).
  { intros ty id. rewrite B1, A1. change (rel_lookup es ty id) with (lookup_in es (rel_uri ty) id). unfold es. rewrite lookup_app. destruct (lookup_in (relations (dir_of p) _) _ _); [reflexivity|]. destruct (lookup_in (relations [] _) _ _); reflexivity. }
  assert (NM : forall ty f, In f (order (live_values [] (rels_of (xd_rels d2) (rel_uri ty)))) <-> exists id, rel_lookup es ty id = Some f).
  { intros ty f. transitivity (In f (live_values [] (rels_of (xd_rels d2) (rel_uri ty)))). { split; apply Permutation_in; [apply Permutation_sym|]; apply HO. } rewrite live_spec. split; intros (id & Q); exists id; [destruct Q as [_ Q]; rewrite <- LK; exact Q|split; [reflexivity|rewrite LK; exact Q]]. }
  (* the specification with top and sub known *)
  match goal with |- ?L <-> _ => cut (L <-> exists wb, whole z (rel_office_target es) wb /\ Forall (fun a => map_attr a (bs "id") <> None /\ map_attr a (bs "name") <> None) (elements "sheet" wb) /\
      (forall id f, rel_lookup es "styles" id = Some f -> exists l, whole z f l /\ styles_sound l) /\ (forall id f, rel_lookup es "sharedStrings" id = Some f -> exists l, whole z f l)) end.
  { intros ->. split.
    - intros (wb & Q). exists (xm_toks x1), (xm_toks x2), wb. split; [exists x1; auto|]. rewrite <- A2. split; [exact NP|]. split; [exists x2; auto|]. exact Q.
    - intros (top & sub & wb & W1 & _ & W2 & Q). apply T1 in W1. subst top. rewrite <- A2 in W2, Q. apply T2 in W2. subst sub. exists wb. exact Q. }
  rewrite <- PR. unfold need at 1. destruct (open_xml z (xd_primary d2)) as [x3|e3] eqn:O3. 2: { split; [intros (d & [=])|]. intros (wb & (x & O & _) & _). congruence. }
  assert (T3 : forall wb, whole z (xd_primary d2) wb -> wb = xm_toks x3 /\ end_err (xm_end x3) = None) by (intros wb (x & O & T & E); split; congruence).
  unfold parse_workbook. pose proof (workbook_iff (xm_toks x3) d2) as WI. pose proof (workbook_loaded z (xm_toks x3) d2 L2) as WL. destruct (workbook_loop (xm_toks x3) d2) as [d3|e3| |] eqn:W; cbn [bind].
  2-4: split; [intros (d & [=])|]; intros (wb & W1 & W2 & _); destruct (T3 _ W1) as [-> _]; apply WI in W2; destruct W2 as (? & [=]).
  destruct (end_err (xm_end x3)) as [e3|] eqn:E3; cbn [bind]. { split; [intros (d & [=])|]. intros (wb & W1 & _). destruct (T3 _ W1) as [_ [=]]. }
  apply workbook_says in W. destruct W as (_ & _ & W3 & _). change rel_styles with (rel_uri "styles"). change rel_strings with (rel_uri "sharedStrings").
  destruct (styles_iff z (order (live_values [] (rels_of (xd_rels d3) (rel_uri "styles")))) d3 WL) as [SI SL]. rewrite W3 in SI, SL |- *.
  assert (ST : (exists d', parse_parts parse_styles (order (live_values [] (rels_of (xd_rels d2) (rel_uri "styles")))) d3 = Ok d') <-> (forall id f, rel_lookup es "styles" id = Some f -> exists l, whole z f l /\ styles_sound l)).
  { rewrite SI, Forall_forall. split; [intros F id f Q; apply F, NM; eauto|intros F f I; apply NM in I; destruct I as (id & I); eauto]. }
  destruct (parse_parts parse_styles _ d3) as [d4|e4| |] eqn:P4; cbn [bind].
  2-4: split; [intros (d & [=])|]; intros (wb & _ & _ & Q & _); apply ST in Q; destruct Q as (? & [=]).
  destruct (SL d4 eq_refl) as ((_ & _ & Z4) & R4). rewrite R4. rewrite (shared_iff z _ d4 Z4), Forall_forall. split.
  - intros F. exists (xm_toks x3). split; [exists x3; auto|]. split; [apply WI; eauto|]. split; [apply ST; eauto|]. intros id f Q. apply F, NM. eauto.
  - intros (wb & _ & _ & _ & Q) f I. apply NM in I. destruct I as (id & I). eauto.
Qed.
Print Assumptions C107_package.
