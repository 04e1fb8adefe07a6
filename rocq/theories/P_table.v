(** * P_table: C96 and C97 — exactly which shared string tables and hyperlinks are read. *)
From Verif Require Import GoBase GoUnicode L_base M_biff M_hlink M_xlstr M_xls S_cfb L_cfb S_xlstr L_xlstr S_hlink P_hlink S_table L_table S_link L_link L_total P_xls S_robust P_robust.
From Coq Require Import ZifyBool.

(** ** C96 *)
(** A shared string table is accepted if and only if it is one: its bytes are, without anything
    left over or missing, those of a sequence of strings; and the texts are the texts of these. *)
Theorem C96_tables : forall recs texts, Forall bytes_ok (map dat recs) ->
  (parse_sst recs = Ok texts <-> is_table (map dat recs) texts).
Proof. exact parse_table. Qed.

(** No bytes are two tables with different texts. *)
Theorem C96_unambiguous : forall recs t1 t2, is_table recs t1 -> is_table recs t2 -> t1 = t2.
Proof.
  intros recs t1 t2 H1 H2. assert (E : map dat (map (fun p => mkSl p []) recs) = recs) by (rewrite map_map; apply map_id). rewrite <- E in H1, H2.
  apply table_parses in H1, H2. congruence.
Qed.

(** Any other table is refused with one particular error, or ends the program. *)
Theorem C96_otherwise : forall recs, Forall bytes_ok (map dat recs) -> (forall texts, ~ is_table (map dat recs) texts) ->
  parse_sst recs = Err EOffByOne \/ parse_sst recs = Panic.
Proof.
  intros recs B N. pose proof (parse_sst_ends recs) as T. destruct (parse_sst recs) as [texts|e| |] eqn:E.
  - exfalso. apply (N texts). apply parse_table; auto.
  - left. f_equal. eapply parse_err; eauto.
  - right. reflexivity.
  - exfalso. apply T. reflexivity.
Qed.

(** The same for a whole file: the strings of a workbook that opens are those of its last table,
    and every table in it, in every substream, is one. *)
Fixpoint ssts (l : list brec) : list (list bytes) :=
  match l with
  | [] => []
  | r :: l => (if (b_type r =? 252) && negb (zlen (payload r) =? 0) then [payload r :: lead l] else []) ++ ssts l
  end.
Lemma last_app_ne : forall A (a b : list A) d, last (a ++ b) d = last b (last a d).
Proof.
  intros A a. induction a as [|x a IH]; intros b d; [reflexivity|]. cbn [app]. rewrite !last_cons'. apply IH.
Qed.
Lemma load_rec_strings : forall w r rest w', Forall rec_wf (r :: rest) -> load_rec w r rest = Ok w' ->
  exists tss, Forall2 is_table (if (b_type r =? 252) && negb (zlen (payload r) =? 0) then [payload r :: lead rest] else []) tss /\ wb_strings w' = last tss (wb_strings w) /\ wb_streams w' = wb_streams w.
Proof.
  intros w r rest w' F H. unfold load_rec in H. unfold sl_len in H. destruct (Z.eqb_spec (zlen (payload r)) 0) as [E0|E0].
  { rewrite andb_false_r. injection H as <-. exists []. repeat split. constructor. }
  unfold RecTypeSST in H. destruct (Z.eqb_spec (b_type r) 252) as [T|T]; cbn [negb andb].
  - apply bind_inv in H. destruct H as (strs & E & H). injection H as <-. exists [strs]. cbn [wb_strings wb_streams last]. split; [|split; reflexivity]. constructor; [|constructor].
    apply parse_table in E. { cbn [map] in E. rewrite continues_lead in E. exact E. }
    inversion F as [|? ? (B & _) F2]; subst. cbn [map]. constructor; auto. rewrite continues_lead. clear - F2. induction F2 as [|x l (B & _) F IH]; cbn [lead]; [constructor|]. destruct (b_type x =? 60); [constructor; auto|constructor].
  - exists []. split; [constructor|]. cbn [last].
    repeat match type of H with (if ?b then _ else _) = _ => destruct b end; repeat (apply bind_inv in H; destruct H as (? & _ & H)); try (match type of H with (let '(a, b) := ?z in _) = _ => destruct z end); injection H as <-; split; reflexivity.
Qed.
Lemma load_recs_strings : forall l w w', Forall rec_wf l -> load_recs w l = Ok w' ->
  exists tss, Forall2 is_table (ssts l) tss /\ wb_strings w' = last tss (wb_strings w) /\ wb_streams w' = wb_streams w.
Proof.
  induction l as [|r l IH]; intros w w' F H; cbn [load_recs] in H. { injection H as <-. exists []. repeat split. constructor. }
  apply bind_inv in H. destruct H as (w1 & E & H). destruct (load_rec_strings _ _ _ _ F E) as (t1 & A1 & A2 & A3). inversion F; subst.
  destruct (IH _ _ H3 H) as (t2 & B1 & B2 & B3). exists (t1 ++ t2). cbn [ssts]. split; [apply Forall2_app; auto|]. split; [rewrite last_app_ne, B2, A2; reflexivity|congruence].
Qed.
Lemma load_streams_strings : forall ss w w', Forall (Forall rec_wf) ss -> load_streams w ss = Ok w' ->
  exists tss, Forall2 is_table (flat_map ssts ss) tss /\ wb_strings w' = last tss (wb_strings w) /\ wb_streams w' = wb_streams w.
Proof.
  induction ss as [|l ss IH]; intros w w' F H; cbn [load_streams] in H. { injection H as <-. exists []. repeat split. constructor. }
  apply bind_inv in H. destruct H as (w1 & E & H). inversion F; subst. destruct (load_recs_strings _ _ _ H2 E) as (t1 & A1 & A2 & A3).
  destruct (IH _ _ H3 H) as (t2 & B1 & B2 & B3). exists (t1 ++ t2). cbn [flat_map]. split; [apply Forall2_app; auto|]. split; [rewrite last_app_ne, B2, A2; reflexivity|congruence].
Qed.
Theorem C96_workbook : forall raw sp2 w, bytes_ok (dat raw) -> bytes_ok (spare raw) -> bytes_ok sp2 -> load_workbook raw sp2 = Ok w ->
  exists tss, Forall2 is_table (flat_map ssts (wb_streams w)) tss /\ wb_strings w = last tss [].
Proof.
  intros raw sp2 w A B C H. pose proof (loaded_ok _ _ _ A B C H) as (_ & _ & WF & _). unfold load_workbook in H. apply bind_inv in H. destruct H as (st & E & H).
  destruct (split_workbook_ok _ _ _ A B C E) as (S1 & _). destruct (load_streams_strings _ _ _ S1 H) as (tss & T1 & T2 & T3). exists tss. rewrite T3. split; auto.
Qed.

(** The counts at the head of the table are not looked at: whatever number of strings is announced,
    the strings that are there are taken. *)
Theorem C96_count_refuted : forall head head' l e texts, zlen head = 8 -> zlen head' = 8 ->
  is_table (glue [head] (table l e)) texts -> table_ok l e -> texts = map (fun x => ts_text (snd x)) l /\ is_table (glue [head'] (table l e)) texts.
Proof.
  intros head head' l e texts L L' H T. assert (E : texts = map (fun x => ts_text (snd x)) l) by (eapply C96_unambiguous; [exact H|exists head, l, e; auto]). split; auto. exists head', l, e. auto.
Qed.

(** A table that ends within the characters of a string ends the program. *)
Theorem C96_cut_refuted : forall head n us sp, zlen head = 8 -> zlen us < n < 65536 -> bytes_ok us ->
  parse_sst [mkSl (head ++ put16 n ++ [0] ++ us) sp] = Panic.
Proof.
  intros head n us sp L Hn B. unfold parse_sst. rewrite idx_0. cbn [bind].
  assert (H4 : exists a b, head = a ++ b /\ zlen a = 4 /\ zlen b = 4). { exists (ztake 4 head), (zdrop 4 head). rewrite ztake_zdrop, zlen_ztake, zlen_zdrop by lia. auto with zarith. }
  destruct H4 as (h1 & h2 & -> & L1 & L2). set (tl := put16 n ++ [0] ++ us). rewrite <- (app_assoc h1). rewrite (sl_range_mid h1 h2) by lia. cbn [bind dat].
  destruct h2 as [|c1 [|c2 [|c3 [|c4 [|? ?]]]]]; try (unfold zlen in L2; cbn [List.length] in L2; lia). cbn [le32 bind]. rewrite app_assoc. rewrite sl_from_app by (rewrite zlen_app; lia). cbn [bind].
  set (R := [_]). unfold sst_fuel. cbn [sst_loop]. change (0 <? zlen R) with true. cbn [negb]. pose proof (zlen_nonneg _ us).
  assert (LT : 0 <? sl_len (mkSl tl sp) = true). { unfold sl_len, tl. cbn [dat]. rewrite !zlen_app, zlen_put16. change (zlen [0]) with 1. lia. } rewrite LT. clear LT.
  unfold sst_string. unfold tl at 1. cbn [dat]. rewrite le16_put16 by lia. cbn [bind]. unfold tl. rewrite sl_from_app by reflexivity. cbn [bind]. unfold sl_idx. cbn [dat app]. rewrite idx_0. cbn [bind].
  change (0 :: us) with ([0] ++ us). rewrite sl_from_app by reflexivity. cbn [bind]. change (negb (Z.land 0 8 =? 0)) with false. change (negb (Z.land 0 4 =? 0)) with false. change (negb (Z.land 0 1 =? 0)) with false. cbv iota. cbn [bind].
  assert (A : at_rec R 0 (mkSl us sp) ((enc_units false us ++ []) :: [])) by (split; [change (zlen R) with 1; lia|rewrite app_nil_r; reflexivity]).
  destruct (chars_chunk us false R 0 (mkSl us sp) [] [] (S (Z.to_nat (n - zlen us - 1))) B A ltac:(discriminate)) as (b & A2 & E).
  replace (Z.to_nat n) with (List.length us + S (Z.to_nat (n - zlen us - 1)))%nat by (unfold zlen in *; lia). rewrite E. cbn [sst_chars].
  assert (SB : sl_len b =? 0 = true) by (unfold sl_len; rewrite (at_dat _ _ _ _ _ A2); reflexivity). rewrite SB. reflexivity.
Qed.

(** a table with reserved flag bits, a string over three records, record ends between strings and at the end *)
Definition ex_tab : list (nat * tstring) :=
  [ (0%nat, mkTS 16 [97; 98] [(3, [8364]); (254, [33])] [[]] [[]]);
    (2%nat, mkTS 13 [104] [] [[0; 0; 0]; [1]] [[9]; []; [7; 7]]);
    (0%nat, mkTS 1 [] [] [[]] [[]]) ].
Definition ex_tab_recs : list slice := map (fun d => mkSl d [255]) (glue [[1; 2; 3; 4; 5; 6; 7; 8]] (table ex_tab 2)).
Example ex_C96 : parse_sst ex_tab_recs = Ok [bs "ab" ++ [226; 130; 172] ++ bs "!"; bs "h"; []] /\ zlen ex_tab_recs = 10.
Proof. vm_compute. split; reflexivity. Qed.
Example ex_C96_is : is_table (map dat ex_tab_recs) [bs "ab" ++ [226; 130; 172] ++ bs "!"; bs "h"; []].
Proof.
  apply C96_tables; [|apply ex_C96]. assert (H : forallb (forallb (fun x => (0 <=? x) && (x <? 256))) (map dat ex_tab_recs) = true) by (vm_compute; reflexivity).
  rewrite forallb_forall in H. apply Forall_forall. intros l I. specialize (H l I). rewrite forallb_forall in H. apply Forall_forall. intros x J. specialize (H x J). lia.
Qed.
(** one byte less, and it is none *)
Example ex_C96_not : forall texts, ~ is_table [[1; 2; 3; 4; 5; 6; 7; 8] ++ put16 3 ++ [0] ++ bs "ab"] texts.
Proof.
  intros texts H. pose proof (table_parses [mkSl ([1; 2; 3; 4; 5; 6; 7; 8] ++ put16 3 ++ [0] ++ bs "ab") []] texts H) as E. rewrite C96_cut_refuted in E; [discriminate|reflexivity|vm_compute; split; reflexivity|repeat constructor; vm_compute; intuition discriminate].
Qed.
Example ex_C96_workbook : flat_map ssts (wb_streams ex_wb) = [[put32 1 ++ put32 1 ++ [1; 0; 0; 66]]] /\ wb_strings ex_wb = [bs "B"].
Proof. vm_compute. split; reflexivity. Qed.

(** ** C97 *)
(** What becomes of a hyperlink object depends only on whether the lengths it announces stay
    inside the record: then it is read; an unknown version or kind of target is an error; and
    otherwise the program ends. *)
Theorem C97_links : forall p sp, bytes_ok p ->
  match link_extent p (p ++ sp) with
  | Until _ => exists x, decode_hyperlinks (mkSl p sp) = Ok x
  | Refused => exists er, decode_hyperlinks (mkSl p sp) = Err er
  | Overrun => decode_hyperlinks (mkSl p sp) = Panic
  end.
Proof. exact link_becomes. Qed.
(** Every hyperlink object of the specification is of the first kind. *)
Theorem C97_valid : forall h rest sp, hl_ok h -> bytes_ok (hl_bytes h ++ rest) -> exists e, link_extent (hl_bytes h ++ rest) ((hl_bytes h ++ rest) ++ sp) = Until e.
Proof.
  intros h rest sp OK B. pose proof (link_becomes (hl_bytes h ++ rest) sp B) as L. destruct (C54_hyperlinks h rest sp OK) as (d & l & E & _). rewrite E in L.
  destruct (link_extent _ _) as [e| |]; [eauto|destruct L; discriminate|discriminate].
Qed.
(** A display name longer than the record ends the program. *)
Theorem C97_overrun_refuted : forall cls n rest sp, zlen cls = 16 -> bytes_ok cls -> bytes_ok rest -> zlen rest < 2 * n -> n < 4294967296 ->
  decode_hyperlinks (mkSl (cls ++ put32 2 ++ put32 16 ++ put32 n ++ rest) sp) = Panic.
Proof.
  intros cls n rest sp L B1 B2 H1 H2. pose proof (zlen_nonneg _ rest). unfold decode_hyperlinks. rewrite sl_from_app by lia. cbn [bind]. rewrite sl_to_ok by reflexivity. cbn [bind dat]. change (le32 (put32 2)) with (@Ok Z 2). cbn [bind]. change (negb (2 =? 2)) with false. cbv iota.
  rewrite (sl_range_mid (put32 2) (put32 16)) by reflexivity. cbn [bind dat]. change (le32 (put32 16)) with (@Ok Z 16). cbn [bind]. rewrite (app_assoc (put32 2)). rewrite sl_from_app by reflexivity. cbn [bind].
  change (negb (Z.land 16 16 =? 0)) with true. cbv iota. unfold hl_string. rewrite sl_to_ok by reflexivity. cbn [bind dat]. replace (le32 (put32 n)) with (@Ok Z n) by (rewrite <- (app_nil_r (put32 n)), le32_put32 by lia; reflexivity). cbn [bind]. rewrite sl_from_app by reflexivity. cbn [bind].
  pose proof (units_len_at rest sp (Z.to_nat n) 0 ltac:(lia)) as U. rewrite zdrop_0 in U. destruct (Z.leb_spec (0 + 2 * Z.of_nat (Z.to_nat n)) (zlen rest)); [lia|]. rewrite U. reflexivity.
Qed.
(** A frame name of 2147483646 characters is taken to be empty, and what follows is read from its
    own count on: the object is accepted though no record can hold it. *)
Theorem C97_frame_refuted : forall cls rest sp, zlen cls = 16 ->
  decode_hyperlinks (mkSl (cls ++ put32 2 ++ put32 128 ++ put32 2147483646 ++ rest) sp) = Ok ([], []).
Proof.
  intros cls rest sp L. unfold decode_hyperlinks. rewrite sl_from_app by lia. cbn [bind]. rewrite sl_to_ok by reflexivity. cbn [bind dat]. change (le32 (put32 2)) with (@Ok Z 2). cbn [bind]. change (negb (2 =? 2)) with false. cbv iota.
  rewrite (sl_range_mid (put32 2) (put32 128)) by reflexivity. cbn [bind dat]. change (le32 (put32 128)) with (@Ok Z 128). cbn [bind]. rewrite (app_assoc (put32 2)). rewrite sl_from_app by reflexivity. cbn [bind].
  change (negb (Z.land 128 16 =? 0)) with false. change (negb (Z.land 128 128 =? 0)) with true. change (negb (Z.land 128 1 =? 0)) with false. change (negb (Z.land 128 8 =? 0)) with false. cbv iota. cbn [bind]. rewrite sl_to_ok by reflexivity. cbn [bind dat].
  change (le32 (put32 2147483646)) with (@Ok Z 2147483646). cbn [bind]. change (u32 (4 + u32 (2147483646 * 2))) with 0.
  change (put32 2147483646 ++ rest) with ([] ++ (put32 2147483646 ++ rest)). rewrite sl_from_app by reflexivity. reflexivity.
Qed.
(** What becomes of a record cut off after the class id depends on the bytes that happen to lie behind it in memory. *)
Theorem C97_memory_refuted : forall cls v rest, zlen cls = 16 -> 0 <= v < 4294967296 ->
  decode_hyperlinks (mkSl cls (put32 v ++ rest)) = if v =? 2 then Panic else Err EHyperVersion.
Proof.
  intros cls v rest L Hv. unfold decode_hyperlinks. rewrite <- (app_nil_r cls). rewrite sl_from_app by lia. cbn [bind]. unfold sl_to, sl_range, sl_full. cbn [dat spare app].
  change (4 - 0) with 4. rewrite zdrop_0. rewrite zlen_app. change (zlen (put32 v)) with 4. pose proof (zlen_nonneg _ rest). destruct (Z.leb_spec 4 (4 + zlen rest)); [|lia]. change (0 <=? 0) with true. change (0 <=? 4) with true. cbn [andb bind dat].
  change 4 with (zlen (put32 v)). rewrite ztake_app_exact. replace (le32 (put32 v)) with (@Ok Z v) by (rewrite <- (app_nil_r (put32 v)), le32_put32 by lia; reflexivity). cbn [bind]. destruct (v =? 2); [|reflexivity]. cbn [negb].
  match goal with |- context [if ?b then _ else _] => destruct b end; [|reflexivity]. cbn [bind dat]. destruct (le32 _) as [fl|?| |] eqn:EF; cbn [bind]; try reflexivity.
  - exfalso. eapply le32_noerr; eauto.
  - exfalso. revert EF. apply ends_le32.
Qed.
(** A link with a file moniker inside, one that is cut off by a byte, and one that is refused. *)
Definition ex_link : bytes := hl_bytes (mkHL (repeat 7 16) 0 (Some [72; 105]) (Some [65]) (Some (TFile 3 (bs "C:\x") (repeat 1 24) (Some (3, [67; 58])))) (Some [66]) []).
Example ex_C97 : link_extent ex_link (ex_link ++ [1]) = Until (zlen ex_link) /\ zlen ex_link = 114 /\
  link_extent (ztake 113 ex_link) (ex_link ++ [1]) = Overrun /\ decode_hyperlinks (mkSl (ztake 113 ex_link) [0; 1]) = Panic /\
  link_extent (repeat 7 16 ++ put32 2 ++ put32 1 ++ repeat 5 16) (repeat 7 16 ++ put32 2 ++ put32 1 ++ repeat 5 16) = Refused.
Proof. vm_compute. repeat split. Qed.

Print Assumptions C96_tables.
Print Assumptions C96_unambiguous.
Print Assumptions C96_otherwise.
Print Assumptions C96_workbook.
Print Assumptions C96_count_refuted.
Print Assumptions C96_cut_refuted.
Print Assumptions C97_links.
Print Assumptions C97_valid.
Print Assumptions C97_overrun_refuted.
Print Assumptions C97_frame_refuted.
Print Assumptions C97_memory_refuted.
