(** * P_saysfile: C104 for whole files. *)
From Verif Require Import GoBase GoFloat GoUnicode L_base M_grate M_value M_fmt M_formats M_cell M_sheet M_crypto M_biff M_hlink M_xlstr M_xls S_cell L_cell S_sheet L_sheet S_grid L_grid S_cfb L_cfb S_hlink S_xls L_xls S_biff L_biff S_xlstr P_xlstr S_robust L_total P_robust S_says P_says P_biff P_frames.
From Coq Require Import Lia ZifyBool ZifyNat.
Local Opaque f_of_bits fdiv f_of_Z put set_value fx_add.

(** ** where a cell comes from *)
Lemma in_region : forall g tl r c w, In (r, c, w) (region_cells g tl) -> within g r c.
Proof.
  intros [[[r0 r1] c0] c1] tl r c w H. unfold region_cells in H. apply in_flat_map in H. destruct H as (a & Ia & H). apply in_flat_map in H. destruct H as (b & Ib & H). apply in_map_iff in H. destruct H as (x & E & _). injection E as -> -> _.
  apply in_zrange in Ia. apply in_zrange in Ib. cbn [within]. lia.
Qed.
Lemma in_rec_says : forall link strs xfs mr mc x r c w, In (r, c, w) (rec_says link strs xfs mr mc x) -> addresses mr mc x r c.
Proof.
  intros link strs xfs mr mc x r c w H. unfold rec_says in H. unfold addresses. set (p := payload x) in *. clearbody p.
  assert (one : forall v t, In (r, c, w) [(field p 0 2, field p 2 2, v)] -> b_type x = t -> In t [515; 638; 253; 517; 6] -> In (b_type x) [515; 638; 253; 517; 6] /\ r = field p 0 2 /\ c = field p 2 2).
  { intros v t [E|[]] -> I. injection E as -> -> _. auto. }
  destruct (Z.eqb_spec (b_type x) 515) as [T|_]; [left; eapply one; eauto; cbn; tauto|].
  destruct (Z.eqb_spec (b_type x) 638) as [T|_]; [left; eapply one; eauto; cbn; tauto|].
  destruct (Z.eqb_spec (b_type x) 189) as [T|_]. { right; left. apply in_map_iff in H. destruct H as (i & E & I). injection E as -> <- _. apply in_zrange in I. lia. }
  destruct (Z.eqb_spec (b_type x) 253) as [T|_]. { left. destruct (nth _ strs []) as [|a t]; [destruct H|]. eapply one; eauto; cbn; tauto. }
  destruct (Z.eqb_spec (b_type x) 517) as [T|_]. { left. destruct (field p 7 1 =? 0); eapply one; eauto; cbn; tauto. }
  destruct (Z.eqb_spec (b_type x) 6) as [T|_]. { left. destruct (negb _); [eapply one; eauto; cbn; tauto|]. repeat (match goal with H : In _ (if ?b then _ else _) |- _ => destruct b end); try (exact (False_ind _ H)); eapply one; eauto; cbn; tauto. }
  destruct (Z.eqb_spec (b_type x) 440) as [T|_]. { right; right; left. destruct (_ && _); [|destruct H]. destruct (link _ _); [|destruct H]. split; [exact T|]. eapply in_region; eauto. }
  destruct (Z.eqb_spec (b_type x) 229) as [T|_]; [|destruct H]. right; right; right. split; [exact T|]. apply in_flat_map in H. destruct H as (i & I & H). apply in_zrange in I. exists i. split; [lia|]. eapply in_region; eauto.
Qed.
Lemma in_says : forall link strs xfs mr mc l first depth at_ acc r c w, In (r, c, w) (says link strs xfs mr mc l first depth at_ acc) ->
  (exists w', In (r, c, w') acc) \/ exists x, In x (top l first depth) /\ addresses mr mc x r c.
Proof.
  induction l as [|x l IH]; intros first depth at_ acc r c w H; cbn [says top] in *; [left; eauto|].
  destruct (0 <? depth); [apply IH in H; exact H|]. destruct (b_type x =? 2057); [apply IH in H; exact H|].
  destruct (b_type x =? 519).
  - apply IH in H. destruct H as [(w' & H)|(y & I & A)]; [|right; exists y; split; [right; exact I|exact A]]. apply in_app_or in H. destruct H as [H|H]; [left; eauto|].
    left. destruct (last_write acc _ _) eqn:LW; [|destruct H]. destruct H as [E|[]]. injection E as <- <- <-. apply last_in in LW. eauto.
  - apply IH in H. destruct H as [(w' & H)|(y & I & A)]; [|right; exists y; split; [right; exact I|exact A]]. apply in_app_or in H. destruct H as [H|H]; [left; eauto|].
    right. exists x. split; [left; reflexivity|]. eapply in_rec_says; eauto.
Qed.
(** Every cell that is not blank comes from a record of the sheet that is about its position. *)
Theorem C104_origin : forall w ss l s, reach_fx (wb_fx w) -> Forall w16 (wb_xfs w) -> idx (wb_streams w) ss = Ok l -> Forall rec_wf l -> plain_dimension l ->
  parse_sheet w ss = Ok (Some s) ->
  exists grid, delivers raw s grid /\ forall r c row cl, nth_error grid r = Some row -> nth_error row c = Some cl -> cl <> [] ->
    exists x, In x (top l true 0) /\ addresses (fst (declared l)) (snd (declared l)) x (Z.of_nat r) (Z.of_nat c).
Proof.
  intros w ss l s RF X El WF PD H. destruct (C104_sheet w ss l s RF X El WF PD H) as (_ & _ & grid & D & P & _). exists grid. split; [exact D|]. intros r c row cl N1 N2 NE. specialize (P r c row cl N1 N2).
  destruct (last_write _ _ _) as [wr|] eqn:LW; [|congruence]. apply last_in in LW. destruct (in_says _ _ _ _ _ _ _ _ _ _ _ _ _ LW) as [(? & [])|Q]. exact Q.
Qed.

(** ** the globals *)
Lemma units_cap_pairs : forall n raw us, units_cap n raw = Ok us -> us = pairs (ztake (2 * Z.of_nat n) (dat raw)).
Proof.
  induction n as [|n IH]; intros raw us H; cbn [units_cap] in H; [injection H as <-; reflexivity|]. unfold sl_to in H.
  destruct raw as [d sp]. unfold sl_range, sl_full in H. cbn [dat spare] in *. destruct (_ && _ && _); cbn [bind dat] in H; [|discriminate]. change (zdrop 0 (d ++ sp)) with (d ++ sp) in H. change (2 - 0) with 2 in H.
  destruct (le16 _) as [u| | |] eqn:EU; cbn [bind] in H; try discriminate. unfold sl_from, sl_len in H. cbn [dat spare] in H. destruct (_ && _) eqn:L; cbn [bind] in H; [|discriminate].
  destruct (units_cap n _) as [r| | |] eqn:E; cbn [bind] in H; try discriminate. injection H as <-. apply IH in E. cbn [dat] in E.
  destruct d as [|a [|b d]]; try (unfold zlen in L; cbn [List.length] in L; lia). change (ztake 2 ((a :: b :: d) ++ sp)) with [a; b] in EU. cbn [le16] in EU. injection EU as <-.
  change (zdrop 2 (a :: b :: d)) with d in E. subst r. replace (2 * Z.of_nat (S n)) with (1 + (1 + 2 * Z.of_nat n)) by lia. unfold ztake. rewrite !Z2Nat.inj_add by lia. reflexivity.
Qed.
Lemma units_text : forall k n fl raw t z, 0 <= n -> decode_units k n fl raw = Ok (t, z) -> t = counted_text n fl (dat raw) (spare raw).
Proof.
  intros k n fl raw t z Hn H. unfold decode_units, counted_text in *. rewrite land1 in H. destruct (fl mod 2 =? 0).
  - unfold sl_to, sl_range, sl_full in H. destruct (_ && _ && _); cbn [bind] in H; [|discriminate]. injection H as <- _. cbn [dat]. change (zdrop 0 (dat raw ++ spare raw)) with (dat raw ++ spare raw). rewrite Z.sub_0_r. reflexivity.
  - destruct (units_cap _ _) as [us| | |] eqn:E; cbn [bind] in H; try discriminate. injection H as <- _. apply units_cap_pairs in E. rewrite Z2Nat.id in E by lia. subst us. reflexivity.
Qed.
Definition bs_of (e : Z * Z * Z * gostr) : bsheet := match e with (p, h, t, n) => mkBS p h t n end.
Definition add_format (x : formatter) (e : Z * gostr) : formatter := fst (fx_add x (fst e) (snd e)).
Definition globals_say (w : wbook) (l : list brec) (w' : wbook) : Prop :=
  wb_sheets w' = wb_sheets w ++ map bs_of (map sheet_entry (of_type 133 l)) /\ wb_xfs w' = wb_xfs w ++ map xf_entry (of_type 224 l) /\
  wb_fx w' = fold_left add_format (map format_entry (of_type 1054 l)) (wb_fx w) /\ wb_streams w' = wb_streams w /\ wb_map w' = wb_map w.
Lemma le16_take : forall l, le16 (ztake 2 l) = le16 l.
Proof. intros [|a [|b l]]; reflexivity. Qed.
Lemma le32_take : forall l, le32 (ztake 4 l) = le32 l.
Proof. intros [|a [|b [|c [|d l]]]]; reflexivity. Qed.
Lemma say_nil : forall w w' r, wb_sheets w' = wb_sheets w -> wb_xfs w' = wb_xfs w -> wb_fx w' = wb_fx w -> wb_streams w' = wb_streams w -> wb_map w' = wb_map w ->
  (b_type r <> 133 /\ b_type r <> 224 /\ b_type r <> 1054 \/ zlen (payload r) = 0) -> globals_say w [r] w'.
Proof.
  intros w w' r A B C D E N. assert (T : forall t, t = 133 \/ t = 224 \/ t = 1054 -> of_type t [r] = []). { intros t Ht. unfold of_type. cbn [filter]. replace ((b_type r =? t) && (0 <? zlen (payload r))) with false by lia. reflexivity. }
  unfold globals_say. rewrite !T by auto. cbn [map fold_left]. rewrite !app_nil_r. auto.
Qed.
Lemma rec_globals : forall w r rest w', rec_wf r -> load_rec w r rest = Ok w' -> globals_say w [r] w'.
Proof.
  intros w r rest w' (B & _ & _) H. unfold load_rec in H. destruct (Z.eqb_spec (sl_len (b_data r)) 0) as [Z0|Z0]; [injection H as <-; apply say_nil; auto|]. unfold sl_len in Z0.
  assert (LP : 0 <? zlen (payload r) = true) by (pose proof (zlen_nonneg _ (payload r)); lia).
  unfold RecTypeSST, RecTypeContinue, RecTypeEOF, RecTypeBOF, RecTypeCodePage, RecTypeDate1904, RecTypeFormat, RecTypeXF, RecTypeBoundSheet8 in H.
  destruct (Z.eqb_spec (b_type r) 252) as [T|T1]. { dbind H. injection H as <-. apply say_nil; auto; left; lia. }
  destruct (Z.eqb_spec (b_type r) 60) as [T|T2]. { injection H as <-. apply say_nil; auto; left; lia. }
  destruct (Z.eqb_spec (b_type r) 10) as [T|T3]. { injection H as <-. apply say_nil; auto; left; lia. }
  destruct (Z.eqb_spec (b_type r) 2057) as [T|T4]. { dbind H. injection H as <-. apply say_nil; auto; left; lia. }
  destruct (Z.eqb_spec (b_type r) 66) as [T|T5]. { dbind H. injection H as <-. apply say_nil; auto; left; lia. }
  destruct (Z.eqb_spec (b_type r) 34) as [T|T6]. { dbind H. injection H as <-. apply say_nil; auto; left; lia. }
  destruct (Z.eqb_spec (b_type r) 1054) as [T|T7].
  { assert (L : 5 <= zlen (payload r)).
    { destruct (Z_lt_ge_dec (zlen (payload r)) 5); [exfalso|lia]. revert H. apply bad_bind. intros ? _. apply bad_bind. intros s Es. apply bad_first. unfold decode_long. apply bad_bind. intros s2 _. apply bad_bind. intros ? _. apply bad_first.
      unfold sl_from, sl_len in Es. destruct (_ && _); [|discriminate]. injection Es as <-. unfold sl_idx. cbn [dat]. intros y Ey. apply byte_field in Ey. destruct Ey as [_ Ey]. pose proof (zlen_zdrop _ (payload r) 2) as Q. destruct (Z_lt_ge_dec (zlen (payload r)) 2); [rewrite zdrop_all in Ey by lia; change (zlen (@nil Z)) with 0 in Ey|]; lia. }
    pose proof (from16_val (b_data r) 0 ltac:(lia) ltac:(lia)) as F0. unfold from16 in F0. rewrite from_val in F0 by lia. cbn [bind dat] in F0. change (zdrop 0 (payload r)) with (payload r) in F0. rewrite F0 in H. cbn [bind] in H.
    rewrite from_val in H by lia. cbn [bind] in H. dbind H. destruct x as [code z]. injection H as <-. unfold decode_long in E. unfold sl_to in E. destruct (range_val (mkSl (zdrop 2 (payload r)) (spare (b_data r))) 0 2) as (sp & RV); [lia|lia|cbn [dat]; rewrite zlen_zdrop; lia|]. change (0 + 2) with 2 in RV. rewrite RV in E. cbn [bind dat] in E.
    change (zdrop 0 (zdrop 2 (payload r))) with (zdrop 2 (payload r)) in E. pose proof (from16_val (b_data r) 2 ltac:(lia) ltac:(lia)) as F2. unfold from16 in F2. rewrite from_val in F2 by lia. cbn [bind dat] in F2. rewrite le16_take in E. rewrite F2 in E. cbn [bind] in E.
    unfold sl_idx in E. cbn [dat] in E. rewrite idx_drop in E by lia. cbn [bind] in E. rewrite from_val in E by (cbn [dat]; rewrite zlen_zdrop; lia). cbn [bind dat spare] in E. rewrite zdrop_zdrop in E by lia. apply units_text in E; [|pose proof (w16_field _ 2 B ltac:(lia) ltac:(lia)) as Q; unfold w16 in Q; lia].
    cbn [dat spare] in E. change (2 + 2) with 4 in E. change (3 + 2) with 5 in E. change (2 + 3) with 5 in E. subst code.
    unfold globals_say, of_type. cbn [filter wb_sheets wb_xfs wb_fx wb_streams wb_map]. rewrite T, LP. cbn. rewrite !app_nil_r. repeat split. }
  destruct (Z.eqb_spec (b_type r) 224) as [T|T8].
  { assert (L : 4 <= zlen (payload r)). { destruct (Z_lt_ge_dec (zlen (payload r)) 4); [exfalso|lia]. dbind H. unfold sl_from, sl_len in E. destruct (_ && _) eqn:C; [|discriminate]. injection E as <-. cbn [dat] in H. pose proof (zlen_zdrop _ (payload r) 2 ltac:(lia)) as Q. destruct (zdrop 2 (payload r)) as [|? [|? ?]]; [discriminate|discriminate|unfold zlen in Q at 1; cbn [List.length] in Q; lia]. }
    pose proof (from16_val (b_data r) 2 ltac:(lia) ltac:(lia)) as F2. unfold from16 in F2. rewrite from_val in H, F2 by lia. cbn [bind dat] in H, F2. rewrite F2 in H. cbn [bind] in H. injection H as <-.
    unfold globals_say, of_type. cbn [filter wb_sheets wb_xfs wb_fx wb_streams wb_map]. rewrite T, LP. cbn. rewrite !app_nil_r. repeat split. }
  destruct (Z.eqb_spec (b_type r) 133) as [T|T9]; [|injection H as <-; apply say_nil; auto; left; lia].
  assert (L : 8 <= zlen (payload r)).
  { destruct (Z_lt_ge_dec (zlen (payload r)) 8); [exfalso|lia]. revert H. apply bad_bind. intros ? _. apply bad_bind. intros ? _. apply bad_bind. intros ? _. apply bad_bind. intros ? _. apply bad_bind. intros s Es. apply bad_first. unfold decode_short. apply bad_bind. intros ? _. apply bad_first.
    unfold sl_from, sl_len in Es. destruct (_ && _) eqn:C; [|discriminate]. injection Es as <-. unfold sl_idx. cbn [dat]. intros y Ey. apply byte_field in Ey. destruct Ey as [_ Ey]. pose proof (zlen_zdrop _ (payload r) 6 ltac:(lia)) as Q. lia. }
  unfold sl_to in H. destruct (range_val (b_data r) 0 4) as (sp & RV); [lia|lia|lia|]. change (0 + 4) with 4 in RV. rewrite RV in H. cbn [bind dat] in H. change (zdrop 0 (payload r)) with (payload r) in H. rewrite le32_take in H.
  pose proof (from32_val (b_data r) 0 ltac:(lia) ltac:(lia)) as F0. unfold from32 in F0. rewrite from_val in F0 by lia. cbn [bind dat] in F0. change (zdrop 0 (payload r)) with (payload r) in F0. rewrite F0 in H. cbn [bind] in H.
  unfold sl_idx in H. rewrite !idx_field in H by lia. cbn [bind] in H. rewrite from_val in H by lia. cbn [bind] in H. dbind H. destruct x as [name z]. injection H as <-.
  unfold decode_short, sl_idx in E. cbn [dat] in E. rewrite !idx_drop in E by lia. cbn [bind] in E. rewrite from_val in E by (cbn [dat]; rewrite zlen_zdrop; lia). cbn [bind dat spare] in E. rewrite zdrop_zdrop in E by lia. apply units_text in E; [|apply field1_byte; exact B].
  cbn [dat spare] in E. change (6 + 0) with 6 in E. change (6 + 1) with 7 in E. change (6 + 2) with 8 in E. change (2 + 6) with 8 in E. subst name.
  unfold globals_say, of_type. cbn [filter wb_sheets wb_xfs wb_fx wb_streams wb_map]. rewrite T, LP. cbn. rewrite !app_nil_r. repeat split.
Qed.
Lemma say_app : forall w l1 w1 l2 w2, globals_say w l1 w1 -> globals_say w1 l2 w2 -> globals_say w (l1 ++ l2) w2.
Proof.
  intros w l1 w1 l2 w2 (A & B & C & D & E) (A2 & B2 & C2 & D2 & E2). unfold globals_say, of_type in *. rewrite !filter_app, !map_app, fold_left_app. rewrite A2, B2, C2, D2, E2, A, B, C, D, E, <- !app_assoc. auto.
Qed.
Lemma recs_globals : forall l w w', Forall rec_wf l -> load_recs w l = Ok w' -> globals_say w l w'.
Proof.
  induction l as [|r l IH]; intros w w' F H; cbn [load_recs] in H. { injection H as <-. unfold globals_say. cbn. rewrite !app_nil_r. auto. }
  dbind H. inversion F; subst. apply rec_globals in E; auto. apply (say_app _ [r] _ l _ E). auto.
Qed.
Lemma streams_globals : forall ss w w', Forall (Forall rec_wf) ss -> load_streams w ss = Ok w' -> globals_say w (concat ss) w'.
Proof.
  induction ss as [|l ss IH]; intros w w' F H; cbn [load_streams] in H. { injection H as <-. unfold globals_say. cbn. rewrite !app_nil_r. auto. }
  dbind H. inversion F; subst. apply recs_globals in E; auto. cbn [concat]. eapply say_app; eauto.
Qed.
(** The sheets, the number formats and the formats of the cells are those of the BoundSheet, Format
    and XF records, in the order of the file. *)
Theorem C104_globals : forall raw sp2 w, bytes_ok (dat raw) -> bytes_ok (spare raw) -> bytes_ok sp2 -> load_workbook raw sp2 = Ok w ->
  let all := concat (wb_streams w) in
  map (fun b => (bs_pos b, bs_hidden b, bs_type b, bs_name b)) (wb_sheets w) = map sheet_entry (of_type 133 all) /\
  wb_xfs w = map xf_entry (of_type 224 all) /\
  wb_fx w = fold_left (fun x e => fst (fx_add x (fst e) (snd e))) (map format_entry (of_type 1054 all)) new_formatter.
Proof.
  intros raw sp2 w A B C H. unfold load_workbook in H. dbind H. destruct (split_workbook_ok _ _ _ A B C E) as (S1 & _). apply streams_globals in H; auto. destruct H as (G1 & G2 & G3 & G4 & _). cbn [new_wbook wb_sheets wb_xfs wb_fx wb_streams app] in *. rewrite G4, G1, G2, G3.
  split; [|auto]. rewrite map_map. rewrite <- (map_id (map sheet_entry _)) at 2. apply map_ext. intros [[[a b] c] d]. reflexivity.
Qed.

(** ** the stream *)
(** the bytes the records are read from: those of the file, or, behind a FilePass record for the
    first kind of encryption, the deciphered ones *)
Definition plain_of (raw : slice) (plain : bytes) (rs : list frec) : Prop :=
  plain = dat raw /\ Forall (fun r => fst r <> FILEPASS) rs \/
  exists before data after dec, dat raw = stream before ++ enc_rec (FILEPASS, data) ++ after /\ Forall (rec_fits 65531) before /\ Forall (fun r => fst r <> FILEPASS) before /\
    field data 0 2 = 1 /\ new_basic_rc4 (zdrop 2 data) = Ok dec /\ decrypt_stream raw dec = Ok plain.
Lemma workbook_split : forall raw sp2 w, bytes_ok (dat raw) -> bytes_ok (spare raw) -> bytes_ok sp2 -> load_workbook raw sp2 = Ok w ->
  exists st plain tail rs, wb_streams w = st_streams st /\ wb_map w = st_map st /\ plain_of raw plain rs /\ plain = stream rs ++ tail /\ zlen tail < 4 /\ Forall (rec_fits 65531) rs /\ split_state st rs.
Proof.
  intros raw sp2 w A B C H. unfold load_workbook in H. dbind H. destruct (split_workbook_ok _ _ _ A B C E) as (S1 & _). apply streams_globals in H; auto. destruct H as (_ & _ & _ & G4 & G5). cbn [new_wbook wb_streams wb_map] in *.
  unfold split_workbook in E. dbind E. destruct x0 as [st|data].
  - injection E as <-. destruct (split_inv _ _ _ _ _ [] A state0 E0) as (rs & tail & E1 & T & F & NF & S). exists st, (dat raw), tail, rs. repeat (split; [assumption|]). split; [left; auto|]. auto.
  - destruct (split_inv_pass _ _ _ _ A E0) as (before & after & E1 & FB & NF). dbind E. destruct (Z.eqb_spec x0 1) as [->|]; [|destruct (_ || _); discriminate]. dbind E. dbind E. dbind E. dbind E. destruct x3 as [st|]; [|discriminate]. injection E as <-.
    assert (BP : bytes_ok x2) by (eapply decrypt_stream_bytes; [exact A|exact B|eapply basic_ok; eauto|exact E5]).
    destruct (split_inv _ (mkSl x2 sp2) _ _ _ [] BP state0 E6) as (rs & tail & E7 & T & F & _ & S). cbn [dat] in E7. exists st, x2, tail, rs. repeat (split; [assumption|]). split; [|auto].
    right. exists before, (dat data), after, x1. repeat (split; [assumption|]). unfold sl_from in E3. destruct (_ && _); [|discriminate]. injection E3 as <-. cbn [dat] in E4. split; [|auto].
    destruct (dat data) as [|a [|b l]]; try discriminate E2. cbn [le16] in E2. injection E2 as E2. rewrite (field2 (a :: b :: l) 0 a b l) by reflexivity. exact E2.
Qed.
(** The substreams are the records of the file, one after another, with at most three bytes left
    at the end; each begins with a BOF record. *)
Theorem C104_stream : forall raw sp2 w, bytes_ok (dat raw) -> bytes_ok (spare raw) -> bytes_ok sp2 -> load_workbook raw sp2 = Ok w ->
  let gs := map (map L_biff.payload) (wb_streams w) in
  exists plain tail, plain_of raw plain (concat gs) /\ plain = stream (concat gs) ++ tail /\ zlen tail < 4 /\ Forall (rec_fits 65531) (concat gs) /\
    Forall (fun g => exists p t, g = (BOF, p) :: t) gs.
Proof.
  intros raw sp2 w A B C H gs. destruct (workbook_split _ _ _ A B C H) as (st & plain & tail & rs & E1 & E2 & P & E & T & F & (S1 & _ & _ & S4 & _)). assert (G : gs = streams_of st) by (unfold gs, streams_of; rewrite E1; reflexivity). rewrite G, S1. exists plain, tail. auto 6.
Qed.
(** Get of a name: the first BoundSheet record of that name gives the position of its substream, the
    first substream if no substream begins there, and the sheet shows what the records of that
    substream say; every cell that is not blank comes from one of them that is about its position. *)
Lemma get_first : forall w name l s, get_loop w l name = Ok (Some s) ->
  exists b, find (fun b => str_eqb (bs_name b) name) l = Some b /\ parse_sheet w (match zfind (bs_pos b) (wb_map w) with Some k => k | None => 0 end) = Ok (Some s).
Proof. induction l as [|b l IH]; intros s H; cbn [get_loop find] in *; [discriminate|]. destruct (str_eqb _ _); [eauto|auto]. Qed.
Lemma find_map : forall A B (f : A -> B) p l, find p (map f l) = option_map f (find (fun a => p (f a)) l).
Proof. induction l as [|a l IH]; cbn [map find]; [reflexivity|]. destruct (p (f a)); auto. Qed.
Theorem C104_file : forall raw sp2 w name s, bytes_ok (dat raw) -> bytes_ok (spare raw) -> bytes_ok sp2 -> load_workbook raw sp2 = Ok w -> wb_get w name = Ok (Some s) ->
  let gs := map (map L_biff.payload) (wb_streams w) in
  exists pos hidden kind l n, find (fun e => str_eqb (snd e) name) (map sheet_entry (of_type 133 (concat (wb_streams w)))) = Some (pos, hidden, kind, name) /\
    nth_error (wb_streams w) n = Some l /\ (pos = offset gs n \/ n = 0%nat /\ forall m, (m < List.length gs)%nat -> pos <> offset gs m) /\
    (plain_dimension l ->
       displays (wb_fx w) (sheet_says link_of (wb_strings w) (wb_xfs w) l) (fst (declared l)) (snd (declared l)) s /\
       exists grid, delivers M_sheet.raw s grid /\ forall r c row cl, nth_error grid r = Some row -> nth_error row c = Some cl -> cl <> [] ->
         exists x, In x (top l true 0) /\ addresses (fst (declared l)) (snd (declared l)) x (Z.of_nat r) (Z.of_nat c)).
Proof.
  intros raw sp2 w name s A B C H G gs. destruct (C104_globals _ _ _ A B C H) as (G1 & _). cbn zeta in G1. destruct (loaded_ok _ _ _ A B C H) as (RF & X & WF & _). destruct (workbook_split _ _ _ A B C H) as (st & plain & tail & rs & E1 & E2 & _ & _ & _ & _ & (_ & _ & _ & _ & SM)).
  assert (GS : gs = streams_of st) by (unfold gs, streams_of; rewrite E1; reflexivity). rewrite <- GS, <- E2 in SM.
  destruct (get_first _ _ _ _ G) as (b & Fb & PS). rewrite <- G1, find_map. cbn [snd]. rewrite Fb. cbn [option_map]. assert (NB : bs_name b = name) by (apply find_some in Fb; destruct Fb as [_ Q]; apply str_eqb_eq in Q; exact Q). rewrite NB.
  set (k := match zfind (bs_pos b) (wb_map w) with Some k => k | None => 0 end) in *. assert (IL : exists l, idx (wb_streams w) k = Ok l) by (unfold parse_sheet in PS; destruct (idx (wb_streams w) k); try discriminate PS; eauto). destruct IL as (l & IL).
  pose proof IL as IN. apply idx_inv in IN. destruct IN as [K0 IN]. exists (bs_pos b), (bs_hidden b), (bs_type b), l, (Z.to_nat k). split; [reflexivity|]. split; [exact IN|]. split.
  - unfold k in *. destruct (zfind (bs_pos b) (wb_map w)) as [k1|] eqn:Z; [left; apply SM in Z; destruct Z as (n & -> & _ & ->); rewrite Nat2Z.id; reflexivity|].
    right. split; [reflexivity|]. intros m Hm Q. assert (Z2 : zfind (bs_pos b) (wb_map w) = Some (Z.of_nat m)) by (apply SM; eauto). congruence.
  - intros PD. assert (WL : Forall rec_wf l) by (rewrite Forall_forall in WF; apply WF; eapply nth_error_In; eauto). split; [eapply C104_sheet; eauto|]. eapply C104_origin; eauto.
Qed.

(** What a sheet is called need not be in its record: a name that is announced longer than its
    record is filled up with the bytes of the next record (here the end of the substream). *)
Definition ex_over : bytes := stream [(BOF, put16 1536 ++ put16 5 ++ put16 0 ++ put16 1997 ++ repeat 9 8); (133, put32 0 ++ [0; 0; 3; 0; 65]); (EOFR, [])].
Theorem C104_overrun_refuted : exists w, load_workbook (mkSl ex_over []) [] = Ok w /\ M_xls.wb_list w = [[65; 10; 0]] /\
  exists r, of_type 133 (concat (wb_streams w)) = [r] /\ payload r = put32 0 ++ [0; 0; 3; 0; 65].
Proof. eexists. split; [vm_compute; reflexivity|]. split; [vm_compute; reflexivity|]. eexists. split; vm_compute; reflexivity. Qed.

(** A file whose sheet comes before the globals, with its Dimensions record behind the cells, a
    String record after a numeric formula, a record of an embedded chart, two cells at the same place and a last record cut off after three bytes. *)
Definition bof16 (k : Z) : frec := (BOF, put16 1536 ++ put16 k ++ put16 0 ++ put16 1997 ++ repeat 0 8).
Definition ex_odd_sheet : list frec := [bof16 16;
  (638, [1; 0; 1; 0; 0; 0] ++ put32 170); (6, [0; 0; 1; 0; 0; 0] ++ repeat 0 8 ++ [1; 2; 3]); (519, [2; 0; 1; 72; 0; 73; 0]); (60, [0; 33]);
  bof16 32; (515, repeat 0 14); (EOFR, []); (517, [2; 0; 0; 0; 0; 0; 1; 0]); (638, [1; 0; 1; 0; 0; 0] ++ put32 14); (512, put32 0 ++ put32 4 ++ put16 0 ++ put16 3 ++ [0; 0]); (EOFR, [])].
Definition ex_odd : bytes := stream ex_odd_sheet ++ stream [bof16 5; (224, [0; 0; 0; 0]); (133, put32 0 ++ [0; 0; 1; 0; 83]); (EOFR, [])] ++ [9; 8; 16].
Definition ex_odd_wb : wbook := match load_workbook (mkSl ex_odd []) [] with Ok w => w | _ => new_wbook bst0 end.
Definition ex_odd_l : list brec := match wb_streams ex_odd_wb with l :: _ => l | [] => [] end.
Example ex_C104_loads : load_workbook (mkSl ex_odd []) [] = Ok ex_odd_wb /\ bytes_ok ex_odd /\ M_xls.wb_list ex_odd_wb = [bs "S"] /\ List.length (wb_streams ex_odd_wb) = 2%nat /\
  idx (wb_streams ex_odd_wb) 0 = Ok ex_odd_l /\ plain_dimension ex_odd_l /\ declared ex_odd_l = (4, 3).
Proof.
  split; [vm_compute; reflexivity|]. split; [unfold bytes_ok; apply Forall_forall; intros x I; assert (H : forallb (fun x => (0 <=? x) && (x <? 256)) ex_odd = true) by (vm_compute; reflexivity); rewrite forallb_forall in H; specialize (H x I); lia|].
  split; [vm_compute; reflexivity|]. split; [vm_compute; reflexivity|]. split; [vm_compute; reflexivity|]. split; [|vm_compute; reflexivity].
  split; [unfold one_dimension; apply Nat.leb_le; vm_compute; reflexivity|]. apply Forall_forall. intros r I D. assert (H : forallb (fun r => implb (is_dim r) (12 <=? zlen (payload r))) (top ex_odd_l true 0) = true) by (vm_compute; reflexivity). rewrite forallb_forall in H. specialize (H r I). rewrite D in H. cbn [implb] in H. lia.
Qed.
Example ex_C104_says : map (fun o => (fst (fst o), snd (fst o))) (sheet_says link_of (wb_strings ex_odd_wb) (wb_xfs ex_odd_wb) ex_odd_l) = [(1, 1); (0, 1); (0, 1); (2, 0); (1, 1)] /\
  last_write (sheet_says link_of (wb_strings ex_odd_wb) (wb_xfs ex_odd_wb) ex_odd_l) 0 1 = Some (WText (bs "HI!") 0) /\
  last_write (sheet_says link_of (wb_strings ex_odd_wb) (wb_xfs ex_odd_wb) ex_odd_l) 2 0 = Some (WPut (GBool true) 0).
Proof. split; [vm_compute; reflexivity|]. split; vm_compute; reflexivity. Qed.
Lemma ex_odd_get : (exists s, M_xls.wb_get ex_odd_wb (bs "S") = Ok (Some s)) /\ find (fun b => str_eqb (bs_name b) (bs "S")) (wb_sheets ex_odd_wb) = Some (mkBS 0 0 0 (bs "S")) /\ zfind 0 (wb_map ex_odd_wb) = Some 0.
Proof.
  split; [|split; vm_compute; reflexivity]. assert (T : match M_xls.wb_get ex_odd_wb (bs "S") with Ok (Some _) => true | _ => false end = true) by (vm_compute; reflexivity). destruct (M_xls.wb_get ex_odd_wb (bs "S")) as [[s|]|?| |]; [eauto|discriminate T..].
Qed.
Local Opaque ex_odd_wb ex_odd_l.
Example ex_C104 : exists s, M_xls.wb_get ex_odd_wb (bs "S") = Ok (Some s) /\
  displays (wb_fx ex_odd_wb) (sheet_says link_of (wb_strings ex_odd_wb) (wb_xfs ex_odd_wb) ex_odd_l) 4 3 s.
Proof.
  destruct ex_C104_loads as (L & B & _ & _ & I & PD & DE). destruct ex_odd_get as ((s & G) & FB & ZF). exists s. split; [exact G|].
  assert (NB : bytes_ok []) by constructor. destruct (loaded_ok (mkSl ex_odd []) [] ex_odd_wb B NB NB L) as (RF & X & WF & _).
  assert (PS : parse_sheet ex_odd_wb 0 = Ok (Some s)). { unfold M_xls.wb_get in G. destruct (get_first _ _ _ _ G) as (b & Fb & P). rewrite FB in Fb. injection Fb as <-. cbn [bs_pos] in P. rewrite ZF in P. exact P. }
  pose proof (C104_sheet ex_odd_wb 0 ex_odd_l s RF X I) as C. rewrite DE in C. cbn [fst snd] in C. apply C; auto. apply idx_inv in I. destruct I as [_ I]. rewrite Forall_forall in WF. apply WF. eapply nth_error_In. exact I.
Qed.
Print Assumptions C104_stream.
Print Assumptions C104_globals.
Print Assumptions C104_file.
Print Assumptions C104_origin.
