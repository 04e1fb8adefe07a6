(** * P_loads: exactly which workbook streams load (C108). *)
From Verif Require Import GoBase GoCrypto GoFloat GoUnicode L_base M_grate M_value M_fmt M_formats M_cell M_sheet M_crypto M_biff M_hlink M_xlstr M_xls S_cell L_cell S_sheet L_sheet S_grid L_grid S_cfb L_cfb S_hlink S_xls L_xls S_biff L_biff S_xlstr P_xlstr S_robust L_total P_robust S_table P_table S_says P_says P_biff P_frames P_saysfile S_crypto S_loads P_crypto P_cipher.
From Coq Require Import Lia ZifyBool ZifyNat.
Local Opaque f_of_bits fdiv f_of_Z put set_value fx_add.

Definition loads {A} (m : res A) : Prop := exists x, m = Ok x.
Lemma loads_bind : forall A B (m : res A) (f : A -> res B), loads (bind m f) <-> exists x, m = Ok x /\ loads (f x).
Proof.
  intros A B m f. split.
  - intros (y & H). destruct m as [x| | |]; try discriminate. exists x. split; [reflexivity|]. exists y. exact H.
  - intros (x & -> & y & H). exists y. exact H.
Qed.
Lemma loads_ok : forall A (x : A), loads (Ok x) <-> True.
Proof. split; [auto|]. intros _. exists x. reflexivity. Qed.
Lemma loads_map : forall A B (m : res A) (f : A -> B), loads (bind m (fun x => Ok (f x))) <-> loads m.
Proof. intros. rewrite loads_bind. split; [intros (x & -> & _); exists x; reflexivity|]. intros (x & ->). exists x. split; [reflexivity|]. eexists. reflexivity. Qed.
Lemma loads_iff : forall A B (m : res A) (f : A -> res B) (P Q : Prop), (loads m <-> P) -> (forall x, P -> m = Ok x -> (loads (f x) <-> Q)) -> (loads (bind m f) <-> P /\ Q).
Proof.
  intros A B m f P Q H1 H2. rewrite loads_bind. split.
  - intros (x & E & L). assert (HP : P) by (apply H1; exists x; exact E). split; [exact HP|]. apply (H2 x HP E). exact L.
  - intros (HP & HQ). apply H1 in HP as E. destruct E as (x & E). exists x. split; [exact E|]. apply (H2 x HP E). exact HQ.
Qed.

(** ** slices *)
Lemma cap_range : forall d a n, 0 <= a -> 0 <= n -> a + n <= zlen (sl_full d) -> exists sp, sl_range d a (a + n) = Ok (mkSl (ztake n (zdrop a (sl_full d))) sp).
Proof.
  intros d a n H H0 H1. unfold sl_range. replace ((0 <=? a) && (a <=? a + n) && (a + n <=? zlen (sl_full d))) with true by lia. replace (a + n - a) with n by lia. eexists. reflexivity.
Qed.
Lemma range_fails : forall d a b, zlen (sl_full d) < b -> ~ loads (sl_range d a b).
Proof. intros d a b H (x & E). unfold sl_range in E. destruct ((0 <=? a) && (a <=? b) && (b <=? zlen (sl_full d))) eqn:C; [lia|discriminate]. Qed.
Lemma le16_iff : forall l, loads (le16 l) <-> 2 <= zlen l.
Proof.
  intros [|a [|b l]]; cbn [le16]; split; try (intros (x & E); discriminate); intros H; unfold zlen in *; cbn [List.length] in *; try lia. eexists. reflexivity.
Qed.
Lemma le16_field : forall l x, le16 l = Ok x -> x = field l 0 2.
Proof. intros [|a [|b l]] x H; try discriminate. cbn [le16] in H. injection H as <-. rewrite (field2 (a :: b :: l) 0 a b l) by reflexivity. reflexivity. Qed.
Lemma cap16 : forall d a, 0 <= a -> a + 2 <= zlen (sl_full d) -> (s <- sl_range d a (a + 2) ;; le16 (dat s)) = Ok (field (sl_full d) a 2).
Proof.
  intros d a H H0. destruct (cap_range d a 2 H ltac:(lia) H0) as (sp & E). rewrite E. cbn [bind dat]. rewrite le16_take. destruct (take2 (sl_full d) a H H0) as (x & y & r & E2). rewrite (field2 _ _ _ _ _ E2), E2. reflexivity.
Qed.
Lemma from_iff : forall d a, 0 <= a -> (loads (sl_from d a) <-> a <= zlen (dat d)).
Proof.
  intros d a H. split; [|intros L; rewrite from_val by lia; eexists; reflexivity]. intros (x & E). unfold sl_from, sl_len in E. destruct ((0 <=? a) && (a <=? zlen (dat d))) eqn:C; [lia|discriminate].
Qed.

(** ** the BOF record *)
Lemma bof_iff : forall d, loads (check_bof d) <-> 16 <= zlen (sl_full d) /\ field (sl_full d) 0 2 = 1536 /\ (field (sl_full d) 6 2 = 1996 \/ field (sl_full d) 6 2 = 1997).
Proof.
  intros d. unfold check_bof. destruct (Z_lt_ge_dec (zlen (sl_full d)) 16) as [S|S].
  - split; [|lia]. intros L. exfalso. rewrite loads_bind in L. destruct L as (? & _ & L). rewrite loads_bind in L. destruct L as (? & _ & L). rewrite loads_bind in L. destruct L as (? & _ & L). rewrite loads_bind in L. destruct L as (? & _ & L).
    rewrite loads_bind in L. destruct L as (? & _ & L). rewrite loads_bind in L. destruct L as (? & _ & L). rewrite loads_bind in L. destruct L as (? & _ & L). rewrite loads_bind in L. destruct L as (? & _ & L). rewrite loads_bind in L. destruct L as (s & E & _).
    apply (range_fails d 8 16 ltac:(lia)). exists s. exact E.
  - assert (C : forall a (k : Z -> res unit), 0 <= a -> a + 2 <= 16 -> bind (sl_range d a (a + 2)) (fun s => bind (le16 (dat s)) k) = k (field (sl_full d) a 2)).
    { intros a k H H0. pose proof (cap16 d a H ltac:(lia)) as Q. destruct (sl_range d a (a + 2)) as [s| | |]; try discriminate. cbn [bind] in *. rewrite Q. reflexivity. }
    change (sl_range d 0 2) with (sl_range d 0 (0 + 2)). change (sl_range d 2 4) with (sl_range d 2 (2 + 2)). change (sl_range d 4 6) with (sl_range d 4 (4 + 2)). change (sl_range d 6 8) with (sl_range d 6 (6 + 2)). rewrite !C by lia.
    destruct (cap_range d 8 8 ltac:(lia) ltac:(lia) ltac:(lia)) as (sp & E). change (8 + 8) with 16 in E. rewrite E. cbn [bind dat].
    assert (L8 : exists x, le64 (ztake 8 (zdrop 8 (sl_full d))) = Ok x).
    { assert (L : 8 <= zlen (ztake 8 (zdrop 8 (sl_full d)))) by (rewrite zlen_ztake; rewrite ?zlen_zdrop; lia). revert L. generalize (ztake 8 (zdrop 8 (sl_full d))). intros l L.
      destruct l as [|a [|b [|c [|e [|f [|g [|h [|i l]]]]]]]]; try (unfold zlen in L; cbn [List.length] in L; lia). eexists. reflexivity. }
    destruct L8 as (x & ->). cbn [bind]. destruct (Z.eqb_spec (field (sl_full d) 0 2) 1536); cbn [negb]; [|split; [intros (? & ?); discriminate|tauto]].
    destruct (Z.eqb_spec (field (sl_full d) 6 2) 1996); [cbn [negb andb]; split; [auto with zarith|intros _; exists tt; reflexivity]|]. destruct (Z.eqb_spec (field (sl_full d) 6 2) 1997); cbn [negb andb]; split; try (intros (? & ?); discriminate); try lia.
    intros _. exists tt. reflexivity.
Qed.

(** ** counted texts *)
Lemma units_iff : forall n raw, loads (units_cap n raw) <-> 2 * Z.of_nat n <= zlen (dat raw).
Proof.
  induction n as [|n IH]; intros raw; cbn [units_cap]. { rewrite loads_ok. pose proof (zlen_nonneg _ (dat raw)). lia. }
  destruct (Z_lt_ge_dec (zlen (dat raw)) 2) as [S|S].
  - split; [|lia]. intros L. exfalso. rewrite loads_bind in L. destruct L as (? & _ & L). rewrite loads_bind in L. destruct L as (? & _ & L). rewrite loads_bind in L. destruct L as (s & E & _).
    assert (Q : loads (sl_from raw 2)) by (exists s; exact E). apply from_iff in Q; lia.
  - unfold sl_to. destruct (range_val raw 0 2 ltac:(lia) ltac:(lia) ltac:(lia)) as (sp & E). change (0 + 2) with 2 in E. rewrite E. cbn [bind dat]. rewrite le16_take.
    assert (Q : loads (le16 (zdrop 0 (dat raw)))) by (apply le16_iff; change (zdrop 0 (dat raw)) with (dat raw); lia). destruct Q as (u & ->). cbn [bind]. rewrite from_val by lia. cbn [bind]. rewrite loads_map, IH. cbn [dat]. rewrite zlen_zdrop by lia. lia.
Qed.
Lemma decode_iff : forall k n fl raw, 0 <= n -> (loads (decode_units k n fl raw) <-> (if fl mod 2 =? 0 then n <= zlen (sl_full raw) else 2 * n <= zlen (dat raw))).
Proof.
  intros k n fl raw Hn. unfold decode_units. rewrite land1. destruct (fl mod 2 =? 0).
  - rewrite loads_map. unfold sl_to. split; [|intros L; destruct (cap_range raw 0 n ltac:(lia) Hn ltac:(lia)) as (sp & E); eexists; exact E]. intros L. destruct (Z_lt_ge_dec (zlen (sl_full raw)) n) as [S|S]; [|lia]. elim (range_fails _ 0 _ S). exact L.
  - rewrite loads_map, units_iff. rewrite Z2Nat.id by lia. reflexivity.
Qed.
Lemma idx_iff : forall d a, 0 <= a -> (loads (sl_idx d a) <-> a < zlen (dat d)).
Proof.
  intros d a H. unfold sl_idx. split; [intros (x & E); apply byte_field in E; lia|]. intros L. rewrite idx_field by lia. eexists. reflexivity.
Qed.
Lemma full_drop : forall d a, 0 <= a <= zlen (dat d) -> zlen (sl_full (mkSl (zdrop a (dat d)) (spare d))) = zlen (sl_full d) - a.
Proof. intros d a H. unfold sl_full. cbn [dat spare]. rewrite !zlen_app, zlen_zdrop by lia. lia. Qed.
Lemma field_drop : forall p a b n, 0 <= a -> 0 <= b -> field (zdrop a p) b n = field p (a + b) n.
Proof. intros. unfold field. rewrite zdrop_zdrop by lia. reflexivity. Qed.
Lemma long_iff : forall d, bytes_ok (dat d) -> (loads (decode_long d) <-> 3 <= zlen (dat d) /\ text_fits 3 (field (dat d) 0 2) (field (dat d) 2 1) (zlen (sl_full d)) (zlen (dat d))).
Proof.
  intros d B. unfold decode_long. destruct (Z_lt_ge_dec (zlen (dat d)) 3) as [S|S].
  - split; [|lia]. intros L. exfalso. rewrite loads_bind in L. destruct L as (? & _ & L). rewrite loads_bind in L. destruct L as (? & _ & L). rewrite loads_bind in L. destruct L as (yy & E & _).
    assert (Q : loads (sl_idx d 2)) by (exists yy; exact E). apply idx_iff in Q; lia.
  - unfold sl_to. destruct (range_val d 0 2 ltac:(lia) ltac:(lia) ltac:(lia)) as (sp & E). change (0 + 2) with 2 in E. rewrite E. cbn [bind dat]. rewrite le16_take. change (zdrop 0 (dat d)) with (dat d).
    assert (Q : loads (le16 (dat d))) by (apply le16_iff; lia). destruct Q as (n & En). rewrite En. cbn [bind]. apply le16_field in En. rewrite <- En. unfold sl_idx. rewrite idx_field by lia. cbn [bind]. rewrite from_val by lia. cbn [bind].
    assert (Hn : 0 <= n) by (pose proof (w16_field _ 0 B ltac:(lia) ltac:(lia)) as Q; unfold w16 in Q; lia). rewrite decode_iff by exact Hn. rewrite full_drop by lia. cbn [dat]. rewrite zlen_zdrop by lia. unfold text_fits. destruct (_ =? 0); lia.
Qed.
Lemma short_iff : forall d, bytes_ok (dat d) -> (loads (decode_short d) <-> 2 <= zlen (dat d) /\ text_fits 2 (field (dat d) 0 1) (field (dat d) 1 1) (zlen (sl_full d)) (zlen (dat d))).
Proof.
  intros d B. unfold decode_short. destruct (Z_lt_ge_dec (zlen (dat d)) 2) as [S|S].
  - split; [|lia]. intros L. exfalso. rewrite loads_bind in L. destruct L as (? & _ & L). rewrite loads_bind in L. destruct L as (yy & E & _).
    assert (Q : loads (sl_idx d 1)) by (exists yy; exact E). apply idx_iff in Q; lia.
  - unfold sl_idx. rewrite !idx_field by lia. cbn [bind]. rewrite from_val by lia. cbn [bind].
    assert (Hn : 0 <= field (dat d) 0 1) by (apply field1_byte; exact B). rewrite decode_iff by exact Hn. rewrite full_drop by lia. cbn [dat]. rewrite zlen_zdrop by lia. unfold text_fits. destruct (_ =? 0); lia.
Qed.
Lemma fits_shift : forall s k c f room len, text_fits s c f (room - k) (len - k) <-> text_fits (s + k) c f room len.
Proof. intros. unfold text_fits. destruct (_ =? 0); lia. Qed.

(** ** one record *)
Lemma rec_iff : forall w r rest, bytes_ok (dat (b_data r)) -> Forall bytes_ok (map dat (continues rest)) ->
  (loads (load_rec w r rest) <-> rec_readable (L_biff.payload r) (spare (b_data r)) (map dat (continues rest))).
Proof.
  intros w [t size [p behind]] rest B BC. cbn [b_data dat spare] in *. unfold load_rec, rec_readable, L_biff.payload, sl_len. cbn [b_type b_data dat spare].
  destruct (Z.eqb_spec (zlen p) 0) as [Z0|Z0]; [rewrite loads_ok; tauto|].
  unfold RecTypeSST, RecTypeContinue, RecTypeEOF, RecTypeBOF, RecTypeCodePage, RecTypeDate1904, RecTypeFormat, RecTypeXF, RecTypeBoundSheet8.
  destruct (Z.eqb_spec t 252) as [T|T1].
  { rewrite loads_map. split.
    - intros (texts & E). right. repeat (split; [lia|]). intros _. exists texts. apply (proj1 (C96_tables (mkSl p behind :: continues rest) texts ltac:(cbn [map dat]; constructor; auto))). exact E.
    - intros [H|(_ & _ & _ & _ & _ & H)]; [lia|]. destruct (H T) as (texts & HT). exists texts. apply (proj2 (C96_tables (mkSl p behind :: continues rest) texts ltac:(cbn [map dat]; constructor; auto))). exact HT. }
  destruct (Z.eqb_spec t 60) as [T|T2]; [rewrite loads_ok; split; [intros _; right; repeat (split; [lia|]); lia|auto]|].
  destruct (Z.eqb_spec t 10) as [T|T3]; [rewrite loads_ok; split; [intros _; right; repeat (split; [lia|]); lia|auto]|].
  destruct (Z.eqb_spec t 2057) as [T|T4].
  { rewrite loads_map, bof_iff. unfold sl_full. cbn [dat spare]. split; [intros H; right; split; [intros _; exact H|]; repeat (split; [lia|]); lia|]. intros [H|(H & _)]; [lia|]. apply H. exact T. }
  destruct (Z.eqb_spec t 66) as [T|T5].
  { rewrite loads_map, le16_iff. split; [intros H; right; repeat (split; [lia|]); lia|]. intros [H|(_ & H & _)]; [lia|]. apply H. auto. }
  destruct (Z.eqb_spec t 34) as [T|T6].
  { rewrite loads_map, le16_iff. split; [intros H; right; repeat (split; [lia|]); lia|]. intros [H|(_ & H & _)]; [lia|]. apply H. auto. }
  destruct (Z.eqb_spec t 1054) as [T|T7].
  { assert (K : loads (no <- le16 p ;; s <- sl_from (mkSl p behind) 2 ;; '(code, _) <- decode_long s ;; Ok (mkWB (wb_sheets w) (wb_strings w) (wb_date w) (fst (fx_add (wb_fx w) no code)) (wb_xfs w) (wb_streams w) (wb_map w))) <->
      5 <= zlen p /\ text_fits 5 (field p 2 2) (field p 4 1) (zlen (p ++ behind)) (zlen p)).
    { destruct (Z_lt_ge_dec (zlen p) 5) as [S|S].
      - split; [|lia]. intros L. exfalso. rewrite loads_bind in L. destruct L as (? & _ & L). rewrite loads_bind in L. destruct L as (s & Es & L). rewrite loads_bind in L. destruct L as (cd & Ed & _).
        assert (S2 : 2 <= zlen p) by (assert (Q : loads (sl_from (mkSl p behind) 2)) by (exists s; exact Es); apply from_iff in Q; cbn [dat] in *; lia).
        rewrite from_val in Es by (cbn [dat]; lia). injection Es as <-. assert (Q : loads (decode_long (mkSl (zdrop 2 p) behind))) by (exists cd; exact Ed). apply long_iff in Q; [|apply bytes_ok_zdrop; exact B]. cbn [dat] in Q. rewrite zlen_zdrop in Q by lia. lia.
      - assert (Q : loads (le16 p)) by (apply le16_iff; lia). destruct Q as (no & ->). cbn [bind]. rewrite from_val by (cbn [dat]; lia). cbn [bind dat spare].
        rewrite loads_bind. transitivity (loads (decode_long (mkSl (zdrop 2 p) behind))).
        + split; [intros (cd & E & _); exists cd; exact E|]. intros ([code z] & E). exists (code, z). split; [exact E|]. eexists. reflexivity.
        + rewrite long_iff by (apply bytes_ok_zdrop; exact B). pose proof (full_drop (mkSl p behind) 2 ltac:(cbn [dat]; lia)) as FD. cbn [dat spare] in FD. rewrite FD. cbn [dat]. rewrite zlen_zdrop by lia. rewrite !field_drop by lia. change (2 + 0) with 2. change (2 + 2) with 4. unfold sl_full. cbn [dat spare]. rewrite fits_shift. change (3 + 2) with 5. intuition lia. }
    rewrite K. split; [intros H; right; repeat split; intros; try tauto; exfalso; lia|]. intros [H|(_ & _ & _ & H & _)]; [lia|]. apply H. exact T. }
  destruct (Z.eqb_spec t 224) as [T|T8].
  { assert (K : loads (s <- sl_from (mkSl p behind) 2 ;; no <- le16 (dat s) ;; Ok (mkWB (wb_sheets w) (wb_strings w) (wb_date w) (wb_fx w) (wb_xfs w ++ [no]) (wb_streams w) (wb_map w))) <-> 4 <= zlen p).
    { destruct (Z_lt_ge_dec (zlen p) 2) as [S|S].
      - split; [|lia]. intros L. exfalso. rewrite loads_bind in L. destruct L as (s & Es & L). assert (Q : loads (sl_from (mkSl p behind) 2)) by (exists s; exact Es). apply from_iff in Q; cbn [dat] in *; lia.
      - rewrite from_val by (cbn [dat]; lia). cbn [bind dat]. rewrite loads_map, le16_iff, zlen_zdrop by lia. lia. }
    rewrite K. split; [intros H; right; repeat split; intros; try tauto; exfalso; lia|]. intros [H|(_ & _ & H & _)]; [lia|]. apply H. exact T. }
  destruct (Z.eqb_spec t 133) as [T|T9]; [|rewrite loads_ok; split; [intros _; right; repeat (split; [lia|]); lia|auto]].
  assert (K : loads (s <- sl_to (mkSl p behind) 4 ;; pos <- le32 (dat s) ;; hidden <- sl_idx (mkSl p behind) 4 ;; ty <- sl_idx (mkSl p behind) 5 ;; s <- sl_from (mkSl p behind) 6 ;; '(name, _) <- decode_short s ;;
      Ok (mkWB (wb_sheets w ++ [mkBS pos hidden ty name]) (wb_strings w) (wb_date w) (wb_fx w) (wb_xfs w) (wb_streams w) (wb_map w))) <->
      8 <= zlen p /\ text_fits 8 (field p 6 1) (field p 7 1) (zlen (p ++ behind)) (zlen p)).
  { destruct (Z_lt_ge_dec (zlen p) 8) as [S|S].
    - split; [|lia]. intros L. exfalso. rewrite loads_bind in L. destruct L as (? & _ & L). rewrite loads_bind in L. destruct L as (? & _ & L). rewrite loads_bind in L. destruct L as (? & _ & L). rewrite loads_bind in L. destruct L as (? & _ & L).
      rewrite loads_bind in L. destruct L as (s & Es & L). rewrite loads_bind in L. destruct L as (cd & Ed & _).
      assert (S2 : 6 <= zlen p) by (assert (Q : loads (sl_from (mkSl p behind) 6)) by (exists s; exact Es); apply from_iff in Q; cbn [dat] in *; lia).
      rewrite from_val in Es by (cbn [dat]; lia). injection Es as <-. assert (Q : loads (decode_short (mkSl (zdrop 6 p) behind))) by (exists cd; exact Ed). apply short_iff in Q; [|apply bytes_ok_zdrop; exact B]. cbn [dat] in Q. rewrite zlen_zdrop in Q by lia. lia.
    - unfold sl_to. destruct (range_val (mkSl p behind) 0 4 ltac:(lia) ltac:(lia) ltac:(cbn [dat]; lia)) as (sp & E). change (0 + 4) with 4 in E. rewrite E. cbn [bind dat]. rewrite le32_take.
      pose proof (from32_val (mkSl p behind) 0 ltac:(lia) ltac:(cbn [dat]; lia)) as F0. unfold from32 in F0. rewrite from_val in F0 by (cbn [dat]; lia). cbn [bind dat] in F0. rewrite F0. cbn [bind].
      unfold sl_idx. cbn [dat]. rewrite !idx_field by lia. cbn [bind]. rewrite from_val by (cbn [dat]; lia). cbn [bind dat spare].
      rewrite loads_bind. transitivity (loads (decode_short (mkSl (zdrop 6 p) behind))).
      + split; [intros (cd & E2 & _); exists cd; exact E2|]. intros ([code z] & E2). exists (code, z). split; [exact E2|]. eexists. reflexivity.
      + rewrite short_iff by (apply bytes_ok_zdrop; exact B). pose proof (full_drop (mkSl p behind) 6 ltac:(cbn [dat]; lia)) as FD. cbn [dat spare] in FD. rewrite FD. cbn [dat]. rewrite zlen_zdrop by lia. rewrite !field_drop by lia. change (6 + 0) with 6. change (6 + 1) with 7. unfold sl_full. cbn [dat spare]. rewrite fits_shift. change (2 + 6) with 8. intuition lia. }
  rewrite K. split; [intros H; right; repeat split; intros; try tauto; exfalso; lia|]. intros [H|(_ & _ & _ & _ & H & _)]; [lia|]. apply H. exact T.
Qed.

(** ** all records *)
Definition rec_ok (r : brec) : Prop := bytes_ok (dat (b_data r)).
Fixpoint each_readable (l : list brec) : Prop :=
  match l with [] => True | r :: l => rec_readable (L_biff.payload r) (spare (b_data r)) (map dat (continues l)) /\ each_readable l end.
Lemma continues_ok : forall l, Forall rec_ok l -> Forall bytes_ok (map dat (continues l)).
Proof. induction 1 as [|r l H F IH]; cbn [continues map]; [constructor|]. destruct (_ =? _); cbn [map]; [constructor; auto|constructor]. Qed.
Lemma recs_iff : forall l w, Forall rec_ok l -> (loads (load_recs w l) <-> each_readable l).
Proof.
  induction l as [|r l IH]; intros w F; cbn [load_recs each_readable]; [rewrite loads_ok; tauto|]. inversion F; subst.
  apply loads_iff; [apply rec_iff; [assumption|apply continues_ok; assumption]|]. intros x _ _. apply IH. assumption.
Qed.
Lemma streams_iff : forall ss w, Forall (Forall rec_ok) ss -> (loads (load_streams w ss) <-> Forall each_readable ss).
Proof.
  induction ss as [|l ss IH]; intros w F; cbn [load_streams]; [rewrite loads_ok; split; auto|]. inversion F; subst.
  transitivity (each_readable l /\ Forall each_readable ss); [|rewrite Forall_cons_iff; reflexivity].
  apply loads_iff; [apply recs_iff; assumption|]. intros x _ _. apply IH. assumption.
Qed.
(** Continue records never reach over the beginning of a substream *)
Definition bof_first (l : list brec) : Prop := exists r t, l = r :: t /\ b_type r = BOF.
Lemma continues_app : forall l m, m = [] \/ bof_first m -> continues (l ++ m) = continues l.
Proof.
  intros l m H. induction l as [|r l IH]; cbn [app continues]; [|rewrite IH; reflexivity]. destruct H as [->|(r & t & -> & E)]; [reflexivity|]. cbn [continues]. rewrite E. reflexivity.
Qed.
Lemma each_app : forall l m, m = [] \/ bof_first m -> (each_readable (l ++ m) <-> each_readable l /\ each_readable m).
Proof. intros l m H. induction l as [|r l IH]; cbn [app each_readable]; [tauto|]. rewrite continues_app, IH by exact H. tauto. Qed.
Lemma each_concat : forall ss, Forall bof_first ss -> (Forall each_readable ss <-> each_readable (concat ss)).
Proof.
  induction ss as [|l ss IH]; intros F; cbn [concat]; [split; constructor|]. inversion F; subst. rewrite Forall_cons_iff, IH by assumption. rewrite each_app; [reflexivity|].
  destruct ss as [|l2 ss]; [left; reflexivity|]. right. match goal with H : Forall bof_first (_ :: _) |- _ => inversion H as [|? ? (r & t & -> & T) _]; subst end. exists r, (t ++ concat ss). split; [reflexivity|exact T].
Qed.
Lemma continues_following : forall rs rest, map dat (continues (brecs rs rest)) = following rs.
Proof. induction rs as [|r rs IH]; intros rest; cbn [brecs continues following map]; [reflexivity|]. cbn [b_type b_data]. change RecTypeContinue with 60. destruct (fst r =? 60); cbn [map dat]; [rewrite IH|]; reflexivity. Qed.
Lemma each_brecs : forall rs rest, each_readable (brecs rs rest) <-> all_readable rs rest.
Proof.
  induction rs as [|[t p] rs IH]; intros rest; cbn [brecs each_readable all_readable]; [tauto|]. rewrite continues_following, IH. cbn [b_data spare fst snd]. unfold L_biff.payload. cbn [b_type b_data dat]. reflexivity.
Qed.

(** ** the records of a stream *)
Lemma feed_iff : forall rs rest, loads (feed_records (brecs rs rest) bst0) <-> begins rs.
Proof.
  intros [|[t p] rs] rest. { cbn [brecs feed_records]. rewrite loads_ok. split; [left; reflexivity|auto]. }
  split.
  - intros (st & H). right. destruct (Z.eq_dec t BOF) as [->|N]; [eauto|]. exfalso. cbn [brecs feed_records fst snd] in H.
    assert (S : st_streams (enter bst0 (mkRec t (zlen p) (mkSl p (stream rs ++ rest)))) = []).
    { unfold enter. cbn [b_type]. change RecTypeBOF with BOF. destruct (t =? RecTypeEOF); [reflexivity|]. destruct (Z.eqb_spec t BOF); [contradiction|reflexivity]. }
    unfold store in H. rewrite S in H. unfold idx in H. destruct (0 <=? _); [|discriminate H]. destruct (Z.to_nat _); discriminate H.
  - intros [H|(q & u & H)]; [discriminate|]. injection H as -> -> ->. cbn [brecs]. match goal with |- loads (feed_records (?r :: ?l) bst0) => destruct (feed_bof r l eq_refl) as (st & E & _) end. exists st. exact E.
Qed.
Lemma feed_streams : forall rs rest st, feed_records (brecs rs rest) bst0 = Ok st -> concat (st_streams st) = brecs rs rest.
Proof.
  intros rs rest st H. assert (B : begins rs) by (apply (proj1 (feed_iff rs rest)); exists st; exact H). destruct B as [->|(p & t & ->)].
  - cbn [brecs feed_records] in H. injection H as <-. reflexivity.
  - cbn [brecs] in *. match type of H with feed_records (?r :: ?l) bst0 = _ => destruct (feed_bof r l eq_refl) as (st' & E & C) end. rewrite E in H. injection H as <-. exact C.
Qed.
(** what the first pass ends with *)
Lemma split_done : forall raw b st, bytes_ok (dat raw) -> split_stream raw b = Ok (LDone st) ->
  exists rs tail, cut (dat raw) rs tail /\ (b = true \/ Forall (fun r => fst r <> FILEPASS) rs) /\ concat (st_streams st) = brecs rs (tail ++ spare raw) /\ Forall bof_first (st_streams st).
Proof.
  intros raw b st B H. destruct (split_inv _ _ _ _ _ [] B state0 H) as (rs & tail & E & T & F & NF & (S1 & _ & _ & S4 & _)). exists rs, tail.
  assert (N : b = true \/ Forall (fun r => fst r <> FILEPASS) rs) by (destruct b; auto). destruct raw as [d sp]. cbn [dat spare] in *. subst d. rewrite split_stream_records in H by auto.
  destruct (feed_records _ _) as [st1| | |] eqn:FR; try discriminate H. cbn [bind] in H. injection H as <-. split; [|split; [exact N|split; [apply feed_streams; exact FR|]]].
  - repeat (split; [assumption || reflexivity|]). apply (proj1 (feed_iff rs (tail ++ sp))). exists st1. exact FR.
  - unfold streams_of in S4. rewrite Forall_map in S4. eapply Forall_impl; [|exact S4]. intros l (p & t & El). destruct l as [|r l]; [discriminate|]. cbn [map] in El. injection El as E1 _. exists r, l. split; [reflexivity|]. exact E1.
Qed.
Lemma split_ends : forall d sp b rs tail, cut d rs tail -> (b = true \/ Forall (fun r => fst r <> FILEPASS) rs) -> exists st, split_stream (mkSl d sp) b = Ok (LDone st).
Proof.
  intros d sp b rs tail (-> & T & F & BG) N. rewrite split_stream_records by auto. apply (feed_iff rs (tail ++ sp)) in BG. destruct BG as (st & ->). exists st. reflexivity.
Qed.
(** the two ways to cut a stream into records are the same *)
Lemma cut_unique : forall d rs1 t1 rs2 t2, cut d rs1 t1 -> cut d rs2 t2 -> rs1 = rs2 /\ t1 = t2.
Proof.
  intros d rs1 t1 rs2 t2 (E1 & T1 & F1 & _) (E2 & T2 & F2 & _). subst d. revert rs2 F2 E2. induction F1 as [|r rs1 R F1 IH]; intros rs2 F2 E2.
  - destruct rs2 as [|r2 rs2]; [auto|]. exfalso. change (stream []) with (@nil Z) in E2. cbn [app] in E2. subst t1. rewrite stream_cons, !zlen_app, zlen_enc_rec in T1. pose proof (zlen_nonneg _ (snd r2)). pose proof (zlen_nonneg _ (stream rs2)). pose proof (zlen_nonneg _ t2). lia.
  - destruct rs2 as [|r2 rs2]. { exfalso. change (stream []) with (@nil Z) in E2. cbn [app] in E2. subst t2. rewrite stream_cons, !zlen_app, zlen_enc_rec in T2. pose proof (zlen_nonneg _ (snd r)). pose proof (zlen_nonneg _ (stream rs1)). pose proof (zlen_nonneg _ t1). lia. }
    inversion F2 as [|? ? R2 F2']; subst. rewrite !stream_cons, <- !app_assoc in E2. pose proof (next_record_ok r (stream rs1 ++ t1) [] R) as N1. pose proof (next_record_ok r2 (stream rs2 ++ t2) [] R2) as N2. rewrite E2, N2 in N1. injection N1 as A A1 A2 _ _.
    destruct r as [a p], r2 as [a2 p2]. cbn [fst snd] in *. subst a2 p2. apply app_inv_head in E2. destruct (IH rs2 F2' E2) as [-> ->]. auto.
Qed.
Lemma brecs_ok : forall rs rest, Forall (fun r => bytes_ok (snd r)) rs -> Forall rec_ok (brecs rs rest).
Proof. induction 1; cbn [brecs]; constructor; auto. Qed.
Lemma stream_payloads : forall rs, bytes_ok (stream rs) -> Forall (fun r => bytes_ok (snd r)) rs.
Proof.
  induction rs as [|r rs IH]; intros H; constructor; rewrite stream_cons in H; unfold bytes_ok in *; apply Forall_app in H; destruct H as [H1 H2]; [|apply IH; exact H2]. unfold enc_rec in H1. rewrite !Forall_app in H1. tauto.
Qed.
(** the second pass over what the first one ended with *)
Lemma second_pass : forall raw b st w rs tail, bytes_ok (dat raw) -> split_stream raw b = Ok (LDone st) -> cut (dat raw) rs tail ->
  (loads (load_streams w (st_streams st)) <-> all_readable rs (tail ++ spare raw)).
Proof.
  intros raw b st w rs tail B H C. destruct (split_done raw b st B H) as (rs' & tail' & C' & _ & E & BF). destruct (cut_unique _ _ _ _ _ C C') as [-> ->].
  assert (O : Forall rec_ok (concat (st_streams st))). { rewrite E. apply brecs_ok. apply stream_payloads. destruct C as (D & _). rewrite D in B. unfold bytes_ok in *. apply Forall_app in B. tauto. }
  rewrite streams_iff; [|apply Forall_forall; intros l I; rewrite Forall_forall in O; apply Forall_forall; intros r J; apply O; apply in_concat; eauto]. rewrite each_concat by exact BF. rewrite E. apply each_brecs.
Qed.

(** ** the FilePass record *)
Lemma pass_iff : forall d, bytes_ok d -> (le16 d = Ok 1 /\ loads (new_basic_rc4 (zdrop 2 d)) <-> pass_ok d).
Proof.
  intros d B.
  assert (SH : zlen d = 54 -> exists e major minor salt ev eh, d = put16 e ++ put16 major ++ put16 minor ++ salt ++ ev ++ eh /\ 0 <= e < 65536 /\ 0 <= minor < 65536 /\ zlen salt = 16 /\ zlen ev = 16 /\ zlen eh = 16).
  { intros L. destruct (two_numbers d B ltac:(lia)) as (e & major & m1 & E1 & He & Hma & _). assert (L1 : zlen m1 = 50) by (rewrite E1, !zlen_app, !zlen_put16 in L; lia).
    assert (B1 : bytes_ok m1) by (rewrite E1 in B; unfold bytes_ok in *; rewrite !Forall_app in B; tauto). destruct (two_numbers m1 B1 ltac:(lia)) as (minor & _x & m2 & E2 & Hmi & _ & _).
    exists e, major, minor, (ztake 16 (zdrop 2 m1)), (ztake 16 (zdrop 18 m1)), (zdrop 34 m1). split.
    - rewrite E1. do 2 f_equal. transitivity (put16 minor ++ zdrop 2 m1); [rewrite E2 at 1; f_equal; rewrite E2; reflexivity|]. f_equal.
      rewrite <- (ztake_zdrop _ 16 (zdrop 2 m1)) at 1. rewrite zdrop_zdrop by lia. change (2 + 16) with 18. f_equal. rewrite <- (ztake_zdrop _ 16 (zdrop 18 m1)) at 1. rewrite zdrop_zdrop by lia. reflexivity.
    - split; [exact He|]. split; [exact Hmi|]. rewrite !zlen_ztake, !zlen_zdrop by (rewrite ?zlen_zdrop; lia). lia. }
  assert (K : forall e major minor salt ev eh, d = put16 e ++ put16 major ++ put16 minor ++ salt ++ ev ++ eh -> 0 <= e < 65536 -> 0 <= minor < 65536 -> zlen salt = 16 -> zlen ev = 16 -> zlen eh = 16 ->
    (le16 d = Ok 1 /\ loads (new_basic_rc4 (zdrop 2 d)) <-> pass_ok d)).
  { clear SH. intros e major minor salt ev eh E He Hmi L1 L2 L3. assert (L : zlen d = 54) by (rewrite E, !zlen_app, !zlen_put16; lia).
    assert (Z2 : zdrop 2 d = put16 major ++ put16 minor ++ salt ++ ev ++ eh) by (rewrite E; reflexivity). assert (Z4 : zdrop 4 d = put16 minor ++ salt ++ ev ++ eh) by (rewrite E; reflexivity). assert (Z6 : zdrop 6 d = salt ++ ev ++ eh) by (rewrite E; reflexivity).
    assert (Z22 : zdrop 22 d = ev ++ eh) by (change 22 with (6 + 16); rewrite <- zdrop_zdrop by lia; rewrite Z6; apply zdrop_app_exact'; lia). assert (Z38 : zdrop 38 d = eh) by (change 38 with (22 + 16); rewrite <- zdrop_zdrop by lia; rewrite Z22; apply zdrop_app_exact'; lia).
    assert (F0 : field d 0 2 = e). { assert (Q : le16 d = Ok e) by (rewrite E; apply le16_put16; exact He). symmetry. apply le16_field. exact Q. }
    assert (F4 : field d 4 2 = minor). { assert (Q : le16 (zdrop 4 d) = Ok minor) by (rewrite Z4; apply le16_put16; exact Hmi). apply le16_field in Q. rewrite field_drop in Q by lia. symmetry. exact Q. }
    assert (T1 : ztake 16 (zdrop 6 d) = salt) by (rewrite Z6; rewrite <- L1; apply ztake_app_exact). assert (T2 : ztake 16 (zdrop 22 d) = ev) by (rewrite Z22; rewrite <- L2; apply ztake_app_exact). assert (T3 : ztake 16 (zdrop 38 d) = eh) by (rewrite Z38; apply ztake_all; lia).
    unfold pass_ok. rewrite F0, F4, T1, T2, T3, L. rewrite E at 1. rewrite le16_put16 by exact He. rewrite Z2.
    assert (VER : minor <> 1 -> ~ loads (new_basic_rc4 (put16 major ++ put16 minor ++ salt ++ ev ++ eh))).
    { intros N (x & X). unfold new_basic_rc4 in X. rewrite <- Z2 in X. rewrite zlen_zdrop in X by lia. rewrite L in X. rewrite zdrop_zdrop in X by lia. change (2 + 2) with 4 in X. cbn in X. rewrite Z4 in X. rewrite le16_put16 in X by exact Hmi. cbn [bind] in X. destruct (Z.eqb_spec minor 1); [contradiction|]. discriminate X. }
    destruct (Z.eq_dec minor 1) as [->|N]; [|split; [intros (_ & Q); elim (VER N); exact Q|intros (_ & _ & Q & _); contradiction]].
    pose proof (C43_rejects salt ev eh L1 L2 L3 major) as R. change default_password with (bs "VelvetSweatshop") in R. unfold loads. rewrite R. cbv zeta. split.
    - intros (Q & C). injection Q as ->. auto.
    - intros (_ & -> & _ & C). auto. }
  split.
  - intros (H1 & x & H2). destruct (C42_new_ready _ _ H2) as [_ L]. assert (L54 : zlen d = 54). { destruct (Z_lt_ge_dec (zlen d) 2) as [S|S]; [rewrite zdrop_all in L by lia; change (zlen (@nil Z)) with 0 in L; lia|]. rewrite zlen_zdrop in L by lia. lia. }
    destruct (SH L54) as (e & major & minor & salt & ev & eh & E & He & Hmi & L1 & L2 & L3). apply (K _ _ _ _ _ _ E He Hmi L1 L2 L3). split; [exact H1|]. exists x. exact H2.
  - intros P. pose proof P as (L54 & _). destruct (SH L54) as (e & major & minor & salt & ev & eh & E & He & Hmi & L1 & L2 & L3). apply (K _ _ _ _ _ _ E He Hmi L1 L2 L3). exact P.
Qed.
(** the first pass stops at a FilePass record *)
Lemma stops_before : forall raw data, bytes_ok (dat raw) -> split_stream raw false = Ok (LFilePass data) ->
  exists before after, dat raw = stream before ++ enc_rec (FILEPASS, dat data) ++ after /\ Forall (rec_fits 65531) before /\ Forall (fun r => fst r <> FILEPASS) before /\ begins before.
Proof.
  intros [d sp] data B H. destruct (split_inv_pass _ _ _ _ B H) as (before & after & E & F & NF). cbn [dat] in *. exists before, after. repeat (split; [assumption|]). subst d. unfold split_stream in H. cbn [dat] in H.
  destruct (split_loop_records before (S (List.length (stream before ++ enc_rec (FILEPASS, dat data) ++ after))) (enc_rec (FILEPASS, dat data) ++ after) sp false bst0 F (or_intror NF)) as (f & _ & E); [rewrite app_length; lia|].
  rewrite E in H. apply (proj1 (feed_iff before ((enc_rec (FILEPASS, dat data) ++ after) ++ sp))). destruct (feed_records _ _) as [st| | |]; try discriminate H. exists st. reflexivity.
Qed.
Lemma stops_at : forall before data after sp, Forall (rec_fits 65531) before -> Forall (fun r => fst r <> FILEPASS) before -> begins before -> zlen data <= 65531 ->
  split_stream (mkSl (stream before ++ enc_rec (FILEPASS, data) ++ after) sp) false = Ok (LFilePass (mkSl data (after ++ sp))).
Proof.
  intros before data after sp F NF BG L. unfold split_stream. cbn [dat].
  destruct (split_loop_records before (S (List.length (stream before ++ enc_rec (FILEPASS, data) ++ after))) (enc_rec (FILEPASS, data) ++ after) sp false bst0 F (or_intror NF)) as (f & LF & E); [rewrite app_length; lia|].
  rewrite E. apply (feed_iff before ((enc_rec (FILEPASS, data) ++ after) ++ sp)) in BG. destruct BG as (st & ->). cbn [bind].
  assert (FP : (f > 0)%nat). { rewrite app_length in LF. pose proof (zlen_enc_rec (FILEPASS, data)) as Q. unfold zlen in Q. cbn [snd] in Q. rewrite app_length in LF. lia. }
  destruct f as [|f]; [lia|]. cbn [split_loop]. rewrite next_record_ok by (split; cbn [fst snd]; [unfold FILEPASS; lia|exact L]). unfold sl_from, sl_len. cbn [dat spare fst snd]. rewrite zlen_app, zlen_enc_rec. cbn [snd]. pose proof (zlen_nonneg _ data). pose proof (zlen_nonneg _ after).
  replace ((0 <=? 4 + zlen data) && (4 + zlen data <=? 4 + zlen data + zlen after)) with true by lia. cbn [bind b_type b_data]. reflexivity.
Qed.
Lemma decrypted_ok : forall raw sp dec plain d, bytes_ok raw -> bytes_ok sp -> new_basic_rc4 d = Ok dec -> decrypt_stream (mkSl raw sp) dec = Ok plain -> bytes_ok plain.
Proof. intros raw sp dec plain d A B N H. eapply decrypt_stream_bytes; [| |eapply basic_ok; exact N|exact H]; assumption. Qed.

(** ** C108: exactly which streams load *)
Theorem C108_loads : forall raw behind behind2, bytes_ok raw -> bytes_ok behind -> bytes_ok behind2 ->
  ((exists w, load_workbook (mkSl raw behind) behind2 = Ok w) <-> loadable raw behind behind2).
Proof.
  intros raw sp sp2 A B C. change (loads (load_workbook (mkSl raw sp) sp2) <-> loadable raw sp sp2). unfold load_workbook. rewrite loads_bind. split.
  - intros (st & S & L). unfold split_workbook in S. dbind S. destruct x as [st1|data].
    + injection S as ->. left. destruct (split_done (mkSl raw sp) false st A E) as (rs & tail & CU & NF & _). exists rs, tail. split; [exact CU|]. split; [destruct NF as [NF|NF]; [discriminate|exact NF]|].
      apply (second_pass (mkSl raw sp) false st (new_wbook st) rs tail A E CU). exact L.
    + right. destruct (stops_before (mkSl raw sp) _ A E) as (before & after & E1 & F & NF & BG). cbn [dat] in E1. dbind S. destruct (Z.eqb_spec x 1) as [->|]; [|destruct (_ || _); discriminate S]. dbind S. dbind S. dbind S. dbind S. destruct x2 as [st1|]; [|discriminate]. injection S as ->. rename x0 into dec, x1 into plain, x into body.
      assert (BD : bytes_ok (dat data)). { rewrite E1 in A. unfold bytes_ok in *. rewrite !Forall_app in A. destruct A as (_ & A & _). unfold enc_rec in A. cbn [snd] in A. rewrite !Forall_app in A. tauto. }
      assert (Eb : dat body = zdrop 2 (dat data)). { unfold sl_from in E2. destruct (_ && _); [|discriminate]. injection E2 as <-. reflexivity. } rewrite Eb in *.
      assert (PO : pass_ok (dat data)) by (apply pass_iff; [exact BD|]; split; [exact E0|exists dec; exact E3]).
      destruct (C42_new_ready _ _ E3) as [RD _]. rewrite zdrop_zdrop in RD by lia. change (2 + 4) with 6 in RD. change default_password with (bs "VelvetSweatshop") in RD.
      pose proof (decrypted_ok raw sp dec plain _ A B E3 E4) as BP. apply (C108_deciphers raw sp dec _ plain A RD) in E4. destruct E4 as (cs & P & EP).
      destruct (split_done (mkSl plain sp2) true st BP E5) as (rs & tail & CU & _). exists before, (dat data), after, cs, rs, tail. repeat (split; [assumption|]). cbv zeta. rewrite <- EP. split; [exact CU|].
      apply (second_pass (mkSl plain sp2) true st (new_wbook st) rs tail BP E5 CU). exact L.
  - intros [(rs & tail & CU & NF & R)|(before & data & after & cs & rs & tail & E1 & F & NF & BG & PO & P & CU & R)].
    + destruct (split_ends raw sp false rs tail CU (or_intror NF)) as (st & E). exists st. unfold split_workbook. rewrite E. cbn [bind]. split; [reflexivity|]. apply (second_pass (mkSl raw sp) false st (new_wbook st) rs tail A E CU). exact R.
    + assert (BD : bytes_ok data). { rewrite E1 in A. unfold bytes_ok in *. rewrite !Forall_app in A. destruct A as (_ & A2 & _). unfold enc_rec in A2. cbn [snd] in A2. rewrite !Forall_app in A2. tauto. }
      apply (pass_iff data BD) in PO as PQ. destruct PQ as (Q1 & dec & Q2). destruct (C42_new_ready _ _ Q2) as [RD _]. rewrite zdrop_zdrop in RD by lia. change (2 + 4) with 6 in RD. change default_password with (bs "VelvetSweatshop") in RD.
      set (plain := deciphered (base_key (bs "VelvetSweatshop") (ztake 16 (zdrop 6 data))) 0 cs) in *. assert (DE : decrypt_stream (mkSl raw sp) dec = Ok plain) by (apply (C108_deciphers raw sp dec _ plain A RD); exists cs; auto).
      pose proof (decrypted_ok raw sp dec plain _ A B Q2 DE) as BP. destruct (split_ends plain sp2 true rs tail CU (or_introl eq_refl)) as (st & E). exists st. split.
      * unfold split_workbook. destruct PO as (L54 & _). assert (SA : split_stream (mkSl raw sp) false = Ok (LFilePass (mkSl data (after ++ sp)))) by (rewrite E1; apply stops_at; auto; lia). rewrite SA. cbn [bind dat]. rewrite Q1. cbn [bind]. change (1 =? 1) with true. cbv iota.
        rewrite from_val by (cbn [dat]; lia). cbn [bind dat]. rewrite Q2. cbn [bind]. rewrite DE. cbn [bind]. rewrite E. reflexivity.
      * apply (second_pass (mkSl plain sp2) true st (new_wbook st) rs tail BP E CU). exact R.
Qed.
