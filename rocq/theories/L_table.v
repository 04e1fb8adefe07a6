(** * L_table: parseSST reads exactly the tables of S_table. *)
From Verif Require Import GoBase GoUnicode L_base M_xlstr S_xlstr L_xlstr S_table.
From Coq Require Import ZifyBool.

(** ** flag bits *)
Lemma land_bit : forall f k, 0 <= k -> negb (Z.land f (2 ^ k) =? 0) = ((f / 2 ^ k) mod 2 =? 1).
Proof.
  intros f k K. assert (E : Z.testbit f k = ((f / 2 ^ k) mod 2 =? 1)).
  { rewrite Z.testbit_odd, Z.shiftr_div_pow2 by lia. rewrite Zmod_odd. destruct (Z.odd (f / 2 ^ k)); reflexivity. }
  rewrite <- E. destruct (Z.testbit f k) eqn:T.
  - destruct (Z.eqb_spec (Z.land f (2 ^ k)) 0) as [Q|]; [|reflexivity]. exfalso.
    assert (Q2 : Z.testbit (Z.land f (2 ^ k)) k = true) by (rewrite Z.land_spec, T, Z.pow2_bits_true by lia; reflexivity). rewrite Q, Z.bits_0 in Q2. discriminate.
  - replace (Z.land f (2 ^ k)) with 0; [reflexivity|]. symmetry. apply Z.bits_inj'. intros n Hn. rewrite Z.land_spec, Z.bits_0. destruct (Z.eq_dec n k) as [->|N]; [rewrite T; reflexivity|].
    rewrite Z.pow2_bits_false by lia. apply andb_false_r.
Qed.
Lemma bit0 : forall f, negb (Z.land f 1 =? 0) = wide f.
Proof. intros. pose proof (land_bit f 0 ltac:(lia)) as H. change (2 ^ 0) with 1 in H. rewrite Z.div_1_r in H. exact H. Qed.
Lemma bit2 : forall f, negb (Z.land f 4 =? 0) = has_ext f.
Proof. intros. exact (land_bit f 2 ltac:(lia)). Qed.
Lemma bit3 : forall f, negb (Z.land f 8 =? 0) = has_runs f.
Proof. intros. exact (land_bit f 3 ltac:(lia)). Qed.

(** ** every table is read *)
Definition tchars (w : bool) (us : list Z) (more : list (Z * list Z)) : list bytes :=
  enc_units w us :: map (fun c => fst c :: enc_units (wide (fst c)) (snd c)) more.
Definition more_ok (more : list (Z * list Z)) : Prop :=
  Forall (fun c => 0 <= fst c < 256 /\ units_fit (wide (fst c)) (snd c) /\ snd c <> []) more.
(** whether the last character is a 16-bit one *)
Definition ends_wide (w : bool) (us : list Z) (more : list (Z * list Z)) : Prop :=
  match rev more with [] => w = true /\ us <> [] | c :: _ => wide (fst c) = true end.
Lemma rev_last : forall A (l : list A) a d, last (l ++ [a]) d = a.
Proof. intros A l a d. induction l as [|b l IH]; [reflexivity|]. cbn [app]. rewrite last_cons'. destruct l; [reflexivity|]. cbn [app] in *. rewrite last_cons' in IH. rewrite last_cons'. exact IH. Qed.
Lemma ends_wide_cons : forall w us f us2 more, us2 <> [] -> (ends_wide w us ((f, us2) :: more) <-> ends_wide (wide f) us2 more).
Proof.
  intros w us f us2 more N. unfold ends_wide. cbn [rev]. destruct (rev more) as [|c l]; cbn [app fst]; [|tauto]. split; [auto|tauto].
Qed.
Lemma tchars_ok : forall more w us recs i buf x ps, units_fit w us -> more_ok more ->
  at_rec recs i buf (glue (tchars w us more) (x :: ps)) ->
  (ends_wide w us more -> zlen x <> 1) ->
  exists j buf', at_rec recs j buf' (x :: ps) /\
    sst_chars (List.length (us ++ flat_map snd more)) recs i w buf = Ok (us ++ flat_map snd more, j, buf').
Proof.
  induction more as [|[f2 us2] more IH]; intros w us recs i buf x ps F FM A HL.
  - unfold tchars in A. cbn [map flat_map] in *. rewrite glue_one in A. rewrite app_nil_r.
    destruct (chars_chunk us w recs i buf x ps 0 F A) as (b & A2 & E); [intros; apply HL; split; auto|]. exists i, b. split; auto. rewrite Nat.add_0_r in E. rewrite E. cbn [sst_chars bind]. rewrite app_nil_r. reflexivity.
  - inversion FM as [|? ? (FF & F2 & N2) FM']; subst. cbn [fst snd] in *. unfold tchars in A. cbn [map fst snd] in A. rewrite glue_cons2 in A.
    destruct (chars_chunk us w recs i buf [] (glue ((f2 :: enc_units (wide f2) us2) :: map (fun c => fst c :: enc_units (wide (fst c)) (snd c)) more) (x :: ps)) (List.length (us2 ++ flat_map snd more)) F) as (b & A2 & E).
    { rewrite app_nil_r. exact A. }
    { intros _ _. discriminate. }
    cbn [flat_map snd]. rewrite app_length in E |- *. rewrite app_length. rewrite E. clear E.
    assert (G : exists y ps', glue ((f2 :: enc_units (wide f2) us2) :: map (fun c => fst c :: enc_units (wide (fst c)) (snd c)) more) (x :: ps) = (f2 :: y) :: ps' /\ glue (tchars (wide f2) us2 more) (x :: ps) = y :: ps').
    { unfold tchars. destruct more; cbn [map]; [rewrite !glue_one|rewrite !glue_cons2]; do 2 eexists; split; reflexivity. }
    destruct G as (y & ps' & G1 & G2). rewrite G1 in A2.
    destruct (at_next _ _ _ _ _ _ A2) as (d & Ed & Dd & Ad).
    assert (Ad' : at_rec recs (i + 1) d (([f2] ++ y) :: ps')) by exact Ad.
    destruct (at_take _ _ _ _ _ _ 1 Ad' eq_refl) as (b3 & E3 & D3 & A3). rewrite <- G2 in A3.
    destruct (IH (wide f2) us2 recs (i + 1) b3 x ps F2 FM' A3) as (j & b4 & A4 & E4).
    { intros W. apply HL. apply ends_wide_cons; auto. }
    exists j, b4. split; auto.
    assert (ST : sst_chars (List.length us2 + List.length (flat_map snd more)) recs i w b = sst_chars (List.length us2 + List.length (flat_map snd more)) recs (i + 1) (wide f2) b3).
    { destruct us2 as [|u us2]; [congruence|]. cbn [List.length plus sst_chars].
      assert (SB : sl_len b =? 0 = true) by (unfold sl_len; rewrite (at_dat _ _ _ _ _ A2); reflexivity). rewrite SB, Ed. cbn [bind]. unfold sl_idx. rewrite Dd, idx_0. cbn [bind]. rewrite E3. cbn [bind].
      rewrite bit0.
      assert (SB3 : sl_len b3 =? 0 = false).
      { unfold sl_len. unfold at_rec in A3. rewrite G2 in A3. destruct A3 as [_ A3]. injection A3 as A3 _. rewrite <- A3.
        assert (YE : exists z, y = enc_units (wide f2) (u :: us2) ++ z).
        { unfold tchars in G2. destruct more; cbn [map] in G2; [rewrite glue_one in G2|rewrite glue_cons2 in G2]; injection G2 as <- _; eauto. exists []. rewrite app_nil_r. auto. }
        destruct YE as (z & ->). rewrite zlen_app, zlen_enc_units, zlen_cons. pose proof (zlen_nonneg _ us2). pose proof (zlen_nonneg _ z). destruct (wide f2); lia. }
      rewrite SB3. reflexivity. }
    rewrite ST, <- app_length, E4. reflexivity.
Qed.

Lemma last_ends : forall s, more_ok (ts_more s) -> ends_wide (wide (ts_flags s)) (ts_first s) (ts_more s) -> wide (fst (ts_last s)) = true /\ snd (ts_last s) <> [].
Proof.
  intros s FM H. unfold ts_last. unfold ends_wide in H. destruct (rev (ts_more s)) as [|c l] eqn:R.
  - assert (E : ts_more s = []) by (rewrite <- (rev_involutive (ts_more s)), R; reflexivity). rewrite E. exact H.
  - assert (E : ts_more s = rev l ++ [c]) by (rewrite <- (rev_involutive (ts_more s)), R; reflexivity). rewrite E, rev_last. split; auto.
    unfold more_ok in FM. rewrite E, Forall_app in FM. destruct FM as [_ FM]. inversion FM; subst. tauto.
Qed.
Lemma ends_last : forall s, ends_wide (wide (ts_flags s)) (ts_first s) (ts_more s) \/ ~ ends_wide (wide (ts_flags s)) (ts_first s) (ts_more s).
Proof.
  intros s. unfold ends_wide. destruct (rev (ts_more s)) as [|c l].
  - destruct (wide (ts_flags s)), (ts_first s); first [left; split; [reflexivity|discriminate]|right; intros [? ?]; congruence].
  - destruct (wide (fst c)); [left; reflexivity|right; discriminate].
Qed.

Lemma ts_string_ok : forall s rest recs i buf, ts_ok s -> rest <> [] -> not_one s rest ->
  at_rec recs i buf (glue (ts_pieces s) rest) ->
  exists j buf' k, sst_string recs i buf = Ok (ts_text s, j, buf') /\ at_rec recs j buf' (repeat [] k ++ rest) /\ (k < List.length (ts_pieces s))%nat.
Proof.
  intros s rest recs i buf (L & FL & F1 & FM & NR & NE & LR & LE) NRest HW A.
  assert (NT : ts_tail s <> []) by (apply glue_nonnil; auto).
  unfold ts_pieces in A. rewrite <- glue_assoc in A by (apply glue_nonnil; auto).
  rewrite <- glue_assoc in A by auto.
  unfold not_one in HW.
  destruct (glue (ts_tail s) rest) as [|x ps] eqn:GT; [exfalso; revert GT; apply glue_nonnil; auto|].
  assert (GC : exists c cs, glue (ts_chars s) (x :: ps) = c :: cs).
  { destruct (glue (ts_chars s) (x :: ps)) eqn:Q; eauto. exfalso. revert Q. apply glue_nonnil. right. discriminate. }
  destruct GC as (c & cs & GC). rewrite GC, glue_one in A.
  unfold ts_header in A. rewrite <- !app_assoc in A.
  set (q1 := if has_runs (ts_flags s) then put16 (zlen (concat (ts_runs s)) / 4) else []) in A. set (q2 := if has_ext (ts_flags s) then put32 (zlen (concat (ts_ext s))) else []) in A.
  unfold sst_string. rewrite (at_dat _ _ _ _ _ A). rewrite le16_put16 by (pose proof (zlen_nonneg _ (ts_units s)); lia). cbn [bind].
  destruct (at_take _ _ _ _ _ _ 2 A eq_refl) as (b1 & E1 & D1 & A1). rewrite E1. cbn [bind]. unfold sl_idx. rewrite D1. cbn [app]. rewrite idx_0. cbn [bind].
  destruct (at_take _ _ _ [ts_flags s] _ _ 1 A1 eq_refl) as (b2 & E2 & D2 & A2). rewrite E2. cbn [bind]. rewrite bit0, bit2, bit3.
  assert (R3 : exists b3, (if has_runs (ts_flags s) then c0 <- le16 (dat b2) ;; b <- sl_from b2 2 ;; Ok (c0 * 4, b) else Ok (0, b2)) = Ok (zlen (concat (ts_runs s)), b3) /\ at_rec recs i b3 ((q2 ++ c) :: cs)).
  { rewrite D2. unfold q1 in A2. unfold q1. destruct (has_runs (ts_flags s)).
    - pose proof (zlen_nonneg _ (concat (ts_runs s))). rewrite le16_put16 by (split; [apply Z.div_pos; lia|lia]). cbn [bind].
      destruct (at_take _ _ _ _ _ _ 2 A2 eq_refl) as (b3 & E3 & _ & A3). rewrite E3. cbn [bind]. exists b3. split; auto. do 2 f_equal. pose proof (Z.div_mod (zlen (concat (ts_runs s))) 4 ltac:(lia)). lia.
    - exists b2. rewrite LR. auto. }
  destruct R3 as (b3 & E3 & A3). rewrite E3. cbn [bind].
  assert (R4 : exists b4, (if has_ext (ts_flags s) then c0 <- le32 (dat b3) ;; b <- sl_from b3 4 ;; Ok (c0, b) else Ok (0, b3)) = Ok (zlen (concat (ts_ext s)), b4) /\ at_rec recs i b4 (c :: cs)).
  { pose proof (at_dat _ _ _ _ _ A3) as D3. rewrite D3. unfold q2 in A3. unfold q2. destruct (has_ext (ts_flags s)).
    - pose proof (zlen_nonneg _ (concat (ts_ext s))). rewrite le32_put32 by lia. cbn [bind].
      destruct (at_take _ _ _ _ _ _ 4 A3 eq_refl) as (b4 & E4 & _ & A4). rewrite E4. cbn [bind]. exists b4. auto.
    - exists b3. rewrite LE. auto. }
  destruct R4 as (b4 & E4 & A4). rewrite E4. cbn [bind]. rewrite <- GC in A4.
  destruct (tchars_ok (ts_more s) (wide (ts_flags s)) (ts_first s) recs i b4 x ps F1 FM A4) as (j & b5 & A5 & E5).
  { intros W. destruct (last_ends s FM W). apply HW; auto. }
  unfold zlen at 1. rewrite Nat2Z.id. change (ts_first s ++ flat_map snd (ts_more s)) with (ts_units s) in E5. rewrite E5. cbn [bind].
  rewrite <- GT in A5. unfold ts_tail in A5. rewrite <- glue_assoc in A5 by auto.
  destruct (glue (ts_ext s) rest) as [|y ys] eqn:GE; [exfalso; revert GE; apply glue_nonnil; auto|].
  destruct (skip_ok (ts_runs s) (y :: ys) recs j b5 (zlen (concat (ts_runs s))) (S (List.length recs))) as (j2 & b6 & k & E6 & A6 & K1); auto; try discriminate.
  { pose proof (at_length _ _ _ _ A5). pose proof (glue_length (ts_runs s) (y :: ys) NR ltac:(discriminate)). lia. }
  rewrite E6. cbn [bind]. rewrite <- GE in A6. rewrite glue_repeat in A6 by auto.
  destruct (skip_ok (repeat [] k ++ ts_ext s) rest recs j2 b6 (zlen (concat (ts_ext s))) (S (List.length recs))) as (j3 & b7 & k2 & E7 & A7 & K2); auto.
  { destruct k; [exact NE|discriminate]. }
  { rewrite concat_repeat_nil. reflexivity. }
  { pose proof (at_length _ _ _ _ A6). pose proof (glue_length (repeat [] k ++ ts_ext s) rest ltac:(destruct k; [exact NE|discriminate]) NRest). lia. }
  rewrite E7. cbn [bind]. exists j3, b7, k2. split; auto. split; auto.
  rewrite app_length, repeat_length in K2. unfold ts_pieces, ts_tail.
  destruct (room_glue (ts_runs s) (ts_ext s) NR NE) as [_ G1].
  destruct (room_glue (ts_chars s) (glue (ts_runs s) (ts_ext s)) ltac:(discriminate) NT) as [_ G2].
  destruct (room_glue [ts_header s] (glue (ts_chars s) (glue (ts_runs s) (ts_ext s))) ltac:(discriminate) ltac:(apply glue_nonnil; auto)) as [_ G3].
  assert (CL : (1 <= List.length (ts_chars s))%nat) by (cbn; lia). cbn [List.length] in G3. lia.
Qed.

Lemma tpieces_nonnil : forall s, ts_pieces s <> [].
Proof. intros. unfold ts_pieces. apply glue_nonnil. left. discriminate. Qed.
Lemma table_nonnil : forall l e, table l e <> [].
Proof.
  intros [|[k s] l] e; cbn [table]. { destruct e; discriminate. }
  destruct k; cbn [repeat app]; [|discriminate]. apply glue_nonnil. left. apply tpieces_nonnil.
Qed.
Lemma tpieces_head : forall s, 3 <= zlen (hd [] (ts_pieces s)).
Proof.
  intros s. unfold ts_pieces. assert (H : 3 <= zlen (ts_header s)). { unfold ts_header. rewrite !zlen_app, zlen_put16, zlen_cons, zlen_nil. match goal with |- context [zlen ?a + zlen ?b] => pose proof (zlen_nonneg _ a); pose proof (zlen_nonneg _ b) end. lia. }
  destruct (glue (ts_chars s) (ts_tail s)) as [|y ys]; [exact H|]. rewrite glue_one. cbn [hd]. rewrite zlen_app. pose proof (zlen_nonneg _ y). lia.
Qed.

Lemma tloop_ok : forall l e recs i buf k all fuel, table_ok l e ->
  at_rec recs i buf (repeat [] k ++ table l e) -> (room recs i buf < fuel)%nat ->
  sst_loop fuel recs i buf all = Ok (all ++ map (fun x => ts_text (snd x)) l).
Proof.
  induction l as [|[k1 s] l IH]; intros e recs i buf k all fuel F A HF.
  - cbn [table map] in *. rewrite app_nil_r. rewrite app_assoc, <- repeat_app in A. pose proof (at_room _ _ _ _ A) as R. rewrite R, concat_repeat_len, app_length, repeat_length in HF. cbn in HF.
    replace fuel with ((k + e) + (fuel - (k + e)))%nat by lia. destruct (skip_empty (k + e) [[]] recs i buf all (fuel - (k + e))) as (j & b & A2 & E); auto; [discriminate|]. rewrite E. apply sst_loop_end; auto. lia.
  - destruct F as (F1 & FN & F2). cbn [table] in A.
    pose proof (at_room _ _ _ _ A) as R. rewrite app_assoc, <- repeat_app in A. rewrite R in HF.
    set (ps := glue (ts_pieces s) (table l e)) in *. assert (NP : ps <> []) by (apply glue_nonnil; left; apply tpieces_nonnil).
    rewrite app_assoc, <- repeat_app, concat_repeat_len, app_length, repeat_length in HF.
    replace fuel with ((k + k1) + (fuel - (k + k1)))%nat by lia. destruct (skip_empty (k + k1) ps recs i buf all (fuel - (k + k1))) as (j & b & A2 & E); auto. rewrite E.
    destruct (fuel - (k + k1))%nat as [|fuel'] eqn:EF; [lia|]. cbn [sst_loop].
    assert (Hi : 0 <= j < zlen recs) by apply A2. destruct (Z.ltb_spec j (zlen recs)); [|lia]. cbn [negb].
    assert (PH : 3 <= zlen (hd [] ps)).
    { unfold ps. pose proof (tpieces_head s) as P. destruct (ts_pieces s) as [|p [|p2 pp]]; [change (3 <= 0) in P; lia| |].
      - destruct (table l e) as [|y ys]; [exact P|]. rewrite glue_one. cbn [hd] in *. rewrite zlen_app. pose proof (zlen_nonneg _ y). lia.
      - rewrite glue_cons2. exact P. }
    assert (SB : 0 <? sl_len b = true). { unfold sl_len. destruct ps as [|x xs]; [congruence|]. rewrite (at_dat _ _ _ _ _ A2). cbn [hd] in PH. lia. } rewrite SB.
    destruct (ts_string_ok s (table l e) recs j b F1 (table_nonnil l e) FN A2) as (j2 & b2 & k2 & E2 & A3 & K2). rewrite E2. cbn [bind].
    cbn [map snd]. rewrite (IH e recs j2 b2 k2 (all ++ [ts_text s]) fuel' F2 A3); [rewrite <- app_assoc; reflexivity|].
    rewrite (at_room _ _ _ _ A3). rewrite concat_repeat_len, app_length, repeat_length.
    pose proof (room_glue (ts_pieces s) (table l e) (tpieces_nonnil s) (table_nonnil l e)) as [G1 G2]. fold ps in G1, G2.
    assert (CP : (1 <= List.length (concat (ts_pieces s)))%nat).
    { pose proof (tpieces_head s) as P. destruct (ts_pieces s) as [|p pp]; [change (3 <= 0) in P; lia|]. cbn [concat hd] in *. rewrite app_length. unfold zlen in P. lia. }
    lia.
Qed.

(** ** whatever is read was a table *)
Definition all_bytes (ps : list bytes) : Prop := Forall bytes_ok ps.
Lemma at_from : forall recs i buf n buf' x ps, at_rec recs i buf (x :: ps) -> sl_from buf n = Ok buf' ->
  exists a y, x = a ++ y /\ zlen a = n /\ dat buf' = y /\ at_rec recs i buf' (y :: ps).
Proof.
  intros recs i [bd bsp] n buf' x ps [Hi E] S1. injection E as E1 E2. cbn [dat] in E1. subst x. unfold sl_from, sl_len in S1. cbn [dat spare] in S1.
  destruct (Z.leb_spec 0 n); [|discriminate]. destruct (Z.leb_spec n (zlen bd)); [|discriminate]. cbn [andb] in S1. injection S1 as <-.
  exists (ztake n bd), (zdrop n bd). rewrite ztake_zdrop, zlen_ztake by lia. split; auto. split; auto. split; auto. split; auto. rewrite E2. reflexivity.
Qed.
Lemma at_step : forall recs i buf d x ps, at_rec recs i buf (x :: ps) -> idx recs (i + 1) = Ok d -> exists ps', ps = dat d :: ps' /\ at_rec recs (i + 1) d (dat d :: ps').
Proof.
  intros recs i buf d x ps [Hi E] I. injection E as _ E.
  assert (L : i + 1 < zlen recs). { unfold idx in I. destruct (Z.leb_spec 0 (i + 1)); [|discriminate]. destruct (nth_error recs (Z.to_nat (i + 1))) eqn:N; [|discriminate]. assert (nth_error recs (Z.to_nat (i + 1)) <> None) by congruence. apply nth_error_Some in H0. unfold zlen. lia. }
  assert (A : at_rec recs i (mkSl x []) (x :: ps)) by (split; [lia|rewrite E; reflexivity]).
  destruct ps as [|y ps].
  - exfalso. assert (Q : zlen (zdrop (i + 1) recs) > 0) by (rewrite zlen_zdrop; lia). destruct (zdrop (i + 1) recs); [change (0 > 0) in Q; lia|discriminate].
  - destruct (at_next _ _ _ _ _ _ A) as (d' & Ed & Dd & Ad). rewrite I in Ed. injection Ed as <-. exists ps. rewrite Dd. auto.
Qed.
Lemma two_bytes : forall a : bytes, zlen a = 2 -> bytes_ok a -> exists u, 0 <= u < 65536 /\ a = put16 u.
Proof.
  intros a L B. destruct a as [|x [|y [|? ?]]]; try (unfold zlen in L; cbn [List.length] in L; lia). inversion B as [|? ? B1 B2]; subst. inversion B2; subst.
  exists (x + 256 * y). split; [lia|]. unfold put16. f_equal; [|f_equal].
  - apply Z.mod_unique with (q := y); lia.
  - assert (E : (x + 256 * y) / 256 = y) by (symmetry; apply Z.div_unique with (r := x); lia). rewrite E. symmetry. apply Z.mod_small. lia.
Qed.
Lemma four_bytes : forall a : bytes, zlen a = 4 -> bytes_ok a -> exists u, 0 <= u < 4294967296 /\ a = put32 u.
Proof.
  intros a L B. destruct a as [|x [|y [|z [|t [|? ?]]]]]; try (unfold zlen in L; cbn [List.length] in L; lia). inversion B as [|? ? B1 B2]; subst. inversion B2 as [|? ? B3 B4]; subst. inversion B4 as [|? ? B5 B6]; subst. inversion B6; subst.
  exists (x + 256 * y + 65536 * z + 16777216 * t). split; [lia|]. unfold put32. f_equal; [|f_equal; [|f_equal; [|f_equal]]].
  - apply Z.mod_unique with (q := y + 256 * z + 65536 * t); lia.
  - assert (E : (x + 256 * y + 65536 * z + 16777216 * t) / 256 = y + 256 * z + 65536 * t) by (symmetry; apply Z.div_unique with (r := x); lia). rewrite E. apply Z.mod_unique with (q := z + 256 * t); lia.
  - assert (E : (x + 256 * y + 65536 * z + 16777216 * t) / 65536 = z + 256 * t) by (symmetry; apply Z.div_unique with (r := x + 256 * y); lia). rewrite E. apply Z.mod_unique with (q := t); lia.
  - assert (E : (x + 256 * y + 65536 * z + 16777216 * t) / 16777216 = t) by (symmetry; apply Z.div_unique with (r := x + 256 * y + 65536 * z); lia). rewrite E. symmetry. apply Z.mod_small. lia.
Qed.
Lemma put16_inj : forall u v, 0 <= u < 65536 -> 0 <= v < 65536 -> put16 u = put16 v -> u = v.
Proof. intros u v Hu Hv E. pose proof (le16_put16' u Hu) as A. rewrite E, le16_put16' in A by lia. congruence. Qed.

(** what a run of the character loop has read *)
Definition read_chars (w : bool) (n : nat) (ps : list bytes) (us : list Z) (ps' : list bytes) : Prop :=
  exists first more, us = first ++ flat_map snd more /\ List.length us = n /\ units_fit w first /\ more_ok more /\
    ps' <> [] /\ ps = glue (tchars w first more) ps' /\ (ends_wide w first more -> zlen (hd [] ps') <> 1).
Lemma tchars_glue : forall w u us more ps', ps' <> [] ->
  exists y ys, glue (tchars w us more) ps' = y :: ys /\ glue (tchars w (u :: us) more) ps' = (enc_units w [u] ++ y) :: ys.
Proof.
  intros w u us more ps' N. unfold tchars. assert (E : enc_units w (u :: us) = enc_units w [u] ++ enc_units w us) by (destruct w; [unfold enc_units; cbn [flat_map]; rewrite app_nil_r; reflexivity|reflexivity]). rewrite E.
  destruct more as [|c more]; cbn [map].
  - destruct ps' as [|p ps']; [congruence|]. rewrite !glue_one. rewrite <- app_assoc. eauto.
  - rewrite !glue_cons2. eauto.
Qed.
Lemma tchars_mark : forall w us more f ps', ps' <> [] -> us <> [] -> exists y ys, glue (tchars (wide f) us more) ps' = y :: ys /\ glue (tchars w [] ((f, us) :: more)) ps' = [] :: (f :: y) :: ys.
Proof.
  intros w us more f ps' N NU. unfold tchars. cbn [map fst snd]. assert (E : enc_units w [] = []) by (destruct w; reflexivity). rewrite E.
  rewrite glue_cons2. destruct more as [|c more]; cbn [map].
  - destruct ps' as [|p ps']; [congruence|]. rewrite !glue_one. cbn [app]. eauto.
  - rewrite !glue_cons2. eauto.
Qed.
Lemma ends_wide_more : forall w us us' more, (ends_wide w us' more -> ends_wide w us more) \/ (more = [] /\ us = []).
Proof.
  intros w us us' more. unfold ends_wide. destruct (rev more) as [|c l] eqn:R; [|left; auto].
  assert (E : more = []) by (rewrite <- (rev_involutive more), R; reflexivity). destruct us; [right; auto|left]. intros [H _]. split; [auto|discriminate].
Qed.

Lemma chars_inv : forall n recs i w buf us j buf' ps, all_bytes ps -> at_rec recs i buf ps -> sst_chars n recs i w buf = Ok (us, j, buf') ->
  exists ps', at_rec recs j buf' ps' /\ all_bytes ps' /\ read_chars w n ps us ps'.
Proof.
  induction n as [|n IH]; intros recs i w buf us j buf' ps B A E.
  - injection E as <- <- <-. exists ps. split; auto. split; auto. exists [], []. assert (NP : ps <> []) by (destruct A as [_ ->]; discriminate).
    split; [reflexivity|]. split; [reflexivity|]. split; [constructor|]. split; [constructor|]. split; auto. split; [|intros [_ H]; congruence].
    unfold tchars. cbn [map]. replace (enc_units w []) with (@nil Z) by (destruct w; reflexivity). destruct ps; [congruence|]. reflexivity.
  - (* a character read from a record that has one, and the rest *)
    assert (ONE : forall i w buf us j buf' x ps, all_bytes (x :: ps) -> at_rec recs i buf (x :: ps) ->
      (if negb w then u <- sl_idx buf 0 ;; buf <- sl_from buf 1 ;; '(us, i, buf) <- sst_chars n recs i w buf ;; Ok (u :: us, i, buf)
       else s <- sl_to buf 2 ;; u <- le16 (dat s) ;; buf <- sl_from buf 2 ;; if sl_len buf =? 1 then Err EOffByOne else '(us, i, buf) <- sst_chars n recs i w buf ;; Ok (u :: us, i, buf)) = Ok (us, j, buf') ->
      exists first more ps', at_rec recs j buf' ps' /\ all_bytes ps' /\ us = first ++ flat_map snd more /\ List.length us = S n /\ first <> [] /\ units_fit w first /\ more_ok more /\
        ps' <> [] /\ x :: ps = glue (tchars w first more) ps' /\ (ends_wide w first more -> zlen (hd [] ps') <> 1)).
    { clear i w buf us j buf' ps B A E. intros i w buf us j buf' x ps B A E. pose proof (at_dat _ _ _ _ _ A) as D. destruct w; cbn [negb] in E.
      - destruct (sl_to buf 2) as [s|?| |] eqn:S1; try discriminate. cbn [bind] in E. destruct (le16 (dat s)) as [u|?| |] eqn:U; try discriminate. cbn [bind] in E.
        destruct (sl_from buf 2) as [b|?| |] eqn:S2; try discriminate. cbn [bind] in E.
        destruct (at_from _ _ _ _ _ _ _ A S2) as (a & y & EX & LA & DB & A2). destruct (sl_len b =? 1) eqn:L1; [discriminate|].
        destruct (sst_chars n recs i true b) as [[[us1 j1] b1]|?| |] eqn:E2; try discriminate. cbn [bind] in E. injection E as <- <- <-.
        assert (B1 : bytes_ok x) by (inversion B; auto). assert (B2 : all_bytes ps) by (inversion B; auto). rewrite EX in B1. apply bytes_ok_app in B1. destruct B1 as [Ba By].
        destruct (two_bytes a LA Ba) as (v & Hv & ->).
        assert (UV : u = v). { destruct buf as [bd bsp]. cbn [dat] in D. rewrite D, EX in S1. rewrite sl_to_ok in S1 by (rewrite LA; reflexivity). injection S1 as <-. cbn [dat] in U. rewrite le16_put16' in U by lia. congruence. } subst v.
        destruct (IH _ _ _ _ _ _ _ (y :: ps) ltac:(constructor; auto) A2 E2) as (ps' & A3 & B3 & first & more & -> & LU & F & M & NP & G & W).
        destruct (tchars_glue true u first more ps' NP) as (y0 & ys & G1 & G2). rewrite G1 in G. injection G as -> ->.
        exists (u :: first), more, ps'. split; auto. split; auto. split; [reflexivity|]. split; [cbn [List.length]; rewrite LU; reflexivity|]. split; [discriminate|]. split; [constructor; auto|]. split; auto. split; auto. split.
        + rewrite G2, EX. unfold enc_units. cbn [flat_map]. rewrite app_nil_r. reflexivity.
        + destruct (ends_wide_more true first (u :: first) more) as [H|[-> ->]]; [auto|]. intros _. unfold tchars in G1. cbn [map] in G1. destruct ps' as [|p pp]; [congruence|]. rewrite glue_one in G1. injection G1 as <- <-. cbn [hd]. unfold sl_len in L1. rewrite DB in L1. cbn [enc_units flat_map app] in L1. lia.
      - unfold sl_idx in E. rewrite D in E. destruct (idx x 0) as [u|?| |] eqn:U; try discriminate. cbn [bind] in E.
        destruct (sl_from buf 1) as [b|?| |] eqn:S2; try discriminate. cbn [bind] in E.
        destruct (at_from _ _ _ _ _ _ _ A S2) as (a & y & EX & LA & DB & A2).
        destruct (sst_chars n recs i false b) as [[[us1 j1] b1]|?| |] eqn:E2; try discriminate. cbn [bind] in E. injection E as <- <- <-.
        destruct a as [|v [|? ?]]; try (unfold zlen in LA; cbn [List.length] in LA; lia). rewrite EX in U. cbn [app] in U. rewrite idx_0 in U. injection U as <-.
        assert (B1 : bytes_ok x) by (inversion B; auto). assert (B2 : all_bytes ps) by (inversion B; auto). rewrite EX in B1. cbn [app] in B1. inversion B1; subst.
        destruct (IH _ _ _ _ _ _ _ (dat b :: ps) ltac:(constructor; auto) A2 E2) as (ps' & A3 & B3 & first & more & -> & LU & F & M & NP & G & W).
        destruct (tchars_glue false v first more ps' NP) as (y0 & ys & G1 & G2). rewrite G1 in G. injection G as G3 ->.
        exists (v :: first), more, ps'. split; auto. split; auto. split; [reflexivity|]. split; [cbn [List.length]; rewrite LU; reflexivity|]. split; [discriminate|]. split; [constructor; auto|]. split; auto. split; auto. split.
        + rewrite G2, EX, <- G3. reflexivity.
        + destruct (ends_wide_more false first (v :: first) more) as [H'|[-> ->]]; [auto|]. intros [Q _]. discriminate. }
    cbn [sst_chars] in E. destruct ps as [|x ps]; [destruct A as [_ A]; discriminate|].
    destruct (sl_len buf =? 0) eqn:L0.
    + assert (x = []). { unfold sl_len in L0. rewrite (at_dat _ _ _ _ _ A) in L0. apply zlen_0. lia. } subst x.
      destruct (idx recs (i + 1)) as [d|?| |] eqn:I; try discriminate. cbn [bind] in E. destruct (at_step _ _ _ _ _ _ A I) as (ps1 & -> & Ad).
      unfold sl_idx in E at 1. destruct (idx (dat d) 0) as [f|?| |] eqn:F0; try discriminate. cbn [bind] in E.
      destruct (sl_from d 1) as [b|?| |] eqn:S1; try discriminate. cbn [bind] in E. rewrite bit0 in E.
      destruct (at_from _ _ _ _ _ _ _ Ad S1) as (a & y & EX & LA & DB & A2).
      destruct a as [|v [|? ?]]; try (unfold zlen in LA; cbn [List.length] in LA; lia). rewrite EX in F0. cbn [app] in F0. rewrite idx_0 in F0. injection F0 as ->.
      inversion B as [|? ? _ B1]; subst. inversion B1 as [|? ? B2 B3]; subst. rewrite EX in B2. cbn [app] in B2. inversion B2 as [|? ? Bf By]; subst.
      destruct (ONE _ _ _ _ _ _ (dat b) ps1 ltac:(constructor; auto) A2 E) as (first & more & ps' & A3 & BB & -> & LU & NF & F & M & NP & G & W).
      exists ps'. split; auto. split; auto. exists [], ((f, first) :: more). cbn [flat_map snd app]. split; auto. split; auto. split; [constructor|]. split; [constructor; cbn [fst snd]; auto|]. split; auto.
      destruct (tchars_mark w first more f ps' NP NF) as (y0 & ys & G1 & G2). rewrite G1 in G. injection G as G3 ->. split.
      * rewrite G2, EX, G3. reflexivity.
      * intros H. apply W. apply ends_wide_cons in H; auto.
    + cbn [bind] in E. destruct (ONE _ _ _ _ _ _ x ps B A E) as (first & more & ps' & A3 & BB & -> & LU & NF & F & M & NP & G & W).
      exists ps'. split; auto. split; auto. exists first, more. repeat (split; auto).
Qed.

Lemma skip_inv : forall fuel n recs i buf j buf' ps, all_bytes ps -> at_rec recs i buf ps -> sst_skip fuel n recs i buf = Ok (j, buf') ->
  exists pcs ps', at_rec recs j buf' ps' /\ all_bytes ps' /\ pcs <> [] /\ ps' <> [] /\ ps = glue pcs ps' /\ zlen (concat pcs) = Z.max 0 n.
Proof.
  induction fuel as [|fuel IH]; intros n recs i buf j buf' ps B A E; cbn [sst_skip] in E.
  - destruct (Z.ltb_spec 0 n); [discriminate|]. injection E as <- <-. exists [[]], ps. assert (NP : ps <> []) by (destruct A as [_ ->]; discriminate). split; auto. split; auto. split; [discriminate|]. split; auto. split; [destruct ps; [congruence|reflexivity]|]. rewrite Z.max_l by lia. reflexivity.
  - destruct (Z.ltb_spec 0 n).
    2:{ injection E as <- <-. exists [[]], ps. assert (NP : ps <> []) by (destruct A as [_ ->]; discriminate). split; auto. split; auto. split; [discriminate|]. split; auto. split; [destruct ps; [congruence|reflexivity]|]. rewrite Z.max_l by lia. reflexivity. }
    destruct ps as [|x ps]; [destruct A as [_ A]; discriminate|]. destruct (Z.leb_spec n (sl_len buf)).
    + destruct (sl_from buf n) as [b|?| |] eqn:S1; try discriminate. cbn [bind] in E. injection E as <- <-.
      destruct (at_from _ _ _ _ _ _ _ A S1) as (a & y & -> & LA & DB & A2). inversion B as [|? ? B1 B2]; subst. apply bytes_ok_app in B1.
      exists [a], (dat b :: ps). split; auto. split; [constructor; tauto|]. split; [discriminate|]. split; [discriminate|]. split; [reflexivity|]. cbn [concat]. rewrite app_nil_r. lia.
    + destruct (idx recs (i + 1)) as [d|?| |] eqn:I; try discriminate. cbn [bind] in E. destruct (at_step _ _ _ _ _ _ A I) as (ps1 & -> & Ad). inversion B as [|? ? B1 B2]; subst.
      destruct (IH _ _ _ _ _ _ _ B2 Ad E) as (pcs & ps' & A3 & B3 & NC & NP & G & L).
      exists (x :: pcs), ps'. split; auto. split; auto. split; [discriminate|]. split; auto. split.
      * destruct pcs as [|p pcs]; [congruence|]. rewrite glue_cons2, <- G. reflexivity.
      * cbn [concat]. rewrite zlen_app, L. unfold sl_len in *. rewrite (at_dat _ _ _ _ _ A) in *. lia.
Qed.
Lemma last_ends' : forall s, wide (fst (ts_last s)) = true -> snd (ts_last s) <> [] -> ends_wide (wide (ts_flags s)) (ts_first s) (ts_more s).
Proof.
  intros s H1 H2. unfold ts_last in *. unfold ends_wide. destruct (rev (ts_more s)) as [|c l] eqn:R.
  - assert (E : ts_more s = []) by (rewrite <- (rev_involutive (ts_more s)), R; reflexivity). rewrite E in *. auto.
  - assert (E : ts_more s = rev l ++ [c]) by (rewrite <- (rev_involutive (ts_more s)), R; reflexivity). rewrite E, rev_last in *. auto.
Qed.
Lemma field16_inv : forall recs i b c b' x ps, at_rec recs i b (x :: ps) -> bytes_ok x -> le16 (dat b) = Ok c -> sl_from b 2 = Ok b' ->
  exists y, x = put16 c ++ y /\ 0 <= c < 65536 /\ bytes_ok y /\ at_rec recs i b' (y :: ps).
Proof.
  intros recs i b c b' x ps A B L S1. destruct (at_from _ _ _ _ _ _ _ A S1) as (a & y & EX & LA & DB & A2). rewrite EX in B. apply bytes_ok_app in B. destruct B as [Ba By].
  destruct (two_bytes a LA Ba) as (u & Hu & ->). rewrite (at_dat _ _ _ _ _ A), EX, le16_put16 in L by lia. injection L as ->. exists y. auto.
Qed.
Lemma field32_inv : forall recs i b c b' x ps, at_rec recs i b (x :: ps) -> bytes_ok x -> le32 (dat b) = Ok c -> sl_from b 4 = Ok b' ->
  exists y, x = put32 c ++ y /\ 0 <= c < 4294967296 /\ bytes_ok y /\ at_rec recs i b' (y :: ps).
Proof.
  intros recs i b c b' x ps A B L S1. destruct (at_from _ _ _ _ _ _ _ A S1) as (a & y & EX & LA & DB & A2). rewrite EX in B. apply bytes_ok_app in B. destruct B as [Ba By].
  destruct (four_bytes a LA Ba) as (u & Hu & ->). rewrite (at_dat _ _ _ _ _ A), EX, le32_put32 in L by lia. injection L as ->. exists y. auto.
Qed.
Lemma string_inv : forall recs i buf t j buf' ps, all_bytes ps -> at_rec recs i buf ps -> sst_string recs i buf = Ok (t, j, buf') ->
  exists s ps', at_rec recs j buf' ps' /\ all_bytes ps' /\ ts_ok s /\ not_one s ps' /\ ps' <> [] /\ ps = glue (ts_pieces s) ps' /\ t = ts_text s.
Proof.
  intros recs i buf t j buf' ps B A E. destruct ps as [|x ps]; [destruct A as [_ A]; discriminate|].
  assert (B1 : bytes_ok x) by (inversion B; auto). assert (B2 : all_bytes ps) by (inversion B; auto). unfold sst_string in E.
  destruct (le16 (dat buf)) as [slen|?| |] eqn:L1; try discriminate. cbn [bind] in E. destruct (sl_from buf 2) as [b1|?| |] eqn:S1; try discriminate. cbn [bind] in E.
  destruct (field16_inv _ _ _ _ _ _ _ A B1 L1 S1) as (y1 & -> & Hs & By1 & A1).
  unfold sl_idx in E at 1. destruct (idx (dat b1) 0) as [fl|?| |] eqn:F0; try discriminate. cbn [bind] in E. destruct (sl_from b1 1) as [b2|?| |] eqn:S2; try discriminate. cbn [bind] in E.
  destruct (at_from _ _ _ _ _ _ _ A1 S2) as (a & y2 & EX & LA & DB & A2). destruct a as [|v [|? ?]]; try (unfold zlen in LA; cbn [List.length] in LA; lia).
  rewrite (at_dat _ _ _ _ _ A1), EX in F0. cbn [app] in F0. rewrite idx_0 in F0. injection F0 as ->. rewrite EX in By1. cbn [app] in By1. inversion By1 as [|? ? Hfl By2]; subst x l. rewrite bit0, bit2, bit3 in E.
  assert (R3 : exists n b3 y3, (if has_runs fl then c0 <- le16 (dat b2) ;; b <- sl_from b2 2 ;; Ok (c0 * 4, b) else Ok (0, b2)) = Ok (n, b3) /\ 0 <= n /\ n mod 4 = 0 /\ n / 4 < 65536 /\ (has_runs fl = false -> n = 0) /\
     y2 = (if has_runs fl then put16 (n / 4) else []) ++ y3 /\ bytes_ok y3 /\ at_rec recs i b3 (y3 :: ps)).
  { destruct (has_runs fl).
    - destruct (le16 (dat b2)) as [c|?| |] eqn:L3; try discriminate. cbn [bind] in E. destruct (sl_from b2 2) as [b3|?| |] eqn:S3; try discriminate.
      destruct (field16_inv _ _ _ _ _ _ _ A2 By2 L3 S3) as (y3 & EY & Hc & By3 & A3). exists (c * 4), b3, y3. cbn [bind]. rewrite Z.div_mul, Z.mod_mul by lia. split; [reflexivity|]. split; [lia|]. split; [reflexivity|]. split; [lia|]. split; [discriminate|]. auto.
    - exists 0, b2, y2. split; [reflexivity|]. split; [lia|]. split; [reflexivity|]. split; [reflexivity|]. auto. }
  destruct R3 as (n & b3 & y3 & E3 & Hn & M4 & L4 & N0 & EY2 & By3 & A3). rewrite E3 in E. cbn [bind] in E.
  assert (R4 : exists m b4 y4, (if has_ext fl then c0 <- le32 (dat b3) ;; b <- sl_from b3 4 ;; Ok (c0, b) else Ok (0, b3)) = Ok (m, b4) /\ 0 <= m < 4294967296 /\ (has_ext fl = false -> m = 0) /\
     y3 = (if has_ext fl then put32 m else []) ++ y4 /\ bytes_ok y4 /\ at_rec recs i b4 (y4 :: ps)).
  { destruct (has_ext fl).
    - destruct (le32 (dat b3)) as [c|?| |] eqn:L5; try discriminate. cbn [bind] in E. destruct (sl_from b3 4) as [b4|?| |] eqn:S4; try discriminate.
      destruct (field32_inv _ _ _ _ _ _ _ A3 By3 L5 S4) as (y4 & EY & Hc & By4 & A4). exists c, b4, y4. cbn [bind]. split; [reflexivity|]. split; [lia|]. split; [discriminate|]. auto.
    - exists 0, b3, y3. split; [reflexivity|]. split; [lia|]. auto. }
  destruct R4 as (m & b4 & y4 & E4 & Hm & M0 & EY3 & By4 & A4). rewrite E4 in E. cbn [bind] in E.
  destruct (sst_chars (Z.to_nat slen) recs i (wide fl) b4) as [[[us j5] b5]|?| |] eqn:E5; try discriminate. cbn [bind] in E.
  destruct (chars_inv _ _ _ _ _ _ _ _ (y4 :: ps) ltac:(constructor; auto) A4 E5) as (ps5 & A5 & B5 & first & more & EU & LU & FF & FM & NP5 & G5 & W5).
  destruct (sst_skip (S (List.length recs)) n recs j5 b5) as [[j6 b6]|?| |] eqn:E6; try discriminate. cbn [bind] in E.
  destruct (skip_inv _ _ _ _ _ _ _ _ B5 A5 E6) as (p1 & ps6 & A6 & B6 & NC1 & NP6 & G6 & Z6).
  destruct (sst_skip (S (List.length recs)) m recs j6 b6) as [[j7 b7]|?| |] eqn:E7; try discriminate. cbn [bind] in E. injection E as <- <- <-.
  destruct (skip_inv _ _ _ _ _ _ _ _ B6 A6 E7) as (p2 & ps7 & A7 & B7 & NC2 & NP7 & G7 & Z7).
  rewrite Z.max_r in Z6, Z7 by lia.
  exists (mkTS fl first more p1 p2), ps7. split; auto. split; auto.
  assert (TT : ps5 = glue (glue p1 p2) ps7) by (rewrite G6, G7, glue_assoc by auto; reflexivity).
  assert (ZU : zlen us = slen) by (unfold zlen; rewrite LU; lia).
  split; [|split; [|split; [auto|split]]].
  - unfold ts_ok, ts_units. cbn [ts_flags ts_first ts_more ts_runs ts_ext]. rewrite <- EU, ZU, Z6, Z7. repeat (split; auto); try lia.
    + destruct (has_runs fl); [auto|]. apply zlen_0. rewrite Z6. auto.
    + destruct (has_ext fl); [lia|]. apply zlen_0. rewrite Z7. auto.
  - unfold not_one. intros H1 H2. unfold ts_tail. cbn [ts_runs ts_ext]. rewrite <- TT. apply W5. exact (last_ends' _ H1 H2).
  - unfold ts_pieces. rewrite <- glue_assoc by (apply glue_nonnil; left; discriminate). rewrite <- glue_assoc by (apply glue_nonnil; auto).
    unfold ts_tail, ts_chars. cbn [ts_runs ts_ext ts_flags ts_first ts_more]. rewrite <- TT. change (enc_units (wide fl) first :: map _ more) with (tchars (wide fl) first more). rewrite <- G5, glue_one. f_equal.
    unfold ts_header, ts_units. cbn [ts_runs ts_ext ts_flags ts_first ts_more]. rewrite <- EU, ZU, Z6, Z7, EX, EY2, EY3. rewrite <- !app_assoc. reflexivity.
  - unfold ts_text, ts_units. cbn [ts_first ts_more]. rewrite <- EU. reflexivity.
Qed.
Lemma loop_inv : forall fuel recs i buf all out ps, all_bytes ps -> at_rec recs i buf ps -> sst_loop fuel recs i buf all = Ok out ->
  exists l e, table_ok l e /\ ps = table l e /\ out = all ++ map (fun x => ts_text (snd x)) l.
Proof.
  induction fuel as [|fuel IH]; intros recs i buf all out ps B A E; [discriminate|]. cbn [sst_loop] in E.
  assert (Hi : 0 <= i < zlen recs) by apply A. destruct (Z.ltb_spec i (zlen recs)); [|lia]. cbn [negb] in E.
  destruct ps as [|x ps]; [destruct A as [_ A]; discriminate|]. destruct (Z.ltb_spec 0 (sl_len buf)).
  - destruct (sst_string recs i buf) as [[[t j] b]|?| |] eqn:E1; try discriminate. cbn [bind] in E.
    destruct (string_inv _ _ _ _ _ _ _ B A E1) as (s & ps' & A2 & B2 & OK & N1 & NP & G & ->).
    destruct (IH _ _ _ _ _ _ B2 A2 E) as (l & e & T & -> & ->).
    exists ((0%nat, s) :: l), e. split; [cbn [table_ok]; auto|]. split; [rewrite G; reflexivity|]. cbn [map snd]. rewrite <- app_assoc. reflexivity.
  - assert (X : x = []). { apply zlen_0. unfold sl_len in *. rewrite (at_dat _ _ _ _ _ A) in *. pose proof (zlen_nonneg _ x). lia. } subst x.
    destruct (Z.ltb_spec (i + 1) (zlen recs)).
    + destruct (idx recs (i + 1)) as [d|?| |] eqn:I; try discriminate. cbn [bind] in E. destruct (at_step _ _ _ _ _ _ A I) as (ps1 & -> & Ad). inversion B as [|? ? _ B1]; subst.
      destruct (IH _ _ _ _ _ _ B1 Ad E) as (l & e & T & EP & ->). rewrite EP. destruct l as [|[k s] l].
      * exists [], (S e). repeat split.
      * exists ((S k, s) :: l), e. repeat split; apply T.
    + cbn [bind] in E. destruct fuel as [|fuel]; [discriminate|]. cbn [sst_loop] in E. destruct (Z.ltb_spec (i + 1) (zlen recs)); [lia|]. cbn [negb] in E. injection E as <-.
      exists [], 0%nat. split; [exact I|]. split; [|rewrite app_nil_r; reflexivity]. destruct A as [_ A]. injection A as _ ->. rewrite zdrop_all by lia. reflexivity.
Qed.

Lemma table_parses : forall recs texts, is_table (map dat recs) texts -> parse_sst recs = Ok texts.
Proof.
  intros recs texts (head & l & e & LH & T & EP & ->). destruct (table l e) as [|y ys] eqn:ET; [exfalso; exact (table_nonnil l e ET)|]. rewrite glue_one in EP.
    destruct recs as [|r0 recs]; [discriminate|]. cbn [map] in EP. pose proof (f_equal (hd []) EP) as E0. pose proof (f_equal (@tl bytes) EP) as E1. cbn [hd tl] in E0, E1.
    unfold parse_sst. rewrite idx_0. cbn [bind]. destruct r0 as [d0 s0]. cbn [dat] in *. subst d0.
    assert (H4 : exists a b, head = a ++ b /\ zlen a = 4 /\ zlen b = 4). { exists (ztake 4 head), (zdrop 4 head). rewrite ztake_zdrop, zlen_ztake, zlen_zdrop by lia. auto with zarith. }
    destruct H4 as (h1 & h2 & -> & L1 & L2). rewrite <- app_assoc. rewrite (sl_range_mid h1 h2) by lia. cbn [bind dat].
    destruct h2 as [|c1 [|c2 [|c3 [|c4 [|? ?]]]]]; try (unfold zlen in L2; cbn [List.length] in L2; lia). cbn [le32 bind].
    rewrite app_assoc. rewrite sl_from_app by (rewrite zlen_app; lia). cbn [bind].
    set (R := mkSl ((h1 ++ [c1; c2; c3; c4]) ++ y) s0 :: recs).
    assert (A : at_rec R 0 (mkSl y s0) (repeat [] 0 ++ table l e)).
    { split; [unfold R; rewrite zlen_cons; pose proof (zlen_nonneg _ recs); lia|]. cbn [repeat app dat]. rewrite ET. unfold R. f_equal. rewrite <- E1. reflexivity. }
    rewrite (tloop_ok l e R 0 (mkSl y s0) 0 [] _ T A); [reflexivity|].
    rewrite (at_room _ _ _ _ A). cbn [repeat app]. rewrite ET. unfold sst_fuel, R. cbn [List.length map concat dat]. rewrite E1, !app_length.
    assert (LR : List.length recs = List.length ys) by (rewrite <- E1, map_length; reflexivity). rewrite LR. unfold zlen in L1, L2. cbn [List.length] in *. lia.
Qed.
Lemma parse_table : forall recs texts, Forall bytes_ok (map dat recs) -> (parse_sst recs = Ok texts <-> is_table (map dat recs) texts).
Proof.
  intros recs texts B. split; [|apply table_parses].
  - intros E. unfold parse_sst in E. destruct recs as [|r0 recs]; [discriminate|]. rewrite idx_0 in E. cbn [bind] in E.
    destruct (sl_range r0 4 8) as [s|?| |]; try discriminate. cbn [bind] in E. destruct (le32 (dat s)) as [c|?| |]; try discriminate. cbn [bind] in E.
    destruct (sl_from r0 8) as [b|?| |] eqn:S1; try discriminate. cbn [bind] in E.
    assert (A : at_rec (r0 :: recs) 0 r0 (dat r0 :: map dat recs)). { split; [rewrite zlen_cons; pose proof (zlen_nonneg _ recs); lia|reflexivity]. }
    destruct (at_from _ _ _ _ _ _ _ A S1) as (a & y & EX & LA & DB & A2). cbn [map] in B. inversion B as [|? ? B1 B2]; subst. rewrite EX in B1. apply bytes_ok_app in B1.
    destruct (loop_inv _ _ _ _ _ _ (dat b :: map dat recs) ltac:(constructor; tauto) A2 E) as (l & e & T & EP & ->).
    exists a, l, e. split; auto. split; auto. split; [|reflexivity]. cbn [map]. rewrite EX, <- EP, glue_one. reflexivity.
Qed.

(** the only error *)
Lemma bind_err : forall A B (m : res A) (f : A -> res B) e, bind m f = Err e -> m = Err e \/ exists x, m = Ok x /\ f x = Err e.
Proof. intros A B m f e H. destruct m as [x|e0| |]; cbn [bind] in H; [right; eauto|left; congruence|discriminate|discriminate]. Qed.
Lemma le16_noerr : forall l e, le16 l <> Err e. Proof. intros [|? [|? ?]]; discriminate. Qed.
Lemma le32_noerr : forall l e, le32 l <> Err e. Proof. intros [|? [|? [|? [|? ?]]]]; discriminate. Qed.
Lemma idx_noerr : forall A (l : list A) i e, idx l i <> Err e. Proof. intros A l i e. unfold idx. destruct (0 <=? i); [destruct (nth_error _ _)|]; discriminate. Qed.
Lemma range_noerr : forall s a b e, sl_range s a b <> Err e. Proof. intros. unfold sl_range. destruct (_ && _); discriminate. Qed.
Lemma from_noerr : forall s a e, sl_from s a <> Err e. Proof. intros. unfold sl_from. destruct (_ && _); discriminate. Qed.
Ltac noerr E := first [exfalso; exact (le16_noerr _ _ E)|exfalso; exact (le32_noerr _ _ E)|exfalso; exact (idx_noerr _ _ _ _ E)|exfalso; exact (range_noerr _ _ _ _ E)|exfalso; exact (from_noerr _ _ _ E)|discriminate E].
Ltac be E := let x := fresh "x" in let E' := fresh "E" in apply bind_err in E; destruct E as [E|(x & E' & E)]; [try (noerr E)|].
Lemma chars_err : forall n recs i w buf e, sst_chars n recs i w buf = Err e -> e = EOffByOne.
Proof.
  induction n as [|n IH]; intros recs i w buf e E; [discriminate|]. cbn [sst_chars] in E. be E.
  - destruct (sl_len buf =? 0); [|discriminate]. be E. be E. be E. discriminate.
  - destruct x as [[i1 w1] b1]. destruct (negb w1).
    + be E. be E. be E; [eauto|]. destruct x1 as [[? ?] ?]. discriminate.
    + be E. be E. be E. destruct (sl_len x1 =? 1); [congruence|]. be E; [eauto|]. destruct x2 as [[? ?] ?]. discriminate.
Qed.
Lemma skip_noerr : forall fuel n recs i buf e, sst_skip fuel n recs i buf <> Err e.
Proof.
  induction fuel as [|fuel IH]; intros n recs i buf e E; cbn [sst_skip] in E; destruct (0 <? n); try discriminate. destruct (n <=? sl_len buf); [be E; discriminate|]. be E. exact (IH _ _ _ _ _ E).
Qed.
Lemma string_err : forall recs i buf e, sst_string recs i buf = Err e -> e = EOffByOne.
Proof.
  intros recs i buf e E. unfold sst_string in E. be E. be E. be E. be E. be E. { match type of E with (if ?b then _ else _) = _ => destruct b end; [|discriminate]. be E. be E. discriminate. } destruct x3 as [? ?]. be E. { match type of E with (if ?b then _ else _) = _ => destruct b end; [|discriminate]. be E. be E. discriminate. } destruct x3 as [? ?].
  be E; [eapply chars_err; eauto|]. destruct x3 as [[? ?] ?]. be E; [exfalso; eapply skip_noerr; eauto|]. destruct x3 as [? ?]. be E; [exfalso; eapply skip_noerr; eauto|]. destruct x3 as [? ?]. discriminate.
Qed.
Lemma loop_err : forall fuel recs i buf all e, sst_loop fuel recs i buf all = Err e -> e = EOffByOne.
Proof.
  induction fuel as [|fuel IH]; intros recs i buf all e E; [discriminate|]. cbn [sst_loop] in E. destruct (negb (i <? zlen recs)); [discriminate|]. destruct (0 <? sl_len buf).
  - be E; [eapply string_err; eauto|]. destruct x as [[? ?] ?]. eauto.
  - be E; [|eauto]. destruct (i + 1 <? zlen recs); [noerr E|discriminate].
Qed.
Lemma parse_err : forall recs e, parse_sst recs = Err e -> e = EOffByOne.
Proof. intros recs e E. unfold parse_sst in E. be E. be E. be E. be E. eapply loop_err; eauto. Qed.
