(** * L_biff: lemmas about M_biff. *)
From Verif Require Import GoBase GoCrypto L_base M_crypto S_crypto L_crypto M_biff S_biff M_cfb S_cfb L_cfb P_crypto.
From Coq Require Import ZifyBool.

Lemma stream_cons : forall r rs, stream (r :: rs) = enc_rec r ++ stream rs.
Proof. reflexivity. Qed.
Lemma stream_app : forall a b, stream (a ++ b) = stream a ++ stream b.
Proof. intros. unfold stream. rewrite map_app, concat_app. reflexivity. Qed.
Lemma zlen_enc_rec : forall r, zlen (enc_rec r) = 4 + zlen (snd r).
Proof. intros. unfold enc_rec. rewrite !zlen_app, !zlen_put16. lia. Qed.

(** the reader's records for the stream of rs followed by rest *)
Fixpoint brecs (rs : list frec) (rest : bytes) : list brec :=
  match rs with
  | [] => []
  | r :: rs => mkRec (fst r) (zlen (snd r)) (mkSl (snd r) (stream rs ++ rest)) :: brecs rs rest
  end.
Definition payload (r : brec) : frec := (b_type r, dat (b_data r)).
Lemma brecs_payload : forall rs rest, map payload (brecs rs rest) = rs.
Proof. induction rs as [|[ty p] rs IH]; intros; cbn [brecs map]; [reflexivity|]. rewrite IH. reflexivity. Qed.
Lemma brecs_app : forall a b rest, brecs (a ++ b) rest = brecs a (stream b ++ rest) ++ brecs b rest.
Proof.
  induction a as [|r a IH]; intros; cbn [app brecs]; [reflexivity|]. rewrite IH, stream_app, <- app_assoc. reflexivity.
Qed.

Lemma next_record_ok : forall r rest sp, rec_fits 65531 r ->
  next_record (mkSl (enc_rec r ++ rest) sp) = Ok (mkRec (fst r) (zlen (snd r)) (mkSl (snd r) (rest ++ sp)), 4 + zlen (snd r)).
Proof.
  intros [ty p] rest sp [Ht Hp]. cbn [fst snd] in *. pose proof (zlen_nonneg _ p). pose proof (zlen_nonneg _ rest).
  unfold next_record, sl_len. cbn [dat]. rewrite zlen_app, zlen_enc_rec. cbn [snd].
  destruct (Z.ltb_spec (4 + zlen p + zlen rest) 4); [lia|]. unfold enc_rec. cbn [fst snd]. rewrite <- !app_assoc.
  rewrite le16_put16 by lia. cbn [bind]. change (zdrop 2 (put16 ty ++ ?x)) with x. rewrite le16_put16 by lia. cbn [bind].
  unfold sl_from, sl_len. cbn [dat spare]. rewrite !zlen_app, !zlen_put16.
  destruct (Z.leb_spec 0 4); [|lia]. destruct (Z.leb_spec 4 (2 + (2 + (zlen p + zlen rest)))); [|lia]. cbn [andb bind].
  change (zdrop 4 (put16 ty ++ put16 (zlen p) ++ ?x)) with x. unfold sl_len. cbn [dat]. rewrite zlen_app.
  destruct (Z.ltb_spec (zlen p + zlen rest) (zlen p)); [lia|].
  unfold u16. rewrite Z.mod_small by lia. unfold sl_range, sl_full. cbn [dat spare]. rewrite !zlen_app, !zlen_put16. pose proof (zlen_nonneg _ sp).
  destruct (Z.leb_spec 4 (4 + zlen p)); [|lia]. destruct (Z.leb_spec (4 + zlen p) (2 + (2 + (zlen p + zlen rest)) + zlen sp)); [|lia].
  cbn [andb Z.leb bind]. rewrite <- !app_assoc. change (zdrop 4 (put16 ty ++ put16 (zlen p) ++ ?x)) with x.
  replace (4 + zlen p - 4) with (zlen p) by lia. rewrite ztake_app_exact.
  replace (zdrop (4 + zlen p) (put16 ty ++ put16 (zlen p) ++ p ++ rest ++ sp)) with (rest ++ sp); [reflexivity|].
  replace (4 + zlen p) with (zlen p + 4) by lia. rewrite Z.add_comm, <- zdrop_zdrop by lia.
  change (zdrop 4 (put16 ty ++ put16 (zlen p) ++ ?x)) with x. rewrite zdrop_app_exact. reflexivity.
Qed.

(** the state after a list of records *)
Fixpoint feed_records (rs : list brec) (st : bst) : res bst :=
  match rs with
  | [] => Ok st
  | r :: rs => st <- store (enter st r) r ;; feed_records rs st
  end.

Lemma split_loop_records : forall rs fuel rest sp b st, Forall (rec_fits 65531) rs ->
  (b = true \/ Forall (fun r => fst r <> FILEPASS) rs) ->
  (List.length (stream rs) <= fuel)%nat ->
  exists fuel', (fuel' + List.length (stream rs) >= fuel)%nat /\
    split_loop fuel (mkSl (stream rs ++ rest) sp) b st = (st' <- feed_records (brecs rs (rest ++ sp)) st ;; split_loop fuel' (mkSl rest sp) b st').
Proof.
  induction rs as [|r rs IH]; intros fuel rest sp b st F NF HL.
  - exists fuel. split; [lia|]. reflexivity.
  - inversion F as [|x y F1 F2 E1]; subst. rewrite stream_cons, app_length in HL.
    assert (LR : (List.length (enc_rec r) >= 4)%nat). { pose proof (zlen_enc_rec r) as Q. unfold zlen in Q. lia. }
    destruct fuel as [|fuel]; [lia|].
    assert (NF2 : b = true \/ Forall (fun r => fst r <> FILEPASS) rs).
    { destruct NF as [NF|NF]; auto. inversion NF; auto. }
    assert (STEP : split_loop (S fuel) (mkSl (stream (r :: rs) ++ rest) sp) b st =
       (st <- store (enter st (mkRec (fst r) (zlen (snd r)) (mkSl (snd r) (stream rs ++ rest ++ sp)))) (mkRec (fst r) (zlen (snd r)) (mkSl (snd r) (stream rs ++ rest ++ sp))) ;;
        split_loop fuel (mkSl (stream rs ++ rest) sp) b st)).
    { cbn [split_loop]. rewrite stream_cons, <- app_assoc. rewrite next_record_ok by auto.
      unfold sl_from, sl_len. cbn [dat spare]. rewrite zlen_app, zlen_enc_rec. pose proof (zlen_nonneg _ (snd r)). pose proof (zlen_nonneg _ (stream rs ++ rest)).
      destruct (Z.leb_spec 0 (4 + zlen (snd r))); [|lia]. destruct (Z.leb_spec (4 + zlen (snd r)) (4 + zlen (snd r) + zlen (stream rs ++ rest))); [|lia].
      cbn [andb bind]. cbn [b_type]. rewrite (zdrop_app_exact' _ (enc_rec r)) by (rewrite zlen_enc_rec; lia).
      replace ((fst r =? RecTypeFilePass) && negb b) with false; [|].
      2:{ destruct NF as [->|NF]; [rewrite andb_false_r; reflexivity|]. inversion NF as [|? ? N1 N2]; subst. symmetry. apply andb_false_intro1. apply Z.eqb_neq. exact N1. }
      rewrite <- app_assoc. reflexivity. }
    cbn [brecs feed_records]. rewrite STEP.
    destruct (store _ _) as [st1|e| |] eqn:ES; cbn [bind].
    + destruct (IH fuel rest sp b st1 F2 NF2 ltac:(lia)) as (f' & L' & E'). exists f'. rewrite E'. split; [|reflexivity]. rewrite stream_cons, app_length. lia.
    + exists (S fuel). split; [lia|reflexivity].
    + exists (S fuel). split; [lia|reflexivity].
    + exists (S fuel). split; [lia|reflexivity].
Qed.

Lemma split_loop_tail : forall fuel tail sp b st, (fuel > 0)%nat -> zlen tail < 4 -> split_loop fuel (mkSl tail sp) b st = Ok (LDone st).
Proof.
  intros fuel tail sp b st HF HT. destruct fuel; [lia|]. cbn [split_loop]. unfold next_record, sl_len. cbn [dat].
  destruct (Z.ltb_spec (zlen tail) 4); [reflexivity|lia].
Qed.

Lemma split_stream_records : forall rs tail sp b, Forall (rec_fits 65531) rs ->
  (b = true \/ Forall (fun r => fst r <> FILEPASS) rs) -> zlen tail < 4 ->
  split_stream (mkSl (stream rs ++ tail) sp) b = (st <- feed_records (brecs rs (tail ++ sp)) bst0 ;; Ok (LDone st)).
Proof.
  intros rs tail sp b F NF HT. unfold split_stream. cbn [dat].
  destruct (split_loop_records rs (S (List.length (stream rs ++ tail))) tail sp b bst0 F NF) as (f & L & E).
  { rewrite app_length. lia. }
  rewrite E. destruct (feed_records _ _); cbn [bind]; auto. apply split_loop_tail; auto. rewrite app_length in L. lia.
Qed.

(** ** nesting *)
Lemma store_last : forall st r a l, st_streams st = a ++ [l] -> st_sub st = zlen a ->
  store st r = Ok (mkBst (st_sub st) (st_nest st) (st_pos st) (a ++ [l ++ [r]]) (st_map st)).
Proof.
  intros st r a l E1 E2. unfold store. rewrite E1, E2. rewrite (idx_app_exact _ a l []) by reflexivity. cbn [bind].
  rewrite set_idx_at by reflexivity. reflexivity.
Qed.

(** records that do not change the top-level group: nesting stays positive *)
Definition type_of (r : brec) : Z := b_type r.
Lemma feed_app : forall a b st, feed_records (a ++ b) st = (st <- feed_records a st ;; feed_records b st).
Proof.
  induction a as [|r a IH]; intros; cbn [app feed_records bind]; [reflexivity|].
  destruct (store _ _); cbn [bind]; auto.
Qed.

Definition rlen (rs : list brec) : Z := fold_right (fun r a => 4 + sl_len (b_data r) + a) 0 rs.
Lemma rlen_app : forall a b, rlen (a ++ b) = rlen a + rlen b.
Proof. induction a as [|r a IH]; intros; cbn [app rlen fold_right]; [reflexivity|]. fold (rlen (a ++ b)). rewrite IH. fold (rlen a). lia. Qed.
Lemma rlen_brecs : forall rs rest, rlen (brecs rs rest) = zlen (stream rs).
Proof.
  induction rs as [|r rs IH]; intros; cbn [brecs]; [reflexivity|]. cbn [rlen fold_right b_data]. fold (rlen (brecs rs rest)).
  rewrite IH, stream_cons, zlen_app, zlen_enc_rec. unfold sl_len. cbn [dat]. lia.
Qed.

Lemma feed_inner : forall rs, nested rs -> forall brs st a l, map payload brs = rs -> st_streams st = a ++ [l] -> st_sub st = zlen a -> 0 < st_nest st ->
  feed_records brs st = Ok (mkBst (st_sub st) (st_nest st) (st_pos st + rlen brs) (a ++ [l ++ brs]) (st_map st)).
Proof.
  intros rs N. induction N as [|ty p rs N1 N2 N IH|p b q rs Nb IHb N IH]; intros brs st a l HP E1 E2 HN.
  - destruct brs; [|discriminate]. cbn [feed_records rlen fold_right]. rewrite app_nil_r, Z.add_0_r, <- E1. destruct st; reflexivity.
  - destruct brs as [|r brs]; [discriminate|]. cbn [map] in HP. injection HP as HT HD HP'.
    cbn [feed_records].
    assert (EN : enter st r = mkBst (st_sub st) (st_nest st) (st_pos st + (4 + sl_len (b_data r))) (st_streams st) (st_map st)).
    { unfold enter. rewrite HT. destruct (Z.eqb_spec ty RecTypeEOF) as [Q|_]; [elim N2; exact Q|]. destruct (Z.eqb_spec ty RecTypeBOF) as [Q|_]; [elim N1; exact Q|]. reflexivity. }
    rewrite EN. erewrite store_last; cbn [st_streams st_sub]; eauto. cbn [bind st_nest st_pos st_map].
    erewrite IH; cbn [st_streams st_sub st_nest st_pos st_map]; eauto. cbn [rlen fold_right]. fold (rlen brs). rewrite <- app_assoc.
    do 2 f_equal. lia.
  - destruct brs as [|r brs]; [discriminate|]. cbn [map] in HP. injection HP as HT HD HP'.
    cbn [feed_records].
    assert (EN : enter st r = mkBst (st_sub st) (st_nest st + 1) (st_pos st + (4 + sl_len (b_data r))) (st_streams st) (st_map st)).
    { unfold enter. rewrite HT. change (BOF =? RecTypeEOF) with false. change (BOF =? RecTypeBOF) with true.
      destruct (Z.eqb_spec (st_nest st) 0); [lia|]. reflexivity. }
    rewrite EN. erewrite store_last; cbn [st_streams st_sub]; eauto. cbn [bind st_nest st_pos st_map].
    apply map_eq_app in HP'. destruct HP' as (b1 & b2 & -> & Hb1 & Hb2).
    destruct b2 as [|r2 b2]; [discriminate|]. cbn [map] in Hb2. injection Hb2 as HT2 HD2 Hb2.
    rewrite feed_app. erewrite IHb; cbn [st_streams st_sub st_nest st_pos st_map]; eauto; [|lia]. cbn [bind feed_records].
    match goal with |- context [enter ?s r2] => set (s2 := s) end.
    assert (EN2 : enter s2 r2 = mkBst (st_sub st) (st_nest st) (st_pos st + (4 + sl_len (b_data r)) + rlen b1 + (4 + sl_len (b_data r2))) (a ++ [(l ++ [r]) ++ b1]) (st_map st)).
    { unfold enter, s2. rewrite HT2. change (EOFR =? RecTypeEOF) with true. cbn [st_streams st_sub st_nest st_pos st_map].
      replace (st_nest st + 1 - 1) with (st_nest st) by lia. reflexivity. }
    rewrite EN2. erewrite store_last; cbn [st_streams st_sub]; eauto. cbn [bind st_nest st_pos st_map].
    erewrite IH; cbn [st_streams st_sub st_nest st_pos st_map]; eauto.
    cbn [rlen fold_right]. rewrite fold_right_app. cbn [fold_right]. fold (rlen b2).
    assert (FA : forall x, fold_right (fun r a => 4 + sl_len (b_data r) + a) x b1 = rlen b1 + x).
    { clear. induction b1 as [|u b1 IH]; intros; cbn [fold_right rlen]; [lia|]. fold (rlen b1). rewrite IH. lia. }
    rewrite FA. rewrite <- !app_assoc. cbn [app]. do 2 f_equal. lia.
Qed.

Lemma feed_group : forall g, group g -> forall brs st, map payload brs = g -> st_nest st = 0 ->
  feed_records brs st = Ok (mkBst (zlen (st_streams st)) 0 (st_pos st + rlen brs) (st_streams st ++ [brs]) (zput (st_pos st) (zlen (st_streams st)) (st_map st))).
Proof.
  intros g (p & b & q & -> & N) brs st HP HN. destruct brs as [|r brs]; [discriminate|]. cbn [map] in HP. injection HP as HT HD HP'.
  cbn [feed_records].
  assert (EN : enter st r = mkBst (zlen (st_streams st)) 1 (st_pos st + (4 + sl_len (b_data r))) (st_streams st ++ [[]]) (zput (st_pos st) (zlen (st_streams st)) (st_map st))).
  { unfold enter. rewrite HT. change (BOF =? RecTypeEOF) with false. change (BOF =? RecTypeBOF) with true. rewrite HN. reflexivity. }
  rewrite EN. erewrite store_last; cbn [st_streams st_sub]; eauto. cbn [bind app st_nest st_pos st_map].
  apply map_eq_app in HP'. destruct HP' as (b1 & b2 & -> & Hb1 & Hb2).
  destruct b2 as [|r2 [|]]; try discriminate. cbn [map] in Hb2. injection Hb2 as HT2 HD2.
  rewrite feed_app. erewrite feed_inner; cbn [st_streams st_sub st_nest st_pos st_map]; eauto; [|lia]. cbn [bind feed_records].
  match goal with |- context [enter ?s r2] => set (s2 := s) end.
  assert (EN2 : enter s2 r2 = mkBst (zlen (st_streams st)) 0 (st_pos st + (4 + sl_len (b_data r)) + rlen b1 + (4 + sl_len (b_data r2))) (st_streams st ++ [[r] ++ b1]) (zput (st_pos st) (zlen (st_streams st)) (st_map st))).
  { unfold enter, s2. rewrite HT2. change (EOFR =? RecTypeEOF) with true. reflexivity. }
  rewrite EN2. erewrite store_last; cbn [st_streams st_sub]; eauto. cbn [bind app st_nest st_pos st_map].
  change (r :: b1 ++ [r2]) with ([r] ++ b1 ++ [r2]). rewrite !rlen_app. cbn [rlen fold_right]. do 2 f_equal. lia.
Qed.

(** the records of consecutive groups *)
Fixpoint group_recs (gs : list (list frec)) (rest : bytes) : list (list brec) :=
  match gs with
  | [] => []
  | g :: gs => brecs g (stream (concat gs) ++ rest) :: group_recs gs rest
  end.
Fixpoint group_map (gs : list (list frec)) (k pos : Z) (m : list (Z * Z)) : list (Z * Z) :=
  match gs with
  | [] => m
  | g :: gs => group_map gs (k + 1) (pos + zlen (stream g)) (zput pos k m)
  end.
Lemma feed_groups : forall gs rest st, Forall group gs -> st_nest st = 0 ->
  exists sub, feed_records (brecs (concat gs) rest) st =
    Ok (mkBst sub 0 (st_pos st + zlen (stream (concat gs))) (st_streams st ++ group_recs gs rest) (group_map gs (zlen (st_streams st)) (st_pos st) (st_map st))).
Proof.
  induction gs as [|g gs IH]; intros rest st F HN.
  - exists (st_sub st). cbn [concat brecs feed_records group_recs group_map]. rewrite app_nil_r, Z.add_0_r, <- HN. destruct st; reflexivity.
  - inversion F; subst. cbn [concat]. rewrite brecs_app, feed_app.
    erewrite feed_group; eauto; [|apply brecs_payload]. cbn [bind].
    match goal with |- context [feed_records _ ?s] => set (s2 := s) end.
    destruct (IH rest s2) as (sub & E); auto. exists sub. rewrite E. unfold s2. cbn [st_streams st_nest st_pos st_map group_recs group_map].
    rewrite rlen_brecs, stream_app, zlen_app, <- app_assoc. cbn [app]. rewrite zlen_app, zlen_cons, zlen_nil.
    replace (zlen (st_streams st) + (1 + 0)) with (zlen (st_streams st) + 1) by lia. rewrite Z.add_assoc. reflexivity.
Qed.
Lemma group_recs_payload : forall gs rest, map (map payload) (group_recs gs rest) = gs.
Proof. induction gs as [|g gs IH]; intros; cbn [group_recs map]; [reflexivity|]. rewrite brecs_payload, IH. reflexivity. Qed.

Lemma group_stream_pos : forall g, group g -> 8 <= zlen (stream g).
Proof.
  intros g (p & b & q & -> & _). rewrite stream_cons, stream_app, !zlen_app, stream_cons, zlen_app, !zlen_enc_rec. cbn [snd].
  pose proof (zlen_nonneg _ p). pose proof (zlen_nonneg _ q). pose proof (zlen_nonneg _ (stream b)). pose proof (zlen_nonneg _ (stream [])). lia.
Qed.
Lemma group_map_find : forall gs k pos m x, Forall group gs ->
  (forall y i, zfind y m = Some i -> y < pos) ->
  zfind x (group_map gs k pos m) =
    (fix find (l : list (list frec)) (k p : Z) := match l with [] => zfind x m | g :: l => if x =? p then Some k else find l (k + 1) (p + zlen (stream g)) end) gs k pos.
Proof.
  induction gs as [|g gs IH]; intros k pos m x F HM; cbn [group_map]; [reflexivity|].
  inversion F as [|? ? G F']; subst. pose proof (group_stream_pos _ G). rewrite IH; auto.
  2:{ intros y i. unfold zput. cbn [zfind]. destruct (Z.eqb_spec y pos); [lia|]. intros Hy. apply HM in Hy. lia. }
  destruct (Z.eqb_spec x pos) as [->|NE].
  - clear IH HM. assert (P : pos < pos + zlen (stream g)) by lia. revert P. generalize (pos + zlen (stream g)) as q. generalize (k + 1) as j.
    clear F H. induction gs as [|h gs IH]; intros j q P.
    + unfold zput. cbn [zfind]. rewrite Z.eqb_refl. reflexivity.
    + inversion F' as [|? ? G1 G2]; subst. destruct (Z.eqb_spec pos q); [lia|]. apply IH; auto. pose proof (group_stream_pos _ G1). lia.
  - generalize (pos + zlen (stream g)) as q. generalize (k + 1) as j. clear IH F HM. induction gs as [|h gs IH]; intros j q.
    + unfold zput. cbn [zfind]. destruct (Z.eqb_spec x pos); [lia|]. reflexivity.
    + inversion F'; subst. destruct (x =? q); auto.
Qed.

(** ** the decrypting loader *)
Lemma copy_at_mid : forall a b c src i, i = zlen a -> zlen src = zlen b -> copy_at (a ++ b ++ c) i src = Ok (a ++ src ++ c).
Proof.
  intros a b c src i -> E. unfold copy_at. pose proof (zlen_nonneg _ a). pose proof (zlen_nonneg _ b). pose proof (zlen_nonneg _ c).
  rewrite !zlen_app. destruct (Z.leb_spec 0 (zlen a)); [|lia]. destruct (Z.leb_spec (zlen a) (zlen a + (zlen b + zlen c))); [|lia]. cbn [andb].
  rewrite Z.min_l by lia. rewrite ztake_app_exact, (ztake_all _ src) by lia. rewrite (app_assoc a b c), (zdrop_app_exact' _ (a ++ b) c); [reflexivity|]. rewrite zlen_app. lia.
Qed.
Lemma put16_at_mid : forall a b c x i, i = zlen a -> zlen b = 2 -> put16_at (a ++ b ++ c) i x = Ok (a ++ put16 x ++ c).
Proof.
  intros a b c x i E L. unfold put16_at. rewrite copy_at_mid by (auto; rewrite zlen_put16; lia).
  pose proof (zlen_nonneg _ a). pose proof (zlen_nonneg _ c). rewrite !zlen_app.
  destruct (Z.leb_spec 0 i); [|lia]. destruct (Z.leb_spec (i + 2) (zlen a + (zlen b + zlen c))); [|lia]. reflexivity.
Qed.

(** what the loop writes into the decryptor for one record *)
Definition fed (key : bytes) (pos : Z) (r : frec) : bytes :=
  put16 (fst r) ++ put16 (zlen (snd r)) ++ repeat 0 (Z.to_nat (clear_len r)) ++ crypt key (pos + 4 + clear_len r) (zdrop (clear_len r) (snd r)).
Definition ovl (pos : Z) (r : frec) : overlay := mkOv pos (fst r) (zlen (snd r)) (ztake (clear_len r) (snd r)).

Lemma exempt_spec : forall ty, exempt ty = existsb (Z.eqb ty) clear_types.
Proof.
  intros. unfold exempt, clear_types. cbn [existsb]. rewrite orb_false_r, <- !orb_assoc. reflexivity.
Qed.
Lemma clear_len_bounds : forall r, encryptable r -> 0 <= clear_len r <= zlen (snd r).
Proof.
  intros r [_ H]. unfold clear_len. pose proof (zlen_nonneg _ (snd r)). destruct (existsb _ _); [lia|].
  destruct (Z.eqb_spec (fst r) BOUNDSHEET); [auto with zarith|lia].
Qed.
Lemma zlen_fed : forall key pos r, encryptable r -> zlen (fed key pos r) = 4 + zlen (snd r).
Proof.
  intros key pos r H. pose proof (clear_len_bounds r H). unfold fed. rewrite !zlen_app, !zlen_put16, zlen_repeat, crypt_length, zlen_zdrop by lia. lia.
Qed.
Lemma zlen_enc_payload : forall key pos r, encryptable r -> zlen (enc_payload key pos r) = zlen (snd r).
Proof.
  intros key pos r H. pose proof (clear_len_bounds r H). unfold enc_payload. rewrite zlen_app, zlen_ztake, crypt_length, zlen_zdrop by lia. lia.
Qed.

Lemma apply_ovl : forall key pos r A B, zlen A = pos -> encryptable r ->
  apply_overlay (A ++ crypt key pos (fed key pos r) ++ B) (ovl pos r) = Ok (A ++ enc_rec r ++ B).
Proof.
  intros key pos r A B LA H. pose proof (clear_len_bounds r H) as HC. set (c := clear_len r) in *.
  unfold fed. fold c. rewrite !crypt_app, !zlen_put16, zlen_repeat, Z2Nat.id by lia.
  replace (pos + 2 + 2 + c) with (pos + 4 + c) by lia. rewrite crypt_crypt.
  unfold apply_overlay, ovl. cbn [ov_pos ov_type ov_size ov_data]. fold c.
  assert (L2 : forall p x, zlen (crypt key p (put16 x)) = 2) by (intros; rewrite crypt_length; reflexivity).
  rewrite <- !app_assoc. rewrite put16_at_mid by auto. cbn [bind].
  rewrite (app_assoc A (put16 (fst r))). rewrite put16_at_mid by (auto; rewrite zlen_app, zlen_put16; lia). cbn [bind].
  unfold enc_rec. rewrite zlen_ztake by lia. rewrite <- !app_assoc.
  assert (SPL : ztake c (snd r) ++ zdrop c (snd r) ++ B = snd r ++ B) by (rewrite app_assoc, ztake_zdrop; reflexivity).
  destruct (Z.ltb_spec 0 c).
  - replace (A ++ put16 (fst r) ++ put16 (zlen (snd r)) ++ crypt key (pos + 2 + 2) (repeat 0 (Z.to_nat c)) ++ zdrop c (snd r) ++ B)
      with ((A ++ put16 (fst r) ++ put16 (zlen (snd r))) ++ crypt key (pos + 2 + 2) (repeat 0 (Z.to_nat c)) ++ zdrop c (snd r) ++ B) by (rewrite <- !app_assoc; reflexivity).
    rewrite copy_at_mid.
    + rewrite <- !app_assoc, SPL. reflexivity.
    + rewrite !zlen_app, !zlen_put16. lia.
    + rewrite zlen_ztake, crypt_length, zlen_repeat by lia. lia.
  - replace c with 0 in * by lia. change (Z.to_nat 0) with 0%nat. cbn [repeat]. 
    assert (E0 : crypt key (pos + 2 + 2) [] = []) by (apply zlen_0; rewrite crypt_length; reflexivity). rewrite E0. cbn [app]. rewrite zdrop_0. reflexivity.
Qed.

(** the fed bytes and overlays of a list of records *)
Fixpoint feds key pos rs := match rs with [] => [] | r :: rs => fed key pos r ++ feds key (pos + 4 + zlen (snd r)) rs end.
Fixpoint ovls pos rs := match rs with [] => [] | r :: rs => ovl pos r :: ovls (pos + 4 + zlen (snd r)) rs end.
Lemma apply_ovls : forall rs key pos A, zlen A = pos -> Forall encryptable rs ->
  apply_overlays (A ++ crypt key pos (feds key pos rs)) (ovls pos rs) = Ok (A ++ stream rs).
Proof.
  induction rs as [|r rs IH]; intros key pos A LA F; cbn [feds ovls apply_overlays].
  - assert (E0 : crypt key pos [] = []) by (apply zlen_0; rewrite crypt_length; reflexivity). rewrite E0. reflexivity.
  - inversion F; subst. rewrite crypt_app, zlen_fed by auto. rewrite apply_ovl by auto. cbn [bind].
    rewrite app_assoc. replace (zlen A + (4 + zlen (snd r))) with (zlen A + 4 + zlen (snd r)) by lia.
    rewrite IH; auto; [|rewrite zlen_app, zlen_enc_rec; lia]. rewrite stream_cons, <- app_assoc. reflexivity.
Qed.

Lemma sl_range_app : forall a b c sp i j, i = zlen a -> j = zlen a + zlen b ->
  exists sp', sl_range (mkSl (a ++ b ++ c) sp) i j = Ok (mkSl b sp').
Proof.
  intros a b c sp i j -> ->. unfold sl_range, sl_full. cbn [dat spare]. rewrite !zlen_app.
  pose proof (zlen_nonneg _ a). pose proof (zlen_nonneg _ b). pose proof (zlen_nonneg _ c). pose proof (zlen_nonneg _ sp).
  destruct (Z.leb_spec 0 (zlen a)); [|lia]. destruct (Z.leb_spec (zlen a) (zlen a + zlen b)); [|lia].
  destruct (Z.leb_spec (zlen a + zlen b) (zlen a + (zlen b + zlen c) + zlen sp)); [|lia]. cbn [andb].
  replace (zlen a + zlen b - zlen a) with (zlen b) by lia. rewrite <- !app_assoc, zdrop_app_exact, ztake_app_exact. eauto.
Qed.

Lemma stream_enc_cons : forall key pos r rs, encryptable r ->
  stream (enc_recs key pos (r :: rs)) = put16 (fst r) ++ put16 (zlen (snd r)) ++ ztake (clear_len r) (snd r) ++
    crypt key (pos + 4 + clear_len r) (zdrop (clear_len r) (snd r)) ++ stream (enc_recs key (pos + 4 + zlen (snd r)) rs).
Proof.
  intros. cbn [enc_recs]. rewrite stream_cons. unfold enc_rec. cbn [fst snd]. rewrite zlen_enc_payload by auto. unfold enc_payload. rewrite <- !app_assoc. reflexivity.
Qed.
Lemma zlen_stream_enc : forall rs key pos, Forall encryptable rs -> zlen (stream (enc_recs key pos rs)) = zlen (stream rs).
Proof.
  induction rs as [|r rs IH]; intros key pos F; [reflexivity|]. inversion F; subst. cbn [enc_recs]. rewrite !stream_cons, !zlen_app, !zlen_enc_rec. cbn [snd].
  rewrite zlen_enc_payload, IH by auto. reflexivity.
Qed.
Lemma stream_len4 : forall rs, zlen (stream rs) <= 4 -> rs = [] \/ exists r, rs = [r] /\ zlen (snd r) = 0.
Proof.
  intros [|r [|r2 rs]] H; auto.
  - rewrite stream_cons, zlen_app, zlen_enc_rec in H. change (zlen (stream [])) with 0 in H. pose proof (zlen_nonneg _ (snd r)). right. exists r. split; auto. lia.
  - rewrite !stream_cons, !zlen_app, !zlen_enc_rec in H. pose proof (zlen_nonneg _ (snd r)). pose proof (zlen_nonneg _ (snd r2)). pose proof (zlen_nonneg _ (stream rs)). lia.
Qed.
Lemma trim_cons : forall r rs, zlen (stream (r :: rs)) > 4 -> trim_last (r :: rs) = r :: trim_last rs.
Proof.
  intros r rs H. destruct rs as [|r2 rs]; [|reflexivity]. cbn [trim_last]. rewrite stream_cons, zlen_app, zlen_enc_rec in H. change (zlen (stream [])) with 0 in H.
  destruct (Z.eqb_spec (zlen (snd r)) 0); [lia|reflexivity].
Qed.

Lemma decrypt_loop_ok : forall rs fuel pre sp key dec ovs w, Forall encryptable rs -> Forall (rec_fits 65535) rs ->
  holds dec key 0 [] w -> zlen w = zlen pre -> (List.length (stream rs) < fuel)%nat ->
  exists dec', decrypt_loop fuel (mkSl (pre ++ stream (enc_recs key (zlen pre) rs)) sp) (zlen pre) dec ovs =
      Ok (dec', ovs ++ ovls (zlen pre) (trim_last rs)) /\
    holds dec' key 0 [] (w ++ feds key (zlen pre) (trim_last rs)).
Proof.
  induction rs as [|r rs IH]; intros fuel pre sp key dec ovs w FE FF H LW HF.
  - destruct fuel as [|fuel]; [lia|]. exists dec. cbn [decrypt_loop enc_recs trim_last ovls feds]. rewrite !app_nil_r. split; auto.
    unfold sl_from, sl_len. cbn [dat spare]. pose proof (zlen_nonneg _ pre).
    destruct (Z.leb_spec 0 (zlen pre)); [|lia]. destruct (Z.leb_spec (zlen pre) (zlen pre)); [|lia]. cbn [andb bind]. unfold sl_len. cbn [dat].
    rewrite zdrop_all by lia. reflexivity.
  - destruct fuel as [|fuel]; [lia|]. inversion FE as [|? ? E1 E2]; subst. inversion FF as [|? ? F1 F2]; subst.
    pose proof (clear_len_bounds r E1) as HC. pose proof (zlen_nonneg _ pre). destruct F1 as [FT FS].
    assert (FROM : sl_from (mkSl (pre ++ stream (enc_recs key (zlen pre) (r :: rs))) sp) (zlen pre) = Ok (mkSl (stream (enc_recs key (zlen pre) (r :: rs))) sp)).
    { unfold sl_from, sl_len. cbn [dat spare]. rewrite zlen_app. pose proof (zlen_nonneg _ (stream (enc_recs key (zlen pre) (r :: rs)))).
      destruct (Z.leb_spec 0 (zlen pre)); [|lia]. destruct (Z.leb_spec (zlen pre) (zlen pre + zlen (stream (enc_recs key (zlen pre) (r :: rs))))); [|lia].
      cbn [andb]. rewrite zdrop_app_exact. reflexivity. }
    cbn [decrypt_loop]. rewrite FROM. cbn [bind]. unfold sl_len at 1. cbn [dat]. rewrite zlen_stream_enc by auto.
    destruct (Z.ltb_spec 4 (zlen (stream (r :: rs)))) as [LT|LT]; cbn [negb].
    2:{ destruct (stream_len4 (r :: rs) ltac:(lia)) as [Q|(r' & Q & Z0)]; [discriminate|]. injection Q as <- ->. 
        exists dec. cbn [trim_last]. rewrite Z0. cbn [Z.eqb ovls feds]. rewrite !app_nil_r. split; auto. }
    rewrite trim_cons by lia. cbn [ovls feds].
    rewrite stream_enc_cons by auto.
    set (T := stream (enc_recs key (zlen pre + 4 + zlen (snd r)) rs)).
    set (c := clear_len r) in *. set (cp := ztake c (snd r)). set (ep := crypt key (zlen pre + 4 + c) (zdrop c (snd r))).
    assert (Lcp : zlen cp = c) by (unfold cp; rewrite zlen_ztake; lia).
    assert (Lep : zlen ep = zlen (snd r) - c) by (unfold ep; rewrite crypt_length, zlen_zdrop; lia).
    destruct (sl_range_app pre (put16 (fst r)) (put16 (zlen (snd r)) ++ cp ++ ep ++ T) sp (zlen pre) (zlen pre + 2)) as (s1 & R1); [auto|rewrite zlen_put16; lia|].
    rewrite R1. cbn [bind dat].
    assert (LE1 : forall x, 0 <= x < 65536 -> le16 (put16 x) = Ok x) by (intros x Hx; rewrite <- (app_nil_r (put16 x)); apply le16_put16; auto).
    rewrite LE1 by auto. cbn [bind].
    destruct (sl_range_app (pre ++ put16 (fst r)) (put16 (zlen (snd r))) (cp ++ ep ++ T) sp (zlen pre + 2) (zlen pre + 4)) as (s2 & R2);
      [rewrite zlen_app, zlen_put16; lia|rewrite zlen_app, !zlen_put16; lia|].
    rewrite <- app_assoc in R2. rewrite R2. cbn [bind dat]. rewrite LE1 by (pose proof (zlen_nonneg _ (snd r)); lia). cbn [bind].
    destruct (write_ok dec key 0 [] w (put16 (fst r)) H) as (d1 & W1 & H1 & _). rewrite W1. cbn [bind].
    destruct (write_ok d1 key 0 [] _ (put16 (zlen (snd r))) H1) as (d2 & W2 & H2 & _). rewrite W2. cbn [bind].
    rewrite exempt_spec.
    set (P4 := pre ++ put16 (fst r) ++ put16 (zlen (snd r))).
    assert (LP4 : zlen P4 = zlen pre + 4) by (unfold P4; rewrite !zlen_app, !zlen_put16; lia).
    assert (RAW : pre ++ put16 (fst r) ++ put16 (zlen (snd r)) ++ cp ++ ep ++ T = P4 ++ cp ++ ep ++ T) by (unfold P4; rewrite <- !app_assoc; reflexivity).
    rewrite RAW in *. clear R1 R2.
    (* the common end of the round *)
    assert (END : forall fuel' d3 odata, (List.length (stream rs) < fuel')%nat ->
      odata = cp -> holds d3 key 0 [] (((w ++ put16 (fst r)) ++ put16 (zlen (snd r))) ++ repeat 0 (Z.to_nat c) ++ ep) ->
      exists dec', decrypt_loop fuel' (mkSl (P4 ++ cp ++ ep ++ T) sp) (zlen pre + 4 + zlen (snd r)) d3 (ovs ++ [mkOv (zlen pre) (fst r) (zlen (snd r)) odata]) =
          Ok (dec', ovs ++ ovl (zlen pre) r :: ovls (zlen pre + 4 + zlen (snd r)) (trim_last rs)) /\
        holds dec' key 0 [] (w ++ fed key (zlen pre) r ++ feds key (zlen pre + 4 + zlen (snd r)) (trim_last rs))).
    { intros fuel' d3 odata HF' -> H3.
      assert (LPN : zlen (P4 ++ cp ++ ep) = zlen pre + 4 + zlen (snd r)) by (rewrite !zlen_app, LP4, Lcp, Lep; lia).
      destruct (IH fuel' (P4 ++ cp ++ ep) sp key d3 (ovs ++ [ovl (zlen pre) r]) _ E2 F2 H3) as (dec' & D & HD); auto.
      { rewrite LPN. rewrite !zlen_app, !zlen_put16, zlen_repeat, Lep. lia. }
      rewrite LPN in D, HD. fold T in D. rewrite <- !app_assoc in D. exists dec'. split.
      - exact D.
      - unfold fed. fold c ep. rewrite <- !app_assoc in HD. rewrite <- !app_assoc. exact HD. }
    assert (HF' : (List.length (stream rs) < fuel)%nat).
    { rewrite stream_cons, app_length in HF. pose proof (zlen_enc_rec r) as Q. unfold zlen in Q. pose proof (zlen_nonneg _ (snd r)). lia. }
    assert (REST : forall d3, holds d3 key 0 [] (((w ++ put16 (fst r)) ++ put16 (zlen (snd r))) ++ repeat 0 (Z.to_nat c)) ->
      exists d4, (if 0 <? zlen (snd r) - c then
          d <- sl_range (mkSl (P4 ++ cp ++ ep ++ T) sp) (zlen pre + 4 + c) (zlen pre + 4 + c + (zlen (snd r) - c)) ;;
          dec <- w_write d3 (dat d) ;; Ok (zlen pre + 4 + c + (zlen (snd r) - c), dec)
         else Ok (zlen pre + 4 + c, d3)) = Ok (zlen pre + 4 + zlen (snd r), d4) /\
        holds d4 key 0 [] (((w ++ put16 (fst r)) ++ put16 (zlen (snd r))) ++ repeat 0 (Z.to_nat c) ++ ep)).
    { intros d3 H3. destruct (Z.ltb_spec 0 (zlen (snd r) - c)).
      - destruct (sl_range_app (P4 ++ cp) ep T sp (zlen pre + 4 + c) (zlen pre + 4 + c + (zlen (snd r) - c))) as (s3 & R3); [rewrite zlen_app; lia|rewrite zlen_app; lia|].
        rewrite <- app_assoc in R3. rewrite R3. cbn [bind dat].
        destruct (write_ok d3 key 0 [] _ ep H3) as (d4 & W4 & H4' & _). rewrite W4. cbn [bind]. exists d4. split; [do 2 f_equal; lia|]. rewrite (app_assoc _ (repeat _ _)). exact H4'.
      - exists d3. split; [do 2 f_equal; lia|]. replace ep with (@nil Z); [rewrite app_nil_r; exact H3|]. symmetry. apply zlen_0. lia. }
    destruct (existsb (Z.eqb (fst r)) clear_types) eqn:EX.
    + assert (Cc : c = zlen (snd r)) by (unfold c, clear_len; rewrite EX; reflexivity).
      destruct (sl_range_app P4 cp (ep ++ T) sp (zlen pre + 4) (zlen pre + 4 + zlen (snd r))) as (s3 & R3); [lia|lia|]. rewrite R3. cbn [bind].
      unfold zeros_to.
      assert (L8 : zlen (snd r) <= 8224).
      { destruct E1 as [E1 _]. apply E1. apply existsb_exists in EX. destruct EX as (x & I & Q). apply Z.eqb_eq in Q. subst x. exact I. }
      destruct (Z.leb_spec (zlen (snd r)) 8224); [|lia]. cbn [bind].
      destruct (write_ok d2 key 0 [] _ (repeat 0 (Z.to_nat (zlen (snd r)))) H2) as (d3 & W3 & HA3 & _). rewrite W3. cbn [bind dat].
      change (0 <? 0) with false. cbn [bind]. 
      apply END; auto. replace ep with (@nil Z); [rewrite app_nil_r, Cc; exact HA3|]. symmetry. apply zlen_0. lia.
    + destruct (Z.eqb_spec (fst r) RecTypeBoundSheet8) as [BS|BS].
      * assert (Cc : c = 4) by (unfold c, clear_len; rewrite EX, BS; reflexivity).
        destruct (sl_range_app P4 cp (ep ++ T) sp (zlen pre + 4) (zlen pre + 4 + 4)) as (s3 & R3); [lia|lia|]. rewrite R3. cbn [bind].
        change (zeros_to 4) with (Ok (repeat 0 (Z.to_nat 4))). cbn [bind].
        destruct (write_ok d2 key 0 [] _ (repeat 0 (Z.to_nat 4)) H2) as (d3 & W3 & HA3 & _). rewrite W3. cbn [bind dat].
        rewrite Cc in *. destruct (REST d3 HA3) as (d4 & Q4 & HA4). rewrite Q4. cbn [bind]. apply END; auto.
      * assert (Cc : c = 0).
        { unfold c, clear_len. rewrite EX. destruct (Z.eqb_spec (fst r) BOUNDSHEET) as [Q|Q]; [elim BS; exact Q|reflexivity]. }
        cbn [bind]. rewrite Cc in *. change (Z.to_nat 0) with 0%nat in *. cbn [repeat app] in *. rewrite app_nil_r in REST.
        destruct (REST d2 H2) as (d4 & Q4 & HA4). rewrite !Z.add_0_r, Z.sub_0_r in Q4. rewrite Q4. cbn [bind].
        apply END; auto. symmetry. apply zlen_0. lia.
Qed.

Lemma trim_forall : forall (P : frec -> Prop) rs, Forall P rs -> Forall P (trim_last rs).
Proof.
  intros P rs F. induction F as [|r rs H F IH]; [constructor|]. destruct rs as [|r2 rs].
  - cbn [trim_last]. destruct (_ =? 0); auto.
  - change (trim_last (r :: r2 :: rs)) with (r :: trim_last (r2 :: rs)). constructor; auto.
Qed.
Lemma decrypt_stream_ok : forall rs key dec sp, Forall encryptable rs -> Forall (rec_fits 65535) rs -> holds dec key 0 [] [] ->
  decrypt_stream (mkSl (stream (enc_recs key 0 rs)) sp) dec = Ok (stream (trim_last rs)).
Proof.
  intros rs key dec sp FE FF H. unfold decrypt_stream. cbn [dat].
  destruct (decrypt_loop_ok rs (S (List.length (stream (enc_recs key 0 rs)))) [] sp key dec [] [] FE FF H eq_refl) as (d & D & HD).
  { pose proof (zlen_stream_enc rs key 0 FE) as Q. unfold zlen in Q. lia. }
  change (zlen (@nil Z)) with 0 in *. cbn [app] in *. rewrite D. cbn [bind].
  destruct (flush_ok _ _ _ _ _ HD) as (d2 & E2 & B & _). rewrite E2. cbn [bind]. rewrite B.
  change (0 * 1024) with 0. apply (apply_ovls (trim_last rs) key 0 []); [reflexivity|]. apply trim_forall; auto.
Qed.
