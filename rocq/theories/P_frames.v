(** * P_frames: C105 — the records and substreams of any workbook stream that can be opened. *)
From Verif Require Import GoBase GoUnicode L_base M_grate M_biff M_xlstr M_xls S_cfb L_cfb S_biff L_biff P_biff.
From Coq Require Import Lia ZifyBool ZifyNat.

Lemma put16_bytes : forall a b, 0 <= a < 256 -> 0 <= b < 256 -> put16 (a + 256 * b) = [a; b].
Proof.
  intros a b Ha Hb. unfold put16. replace (a + 256 * b) with (a + b * 256) by lia. rewrite Z.mod_add, Z.div_add by lia. rewrite (Z.mod_small a), (Z.div_small a) by lia. rewrite Z.add_0_l, Z.mod_small by lia. reflexivity.
Qed.
Lemma next_inv : forall raw r no, bytes_ok (dat raw) -> next_record raw = Ok (r, no) ->
  exists rest, dat raw = enc_rec (payload r) ++ rest /\ b_size r = zlen (snd (payload r)) /\ no = 4 + zlen (snd (payload r)) /\ rec_fits 65531 (payload r).
Proof.
  intros [raw sp] r no B H. cbn [dat] in *. unfold next_record, sl_len in H. cbn [dat] in H. destruct (Z.ltb_spec (zlen raw) 4); [discriminate|].
  destruct raw as [|a [|b [|c [|d l]]]]; try (unfold zlen in *; cbn [List.length] in *; lia). cbn [le16 bind] in H. change (zdrop 2 (a :: b :: c :: d :: l)) with (c :: d :: l) in H. cbn [le16 bind] in H.
  inversion B as [|? ? Ba B1]; subst. inversion B1 as [|? ? Bb B2]; subst. inversion B2 as [|? ? Bc B3]; subst. inversion B3 as [|? ? Bd B4]; subst. clear B B1 B2 B3.
  assert (L : zlen (a :: b :: c :: d :: l) = 4 + zlen l) by (unfold zlen; cbn [List.length]; lia). pose proof (zlen_nonneg _ l).
  unfold sl_from, sl_len in H. cbn [dat spare] in H. replace ((0 <=? 4) && (4 <=? zlen (a :: b :: c :: d :: l))) with true in H by lia. cbn [bind dat] in H. change (zdrop 4 (a :: b :: c :: d :: l)) with l in H.
  destruct (Z.ltb_spec (zlen l) (c + 256 * d)); [discriminate|]. unfold sl_range, sl_full in H. cbn [dat spare] in H. destruct (_ && _ && _) eqn:C; cbn [bind] in H; [|discriminate].
  assert (U : u16 (4 + (c + 256 * d)) = 4 + (c + 256 * d)).
  { unfold u16 in *. destruct (Z_lt_ge_dec (4 + (c + 256 * d)) 65536); [apply Z.mod_small; lia|]. exfalso. assert (Q : (4 + (c + 256 * d)) mod 65536 = 4 + (c + 256 * d) - 65536) by (symmetry; apply Z.mod_unique with (q := 1); lia). lia. }
  rewrite U in *. injection H as <- <-. unfold payload. cbn [b_type b_data b_size dat fst snd]. change (zdrop 4 (a :: b :: c :: d :: l ++ sp)) with (l ++ sp).
  replace (4 + (c + 256 * d) - 4) with (c + 256 * d) by lia. rewrite ztake_app_le by lia. assert (LT : zlen (ztake (c + 256 * d) l) = c + 256 * d) by (rewrite zlen_ztake; lia).
  exists (zdrop (c + 256 * d) l). unfold enc_rec. cbn [fst snd]. rewrite LT, !put16_bytes by lia. split; [|split; [reflexivity|split; [reflexivity|]]].
  - cbn [app]. do 4 f_equal. symmetry. apply ztake_zdrop.
  - unfold rec_fits. cbn [fst snd]. rewrite LT. unfold u16 in U. pose proof (Z.mod_pos_bound (4 + (c + 256 * d)) 65536 ltac:(lia)). split; lia.
Qed.

(** ** the state of the first pass after the records [rs] *)
Definition split_state (st : bst) (rs : list frec) : Prop :=
  concat (streams_of st) = rs /\ st_sub st = zlen (st_streams st) - 1 /\ st_pos st = zlen (stream rs) /\
  Forall (fun g => exists p t, g = (BOF, p) :: t) (streams_of st) /\
  (forall pos k, zfind pos (st_map st) = Some k <-> exists n, k = Z.of_nat n /\ (n < List.length (streams_of st))%nat /\ pos = offset (streams_of st) n).
Lemma offset_app : forall a b n, (n <= List.length a)%nat -> offset (a ++ b) n = offset a n.
Proof. intros a b n H. unfold offset. rewrite firstn_app. replace (n - List.length a)%nat with 0%nat by lia. cbn [firstn]. rewrite app_nil_r. reflexivity. Qed.
Lemma offset_lt : forall gs n, Forall (fun g => exists p t, g = (BOF, p) :: t) gs -> (n < List.length gs)%nat -> offset gs n < zlen (stream (concat gs)).
Proof.
  intros gs n F H. unfold offset. rewrite <- (firstn_skipn n gs) at 2. rewrite concat_app, stream_app, zlen_app. destruct (skipn n gs) as [|g l] eqn:E; [apply (f_equal (@List.length _)) in E; rewrite skipn_length in E; cbn [List.length] in E; lia|].
  assert (I : In g gs) by (rewrite <- (firstn_skipn n gs), E; apply in_or_app; right; left; reflexivity). rewrite Forall_forall in F. destruct (F g I) as (p & t & ->). cbn [concat]. rewrite stream_app. cbn [app]. rewrite stream_cons. rewrite !zlen_app, zlen_enc_rec.
  pose proof (zlen_nonneg _ (snd (BOF, p))). pose proof (zlen_nonneg _ (stream t)). pose proof (zlen_nonneg _ (stream (concat l))). lia.
Qed.
Lemma state0 : split_state bst0 [].
Proof.
  split; [reflexivity|]. split; [reflexivity|]. split; [reflexivity|]. split; [constructor|]. intros pos k. cbn. split; [discriminate|]. intros (n & _ & H & _). lia.
Qed.
Lemma state_step : forall st st' rs r, split_state st rs -> store (enter st r) r = Ok st' -> split_state st' (rs ++ [payload r]).
Proof.
  intros st st' rs r (E & Su & Po & Bo & Ma) H.
  (* the state after enter: either as before or with a new empty substream *)
  assert (EN : exists m ss sub, (ss = st_streams st /\ m = st_map st /\ sub = st_sub st \/ b_type r = BOF /\ ss = st_streams st ++ [[]] /\ m = zput (st_pos st) (zlen (st_streams st)) (st_map st) /\ sub = zlen (st_streams st)) /\
     st_streams (enter st r) = ss /\ st_map (enter st r) = m /\ st_sub (enter st r) = sub /\ st_pos (enter st r) = zlen (stream (rs ++ [payload r]))).
  { rewrite stream_app, zlen_app, <- Po. unfold stream at 1. cbn [map concat]. rewrite app_nil_r, zlen_enc_rec. unfold enter, payload. cbn [snd]. unfold RecTypeEOF, RecTypeBOF, sl_len. destruct (Z.eqb_spec (b_type r) 10); [do 3 eexists; split; [left; repeat split|repeat split]|].
    destruct (Z.eqb_spec (b_type r) 2057); [|do 3 eexists; split; [left; repeat split|repeat split]]. destruct (st_nest st =? 0); do 3 eexists; (split; [|cbn [st_streams st_map st_sub st_pos]; repeat split]); [right|left]; repeat split; auto. }
  destruct EN as (m & ss & sub & CASES & E1 & E2 & E3 & E4). set (en := enter st r) in *. clearbody en.
  destruct CASES as [(-> & -> & ->)|(TY & -> & -> & ->)].
  - destruct (st_streams st) as [|g0 gs0] eqn:ES.
    { unfold store in H. rewrite E1 in H. replace (idx [] (st_sub en)) with (@Panic (list brec)) in H; [discriminate|]. unfold idx. destruct (0 <=? _); [|reflexivity]. destruct (Z.to_nat _); reflexivity. }
    destruct (exists_last (l := g0 :: gs0) ltac:(discriminate)) as (a & l & EL). rewrite EL in *. rewrite (store_last _ _ a l) in H; [|rewrite E1; reflexivity|rewrite E3, Su, zlen_app; unfold zlen; cbn [List.length]; lia]. injection H as <-.
    unfold split_state, streams_of in *. cbn [st_streams st_sub st_pos st_map]. rewrite ES, !map_app in *. cbn [map] in *. rewrite ?(map_app payload) in *. cbn [map] in *. rewrite concat_app in *. cbn [concat] in *. rewrite !app_nil_r in *. 
    split; [rewrite <- E, <- ?app_assoc; reflexivity|]. split; [rewrite ?E3, ?Su, !zlen_app; unfold zlen; cbn [List.length]; lia|]. split; [rewrite E4; reflexivity|]. split.
    + apply Forall_app in Bo. destruct Bo as [Bo1 Bo2]. apply Forall_app. split; [exact Bo1|]. inversion Bo2 as [|? ? (p & t & Q) _]; subst. constructor; [|constructor]. rewrite Q. exists p, (t ++ [payload r]). reflexivity.
    + intros pos k. rewrite E2, Ma. rewrite !app_length. cbn [List.length]. split; intros (n & -> & Hn & ->); exists n; (split; [reflexivity|]; split; [exact Hn|]); rewrite !offset_app by lia; reflexivity.
  - rewrite (store_last _ _ (st_streams st) []) in H; [|exact E1|exact E3]. injection H as <-. cbn [app].
    unfold split_state. unfold streams_of at 1 2 3 4. cbn [st_streams st_sub st_pos st_map]. rewrite map_app. cbn [map]. fold (streams_of st). rewrite concat_app. cbn [concat]. rewrite app_nil_r.
    split; [rewrite E; reflexivity|]. split; [rewrite ?E3, zlen_app; unfold zlen; cbn [List.length]; lia|]. split; [rewrite E4; reflexivity|]. split.
    + apply Forall_app. split; [exact Bo|]. constructor; [|constructor]. unfold payload. rewrite TY. exists (dat (b_data r)), []. reflexivity.
    + assert (LS : List.length (streams_of st) = List.length (st_streams st)) by (unfold streams_of; apply map_length). intros pos k. rewrite E2. unfold zput. cbn [zfind]. rewrite app_length. cbn [List.length].
      assert (OL : offset (streams_of st ++ [[payload r]]) (List.length (streams_of st)) = st_pos st) by (rewrite offset_app by lia; unfold offset; rewrite firstn_all, E, Po; reflexivity).
      destruct (Z.eqb_spec pos (st_pos st)) as [->|NE].
      * split.
        -- intros Q. injection Q as <-. exists (List.length (streams_of st)). split; [unfold zlen; lia|]. split; [lia|]. symmetry. exact OL.
        -- intros (n & -> & Hn & Hp). f_equal. destruct (Nat.eq_dec n (List.length (streams_of st))) as [->|N]; [unfold zlen; lia|]. exfalso. rewrite offset_app in Hp by lia. pose proof (offset_lt (streams_of st) n Bo ltac:(lia)) as Q. rewrite E in Q. lia.
      * rewrite Ma. split; intros (n & -> & Hn & Hp).
        -- exists n. split; [reflexivity|]. split; [lia|]. rewrite offset_app by lia. exact Hp.
        -- destruct (Nat.eq_dec n (List.length (streams_of st))) as [->|N]; [congruence|]. exists n. split; [reflexivity|]. split; [lia|]. rewrite offset_app in Hp by lia. exact Hp.
Qed.
Lemma split_inv : forall fuel raw dec st st' rs, bytes_ok (dat raw) -> split_state st rs -> split_loop fuel raw dec st = Ok (LDone st') ->
  exists more tail, dat raw = stream more ++ tail /\ zlen tail < 4 /\ Forall (rec_fits 65531) more /\ (dec = false -> Forall (fun r => fst r <> FILEPASS) more) /\ split_state st' (rs ++ more).
Proof.
  induction fuel as [|fuel IH]; intros raw dec st st' rs B S H; cbn [split_loop] in H; [discriminate|].
  destruct (next_record raw) as [[r no]|e| |] eqn:N; try discriminate H.
  - destruct (next_inv _ _ _ B N) as (rest & E & Sz & -> & F). unfold sl_from, sl_len in H. rewrite E, zlen_app, zlen_enc_rec in H. pose proof (zlen_nonneg _ rest). pose proof (zlen_nonneg _ (snd (payload r))).
    replace ((0 <=? 4 + zlen (snd (payload r))) && (4 + zlen (snd (payload r)) <=? 4 + zlen (snd (payload r)) + zlen rest)) with true in H by lia. cbn [bind] in H.
    rewrite (zdrop_app_exact' _ (enc_rec (payload r)) rest) in H by (rewrite zlen_enc_rec; reflexivity). destruct ((b_type r =? RecTypeFilePass) && negb dec) eqn:FP; [discriminate|].
    destruct (store (enter st r) r) as [st1| | |] eqn:ST; cbn [bind] in H; try discriminate H. pose proof (state_step _ _ _ _ S ST) as S1.
    assert (Br : bytes_ok rest) by (rewrite E in B; unfold bytes_ok in *; apply Forall_app in B; tauto).
    destruct (IH (mkSl rest (spare raw)) dec st1 st' (rs ++ [payload r]) Br S1 H) as (more & tail & E2 & T & FM & NF & S2).
    cbn [dat] in E2. exists (payload r :: more), tail. rewrite stream_cons, <- app_assoc, <- E2. split; [exact E|]. split; [exact T|]. split; [constructor; auto|]. split; [|rewrite <- app_assoc in S2; exact S2].
    intros ->. constructor; [|apply NF; reflexivity]. unfold payload. cbn [fst]. change RecTypeFilePass with FILEPASS in FP. cbn [negb] in FP. lia.
  - destruct e; try discriminate H. injection H as <-. exists [], (dat raw). rewrite app_nil_r. split; [reflexivity|]. split; [|split; [constructor|split; [constructor|exact S]]].
    unfold next_record in N. unfold sl_len in N. destruct (Z.ltb_spec (zlen (dat raw)) 4); [assumption|]. exfalso. destruct raw as [raw sp]. cbn [dat] in *.
    destruct raw as [|a [|b [|c [|d l]]]]; try (unfold zlen in *; cbn [List.length] in *; lia). cbn [le16 bind] in N. change (zdrop 2 (a :: b :: c :: d :: l)) with (c :: d :: l) in N. cbn [le16 bind] in N.
    unfold sl_from, sl_range in N. destruct (_ && _) in N; cbn [bind] in N; [|discriminate]. destruct (_ <? _) in N; [discriminate|]. destruct (_ && _) in N; cbn [bind] in N; discriminate.
Qed.
Lemma split_inv_pass : forall fuel raw st data, bytes_ok (dat raw) -> split_loop fuel raw false st = Ok (LFilePass data) ->
  exists before after, dat raw = stream before ++ enc_rec (FILEPASS, dat data) ++ after /\ Forall (rec_fits 65531) before /\ Forall (fun r => fst r <> FILEPASS) before.
Proof.
  induction fuel as [|fuel IH]; intros raw st data B H; cbn [split_loop] in H; [discriminate|].
  destruct (next_record raw) as [[r no]|e| |] eqn:N; try discriminate H; [|destruct e; discriminate H].
  destruct (next_inv _ _ _ B N) as (rest & E & Sz & -> & F). unfold sl_from, sl_len in H. rewrite E, zlen_app, zlen_enc_rec in H. pose proof (zlen_nonneg _ rest). pose proof (zlen_nonneg _ (snd (payload r))).
  replace ((0 <=? 4 + zlen (snd (payload r))) && (4 + zlen (snd (payload r)) <=? 4 + zlen (snd (payload r)) + zlen rest)) with true in H by lia. cbn [bind] in H.
  rewrite (zdrop_app_exact' _ (enc_rec (payload r)) rest) in H by (rewrite zlen_enc_rec; reflexivity). destruct ((b_type r =? RecTypeFilePass) && negb false) eqn:FP.
  - injection H as <-. exists [], rest. split; [|split; constructor]. cbn [stream map concat app]. rewrite E. unfold payload at 1. replace (b_type r) with FILEPASS by (change RecTypeFilePass with FILEPASS in FP; cbn [negb] in FP; lia). reflexivity.
  - destruct (store (enter st r) r) as [st1| | |] eqn:ST; cbn [bind] in H; try discriminate H.
    assert (Br : bytes_ok rest) by (rewrite E in B; unfold bytes_ok in *; apply Forall_app in B; tauto).
    destruct (IH (mkSl rest (spare raw)) st1 data Br H) as (before & after & E2 & FB & NF). cbn [dat] in E2. exists (payload r :: before), after. rewrite stream_cons, <- app_assoc, <- E2. split; [exact E|]. split; [constructor; auto|]. constructor; [|auto].
    unfold payload. cbn [fst]. change RecTypeFilePass with FILEPASS in FP. cbn [negb] in FP. lia.
Qed.
