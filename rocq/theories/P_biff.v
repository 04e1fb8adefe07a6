(** * P_biff: C44, C45, C46 — record streams, substreams and encrypted workbooks. *)
From Verif Require Import GoBase GoCrypto L_base M_crypto S_crypto L_crypto M_biff S_biff M_cfb S_cfb L_cfb P_crypto L_biff.
From Coq Require Import ZifyBool.

(** The observable content of the loader's state: per substream the (type, payload) list
    ([payload], L_biff). *)
Definition streams_of (st : bst) : list (list frec) := map (map payload) (st_streams st).

(** ** C45 *)
Lemma feed_ok : forall brs st a l, st_streams st = a ++ [l] -> st_sub st = zlen a ->
  exists st', feed_records brs st = Ok st' /\ concat (st_streams st') = concat (st_streams st) ++ brs /\
    (exists a' l', st_streams st' = a' ++ [l'] /\ st_sub st' = zlen a').
Proof.
  induction brs as [|r brs IH]; intros st a l E1 E2; cbn [feed_records].
  - exists st. rewrite app_nil_r. eauto 6.
  - assert (EN : exists a1 l1, st_streams (enter st r) = a1 ++ [l1] /\ st_sub (enter st r) = zlen a1 /\ concat (st_streams (enter st r)) = concat (st_streams st)).
    { unfold enter. destruct (b_type r =? RecTypeEOF); [|destruct (b_type r =? RecTypeBOF); [|cbn [st_streams st_sub]; eauto]].
      - cbn [st_streams st_sub]. eauto.
      - destruct (st_nest st =? 0); cbn [st_streams st_sub]; eauto. exists (st_streams st), []. rewrite concat_app. cbn [concat]. rewrite !app_nil_r. auto. }
    destruct EN as (a1 & l1 & N1 & N2 & N3). erewrite store_last; eauto. cbn [bind].
    match goal with |- context [feed_records brs ?s] => set (s2 := s) end.
    destruct (IH s2 a1 (l1 ++ [r])) as (st' & F & C & I); auto. exists st'. split; auto. split; auto.
    rewrite C. unfold s2. cbn [st_streams]. rewrite <- N3, N1. rewrite !concat_app. cbn [concat]. rewrite !app_nil_r, <- !app_assoc. reflexivity.
Qed.
Lemma feed_bof : forall r brs, b_type r = BOF -> exists st', feed_records (r :: brs) bst0 = Ok st' /\ concat (st_streams st') = r :: brs.
Proof.
  intros r brs HB. cbn [feed_records]. assert (EN : enter bst0 r = mkBst 0 1 (4 + sl_len (b_data r)) [[]] [(0, 0)]).
  { unfold enter. rewrite HB. reflexivity. }
  rewrite EN. rewrite (store_last _ r [] []) by reflexivity. cbn [bind app]. 
  match goal with |- context [feed_records brs ?s] => set (s2 := s) end.
  destruct (feed_ok brs s2 [] [r] eq_refl eq_refl) as (st' & F & C & _). exists st'. rewrite C. auto.
Qed.
Lemma concat_payload : forall st, concat (streams_of st) = map payload (concat (st_streams st)).
Proof. intros. unfold streams_of. symmetry. apply concat_map. Qed.

(** Splitting a stream recovers exactly the records it was assembled from, in order; fewer
    than four trailing bytes are ignored. *)
Theorem C45_framing : forall p rs tail sp, let all := (BOF, p) :: rs in
  Forall (rec_fits 65531) all -> Forall (fun r => fst r <> FILEPASS) all -> zlen tail < 4 ->
  exists st, split_workbook (mkSl (stream all ++ tail) sp) [] = Ok st /\ concat (streams_of st) = all /\
    Forall (fun r => b_size r = sl_len (b_data r)) (concat (st_streams st)).
Proof.
  intros p rs tail sp all F NF HT. unfold split_workbook. rewrite split_stream_records by auto.
  unfold all at 1. cbn [brecs]. match goal with |- context [feed_records (?r :: ?brs) bst0] => destruct (feed_bof r brs eq_refl) as (st & E & C) end.
  rewrite E. cbn [bind]. exists st. split; auto. rewrite concat_payload, C. change (map payload (?r :: ?b)) with (payload r :: map payload b). split.
  - rewrite brecs_payload. reflexivity.
  - constructor; [reflexivity|]. clear. induction rs as [|r rs IH]; cbn [brecs]; constructor; auto.
Qed.
(** A record whose declared size exceeds the rest of the stream is an unexpected-EOF error. *)
Theorem C45_truncated : forall p rs ty n part sp, let all := (BOF, p) :: rs in
  Forall (rec_fits 65531) all -> Forall (fun r => fst r <> FILEPASS) all -> 0 <= ty < 65536 -> zlen part < n < 65536 ->
  split_workbook (mkSl (stream all ++ put16 ty ++ put16 n ++ part) sp) [] = Err EUnexpectedEOF.
Proof.
  intros p rs ty n part sp all F NF HT HP. unfold split_workbook, split_stream. cbn [dat].
  destruct (split_loop_records all (S (List.length (stream all ++ put16 ty ++ put16 n ++ part))) (put16 ty ++ put16 n ++ part) sp false bst0 F (or_intror NF)) as (f & L & E).
  { rewrite app_length. lia. }
  rewrite E. unfold all at 1. cbn [brecs]. match goal with |- context [feed_records (?r :: ?brs) bst0] => destruct (feed_bof r brs eq_refl) as (st & E2 & C) end.
  rewrite E2. cbn [bind]. rewrite app_length in L. destruct f as [|f]; [lia|]. cbn [split_loop].
  replace (next_record (mkSl (put16 ty ++ put16 n ++ part) sp)) with (@Err (brec * Z) EUnexpectedEOF); [reflexivity|].
  pose proof (zlen_nonneg _ part). unfold next_record, sl_len. cbn [dat]. rewrite !zlen_app, !zlen_put16. destruct (Z.ltb_spec (2 + (2 + zlen part)) 4); [lia|].
  rewrite le16_put16 by lia. cbn [bind]. change (zdrop 2 (put16 ty ++ ?x)) with x. rewrite le16_put16 by lia. cbn [bind].
  unfold sl_from, sl_len. cbn [dat spare]. rewrite !zlen_app, !zlen_put16. destruct (Z.leb_spec 4 (2 + (2 + zlen part))); [|lia].
  change (0 <=? 4) with true. cbn [andb bind]. change (zdrop 4 (put16 ty ++ put16 n ++ ?x)) with x. unfold sl_len. cbn [dat].
  destruct (Z.ltb_spec (zlen part) n); [reflexivity|lia].
Qed.
(** Violated for declared sizes 65532..65535: the reader panics although the payload is there. *)
Theorem C45_large_record_refuted : forall p rs r rest sp, let all := (BOF, p) :: rs in
  Forall (rec_fits 65531) all -> Forall (fun r => fst r <> FILEPASS) all -> 0 <= fst r < 65536 -> 65532 <= zlen (snd r) < 65536 ->
  split_workbook (mkSl (stream all ++ enc_rec r ++ rest) sp) [] = Panic.
Proof.
  intros p rs [ty q] rest sp all F NF HT HP. cbn [fst snd] in *. unfold split_workbook, split_stream. cbn [dat].
  destruct (split_loop_records all (S (List.length (stream all ++ enc_rec (ty, q) ++ rest))) (enc_rec (ty, q) ++ rest) sp false bst0 F (or_intror NF)) as (f & L & E).
  { rewrite app_length. lia. }
  rewrite E. unfold all at 1. cbn [brecs]. match goal with |- context [feed_records (?r :: ?brs) bst0] => destruct (feed_bof r brs eq_refl) as (st & E2 & C) end.
  rewrite E2. cbn [bind]. rewrite app_length in L. destruct f as [|f]; [lia|]. cbn [split_loop].
  replace (next_record (mkSl (enc_rec (ty, q) ++ rest) sp)) with (@Panic (brec * Z)); [reflexivity|].
  unfold enc_rec. cbn [fst snd]. pose proof (zlen_nonneg _ rest). unfold next_record, sl_len. cbn [dat]. rewrite <- !app_assoc, !zlen_app, !zlen_put16. destruct (Z.ltb_spec (2 + (2 + (zlen q + zlen rest))) 4); [lia|].
  rewrite le16_put16 by lia. cbn [bind]. change (zdrop 2 (put16 ty ++ ?x)) with x. rewrite le16_put16 by lia. cbn [bind].
  unfold sl_from, sl_len. cbn [dat spare]. rewrite !zlen_app, !zlen_put16. destruct (Z.leb_spec 4 (2 + (2 + (zlen q + zlen rest)))); [|lia].
  change (0 <=? 4) with true. cbn [andb bind]. change (zdrop 4 (put16 ty ++ put16 ?n ++ ?x)) with x. unfold sl_len. cbn [dat]. rewrite zlen_app.
  destruct (Z.ltb_spec (zlen q + zlen rest) (zlen q)); [lia|]. unfold sl_range.
  assert (U : u16 (4 + zlen q) = 4 + zlen q - 65536) by (unfold u16; symmetry; apply Z.mod_unique with 1; lia). rewrite U.
  destruct (Z.leb_spec 4 (4 + zlen q - 65536)); [lia|]. rewrite andb_false_r. reflexivity.
Qed.

(** ** C46 *)
Lemma brecs_sizes : forall rs rest, Forall (fun r => b_size r = sl_len (b_data r)) (brecs rs rest).
Proof. induction rs as [|r rs IH]; intros; cbn [brecs]; constructor; auto. Qed.
Lemma group_recs_sizes : forall gs rest, Forall (Forall (fun r => b_size r = sl_len (b_data r))) (group_recs gs rest).
Proof. induction gs as [|g gs IH]; intros; cbn [group_recs]; constructor; auto. apply brecs_sizes. Qed.
(** The byte offset of the k-th group. *)
Definition offset (gs : list (list frec)) (k : nat) : Z := zlen (stream (concat (firstn k gs))).
Lemma group_map_offset : forall gs pos k, Forall group gs ->
  (zfind pos (group_map gs 0 0 []) = Some k <-> exists n, k = Z.of_nat n /\ (n < List.length gs)%nat /\ pos = offset gs n).
Proof.
  intros gs pos k G. rewrite group_map_find by (auto; intros; discriminate).
  assert (GEN : forall l p0 k0 pre, p0 = zlen (stream pre) -> 0 <= k0 -> Forall group l ->
    (fix find (l : list (list frec)) (k p : Z) := match l with [] => zfind pos [] | g :: l => if pos =? p then Some k else find l (k + 1) (p + zlen (stream g)) end) l k0 p0 = Some k <->
    exists n, k = k0 + Z.of_nat n /\ (n < List.length l)%nat /\ pos = zlen (stream (pre ++ concat (firstn n l)))).
  { induction l as [|g l IH]; intros p0 k0 pre HP HK HG.
    - cbn [zfind List.length]. split; [discriminate|]. intros (n & _ & Hn & _). lia.
    - inversion HG as [|? ? G1 G2]; subst p0. pose proof (group_stream_pos _ G1). destruct (Z.eqb_spec pos (zlen (stream pre))) as [->|NE].
      + split.
        * intros Q. injection Q as <-. exists 0%nat. cbn [firstn concat List.length]. rewrite app_nil_r. repeat split; lia.
        * intros (n & -> & Hn & Hp). destruct n; [f_equal; lia|]. exfalso. cbn [firstn concat] in Hp. rewrite !stream_app, !zlen_app in Hp. pose proof (zlen_nonneg _ (stream (concat (firstn n l)))). lia.
      + rewrite (IH _ (k0 + 1) (pre ++ g)) by (auto; try lia; rewrite stream_app, zlen_app; lia). split.
        * intros (n & -> & Hn & ->). exists (S n). cbn [firstn concat List.length]. rewrite <- app_assoc. repeat split; lia.
        * intros (n & -> & Hn & ->). destruct n as [|n]; [cbn [firstn concat] in NE; rewrite app_nil_r in NE; congruence|]. exists n. cbn [firstn concat List.length] in *. rewrite <- app_assoc. repeat split; lia. }
  rewrite (GEN gs 0 0 []) by (auto; lia). unfold offset. cbn [app]. split; intros (n & -> & Hn & ->); exists n; repeat split; lia.
Qed.
Theorem C46_substreams : forall gs tail sp sp2, Forall group gs -> Forall (Forall (rec_fits 65531)) gs ->
  Forall (Forall (fun r => fst r <> FILEPASS)) gs -> zlen tail < 4 ->
  exists st, split_workbook (mkSl (stream (concat gs) ++ tail) sp) sp2 = Ok st /\ streams_of st = gs /\
    Forall (Forall (fun r => b_size r = sl_len (b_data r))) (st_streams st) /\
    (forall pos k, zfind pos (st_map st) = Some k <-> exists n, k = Z.of_nat n /\ (n < List.length gs)%nat /\ pos = offset gs n).
Proof.
  intros gs tail sp sp2 G F NF HT. unfold split_workbook. rewrite split_stream_records; auto.
  2:{ clear G NF. induction F; cbn [concat]; [constructor|]. apply Forall_app; auto. }
  2:{ right. clear G F. induction NF; cbn [concat]; [constructor|]. apply Forall_app; auto. }
  destruct (feed_groups gs (tail ++ sp) bst0 G eq_refl) as (sub & E). rewrite E. cbn [bind]. eexists. split; [reflexivity|].
  cbn [bst0 st_streams st_pos st_map]. split; [apply group_recs_payload|]. split; [apply group_recs_sizes|]. intros pos k. cbn [app]. change (zlen (@nil (list brec))) with 0.
  apply group_map_offset. exact G.
Qed.
(** A stream whose first record is neither BOF nor an encryption marker makes the loader
    panic. *)
Theorem C46_no_bof_refuted : forall ty p rs tail sp, ty <> BOF -> ty <> FILEPASS -> rec_fits 65531 (ty, p) ->
  split_workbook (mkSl (stream ((ty, p) :: rs) ++ tail) sp) [] = Panic.
Proof.
  intros ty p rs tail sp N1 N2 F. unfold split_workbook, split_stream. cbn [split_loop dat]. rewrite stream_cons, <- app_assoc, next_record_ok by auto. cbn [fst snd].
  unfold sl_from, sl_len. cbn [dat spare]. rewrite zlen_app, zlen_enc_rec. cbn [snd]. pose proof (zlen_nonneg _ p). pose proof (zlen_nonneg _ (stream rs ++ tail)).
  destruct (Z.leb_spec 0 (4 + zlen p)); [|lia]. destruct (Z.leb_spec (4 + zlen p) (4 + zlen p + zlen (stream rs ++ tail))); [|lia]. cbn [andb bind b_type].
  destruct (Z.eqb_spec ty RecTypeFilePass) as [Q|_]; [elim N2; exact Q|]. cbn [andb]. unfold store, enter. cbn [b_type].
  destruct (ty =? RecTypeEOF); [reflexivity|]. destruct (Z.eqb_spec ty RecTypeBOF) as [Q|_]; [elim N1; exact Q|]. reflexivity.
Qed.

(** ** C44 *)
(** The decrypting loader turns the encrypted stream of rs back into the stream of rs (minus
    its last record when that is empty), whatever the key. *)
Theorem C44_decrypts : forall rs key dec sp, Forall encryptable rs -> Forall (rec_fits 65535) rs -> ready dec key 0 [] ->
  decrypt_stream (mkSl (stream (enc_recs key 0 rs)) sp) dec = Ok (stream (trim_last rs)).
Proof. exact decrypt_stream_ok. Qed.

Lemma enc_recs_app : forall a b key pos, enc_recs key pos (a ++ b) = enc_recs key pos a ++ enc_recs key (pos + zlen (stream a)) b.
Proof.
  induction a as [|r a IH]; intros b key pos; cbn [app enc_recs].
  - rewrite Z.add_0_r. reflexivity.
  - rewrite IH, stream_cons, zlen_app, zlen_enc_rec. do 3 f_equal. lia.
Qed.
Lemma trim_bof : forall p rs x, exists rs', trim_last ((BOF, p) :: rs ++ [x]) = (BOF, p) :: rs'.
Proof. intros. destruct rs; eexists; reflexivity. Qed.

(** Opening an encrypted workbook (default password): the FilePass record carries the salt and
    the encrypted verifier, everything is encrypted as MS-XLS prescribes.  Every record comes
    back with its plaintext payload, grouped exactly as the plaintext stream would be. *)
Theorem C44_open : forall p pre post salt verifier sp sp2, bytes_ok salt -> zlen salt = 16 -> zlen verifier = 16 ->
  let rs := (BOF, p) :: pre ++ (FILEPASS, put16 1 ++ rc4_header default_password salt verifier) :: post in
  post <> [] -> Forall encryptable rs -> Forall (rec_fits 65531) rs -> Forall (fun r => fst r <> FILEPASS) pre ->
  exists st, split_workbook (mkSl (stream (enc_recs (base_key default_password salt) 0 rs)) sp) sp2 = Ok st /\
    concat (streams_of st) = trim_last rs /\
    split_stream (mkSl (stream (trim_last rs)) sp2) true = Ok (LDone st).
Proof.
  intros p pre post salt verifier sp sp2 BO LS LV rs NP FE FF NF. set (key := base_key default_password salt).
  destruct (C43_decrypts salt verifier [] [] BO LS LV) as (dec & _ & _ & NB & _). { cbn [concat]. symmetry. apply zlen_0. rewrite crypt_length. reflexivity. }
  assert (RD : ready dec key 0 []).
  { destruct (C42_new_ready _ _ NB) as [R _]. replace (ztake 16 (zdrop 4 (rc4_header default_password salt verifier))) with salt in R; auto.
    unfold rc4_header. change (zdrop 4 (put16 1 ++ put16 1 ++ ?x)) with x. rewrite ztake_app_exact'; auto. }
  set (fp := put16 1 ++ rc4_header default_password salt verifier) in *.
  (* the first pass stops at FilePass *)
  assert (SP : exists st0 data, dat data = fp /\ split_stream (mkSl (stream (enc_recs key 0 rs)) sp) false = Ok (LFilePass data) /\ st0 = bst0).
  { set (a := (BOF, p) :: pre). assert (RA : rs = a ++ (FILEPASS, fp) :: post) by reflexivity. 
    rewrite RA, enc_recs_app in *. cbn [enc_recs fst]. set (tl := enc_recs key _ post).
    assert (FA : Forall encryptable a) by (apply Forall_app in FE; tauto).
    assert (EP : enc_payload key (0 + zlen (stream a)) (FILEPASS, fp) = fp).
    { unfold enc_payload. change (clear_len (FILEPASS, fp)) with (zlen fp). cbn [snd]. rewrite ztake_all, zdrop_all by lia.
      replace (crypt key (0 + zlen (stream a) + 4 + zlen fp) []) with (@nil Z); [apply app_nil_r|]. symmetry. apply zlen_0. rewrite crypt_length. reflexivity. }
    rewrite EP, stream_app, stream_cons. unfold split_stream. cbn [dat].
    set (rest := enc_rec (FILEPASS, fp) ++ stream tl).
    destruct (split_loop_records (enc_recs key 0 a) (S (List.length (stream (enc_recs key 0 a) ++ rest))) rest sp false bst0) as (f & L & E).
    - apply Forall_app in FF. destruct FF as [FF _]. clear - FF FA. revert FF FA. generalize 0 as pos. induction a as [|r a IH]; intros pos F1 F2; cbn [enc_recs]; [constructor|].
      inversion F1 as [|? ? Q1 Q2]; inversion F2; subst. constructor; auto. destruct Q1. split; cbn [fst snd]; auto. rewrite zlen_enc_payload; auto.
    - right. assert (NA : Forall (fun r => fst r <> FILEPASS) a) by (constructor; [discriminate|exact NF]). clear - NA. revert NA. generalize 0 as pos. induction a; intros pos NA; cbn [enc_recs]; [constructor|]. inversion NA; subst. constructor; auto.
    - rewrite app_length. lia.
    - rewrite E. unfold a at 1. cbn [enc_recs brecs]. match goal with |- context [feed_records (?r :: ?brs) bst0] => destruct (feed_bof r brs eq_refl) as (st & E2 & C) end.
      rewrite E2. cbn [bind]. rewrite app_length in L. destruct f as [|f]; [lia|]. cbn [split_loop]. unfold rest.
      assert (FIT : rec_fits 65531 (FILEPASS, fp)). { apply Forall_app in FF. destruct FF as [_ FF]. inversion FF; auto. }
      rewrite next_record_ok by auto. cbn [fst snd]. unfold sl_from, sl_len. cbn [dat spare]. rewrite zlen_app, zlen_enc_rec. cbn [snd].
      pose proof (zlen_nonneg _ fp). pose proof (zlen_nonneg _ (stream tl)).
      destruct (Z.leb_spec 0 (4 + zlen fp)); [|lia]. destruct (Z.leb_spec (4 + zlen fp) (4 + zlen fp + zlen (stream tl))); [|lia]. cbn [andb bind b_type].
      change (FILEPASS =? RecTypeFilePass) with true. cbn [andb negb]. exists bst0. eexists. split; [|split; [reflexivity|auto]]. reflexivity. }
  destruct SP as (st0 & data & DD & SP & _). clear st0.
  assert (FT : Forall (rec_fits 65531) (trim_last rs)) by (apply trim_forall; auto).
  assert (TR : exists rs', trim_last rs = (BOF, p) :: rs').
  { destruct (exists_last NP) as (post' & x & ->). unfold rs. destruct (trim_bof p (pre ++ (FILEPASS, fp) :: post') x) as (rs' & Q). exists rs'.
    rewrite <- Q. f_equal. f_equal. rewrite <- app_assoc. reflexivity. }
  destruct TR as (rs' & TR).
  assert (S2 : exists st, split_stream (mkSl (stream (trim_last rs)) sp2) true = Ok (LDone st) /\ concat (streams_of st) = trim_last rs).
  { pose proof (split_stream_records (trim_last rs) [] sp2 true FT (or_introl eq_refl) eq_refl) as Q. rewrite app_nil_r in Q. rewrite Q.
    rewrite TR. cbn [brecs]. match goal with |- context [feed_records (?r :: ?brs) bst0] => destruct (feed_bof r brs eq_refl) as (st & E2 & C) end.
    rewrite E2. cbn [bind]. exists st. split; auto. rewrite concat_payload, C. change (map payload (?r :: ?b)) with (payload r :: map payload b). rewrite brecs_payload. reflexivity. }
  destruct S2 as (st & S2 & CP). exists st. split; [|auto]. unfold split_workbook. rewrite SP. cbn [bind]. rewrite DD.
  unfold fp at 1. rewrite le16_put16 by lia. cbn [bind]. change (1 =? 1) with true. unfold sl_from, sl_len. rewrite DD.
  assert (LF : 2 <= zlen fp). { unfold fp. rewrite zlen_app, zlen_put16. pose proof (zlen_nonneg _ (rc4_header default_password salt verifier)). lia. }
  destruct (Z.leb_spec 2 (zlen fp)); [|lia]. change (0 <=? 2) with true. cbn [andb bind dat]. unfold fp at 1. change (zdrop 2 (put16 1 ++ ?x)) with x. rewrite NB. cbn [bind].
  assert (FF' : Forall (rec_fits 65535) rs) by (eapply Forall_impl; [|exact FF]; intros r [? ?]; split; auto; lia).
  rewrite (C44_decrypts rs key dec sp FE FF' RD). cbn [bind]. rewrite S2. reflexivity.
Qed.
(** Any other encryption method is reported as an error. *)
Theorem C44_other_methods : forall p pre m data post sp sp2, 0 <= m < 65536 -> m <> 1 ->
  let rs := (BOF, p) :: pre ++ (FILEPASS, put16 m ++ data) :: post in
  Forall (rec_fits 65531) rs -> Forall (fun r => fst r <> FILEPASS) pre ->
  exists e, split_workbook (mkSl (stream rs) sp) sp2 = Err e /\ (e = ECryptoAPI \/ e = EEncMethod).
Proof.
  intros p pre m data post sp sp2 HM N1 rs FF NF. set (fp := put16 m ++ data) in *. set (a := (BOF, p) :: pre). assert (RA : rs = a ++ (FILEPASS, fp) :: post) by reflexivity.
  unfold split_workbook, split_stream. rewrite RA in *. rewrite stream_app, stream_cons. cbn [dat]. set (rest := enc_rec (FILEPASS, fp) ++ stream post). apply Forall_app in FF. destruct FF as [FA FF].
  destruct (split_loop_records a (S (List.length (stream a ++ rest))) rest sp false bst0 FA) as (f & L & E).
  { right. constructor; [discriminate|exact NF]. }
  { rewrite app_length. lia. }
  rewrite E. unfold a at 1. cbn [brecs]. match goal with |- context [feed_records (?r :: ?brs) bst0] => destruct (feed_bof r brs eq_refl) as (st & E2 & C) end.
  rewrite E2. cbn [bind]. rewrite app_length in L. destruct f as [|f]; [lia|]. cbn [split_loop]. unfold rest.
  assert (FIT : rec_fits 65531 (FILEPASS, fp)) by (inversion FF; auto). rewrite next_record_ok by auto. cbn [fst snd]. unfold sl_from, sl_len. cbn [dat spare]. rewrite zlen_app, zlen_enc_rec. cbn [snd].
  pose proof (zlen_nonneg _ fp). pose proof (zlen_nonneg _ (stream post)).
  destruct (Z.leb_spec 0 (4 + zlen fp)); [|lia]. destruct (Z.leb_spec (4 + zlen fp) (4 + zlen fp + zlen (stream post))); [|lia]. cbn [andb bind b_type].
  change (FILEPASS =? RecTypeFilePass) with true. cbn [andb negb bind b_data dat]. unfold fp at 1. rewrite le16_put16 by lia. cbn [bind].
  destruct (Z.eqb_spec m 1); [lia|]. destruct ((m =? 2) || (m =? 3) || (m =? 4)); eauto.
Qed.

(** ** examples *)
Definition ex_group : list frec := [(BOF, repeat 6 16); (66, [1; 2]); (BOF, repeat 0 16); (EOFR, []); (133, [1; 0; 0; 0; 9; 9]); (EOFR, [])].
Example ex_group_ok : group ex_group.
Proof.
  exists (repeat 6 16), [(66, [1; 2]); (BOF, repeat 0 16); (EOFR, []); (133, [1; 0; 0; 0; 9; 9])], []. split; [reflexivity|].
  apply ne_rec; [discriminate|discriminate|]. apply (ne_group (repeat 0 16) [] [] [(133, [1; 0; 0; 0; 9; 9])]); [constructor|]. apply ne_rec; [discriminate|discriminate|constructor].
Qed.
Ltac fits := repeat (constructor; [split; vm_compute; intuition congruence|]); constructor.
Example ex_C46 : exists st, split_workbook (mkSl (stream (concat [ex_group; ex_group])) []) [] = Ok st /\ streams_of st = [ex_group; ex_group] /\ zfind 64 (st_map st) = Some 1.
Proof.
  destruct (C46_substreams [ex_group; ex_group] [] [] []) as (st & E & S & M).
  - repeat constructor; apply ex_group_ok.
  - constructor; [fits|]. constructor; [fits|constructor].
  - constructor; [repeat (constructor; [discriminate|]); constructor|]. constructor; [repeat (constructor; [discriminate|]); constructor|constructor].
  - reflexivity.
  - rewrite app_nil_r in E. exists st. split; [exact E|]. split; [exact S|]. apply M. exists 1%nat. split; [reflexivity|]. split; [simpl; lia|reflexivity].
Qed.
Definition ex_enc : list frec := (BOF, repeat 6 16) :: [] ++ (FILEPASS, put16 1 ++ rc4_header default_password ex_salt ex_verifier) :: [(133, [1; 0; 0; 0; 9; 9]); (252, bs "secret strings"); (EOFR, [])].
Lemma rc4_header_len : forall pw salt v, zlen salt = 16 -> zlen v = 16 -> zlen (rc4_header pw salt v) = 52.
Proof. intros. unfold rc4_header. rewrite !zlen_app, crypt_length, zlen_app, !zlen_put16, md5_length. lia. Qed.
Lemma filepass_ok : forall fp, zlen fp = 54 -> encryptable (FILEPASS, fp) /\ rec_fits 65531 (FILEPASS, fp).
Proof. intros fp L. unfold encryptable, rec_fits. cbn [fst snd]. rewrite L. unfold FILEPASS, BOUNDSHEET. intuition lia. Qed.
Example ex_C44 : exists st, split_workbook (mkSl (stream (enc_recs (base_key default_password ex_salt) 0 ex_enc)) []) [] = Ok st /\
  concat (streams_of st) = [(BOF, repeat 6 16); (FILEPASS, put16 1 ++ rc4_header default_password ex_salt ex_verifier); (133, [1; 0; 0; 0; 9; 9]); (252, bs "secret strings")].
Proof.
  assert (L : zlen (put16 1 ++ rc4_header default_password ex_salt ex_verifier) = 54) by (rewrite zlen_app, rc4_header_len by reflexivity; reflexivity).
  destruct (C44_open (repeat 6 16) [] [(133, [1; 0; 0; 0; 9; 9]); (252, bs "secret strings"); (EOFR, [])] ex_salt ex_verifier [] []) as (st & E & C & _).
  - apply Forall_forall. intros x Hx. vm_compute in Hx. intuition lia.
  - reflexivity.
  - reflexivity.
  - discriminate.
  - constructor; [split; vm_compute; intuition congruence|]. constructor; [|repeat (constructor; [split; vm_compute; intuition congruence|]); constructor].
    exact (proj1 (filepass_ok _ L)).
  - constructor; [split; vm_compute; intuition congruence|]. constructor; [|repeat (constructor; [split; vm_compute; intuition congruence|]); constructor].
    exact (proj2 (filepass_ok _ L)).
  - constructor.
  - exists st. split; [exact E|exact C].
Qed.
(** the encrypted payloads differ from the plaintext *)
Example ex_enc_differs : stream (enc_recs (base_key default_password ex_salt) 0 ex_enc) <> stream ex_enc.
Proof. vm_compute. discriminate. Qed.

Print Assumptions C44_decrypts.
Print Assumptions C44_open.
Print Assumptions C44_other_methods.
Print Assumptions C45_framing.
Print Assumptions C45_truncated.
Print Assumptions C45_large_record_refuted.
Print Assumptions C46_substreams.
Print Assumptions C46_no_bof_refuted.
