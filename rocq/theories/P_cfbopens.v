(** * P_cfbopens: C106, the other direction: whatever the tables of an accepted file lead to is read. *)
From Verif Require Import GoBase GoUnicode L_base M_slicereader S_slicereader L_slicereader P_slicereader M_cfb S_cfb L_cfb P_cfb S_cfbsays P_cfbsays.

(** ** the tables *)
Lemma one_sector_fwd : forall data sp sz nent s acc, 0 < sz -> 4 * Z.of_nat nent = sz -> inside data sz s ->
  sl_from (mkSl data sp) (place sz s) = Ok (mkSl (zdrop (place sz s) data) sp) /\
  read_entries nent (zdrop (place sz s) data) acc = Ok (acc ++ words (block data sz s), zdrop (place sz s + sz) data) /\
  (sl_len (mkSl data sp) <=? place sz s) = false.
Proof.
  intros data sp sz nent s acc Z N I. unfold inside in I. pose proof (place_nonneg sz s Z). split; [rewrite sl_from_ok by (cbn [dat]; lia); reflexivity|]. split.
  - rewrite read_entries_spec by (rewrite zlen_zdrop by lia; lia). rewrite N, zdrop_zdrop by lia. reflexivity.
  - unfold sl_len. cbn [dat]. lia.
Qed.
Lemma load_fat_fwd : forall data sp shift sz nent, 2 ^ shift = sz -> 0 < sz -> 4 * Z.of_nat nent = sz ->
  forall sids acc, Forall (inside data sz) (until_free sids) ->
  load_fat (mkSl data sp) shift nent sids acc = Ok (acc ++ table data sz (until_free sids)).
Proof.
  intros data sp shift sz nent P Z N. induction sids as [|s r IH]; intros acc F; cbn [load_fat until_free] in *.
  - cbn [table flat_map]. rewrite app_nil_r. reflexivity.
  - change secFree with FREESECT. destruct (s =? FREESECT); [cbn [table flat_map]; rewrite app_nil_r; reflexivity|]. inversion F as [|? ? I F2]; subst x l.
    rewrite (sec_off_place _ _ _ P). destruct (one_sector_fwd data sp sz nent s acc Z N I) as (A & B & C). rewrite C, A. cbn [bind dat]. rewrite B. cbn [bind]. rewrite IH by exact F2. cbn [table flat_map]. rewrite <- app_assoc. reflexivity.
Qed.
Lemma difat_entries_fwd : forall data sp shift sz nent, 2 ^ shift = sz -> 0 < sz -> 4 * Z.of_nat nent = sz ->
  forall n l acc, 4 * Z.of_nat n <= zlen l -> let fs := filter used_entry (words (ztake (4 * Z.of_nat n) l)) in Forall (inside data sz) fs ->
  difat_entries (mkSl data sp) shift nent n l acc = Ok (acc ++ table data sz fs, zdrop (4 * Z.of_nat n) l).
Proof.
  intros data sp shift sz nent P Z N. induction n as [|n IH]; intros l acc L fs F; cbn [difat_entries]; unfold fs in *; clear fs.
  - change (4 * Z.of_nat 0) with 0. rewrite ztake_0, zdrop_0. cbn [words filter table flat_map]. rewrite app_nil_r. reflexivity.
  - rewrite le32_val by lia. cbn [bind].
    assert (WS : words (ztake (4 * Z.of_nat (S n)) l) = le_val (ztake 4 l) :: words (ztake (4 * Z.of_nat n) (zdrop 4 l))).
    { rewrite words_cons by (rewrite zlen_ztake by lia; lia). rewrite ztake_ztake by lia. rewrite zdrop_ztake by lia. do 3 f_equal. lia. }
    rewrite WS in *. cbn [filter] in *. change (used_entry (le_val (ztake 4 l))) with (negb (le_val (ztake 4 l) =? secFree) && negb (le_val (ztake 4 l) =? secEndOfChain)) in *. rewrite <- negb_orb in *. set (v := le_val (ztake 4 l)) in *.
    assert (ZD : zlen (zdrop 4 l) = zlen l - 4) by (rewrite zlen_zdrop; lia). replace (zdrop (4 * Z.of_nat (S n)) l) with (zdrop (4 * Z.of_nat n) (zdrop 4 l)) by (rewrite zdrop_zdrop by lia; f_equal; lia).
    destruct ((v =? secFree) || (v =? secEndOfChain)) eqn:U; cbn [negb] in *.
    + apply IH; [lia|exact F].
    + pose proof (Forall_inv F) as I; pose proof (Forall_inv_tail F) as F2; cbn beta in I. rewrite (sec_off_place _ _ _ P). destruct (one_sector_fwd data sp sz nent v acc Z N I) as (A & B & C). rewrite C, A. cbn [bind dat]. rewrite B. cbn [bind]. rewrite IH; [|lia|exact F2]. cbn [table flat_map]. rewrite <- app_assoc. reflexivity.
Qed.
Lemma difat_loop_fwd : forall data sp shift sz nent, 2 ^ shift = sz -> 0 < sz -> 4 * Z.of_nat nent = sz ->
  forall s fs, more_fats data sz s fs -> Forall (inside data sz) fs ->
  exists N, forall fuel acc, (N <= fuel)%nat -> difat_loop fuel (mkSl data sp) shift nent s acc = Ok (acc ++ table data sz fs).
Proof.
  intros data sp shift sz nent P Z N s fs M. induction M as [|s es t fs NE I W M IH]; intros F.
  - exists 0%nat. intros fuel acc _. cbn [table flat_map]. rewrite app_nil_r. destruct fuel; reflexivity.
  - apply Forall_app in F. destruct F as [F1 F2]. destruct (IH F2) as (K & HK). exists (S K). intros fuel acc Fu. destruct fuel as [|fuel]; [lia|]. cbn [difat_loop]. change secEndOfChain with ENDOFCHAIN. destruct (Z.eqb_spec s ENDOFCHAIN) as [|_]; [contradiction|].
    rewrite (sec_off_place _ _ _ P). destruct (one_sector_fwd data sp sz nent s acc Z N I) as (A & _ & _). rewrite A. cbn [bind dat]. unfold inside in I. pose proof (place_nonneg sz s Z).
    assert (LB : zlen (block data sz s) = sz) by (apply block_len; auto). rewrite (words_snoc (block data sz s) nent) in W by lia. apply app_inj_tail in W. destruct W as [W1 W2].
    assert (ES : ztake (4 * Z.of_nat (nent - 1)) (block data sz s) = ztake (4 * Z.of_nat (nent - 1)) (zdrop (place sz s) data)) by (unfold block; rewrite ztake_ztake by lia; reflexivity). rewrite ES in W1.
    rewrite (difat_entries_fwd data sp shift sz nent P Z N); [|rewrite zlen_zdrop; lia|rewrite W1; exact F1]. cbn [bind]. rewrite W1.
    rewrite le32_val by (rewrite !zlen_zdrop; rewrite ?zlen_zdrop; lia). cbn [bind].
    replace (le_val (ztake 4 (zdrop (4 * Z.of_nat (nent - 1)) (zdrop (place sz s) data)))) with t. 2: { rewrite <- W2. unfold block. rewrite zdrop_ztake by lia. rewrite ztake_ztake by lia. reflexivity. }
    rewrite HK by lia. unfold table. rewrite flat_map_app, <- app_assoc. reflexivity.
Qed.
Lemma words_len : forall n l, zlen l = 4 * Z.of_nat n -> zlen (words l) = Z.of_nat n.
Proof. induction n as [|n IH]; intros l L; [destruct l; [reflexivity|rewrite zlen_cons in L; pose proof (zlen_nonneg _ l); lia]|]. rewrite words_cons by lia. rewrite zlen_cons, IH by (rewrite zlen_zdrop; lia). lia. Qed.
Lemma minifat_fwd : forall data sp shift sz nent want, 2 ^ shift = sz -> 0 < sz -> 4 * Z.of_nat nent = sz ->
  forall s n m, mini_table data sz want s n m ->
  exists N, forall fuel acc, (N <= fuel)%nat -> zlen acc = n -> minifat_loop fuel (mkSl data sp) shift nent want s acc = Ok (acc ++ m).
Proof.
  intros data sp shift sz nent want P Z N. assert (D4 : sz / 4 = Z.of_nat nent) by (rewrite <- N; rewrite Z.mul_comm; apply Z.div_mul; lia).
  assert (LW : forall s, inside data sz s -> zlen (words (block data sz s)) = Z.of_nat nent) by (intros s I; apply words_len; rewrite block_len; auto; lia).
  intros s n m M. induction M as [n|s n NE I L|s n m NE I L E M IH].
  - exists 0%nat. intros fuel acc _ _. rewrite app_nil_r. destruct fuel; reflexivity.
  - exists 1%nat. intros fuel acc Fu LA. destruct fuel as [|fuel]; [lia|]. cbn [minifat_loop]. change secEndOfChain with ENDOFCHAIN. destruct (Z.eqb_spec s ENDOFCHAIN) as [|_]; [contradiction|].
    rewrite (sec_off_place _ _ _ P). destruct (one_sector_fwd data sp sz nent s acc Z N I) as (A & B & C). rewrite C, A. cbn [bind dat]. rewrite B. cbn [bind]. rewrite zlen_app, LW by exact I. destruct (Z.leb_spec want (zlen acc + Z.of_nat nent)); [reflexivity|lia].
  - destruct IH as (K & HK). exists (S K). intros fuel acc Fu LA. destruct fuel as [|fuel]; [lia|]. cbn [minifat_loop]. change secEndOfChain with ENDOFCHAIN. destruct (Z.eqb_spec s ENDOFCHAIN) as [|_]; [contradiction|].
    rewrite (sec_off_place _ _ _ P). destruct (one_sector_fwd data sp sz nent s acc Z N I) as (A & B & C). rewrite C, A. cbn [bind dat]. rewrite B. cbn [bind]. rewrite zlen_app, LW by exact I. destruct (Z.leb_spec want (zlen acc + Z.of_nat nent)); [lia|].
    pose proof (place_nonneg sz s Z). rewrite le32_val by (rewrite zlen_zdrop; lia). cbn [bind]. fold (field data (place sz s + sz) 4). rewrite HK; [rewrite <- app_assoc; reflexivity|lia|]. rewrite zlen_app, LW by exact I. lia.
Qed.

(** ** the header *)
Lemma counts_ok : forall v, 0 <= v < 4294967296 -> (v < 2147483647 \/ v = 4294967295) <-> (s32 (1 + signed32 v) <? 0) = false.
Proof.
  intros v B. unfold s32, u32, signed32. cbv zeta. destruct (Z.ltb_spec v 2147483648).
  - rewrite Z.mod_small by lia. destruct (Z.ltb_spec (1 + v) 2147483648); lia.
  - destruct (Z.eq_dec v 4294967295) as [->|]; [vm_compute; tauto|]. replace (1 + (v - 4294967296)) with (1 + v + (-1) * 4294967296) by lia. rewrite Z.mod_add by lia. rewrite Z.mod_small by lia. destruct (Z.ltb_spec (1 + v) 2147483648); lia.
Qed.
Lemma load_opens : forall data sp, bytes_ok data -> accepted data ->
  forall fats mini, fat_sectors data (sector_size data) fats -> mini_table data (sector_size data) (signed32 (field data 64 4)) (field data 60 4) 0 mini ->
  exists N d, (forall fuel, (N <= fuel)%nat -> load fuel (mkSl data sp) = Ok d).
Proof.
  intros data sp B [] fats mini (FI & more & -> & FM) MT.
  assert (HB : forall o, 0 <= field data o 4 < 4294967296) by (intros o; change 4294967296 with (256 ^ 4); apply field_bound; [exact B|lia]).
  set (sz := sector_size data) in *.
  assert (SS : (field data 30 2 = 9 \/ field data 30 2 = 12) /\ 2 ^ field data 30 2 = sz /\ 0 < sz /\ 4 * Z.of_nat (Z.to_nat (2 ^ (field data 30 2 - 2))) = sz).
  { unfold sz, sector_size. destruct ac_version as [(_ & -> & _)|(_ & ->)]; repeat split; auto; reflexivity. }
  destruct SS as (S0 & SZ & SP & N4). set (nent := Z.to_nat (2 ^ (field data 30 2 - 2))) in *.
  apply Forall_app in FI. destruct FI as [F1 F2].
  assert (DF : exists N, forall fuel acc, (N <= fuel)%nat -> (if 0 <? signed32 (field data 72 4) then difat_loop fuel (mkSl data sp) (field data 30 2) nent (field data 68 4) acc else Ok acc) = Ok (acc ++ table data sz more)).
  { destruct (0 <? _); [exact (difat_loop_fwd data sp _ sz nent SZ SP N4 _ _ FM F2)|]. exists 0%nat. intros. subst more. cbn [table flat_map]. rewrite app_nil_r. reflexivity. }
  destruct DF as (N1 & D1). destruct (minifat_fwd data sp _ sz nent _ SZ SP N4 _ _ _ MT) as (N2 & D2).
  destruct (build_dirs 4 (field data 26 2) (zdrop (sec_off (field data 30 2) (field data 48 4)) data) [] (0, 0)) as [dir ms] eqn:BD.
  exists (Nat.max N1 N2), (mkDoc (mkSl data sp) (read_header data) dir (table data sz (header_fats data) ++ table data sz more) mini (fst ms) (snd ms)). intros fuel Fu.
  unfold load. cbn [dat]. set (h := read_header data).
  assert (HF : h_signature h = 16220472316735377360 /\ h_byteorder h = 65534 /\ h_class0 h = 0 /\ h_class1 h = 0 /\ h_major h = field data 26 2 /\ h_reserved h = repeat 0 6 /\ h_shift h = field data 30 2 /\
    h_numdir h = signed32 (field data 40 4) /\ h_minishift h = 6 /\ h_cutoff h = 4096 /\ h_numfat h = signed32 (field data 44 4) /\ h_numminifat h = signed32 (field data 64 4)).
  { unfold h, read_header. destruct (Z.ltb_spec (zlen data) 512); [lia|]. cbn [h_signature h_byteorder h_class0 h_class1 h_major h_reserved h_shift h_numdir h_minishift h_cutoff h_numfat h_numminifat]. rewrite !rd16_field, !rd32_field, !rd64_field by lia. rewrite !s32_signed by apply HB. rewrite ac_cutoff. destruct ac_clsid. repeat split; auto. }
  assert (HG : h_firstdir h = field data 48 4 /\ h_firstminifat h = field data 60 4 /\ h_firstdifat h = field data 68 4 /\ h_numdifat h = signed32 (field data 72 4) /\ h_difat h = map (fun i => field data (76 + 4 * Z.of_nat i) 4) (seq 0 109)).
  { unfold h, read_header. destruct (Z.ltb_spec (zlen data) 512); [lia|]. cbn [h_firstdir h_firstminifat h_firstdifat h_numdifat h_difat]. rewrite !rd32_field by lia. rewrite !s32_signed by apply HB. repeat split; auto. apply map_ext_in. intros i Hi. apply in_seq in Hi. apply rd32_field; lia. }
  destruct HF as (-> & -> & -> & -> & -> & -> & -> & -> & -> & -> & -> & ->). destruct HG as (-> & -> & -> & -> & ->). cbn [negb].
  destruct ac_counts as [C1 C2]. apply counts_ok in C1; [|apply HB]. apply counts_ok in C2; [|apply HB]. rewrite C1, C2.
  change (forallb (Z.eqb 0) (repeat 0 6)) with true. change (16220472316735377360 =? 16220472316735377360) with true. change (65534 =? 65534) with true. change (0 =? 0) with true. change (6 =? 6) with true. change (4096 =? 4096) with true. cbn [andb negb orb].
  assert (V : exists b, (field data 26 2 =? 3) = b /\ ((field data 26 2 =? 4) = negb b) /\ (b && negb (field data 30 2 =? 9)) = false /\ (b && negb (signed32 (field data 40 4) =? 0)) = false /\ (negb b && negb (field data 30 2 =? 12)) = false).
  { destruct ac_version as [(-> & -> & ->)|(-> & ->)]; [exists true|exists false]; repeat split; reflexivity. }
  destruct V as (vb & -> & -> & -> & -> & ->). replace (vb || negb vb) with true by (destruct vb; reflexivity). cbn [negb]. cbv zeta. fold nent.
  rewrite (load_fat_fwd data sp _ sz nent SZ SP N4) by exact F1. cbn [bind app]. fold (header_fats data). rewrite D1 by lia. cbn [bind]. rewrite (D2 fuel []) by (try reflexivity; lia). cbn [bind app]. rewrite BD. reflexivity.
Qed.
Lemma accepted_header : forall fuel data sp d, bytes_ok data -> load fuel (mkSl data sp) = Ok d -> accepted data.
Proof.
  intros fuel data sp d B H. destruct (load_tables _ _ _ _ B H) as (_ & T). assert (L : 512 <= zlen data) by (destruct T; assumption). clear T.
  assert (HB : forall o, 0 <= field data o 4 < 4294967296) by (intros o; change 4294967296 with (256 ^ 4); apply field_bound; [exact B|lia]).
  unfold load in H. cbn [dat] in H. set (h := read_header data) in *. cbv zeta in H.
  assert (HF : h_signature h = field data 0 8 /\ h_byteorder h = field data 28 2 /\ h_class0 h = field data 8 8 /\ h_class1 h = field data 16 8 /\ h_major h = field data 26 2 /\ h_reserved h = ztake 6 (zdrop 34 data) /\ h_shift h = field data 30 2 /\
    h_numdir h = signed32 (field data 40 4) /\ h_minishift h = field data 32 2 /\ h_cutoff h = signed32 (field data 56 4) /\ h_numfat h = signed32 (field data 44 4) /\ h_numminifat h = signed32 (field data 64 4)).
  { unfold h, read_header. destruct (Z.ltb_spec (zlen data) 512); [lia|]. cbn [h_signature h_byteorder h_class0 h_class1 h_major h_reserved h_shift h_numdir h_minishift h_cutoff h_numfat h_numminifat]. rewrite !rd16_field, !rd32_field, !rd64_field by lia. rewrite !s32_signed by apply HB. repeat split; auto. }
  destruct HF as (F1 & F2 & F3 & F4 & F5 & F6 & F7 & F8 & F9 & F10 & F11 & F12). rewrite F1, F2, F3, F4, F5, F6, F7, F8, F9, F10, F11, F12 in H.
  destruct (Z.eqb_spec (field data 0 8) 16220472316735377360) as [E1|]; [|discriminate]. cbn [negb] in H.
  destruct (Z.eqb_spec (field data 28 2) 65534) as [E2|]; [|discriminate]. cbn [negb] in H.
  destruct ((field data 8 8 =? 0) && (field data 16 8 =? 0)) eqn:E3; [|discriminate]. cbn [negb] in H.
  destruct ((field data 26 2 =? 3) || (field data 26 2 =? 4)) eqn:E4; [|discriminate]. cbn [negb] in H.
  destruct (forallb (Z.eqb 0) (ztake 6 (zdrop 34 data))) eqn:ER; [|discriminate]. cbn [negb] in H.
  destruct ((field data 26 2 =? 3) && negb (field data 30 2 =? 9)) eqn:E5; [discriminate|].
  destruct ((field data 26 2 =? 3) && negb (signed32 (field data 40 4) =? 0)) eqn:E5b; [discriminate|].
  destruct ((field data 26 2 =? 4) && negb (field data 30 2 =? 12)) eqn:E6; [discriminate|].
  destruct (Z.eqb_spec (field data 32 2) 6) as [E7|]; [|discriminate]. cbn [negb] in H.
  destruct (Z.eqb_spec (signed32 (field data 56 4)) 4096) as [E8|]; [|discriminate]. cbn [negb] in H.
  destruct (s32 (1 + signed32 (field data 44 4)) <? 0) eqn:C1; [discriminate|]. destruct (s32 (1 + signed32 (field data 64 4)) <? 0) eqn:C2; [discriminate|]. clear H.
  assert (SG : forall o k, 0 <= k -> signed32 (field data o 4) = k -> field data o 4 = k) by (intros o k K Q; pose proof (HB o); unfold signed32 in Q; destruct (Z.ltb_spec (field data o 4) 2147483648); lia).
  constructor; auto.
  - lia.
  - assert (Z0 : field data 26 2 = 3 -> field data 40 4 = 0) by (intros V; apply SG; lia). lia.
  - assert (LR : zlen (ztake 6 (zdrop 34 data)) = 6) by (rewrite zlen_ztake; [reflexivity|rewrite zlen_zdrop; lia]).
    assert (N : List.length (ztake 6 (zdrop 34 data)) = 6%nat) by (unfold zlen in LR; lia). rewrite <- N. clear - ER. induction (ztake 6 (zdrop 34 data)) as [|x l IH]; [reflexivity|]. cbn [forallb] in ER. apply andb_prop in ER. destruct ER as [A1 A2]. cbn [List.length repeat]. rewrite <- (IH A2). f_equal. lia.
  - apply SG; lia.
  - split; apply counts_ok; auto.
Qed.

(** ** the stream *)
Lemma decode_nonempty : forall l, l <> [] -> 1 <= zlen (utf16_decode l).
Proof.
  intros [|u r] N; [contradiction|]. clear N. cbn [utf16_decode]. destruct (_ && _).
  - destruct r as [|v r2]; [rewrite zlen_cons, zlen_nil; lia|]. destruct (_ && _); rewrite zlen_cons; match goal with |- context [zlen (utf16_decode ?x)] => pose proof (zlen_nonneg _ (utf16_decode x)) end; lia.
  - destruct (_ && _); rewrite zlen_cons; pose proof (zlen_nonneg _ (utf16_decode r)); lia.
Qed.
Lemma readable_string : forall major e, is_entry e -> readable e <-> exists s, dir_string (read_dirent major e) = Ok s.
Proof.
  intros major e IE. destruct (dirent_fields major e IE) as (_ & _ & _ & _ & D5 & D6). destruct IE as (L & B & _). unfold dir_string. rewrite D5, D6. unfold readable.
  pose proof (field_bound e 64 2 B ltac:(lia)) as FB. change (256 ^ 2) with 65536 in FB. set (n := field e 64 2) in *.
  assert (S16 : s16 n = if n <? 32768 then n else n - 65536) by (unfold s16, u16; cbv zeta; rewrite Z.mod_small by lia; reflexivity).
  assert (OD : (s16 n mod 2 =? 1) = Z.odd n). { rewrite S16. rewrite Zmod_odd. destruct (Z.ltb_spec n 32768); [destruct (Z.odd n); reflexivity|]. rewrite Z.odd_sub. change (Z.odd 65536) with false. rewrite xorb_false_r. destruct (Z.odd n); reflexivity. }
  rewrite OD. destruct (Z.odd n) eqn:EO; cbn [orb]; [split; [eauto|auto]|]. rewrite S16.
  destruct (Z.ltb_spec n 32768) as [SM|BG].
  - destruct (Z.ltb_spec 64 n) as [|LE]; [split; [eauto|right; lia]|]. rewrite Z.quot_div_nonneg by lia.
    assert (N2 : 0 <= n / 2 <= 32) by (split; [apply Z.div_pos; lia|apply Z.div_le_upper_bound; lia]). rewrite substr_seq by exact N2. cbn [bind].
    set (us := map _ _). assert (LU : zlen us = n / 2) by (unfold us, zlen; rewrite map_length, seq_length; lia). split.
    + intros [Q|Q]; [discriminate|]. assert (1 <= n / 2) by (apply Z.div_le_lower_bound; lia). assert (NU : us <> []) by (intros ->; rewrite zlen_nil in LU; lia). pose proof (decode_nonempty _ NU). unfold substr. destruct (_ && _) eqn:G; cbn [bind]; [eauto|lia].
    + intros (s & H). right. destruct (Z.eq_dec n 0) as [N0|]; [exfalso|destruct (Z.eq_dec n 1) as [N1|]; [rewrite N1 in EO; discriminate|lia]]. rewrite N0 in LU. change (0 / 2) with 0 in LU. destruct us as [|u0 us0]; [|rewrite zlen_cons in LU; pose proof (zlen_nonneg _ us0); lia]. cbn in H. discriminate.
  - split; [intros [Q|Q]; [discriminate|lia]|]. intros (s & H). exfalso. destruct (Z.ltb_spec 64 (n - 65536)); [lia|]. unfold substr at 1 in H. assert (Q : Z.quot (n - 65536) 2 < 0).
    { destruct (Z.eq_dec n 65535) as [->|]; [discriminate EO|]. replace (n - 65536) with (- (65536 - n)) by lia. rewrite Z.quot_opp_l by lia. rewrite Z.quot_div_nonneg by lia. assert (1 <= (65536 - n) / 2) by (apply Z.div_le_lower_bound; lia). lia. }
    destruct (_ && _) eqn:G in H; cbn [bind] in H; [lia|discriminate].
Qed.
Lemma open_fwd : forall fuel d data name a e b, u64 (h_cutoff (d_header d)) = 4096 -> Forall is_entry (a ++ e :: b) ->
  find (fun e => e_named name e && (e_type e =? 2)) a = None -> e_named name e && (e_type e =? 2) = true -> Forall readable (a ++ [e]) ->
  open_loop fuel d name (map (read_dirent (field data 26 2)) (a ++ e :: b)) =
    (if e_size data e <? 4096 then get_mini_stream_reader fuel d (e_start e) (e_size data e) else get_stream_reader fuel d (e_start e) (e_size data e)).
Proof.
  intros fuel d data name a e b C. induction a as [|x a IH]; intros F FA FE R; cbn [app map open_loop find] in *; inversion F as [|? ? IE F2]; subst; inversion R as [|? ? R1 R2]; subst;
    destruct (proj1 (readable_string (field data 26 2) _ IE) R1) as (s & ES); rewrite ES; cbn [bind]; rewrite (named_says _ _ _ name IE ES); destruct (dirent_fields (field data 26 2) _ IE) as (D1 & D2 & D3 & _); rewrite D1; change typeStream with 2.
  - rewrite FE, C, D2, D3. fold (e_size data e). destruct (Z.ltb_spec (e_size data e) 4096); [reflexivity|]. destruct (Z.eqb_spec (e_size data e) 0); [lia|reflexivity].
  - destruct (e_named name x && (e_type x =? 2)); [discriminate|]. apply IH; auto.
Qed.
Lemma open_readable : forall fuel d data name es r, u64 (h_cutoff (d_header d)) = 4096 -> Forall is_entry es ->
  open_loop fuel d name (map (read_dirent (field data 26 2)) es) = Ok r ->
  exists a e b, es = a ++ e :: b /\ find (fun e => e_named name e && (e_type e =? 2)) es = Some e /\ find (fun e => e_named name e && (e_type e =? 2)) a = None /\ Forall readable (a ++ [e]).
Proof.
  intros fuel d data name es r C F. induction F as [|e es IE F IH]; intros H; cbn [map open_loop find] in *; [discriminate|].
  destruct (dir_string _) as [s| | |] eqn:E; cbn [bind] in H; try discriminate. rewrite (named_says _ _ _ name IE E) in H. destruct (dirent_fields (field data 26 2) e IE) as (D1 & D2 & D3 & _). rewrite D1, C, D2, D3 in H. fold (e_size data e) in H. change typeStream with 2 in H.
  assert (R : readable e) by (apply (readable_string (field data 26 2)); eauto).
  destruct (e_named name e && (e_type e =? 2)) eqn:N; [exists [], e, es; split; [reflexivity|]; split; [reflexivity|]; split; [reflexivity|]; constructor; [exact R|constructor]|]. destruct (IH H) as (a & e2 & b & -> & A & A2 & A3). exists (e :: a), e2, b. cbn [find app]. rewrite N. split; [reflexivity|]. split; [exact A|]. split; [exact A2|]. constructor; assumption.
Qed.
Lemma stream_fwd : forall d sz, 2 ^ h_shift (d_header d) = sz -> 0 < sz ->
  forall l fuel sid size done m, walk (d_fat d) (sid :: l) -> zlen l * sz < size -> size <= (zlen l + 1) * sz ->
    Forall (fun s => ~ end_mark s /\ place sz s <= zlen (dat (d_data d)) /\ inside (sl_full (d_data d)) sz s) (sid :: l) ->
  (List.length l < fuel)%nat -> (List.length l < m)%nat ->
  exists sd', stream_loop fuel d sid size (zlen done) (done ++ repeat [] m) = Ok (0, sd').
Proof.
  intros d sz P Z. induction l as [|t l IH]; intros fuel sid size done m W B1 B2 F FU M; (destruct fuel as [|fuel]; [cbn [List.length] in FU; lia|]); (destruct m as [|m]; [cbn [List.length] in M; lia|]); pose proof (Forall_inv F) as (NE & PL & I); pose proof (Forall_inv_tail F) as F2; cbn [stream_loop];
    (assert (IE : is_end sid = false) by (destruct (is_end sid) eqn:IE; [apply end_mark_is in IE; contradiction|reflexivity])); rewrite IE; rewrite (sec_off_place _ _ _ P); unfold sec_size; rewrite P; unfold sl_len at 1; (destruct (Z.ltb_spec (zlen (dat (d_data d))) (place sz sid)); [lia|]);
    pose proof (place_nonneg sz sid Z) as PN; unfold inside in I; rewrite sl_range_ok by lia; cbn [bind]; unfold sl_len; cbn [dat];
    replace (place sz sid + sz - place sz sid) with sz by lia; fold (block (sl_full (d_data d)) sz sid); rewrite (block_len _ _ _ Z I); cbn [repeat].
  - rewrite zlen_nil in *. destruct (Z.ltb_spec size sz).
    + rewrite set_idx_at by reflexivity. cbn [bind]. change (0 =? 0) with true. cbv iota. eauto.
    + rewrite set_idx_at by reflexivity. cbn [bind]. replace (size - sz) with 0 by lia. change (0 =? 0) with true. cbv iota. eauto.
  - rewrite zlen_cons in *. pose proof (zlen_nonneg _ l). destruct (Z.ltb_spec size sz); [nia|]. rewrite set_idx_at by reflexivity. cbn [bind]. destruct (Z.eqb_spec (size - sz) 0); [nia|].
    destruct W as (S0 & NT & W). rewrite (idx_nth _ _ _ _ S0 NT). cbn [bind]. cbn [List.length] in FU, M.
    destruct (IH fuel t (size - sz) (done ++ [block (sl_full (d_data d)) sz sid]) m W ltac:(nia) ltac:(nia) F2 ltac:(lia) ltac:(lia)) as (sd' & E). rewrite zlen_app, zlen_cons, zlen_nil, <- app_assoc in E. cbn [app] in E. exists sd'. exact E.
Qed.
Lemma root_fwd : forall d sz, 2 ^ h_shift (d_header d) = sz -> 0 < sz ->
  forall sid roots, chain (d_fat d) sid roots -> forall fuel size done m, 0 <= size -> Forall (inside (sl_full (d_data d)) sz) roots ->
  (List.length roots < fuel)%nat -> (List.length roots <= m)%nat ->
  exists fsd, root_loop fuel d sid size (zlen done) (done ++ repeat nil_slice m) = Ok fsd.
Proof.
  intros d sz P Z sid roots C. induction C as [s E|s t l NE P0 NT C IH]; intros fuel size done m S0 F FU M; (destruct fuel as [|fuel]; [cbn [List.length] in FU; lia|]); cbn [root_loop].
  - apply end_mark_is in E. rewrite E. eauto.
  - assert (IE : is_end s = false) by (destruct (is_end s) eqn:IE; [apply end_mark_is in IE; contradiction|reflexivity]). rewrite IE. cbn [List.length] in *. destruct m as [|m]; [lia|]. pose proof (Forall_inv F) as I; pose proof (Forall_inv_tail F) as F2; cbn beta in I.
    rewrite (sec_off_place _ _ _ P). unfold sec_size. rewrite P. pose proof (place_nonneg sz s Z) as PN. unfold inside in I. rewrite sl_range_ok by lia. cbn [bind]. unfold sl_len. cbn [dat]. replace (place sz s + sz - place sz s) with sz by lia. fold (block (sl_full (d_data d)) sz s). rewrite (block_len _ _ _ Z I). set (sl := mkSl _ _).
    assert (T : exists sl' fs', (if size <? sz then (sl' <- sl_to sl size ;; Ok (sl', 0)) else Ok (sl, size - sz)) = Ok (sl', fs') /\ 0 <= fs').
    { destruct (Z.ltb_spec size sz); [|exists sl, (size - sz); split; [reflexivity|lia]]. unfold sl_to. rewrite sl_range_ok; [cbn [bind]; eexists _, _; split; [reflexivity|lia]|lia|lia|]. unfold sl. unfold sl_full at 1. cbn [dat spare]. rewrite zlen_app, (block_len _ _ _ Z I). match goal with |- context [zlen ?q] => pose proof (zlen_nonneg _ q) end. lia. }
    destruct T as (sl' & fs' & -> & FS). cbn [bind repeat]. rewrite set_idx_at by reflexivity. cbn [bind]. rewrite (idx_nth _ _ _ _ P0 NT). cbn [bind].
    destruct (IH fuel fs' (done ++ [sl']) m FS F2 ltac:(lia) ltac:(lia)) as (fsd & E). rewrite zlen_app, zlen_cons, zlen_nil, <- app_assoc in E. cbn [app] in E. exists fsd. exact E.
Qed.
Lemma mini_fwd : forall d sz roots rs k, 2 ^ h_shift (d_header d) = sz -> mini_size d = 64 -> 64 <= sz -> sz mod 64 = 0 ->
  Forall (inside (sl_full (d_data d)) sz) roots -> map sl_full rs = map (fun s => zdrop (place sz s) (sl_full (d_data d))) roots ->
  let ms := concat (map (block (sl_full (d_data d)) sz) roots) in
  forall sid l, chain (d_minifat d) sid l -> forall fuel size done m, Forall (fun i => (i + 1) * 64 <= zlen ms) l ->
  (List.length l < fuel)%nat -> (List.length l <= m)%nat ->
  exists sd', mini_loop fuel d (rs ++ repeat nil_slice k) sid size (zlen done) (done ++ repeat [] m) = Ok sd'.
Proof.
  intros d sz roots rs k P M64 Z64 ZM HR MR ms. assert (HRL : Forall (fun s : bytes => zlen s = sz) (map (block (sl_full (d_data d)) sz) roots)) by (apply blocks_len; auto; lia).
  assert (LMS : zlen ms = zlen roots * sz) by (unfold ms; rewrite (zlen_concat _ _ HRL), zlen_map; reflexivity).
  intros sid l C. induction C as [s E|s t l NE P0 NT C IH]; intros fuel size done m F FU M; (destruct fuel as [|fuel]; [cbn [List.length] in FU; lia|]); cbn [mini_loop].
  - apply end_mark_is in E. rewrite E. eauto.
  - assert (IE : is_end s = false) by (destruct (is_end s) eqn:IE; [apply end_mark_is in IE; contradiction|reflexivity]). rewrite IE. cbn [List.length] in *. destruct m as [|m]; [lia|]. pose proof (Forall_inv F) as I; pose proof (Forall_inv_tail F) as F2; cbn beta in I. unfold sec_size. rewrite M64, P.
    set (so := s * 64 / sz) in *. set (si := (s * 64) mod sz) in *.
    pose proof (Z.div_mod (s * 64) sz ltac:(lia)) as DM. fold so in DM. fold si in DM. pose proof (Z.mod_pos_bound (s * 64) sz ltac:(lia)) as MB. fold si in MB.
    assert (SO : 0 <= so) by (apply Z.div_pos; lia). assert (SOL : so < zlen roots) by nia.
    assert (SI : si + 64 <= sz).
    { assert (D1 : (si mod 64) = 0).
      { unfold si. pose proof (Z.div_mod sz 64 ltac:(lia)) as DZ. rewrite ZM in DZ. replace sz with (64 * (sz / 64)) by lia. rewrite (Z.mul_comm s 64). rewrite Z.mul_mod_distr_l by lia. rewrite Z.mul_comm. apply Z.mod_mul. lia. }
      pose proof (Z.div_mod si 64 ltac:(lia)). pose proof (Z.div_mod sz 64 ltac:(lia)). nia. }
    destruct (nth_error roots (Z.to_nat so)) as [rt|] eqn:ER; [|apply nth_error_None in ER; unfold zlen in SOL; lia].
    assert (DT : exists dt, nth_error rs (Z.to_nat so) = Some dt /\ sl_full dt = zdrop (place sz rt) (sl_full (d_data d))).
    { assert (Q : nth_error (map sl_full rs) (Z.to_nat so) = Some (zdrop (place sz rt) (sl_full (d_data d)))) by (rewrite MR, nth_error_map, ER; reflexivity). rewrite nth_error_map in Q. destruct (nth_error rs (Z.to_nat so)) as [dt|]; [|discriminate]. cbn [option_map] in Q. injection Q as Q. eauto. }
    destruct DT as (dt & ND & FD). rewrite (idx_nth _ _ so dt SO) by (rewrite nth_error_app1; [exact ND|apply nth_error_Some; congruence]). cbn [bind].
    assert (IR : inside (sl_full (d_data d)) sz rt) by (rewrite Forall_forall in HR; apply HR; eapply nth_error_In; exact ER). unfold inside in IR. pose proof (place_nonneg sz rt ltac:(lia)) as PN.
    rewrite sl_range_ok; [|lia|lia|rewrite FD, zlen_zdrop; lia]. cbn [bind]. set (sl := mkSl _ _).
    destruct (if size <? sl_len sl then _ else _) as [out size2]. cbn [repeat]. rewrite set_idx_at by reflexivity. cbn [bind]. rewrite (idx_nth _ _ _ _ P0 NT). cbn [bind].
    destruct (IH fuel size2 (done ++ [out]) m F2 ltac:(lia) ltac:(lia)) as (sd' & E). rewrite zlen_app, zlen_cons, zlen_nil, <- app_assoc in E. cbn [app] in E. exists sd'. exact E.
Qed.

(** Which files open, and with what: a stream of a file can be opened and read to its end exactly
    if the header has what it must have, the names up to it can be looked at and the tables lead to a content; and that is
    what is read. *)
Theorem C106_exact : forall data sp name content sizes, bytes_ok data -> (forall i, 0 < sizes i) ->
  (exists fuel d r, load fuel (mkSl data sp) = Ok d /\ doc_open fuel d name = Ok r /\
     sr_read_all (S (List.length (concat (sr_data r)))) sizes r [] = Ok content) <->
  accepted data /\ readable_upto data name /\ stream_content data (data ++ sp) name content.
Proof.
  intros data sp name content sizes B SI. split.
  - intros (fuel & d & r & L & O & R). split; [exact (accepted_header _ _ _ _ B L)|]. destruct (C106_stream _ _ _ _ _ _ sizes B SI L O) as (c2 & SC & R2). split.
    + destruct (load_tables _ _ _ _ B L) as (_ & []). unfold doc_open in O. rewrite tb_dir in O. apply open_readable in O; [|exact tb_cutoff|apply entries_ok, bytes_ok_zdrop, B]. destruct O as (a & e & b & E1 & E2 & E3 & E4). exists a, e, b. split; [exact E1|]. split; [exact E2|]. split; [exact E3|exact E4].
    + congruence.
  - intros (A & (a & e & b & DE & SE & FA & RD) & SC). pose proof SC as SC0. destruct SC as (fats & mini & e2 & FS & MT & SE2 & SC). rewrite SE in SE2. injection SE2 as <-.
    destruct (load_opens data sp B A fats mini FS MT) as (N & d & LD). pose proof (load_tables N data sp d B (LD N (le_n N))) as (DD & T). 
    cut (exists N2, forall fuel, (N2 <= fuel)%nat -> exists r, doc_open fuel d name = Ok r).
    { intros (N2 & HO). set (K := Nat.max N N2). destruct (HO K ltac:(lia)) as (r & O). assert (L : load K (mkSl data sp) = Ok d) by (apply LD; lia). exists K, d, r. split; [exact L|]. split; [exact O|].
      destruct (C106_stream _ _ _ _ _ _ sizes B SI L O) as (c2 & SC2 & R2). rewrite R2. f_equal. eapply C106_one_content; eassumption. }
    destruct T. destruct tb_fat as (fats2 & FS2 & FT). set (sz := sector_size data) in *.
    assert (FF : fats2 = fats). { destruct FS as (_ & x1 & -> & X1). destruct FS2 as (_ & x2 & -> & X2). f_equal. destruct (0 <? _); [eapply more_fats_fun; eassumption|congruence]. } subst fats2.
    pose proof (mini_table_fun _ _ _ _ _ _ tb_minifat _ MT) as MM. destruct tb_size as [SZ1 SZ2]. assert (SP : 0 < sz) by lia. assert (MEM : sl_full (d_data d) = data ++ sp) by (rewrite DD; reflexivity). assert (DAT : dat (d_data d) = data) by (rewrite DD; reflexivity).
    pose proof (entries_ok 4 _ (bytes_ok_zdrop _ (place sz (field data 48 4)) B)) as EO. change (Forall is_entry (directory_of data)) in EO. 
    assert (NM : e_named name e && (e_type e =? 2) = true) by (unfold stream_entry in SE; apply find_some in SE; apply SE).
    assert (OP : forall fuel, doc_open fuel d name = (if e_size data e <? 4096 then get_mini_stream_reader fuel d (e_start e) (e_size data e) else get_stream_reader fuel d (e_start e) (e_size data e))).
    { intros fuel. unfold doc_open. rewrite tb_dir, DE. apply open_fwd; auto. rewrite <- DE. exact EO. }
    assert (BE : bytes_ok e) by (rewrite DE in EO; apply Forall_app in EO; destruct EO as [_ EO]; inversion EO as [|? ? (_ & Q & _) _]; exact Q).
    assert (SZE : 0 <= e_size data e) by (unfold e_size; apply field_bound; [exact BE|destruct (field data 26 2 =? 3); lia]).
    cbv zeta in SC. destruct (Z.ltb_spec (e_size data e) 4096) as [SM|BG].
    + destruct SC as (roots & l & C1 & F1 & L1 & C2 & F2 & L2 & _). rewrite <- tb_root in C1, L1. cbn [fst snd] in C1, L1. rewrite <- FT in C1. rewrite <- MM in C2. rewrite <- MEM in F1, F2.
      exists (S (Nat.max (List.length roots) (List.length l))). intros fuel FU. rewrite OP. unfold get_mini_stream_reader. rewrite tb_mini, SZ1.
      assert (RS0 : 0 <= d_mssize d) by (change (0 <= snd (d_msstart d, d_mssize d)); rewrite tb_root; apply root_nonneg; exact B).
      destruct (root_fwd d sz tb_shift SP _ _ C1 fuel (d_mssize d) [] (Z.to_nat (1 + d_mssize d / sz)) RS0 F1) as (fsd & E1); [lia|unfold zlen in L1; lia|]. cbn [app] in E1. rewrite zlen_nil in E1. rewrite E1. cbn [bind].
      apply (root_says d sz tb_shift SP fuel _ _ []) in E1. destruct E1 as (roots2 & rs & m' & C3 & F3 & LM & -> & MR). pose proof (chain_fun _ _ _ C3 _ C1) as ->. cbn [app].
      destruct (mini_fwd d sz roots rs m' tb_shift tb_mini ltac:(lia) ltac:(destruct SZ2 as [-> | ->]; reflexivity) F3 MR _ _ C2 fuel (e_size data e) [] (Z.to_nat (1 + e_size data e / 64)) F2) as (sd & E2); [lia|unfold zlen in L2; lia|]. cbn [app] in E2. rewrite zlen_nil in E2. rewrite E2. cbn [bind]. eauto.
    + destruct SC as (l & W & LW & F & _). rewrite <- FT in W. rewrite <- MEM in F. rewrite <- DAT in F.
      assert (BB : zlen l * sz < e_size data e /\ e_size data e <= (zlen l + 1) * sz). { rewrite zlen_cons in LW. unfold sectors_for in LW. pose proof (Z.div_mod (e_size data e + sz - 1) sz ltac:(lia)). pose proof (Z.mod_pos_bound (e_size data e + sz - 1) sz SP). nia. }
      exists (S (List.length l)). intros fuel FU. rewrite OP. unfold get_stream_reader. rewrite SZ1.
      assert (LD2 : zlen l <= e_size data e / sz) by (apply Z.div_le_lower_bound; lia).
      destruct (stream_fwd d sz tb_shift SP l fuel (e_start e) (e_size data e) [] (Z.to_nat (1 + e_size data e / sz)) W ltac:(lia) ltac:(lia) F) as (sd & E); [lia|unfold zlen in LD2; lia|]. cbn [app] in E. rewrite zlen_nil in E. rewrite E. cbn [bind]. change (0 =? 0) with true. cbn [negb]. eauto.
Qed.

Print Assumptions C106_exact.
