(** * P_xlstr: properties C47 (BIFF strings), C48 (shared string table), C49 (RK numbers). *)
From Verif Require Import GoBase GoUnicode GoFloat M_value L_base M_xlstr S_xlstr L_xlstr.
From Coq Require Import ZifyBool.

(** ** C47 *)
(** Every string of at most 255 code units, in either form, with anything after it. *)
Theorem C47_short : forall res w us rest sp, units_fit w us -> zlen us < 256 ->
  decode_short (mkSl (short_string res w us ++ rest) sp) = Ok (utf16_string us, zlen (short_string res w us)).
Proof.
  intros res w us rest sp F L. unfold decode_short, short_string, sl_idx. cbn [dat]. rewrite <- app_assoc. cbn [app].
  rewrite idx_0. cbn [bind]. rewrite idx_1. cbn [bind].
  change (zlen us :: 2 * res + flag w :: enc_units w us ++ rest) with ([zlen us; 2 * res + flag w] ++ (enc_units w us ++ rest)).
  rewrite sl_from_app by reflexivity. cbn [bind]. rewrite decode_units_ok by exact F. do 2 f_equal. rewrite !zlen_cons. lia.
Qed.
Theorem C47_long : forall res w us rest sp, units_fit w us -> zlen us < 65536 ->
  decode_long (mkSl (long_string res w us ++ rest) sp) = Ok (utf16_string us, zlen (long_string res w us)).
Proof.
  intros res w us rest sp F L. unfold decode_long, long_string, sl_idx. rewrite <- !app_assoc. rewrite sl_to_ok by reflexivity. cbn [bind dat].
  pose proof (zlen_nonneg _ us). rewrite le16_put16' by lia. cbn [bind]. cbn [app]. rewrite (idx_app_exact _ (put16 (zlen us)) (2 * res + flag w)) by reflexivity. cbn [bind].
  replace (put16 (zlen us) ++ 2 * res + flag w :: enc_units w us ++ rest) with ((put16 (zlen us) ++ [2 * res + flag w]) ++ (enc_units w us ++ rest)) by (rewrite <- app_assoc; reflexivity).
  rewrite sl_from_app by reflexivity. cbn [bind]. rewrite decode_units_ok by exact F. do 2 f_equal. rewrite zlen_app, zlen_cons, zlen_put16. lia.
Qed.
(** In terms of texts: every sequence of Unicode scalar values comes back as its UTF-8 form. *)
Theorem C47_text : forall rs, Forall scalar rs -> utf16_string (utf16_enc rs) = string_of_runes rs.
Proof. intros rs F. unfold utf16_string. rewrite utf16_dec_enc by exact F. reflexivity. Qed.
Lemma utf16_enc_fits : forall rs, Forall scalar rs -> units_fit true (utf16_enc rs).
Proof.
  unfold units_fit. induction 1 as [|r rs H F IH]; [constructor|]. unfold utf16_enc. cbn [flat_map]. apply Forall_app. split; [|exact IH].
  unfold utf16_enc1. destruct (Z.ltb_spec r 65536).
  - constructor; [destruct H; lia|constructor].
  - assert (HH : 65536 <= r <= 1114111) by (destruct H; lia).
    assert (0 <= (r - 65536) / 1024 < 1024) by (split; [apply Z.div_pos; lia|apply Z.div_lt_upper_bound; lia]).
    pose proof (Z.mod_pos_bound (r - 65536) 1024 ltac:(lia)). repeat constructor; lia.
Qed.
Theorem C47_roundtrip : forall res rs rest sp, Forall scalar rs -> zlen (utf16_enc rs) < 65536 ->
  decode_long (mkSl (long_string res true (utf16_enc rs) ++ rest) sp) = Ok (string_of_runes rs, zlen (long_string res true (utf16_enc rs))) /\
  (zlen (utf16_enc rs) < 256 ->
   decode_short (mkSl (short_string res true (utf16_enc rs) ++ rest) sp) = Ok (string_of_runes rs, zlen (short_string res true (utf16_enc rs)))) /\
  (Forall (fun r => r < 256) rs ->
   decode_long (mkSl (long_string res false rs ++ rest) sp) = Ok (string_of_runes rs, zlen (long_string res false rs)) /\
   (zlen rs < 256 -> decode_short (mkSl (short_string res false rs ++ rest) sp) = Ok (string_of_runes rs, zlen (short_string res false rs)))).
Proof.
  intros res rs rest sp F L. pose proof (utf16_enc_fits rs F) as FU. split; [|split].
  - rewrite C47_long by auto. rewrite C47_text by auto. reflexivity.
  - intros L2. rewrite C47_short by auto. rewrite C47_text by auto. reflexivity.
  - intros F8. assert (EN : utf16_enc rs = rs).
    { clear - F8. induction F8 as [|r rs H F8 IH]; [reflexivity|]. unfold utf16_enc in *. cbn [flat_map]. rewrite IH. unfold utf16_enc1. destruct (Z.ltb_spec r 65536); [reflexivity|lia]. }
    assert (FN : units_fit false rs).
    { unfold units_fit. apply Forall_forall. intros x Hx. rewrite Forall_forall in F, F8. specialize (F x Hx). specialize (F8 x Hx). destruct F; lia. }
    rewrite EN in L. split; [|intros L2].
    + rewrite C47_long by auto. rewrite <- EN at 1. rewrite C47_text by auto. reflexivity.
    + rewrite C47_short by auto. rewrite <- EN at 1. rewrite C47_text by auto. reflexivity.
Qed.
(** A string that claims more characters than its record holds is not rejected: the 8-bit form
    takes the missing characters from the bytes that follow the record in memory. *)
Theorem C47_overrun_refuted : forall cch given extra sp, 0 <= cch < 256 -> zlen given < cch -> zlen (given ++ extra) = cch ->
  decode_short (mkSl ([cch; 0] ++ given) (extra ++ sp)) = Ok (utf16_string (given ++ extra), cch + 2).
Proof.
  intros cch given extra sp H1 H2 H3. unfold decode_short, sl_idx. cbn [dat]. cbn [app]. rewrite idx_0. cbn [bind].
  rewrite idx_1. cbn [bind]. change (cch :: 0 :: given) with ([cch; 0] ++ given). rewrite sl_from_app by reflexivity. cbn [bind].
  unfold decode_units. change (Z.land 0 1 =? 0) with true. cbv iota. unfold sl_to, sl_range, sl_full. cbn [dat spare]. rewrite app_assoc. rewrite zlen_app. pose proof (zlen_nonneg _ sp). rewrite H3.
  destruct (Z.leb_spec 0 0); [|lia]. destruct (Z.leb_spec 0 cch); [|lia]. destruct (Z.leb_spec cch (cch + zlen sp)); [|lia]. cbn [andb bind dat].
  rewrite Z.sub_0_r, zdrop_0. rewrite <- H3. rewrite ztake_app_exact. reflexivity.
Qed.

Example ex_C47 : decode_short (mkSl (short_string 0 true (utf16_enc [104; 8364; 128512]) ++ [7]) []) = Ok (bs "h" ++ [226; 130; 172; 240; 159; 152; 128], 10) /\
  decode_long (mkSl (long_string 0 false [104; 233] ++ [7]) []) = Ok (bs "h" ++ [195; 169], 5).
Proof. split; vm_compute; reflexivity. Qed.

(** ** C48 *)
(** [recs] are the SST record and its Continue records; whatever lies behind them in memory *)
Theorem C48_shared_strings : forall total l recs, 0 <= total < 4294967296 -> zlen l < 4294967296 ->
  Forall (fun x => it_ok (snd x)) l -> map dat recs = sst_records total l ->
  parse_sst recs = Ok (map (fun x => item_text (snd x)) l).
Proof.
  intros total l recs HT HL F E. unfold sst_records in E.
  destruct (layout l) as [|y ys] eqn:EL; [exfalso; exact (layout_nonnil l EL)|]. rewrite glue_one in E.
  destruct recs as [|r0 recs]; [discriminate|]. cbn [map] in E. pose proof (f_equal (hd []) E) as E0. pose proof (f_equal (@tl bytes) E) as E1. cbn [hd tl] in E0, E1. pose proof (zlen_nonneg _ l).
  unfold parse_sst. rewrite idx_0. cbn [bind]. destruct r0 as [d0 s0]. cbn [dat] in E0. subst d0.
  rewrite <- app_assoc. rewrite sl_range_mid by reflexivity. cbn [bind dat].
  replace (le32 (put32 (zlen l))) with (@Ok Z (zlen l)) by (rewrite <- (app_nil_r (put32 (zlen l))); rewrite le32_put32 by lia; reflexivity). cbn [bind].
  rewrite app_assoc. rewrite sl_from_app by reflexivity. cbn [bind].
  set (R := mkSl ((put32 total ++ put32 (zlen l)) ++ y) s0 :: recs).
  assert (A : at_rec R 0 (mkSl y s0) (repeat [] 0 ++ layout l)).
  { split; [unfold R; rewrite zlen_cons; pose proof (zlen_nonneg _ recs); lia|]. cbn [repeat app dat]. rewrite EL. unfold R. f_equal. rewrite <- E1. reflexivity. }
  rewrite (sst_loop_ok l R 0 (mkSl y s0) 0 [] _ F A); [reflexivity|].
  rewrite (at_room _ _ _ _ A). cbn [repeat app]. rewrite EL. unfold sst_fuel, R. cbn [List.length map concat dat]. rewrite E1, !app_length.
  assert (LR : List.length recs = List.length ys) by (rewrite <- E1, map_length; reflexivity). rewrite LR. lia.
Qed.
(** The one restriction on divisions is needed: when a string in 16-bit form is followed in its
    record by exactly one byte of formatting or phonetic data, the table is rejected. *)
Theorem C48_one_byte_refuted : forall total us b recs sp sp2, units_fit true us -> us <> [] -> zlen us < 65536 ->
  let ext := [[b]; [0; 0; 0]] in
  recs = [mkSl (put32 total ++ put32 1 ++ (put16 (zlen us) ++ [5] ++ put32 4) ++ flat_map put16 us ++ [b]) sp; mkSl [0; 0; 0] sp2] ->
  map dat recs = sst_records total [(0%nat, mkItem (true, us) [] None (Some ext))] /\
  parse_sst recs = Err EOffByOne.
Proof.
  intros total us b recs sp sp2 F NU L ext ->. split.
  - unfold sst_records, layout, it_pieces, it_header, it_chars, it_tail, it_units, ext. cbn [it_first it_more it_runs it_ext opt_pieces fst snd flat_map map glue repeat app concat dat flag]. rewrite !app_nil_r. change (zlen [(0%nat, mkItem (true, us) [] None (Some [[b]; [0; 0; 0]]))]) with 1.
    unfold enc_units. change (zlen [b; 0; 0; 0]) with 4. rewrite <- ?app_assoc. cbn [app]. rewrite <- ?app_assoc. reflexivity.
  - unfold parse_sst. rewrite idx_0. cbn [bind].
    set (tl := (put16 (zlen us) ++ [5] ++ put32 4) ++ flat_map put16 us ++ [b]).
    rewrite sl_range_mid by reflexivity. cbn [bind dat]. change (le32 (put32 1)) with (@Ok Z 1). cbn [bind].
    rewrite (app_assoc (put32 total)). rewrite sl_from_app by reflexivity. cbn [bind]. set (R := [_; _]). unfold sst_fuel. cbn [sst_loop]. change (0 <? zlen R) with true. cbn [negb].
    assert (LT : 0 <? sl_len (mkSl tl sp) = true). { unfold sl_len, tl. cbn [dat]. rewrite !zlen_app, zlen_put16. pose proof (zlen_nonneg _ [5]). pose proof (zlen_nonneg _ (put32 4)). pose proof (zlen_nonneg _ (flat_map put16 us)). pose proof (zlen_nonneg _ [b]). lia. } rewrite LT. clear LT.
    unfold sst_string. unfold tl. cbn [dat]. rewrite <- !app_assoc. pose proof (zlen_nonneg _ us). rewrite le16_put16 by lia. cbn [bind]. rewrite sl_from_app by reflexivity. cbn [bind]. unfold sl_idx. cbn [dat app]. rewrite idx_0. cbn [bind].
    match goal with |- context [mkSl (5 :: ?t) ?s] => change (5 :: t) with ([5] ++ t) end. rewrite sl_from_app by reflexivity. cbn [bind]. change (negb (Z.land 5 8 =? 0)) with false. change (negb (Z.land 5 4 =? 0)) with true. change (negb (Z.land 5 1 =? 0)) with true. cbv iota. cbn [bind dat].
    rewrite le32_put32 by lia. cbn [bind]. rewrite sl_from_app by reflexivity. cbn [bind].
    assert (CH : forall us, Forall (fun u => 0 <= u < 65536) us -> us <> [] -> forall i, sst_chars (List.length us) R i true (mkSl (flat_map put16 us ++ [b]) sp) = Err EOffByOne).
    { clear. clearbody R. clear tl us. intros us. induction us as [|u us IH]; intros F NU i; [exfalso; apply NU; reflexivity|]. inversion F; subst. cbn [List.length sst_chars flat_map]. rewrite <- app_assoc.
      assert (Z1 : sl_len (mkSl (put16 u ++ flat_map put16 us ++ [b]) sp) =? 0 = false). { unfold sl_len. cbn [dat]. rewrite zlen_app, zlen_put16. pose proof (zlen_nonneg _ (flat_map put16 us ++ [b])). lia. } rewrite Z1. cbn [bind negb].
      rewrite sl_to_ok by reflexivity. cbn [bind dat]. rewrite le16_put16' by lia. cbn [bind]. rewrite sl_from_app by reflexivity. cbn [bind].
      destruct us as [|v us]; [reflexivity|].
      assert (Z2 : sl_len (mkSl (flat_map put16 (v :: us) ++ [b]) sp) =? 1 = false). { unfold sl_len. cbn [dat flat_map]. rewrite !zlen_app, zlen_put16. pose proof (zlen_nonneg _ (flat_map put16 us)). change (zlen [b]) with 1. lia. } rewrite Z2.
      rewrite IH by (auto; discriminate). reflexivity. }
    replace (Z.to_nat (zlen us)) with (List.length us) by (unfold zlen; lia). rewrite CH by auto. reflexivity.
Qed.

Definition ex_items : list (nat * sst_item) :=
  [ (0%nat, mkItem (false, [97; 98; 99]) [(true, [8364; 55357]); (true, [56832]); (false, [33])] None None);
    (1%nat, mkItem (true, []) [] None None);
    (0%nat, mkItem (true, [104; 105]) [] (Some [[0; 0; 0]; [1; 2; 2; 2; 2]]) (Some [[]; [9; 9; 9]])) ].
Definition ex_sst_recs : list slice := map (fun d => mkSl d [255; 255]) (sst_records 7 ex_items).
Example ex_C48_ok : Forall (fun x => it_ok (snd x)) ex_items.
Proof.
  unfold ex_items, it_ok, units_fit. repeat constructor; vm_compute; try (repeat constructor; vm_compute; intuition congruence); intuition congruence.
Qed.
Example ex_C48 : parse_sst ex_sst_recs = Ok [bs "abc" ++ [226; 130; 172; 240; 159; 152; 128] ++ bs "!"; []; bs "hi"] /\ zlen ex_sst_recs = 7.
Proof. vm_compute. split; reflexivity. Qed.
Example ex_C48_one : exists recs, map dat recs = sst_records 1 [(0%nat, mkItem (true, [72]) [] None (Some [[1]; [0; 0; 0]]))] /\ parse_sst recs = Err EOffByOne.
Proof.
  eexists. eapply (C48_one_byte_refuted 1 [72] 1 _ [] []); try reflexivity; try discriminate. repeat constructor; lia.
Qed.

(** ** C49 *)
Local Opaque f_of_bits fdiv.
Lemma rk_bits : forall r, Z.land r 1 = r mod 2 /\ (Z.land r 2 =? 0) = ((r / 2) mod 2 =? 0).
Proof.
  intros r. split; [change 1 with (Z.ones 1); rewrite Z.land_ones by lia; reflexivity|].
  assert (E : Z.land r 2 = 2 * ((r / 2) mod 2)).
  { change ((r / 2) mod 2) with ((r / 2) mod 2 ^ 1). rewrite <- Z.land_ones by lia. change (Z.ones 1) with 1. 
    apply Z.bits_inj'. intros n Hn. rewrite Z.land_spec. replace (2 * Z.land (r / 2) 1) with (Z.shiftl (Z.land (Z.shiftr r 1) 1) 1) by (rewrite Z.shiftl_mul_pow2, Z.shiftr_div_pow2 by lia; change (2 ^ 1) with 2; lia).
    rewrite Z.shiftl_spec by lia. destruct (Z.eq_dec n 0) as [->|N]; [change (Z.testbit 2 0) with false; rewrite andb_false_r, Z.testbit_neg_r by lia; reflexivity|]. rewrite Z.land_spec, Z.shiftr_spec by lia. replace (n - 1 + 1) with n by lia. f_equal.
    change 2 with (Z.shiftl 1 1). rewrite Z.shiftl_spec by lia. reflexivity. }
  rewrite E. pose proof (Z.mod_pos_bound (r / 2) 2 ltac:(lia)). lia.
Qed.
Lemma rk_val_signed : forall r, 0 <= r < 4294967296 -> rk_val r = rk_signed r.
Proof.
  intros r H. unfold rk_val, rk_signed, s32, u32. rewrite Z.mod_small by lia. rewrite Z.shiftr_div_pow2 by lia. change (2 ^ 2) with 4. change (2 ^ 29) with 536870912. change (2 ^ 30) with 1073741824.
  destruct (Z.ltb_spec r 2147483648), (Z.ltb_spec (r / 4) 536870912); lia.
Qed.
Lemma rk_v2_double : forall r, 0 <= r < 4294967296 -> rk_v2 r = rk_double r.
Proof.
  intros r H. unfold rk_v2, rk_double. f_equal. rewrite rk_val_signed by auto. unfold rk_signed, u64. rewrite Z.shiftl_mul_pow2 by lia. rewrite Zmult_mod_idemp_l. change (2 ^ 29) with 536870912. change (2 ^ 30) with 1073741824. change (2 ^ 34) with 17179869184.
  assert (0 <= r / 4 < 1073741824) by lia. destruct (Z.ltb_spec (r / 4) 536870912).
  - apply Z.mod_small. lia.
  - replace ((r / 4 - 1073741824) * 17179869184) with (r / 4 * 17179869184 + (-1) * 18446744073709551616) by lia. rewrite Z_mod_plus_full. apply Z.mod_small. lia.
Qed.
(** RK values by their two flag bits: 10 integer, 00 double, 01 double over 100 *)
Theorem C49_integer : forall r, 0 <= r < 4294967296 -> r mod 4 = 2 -> rk_goval r = GInt KInt (rk_signed r).
Proof.
  intros r H M. destruct (rk_bits r) as [B1 B2]. unfold rk_goval, rk_is_integer, rk_int. rewrite B1, B2.
  replace (r mod 2) with 0 by lia. replace ((r / 2) mod 2) with 1 by lia. change (0 =? 0) with true. change (1 =? 0) with false. cbn [andb negb]. rewrite rk_val_signed by auto. reflexivity.
Qed.
Theorem C49_double : forall r, 0 <= r < 4294967296 -> r mod 4 = 0 -> rk_goval r = GF64 (rk_double r).
Proof.
  intros r H M. destruct (rk_bits r) as [B1 B2]. unfold rk_goval, rk_is_integer, rk_float. rewrite B1, B2.
  replace (r mod 2) with 0 by lia. replace ((r / 2) mod 2) with 0 by lia. change (0 =? 0) with true. cbn [andb negb]. rewrite rk_v2_double by auto. reflexivity.
Qed.
Theorem C49_double_100 : forall r, 0 <= r < 4294967296 -> r mod 4 = 1 -> rk_goval r = GF64 (fdiv (rk_double r) (f_of_Z 100)).
Proof.
  intros r H M. destruct (rk_bits r) as [B1 B2]. unfold rk_goval, rk_is_integer, rk_float. rewrite B1, B2.
  replace (r mod 2) with 1 by lia. replace ((r / 2) mod 2) with 0 by lia. change (0 =? 0) with true. change (1 =? 0) with false. cbn [andb negb]. rewrite rk_v2_double by auto. reflexivity.
Qed.
(** Flag bits 11: the number is rk_signed r / 100, the reader reports 0. *)
Theorem C49_integer_100_refuted : forall r, 0 <= r < 4294967296 -> r mod 4 = 3 -> rk_goval r = GF64 f_zero.
Proof.
  intros r H M. destruct (rk_bits r) as [B1 B2]. unfold rk_goval, rk_is_integer, rk_float. rewrite B1, B2.
  replace (r mod 2) with 1 by lia. replace ((r / 2) mod 2) with 1 by lia. change (1 =? 0) with false. cbn [andb negb]. reflexivity.
Qed.
(** 1.0 (bits 3FF00000 00000000), -7, 1.0 over 100, and 12.34 *)
Example ex_C49 : rk_goval 1072693248 = GF64 (f_of_bits 4607182418800017408) /\ rk_goval (4294967268 + 2) = GInt KInt (-7) /\
  rk_goval (1072693248 + 1) = GF64 (fdiv (f_of_bits 4607182418800017408) (f_of_Z 100)) /\ rk_signed (4 * 1234 + 3) = 1234 /\ rk_goval (4 * 1234 + 3) = GF64 f_zero.
Proof.
  split; [apply (C49_double 1072693248); [lia|reflexivity]|]. split; [apply (C49_integer (4294967268 + 2)); [lia|reflexivity]|].
  split; [apply (C49_double_100 (1072693248 + 1)); [lia|reflexivity]|]. split; [reflexivity|]. apply (C49_integer_100_refuted (4 * 1234 + 3)); [lia|reflexivity].
Qed.

Print Assumptions C47_short.
Print Assumptions C47_long.
Print Assumptions C47_text.
Print Assumptions C47_roundtrip.
Print Assumptions C47_overrun_refuted.
Print Assumptions C48_shared_strings.
Print Assumptions C48_one_byte_refuted.
Print Assumptions C49_integer.
Print Assumptions C49_double.
Print Assumptions C49_double_100.
Print Assumptions C49_integer_100_refuted.
