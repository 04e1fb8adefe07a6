(** * L_xlstr: lemmas about M_xlstr. *)
From Verif Require Import GoBase GoUnicode GoFloat M_value L_base M_xlstr S_xlstr.
From Coq Require Import ZifyBool.

(** ** UTF-16 *)
Lemma utf16_dec_enc : forall rs, Forall scalar rs -> utf16_decode (utf16_enc rs) = rs.
Proof.
  induction 1 as [|r rs H F IH]; [reflexivity|]. unfold utf16_enc. cbn [flat_map]. fold (utf16_enc rs). unfold utf16_enc1.
  destruct (Z.ltb_spec r 65536).
  - cbn [app utf16_decode]. destruct (Z.leb_spec 55296 r), (Z.ltb_spec r 56320), (Z.leb_spec 56320 r), (Z.ltb_spec r 57344); cbn [andb]; try (destruct H; lia); rewrite IH; reflexivity.
  - assert (HH : 65536 <= r <= 1114111) by (destruct H; lia). set (q := r - 65536).
    assert (Q1 : 0 <= q / 1024 < 1024). { split; [apply Z.div_pos; lia|apply Z.div_lt_upper_bound; lia]. }
    pose proof (Z.mod_pos_bound q 1024 ltac:(lia)) as Q2.
    cbn [app utf16_decode].
    destruct (Z.leb_spec 55296 (55296 + q / 1024)); [|lia]. destruct (Z.ltb_spec (55296 + q / 1024) 56320); [|lia]. cbn [andb].
    destruct (Z.leb_spec 56320 (56320 + q mod 1024)); [|lia]. destruct (Z.ltb_spec (56320 + q mod 1024) 57344); [|lia]. cbn [andb].
    rewrite IH. f_equal. pose proof (Z.div_mod q 1024 ltac:(lia)). unfold q in *. lia.
Qed.

(** ** slices *)
Lemma sl_to_ok : forall a b sp n, n = zlen a -> sl_to (mkSl (a ++ b) sp) n = Ok (mkSl a (b ++ sp)).
Proof.
  intros a b sp n ->. unfold sl_to, sl_range, sl_full. cbn [dat spare]. rewrite !zlen_app. pose proof (zlen_nonneg _ a). pose proof (zlen_nonneg _ b). pose proof (zlen_nonneg _ sp).
  destruct (Z.leb_spec 0 0); [|lia]. destruct (Z.leb_spec 0 (zlen a)); [|lia]. destruct (Z.leb_spec (zlen a) (zlen a + zlen b + zlen sp)); [|lia]. cbn [andb].
  rewrite Z.sub_0_r, zdrop_0, <- app_assoc, ztake_app_exact, zdrop_app_exact. reflexivity.
Qed.
Lemma sl_from_app : forall a b sp n, n = zlen a -> sl_from (mkSl (a ++ b) sp) n = Ok (mkSl b sp).
Proof.
  intros a b sp n ->. unfold sl_from, sl_len. cbn [dat spare]. rewrite zlen_app. pose proof (zlen_nonneg _ a). pose proof (zlen_nonneg _ b).
  destruct (Z.leb_spec 0 (zlen a)); [|lia]. destruct (Z.leb_spec (zlen a) (zlen a + zlen b)); [|lia]. cbn [andb]. rewrite zdrop_app_exact. reflexivity.
Qed.
Lemma idx_1 : forall A (a b : A) l, idx (a :: b :: l) 1 = Ok b.
Proof. reflexivity. Qed.
Lemma sl_range_mid : forall a b c sp lo hi, lo = zlen a -> hi = zlen a + zlen b ->
  sl_range (mkSl (a ++ b ++ c) sp) lo hi = Ok (mkSl b (c ++ sp)).
Proof.
  intros a b c sp lo hi -> ->. unfold sl_range, sl_full. cbn [dat spare]. rewrite !zlen_app. pose proof (zlen_nonneg _ a). pose proof (zlen_nonneg _ b). pose proof (zlen_nonneg _ c). pose proof (zlen_nonneg _ sp).
  destruct (Z.leb_spec 0 (zlen a)); [|lia]. destruct (Z.leb_spec (zlen a) (zlen a + zlen b)); [|lia]. destruct (Z.leb_spec (zlen a + zlen b) (zlen a + (zlen b + zlen c) + zlen sp)); [|lia]. cbn [andb].
  replace (zlen a + zlen b - zlen a) with (zlen b) by lia. rewrite <- !app_assoc. rewrite zdrop_app_exact, ztake_app_exact. replace (zlen a + zlen b) with (zlen (a ++ b)) by apply zlen_app. rewrite (app_assoc a b), zdrop_app_exact. reflexivity.
Qed.
Lemma land1 : forall r w, Z.land (2 * r + flag w) 1 = flag w.
Proof.
  intros r w. change 1 with (Z.ones 1) at 1. rewrite Z.land_ones by lia. change (2 ^ 1) with 2. rewrite Z.add_comm, Z.mul_comm, Z_mod_plus_full. destruct w; reflexivity.
Qed.
Lemma flag_test : forall w, negb (flag w =? 0) = w.
Proof. destruct w; reflexivity. Qed.
Lemma zlen_enc_units : forall w us, zlen (enc_units w us) = (if w then 2 else 1) * zlen us.
Proof.
  intros [] us; unfold enc_units.
  - induction us as [|u us IH]; [reflexivity|]. cbn [flat_map]. rewrite zlen_app, zlen_put16, IH, zlen_cons. lia.
  - lia.
Qed.
Lemma le16_put16' : forall u, 0 <= u < 65536 -> le16 (put16 u) = Ok u.
Proof. intros. rewrite <- (app_nil_r (put16 u)). apply le16_put16; auto. Qed.
Lemma units_cap_ok : forall us rest sp, Forall (fun u => 0 <= u < 65536) us ->
  units_cap (List.length us) (mkSl (flat_map put16 us ++ rest) sp) = Ok us.
Proof.
  induction us as [|u us IH]; intros rest sp F; [reflexivity|]. inversion F; subst. cbn [List.length flat_map units_cap]. rewrite <- app_assoc.
  rewrite sl_to_ok by reflexivity. cbn [bind dat]. rewrite le16_put16' by lia. cbn [bind].
  rewrite sl_from_app by reflexivity. cbn [bind]. rewrite IH by auto. reflexivity.
Qed.

Lemma decode_units_ok : forall k res w us rest sp, units_fit w us ->
  decode_units k (zlen us) (2 * res + flag w) (mkSl (enc_units w us ++ rest) sp) = Ok (utf16_string us, k + zlen (enc_units w us)).
Proof.
  intros k res w us rest sp F. unfold decode_units. rewrite land1. destruct w; unfold flag.
  - change (1 =? 0) with false. cbv iota. unfold zlen at 1. rewrite Nat2Z.id. unfold enc_units at 1. rewrite units_cap_ok by exact F. cbn [bind]. rewrite zlen_enc_units. do 2 f_equal. lia.
  - change (0 =? 0) with true. cbv iota. unfold enc_units. rewrite sl_to_ok by reflexivity. cbn [bind dat]. do 2 f_equal. lia.
Qed.

(** ** shared string table *)
(** the reader is at record i with buf left; ps are buf and the following records *)
Definition at_rec (recs : list slice) (i : Z) (buf : slice) (ps : list bytes) : Prop :=
  0 <= i < zlen recs /\ ps = dat buf :: map dat (zdrop (i + 1) recs).

Lemma at_next : forall recs i buf x y ps, at_rec recs i buf (x :: y :: ps) ->
  exists d, idx recs (i + 1) = Ok d /\ dat d = y /\ at_rec recs (i + 1) d (y :: ps).
Proof.
  intros recs i buf x y ps [Hi E]. injection E as -> E.
  assert (L : i + 1 < zlen recs).
  { destruct (Z.ltb_spec (i + 1) (zlen recs)); auto. rewrite zdrop_all in E by lia. discriminate. }
  destruct (idx_in _ recs (i + 1)) as (d & Hd); [lia|]. exists d. split; auto.
  assert (ZD : zdrop (i + 1) recs = d :: zdrop (i + 1 + 1) recs).
  { clear E. pose proof Hd as Hd'. unfold idx in Hd'. destruct (Z.leb_spec 0 (i + 1)); [|lia]. destruct (nth_error recs (Z.to_nat (i + 1))) as [z|] eqn:N; [|discriminate]. injection Hd' as ->.
    unfold zdrop. replace (Z.to_nat (i + 1 + 1)) with (S (Z.to_nat (i + 1))) by lia. revert N. generalize (Z.to_nat (i + 1)) as n. clear. intros n. revert recs.
    induction n as [|n IH]; intros [|z l] N; cbn [nth_error] in N; try discriminate.
    - injection N as ->. reflexivity.
    - cbn [skipn]. apply IH in N. exact N. }
  rewrite ZD in E. cbn [map] in E. injection E as Ey E. split; auto. split; [lia|]. rewrite <- E, Ey. reflexivity.
Qed.
Lemma at_take : forall recs i buf a x ps n, at_rec recs i buf ((a ++ x) :: ps) -> n = zlen a ->
  exists buf', sl_from buf n = Ok buf' /\ dat buf' = x /\ at_rec recs i buf' (x :: ps).
Proof.
  intros recs i [bd bsp] a x ps n [Hi E] ->. injection E as E1 E2. cbn [dat] in E1. subst bd. rewrite sl_from_app by reflexivity.
  eexists. split; [reflexivity|]. split; [reflexivity|]. split; auto. rewrite E2. reflexivity.
Qed.
Lemma at_dat : forall recs i buf x ps, at_rec recs i buf (x :: ps) -> dat buf = x.
Proof. intros recs i buf x ps [_ E]. injection E as E _. auto. Qed.

(** characters of one chunk, all in the current record *)
Lemma chars_chunk : forall us w recs i buf x ps n, Forall (fun u => 0 <= u < (if w : bool then 65536 else 256)) us ->
  at_rec recs i buf ((enc_units w us ++ x) :: ps) ->
  (w = true -> us <> [] -> zlen x <> 1) ->
  exists buf', at_rec recs i buf' (x :: ps) /\
    sst_chars (List.length us + n) recs i w buf = ('(vs, j, b) <- sst_chars n recs i w buf' ;; Ok (us ++ vs, j, b)).
Proof.
  induction us as [|u us IH]; intros w recs i buf x ps n F A HX.
  - exists buf. replace (enc_units w [] ++ x) with x in A by (destruct w; reflexivity). split; auto. cbn [List.length plus app]. destruct (sst_chars n recs i w buf) as [[[? ?] ?]|?| |]; reflexivity.
  - inversion F as [|? ? Hu F']; subst. cbn [List.length plus sst_chars].
    assert (NE : sl_len buf =? 0 = false).
    { unfold sl_len. rewrite (at_dat _ _ _ _ _ A). rewrite zlen_app, zlen_enc_units, zlen_cons. pose proof (zlen_nonneg _ us). pose proof (zlen_nonneg _ x). destruct w; lia. }
    rewrite NE. cbn [bind]. destruct w; cbn [negb].
    + assert (A' : at_rec recs i buf ((put16 u ++ (flat_map put16 us ++ x)) :: ps)) by (unfold enc_units in A; cbn [flat_map] in A; rewrite <- app_assoc in A; exact A).
      pose proof (at_dat _ _ _ _ _ A') as D. destruct buf as [bd bsp]. cbn [dat] in D. subst bd. rewrite sl_to_ok by reflexivity. cbn [bind dat].
      rewrite le16_put16' by lia. cbn [bind].
      destruct (at_take _ _ _ _ _ _ 2 A' eq_refl) as (b1 & E1 & D1 & A1). rewrite E1. cbn [bind].
      replace (sl_len b1 =? 1) with false.
      2:{ unfold sl_len. rewrite D1. rewrite zlen_app. change (flat_map put16 us) with (enc_units true us). rewrite zlen_enc_units. pose proof (zlen_nonneg _ us). pose proof (zlen_nonneg _ x).
          symmetry. apply Z.eqb_neq. cbv iota. destruct us as [|v us]; [|rewrite zlen_cons; pose proof (zlen_nonneg _ us); lia]. change (zlen (@nil Z)) with 0. specialize (HX eq_refl ltac:(discriminate)). lia. }
      destruct (IH true recs i b1 x ps n F' A1) as (b2 & A2 & E2). { intros _ N. apply HX; auto. discriminate. }
      exists b2. split; auto. rewrite E2. destruct (sst_chars n recs i true b2) as [[[? ?] ?]|?| |]; reflexivity.
    + assert (A' : at_rec recs i buf (([u] ++ (us ++ x)) :: ps)) by exact A.
      unfold sl_idx. rewrite (at_dat _ _ _ _ _ A'). cbn [app]. rewrite idx_0. cbn [bind].
      destruct (at_take _ _ _ _ _ _ 1 A' eq_refl) as (b1 & E1 & D1 & A1). rewrite E1. cbn [bind].
      destruct (IH false recs i b1 x ps n F' A1) as (b2 & A2 & E2). { discriminate. }
      exists b2. split; auto. rewrite E2. destruct (sst_chars n recs i false b2) as [[[? ?] ?]|?| |]; reflexivity.
Qed.

(** all chunks; T are the pieces after the characters *)
Definition chars_pieces (w : bool) (us : list Z) (more : list (bool * list Z)) : list bytes :=
  enc_units w us :: map (fun c => flag (fst c) :: enc_units (fst c) (snd c)) more.
Lemma glue_cons2 : forall x y a b, glue (x :: y :: a) b = x :: glue (y :: a) b.
Proof. reflexivity. Qed.
Lemma glue_one : forall x y b, glue [x] (y :: b) = (x ++ y) :: b.
Proof. reflexivity. Qed.
Lemma last_cons' : forall A (l : list A) a d, last (a :: l) d = last l a.
Proof. induction l as [|b l IH]; intros a d; [reflexivity|]. change (last (a :: b :: l) d) with (last (b :: l) d). rewrite !IH. reflexivity. Qed.
Lemma chars_ok : forall more w us recs i buf x ps, units_fit w us ->
  Forall (fun c => units_fit (fst c) (snd c) /\ snd c <> []) more ->
  at_rec recs i buf (glue (chars_pieces w us more) (x :: ps)) ->
  (fst (last more (w, us)) = true -> zlen x <> 1) ->
  exists j buf', at_rec recs j buf' (x :: ps) /\
    sst_chars (List.length (us ++ flat_map snd more)) recs i w buf = Ok (us ++ flat_map snd more, j, buf').
Proof.
  induction more as [|[w2 us2] more IH]; intros w us recs i buf x ps F FM A HL.
  - cbn [chars_pieces map flat_map] in *. unfold chars_pieces in A. cbn [map] in A. rewrite glue_one in A. cbn [last fst] in HL. rewrite app_nil_r.
    destruct (chars_chunk us w recs i buf x ps 0 F A) as (b & A2 & E); auto. exists i, b. split; auto. rewrite Nat.add_0_r in E. rewrite E. cbn [sst_chars bind]. rewrite app_nil_r. reflexivity.
  - inversion FM as [|? ? [F2 N2] FM']; subst. cbn [fst snd] in *. unfold chars_pieces in A. cbn [map fst snd] in A. rewrite glue_cons2 in A.
    destruct (chars_chunk us w recs i buf [] (glue ((flag w2 :: enc_units w2 us2) :: map (fun c => flag (fst c) :: enc_units (fst c) (snd c)) more) (x :: ps)) (List.length (us2 ++ flat_map snd more)) F) as (b & A2 & E).
    { rewrite app_nil_r. exact A. }
    { intros _ _. discriminate. }
    cbn [flat_map snd]. rewrite app_length in E |- *. rewrite app_length. rewrite E. clear E.
    assert (G : exists y ps', glue ((flag w2 :: enc_units w2 us2) :: map (fun c => flag (fst c) :: enc_units (fst c) (snd c)) more) (x :: ps) = (flag w2 :: y) :: ps' /\ glue (chars_pieces w2 us2 more) (x :: ps) = y :: ps').
    { unfold chars_pieces. destruct more; cbn [map]; [rewrite !glue_one|rewrite !glue_cons2]; do 2 eexists; split; reflexivity. }
    destruct G as (y & ps' & G1 & G2). rewrite G1 in A2.
    destruct (at_next _ _ _ _ _ _ A2) as (d & Ed & Dd & Ad).
    assert (Ad' : at_rec recs (i + 1) d (([flag w2] ++ y) :: ps')) by exact Ad.
    destruct (at_take _ _ _ _ _ _ 1 Ad' eq_refl) as (b3 & E3 & D3 & A3). rewrite <- G2 in A3.
    destruct (IH w2 us2 recs (i + 1) b3 x ps F2 FM' A3) as (j & b4 & A4 & E4).
    { rewrite last_cons' in HL. exact HL. }
    exists j, b4. split; auto.
    assert (ST : sst_chars (List.length us2 + List.length (flat_map snd more)) recs i w b = sst_chars (List.length us2 + List.length (flat_map snd more)) recs (i + 1) w2 b3).
    { destruct us2 as [|u us2]; [congruence|]. cbn [List.length plus sst_chars].
      assert (SB : sl_len b =? 0 = true) by (unfold sl_len; rewrite (at_dat _ _ _ _ _ A2); reflexivity). rewrite SB, Ed. cbn [bind]. unfold sl_idx. rewrite Dd, idx_0. cbn [bind]. rewrite E3. cbn [bind].
      assert (LW : negb (Z.land (flag w2) 1 =? 0) = w2) by (destruct w2; reflexivity). rewrite LW.
      assert (SB3 : sl_len b3 =? 0 = false).
      { unfold sl_len. rewrite (at_dat _ _ _ _ _ A3) || idtac. unfold at_rec in A3. rewrite G2 in A3. destruct A3 as [_ A3]. injection A3 as A3 _. rewrite <- A3.
        assert (YE : exists z, y = enc_units w2 (u :: us2) ++ z).
        { unfold chars_pieces in G2. destruct more; cbn [map] in G2; [rewrite glue_one in G2|rewrite glue_cons2 in G2]; injection G2 as <- _; eauto. exists []. rewrite app_nil_r. auto. }
        destruct YE as (z & ->). rewrite zlen_app, zlen_enc_units, zlen_cons. pose proof (zlen_nonneg _ us2). pose proof (zlen_nonneg _ z). destruct w2; lia. }
      rewrite SB3. reflexivity. }
    rewrite ST, <- app_length, E4. reflexivity.
Qed.

Lemma glue_assoc : forall a b c, b <> [] -> glue a (glue b c) = glue (glue a b) c.
Proof.
  induction a as [|x a IH]; intros b c NB; [reflexivity|]. destruct a as [|y a].
  - destruct b as [|z b]; [congruence|]. destruct b as [|z2 b].
    + destruct c; cbn [glue]; [reflexivity|]. rewrite app_assoc. reflexivity.
    + reflexivity.
  - cbn [glue]. specialize (IH b c NB). cbn [glue] in IH. rewrite IH. destruct a; [destruct b; [congruence|]|]; reflexivity.
Qed.
Lemma glue_nonnil : forall a b, a <> [] \/ b <> [] -> glue a b <> [].
Proof. intros [|x [|y a]] [|z b] H; cbn [glue]; try discriminate; destruct H; congruence. Qed.
Lemma glue_repeat : forall k a b, a <> [] -> repeat [] k ++ glue a b = glue (repeat [] k ++ a) b.
Proof.
  induction k as [|k IH]; intros a b NA; [reflexivity|]. cbn [repeat app]. rewrite IH by auto. destruct (repeat [] k ++ a) eqn:E; [|reflexivity].
  destruct k; [cbn in E; congruence|discriminate].
Qed.
Lemma concat_repeat_nil : forall k (a : list bytes), concat (repeat [] k ++ a) = concat a.
Proof. induction k; intros; cbn [repeat app concat]; auto. Qed.

(** skipping the bytes of ps: the reader stops before rest, possibly with record ends to pass *)
Lemma skip_ok : forall ps rest recs i buf n fuel, ps <> [] -> rest <> [] -> at_rec recs i buf (glue ps rest) -> n = zlen (concat ps) ->
  (List.length ps <= fuel)%nat ->
  exists j buf' k, sst_skip fuel n recs i buf = Ok (j, buf') /\ at_rec recs j buf' (repeat [] k ++ rest) /\ (k < List.length ps)%nat.
Proof.
  induction ps as [|p ps IH]; intros rest recs i buf n fuel NP NR A -> HF; [congruence|].
  destruct fuel as [|fuel]; [cbn in HF; lia|].
  assert (Z0 : zlen (concat (p :: ps)) = 0 -> exists j buf' k, sst_skip (S fuel) (zlen (concat (p :: ps))) recs i buf = Ok (j, buf') /\ at_rec recs j buf' (repeat [] k ++ rest) /\ (k < List.length (p :: ps))%nat).
  { intros Z0. exists i, buf, (List.length ps). rewrite Z0. split; [reflexivity|]. split; [|cbn; lia].
    replace (repeat [] (List.length ps) ++ rest) with (glue (p :: ps) rest); auto.
    clear - Z0 NR. revert p Z0. induction ps as [|q ps IH]; intros p Z0.
    - cbn [concat] in Z0. rewrite app_nil_r in Z0. apply zlen_0 in Z0. subst. destruct rest; [congruence|]. reflexivity.
    - cbn [concat] in Z0. rewrite !zlen_app in Z0. pose proof (zlen_nonneg _ p). pose proof (zlen_nonneg _ q). pose proof (zlen_nonneg _ (concat ps)).
      assert (P0 : p = []) by (apply zlen_0; lia). subst p. rewrite glue_cons2, IH; [reflexivity|]. cbn [concat]. rewrite zlen_app. lia. }
  destruct (Z.eq_dec (zlen (concat (p :: ps))) 0) as [E0|N0]; [auto|].
  pose proof (zlen_nonneg _ (concat (p :: ps))). cbn [sst_skip]. destruct (Z.ltb_spec 0 (zlen (concat (p :: ps)))); [|lia].
  destruct ps as [|q ps].
  - cbn [concat] in *. rewrite app_nil_r in *. destruct rest as [|y rest]; [congruence|]. rewrite glue_one in A.
    assert (SL : sl_len buf = zlen p + zlen y) by (unfold sl_len; rewrite (at_dat _ _ _ _ _ A), zlen_app; reflexivity). pose proof (zlen_nonneg _ y).
    destruct (Z.leb_spec (zlen p) (sl_len buf)); [|lia]. destruct (at_take _ _ _ _ _ _ (zlen p) A eq_refl) as (b & E & _ & A2). rewrite E. cbn [bind].
    exists i, b, 0%nat. cbn. auto.
  - rewrite glue_cons2 in A.
    assert (SL : sl_len buf = zlen p) by (unfold sl_len; destruct A as [_ A]; injection A as A _; rewrite <- A; reflexivity).
    change (concat (p :: q :: ps)) with (p ++ concat (q :: ps)) in *. rewrite zlen_app in *. pose proof (zlen_nonneg _ (concat (q :: ps))).
    destruct (Z.eq_dec (zlen (concat (q :: ps))) 0) as [EQ|NQ].
    + (* all remaining bytes are here *)
      destruct (Z.leb_spec (zlen p + zlen (concat (q :: ps))) (sl_len buf)); [|lia].
      rewrite <- (app_nil_r p) in A at 1. destruct (at_take _ _ _ _ _ _ (zlen p) A eq_refl) as (b & E & _ & A2). replace (zlen p + zlen (concat (q :: ps))) with (zlen p) by lia. rewrite E. cbn [bind].
      exists i, b, (S (List.length ps)). split; auto. split; [|cbn; lia].
      replace (repeat [] (S (List.length ps)) ++ rest) with ([] :: glue (q :: ps) rest); auto.
      cbn [repeat app]. f_equal. clear - EQ NR. revert q EQ. induction ps as [|r ps IH]; intros q EQ.
      * cbn [concat] in EQ. rewrite app_nil_r in EQ. apply zlen_0 in EQ. subst. destruct rest; [congruence|]. reflexivity.
      * cbn [concat] in EQ. rewrite !zlen_app in EQ. pose proof (zlen_nonneg _ r). pose proof (zlen_nonneg _ q). pose proof (zlen_nonneg _ (concat ps)).
        assert (P0 : q = []) by (apply zlen_0; lia). subst q. rewrite glue_cons2, IH; [reflexivity|]. cbn [concat]. rewrite zlen_app. lia.
    + destruct (Z.leb_spec (zlen p + zlen (concat (q :: ps))) (sl_len buf)); [lia|].
      destruct (glue (q :: ps) rest) as [|y ys] eqn:G; [exfalso; revert G; apply glue_nonnil; left; discriminate|].
      destruct (at_next _ _ _ _ _ _ A) as (d & Ed & _ & Ad). rewrite Ed. cbn [bind]. rewrite <- G in Ad.
      destruct (IH rest recs (i + 1) d (zlen p + zlen (concat (q :: ps)) - sl_len buf) fuel) as (j & b & k & E & A2 & K); auto; try discriminate; try lia; [cbn in HF |- *; lia|].
      exists j, b, k. split; auto. split; auto. cbn in K |- *. lia.
Qed.
Lemma at_length : forall recs i buf ps, at_rec recs i buf ps -> (List.length ps <= List.length recs)%nat.
Proof.
  intros recs i buf ps [Hi ->]. cbn [List.length]. rewrite map_length. unfold zdrop. rewrite skipn_length. unfold zlen in Hi. lia.
Qed.
Lemma glue_length : forall a b, a <> [] -> b <> [] -> (List.length a <= List.length (glue a b))%nat.
Proof.
  induction a as [|x a IH]; intros b NA NB; [cbn; lia|]. destruct a as [|y a]; [destruct b; cbn; lia|]. rewrite glue_cons2. specialize (IH b ltac:(discriminate) NB). cbn [List.length] in *. lia.
Qed.

Lemma flags_bits : forall w e r, let f := flag w + (if e : bool then 4 else 0) + (if r : bool then 8 else 0) in
  negb (Z.land f 8 =? 0) = r /\ negb (Z.land f 4 =? 0) = e /\ negb (Z.land f 1 =? 0) = w.
Proof. intros [] [] []; cbn; auto. Qed.
Definition is_some {A} (o : option A) : bool := match o with None => false | Some _ => true end.
Lemma hd_glue : forall s, opt_pieces (it_runs s) <> [] -> opt_pieces (it_ext s) <> [] -> it_tail s <> [].
Proof. intros s H1 H2. apply glue_nonnil. auto. Qed.

Lemma flag_w : forall w, negb (Z.land (flag w) 1 =? 0) = w.
Proof. destruct w; reflexivity. Qed.
Lemma last_tail : forall s rest x ps, it_tail s <> [] -> rest <> [] -> glue (it_tail s) rest = x :: ps ->
  zlen (hd [] (it_tail s)) <> 1 -> (zlen (hd [] rest) = 0 \/ 3 <= zlen (hd [] rest)) -> zlen x <> 1.
Proof.
  intros s rest x ps NT NR G H1 H2. destruct (it_tail s) as [|t [|t2 ts]]; [congruence| |].
  - destruct rest as [|y rest]; [congruence|]. rewrite glue_one in G. injection G as <- _. cbn [hd] in *. rewrite zlen_app. pose proof (zlen_nonneg _ t). lia.
  - rewrite glue_cons2 in G. injection G as <- _. exact H1.
Qed.

Lemma room_glue : forall a b, (a <> [] -> b <> [] -> List.length (concat (glue a b)) = (List.length (concat a) + List.length (concat b))%nat /\ S (List.length (glue a b)) = (List.length a + List.length b)%nat)%nat.
Proof.
  induction a as [|x a IH]; intros b NA NB; [congruence|]. destruct a as [|y a].
  - destruct b as [|z b]; [congruence|]. rewrite glue_one. cbn [concat List.length]. rewrite app_nil_r, !app_length. lia.
  - rewrite glue_cons2. destruct (IH b ltac:(discriminate) NB) as [I1 I2]. change (concat (x :: ?z)) with (x ++ concat z). rewrite !app_length, I1. cbn [List.length] in *. lia.
Qed.

Lemma sst_string_ok : forall s rest recs i buf, it_ok s -> rest <> [] -> (zlen (hd [] rest) = 0 \/ 3 <= zlen (hd [] rest)) ->
  at_rec recs i buf (glue (it_pieces s) rest) ->
  exists j buf' k, sst_string recs i buf = Ok (item_text s, j, buf') /\ at_rec recs j buf' (repeat [] k ++ rest) /\ (k < List.length (it_pieces s))%nat.
Proof.
  intros s rest recs i buf (L & F1 & FM & NR & NE & M4 & LR & LE & HW) NRest HR A.
  assert (NT : it_tail s <> []) by (apply hd_glue; auto).
  unfold it_pieces in A. rewrite <- glue_assoc in A by (apply glue_nonnil; auto).
  rewrite <- glue_assoc in A by auto.
  destruct (glue (it_tail s) rest) as [|x ps] eqn:GT; [exfalso; revert GT; apply glue_nonnil; auto|].
  assert (GC : exists c cs, glue (it_chars s) (x :: ps) = c :: cs).
  { destruct (glue (it_chars s) (x :: ps)) eqn:Q; eauto. exfalso. revert Q. apply glue_nonnil. right. discriminate. }
  destruct GC as (c & cs & GC). rewrite GC, glue_one in A.
  assert (FB : flag (fst (it_first s)) + match it_ext s with None => 0 | _ => 4 end + match it_runs s with None => 0 | _ => 8 end =
    flag (fst (it_first s)) + (if is_some (it_ext s) then 4 else 0) + (if is_some (it_runs s) then 8 else 0)) by (destruct (it_ext s), (it_runs s); reflexivity).
  unfold it_header in A. rewrite FB in A. set (fl := flag (fst (it_first s)) + _ + _) in A.
  destruct (flags_bits (fst (it_first s)) (is_some (it_ext s)) (is_some (it_runs s))) as (B8 & B4 & B1). fold fl in B8, B4, B1.
  rewrite <- !app_assoc in A. set (q1 := match it_runs s with None => [] | Some ps => put16 (zlen (concat ps) / 4) end) in A. set (q2 := match it_ext s with None => [] | Some ps => put32 (zlen (concat ps)) end) in A.
  unfold sst_string. rewrite (at_dat _ _ _ _ _ A). rewrite le16_put16 by (pose proof (zlen_nonneg _ (it_units s)); lia). cbn [bind].
  destruct (at_take _ _ _ _ _ _ 2 A eq_refl) as (b1 & E1 & D1 & A1). rewrite E1. cbn [bind]. unfold sl_idx. rewrite D1. cbn [app]. rewrite idx_0. cbn [bind].
  destruct (at_take _ _ _ [fl] _ _ 1 A1 eq_refl) as (b2 & E2 & D2 & A2). rewrite E2. cbn [bind]. rewrite B8, B4, B1.
  assert (R3 : exists b3, (if is_some (it_runs s) then c0 <- le16 (dat b2) ;; b <- sl_from b2 2 ;; Ok (c0 * 4, b) else Ok (0, b2)) = Ok (opt_len (it_runs s), b3) /\ at_rec recs i b3 ((q2 ++ c) :: cs)).
  { rewrite D2. unfold q1 in A2. unfold q1. destruct (it_runs s) as [rp|]; cbn [is_some opt_len] in *.
    - pose proof (zlen_nonneg _ (concat rp)). rewrite le16_put16 by (split; [apply Z.div_pos; lia|lia]). cbn [bind].
      destruct (at_take _ _ _ _ _ _ 2 A2 eq_refl) as (b3 & E3 & _ & A3). rewrite E3. cbn [bind]. exists b3. split; auto. do 2 f_equal. pose proof (Z.div_mod (zlen (concat rp)) 4 ltac:(lia)). lia.
    - exists b2. auto. }
  destruct R3 as (b3 & E3 & A3). rewrite E3. cbn [bind].
  assert (R4 : exists b4, (if is_some (it_ext s) then c0 <- le32 (dat b3) ;; b <- sl_from b3 4 ;; Ok (c0, b) else Ok (0, b3)) = Ok (opt_len (it_ext s), b4) /\ at_rec recs i b4 (c :: cs)).
  { pose proof (at_dat _ _ _ _ _ A3) as D3. rewrite D3. unfold q2 in A3. unfold q2. destruct (it_ext s) as [rp|]; cbn [is_some opt_len] in *.
    - pose proof (zlen_nonneg _ (concat rp)). rewrite le32_put32 by lia. cbn [bind].
      destruct (at_take _ _ _ _ _ _ 4 A3 eq_refl) as (b4 & E4 & _ & A4). rewrite E4. cbn [bind]. exists b4. auto.
    - exists b3. auto. }
  destruct R4 as (b4 & E4 & A4). rewrite E4. cbn [bind]. rewrite <- GC in A4.
  destruct (chars_ok (it_more s) (fst (it_first s)) (snd (it_first s)) recs i b4 x ps F1 FM A4) as (j & b5 & A5 & E5).
  { intros W. apply (last_tail s rest x ps NT NRest GT); [apply HW|exact HR]. unfold it_last. destruct (it_first s). exact W. }
  unfold zlen. rewrite Nat2Z.id. change (snd (it_first s) ++ flat_map snd (it_more s)) with (it_units s) in E5. rewrite E5. cbn [bind].
  rewrite <- GT in A5. unfold it_tail in A5. rewrite <- glue_assoc in A5 by auto.
  destruct (glue (opt_pieces (it_ext s)) rest) as [|y ys] eqn:GE; [exfalso; revert GE; apply glue_nonnil; auto|].
  assert (OL : forall o, opt_len o = zlen (concat (opt_pieces o))) by (intros [|]; reflexivity).
  destruct (skip_ok (opt_pieces (it_runs s)) (y :: ys) recs j b5 (opt_len (it_runs s)) (S (List.length recs))) as (j2 & b6 & k & E6 & A6 & K1); auto; try discriminate.
  { pose proof (at_length _ _ _ _ A5). pose proof (glue_length (opt_pieces (it_runs s)) (y :: ys) NR ltac:(discriminate)). lia. }
  rewrite E6. cbn [bind]. rewrite <- GE in A6. rewrite glue_repeat in A6 by auto.
  destruct (skip_ok (repeat [] k ++ opt_pieces (it_ext s)) rest recs j2 b6 (opt_len (it_ext s)) (S (List.length recs))) as (j3 & b7 & k2 & E7 & A7 & K2); auto.
  { destruct k; [exact NE|discriminate]. }
  { rewrite concat_repeat_nil. apply OL. }
  { pose proof (at_length _ _ _ _ A6). pose proof (glue_length (repeat [] k ++ opt_pieces (it_ext s)) rest ltac:(destruct k; [exact NE|discriminate]) NRest). lia. }
  rewrite E7. cbn [bind]. exists j3, b7, k2. split; auto. split; auto.
  rewrite app_length, repeat_length in K2. unfold it_pieces, it_tail.
  destruct (room_glue (opt_pieces (it_runs s)) (opt_pieces (it_ext s)) NR NE) as [_ G1].
  destruct (room_glue (it_chars s) (glue (opt_pieces (it_runs s)) (opt_pieces (it_ext s))) ltac:(discriminate) NT) as [_ G2].
  destruct (room_glue [it_header s] (glue (it_chars s) (glue (opt_pieces (it_runs s)) (opt_pieces (it_ext s)))) ltac:(discriminate) ltac:(apply glue_nonnil; auto)) as [_ G3].
  assert (CL : (1 <= List.length (it_chars s))%nat) by (cbn; lia). cbn [List.length] in G3. lia.
Qed.

Lemma layout_nonnil : forall l, layout l <> [].
Proof. intros [|[k s] l]; cbn [layout]; [discriminate|]. destruct k; cbn [repeat app]; [|discriminate]. apply glue_nonnil. left. unfold it_pieces. apply glue_nonnil. left. discriminate. Qed.
Lemma pieces_nonnil : forall s, it_pieces s <> [].
Proof. intros. unfold it_pieces. apply glue_nonnil. left. discriminate. Qed.
Lemma pieces_head : forall s, 3 <= zlen (hd [] (it_pieces s)).
Proof.
  intros s. unfold it_pieces. assert (H : 3 <= zlen (it_header s)). { unfold it_header. rewrite !zlen_app, zlen_put16, zlen_cons, zlen_nil. match goal with |- context [zlen ?a + zlen ?b] => pose proof (zlen_nonneg _ a); pose proof (zlen_nonneg _ b) end. lia. }
  destruct (glue (it_chars s) (it_tail s)) as [|y ys]; [exact H|]. rewrite glue_one. cbn [hd]. rewrite zlen_app. pose proof (zlen_nonneg _ y). lia.
Qed.
Lemma layout_head : forall l, zlen (hd [] (layout l)) = 0 \/ 3 <= zlen (hd [] (layout l)).
Proof.
  intros [|[k s] l]; cbn [layout]; [left; reflexivity|]. destruct k; cbn [repeat app hd]; [|left; reflexivity]. right.
  pose proof (pieces_head s) as P. destruct (it_pieces s) as [|p [|p2 ps]]; [change (3 <= 0) in P; lia| |].
  - destruct (layout l) as [|y ys]; [exact P|]. rewrite glue_one. cbn [hd] in *. rewrite zlen_app. pose proof (zlen_nonneg _ y). lia.
  - rewrite glue_cons2. exact P.
Qed.

(** bytes and records still to come bound the number of rounds *)
Definition room (recs : list slice) (i : Z) (buf : slice) : nat :=
  (List.length (dat buf) + List.length (concat (map dat (zdrop (i + 1) recs))) + Z.to_nat (zlen recs - i))%nat.
Lemma at_room : forall recs i buf ps, at_rec recs i buf ps -> room recs i buf = (List.length (concat ps) + List.length ps)%nat.
Proof.
  intros recs i buf ps [Hi ->]. unfold room. cbn [concat List.length]. rewrite app_length, map_length. unfold zdrop. rewrite skipn_length. unfold zlen in *. lia.
Qed.
Lemma skip_empty : forall k ps recs i buf all fuel, ps <> [] -> at_rec recs i buf (repeat [] k ++ ps) ->
  exists j buf', at_rec recs j buf' ps /\ sst_loop (k + fuel) recs i buf all = sst_loop fuel recs j buf' all.
Proof.
  induction k as [|k IH]; intros ps recs i buf all fuel NP A; [exists i, buf; auto|].
  cbn [repeat app] in A. cbn [plus sst_loop].
  assert (Hi : 0 <= i < zlen recs) by apply A. destruct (Z.ltb_spec i (zlen recs)); [|lia]. cbn [negb].
  assert (SB : 0 <? sl_len buf = false) by (unfold sl_len; rewrite (at_dat _ _ _ _ _ A); reflexivity). rewrite SB.
  destruct (repeat [] k ++ ps) as [|y ys] eqn:R; [destruct k; [cbn in R; congruence|discriminate]|].
  destruct (at_next _ _ _ _ _ _ A) as (d & Ed & _ & Ad). assert (Hi' : 0 <= i + 1 < zlen recs) by apply Ad.
  destruct (Z.ltb_spec (i + 1) (zlen recs)); [|lia]. rewrite Ed. cbn [bind]. rewrite <- R in Ad.
  destruct (IH ps recs (i + 1) d all fuel NP Ad) as (j & b & A2 & E). exists j, b. auto.
Qed.

Lemma sst_loop_end : forall recs i buf all fuel, (fuel >= 2)%nat -> at_rec recs i buf [[]] -> sst_loop fuel recs i buf all = Ok all.
Proof.
  intros recs i buf all fuel HF A. destruct fuel as [|[|fuel]]; try lia. cbn [sst_loop].
  assert (Hi : 0 <= i < zlen recs) by apply A. destruct (Z.ltb_spec i (zlen recs)); [|lia]. cbn [negb].
  assert (SB : 0 <? sl_len buf = false) by (unfold sl_len; rewrite (at_dat _ _ _ _ _ A); reflexivity). rewrite SB.
  destruct A as [_ A]. injection A as _ A.
  assert (Hl : i + 1 >= zlen recs).
  { destruct (Z.ltb_spec (i + 1) (zlen recs)); [|lia]. exfalso. assert (Q : zlen (zdrop (i + 1) recs) > 0) by (rewrite zlen_zdrop; lia). destruct (zdrop (i + 1) recs); [change (0 > 0) in Q; lia|discriminate]. }
  destruct (Z.ltb_spec (i + 1) (zlen recs)); [lia|]. cbn [bind negb]. destruct (Z.ltb_spec (i + 1) (zlen recs)); [lia|]. reflexivity.
Qed.

Lemma concat_repeat_len : forall k ps, List.length (concat (repeat [] k ++ ps)) = List.length (@concat Z ps).
Proof. intros. rewrite concat_repeat_nil. reflexivity. Qed.

Lemma sst_loop_ok : forall l recs i buf k all fuel, Forall (fun x => it_ok (snd x)) l ->
  at_rec recs i buf (repeat [] k ++ layout l) -> (room recs i buf < fuel)%nat ->
  sst_loop fuel recs i buf all = Ok (all ++ map (fun x => item_text (snd x)) l).
Proof.
  induction l as [|[k1 s] l IH]; intros recs i buf k all fuel F A HF.
  - cbn [layout map] in *. rewrite app_nil_r. pose proof (at_room _ _ _ _ A) as R. rewrite R, concat_repeat_len, app_length, repeat_length in HF. cbn in HF.
    replace fuel with (k + (fuel - k))%nat by lia. destruct (skip_empty k [[]] recs i buf all (fuel - k)) as (j & b & A2 & E); auto; [discriminate|]. rewrite E. apply sst_loop_end; auto. lia.
  - inversion F as [|? ? F1 F2]; subst. cbn [snd] in F1. cbn [layout] in A.
    pose proof (at_room _ _ _ _ A) as R. rewrite app_assoc, <- repeat_app in A. rewrite R in HF.
    set (ps := glue (it_pieces s) (layout l)) in *. assert (NP : ps <> []) by (apply glue_nonnil; left; apply pieces_nonnil).
    rewrite app_assoc, <- repeat_app, concat_repeat_len, app_length, repeat_length in HF.
    replace fuel with ((k + k1) + (fuel - (k + k1)))%nat by lia. destruct (skip_empty (k + k1) ps recs i buf all (fuel - (k + k1))) as (j & b & A2 & E); auto. rewrite E.
    destruct (fuel - (k + k1))%nat as [|fuel'] eqn:EF; [lia|]. cbn [sst_loop].
    assert (Hi : 0 <= j < zlen recs) by apply A2. destruct (Z.ltb_spec j (zlen recs)); [|lia]. cbn [negb].
    assert (PH : 3 <= zlen (hd [] ps)).
    { unfold ps. pose proof (pieces_head s) as P. destruct (it_pieces s) as [|p [|p2 pp]]; [change (3 <= 0) in P; lia| |].
      - destruct (layout l) as [|y ys]; [exact P|]. rewrite glue_one. cbn [hd] in *. rewrite zlen_app. pose proof (zlen_nonneg _ y). lia.
      - rewrite glue_cons2. exact P. }
    assert (SB : 0 <? sl_len b = true). { unfold sl_len. destruct ps as [|x xs]; [congruence|]. rewrite (at_dat _ _ _ _ _ A2). cbn [hd] in PH. lia. } rewrite SB.
    destruct (sst_string_ok s (layout l) recs j b F1 (layout_nonnil l) (layout_head l) A2) as (j2 & b2 & k2 & E2 & A3 & K2). rewrite E2. cbn [bind].
    cbn [map snd]. rewrite (IH recs j2 b2 k2 (all ++ [item_text s]) fuel' F2 A3); [rewrite <- app_assoc; reflexivity|].
    rewrite (at_room _ _ _ _ A3). rewrite concat_repeat_len, app_length, repeat_length.
    pose proof (room_glue (it_pieces s) (layout l) (pieces_nonnil s) (layout_nonnil l)) as [G1 G2]. fold ps in G1, G2.
    pose proof (at_room _ _ _ _ A2) as RR.
    assert (CP : (1 <= List.length (concat (it_pieces s)))%nat).
    { pose proof (pieces_head s) as P. destruct (it_pieces s) as [|p pp]; [change (3 <= 0) in P; lia|]. cbn [concat hd] in *. rewrite app_length. unfold zlen in P. lia. }
    lia.
Qed.
