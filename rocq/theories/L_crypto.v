(** * L_crypto: facts about the RC4 writer. *)
From Verif Require Import GoBase GoCrypto L_base M_crypto S_crypto.
From Coq Require Import ZifyBool.

Local Opaque md5_sum rc4_new rc4_next.

Lemma crypt_app : forall key a b pos, crypt key pos (a ++ b) = crypt key pos a ++ crypt key (pos + zlen a) b.
Proof.
  intros key a. induction a as [|x a IH]; intros b pos; cbn [app crypt].
  - rewrite zlen_nil, Z.add_0_r. reflexivity.
  - rewrite IH, zlen_cons. do 3 f_equal. lia.
Qed.
Lemma crypt_length : forall key a pos, zlen (crypt key pos a) = zlen a.
Proof. intros key a. induction a as [|x a IH]; intros pos; cbn [crypt]; auto. rewrite !zlen_cons, IH. reflexivity. Qed.
Lemma crypt_ztake : forall key a n pos, crypt key pos (ztake n a) = ztake n (crypt key pos a).
Proof.
  intros key a n. unfold ztake. generalize (Z.to_nat n). induction a as [|x a IH]; intros m pos; destruct m; cbn [firstn crypt]; auto.
  rewrite IH. reflexivity.
Qed.
Lemma crypt_crypt : forall key a pos, crypt key pos (crypt key pos a) = a.
Proof.
  intros key a. induction a as [|x a IH]; intros pos; cbn [crypt]; auto. rewrite IH.
  rewrite Z.lxor_assoc, Z.lxor_nilpotent, Z.lxor_0_r. reflexivity.
Qed.
Lemma keystream_length : forall n c, List.length (keystream n c) = n.
Proof. induction n; intros; cbn [keystream List.length]; auto. Qed.
Lemma keystream_prefix : forall m n c, (m <= n)%nat -> firstn m (keystream n c) = keystream m c.
Proof. induction m; intros n c H; [reflexivity|]. destruct n; [lia|]. cbn [keystream firstn]. f_equal. apply IHm. lia. Qed.

Definition zipx (a k : list Z) : list Z := map (fun p => Z.lxor (fst p) (snd p)) (combine a k).
Lemma rc4_xor_stream : forall a c, fst (rc4_xor c a) = zipx a (keystream (List.length a) c).
Proof.
  induction a as [|b a IH]; intros c; [reflexivity|]. cbn [rc4_xor List.length keystream].
  destruct (rc4_next c) as [k c'] eqn:E. cbn [fst snd]. specialize (IH c'). destruct (rc4_xor c' a) as [o c'']. cbn [fst] in *.
  unfold zipx in *. cbn [combine map fst snd]. rewrite IH. reflexivity.
Qed.
Lemma rc4_xor_snd : forall a b c, rc4_xor c (a ++ b) =
  (fst (rc4_xor c a) ++ fst (rc4_xor (snd (rc4_xor c a)) b), snd (rc4_xor (snd (rc4_xor c a)) b)).
Proof.
  induction a as [|x a IH]; intros b c; cbn [app rc4_xor].
  - cbn [fst snd app]. destruct (rc4_xor c b); reflexivity.
  - destruct (rc4_next c) as [k c']. rewrite IH. destruct (rc4_xor c' a) as [o c'']. cbn [fst snd]. reflexivity.
Qed.

Local Opaque keystream.
(** inside block b: crypt is the XOR with the block's keystream *)
Lemma crypt_block_at : forall key b a i, 0 <= b -> 0 <= i -> i + zlen a <= 1024 ->
  crypt key (b * 1024 + i) a = zipx a (skipn (Z.to_nat i) (keystream 1024 (rc4_new (block_key key (u32 b))))).
Proof.
  intros key b a. induction a as [|x a IH]; intros i Hb Hi HL; [reflexivity|].
  rewrite zlen_cons in HL. pose proof (zlen_nonneg _ a). cbn [crypt].
  set (K := keystream 1024 _) in *. assert (LK : List.length K = 1024%nat) by apply keystream_length.
  assert (E : skipn (Z.to_nat i) K = nth (Z.to_nat i) K 0 :: skipn (Z.to_nat (i + 1)) K).
  { replace (Z.to_nat (i + 1)) with (S (Z.to_nat i)) by lia.
    assert (HI : (Z.to_nat i < List.length K)%nat) by lia. clear - HI. revert HI. generalize (Z.to_nat i). induction K as [|k K IHK]; intros n HI; [simpl in HI; lia|].
    destruct n; [reflexivity|]. cbn [skipn nth]. apply IHK. simpl in HI. lia. }
  assert (KB : key_byte key (b * 1024 + i) = nth (Z.to_nat i) K 0).
  { unfold key_byte. rewrite (Z.add_comm (b * 1024)), Z.mod_add, Z.div_add by lia. rewrite Z.mod_small, Z.div_small by lia. rewrite Z.add_0_l. reflexivity. }
  rewrite KB, E. clearbody K. rewrite <- Z.add_assoc. rewrite IH by lia. unfold zipx. cbn [combine map fst snd]. reflexivity.
Qed.
Lemma zipx_firstn : forall a k n, (List.length a <= n)%nat -> zipx a (firstn n k) = zipx a k.
Proof.
  induction a as [|x a IH]; intros k n H; [reflexivity|]. destruct n; [simpl in H; lia|]. destruct k; [reflexivity|].
  unfold zipx in *. cbn [firstn combine map]. f_equal. apply IH. simpl in H. lia.
Qed.
Lemma crypt_block : forall key b a, 0 <= b -> zlen a <= 1024 ->
  crypt key (b * 1024) a = fst (rc4_xor (rc4_new (block_key key (u32 b))) a).
Proof.
  intros key b a Hb HL. rewrite rc4_xor_stream. pose proof (crypt_block_at key b a 0 Hb ltac:(lia) ltac:(lia)) as E.
  rewrite Z.add_0_r in E. rewrite E. change (skipn (Z.to_nat 0) ?k) with k. unfold zlen in HL.
  rewrite <- (keystream_prefix (List.length a) 1024) by lia. rewrite zipx_firstn; auto.
Qed.

(** ** the state of the writer *)
(** [holds d key base o w]: the writer started at block [base] with [o] in its buffer and has
    been given the bytes [w] since *)
Definition key_is (d : rc4w) (key : bytes) : Prop :=
  16 <= zlen key /\ (w_key d = Some key \/ w_key d = None /\ generate_std97_key default_password (w_salt d) = Ok key).
Record holds (d : rc4w) (key : bytes) (base : Z) (o w : bytes) : Prop := {
  ho_key : key_is d key;
  ho_base : 0 <= base;
  ho_bytes : zlen (w_bytes d) = 1024;
  ho_block : w_block d = u32 (base + zlen w / 1024);
  ho_offset : w_offset d = zlen w mod 1024;
  ho_pending : ztake (w_offset d) (w_bytes d) = zdrop (1024 * (zlen w / 1024)) w;
  ho_buf : w_buf d = o ++ crypt key (base * 1024) (ztake (1024 * (zlen w / 1024)) w)
}.

Lemma start_block_ok : forall d key, key_is d key ->
  exists d', start_block d = Ok (d', rc4_new (block_key key (w_block d))) /\ key_is d' key /\
    w_block d' = w_block d /\ w_offset d' = w_offset d /\ w_bytes d' = w_bytes d /\ w_buf d' = w_buf d /\ w_salt d' = w_salt d.
Proof.
  intros d key (LK & K). unfold start_block.
  assert (SS : substr key 0 5 = Ok (firstn 5 key)).
  { unfold substr. assert (C : (0 <=? 0) && (0 <=? 5) && (5 <=? zlen key) = true) by lia. rewrite C. rewrite zdrop_0. reflexivity. }
  destruct K as [K|[K1 K2]].
  - rewrite K. cbn [bind]. rewrite K, SS. cbn [bind]. eexists. split; [reflexivity|]. repeat split; auto.
  - rewrite K1. unfold set_password. rewrite K2. cbn [bind w_key]. rewrite SS. cbn [bind w_block]. eexists. split; [reflexivity|].
    repeat split; auto.
Qed.

(** flushing, at any fill level *)
Lemma flush_general : forall d key off, key_is d key -> zlen (w_bytes d) = 1024 -> w_offset d = off -> 0 <= off <= 1024 ->
  exists d', w_flush d = Ok d' /\ key_is d' key /\ zlen (w_bytes d') = 1024 /\ w_offset d' = 0 /\
    w_block d' = u32 (w_block d + 1) /\ w_salt d' = w_salt d /\
    w_buf d' = w_buf d ++ fst (rc4_xor (rc4_new (block_key key (w_block d))) (ztake off (w_bytes d))).
Proof.
  intros d key off K LB EO HO. unfold w_flush.
  set (endpad := if w_offset d <? 1024 then 1024 - w_offset d else 0).
  assert (EP : endpad = 1024 - off) by (unfold endpad; destruct (Z.ltb_spec (w_offset d) 1024); lia).
  set (b1 := ztake (w_offset d) (w_bytes d) ++ repeat 0 (Z.to_nat endpad)).
  cbn [w_offset w_block w_bytes w_buf w_key w_salt].
  destruct (Z.eqb_spec (w_offset d + endpad) 1024) as [_|Q]; [|lia]. cbn [negb].
  set (d1 := mkW _ _ _ _ _ _). assert (K1 : key_is d1 key) by (unfold key_is, d1; cbn [w_key w_salt]; exact K).
  destruct (start_block_ok d1 key K1) as (d2 & E & K2 & A1 & A2 & A3 & A4 & A5). rewrite E. cbn [bind].
  destruct (rc4_xor _ (w_bytes d2)) as [out c'] eqn:X. eexists. split; [reflexivity|].
  assert (LB1 : zlen b1 = 1024).
  { unfold b1. rewrite zlen_app, zlen_ztake by lia. unfold zlen at 1. rewrite repeat_length. lia. }
  rewrite A3 in X. cbn [w_bytes d1] in X. rewrite A1, A4, A5. unfold d1; cbn [w_block w_buf w_salt w_offset w_bytes]. unfold d1 in X. cbn [w_bytes w_block] in X.
  assert (LO : zlen out = 1024).
  { assert (F : fst (rc4_xor (rc4_new (block_key key (w_block d))) b1) = out) by (rewrite X; reflexivity).
    rewrite <- F, rc4_xor_stream. unfold zipx, zlen. rewrite map_length, combine_length, keystream_length. unfold zlen in LB1. lia. }
  split; [|split; [exact LO|split; [reflexivity|split; [reflexivity|split; [reflexivity|]]]]].
  - destruct K2 as [L2 K2]. split; auto. cbn [w_key w_salt]. destruct K2 as [K2|[K2 K3]]; [left; auto|right]. rewrite A5 in K3. unfold d1 in K3. auto.
  - f_equal. unfold b1 in X. rewrite EO in X. rewrite rc4_xor_snd in X. injection X as X _. rewrite <- X.
    replace (1024 - endpad) with off by lia.
    assert (LF : zlen (fst (rc4_xor (rc4_new (block_key key (w_block d))) (ztake off (w_bytes d)))) = off).
    { rewrite rc4_xor_stream. unfold zipx, zlen. rewrite map_length, combine_length, keystream_length.
      assert (zlen (ztake off (w_bytes d)) = off) by (apply zlen_ztake; lia). unfold zlen in H. lia. }
    rewrite <- LF at 1. apply ztake_app_exact.
Qed.

Lemma u32_succ : forall x, u32 (u32 x + 1) = u32 (x + 1).
Proof. intros. unfold u32. apply Z.add_mod_idemp_l. lia. Qed.
Lemma u32_u32 : forall x, u32 (u32 x) = u32 x.
Proof. intros. unfold u32. apply Z.mod_mod. lia. Qed.

Lemma write_loop_ok : forall fuel d key base o w data, holds d key base o w -> (List.length data <= fuel)%nat ->
  exists d', write_loop fuel d data = Ok d' /\ holds d' key base o (w ++ data) /\ w_salt d' = w_salt d.
Proof.
  induction fuel as [|fuel IH]; intros d key base o w data H Fu; cbn [write_loop].
  - destruct data; [|simpl in Fu; lia]. exists d. rewrite app_nil_r. auto.
  - destruct (Z.leb_spec (zlen data) 0) as [Q|Q].
    { assert (data = []) by (apply zlen_0; pose proof (zlen_nonneg _ data); lia). subst. exists d. rewrite app_nil_r. auto. }
    destruct H. pose proof (Z.mod_pos_bound (zlen w) 1024 ltac:(lia)) as MB. pose proof (zlen_nonneg _ w) as NW.
    pose proof (Z.div_mod (zlen w) 1024 ltac:(lia)) as DM. set (q := zlen w / 1024) in *.
    assert (Q0 : 0 <= q) by (unfold q; apply Z.div_pos; lia).
    destruct (Z.ltb_spec 1024 (w_offset d)); [lia|].
    set (n := Z.min (1024 - w_offset d) (zlen data)). cbn [w_offset].
    set (b1 := ztake (w_offset d) (w_bytes d) ++ ztake n data ++ zdrop (w_offset d + n) (w_bytes d)).
    set (d1 := mkW (w_block d) (w_offset d + n) b1 (w_buf d) (w_key d) (w_salt d)).
    assert (LB1 : zlen b1 = 1024).
    { unfold b1. rewrite !zlen_app, !zlen_ztake, zlen_zdrop by lia. lia. }
    assert (K1 : key_is d1 key) by exact ho_key0.
    set (w' := w ++ ztake n data). assert (LW : zlen w' = zlen w + n) by (unfold w'; rewrite zlen_app, zlen_ztake by lia; reflexivity).
    assert (PT : ztake (w_offset d + n) b1 = zdrop (1024 * q) w').
    { unfold b1, w'. rewrite app_assoc. rewrite ztake_app_exact' by (rewrite zlen_app, !zlen_ztake by lia; lia).
      rewrite zdrop_app_le by lia. f_equal. exact ho_pending0. }
    assert (WD : w ++ data = w' ++ zdrop n data) by (unfold w'; rewrite <- app_assoc, ztake_zdrop; reflexivity).
    assert (HD : exists d2, (if 1024 <=? w_offset d + n then if negb (w_offset d + n =? 1024) then Panic else w_flush d1 else Ok d1) = Ok d2 /\
      holds d2 key base o w' /\ w_salt d2 = w_salt d).
    { destruct (Z.leb_spec 1024 (w_offset d + n)) as [G|G].
      - assert (G1 : w_offset d + n = 1024) by lia. rewrite G1. change (1024 =? 1024) with true. cbn [negb].
        destruct (flush_general d1 key 1024 K1 LB1 G1 ltac:(lia)) as (d2 & F1 & F2 & F3 & F4 & F5 & F6 & F7).
        exists d2. split; [exact F1|]. split; [|exact F6].
        assert (DQ : zlen w' / 1024 = q + 1 /\ zlen w' mod 1024 = 0).
        { rewrite LW. replace (zlen w + n) with ((q + 1) * 1024) by lia. rewrite Z.div_mul, Z.mod_mul by lia. auto. }
        destruct DQ as [DQ1 DQ2]. constructor; auto.
        + rewrite F5, DQ1. unfold d1. cbn [w_block]. rewrite ho_block0. rewrite u32_succ. f_equal. lia.
        + rewrite F4, DQ2. reflexivity.
        + rewrite F4, DQ1. rewrite ztake_0, zdrop_all by lia. reflexivity.
        + rewrite F7, DQ1. unfold d1 at 1. cbn [w_buf]. rewrite ho_buf0, <- app_assoc. f_equal.
          replace (ztake (1024 * (q + 1)) w') with w' by (symmetry; apply ztake_all; lia).
          transitivity (crypt key (base * 1024) (ztake (1024 * q) w' ++ zdrop (1024 * q) w')); [|rewrite ztake_zdrop; reflexivity].
          rewrite crypt_app. rewrite zlen_ztake by lia. f_equal.
          * unfold w'. rewrite ztake_app_le by lia. reflexivity.
          * unfold d1 at 2. cbn [w_bytes]. rewrite G1 in PT. rewrite PT. unfold d1. cbn [w_block]. rewrite ho_block0.
            replace (base * 1024 + 1024 * q) with ((base + q) * 1024) by lia.
            rewrite crypt_block; [reflexivity|lia|rewrite zlen_zdrop; lia].
      - exists d1. split; auto. split; auto.
        assert (DQ : zlen w' / 1024 = q /\ zlen w' mod 1024 = w_offset d + n).
        { rewrite LW. replace (zlen w + n) with ((w_offset d + n) + q * 1024) by lia. rewrite Z.div_add, Z.mod_add by lia.
          rewrite Z.div_small, Z.mod_small by lia. lia. }
        destruct DQ as [DQ1 DQ2]. constructor; auto.
        + rewrite DQ1. exact ho_block0.
        + rewrite DQ1. exact PT.
        + rewrite DQ1. unfold w'. rewrite ztake_app_le by lia. exact ho_buf0. }
    destruct HD as (d2 & E & H2 & S2). fold d1. rewrite E. cbn [bind].
    destruct (IH d2 key base o w' (zdrop n data) H2) as (d3 & E3 & H3 & S3).
    { assert (1 <= n) by lia. assert (zlen (zdrop n data) = zlen data - n) by (apply zlen_zdrop; lia). unfold zlen in *. lia. }
    exists d3. rewrite WD. split; auto. split; auto. congruence.
Qed.
Lemma write_ok : forall d key base o w data, holds d key base o w ->
  exists d', w_write d data = Ok d' /\ holds d' key base o (w ++ data) /\ w_salt d' = w_salt d.
Proof. intros. apply write_loop_ok; auto. Qed.

Lemma flush_ok : forall d key base o w, holds d key base o w ->
  exists d', w_flush d = Ok d' /\ w_buf d' = o ++ crypt key (base * 1024) w /\ w_salt d' = w_salt d /\
    holds d' key (base + zlen w / 1024 + 1) (o ++ crypt key (base * 1024) w) [].
Proof.
  intros d key base o w H. destruct H. pose proof (Z.mod_pos_bound (zlen w) 1024 ltac:(lia)) as MB. pose proof (zlen_nonneg _ w) as NW.
  pose proof (Z.div_mod (zlen w) 1024 ltac:(lia)) as DM. set (q := zlen w / 1024) in *.
  assert (Q0 : 0 <= q) by (unfold q; apply Z.div_pos; lia).
  destruct (flush_general d key (w_offset d) ho_key0 ho_bytes0 eq_refl ltac:(lia)) as (d2 & F1 & F2 & F3 & F4 & F5 & F6 & F7).
  assert (B : w_buf d2 = o ++ crypt key (base * 1024) w).
  { rewrite F7, ho_buf0, <- app_assoc. f_equal.
    transitivity (crypt key (base * 1024) (ztake (1024 * q) w ++ zdrop (1024 * q) w)); [|rewrite ztake_zdrop; reflexivity].
    rewrite crypt_app, zlen_ztake by lia. f_equal. rewrite ho_pending0, ho_block0.
    replace (base * 1024 + 1024 * q) with ((base + q) * 1024) by lia. rewrite crypt_block; [reflexivity|lia|rewrite zlen_zdrop; lia]. }
  exists d2. split; auto. split; auto. split; auto. constructor; auto; try lia.
  - rewrite F5, ho_block0, zlen_nil. change (0 / 1024) with 0. rewrite u32_succ. f_equal. lia.
  - rewrite F4. reflexivity.
  - rewrite zlen_nil. change (1024 * (0 / 1024)) with 0. rewrite ztake_0. cbn [crypt]. rewrite app_nil_r. exact B.
Qed.

Lemma put16_byte : forall c, 0 <= c < 256 -> put16 (u16 c) = [c; 0].
Proof.
  intros c H. unfold put16, u16. rewrite (Z.mod_small c 65536) by lia. rewrite Z.mod_small by lia. rewrite Z.div_small by lia. reflexivity.
Qed.
Lemma key_spec : forall pw salt, bytes_ok pw -> pw <> [] -> zlen salt = 16 -> generate_std97_key pw salt = Ok (base_key pw salt).
Proof.
  intros pw salt B N L. unfold generate_std97_key.
  destruct (Z.eqb_spec (zlen pw) 0) as [Q|Q]; [apply zlen_0 in Q; contradiction|]. rewrite L. change (16 =? 16) with true. cbn [orb negb].
  unfold base_key. assert (E : flat_map (fun c => put16 (u16 c)) pw = utf16le pw).
  { clear - B. induction B; [reflexivity|]. cbn [flat_map utf16le]. rewrite put16_byte by auto. f_equal. exact IHB. }
  rewrite E. reflexivity.
Qed.
Local Transparent md5_sum.
Lemma md5_length : forall l, zlen (md5_sum l) = 16.
Proof. intros. unfold md5_sum. destruct (md5_blocks _ _ _) as [[[a b] c] d]. reflexivity. Qed.
Lemma put32_bytes : forall x, bytes_ok (put32 x).
Proof. intros. unfold put32. repeat constructor; apply Z.mod_pos_bound; lia. Qed.
Lemma md5_bytes : forall l, bytes_ok (md5_sum l).
Proof. intros. unfold md5_sum. destruct (md5_blocks _ _ _) as [[[a b] c] d]. rewrite !bytes_ok_app. auto using put32_bytes. Qed.
