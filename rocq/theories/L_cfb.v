(** * L_cfb: facts about the compound file model. *)
From Verif Require Import GoBase GoUnicode L_base M_slicereader S_slicereader L_slicereader M_cfb S_cfb.
From Coq Require Import ZifyBool.

(** ** fields *)
Lemma le16_val : forall l, 2 <= zlen l -> le16 l = Ok (le_val (ztake 2 l)).
Proof. intros [|a [|b r]] H; unfold zlen in H; simpl in H; try lia. change (ztake 2 (a :: b :: r)) with [a; b]. cbn [le16 le_val]. f_equal. lia. Qed.
Lemma le32_val : forall l, 4 <= zlen l -> le32 l = Ok (le_val (ztake 4 l)).
Proof. intros [|a [|b [|c [|d r]]]] H; unfold zlen in H; simpl in H; try lia. change (ztake 4 (a :: b :: c :: d :: r)) with [a; b; c; d]. cbn [le32 le_val]. f_equal. lia. Qed.
Lemma le64_val : forall l, 8 <= zlen l -> le64 l = Ok (le_val (ztake 8 l)).
Proof.
  intros [|a [|b [|c [|d [|e [|f [|g [|h r]]]]]]]] H; unfold zlen in H; simpl in H; try lia.
  change (ztake 8 (a :: b :: c :: d :: e :: f :: g :: h :: r)) with [a; b; c; d; e; f; g; h]. cbn [le64 le_val]. f_equal. lia.
Qed.
Lemma le16_short : forall l, zlen l < 2 -> le16 l = Panic.
Proof. intros [|a [|b r]] H; auto. unfold zlen in H. simpl in H. lia. Qed.
Lemma le32_short : forall l, zlen l < 4 -> le32 l = Panic.
Proof. intros [|a [|b [|c [|d r]]]] H; auto. unfold zlen in H. simpl in H. lia. Qed.

Lemma rd16_field : forall d o, 0 <= o -> o + 2 <= zlen d -> rd16 d o = field d o 2.
Proof. intros. unfold rd16, field. rewrite le16_val; auto. rewrite zlen_zdrop; lia. Qed.
Lemma rd32_field : forall d o, 0 <= o -> o + 4 <= zlen d -> rd32 d o = field d o 4.
Proof. intros. unfold rd32, field. rewrite le32_val; auto. rewrite zlen_zdrop; lia. Qed.
Lemma rd64_field : forall d o, 0 <= o -> o + 8 <= zlen d -> rd64 d o = field d o 8.
Proof. intros. unfold rd64, field. rewrite le64_val; auto. rewrite zlen_zdrop; lia. Qed.

(** ** entries *)
Lemma words_app4 : forall a b c d r, words (a :: b :: c :: d :: r) = le_val [a; b; c; d] :: words r.
Proof. reflexivity. Qed.
Lemma read_entries_spec : forall n l acc, 4 * Z.of_nat n <= zlen l ->
  read_entries n l acc = Ok (acc ++ words (ztake (4 * Z.of_nat n) l), zdrop (4 * Z.of_nat n) l).
Proof.
  induction n; intros l acc H; cbn [read_entries].
  - change (4 * Z.of_nat 0) with 0. rewrite ztake_0, zdrop_0. cbn [words]. rewrite app_nil_r. reflexivity.
  - rewrite le32_val by lia. cbn [bind].
    destruct l as [|a [|b [|c [|d r]]]]; try (unfold zlen in H; simpl List.length in H; lia).
    change (zdrop 4 (a :: b :: c :: d :: r)) with r. rewrite IHn by (rewrite !zlen_cons in H; lia).
    replace (Z.to_nat (4 * Z.of_nat (S n))) with (4 + Z.to_nat (4 * Z.of_nat n))%nat by lia.
    unfold ztake, zdrop. replace (Z.to_nat (4 * Z.of_nat (S n))) with (4 + Z.to_nat (4 * Z.of_nat n))%nat by lia.
    cbn [Nat.add firstn skipn]. rewrite words_app4. rewrite <- app_assoc. reflexivity.
Qed.
Lemma read_entries_short : forall n l acc, zlen l < 4 * Z.of_nat n -> read_entries n l acc = Panic.
Proof.
  induction n; intros l acc H; [pose proof (zlen_nonneg _ l); lia|]. cbn [read_entries].
  destruct (Z.lt_ge_cases (zlen l) 4) as [Q|Q]; [rewrite le32_short; auto|].
  rewrite le32_val by auto. cbn [bind]. apply IHn. rewrite zlen_zdrop by lia. lia.
Qed.
Lemma read_entries_len : forall n l acc a r, read_entries n l acc = Ok (a, r) -> zlen a = zlen acc + Z.of_nat n.
Proof.
  induction n; intros l acc a r H; cbn [read_entries] in H.
  - injection H as <- <-. lia.
  - destruct (le32 l); cbn [bind] in H; try discriminate. apply IHn in H. rewrite zlen_app, zlen_cons, zlen_nil in H. lia.
Qed.

Lemma sl_from_ok : forall s a, 0 <= a <= zlen (dat s) -> sl_from s a = Ok (mkSl (zdrop a (dat s)) (spare s)).
Proof. intros. unfold sl_from, sl_len. destruct ((0 <=? a) && (a <=? zlen (dat s))) eqn:E; auto. lia. Qed.

Lemma pow_cases : forall major, major = 3 \/ major = 4 -> 2 ^ sec_shift major = sec_bytes major /\
  Z.to_nat (2 ^ (sec_shift major - 2)) = Z.to_nat (sec_bytes major / 4) /\ 4 * (sec_bytes major / 4) = sec_bytes major /\
  512 <= sec_bytes major.
Proof. intros major [->| ->]; repeat split; vm_compute; try reflexivity; discriminate. Qed.

Lemma in_file_off : forall data sz s, in_file data sz s -> 0 < sz -> u32 (1 + s) = 1 + s /\ 0 <= (1 + s) * sz /\ (1 + s) * sz + sz <= zlen data.
Proof. intros data sz s [H1 H2] Hz. unfold u32. rewrite Z.mod_small by lia. nia. Qed.

Lemma zlen_sector : forall data sz s, in_file data sz s -> 0 < sz -> zlen (sector data sz s) = sz.
Proof.
  intros data sz s H Hz. destruct (in_file_off _ _ _ H Hz) as (_ & A & B). unfold sector. rewrite zlen_ztake; auto.
  rewrite zlen_zdrop by lia. lia.
Qed.

Lemma read_sector_entries : forall data sz s acc, in_file data sz s -> 0 < sz -> 4 * (sz / 4) = sz ->
  read_entries (Z.to_nat (sz / 4)) (zdrop ((1 + s) * sz) data) acc =
  Ok (acc ++ words (sector data sz s), zdrop ((2 + s) * sz) data).
Proof.
  intros data sz s acc H Hz H4. destruct (in_file_off _ _ _ H Hz) as (_ & A & B).
  assert (0 <= sz / 4) by (apply Z.div_pos; lia).
  rewrite read_entries_spec by (rewrite zlen_zdrop by lia; lia). rewrite Z2Nat.id by lia. rewrite H4.
  unfold sector. rewrite zdrop_zdrop by lia. do 3 f_equal. lia.
Qed.

Lemma load_fat_spec : forall data sp shift sz sids tl acc, 2 ^ shift = sz -> 0 < sz -> 4 * (sz / 4) = sz ->
  Forall (in_file data sz) sids ->
  (tl = [] \/ exists r, tl = secFree :: r) ->
  load_fat (mkSl data sp) shift (Z.to_nat (sz / 4)) (sids ++ tl) acc = Ok (acc ++ flat_map (fun s => words (sector data sz s)) sids).
Proof.
  intros data sp shift sz sids tl acc Hp Hz H4 HF Ht. revert acc. induction HF as [|s sids Hs HF IH]; intros acc.
  - cbn [app flat_map]. rewrite app_nil_r. destruct Ht as [-> |(r & ->)]; reflexivity.
  - cbn [app load_fat flat_map]. destruct Hs as [Hs1 Hs2] eqn:EHs. destruct (in_file_off _ _ _ Hs Hz) as (U & A & B).
    destruct (Z.eqb_spec s secFree); [unfold secFree in *; lia|].
    unfold sec_off. rewrite U, Hp. unfold sl_len. cbn [dat].
    destruct (Z.leb_spec (zlen data) ((1 + s) * sz)); [lia|]. rewrite sl_from_ok by (cbn [dat]; lia). cbn [bind dat].
    rewrite read_sector_entries by auto. cbn [bind]. rewrite IH. rewrite <- app_assoc. reflexivity.
Qed.

(** ** pieces of a stream *)
Fixpoint pieces (size : Z) (l : list bytes) : list bytes :=
  match l with
  | [] => []
  | s :: r => ztake size s :: pieces (Z.max 0 (size - zlen s)) r
  end.
Lemma ztake_neg : forall A n (l : list A), n <= 0 -> ztake n l = [].
Proof. intros. unfold ztake. replace (Z.to_nat n) with 0%nat by lia. reflexivity. Qed.
Lemma pieces_concat : forall l size, 0 <= size -> concat (pieces size l) = ztake size (concat l).
Proof.
  induction l as [|s l IH]; intros size H; cbn [pieces concat].
  - unfold ztake. rewrite firstn_nil. reflexivity.
  - rewrite IH by lia. destruct (Z.le_gt_cases size (zlen s)).
    + rewrite ztake_app_le by lia. replace (Z.max 0 (size - zlen s)) with 0 by lia. rewrite ztake_0, app_nil_r. reflexivity.
    + rewrite ztake_app_ge by lia. rewrite ztake_all by lia. f_equal. f_equal. lia.
Qed.
Lemma pieces_length : forall l size, List.length (pieces size l) = List.length l.
Proof. induction l; intros; simpl; auto. Qed.
Lemma pieces_nonempty : forall l size sz, 0 < sz -> Forall (fun s => zlen s = sz) l ->
  (Z.of_nat (List.length l) - 1) * sz < size -> Forall (fun s => s <> []) (pieces size l).
Proof.
  induction l as [|s l IH]; intros size sz Hz HF H; constructor.
  - inversion HF; subst. intros E. apply (f_equal zlen) in E. rewrite zlen_nil in E.
    cbn [List.length] in H. rewrite Nat2Z.inj_succ in H.
    assert (0 < size) by nia. destruct (Z.le_gt_cases size (zlen s)).
    + rewrite zlen_ztake in E by lia. lia.
    + rewrite ztake_all in E by lia. lia.
  - inversion HF; subst. cbn [List.length] in H. rewrite Nat2Z.inj_succ in H.
    destruct l as [|s2 l]; [constructor|]. apply (IH _ (zlen s)); auto. cbn [List.length] in *. rewrite Nat2Z.inj_succ in *. nia.
Qed.
Lemma good_pieces : forall ps k, Forall (fun s : bytes => s <> []) ps -> (k <= 1)%nat -> ps ++ repeat [] k <> [] ->
  good_slices (ps ++ repeat [] k).
Proof.
  intros ps k HF Hk HN. split; auto. intros pre cur post E Hp.
  assert (In cur ps).
  { destruct k as [|[|k]]; [| |lia].
    - cbn [repeat] in E. rewrite app_nil_r in E. subst ps. apply in_or_app. right. left. auto.
    - cbn [repeat] in E. destruct (snoc_last _ post Hp) as (po & a & ->).
      replace (pre ++ cur :: po ++ [a]) with ((pre ++ cur :: po) ++ [a]) in E by (rewrite <- app_assoc; reflexivity).
      apply app_inj_tail in E as [-> _]. apply in_or_app. right. left. auto. }
  rewrite Forall_forall in HF. auto.
Qed.

Lemma idx_nth : forall A (l : list A) i x, 0 <= i -> nth_error l (Z.to_nat i) = Some x -> idx l i = Ok x.
Proof. intros. unfold idx. destruct (0 <=? i) eqn:E; [|lia]. rewrite H0. auto. Qed.

Lemma set_idx_at : forall A (a : list A) y b x i, i = zlen a -> set_idx (a ++ y :: b) i x = Ok (a ++ x :: b).
Proof.
  intros. subst. unfold set_idx. pose proof (zlen_nonneg _ a). rewrite zlen_app, zlen_cons. pose proof (zlen_nonneg _ b).
  destruct ((0 <=? zlen a) && (zlen a <? zlen a + (1 + zlen b))) eqn:E; [|lia].
  unfold zlen at 1. rewrite Nat2Z.id. rewrite upd_app_exact. reflexivity.
Qed.

Lemma sl_range_ok : forall s a b, 0 <= a -> a <= b -> b <= zlen (sl_full s) ->
  sl_range s a b = Ok (mkSl (ztake (b - a) (zdrop a (sl_full s))) (zdrop b (sl_full s))).
Proof. intros. unfold sl_range. destruct ((0 <=? a) && (a <=? b) && (b <=? zlen (sl_full s))) eqn:E; auto. lia. Qed.

Lemma sl_range_dat : forall s a b, 0 <= a -> a <= b -> b <= zlen (dat s) ->
  exists sp, sl_range s a b = Ok (mkSl (ztake (b - a) (zdrop a (dat s))) sp) /\ sp = zdrop b (sl_full s).
Proof.
  intros s a b H1 H2 H3. exists (zdrop b (sl_full s)). split; auto. rewrite sl_range_ok; auto.
  - do 2 f_equal. unfold sl_full. rewrite zdrop_app_le by lia. rewrite ztake_app_le; auto. rewrite zlen_zdrop; lia.
  - unfold sl_full. rewrite zlen_app. pose proof (zlen_nonneg _ (spare s)). lia.
Qed.

Lemma in_file_not_end : forall data sz s, in_file data sz s -> is_end s = false.
Proof. intros data sz s [H _]. unfold is_end, secEndOfChain, secFree. lia. Qed.

(** ** getStreamReader along a chain that is long enough *)
Lemma stream_loop_ok : forall d sz, sec_size d = sz -> 0 < sz ->
  forall l sid size done m fuel, walk (d_fat d) (sid :: l) ->
  Forall (in_file (dat (d_data d)) sz) (sid :: l) ->
  zlen l * sz < size -> size <= (zlen l + 1) * sz ->
  (List.length l < fuel)%nat ->
  stream_loop fuel d sid size (zlen done) (done ++ repeat [] (S (List.length l) + m)) =
  Ok (0, done ++ pieces size (map (sector (dat (d_data d)) sz) (sid :: l)) ++ repeat [] m).
Proof.
  intros d sz Hsz Hz l. induction l as [|t l IH]; intros sid size done m fuel W HF S1 S2 Fu.
  - destruct fuel as [|fuel]; [simpl in Fu; lia|]. cbn [stream_loop].
    inversion HF as [|? ? I _]; subst x l. rewrite (in_file_not_end _ _ _ I).
    destruct (in_file_off _ _ _ I Hz) as (U & A & B). unfold sec_off.
    change (2 ^ h_shift (d_header d)) with (sec_size d). rewrite Hsz, U. unfold sl_len at 1.
    destruct (Z.ltb_spec (zlen (dat (d_data d))) ((1 + sid) * sz)); [lia|].
    destruct (sl_range_dat (d_data d) ((1 + sid) * sz) ((1 + sid) * sz + sz)) as (sp & E & _); try lia.
    rewrite E. cbn [bind]. replace ((1 + sid) * sz + sz - (1 + sid) * sz) with sz by lia.
    fold (sector (dat (d_data d)) sz sid). unfold sl_len. cbn [dat].
    pose proof (zlen_sector _ _ _ I Hz) as LS. rewrite LS. rewrite zlen_nil in *.
    cbn [map pieces List.length Nat.add repeat].
    destruct (Z.ltb_spec size sz).
    + rewrite set_idx_at by auto. cbn [bind]. change (0 =? 0) with true. cbv iota. reflexivity.
    + assert (size = sz) by lia. subst size. rewrite set_idx_at by auto. cbn [bind]. rewrite Z.sub_diag. change (0 =? 0) with true. cbv iota.
      rewrite ztake_all by lia. reflexivity.
  - destruct fuel as [|fuel]; [simpl in Fu; lia|]. cbn [stream_loop].
    inversion HF as [|? ? I HF']; subst x l0. rewrite (in_file_not_end _ _ _ I).
    destruct (in_file_off _ _ _ I Hz) as (U & A & B). unfold sec_off.
    change (2 ^ h_shift (d_header d)) with (sec_size d). rewrite Hsz, U. unfold sl_len at 1.
    destruct (Z.ltb_spec (zlen (dat (d_data d))) ((1 + sid) * sz)); [lia|].
    destruct (sl_range_dat (d_data d) ((1 + sid) * sz) ((1 + sid) * sz + sz)) as (sp & E & _); try lia.
    rewrite E. cbn [bind]. replace ((1 + sid) * sz + sz - (1 + sid) * sz) with sz by lia.
    fold (sector (dat (d_data d)) sz sid). unfold sl_len. cbn [dat].
    pose proof (zlen_sector _ _ _ I Hz) as LS. rewrite LS. rewrite zlen_cons in *. pose proof (zlen_nonneg _ l).
    destruct (Z.ltb_spec size sz); [nia|].
    destruct W as (W1 & W2 & W3).
    cbn [List.length Nat.add repeat].
    rewrite set_idx_at by auto. cbn [bind]. destruct (Z.eqb_spec (size - sz) 0); [nia|].
    rewrite (idx_nth _ _ _ _ W1 W2). cbn [bind].
    replace (zlen done + 1) with (zlen (done ++ [sector (dat (d_data d)) sz sid])) by (rewrite zlen_app, zlen_cons, zlen_nil; lia).
    replace (done ++ sector (dat (d_data d)) sz sid :: [] :: repeat [] (List.length l + m))
      with ((done ++ [sector (dat (d_data d)) sz sid]) ++ repeat [] (S (List.length l) + m)) by (rewrite <- app_assoc; reflexivity).
    rewrite IH; auto; try nia. 2: { simpl in Fu. lia. }
    rewrite <- app_assoc. cbn [map pieces app]. rewrite LS. rewrite (ztake_all _ (sector _ _ sid)) by lia.
    replace (Z.max 0 (size - sz)) with (size - sz) by lia. reflexivity.
Qed.

(** a chain that ends too early *)
Lemma chain_inv : forall fat s l, chain fat s l -> (l = [] /\ end_mark s) \/
  (exists t r, l = s :: r /\ ~ end_mark s /\ 0 <= s /\ nth_error fat (Z.to_nat s) = Some t /\ chain fat t r).
Proof. intros fat s l H. inversion H; subst; [left; auto|right; eauto 8]. Qed.
Lemma end_mark_is : forall s, end_mark s <-> is_end s = true.
Proof. intros. unfold end_mark, is_end, ENDOFCHAIN, FREESECT, secEndOfChain, secFree. lia. Qed.

Lemma stream_loop_short : forall d sz, sec_size d = sz -> 0 < sz ->
  forall l sid size done m fuel, chain (d_fat d) sid l ->
  Forall (in_file (dat (d_data d)) sz) l -> zlen l * sz < size ->
  (List.length l <= fuel)%nat -> (List.length l <= m)%nat ->
  exists sd, stream_loop fuel d sid size (zlen done) (done ++ repeat [] m) = Ok (size - zlen l * sz, sd).
Proof.
  intros d sz Hsz Hz l. induction l as [|s l IH]; intros sid size done m fuel C HF S1 Fu Hm.
  - destruct (chain_inv _ _ _ C) as [[_ E]|(t & r & E & _)]; [|discriminate].
    exists (done ++ repeat [] m). apply end_mark_is in E. rewrite zlen_nil. rewrite Z.mul_0_l, Z.sub_0_r.
    destruct fuel; cbn [stream_loop]; rewrite E; auto.
  - destruct (chain_inv _ _ _ C) as [[E _]|(t & r & E & NE & P & N & C')]; [discriminate|]. injection E as -> ->.
    destruct fuel as [|fuel]; [simpl in Fu; lia|]. destruct m as [|m]; [simpl in Hm; lia|]. cbn [stream_loop].
    inversion HF as [|? ? I HF']; subst x l. rewrite (in_file_not_end _ _ _ I).
    destruct (in_file_off _ _ _ I Hz) as (U & A & B). unfold sec_off.
    change (2 ^ h_shift (d_header d)) with (sec_size d). rewrite Hsz, U. unfold sl_len at 1.
    destruct (Z.ltb_spec (zlen (dat (d_data d))) ((1 + sid) * sz)); [lia|].
    destruct (sl_range_dat (d_data d) ((1 + sid) * sz) ((1 + sid) * sz + sz)) as (sp & E & _); try lia.
    rewrite E. cbn [bind]. replace ((1 + sid) * sz + sz - (1 + sid) * sz) with sz by lia.
    fold (sector (dat (d_data d)) sz sid). unfold sl_len. cbn [dat].
    pose proof (zlen_sector _ _ _ I Hz) as LS. rewrite LS. rewrite zlen_cons in *. pose proof (zlen_nonneg _ r).
    destruct (Z.ltb_spec size sz); [nia|]. cbn [repeat].
    rewrite set_idx_at by auto. cbn [bind]. destruct (Z.eqb_spec (size - sz) 0); [nia|].
    rewrite (idx_nth _ _ _ _ P N). cbn [bind].
    replace (zlen done + 1) with (zlen (done ++ [sector (dat (d_data d)) sz sid])) by (rewrite zlen_app, zlen_cons, zlen_nil; lia).
    replace (done ++ sector (dat (d_data d)) sz sid :: repeat [] m)
      with ((done ++ [sector (dat (d_data d)) sz sid]) ++ repeat [] m) by (rewrite <- app_assoc; reflexivity).
    destruct (IH t (size - sz) (done ++ [sector (dat (d_data d)) sz sid]) m fuel C' HF') as (sd & E'); try nia.
    { simpl in Fu; lia. } { simpl in Hm; lia. }
    exists sd. rewrite E'. do 2 f_equal. lia.
Qed.

(** termination on any FAT *)
Lemma stream_loop_fuel : forall d sz, sec_size d = sz -> 0 < sz ->
  forall fuel sid size x sd, 0 < size -> size < Z.of_nat fuel * sz -> stream_loop fuel d sid size x sd <> NoFuel.
Proof.
  intros d sz Hsz Hz fuel. induction fuel as [|fuel IH]; intros sid size x sd H0 H1; [lia|].
  cbn [stream_loop]. destruct (is_end sid); [discriminate|].
  destruct (sl_len (d_data d) <? _); [discriminate|].
  set (offs := sec_off _ sid).
  destruct (sl_range (d_data d) offs (offs + sec_size d)) as [sl|e| |] eqn:E; cbn [bind]; try discriminate.
  2: { unfold sl_range in E. destruct (_ && _ && _); discriminate. }
  assert (L : sl_len sl = sz).
  { unfold sl_range in E. destruct ((0 <=? offs) && (offs <=? offs + sec_size d) && (offs + sec_size d <=? zlen (sl_full (d_data d)))) eqn:B; [|discriminate].
    injection E as <-. unfold sl_len. cbn [dat]. rewrite zlen_ztake; [lia|]. rewrite zlen_zdrop by lia. lia. }
  rewrite L. destruct (Z.ltb_spec size sz).
  - destruct (set_idx sd x _) as [sd'|e| |] eqn:E2; cbn [bind]; try discriminate.
    unfold set_idx in E2. destruct (_ && _) in E2; discriminate.
  - destruct (set_idx sd x _) as [sd'|e| |] eqn:E2; cbn [bind]; try discriminate.
    2: { unfold set_idx in E2. destruct (_ && _) in E2; discriminate. }
    destruct (Z.eqb_spec (size - sz) 0); [discriminate|].
    destruct (idx (d_fat d) sid) as [s'|e| |] eqn:E3; cbn [bind]; try discriminate.
    2: { unfold idx in E3. destruct (0 <=? sid); [|discriminate]. destruct (nth_error _ _); discriminate. }
    apply IH; nia.
Qed.

(** ** the mini stream *)
Lemma sl_full_range : forall s a b sl, sl_range s a b = Ok sl -> sl_full sl = zdrop a (sl_full s) /\ 0 <= a <= b /\ b <= zlen (sl_full s) /\ zlen (dat sl) = b - a.
Proof.
  intros s a b sl H. unfold sl_range in H.
  destruct ((0 <=? a) && (a <=? b) && (b <=? zlen (sl_full s))) eqn:E; [|discriminate]. injection H as <-.
  assert (E1 : 0 <= a) by lia. assert (E2 : a <= b) by lia. assert (E3 : b <= zlen (sl_full s)) by lia.
  cbn [dat]. split; [|split; [lia|split; [lia|]]].
  - unfold sl_full at 1. cbn [dat spare]. rewrite <- (ztake_zdrop _ (b - a) (zdrop a (sl_full s))) at 2. f_equal.
    rewrite zdrop_zdrop by lia. f_equal. lia.
  - rewrite zlen_ztake; [lia|]. rewrite zlen_zdrop; lia.
Qed.

Lemma root_loop_ok : forall d sz, sec_size d = sz -> 0 < sz ->
  forall l fsid fsize done m fuel, chain (d_fat d) fsid l -> Forall (in_file (dat (d_data d)) sz) l ->
  0 <= fsize -> (List.length l <= fuel)%nat -> (List.length l <= m)%nat ->
  exists rs, root_loop fuel d fsid fsize (zlen done) (done ++ repeat nil_slice m) =
    Ok (done ++ rs ++ repeat nil_slice (m - List.length l)) /\
    map sl_full rs = map (fun s => zdrop ((1 + s) * sz) (sl_full (d_data d))) l.
Proof.
  intros d sz Hsz Hz l. induction l as [|s l IH]; intros fsid fsize done m fuel C HF S1 Fu Hm.
  - destruct (chain_inv _ _ _ C) as [[_ E]|(t & r & E & _)]; [|discriminate].
    exists []. apply end_mark_is in E. split; auto. rewrite Nat.sub_0_r. destruct fuel; cbn [root_loop]; rewrite E; auto.
  - destruct (chain_inv _ _ _ C) as [[E _]|(t & r & E & NE & P & N & C')]; [discriminate|]. injection E as -> ->.
    destruct fuel as [|fuel]; [simpl in Fu; lia|]. destruct m as [|m]; [simpl in Hm; lia|]. cbn [root_loop].
    inversion HF as [|? ? I HF']; subst x l. rewrite (in_file_not_end _ _ _ I).
    destruct (in_file_off _ _ _ I Hz) as (U & A & B). unfold sec_off.
    change (2 ^ h_shift (d_header d)) with (sec_size d). rewrite Hsz, U.
    destruct (sl_range_dat (d_data d) ((1 + fsid) * sz) ((1 + fsid) * sz + sz)) as (sp & E & Esp); try lia.
    rewrite E. cbn [bind]. replace ((1 + fsid) * sz + sz - (1 + fsid) * sz) with sz in E |- * by lia.
    fold (sector (dat (d_data d)) sz fsid) in E |- *. destruct (sl_full_range _ _ _ _ E) as (F1 & _ & _ & F2).
    pose proof (zlen_sector _ _ _ I Hz) as LS.
    set (sl := mkSl (sector (dat (d_data d)) sz fsid) sp) in *.
    assert (T : exists sl' fs', (if fsize <? sl_len sl then (sl' <- sl_to sl fsize ;; Ok (sl', 0)) else Ok (sl, fsize - sl_len sl)) = Ok (sl', fs')
      /\ sl_full sl' = sl_full sl /\ 0 <= fs').
    { unfold sl_len. destruct (Z.ltb_spec fsize (zlen (dat sl))) as [Q|Q].
      - unfold sl_to. assert (fsize <= zlen (sl_full sl)) by (unfold sl_full; rewrite zlen_app; pose proof (zlen_nonneg _ (spare sl)); lia).
        rewrite sl_range_ok by lia. cbn [bind]. do 2 eexists. split; [reflexivity|]. split; [|lia].
        unfold sl_full at 1. cbn [dat spare]. rewrite zdrop_0, Z.sub_0_r. apply ztake_zdrop.
      - do 2 eexists. split; [reflexivity|]. split; auto. lia. }
    destruct T as (sl' & fs' & T1 & T2 & T3). rewrite T1. cbn [bind repeat].
    rewrite set_idx_at by auto. cbn [bind]. rewrite (idx_nth _ _ _ _ P N). cbn [bind].
    replace (zlen done + 1) with (zlen (done ++ [sl'])) by (rewrite zlen_app, zlen_cons, zlen_nil; lia).
    replace (done ++ sl' :: repeat nil_slice m) with ((done ++ [sl']) ++ repeat nil_slice m) by (rewrite <- app_assoc; reflexivity).
    destruct (IH t fs' (done ++ [sl']) m fuel C' HF' T3) as (rs & R1 & R2). { simpl in Fu; lia. } { simpl in Hm; lia. }
    exists (sl' :: rs). rewrite R1. split.
    + rewrite <- app_assoc. reflexivity.
    + cbn [map]. rewrite T2, F1, R2. reflexivity.
Qed.

Lemma ztake_ztake : forall A a b (l : list A), a <= b -> ztake a (ztake b l) = ztake a l.
Proof. intros. unfold ztake. rewrite firstn_firstn. f_equal. lia. Qed.
Lemma zdrop_ztake : forall A a b (l : list A), 0 <= a -> a <= b -> zdrop a (ztake b l) = ztake (b - a) (zdrop a l).
Proof. intros. unfold ztake, zdrop. rewrite skipn_firstn_comm. f_equal. lia. Qed.

Lemma concat_fixed : forall (l : list bytes) sz, 0 < sz -> Forall (fun s => zlen s = sz) l ->
  forall k s, nth_error l k = Some s -> forall i n, 0 <= i -> i + n <= sz ->
  ztake n (zdrop (Z.of_nat k * sz + i) (concat l)) = ztake n (zdrop i s).
Proof.
  intros l sz Hz HF. induction HF as [|x l Hx HF IH]; intros k s Hk i n Hi Hn; [destruct k; discriminate|].
  destruct k as [|k].
  - injection Hk as ->. cbn [concat]. change (Z.of_nat 0) with 0. replace (0 * sz + i) with i by lia.
    destruct (Z.le_gt_cases n 0); [rewrite !ztake_neg by lia; auto|].
    rewrite zdrop_app_le by lia. rewrite ztake_app_le; auto. rewrite zlen_zdrop by lia. lia.
  - cbn [concat]. rewrite zdrop_app_ge by nia. replace (Z.of_nat (S k) * sz + i - zlen x) with (Z.of_nat k * sz + i) by lia.
    apply IH; auto.
Qed.

Lemma mini_loop_ok : forall d sz roots fsd, sec_size d = sz -> mini_size d = 64 -> 64 <= sz -> sz mod 64 = 0 ->
  Forall (in_file (dat (d_data d)) sz) roots ->
  (exists rs k, fsd = rs ++ repeat nil_slice k /\
     map sl_full rs = map (fun s => zdrop ((1 + s) * sz) (sl_full (d_data d))) roots) ->
  forall l sid size done m fuel, chain (d_minifat d) sid l ->
  Forall (fun i => (i + 1) * 64 <= zlen roots * sz) l ->
  (List.length l <= fuel)%nat -> (List.length l <= m)%nat -> 0 <= size ->
  mini_loop fuel d fsd sid size (zlen done) (done ++ repeat [] m) =
  Ok (done ++ pieces size (map (mini_sector (concat (map (sector (dat (d_data d)) sz) roots))) l) ++ repeat [] (m - List.length l)).
Proof.
  intros d sz roots fsd Hsz Hms Hz H64 HR (rs & k & -> & MR) l.
  assert (HRL : Forall (fun s : bytes => zlen s = sz) (map (sector (dat (d_data d)) sz) roots)).
  { apply Forall_forall. intros x Hx. apply in_map_iff in Hx as (s & <- & Hs). apply zlen_sector; [|lia]. rewrite Forall_forall in HR. auto. }
  induction l as [|s l IH]; intros sid size done m fuel C HF Fu Hm S1.
  - destruct (chain_inv _ _ _ C) as [[_ E]|(t & r & E & _)]; [|discriminate].
    apply end_mark_is in E. cbn [map pieces app]. rewrite Nat.sub_0_r. destruct fuel; cbn [mini_loop]; rewrite E; auto.
  - destruct (chain_inv _ _ _ C) as [[E _]|(t & r & E & NE & P & N & C')]; [discriminate|]. injection E as -> ->.
    destruct fuel as [|fuel]; [simpl in Fu; lia|]. destruct m as [|m]; [simpl in Hm; lia|]. cbn [mini_loop].
    inversion HF as [|? ? I HF']; subst x l.
    destruct (is_end sid) eqn:IE; [apply end_mark_is in IE; contradiction|]. rewrite Hms, Hsz.
    set (so := sid * 64 / sz). set (si := (sid * 64) mod sz).
    pose proof (Z.div_mod (sid * 64) sz ltac:(lia)) as DM. fold so in DM. fold si in DM.
    pose proof (Z.mod_pos_bound (sid * 64) sz ltac:(lia)) as MB. fold si in MB.
    assert (SI : si + 64 <= sz).
    { assert (D1 : (si mod 64) = 0).
      { unfold si. pose proof (Z.div_mod sz 64 ltac:(lia)) as DZ. rewrite H64 in DZ.
        replace sz with (64 * (sz / 64)) by lia. rewrite (Z.mul_comm sid 64). rewrite Z.mul_mod_distr_l by lia.
        rewrite Z.mul_comm. apply Z.mod_mul. lia. }
      pose proof (Z.div_mod si 64 ltac:(lia)). pose proof (Z.div_mod sz 64 ltac:(lia)). nia. }
    assert (SO : 0 <= so < zlen roots). { split; [apply Z.div_pos; lia|]. nia. }
    destruct (nth_error roots (Z.to_nat so)) as [rt|] eqn:ER.
    2: { apply nth_error_None in ER. unfold zlen in SO. lia. }
    assert (LRS : List.length rs = List.length roots) by (rewrite <- (map_length sl_full rs), MR, map_length; auto).
    destruct (nth_error rs (Z.to_nat so)) as [sl|] eqn:ES.
    2: { apply nth_error_None in ES. unfold zlen in SO. lia. }
    assert (ESL : sl_full sl = zdrop ((1 + rt) * sz) (sl_full (d_data d))).
    { pose proof (map_nth_error sl_full _ _ ES) as Q1. pose proof (map_nth_error (fun s => zdrop ((1 + s) * sz) (sl_full (d_data d))) _ _ ER) as Q2.
      rewrite MR in Q1. congruence. }
    rewrite (idx_nth _ _ so sl); [|lia|rewrite nth_error_app1; auto; rewrite LRS; unfold zlen in SO; lia]. cbn [bind].
    assert (IR : in_file (dat (d_data d)) sz rt) by (rewrite Forall_forall in HR; apply HR; eapply nth_error_In; eauto).
    destruct (in_file_off _ _ _ IR ltac:(lia)) as (_ & RA & RB).
    assert (ZF : zlen (sl_full sl) = zlen (dat (d_data d)) + zlen (spare (d_data d)) - (1 + rt) * sz).
    { rewrite ESL. rewrite zlen_zdrop; unfold sl_full; rewrite zlen_app; pose proof (zlen_nonneg _ (spare (d_data d))); lia. }
    pose proof (zlen_nonneg _ (spare (d_data d))).
    rewrite sl_range_ok by lia. cbn [bind]. replace (si + 64 - si) with 64 by lia. unfold sl_len. cbn [dat].
    assert (CT : ztake 64 (zdrop si (sl_full sl)) = mini_sector (concat (map (sector (dat (d_data d)) sz) roots)) sid).
    { unfold mini_sector. replace (sid * 64) with (Z.of_nat (Z.to_nat so) * sz + si) by nia.
      rewrite (concat_fixed _ sz ltac:(lia) HRL (Z.to_nat so) (sector (dat (d_data d)) sz rt)); [|apply map_nth_error; auto|lia|lia].
      rewrite ESL. unfold sector. rewrite zdrop_ztake by lia. rewrite ztake_ztake by lia. rewrite !zdrop_zdrop by lia.
      unfold sl_full. rewrite zdrop_app_le by lia. rewrite ztake_app_le; auto. rewrite zlen_zdrop by lia. lia. }
    assert (LZ : zlen (ztake 64 (zdrop si (sl_full sl))) = 64) by (rewrite zlen_ztake; auto; rewrite zlen_zdrop by lia; lia).
    rewrite LZ, CT. rewrite CT in LZ. cbn [map pieces repeat]. rewrite LZ. set (mb := mini_sector _ sid) in *.
    assert (ST : (if size <? 64 then (ztake size mb, 0) else (mb, size - 64)) = (ztake size mb, Z.max 0 (size - 64))).
    { destruct (Z.ltb_spec size 64).
      - f_equal. lia.
      - rewrite ztake_all by lia. f_equal. lia. }
    rewrite ST. rewrite set_idx_at by auto. cbn [bind]. rewrite (idx_nth _ _ _ _ P N). cbn [bind].
    replace (zlen done + 1) with (zlen (done ++ [ztake size mb])) by (rewrite zlen_app, zlen_cons, zlen_nil; lia).
    replace (done ++ ztake size mb :: repeat [] m) with ((done ++ [ztake size mb]) ++ repeat [] m) by (rewrite <- app_assoc; reflexivity).
    rewrite IH; auto; try (simpl in Fu, Hm; lia). rewrite <- app_assoc. reflexivity.
Qed.

(** termination: the arrays bound both loops *)
Lemma set_idx_len : forall A (l : list A) i x l', set_idx l i x = Ok l' -> zlen l' = zlen l /\ 0 <= i < zlen l.
Proof.
  intros A l i x l' H. unfold set_idx in H. destruct ((0 <=? i) && (i <? zlen l)) eqn:E; [|discriminate]. injection H as <-.
  unfold zlen. rewrite upd_length. unfold zlen in E. lia.
Qed.
Lemma idx_not_nofuel : forall A (l : list A) i, idx l i <> NoFuel /\ forall e, idx l i <> Err e.
Proof. intros. unfold idx. destruct (0 <=? i); [destruct (nth_error _ _)|]; split; intros; discriminate. Qed.
Lemma root_loop_fuel : forall d fuel fsid fsize x sd, 0 <= x <= zlen sd -> zlen sd - x < Z.of_nat fuel ->
  root_loop fuel d fsid fsize x sd <> NoFuel.
Proof.
  intros d fuel. induction fuel as [|fuel IH]; intros fsid fsize x sd Hx Hf; [lia|].
  cbn [root_loop]. destruct (is_end fsid); [discriminate|].
  destruct (sl_range (d_data d) _ _) as [sl|e| |] eqn:E; cbn [bind]; try discriminate.
  2: { unfold sl_range in E. destruct (_ && _ && _); discriminate. }
  destruct (if fsize <? sl_len sl then _ else _) as [[sl' fs']|e| |] eqn:E1; cbn [bind]; try discriminate.
  2: { destruct (fsize <? sl_len sl); [|discriminate]. unfold sl_to, sl_range in E1. destruct (_ && _ && _) in E1; discriminate. }
  destruct (set_idx sd x sl') as [sd'|e| |] eqn:E2; cbn [bind]; try discriminate.
  2: { unfold set_idx in E2. destruct (_ && _) in E2; discriminate. }
  apply set_idx_len in E2 as [L1 L2].
  destruct (idx_not_nofuel _ (d_fat d) fsid). destruct (idx (d_fat d) fsid) as [s'|e| |] eqn:E3; cbn [bind]; try discriminate; try congruence.
  apply IH; lia.
Qed.
Lemma mini_loop_fuel : forall d fsd fuel sid size x sd, 0 <= x <= zlen sd -> zlen sd - x < Z.of_nat fuel ->
  mini_loop fuel d fsd sid size x sd <> NoFuel.
Proof.
  intros d fsd fuel. induction fuel as [|fuel IH]; intros sid size x sd Hx Hf; [lia|].
  cbn [mini_loop]. destruct (is_end sid); [discriminate|].
  destruct (idx_not_nofuel _ fsd (sid * mini_size d / sec_size d)). destruct (idx fsd _) as [dt|e| |] eqn:E0; cbn [bind]; try discriminate; try congruence.
  destruct (sl_range dt _ _) as [sl|e| |] eqn:E; cbn [bind]; try discriminate.
  2: { unfold sl_range in E. destruct (_ && _ && _); discriminate. }
  destruct (if size <? sl_len sl then _ else _) as [out sz'].
  destruct (set_idx sd x out) as [sd'|e| |] eqn:E2; cbn [bind]; try discriminate.
  2: { unfold set_idx in E2. destruct (_ && _) in E2; discriminate. }
  apply set_idx_len in E2 as [L1 L2].
  destruct (idx_not_nofuel _ (d_minifat d) sid). destruct (idx (d_minifat d) sid) as [s'|e| |] eqn:E3; cbn [bind]; try discriminate; try congruence.
  apply IH; lia.
Qed.

(** ** the header and the directory *)
Lemma difat_list : forall (f : nat -> Z) (l : list Z) x n, (List.length l <= n)%nat ->
  (forall i, (i < n)%nat -> f i = nth i l x) -> map f (seq 0 n) = l ++ repeat x (n - List.length l).
Proof.
  intros f l x n Hl Hf. apply nth_ext with (d := f 0%nat) (d' := x).
  - rewrite map_length, seq_length, app_length, repeat_length. lia.
  - intros i Hi. rewrite map_length, seq_length in Hi. rewrite map_nth, seq_nth by lia. cbn [Nat.add]. rewrite Hf by auto.
    destruct (Nat.lt_ge_cases i (List.length l)).
    + rewrite app_nth1 by auto. reflexivity.
    + rewrite app_nth2 by auto. rewrite nth_overflow by auto. symmetry. apply nth_repeat.
Qed.

Lemma s32_id : forall x, 0 <= x < 2147483648 -> s32 x = x.
Proof. intros x Hx. unfold s32, u32. cbv zeta. rewrite ?Z.mod_small by lia. destruct (Z.ltb_spec x 2147483648); lia. Qed.
Lemma s16_id : forall x, 0 <= x < 32768 -> s16 x = x.
Proof. intros x Hx. unfold s16, u16. cbv zeta. rewrite ?Z.mod_small by lia. destruct (Z.ltb_spec x 32768); lia. Qed.
Lemma header_fields : forall data major fat1 fat2 mini firstdir, cfb_header data major fat1 fat2 mini firstdir ->
  let h := read_header data in
  h_signature h = 16220472316735377360 /\ h_class0 h = 0 /\ h_class1 h = 0 /\ h_major h = major /\ h_byteorder h = 65534 /\
  h_shift h = sec_shift major /\ h_minishift h = 6 /\ h_reserved h = repeat 0 6 /\ (major = 3 -> h_numdir h = 0) /\
  h_numfat h = zlen fat1 + zlen fat2 /\ h_firstdir h = firstdir /\ h_cutoff h = 4096 /\
  (exists ds, h_numdifat h = zlen ds /\ difats data (sec_bytes major) (h_firstdifat h) ds fat2) /\
  h_difat h = fat1 ++ repeat FREESECT (109 - List.length fat1) /\
  match mini with
  | None => h_firstminifat h = ENDOFCHAIN /\ h_numminifat h = 0
  | Some m => h_firstminifat h = m /\ h_numminifat h = 1
  end.
Proof.
  intros data major fat1 fat2 mini firstdir H h. destruct H. subst h. unfold read_header.
  destruct (Z.ltb_spec (zlen data) 512); [lia|].
  cbn [h_signature h_class0 h_class1 h_major h_byteorder h_shift h_minishift h_reserved h_numdir h_numfat h_firstdir h_cutoff h_numdifat h_firstdifat h_difat h_firstminifat h_numminifat].
  rewrite !rd64_field, !rd16_field, !rd32_field by lia.
  pose proof (zlen_nonneg _ fat1). pose proof (zlen_nonneg _ fat2).
  destruct ch_clsid. destruct ch_major. destruct ch_numfat as [NF1 NF2].
  repeat split; auto.
  - intros M. rewrite ch_numdir by auto. reflexivity.
  - rewrite NF1. apply s32_id. lia.
  - rewrite ch_cutoff. reflexivity.
  - destruct ch_difats as (ds & D1 & D2 & D3). exists ds. split; auto. rewrite D1. apply s32_id. pose proof (zlen_nonneg _ ds). lia.
  - apply difat_list; [unfold zlen in ch_fatlen; lia|]. intros i Hi. rewrite rd32_field by lia. auto.
  - destruct mini as [m|].
    + destruct ch_mini as (M1 & M2 & M3). rewrite M1, M2. auto.
    + destruct ch_mini as (M1 & M2). rewrite M1, M2. auto.
Qed.

(** the DIFAT sectors *)
Lemma difat_entries_spec : forall data sp shift sz es l acc, 2 ^ shift = sz -> 0 < sz -> 4 * (sz / 4) = sz ->
  Forall (in_file data sz) (filter used_entry es) -> (exists t, words l = es ++ t) ->
  difat_entries (mkSl data sp) shift (Z.to_nat (sz / 4)) (List.length es) l acc =
  Ok (acc ++ flat_map (fun s => words (sector data sz s)) (filter used_entry es), zdrop (4 * zlen es) l).
Proof.
  intros data sp shift sz es. induction es as [|e es IH]; intros l acc Hp Hz H4 HF (t & HW).
  - cbn [List.length difat_entries filter flat_map]. rewrite app_nil_r. reflexivity.
  - destruct l as [|a [|b [|c [|d l]]]]; try discriminate. rewrite words_app4 in HW. cbn [app] in HW. remember (le_val [a; b; c; d]) as v eqn:EV. injection HW as HE HW. rewrite EV in HE.
    cbn [List.length difat_entries]. rewrite le32_val by (rewrite !zlen_cons; pose proof (zlen_nonneg _ l); lia). cbn [bind].
    change (ztake 4 (a :: b :: c :: d :: l)) with [a; b; c; d]. rewrite HE. change (zdrop 4 (a :: b :: c :: d :: l)) with l.
    assert (ZD : zdrop (4 * zlen (e :: es)) (a :: b :: c :: d :: l) = zdrop (4 * zlen es) l).
    { rewrite zlen_cons. pose proof (zlen_nonneg _ es). replace (4 * (1 + zlen es)) with (4 + 4 * zlen es) by lia.
      rewrite <- zdrop_zdrop by lia. reflexivity. }
    rewrite ZD. cbn [filter]. cbn [filter] in HF.
    assert (UE : used_entry e = negb ((e =? secFree) || (e =? secEndOfChain))).
    { unfold used_entry, FREESECT, ENDOFCHAIN, secFree, secEndOfChain. lia. }
    destruct ((e =? secFree) || (e =? secEndOfChain)); rewrite UE in *; cbn [negb] in *.
    + apply IH; eauto.
    + inversion HF as [|? ? I HF']; subst x l0. destruct (in_file_off _ _ _ I Hz) as (U & A & B).
      unfold sec_off. rewrite U, Hp. unfold sl_len. cbn [dat].
      destruct (Z.leb_spec (zlen data) ((1 + e) * sz)); [lia|]. rewrite sl_from_ok by (cbn [dat]; lia). cbn [bind dat].
      rewrite read_sector_entries by auto. cbn [bind]. rewrite IH; eauto. cbn [flat_map]. rewrite <- app_assoc. reflexivity.
Qed.
Lemma words_zlen : forall n l, zlen l = 4 * Z.of_nat n -> List.length (words l) = n.
Proof.
  induction n; intros l H.
  - apply zlen_0 in H. subst. reflexivity.
  - destruct l as [|a [|b [|c [|d r]]]]; try (unfold zlen in H; simpl List.length in H; lia).
    rewrite words_app4. cbn [List.length]. f_equal. apply IHn. rewrite !zlen_cons in H. lia.
Qed.
Lemma words_prefix : forall n a b, zlen a = 4 * Z.of_nat n -> words (a ++ b) = words a ++ words b.
Proof.
  induction n; intros a b H.
  - apply zlen_0 in H. subst. reflexivity.
  - destruct a as [|x [|y [|z [|w r]]]]; try (unfold zlen in H; simpl List.length in H; lia).
    cbn [app]. rewrite !words_app4. cbn [app]. f_equal. apply IHn. rewrite !zlen_cons in H. lia.
Qed.
Lemma le32_words : forall l t r, words l = t :: r -> le32 l = Ok t.
Proof.
  intros l t r H. destruct l as [|a [|b [|c [|d l]]]]; try discriminate. rewrite words_app4 in H. remember (le_val [a; b; c; d]) as v eqn:EV. injection H as <- _. rewrite EV.
  cbn [le32 le_val]. f_equal. lia.
Qed.
Lemma words_zdrop : forall es l t, words l = es ++ t -> words (zdrop (4 * zlen es) l) = t.
Proof.
  induction es as [|e es IH]; intros l t H.
  - rewrite zlen_nil. rewrite zdrop_0. auto.
  - destruct l as [|a [|b [|c [|d l]]]]; try discriminate. rewrite words_app4 in H. cbn [app] in H. remember (le_val [a; b; c; d]) as v eqn:EV. injection H as _ H.
    rewrite zlen_cons. pose proof (zlen_nonneg _ es). replace (4 * (1 + zlen es)) with (4 + 4 * zlen es) by lia.
    rewrite <- zdrop_zdrop by lia. change (zdrop 4 (a :: b :: c :: d :: l)) with l. auto.
Qed.
Lemma difat_loop_spec : forall data sp shift sz s ds fs, 2 ^ shift = sz -> 0 < sz -> 4 * (sz / 4) = sz ->
  difats data sz s ds fs -> Forall (in_file data sz) fs ->
  forall fuel acc, (List.length ds <= fuel)%nat ->
  difat_loop fuel (mkSl data sp) shift (Z.to_nat (sz / 4)) s acc = Ok (acc ++ flat_map (fun s => words (sector data sz s)) fs).
Proof.
  intros data sp shift sz s ds fs Hp Hz H4 H HF. induction H as [|s es t ds fs I HW H IH]; intros fuel acc Fu.
  - cbn [flat_map]. rewrite app_nil_r. destruct fuel; reflexivity.
  - destruct fuel as [|fuel]; [simpl in Fu; lia|]. cbn [difat_loop].
    destruct (in_file_off _ _ _ I Hz) as (U & A & B).
    destruct (Z.eqb_spec s secEndOfChain) as [Q|Q]. { destruct I as [I _]. unfold secEndOfChain in Q. lia. }
    unfold sec_off. rewrite U, Hp. rewrite sl_from_ok by (cbn [dat]; lia). cbn [bind dat].
    apply Forall_app in HF as [HF1 HF2].
    pose proof (zlen_sector _ _ _ I Hz) as LS.
    assert (SD : zdrop ((1 + s) * sz) data = sector data sz s ++ zdrop sz (zdrop ((1 + s) * sz) data)) by (symmetry; apply ztake_zdrop).
    assert (LW : List.length (words (sector data sz s)) = Z.to_nat (sz / 4)).
    { apply words_zlen. rewrite LS. rewrite Z2Nat.id by (apply Z.div_pos; lia). lia. }
    assert (LE : (Z.to_nat (sz / 4) - 1)%nat = List.length es).
    { rewrite HW, app_length in LW. simpl in LW. lia. }
    rewrite LE. assert (WD : exists t', words (zdrop ((1 + s) * sz) data) = es ++ t :: t').
    { rewrite SD. rewrite (words_prefix (Z.to_nat (sz / 4))). 2: { rewrite LS. rewrite Z2Nat.id by (apply Z.div_pos; lia). lia. }
      rewrite HW, <- app_assoc. eexists. reflexivity. }
    destruct WD as (t' & WD).
    rewrite (difat_entries_spec data sp shift sz); eauto. cbn [bind].
    rewrite (le32_words _ t t') by (apply words_zdrop; auto). cbn [bind].
    rewrite IH; auto. 2: { simpl in Fu. lia. } rewrite flat_map_app, <- app_assoc. reflexivity.
Qed.

Lemma load_ok : forall data sp major fat1 fat2 mini firstdir, cfb_header data major fat1 fat2 mini firstdir ->
  let sz := sec_bytes major in
  let '(dir, ms) := build_dirs 4 major (zdrop (u32 (1 + firstdir) * sz) data) [] (0, 0) in
  exists N, forall fuel, (N <= fuel)%nat ->
  load fuel (mkSl data sp) = Ok (mkDoc (mkSl data sp) (read_header data) dir
    (flat_map (fun s => words (sector data sz s)) (fat1 ++ fat2))
    (match mini with None => [] | Some m => words (sector data sz m) end) (fst ms) (snd ms)).
Proof.
  intros data sp major fat1 fat2 mini firstdir H sz.
  pose proof (header_fields _ _ _ _ _ _ H) as HH. cbv zeta in HH.
  destruct (build_dirs _ _ _ _ _) as [dir ms] eqn:BD.
  destruct HH as (H1 & H2 & H3 & H4 & H5 & H6 & H7 & H8 & H9 & H10 & H11 & H12 & (ds & H13 & H13') & H14 & H15).
  exists (S (List.length ds)). intros fuel Fu.
  unfold load. cbn [dat]. rewrite H1, H2, H3, H4, H5, H6, H7, H8, H10, H12, H13, H14.
  change (16220472316735377360 =? 16220472316735377360) with true. change (65534 =? 65534) with true.
  change (0 =? 0) with true. cbn [negb andb].
  destruct H. destruct ch_major as [MJ _]. destruct (pow_cases major MJ) as (P1 & P2 & P3 & P4). fold sz in P1, P2, P3, P4.
  assert (E1 : (major =? 3) || (major =? 4) = true) by lia. rewrite E1. cbn [negb].
  change (forallb (Z.eqb 0) (repeat 0 6)) with true. cbn [negb].
  assert (E2 : (major =? 3) && negb (sec_shift major =? 9) = false) by (destruct MJ as [-> | ->]; reflexivity). rewrite E2.
  assert (E3 : (major =? 3) && negb (h_numdir (read_header data) =? 0) = false).
  { destruct (Z.eqb_spec major 3) as [M|M]; auto. rewrite H9 by auto. reflexivity. }
  rewrite E3.
  assert (E4 : (major =? 4) && negb (sec_shift major =? 12) = false) by (destruct MJ as [-> | ->]; reflexivity). rewrite E4.
  change (6 =? 6) with true. change (4096 =? 4096) with true. cbn [negb]. 
  pose proof (zlen_nonneg _ fat1). pose proof (zlen_nonneg _ fat2). destruct ch_numfat as [NF1 NF2].
  assert (NM : 0 <= h_numminifat (read_header data) <= 1) by (destruct mini; destruct H15; lia).
  rewrite !s32_id by lia.
  assert (E5 : (1 + (zlen fat1 + zlen fat2) <? 0) || (1 + h_numminifat (read_header data) <? 0) = false) by lia. rewrite E5.
  fold sz in ch_fatsecs. apply Forall_app in ch_fatsecs as [CF1 CF2].
  rewrite P2. rewrite (load_fat_spec data sp (sec_shift major) sz); auto; try lia.
  2: { destruct (109 - List.length fat1)%nat; [left|right; eexists]; reflexivity. }
  cbn [bind app]. fold sz in H13'.
  assert (ED : (if 0 <? zlen ds then difat_loop fuel (mkSl data sp) (sec_shift major) (Z.to_nat (sz / 4)) (h_firstdifat (read_header data))
       (flat_map (fun s => words (sector data sz s)) fat1) else Ok (flat_map (fun s => words (sector data sz s)) fat1)) =
       Ok (flat_map (fun s => words (sector data sz s)) (fat1 ++ fat2))).
  { rewrite flat_map_app. destruct ds as [|d0 ds].
    - inversion H13'; subst. cbn [flat_map]. rewrite app_nil_r. reflexivity.
    - rewrite zlen_cons. pose proof (zlen_nonneg _ ds). destruct (Z.ltb_spec 0 (1 + zlen ds)); [|lia].
      rewrite (difat_loop_spec data sp (sec_shift major) sz _ _ _ P1 ltac:(lia) P3 H13' CF2); auto. lia. }
  rewrite ED. cbn [bind].
  assert (EM : minifat_loop fuel (mkSl data sp) (sec_shift major) (Z.to_nat (sz / 4)) (h_numminifat (read_header data)) (h_firstminifat (read_header data)) [] =
    Ok match mini with None => [] | Some m => words (sector data sz m) end).
  { destruct mini as [m|].
    - destruct H15 as [-> ->]. destruct ch_mini as (_ & _ & IM). fold sz in IM. destruct fuel as [|fuel]; [lia|]. cbn [minifat_loop].
      destruct (in_file_off _ _ _ IM ltac:(lia)) as (U & A & B).
      destruct (Z.eqb_spec m secEndOfChain) as [Q|Q]. { destruct IM as [IM _]. unfold secEndOfChain in Q. lia. }
      unfold sec_off. rewrite U, P1. unfold sl_len. cbn [dat]. destruct (Z.leb_spec (zlen data) ((1 + m) * sz)); [lia|].
      rewrite sl_from_ok by (cbn [dat]; lia). cbn [bind dat]. rewrite read_sector_entries by (auto; lia). cbn [bind app].
      assert (LW : 1 <=? zlen (words (sector data sz m)) = true).
      { pose proof (zlen_sector _ _ _ IM ltac:(lia)) as LS. unfold zlen. rewrite (words_zlen (Z.to_nat (sz / 4))).
        - rewrite Z2Nat.id by (apply Z.div_pos; lia). apply Z.leb_le. clear - P3 P4. lia.
        - rewrite LS, Z2Nat.id by (apply Z.div_pos; lia). lia. }
      rewrite LW. reflexivity.
    - destruct H15 as [-> ->]. destruct fuel; reflexivity. }
  rewrite EM. cbn [bind]. rewrite H11. unfold sec_off. rewrite P1, BD. reflexivity.
Qed.

(** an entry as the model represents it *)
Definition entry_of (e : list Z * Z * Z * Z) (x : dirent) : Prop :=
  let '(name, ty, start, size) := e in
  dir_string x = Ok (string_of_runes name) /\ de_type x = ty /\ de_start x = start /\ de_size x = size.

Lemma utf16_plain : forall l, Forall (fun u => 0 < u < 55296) l -> utf16_decode (l ++ [0]) = l ++ [0].
Proof.
  intros l H. induction H as [|u l Hu H IH]; [reflexivity|]. cbn [app utf16_decode].
  assert (E : (55296 <=? u) && (u <? 56320) = false) by lia. rewrite E.
  assert (E2 : (56320 <=? u) && (u <? 57344) = false) by lia. rewrite E2. rewrite IH. reflexivity.
Qed.

Lemma substr_prefix : forall A (a b : list A) n, n = zlen a -> substr (a ++ b) 0 n = Ok a.
Proof.
  intros. subst. unfold substr. pose proof (zlen_nonneg _ a). pose proof (zlen_nonneg _ b). rewrite zlen_app.
  destruct ((0 <=? 0) && (0 <=? zlen a) && (zlen a <=? zlen a + zlen b)) eqn:E; [|lia].
  rewrite zdrop_0, Z.sub_0_r, ztake_app_exact. reflexivity.
Qed.

Lemma bytes_ok_zdrop : forall l n, bytes_ok l -> bytes_ok (zdrop n l).
Proof. intros l n H. rewrite <- (ztake_zdrop _ n l) in H. apply bytes_ok_app in H. tauto. Qed.
Lemma bytes_ok_ztake : forall l n, bytes_ok l -> bytes_ok (ztake n l).
Proof. intros l n H. rewrite <- (ztake_zdrop _ n l) in H. apply bytes_ok_app in H. tauto. Qed.

Lemma u32_field : forall d o, bytes_ok d -> 0 <= o -> o + 8 <= zlen d -> u32 (field d o 8) = field d o 4.
Proof.
  intros d o Hb Ho Hl. unfold field.
  assert (L : 8 <= zlen (zdrop o d)) by (rewrite zlen_zdrop; lia).
  pose proof (bytes_ok_zdrop d o Hb) as B. destruct (zdrop o d) as [|a [|b [|c [|e r]]]]; try (unfold zlen in L; simpl List.length in L; lia).
  replace (ztake 8 (a :: b :: c :: e :: r)) with (a :: b :: c :: e :: ztake 4 r) by reflexivity.
  change (ztake 4 (a :: b :: c :: e :: r)) with [a; b; c; e]. unfold u32. cbn [le_val].
  inversion B as [|? ? Ba B1]; inversion B1 as [|? ? Bb B2]; inversion B2 as [|? ? Bc B3]; inversion B3 as [|? ? Be B4]; subst.
  replace (a + 256 * (b + 256 * (c + 256 * (e + 256 * le_val (ztake 4 r)))))
    with ((a + 256 * (b + 256 * (c + 256 * (e + 256 * 0)))) + le_val (ztake 4 r) * 4294967296) by lia.
  rewrite Z_mod_plus_full. apply Z.mod_small. lia.
Qed.

Lemma idx_field : forall d o, 0 <= o < zlen d -> match idx d o with Ok t => t | _ => 0 end = field d o 1.
Proof.
  intros d o Ho. unfold field. rewrite <- (ztake_zdrop _ o d) at 1.
  assert (L : zlen (zdrop o d) = zlen d - o) by (apply zlen_zdrop; lia).
  destruct (zdrop o d) as [|a r]; [rewrite zlen_nil in L; lia|].
  rewrite idx_app_exact by (rewrite zlen_ztake; lia). change (ztake 1 (a :: r)) with [a]. cbn [le_val]. lia.
Qed.

Lemma read_dirent_spec : forall major d name ty start size, bytes_ok d -> dir_entry major d name ty start size ->
  entry_of (name, ty, start, size) (read_dirent major d) /\ ty <> 0.
Proof.
  intros major d name ty start size B []. split; [|tauto].
  unfold read_dirent. destruct (Z.ltb_spec (zlen d) 128); [lia|].
  cbn [entry_of de_type de_start de_size]. rewrite !rd16_field, !rd32_field, !rd64_field by lia.
  rewrite idx_field by lia. destruct en_namelen as [NL NF]. destruct en_type.
  repeat split; auto.
  - unfold dir_string. cbn [de_namelen de_name]. rewrite NF. pose proof (zlen_nonneg _ name).
    assert (ES : s16 (2 * (zlen name + 1)) = 2 * (zlen name + 1)) by (apply s16_id; lia). rewrite ES.
    rewrite Z.mul_comm at 1. rewrite Z_mod_mult. change (0 =? 1) with false. cbn [orb].
    destruct (Z.ltb_spec 64 (2 * (zlen name + 1))); [lia|].
    rewrite Z.quot_div_nonneg by lia. rewrite Z.mul_comm, Z.div_mul by lia.
    assert (EN : exists tl, map (fun i => rd16 d (2 * Z.of_nat i)) (seq 0 32) = (name ++ [0]) ++ tl).
    { assert (L32 : (List.length name + 1 <= 32)%nat) by (unfold zlen in NL; lia).
      replace 32%nat with ((List.length name + 1) + (32 - (List.length name + 1)))%nat by lia.
      rewrite seq_app, map_app. eexists. f_equal. rewrite seq_app, map_app. cbn [seq map Nat.add]. f_equal.
      - apply nth_ext with (d := 0) (d' := 0); [rewrite map_length, seq_length; auto|].
        intros i Hi. rewrite map_length, seq_length in Hi.
        rewrite (nth_indep _ 0 (rd16 d (2 * Z.of_nat 0))) by (rewrite map_length, seq_length; auto).
        rewrite (map_nth (fun i => rd16 d (2 * Z.of_nat i)) (seq 0 (List.length name)) 0%nat i). rewrite seq_nth by auto. cbn [Nat.add].
        rewrite rd16_field by lia. auto.
      - f_equal. rewrite rd16_field by lia. exact en_term. }
    destruct EN as (tl & ->). rewrite substr_prefix by (rewrite zlen_app, zlen_cons, zlen_nil; lia). cbn [bind].
    rewrite utf16_plain by auto. cbv zeta. rewrite substr_prefix by (rewrite zlen_app, zlen_cons, zlen_nil; lia). reflexivity.
  - destruct (major =? 3); auto. rewrite u32_field by (auto; lia). auto.
Qed.

(** the mini stream's place, from the root entries of a directory *)
Fixpoint root_of (es : list (list Z * Z * Z * Z)) (ms : Z * Z) : Z * Z :=
  match es with
  | [] => ms
  | (_, ty, start, size) :: r => root_of r (if ty =? 5 then (start, u32 size) else ms)
  end.
Lemma build_dirs_spec : forall n major d es acc ms, bytes_ok d -> directory n major d es ->
  exists xs, build_dirs n major d acc ms = (acc ++ xs, root_of es ms) /\ Forall2 entry_of es xs.
Proof.
  induction n; intros major d es acc ms B H.
  - destruct es; [|destruct H]. exists []. rewrite app_nil_r. split; [reflexivity|constructor].
  - destruct es as [|[[[name ty] start] size] es].
    + exists []. rewrite app_nil_r. split; [|constructor]. cbn [build_dirs root_of].
      assert (T : de_type (read_dirent major d) = 0).
      { unfold read_dirent. destruct (Z.ltb_spec (zlen d) 128); [reflexivity|]. cbn [de_type].
        rewrite idx_field by lia. cbn [directory] in H. lia. }
      rewrite T. reflexivity.
    + destruct H as [HE HD]. destruct (read_dirent_spec _ _ _ _ _ _ B HE) as [E NZ]. cbn [build_dirs root_of].
      pose proof E as (E1 & E2 & E3 & E4). rewrite E2. unfold typeUnknown, typeRootStorage.
      destruct (Z.eqb_spec ty 0); [contradiction|]. rewrite E3, E4.
      destruct (IHn major (zdrop 128 d) es (acc ++ [read_dirent major d]) (if ty =? 5 then (start, u32 size) else ms)
                  (bytes_ok_zdrop _ _ B) HD) as (xs & X1 & X2).
      exists (read_dirent major d :: xs). rewrite X1. rewrite <- app_assoc. split; [reflexivity|]. constructor; auto.
Qed.

(** finding an entry *)
Lemma open_loop_finds : forall fuel d name start size pre post xs,
  Forall2 entry_of (pre ++ (name, 2, start, size) :: post) xs ->
  (forall n ty st sz, In (n, ty, st, sz) pre -> ty = 2 -> string_of_runes n <> string_of_runes name) ->
  (4096 <= size \/ (0 <= size < 4096)) -> u64 (h_cutoff (d_header d)) = 4096 ->
  open_loop fuel d (string_of_runes name) xs =
  if size <? 4096 then get_mini_stream_reader fuel d start size else get_stream_reader fuel d start size.
Proof.
  intros fuel d name start size pre. induction pre as [|[[[n ty] st] sz] pre IH]; intros post xs HF HN HS HC.
  - cbn [app] in HF. inversion HF as [|? x ? xs' E HF']; subst. destruct E as (E1 & E2 & E3 & E4). subst start size. cbn [open_loop]. rewrite E1. cbn [bind].
    rewrite str_eqb_refl, E2. unfold typeStream. change (2 =? 2) with true. cbn [andb]. rewrite HC.
    destruct (Z.ltb_spec (de_size x) 4096); auto. destruct (Z.eqb_spec (de_size x) 0); [lia|]. reflexivity.
  - cbn [app] in HF. inversion HF as [|? x ? xs' E HF']; subst. destruct E as (E1 & E2 & E3 & E4). subst ty st sz. cbn [open_loop]. rewrite E1. cbn [bind].
    assert (Q : str_eqb (string_of_runes n) (string_of_runes name) && (de_type x =? typeStream) = false).
    { unfold typeStream. destruct (Z.eqb_spec (de_type x) 2) as [T|T]; [|apply andb_false_r]. rewrite andb_true_r.
      apply str_eqb_neq. apply (HN n (de_type x) (de_start x) (de_size x)); auto. left. auto. }
    rewrite Q. apply (IH post); auto. intros n0 ty0 st0 sz0 Hin. apply (HN n0 ty0 st0 sz0). right. auto.
Qed.
