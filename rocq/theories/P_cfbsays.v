(** * P_cfbsays: C106.  A stream of any compound file that opens consists of the bytes the tables
    of that file lead to. *)
From Verif Require Import GoBase GoUnicode L_base M_slicereader S_slicereader L_slicereader P_slicereader M_cfb S_cfb L_cfb P_cfb S_cfbsays.
From Verif Require P_cut.

(** ** sectors *)
Lemma sec_off_place : forall shift sz s, 2 ^ shift = sz -> sec_off shift s = place sz s.
Proof. intros. unfold sec_off, place, u32. rewrite H. reflexivity. Qed.
Lemma place_nonneg : forall sz s, 0 < sz -> 0 <= place sz s.
Proof. intros. unfold place. pose proof (Z.mod_pos_bound (1 + s) 4294967296 ltac:(lia)). nia. Qed.
Lemma one_sector : forall data sp sz nent s sl acc a r, 0 < sz -> 4 * Z.of_nat nent = sz ->
  sl_from (mkSl data sp) (place sz s) = Ok sl -> read_entries nent (dat sl) acc = Ok (a, r) ->
  inside data sz s /\ a = acc ++ words (block data sz s) /\ r = zdrop (place sz s + sz) data.
Proof.
  intros data sp sz nent s sl acc a r Z N F R. unfold sl_from, sl_len in F. cbn [dat spare] in F. destruct (_ && _) eqn:E; [|discriminate]. injection F as <-. cbn [dat] in R.
  pose proof (place_nonneg sz s Z). assert (P : place sz s <= zlen data) by lia. destruct (Z.lt_ge_cases (zlen (zdrop (place sz s) data)) (4 * Z.of_nat nent)) as [Q|Q]; [rewrite read_entries_short in R by exact Q; discriminate|].
  rewrite read_entries_spec in R by lia. rewrite N in R. injection R as <- <-. rewrite zlen_zdrop in Q by lia. unfold inside, block. rewrite zdrop_zdrop by lia. repeat split; auto; lia.
Qed.
Lemma load_fat_says : forall data sp shift sz nent, 2 ^ shift = sz -> 0 < sz -> 4 * Z.of_nat nent = sz ->
  forall sids acc fat, load_fat (mkSl data sp) shift nent sids acc = Ok fat ->
  fat = acc ++ table data sz (until_free sids) /\ Forall (inside data sz) (until_free sids).
Proof.
  intros data sp shift sz nent P Z N. induction sids as [|s r IH]; intros acc fat H; cbn [load_fat until_free] in *.
  - injection H as <-. cbn [table flat_map]. rewrite app_nil_r. auto.
  - change secFree with FREESECT in H. destruct (s =? FREESECT); [injection H as <-; cbn [table flat_map]; rewrite app_nil_r; auto|].
    rewrite (sec_off_place _ _ _ P) in H. destruct (_ <=? _); [discriminate|]. destruct (sl_from _ _) as [sl| | |] eqn:E1; cbn [bind] in H; try discriminate.
    destruct (read_entries _ _ _) as [[a q]| | |] eqn:E2; cbn [bind] in H; try discriminate. destruct (one_sector _ _ _ _ _ _ _ _ _ Z N E1 E2) as (I & -> & _).
    apply IH in H. destruct H as [-> F]. cbn [table flat_map]. rewrite <- app_assoc. auto.
Qed.
Lemma words_cons : forall l, 4 <= zlen l -> words l = le_val (ztake 4 l) :: words (zdrop 4 l).
Proof. intros l H. destruct l as [|a [|b [|c [|d r]]]]; try (unfold zlen in H; cbn [List.length] in H; lia). reflexivity. Qed.
Lemma difat_entries_says : forall data sp shift sz nent, 2 ^ shift = sz -> 0 < sz -> 4 * Z.of_nat nent = sz ->
  forall n l acc fat r, difat_entries (mkSl data sp) shift nent n l acc = Ok (fat, r) ->
  4 * Z.of_nat n <= zlen l /\ r = zdrop (4 * Z.of_nat n) l /\
  let fs := filter used_entry (words (ztake (4 * Z.of_nat n) l)) in
  fat = acc ++ table data sz fs /\ Forall (inside data sz) fs.
Proof.
  intros data sp shift sz nent P Z N. induction n as [|n IH]; intros l acc fat r H; cbn [difat_entries] in H.
  - injection H as <- <-. pose proof (zlen_nonneg _ l). change (4 * Z.of_nat 0) with 0. rewrite ztake_0, zdrop_0. cbn [words filter table flat_map]. rewrite app_nil_r. repeat split; auto; lia.
  - destruct (Z.lt_ge_cases (zlen l) 4) as [Q|Q]; [rewrite le32_short in H by exact Q; discriminate|]. rewrite le32_val in H by lia. cbn [bind] in H.
    assert (WS : words (ztake (4 * Z.of_nat (S n)) l) = le_val (ztake 4 l) :: words (ztake (4 * Z.of_nat n) (zdrop 4 l))).
    { rewrite words_cons. 2: { destruct (Z.le_gt_cases (4 * Z.of_nat (S n)) (zlen l)); [rewrite zlen_ztake by lia; lia|rewrite ztake_all by lia; lia]. }
      rewrite ztake_ztake by lia. rewrite zdrop_ztake by lia. do 3 f_equal. lia. }
    rewrite WS. cbn [filter]. change (used_entry (le_val (ztake 4 l))) with (negb (le_val (ztake 4 l) =? secFree) && negb (le_val (ztake 4 l) =? secEndOfChain)). rewrite <- negb_orb. set (v := le_val (ztake 4 l)) in *.
    assert (ZD : zlen (zdrop 4 l) = zlen l - 4) by (rewrite zlen_zdrop; lia).
    destruct ((v =? secFree) || (v =? secEndOfChain)) eqn:U; cbn [negb].
    + apply IH in H. destruct H as (L & -> & H). rewrite zdrop_zdrop by lia. split; [lia|]. split; [f_equal; lia|exact H].
    + rewrite (sec_off_place _ _ _ P) in H. destruct (_ <=? _); [discriminate|]. destruct (sl_from _ _) as [sl| | |] eqn:E1; cbn [bind] in H; try discriminate.
      destruct (read_entries _ _ _) as [[a q]| | |] eqn:E2; cbn [bind] in H; try discriminate. destruct (one_sector _ _ _ _ _ _ _ _ _ Z N E1 E2) as (I & -> & _).
      apply IH in H. destruct H as (L & -> & H1 & H2). rewrite zdrop_zdrop by lia. split; [lia|]. split; [f_equal; lia|]. cbn [table flat_map]. rewrite H1, <- app_assoc. auto.
Qed.
Lemma words_snoc : forall l n, zlen l = 4 * Z.of_nat n -> (0 < n)%nat -> words l = words (ztake (4 * Z.of_nat (n - 1)) l) ++ [le_val (ztake 4 (zdrop (4 * Z.of_nat (n - 1)) l))].
Proof.
  intros l n. revert l. induction n as [|[|n] IH]; intros l L P; [lia| |].
  - change (4 * Z.of_nat (1 - 1)) with 0. rewrite ztake_0, zdrop_0. cbn [words app]. rewrite words_cons by lia. f_equal. rewrite zdrop_all by lia. reflexivity.
  - rewrite words_cons by lia. rewrite (IH (zdrop 4 l)) by (rewrite ?zlen_zdrop; lia). set (k := 4 * Z.of_nat (S n - 1)). replace (4 * Z.of_nat (S (S n) - 1)) with (4 + k) by (unfold k; lia).
    rewrite (words_cons (ztake _ l)) by (unfold k; rewrite zlen_ztake; lia). rewrite ztake_ztake by (unfold k; lia). rewrite zdrop_ztake by (unfold k; lia). rewrite zdrop_zdrop by (unfold k; lia).
    replace (4 + k - 4) with k by lia. reflexivity.
Qed.
Lemma difat_loop_says : forall data sp shift sz nent, 2 ^ shift = sz -> 0 < sz -> 4 * Z.of_nat nent = sz ->
  forall fuel s acc fat, difat_loop fuel (mkSl data sp) shift nent s acc = Ok fat ->
  exists fs, more_fats data sz s fs /\ fat = acc ++ table data sz fs /\ Forall (inside data sz) fs.
Proof.
  intros data sp shift sz nent P Z N. induction fuel as [|fuel IH]; intros s acc fat H; cbn [difat_loop] in H; change secEndOfChain with ENDOFCHAIN in H; destruct (Z.eqb_spec s ENDOFCHAIN) as [->|NE]; try discriminate;
    try (injection H as <-; exists []; cbn [table flat_map]; rewrite app_nil_r; repeat split; auto; constructor).
  rewrite (sec_off_place _ _ _ P) in H. destruct (sl_from _ _) as [sl| | |] eqn:E1; cbn [bind] in H; try discriminate.
  destruct (difat_entries _ _ _ _ _ _) as [[a q]| | |] eqn:E2; cbn [bind] in H; try discriminate. apply (difat_entries_says _ _ _ _ _ P Z N) in E2. destruct E2 as (L & -> & E2). cbn zeta in E2. destruct E2 as [-> F2].
  destruct (le32 _) as [t| | |] eqn:E3; cbn [bind] in H; try discriminate.
  unfold sl_from, sl_len in E1. cbn [dat spare] in E1. destruct (_ && _) eqn:E; [|discriminate]. injection E1 as <-. cbn [dat] in *. pose proof (place_nonneg sz s Z). assert (PL : place sz s <= zlen data) by lia.
  assert (L4 : 4 <= zlen (zdrop (4 * Z.of_nat (nent - 1)) (zdrop (place sz s) data))). { destruct (Z.lt_ge_cases (zlen (zdrop (4 * Z.of_nat (nent - 1)) (zdrop (place sz s) data))) 4) as [Q|Q]; [rewrite le32_short in E3 by exact Q; discriminate|exact Q]. }
  rewrite le32_val in E3 by exact L4. injection E3 as <-. rewrite zlen_zdrop in L by lia. rewrite zlen_zdrop in L4 by (rewrite zlen_zdrop; lia). rewrite zlen_zdrop in L4 by lia.
  apply IH in H. destruct H as (fs & M & -> & F). assert (I : inside data sz s) by (unfold inside; lia).
  exists (filter used_entry (words (ztake (4 * Z.of_nat (nent - 1)) (zdrop (place sz s) data))) ++ fs). split; [|split].
  - eapply mf_step; [exact NE|exact I| |exact M]. rewrite (words_snoc (block data sz s) nent) by (unfold block; rewrite ?zlen_ztake; rewrite ?zlen_zdrop; lia). unfold block. rewrite ztake_ztake by lia. rewrite zdrop_ztake by lia. rewrite ztake_ztake by lia. reflexivity.
  - unfold table. rewrite flat_map_app, <- app_assoc. reflexivity.
  - apply Forall_app. auto.
Qed.
Lemma minifat_says : forall data sp shift sz nent want, 2 ^ shift = sz -> 0 < sz -> 4 * Z.of_nat nent = sz ->
  forall fuel s acc mf, minifat_loop fuel (mkSl data sp) shift nent want s acc = Ok mf ->
  exists m, mini_table data sz want s (zlen acc) m /\ mf = acc ++ m.
Proof.
  intros data sp shift sz nent want P Z N. assert (D4 : sz / 4 = Z.of_nat nent) by (rewrite <- N; rewrite Z.mul_comm; apply Z.div_mul; lia).
  induction fuel as [|fuel IH]; intros s acc fat H; cbn [minifat_loop] in H; change secEndOfChain with ENDOFCHAIN in H; destruct (Z.eqb_spec s ENDOFCHAIN) as [->|NE]; try discriminate;
    try (injection H as <-; exists []; rewrite app_nil_r; split; auto; constructor).
  rewrite (sec_off_place _ _ _ P) in H. destruct (_ <=? _); [discriminate|]. destruct (sl_from _ _) as [sl| | |] eqn:E1; cbn [bind] in H; try discriminate.
  destruct (read_entries _ _ _) as [[a q]| | |] eqn:E2; cbn [bind] in H; try discriminate. pose proof (read_entries_len _ _ _ _ _ E2) as LA. destruct (one_sector _ _ _ _ _ _ _ _ _ Z N E1 E2) as (I & -> & ->).
  destruct (Z.leb_spec want (zlen (acc ++ words (block data sz s)))) as [W|W].
  - injection H as <-. exists (words (block data sz s)). split; [|reflexivity]. apply mt_last; auto. lia.
  - unfold inside in I. pose proof (place_nonneg sz s Z). destruct (Z.lt_ge_cases (zlen (zdrop (place sz s + sz) data)) 4) as [Q|Q]; [rewrite le32_short in H by exact Q; discriminate|]. rewrite le32_val in H by exact Q. cbn [bind] in H.
    rewrite zlen_zdrop in Q by lia. apply IH in H. destruct H as (m & M & ->). exists (words (block data sz s) ++ m). rewrite LA in M. split; [|rewrite app_assoc; reflexivity].
    apply mt_more; auto; try lia. rewrite D4. exact M.
Qed.

(** ** the directory *)
Lemma field_take : forall d n off k, 0 <= off -> 0 <= k -> off + k <= n -> field (ztake n d) off k = field d off k.
Proof. intros. unfold field. rewrite zdrop_ztake by lia. rewrite ztake_ztake by lia. reflexivity. Qed.
Lemma le_val_bound : forall l, bytes_ok l -> 0 <= le_val l < 256 ^ zlen l.
Proof.
  induction l as [|b l IH]; intros B; [rewrite zlen_nil; change (256 ^ 0) with 1; cbn [le_val]; lia|]. inversion B as [|? ? B1 B2]; subst. specialize (IH B2). cbn [le_val]. rewrite zlen_cons. rewrite Z.pow_add_r by (pose proof (zlen_nonneg _ l); lia). change (256 ^ 1) with 256. lia.
Qed.
Lemma field_bound : forall d off n, bytes_ok d -> 0 <= n -> 0 <= field d off n < 256 ^ n.
Proof.
  intros d off n B N. unfold field. assert (B2 : bytes_ok (ztake n (zdrop off d))) by (apply bytes_ok_ztake, bytes_ok_zdrop; exact B).
  pose proof (le_val_bound _ B2) as Q. assert (zlen (ztake n (zdrop off d)) <= n) by (unfold zlen, ztake; rewrite firstn_length; lia). pose proof (Z.pow_le_mono_r 256 (zlen (ztake n (zdrop off d))) n ltac:(lia) ltac:(lia)). lia.
Qed.
Lemma le_val_app : forall a b, le_val (a ++ b) = le_val a + 256 ^ zlen a * le_val b.
Proof.
  induction a as [|x a IH]; intros b; [cbn [app le_val]; rewrite zlen_nil; change (256 ^ 0) with 1; lia|]. cbn [app le_val]. rewrite IH, zlen_cons. rewrite Z.pow_add_r by (pose proof (zlen_nonneg _ a); lia). change (256 ^ 1) with 256. lia.
Qed.
Lemma field_low : forall d off, bytes_ok d -> 0 <= off -> off + 8 <= zlen d -> u32 (field d off 8) = field d off 4.
Proof.
  intros d off B O L. assert (E : field d off 8 = field d off 4 + 4294967296 * field d (off + 4) 4).
  { unfold field. rewrite <- (zdrop_zdrop _ 4 off) by lia. set (q := zdrop off d). assert (Q : 8 <= zlen q) by (unfold q; rewrite zlen_zdrop; lia).
    rewrite <- (ztake_zdrop _ 4 q) at 1. rewrite ztake_app_ge by (rewrite zlen_ztake; lia). rewrite le_val_app. rewrite !zlen_ztake by lia. reflexivity. }
  rewrite E. unfold u32. rewrite Z.mul_comm, Z.mod_add by lia. apply Z.mod_small. change 4294967296 with (256 ^ 4). apply field_bound; [exact B|lia].
Qed.
Definition is_entry (e : bytes) : Prop := zlen e = 128 /\ bytes_ok e /\ e_type e <> 0.
Lemma dirent_fields : forall major e, is_entry e ->
  let d := read_dirent major e in
  de_type d = e_type e /\ de_start d = e_start e /\ de_size d = field e 120 (if major =? 3 then 4 else 8) /\ u32 (de_size d) = field e 120 4 /\
  de_namelen d = s16 (field e 64 2) /\ de_name d = map (fun i => field e (2 * Z.of_nat i) 2) (seq 0 32).
Proof.
  intros major e (L & B & _). unfold read_dirent. rewrite L. change (128 <? 128) with false. cbv iota zeta. cbn [de_type de_start de_size de_namelen de_name]. rewrite !rd16_field, !rd32_field, !rd64_field by lia. rewrite P_cut.field_one by lia.
  assert (FL : u32 (field e 120 8) = field e 120 4) by (apply field_low; auto; lia). repeat split; auto.
  - destruct (major =? 3); auto.
  - destruct (major =? 3); [|exact FL]. rewrite FL. unfold u32. apply Z.mod_small. change 4294967296 with (256 ^ 4). apply field_bound; [exact B|lia].
  - apply map_ext_in. intros i Hi. apply in_seq in Hi. apply rd16_field; lia.
Qed.
Lemma rd_take : forall d, 128 <= zlen d -> forall major, read_dirent major (ztake 128 d) = read_dirent major d.
Proof.
  intros d L major. assert (LT : zlen (ztake 128 d) = 128) by (rewrite zlen_ztake; lia). unfold read_dirent. rewrite LT. destruct (Z.ltb_spec (zlen d) 128); [lia|]. change (128 <? 128) with false. cbv iota.
  rewrite !rd16_field, !rd32_field, !rd64_field by lia. rewrite !P_cut.field_one by lia. rewrite !field_take by lia. f_equal.
  apply map_ext_in. intros i Hi. apply in_seq in Hi. rewrite !rd16_field by lia. apply field_take; lia.
Qed.
Lemma entries_ok : forall n d, bytes_ok d -> Forall is_entry (entries n d).
Proof.
  induction n as [|n IH]; intros d B; cbn [entries]; [constructor|]. destruct (Z.ltb_spec (zlen d) 128); cbn [orb]; [constructor|]. destruct (Z.eqb_spec (field d 66 1) 0); [constructor|]. constructor; [|apply IH; apply bytes_ok_zdrop; exact B].
  split; [rewrite zlen_ztake; lia|]. split; [apply bytes_ok_ztake; exact B|]. unfold e_type. rewrite field_take by lia. assumption.
Qed.
Definition last_root (es : list bytes) (ms : Z * Z) : Z * Z :=
  match find (fun e => e_type e =? 5) (rev es) with Some e => (e_start e, field e 120 4) | None => ms end.
Lemma find_app : forall A (p : A -> bool) a b, find p (a ++ b) = match find p a with Some x => Some x | None => find p b end.
Proof. induction a as [|x a IH]; intros b; cbn [app find]; [reflexivity|]. destruct (p x); auto. Qed.
Lemma last_root_cons : forall e es ms, last_root (e :: es) ms = last_root es (if e_type e =? 5 then (e_start e, field e 120 4) else ms).
Proof. intros. unfold last_root. cbn [rev]. rewrite find_app. cbn [find]. destruct (find _ (rev es)); [reflexivity|]. destruct (e_type e =? 5); reflexivity. Qed.
Lemma build_says : forall n major d acc ms, bytes_ok d ->
  build_dirs n major d acc ms = (acc ++ map (read_dirent major) (entries n d), last_root (entries n d) ms).
Proof.
  induction n as [|n IH]; intros major d acc ms B; cbn [build_dirs entries].
  - cbn [map]. rewrite app_nil_r. reflexivity.
  - cbv zeta. destruct (Z.ltb_spec (zlen d) 128) as [L|L]; cbn [orb].
    + unfold read_dirent. destruct (Z.ltb_spec (zlen d) 128); [|lia]. cbn [de_type zero_dirent]. change (0 =? typeUnknown) with true. cbv iota. cbn [map]. rewrite app_nil_r. reflexivity.
    + assert (T : de_type (read_dirent major d) = field d 66 1). { unfold read_dirent. destruct (Z.ltb_spec (zlen d) 128); [lia|]. cbn [de_type]. rewrite P_cut.field_one by lia. reflexivity. }
      rewrite T. unfold typeUnknown. destruct (Z.eqb_spec (field d 66 1) 0) as [|NZ]; [cbn [map]; rewrite app_nil_r; reflexivity|].
      assert (IE : is_entry (ztake 128 d)). { split; [rewrite zlen_ztake; lia|]. split; [apply bytes_ok_ztake; exact B|]. unfold e_type. rewrite field_take by lia. exact NZ. }
      destruct (dirent_fields major _ IE) as (D1 & D2 & D3 & D4 & _). rewrite rd_take in D1, D2, D3, D4 by exact L.
      rewrite IH by (apply bytes_ok_zdrop; exact B). rewrite last_root_cons. cbn [map]. rewrite rd_take by exact L. rewrite <- app_assoc. cbn [app]. f_equal. f_equal. rewrite D2, D4, <- D1, T. reflexivity.
Qed.

(** ** load *)
Record tables (data : bytes) (d : document) : Prop := {
  tb_len : 512 <= zlen data;
  tb_size : sec_size d = sector_size data /\ (sector_size data = 512 \/ sector_size data = 4096);
  tb_shift : 2 ^ h_shift (d_header d) = sector_size data;
  tb_mini : mini_size d = 64;
  tb_cutoff : u64 (h_cutoff (d_header d)) = 4096;
  tb_fat : exists fats, fat_sectors data (sector_size data) fats /\ d_fat d = table data (sector_size data) fats;
  tb_minifat : mini_table data (sector_size data) (signed32 (field data 64 4)) (field data 60 4) 0 (d_minifat d);
  tb_dir : d_dir d = map (read_dirent (field data 26 2)) (directory_of data);
  tb_root : (d_msstart d, d_mssize d) = root_of data
}.
Lemma s32_signed : forall x, 0 <= x < 4294967296 -> s32 x = signed32 x.
Proof. intros. unfold s32, signed32, u32. cbv zeta. rewrite Z.mod_small by lia. reflexivity. Qed.
Lemma load_tables : forall fuel data sp d, bytes_ok data -> load fuel (mkSl data sp) = Ok d -> d_data d = mkSl data sp /\ tables data d.
Proof.
  intros fuel data sp d B H.
  assert (L : 512 <= zlen data). { destruct (Z.ltb_spec (zlen data) 512) as [S|]; [exfalso|lia]. unfold load in H. cbn [dat] in H. unfold read_header in H. destruct (Z.ltb_spec (zlen data) 512); [|lia]. discriminate H. }
  pose proof (load_inv _ _ _ H B) as LI. cbv zeta in LI. cbn [dat] in LI. destruct LI as (A1 & A2 & _ & _ & _ & _ & A3 & A4 & A5 & _ & _ & _ & A6 & A7).
  assert (HF : h_shift (read_header data) = field data 30 2 /\ h_major (read_header data) = field data 26 2 /\ h_firstdir (read_header data) = field data 48 4 /\ h_firstminifat (read_header data) = field data 60 4 /\
    h_numminifat (read_header data) = signed32 (field data 64 4) /\ h_firstdifat (read_header data) = field data 68 4 /\ h_numdifat (read_header data) = signed32 (field data 72 4) /\
    h_difat (read_header data) = map (fun i => field data (76 + 4 * Z.of_nat i) 4) (seq 0 109)).
  { unfold read_header. destruct (Z.ltb_spec (zlen data) 512); [lia|]. cbn [h_shift h_major h_firstdir h_firstminifat h_numminifat h_firstdifat h_numdifat h_difat]. rewrite !rd16_field, !rd32_field by lia. rewrite !s32_signed by (change 4294967296 with (256 ^ 4); apply field_bound; [exact B|lia]).
    repeat split; auto. apply map_ext_in. intros i Hi. apply in_seq in Hi. apply rd32_field; lia. }
  destruct HF as (F1 & F2 & F3 & F4 & F5 & F6 & F7 & F8). split; [exact A2|].
  set (sz := sector_size data). assert (SZ : 2 ^ h_shift (read_header data) = sz) by (unfold sz, sector_size; rewrite F1; reflexivity).
  assert (SZ2 : sz = 512 \/ sz = 4096) by (rewrite <- SZ; destruct A3 as [-> | ->]; [left|right]; reflexivity).
  assert (N4 : 4 * Z.of_nat (Z.to_nat (2 ^ (h_shift (read_header data) - 2))) = sz) by (rewrite <- SZ; destruct A3 as [-> | ->]; reflexivity).
  assert (SP : 0 < sz) by lia.
  constructor; fold sz; rewrite ?A1; auto.
  - unfold sec_size. rewrite A1. auto.
  - unfold mini_size. rewrite A1, A4. reflexivity.
  - rewrite A5. reflexivity.
  - unfold load in H. cbn [dat] in H. set (h := read_header data) in *. cbv zeta in H.
    repeat match type of H with (if ?b then Err _ else _) = _ => destruct b; [discriminate|] end. destruct (_ || _); [discriminate|].
    destruct (load_fat _ _ _ _ _) as [fat| | |] eqn:E1; cbn [bind] in H; try discriminate. match type of H with bind ?x _ = _ => destruct x as [fat2| | |] eqn:E2; cbn [bind] in H; try discriminate end.
    destruct (minifat_loop _ _ _ _ _ _ _) as [mf| | |]; cbn [bind] in H; try discriminate. destruct (build_dirs 4 _ _ [] (0, 0)) as [dir ms]. injection H as <-. cbn [d_fat].
    apply (load_fat_says _ _ _ _ _ SZ SP N4) in E1. rewrite F8 in E1. fold (header_fats data) in E1. destruct E1 as [-> I1]. rewrite F7, F6 in E2. cbn [app] in E2. unfold fat_sectors.
    destruct (0 <? signed32 (field data 72 4)).
    + apply (difat_loop_says _ _ _ _ _ SZ SP N4) in E2. destruct E2 as (fs & M & -> & I2). exists (header_fats data ++ fs). split; [split; [apply Forall_app; auto|]; exists fs; auto|]. unfold table. rewrite flat_map_app. reflexivity.
    + injection E2 as <-. exists (header_fats data). split; [split; [exact I1|]; exists []; rewrite app_nil_r; auto|reflexivity].
  - apply (minifat_says _ _ _ _ _ _ SZ SP N4) in A6. destruct A6 as (m & M & ->). cbn [app]. rewrite F4, F5 in M. exact M.
  - rewrite build_says in A7 by (apply bytes_ok_zdrop; exact B). rewrite (sec_off_place _ _ _ SZ), F2, F3 in A7. cbn [app] in A7. injection A7 as <- _. reflexivity.
  - rewrite build_says in A7 by (apply bytes_ok_zdrop; exact B). rewrite (sec_off_place _ _ _ SZ), F2, F3 in A7. injection A7 as _ <-. reflexivity.
Qed.

(** ** which stream *)
Lemma removelast_take : forall A (l : list A), firstn (List.length l - 1) l = removelast l.
Proof. intros A l. rewrite removelast_firstn_len. f_equal. lia. Qed.
Lemma substr_seq : forall (f : nat -> Z) n, 0 <= n <= 32 -> substr (map f (seq 0 32)) 0 n = Ok (map f (seq 0 (Z.to_nat n))).
Proof.
  intros f n H. set (k := Z.to_nat n). replace 32%nat with (k + (32 - k))%nat by lia. rewrite seq_app, map_app. unfold substr. rewrite zlen_app. assert (LK : zlen (map f (seq 0 k)) = n) by (rewrite zlen_map; unfold zlen; rewrite seq_length; lia). rewrite LK.
  pose proof (zlen_nonneg _ (map f (seq (0 + k) (32 - k)))). destruct (_ && _) eqn:E; [|lia]. f_equal. rewrite zdrop_0, Z.sub_0_r. rewrite ztake_app_le by lia. apply ztake_all. lia.
Qed.
Lemma named_says : forall major e s name, is_entry e -> dir_string (read_dirent major e) = Ok s -> str_eqb s name = e_named name e.
Proof.
  intros major e s name IE H. destruct (dirent_fields major e IE) as (_ & _ & _ & _ & D5 & D6). destruct IE as (L & B & _). unfold dir_string in H. rewrite D5, D6 in H. unfold e_named, e_units.
  pose proof (field_bound e 64 2 B ltac:(lia)) as FB. change (256 ^ 2) with 65536 in FB. set (n := field e 64 2) in *.
  assert (S16 : s16 n = if n <? 32768 then n else n - 65536) by (unfold s16, u16; cbv zeta; rewrite Z.mod_small by lia; reflexivity).
  assert (OD : (s16 n mod 2 =? 1) = Z.odd n). { rewrite S16. rewrite Zmod_odd. destruct (Z.ltb_spec n 32768); [destruct (Z.odd n); reflexivity|]. rewrite Z.odd_sub. change (Z.odd 65536) with false. rewrite xorb_false_r. destruct (Z.odd n); reflexivity. }
  rewrite OD in H. destruct (Z.odd n) eqn:EO; cbn [orb] in *; [injection H as <-; reflexivity|]. rewrite S16 in H.
  destruct (Z.ltb_spec n 32768) as [SM|BG]; cbn [andb] in *.
  - rewrite andb_true_r. destruct (Z.ltb_spec 64 n) as [|LE]; [injection H as <-; reflexivity|]. rewrite Z.quot_div_nonneg in H by lia.
    assert (N2 : 0 <= n / 2 <= 32) by (split; [apply Z.div_pos; lia|apply Z.div_le_upper_bound; lia]). rewrite substr_seq in H by exact N2. cbn [bind] in H.
    set (r := utf16_decode _) in *. unfold substr in H. destruct (_ && _) eqn:G2 in H; cbn [bind] in H; [|discriminate]. injection H as <-. rewrite zdrop_0, Z.sub_0_r. unfold ztake. replace (Z.to_nat (zlen r - 1)) with (List.length r - 1)%nat by (unfold zlen; lia). rewrite removelast_take. reflexivity.
  - exfalso. destruct (Z.ltb_spec 64 (n - 65536)); [lia|]. unfold substr at 1 in H. assert (Q : Z.quot (n - 65536) 2 < 0).
    { destruct (Z.eq_dec n 65535) as [->|]; [discriminate EO|]. replace (n - 65536) with (- (65536 - n)) by lia. rewrite Z.quot_opp_l by lia. rewrite Z.quot_div_nonneg by lia. assert (1 <= (65536 - n) / 2) by (apply Z.div_le_lower_bound; lia). lia. }
    destruct (_ && _) eqn:G in H; cbn [bind] in H; [lia|discriminate].
Qed.
Lemma open_says : forall fuel d data name es r, u64 (h_cutoff (d_header d)) = 4096 -> Forall is_entry es ->
  open_loop fuel d name (map (read_dirent (field data 26 2)) es) = Ok r ->
  exists e, find (fun e => e_named name e && (e_type e =? 2)) es = Some e /\ is_entry e /\
    (if e_size data e <? 4096 then get_mini_stream_reader fuel d (e_start e) (e_size data e) else get_stream_reader fuel d (e_start e) (e_size data e)) = Ok r.
Proof.
  intros fuel d data name es r C F. induction F as [|e es IE F IH]; intros H; cbn [map open_loop find] in *; [discriminate|].
  destruct (dir_string _) as [s| | |] eqn:E; cbn [bind] in H; try discriminate. rewrite (named_says _ _ _ name IE E) in H. destruct (dirent_fields (field data 26 2) e IE) as (D1 & D2 & D3 & _). rewrite D1, C, D2, D3 in H. fold (e_size data e) in H. change typeStream with 2 in H.
  destruct (e_named name e && (e_type e =? 2)); [|auto]. exists e. split; [reflexivity|]. split; [exact IE|]. destruct (Z.ltb_spec (e_size data e) 4096); [exact H|]. destruct (Z.eqb_spec (e_size data e) 0); [lia|]. exact H.
Qed.

(** ** the two kinds of streams *)
Lemma range_block : forall s sz k sl, 0 < sz -> sl_range s (place sz k) (place sz k + sz) = Ok sl ->
  inside (sl_full s) sz k /\ dat sl = block (sl_full s) sz k /\ zlen (dat sl) = sz /\ sl_full sl = zdrop (place sz k) (sl_full s).
Proof.
  intros s sz k sl Z H. destruct (sl_full_range _ _ _ _ H) as (A & _ & I & L). unfold sl_range in H. destruct (_ && _ && _); [|discriminate]. injection H as <-. cbn [dat] in *. replace (place sz k + sz - place sz k) with sz in * by lia. repeat split; auto.
Qed.
Lemma idx_at : forall A (l : list A) i x, idx l i = Ok x -> 0 <= i /\ nth_error l (Z.to_nat i) = Some x.
Proof. intros A l i x H. unfold idx in H. destruct (Z.leb_spec 0 i); [|discriminate]. destruct (nth_error l (Z.to_nat i)) as [y|]; [|discriminate]. injection H as <-. auto. Qed.
Lemma set_at : forall A (done : list A) z m x sd', set_idx (done ++ repeat z m) (zlen done) x = Ok sd' -> exists m', m = S m' /\ sd' = (done ++ [x]) ++ repeat z m'.
Proof.
  intros A done z m x sd' H. destruct m as [|m].
  - exfalso. unfold set_idx in H. cbn [repeat] in H. rewrite app_nil_r in H. destruct (Z.ltb_spec (zlen done) (zlen done)); [lia|]. rewrite andb_false_r in H. discriminate.
  - cbn [repeat] in H. rewrite set_idx_at in H by auto. injection H as <-. exists m. rewrite <- app_assoc. auto.
Qed.
Lemma stream_says : forall d sz, 2 ^ h_shift (d_header d) = sz -> 0 < sz -> Forall (Z.le 0) (d_fat d) ->
  forall fuel sid size done m sd', 0 <= sid -> 0 < size ->
  stream_loop fuel d sid size (zlen done) (done ++ repeat [] m) = Ok (0, sd') ->
  exists l m', walk (d_fat d) (sid :: l) /\ zlen l * sz < size /\ size <= (zlen l + 1) * sz /\
    Forall (fun s => ~ end_mark s /\ place sz s <= zlen (dat (d_data d)) /\ inside (sl_full (d_data d)) sz s) (sid :: l) /\
    sd' = done ++ pieces size (map (block (sl_full (d_data d)) sz) (sid :: l)) ++ repeat [] m'.
Proof.
  intros d sz P Z NN. induction fuel as [|fuel IH]; intros sid size done m sd' S0 SP H; cbn [stream_loop] in H.
  { destruct (is_end sid); [injection H as Q _; lia|discriminate]. }
  destruct (is_end sid) eqn:IE; [injection H as Q _; lia|]. assert (NE : ~ end_mark sid) by (intros Q; apply end_mark_is in Q; congruence).
  rewrite (sec_off_place _ _ _ P) in H. unfold sec_size in H. rewrite P in H. unfold sl_len at 1 in H. destruct (Z.ltb_spec (zlen (dat (d_data d))) (place sz sid)) as [|PL]; [discriminate|].
  destruct (sl_range _ _ _) as [sl| | |] eqn:E; cbn [bind] in H; try discriminate. destruct (range_block _ _ _ _ Z E) as (I & DB & LB & _). unfold sl_len in H. rewrite LB in H.
  assert (ONE : Forall (fun s => ~ end_mark s /\ place sz s <= zlen (dat (d_data d)) /\ inside (sl_full (d_data d)) sz s) [sid]) by (repeat constructor; auto).
  destruct (Z.ltb_spec size sz) as [LT|GE].
  - destruct (set_idx _ _ _) as [sd1| | |] eqn:E2; cbn [bind] in H; try discriminate. change (0 =? 0) with true in H. cbv iota in H. injection H as <-. apply set_at in E2. destruct E2 as (m' & _ & ->).
    exists [], m'. rewrite zlen_nil. repeat split; auto; try lia. cbn [map pieces]. rewrite DB, <- app_assoc. reflexivity.
  - destruct (set_idx _ _ _) as [sd1| | |] eqn:E2; cbn [bind] in H; try discriminate. apply set_at in E2. destruct E2 as (m1 & _ & ->). destruct (Z.eqb_spec (size - sz) 0) as [Q0|Q0].
    + injection H as _ <-. exists [], m1. rewrite zlen_nil. repeat split; auto; try lia. cbn [map pieces]. rewrite <- DB. rewrite ztake_all by lia. rewrite <- app_assoc. reflexivity.
    + destruct (idx (d_fat d) sid) as [t| | |] eqn:E3; cbn [bind] in H; try discriminate. destruct (idx_at _ _ _ _ E3) as [_ NT].
      replace (zlen done + 1) with (zlen (done ++ [dat sl])) in H by (rewrite zlen_app, zlen_cons, zlen_nil; lia).
      assert (T0 : 0 <= t) by (rewrite Forall_forall in NN; apply NN; eapply nth_error_In; exact NT).
      apply IH in H; [|exact T0|lia]. destruct H as (l & m' & W & B1 & B2 & F & ->). exists (t :: l), m'. rewrite zlen_cons. split; [split; auto|]. split; [nia|]. split; [nia|]. split.
      * constructor; auto.
      * rewrite <- app_assoc. cbn [map pieces app]. rewrite <- DB, LB. rewrite (ztake_all _ (dat sl)) by lia. replace (Z.max 0 (size - sz)) with (size - sz) by lia. reflexivity.
Qed.
Lemma root_says : forall d sz, 2 ^ h_shift (d_header d) = sz -> 0 < sz ->
  forall fuel sid size done m fsd, root_loop fuel d sid size (zlen done) (done ++ repeat nil_slice m) = Ok fsd ->
  exists roots rs m', chain (d_fat d) sid roots /\ Forall (inside (sl_full (d_data d)) sz) roots /\ (List.length roots + m' = m)%nat /\
    fsd = done ++ rs ++ repeat nil_slice m' /\ map sl_full rs = map (fun s => zdrop (place sz s) (sl_full (d_data d))) roots.
Proof.
  intros d sz P Z. induction fuel as [|fuel IH]; intros sid size done m fsd H; cbn [root_loop] in H.
  { destruct (is_end sid) eqn:IE; [|discriminate]. injection H as <-. exists [], [], m. apply end_mark_is in IE. repeat split; auto. constructor. exact IE. }
  destruct (is_end sid) eqn:IE. { injection H as <-. exists [], [], m. apply end_mark_is in IE. repeat split; auto. constructor. exact IE. }
  assert (NE : ~ end_mark sid) by (intros Q; apply end_mark_is in Q; congruence).
  rewrite (sec_off_place _ _ _ P) in H. unfold sec_size in H. rewrite P in H.
  destruct (sl_range _ _ _) as [sl| | |] eqn:E; cbn [bind] in H; try discriminate. destruct (range_block _ _ _ _ Z E) as (I & DB & LB & FB).
  assert (T : exists sl' fs', (if size <? sl_len sl then (sl' <- sl_to sl size ;; Ok (sl', 0)) else Ok (sl, size - sl_len sl)) = Ok (sl', fs') /\ sl_full sl' = sl_full sl).
  { destruct (if size <? sl_len sl then _ else _) as [[sl' fs']| | |] eqn:Q in H |- *; cbn [bind] in H; try discriminate. exists sl', fs'. split; [reflexivity|]. destruct (size <? sl_len sl).
    - destruct (sl_to sl size) as [q| | |] eqn:Q2; cbn [bind] in Q; try discriminate. injection Q as <- _. unfold sl_to in Q2. apply sl_full_range in Q2. destruct Q2 as (Q2 & _). rewrite zdrop_0 in Q2. exact Q2.
    - injection Q as <- _. reflexivity. }
  destruct T as (sl' & fs' & T1 & T2). rewrite T1 in H. cbn [bind] in H. destruct (set_idx _ _ _) as [sd1| | |] eqn:E2; cbn [bind] in H; try discriminate. apply set_at in E2. destruct E2 as (m1 & -> & ->).
  destruct (idx (d_fat d) sid) as [t| | |] eqn:E3; cbn [bind] in H; try discriminate. destruct (idx_at _ _ _ _ E3) as [S0 NT].
  replace (zlen done + 1) with (zlen (done ++ [sl'])) in H by (rewrite zlen_app, zlen_cons, zlen_nil; lia). apply IH in H. destruct H as (roots & rs & m' & C & F & LM & -> & MR).
  exists (sid :: roots), (sl' :: rs), m'. repeat split; auto.
  - eapply ch_step; eauto.
  - cbn [List.length]. lia.
  - rewrite <- app_assoc. reflexivity.
  - cbn [map]. rewrite T2, FB, MR. reflexivity.
Qed.
Lemma block_len : forall mem sz k, 0 < sz -> inside mem sz k -> zlen (block mem sz k) = sz.
Proof. intros mem sz k Z I. unfold block, inside in *. pose proof (place_nonneg sz k Z). rewrite zlen_ztake; auto. rewrite zlen_zdrop by lia. lia. Qed.
Lemma blocks_len : forall mem sz l, 0 < sz -> Forall (inside mem sz) l -> Forall (fun s : bytes => zlen s = sz) (map (block mem sz) l).
Proof. intros mem sz l Z F. apply Forall_forall. intros x Hx. apply in_map_iff in Hx as (s & <- & Hs). rewrite Forall_forall in F. apply block_len; auto. Qed.
Lemma mini_says : forall d sz roots rs k, 2 ^ h_shift (d_header d) = sz -> mini_size d = 64 -> 64 <= sz -> sz mod 64 = 0 ->
  Forall (inside (sl_full (d_data d)) sz) roots -> map sl_full rs = map (fun s => zdrop (place sz s) (sl_full (d_data d))) roots ->
  let ms := concat (map (block (sl_full (d_data d)) sz) roots) in
  forall fuel sid size done m sd', 0 <= size ->
  mini_loop fuel d (rs ++ repeat nil_slice k) sid size (zlen done) (done ++ repeat [] m) = Ok sd' ->
  exists l m', chain (d_minifat d) sid l /\ Forall (fun i => (i + 1) * 64 <= zlen ms) l /\ (List.length l + m' = m)%nat /\
    sd' = done ++ pieces size (map (mini_sector ms) l) ++ repeat [] m'.
Proof.
  intros d sz roots rs k P M64 Z64 ZM HR MR ms. assert (HRL : Forall (fun s : bytes => zlen s = sz) (map (block (sl_full (d_data d)) sz) roots)) by (apply blocks_len; auto; lia).
  assert (LMS : zlen ms = zlen roots * sz) by (unfold ms; rewrite (zlen_concat _ _ HRL), zlen_map; reflexivity).
  induction fuel as [|fuel IH]; intros sid size done m sd' S0 H; cbn [mini_loop] in H.
  { destruct (is_end sid) eqn:IE; [|discriminate]. injection H as <-. exists [], m. apply end_mark_is in IE. repeat split; auto. constructor. exact IE. }
  destruct (is_end sid) eqn:IE. { injection H as <-. exists [], m. apply end_mark_is in IE. repeat split; auto. constructor. exact IE. }
  assert (NE : ~ end_mark sid) by (intros Q; apply end_mark_is in Q; congruence). unfold sec_size in H. rewrite M64, P in H.
  set (so := sid * 64 / sz) in *. set (si := (sid * 64) mod sz) in *.
  destruct (idx (rs ++ repeat nil_slice k) so) as [dt| | |] eqn:E0; cbn [bind] in H; try discriminate. destruct (idx_at _ _ _ _ E0) as [SO NT].
  destruct (sl_range dt _ _) as [sl| | |] eqn:E; cbn [bind] in H; try discriminate. destruct (sl_full_range _ _ _ _ E) as (_ & SIR & SIL & LB).
  assert (DB : dat sl = ztake 64 (zdrop si (sl_full dt))). { unfold sl_range in E. destruct (_ && _ && _) in E; [|discriminate]. injection E as <-. cbn [dat]. do 2 f_equal. lia. }
  replace (si + 64 - si) with 64 in LB by lia.
  assert (RT : exists rt, nth_error roots (Z.to_nat so) = Some rt /\ sl_full dt = zdrop (place sz rt) (sl_full (d_data d))).
  { destruct (Nat.lt_ge_cases (Z.to_nat so) (List.length rs)) as [LT|GE].
    - rewrite nth_error_app1 in NT by exact LT. pose proof (map_nth_error sl_full _ _ NT) as Q. rewrite MR in Q. rewrite nth_error_map in Q. destruct (nth_error roots (Z.to_nat so)) as [rt|]; [|discriminate]. cbn [option_map] in Q. injection Q as Q. eauto.
    - exfalso. rewrite nth_error_app2 in NT by exact GE. apply nth_error_In, repeat_spec in NT. subst dt. unfold sl_full, nil_slice in SIL. cbn [dat spare app] in SIL. rewrite zlen_nil in SIL. lia. }
  destruct RT as (rt & ER & FD). assert (IR : inside (sl_full (d_data d)) sz rt) by (rewrite Forall_forall in HR; apply HR; eapply nth_error_In; exact ER).
  pose proof (Z.div_mod (sid * 64) sz ltac:(lia)) as DM. fold so in DM. fold si in DM. pose proof (Z.mod_pos_bound (sid * 64) sz ltac:(lia)) as MB. fold si in MB.
  assert (SI : si + 64 <= sz).
  { assert (D1 : (si mod 64) = 0).
    { unfold si. pose proof (Z.div_mod sz 64 ltac:(lia)) as DZ. rewrite ZM in DZ. replace sz with (64 * (sz / 64)) by lia. rewrite (Z.mul_comm sid 64). rewrite Z.mul_mod_distr_l by lia. rewrite Z.mul_comm. apply Z.mod_mul. lia. }
    pose proof (Z.div_mod si 64 ltac:(lia)). pose proof (Z.div_mod sz 64 ltac:(lia)). nia. }
  assert (SOL : so < zlen roots) by (assert (Z.to_nat so < List.length roots)%nat by (apply nth_error_Some; congruence); unfold zlen; lia).
  pose proof (place_nonneg sz rt ltac:(lia)) as PN.
  assert (DM2 : dat sl = mini_sector ms sid).
  { rewrite DB, FD. unfold mini_sector, ms. replace (sid * 64) with (Z.of_nat (Z.to_nat so) * sz + si) by nia. rewrite (concat_fixed _ sz ltac:(lia) HRL (Z.to_nat so) (block (sl_full (d_data d)) sz rt)); [|apply map_nth_error; exact ER|lia|lia].
    unfold block. rewrite zdrop_ztake by lia. rewrite ztake_ztake by lia. reflexivity. }
  assert (ST : (if size <? sl_len sl then (ztake size (dat sl), 0) else (dat sl, size - sl_len sl)) = (ztake size (dat sl), Z.max 0 (size - 64))).
  { unfold sl_len. rewrite LB. destruct (Z.ltb_spec size 64); [f_equal; lia|]. rewrite ztake_all by lia. f_equal. lia. }
  rewrite ST in H. destruct (set_idx _ _ _) as [sd1| | |] eqn:E2; cbn [bind] in H; try discriminate. apply set_at in E2. destruct E2 as (m1 & -> & ->).
  destruct (idx (d_minifat d) sid) as [t| | |] eqn:E3; cbn [bind] in H; try discriminate. destruct (idx_at _ _ _ _ E3) as [SP NS].
  replace (zlen done + 1) with (zlen (done ++ [ztake size (dat sl)])) in H by (rewrite zlen_app, zlen_cons, zlen_nil; lia). apply IH in H; [|lia]. destruct H as (l & m' & C & F & LM & ->).
  exists (sid :: l), m'. split; [eapply ch_step; eauto|]. split; [constructor; auto; rewrite LMS; nia|]. split; [cbn [List.length]; lia|].
  rewrite <- app_assoc. cbn [map pieces app]. rewrite <- DM2, LB. reflexivity.
Qed.

(** ** reading it *)
(** slices behind the first empty one do not matter *)
Lemma read_pad : forall ps k s n, sr_data s = ps ++ repeat [] (S k) -> 0 <= sr_index s <= zlen ps ->
  let s1 := mkSR (sr_csize s) (ps ++ [[]]) (sr_index s) (sr_offset s) in
  match sr_read s n, sr_read s1 n with
  | Ok (b, e, s'), Ok (b1, e1, s1') => b = b1 /\ e = e1 /\ (e = None -> s1' = mkSR (sr_csize s') (ps ++ [[]]) (sr_index s') (sr_offset s') /\ sr_data s' = ps ++ repeat [] (S k) /\ 0 <= sr_index s' <= zlen ps)
  | r, r1 => r = Panic /\ r1 = Panic
  end.
Proof.
  intros ps k [cs data i o] n D I s1. cbn [sr_data sr_index sr_csize sr_offset] in *. subst data s1. unfold sr_read. cbn [sr_data sr_index sr_csize sr_offset]. rewrite !zlen_app. change (zlen [[]]) with 1. assert (0 < zlen (repeat (@nil Z) (S k))) by (unfold zlen; rewrite repeat_length; lia).
  destruct (Z.leb_spec (zlen ps + zlen (repeat (@nil Z) (S k))) i); [lia|]. destruct (Z.leb_spec (zlen ps + 1) i); [lia|].
  assert (X : exists cur, idx (ps ++ repeat [] (S k)) i = Ok cur /\ idx (ps ++ [[]]) i = Ok cur /\ (i = zlen ps -> cur = [])).
  { destruct (Z.eq_dec i (zlen ps)) as [->|NE].
    - exists []. cbn [repeat]. rewrite !idx_app_exact by reflexivity. auto.
    - destruct (nth_error ps (Z.to_nat i)) as [c|] eqn:E; [|apply nth_error_None in E; unfold zlen in *; lia]. exists c. unfold idx. destruct (Z.leb_spec 0 i); [|lia].
      assert (Z.to_nat i < List.length ps)%nat by (unfold zlen in *; lia). rewrite !nth_error_app1 by assumption. rewrite E. repeat split; auto. intros ->. lia. }
  destruct X as (cur & -> & -> & XE). cbn [bind]. destruct ((0 <=? o) && (o <=? zlen cur)) eqn:B; [|auto]. set (got := ztake n (zdrop o cur)). destruct (Z.ltb_spec 0 (zlen got)) as [G|G].
  - assert (IN : i <> zlen ps). { intros Q. apply XE in Q. subst cur. unfold got, ztake, zdrop in G. rewrite skipn_nil, firstn_nil in G. rewrite zlen_nil in G. lia. }
    destruct (_ =? _); cbn [sr_csize sr_data sr_index sr_offset]; repeat split; auto; lia.
  - repeat split; auto. all: discriminate.
Qed.
Lemma read_all_pad : forall ps k sizes fuel s acc, sr_data s = ps ++ repeat [] (S k) -> 0 <= sr_index s <= zlen ps ->
  sr_read_all fuel sizes s acc = sr_read_all fuel sizes (mkSR (sr_csize s) (ps ++ [[]]) (sr_index s) (sr_offset s)) acc.
Proof.
  intros ps k sizes. induction fuel as [|fuel IH]; intros s acc D I; [reflexivity|]. cbn [sr_read_all]. pose proof (read_pad ps k s (sizes fuel) D I) as R. cbn zeta in R.
  destruct (sr_read s (sizes fuel)) as [[[b e] s']| | |]; destruct (sr_read (mkSR _ _ _ _) (sizes fuel)) as [[[b1 e1] s1']| | |]; cbn [bind]; try (destruct R; congruence).
  destruct R as (<- & <- & R). destruct e as [g|]; [reflexivity|]. destruct (R eq_refl) as (-> & D' & I'). apply IH; assumption.
Qed.
Lemma read_padded : forall ps k sizes, Forall (fun s : bytes => s <> []) ps -> (forall i, 0 < sizes i) ->
  sr_read_all (S (List.length (concat (ps ++ repeat [] k)))) sizes (new_sreader (ps ++ repeat [] k)) [] = Ok (concat ps).
Proof.
  intros ps k sizes F S. assert (C0 : forall k, concat (ps ++ repeat [] k) = concat ps) by (intros q; rewrite concat_app, concat_empties, app_nil_r; reflexivity). rewrite C0.
  assert (FU : forall q, Datatypes.S (List.length (concat ps)) = Z.to_nat (zlen (concat (ps ++ repeat [] q)) + 1)) by (intros q; rewrite C0; unfold zlen; lia).
  destruct k as [|k].
  - destruct ps as [|p ps]; [reflexivity|]. rewrite (FU 0%nat). rewrite C34_read_all_new; [rewrite C0; reflexivity| |exact S]. apply good_pieces; [exact F|lia|discriminate].
  - rewrite (read_all_pad ps k) by (cbn [new_sreader sr_data sr_index]; auto; pose proof (zlen_nonneg _ ps); lia). cbn [new_sreader sr_csize sr_index sr_offset]. fold (new_sreader (ps ++ [[]])). change [[]] with (repeat (@nil Z) 1).
    rewrite (FU 1%nat). rewrite C34_read_all_new; [rewrite C0; reflexivity| |exact S]. apply good_pieces; [exact F|lia|]. destruct ps; discriminate.
Qed.
Lemma pieces_zero : forall l size, size <= 0 -> pieces size l = repeat [] (List.length l).
Proof. induction l as [|s l IH]; intros size H; cbn [pieces List.length repeat]; [reflexivity|]. rewrite ztake_neg by lia. rewrite IH; [reflexivity|]. pose proof (zlen_nonneg _ s). lia. Qed.
Lemma pieces_split : forall l size, Forall (fun s : bytes => s <> []) l -> exists ps k, pieces size l = ps ++ repeat [] k /\ Forall (fun s : bytes => s <> []) ps.
Proof.
  induction l as [|s l IH]; intros size F; [exists [], 0%nat; auto|]. inversion F as [|? ? F1 F2]; subst. destruct (Z.le_gt_cases size 0) as [L|G].
  - exists [], (List.length (s :: l)). split; [apply pieces_zero; exact L|constructor].
  - destruct (IH (Z.max 0 (size - zlen s)) F2) as (ps & k & E & P). exists (ztake size s :: ps), k. cbn [pieces]. rewrite E. split; [reflexivity|]. constructor; [|exact P]. destruct s as [|b s]; [congruence|]. unfold ztake. destruct (Z.to_nat size) eqn:Q; [lia|]. discriminate.
Qed.

(** ** C106 *)
Lemma words_nonneg : forall n l, (List.length l <= n)%nat -> bytes_ok l -> Forall (Z.le 0) (words l).
Proof.
  induction n as [|n IH]; intros l L B.
  - destruct l; [constructor|cbn [List.length] in L; lia].
  - destruct l as [|a [|b [|c [|d r]]]]; try constructor.
    + apply le_val_nonneg. apply (bytes_ok_ztake _ 4) in B. exact B.
    + apply IH; [cbn [List.length] in L; lia|]. apply (bytes_ok_zdrop _ 4) in B. exact B.
Qed.
Lemma table_nonneg : forall data sz l, bytes_ok data -> Forall (Z.le 0) (table data sz l).
Proof. intros data sz l B. unfold table. apply Forall_flat_map. apply Forall_forall. intros s _. eapply words_nonneg; [apply Nat.le_refl|]. apply bytes_ok_ztake, bytes_ok_zdrop, B. Qed.
Lemma mini_nonempty : forall ms l, Forall (fun i => 0 <= i) l -> Forall (fun i => (i + 1) * 64 <= zlen ms) l -> Forall (fun s : bytes => s <> []) (map (mini_sector ms) l).
Proof.
  intros ms l A B. apply Forall_forall. intros x Hx. apply in_map_iff in Hx as (i & <- & Hi). rewrite Forall_forall in A, B. specialize (A i Hi). specialize (B i Hi). cbn beta in B. intros Q. apply (f_equal zlen) in Q. unfold mini_sector in Q. rewrite zlen_ztake in Q; [rewrite zlen_nil in Q; lia|]. rewrite zlen_zdrop by lia. lia.
Qed.
Lemma blocks_nonempty : forall mem sz l, 0 < sz -> Forall (inside mem sz) l -> Forall (fun s : bytes => s <> []) (map (block mem sz) l).
Proof. intros mem sz l Z F. eapply Forall_impl; [|apply blocks_len; [exact Z|exact F]]. cbn beta. intros a L ->. rewrite zlen_nil in L. lia. Qed.
Lemma root_nonneg : forall data, bytes_ok data -> 0 <= snd (root_of data).
Proof.
  intros data B. unfold root_of. destruct (find _ _) as [q|] eqn:Q; cbn [snd]; [|lia]. apply find_some in Q. destruct Q as [Q _]. apply in_rev in Q.
  pose proof (entries_ok 4 _ (bytes_ok_zdrop _ (place (sector_size data) (field data 48 4)) B)) as EO. rewrite Forall_forall in EO. destruct (EO q Q) as (_ & BQ & _). apply field_bound; [exact BQ|lia].
Qed.
Lemma open_content : forall fuel data sp d name r, bytes_ok data -> load fuel (mkSl data sp) = Ok d -> doc_open fuel d name = Ok r ->
  exists ps k content, r = new_sreader (ps ++ repeat [] k) /\ Forall (fun s : bytes => s <> []) ps /\ concat ps = content /\ stream_content data (data ++ sp) name content.
Proof.
  intros fuel data sp d name r B L O. destruct (load_tables _ _ _ _ B L) as (DD & []). destruct tb_fat0 as (fats & FS & FT). destruct tb_size0 as [SZ1 SZ2]. unfold doc_open in O. rewrite tb_dir0 in O.
  apply open_says in O; [|exact tb_cutoff0|apply entries_ok, bytes_ok_zdrop, B]. destruct O as (e & FE & (LE & BE & TE) & O). set (sz := sector_size data) in *.
  assert (SP : 0 < sz) by lia. assert (MEM : sl_full (d_data d) = data ++ sp) by (rewrite DD; reflexivity). assert (DAT : dat (d_data d) = data) by (rewrite DD; reflexivity).
  assert (SZE : 0 <= e_size data e) by (unfold e_size; apply field_bound; [exact BE|destruct (_ =? _); lia]). assert (STE : 0 <= e_start e) by (unfold e_start; apply field_bound; [exact BE|lia]).
  unfold stream_content. fold sz. destruct (Z.ltb_spec (e_size data e) 4096) as [SM|BG].
  - unfold get_mini_stream_reader in O. rewrite tb_mini0, SZ1 in O. destruct (root_loop _ _ _ _ _ _) as [fsd| | |] eqn:E1; cbn [bind] in O; try discriminate. destruct (mini_loop _ _ _ _ _ _ _) as [sd| | |] eqn:E2; cbn [bind] in O; try discriminate. injection O as <-.
    apply (root_says d sz tb_shift0 SP fuel _ _ []) in E1. destruct E1 as (roots & rs & m' & C1 & F1 & LM & -> & MR). cbn [app] in E2.
    apply (mini_says d sz roots rs m' tb_shift0 tb_mini0 ltac:(lia) ltac:(destruct SZ2 as [-> | ->]; reflexivity) F1 MR fuel _ _ []) in E2; [|exact SZE]. destruct E2 as (l & m2 & C2 & F2 & LM2 & ->). cbn [app]. rewrite MEM in *.
    set (ms := concat (map (block (data ++ sp) sz) roots)) in *. assert (NN : Forall (fun i => 0 <= i) l) by (apply Forall_forall; eapply chain_nonneg; exact C2).
    destruct (pieces_split (map (mini_sector ms) l) (e_size data e) (mini_nonempty _ _ NN F2)) as (ps & k & EP & FP). exists ps, (k + m2)%nat, (ztake (e_size data e) (concat (map (mini_sector ms) l))).
    split; [rewrite EP, <- app_assoc, repeat_app; reflexivity|]. split; [exact FP|]. split; [rewrite <- pieces_concat by exact SZE; rewrite EP, concat_app, concat_empties, app_nil_r; reflexivity|].
    exists fats, (d_minifat d), e. split; [exact FS|]. split; [exact tb_minifat0|]. split; [exact FE|]. cbv zeta. destruct (Z.ltb_spec (e_size data e) 4096); [|lia]. rewrite <- tb_root0. cbn [fst snd]. rewrite <- FT.
    exists roots, l. split; [exact C1|]. split; [exact F1|]. assert (RS0 : 0 <= d_mssize d) by (change (0 <= snd (d_msstart d, d_mssize d)); rewrite tb_root0; apply root_nonneg; exact B).
    split; [pose proof (Z.div_pos (d_mssize d) sz RS0 SP); unfold zlen; lia|]. split; [exact C2|]. split; [exact F2|]. split; [|reflexivity]. pose proof (Z.div_pos (e_size data e) 64 SZE ltac:(lia)). unfold zlen. lia.
  - unfold get_stream_reader in O. rewrite SZ1 in O. destruct (stream_loop _ _ _ _ _ _) as [[rest sd]| | |] eqn:E1; cbn [bind] in O; try discriminate. destruct (Z.eqb_spec rest 0) as [->|]; [|discriminate]. cbn [negb] in O. injection O as <-.
    apply (stream_says d sz tb_shift0 SP ltac:(rewrite FT; apply table_nonneg; exact B) fuel _ _ []) in E1; [|exact STE|lia]. destruct E1 as (l & m' & W & B1 & B2 & F & ->). cbn [app]. rewrite MEM, DAT in F. rewrite MEM.
    assert (IN : Forall (inside (data ++ sp) sz) (e_start e :: l)) by (eapply Forall_impl; [|exact F]; cbn beta; tauto).
    exists (pieces (e_size data e) (map (block (data ++ sp) sz) (e_start e :: l))), m', (ztake (e_size data e) (concat (map (block (data ++ sp) sz) (e_start e :: l)))).
    split; [reflexivity|]. split. { eapply pieces_nonempty; [exact SP|apply blocks_len; auto|]. rewrite map_length. cbn [List.length]. unfold zlen in B1. rewrite Nat2Z.inj_succ. unfold Z.succ. rewrite Z.add_simpl_r. exact B1. }
    split; [apply pieces_concat; exact SZE|]. exists fats, (d_minifat d), e. split; [exact FS|]. split; [exact tb_minifat0|]. split; [exact FE|]. cbv zeta. destruct (Z.ltb_spec (e_size data e) 4096); [lia|]. rewrite <- FT.
    exists l. split; [exact W|]. split; [|split; [exact F|reflexivity]]. rewrite zlen_cons. unfold sectors_for. apply Z.div_unique with (r := e_size data e - zlen l * sz - 1); nia.
Qed.
(** Open of a stream of any file that is taken for a compound file: if it succeeds, reading the
    stream to its end gives the bytes that the tables of the file lead to, and nothing else. *)
Theorem C106_stream : forall fuel data sp d name r sizes, bytes_ok data -> (forall i, 0 < sizes i) ->
  load fuel (mkSl data sp) = Ok d -> doc_open fuel d name = Ok r ->
  exists content, stream_content data (data ++ sp) name content /\
    sr_read_all (S (List.length (concat (sr_data r)))) sizes r [] = Ok content.
Proof.
  intros fuel data sp d name r sizes B S L O. destruct (open_content _ _ _ _ _ _ B L O) as (ps & k & content & -> & F & C & P). exists content. split; [exact P|]. cbn [new_sreader sr_data]. fold (new_sreader (ps ++ repeat [] k)). rewrite read_padded by assumption. rewrite C. reflexivity.
Qed.

(** The tables of a file lead to one content only, so that C106_stream says what is read. *)
Lemma more_fats_fun : forall data sz s f1, more_fats data sz s f1 -> forall f2, more_fats data sz s f2 -> f1 = f2.
Proof.
  intros data sz s f1 H. induction H as [|s es t fs NE I W M IH]; intros f2 H2; inversion H2 as [|? es2 t2 fs2 NE2 I2 W2 M2]; subst; try congruence. rewrite W in W2. apply app_inj_tail in W2. destruct W2 as [<- <-]. rewrite (IH _ M2). reflexivity.
Qed.
Lemma mini_table_fun : forall data sz want s n m1, mini_table data sz want s n m1 -> forall m2, mini_table data sz want s n m2 -> m1 = m2.
Proof.
  intros data sz want s n m1 H. induction H as [n|s n NE I L|s n m NE I L E M IH]; intros m2 H2; inversion H2; subst; try congruence; try (exfalso; lia). f_equal. apply IH. assumption.
Qed.
Lemma chain_fun : forall fat s l1, chain fat s l1 -> forall l2, chain fat s l2 -> l1 = l2.
Proof.
  intros fat s l1 H. induction H as [s E|s t l NE P N C IH]; intros l2 H2; inversion H2; subst; try congruence; try contradiction. f_equal. apply IH. congruence.
Qed.
Lemma walk_fun : forall fat l1 l2 s, walk fat (s :: l1) -> walk fat (s :: l2) -> List.length l1 = List.length l2 -> l1 = l2.
Proof.
  induction l1 as [|a l1 IH]; intros [|b l2] s W1 W2 L; try discriminate; [reflexivity|]. destruct W1 as (_ & N1 & W1). destruct W2 as (_ & N2 & W2). rewrite N1 in N2. injection N2 as <-. f_equal. apply (IH _ a); auto.
Qed.
Theorem C106_one_content : forall data mem name c1 c2, stream_content data mem name c1 -> stream_content data mem name c2 -> c1 = c2.
Proof.
  intros data mem name c1 c2 (f1 & m1 & e1 & A1 & A2 & A3 & A) (f2 & m2 & e2 & B1 & B2 & B3 & B).
  rewrite A3 in B3. injection B3 as <-. pose proof (mini_table_fun _ _ _ _ _ _ A2 _ B2) as <-.
  assert (FF : f1 = f2). { destruct A1 as (_ & x1 & -> & X1). destruct B1 as (_ & x2 & -> & X2). f_equal. destruct (0 <? _); [eapply more_fats_fun; eassumption|congruence]. }
  subst f2. cbv zeta in A, B. destruct (_ <? 4096).
  - destruct A as (r1 & l1 & R1 & _ & _ & C1 & _ & _ & ->). destruct B as (r2 & l2 & R2 & _ & _ & C2 & _ & _ & ->). rewrite (chain_fun _ _ _ R1 _ R2), (chain_fun _ _ _ C1 _ C2). reflexivity.
  - destruct A as (l1 & W1 & L1 & _ & ->). destruct B as (l2 & W2 & L2 & _ & ->). rewrite (walk_fun _ l1 l2 _ W1 W2); [reflexivity|]. rewrite zlen_cons in L1, L2. unfold zlen in *. lia.
Qed.

Print Assumptions C106_stream.
Print Assumptions C106_one_content.
