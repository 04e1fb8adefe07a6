(** * L_slicereader: facts about SliceReader. *)
From Verif Require Import GoBase L_base M_slicereader S_slicereader.
From Coq Require Import ZifyBool.

Lemma csizes_len : forall data sz, zlen (csizes sz data) = zlen data.
Proof. induction data; intros; simpl; rewrite ?zlen_nil, ?zlen_cons, ?IHdata; auto. Qed.
Lemma csizes_app : forall pre cur post sz,
  csizes sz (pre ++ cur :: post) = csizes sz pre ++ (sz + zlen (concat pre)) :: csizes (sz + zlen (concat pre) + zlen cur) post.
Proof.
  induction pre; intros; simpl.
  - rewrite zlen_nil, Z.add_0_r. reflexivity.
  - rewrite IHpre, zlen_app. f_equal. f_equal. f_equal; [lia|]. f_equal. lia.
Qed.
Lemma csizes_idx : forall pre cur post, idx (csizes 0 (pre ++ cur :: post)) (zlen pre) = Ok (zlen (concat pre)).
Proof. intros. rewrite csizes_app. rewrite idx_app_exact; [reflexivity|]. rewrite csizes_len. auto. Qed.
Lemma csz_at : forall data pre cur post, data = pre ++ cur :: post -> idx (csizes 0 data) (zlen pre) = Ok (zlen (concat pre)).
Proof. intros. subst. apply csizes_idx. Qed.
Lemma dat_at : forall (data : list bytes) pre cur post, data = pre ++ cur :: post -> idx data (zlen pre) = Ok cur.
Proof. intros. subst. apply idx_app_exact. auto. Qed.
Lemma idx_m1 : forall A (l : list A), idx l (-1) = Panic.
Proof. intros. apply idx_out. lia. Qed.

Lemma concat_snoc : forall (l : list bytes) c, concat (l ++ [c]) = concat l ++ c.
Proof. intros. rewrite concat_app. simpl. rewrite app_nil_r. auto. Qed.
Lemma concat_mid : forall (pre : list bytes) cur post, concat (pre ++ cur :: post) = concat pre ++ cur ++ concat post.
Proof. intros. rewrite concat_app. reflexivity. Qed.

(** the state after a successful seek to want: a slice pre|cur|post and an offset inside it *)
Definition lands (data : list bytes) (want : Z) (s : sreader) : Prop :=
  exists pre cur post, data = pre ++ cur :: post /\
    s = mkSR (csizes 0 data) data (zlen pre) (want - zlen (concat pre)) /\
    (0 = want - zlen (concat pre) \/ 0 < want - zlen (concat pre) < zlen cur).

Lemma seek_up : forall data post pre cur o t want fuel,
  data = pre ++ cur :: post -> zlen (concat pre) <= t -> t < want -> (List.length post < fuel)%nat ->
  (exists s, seek_loop fuel (mkSR (csizes 0 data) data (zlen pre) o) want t = Ok (want, s) /\ lands data want s /\
     (want < zlen (concat data) \/ (want = zlen (concat data) /\ exists p, data = p ++ [[]]))) \/
  (seek_loop fuel (mkSR (csizes 0 data) data (zlen pre) o) want t = Panic /\ zlen (concat data) <= want /\
    (want = zlen (concat data) -> forall p, data = p ++ [[]] -> post = [])).
Proof.
  intros data post. induction post as [|c post IH]; intros pre cur o t want fuel E H1 H2 HF.
  - destruct fuel as [|fuel]; [simpl in HF; lia|]. cbn [seek_loop]. destruct (Z.eqb_spec t want); [lia|].
    cbn [sr_csize sr_index sr_data]. rewrite (csz_at _ _ _ _ E). cbn [bind]. rewrite (dat_at _ _ _ _ E). cbn [bind].
    destruct ((zlen (concat pre) <? want) && (want <? zlen (concat pre) + zlen cur)) eqn:B.
    + left. eexists. split; [reflexivity|]. split.
      * exists pre, cur, []. split; auto. split; [reflexivity|]. lia.
      * left. rewrite E, concat_mid, !zlen_app. simpl. rewrite zlen_nil. lia.
    + right. destruct (Z.ltb_spec want t); [lia|]. rewrite idx_out.
      2: { rewrite csizes_len, E, zlen_app, zlen_cons, zlen_nil. lia. }
      split; [reflexivity|]. split; auto. rewrite E, concat_mid, !zlen_app. simpl. rewrite zlen_nil. lia.
  - destruct fuel as [|fuel]; [simpl in HF; lia|]. cbn [seek_loop]. destruct (Z.eqb_spec t want); [lia|].
    cbn [sr_csize sr_index sr_data]. rewrite (csz_at _ _ _ _ E). cbn [bind]. rewrite (dat_at _ _ _ _ E). cbn [bind].
    destruct ((zlen (concat pre) <? want) && (want <? zlen (concat pre) + zlen cur)) eqn:B.
    + left. eexists. split; [reflexivity|]. split.
      * exists pre, cur, (c :: post). split; auto. split; [reflexivity|]. lia.
      * left. rewrite E, concat_mid, !zlen_app. pose proof (zlen_nonneg _ (concat (c :: post))). lia.
    + destruct (Z.ltb_spec want t); [lia|].
      assert (E2 : data = (pre ++ [cur]) ++ c :: post) by (rewrite E, <- app_assoc; reflexivity).
      assert (L2 : zlen pre + 1 = zlen (pre ++ [cur])) by (rewrite zlen_app, zlen_cons, zlen_nil; lia).
      rewrite L2. rewrite (csz_at _ _ _ _ E2). cbn [bind]. replace (zlen (concat (pre ++ [cur]))) with (zlen (concat pre) + zlen cur) by (rewrite concat_snoc, zlen_app; auto).
      assert (HW : zlen (concat pre) + zlen cur <= want) by lia.
      destruct (Z.eq_dec (zlen (concat pre) + zlen cur) want) as [Q|Q].
      * left. exists (mkSR (csizes 0 data) data (zlen (pre ++ [cur])) 0). split.
        { destruct fuel; cbn [seek_loop]; rewrite (proj2 (Z.eqb_eq _ _) Q); reflexivity. }
        split.
        { exists (pre ++ [cur]), c, post. split; auto. replace (zlen (concat (pre ++ [cur]))) with want by (rewrite concat_snoc, zlen_app; auto). rewrite Z.sub_diag. split; auto. }
        { rewrite E, concat_mid, !zlen_app. rewrite <- Q.
          pose proof (zlen_nonneg _ (concat (c :: post))).
          destruct (Z.eq_dec (zlen (concat (c :: post))) 0) as [Q0|Q0]; [|left; lia].
          right. split; [lia|]. apply zlen_0 in Q0. 
          destruct (exists_last (l := c :: post)) as (l' & a & El); [discriminate|].
          rewrite El in Q0. rewrite concat_snoc in Q0. apply app_eq_nil in Q0 as [_ ->].
          exists (pre ++ cur :: l'). rewrite El, <- app_assoc. reflexivity. }
      * destruct (IH (pre ++ [cur]) c 0 (zlen (concat pre) + zlen cur) want fuel E2) as [(s & A & B1 & C)|(A & B1 & C)]; auto.
        { rewrite concat_snoc, zlen_app. lia. } { lia. } { simpl in HF. lia. }
        { left. exists s. auto. }
        { right. split; auto. split; auto. intros Hw p Hp. exfalso. specialize (C Hw p Hp). subst post.
          rewrite E2 in Hp. apply app_inj_tail in Hp as [_ ->].
          rewrite E2, concat_snoc, concat_snoc, !zlen_app, zlen_nil in Hw. lia. }
Qed.

Lemma seek_down : forall data pre cur post o t want fuel,
  data = pre ++ cur :: post -> want < t -> t <= zlen (concat pre) + zlen cur -> zlen (concat pre) <= t ->
  (List.length pre + 2 < fuel)%nat ->
  (exists s, seek_loop fuel (mkSR (csizes 0 data) data (zlen pre) o) want t = Ok (want, s) /\ lands data want s) \/
  (seek_loop fuel (mkSR (csizes 0 data) data (zlen pre) o) want t = Panic /\ (want < 0 \/ (want = 0 /\ pre = []))).
Proof.
  intros data pre. induction pre as [|c pre IH] using rev_ind; intros cur post o t want fuel E H1 H2 H3 HF.
  - simpl in E. destruct fuel as [|fuel]; [simpl in HF; lia|]. cbn [seek_loop]. destruct (Z.eqb_spec t want); [lia|].
    cbn [sr_csize sr_index sr_data]. rewrite (csz_at _ [] _ _ E). cbn [bind]. rewrite (dat_at _ [] _ _ E). cbn [bind].
    simpl concat in *. rewrite zlen_nil in *.
    destruct ((0 <? want) && (want <? 0 + zlen cur)) eqn:B.
    + left. eexists. split; [reflexivity|]. exists [], cur, post. split; [exact E|]. change (concat (@nil bytes)) with (@nil Z). rewrite !zlen_nil. split; [reflexivity|]. lia.
    + right. destruct (Z.ltb_spec want t); [|lia]. change (0 - 1) with (-1). rewrite idx_m1. split; [reflexivity|]. destruct (Z.eq_dec want 0); [right; auto|left; lia].
  - destruct fuel as [|fuel]; [simpl in HF; lia|]. cbn [seek_loop]. destruct (Z.eqb_spec t want); [lia|].
    cbn [sr_csize sr_index sr_data]. rewrite (csz_at _ _ _ _ E). cbn [bind]. rewrite (dat_at _ _ _ _ E). cbn [bind].
    destruct ((zlen (concat (pre ++ [c])) <? want) && (want <? zlen (concat (pre ++ [c])) + zlen cur)) eqn:B.
    + left. eexists. split; [reflexivity|]. exists (pre ++ [c]), cur, post. split; auto. split; auto. lia.
    + destruct (Z.ltb_spec want t); [|lia].
      assert (HW : want <= zlen (concat (pre ++ [c]))) by lia.
      assert (E2 : data = pre ++ c :: (cur :: post)) by (rewrite E, <- app_assoc; reflexivity).
      assert (L2 : zlen (pre ++ [c]) - 1 = zlen pre) by (rewrite zlen_app, zlen_cons, zlen_nil; lia).
      rewrite L2. rewrite (csz_at _ _ _ _ E2). cbn [bind].
      rewrite concat_snoc, zlen_app in HW.
      assert (HL : (List.length pre + 2 < fuel)%nat) by (rewrite app_length in HF; simpl in HF; lia).
      destruct (Z.lt_trichotomy (zlen (concat pre)) want) as [Q|[Q|Q]].
      * (* inside, or exactly at the start of cur *)
        destruct fuel as [|fuel]; [lia|]. cbn [seek_loop]. destruct (Z.eqb_spec (zlen (concat pre)) want); [lia|].
        cbn [sr_csize sr_index sr_data]. rewrite (csz_at _ _ _ _ E2). cbn [bind]. rewrite (dat_at _ _ _ _ E2). cbn [bind].
        destruct ((zlen (concat pre) <? want) && (want <? zlen (concat pre) + zlen c)) eqn:B2.
        { left. eexists. split; [reflexivity|]. exists pre, c, (cur :: post). split; auto. split; auto. lia. }
        destruct (Z.ltb_spec want (zlen (concat pre))); [lia|].
        replace (zlen pre + 1) with (zlen (pre ++ [c])) by (rewrite zlen_app, zlen_cons, zlen_nil; lia).
        rewrite (csz_at _ _ _ _ E). cbn [bind]. left.
        exists (mkSR (csizes 0 data) data (zlen (pre ++ [c])) 0).
        assert (EQ : zlen (concat (pre ++ [c])) = want) by (rewrite concat_snoc, zlen_app; lia).
        split.
        { destruct fuel; cbn [seek_loop]; rewrite (proj2 (Z.eqb_eq _ _) EQ); reflexivity. }
        exists (pre ++ [c]), cur, post. split; auto. rewrite EQ, Z.sub_diag. auto.
      * left. exists (mkSR (csizes 0 data) data (zlen pre) 0). split.
        { destruct fuel; cbn [seek_loop]; rewrite (proj2 (Z.eqb_eq _ _) Q); reflexivity. }
        exists pre, c, (cur :: post). split; auto. rewrite Q, Z.sub_diag. auto.
      * destruct (IH c (cur :: post) 0 (zlen (concat pre)) want fuel E2) as [(s & A & B1)|(A & B1)]; auto; try lia.
        { pose proof (zlen_nonneg _ c). lia. }
        { left. eauto. }
        { right. split; auto. left. destruct B1 as [B1|[B1 Bp]]; auto. rewrite Bp in Q. change (concat []) with (@nil Z) in Q. rewrite zlen_nil in Q. lia. }
Qed.

Lemma seek_any : forall data pre cur post o t want fuel,
  data = pre ++ cur :: post -> zlen (concat pre) <= t -> t <= zlen (concat pre) + zlen cur ->
  o = t - zlen (concat pre) -> (List.length data + 2 < fuel)%nat ->
  (exists s, seek_loop fuel (mkSR (csizes 0 data) data (zlen pre) o) want t = Ok (want, s) /\
     (lands data want s \/ (want = t /\ s = mkSR (csizes 0 data) data (zlen pre) o))) \/
  (seek_loop fuel (mkSR (csizes 0 data) data (zlen pre) o) want t = Panic /\
     (want < 0 \/ (want = 0 /\ pre = [] /\ want < t) \/ (zlen (concat data) <= want /\ t < want))).
Proof.
  intros data pre cur post o t want fuel E H1 H2 Ho HF.
  assert (HL : List.length data = (List.length pre + S (List.length post))%nat) by (rewrite E, app_length; reflexivity).
  destruct (Z.lt_trichotomy t want) as [Q|[Q|Q]].
  - destruct (seek_up data post pre cur o t want fuel) as [(s & A & B & C)|(A & B & C)]; auto; [lia| |].
    + left. eauto.
    + right. split; auto.
  - left. subst t. exists (mkSR (csizes 0 data) data (zlen pre) o). split; auto.
    destruct fuel; cbn [seek_loop]; rewrite Z.eqb_refl; reflexivity.
  - destruct (seek_down data pre cur post o t want fuel) as [(s & A & B)|(A & B)]; auto; [lia| |].
    + left. eauto.
    + right. split; auto. destruct B as [B|[B1 B2]]; auto.
Qed.

(** ** the invariant of a reader at position p *)
Definition at_pos (data : list bytes) (s : sreader) (p : Z) : Prop :=
  sr_data s = data /\ (sr_csize s = [] \/ sr_csize s = csizes 0 data) /\
  ((sr_index s = zlen data /\ p = zlen (concat data)) \/
   (exists pre cur post, data = pre ++ cur :: post /\ sr_index s = zlen pre /\
      0 <= sr_offset s <= zlen cur /\ p = zlen (concat pre) + sr_offset s /\
      (sr_offset s = zlen cur -> post = []))).

Lemma lands_at : forall data want s, good_slices data -> lands data want s -> at_pos data s want.
Proof.
  intros data want s [_ G] (pre & cur & post & E & -> & H). split; [reflexivity|]. split; [right; reflexivity|].
  right. exists pre, cur, post. cbn [sr_index sr_offset]. pose proof (zlen_nonneg _ cur).
  repeat split; auto; try lia. intros Hc. destruct post as [|d post]; auto. exfalso.
  assert (cur <> []) by (apply (G pre cur (d :: post)); auto; discriminate).
  assert (zlen cur = 0) by lia. apply zlen_0 in H2. contradiction.
Qed.

Lemma read_spec : forall data s p n, good_slices data -> at_pos data s p -> 0 < n ->
  (p < zlen (concat data) -> exists b s', sr_read s n = Ok (b, None, s') /\ 0 < zlen b <= n /\
     b = ztake (zlen b) (zdrop p (concat data)) /\ at_pos data s' (p + zlen b)) /\
  (p = zlen (concat data) -> sr_read s n = Ok ([], Some EEOF, s)) /\ 0 <= p <= zlen (concat data).
Proof.
  intros data s p n [G0 G] (Ed & Ec & H) Hn. unfold sr_read. rewrite Ed.
  destruct H as [[Hi Hp]|(pre & cur & post & E & Hi & Ho & Hp & Hl)].
  - split; [lia|]. rewrite Hi. destruct (Z.leb_spec (zlen data) (zlen data)); [|lia].
    pose proof (zlen_nonneg _ (concat data)). split; auto. lia.
  - assert (LD : zlen data = zlen pre + 1 + zlen post) by (rewrite E, zlen_app, zlen_cons; lia).
    assert (LC : zlen (concat data) = zlen (concat pre) + zlen cur + zlen (concat post)) by (rewrite E, concat_mid, !zlen_app; lia).
    pose proof (zlen_nonneg _ post). pose proof (zlen_nonneg _ (concat post)). pose proof (zlen_nonneg _ (concat pre)).
    destruct (Z.leb_spec (zlen data) (sr_index s)); [lia|]. rewrite Hi. rewrite (dat_at _ _ _ _ E). cbn [bind].
    assert (B : (0 <=? sr_offset s) && (sr_offset s <=? zlen cur) = true) by lia. rewrite B.
    split; [|split; [|lia]].
    + intros Hlt. assert (LT : sr_offset s < zlen cur).
      { destruct (Z.eq_dec (sr_offset s) (zlen cur)) as [Q|Q]; [|lia]. rewrite (Hl Q) in LC. simpl in LC. rewrite zlen_nil in LC. lia. }
      set (got := ztake n (zdrop (sr_offset s) cur)).
      assert (LG : zlen got = Z.min n (zlen cur - sr_offset s)).
      { unfold got. destruct (Z.le_gt_cases n (zlen cur - sr_offset s)).
        - rewrite zlen_ztake; [lia|]. rewrite zlen_zdrop; lia.
        - rewrite ztake_all by (rewrite zlen_zdrop; lia). rewrite zlen_zdrop; lia. }
      destruct (Z.ltb_spec 0 (zlen got)); [|lia].
      assert (GE : got = ztake (zlen got) (zdrop p (concat data))).
      { rewrite E, concat_mid. rewrite zdrop_app_ge by lia. rewrite zdrop_app_le by lia.
        rewrite ztake_app_le by (rewrite zlen_zdrop; lia). replace (p - zlen (concat pre)) with (sr_offset s) by lia.
        unfold got at 1. destruct (Z.le_gt_cases n (zlen cur - sr_offset s)).
        - rewrite LG. f_equal. lia.
        - rewrite !ztake_all; auto; rewrite zlen_zdrop; lia. }
      destruct (Z.eqb_spec (sr_offset s + zlen got) (zlen cur)) as [Q|Q].
      * do 2 eexists. split; [reflexivity|]. split; [lia|]. split; auto.
        split; [auto|]. split; [auto|]. cbn [sr_index sr_offset].
        destruct post as [|c post].
        { left. split; [rewrite LD, zlen_nil; lia|]. rewrite LC. simpl. rewrite zlen_nil. lia. }
        right. exists (pre ++ [cur]), c, post. rewrite concat_snoc, zlen_app, zlen_app, zlen_cons, zlen_nil.
        pose proof (zlen_nonneg _ c).
        split; [rewrite E, <- app_assoc; reflexivity|]. repeat split; try lia.
        intros Hc. destruct post as [|d post]; auto. exfalso.
        assert (c <> []).
        { apply (G (pre ++ [cur]) c (d :: post)); [rewrite E, <- app_assoc; reflexivity|discriminate]. }
        symmetry in Hc. apply zlen_0 in Hc. contradiction.
      * do 2 eexists. split; [reflexivity|]. split; [lia|]. split; auto.
        split; [auto|]. split; [auto|]. cbn [sr_index sr_offset]. right. exists pre, cur, post.
        repeat split; auto; try lia.
    + intros He. assert (Q : sr_offset s = zlen cur).
      { destruct (Z.eq_dec (sr_offset s) (zlen cur)); auto. lia. }
      rewrite zdrop_all by lia. unfold ztake. rewrite firstn_nil, zlen_nil.
      destruct (Z.ltb_spec 0 0); [lia|]. reflexivity.
Qed.

Lemma snoc_last : forall A (l : list A), l <> [] -> exists p a, l = p ++ [a].
Proof. intros A l H. destruct (exists_last H) as (p & a & E). eauto. Qed.

(** Seek from a reader at position p *)
Lemma seek_spec : forall data s p off wh fuel, good_slices data -> at_pos data s p ->
  (List.length data + 2 < fuel)%nat -> 
  let t := seek_target (zlen (concat data)) p off wh in
  (exists s', sr_seek fuel s off wh = Ok (t, None, s') /\ at_pos data s' t) \/
  (exists s', sr_seek fuel s off wh = Ok (-1, Some (ELeaf 2001), s') /\ at_pos data s' p) \/
  (sr_seek fuel s off wh = Panic /\ ~ seek_in_range (zlen (concat data)) p off wh).
Proof.
  intros data s p off wh fuel G H HF t. pose proof G as [G0 G1].
  pose proof (proj2 (proj2 (read_spec data s p 1 G H ltac:(lia)))) as PR.
  destruct H as (Ed & Ec & H). unfold sr_seek. rewrite Ed.
  set (cs := if zlen (sr_csize s) =? zlen data then sr_csize s else csizes 0 data).
  assert (CS : cs = csizes 0 data).
  { unfold cs. destruct (Z.eqb_spec (zlen (sr_csize s)) (zlen data)) as [Q|]; auto. destruct Ec as [Ec|Ec]; auto.
    rewrite Ec, zlen_nil in Q. symmetry in Q. apply zlen_0 in Q. contradiction. }
  rewrite CS. rewrite !csizes_len. cbn [sr_index sr_data sr_offset sr_csize].
  (* the normalized reader *)
  assert (N : exists pre cur post, data = pre ++ cur :: post /\
     (if zlen data <=? sr_index s then last <- idx data (zlen data - 1) ;; Ok (mkSR (csizes 0 data) data (zlen data - 1) (zlen last))
      else Ok (mkSR (csizes 0 data) data (sr_index s) (sr_offset s))) =
     Ok (mkSR (csizes 0 data) data (zlen pre) (p - zlen (concat pre))) /\
     zlen (concat pre) <= p <= zlen (concat pre) + zlen cur /\ (p - zlen (concat pre) = zlen cur -> post = [])).
  { destruct H as [[Hi Hp]|(pre & cur & post & E & Hi & Ho & Hp & Hl)].
    - destruct (Z.leb_spec (zlen data) (sr_index s)); [|lia].
      destruct (snoc_last _ data G0) as (pre & cur & E). exists pre, cur, []. split; auto.
      assert (L : zlen data - 1 = zlen pre) by (rewrite E, zlen_app, zlen_cons, zlen_nil; lia).
      rewrite L. rewrite (dat_at _ _ _ _ E). cbn [bind].
      rewrite E, concat_snoc, zlen_app in Hp. pose proof (zlen_nonneg _ cur). split; [|split; auto; lia].
      f_equal. f_equal. lia.
    - assert (LD : zlen data = zlen pre + 1 + zlen post) by (rewrite E, zlen_app, zlen_cons; lia).
      pose proof (zlen_nonneg _ post). destruct (Z.leb_spec (zlen data) (sr_index s)); [lia|].
      exists pre, cur, post. split; auto. rewrite Hi. split; [f_equal; f_equal; lia|]. split; [lia|]. intros. apply Hl. lia. }
  destruct N as (pre & cur & post & E & EN & PP & PL). rewrite EN. cbn [bind sr_index sr_offset sr_data].
  rewrite (csz_at _ _ _ _ E). cbn [bind].
  replace (p - zlen (concat pre) + zlen (concat pre)) with p by lia.
  assert (AT : at_pos data (mkSR (csizes 0 data) data (zlen pre) (p - zlen (concat pre))) p).
  { split; [auto|]. split; [auto|]. right. exists pre, cur, post. cbn [sr_index sr_offset]. repeat split; auto; lia. }
  unfold seek_in_range, seek_target in *. subst t.
  destruct ((off =? 0) && (wh =? SeekCurrent)) eqn:B1.
  { left. eexists. split; [|]. 2: { replace (if wh =? SeekStart then _ else _) with p; [exact AT|]. unfold SeekStart, SeekCurrent, SeekEnd in *. destruct (Z.eqb_spec wh 0), (Z.eqb_spec wh 2); lia. }
    f_equal. f_equal. f_equal. unfold SeekStart, SeekCurrent, SeekEnd in *. destruct (Z.eqb_spec wh 0), (Z.eqb_spec wh 2); lia. }
  destruct (Z.eqb_spec wh SeekStart) as [W|W].
  - destruct (Z.ltb_spec off 0).
    + right. left. eexists. split; [reflexivity|]. exact AT.
    + destruct data as [|d0 dr] eqn:ED; [congruence|].
      destruct (seek_any (d0 :: dr) [] d0 dr 0 0 off fuel) as [(s' & A & B)|(A & B)]; auto.
      { simpl. rewrite zlen_nil. lia. } { simpl concat. pose proof (zlen_nonneg _ d0). rewrite zlen_nil. lia. }
      { left. rewrite zlen_nil in A. rewrite A. cbn [bind]. eexists. split; [reflexivity|].
        destruct B as [B|[B1' B2]]; [apply lands_at; auto|]. subst off s'. split; [auto|]. split; [auto|].
        right. exists [], d0, dr. simpl. rewrite !zlen_nil. pose proof (zlen_nonneg _ d0). repeat split; auto; try lia.
        intros Q. destruct dr as [|d1 dr]; auto. exfalso. assert (d0 <> []) by (apply (G1 [] d0 (d1 :: dr)); auto; discriminate).
        symmetry in Q. apply zlen_0 in Q. contradiction. }
      { right. right. rewrite zlen_nil in A. rewrite A. split; [reflexivity|]. 
        unfold SeekStart, SeekCurrent, SeekEnd in *. destruct B as [B|[B|B]]; lia. }
  - destruct (Z.eqb_spec wh SeekEnd) as [W2|W2].
    + destruct (Z.ltb_spec 0 off).
      { right. left. eexists. split; [reflexivity|]. exact AT. }
      destruct (snoc_last _ data G0) as (lp & lc & EL).
      assert (L : zlen data - 1 = zlen lp) by (rewrite EL, zlen_app, zlen_cons, zlen_nil; lia).
      rewrite L. rewrite (dat_at _ _ _ _ EL). cbn [bind]. rewrite (csz_at _ _ _ _ EL). cbn [bind].
      assert (LT : zlen lc + zlen (concat lp) = zlen (concat data)) by (rewrite EL, concat_snoc, zlen_app; lia).
      rewrite LT. pose proof (zlen_nonneg _ lc). pose proof (zlen_nonneg _ (concat lp)).
      destruct (seek_any data lp lc [] (zlen lc) (zlen (concat data)) (off + zlen (concat data)) fuel) as [(s' & A & B)|(A & B)]; auto; try lia.
      { left. rewrite A. cbn [bind]. replace (zlen (concat data) + off) with (off + zlen (concat data)) by lia.
        eexists. split; [reflexivity|]. destruct B as [B|[B1' B2]]; [apply lands_at; auto|].
        subst s'. split; [auto|]. split; [auto|]. right. exists lp, lc, []. cbn [sr_index sr_offset].
        repeat split; auto; lia. }
      { right. right. rewrite A. split; [reflexivity|].
        unfold SeekStart, SeekCurrent, SeekEnd in *. destruct B as [B|[(B & B' & B'')|B]]; [lia| |lia].
        destruct (Z.eq_dec off 0); lia. }
    + destruct (seek_any data pre cur post (p - zlen (concat pre)) p (off + p) fuel) as [(s' & A & B)|(A & B)]; auto; try lia.
      { left. rewrite A. cbn [bind]. replace (p + off) with (off + p) by lia.
        eexists. split; [reflexivity|]. destruct B as [B|[B1' B2]]; [apply lands_at; auto|].
        subst s'. rewrite B1'. exact AT. }
      { right. right. rewrite A. split; [reflexivity|].
        unfold SeekStart, SeekCurrent, SeekEnd in *. destruct B as [B|[B|B]]; lia. }
Qed.

(** ** any reader: the invariant needed for termination *)
Definition wf_reader (data : list bytes) (s : sreader) : Prop :=
  sr_data s = data /\ (sr_csize s = [] \/ sr_csize s = csizes 0 data) /\
  (sr_index s = zlen data \/
   exists pre cur post, data = pre ++ cur :: post /\ sr_index s = zlen pre /\ 0 <= sr_offset s <= zlen cur).

Lemma seek_loop_mono : forall fuel s want t r, seek_loop fuel s want t = r -> r <> NoFuel ->
  forall fuel', (fuel <= fuel')%nat -> seek_loop fuel' s want t = r.
Proof.
  induction fuel; intros s want t r H N fuel' L.
  - cbn [seek_loop] in H. destruct (t =? want) eqn:E; [|congruence].
    destruct fuel'; cbn [seek_loop]; rewrite E; auto.
  - destruct fuel' as [|fuel']; [lia|]. cbn [seek_loop] in *. destruct (t =? want); auto.
    destruct (idx (sr_csize s) (sr_index s)) as [lo| | |]; cbn [bind] in *; auto.
    destruct (idx (sr_data s) (sr_index s)) as [cur| | |]; cbn [bind] in *; auto.
    destruct ((lo <? want) && _); auto.
    destruct (idx (sr_csize s) _) as [t'| | |]; cbn [bind] in *; auto.
    apply IHfuel; auto. lia.
Qed.

Lemma seek_loop_wf : forall data pre cur post o t want fuel p s,
  data = pre ++ cur :: post -> zlen (concat pre) <= t -> t <= zlen (concat pre) + zlen cur ->
  o = t - zlen (concat pre) ->
  seek_loop fuel (mkSR (csizes 0 data) data (zlen pre) o) want t = Ok (p, s) -> wf_reader data s.
Proof.
  intros data pre cur post o t want fuel p s E H1 H2 Ho H.
  apply seek_loop_mono with (fuel' := (fuel + List.length data + 3)%nat) in H; [|discriminate|lia].
  destruct (seek_any data pre cur post o t want (fuel + List.length data + 3) E H1 H2 Ho ltac:(lia)) as [(s' & A & B)|[A _]];
    rewrite A in H; [|discriminate]. injection H as <- <-.
  destruct B as [(pr & c & po & E' & -> & B)|[_ ->]].
  - split; [auto|]. split; [auto|]. right. exists pr, c, po. cbn [sr_index sr_offset]. pose proof (zlen_nonneg _ c). repeat split; auto; lia.
  - split; [auto|]. split; [auto|]. right. exists pre, cur, post. cbn [sr_index sr_offset]. repeat split; auto; lia.
Qed.

(** what Seek does on any reader, with enough fuel and for the invariant *)
Lemma seek_wf : forall data s off wh fuel, wf_reader data s ->
  ((List.length data + 2 < fuel)%nat -> sr_seek fuel s off wh <> NoFuel) /\
  (forall q e s', sr_seek fuel s off wh = Ok (q, e, s') -> wf_reader data s').
Proof.
  intros data s off wh fuel (Ed & Ec & H). unfold sr_seek. rewrite Ed.
  set (cs := if zlen (sr_csize s) =? zlen data then sr_csize s else csizes 0 data).
  assert (D : data = [] \/ exists d0 dr, data = d0 :: dr) by (destruct data; eauto).
  destruct D as [D|(d0 & dr & ED)].
  { assert (CS : cs = []). { unfold cs. rewrite D in *. destruct Ec as [-> | ->]; reflexivity. }
    clearbody cs. rewrite D in *.
    rewrite CS. cbn [sr_index]. destruct H as [H|(pre & cur & post & H & _)]; [|destruct pre; discriminate].
    rewrite H. rewrite !zlen_nil. change (0 <=? 0) with true. cbv iota. cbn [sr_data]. change (0 - 1) with (-1). rewrite idx_m1. cbn [bind].
    split; [intros _; discriminate|intros q e s' Q; discriminate]. }
  assert (G0 : data <> []) by (rewrite ED; discriminate).
  assert (CS : cs = csizes 0 data).
  { unfold cs. destruct (Z.eqb_spec (zlen (sr_csize s)) (zlen data)) as [Q|]; auto. destruct Ec as [Ec|Ec]; auto.
    rewrite Ec, zlen_nil in Q. symmetry in Q. apply zlen_0 in Q. contradiction. }
  rewrite CS. rewrite !csizes_len. cbn [sr_index sr_data sr_offset sr_csize].
  assert (N : exists pre cur post o, data = pre ++ cur :: post /\
     (if zlen data <=? sr_index s then last <- idx data (zlen data - 1) ;; Ok (mkSR (csizes 0 data) data (zlen data - 1) (zlen last))
      else Ok (mkSR (csizes 0 data) data (sr_index s) (sr_offset s))) =
     Ok (mkSR (csizes 0 data) data (zlen pre) o) /\ 0 <= o <= zlen cur).
  { destruct H as [Hi|(pre & cur & post & E & Hi & Ho)].
    - destruct (Z.leb_spec (zlen data) (sr_index s)); [|lia].
      destruct (snoc_last _ data G0) as (pre & cur & E). exists pre, cur, [], (zlen cur). split; auto.
      assert (L : zlen data - 1 = zlen pre) by (rewrite E, zlen_app, zlen_cons, zlen_nil; lia).
      rewrite L. rewrite (dat_at _ _ _ _ E). cbn [bind]. pose proof (zlen_nonneg _ cur). split; auto. lia.
    - assert (LD : zlen data = zlen pre + 1 + zlen post) by (rewrite E, zlen_app, zlen_cons; lia).
      pose proof (zlen_nonneg _ post). destruct (Z.leb_spec (zlen data) (sr_index s)); [lia|].
      exists pre, cur, post, (sr_offset s). split; auto. rewrite Hi. split; auto. }
  destruct N as (pre & cur & post & o & E & EN & PO). rewrite EN. cbn [bind sr_index sr_offset sr_data].
  rewrite (csz_at _ _ _ _ E). cbn [bind].
  assert (AT : wf_reader data (mkSR (csizes 0 data) data (zlen pre) o)).
  { split; [auto|]. split; [auto|]. right. exists pre, cur, post. cbn [sr_index sr_offset]. auto. }
  destruct ((off =? 0) && (wh =? SeekCurrent)).
  { split; [discriminate|]. intros q e s' Q. injection Q as <- <- <-. exact AT. }
  assert (DONE : forall pr c po ox t want, data = pr ++ c :: po -> zlen (concat pr) <= t -> t <= zlen (concat pr) + zlen c ->
    ox = t - zlen (concat pr) -> 
    ((List.length data + 2 < fuel)%nat -> ('(p, s) <- seek_loop fuel (mkSR (csizes 0 data) data (zlen pr) ox) want t ;; Ok (p, @None gerr, s)) <> NoFuel) /\
    (forall q e s', ('(p, s) <- seek_loop fuel (mkSR (csizes 0 data) data (zlen pr) ox) want t ;; Ok (p, @None gerr, s)) = Ok (q, e, s') -> wf_reader data s')).
  { intros pr c po ox t want E1 T1 T2 O1. split.
    - intros HF. destruct (seek_any data pr c po ox t want fuel E1 T1 T2 O1 HF) as [(s' & A & _)|[A _]]; rewrite A; discriminate.
    - intros q e s' Q. destruct (seek_loop fuel _ want t) as [[p s1]| | |] eqn:A; cbn [bind] in Q; try discriminate.
      injection Q as <- <- <-. eapply seek_loop_wf; [exact E1|exact T1|exact T2|exact O1|exact A]. }
  destruct (wh =? SeekStart).
  - destruct (off <? 0). { split; [discriminate|]. intros q e s' Q. injection Q as <- <- <-. exact AT. }
    apply (DONE [] d0 dr 0 0 off ED); cbn [concat]; rewrite ?zlen_nil; try lia. pose proof (zlen_nonneg _ d0). lia.
  - destruct (wh =? SeekEnd).
    + destruct (0 <? off). { split; [discriminate|]. intros q e s' Q. injection Q as <- <- <-. exact AT. }
      destruct (snoc_last _ data G0) as (lp & lc & EL).
      assert (L : zlen data - 1 = zlen lp) by (rewrite EL, zlen_app, zlen_cons, zlen_nil; lia).
      rewrite L. rewrite (dat_at _ _ _ _ EL). cbn [bind]. rewrite (csz_at _ _ _ _ EL). cbn [bind].
      pose proof (zlen_nonneg _ lc). apply (DONE lp lc [] (zlen lc)); auto; lia.
    + apply (DONE pre cur post o); auto; lia.
Qed.

Lemma read_wf : forall data s n b e s', wf_reader data s -> 0 <= n -> sr_read s n = Ok (b, e, s') -> wf_reader data s'.
Proof.
  intros data s n b e s' (Ed & Ec & H) Hn R. unfold sr_read in R. rewrite Ed in R.
  destruct (Z.leb_spec (zlen data) (sr_index s)) as [Q|Q].
  { injection R as <- <- <-. split; auto. }
  destruct H as [H|(pre & cur & post & E & Hi & Ho)]; [lia|].
  rewrite Hi, (dat_at _ _ _ _ E) in R. cbn [bind] in R. destruct ((0 <=? sr_offset s) && _); [|discriminate].
  set (got := ztake n (zdrop (sr_offset s) cur)) in R.
  assert (LG : 0 <= zlen got <= zlen cur - sr_offset s).
  { split; [apply zlen_nonneg|]. unfold got, zlen, ztake, zdrop. rewrite firstn_length, skipn_length. unfold zlen in Ho. lia. }
  destruct (0 <? zlen got).
  - destruct (sr_offset s + zlen got =? zlen cur).
    + injection R as <- <- <-. split; [auto|]. split; [auto|]. cbn [sr_index sr_offset]. destruct post as [|c post].
      * left. rewrite E, zlen_app, zlen_cons, zlen_nil. lia.
      * right. exists (pre ++ [cur]), c, post. split; [rewrite E, <- app_assoc; reflexivity|].
        rewrite zlen_app, zlen_cons, zlen_nil. pose proof (zlen_nonneg _ c). lia.
    + injection R as <- <- <-. split; [auto|]. split; [auto|]. cbn [sr_index sr_offset]. right. exists pre, cur, post. repeat split; auto; lia.
  - injection R as <- <- <-. split; [auto|]. split; [auto|]. right. exists pre, cur, post. auto.
Qed.

Lemma new_wf : forall data, wf_reader data (new_sreader data).
Proof.
  intros. split; [auto|]. split; [auto|]. cbn [new_sreader sr_index sr_offset]. destruct data as [|d r]; [left; reflexivity|].
  right. exists [], d, r. pose proof (zlen_nonneg _ d). repeat split; auto; lia.
Qed.
Lemma reachable_wf : forall data s, reachable_reader data s -> wf_reader data s.
Proof.
  intros data s H. induction H; [apply new_wf|eapply read_wf; eauto|].
  eapply (proj2 (seek_wf data s off wh fuel IHreachable_reader)); eauto.
Qed.

Lemma new_at : forall data, good_slices data -> at_pos data (new_sreader data) 0.
Proof.
  intros data [G0 G]. split; [auto|]. split; [auto|]. cbn [new_sreader sr_index sr_offset].
  destruct data as [|d r]; [congruence|]. right. exists [], d, r. pose proof (zlen_nonneg _ d).
  split; [auto|]. split; [auto|]. split; [lia|]. split; [reflexivity|]. intros Q. destruct r as [|d1 r]; auto. exfalso.
  assert (d <> []) by (apply (G [] d (d1 :: r)); auto; discriminate). symmetry in Q. apply zlen_0 in Q. contradiction.
Qed.

Lemma seek_fuel_mono : forall fuel s off wh r, sr_seek fuel s off wh = r -> r <> NoFuel ->
  forall fuel', (fuel <= fuel')%nat -> sr_seek fuel' s off wh = r.
Proof.
  intros fuel s off wh r H N fuel' L. unfold sr_seek in *.
  destruct (if zlen _ <=? sr_index _ then _ else _) as [s1| | |]; cbn [bind] in *; auto.
  destruct (idx _ (sr_index s1)) as [c| | |]; cbn [bind] in *; auto.
  destruct ((off =? 0) && _); auto.
  assert (G : forall s t w, ('(p, s) <- seek_loop fuel s w t ;; Ok (p, @None gerr, s)) = r ->
    ('(p, s) <- seek_loop fuel' s w t ;; Ok (p, @None gerr, s)) = r).
  { intros s0 t w Q. destruct (seek_loop fuel s0 w t) as [[p q]| | |] eqn:A; cbn [bind] in Q; try congruence;
      rewrite (seek_loop_mono _ _ _ _ _ A ltac:(discriminate) fuel' L); auto. }
  destruct (wh =? SeekStart). { destruct (off <? 0); auto. }
  destruct (wh =? SeekEnd); auto. destruct (0 <? off); auto.
  destruct (idx (sr_data s1) _) as [la| | |]; cbn [bind] in *; auto.
  destruct (idx _ (zlen (sr_data s1) - 1)) as [lc| | |]; cbn [bind] in *; auto.
Qed.

Lemma reaches_at : forall data s p, good_slices data -> reaches data s p -> at_pos data s p.
Proof.
  intros data s p G H. induction H.
  - apply new_at; auto.
  - destruct (read_spec data s p n G IHreaches H0) as (A & B & C).
    destruct (Z.eq_dec p (zlen (concat data))) as [Q|Q].
    + rewrite (B Q) in H1. injection H1 as <- <- <-. rewrite zlen_nil, Z.add_0_r. auto.
    + destruct A as (b' & s1 & A1 & _ & _ & A2); [lia|]. rewrite A1 in H1. injection H1 as <- <- <-. auto.
  - apply seek_fuel_mono with (fuel' := (fuel + List.length data + 3)%nat) in H1; [|discriminate|lia].
    destruct (seek_spec data s p off wh (fuel + List.length data + 3) G IHreaches ltac:(lia)) as [(s1 & A & B)|[(s1 & A & B)|[A B]]];
      rewrite A in H1; try discriminate. injection H1 as <- <-. auto.
  - apply seek_fuel_mono with (fuel' := (fuel + List.length data + 3)%nat) in H0; [|discriminate|lia].
    destruct (seek_spec data s p off wh (fuel + List.length data + 3) G IHreaches ltac:(lia)) as [(s1 & A & B)|[(s1 & A & B)|[A B]]];
      rewrite A in H0; try discriminate. injection H0 as <- <- <-. auto.
Qed.
