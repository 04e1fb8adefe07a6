(** * P_hang: C39 and C84 exactly — the files on which opening never ends. *)
From Verif Require Import GoBase GoUnicode L_base M_grate S_grate L_grate P_grate M_simple M_slicereader M_cfb S_cfb L_cfb P_cfb M_open S_open P_open L_total P_total S_hang.
From Coq Require Import Lia ZifyBool ZifyNat Permutation Classical.

Section file.
Context (data : bytes) (sp : bytes) (shift : Z) (HS : 2 <= shift).
Local Notation sz := (2 ^ shift).
Local Notation nent := (Z.to_nat (2 ^ (shift - 2))).
Local Notation D := (mkSl data sp).
Lemma sz4 : sz = 4 * 2 ^ (shift - 2) /\ 1 <= 2 ^ (shift - 2).
Proof.
  split; [change 4 with (2 ^ 2); rewrite <- Z.pow_add_r by lia; f_equal; lia|]. assert (0 < 2 ^ (shift - 2)) by (apply Z.pow_pos_nonneg; lia). lia.
Qed.
Lemma u32_nonneg : forall s, 0 <= u32 (1 + s). Proof. intros. unfold u32. apply Z.mod_pos_bound. lia. Qed.
Lemma off_nonneg : forall s, 0 <= u32 (1 + s) * sz. Proof. intros. pose proof (u32_nonneg s). pose proof sz4. nia. Qed.
Lemma read_entries_iff : forall n l acc, (exists r, read_entries n l acc = Ok r) <-> 4 * Z.of_nat n <= zlen l.
Proof.
  induction n as [|n IH]; intros l acc; cbn [read_entries]. { split; [intros _; pose proof (zlen_nonneg _ l); lia|eauto]. }
  destruct (Z_lt_le_dec (zlen l) 4) as [L|L]. { rewrite le32_short by auto. cbn [bind]. split; [intros (r & E); discriminate|lia]. }
  rewrite le32_val by auto. cbn [bind]. rewrite IH, zlen_zdrop by lia. lia.
Qed.
Lemma from_iff : forall s, (exists x, sl_from D (u32 (1 + s) * sz) = Ok x) <-> u32 (1 + s) * sz <= zlen data.
Proof. intros s. pose proof (off_nonneg s). unfold sl_from, sl_len. cbn [dat]. destruct (_ && _) eqn:C; split; try lia; [eauto|intros (x & E); discriminate]. Qed.
Lemma from_is : forall s x, sl_from D (u32 (1 + s) * sz) = Ok x -> dat x = zdrop (u32 (1 + s) * sz) data.
Proof. intros s x. unfold sl_from, sl_len. cbn [dat spare]. destruct (_ && _); [|discriminate]. intros [= <-]. reflexivity. Qed.
(** one FAT sector *)
Lemma fat_sector_iff : forall s (fat : list Z) (k : list Z -> res (list Z)),
  (sector_in data sz s -> exists fat', (if sl_len D <=? sec_off shift s then Err EUnableToLoad else sector <- sl_from D (sec_off shift s) ;; '(fat, _) <- read_entries nent (dat sector) fat ;; k fat) = k fat') /\
  (~ sector_in data sz s -> forall x, (if sl_len D <=? sec_off shift s then Err EUnableToLoad else sector <- sl_from D (sec_off shift s) ;; '(fat, _) <- read_entries nent (dat sector) fat ;; k fat) <> Ok x).
Proof.
  intros s fat k. destruct sz4 as [Z4 Z1]. pose proof (off_nonneg s) as O. unfold sec_off, sector_in. unfold sl_len. cbn [dat].
  destruct (Z.leb_spec (zlen data) (u32 (1 + s) * sz)) as [L|L]. { split; [lia|discriminate]. }
  destruct (proj2 (from_iff s)) as (x & E); [lia|]. rewrite E. cbn [bind]. pose proof (from_is s x E) as EX. pose proof (read_entries_iff nent (dat x) fat) as RI. rewrite EX in *. rewrite zlen_zdrop in RI by lia.
  split; intros H.
  - destruct (proj2 RI) as ((f & r) & ER); [lia|]. rewrite ER. cbn [bind]. eauto.
  - intros y. destruct (read_entries _ _ _) as [p| | |] eqn:ER; cbn [bind]; try discriminate. exfalso. assert (exists r, Ok p = Ok r) by eauto. apply RI in H0. lia.
Qed.
Lemma load_fat_iff : forall sids fat, (exists f, load_fat D shift nent sids fat = Ok f) <-> listed_in data sz sids.
Proof.
  induction sids as [|s r IH]; intros fat; cbn [load_fat listed_in]; [split; eauto|]. change secFree with FREESECT.
  destruct (Z.eqb_spec s FREESECT) as [->|N]; [split; eauto|]. cbv zeta. destruct (fat_sector_iff s fat (fun fat => load_fat D shift nent r fat)) as [F1 F2]. destruct (Z_le_gt_dec (u32 (1 + s) * sz + sz) (zlen data)) as [C|C].
  - destruct (F1 C) as (f' & ->). rewrite IH. unfold sector_in. tauto.
  - split; [intros (f & E); elim (F2 ltac:(unfold sector_in; lia) f E)|]. unfold sector_in. intros [|[? _]]; [contradiction|lia].
Qed.
Definition entry_ok (e : Z) : Prop := e = FREESECT \/ e = ENDOFCHAIN \/ sector_in data sz e.
Lemma entries_iff : forall m l fat, (exists f r, difat_entries D shift nent m l fat = Ok (f, r)) <->
  4 * Z.of_nat m <= zlen l /\ forall i, 0 <= i < Z.of_nat m -> entry_ok (field l (4 * i) 4).
Proof.
  induction m as [|m IH]; intros l fat; cbn [difat_entries]. { split; [intros _; split; [pose proof (zlen_nonneg _ l); lia|lia]|eauto]. }
  destruct (Z_lt_le_dec (zlen l) 4) as [L|L]. { rewrite le32_short by auto. cbn [bind]. split; [intros (f & r & E); discriminate|lia]. }
  rewrite le32_val by auto. cbn [bind]. change (le_val (ztake 4 l)) with (le_val (ztake 4 (zdrop 0 l))). fold (field l 0 4).
  assert (TL : (4 * Z.of_nat m <= zlen (zdrop 4 l) /\ forall i, 0 <= i < Z.of_nat m -> entry_ok (field (zdrop 4 l) (4 * i) 4)) <-> (4 * Z.of_nat (S m) <= zlen l /\ forall i, 1 <= i < Z.of_nat (S m) -> entry_ok (field l (4 * i) 4))).
  { rewrite zlen_zdrop by lia. split; intros [A B]; (split; [lia|]); intros i Hi.
    - specialize (B (i - 1) ltac:(lia)). unfold field in *. rewrite zdrop_zdrop in B by lia. replace (4 + 4 * (i - 1)) with (4 * i) in B by lia. exact B.
    - specialize (B (i + 1) ltac:(lia)). unfold field in *. rewrite zdrop_zdrop by lia. replace (4 + 4 * i) with (4 * (i + 1)) by lia. exact B. }
  assert (AL : (4 * Z.of_nat (S m) <= zlen l /\ forall i, 0 <= i < Z.of_nat (S m) -> entry_ok (field l (4 * i) 4)) <-> entry_ok (field l 0 4) /\ (4 * Z.of_nat (S m) <= zlen l /\ forall i, 1 <= i < Z.of_nat (S m) -> entry_ok (field l (4 * i) 4))).
  { split; [intros [A B]; split; [exact (B 0 ltac:(lia))|split; [auto|intros i Hi; apply B; lia]]|]. intros (E & A & B). split; [auto|]. intros i Hi. destruct (Z.eq_dec i 0) as [->|]; [exact E|apply B; lia]. }
  rewrite AL, <- TL. change secFree with FREESECT. change secEndOfChain with ENDOFCHAIN. set (e := field l 0 4).
  destruct ((e =? FREESECT) || (e =? ENDOFCHAIN)) eqn:C. { rewrite IH. assert (entry_ok e) by (unfold entry_ok; lia). tauto. }
  cbv zeta. destruct sz4 as [Z4 Z1]. pose proof (off_nonneg e) as O. unfold sec_off, sl_len. cbn [dat].
  assert (EI : entry_ok e <-> sector_in data sz e) by (unfold entry_ok; split; [intros [|[|]]; [lia|lia|auto]|auto]). rewrite EI. unfold sector_in.
  destruct (Z.leb_spec (zlen data) (u32 (1 + e) * sz)) as [LL|LL]. { split; [intros (f & r & E); discriminate|lia]. }
  destruct (proj2 (from_iff e)) as (x & E); [lia|]. rewrite E. cbn [bind]. pose proof (from_is e x E) as EX. pose proof (read_entries_iff nent (dat x) fat) as RI. rewrite EX in *. rewrite zlen_zdrop in RI by lia.
  destruct (read_entries _ _ _) as [[f0 r0]| | |] eqn:ER; cbn [bind].
  - rewrite IH. assert (Q : exists r, Ok (f0, r0) = Ok r) by eauto. apply RI in Q. split; [intros; split; [lia|auto]|tauto].
  - split; [intros (f & r & EE); discriminate|]. intros [Q _]. exfalso. destruct (proj2 RI) as (? & EE); [lia|discriminate].
  - split; [intros (f & r & EE); discriminate|]. intros [Q _]. exfalso. destruct (proj2 RI) as (? & EE); [lia|discriminate].
  - split; [intros (f & r & EE); discriminate|]. intros [Q _]. exfalso. destruct (proj2 RI) as (? & EE); [lia|discriminate].
Qed.
(** one DIFAT sector *)
Definition good_sector (c : Z) : Prop := c <> ENDOFCHAIN /\ sector_in data sz c /\ forall i, 0 <= i < sz / 4 - 1 -> entry_ok (field data (u32 (1 + c) * sz + 4 * i) 4).
Lemma difat_step : forall c fat,
  (good_sector c -> exists fat', forall fuel, difat_loop (S fuel) D shift nent c fat = difat_loop fuel D shift nent (field data (u32 (1 + c) * sz + (sz - 4)) 4) fat') /\
  (~ good_sector c -> forall fuel, difat_loop (S fuel) D shift nent c fat <> NoFuel).
Proof.
  intros c fat. destruct sz4 as [Z4 Z1]. pose proof (off_nonneg c) as O. change secEndOfChain with ENDOFCHAIN in *.
  assert (S4 : sz / 4 - 1 = Z.of_nat (nent - 1)). { rewrite Z4. replace (4 * 2 ^ (shift - 2)) with (2 ^ (shift - 2) * 4) by lia. rewrite Z.div_mul by lia. lia. }
  assert (EQ : forall i, 0 <= i -> field (zdrop (u32 (1 + c) * sz) data) i 4 = field data (u32 (1 + c) * sz + i) 4) by (intros i Hi; unfold field; rewrite zdrop_zdrop by lia; reflexivity).
  split.
  - intros (N & I & G). unfold sector_in in I. destruct (proj2 (from_iff c)) as (x & E); [lia|]. pose proof (from_is c x E) as EX.
    destruct (proj2 (entries_iff (nent - 1) (dat x) fat)) as (f & r & ER).
    { rewrite EX, zlen_zdrop by lia. split; [lia|]. intros i Hi. rewrite EQ by lia. apply G. lia. }
    exists f. intros fuel. cbn [difat_loop]. change secEndOfChain with ENDOFCHAIN. destruct (Z.eqb_spec c ENDOFCHAIN); [contradiction|]. unfold sec_off. rewrite E. cbn [bind]. rewrite ER. cbn [bind].
    apply difat_entries_rest in ER. rewrite ER, EX, zdrop_zdrop by lia. rewrite le32_val by (rewrite zlen_zdrop; lia). cbn [bind]. unfold field. do 4 f_equal. lia.
  - intros NG fuel. cbn [difat_loop]. change secEndOfChain with ENDOFCHAIN. destruct (Z.eqb_spec c ENDOFCHAIN) as [|N]; [discriminate|]. unfold sec_off.
    destruct (sl_from _ _) as [x|?| |] eqn:E; cbn [bind]; try discriminate; [|exfalso; eapply sl_from_fuel; eauto]. pose proof (from_is c x E) as EX.
    assert (LE : u32 (1 + c) * sz <= zlen data) by (apply from_iff; eauto).
    destruct (difat_entries _ _ _ _ _ _) as [[f r]|?| |] eqn:ER; cbn [bind]; try discriminate; [|exfalso; eapply difat_entries_fuel; eauto].
    assert (Q : exists f r, difat_entries D shift nent (nent - 1) (dat x) fat = Ok (f, r)) by eauto. apply entries_iff in Q. destruct Q as [Q1 Q2].
    apply difat_entries_rest in ER. destruct (Z_lt_le_dec (zlen r) 4) as [L|L]; [rewrite le32_short by auto; discriminate|]. exfalso. apply NG.
    rewrite EX in *. rewrite zlen_zdrop in Q1 by lia. rewrite ER, zlen_zdrop in L by (rewrite ?zlen_zdrop; lia). rewrite zlen_zdrop in L by lia.
    split; [auto|]. split; [unfold sector_in; lia|]. intros i Hi. rewrite <- EQ by lia. apply Q2. lia.
Qed.
Lemma endless_unfold : forall s, endless data sz s <-> good_sector s /\ endless data sz (field data (u32 (1 + s) * sz + (sz - 4)) 4).
Proof.
  intros s. split.
  - intros E. split; [exact (E 0%nat)|]. intros n. exact (E (S n)).
  - intros [G E] [|n]; [exact G|exact (E n)].
Qed.
Lemma endless_loop : forall s fat, endless data sz s -> forall fuel, difat_loop fuel D shift nent s fat = NoFuel.
Proof.
  intros s fat E fuel. revert s fat E. induction fuel as [|fuel IH]; intros s fat E; pose proof (proj1 (endless_unfold s) E) as [G E2].
  - cbn [difat_loop]. change secEndOfChain with ENDOFCHAIN. destruct (Z.eqb_spec s ENDOFCHAIN) as [Q|]; [elim (proj1 G Q)|reflexivity].
  - destruct (proj1 (difat_step s fat) G) as (f' & ->). apply IH. exact E2.
Qed.
Lemma loop_endless : forall s fat, (forall fuel, difat_loop fuel D shift nent s fat = NoFuel) -> endless data sz s.
Proof.
  intros s fat H n. revert s fat H. induction n as [|n IH]; intros s fat H.
  - cbn [chain_at]. cbv zeta. destruct (classic (good_sector s)) as [G|G]; [exact G|]. exfalso. exact (proj2 (difat_step s fat) G 0%nat (H 1%nat)).
  - cbn [chain_at]. destruct (classic (good_sector s)) as [G|G]; [|exfalso; exact (proj2 (difat_step s fat) G 0%nat (H 1%nat))].
    destruct (proj1 (difat_step s fat) G) as (f' & E). apply (IH _ f'). intros fuel. rewrite <- E. apply H.
Qed.
End file.

(** ** C39 *)
(** Loading a compound file never ends exactly on these files ... *)
Theorem C39_exact : forall data sp, (forall fuel, load fuel (mkSl data sp) = NoFuel) <-> hangs data.
Proof.
  intros data sp. destruct (Z_lt_le_dec (zlen data) 512) as [L|L].
  { split; [intros H; specialize (H 0%nat); rewrite (proj2 (C38_not_in_format _ data sp)) in H by auto; discriminate|]. intros ((Q & _) & _). lia. }
  set (h := read_header data).
  assert (E : h = mkHdr (field data 0 8) (field data 8 8) (field data 16 8) (field data 24 2) (field data 26 2) (field data 28 2) (field data 30 2) (field data 32 2) (ztake 6 (zdrop 34 data)) (s32 (field data 40 4)) (s32 (field data 44 4)) (field data 48 4) (s32 (field data 56 4)) (field data 60 4) (s32 (field data 64 4)) (field data 68 4) (s32 (field data 72 4)) (map (fun i => field data (76 + 4 * Z.of_nat i) 4) (seq 0 109))).
  { unfold h, read_header. destruct (Z.ltb_spec (zlen data) 512); [lia|]. rewrite !rd64_field, !rd16_field, !rd32_field by lia. f_equal.
    apply map_ext_in. intros i Hi. apply in_seq in Hi. apply rd32_field; lia. }
  unfold hangs, header_fine. unfold load. cbn [dat]. cbv zeta. fold h. rewrite E. cbn [h_signature h_class0 h_class1 h_major h_byteorder h_shift h_minishift h_reserved h_numdir h_numfat h_firstdir h_cutoff h_firstminifat h_numminifat h_firstdifat h_numdifat h_difat].
  clear h E.
  destruct (Z.eqb_spec (field data 0 8) 16220472316735377360) as [E1|E1]; cbn [negb]; [|split; [intros H; specialize (H 0%nat); discriminate|intros ((_ & Q & _) & _); lia]].
  destruct (Z.eqb_spec (field data 28 2) 65534) as [E2|E2]; cbn [negb]; [|split; [intros H; specialize (H 0%nat); discriminate|intros ((_ & _ & Q & _) & _); lia]].
  destruct (Z.eqb_spec (field data 8 8) 0) as [E3|E3]; cbn [negb andb]; [|split; [intros H; specialize (H 0%nat); discriminate|intros ((_ & _ & _ & Q & _) & _); lia]].
  destruct (Z.eqb_spec (field data 16 8) 0) as [E4|E4]; cbn [negb andb]; [|split; [intros H; specialize (H 0%nat); discriminate|intros ((_ & _ & _ & _ & Q & _) & _); lia]].
  destruct ((field data 26 2 =? 3) || (field data 26 2 =? 4)) eqn:E5; cbn [negb]; [|split; [intros H; specialize (H 0%nat); discriminate|intros ((_ & _ & _ & _ & _ & Q & _) & _); lia]].
  assert (RS : forallb (Z.eqb 0) (ztake 6 (zdrop 34 data)) = true <-> ztake 6 (zdrop 34 data) = repeat 0 6).
  { assert (LR : List.length (ztake 6 (zdrop 34 data)) = 6%nat) by (assert (Q : zlen (ztake 6 (zdrop 34 data)) = 6) by (rewrite zlen_ztake; [reflexivity|rewrite zlen_zdrop; lia]); unfold zlen in Q; lia).
    split; [|intros ->; reflexivity]. destruct (ztake 6 (zdrop 34 data)) as [|a [|b [|c [|d [|e [|f [|? ?]]]]]]]; try discriminate LR. cbn [forallb repeat]. intros Q. repeat f_equal; lia. }
  destruct (forallb (Z.eqb 0) (ztake 6 (zdrop 34 data))) eqn:E6; cbn [negb]; [|split; [intros H; specialize (H 0%nat); discriminate|intros ((_ & _ & _ & _ & _ & _ & Q & _) & _); apply RS in Q; discriminate]].
  pose proof (proj1 RS eq_refl) as R6. clear RS.
  destruct ((field data 26 2 =? 3) && negb (field data 30 2 =? 9)) eqn:E7; [split; [intros H; specialize (H 0%nat); discriminate|intros ((_ & _ & _ & _ & _ & Q & _) & _); lia]|].
  destruct ((field data 26 2 =? 3) && negb (s32 (field data 40 4) =? 0)) eqn:E8; [split; [intros H; specialize (H 0%nat); discriminate|intros ((_ & _ & _ & _ & _ & Q & _) & _); lia]|].
  destruct ((field data 26 2 =? 4) && negb (field data 30 2 =? 12)) eqn:E9; [split; [intros H; specialize (H 0%nat); discriminate|intros ((_ & _ & _ & _ & _ & Q & _) & _); lia]|].
  destruct (Z.eqb_spec (field data 32 2) 6) as [F1|F1]; cbn [negb]; [|split; [intros H; specialize (H 0%nat); discriminate|intros ((_ & _ & _ & _ & _ & _ & _ & Q & _) & _); lia]].
  destruct (Z.eqb_spec (s32 (field data 56 4)) 4096) as [F2|F2]; cbn [negb]; [|split; [intros H; specialize (H 0%nat); discriminate|intros ((_ & _ & _ & _ & _ & _ & _ & _ & Q & _) & _); lia]].
  destruct ((s32 (1 + s32 (field data 44 4)) <? 0) || (s32 (1 + s32 (field data 64 4)) <? 0)) eqn:F3; [split; [intros H; specialize (H 0%nat); discriminate|intros ((_ & _ & _ & _ & _ & _ & _ & _ & _ & Q & Q2) & _); lia]|].
  assert (SH : 2 <= field data 30 2) by lia. set (shift := field data 30 2) in *.
  set (sids := map _ (seq 0 109)). pose proof (load_fat_iff data sp shift SH sids []) as LI.
  assert (HD : 512 <= zlen data /\ field data 0 8 = 16220472316735377360 /\ field data 28 2 = 65534 /\ field data 8 8 = 0 /\ field data 16 8 = 0 /\
    (field data 26 2 = 3 /\ shift = 9 /\ s32 (field data 40 4) = 0 \/ field data 26 2 = 4 /\ shift = 12) /\ ztake 6 (zdrop 34 data) = repeat 0 6 /\ field data 32 2 = 6 /\ s32 (field data 56 4) = 4096 /\ 0 <= s32 (1 + s32 (field data 44 4)) /\ 0 <= s32 (1 + s32 (field data 64 4))).
  { repeat (split; [solve [auto|lia]|]). lia. }
  destruct (load_fat _ _ _ _ _) as [f|e| |] eqn:LF; cbn [bind].
  2: { split; [intros H; specialize (H 0%nat); discriminate|]. intros (_ & Q & _). apply LI in Q. destruct Q; discriminate. }
  2: { split; [intros H; specialize (H 0%nat); discriminate|]. intros (_ & Q & _). apply LI in Q. destruct Q; discriminate. }
  2: { exfalso. eapply load_fat_fuel; eauto. }
  assert (LS : listed_in data (2 ^ shift) sids) by (apply LI; eauto). clear LI LF.
  assert (MF : forall f2, exists N, minifat_loop N (mkSl data sp) shift (Z.to_nat (2 ^ (shift - 2))) (s32 (field data 64 4)) (field data 60 4) f2 <> NoFuel).
  { intros f2. exists (Z.to_nat (s32 (field data 64 4)) + 1)%nat. destruct (sz4 shift SH). apply minifat_loop_fuel; [lia|pose proof (zlen_nonneg _ f2); lia|lia]. }
  destruct (Z.ltb_spec 0 (s32 (field data 72 4))) as [G|G].
  2: { split; [|intros (_ & _ & Q & _); lia]. intros H. exfalso. destruct (MF []) as (N & HN). apply HN. specialize (H N). cbn [bind] in H. destruct (minifat_loop _ _ _ _ _ _ _); cbn [bind] in H; try discriminate; [|reflexivity]. destruct (build_dirs _ _ _ _ _). discriminate. }
  split.
  - intros H. split; [exact HD|]. split; [exact LS|]. split; [exact G|]. apply (loop_endless data sp shift SH _ f). intros fuel.
    destruct (difat_loop fuel (mkSl data sp) shift (Z.to_nat (2 ^ (shift - 2))) (field data 68 4) f) as [f2|e| |] eqn:DL; [| | |reflexivity]; exfalso.
    + destruct (MF []) as (N & HN). specialize (H (Nat.max fuel N)). rewrite (difat_mono fuel (Nat.max fuel N)) in H by (try lia; rewrite DL; discriminate). rewrite DL in H. cbn [bind] in H.
      rewrite (minifat_mono N (Nat.max fuel N)) in H by (try lia; exact HN). destruct (minifat_loop _ _ _ _ _ _ _); cbn [bind] in H; try discriminate; [destruct (build_dirs _ _ _ _ _); discriminate|contradiction].
    + specialize (H fuel). rewrite DL in H. discriminate.
    + specialize (H fuel). rewrite DL in H. discriminate.
  - intros (_ & _ & _ & EN) fuel. rewrite (endless_loop data sp shift SH _ f EN fuel). reflexivity.
Qed.
(** ... and on all others it ends with a document, an error or a panic. *)
Theorem C39_terminates : forall data sp, ~ hangs data ->
  exists N r, r <> NoFuel /\ forall fuel, (N <= fuel)%nat -> load fuel (mkSl data sp) = r.
Proof.
  intros data sp H. destruct (classic (exists N, load N (mkSl data sp) <> NoFuel)) as [(N & HN)|Q].
  - exists N, (load N (mkSl data sp)). split; auto. intros fuel F. apply load_mono; auto.
  - exfalso. apply H. apply (C39_exact data sp). intros fuel. destruct (load fuel (mkSl data sp)) eqn:E; auto; exfalso; apply Q; exists fuel; rewrite E; discriminate.
Qed.

(** ** C84 *)
(** Opening a file by name never ends exactly if the file is one of these. *)
Theorem C84_exact : forall sizes sp1 sp2 sp3 unzip order iter rd srt fn w data, sorts_by_priority srt -> os_file w fn = FileData data None -> bytes_ok data ->
  ((forall fuel hist, Permutation hist (stock fuel sizes sp1 sp2 sp3 unzip order iter rd) -> fst (open_file (registered srt hist) fn w) = NoFuel) <-> hangs data).
Proof.
  intros sizes sp1 sp2 sp3 unzip order iter rd srt fn w data HS HW B. split.
  - intros H. destruct (classic (hangs data)) as [|N]; auto. exfalso.
    destruct (open_ends sizes sp1 sp2 sp3 unzip order iter rd srt fn w HS) as (M & r & w' & R1 & R2).
    { intros d re E. rewrite HW in E. injection E as <- <-. split; auto. intros _. destruct (C39_terminates data sp1 N) as (K & r & Q1 & Q2). exists K. rewrite Q2 by lia. exact Q1. }
    apply R1. specialize (H M _ (Permutation_refl _)). rewrite (R2 M _ (le_n _) (Permutation_refl _)) in H. exact H.
  - intros H fuel hist HP. rewrite (stock_table fuel sizes sp1 sp2 sp3 unzip order iter rd srt hist HS HP). unfold stock. cbn [open_file xls_entry tab_op]. unfold xls_open. rewrite HW. unfold xls_stream.
    rewrite (proj2 (C39_exact data sp1) H fuel). reflexivity.
Qed.
(** Opening any other file ends. *)
Theorem C84_open_ends : forall sizes sp1 sp2 sp3 unzip order iter rd srt fn w, sorts_by_priority srt ->
  (forall data re, os_file w fn = FileData data re -> bytes_ok data /\ (re = None -> ~ hangs data)) ->
  exists N r w', r <> NoFuel /\ forall fuel hist, (N <= fuel)%nat -> Permutation hist (stock fuel sizes sp1 sp2 sp3 unzip order iter rd) ->
    open_file (registered srt hist) fn w = (r, w').
Proof.
  intros sizes sp1 sp2 sp3 unzip order iter rd srt fn w HS HF. apply open_ends; auto. intros data re E. destruct (HF data re E) as [B H]. split; auto.
  intros N. destruct (C39_terminates data sp1 (H N)) as (K & r & Q1 & Q2). exists K. rewrite Q2 by lia. exact Q1.
Qed.

(** a file that hangs, one whose chain is endless but mentions a sector outside the file (an error),
    and files that do not hang *)
Example ex_C39_hangs : hangs cyclic_difat_file.
Proof. apply (C39_exact cyclic_difat_file []). intros fuel. apply C39_cyclic_difat_refuted. Qed.
Definition mentions_outside : bytes := hdr_bytes 3 0 ENDOFCHAIN ENDOFCHAIN 0 0 1 [] ++ put32 77 ++ flat_map put32 (repeat FREESECT 126) ++ put32 0.
Example ex_C39_outside : load 3 (mkSl mentions_outside []) = Err EUnableToLoad /\ ~ hangs mentions_outside.
Proof.
  assert (E : load 3 (mkSl mentions_outside []) = Err EUnableToLoad) by (vm_compute; reflexivity). split; [exact E|].
  intros H. rewrite (proj2 (C39_exact mentions_outside []) H) in E. discriminate.
Qed.
(** two sectors that point to each other *)
Definition two_cycle : bytes := hdr_bytes 3 0 ENDOFCHAIN ENDOFCHAIN 0 0 2 [] ++ flat_map put32 (repeat FREESECT 127) ++ put32 1 ++ flat_map put32 (repeat 0 127) ++ put32 0.
Example ex_C39_two : hangs two_cycle.
Proof.
  assert (CH : forall n, chain_at two_cycle 512 0 n = 0 \/ chain_at two_cycle 512 0 n = 1).
  { assert (A : field two_cycle (u32 (1 + 0) * 512 + (512 - 4)) 4 = 1) by (vm_compute; reflexivity). assert (B : field two_cycle (u32 (1 + 1) * 512 + (512 - 4)) 4 = 0) by (vm_compute; reflexivity).
    intros n. enough (Q : (chain_at two_cycle 512 0 n = 0 \/ chain_at two_cycle 512 0 n = 1) /\ (chain_at two_cycle 512 1 n = 0 \/ chain_at two_cycle 512 1 n = 1)) by apply Q.
    induction n as [|n [IH1 IH2]]; cbn [chain_at]; [auto|]. rewrite A, B. auto. }
  split; [repeat (split; [first [vm_compute; reflexivity|vm_compute; discriminate]|]); split; [left; repeat split; vm_compute; reflexivity|]; repeat (split; [first [vm_compute; reflexivity|vm_compute; discriminate]|]); vm_compute; discriminate|].
  cbv zeta. change (2 ^ field two_cycle 30 2) with 512. split; [left; vm_compute; reflexivity|]. split; [vm_compute; reflexivity|].
  change (field two_cycle 68 4) with 0. intros n. cbv zeta. destruct (CH n) as [-> | ->].
  - split; [discriminate|]. split; [vm_compute; discriminate|]. change (512 / 4 - 1) with 127. intros i Hi. left.
    assert (F : forallb (fun i => field two_cycle (u32 (1 + 0) * 512 + 4 * Z.of_nat i) 4 =? FREESECT) (seq 0 127) = true) by (vm_compute; reflexivity).
    rewrite forallb_forall in F. specialize (F (Z.to_nat i)). rewrite Z2Nat.id in F by lia. apply Z.eqb_eq. apply F. apply in_seq. lia.
  - split; [discriminate|]. split; [vm_compute; discriminate|]. change (512 / 4 - 1) with 127. intros i Hi. right. right.
    assert (F : forallb (fun i => field two_cycle (u32 (1 + 1) * 512 + 4 * Z.of_nat i) 4 =? 0) (seq 0 127) = true) by (vm_compute; reflexivity).
    rewrite forallb_forall in F. specialize (F (Z.to_nat i)). rewrite Z2Nat.id in F by lia. assert (Q : field two_cycle (u32 (1 + 1) * 512 + 4 * i) 4 = 0) by (apply Z.eqb_eq; apply F; apply in_seq; lia).
    rewrite Q. vm_compute. discriminate.
Qed.

Print Assumptions C39_exact.
Print Assumptions C39_terminates.
Print Assumptions C84_exact.
Print Assumptions C84_open_ends.
