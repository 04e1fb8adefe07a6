(** * L_total: the loops of the XLS reader end on every input. *)
From Verif Require Import GoBase GoFloat GoUnicode L_base M_grate M_value M_fmt M_formats M_cell M_sheet M_slicereader M_cfb M_crypto L_crypto M_biff P_crypto M_xlstr M_hlink M_xls L_cfb P_cfb.
From Coq Require Import ZifyBool.

Definition ends {A} (r : res A) : Prop := r <> NoFuel.
Lemma ends_ok : forall A (x : A), ends (Ok x). Proof. intros. discriminate. Qed.
Lemma ends_err : forall A e, ends (@Err A e). Proof. intros. discriminate. Qed.
Lemma ends_panic : forall A, ends (@Panic A). Proof. intros. discriminate. Qed.
Lemma ends_bind : forall A B (a : res A) (f : A -> res B), ends a -> (forall x, a = Ok x -> ends (f x)) -> ends (bind a f).
Proof. intros A B [x|e| |] f H G; cbn [bind]; try discriminate; auto. elim H. reflexivity. Qed.
Lemma ends_idx : forall A (l : list A) i, ends (idx l i).
Proof. intros. apply idx_not_nofuel. Qed.
Lemma idx_range : forall A (l : list A) i x, idx l i = Ok x -> 0 <= i < zlen l.
Proof. intros A l i x H. destruct (Z_lt_le_dec i 0); [rewrite idx_out in H by lia; discriminate|]. destruct (Z_lt_le_dec i (zlen l)); [lia|]. rewrite idx_out in H by lia. discriminate. Qed.
Lemma ends_set_idx : forall A (l : list A) i x, ends (set_idx l i x).
Proof. intros. unfold set_idx, ends. repeat match goal with |- context [if ?c then _ else _] => destruct c end; discriminate. Qed.
Lemma ends_range : forall s a b, ends (sl_range s a b).
Proof. intros. unfold sl_range. destruct (_ && _); discriminate. Qed.
Lemma ends_from : forall s a, ends (sl_from s a).
Proof. intros. unfold sl_from. destruct (_ && _); discriminate. Qed.
Lemma ends_to : forall s a, ends (sl_to s a).
Proof. intros. apply ends_range. Qed.
Lemma ends_sidx : forall s a, ends (sl_idx s a).
Proof. intros. apply ends_idx. Qed.
Lemma ends_le16 : forall l, ends (le16 l). Proof. intros [|? [|? ?]]; discriminate. Qed.
Lemma ends_le32 : forall l, ends (le32 l). Proof. intros [|? [|? [|? [|? ?]]]]; discriminate. Qed.
Lemma ends_le64 : forall l, ends (le64 l).
Proof. intros. unfold le64, ends. do 8 (destruct l; [discriminate|]). discriminate. Qed.
Create HintDb ends.
Global Hint Resolve ends_ok ends_err ends_panic ends_idx ends_set_idx ends_range ends_from ends_to ends_sidx ends_le16 ends_le32 ends_le64 : ends.
Ltac ends_step := match goal with
  | |- ends (bind _ _) => apply ends_bind; [|intros]
  | |- ends (if ?c then _ else _) => destruct c eqn:?
  | |- ends (let '(_, _) := ?p in _) => destruct p
  | |- ends (match ?p with (_, _) => _ end) => destruct p
  | |- ends _ => solve [auto with ends]
  end.
Ltac ends_auto := repeat (first [ends_step | progress cbv zeta]).

(** ** the record loop *)
Lemma next_record_ends : forall raw, ends (next_record raw).
Proof. intros. unfold next_record. ends_auto. Qed.
Lemma next_record_no : forall raw r no, next_record raw = Ok (r, no) -> 4 <= no.
Proof.
  intros raw r no H. unfold next_record in H. destruct (_ <? _); [discriminate|].
  destruct (le16 (dat raw)); cbn [bind] in H; try discriminate. destruct (le16 _) as [size|?| |]; cbn [bind] in H; try discriminate.
  destruct (sl_from raw 4) as [b|?| |]; cbn [bind] in H; try discriminate. destruct (_ <? _); [discriminate|].
  destruct (sl_range raw 4 (u16 (4 + size))) as [d|?| |] eqn:E; cbn [bind] in H; try discriminate. injection H as _ <-.
  unfold sl_range in E. destruct ((0 <=? 4) && (4 <=? u16 (4 + size)) && _) eqn:C; [|discriminate]. lia.
Qed.
Lemma from_len : forall s a s', sl_from s a = Ok s' -> sl_len s' = sl_len s - a /\ 0 <= a <= sl_len s.
Proof.
  intros s a s' H. unfold sl_from in H. destruct ((0 <=? a) && (a <=? sl_len s)) eqn:C; [|discriminate]. injection H as <-.
  unfold sl_len in *. cbn [dat]. rewrite zlen_zdrop; lia.
Qed.
Lemma store_ends : forall st r, ends (store st r).
Proof. intros. unfold store. ends_auto. Qed.
Lemma split_loop_ends : forall fuel raw b st, sl_len raw < Z.of_nat fuel -> ends (split_loop fuel raw b st).
Proof.
  induction fuel as [|fuel IH]; intros raw b st H. { pose proof (zlen_nonneg _ (dat raw)). unfold sl_len in H. lia. }
  cbn [split_loop]. pose proof (next_record_ends raw) as NE. destruct (next_record raw) as [[nr no]|e| |] eqn:E; try discriminate; [|destruct e; discriminate|].
  - apply next_record_no in E. apply ends_bind; [auto with ends|]. intros raw' H'. apply from_len in H'. destruct (_ && _); [discriminate|].
    apply ends_bind; [apply store_ends|]. intros st' _. apply IH. lia.
  - elim NE. reflexivity.
Qed.
Lemma split_stream_ends : forall raw b, ends (split_stream raw b).
Proof. intros. apply split_loop_ends. unfold sl_len, zlen. lia. Qed.

(** ** decryption *)
Lemma start_block_ends : forall d, ends (start_block d).
Proof.
  intros d. unfold start_block. apply ends_bind.
  - destruct (w_key d); [discriminate|]. unfold set_password, generate_std97_key. ends_auto.
  - intros d' _. destruct (w_key d'); [|discriminate]. unfold substr. ends_auto.
Qed.
Lemma new_basic_rc4_ends : forall l, ends (new_basic_rc4 l).
Proof.
  intros. unfold new_basic_rc4, w_verify. ends_auto. 
  apply start_block_ends.
Qed.
Lemma zeros_to_ends : forall n, ends (zeros_to n).
Proof. intros. unfold zeros_to. ends_auto. Qed.
Lemma ok_inv : forall A B (a : res A) (f : A -> res B) y, bind a f = Ok y -> exists x, a = Ok x /\ f x = Ok y.
Proof. intros A B [x|e| |] f y H; try discriminate. eauto. Qed.

(** what one round leaves: the writer's state and a later position *)
Definition later (key : bytes) (base : Z) (o : bytes) (pos : Z) (r : res (bytes * Z * rc4w * Z)) : Prop :=
  ends r /\ forall d p w t, r = Ok (d, p, w, t) -> pos <= p /\ exists w', holds w key base o w'.
Lemma decrypt_loop_ends : forall fuel raw pos dec ovs key base o w, holds dec key base o w -> 0 <= pos -> (0 < fuel)%nat -> sl_len raw - pos < Z.of_nat fuel ->
  ends (decrypt_loop fuel raw pos dec ovs) /\
  (forall dec' ovs', decrypt_loop fuel raw pos dec ovs = Ok (dec', ovs') -> exists w', holds dec' key base o w').
Proof.
  induction fuel as [|fuel IH]; intros raw pos dec ovs key base o w H HP H0 HF; [lia|]. cbn [decrypt_loop].
  destruct (sl_from raw pos) as [rest|?| |] eqn:ER; cbn [bind]; [|split; [discriminate|intros; discriminate]..|exfalso; eapply ends_from; eauto].
  apply from_len in ER. destruct (Z.ltb_spec 4 (sl_len rest)) as [L4|L4]; cbn [negb].
  2:{ split; [discriminate|]. intros dec' ovs' Q. injection Q as <- _. eauto. }
  destruct (sl_range raw pos (pos + 2)) as [s1|?| |] eqn:E1; cbn [bind]; [|split; [discriminate|intros; discriminate]..|exfalso; eapply ends_range; eauto].
  destruct (le16 (dat s1)) as [ty|?| |] eqn:E2; cbn [bind]; [|split; [discriminate|intros; discriminate]..|exfalso; eapply ends_le16; eauto].
  destruct (sl_range raw (pos + 2) (pos + 4)) as [s2|?| |] eqn:E3; cbn [bind]; [|split; [discriminate|intros; discriminate]..|exfalso; eapply ends_range; eauto].
  destruct (le16 (dat s2)) as [size|?| |] eqn:E4; cbn [bind]; [|split; [discriminate|intros; discriminate]..|exfalso; eapply ends_le16; eauto].
  destruct (write_ok dec key base o w (put16 ty) H) as (d1 & W1 & H1 & _). rewrite W1. cbn [bind].
  destruct (write_ok d1 key base o _ (put16 size) H1) as (d2 & W2 & H2 & _). rewrite W2. cbn [bind].
  match goal with |- context [bind ?r _] => assert (LT : later key base o (pos + 4) r) end.
  { unfold later. destruct (exempt ty); [|destruct (ty =? RecTypeBoundSheet8)].
    - destruct (sl_range raw (pos + 4) (pos + 4 + size)) as [d|?| |] eqn:E5; cbn [bind]; [|split; [discriminate|intros; discriminate]..|exfalso; eapply ends_range; eauto].
      destruct (zeros_to size) as [z|?| |] eqn:E6; cbn [bind]; [|split; [discriminate|intros; discriminate]..|exfalso; eapply zeros_to_ends; eauto].
      destruct (write_ok d2 key base o _ z H2) as (d3 & W3 & H3 & _). rewrite W3. cbn [bind]. split; [discriminate|]. intros ? ? ? ? Q. injection Q as _ <- <- _.
      unfold sl_range in E5. destruct ((0 <=? pos + 4) && (pos + 4 <=? pos + 4 + size) && _) eqn:C; [|discriminate]. split; [lia|eauto].
    - destruct (sl_range raw (pos + 4) (pos + 4 + 4)) as [d|?| |] eqn:E5; cbn [bind]; [|split; [discriminate|intros; discriminate]..|exfalso; eapply ends_range; eauto].
      destruct (zeros_to 4) as [z|?| |] eqn:E6; cbn [bind]; [|split; [discriminate|intros; discriminate]..|exfalso; eapply zeros_to_ends; eauto].
      destruct (write_ok d2 key base o _ z H2) as (d3 & W3 & H3 & _). rewrite W3. cbn [bind]. split; [discriminate|]. intros ? ? ? ? Q. injection Q as _ <- <- _. split; [lia|eauto].
    - split; [discriminate|]. intros ? ? ? ? Q. injection Q as _ <- <- _. split; [lia|eauto]. }
  destruct LT as (LE & LT).
  match goal with |- context [bind ?r _] => destruct r as [[[[odata p1] d3] tc]|?| |] eqn:E7 end; cbn [bind];
    [|split; [discriminate|intros; discriminate]..|exfalso; apply LE; reflexivity].
  destruct (LT _ _ _ _ eq_refl) as (P1 & w3 & H3).
  destruct (0 <? tc) eqn:TC.
  - destruct (sl_range raw p1 (p1 + tc)) as [d|?| |] eqn:E8; cbn [bind]; [|split; [discriminate|intros; discriminate]..|exfalso; eapply ends_range; eauto].
    destruct (write_ok d3 key base o _ (dat d) H3) as (d4 & W4 & H4 & _). rewrite W4. cbn [bind]. eapply IH; eauto; lia.
  - cbn [bind]. eapply IH; eauto; lia.
Qed.
Lemma copy_at_ends : forall l i s, ends (copy_at l i s).
Proof. intros. unfold copy_at. ends_auto. Qed.
Lemma apply_overlays_ends : forall os l, ends (apply_overlays l os).
Proof.
  induction os as [|o os IH]; intros l; cbn [apply_overlays]; [discriminate|]. apply ends_bind; [|auto].
  unfold apply_overlay, put16_at. pose proof copy_at_ends. ends_auto.
Qed.
Lemma decrypt_stream_ends : forall raw dec key o, holds dec key 0 o [] -> ends (decrypt_stream raw dec).
Proof.
  intros raw dec key o H. unfold decrypt_stream.
  destruct (decrypt_loop_ends (S (List.length (dat raw))) raw 0 dec [] _ _ _ _ H) as (E & I); try lia. { unfold sl_len, zlen. lia. }
  apply ends_bind; auto. intros [dec' ovs] Q. destruct (I _ _ Q) as (w' & H').
  destruct (flush_ok _ _ _ _ _ H') as (d2 & F & _). rewrite F. cbn [bind]. apply apply_overlays_ends.
Qed.
Lemma split_workbook_ends : forall raw sp2, ends (split_workbook raw sp2).
Proof.
  intros. unfold split_workbook. apply ends_bind; [apply split_stream_ends|]. intros [st|data] _; [discriminate|].
  apply ends_bind; [auto with ends|]. intros et _. destruct (et =? 1).
  - apply ends_bind; [auto with ends|]. intros body _. apply ends_bind; [apply new_basic_rc4_ends|]. intros dec D.
    apply C42_new_ready in D. destruct D as (D & _). apply ends_bind; [eapply decrypt_stream_ends; exact D|]. intros all _.
    apply ends_bind; [apply split_stream_ends|]. intros [st|?] _; discriminate.
  - ends_auto.
Qed.

(** ** the shared string table *)
Lemma sst_skip_ends : forall recs fuel n i buf, 0 <= i -> zlen recs - i <= Z.of_nat fuel -> (0 < fuel)%nat -> ends (sst_skip fuel n recs i buf).
Proof.
  intros recs. induction fuel as [|fuel IH]; intros n i buf HI HF H0; [lia|]. cbn [sst_skip]. destruct (0 <? n); [|discriminate].
  destruct (n <=? sl_len buf); [ends_auto|]. apply ends_bind; [auto with ends|]. intros d D.
  apply idx_range in D. destruct fuel as [|fuel]; [lia|]. apply IH; lia.
Qed.

(** bytes of the records after the i-th *)
Definition after (recs : list slice) (i : Z) : Z := zlen (concat (map dat (zdrop (i + 1) recs))).
(** what is left: records, their bytes, the bytes of the current buffer *)
Definition left (recs : list slice) (i : Z) (buf : slice) : Z := zlen recs - i + after recs i + sl_len buf.
Lemma after_next : forall recs i d, 0 <= i + 1 -> idx recs (i + 1) = Ok d -> after recs i = sl_len d + after recs (i + 1).
Proof.
  intros recs i d HI D. unfold after, idx in *. destruct (Z.leb_spec 0 (i + 1)); [|lia].
  destruct (nth_error recs (Z.to_nat (i + 1))) as [x|] eqn:E; [|discriminate]. injection D as ->.
  apply nth_error_split in E. destruct E as (a & b & -> & L).
  assert (Z1 : zdrop (i + 1) (a ++ d :: b) = d :: b) by (apply zdrop_app_exact'; unfold zlen; lia).
  assert (Z2 : zdrop (i + 1 + 1) (a ++ d :: b) = b).
  { change (a ++ d :: b) with (a ++ [d] ++ b). rewrite app_assoc. apply zdrop_app_exact'. rewrite zlen_app. unfold zlen. cbn [List.length]. lia. }
  rewrite Z1, Z2. cbn [map concat]. rewrite zlen_app. reflexivity.
Qed.
Lemma left_nonneg : forall recs i buf, i <= zlen recs -> 0 <= left recs i buf.
Proof. intros. unfold left, after, sl_len. pose proof (zlen_nonneg _ (concat (map dat (zdrop (i + 1) recs)))). pose proof (zlen_nonneg _ (dat buf)). lia. Qed.

(** the parts of one string only ever shrink what is left *)
Definition shrinks (recs : list slice) (i : Z) (buf : slice) (i' : Z) (buf' : slice) : Prop :=
  i <= i' /\ (i' = i \/ i' < zlen recs) /\ left recs i' buf' <= left recs i buf.
Lemma shrinks_refl : forall recs i buf, shrinks recs i buf i buf.
Proof. intros. unfold shrinks. lia. Qed.
Lemma shrinks_trans : forall recs i b i1 b1 i2 b2, shrinks recs i b i1 b1 -> shrinks recs i1 b1 i2 b2 -> shrinks recs i b i2 b2.
Proof. unfold shrinks. intros. lia. Qed.
Lemma shrinks_from : forall recs i b n b', sl_from b n = Ok b' -> shrinks recs i b i b'.
Proof. intros recs i b n b' H. apply from_len in H. unfold shrinks, left. lia. Qed.
Lemma shrinks_next : forall recs i b d, 0 <= i -> idx recs (i + 1) = Ok d -> shrinks recs i b (i + 1) d.
Proof.
  intros recs i b d HI D. pose proof (after_next recs i d ltac:(lia) D) as A. apply idx_range in D.
  pose proof (zlen_nonneg _ (dat b)). unfold shrinks, left, sl_len in *. lia.
Qed.
Lemma sst_chars_spec : forall n recs i wide buf, 0 <= i -> ends (sst_chars n recs i wide buf) /\
  forall us i' buf', sst_chars n recs i wide buf = Ok (us, i', buf') -> shrinks recs i buf i' buf'.
Proof.
  induction n as [|n IH]; intros recs i wide buf HI; cbn [sst_chars].
  { split; [discriminate|]. intros us i' buf' Q. injection Q as _ <- <-. apply shrinks_refl. }
  assert (ST : exists r, (if sl_len buf =? 0 then d <- idx recs (i + 1);; f <- sl_idx d 0;; buf0 <- sl_from d 1;; Ok (i + 1, negb (Z.land f 1 =? 0), buf0) else Ok (i, wide, buf)) = r /\
    ends r /\ forall i1 w1 b1, r = Ok (i1, w1, b1) -> 0 <= i1 /\ shrinks recs i buf i1 b1).
  { eexists. split; [reflexivity|]. destruct (sl_len buf =? 0).
    - split; [ends_auto|]. intros i1 w1 b1 Q. apply ok_inv in Q. destruct Q as (d & D & Q). apply ok_inv in Q. destruct Q as (f & _ & Q).
      apply ok_inv in Q. destruct Q as (b & B & Q). injection Q as <- _ <-. split; [lia|]. eapply shrinks_trans; [apply shrinks_next; eauto|eapply shrinks_from; eauto].
    - split; [discriminate|]. intros i1 w1 b1 Q. injection Q as <- _ <-. split; auto. apply shrinks_refl. }
  destruct ST as (r & -> & E & S). destruct r as [[[i1 w1] b1]|?| |]; cbn [bind]; [|split; [discriminate|intros; discriminate]..|elim E; reflexivity].
  destruct (S _ _ _ eq_refl) as (I1 & S1). clear S E. destruct w1; cbn [negb].
  - destruct (sl_to b1 2) as [s|?| |] eqn:E1; cbn [bind]; [|split; [discriminate|intros; discriminate]..|exfalso; eapply ends_to; eauto].
    destruct (le16 (dat s)) as [u|?| |] eqn:E2; cbn [bind]; [|split; [discriminate|intros; discriminate]..|exfalso; eapply ends_le16; eauto].
    destruct (sl_from b1 2) as [b2|?| |] eqn:E3; cbn [bind]; [|split; [discriminate|intros; discriminate]..|exfalso; eapply ends_from; eauto].
    destruct (sl_len b2 =? 1); [split; [discriminate|intros; discriminate]|].
    destruct (IH recs i1 true b2 I1) as (EE & SS). split; [ends_auto|]. intros us i' buf' Q. apply ok_inv in Q. destruct Q as ([[us1 i2] b3] & Q1 & Q). injection Q as _ <- <-.
    eapply shrinks_trans; [exact S1|]. eapply shrinks_trans; [eapply shrinks_from; eauto|]. eauto.
  - destruct (sl_idx b1 0) as [s|?| |] eqn:E1; cbn [bind]; [|split; [discriminate|intros; discriminate]..|exfalso; eapply ends_sidx; eauto].
    destruct (sl_from b1 1) as [b2|?| |] eqn:E3; cbn [bind]; [|split; [discriminate|intros; discriminate]..|exfalso; eapply ends_from; eauto].
    destruct (IH recs i1 false b2 I1) as (EE & SS). split; [ends_auto|]. intros us i' buf' Q. apply ok_inv in Q. destruct Q as ([[us1 i2] b3] & Q1 & Q). injection Q as _ <- <-.
    eapply shrinks_trans; [exact S1|]. eapply shrinks_trans; [eapply shrinks_from; eauto|]. eauto.
Qed.
Lemma sst_skip_shrinks : forall recs fuel n i buf i' buf', 0 <= i -> sst_skip fuel n recs i buf = Ok (i', buf') -> shrinks recs i buf i' buf'.
Proof.
  intros recs. induction fuel as [|fuel IH]; intros n i buf i' buf' HI Q; cbn [sst_skip] in Q; destruct (0 <? n); try discriminate.
  - injection Q as <- <-. apply shrinks_refl.
  - destruct (n <=? sl_len buf).
    + apply ok_inv in Q. destruct Q as (b & B & Q). injection Q as <- <-. eapply shrinks_from; eauto.
    + apply ok_inv in Q. destruct Q as (d & D & Q). eapply shrinks_trans; [apply shrinks_next; eauto|]. eapply IH; eauto. lia.
  - injection Q as <- <-. apply shrinks_refl.
Qed.
Lemma sst_string_spec : forall recs i buf, 0 <= i < zlen recs -> ends (sst_string recs i buf) /\
  forall s i' buf', sst_string recs i buf = Ok (s, i', buf') -> i <= i' < zlen recs /\ left recs i' buf' < left recs i buf.
Proof.
  intros recs i buf HI. unfold sst_string.
  destruct (le16 (dat buf)) as [slen|?| |] eqn:E1; cbn [bind]; [|split; [discriminate|intros; discriminate]..|exfalso; eapply ends_le16; eauto].
  destruct (sl_from buf 2) as [b1|?| |] eqn:E2; cbn [bind]; [|split; [discriminate|intros; discriminate]..|exfalso; eapply ends_from; eauto].
  destruct (sl_idx b1 0) as [flags|?| |] eqn:E3; cbn [bind]; [|split; [discriminate|intros; discriminate]..|exfalso; eapply ends_sidx; eauto].
  destruct (sl_from b1 1) as [b2|?| |] eqn:E4; cbn [bind]; [|split; [discriminate|intros; discriminate]..|exfalso; eapply ends_from; eauto].
  assert (LT : left recs i b2 < left recs i buf). { apply from_len in E2, E4. unfold left. lia. }
  assert (OPT : forall (c : bool) (rd : bytes -> res Z) k g, (forall l, ends (rd l)) -> forall b : slice,
    ends (if c then x <- rd (dat b) ;; b' <- sl_from b k ;; Ok (g x, b') else Ok (0, b)) /\
    forall v b', (if c then x <- rd (dat b) ;; b' <- sl_from b k ;; Ok (g x, b') else Ok (0, b)) = Ok (v, b') -> shrinks recs i b i b').
  { intros c rd k g RD b. destruct c.
    - split; [apply ends_bind; auto; intros; ends_auto|]. intros v b' Q. apply ok_inv in Q. destruct Q as (x & _ & Q). apply ok_inv in Q. destruct Q as (b'' & B & Q). injection Q as _ <-. eapply shrinks_from; eauto.
    - split; [discriminate|]. intros v b' Q. injection Q as _ <-. apply shrinks_refl. }
  destruct (OPT (negb (Z.land flags 8 =? 0)) le16 2 (fun c => c * 4) ends_le16 b2) as (O1 & O2).
  match goal with |- context [bind ?r _] => destruct r as [[runs b3]|?| |] end; cbn [bind]; [|split; [discriminate|intros; discriminate]..|elim O1; reflexivity].
  specialize (O2 _ _ eq_refl). clear O1.
  destruct (OPT (negb (Z.land flags 4 =? 0)) le32 4 (fun c => c) ends_le32 b3) as (O1 & O3).
  match goal with |- context [bind ?r _] => destruct r as [[ext b4]|?| |] end; cbn [bind]; [|split; [discriminate|intros; discriminate]..|elim O1; reflexivity].
  specialize (O3 _ _ eq_refl). clear O1 OPT.
  destruct (sst_chars_spec (Z.to_nat slen) recs i (negb (Z.land flags 1 =? 0)) b4 ltac:(lia)) as (C1 & C2).
  destruct (sst_chars _ _ _ _ _) as [[[us i5] b5]|?| |]; cbn [bind]; [|split; [discriminate|intros; discriminate]..|elim C1; reflexivity].
  specialize (C2 _ _ _ eq_refl). clear C1.
  assert (I5 : 0 <= i5) by (unfold shrinks in C2; lia).
  pose proof (sst_skip_ends recs (S (List.length recs)) runs i5 b5 I5) as K1.
  destruct (sst_skip (S (List.length recs)) runs recs i5 b5) as [[i6 b6]|?| |] eqn:S1; [|split; [discriminate|intros; discriminate]..|exfalso; apply K1; [unfold zlen; lia|lia|reflexivity]].
  apply sst_skip_shrinks in S1; auto. cbv beta iota delta [bind].
  assert (I6 : 0 <= i6) by (unfold shrinks in S1; lia).
  pose proof (sst_skip_ends recs (S (List.length recs)) ext i6 b6 I6) as K2.
  destruct (sst_skip (S (List.length recs)) ext recs i6 b6) as [[i7 b7]|?| |] eqn:S2; [|split; [discriminate|intros; discriminate]..|exfalso; apply K2; [unfold zlen; lia|lia|reflexivity]].
  apply sst_skip_shrinks in S2; auto. split; [discriminate|]. intros s i' buf' Q. injection Q as _ <- <-. unfold shrinks in *. lia.
Qed.
Lemma sst_loop_ends : forall fuel recs i buf all, 0 <= i <= zlen recs -> left recs i buf < Z.of_nat fuel -> ends (sst_loop fuel recs i buf all).
Proof.
  induction fuel as [|fuel IH]; intros recs i buf all HI HF. { pose proof (left_nonneg recs i buf). lia. }
  cbn [sst_loop]. destruct (Z.ltb_spec i (zlen recs)) as [L|L]; cbn [negb]; [|discriminate].
  destruct (Z.ltb_spec 0 (sl_len buf)) as [B|B].
  - destruct (sst_string_spec recs i buf ltac:(lia)) as (E & S). apply ends_bind; auto. intros [[s i'] buf'] Q. apply S in Q. apply IH; lia.
  - destruct (Z.ltb_spec (i + 1) (zlen recs)) as [N|N].
    + apply ends_bind; [auto with ends|]. intros b' D. pose proof (after_next recs i b' ltac:(lia) D). apply IH; [lia|]. unfold left in *. pose proof (zlen_nonneg _ (dat buf)). unfold sl_len in *. lia.
    + cbn [bind]. apply IH; [lia|]. unfold left, after in *. rewrite !zdrop_all in * by lia. cbn [map concat] in *. lia.
Qed.
Lemma parse_sst_ends : forall recs, ends (parse_sst recs).
Proof.
  intros recs. unfold parse_sst. apply ends_bind; [auto with ends|]. intros r0 R0. apply ends_bind; [auto with ends|]. intros s _.
  apply ends_bind; [auto with ends|]. intros _ _. apply ends_bind; [auto with ends|]. intros buf B. apply from_len in B. apply sst_loop_ends.
  - pose proof (zlen_nonneg _ recs). lia.
  - unfold left, after, sst_fuel. destruct recs as [|x recs]; [discriminate|]. change (idx (x :: recs) 0) with (Ok x) in R0. injection R0 as ->.
    change (zdrop (0 + 1) (r0 :: recs)) with recs. cbn [map concat]. rewrite app_length. unfold sl_len, zlen in *. cbn [List.length]. lia.
Qed.

(** ** loading *)
Lemma units_cap_ends : forall n raw, ends (units_cap n raw).
Proof. induction n; intros; cbn [units_cap]; ends_auto. Qed.
Global Hint Resolve units_cap_ends parse_sst_ends : ends.
Lemma decode_units_ends : forall k c f raw, ends (decode_units k c f raw).
Proof. intros. unfold decode_units. ends_auto. Qed.
Global Hint Resolve decode_units_ends : ends.
Lemma load_rec_ends : forall w r rest, ends (load_rec w r rest).
Proof. intros. unfold load_rec, check_bof, decode_long, decode_short. ends_auto. Qed.
Lemma load_recs_ends : forall l w, ends (load_recs w l).
Proof. induction l; intros; cbn [load_recs]; [discriminate|]. apply ends_bind; [apply load_rec_ends|auto]. Qed.
Lemma load_streams_ends : forall l w, ends (load_streams w l).
Proof. induction l; intros; cbn [load_streams]; [discriminate|]. apply ends_bind; [apply load_recs_ends|auto]. Qed.
Lemma load_workbook_ends : forall raw sp2, ends (load_workbook raw sp2).
Proof. intros. unfold load_workbook. apply ends_bind; [apply split_workbook_ends|]. intros. apply load_streams_ends. Qed.

(** ** reading a sheet *)
Lemma pair_ends : forall v, ends (new_cell_pair v).
Proof. intros v H. unfold new_cell_pair in H. cbv zeta in H. destruct v as [| |k ?| | | | | | | | | |]; try discriminate H; try (destruct k; try discriminate H; match type of H with context [if ?c then _ else _] => destruct c; discriminate H end). Qed.
Lemma new_cell_ends : forall v, ends (new_cell v).
Proof. intros v. unfold new_cell. apply ends_bind; [apply pair_ends|]. intros [? ?] _. discriminate. Qed.
Ltac all_cases := let H := fresh in intros H; repeat match type of H with context [match ?x with _ => _ end] => destruct x; try discriminate H end.
Lemma new_cell_with_type_ends : forall m v t, ends (new_cell_with_type m v t).
Proof.
  intros. unfold new_cell_with_type. apply ends_bind; [apply pair_ends|]. intros p _. destruct (ctype_eqb _ _); [discriminate|].
  apply ends_bind; [unfold coerce_bool; all_cases|]. intros p1 _. apply ends_bind; [unfold coerce_float; all_cases|]. intros p2 _.
  apply ends_bind; [unfold coerce_int; all_cases|]. intros p3 _. apply ends_bind; [unfold coerce_string; all_cases|]. intros p4 _.
  apply ends_bind; [unfold coerce_last; all_cases|]. intros p5 _. discriminate.
Qed.
Global Hint Resolve new_cell_ends new_cell_with_type_ends : ends.
Lemma set_format_number_ends : forall c f, ends (set_format_number c f).
Proof. intros. unfold set_format_number. ends_auto. Qed.
Global Hint Resolve set_format_number_ends : ends.
Lemma make_put_cell_ends : forall x v f, ends (make_put_cell x v f).
Proof.
  intros. unfold make_put_cell.
  assert (C : ends (match fx_cell_type x f with Some ct => if f =? 0 then new_cell v else new_cell_with_type (fx_1904 x) v ct | None => new_cell v end)).
  { destruct (fx_cell_type x f); ends_auto. }
  destruct v; ends_auto; auto.
Qed.
Lemma put_ends : forall s r c v f, ends (put s r c v f).
Proof. intros. unfold put, put_cell. apply ends_bind; [apply make_put_cell_ends|]. intros. ends_auto. Qed.
Global Hint Resolve put_ends : ends.
Lemma put_all_ends : forall l s, ends (put_all s l).
Proof. induction l as [|[[[r c] v] f] l IH]; intros; cbn [put_all]; ends_auto. Qed.
Global Hint Resolve put_all_ends : ends.
Lemma set_value_ends : forall s r c v, ends (set_value s r c v).
Proof. intros. unfold set_value, get_cell, put_cell. ends_auto. Qed.
Global Hint Resolve set_value_ends : ends.
Lemma units_len_ends : forall n raw, ends (units_len n raw).
Proof. induction n; intros; cbn [units_len]; ends_auto. Qed.
Lemma units_off_ends : forall n raw no, ends (units_off n raw no).
Proof. induction n; intros; cbn [units_off]; ends_auto. Qed.
Global Hint Resolve units_len_ends units_off_ends : ends.
Lemma hl_string_ends : forall raw, ends (hl_string raw).
Proof. intros. unfold hl_string. ends_auto. Qed.
Lemma parse_moniker_ends : forall raw, ends (parse_moniker raw).
Proof. intros. unfold parse_moniker. ends_auto. Qed.
Global Hint Resolve hl_string_ends parse_moniker_ends : ends.
Lemma decode_hyperlinks_ends : forall raw, ends (decode_hyperlinks raw).
Proof. intros. unfold decode_hyperlinks. ends_auto. Qed.
Lemma field16_ends : forall d a, ends (field16 d a). Proof. intros. unfold field16. ends_auto. Qed.
Lemma field32_ends : forall d a, ends (field32 d a). Proof. intros. unfold field32. ends_auto. Qed.
Lemma from16_ends : forall d a, ends (from16 d a). Proof. intros. unfold from16. ends_auto. Qed.
Lemma from32_ends : forall d a, ends (from32 d a). Proof. intros. unfold from32. ends_auto. Qed.
Lemma from64_ends : forall d a, ends (from64 d a). Proof. intros. unfold from64. ends_auto. Qed.
Global Hint Resolve field16_ends field32_ends from16_ends from32_ends from64_ends : ends.
Lemma scan_dims_ends : forall l first insub s mr mc, ends (scan_dims l first insub s mr mc).
Proof. induction l; intros; cbn [scan_dims]; [discriminate|]. ends_auto. Qed.
Lemma mul_rk_ends : forall n w s d row col i, ends (mul_rk w s d row col i n).
Proof. induction n; intros; cbn [mul_rk]; ends_auto. Qed.
Lemma merge_cells_ends : forall n s raw mr mc, ends (merge_cells s raw mr mc n).
Proof. induction n; intros; cbn [merge_cells]; ends_auto. Qed.
Lemma string_conts_ends : forall l u, ends (string_conts l u).
Proof. induction l; intros; cbn [string_conts]; ends_auto. Qed.
Lemma string_head_ends : forall d u, ends (string_head d u).
Proof. intros. unfold string_head. ends_auto. Qed.
Lemma hlink_rec_ends : forall s d mr mc, ends (hlink_rec s d mr mc).
Proof.
  intros. unfold hlink_rec. ends_auto. match goal with |- ends (match decode_hyperlinks ?x with _ => _ end) => pose proof (decode_hyperlinks_ends x); destruct (decode_hyperlinks x) as [[? ?]|?| |] end; ends_auto.
  match goal with H : ends NoFuel |- _ => elim H; reflexivity end.
Qed.
Lemma formula_rec_ends : forall w s d, ends (formula_rec w s d).
Proof. intros. unfold formula_rec. ends_auto. Qed.
Global Hint Resolve mul_rk_ends merge_cells_ends string_conts_ends string_head_ends hlink_rec_ends formula_rec_ends scan_dims_ends : ends.
Lemma sheet_rec_ends : forall w mr mc st r rest, ends (sheet_rec w mr mc st r rest).
Proof. intros. unfold sheet_rec. ends_auto. Qed.
Lemma sheet_recs_ends : forall l w mr mc first insub st, ends (sheet_recs w mr mc l first insub st).
Proof. pose proof sheet_rec_ends. induction l; intros; cbn [sheet_recs]; ends_auto. Qed.
Global Hint Resolve sheet_recs_ends : ends.
Lemma parse_sheet_ends : forall w ss, ends (parse_sheet w ss).
Proof. intros. unfold parse_sheet. ends_auto. destruct x0 as [[[s mr] mc]|]; ends_auto. Qed.
Lemma wb_get_ends : forall w name, ends (wb_get w name).
Proof. intros. unfold wb_get. induction (wb_sheets w); cbn [get_loop]; [discriminate|]. destruct (str_eqb _ _); [apply parse_sheet_ends|auto]. Qed.

(** ** more fuel does not change the outcome *)
Lemma difat_mono : forall f f' data shift nent sid fat, (f <= f')%nat -> difat_loop f data shift nent sid fat <> NoFuel ->
  difat_loop f' data shift nent sid fat = difat_loop f data shift nent sid fat.
Proof.
  induction f as [|f IH]; intros f' data shift nent sid fat Hf E.
  - cbn [difat_loop] in *. destruct (sid =? secEndOfChain) eqn:Es; [|elim E; reflexivity]. destruct f'; cbn [difat_loop]; rewrite Es; reflexivity.
  - destruct f' as [|f']; [lia|]. cbn [difat_loop] in *. destruct (sid =? secEndOfChain); [reflexivity|].
    destruct (sl_from data (sec_off shift sid)) as [x| | |]; cbn [bind] in *; try reflexivity.
    destruct (difat_entries data shift nent (nent - 1) (dat x) fat) as [[fa re]| | |]; cbn [bind] in *; try reflexivity.
    destruct (le32 re); cbn [bind] in *; try reflexivity. apply IH; [lia|auto].
Qed.
Lemma minifat_mono : forall f f' data shift nent nm sid fat, (f <= f')%nat -> minifat_loop f data shift nent nm sid fat <> NoFuel ->
  minifat_loop f' data shift nent nm sid fat = minifat_loop f data shift nent nm sid fat.
Proof.
  induction f as [|f IH]; intros f' data shift nent nm sid fat Hf E.
  - cbn [minifat_loop] in *. destruct (sid =? secEndOfChain) eqn:Es; [|elim E; reflexivity]. destruct f'; cbn [minifat_loop]; rewrite Es; reflexivity.
  - destruct f' as [|f']; [lia|]. cbn [minifat_loop] in *. destruct (sid =? secEndOfChain); [reflexivity|].
    destruct (sl_len data <=? sec_off shift sid); [reflexivity|].
    destruct (sl_from data (sec_off shift sid)) as [x| | |]; cbn [bind] in *; try reflexivity.
    destruct (read_entries nent (dat x) fat) as [[fa re]| | |]; cbn [bind] in *; try reflexivity.
    destruct (nm <=? zlen fa); [reflexivity|].
    destruct (le32 re); cbn [bind] in *; try reflexivity. apply IH; [lia|auto].
Qed.
Lemma load_mono : forall f f' data, (f <= f')%nat -> load f data <> NoFuel -> load f' data = load f data.
Proof.
  intros f f' data Hf. unfold load. cbv zeta.
  repeat (match goal with |- context [if ?b then Err ?e else _] => destruct b; [reflexivity|] end).
  match goal with |- context [if ?b then Panic else _] => destruct b; [reflexivity|] end.
  match goal with |- context [bind (load_fat ?a ?b ?c ?d ?e) _] => destruct (load_fat a b c d e) as [fat| | |] end; cbn [bind]; try reflexivity.
  destruct (0 <? h_numdifat (read_header (dat data))).
  - intros E. match goal with |- context [difat_loop f ?a ?b ?c ?d ?e] => assert (Ed : difat_loop f a b c d e <> NoFuel) by (intros Q; apply E; rewrite Q; reflexivity);
      rewrite (difat_mono f f' a b c d e Hf Ed); destruct (difat_loop f a b c d e) as [fa| | |] end; cbn [bind] in *; try reflexivity.
    match goal with |- context [minifat_loop f ?a ?b ?c ?d ?e ?g] => rewrite (minifat_mono f f' a b c d e g Hf); [reflexivity|] end.
    intros Q; apply E; rewrite Q; reflexivity.
  - cbn [bind]. intros E.
    match goal with |- context [minifat_loop f ?a ?b ?c ?d ?e ?g] => rewrite (minifat_mono f f' a b c d e g Hf); [reflexivity|] end.
    intros Q; apply E; rewrite Q; reflexivity.
Qed.

(** ** reading a stream to its end *)
Definition sr_left (s : sreader) : Z := zlen (concat (zdrop (sr_index s) (sr_data s))) - sr_offset s.
Lemma zdrop_uncons : forall A (l : list A) i x, idx l i = Ok x -> zdrop i l = x :: zdrop (i + 1) l.
Proof.
  induction l as [|a l IH]; intros i x H; pose proof (idx_range _ _ _ _ H) as R; [unfold zlen in R; cbn [List.length] in R; lia|].
  destruct (Z.eq_dec i 0) as [->|N].
  - change (idx (a :: l) 0) with (Ok a) in H. injection H as ->. reflexivity.
  - unfold zdrop. replace (Z.to_nat i) with (S (Z.to_nat (i - 1))) by lia. replace (Z.to_nat (i + 1)) with (S (Z.to_nat (i - 1 + 1))) by lia.
    cbn [skipn]. apply IH. unfold idx in H |- *. rewrite zlen_cons in R. replace (Z.to_nat i) with (S (Z.to_nat (i - 1))) in H by lia. cbn [nth_error] in H.
    destruct (0 <=? i) eqn:?; [|lia]. destruct (0 <=? i - 1) eqn:?; [|lia]. exact H.
Qed.
Lemma sr_read_all_ends : forall fuel sizes s acc, 0 <= sr_index s -> sr_left s < Z.of_nat fuel -> 0 <= sr_left s ->
  ends (sr_read_all fuel sizes s acc).
Proof.
  induction fuel as [|k IH]; intros sizes s acc Hi Hl Hp; [lia|]. cbn [sr_read_all].
  unfold sr_read. destruct (zlen (sr_data s) <=? sr_index s) eqn:E; cbn [bind]; [discriminate|].
  destruct (idx (sr_data s) (sr_index s)) as [cur| | |] eqn:Ec; cbn [bind]; try discriminate; [|elim (ends_idx _ _ _ Ec)].
  destruct (_ && _) eqn:Eo; cbn [bind]; [|discriminate].
  set (got := ztake (sizes k) (zdrop (sr_offset s) cur)).
  assert (G : 0 <= zlen got <= zlen cur - sr_offset s).
  { subst got. split; [apply zlen_nonneg|]. unfold ztake. unfold zlen at 1. rewrite firstn_length. unfold zdrop. rewrite skipn_length. unfold zlen in *. lia. }
  unfold sr_left in *. rewrite (zdrop_uncons _ _ _ _ Ec) in Hl, Hp. cbn [concat] in Hl, Hp. rewrite zlen_app in Hl, Hp.
  pose proof (zlen_nonneg _ (concat (zdrop (sr_index s + 1) (sr_data s)))).
  destruct (0 <? zlen got) eqn:Eg; cbn [bind]; [|discriminate].
  destruct (sr_offset s + zlen got =? zlen cur) eqn:Ee; cbn [bind]; apply IH; unfold sr_left; cbn [sr_index sr_data sr_offset]; try lia.
  - rewrite (zdrop_uncons _ _ _ _ Ec). cbn [concat]. rewrite zlen_app. lia.
  - rewrite (zdrop_uncons _ _ _ _ Ec). cbn [concat]. rewrite zlen_app. lia.
Qed.
Lemma read_new_ends : forall sizes sd, ends (sr_read_all (S (List.length (concat sd))) sizes (new_sreader sd) []).
Proof.
  intros. apply sr_read_all_ends; unfold sr_left, new_sreader; cbn [sr_index sr_data sr_offset]; rewrite ?zdrop_0; unfold zlen; lia.
Qed.
Ltac mono_step E := match goal with
  | |- bind ?a _ = bind ?a _ => destruct a; cbn [bind] in *; try reflexivity
  | |- (if ?b then _ else _) = (if ?b then _ else _) => destruct b; try reflexivity
  | |- (let '(_, _) := ?p in _) = _ => destruct p
  end.
Lemma stream_mono : forall f f' d sid size x sd, (f <= f')%nat -> stream_loop f d sid size x sd <> NoFuel -> stream_loop f' d sid size x sd = stream_loop f d sid size x sd.
Proof.
  induction f as [|f IH]; intros f' d sid size x sd Hf E.
  - cbn [stream_loop] in *. destruct (is_end sid) eqn:Es; [|elim E; reflexivity]. destruct f'; cbn [stream_loop]; rewrite Es; reflexivity.
  - destruct f' as [|f']; [lia|]. cbn [stream_loop] in *. destruct (is_end sid); [reflexivity|]. cbv zeta in *.
    destruct (sl_len (d_data d) <? _); [reflexivity|].
    destruct (sl_range _ _ _) as [sl| | |]; cbn [bind] in *; try reflexivity.
    destruct (if size <? sl_len sl then _ else _) as [out s2].
    destruct (set_idx sd x out) as [sd2| | |]; cbn [bind] in *; try reflexivity.
    destruct (s2 =? 0); [reflexivity|].
    destruct (idx (d_fat d) sid); cbn [bind] in *; try reflexivity. apply IH; [lia|auto].
Qed.
Lemma root_mono : forall f f' d sid size x sd, (f <= f')%nat -> root_loop f d sid size x sd <> NoFuel -> root_loop f' d sid size x sd = root_loop f d sid size x sd.
Proof.
  induction f as [|f IH]; intros f' d sid size x sd Hf E.
  - cbn [root_loop] in *. destruct (is_end sid) eqn:Es; [|elim E; reflexivity]. destruct f'; cbn [root_loop]; rewrite Es; reflexivity.
  - destruct f' as [|f']; [lia|]. cbn [root_loop] in *. destruct (is_end sid); [reflexivity|]. cbv zeta in *.
    destruct (sl_range _ _ _) as [sl| | |]; cbn [bind] in *; try reflexivity.
    destruct (if size <? sl_len sl then _ else _) as [[s1 s2]| | |]; cbn [bind] in *; try reflexivity.
    destruct (set_idx sd x s1) as [sd2| | |]; cbn [bind] in *; try reflexivity.
    destruct (idx (d_fat d) sid); cbn [bind] in *; try reflexivity. apply IH; [lia|auto].
Qed.
Lemma mini_mono : forall f f' d fsd sid size x sd, (f <= f')%nat -> mini_loop f d fsd sid size x sd <> NoFuel -> mini_loop f' d fsd sid size x sd = mini_loop f d fsd sid size x sd.
Proof.
  induction f as [|f IH]; intros f' d fsd sid size x sd Hf E.
  - cbn [mini_loop] in *. destruct (is_end sid) eqn:Es; [|elim E; reflexivity]. destruct f'; cbn [mini_loop]; rewrite Es; reflexivity.
  - destruct f' as [|f']; [lia|]. cbn [mini_loop] in *. destruct (is_end sid); [reflexivity|]. cbv zeta in *.
    destruct (idx fsd _) as [da| | |]; cbn [bind] in *; try reflexivity.
    destruct (sl_range _ _ _) as [sl| | |]; cbn [bind] in *; try reflexivity.
    destruct (if size <? sl_len sl then _ else _) as [out s2].
    destruct (set_idx sd x out) as [sd2| | |]; cbn [bind] in *; try reflexivity.
    destruct (idx (d_minifat d) sid); cbn [bind] in *; try reflexivity. apply IH; [lia|auto].
Qed.
Lemma reader_mono : forall f f' d sid size, (f <= f')%nat -> get_stream_reader f d sid size <> NoFuel -> get_stream_reader f' d sid size = get_stream_reader f d sid size.
Proof.
  intros f f' d sid size Hf E. unfold get_stream_reader in *. cbv zeta in *.
  rewrite (stream_mono f f'); auto. intros Q. rewrite Q in E. apply E. reflexivity.
Qed.
Lemma mini_reader_mono : forall f f' d sid size, (f <= f')%nat -> get_mini_stream_reader f d sid size <> NoFuel -> get_mini_stream_reader f' d sid size = get_mini_stream_reader f d sid size.
Proof.
  intros f f' d sid size Hf E. unfold get_mini_stream_reader in *. cbv zeta in *.
  rewrite (root_mono f f'); auto; [|intros Q; rewrite Q in E; apply E; reflexivity].
  destruct (root_loop f _ _ _ _ _); cbn [bind] in *; try reflexivity.
  rewrite (mini_mono f f'); auto. intros Q. rewrite Q in E. apply E. reflexivity.
Qed.
Lemma doc_open_mono : forall f f' d name, (f <= f')%nat -> doc_open f d name <> NoFuel -> doc_open f' d name = doc_open f d name.
Proof.
  intros f f' d name Hf. unfold doc_open. generalize (d_dir d). induction l as [|e l IH]; cbn [open_loop]; intros E; [reflexivity|].
  destruct (dir_string e); cbn [bind] in *; try reflexivity.
  destruct (str_eqb _ _ && _); [|apply IH; auto].
  destruct (de_size e <? _); [apply mini_reader_mono; auto|]. destruct (negb _); [apply reader_mono; auto|apply IH; auto].
Qed.

(** doc_open gives a fresh reader *)
Lemma reader_new : forall f d sid size r, get_stream_reader f d sid size = Ok r -> exists sd, r = new_sreader sd.
Proof.
  intros f d sid size r H. unfold get_stream_reader in H. cbv zeta in H. destruct (stream_loop _ _ _ _ _ _) as [[s sd]| | |]; cbn [bind] in H; try discriminate.
  destruct (negb _); [discriminate|]. injection H as <-. eauto.
Qed.
Lemma mini_reader_new : forall f d sid size r, get_mini_stream_reader f d sid size = Ok r -> exists sd, r = new_sreader sd.
Proof.
  intros f d sid size r H. unfold get_mini_stream_reader in H. cbv zeta in H. destruct (root_loop _ _ _ _ _ _) as [fsd| | |]; cbn [bind] in H; try discriminate.
  destruct (mini_loop _ _ _ _ _ _ _); cbn [bind] in H; try discriminate. injection H as <-. eauto.
Qed.
Lemma doc_open_new : forall f d name r, doc_open f d name = Ok r -> exists sd, r = new_sreader sd.
Proof.
  intros f d name r. unfold doc_open. generalize (d_dir d). induction l as [|e l IH]; cbn [open_loop]; intros H; [discriminate|].
  destruct (dir_string e); cbn [bind] in *; try discriminate.
  destruct (str_eqb _ _ && _); [|apply IH; auto].
  destruct (de_size e <? _); [eapply mini_reader_new; eauto|]. destruct (negb _); [eapply reader_new; eauto|apply IH; auto].
Qed.
