(** * P_cipher: what the decrypting loader makes of a stream, exactly (for C108). *)
From Verif Require Import GoBase GoCrypto L_base M_crypto M_biff S_crypto L_crypto S_biff L_biff S_cfb L_cfb S_table S_loads.
From Coq Require Import Lia ZifyBool ZifyNat.

(** ** pieces *)
Lemma body_prefix : forall t size, 0 <= size -> 0 <= clear_prefix t size <= body_len t size.
Proof. intros t size H. unfold clear_prefix, body_len. destruct (existsb _ _); [lia|]. destruct (_ =? _); lia. Qed.
Lemma pieces_nil : forall rest, pieces rest [] <-> zlen rest <= 4.
Proof.
  intros rest. split; [intros (tail & -> & _ & H & _); exact H|]. intros H. exists rest. split; [reflexivity|]. split; [constructor|]. split; [exact H|]. intros _ [|? cs'] c E; discriminate E.
Qed.
Lemma zlen_piece : forall t size body, zlen (piece_bytes (t, size, body)) = 4 + zlen body.
Proof. intros. unfold piece_bytes. rewrite !zlen_app, !zlen_put16. lia. Qed.
Lemma pieces_cons : forall rest c cs, pieces rest (c :: cs) <-> exists rest', rest = piece_bytes c ++ rest' /\ piece_ok c /\ 4 < zlen rest /\ pieces rest' cs.
Proof.
  intros rest [[t size] body] cs. split.
  - intros (tail & -> & F & L & N). inversion F as [|? ? O F']; subst. exists (concat (map piece_bytes cs) ++ tail). split; [cbn [map concat]; rewrite <- app_assoc; reflexivity|]. split; [exact O|]. split.
    + cbn [map concat]. rewrite !zlen_app, zlen_piece. pose proof (zlen_nonneg _ body). pose proof (zlen_nonneg _ tail). pose proof (zlen_nonneg _ (concat (map piece_bytes cs))).
      destruct (Z_lt_ge_dec 0 (zlen body + zlen (concat (map piece_bytes cs)) + zlen tail)) as [P|P]; [lia|]. exfalso.
      assert (TN : tail = []) by (apply zlen_0; lia). assert (BN : body = []) by (apply zlen_0; lia). destruct cs as [|[[a b] d] cs]; [|cbn [map concat] in P; rewrite zlen_app, zlen_piece in P; pose proof (zlen_nonneg _ d); pose proof (zlen_nonneg _ (concat (map piece_bytes cs))); lia].
      apply (N TN [] (t, size, body) eq_refl). exact BN.
    + exists tail. split; [reflexivity|]. split; [exact F'|]. split; [exact L|]. intros TN cs' c E. apply (N TN ((t, size, body) :: cs') c). rewrite E. reflexivity.
  - intros (rest' & -> & O & L4 & (tail & -> & F & L & N)). exists tail. split; [cbn [map concat]; rewrite <- app_assoc; reflexivity|]. split; [constructor; auto|]. split; [exact L|]. intros TN cs' c E. destruct cs' as [|c' cs'].
    + cbn [app] in E. injection E as <- ->. cbn [snd map concat app] in *. subst tail. rewrite zlen_app, zlen_piece in L4. change (zlen (@nil Z)) with 0 in L4. intros ->. change (zlen (@nil Z)) with 0 in L4. lia.
    + cbn [app] in E. injection E as _ E. apply (N TN cs' c E).
Qed.

(** ** one round *)
Lemma beyond : forall fuel raw pos dec ovs x, zlen (dat raw) < pos -> decrypt_loop fuel raw pos dec ovs <> Ok x.
Proof.
  intros [|fuel] raw pos dec ovs x H E; cbn [decrypt_loop] in E; [discriminate|]. unfold sl_from, sl_len in E. destruct ((0 <=? pos) && (pos <=? zlen (dat raw))) eqn:C; [lia|]. discriminate E.
Qed.
Definition fed_piece (t size : Z) (body : bytes) : bytes :=
  put16 t ++ put16 size ++ repeat 0 (Z.to_nat (clear_prefix t size)) ++ zdrop (clear_prefix t size) body.
Lemma zlen_fed_piece : forall t size body, piece_ok (t, size, body) -> zlen (fed_piece t size body) = 4 + zlen body.
Proof.
  intros t size body (_ & S & L & _). pose proof (body_prefix t size ltac:(lia)). unfold fed_piece. rewrite !zlen_app, !zlen_put16, zlen_repeat, zlen_zdrop by lia. lia.
Qed.
Lemma le16_of_put16 : forall x, 0 <= x < 65536 -> le16 (put16 x) = Ok x.
Proof. intros x H. rewrite <- (app_nil_r (put16 x)). apply le16_put16. exact H. Qed.
(** the beginning of a round: the two numbers are read and written into the decryptor *)
Lemma round_head : forall fuel pre t size more sp key dec ovs w, 0 <= t < 65536 -> 0 <= size < 65536 -> 0 < zlen more -> holds dec key 0 [] w ->
  exists d2, holds d2 key 0 [] (w ++ put16 t ++ put16 size) /\
  let raw := mkSl (pre ++ put16 t ++ put16 size ++ more) sp in let pos := zlen pre + 4 in
  decrypt_loop (S fuel) raw (zlen pre) dec ovs =
    ('(odata, pos, dec, tocopy) <-
       (if exempt t then d <- sl_range raw pos (pos + size) ;; z <- zeros_to size ;; dec <- w_write d2 z ;; Ok (dat d, pos + size, dec, 0)
        else if t =? RecTypeBoundSheet8 then d <- sl_range raw pos (pos + 4) ;; z <- zeros_to 4 ;; dec <- w_write d2 z ;; Ok (dat d, pos + 4, dec, size - 4)
        else Ok ([], pos, d2, size)) ;;
     '(pos, dec) <- (if 0 <? tocopy then d <- sl_range raw pos (pos + tocopy) ;; dec <- w_write dec (dat d) ;; Ok (pos + tocopy, dec) else Ok (pos, dec)) ;;
     decrypt_loop fuel raw pos dec (ovs ++ [mkOv (zlen pre) t size odata])).
Proof.
  intros fuel pre t size more sp key dec ovs w Ht Hs Hm H. destruct (write_ok dec key 0 [] w (put16 t) H) as (d1 & W1 & H1 & _). destruct (write_ok d1 key 0 [] _ (put16 size) H1) as (d2 & W2 & H2 & _).
  exists d2. split; [rewrite <- app_assoc in H2; exact H2|]. intros raw pos. pose proof (zlen_nonneg _ pre).
  cbn [decrypt_loop]. unfold sl_from at 1. unfold raw, sl_len at 1. cbn [dat spare]. rewrite !zlen_app, !zlen_put16. replace ((0 <=? zlen pre) && (zlen pre <=? zlen pre + (2 + (2 + zlen more)))) with true by lia. cbn [bind]. unfold sl_len at 1. cbn [dat].
  rewrite zdrop_app_exact, !zlen_app, !zlen_put16. replace (negb (4 <? 2 + (2 + zlen more))) with false by lia.
  destruct (sl_range_app pre (put16 t) (put16 size ++ more) sp (zlen pre) (zlen pre + 2)) as (s1 & R1); [auto|rewrite zlen_put16; lia|]. rewrite R1. cbn [bind dat]. rewrite le16_of_put16 by exact Ht. cbn [bind].
  destruct (sl_range_app (pre ++ put16 t) (put16 size) more sp (zlen pre + 2) (zlen pre + 4)) as (s2 & R2); [rewrite zlen_app, zlen_put16; lia|rewrite zlen_app, !zlen_put16; lia|]. rewrite <- app_assoc in R2. rewrite R2. cbn [bind dat]. rewrite le16_of_put16 by exact Hs. cbn [bind].
  rewrite W1. cbn [bind]. rewrite W2. cbn [bind]. reflexivity.
Qed.
Lemma in_clear : forall t, existsb (Z.eqb t) clear_types = true <-> In t clear_types.
Proof. intros t. rewrite existsb_exists. split; [intros (x & I & E); apply Z.eqb_eq in E; subst; exact I|]. intros I. exists t. split; [exact I|apply Z.eqb_refl]. Qed.
Lemma round_ok : forall fuel pre t size body more sp key dec ovs w, piece_ok (t, size, body) -> 0 < zlen (body ++ more) -> holds dec key 0 [] w ->
  let raw := mkSl (pre ++ piece_bytes (t, size, body) ++ more) sp in
  exists dec', decrypt_loop (S fuel) raw (zlen pre) dec ovs = decrypt_loop fuel raw (zlen pre + 4 + zlen body) dec' (ovs ++ [mkOv (zlen pre) t size (ztake (clear_prefix t size) body)]) /\
    holds dec' key 0 [] (w ++ fed_piece t size body).
Proof.
  intros fuel pre t size body more sp key dec ovs w (Ht & Hs & Lb & Hc) Hm H. destruct (round_head fuel pre t size (body ++ more) sp key dec ovs w Ht Hs Hm H) as (d2 & H2 & E). intros raw.
  assert (ER : raw = mkSl (pre ++ put16 t ++ put16 size ++ body ++ more) sp) by (unfold raw, piece_bytes; rewrite <- !app_assoc; reflexivity). rewrite ER. cbv zeta in E. rewrite E. clear E ER raw.
  set (P4 := pre ++ put16 t ++ put16 size). assert (LP : zlen P4 = zlen pre + 4) by (unfold P4; rewrite !zlen_app, !zlen_put16; lia).
  replace (pre ++ put16 t ++ put16 size ++ body ++ more) with (P4 ++ body ++ more) by (unfold P4; rewrite <- !app_assoc; reflexivity).
  rewrite exempt_spec. unfold fed_piece, clear_prefix. unfold body_len in Lb. destruct (existsb (Z.eqb t) clear_types) eqn:EX.
  - destruct (sl_range_app P4 body more sp (zlen pre + 4) (zlen pre + 4 + size)) as (s3 & R3); [lia|lia|]. rewrite R3. cbn [bind dat]. unfold zeros_to. replace (size <=? 8224) with true by (apply in_clear in EX; specialize (Hc EX); lia). cbn [bind].
    destruct (write_ok d2 key 0 [] _ (repeat 0 (Z.to_nat size)) H2) as (d3 & W3 & H3 & _). rewrite W3. cbn [bind]. change (0 <? 0) with false. cbn [bind]. exists d3. rewrite ztake_all by lia. rewrite Lb. split; [reflexivity|]. rewrite zdrop_all by lia. rewrite app_nil_r. rewrite <- !app_assoc in H3. exact H3.
  - change RecTypeBoundSheet8 with BOUNDSHEET. destruct (t =? BOUNDSHEET).
    + destruct (sl_range_app P4 (ztake 4 body) (zdrop 4 body ++ more) sp (zlen pre + 4) (zlen pre + 4 + 4)) as (s3 & R3); [lia|rewrite zlen_ztake; lia|]. rewrite (app_assoc (ztake 4 body)), ztake_zdrop in R3. rewrite R3. cbn [bind dat].
      change (zeros_to 4) with (Ok (repeat 0 (Z.to_nat 4))). cbn [bind]. destruct (write_ok d2 key 0 [] _ (repeat 0 (Z.to_nat 4)) H2) as (d3 & W3 & H3 & _). rewrite W3. cbn [bind].
      destruct (Z.ltb_spec 0 (size - 4)).
      * destruct (sl_range_app (P4 ++ ztake 4 body) (zdrop 4 body) more sp (zlen pre + 4 + 4) (zlen pre + 4 + 4 + (size - 4))) as (s4 & R4); [rewrite zlen_app, zlen_ztake; lia|rewrite zlen_app, zlen_ztake, zlen_zdrop; lia|].
        rewrite <- (app_assoc P4), (app_assoc (ztake 4 body)), ztake_zdrop in R4. rewrite R4. cbn [bind dat]. destruct (write_ok d3 key 0 [] _ (zdrop 4 body) H3) as (d4 & W4 & H4 & _). rewrite W4. cbn [bind]. exists d4. split; [f_equal; lia|]. rewrite <- !app_assoc in H4. exact H4.
      * cbn [bind]. exists d3. split; [f_equal; lia|]. rewrite zdrop_all by lia. rewrite app_nil_r. rewrite <- !app_assoc in H3. exact H3.
    + cbn [bind]. change (Z.to_nat 0) with 0%nat. cbn [repeat app]. rewrite zdrop_0. change (ztake 0 body) with (@nil Z). destruct (Z.ltb_spec 0 size).
      * destruct (sl_range_app P4 body more sp (zlen pre + 4) (zlen pre + 4 + size)) as (s4 & R4); [lia|lia|]. rewrite R4. cbn [bind dat]. destruct (write_ok d2 key 0 [] _ body H2) as (d4 & W4 & H4 & _). rewrite W4. cbn [bind]. exists d4. split; [f_equal; lia|]. rewrite <- !app_assoc in H4. exact H4.
      * cbn [bind]. assert (BN : body = []) by (apply zlen_0; lia). subst body. exists d2. split; [f_equal; change (zlen (@nil Z)) with 0; lia|]. rewrite app_nil_r. exact H2.
Qed.
(** a piece that does not fit, or a clear one that is too long *)
Lemma round_bad : forall fuel pre t size more sp key dec ovs w x, 0 <= t < 65536 -> 0 <= size < 65536 -> 0 < zlen more -> holds dec key 0 [] w ->
  zlen more < body_len t size \/ (In t clear_types /\ 8224 < size) ->
  decrypt_loop (S fuel) (mkSl (pre ++ put16 t ++ put16 size ++ more) sp) (zlen pre) dec ovs <> Ok x.
Proof.
  intros fuel pre t size more sp key dec ovs w x Ht Hs Hm H BAD E. destruct (round_head fuel pre t size more sp key dec ovs w Ht Hs Hm H) as (d2 & H2 & E2). cbv zeta in E2. rewrite E2 in E. clear E2.
  set (raw := mkSl (pre ++ put16 t ++ put16 size ++ more) sp) in *. assert (LR : zlen (dat raw) = zlen pre + 4 + zlen more) by (unfold raw; cbn [dat]; rewrite !zlen_app, !zlen_put16; lia).
  rewrite exempt_spec in E. unfold body_len in BAD. destruct (existsb (Z.eqb t) clear_types) eqn:EX.
  - destruct (sl_range raw (zlen pre + 4) (zlen pre + 4 + size)) as [s| | |]; try discriminate E. cbn [bind] in E. unfold zeros_to in E. destruct (Z.leb_spec size 8224); [|discriminate E]. cbn [bind] in E.
    destruct (w_write _ _) as [d3| | |]; try discriminate E. cbn [bind] in E. change (0 <? 0) with false in E. cbn [bind] in E. eapply beyond; [|exact E]. destruct BAD as [BAD|[? BAD]]; [lia|first [contradiction|lia]].
  - assert (NI : ~ In t clear_types) by (rewrite <- in_clear, EX; discriminate). change RecTypeBoundSheet8 with BOUNDSHEET in E. destruct (t =? BOUNDSHEET).
    + destruct (sl_range raw (zlen pre + 4) (zlen pre + 4 + 4)) as [s| | |]; try discriminate E. cbn [bind] in E. change (zeros_to 4) with (Ok (repeat 0 (Z.to_nat 4))) in E. cbn [bind] in E. destruct (w_write _ _) as [d3| | |]; try discriminate E. cbn [bind] in E.
      destruct (Z.ltb_spec 0 (size - 4)).
      * destruct (sl_range raw (zlen pre + 4 + 4) _) as [s2| | |]; try discriminate E. cbn [bind] in E. destruct (w_write _ _) as [d4| | |]; try discriminate E. cbn [bind] in E. eapply beyond; [|exact E]. destruct BAD as [BAD|[? BAD]]; [lia|first [contradiction|lia]].
      * cbn [bind] in E. eapply beyond; [|exact E]. destruct BAD as [BAD|[? BAD]]; [lia|first [contradiction|lia]].
    + cbn [bind] in E. destruct (Z.ltb_spec 0 size); [|destruct BAD as [BAD|[? BAD]]; [lia|contradiction]]. destruct (sl_range raw (zlen pre + 4) _) as [s2| | |]; try discriminate E. cbn [bind] in E. destruct (w_write _ _) as [d4| | |]; try discriminate E. cbn [bind] in E. eapply beyond; [|exact E]. destruct BAD as [BAD|[? BAD]]; [lia|first [contradiction|lia]].
Qed.

(** ** all rounds *)
Fixpoint piece_feeds (cs : list piece) : bytes := match cs with [] => [] | (t, size, body) :: cs => fed_piece t size body ++ piece_feeds cs end.
Fixpoint piece_ovls (pos : Z) (cs : list piece) : list overlay :=
  match cs with [] => [] | (t, size, body) :: cs => mkOv pos t size (ztake (clear_prefix t size) body) :: piece_ovls (pos + 4 + zlen body) cs end.
(** any bytes begin with two numbers, if there are enough *)
Lemma two_numbers : forall rest, bytes_ok rest -> 4 < zlen rest -> exists t size more, rest = put16 t ++ put16 size ++ more /\ 0 <= t < 65536 /\ 0 <= size < 65536 /\ 0 < zlen more.
Proof.
  intros [|a [|b [|c [|d more]]]] B H; try (unfold zlen in H; cbn [List.length] in H; lia). unfold bytes_ok in B. inversion B as [|? ? Ba B1]; subst. inversion B1 as [|? ? Bb B2]; subst. inversion B2 as [|? ? Bc B3]; subst. inversion B3 as [|? ? Bd B4]; subst.
  exists (a + 256 * b), (c + 256 * d), more. assert (P : forall x y, 0 <= x < 256 -> 0 <= y < 256 -> put16 (x + 256 * y) = [x; y]).
  { intros x y Hx Hy. unfold put16. f_equal; [|f_equal]; [rewrite Z.mul_comm, Z_mod_plus_full; apply Z.mod_small; lia|]. rewrite Z.mul_comm, Z_div_plus_full by lia. rewrite (Z.div_small x 256) by lia. rewrite Z.mod_small by lia. lia. }
  rewrite !P by auto. split; [reflexivity|]. unfold zlen in *. cbn [List.length] in *. lia.
Qed.
Lemma loop_inv : forall fuel pre rest sp key dec ovs w dec' ovs', bytes_ok rest -> holds dec key 0 [] w ->
  decrypt_loop fuel (mkSl (pre ++ rest) sp) (zlen pre) dec ovs = Ok (dec', ovs') ->
  exists cs, pieces rest cs /\ ovs' = ovs ++ piece_ovls (zlen pre) cs /\ holds dec' key 0 [] (w ++ piece_feeds cs).
Proof.
  induction fuel as [|fuel IH]; intros pre rest sp key dec ovs w dec' ovs' B H E; [discriminate E|].
  destruct (Z_lt_ge_dec 4 (zlen rest)) as [L|L].
  - destruct (two_numbers rest B L) as (t & size & more & -> & Ht & Hs & Hm).
    destruct (Z_lt_ge_dec (zlen more) (body_len t size)) as [S|S]; [exfalso; eapply round_bad; [exact Ht|exact Hs|exact Hm|exact H| |exact E]; auto|].
    assert (O : piece_ok (t, size, ztake (body_len t size) more)).
    { split; [exact Ht|]. split; [exact Hs|]. pose proof (body_prefix t size ltac:(lia)). split; [rewrite zlen_ztake; lia|]. intros I. destruct (Z_lt_ge_dec 8224 size) as [S2|S2]; [|lia]. exfalso. eapply round_bad; [exact Ht|exact Hs|exact Hm|exact H| |exact E]. auto. }
    revert O E. pose proof (ztake_zdrop _ (body_len t size) more) as Q. set (body := ztake (body_len t size) more) in *. set (mr := zdrop (body_len t size) more) in *. clearbody body mr. subst more. intros O E.
    replace (put16 t ++ put16 size ++ body ++ mr) with (piece_bytes (t, size, body) ++ mr) in * by (unfold piece_bytes; rewrite <- !app_assoc; reflexivity).
    destruct (round_ok fuel pre t size body mr sp key dec ovs w O Hm H) as (d & E2 & H2). rewrite E2 in E. rewrite app_assoc in E. replace (zlen pre + 4 + zlen body) with (zlen (pre ++ piece_bytes (t, size, body))) in E by (rewrite zlen_app, zlen_piece; lia).
    apply (IH _ mr sp key d _ (w ++ fed_piece t size body)) in E; [|unfold bytes_ok in *; apply Forall_app in B; tauto|exact H2]. destruct E as (cs & P & -> & H3). exists ((t, size, body) :: cs). split; [apply pieces_cons; exists mr; split; [reflexivity|]; split; [exact O|]; split; [lia|exact P]|].
    cbn [piece_ovls piece_feeds]. rewrite zlen_app, zlen_piece, Z.add_assoc, <- app_assoc in *. split; [reflexivity|]. exact H3.
  - exists []. cbn [decrypt_loop] in E. unfold sl_from, sl_len in E. cbn [dat spare] in E. rewrite zlen_app in E. pose proof (zlen_nonneg _ pre). pose proof (zlen_nonneg _ rest). replace ((0 <=? zlen pre) && (zlen pre <=? zlen pre + zlen rest)) with true in E by lia. cbn [bind dat] in E. rewrite zdrop_app_exact in E.
    replace (negb (4 <? zlen rest)) with true in E by lia. injection E as <- <-. split; [apply pieces_nil; lia|]. cbn [piece_ovls piece_feeds]. rewrite !app_nil_r. auto.
Qed.
Lemma loop_runs : forall cs fuel pre rest sp key dec ovs w, pieces rest cs -> holds dec key 0 [] w -> (List.length rest < fuel)%nat ->
  exists dec', decrypt_loop fuel (mkSl (pre ++ rest) sp) (zlen pre) dec ovs = Ok (dec', ovs ++ piece_ovls (zlen pre) cs) /\ holds dec' key 0 [] (w ++ piece_feeds cs).
Proof.
  induction cs as [|[[t size] body] cs IH]; intros fuel pre rest sp key dec ovs w P H HF; (destruct fuel as [|fuel]; [lia|]).
  - apply pieces_nil in P. exists dec. cbn [decrypt_loop]. unfold sl_from, sl_len. cbn [dat spare]. rewrite zlen_app. pose proof (zlen_nonneg _ pre). pose proof (zlen_nonneg _ rest). replace ((0 <=? zlen pre) && (zlen pre <=? zlen pre + zlen rest)) with true by lia. cbn [bind dat]. rewrite zdrop_app_exact.
    replace (negb (4 <? zlen rest)) with true by lia. cbn [piece_ovls piece_feeds]. rewrite !app_nil_r. auto.
  - apply pieces_cons in P. destruct P as (rest' & -> & O & L & P). rewrite zlen_app, zlen_piece in L. destruct (round_ok fuel pre t size body rest' sp key dec ovs w O ltac:(rewrite zlen_app; lia) H) as (d & E & H2). rewrite E. rewrite app_assoc.
    replace (zlen pre + 4 + zlen body) with (zlen (pre ++ piece_bytes (t, size, body))) by (rewrite zlen_app, zlen_piece; lia).
    destruct (IH fuel (pre ++ piece_bytes (t, size, body)) rest' sp key d (ovs ++ [mkOv (zlen pre) t size (ztake (clear_prefix t size) body)]) _ P H2) as (d' & E2 & H3).
    { rewrite app_length in HF. pose proof (zlen_piece t size body) as Q. unfold zlen in Q. lia. }
    exists d'. rewrite E2. cbn [piece_ovls piece_feeds]. rewrite zlen_app, zlen_piece, Z.add_assoc, <- app_assoc. split; [reflexivity|]. rewrite <- app_assoc in H3. exact H3.
Qed.

(** ** the overlays *)
Lemma apply_piece : forall key pos t size body A B, zlen A = pos -> piece_ok (t, size, body) -> let k := clear_prefix t size in
  apply_overlay (A ++ crypt key pos (fed_piece t size body) ++ B) (mkOv pos t size (ztake k body)) = Ok (A ++ put16 t ++ put16 size ++ ztake k body ++ crypt key (pos + 4 + k) (zdrop k body) ++ B).
Proof.
  intros key pos t size body A B LA (_ & S & Lb & _) k. pose proof (body_prefix t size ltac:(lia)) as HC. fold k in HC. rewrite <- Lb in HC.
  unfold fed_piece. fold k. rewrite !crypt_app, !zlen_put16, zlen_repeat, Z2Nat.id by lia. replace (pos + 2 + 2 + k) with (pos + 4 + k) by lia. set (EP := crypt key (pos + 4 + k) (zdrop k body)).
  unfold apply_overlay. cbn [ov_pos ov_type ov_size ov_data].
  assert (L2 : forall p x, zlen (crypt key p (put16 x)) = 2) by (intros; rewrite crypt_length; reflexivity).
  rewrite <- !app_assoc. rewrite put16_at_mid by auto. cbn [bind].
  rewrite (app_assoc A (put16 t)). rewrite put16_at_mid by (auto; rewrite zlen_app, zlen_put16; lia). cbn [bind]. rewrite zlen_ztake by lia. rewrite <- !app_assoc.
  destruct (Z.ltb_spec 0 k).
  - replace (A ++ put16 t ++ put16 size ++ crypt key (pos + 2 + 2) (repeat 0 (Z.to_nat k)) ++ EP ++ B)
      with ((A ++ put16 t ++ put16 size) ++ crypt key (pos + 2 + 2) (repeat 0 (Z.to_nat k)) ++ EP ++ B) by (rewrite <- !app_assoc; reflexivity).
    rewrite copy_at_mid.
    + rewrite <- !app_assoc. reflexivity.
    + rewrite !zlen_app, !zlen_put16. lia.
    + rewrite zlen_ztake, crypt_length, zlen_repeat by lia. lia.
  - assert (K0 : k = 0) by lia. rewrite K0. change (Z.to_nat 0) with 0%nat. cbn [repeat]. change (ztake 0 body) with (@nil Z). reflexivity.
Qed.
Lemma apply_pieces : forall cs key pos A, zlen A = pos -> Forall piece_ok cs ->
  apply_overlays (A ++ crypt key pos (piece_feeds cs)) (piece_ovls pos cs) = Ok (A ++ deciphered key pos cs).
Proof.
  induction cs as [|[[t size] body] cs IH]; intros key pos A LA F; cbn [piece_feeds piece_ovls apply_overlays deciphered]; [reflexivity|]. inversion F as [|? ? O F']; subst. rewrite crypt_app, zlen_fed_piece by exact O.
  rewrite apply_piece by auto. cbn [bind]. destruct O as (_ & S & Lb & _). pose proof (body_prefix t size ltac:(lia)) as HC. rewrite <- Lb in HC.
  replace (A ++ put16 t ++ put16 size ++ ztake (clear_prefix t size) body ++ crypt key (zlen A + 4 + clear_prefix t size) (zdrop (clear_prefix t size) body) ++ crypt key (zlen A + (4 + zlen body)) (piece_feeds cs))
    with ((A ++ put16 t ++ put16 size ++ ztake (clear_prefix t size) body ++ crypt key (zlen A + 4 + clear_prefix t size) (zdrop (clear_prefix t size) body)) ++ crypt key (zlen A + 4 + zlen body) (piece_feeds cs)) by (rewrite <- !app_assoc; do 6 f_equal; lia).
  rewrite IH; [rewrite <- !app_assoc; reflexivity| |exact F']. rewrite !zlen_app, !zlen_put16, crypt_length, zlen_ztake, zlen_zdrop by lia. lia.
Qed.
Lemma pieces_ok : forall rest cs, pieces rest cs -> Forall piece_ok cs.
Proof. intros rest cs (tail & _ & F & _). exact F. Qed.
(** What the decrypting loader makes of a stream. *)
Theorem C108_deciphers : forall raw sp dec key plain, bytes_ok raw -> holds dec key 0 [] [] ->
  (decrypt_stream (mkSl raw sp) dec = Ok plain <-> exists cs, pieces raw cs /\ plain = deciphered key 0 cs).
Proof.
  intros raw sp dec key plain B H. unfold decrypt_stream. cbn [dat]. split.
  - intros E. destruct (decrypt_loop _ _ _ _ _) as [[d o]| | |] eqn:EL; try discriminate E. cbn [bind] in E. apply (loop_inv _ [] raw sp key dec [] []) in EL; auto. destruct EL as (cs & P & -> & HD). exists cs. split; [exact P|].
    destruct (flush_ok _ _ _ _ _ HD) as (d2 & E2 & Bf & _). rewrite E2 in E. cbn [bind] in E. rewrite Bf in E. change (0 * 1024) with 0 in E. cbn [app] in E. change (zlen []) with 0 in E. pose proof (apply_pieces cs key 0 [] eq_refl (pieces_ok _ _ P)) as AP. cbn [app] in AP. rewrite AP in E. injection E as <-. reflexivity.
  - intros (cs & P & ->). destruct (loop_runs cs (S (List.length raw)) [] raw sp key dec [] [] P H ltac:(lia)) as (d & EL & HD). change (zlen (@nil Z)) with 0 in EL. cbn [app] in EL, HD. rewrite EL. cbn [bind].
    destruct (flush_ok _ _ _ _ _ HD) as (d2 & E2 & Bf & _). rewrite E2. cbn [bind]. rewrite Bf. change (0 * 1024) with 0. apply (apply_pieces cs key 0 [] eq_refl (pieces_ok _ _ P)).
Qed.
