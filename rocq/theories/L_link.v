(** * L_link: decodeHyperlinks on arbitrary bytes. *)
From Verif Require Import GoBase GoUnicode L_base M_hlink S_cfb L_cfb S_link L_table.
From Coq Require Import ZifyBool.

Section Link.
Variables p sp : bytes.
Hypothesis Bp : bytes_ok p.
Hypothesis Bs : bytes_ok sp.
Notation q := (p ++ sp).
Notation at_ a := (mkSl (zdrop a p) sp).

Lemma zq : zlen q = zlen p + zlen sp. Proof. apply zlen_app. Qed.
Lemma full_at : forall a, 0 <= a <= zlen p -> sl_full (at_ a) = zdrop a q.
Proof. intros a H. unfold sl_full. cbn [dat spare]. rewrite zdrop_app_le by lia. reflexivity. Qed.
Lemma field_q : forall a n, 0 <= a -> 0 <= n -> a + n <= zlen p -> field q a n = field p a n.
Proof.
  intros a n A N L. unfold field. rewrite zdrop_app_le by lia. f_equal. pose proof (zlen_zdrop _ p a ltac:(lia)) as Z1.
  unfold ztake. rewrite firstn_app. replace (Z.to_nat n - List.length (zdrop a p))%nat with 0%nat by (unfold zlen in *; lia). rewrite firstn_O, app_nil_r. reflexivity.
Qed.
Lemma field_nonneg : forall l a n, bytes_ok l -> 0 <= field l a n.
Proof. intros l a n B. unfold field. pose proof (bytes_ok_ztake _ n (bytes_ok_zdrop _ a B)) as H. induction H; cbn [le_val]; lia. Qed.
Lemma field4_lt : forall l a, bytes_ok l -> 0 <= field l a 4 < 4294967296.
Proof.
  intros l a B. split; [apply field_nonneg; auto|]. unfold field. pose proof (bytes_ok_ztake _ 4 (bytes_ok_zdrop _ a B)) as H.
  assert (L : (List.length (ztake 4 (zdrop a l)) <= 4)%nat) by (unfold ztake; rewrite firstn_length; change (Z.to_nat 4) with 4%nat; lia).
  destruct (ztake 4 (zdrop a l)) as [|b0 [|b1 [|b2 [|b3 [|? ?]]]]]; cbn [le_val]; repeat (match goal with H : bytes_ok (_ :: _) |- _ => inversion H; clear H; subst | H : Forall _ (_ :: _) |- _ => inversion H; clear H; subst end); try (cbn [List.length] in L); lia.
Qed.
Lemma Bq : bytes_ok q. Proof. apply bytes_ok_app; auto. Qed.

Lemma from_at : forall a k, 0 <= a <= zlen p -> 0 <= k -> sl_from (at_ a) k = if a + k <=? zlen p then Ok (at_ (a + k)) else Panic.
Proof.
  intros a k A K. unfold sl_from, sl_len. cbn [dat spare]. rewrite zlen_zdrop by lia. destruct (Z.leb_spec 0 k); [|lia]. cbn [andb].
  destruct (Z.leb_spec k (zlen p - a)), (Z.leb_spec (a + k) (zlen p)); try lia; [|reflexivity]. rewrite zdrop_zdrop by lia. replace (k + a) with (a + k) by lia. reflexivity.
Qed.
Lemma le32_at : forall a, 0 <= a <= zlen p -> le32 (zdrop a p) = if a + 4 <=? zlen p then Ok (field p a 4) else Panic.
Proof.
  intros a A. pose proof (zlen_zdrop _ p a ltac:(lia)). destruct (Z.leb_spec (a + 4) (zlen p)); [rewrite le32_val by lia; reflexivity|apply le32_short; lia].
Qed.
Lemma le16_at : forall a, 0 <= a <= zlen p -> le16 (zdrop a p) = if a + 2 <=? zlen p then Ok (field p a 2) else Panic.
Proof.
  intros a A. pose proof (zlen_zdrop _ p a ltac:(lia)). destruct (Z.leb_spec (a + 2) (zlen p)); [rewrite le16_val by lia; reflexivity|apply le16_short; lia].
Qed.
Lemma range_at : forall a k n, 0 <= a <= zlen p -> 0 <= k -> 0 <= n ->
  if a + k + n <=? zlen q then exists s', sl_range (at_ a) k (k + n) = Ok (mkSl (ztake n (zdrop (a + k) q)) s') else sl_range (at_ a) k (k + n) = Panic.
Proof.
  intros a k n A K N. unfold sl_range. rewrite full_at by auto. pose proof zq. pose proof (zlen_nonneg _ sp). rewrite zlen_zdrop by lia.
  destruct (Z.leb_spec 0 k); [|lia]. destruct (Z.leb_spec k (k + n)); [|lia]. cbn [andb].
  destruct (Z.leb_spec (k + n) (zlen q - a)), (Z.leb_spec (a + k + n) (zlen q)); try lia; [|reflexivity].
  rewrite zdrop_zdrop by lia. replace (k + n - k) with n by lia. replace (k + a) with (a + k) by lia. eauto.
Qed.
Lemma to4_at : forall a B (f : Z -> res B), 0 <= a <= zlen p ->
  (s <- sl_to (at_ a) 4 ;; n <- le32 (dat s) ;; f n) = if a + 4 <=? zlen q then f (field q a 4) else Panic.
Proof.
  intros a B f A. unfold sl_to. pose proof (range_at a 0 4 A ltac:(lia) ltac:(lia)) as R. rewrite Z.add_0_r in R. change (0 + 4) with 4 in R.
  pose proof zq. pose proof (zlen_nonneg _ sp). destruct (Z.leb_spec (a + 4) (zlen q)).
  - destruct R as (s' & ->). cbn [bind dat]. rewrite le32_val by (rewrite zlen_ztake; [lia|rewrite zlen_zdrop; lia]).
    unfold field. replace (ztake 4 (ztake 4 (zdrop a q))) with (ztake 4 (zdrop a q)); [reflexivity|]. unfold ztake. rewrite firstn_firstn. reflexivity.
  - rewrite R. reflexivity.
Qed.
Lemma units_len_at : forall n a, 0 <= a <= zlen p ->
  if a + 2 * Z.of_nat n <=? zlen p then exists us, units_len n (at_ a) = Ok (us, at_ (a + 2 * Z.of_nat n)) else units_len n (at_ a) = Panic.
Proof.
  induction n as [|n IH]; intros a A; cbn [units_len].
  - replace (a + 2 * Z.of_nat 0) with a by lia. destruct (Z.leb_spec a (zlen p)); [|lia]. eauto.
  - cbn [dat]. rewrite le16_at by auto. rewrite from_at by lia. destruct (Z.leb_spec (a + 2) (zlen p)); cbn [bind].
    + specialize (IH (a + 2) ltac:(lia)). replace (a + 2 * Z.of_nat (S n)) with (a + 2 + 2 * Z.of_nat n) by lia.
      destruct (a + 2 + 2 * Z.of_nat n <=? zlen p).
      * destruct IH as (us & ->). cbn [bind]. eauto.
      * rewrite IH. reflexivity.
    + destruct (Z.leb_spec (a + 2 * Z.of_nat (S n)) (zlen p)); [lia|reflexivity].
Qed.
Lemma units_off_at : forall n a no, 0 <= a <= zlen p -> 0 <= no ->
  if (Z.of_nat n =? 0) || (a + no + 2 * Z.of_nat n <=? zlen p) then exists us, zlen us = Z.of_nat n /\ units_off n (at_ a) no = Ok (us, no + 2 * Z.of_nat n) else units_off n (at_ a) no = Panic.
Proof.
  induction n as [|n IH]; intros a no A N; cbn [units_off].
  - cbn [Z.of_nat Z.eqb orb]. exists []. rewrite Z.mul_0_r, Z.add_0_r. auto.
  - rewrite from_at by lia. destruct (Z.leb_spec (a + no) (zlen p)); cbn [bind].
    2:{ destruct (Z.eqb_spec (Z.of_nat (S n)) 0); [lia|]. destruct (Z.leb_spec (a + no + 2 * Z.of_nat (S n)) (zlen p)); [lia|reflexivity]. }
    cbn [dat]. rewrite le16_at by lia. destruct (Z.leb_spec (a + no + 2) (zlen p)); cbn [bind].
    2:{ destruct (Z.eqb_spec (Z.of_nat (S n)) 0); [lia|]. destruct (Z.leb_spec (a + no + 2 * Z.of_nat (S n)) (zlen p)); [lia|reflexivity]. }
    specialize (IH a (no + 2) A ltac:(lia)). destruct (Z.eqb_spec (Z.of_nat (S n)) 0); [lia|]. cbn [orb]. 
    destruct (Z.leb_spec (a + no + 2 * Z.of_nat (S n)) (zlen p)).
    + assert (C : (Z.of_nat n =? 0) || (a + (no + 2) + 2 * Z.of_nat n <=? zlen p) = true) by lia. rewrite C in IH. destruct IH as (us & L & ->). cbn [bind]. exists (field p (a + no) 2 :: us). split; [rewrite zlen_cons; lia|]. do 2 f_equal. lia.
    + assert (C : (Z.of_nat n =? 0) || (a + (no + 2) + 2 * Z.of_nat n <=? zlen p) = false) by lia. rewrite C in IH. rewrite IH. reflexivity.
Qed.

(** the reader after a field, or what became of it *)
Definition becomes (m : res (gostr * slice)) (x : extent) : Prop :=
  match x with
  | Until e => 0 <= e <= zlen p /\ exists t, m = Ok (t, at_ e)
  | Refused => exists er, m = Err er
  | Overrun => m = Panic
  end.
Lemma string_becomes : forall a, 0 <= a <= zlen p -> becomes (hl_string (at_ a)) (string_at p a).
Proof.
  intros a A. unfold hl_string, string_at, within. rewrite to4_at by auto. pose proof zq. pose proof (zlen_nonneg _ sp).
  destruct (Z.leb_spec (a + 4) (zlen q)).
  - rewrite from_at by lia. destruct (Z.leb_spec (a + 4) (zlen p)); cbn [bind upon becomes]; [|reflexivity].
    rewrite field_q by lia. pose proof (field_nonneg p a 4 Bp). pose proof (units_len_at (Z.to_nat (field p a 4)) (a + 4) ltac:(lia)) as U. rewrite Z2Nat.id in U by lia.
    destruct (Z.leb_spec (a + 4 + 2 * field p a 4) (zlen p)).
    + destruct U as (us & ->). cbn [bind becomes]. split; [lia|]. eauto.
    + rewrite U. reflexivity.
  - destruct (Z.leb_spec (a + 4) (zlen p)); [lia|]. reflexivity.
Qed.
Lemma frame_becomes : forall a t, 0 <= a <= zlen p ->
  becomes (raw <- (s <- sl_to (at_ a) 4 ;; slen <- le32 (dat s) ;; sl_from (at_ a) (u32 (4 + u32 (slen * 2)))) ;; Ok (t, raw)) (frame_at p q a).
Proof.
  intros a t A. unfold frame_at, within. rewrite to4_at by auto. destruct (Z.leb_spec (a + 4) (zlen q)); [|reflexivity].
  assert (E : u32 (4 + u32 (field q a 4 * 2)) = (4 + 2 * field q a 4) mod 4294967296).
  { unfold u32. rewrite Z.add_mod_idemp_r by lia. f_equal. lia. }
  rewrite E. pose proof (Z.mod_pos_bound (4 + 2 * field q a 4) 4294967296 ltac:(lia)). rewrite from_at by lia.
  destruct (Z.leb_spec (a + (4 + 2 * field q a 4) mod 4294967296) (zlen p)); cbn [bind becomes]; [split; [lia|]; eauto|reflexivity].
Qed.
Lemma moniker_becomes : forall a, 0 <= a <= zlen p -> becomes ('(t, n) <- parse_moniker (at_ a) ;; raw <- sl_from (at_ a) n ;; Ok (t, raw)) (moniker_at p q a).
Proof.
  intros a A. unfold parse_moniker, moniker_at, sl_to. pose proof (range_at a 0 16 A ltac:(lia) ltac:(lia)) as R. rewrite Z.add_0_r in R. change (0 + 16) with 16 in R.
  destruct (Z.ltb_spec (zlen q) (a + 16)). { destruct (Z.leb_spec (a + 16) (zlen q)); [lia|]. rewrite R. reflexivity. }
  destruct (Z.leb_spec (a + 16) (zlen q)); [|lia]. destruct R as (s' & ->). cbn [bind dat].
  destruct (list_eq_dec Z.eq_dec (ztake 16 (zdrop a q)) url_id) as [E|N].
  - rewrite E. change (str_eqb url_id url_moniker_id) with true. cbv iota. rewrite from_at by lia. unfold within. destruct (Z.leb_spec (a + 16) (zlen p)); cbn [bind].
    2:{ destruct (Z.leb_spec (a + 20) (zlen p)); [lia|reflexivity]. }
    cbn [dat]. rewrite le32_at by lia. replace (a + 16 + 4) with (a + 20) by lia. destruct (Z.leb_spec (a + 20) (zlen p)); cbn [bind upon]; [|reflexivity].
    pose proof (field_nonneg p (a + 16) 4 Bp). set (n := field p (a + 16) 4 / 2). assert (Hn : 0 <= n) by (apply Z.div_pos; lia).
    pose proof (units_off_at (Z.to_nat n) a 20 A ltac:(lia)) as U. rewrite Z2Nat.id in U by lia.
    destruct (Z.leb_spec (a + 20 + 2 * n) (zlen p)).
    + rewrite orb_true_r in U. destruct U as (us & LU & ->). cbn [bind].
      assert (X : exists buf, (if 12 <? n then x <- idx us (n - 13) ;; Ok (if x =? 0 then ztake (n - 12) us else us) else Ok us) = Ok buf).
      { destruct (Z.ltb_spec 12 n); [|eauto]. destruct (idx_in _ us (n - 13)) as (x & ->); [lia|]. cbn [bind]. eauto. }
      destruct X as (buf & ->). cbn [bind]. rewrite from_at by lia. replace (a + (20 + 2 * n)) with (a + 20 + 2 * n) by lia. destruct (Z.leb_spec (a + 20 + 2 * n) (zlen p)); [|lia]. cbn [bind becomes]. split; [lia|]. eauto.
    + destruct (Z.eqb_spec n 0); [lia|]. cbn [orb] in U. rewrite U. reflexivity.
  - assert (NU : str_eqb (ztake 16 (zdrop a q)) url_moniker_id = false) by (apply str_eqb_neq; exact N). rewrite NU. cbv iota.
    destruct (list_eq_dec Z.eq_dec (ztake 16 (zdrop a q)) file_id) as [E|N2].
    + rewrite E. change (str_eqb file_id file_moniker_id) with true. cbv iota. rewrite from_at by lia. unfold within. destruct (Z.leb_spec (a + 18) (zlen p)); cbn [bind].
      2:{ destruct (Z.leb_spec (a + 22) (zlen p)); [lia|reflexivity]. }
      cbn [dat]. rewrite le32_at by lia. replace (a + 18 + 4) with (a + 22) by lia. destruct (Z.leb_spec (a + 22) (zlen p)); cbn [bind upon]; [|reflexivity].
      pose proof (field_nonneg p (a + 18) 4 Bp). set (n := field p (a + 18) 4) in *. pose proof zq. pose proof (zlen_nonneg _ sp).
      pose proof (range_at a 22 n A ltac:(lia) ltac:(lia)) as R2. destruct (Z.leb_spec (a + 22 + n) (zlen q)).
      2:{ rewrite R2. cbn [bind]. destruct (Z.leb_spec (a + 22 + n + 28) (zlen p)); [lia|reflexivity]. }
      destruct R2 as (s2 & ->). cbn [bind]. cbv zeta. rewrite from_at by lia. destruct (Z.leb_spec (a + (22 + (n + 24))) (zlen p)); cbn [bind].
      2:{ destruct (Z.leb_spec (a + 22 + n + 28) (zlen p)); [lia|reflexivity]. }
      cbn [dat]. rewrite le32_at by lia. replace (a + (22 + (n + 24)) + 4) with (a + 22 + n + 28) by lia. destruct (Z.leb_spec (a + 22 + n + 28) (zlen p)); cbn [bind upon]; [|reflexivity].
      replace (a + 22 + n + 28 - 4) with (a + (22 + (n + 24))) by lia. pose proof (field_nonneg p (a + (22 + (n + 24))) 4 Bp). set (m := field p (a + (22 + (n + 24))) 4) in *.
      destruct (Z.eqb_spec m 0).
      * destruct (Z.ltb_spec 0 m); [lia|]. cbn [bind]. rewrite from_at by lia. replace (a + (22 + (n + 24) + 4)) with (a + 22 + n + 28) by lia. destruct (Z.leb_spec (a + 22 + n + 28) (zlen p)); [|lia]. cbn [bind becomes]. split; [lia|]. eauto.
      * destruct (Z.ltb_spec 0 m); [|lia]. unfold u32. set (k := (m - 6) mod 4294967296 / 2). assert (Hk : 0 <= k) by (apply Z.div_pos; [apply Z.mod_pos_bound|]; lia).
        pose proof (units_off_at (Z.to_nat k) a (22 + (n + 24) + 4 + 6) A ltac:(lia)) as U. rewrite Z2Nat.id in U by lia.
        destruct (Z.leb_spec (a + 22 + n + 28 + 6 + 2 * k) (zlen p)).
        -- assert (C : (k =? 0) || (a + (22 + (n + 24) + 4 + 6) + 2 * k <=? zlen p) = true) by lia. rewrite C in U. destruct U as (us & _ & ->). cbn [bind]. rewrite from_at by lia.
           replace (a + (22 + (n + 24) + 4 + 6 + 2 * k)) with (a + 22 + n + 28 + 6 + 2 * k) by lia. destruct (Z.leb_spec (a + 22 + n + 28 + 6 + 2 * k) (zlen p)); [|lia]. cbn [bind becomes]. split; [lia|]. eauto.
        -- destruct ((k =? 0) || (a + (22 + (n + 24) + 4 + 6) + 2 * k <=? zlen p)) eqn:C.
           ++ destruct U as (us & _ & ->). cbn [bind]. rewrite from_at by lia. destruct (Z.leb_spec (a + (22 + (n + 24) + 4 + 6 + 2 * k)) (zlen p)); [lia|]. reflexivity.
           ++ rewrite U. reflexivity.
    + assert (NF : str_eqb (ztake 16 (zdrop a q)) file_moniker_id = false) by (apply str_eqb_neq; exact N2). rewrite NF. cbv iota. cbn [bind becomes]. eauto.
Qed.

Lemma becomes_bind : forall m x (k : gostr -> slice -> res (gostr * slice)) (f : Z -> extent), becomes m x ->
  (forall t e, 0 <= e <= zlen p -> becomes (k t (at_ e)) (f e)) -> becomes ('(t, raw) <- m ;; k t raw) (upon x f).
Proof.
  intros m [e| |] k f H K; cbn [becomes upon] in *.
  - destruct H as (He & t & ->). cbn [bind]. apply K; auto.
  - destruct H as (er & ->). cbn [bind]. eauto.
  - rewrite H. reflexivity.
Qed.
Lemma flag_bit : forall f j, 0 <= j -> negb (Z.land f (2 ^ j) =? 0) = flagged f (2 ^ j).
Proof. intros. apply land_bit; auto. Qed.
Lemma opt_becomes : forall (b : bool) m (f : Z -> extent) t a, 0 <= a <= zlen p -> becomes m (f a) -> becomes (if b then m else Ok (t, at_ a)) (if b then f a else Until a).
Proof. intros [] m f t a A H; [exact H|]. cbn [becomes]. split; auto. eauto. Qed.

(** decodeHyperlinks keeps the display text apart; the reader's position does not depend on it *)
Definition tail_of (flags : Z) (raw : slice) : res (gostr * slice) :=
  raw <- (if negb (Z.land flags 128 =? 0) then s <- sl_to raw 4 ;; slen <- le32 (dat s) ;; sl_from raw (u32 (4 + u32 (slen * 2))) else Ok raw) ;;
  '(linkText, raw) <-
      (if negb (Z.land flags 1 =? 0) then
         if negb (Z.land flags 256 =? 0) then hl_string raw
         else '(linkText, n) <- parse_moniker raw ;; raw <- sl_from raw n ;; Ok (linkText, raw)
       else Ok ([], raw)) ;;
  if negb (Z.land flags 8 =? 0) then hl_string raw else Ok (linkText, raw).
Lemma tail_becomes : forall flags a, 0 <= a <= zlen p ->
  let opt k (f : Z -> extent) a := if flagged flags k then f a else Until a in
  becomes (tail_of flags (at_ a))
    (upon (opt 128 (frame_at p q) a) (fun a => upon (opt 1 (if flagged flags 256 then string_at p else moniker_at p q) a) (fun a => opt 8 (string_at p) a))).
Proof.
  intros flags a A opt. unfold tail_of.
  pose proof (flag_bit flags 7 ltac:(lia)) as F7. pose proof (flag_bit flags 0 ltac:(lia)) as F0. pose proof (flag_bit flags 8 ltac:(lia)) as F8. pose proof (flag_bit flags 3 ltac:(lia)) as F3.
  change (2 ^ 7) with 128 in F7. change (2 ^ 0) with 1 in F0. change (2 ^ 8) with 256 in F8. change (2 ^ 3) with 8 in F3. rewrite F7, F0, F8, F3.
  assert (R : forall a, 0 <= a <= zlen p -> becomes ('(linkText, raw) <- (if flagged flags 1 then if flagged flags 256 then hl_string (at_ a) else '(linkText, n) <- parse_moniker (at_ a) ;; raw <- sl_from (at_ a) n ;; Ok (linkText, raw) else Ok ([], at_ a)) ;;
    if flagged flags 8 then hl_string raw else Ok (linkText, raw)) (upon (opt 1 (if flagged flags 256 then string_at p else moniker_at p q) a) (fun a => opt 8 (string_at p) a))).
  { clear a A. intros a A. apply becomes_bind.
    - unfold opt. apply opt_becomes; auto. destruct (flagged flags 256); [apply string_becomes|apply moniker_becomes]; auto.
    - intros t e He. unfold opt. apply opt_becomes; auto. apply string_becomes; auto. }
  unfold opt at 1. destruct (flagged flags 128).
  - pose proof (frame_becomes a [] A) as FB. destruct (frame_at p q a) as [e| |]; cbn [becomes upon] in *.
    + destruct FB as (He & t & FB). destruct (s <- sl_to (at_ a) 4;; slen <- le32 (dat s);; sl_from (at_ a) (u32 (4 + u32 (slen * 2)))) as [raw|?| |]; try discriminate. cbn [bind] in FB |- *. injection FB as _ ->. apply R; auto.
    + destruct FB as (er & FB). destruct (s <- sl_to (at_ a) 4;; slen <- le32 (dat s);; sl_from (at_ a) (u32 (4 + u32 (slen * 2)))) as [raw|?| |]; try discriminate. cbn [bind]. eauto.
    + destruct (s <- sl_to (at_ a) 4;; slen <- le32 (dat s);; sl_from (at_ a) (u32 (4 + u32 (slen * 2)))) as [raw|?| |]; try discriminate. reflexivity.
  - cbn [bind upon]. apply R; auto.
Qed.
Lemma link_becomes : match link_extent p q with
  | Until _ => exists x, decode_hyperlinks (mkSl p sp) = Ok x
  | Refused => exists er, decode_hyperlinks (mkSl p sp) = Err er
  | Overrun => decode_hyperlinks (mkSl p sp) = Panic
  end.
Proof.
  unfold link_extent, decode_hyperlinks. pose proof zq. pose proof (zlen_nonneg _ sp). pose proof (zlen_nonneg _ p).
  pose proof (from_at 0 16 ltac:(lia) ltac:(lia)) as E0. rewrite zdrop_0 in E0. rewrite E0. change (0 + 16) with 16. destruct (Z.ltb_spec (zlen p) 16).
  { destruct (Z.leb_spec 16 (zlen p)); [lia|]. reflexivity. }
  destruct (Z.leb_spec 16 (zlen p)); [|lia]. cbn [bind]. rewrite to4_at by lia. change (16 + 4) with 20. destruct (Z.ltb_spec (zlen q) 20).
  { destruct (Z.leb_spec 20 (zlen q)); [lia|]. reflexivity. }
  destruct (Z.leb_spec 20 (zlen q)); [|lia]. destruct (negb (field q 16 4 =? 2)); [eauto|].
  pose proof (range_at 16 4 4 ltac:(lia) ltac:(lia) ltac:(lia)) as R. change (4 + 4) with 8 in R. change (16 + 4 + 4) with 24 in R. change (16 + 4) with 20 in R. unfold within.
  destruct (Z.leb_spec 24 (zlen q)).
  2:{ rewrite R. destruct (Z.leb_spec 24 (zlen p)); [lia|]. reflexivity. }
  destruct R as (s' & ->). cbn [bind dat]. rewrite le32_val by (rewrite zlen_ztake; [lia|rewrite zlen_zdrop; lia]). cbn [bind]. rewrite from_at by lia. change (16 + 8) with 24.
  destruct (Z.leb_spec 24 (zlen p)); [|reflexivity]. cbn [bind upon].
  assert (EF : le_val (ztake 4 (ztake 4 (zdrop 20 q))) = field p 20 4).
  { rewrite <- field_q by lia. unfold field. f_equal. unfold ztake. rewrite firstn_firstn. reflexivity. }
  rewrite EF. set (flags := field p 20 4). cbv zeta.
  assert (T : forall (t : gostr) raw, exists k : gostr * slice -> gostr * gostr,
    (raw <- (if negb (Z.land flags 128 =? 0) then s <- sl_to raw 4 ;; slen <- le32 (dat s) ;; sl_from raw (u32 (4 + u32 (slen * 2))) else Ok raw) ;;
     '(linkText, raw) <-
      (if negb (Z.land flags 1 =? 0) then
         if negb (Z.land flags 256 =? 0) then hl_string raw
         else '(linkText, n) <- parse_moniker raw ;; raw <- sl_from raw n ;; Ok (linkText, raw)
       else Ok ([], raw)) ;;
     '(linkText, raw) <- (if negb (Z.land flags 8 =? 0) then hl_string raw else Ok (linkText, raw)) ;;
     Ok (go_trim t, go_trim linkText)) = (x <- tail_of flags raw ;; Ok (k x))).
  { intros t raw. exists (fun x => (go_trim t, go_trim (fst x))). unfold tail_of.
    match goal with |- (x <- ?m ;; _) = _ => destruct m as [raw1|?| |]; cbn [bind]; try reflexivity end.
    match goal with |- ('(a, b) <- ?m ;; _) = _ => destruct m as [[lt raw2]|?| |]; cbn [bind]; try reflexivity end.
    match goal with |- ('(a, b) <- ?m ;; _) = _ => destruct m as [[lt2 raw3]|?| |]; cbn [bind fst]; reflexivity end. }
  pose proof (flag_bit flags 4 ltac:(lia)) as F4. change (2 ^ 4) with 16 in F4. rewrite F4.
  pose proof (opt_becomes (flagged flags 16) (hl_string (at_ 24)) (string_at p) [] 24 ltac:(lia) (string_becomes 24 ltac:(lia))) as S1.
  destruct (if flagged flags 16 then string_at p 24 else Until 24) as [e| |]; cbn [becomes upon] in *.
  - destruct S1 as (He & t & ->). cbn [bind]. destruct (T t (at_ e)) as (k & Tk). pose proof (tail_becomes flags e He) as TB. cbv zeta in TB.
    match goal with |- match ?x with Until _ => _ | Refused => _ | Overrun => _ end => destruct x as [e2| |] end; cbn [becomes] in TB.
    + destruct TB as (_ & t2 & TB). rewrite TB in Tk. eexists. exact Tk.
    + destruct TB as (er & TB). rewrite TB in Tk. eexists. exact Tk.
    + rewrite TB in Tk. exact Tk.
  - destruct S1 as (er & ->). cbn [bind]. eauto.
  - rewrite S1. reflexivity.
Qed.
End Link.
