(** * L_formats: proofs about commonxl number formats. *)
From Verif Require Import GoBase L_base GoFloat L_float GoUnicode GoTime M_value M_dates M_numbers M_fmt M_formats S_formats.
From Coq Require Import Lia ZifyBool ZifyNat Reals Lra.
From Flocq Require Import Core BinarySingleNaN.
Open Scope Z_scope.

(** ** numerals *)
Lemma value_from_fold : forall s a, value_from a s = fold_left (fun a c => a * 10 + (c - 48)) s a.
Proof. induction s; intros; simpl; auto. rewrite IHs. f_equal. lia. Qed.
Lemma value_dec : forall s, value s = dec_val s.
Proof. intros. unfold value, dec_val. apply value_from_fold. Qed.
Lemma value_from_app : forall s t a, value_from a (s ++ t) = value_from (value_from a s) t.
Proof. induction s; simpl; auto. Qed.

Lemma digits_fuel_first : forall f n, 0 < n -> n < 10 * 2 ^ (Z.of_nat f - 1) -> (0 < f)%nat ->
  exists c r, digits_fuel f n [] = c :: r /\ 48 < c.
Proof.
  induction f as [|f IH]; intros n Hn Hf Hp; [lia|].
  cbn [digits_fuel]. destruct (Z.ltb_spec n 10) as [Hlt|Hge].
  - eexists _, _. split; [reflexivity|]. lia.
  - rewrite digits_fuel_app. destruct f as [|f']; [simpl in Hf; lia|].
    destruct (IH (n / 10)) as (c & r & E & Hc); try lia.
    + replace (Z.of_nat (S (S f')) - 1) with (1 + (Z.of_nat (S f') - 1)) in Hf by lia.
      rewrite Z.pow_add_r in Hf by lia. change (2^1) with 2 in Hf.
      assert (0 < 2 ^ (Z.of_nat (S f') - 1)) by (apply Z.pow_pos_nonneg; lia). lia.
    + rewrite E. eexists _, _. split; [reflexivity|auto].
Qed.

Lemma utoa_numeral : forall n, 0 <= n -> nat_numeral n (utoa n).
Proof.
  intros n Hn. destruct (utoa_spec n Hn) as (A & B & C). repeat split; auto.
  - rewrite value_dec. auto.
  - intros r E. destruct (Z.eq_dec n 0) as [->|Hz].
    + vm_compute in E. congruence.
    + exfalso. destruct (digits_fuel_first (S (Z.to_nat (Z.log2 n))) n) as (c & r' & E' & Hc); try lia.
      * pose proof (Z.log2_spec n ltac:(lia)) as [_ H]. pose proof (Z.log2_nonneg n).
        replace (Z.of_nat (S (Z.to_nat (Z.log2 n))) - 1) with (Z.log2 n) by lia.
        rewrite Z.pow_succ_r in H by lia.
        assert (0 < 2 ^ Z.log2 n) by (apply Z.pow_pos_nonneg; lia). lia.
      * unfold utoa in E. rewrite E' in E. injection E as -> _. lia.
Qed.

Lemma itoa_numeral : forall n, numeral n (itoa n).
Proof.
  intros n. unfold itoa, numeral. destruct (Z.ltb_spec n 0).
  - right. split; auto. eexists. split; [reflexivity|]. apply utoa_numeral. lia.
  - left. split; auto. apply utoa_numeral. lia.
Qed.

(** a numeral determines the number and conversely *)
Lemma value_from_bound : forall s a, 0 <= a -> Forall is_dig s -> a * 10 ^ zlen s <= value_from a s < (a + 1) * 10 ^ zlen s.
Proof.
  induction s as [|c s IH]; intros a Ha Hs; simpl.
  - rewrite zlen_nil. change (10 ^ 0) with 1. lia.
  - inversion Hs; subst. unfold is_dig in H1. rewrite zlen_cons. pose proof (zlen_nonneg _ s).
    rewrite Z.pow_add_r by lia. change (10 ^ 1) with 10.
    specialize (IH (10 * a + (c - 48)) ltac:(lia) H2).
    assert (0 < 10 ^ zlen s) by (apply Z.pow_pos_nonneg; lia). nia.
Qed.

Lemma value_inj_len : forall s t a b, Forall is_dig s -> Forall is_dig t -> zlen s = zlen t -> 0 <= a -> 0 <= b ->
  value_from a s = value_from b t -> a = b /\ s = t.
Proof.
  induction s as [|c s IH]; intros t a b Hs Ht Hl Ha Hb E.
  - destruct t; [simpl in E; auto|]. rewrite zlen_nil, zlen_cons in Hl. pose proof (zlen_nonneg _ t). lia.
  - destruct t as [|d t]; [rewrite zlen_nil, zlen_cons in Hl; pose proof (zlen_nonneg _ s); lia|].
    rewrite !zlen_cons in Hl. inversion Hs; inversion Ht; subst. unfold is_dig in *.
    simpl in E. destruct (IH t (10 * a + (c - 48)) (10 * b + (d - 48))) as [E1 E2]; auto; try lia.
    assert (a = b) by lia. subst. split; auto. f_equal; auto. lia.
Qed.

Lemma nat_numeral_len : forall s, s <> [] -> Forall is_dig s -> (forall r, s = 48 :: r -> r = []) ->
  s = [48] \/ 10 ^ (zlen s - 1) <= value s < 10 ^ zlen s.
Proof.
  intros [|c r] Hne Hd Hz; [congruence|]. inversion Hd; subst. unfold is_dig in H1.
  destruct (Z.eq_dec c 48); [left; subst; rewrite (Hz r); auto|]. right.
  rewrite zlen_cons. replace (1 + zlen r - 1) with (zlen r) by lia. unfold value. simpl.
  pose proof (value_from_bound r (10 * 0 + (c - 48)) ltac:(lia) H2).
  pose proof (zlen_nonneg _ r). rewrite Z.pow_add_r by lia. change (10 ^ 1) with 10.
  assert (0 < 10 ^ zlen r) by (apply Z.pow_pos_nonneg; lia). nia.
Qed.

Lemma nat_numeral_unique : forall n s t, nat_numeral n s -> nat_numeral n t -> s = t.
Proof.
  intros n s t (A1 & A2 & A3 & A4) (B1 & B2 & B3 & B4).
  destruct (nat_numeral_len s A1 A2 A4) as [Hs|Hs]; destruct (nat_numeral_len t B1 B2 B4) as [Ht|Ht].
  - congruence.
  - exfalso. subst s. unfold value in A3 at 1. simpl in A3.
    assert (1 <= zlen t) by (destruct t; [congruence|rewrite zlen_cons; pose proof (zlen_nonneg _ t); lia]).
    assert (0 < 10 ^ (zlen t - 1)) by (apply Z.pow_pos_nonneg; lia). lia.
  - exfalso. subst t. unfold value in B3 at 1. simpl in B3.
    assert (1 <= zlen s) by (destruct s; [congruence|rewrite zlen_cons; pose proof (zlen_nonneg _ s); lia]).
    assert (0 < 10 ^ (zlen s - 1)) by (apply Z.pow_pos_nonneg; lia). lia.
  - assert (zlen s = zlen t).
    { assert (forall a b, 1 <= a -> 1 <= b -> 10 ^ (a - 1) <= n -> n < 10 ^ b -> a <= b).
      { intros a b Ha Hb H1 H2. destruct (Z_le_dec a b); auto. exfalso.
        assert (10 ^ b <= 10 ^ (a - 1)) by (apply Z.pow_le_mono_r; lia). lia. }
      assert (1 <= zlen t) by (destruct t; [congruence|rewrite zlen_cons; pose proof (zlen_nonneg _ t); lia]).
      assert (1 <= zlen s) by (destruct s; [congruence|rewrite zlen_cons; pose proof (zlen_nonneg _ s); lia]).
      rewrite A3 in Hs. rewrite B3 in Ht.
      apply Z.le_antisymm; apply H; lia. }
    unfold value in A3, B3. apply (value_inj_len s t 0 0); auto; lia.
Qed.

(** ** thousands separators *)
Lemma index_from_app : forall p a t i, Forall (fun c => p c = false) a ->
  (t = [] \/ exists c r, t = c :: r /\ p c = true) ->
  index_from p i (a ++ t) = if match t with [] => true | _ => false end then -1 else i + zlen a.
Proof.
  induction a as [|c a IH]; intros t i Ha Ht; simpl.
  - destruct Ht as [->|(c & r & -> & Hc)]; simpl; auto. rewrite Hc, zlen_nil. lia.
  - inversion Ha; subst. rewrite H1. rewrite IH; auto. destruct t; auto. rewrite zlen_cons. lia.
Qed.

Lemma commas_loop_groups : forall f a t, (List.length a <= f)%nat -> a <> [] ->
  exists u, in_thousands a u /\ commas_loop f (zlen a) (a ++ t) = u ++ t.
Proof.
  induction f as [|f IH]; intros a t Hf Ha.
  - destruct a; [congruence|simpl in Hf; lia].
  - cbn [commas_loop]. destruct (Z.ltb_spec 3 (zlen a)).
    + set (a1 := ztake (zlen a - 3) a). set (a2 := zdrop (zlen a - 3) a).
      assert (E : a = a1 ++ a2) by (unfold a1, a2; symmetry; apply ztake_zdrop).
      assert (L1 : zlen a1 = zlen a - 3) by (unfold a1; apply zlen_ztake; lia).
      assert (L2 : zlen a2 = 3) by (unfold a2; rewrite zlen_zdrop; lia).
      assert (Et : ztake (zlen a - 3) (a ++ t) = a1).
      { rewrite ztake_app_le by lia. reflexivity. }
      assert (Ed : zdrop (zlen a - 3) (a ++ t) = a2 ++ t).
      { rewrite zdrop_app_le by lia. reflexivity. }
      rewrite Et, Ed.
      destruct (IH a1 ([44] ++ a2 ++ t)) as (u & (g & gs & C & J & G1 & G2) & EL).
      * unfold zlen in *. lia.
      * intro E0. rewrite E0, zlen_nil in L1. lia.
      * rewrite L1 in EL. rewrite EL.
        exists (u ++ [44] ++ a2). split.
        -- exists g, (gs ++ [a2]). repeat split; auto; try lia.
           ++ simpl in *. rewrite concat_app. simpl. rewrite app_nil_r, app_assoc, C. auto.
           ++ rewrite J. clear. revert g. induction gs as [|h gs IH]; intros g; simpl; auto.
              simpl in IH. rewrite <- IH. rewrite <- app_assoc. reflexivity.
           ++ apply Forall_app. auto.
        -- rewrite <- !app_assoc. reflexivity.
    + exists a. split; auto. exists a, []. simpl. rewrite app_nil_r. repeat split; auto.
      destruct a; [congruence|]. rewrite zlen_cons. pose proof (zlen_nonneg _ a). lia.
Qed.

Definition int_char (c : Z) : Prop := c <> 46 /\ c <> 101 /\ c <> 69.
Definition tail_ok (t : gostr) : Prop := t = [] \/ exists c r, t = c :: r /\ (c = 46 \/ c = 101 \/ c = 69).

Lemma dot_e_set : forall c, existsb (Z.eqb c) (bs ".eE") = false <-> int_char c.
Proof.
  intros c. change (bs ".eE") with [46; 101; 69]. unfold int_char. simpl.
  destruct (Z.eqb_spec c 46), (Z.eqb_spec c 101), (Z.eqb_spec c 69); simpl; split; intros; try lia; try discriminate; auto.
Qed.

Lemma add_commas_spec : forall neg ip t, ip <> [] -> Forall int_char ip -> tail_ok t ->
  (neg = false -> forall r, ip <> 45 :: r) ->
  exists u, in_thousands ip u /\
    add_commas ((if neg then [45] else []) ++ ip ++ t) = Ok ((if neg then [45] else []) ++ u ++ t).
Proof.
  intros neg ip t Hne Hip Ht Hneg.
  assert (IDX : index_any (bs ".eE") (ip ++ t) = if match t with [] => true | _ => false end then -1 else zlen ip).
  { unfold index_any, index_where. rewrite index_from_app.
    - destruct t; auto.
    - eapply Forall_impl; [|exact Hip]. intros c Hc. apply dot_e_set. auto.
    - destruct Ht as [->|(c & r & -> & Hc)]; auto. right. exists c, r. split; auto.
      destruct (existsb _ _) eqn:E; auto. apply dot_e_set in E. unfold int_char in E. lia. }
  assert (ENDI : (if index_any (bs ".eE") (ip ++ t) <? 0 then zlen (ip ++ t) else index_any (bs ".eE") (ip ++ t)) = zlen ip).
  { rewrite IDX. destruct t.
    - simpl. rewrite app_nil_r. reflexivity.
    - pose proof (zlen_nonneg _ ip). destruct (Z.ltb_spec (zlen ip) 0); lia. }
  destruct (commas_loop_groups (List.length (ip ++ t)) ip t) as (u & Hu & EL); auto.
  { rewrite app_length. lia. }
  exists u. split; auto. destruct neg.
  - simpl app. unfold add_commas. rewrite Z.eqb_refl. cbv beta iota zeta. rewrite ENDI, EL. reflexivity.
  - simpl app. destruct ip as [|c r]; [congruence|]. specialize (Hneg eq_refl r).
    unfold add_commas. change ((c :: r) ++ t) with (c :: (r ++ t)) in *.
    assert (Ec : (c =? 45) = false) by (apply Z.eqb_neq; intro; subst; congruence).
    cbv beta iota zeta. rewrite Ec, ENDI, EL. reflexivity.
Qed.

(** ** fixed decimals *)
Lemma f_ratio_real : forall x s n d, f_is_finite x = true -> f_ratio x = (s, n, d) ->
  0 <= n /\ 0 < d /\ (Rabs (B2R x) = IZR n / IZR d)%R /\ s = Bsign x.
Proof.
  intros x s n d Hf E. destruct x as [sx|sx| |sx m e He]; try discriminate.
  - simpl in E. injection E as <- <- <-. repeat split; try lia. simpl. rewrite Rabs_R0. lra.
  - simpl in E. simpl B2R. rewrite <- F2R_Zabs. simpl Z.abs.
    assert (EA : Z.abs (cond_Zopp sx (Z.pos m)) = Z.pos m) by (destruct sx; reflexivity).
    rewrite EA. destruct (Z.leb_spec 0 e); injection E as <- <- <-.
    + repeat split; try lia.
      unfold F2R. simpl. rewrite mult_IZR. rewrite <- IZR_Zpower by lia. change (Zpower radix2 e) with (2 ^ e). lra.
    + assert (0 < 2 ^ (- e)) by (apply Z.pow_pos_nonneg; lia).
      repeat split; try lia. unfold F2R. simpl. unfold Rdiv. f_equal.
      rewrite <- (Z.opp_involutive e) at 1. rewrite bpow_opp. f_equal. rewrite <- IZR_Zpower by lia. reflexivity.
Qed.

Lemma round_half_even_spec : forall a b, 0 <= a -> 0 < b ->
  0 <= round_half_even a b /\ - b <= 2 * (b * round_half_even a b - a) <= b.
Proof.
  intros a b Ha Hb. unfold round_half_even.
  pose proof (Z.div_mod a b ltac:(lia)). pose proof (Z.mod_pos_bound a b Hb). pose proof (Z.div_pos a b Ha Hb).
  destruct (Z.ltb_spec (2 * (a mod b)) b); [nia|].
  destruct (Z.ltb_spec b (2 * (a mod b))); [nia|].
  destruct (Z.even (a / b)); nia.
Qed.

Lemma value_zeros : forall n a s, value_from a (repeat 48 n ++ s) = value_from (a * 10 ^ Z.of_nat n) s.
Proof.
  induction n; intros; simpl.
  - f_equal. change (Z.of_nat 0) with 0. change (10 ^ 0) with 1. lia.
  - rewrite IHn. f_equal. rewrite Nat2Z.inj_succ, Z.pow_succ_r by lia. lia.
Qed.

Lemma Forall_ztake : forall A (P : A -> Prop) n l, Forall P l -> Forall P (ztake n l).
Proof. intros. unfold ztake. apply Forall_forall. intros x Hx. rewrite Forall_forall in H. apply H.
  rewrite <- (firstn_skipn (Z.to_nat n) l). apply in_or_app. auto. Qed.
Lemma Forall_zdrop : forall A (P : A -> Prop) n l, Forall P l -> Forall P (zdrop n l).
Proof. intros. unfold zdrop. apply Forall_forall. intros x Hx. rewrite Forall_forall in H. apply H.
  rewrite <- (firstn_skipn (Z.to_nat n) l). apply in_or_app. auto. Qed.

Lemma place_point_spec : forall p n, 1 <= p -> 0 <= n ->
  exists ip fp, place_point p n = ip ++ [46] ++ fp /\ ip <> [] /\ Forall is_dig ip /\ Forall is_dig fp /\
    zlen fp = p /\ (forall r, ip = 48 :: r -> r = []) /\ value (ip ++ fp) = n.
Proof.
  intros p n Hp Hn. destruct (utoa_numeral n Hn) as (A1 & A2 & A3 & A4).
  unfold place_point. destruct (Z.leb_spec p 0); [lia|].
  set (d := pad_left 48 (p + 1) (utoa n)).
  assert (Ld : p + 1 <= zlen d).
  { unfold d, pad_left. rewrite zlen_app, zlen_repeat. lia. }
  assert (Fd : Forall is_dig d).
  { unfold d, pad_left. apply Forall_app. split; auto. apply Forall_forall. intros x Hx. apply repeat_spec in Hx. subst. unfold is_dig. lia. }
  exists (ztake (zlen d - p) d), (zdrop (zlen d - p) d).
  split; [reflexivity|]. split; [|split; [|split; [|split; [|split]]]].
  - intro E. assert (zlen (ztake (zlen d - p) d) = zlen d - p) by (apply zlen_ztake; lia).
    rewrite E, zlen_nil in H0. lia.
  - apply Forall_ztake; auto.
  - apply Forall_zdrop; auto.
  - rewrite zlen_zdrop; lia.
  - intros r E.
    assert (Lt : zlen (48 :: r) = zlen d - p) by (rewrite <- E; apply zlen_ztake; lia).
    rewrite zlen_cons in Lt.
    destruct (Z_lt_dec (p + 1) (zlen (utoa n))) as [Hlong|Hshort].
    + exfalso. assert (d = utoa n) as Ed.
      { unfold d, pad_left. replace (Z.to_nat (p + 1 - zlen (utoa n))) with 0%nat by lia. reflexivity. }
      rewrite Ed in E. destruct (utoa n) as [|c q] eqn:Eu; [congruence|].
      unfold ztake in E. destruct (Z.to_nat (zlen (c :: q) - p)) as [|k] eqn:Ek; [discriminate|].
      simpl in E. injection E as -> _. assert (q = []) by (apply A4; auto). subst q. rewrite zlen_cons, zlen_nil in Hlong. lia.
    + assert (zlen d = p + 1).
      { unfold d, pad_left. rewrite zlen_app, zlen_repeat. lia. }
      apply zlen_0. lia.
  - rewrite ztake_zdrop. unfold d, pad_left, value. rewrite value_zeros. rewrite Z.mul_0_l. exact A3.
Qed.

Lemma format_f_fixed : forall p x, 1 <= p -> f_is_finite x = true ->
  shows_fixed p (B2R x) (Bsign x) (format_f p x).
Proof.
  intros p x Hp Hf. unfold format_f. rewrite Hf. destruct (f_ratio x) as [[s n] d] eqn:E.
  destruct (f_ratio_real x s n d Hf E) as (Hn & Hd & Hr & ->).
  assert (Hpp : 0 < 10 ^ p) by (apply Z.pow_pos_nonneg; lia).
  destruct (round_half_even_spec (n * 10 ^ p) d ltac:(nia) Hd) as (Q0 & Q1).
  set (q := round_half_even (n * 10 ^ p) d) in *.
  destruct (place_point_spec p q Hp Q0) as (ip & fp & E1 & N & F1 & F2 & L & Z0 & V).
  exists ip, fp. rewrite E1. split; [destruct (Bsign x); reflexivity|]. repeat split; auto.
  rewrite V, Hr.
  assert (Hdr : (0 < IZR d)%R) by (apply IZR_lt; auto).
  assert (A : (- IZR d <= 2 * (IZR d * IZR q - IZR n * IZR (10 ^ p)) <= IZR d)%R).
  { rewrite <- !mult_IZR, <- minus_IZR, <- mult_IZR, <- opp_IZR. split; apply IZR_le; lia. }
  replace (IZR q - IZR n / IZR d * IZR (10 ^ p))%R with ((IZR d * IZR q - IZR n * IZR (10 ^ p)) / IZR d)%R by (field; lra).
  apply Rabs_le. split.
  - apply Rle_div_of; lra.
  - apply Rdiv_le_of; lra.
Qed.

Lemma shows_fixed_len : forall p x s t, shows_fixed p x s t -> 0 <= p -> p + 2 <= zlen t.
Proof.
  intros p x s t (ip & fp & -> & N & _ & _ & L & _) Hp.
  rewrite !zlen_app. destruct ip as [|c r]; [congruence|]. rewrite zlen_cons. pose proof (zlen_nonneg _ r).
  pose proof (zlen_nonneg _ (if s then [45] else [])). rewrite zlen_cons, zlen_nil. lia.
Qed.
