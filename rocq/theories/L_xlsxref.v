(** * L_xlsxref: A1 references. *)
From Verif Require Import GoBase L_base GoUnicode GoFloat M_xlsx S_xlsx L_simple L_formats.
From Coq Require Import Lia ZifyBool ZifyNat.

Lemma runes_fuel_ascii : forall l f, (List.length l <= f)%nat -> Forall (fun c => c < 128) l -> runes_fuel f l = l.
Proof.
  induction l as [|c l IH]; intros f L F; [destruct f; reflexivity|]. destruct f; [cbn in L; lia|].
  inversion F; subst. cbn [runes_fuel utf8_dec1]. destruct (Z.ltb_spec c 128); [|lia]. cbn [skipn]. rewrite IH; auto. cbn in L. lia.
Qed.
Lemma runes_ascii : forall l, Forall (fun c => c < 128) l -> runes_of_string l = l.
Proof. intros. apply runes_fuel_ascii; auto. Qed.

(** value of letters *)
Definition lval (l : list Z) : Z := fold_left (fun i c => i * 26 + (c - 64)) l 0.
Definition letter (c : Z) : Prop := 65 <= c <= 90.
Lemma lval_app1 : forall l c, lval (l ++ [c]) = lval l * 26 + (c - 64).
Proof. intros. unfold lval. rewrite fold_left_app. reflexivity. Qed.
Lemma letters_acc : forall f n acc, letters_fuel f n acc = letters_fuel f n [] ++ acc.
Proof.
  induction f as [|f IH]; intros; cbn [letters_fuel]; [reflexivity|]. destruct (n <? 26); [reflexivity|].
  rewrite IH, (IH _ [_]), <- app_assoc. reflexivity.
Qed.
Lemma letters_spec : forall f n, 0 <= n -> n < 2 * 2 ^ Z.of_nat f -> Forall letter (letters_fuel (S f) n []) /\ lval (letters_fuel (S f) n []) = n + 1 /\ letters_fuel (S f) n [] <> [].
Proof.
  induction f as [|f IH]; intros n H L; pose proof (Z.mod_pos_bound n 26 ltac:(lia)); pose proof (Z_div_mod_eq_full n 26).
  - change (2 ^ Z.of_nat 0) with 1 in L. cbn [letters_fuel]. destruct (Z.ltb_spec n 26); [|lia].
    split; [repeat constructor; unfold letter; lia|]. split; [|discriminate]. cbn. rewrite Z.mod_small by lia. lia.
  - change (letters_fuel (S (S f)) n []) with (if n <? 26 then [65 + n mod 26] else letters_fuel (S f) (n / 26 - 1) [65 + n mod 26]).
    destruct (Z.ltb_spec n 26).
    + split; [repeat constructor; unfold letter; lia|]. split; [|discriminate]. cbn. rewrite Z.mod_small by lia. lia.
    + rewrite letters_acc. destruct (IH (n / 26 - 1)) as (A & B & C).
      * assert (1 <= n / 26) by (apply Z.div_le_lower_bound; lia). lia.
      * rewrite Nat2Z.inj_succ, Z.pow_succ_r in L by lia. assert (n / 26 < 2 * 2 ^ Z.of_nat f) by (apply Z.div_lt_upper_bound; lia). lia.
      * split; [apply Forall_app; split; [exact A|repeat constructor; unfold letter; lia]|]. rewrite lval_app1, B. split; [lia|].
        intros E. apply app_eq_nil in E as [_ E]. discriminate.
Qed.
Lemma letters_ok : forall n, 0 <= n -> Forall letter (letters n) /\ lval (letters n) = n + 1 /\ letters n <> [].
Proof.
  intros n H. unfold letters. apply letters_spec; [exact H|]. destruct (Z.eq_dec n 0) as [->|N]; [reflexivity|].
  pose proof (Z.log2_spec n ltac:(lia)) as [_ L2]. pose proof (Z.log2_nonneg n). rewrite Z2Nat.id by lia. rewrite Z.pow_succ_r in L2 by lia. exact L2.
Qed.

Lemma s64_small : forall x, - two63 <= x < two63 -> s64 x = x.
Proof.
  intros x H. unfold s64, u64, two63 in *. destruct (Z_lt_dec x 0).
  - replace (x mod 18446744073709551616) with (x + 18446744073709551616).
    + destruct (Z.ltb_spec (x + 18446744073709551616) 9223372036854775808); lia.
    + rewrite <- (Z_mod_plus_full x 1). rewrite Z.mod_small; lia.
  - rewrite Z.mod_small by lia. destruct (Z.ltb_spec x 9223372036854775808); lia.
Qed.
Lemma lval_nonneg : forall l, Forall letter l -> 0 <= lval l.
Proof.
  intros l. induction l as [|c l IH] using rev_ind; intros F; [cbn; lia|]. apply Forall_app in F as [F Fc]. inversion Fc; subst. rewrite lval_app1. unfold letter in *. specialize (IH F). lia.
Qed.
Lemma lval_wrap : forall l, Forall letter l -> lval l < two63 -> fold_left (fun i c => s64 (i * 26 + (c - 64))) l 0 = lval l.
Proof.
  intros l. induction l as [|c l IH] using rev_ind; intros F B; [reflexivity|]. apply Forall_app in F as [F Fc]. inversion Fc; subst. unfold letter in *.
  pose proof (lval_nonneg l F). rewrite lval_app1 in B. rewrite fold_left_app, IH by (auto; lia). cbn [fold_left]. rewrite lval_app1. apply s64_small. unfold two63 in *. lia.
Qed.
Lemma col2int_letters : forall n, coord_ok n -> col2int (letters n) = n.
Proof.
  intros n H. unfold coord_ok in H. destruct (letters_ok n) as (A & B & C); [lia|]. unfold col2int. rewrite runes_ascii by (eapply Forall_impl; [|exact A]; unfold letter; intros; lia).
  rewrite lval_wrap; [|exact A|unfold two63; lia]. rewrite B. rewrite s64_small; unfold two63; lia.
Qed.

Lemma index_none : forall p l i, Forall (fun c => p c = false) l -> index_from p i l = -1.
Proof. induction l as [|c l IH]; intros i F; [reflexivity|]. inversion F; subst. cbn [index_from]. rewrite H1. auto. Qed.
Lemma in_digit_set : forall c, existsb (Z.eqb c) digit_set = true <-> digit c.
Proof.
  intros c. unfold digit_set, digit. change (bs "0123456789") with [48; 49; 50; 51; 52; 53; 54; 55; 56; 57]. cbn [existsb]. rewrite !orb_true_iff, !Z.eqb_eq. split; [intuition; lia|]. intros. assert (c = 48 \/ c = 49 \/ c = 50 \/ c = 51 \/ c = 52 \/ c = 53 \/ c = 54 \/ c = 55 \/ c = 56 \/ c = 57) by lia. intuition.
Qed.
Lemma not_in_digit_set : forall c, ~ digit c -> existsb (Z.eqb c) digit_set = false.
Proof. intros c H. destruct (existsb (Z.eqb c) digit_set) eqn:E; [|reflexivity]. apply in_digit_set in E. contradiction. Qed.

Lemma ref_a1 : forall c r, coord_ok c -> coord_ok r -> ref_to_indexes (a1 c r) = Ok (c, r).
Proof.
  intros c r Hc Hr. unfold coord_ok in *. destruct (letters_ok c) as (A & B & C); [lia|]. destruct (utoa_spec (r + 1)) as (D & V & N); [lia|].
  unfold ref_to_indexes, a1.
  assert (L1 : 1 <= zlen (letters c)) by (destruct (letters c); [congruence|rewrite zlen_cons; pose proof (zlen_nonneg _ l); lia]).
  assert (L2 : 1 <= zlen (utoa (r + 1))) by (destruct (utoa (r + 1)) as [|? l]; [congruence|rewrite zlen_cons; pose proof (zlen_nonneg _ l); lia]).
  rewrite zlen_app. destruct (Z.ltb_spec (zlen (letters c) + zlen (utoa (r + 1))) 2); [lia|].
  assert (I : index_any digit_set (letters c ++ utoa (r + 1)) = zlen (letters c)).
  { unfold index_any, index_where. rewrite index_from_app.
    - destruct (utoa (r + 1)); [congruence|lia].
    - eapply Forall_impl; [|exact A]. intros x Hx. apply not_in_digit_set. unfold letter, digit in *. lia.
    - right. destruct (utoa (r + 1)) as [|x l]; [congruence|]. do 2 eexists. split; [reflexivity|]. apply in_digit_set. inversion D; auto. }
  rewrite I. destruct (Z.leb_spec (zlen (letters c)) 0); [lia|]. rewrite zdrop_app_exact, ztake_app_exact.
  unfold index_byte, index_where. rewrite index_none by (eapply Forall_impl; [|exact D]; unfold digit; intros; lia). change (-1 =? -1) with true. cbn iota.
  rewrite col2int_letters by (unfold coord_ok; lia). change (utoa (r + 1)) with (if false then 45 :: utoa (- (r + 1)) else utoa (r + 1)).
  replace false with (r + 1 <? 0) by lia. fold (itoa (r + 1)). rewrite parse_int_itoa by (change (2 ^ (64 - 1)) with 9223372036854775808; lia). cbn [fst].
  rewrite s64_small by (unfold two63; lia). do 2 f_equal. lia.
Qed.
Lemma letters_inj : forall a b, 0 <= a -> 0 <= b -> letters a = letters b -> a = b.
Proof. intros a b Ha Hb E. destruct (letters_ok a Ha) as (_ & A & _). destruct (letters_ok b Hb) as (_ & B & _). rewrite E in A. lia. Qed.

(** no reference contains a colon, and none is empty *)
Lemma a1_no_colon : forall c r, 0 <= c -> 0 <= r -> ~ In 58 (a1 c r).
Proof.
  intros c r Hc Hr I. unfold a1 in I. destruct (letters_ok c Hc) as (A & _). destruct (utoa_spec (r + 1)) as (D & _); [lia|].
  apply in_app_or in I as [I|I]; [rewrite Forall_forall in A; apply A in I; unfold letter in I; lia|rewrite Forall_forall in D; apply D in I; unfold digit in I; lia].
Qed.
Lemma split_range : forall c0 r0 c1 r1, coord_ok c0 -> coord_ok r0 -> coord_ok c1 -> coord_ok r1 -> split_byte 58 (a1_range c0 r0 c1 r1) = [a1 c0 r0; a1 c1 r1].
Proof.
  unfold coord_ok. intros. unfold a1_range. change ([58] ++ a1 c1 r1) with (58 :: a1 c1 r1). rewrite split_byte_app by (apply a1_no_colon; lia). rewrite split_byte_none by (apply a1_no_colon; lia). reflexivity.
Qed.
Lemma a1_A1 : forall c r, 0 <= c -> 0 <= r -> a1 c r = bs "A1" -> c = 0 /\ r = 0.
Proof.
  intros c r Hc Hr E. destruct (letters_ok c Hc) as (A & B & N). destruct (utoa_spec (r + 1)) as (D & V & N2); [lia|]. unfold a1 in E. change (bs "A1") with [65; 49] in E.
  destruct (letters c) as [|x l]; [congruence|]. cbn [app] in E. injection E as -> E. destruct l as [|y l].
  - cbn [app] in E. rewrite E in V. cbn in B, V. lia.
  - cbn [app] in E. injection E as -> E. inversion A as [|? ? _ A2]; subst. inversion A2; subst. unfold letter in *. lia.
Qed.
