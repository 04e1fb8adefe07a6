(** * L_base: facts about the Go fragment of GoBase. *)
From Verif Require Import GoBase.
From Coq Require Import ZifyBool ZifyNat ZifyN.
Ltac Zify.zify_post_hook ::= Z.div_mod_to_equations.

(** ** strings *)
Lemma str_eqb_refl : forall a, str_eqb a a = true.
Proof. induction a; simpl; rewrite ?Z.eqb_refl; auto. Qed.

Lemma str_eqb_eq : forall a b, str_eqb a b = true <-> a = b.
Proof.
  induction a as [|x a IH]; destruct b as [|y b]; simpl; split; intros H; try discriminate; auto.
  - apply andb_true_iff in H as [H1 H2]. apply Z.eqb_eq in H1. apply IH in H2. congruence.
  - inversion H; subst. rewrite Z.eqb_refl. apply IH. reflexivity.
Qed.

Lemma str_eqb_neq : forall a b, str_eqb a b = false <-> a <> b.
Proof.
  intros a b. rewrite <- (str_eqb_eq a b). destruct (str_eqb a b); split; congruence.
Qed.

Lemma str_eqb_sym : forall a b, str_eqb a b = str_eqb b a.
Proof.
  induction a as [|x a IH]; destruct b as [|y b]; simpl; auto. rewrite IH, Z.eqb_sym. auto.
Qed.

(** ** lengths and slices *)
Lemma zlen_nonneg : forall A (l : list A), 0 <= zlen l.
Proof. intros. unfold zlen. lia. Qed.

Lemma zlen_nil : forall A, zlen (@nil A) = 0.
Proof. reflexivity. Qed.

Lemma zlen_cons : forall A (x : A) l, zlen (x :: l) = 1 + zlen l.
Proof. intros. unfold zlen. simpl List.length. lia. Qed.

Lemma zlen_app : forall A (a b : list A), zlen (a ++ b) = zlen a + zlen b.
Proof. intros. unfold zlen. rewrite app_length. lia. Qed.

Lemma zlen_map : forall A B (f : A -> B) l, zlen (map f l) = zlen l.
Proof. intros. unfold zlen. rewrite map_length. lia. Qed.

Lemma zlen_0 : forall A (l : list A), zlen l = 0 -> l = [].
Proof. intros A [|x l]; auto. rewrite zlen_cons. pose proof (zlen_nonneg _ l). lia. Qed.

Lemma zlen_repeat : forall A (x : A) n, zlen (repeat x n) = Z.of_nat n.
Proof. intros. unfold zlen. rewrite repeat_length. lia. Qed.

Lemma zlen_ztake : forall A (l : list A) n, 0 <= n <= zlen l -> zlen (ztake n l) = n.
Proof. intros. unfold zlen, ztake in *. rewrite firstn_length. lia. Qed.

Lemma zlen_zdrop : forall A (l : list A) n, 0 <= n <= zlen l -> zlen (zdrop n l) = zlen l - n.
Proof. intros. unfold zlen, zdrop in *. rewrite skipn_length. lia. Qed.

Lemma ztake_zdrop : forall A n (l : list A), ztake n l ++ zdrop n l = l.
Proof. intros. apply firstn_skipn. Qed.

Lemma ztake_app_exact : forall A (a b : list A), ztake (zlen a) (a ++ b) = a.
Proof.
  intros. unfold ztake, zlen. rewrite Nat2Z.id, firstn_app, Nat.sub_diag, firstn_all. simpl.
  apply app_nil_r.
Qed.

Lemma zdrop_app_exact : forall A (a b : list A), zdrop (zlen a) (a ++ b) = b.
Proof.
  intros. unfold zdrop, zlen. rewrite Nat2Z.id, skipn_app, Nat.sub_diag, skipn_all. reflexivity.
Qed.

Lemma ztake_app_exact' : forall A (a b : list A) n, n = zlen a -> ztake n (a ++ b) = a.
Proof. intros; subst; apply ztake_app_exact. Qed.

Lemma zdrop_app_exact' : forall A (a b : list A) n, n = zlen a -> zdrop n (a ++ b) = b.
Proof. intros; subst; apply zdrop_app_exact. Qed.

Lemma ztake_all : forall A (l : list A) n, zlen l <= n -> ztake n l = l.
Proof. intros. unfold ztake, zlen in *. apply firstn_all2. lia. Qed.

Lemma zdrop_all : forall A (l : list A) n, zlen l <= n -> zdrop n l = [].
Proof. intros. unfold zdrop, zlen in *. apply skipn_all2. lia. Qed.

Lemma ztake_0 : forall A (l : list A), ztake 0 l = [].
Proof. reflexivity. Qed.

Lemma zdrop_0 : forall A (l : list A), zdrop 0 l = l.
Proof. reflexivity. Qed.

Lemma skipn_skipn' : forall A n m (l : list A), skipn n (skipn m l) = skipn (m + n) l.
Proof.
  intros A n m. revert n. induction m as [|m IH]; intros n l; simpl; auto.
  destruct l; simpl; auto. apply skipn_nil.
Qed.

Lemma zdrop_zdrop : forall A n m (l : list A), 0 <= n -> 0 <= m ->
  zdrop n (zdrop m l) = zdrop (m + n) l.
Proof. intros. unfold zdrop. rewrite skipn_skipn'. f_equal. lia. Qed.

Lemma zdrop_app_ge : forall A n (a b : list A), zlen a <= n ->
  zdrop n (a ++ b) = zdrop (n - zlen a) b.
Proof.
  intros. unfold zdrop, zlen in *. rewrite skipn_app, (skipn_all2 a) by lia. simpl. f_equal. lia.
Qed.

Lemma zdrop_app_le : forall A n (a b : list A), n <= zlen a ->
  zdrop n (a ++ b) = zdrop n a ++ b.
Proof.
  intros. unfold zdrop, zlen in *. rewrite skipn_app.
  replace (Z.to_nat n - List.length a)%nat with 0%nat by lia. reflexivity.
Qed.

Lemma ztake_app_le : forall A n (a b : list A), n <= zlen a ->
  ztake n (a ++ b) = ztake n a.
Proof.
  intros. unfold ztake, zlen in *. rewrite firstn_app.
  replace (Z.to_nat n - List.length a)%nat with 0%nat by lia. simpl. apply app_nil_r.
Qed.

Lemma ztake_app_ge : forall A n (a b : list A), zlen a <= n ->
  ztake n (a ++ b) = a ++ ztake (n - zlen a) b.
Proof.
  intros. unfold ztake, zlen in *. rewrite firstn_app, (firstn_all2 a) by lia.
  repeat f_equal. lia.
Qed.

Lemma bytes_ok_app : forall a b, bytes_ok (a ++ b) <-> bytes_ok a /\ bytes_ok b.
Proof. intros. unfold bytes_ok. apply Forall_app. Qed.

(** ** indexing *)
Lemma idx_ok : forall A (l : list A) i x,
  0 <= i -> nth_error l (Z.to_nat i) = Some x -> idx l i = Ok x.
Proof. intros. unfold idx. destruct (Z.leb_spec 0 i); [|lia]. rewrite H0. reflexivity. Qed.

Lemma idx_in : forall A (l : list A) i, 0 <= i < zlen l -> exists x, idx l i = Ok x.
Proof.
  intros A l i H. unfold idx, zlen in *. destruct (Z.leb_spec 0 i); [|lia].
  destruct (nth_error l (Z.to_nat i)) eqn:E; eauto.
  apply nth_error_None in E. lia.
Qed.

Lemma idx_out : forall A (l : list A) i, ~ 0 <= i < zlen l -> idx l i = Panic.
Proof.
  intros A l i H. unfold idx, zlen in *. destruct (Z.leb_spec 0 i); auto.
  destruct (nth_error l (Z.to_nat i)) eqn:E; auto.
  assert (Z.to_nat i < List.length l)%nat by (apply nth_error_Some; congruence). lia.
Qed.

Lemma idx_app_exact : forall A (a : list A) x b i, i = zlen a -> idx (a ++ x :: b) i = Ok x.
Proof.
  intros; subst. unfold idx, zlen. destruct (Z.leb_spec 0 (Z.of_nat (List.length a))); [|lia].
  rewrite Nat2Z.id, nth_error_app2, Nat.sub_diag by lia. reflexivity.
Qed.

Lemma upd_length : forall A (l : list A) n x, List.length (upd l n x) = List.length l.
Proof. induction l; destruct n; simpl; intros; auto. Qed.

Lemma nth_error_upd_same : forall A (l : list A) n x,
  (n < List.length l)%nat -> nth_error (upd l n x) n = Some x.
Proof. induction l; destruct n; simpl; intros; try lia; auto. apply IHl. lia. Qed.

Lemma nth_error_upd_other : forall A (l : list A) n m x,
  n <> m -> nth_error (upd l n x) m = nth_error l m.
Proof.
  induction l; destruct n, m; simpl; intros; auto; try congruence.
Qed.

Lemma nth_error_upd : forall A (l : list A) n m x,
  nth_error (upd l n x) m =
  if Nat.eqb n m then (if Nat.ltb m (List.length l) then Some x else None) else nth_error l m.
Proof.
  intros. destruct (Nat.eqb_spec n m).
  - subst. destruct (Nat.ltb_spec m (List.length l)).
    + apply nth_error_upd_same; auto.
    + apply nth_error_None. rewrite upd_length. lia.
  - apply nth_error_upd_other; auto.
Qed.

Lemma upd_app_exact : forall A (a : list A) y b x,
  upd (a ++ y :: b) (List.length a) x = a ++ x :: b.
Proof. induction a; simpl; intros; auto. rewrite IHa. auto. Qed.

(** ** little endian *)
Lemma le16_put16 : forall x r, 0 <= x < 65536 -> le16 (put16 x ++ r) = Ok x.
Proof. intros. unfold put16, le16. cbn [app]. cbv iota beta. f_equal. lia. Qed.

Lemma bytes4 : forall a, 0 <= a < 4294967296 ->
  a mod 256 + 256 * ((a / 256) mod 256) + 65536 * ((a / 65536) mod 256)
  + 16777216 * ((a / 16777216) mod 256) = a.
Proof.
  intros.
  replace (a / 65536) with (a / 256 / 256) by (rewrite Z.div_div by lia; reflexivity).
  replace (a / 16777216) with (a / 256 / 256 / 256) by (rewrite !Z.div_div by lia; reflexivity).
  set (b := a / 256). assert (a = 256 * b + a mod 256) by (subst b; lia).
  set (c := b / 256). assert (b = 256 * c + b mod 256) by (subst c; lia).
  assert (0 <= c / 256 < 256) by (subst c b; lia).
  rewrite (Z.mod_small (c / 256)) by lia. 
  assert (c = 256 * (c / 256) + c mod 256) by lia. lia.
Qed.

Lemma le32_put32 : forall x r, 0 <= x < 4294967296 -> le32 (put32 x ++ r) = Ok x.
Proof. intros. unfold put32, le32. cbn [app]. cbv iota beta. f_equal. apply bytes4; auto. Qed.

Lemma le64_put64 : forall x r, 0 <= x < 18446744073709551616 -> le64 (put64 x ++ r) = Ok x.
Proof.
  intros. unfold put64, put32, le64. cbn [app]. cbv iota beta. f_equal.
  set (a := x mod 4294967296). set (b := x / 4294967296).
  assert (Hx : x = a + 4294967296 * b) by (subst a b; lia).
  assert (0 <= a < 4294967296) by (subst a; lia).
  assert (0 <= b < 4294967296) by (subst b; lia).
  clearbody a b.
  pose proof (bytes4 a H0) as Ha. pose proof (bytes4 b H1) as Hb.
  rewrite Hx. rewrite <- Ha at 5. rewrite <- Hb at 5. ring.
Qed.

Lemma zlen_put16 : forall x, zlen (put16 x) = 2.  Proof. reflexivity. Qed.
Lemma zlen_put32 : forall x, zlen (put32 x) = 4.  Proof. reflexivity. Qed.

Lemma put16_ok : forall x, bytes_ok (put16 x).
Proof. intros. unfold put16. repeat constructor; lia. Qed.
Lemma put32_ok : forall x, bytes_ok (put32 x).
Proof. intros. unfold put32. repeat constructor; lia. Qed.

(** ** decimal numerals *)
Definition digit (c : Z) : Prop := 48 <= c <= 57.
Definition dec_val (l : gostr) : Z := fold_left (fun a c => a * 10 + (c - 48)) l 0.

Lemma dec_val_app1 : forall l c, dec_val (l ++ [c]) = dec_val l * 10 + (c - 48).
Proof. intros. unfold dec_val. rewrite fold_left_app. reflexivity. Qed.

Lemma digits_fuel_app : forall f n acc,
  digits_fuel f n acc = digits_fuel f n [] ++ acc.
Proof.
  induction f as [|f IH]; intros; simpl; auto.
  destruct (n <? 10); auto. rewrite IH, (IH _ [_]). rewrite <- app_assoc. reflexivity.
Qed.

Lemma digits_fuel_spec : forall f n, 0 <= n -> n < 10 * 2 ^ (Z.of_nat f - 1) -> (0 < f)%nat ->
  Forall digit (digits_fuel f n []) /\ dec_val (digits_fuel f n []) = n /\
  digits_fuel f n [] <> [].
Proof.
  induction f as [|f IH]; intros n Hn Hf Hp; [lia|].
  cbn [digits_fuel]. destruct (Z.ltb_spec n 10) as [Hlt|Hge].
  - repeat split; try congruence.
    + constructor; [unfold digit; lia | constructor].
    + unfold dec_val; simpl. lia.
  - rewrite digits_fuel_app.
    destruct f as [|f'].
    { simpl in Hf. lia. }
    destruct (IH (n / 10)) as (H1 & H2 & H3).
    + lia.
    + replace (Z.of_nat (S (S f')) - 1) with (1 + (Z.of_nat (S f') - 1)) in Hf by lia.
      rewrite Z.pow_add_r in Hf by lia.
      change (2^1) with 2 in Hf.
      assert (0 < 2 ^ (Z.of_nat (S f') - 1)) by (apply Z.pow_pos_nonneg; lia).
      lia.
    + lia.
    + repeat split.
      * apply Forall_app; split; auto. constructor; [unfold digit; lia | constructor].
      * rewrite dec_val_app1, H2. lia.
      * intros E. apply app_eq_nil in E as [_ E]. discriminate.
Qed.

Lemma utoa_spec : forall n, 0 <= n ->
  Forall digit (utoa n) /\ dec_val (utoa n) = n /\ utoa n <> [].
Proof.
  intros n Hn. unfold utoa. apply digits_fuel_spec; auto; try lia.
  destruct (Z.eq_dec n 0) as [->|Hz]; [simpl; lia|].
  pose proof (Z.log2_spec n ltac:(lia)) as [_ H].
  pose proof (Z.log2_nonneg n).
  replace (Z.of_nat (S (Z.to_nat (Z.log2 n))) - 1) with (Z.log2 n) by lia.
  rewrite Z.pow_succ_r in H by lia.
  assert (0 < 2 ^ Z.log2 n) by (apply Z.pow_pos_nonneg; lia). lia.
Qed.

Lemma fold_dec_ge : forall l a, 0 <= a -> Forall digit l ->
  a <= fold_left (fun a c => a * 10 + (c - 48)) l a.
Proof.
  induction l as [|c l IH]; intros a Ha Hl; simpl; [lia|].
  inversion Hl; subst. unfold digit in *.
  specialize (IH (a * 10 + (c - 48)) ltac:(lia) H2). lia.
Qed.

Lemma parse_uint_loop_spec : forall l a maxv, 0 <= a -> Forall digit l ->
  fold_left (fun a c => a * 10 + (c - 48)) l a <= maxv ->
  parse_uint_loop maxv a l = (fold_left (fun a c => a * 10 + (c - 48)) l a, PNone).
Proof.
  induction l as [|c l IH]; intros a maxv Ha Hl Hm; simpl in *; auto.
  inversion Hl; subst. unfold digit in *.
  destruct (Z.leb_spec 48 c); [|lia]. destruct (Z.leb_spec c 57); [|lia]. simpl.
  pose proof (fold_dec_ge l (a * 10 + (c - 48)) ltac:(lia) H2).
  destruct (Z.ltb_spec maxv (a * 10 + (c - 48))); [lia|].
  apply IH; auto; lia.
Qed.

Lemma parse_uint_utoa : forall bits n, 0 <= n <= 2 ^ bits - 1 ->
  parse_uint bits (utoa n) = (n, PNone).
Proof.
  intros bits n Hn. destruct (utoa_spec n ltac:(lia)) as (H1 & H2 & H3).
  unfold parse_uint. destruct (utoa n) as [|c r] eqn:E; [congruence|].
  rewrite <- E in *. rewrite parse_uint_loop_spec; auto; try lia.
  - unfold dec_val in H2. rewrite H2. reflexivity.
  - unfold dec_val in H2. lia.
Qed.

(** strconv.ParseInt inverts strconv.FormatInt on the whole range of the type *)
Lemma parse_int_itoa : forall bits n, 0 < bits -> - 2 ^ (bits - 1) <= n < 2 ^ (bits - 1) ->
  parse_int bits (itoa n) = (n, PNone).
Proof.
  intros bits n Hb Hn.
  assert (Hp : 2 ^ bits = 2 * 2 ^ (bits - 1)).
  { replace bits with (1 + (bits - 1)) at 1 by lia. rewrite Z.pow_add_r by lia. reflexivity. }
  unfold itoa. destruct (Z.ltb_spec n 0) as [Hneg|Hpos].
  - unfold parse_int. simpl orb. simpl. rewrite parse_uint_utoa by lia. simpl.
    destruct (Z.ltb_spec (2 ^ (bits - 1)) (- n)); [lia|]. f_equal. lia.
  - destruct (utoa_spec n Hpos) as (H1 & H2 & H3).
    unfold parse_int. destruct (utoa n) as [|c r] eqn:E; [congruence|].
    assert (Hc : digit c) by (inversion H1; auto). unfold digit in Hc.
    destruct (Z.eqb_spec c 43); [lia|]. destruct (Z.eqb_spec c 45); [lia|].
    cbn [orb negb andb]. rewrite <- E.
    rewrite parse_uint_utoa by lia.
    destruct (Z.leb_spec (2 ^ (bits - 1)) n); [lia|]. reflexivity.
Qed.

Lemma itoa_inj : forall a b, itoa a = itoa b -> a = b.
Proof.
  intros a b H. unfold itoa in H.
  destruct (Z.ltb_spec a 0), (Z.ltb_spec b 0).
  - inversion H. destruct (utoa_spec (-a) ltac:(lia)) as (_ & E1 & _).
    destruct (utoa_spec (-b) ltac:(lia)) as (_ & E2 & _). rewrite H3 in E1. lia.
  - destruct (utoa_spec b ltac:(lia)) as (E & _ & _). rewrite <- H in E. inversion E; subst.
    unfold digit in *; lia.
  - destruct (utoa_spec a ltac:(lia)) as (E & _ & _). rewrite H in E. inversion E; subst.
    unfold digit in *; lia.
  - destruct (utoa_spec a ltac:(lia)) as (_ & E1 & _).
    destruct (utoa_spec b ltac:(lia)) as (_ & E2 & _). rewrite H in E1. lia.
Qed.

Lemma idx_0 : forall A (x : A) l, idx (x :: l) 0 = Ok x.
Proof. reflexivity. Qed.
