(** * P_numtext: what the number fields of a text file and the number cells of a package hold *)
From Verif Require Import GoBase GoFloat L_base L_float L_round S_numtext M_value M_cell M_simple P_simple P_cell M_xlsx.
From Coq Require Import Reals Lra Psatz.
From Flocq Require Import Core IEEE754.BinarySingleNaN.
Open Scope Z_scope.
Local Opaque f_of_dec Z.pow.

(** ** digits *)
Lemma fold_spelled : forall l a, fold_left (fun a c => a * 10 + (c - 48)) l a = a * 10 ^ zlen l + spelled l.
Proof.
  induction l as [|c l IH]; intros a; cbn [fold_left spelled].
  - rewrite zlen_nil. Local Transparent Z.pow. simpl. Local Opaque Z.pow. lia.
  - rewrite IH, zlen_cons. pose proof (zlen_nonneg _ l). rewrite Z.pow_add_r by lia. lia.
Qed.
Lemma dec_spelled : forall l, dec_val l = spelled l.
Proof. intros. unfold dec_val. rewrite fold_spelled. lia. Qed.
Lemma spelled_nonneg : forall l, Forall dig l -> 0 <= spelled l.
Proof.
  induction l as [|c l IH]; intros H; cbn [spelled]; [lia|]. inversion H; subst. unfold dig in *. specialize (IH H3).
  pose proof (zlen_nonneg _ l). assert (0 < 10 ^ zlen l) by (apply Z.pow_pos_nonneg; lia). nia.
Qed.
Lemma spelled_lt : forall l, Forall dig l -> spelled l < 10 ^ zlen l.
Proof.
  induction l as [|c l IH]; intros H; cbn [spelled].
  - rewrite zlen_nil. reflexivity.
  - inversion H; subst. unfold dig in *. specialize (IH H3). rewrite zlen_cons. pose proof (zlen_nonneg _ l).
    rewrite Z.pow_add_r by lia. change (10 ^ 1) with 10.
    assert (0 < 10 ^ zlen l) by (apply Z.pow_pos_nonneg; lia). assert ((c - 48) * 10 ^ zlen l <= 9 * 10 ^ zlen l) by (apply Z.mul_le_mono_nonneg_r; lia). lia.
Qed.
Lemma spelled_app : forall a b, spelled (a ++ b) = spelled a * 10 ^ zlen b + spelled b.
Proof. intros. rewrite <- !dec_spelled. unfold dec_val. rewrite fold_left_app, !fold_spelled. ring. Qed.
Lemma dig_is : forall c, dig c -> is_digit c = true.
Proof. intros c. unfold dig, is_digit. lia. Qed.
Lemma dig_digit : forall l, Forall dig l -> Forall digit l.
Proof. intros l H. exact H. Qed.

(** ** integers *)
Lemma uint_loop_over : forall maxv l n, 0 <= n -> Forall dig l -> maxv < n * 10 ^ zlen l + spelled l -> 0 <= maxv -> n <= maxv ->
  parse_uint_loop maxv n l = (maxv, PRange).
Proof.
  induction l as [|c l IH]; intros n Hn Hl H Hm Hnm.
  - rewrite zlen_nil in H. change (10 ^ 0) with 1 in H. cbn [spelled] in H. lia.
  - inversion Hl; subst. cbn [parse_uint_loop spelled] in *. unfold dig in H2. replace ((48 <=? c) && (c <=? 57)) with true by lia. cbv zeta.
    destruct (Z.ltb_spec maxv (n * 10 + (c - 48))); [reflexivity|]. apply IH; auto; try lia.
    rewrite zlen_cons in H. pose proof (zlen_nonneg _ l). rewrite Z.pow_add_r in H by lia. change (10 ^ 1) with 10 in H. lia.
Qed.
Lemma uint_loop_in : forall maxv l n, 0 <= n -> Forall dig l -> n * 10 ^ zlen l + spelled l <= maxv ->
  parse_uint_loop maxv n l = (n * 10 ^ zlen l + spelled l, PNone).
Proof. intros. rewrite parse_uint_loop_spec; auto; rewrite fold_spelled; auto. Qed.
(** and conversely: accepted without an error only if all digits *)
Lemma uint_loop_ok : forall maxv l n u, parse_uint_loop maxv n l = (u, PNone) -> Forall dig l.
Proof.
  induction l as [|c l IH]; intros n u H; cbn [parse_uint_loop] in H; [constructor|].
  destruct ((48 <=? c) && (c <=? 57)) eqn:E; [|discriminate]. cbv zeta in H. destruct (maxv <? n * 10 + (c - 48)); [discriminate|].
  constructor; [unfold dig; lia|eauto].
Qed.

(** what strconv.ParseInt makes of a text *)
Definition int_read (s : gostr) (z : Z) (e : perr) : Prop :=
  (forall n, int_numeral s n ->
     (- 2 ^ 63 <= n < 2 ^ 63 -> z = n /\ e = PNone) /\
     (2 ^ 63 <= n -> z = 2 ^ 63 - 1 /\ e = PRange) /\
     (n < - 2 ^ 63 -> z = - 2 ^ 63 /\ e = PRange)) /\
  (e = PNone -> int_numeral s z /\ - 2 ^ 63 <= z < 2 ^ 63).

Lemma sign_dig : forall sg neg c ds, sign_text sg neg -> dig c ->
  exists h t, sg ++ c :: ds = h :: t /\ (h =? 45) = neg /\ (if (h =? 43) || (h =? 45) then t else h :: t) = c :: ds.
Proof.
  intros sg neg c ds S D. unfold dig in D. destruct S; cbn [app]; eexists; eexists; (split; [reflexivity|]).
  - split; [lia|]. replace ((c =? 43) || (c =? 45)) with false by lia. reflexivity.
  - split; reflexivity.
  - split; reflexivity.
Qed.

Lemma p63 : 2 ^ 64 = 2 * 2 ^ 63. Proof. reflexivity. Qed.
Lemma parse_int_reads : forall s, int_read s (fst (parse_int 64 s)) (snd (parse_int 64 s)).
Proof.
  intros s. split.
  - intros n H. inversion H as [sg neg ds S D N]; subst. destruct ds as [|c ds]; [congruence|].
    assert (Dc : dig c) by (inversion D; auto).
    destruct (sign_dig sg neg c ds S Dc) as (h & t & E & EN & EB). rewrite E. unfold parse_int. cbv zeta. rewrite EB, EN.
    unfold parse_uint. pose proof (spelled_nonneg _ D) as NN. set (v := spelled (c :: ds)) in *. change (64 - 1) with 63.
    pose proof p63. assert (0 < 2 ^ 63) by (apply Z.pow_pos_nonneg; lia).
    destruct (Z_le_gt_dec v (2 ^ 64 - 1)) as [L|G].
    + rewrite uint_loop_in; auto; try lia. rewrite Z.mul_0_l, Z.add_0_l. fold v.
      destruct neg; cbn [negb andb].
      * destruct (Z.ltb_spec (2 ^ 63) v); cbn [fst snd]; repeat split; intros; try lia; try reflexivity.
      * destruct (Z.leb_spec (2 ^ 63) v); cbn [fst snd]; repeat split; intros; try lia; try reflexivity.
    + rewrite uint_loop_over; auto; try lia.
      destruct neg; cbn [negb andb].
      * replace (2 ^ 63 <? 2 ^ 64 - 1) with true by lia. cbn [fst snd]; repeat split; intros; try lia; try reflexivity.
      * replace (2 ^ 63 <=? 2 ^ 64 - 1) with true by lia. cbn [fst snd]; repeat split; intros; try lia; try reflexivity.
  - intros E. destruct s as [|h t]; [discriminate|]. unfold parse_int in *. cbv zeta in *.
    assert (SG : exists sg body, h :: t = sg ++ body /\ sign_text sg (h =? 45) /\ body = (if (h =? 43) || (h =? 45) then t else h :: t)).
    { destruct (Z.eqb_spec h 45) as [->|]; [exists [45], t; repeat split; constructor|]. destruct (Z.eqb_spec h 43) as [->|]; [exists [43], t; repeat split; constructor|].
      exists [], (h :: t). repeat split; constructor. }
    destruct SG as (sg & body & E1 & E2 & E3). rewrite <- E3 in *. destruct (parse_uint 64 body) as [u e] eqn:PU.
    assert (e <> PSyntax). { intros ->. discriminate. }
    assert (0 < 2 ^ 63) by (apply Z.pow_pos_nonneg; lia). change (64 - 1) with 63 in *.
    destruct body as [|c body]; [injection PU as <- <-; congruence|]. unfold parse_uint in PU.
    assert (UB : u <= 2 ^ 63 -> e = PNone /\ Forall dig (c :: body)).
    { intros. destruct e; try congruence.
      - split; auto. apply uint_loop_ok in PU. auto.
      - exfalso. assert (G : forall l n, snd (parse_uint_loop (2 ^ 64 - 1) n l) = PRange -> fst (parse_uint_loop (2 ^ 64 - 1) n l) = 2 ^ 64 - 1).
        { induction l as [|a l IH]; intros n G; cbn [parse_uint_loop] in *; [discriminate|]. destruct ((48 <=? a) && (a <=? 57)); [|discriminate]. cbv zeta in *. destruct (2 ^ 64 - 1 <? n * 10 + (a - 48)); auto. }
        specialize (G (c :: body) 0). rewrite PU in G. specialize (G eq_refl). cbn [fst] in G. pose proof p63. assert (4 < 2 ^ 63) by reflexivity. lia. }
    assert (K : u <= 2 ^ 63 -> u = spelled (c :: body) /\ Forall dig (c :: body)).
    { intros L. destruct (UB L) as [-> D]. split; auto. pose proof (spelled_nonneg _ D). destruct (Z_le_gt_dec (spelled (c :: body)) (2 ^ 64 - 1)).
      - rewrite uint_loop_in in PU; auto; try lia. assert (E9 : 0 * 10 ^ zlen (c :: body) + spelled (c :: body) = u) by congruence. lia.
      - rewrite uint_loop_over in PU; auto; try lia. discriminate. }
    rewrite E1. destruct e; try congruence; destruct (h =? 45); cbn [negb andb] in *.
    + destruct (Z.ltb_spec (2 ^ 63) u); [discriminate|]. destruct (K ltac:(lia)) as [-> D]. cbn [fst]. pose proof (spelled_nonneg _ D). split; [apply (an_int sg true); auto; congruence|lia].
    + destruct (Z.leb_spec (2 ^ 63) u); [discriminate|]. destruct (K ltac:(lia)) as [-> D]. cbn [fst]. pose proof (spelled_nonneg _ D). split; [apply (an_int sg false); auto; congruence|lia].
    + destruct (Z.ltb_spec (2 ^ 63) u); [discriminate|]. destruct (UB ltac:(lia)); discriminate.
    + destruct (Z.leb_spec (2 ^ 63) u); [discriminate|]. destruct (UB ltac:(lia)); discriminate.
Qed.

(** ** scanning a decimal numeral *)
Lemma scan_mant_digits : forall ds rest m nd nf dot us, Forall dig ds ->
  scan_mant false (ds ++ rest) m nd nf dot us =
  scan_mant false rest (m * 10 ^ zlen ds + spelled ds) (nd + zlen ds) (if dot then nf + zlen ds else nf) dot us.
Proof.
  induction ds as [|c ds IH]; intros rest m nd nf dot us H.
  - cbn [app spelled]. rewrite zlen_nil. change (10 ^ 0) with 1. rewrite Z.mul_1_r, !Z.add_0_r. destruct dot; reflexivity.
  - inversion H as [|? ? D H']; subst. cbn [app scan_mant]. unfold dig in D. replace (c =? 95) with false by lia. replace (c =? 46) with false by lia.
    rewrite (dig_is c) by auto. rewrite IH by auto. rewrite zlen_cons. pose proof (zlen_nonneg _ ds). cbn [spelled]. rewrite Z.pow_add_r by lia. change (10 ^ 1) with 10.
    f_equal; try lia. destruct dot; lia.
Qed.
Lemma scan_mant_exp : forall et x m nd nf dot us, exp_part et x -> scan_mant false et m nd nf dot us = (m, nd, nf, us, et).
Proof. intros et x m nd nf dot us H. destruct H as [|c t x [->| ->] I]; reflexivity. Qed.
Lemma scan_mant_numeral : forall ip ft fd et x, Forall dig ip -> frac_text ft fd -> exp_part et x ->
  scan_mant false (ip ++ ft ++ et) 0 0 0 false false = (spelled (ip ++ fd), zlen (ip ++ fd), zlen fd, false, et).
Proof.
  intros ip ft fd et x Di F E. rewrite scan_mant_digits by auto. rewrite Z.mul_0_l, !Z.add_0_l. destruct F as [|fd Df].
  - cbn [app]. rewrite (scan_mant_exp _ x) by auto. rewrite app_nil_r. reflexivity.
  - cbn [app scan_mant]. change (46 =? 95) with false. change (46 =? 46) with true. cbn iota.
    rewrite scan_mant_digits by auto. rewrite (scan_mant_exp _ x) by auto. rewrite spelled_app, zlen_app, Z.add_0_l. reflexivity.
Qed.

Lemma scan_exp_digits : forall ds e us, Forall dig ds -> 0 <= e ->
  exists r, scan_exp ds e us = (r, us, []) /\
    (e * 10 ^ zlen ds + spelled ds < 100000 -> r = e * 10 ^ zlen ds + spelled ds) /\
    (100000 <= e * 10 ^ zlen ds + spelled ds -> 10000 <= r <= e * 10 ^ zlen ds + spelled ds).
Proof.
  induction ds as [|c ds IH]; intros e us H He.
  - exists e. cbn [scan_exp spelled]. rewrite zlen_nil. change (10 ^ 0) with 1. repeat split; intros; lia.
  - inversion H as [|? ? D H']; subst. cbn [scan_exp spelled]. pose proof D as D0. unfold dig in D. replace (c =? 95) with false by lia. rewrite dig_is by auto.
    rewrite zlen_cons. pose proof (zlen_nonneg _ ds) as NL. rewrite Z.pow_add_r by lia. change (10 ^ 1) with 10.
    pose proof (spelled_nonneg _ H') as NS. assert (P : 1 <= 10 ^ zlen ds) by (assert (0 < 10 ^ zlen ds) by (apply Z.pow_pos_nonneg; lia); lia).
    destruct (Z.ltb_spec e 10000).
    + destruct (IH (e * 10 + (c - 48)) us H' ltac:(lia)) as (r & E & A & B). exists r. split; [exact E|].
      replace (e * (10 * 10 ^ zlen ds) + ((c - 48) * 10 ^ zlen ds + spelled ds)) with ((e * 10 + (c - 48)) * 10 ^ zlen ds + spelled ds) by ring. auto.
    + destruct (IH e us H' ltac:(lia)) as (r & E & A & B). exists r. split; [exact E|].
      assert (e * 1 <= e * 10 ^ zlen ds) by (apply Z.mul_le_mono_nonneg_l; lia).
      assert (0 <= (c - 48) * 10 ^ zlen ds) by (apply Z.mul_nonneg_nonneg; lia).
      split; intros; [lia|]. destruct (Z_lt_ge_dec (e * 10 ^ zlen ds + spelled ds) 100000); [rewrite A by auto; lia|specialize (B ltac:(lia)); lia].
Qed.

(** characters of a numeral *)
Definition numch (c : Z) : Prop := dig c \/ In c [43; 45; 46; 69; 101].
Lemma numch_lower : forall c, numch c -> lower c <> 105 /\ lower c <> 110 /\ lower c <> 120.
Proof. intros c H. unfold numch, dig in H. cbn [In] in H. unfold lower. destruct (Z.leb_spec 65 c), (Z.leb_spec c 90); cbn [andb]; lia. Qed.
Lemma dig_numch : forall l, Forall dig l -> Forall numch l.
Proof. intros l H. eapply Forall_impl; [|exact H]. intros. left. auto. Qed.
Lemma sign_numch : forall sg neg, sign_text sg neg -> Forall numch sg.
Proof. intros sg neg []; repeat constructor; right; cbn [In]; auto. Qed.
Lemma body_numch : forall ip ft fd et x, Forall dig ip -> frac_text ft fd -> exp_part et x -> Forall numch (ip ++ ft ++ et).
Proof.
  intros ip ft fd et x D F E. apply Forall_app. split; [apply dig_numch; auto|]. apply Forall_app. split.
  - destruct F; [constructor|constructor; [right; cbn [In]; auto|apply dig_numch; auto]].
  - destruct E as [|c t x C I]; [constructor|]. constructor; [right; cbn [In]; lia|]. destruct I as [sg neg ds S D2 N]. apply Forall_app. split; [eapply sign_numch; eauto|apply dig_numch; auto].
Qed.
Lemma body_head : forall ip ft fd et x, Forall dig ip -> frac_text ft fd -> ip ++ fd <> [] -> exp_part et x ->
  exists h t, ip ++ ft ++ et = h :: t /\ (dig h \/ h = 46).
Proof.
  intros ip ft fd et x D F N E. destruct ip as [|h ip].
  - destruct F as [|fd Df]; [cbn in N; congruence|]. exists 46, (fd ++ et). split; auto.
  - exists h, (ip ++ ft ++ et). split; auto. inversion D; auto.
Qed.
Lemma take_sign_text : forall sg neg h t, sign_text sg neg -> dig h \/ h = 46 -> take_sign (sg ++ h :: t) = (neg, h :: t).
Proof.
  intros sg neg h t S H. destruct S; [|reflexivity|reflexivity]. cbn [app]. unfold take_sign. unfold dig in H.
  assert (K : 46 <= h <= 57) by lia. clear - K. destruct h as [|q|q]; try lia. do 6 (destruct q as [q|q|]; try reflexivity; try lia).
Qed.
Lemma sign_of_int : forall t x, int_numeral t x -> exists neg ds, take_sign t = (neg, ds) /\ Forall dig ds /\ ds <> [] /\ x = (if neg then - spelled ds else spelled ds) /\ zlen ds <= zlen t.
Proof.
  intros t x H. destruct H as [sg neg ds S D N]. exists neg, ds. destruct ds as [|c ds]; [congruence|]. split; [apply take_sign_text; auto; left; inversion D; auto|].
  repeat split; auto. rewrite zlen_app. pose proof (zlen_nonneg _ sg). lia.
Qed.
Lemma not_word : forall l w c r, Forall numch l -> w = c :: r -> In c [105; 110; 120] -> str_eqb (map lower l) w = false.
Proof.
  intros l w c r H -> I. destruct l as [|h l]; [reflexivity|]. cbn [map str_eqb]. inversion H; subst. destruct (numch_lower h) as (A & B & C); auto.
  cbn [In] in I. replace (lower h =? c) with false by lia. reflexivity.
Qed.

(** the outcome for a numeral: the digits are read exactly; only a very long exponent is not *)
Lemma parse_numeral : forall s neg m nf x, numeral s neg m nf x ->
  exists e, (Z.abs x < 100000 -> e = x) /\ (100000 <= Z.abs x -> 10000 <= Z.abs e /\ 0 < e * x) /\
    parse_float s = (f_of_dec neg m (e - nf), if f_is_finite (f_of_dec neg m (e - nf)) then PNone else PRange).
Proof.
  intros s neg m nf x H. destruct H as [sg neg ip ft fd et x S D F N E].
  destruct (body_head ip ft fd et x D F N E) as (h & t & B & Hh). pose proof (body_numch ip ft fd et x D F E) as NB.
  assert (NS : Forall numch (sg ++ ip ++ ft ++ et)) by (apply Forall_app; split; [eapply sign_numch; eauto|auto]).
  assert (HEX : match ip ++ ft ++ et with 48 :: a :: (_ :: _) => if lower a =? 120 then (true, skipn 2 (ip ++ ft ++ et)) else (false, ip ++ ft ++ et) | _ => (false, ip ++ ft ++ et) end = (false, ip ++ ft ++ et)).
  { generalize dependent (ip ++ ft ++ et). intros b. intros. subst b. destruct t as [|a [|a2 t]].
    - destruct h as [|q|q]; try reflexivity. do 6 (destruct q as [q|q|]; try reflexivity).
    - destruct h as [|q|q]; try reflexivity. do 6 (destruct q as [q|q|]; try reflexivity).
    - inversion NB as [|? ? _ NB2]; subst. inversion NB2 as [|? ? NA _]; subst. destruct (numch_lower a NA) as (_ & _ & C). replace (lower a =? 120) with false by lia.
      destruct h as [|q|q]; try reflexivity. do 6 (destruct q as [q|q|]; try reflexivity). }
  assert (SM := scan_mant_numeral ip ft fd et x D F E).
  assert (ND : (zlen (ip ++ fd) =? 0) = false). { destruct (ip ++ fd) as [|c l]; [congruence|]. rewrite zlen_cons. pose proof (zlen_nonneg _ l). lia. }
  assert (W : str_eqb (map lower (ip ++ ft ++ et)) (bs "inf") || str_eqb (map lower (ip ++ ft ++ et)) (bs "infinity") = false).
  { rewrite (not_word _ (bs "inf") 105 (bs "nf")), (not_word _ (bs "infinity") 105 (bs "nfinity")); auto; cbn [In]; auto. }
  assert (W2 : str_eqb (map lower (sg ++ ip ++ ft ++ et)) (bs "nan") = false) by (apply (not_word _ _ 110 (bs "an")); auto; cbn [In]; auto).
  assert (TS : take_sign (sg ++ ip ++ ft ++ et) = (neg, ip ++ ft ++ et)) by (rewrite B; apply take_sign_text; auto).
  unfold parse_float. rewrite TS. cbv zeta. rewrite W, W2, HEX, SM, ND. cbn [andb negb].
  destruct E as [|c tx x C I].
  - exists 0. split; [auto|]. split; [intros; cbn in *; lia|]. destruct (f_is_finite _); reflexivity.
  - replace (lower c =? 101) with true by (destruct C as [->| ->]; reflexivity).
    destruct (sign_of_int tx x I) as (en & ds & ET & DX & NX & -> & _). rewrite ET.
    destruct (scan_exp_digits ds 0 false DX ltac:(lia)) as (r & ER & A1 & A2). rewrite Z.mul_0_l, Z.add_0_l in A1, A2. pose proof (spelled_nonneg _ DX) as NN.
    destruct ds as [|d ds]; [congruence|]. rewrite dig_is by (inversion DX; auto). rewrite ER. exists (if en then - r else r).
    split; [|split].
    + intros L. rewrite A1; [reflexivity|]. destruct en; lia.
    + intros G. assert (10000 <= r <= spelled (d :: ds)) by (apply A2; destruct en; lia). generalize dependent (spelled (d :: ds)). intros v. intros. clear - H. destruct en; split; nia.
    + destruct (f_is_finite _); reflexivity.
Qed.

(** ** rounding *)
Section Rounding.
Open Scope R_scope.
Lemma near_RN : forall x, near64 x = RN x. Proof. reflexivity. Qed.

Lemma f_norm_sign : forall m e, (0 <= m)%Z -> Bsign (f_norm m e) = false.
Proof.
  intros m e H. unfold f_norm.
  pose proof (binary_normalize_correct 53 1024 prec53 prec_emax mode_NE m e false) as Hc.
  cbv zeta in Hc. simpl round_mode in Hc.
  assert (P : 0 <= F2R (Float radix2 m e)) by (apply F2R_ge_0; exact H).
  destruct (Rlt_bool (Rabs (RN (F2R (Float radix2 m e)))) (bpow radix2 1024)).
  - destruct Hc as (_ & _ & ->). destruct (Rcompare_spec (F2R (Float radix2 m e)) 0); auto. lra.
  - rewrite (Rlt_bool_false _ 0) in Hc by auto. destruct (binary_normalize _ _ _ _ _ _ _ _); simpl in Hc; try discriminate. injection Hc as ->. reflexivity.
Qed.
Lemma f_norm_num : forall m e, is_nan (f_norm m e) = false.
Proof.
  intros m e. pose proof (f_norm_rounds m e) as R. unfold rounds_to in R. destruct (Rlt_bool _ _).
  - destruct R as [F _]. unfold f_is_finite in F. destruct (f_norm m e); auto; discriminate.
  - rewrite R. reflexivity.
Qed.
Lemma f_of_dec_sign : forall neg m e, (0 <= m)%Z -> Bsign (f_of_dec neg m e) = neg.
Proof.
  Local Transparent f_of_dec. intros neg m e H. unfold f_of_dec. cbv zeta.
  assert (G : exists m' e', (0 <= m')%Z /\ (if (0 <=? e)%Z then f_norm (m * 10 ^ e) 0 else f_of_ratio m (10 ^ (- e))) = f_norm m' e').
  { destruct (Z.leb_spec 0 e).
    - eexists; eexists. split; [|reflexivity]. apply Z.mul_nonneg_nonneg; [auto|apply Z.pow_nonneg; lia].
    - unfold f_of_ratio. cbv zeta. eexists; eexists. split; [|reflexivity]. rewrite Z.shiftl_mul_pow2 by lia.
      assert (0 < 10 ^ (- e))%Z by (apply Z.pow_pos_nonneg; lia). match goal with |- (0 <= 2 * (?a / ?b) + _)%Z => assert (0 <= a / b)%Z by (apply Z.div_pos; [apply Z.mul_nonneg_nonneg; [auto|apply Z.pow_nonneg; lia]|auto]) end.
      destruct (_ =? 0)%Z; lia. }
  destruct G as (m' & e' & H' & ->). destruct neg; [|apply f_norm_sign; auto].
  unfold fneg. rewrite Bsign_Bopp by apply f_norm_num. rewrite f_norm_sign by auto. reflexivity.
  Local Opaque f_of_dec.
Qed.

Lemma dec_value_real : forall neg m nf x, dec_value neg m nf x = dec_real neg m (x - nf).
Proof.
  intros. unfold dec_value, dec_real, ten_pow. do 2 f_equal. destruct (Z.leb_spec nf x), (Z.leb_spec 0 (x - nf)); try lia; auto.
  replace (- (x - nf))%Z with (nf - x)%Z by lia. reflexivity.
Qed.

Lemma f_of_dec_near : forall neg m e nf, (0 <= m)%Z -> is_near64 (f_of_dec neg m (e - nf)) neg (dec_value neg m nf e).
Proof.
  intros neg m e nf H. rewrite dec_value_real. pose proof (f_of_dec_rounds neg m (e - nf) H) as R. pose proof (f_of_dec_sign neg m (e - nf) H) as S.
  unfold rounds_to in R. unfold is_near64, fits64. change near64 with RN. split; [auto|].
  destruct (Rlt_bool_spec (Rabs (RN (dec_real neg m (e - nf)))) (bpow radix2 1024)) as [L|L].
  - split; [intros _; auto|intros C; contradiction].
  - split; [intros C; lra|]. intros _. rewrite R in S |- *. simpl in S. rewrite S. reflexivity.
Qed.

(** values beyond all float64 and values below all of them *)
Lemma near_big : forall x, bpow radix2 1024 <= Rabs x -> ~ fits64 x.
Proof.
  intros x H C. unfold fits64 in C. change near64 with RN in C.
  assert (bpow radix2 1024 <= Rabs (RN x)); [|lra]. apply abs_round_ge_generic; auto; try typeclasses eauto.
  apply generic_format_bpow. unfold SpecFloat.fexp, SpecFloat.emin. lia.
Qed.
Lemma near_small : forall x, Rabs x <= bpow radix2 (-1076) -> near64 x = 0.
Proof.
  intros x H. change near64 with RN.
  assert (Z0 : RN (bpow radix2 (-1076)) = 0).
  { apply round_N_small_pos with (ex := (-1075)%Z); [split; [apply bpow_le; lia|apply bpow_lt; lia]|]. unfold SpecFloat.fexp, SpecFloat.emin. lia. }
  assert (A : Rabs (RN x) <= 0). { rewrite <- Z0. rewrite <- (Rabs_pos_eq (RN (bpow radix2 (-1076)))) by lra.
    rewrite <- !round_NE_abs; try typeclasses eauto. apply round_le; try typeclasses eauto. rewrite (Rabs_pos_eq (bpow _ _)) by apply bpow_ge_0. auto. }
  pose proof (Rabs_pos (RN x)). apply Rabs_eq_R0. lra.
Qed.
Lemma near_same : forall a neg x y, is_near64 a neg x -> (fits64 x <-> fits64 y) -> (fits64 x -> near64 x = near64 y) -> is_near64 a neg y.
Proof. intros a neg x y (A & B & C) I E. split; [auto|]. split; intros F. - rewrite <- E by tauto. apply B. tauto. - apply C. tauto. Qed.

Lemma dec_real_abs : forall neg m e, (0 <= m)%Z -> Rabs (dec_real neg m e) = IZR m * ten_pow e.
Proof.
  intros neg m e H. unfold dec_real. rewrite Rabs_mult.
  assert (P : 0 <= ten_pow e). { unfold ten_pow. destruct (0 <=? e)%Z; [apply IZR_le, Z.pow_nonneg; lia|]. destruct (Z.eq_dec (10 ^ (- e)) 0) as [->|N]; [rewrite Rinv_0; lra|].
    left. apply Rinv_0_lt_compat. apply IZR_lt. pose proof (Z.pow_nonneg 10 (- e) ltac:(lia)). lia. }
  rewrite (Rabs_pos_eq (IZR m * ten_pow e)) by (apply Rmult_le_pos; [apply IZR_le; auto|auto]).
  replace (Rabs (if neg then -1 else 1)) with 1; [lra|]. destruct neg; [rewrite Rabs_left; lra|rewrite Rabs_pos_eq; lra].
Qed.
Lemma pow_big : (2 ^ 1024 <= 10 ^ 400)%Z.
Proof. Local Transparent Z.pow. apply Z.leb_le. vm_compute. reflexivity. Local Opaque Z.pow. Qed.
Lemma pow_big2 : (2 ^ 1076 <= 10 ^ 400)%Z.
Proof. Local Transparent Z.pow. apply Z.leb_le. vm_compute. reflexivity. Local Opaque Z.pow. Qed.
Lemma dec_big : forall neg m e, (0 < m)%Z -> (400 <= e)%Z -> ~ fits64 (dec_real neg m e).
Proof.
  intros neg m e Hm He. apply near_big. rewrite dec_real_abs by lia. unfold ten_pow. destruct (Z.leb_spec 0 e); [|lia].
  rewrite <- mult_IZR. rewrite <- (IZR_Zpower radix2) by lia. apply IZR_le. change (radix_val radix2) with 2%Z.
  pose proof pow_big. pose proof (Z.pow_le_mono_r 10 400 e ltac:(lia) He).
  assert (1 * 10 ^ e <= m * 10 ^ e)%Z by (apply Z.mul_le_mono_nonneg_r; [apply Z.pow_nonneg; lia|lia]). lia.
Qed.
Lemma dec_small : forall neg m e L, (0 <= m < 10 ^ L)%Z -> (0 <= L)%Z -> (e <= - L - 400)%Z -> near64 (dec_real neg m e) = 0.
Proof.
  intros neg m e L Hm HL He. apply near_small. rewrite dec_real_abs by lia. unfold ten_pow. destruct (Z.leb_spec 0 e); [lia|].
  replace (bpow radix2 (-1076)) with (/ bpow radix2 1076) by (symmetry; apply (bpow_opp radix2 1076)). rewrite <- (IZR_Zpower radix2) by lia. change (radix_val radix2) with 2%Z.
  assert (0 < IZR (2 ^ 1076)) by (apply IZR_lt; apply Z.pow_pos_nonneg; lia).
  assert (0 < IZR (10 ^ (- e))) by (apply IZR_lt; apply Z.pow_pos_nonneg; lia).
  apply (Rmult_le_reg_r (IZR (10 ^ (- e)))); auto. rewrite Rmult_assoc, Rinv_l by lra. rewrite Rmult_1_r.
  apply (Rmult_le_reg_l (IZR (2 ^ 1076))); auto. rewrite <- Rmult_assoc, Rinv_r by lra. rewrite Rmult_1_l, <- mult_IZR. apply IZR_le.
  pose proof pow_big2. replace (- e)%Z with (400 + (- e - 400))%Z by lia. rewrite Z.pow_add_r by lia.
  pose proof (Z.pow_le_mono_r 10 L (- e - 400) ltac:(lia) ltac:(lia)).
  apply Z.mul_le_mono_nonneg; try lia; apply Z.pow_nonneg; lia.
Qed.
Lemma dec_zero : forall neg e, dec_real neg 0 e = 0.
Proof. intros. unfold dec_real. rewrite Rmult_0_l. lra. Qed.
End Rounding.

(** a numeral's digits are bounded by its length *)
Lemma numeral_bounds : forall s neg m nf x, numeral s neg m nf x -> 0 <= m < 10 ^ zlen s /\ 0 <= nf <= zlen s.
Proof.
  intros s neg m nf x H. destruct H as [sg neg ip ft fd et x S D F N E]. assert (Df : Forall dig fd) by (destruct F; auto).
  assert (DA : Forall dig (ip ++ fd)) by (apply Forall_app; auto). pose proof (spelled_nonneg _ DA). pose proof (spelled_lt _ DA).
  assert (LF : zlen fd <= zlen ft) by (destruct F; rewrite ?zlen_cons; lia).
  rewrite !zlen_app in *. pose proof (zlen_nonneg _ sg). pose proof (zlen_nonneg _ ip). pose proof (zlen_nonneg _ ft). pose proof (zlen_nonneg _ et). pose proof (zlen_nonneg _ fd).
  assert (10 ^ (zlen ip + zlen fd) <= 10 ^ (zlen sg + (zlen ip + (zlen ft + zlen et)))) by (apply Z.pow_le_mono_r; lia). lia.
Qed.

Lemma parse_near : forall s neg m nf x, numeral s neg m nf x -> Z.abs x < 100000 \/ zlen s <= 9000 ->
  exists a, is_near64 a neg (dec_value neg m nf x) /\
    (fits64 (dec_value neg m nf x) -> parse_float s = (a, PNone)) /\
    (~ fits64 (dec_value neg m nf x) -> parse_float s = (a, PRange)).
Proof.
  intros s neg m nf x H L. destruct (parse_numeral s neg m nf x H) as (e & E1 & E2 & EP). destruct (numeral_bounds _ _ _ _ _ H) as [Bm Bn].
  pose proof (f_of_dec_near neg m e nf ltac:(lia)) as NR. exists (f_of_dec neg m (e - nf)).
  assert (NX : is_near64 (f_of_dec neg m (e - nf)) neg (dec_value neg m nf x)).
  { destruct (Z_lt_ge_dec (Z.abs x) 100000) as [L1|G1]; [replace x with e by auto; exact NR|].
    destruct L as [L|L]; [lia|]. destruct (E2 ltac:(lia)) as [E3 E4].
    apply (near_same _ _ _ _ NR); rewrite !dec_value_real.
    - destruct (Z.eq_dec m 0) as [->|M]; [rewrite !dec_zero; tauto|]. destruct (Z_lt_ge_dec x 0) as [X|X].
      + assert (e <= -10000) by nia. unfold fits64. rewrite (dec_small neg m (e - nf) (zlen s)), (dec_small neg m (x - nf) (zlen s)) by lia. tauto.
      + assert (10000 <= e) by nia. pose proof (dec_big neg m (e - nf) ltac:(lia) ltac:(lia)). pose proof (dec_big neg m (x - nf) ltac:(lia) ltac:(lia)). tauto.
    - intros FT. destruct (Z.eq_dec m 0) as [->|M]; [rewrite !dec_zero; auto|]. destruct (Z_lt_ge_dec x 0) as [X|X].
      + assert (e <= -10000) by nia. rewrite (dec_small neg m (e - nf) (zlen s)), (dec_small neg m (x - nf) (zlen s)) by lia. auto.
      + assert (10000 <= e) by nia. destruct (dec_big neg m (e - nf) ltac:(lia) ltac:(lia)). auto. }
  split; [exact NX|]. destruct NX as (_ & A & B). rewrite EP. split; intros F.
  - destruct (A F) as [C _]. unfold f_is_finite. rewrite C. reflexivity.
  - rewrite (B F). reflexivity.
Qed.

(** ** the text of a numeral is one token for Sscanf *)
Lemma take_while_app : forall p l r, Forall (fun c => p c = true) l -> match r with [] => True | h :: _ => p h = false end -> take_while p (l ++ r) = l.
Proof.
  induction l as [|c l IH]; intros r H N; cbn [app take_while].
  - destruct r; cbn [take_while]; auto. rewrite N. auto.
  - inversion H; subst. rewrite H2, IH; auto.
Qed.
Lemma skipn_len : forall A (l r : list A), skipn (List.length l) (l ++ r) = r.
Proof. intros. rewrite skipn_app, skipn_all, Nat.sub_diag. reflexivity. Qed.
Lemma firstn_numch : forall n l, Forall numch l -> Forall numch (firstn n l).
Proof. intros n l H. rewrite <- (firstn_skipn n l) in H. apply Forall_app in H. tauto. Qed.
Lemma sign_split : forall sg neg h t, sign_text sg neg -> dig h \/ h = 46 ->
  match sg ++ h :: t with 43 :: r => ([43], r) | 45 :: r => ([45], r) | _ => ([], sg ++ h :: t) end = (sg, h :: t).
Proof.
  intros sg neg h t S H. destruct S; [|reflexivity|reflexivity]. cbn [app]. unfold dig in H.
  assert (K : 46 <= h <= 57) by lia. clear - K. destruct h as [|q|q]; try lia. do 6 (destruct q as [q|q|]; try reflexivity; try lia).
Qed.
Lemma token_numeral : forall s neg m nf x, numeral s neg m nf x -> float_token (trim_left is_space s) = s.
Proof.
  intros s neg m nf x H. destruct H as [sg neg ip ft fd et x S D F N E].
  destruct (body_head ip ft fd et x D F N E) as (h & t & B & Hh). pose proof (body_numch ip ft fd et x D F E) as NB.
  assert (NS : Forall numch (sg ++ ip ++ ft ++ et)) by (apply Forall_app; split; [eapply sign_numch; eauto|auto]).
  assert (TL : trim_left is_space (sg ++ ip ++ ft ++ et) = sg ++ ip ++ ft ++ et).
  { rewrite B. destruct S; cbn [app]; apply trim_left_first; try reflexivity. unfold is_space, dig in *. lia. }
  rewrite TL. unfold float_token. cbv zeta.
  rewrite (not_word _ (bs "nan") 110 (bs "an")); [|apply firstn_numch; auto|auto|cbn [In]; auto].
  pose proof (sign_split sg neg h t S Hh) as SS. rewrite <- B in SS. rewrite SS.
  rewrite (not_word _ (bs "inf") 105 (bs "nf")); [|apply firstn_numch; auto|auto|cbn [In]; auto].
  set (dg := fun c => is_digit c || (c =? 95)). assert (DG : forall l, Forall dig l -> Forall (fun c => dg c = true) l).
  { intros l Hl. eapply Forall_impl; [|exact Hl]. intros c Hc. unfold dg. rewrite dig_is by auto. reflexivity. }
  assert (TI : take_while dg (ip ++ ft ++ et) = ip).
  { apply take_while_app; [apply DG; auto|]. destruct F; [|reflexivity]. cbn [app]. destruct E as [|c tx x [->| ->] I]; auto. }
  rewrite TI, skipn_len.
  assert (EX : match et with c :: r' => if lower c =? 101 then let '(es, r3) := match r' with 43 :: q => ([43], q) | 45 :: q => ([45], q) | _ => ([], r') end in c :: es ++ take_while dg r3 else [] | [] => [] end = et).
  { destruct E as [|c tx x C I]; [reflexivity|]. replace (lower c =? 101) with true by (destruct C as [->| ->]; reflexivity).
    destruct I as [sg2 neg2 ds S2 D2 N2]. destruct ds as [|d ds]; [congruence|]. rewrite (sign_split sg2 neg2 d ds) by (auto; left; inversion D2; auto).
    rewrite take_while_all by (apply DG; auto). reflexivity. }
  destruct F as [|fd Df].
  - cbn [app]. destruct E as [|c tx x C I]; [reflexivity|]. destruct C as [->| ->]; cbn [app]; f_equal; f_equal; exact EX.
  - cbn [app].
    assert (TF : take_while dg (fd ++ et) = fd).
    { apply take_while_app; [apply DG; auto|]. destruct E as [|c tx x [->| ->] I]; auto. }
    rewrite TF, skipn_len, EX. reflexivity.
Qed.

(** ** C109 *)

(** one integer destination of Scan on a text table *)
Theorem C109_scan_int : forall v z0, exists z e, scan_one v (DInt z0) = (DInt z, e) /\
  (forall n, int_numeral v n ->
     (- 2 ^ 63 <= n < 2 ^ 63 -> z = n /\ e = None) /\
     (2 ^ 63 <= n -> z = 2 ^ 63 - 1 /\ e = Some errNumRange) /\
     (n < - 2 ^ 63 -> z = - 2 ^ 63 /\ e = Some errNumRange)) /\
  ((forall n, ~ int_numeral v n) -> e = Some errNumSyntax \/ e = Some errNumRange).
Proof.
  intros v z0. destruct (parse_int_reads v) as [A B]. cbn [scan_one]. destruct (parse_int 64 v) as [z p]. cbn [fst snd] in *.
  exists z, (num_err p). split; [reflexivity|]. split.
  - intros n H. destruct (A n H) as (A1 & A2 & A3). split; [|split]; intros K; [destruct (A1 K) as [-> ->]|destruct (A2 K) as [-> ->]|destruct (A3 K) as [-> ->]]; split; reflexivity.
  - intros N. destruct p; cbn [num_err]; auto. destruct (B eq_refl) as [C _]. destruct (N _ C).
Qed.

(** one float64 destination of Scan on a text table: the float64 nearest to the decimal
    number, ties to even; a range error exactly when that is beyond the largest float64 *)
Theorem C109_scan_float : forall v neg m nf x z0, numeral v neg m nf x -> Z.abs x < 100000 \/ zlen v <= 9000 ->
  exists a, is_near64 a neg (dec_value neg m nf x) /\
    (fits64 (dec_value neg m nf x) -> scan_one v (DF64 z0) = (DF64 a, None)) /\
    (~ fits64 (dec_value neg m nf x) -> scan_one v (DF64 z0) = (DF64 a, Some errNumRange)).
Proof.
  intros v neg m nf x z0 H L. destruct (parse_near v neg m nf x H L) as (a & NA & F1 & F2). exists a. split; [auto|].
  cbn [scan_one]. split; intros F; [rewrite F1 by auto|rewrite F2 by auto]; reflexivity.
Qed.

(** a whole Scan that returned no error *)
Theorem C109_scan : forall t row ds ds', sf_strings t = Ok row -> sf_scan t ds = Ok (ds', None) ->
  (forall i v z0, nth_error row i = Some v -> nth_error ds i = Some (DInt z0) ->
     exists n, int_numeral v n /\ - 2 ^ 63 <= n < 2 ^ 63 /\ nth_error ds' i = Some (DInt n)) /\
  (forall i v z0 neg m nf x, nth_error row i = Some v -> nth_error ds i = Some (DF64 z0) ->
     numeral v neg m nf x -> Z.abs x < 100000 \/ zlen v <= 9000 ->
     fits64 (dec_value neg m nf x) /\
     exists a, is_near64 a neg (dec_value neg m nf x) /\ nth_error ds' i = Some (DF64 a)).
Proof.
  intros t row ds ds' R S.
  destruct (Z.eq_dec (zlen row) (zlen ds)) as [L|L]; [|rewrite (C09_scan_count t row ds R L) in S; discriminate].
  destruct (C09_scan_prefix t row ds R L) as (ds2 & e & n & S2 & _ & P & Q). rewrite S in S2. injection S2 as <- <-. destruct Q as [-> _].
  assert (LT : forall i d, nth_error ds i = Some d -> (i < List.length ds)%nat) by (intros i d H; apply nth_error_Some; congruence).
  split.
  - intros i v z0 Rv Dv. destruct (P i v _ (LT _ _ Dv) Rv Dv) as [P1 P2]. destruct (parse_int_reads v) as [_ B]. cbn [scan_one] in *.
    destruct (parse_int 64 v) as [z p]. cbn [fst snd] in *. exists z. destruct p; try discriminate. destruct (B eq_refl) as [B1 B2]. auto.
  - intros i v z0 neg m nf x Rv Dv H B. destruct (P i v _ (LT _ _ Dv) Rv Dv) as [P1 P2]. destruct (C109_scan_float v neg m nf x z0 H B) as (a & NA & F1 & F2).
    assert (D : fits64 (dec_value neg m nf x) \/ ~ fits64 (dec_value neg m nf x)).
    { unfold fits64. destruct (Rlt_le_dec (Rabs (near64 (dec_value neg m nf x))) (bpow radix2 1024)); [left; auto|right; lra]. }
    destruct D as [D|D]; [|rewrite (F2 D) in P1; discriminate]. split; [auto|]. exists a. split; [auto|]. rewrite P2, (F1 D). reflexivity.
Qed.

(** a number cell of an XLSX sheet: the nearest float64; a number beyond them all stays text *)
Theorem C109_xlsx_number : forall strs t neg m nf x, numeral t neg m nf x -> Z.abs x < 100000 \/ zlen t <= 9000 ->
  exists a, is_near64 a neg (dec_value neg m nf x) /\
    (fits64 (dec_value neg m nf x) -> cell_text_value strs (bs "n") t = Ok (Some (GF64 a))) /\
    (~ fits64 (dec_value neg m nf x) -> cell_text_value strs (bs "n") t = Ok (Some (GStr t))).
Proof.
  intros strs t neg m nf x H L. destruct (parse_near t neg m nf x H L) as (a & NA & F1 & F2). exists a. split; [auto|].
  unfold cell_text_value. change (str_eqb (bs "n") (bs "b")) with false. change (str_eqb (bs "n") (bs "n")) with true. cbn iota.
  split; intros F; [rewrite F1 by auto|rewrite F2 by auto]; reflexivity.
Qed.

(** a text put into a cell whose format is a number format: the same, and an infinity when
    the number is beyond all float64 *)
Theorem C109_number_format : forall m1904 s neg m nf x, numeral s neg m nf x -> Z.abs x < 100000 \/ zlen s <= 9000 ->
  exists a, is_near64 a neg (dec_value neg m nf x) /\
    new_cell_with_type m1904 (GStr s) FloatCell = Ok [GF64 a; GCType FloatCell].
Proof.
  intros m1904 s neg m nf x H L. destruct (parse_near s neg m nf x H L) as (a & NA & F1 & F2). exists a. split; [auto|].
  assert (P : fst (parse_float s) = a).
  { destruct (Rlt_le_dec (Rabs (near64 (dec_value neg m nf x))) (bpow radix2 1024)); [rewrite F1 by auto|rewrite F2 by (unfold fits64; lra)]; reflexivity. }
  assert (N : s <> []). { destruct H as [sg neg ip ft fd et x S D F N E]. destruct (body_head ip ft fd et x D F N E) as (h & t & -> & _). destruct sg; discriminate. }
  destruct s as [|c s]; [congruence|]. unfold new_cell_with_type. cbn -[parse_float]. rewrite P. reflexivity.
Qed.

(** text compared with a number: as the nearest float64 *)
Theorem C109_less : forall s neg m nf x y r1 r2, numeral s neg m nf x -> Z.abs x < 100000 \/ zlen s <= 9000 ->
  fits64 (dec_value neg m nf x) -> f_is_finite y = true ->
  (exists b, cell_less (GStr s :: r1) (GF64 y :: r2) = Ok b /\ (b = true <-> (near64 (dec_value neg m nf x) < B2R y)%R)) /\
  (exists b, cell_less (GF64 y :: r2) (GStr s :: r1) = Ok b /\ (b = true <-> (B2R y < near64 (dec_value neg m nf x))%R)).
Proof.
  intros s neg m nf x y r1 r2 H L F Y. destruct (parse_near s neg m nf x H L) as (a & (SA & NA & _) & F1 & _). destruct (NA F) as [FA VA].
  assert (G : sscanf_g s = Some a) by (unfold sscanf_g; rewrite (token_numeral _ _ _ _ _ H), (F1 F); reflexivity).
  unfold cell_less. change (idx (GF64 y :: r2) 0) with (Ok (GF64 y)). change (idx (GStr s :: r1) 0) with (Ok (GStr s)). cbn [bind]. rewrite G.
  rewrite <- VA. split; eexists; (split; [reflexivity|]); apply flt_real; auto.
Qed.

(** Non-vacuity *)
Local Transparent f_of_dec Z.pow.
Example ex_C109_numeral : numeral (bs "-12.50e-3") true 1250 2 (-3).
Proof.
  assert (D : forall s, forallb is_digit s = true -> Forall dig s).
  { intros s. rewrite forallb_forall, Forall_forall. intros H c I. specialize (H c I). unfold is_digit, dig in *. lia. }
  apply (a_numeral [45] true (bs "12") (bs ".50") (bs "50") (bs "e-3") (-3)); [constructor|apply D; reflexivity|apply ft_some; apply D; reflexivity|discriminate|].
  apply (ep_some 101 (bs "-3") (-3)); auto. apply (an_int [45] true (bs "3")); [constructor|apply D; reflexivity|discriminate].
Qed.
Example ex_C109_scan : match sf_scan (mkSimple [] [[bs "9223372036854775807"; bs "0.1"; bs "5e-324"]] 0) [DInt 0; DF64 f_zero; DF64 f_zero] with
  | Ok ([DInt n; DF64 a; DF64 b], None) => (n =? 9223372036854775807) && feq a (f_of_bits 4591870180066957722) && feq b (f_of_bits 1)
  | _ => false end = true.
Proof. vm_compute. reflexivity. Qed.
Example ex_C109_range : scan_one (bs "9223372036854775808") (DInt 0) = (DInt 9223372036854775807, Some errNumRange) /\
  scan_one (bs "1e309") (DF64 f_zero) = (DF64 (f_inf false), Some errNumRange) /\
  cell_text_value [] (bs "n") (bs "1e309") = Ok (Some (GStr (bs "1e309"))).
Proof. repeat split; vm_compute; reflexivity. Qed.
(** a digit run that overflows before its first stray character is reported as out of range *)
Example ex_C109_stray : scan_one (bs "99999999999999999999x") (DInt 0) = (DInt (2 ^ 63 - 1), Some errNumRange) /\
  scan_one (bs "12x") (DInt 7) = (DInt 0, Some errNumSyntax).
Proof. split; vm_compute; reflexivity. Qed.

Print Assumptions C109_scan_int.
Print Assumptions C109_scan_float.
Print Assumptions C109_scan.
Print Assumptions C109_xlsx_number.
Print Assumptions C109_number_format.
Print Assumptions C109_less.
