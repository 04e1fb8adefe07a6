(** * P_cell: properties C17-C22 (commonxl cells). *)
From Verif Require Import GoBase L_base GoFloat L_float GoUnicode GoTime M_value M_dates M_fmt M_formats M_cell S_cell L_cell.
From Coq Require Import Lia ZifyBool Reals Lra.
From Flocq Require Import Core.
Open Scope Z_scope.

(** C17.  NewCell stores exactly what [holds] says, for every proper Go value, except a uint
    above MaxInt64; and it panics on exactly the unsupported values (nil and unknown types). *)
Theorem C17_new_cell : forall value v t, proper value ->
  ~ (exists z, value = GInt KUint z /\ 2 ^ 63 <= z) ->
  (holds value v t <-> new_cell value = Ok [v; GCType t]).
Proof. exact new_cell_holds. Qed.

Theorem C17_new_cell_total : forall value,
  new_cell value = Panic <-> value = GNil \/ exists txt, value = GOther txt.
Proof.
  intros value. split.
  - unfold new_cell.
    destruct value as [|b|k z|x|x|s|s|u|r|x|ct|s|s]; cbn [new_cell_pair bind]; intros H; eauto; try discriminate;
      try (destruct s; discriminate); try (destruct u; discriminate); try (destruct r; discriminate).
    + destruct k; try discriminate. destruct (maxInt64 <? z); discriminate.
    + destruct (ctype_string ct); discriminate.
  - intros [->|[txt ->]]; reflexivity.
Qed.

(** C17, the violated part: every uint above MaxInt64 becomes a negative integer. *)
Theorem C17_uint_wraps_refuted : forall z, 2 ^ 63 <= z < 2 ^ 64 ->
  new_cell (GInt KUint z) = Ok [GInt KInt64 (z - 2 ^ 64); GCType IntegerCell] /\ z - 2 ^ 64 < 0.
Proof. exact new_cell_big_uint. Qed.

(** C18.  Under a format of cell type t a value becomes exactly what [coerced] says. *)
Theorem C18_coercion : forall m value v t t' c,
  new_cell value = Ok [v; GCType t'] ->
  In t [IntegerCell; FloatCell; BooleanCell; StringCell; DateCell] -> t <> t' ->
  (new_cell_with_type m value t = Ok c <->
   exists v2 t2, coerced m t v v2 t2 /\ c = [v2; GCType t2]).
Proof. exact new_cell_with_type_coerced. Qed.

Theorem C18_same_type_unchanged : forall m value v t,
  new_cell value = Ok [v; GCType t] -> new_cell_with_type m value t = Ok [v; GCType t].
Proof. exact new_cell_with_type_same. Qed.

(** C18.  Coercion never panics on a value NewCell accepts, whatever the type asked for. *)
Theorem C18_total : forall m value t, new_cell value <> Panic ->
  exists v t', new_cell_with_type m value t = Ok [v; GCType t'].
Proof.
  intros m value t H. destruct (new_cell_pair value) as [[v0 t0]| | |] eqn:E.
  - eapply new_cell_with_type_ok; eauto.
  - unfold new_cell in H. destruct value; simpl in E; try discriminate.
    destruct k; try discriminate. destruct (maxInt64 <? z); discriminate.
  - exfalso. apply H. unfold new_cell. rewrite E. reflexivity.
  - destruct value; simpl in E; try discriminate.
    destruct k; try discriminate. destruct (maxInt64 <? z); discriminate.
Qed.

(** C18.  The resulting type is the requested one, except that blank and date values resist the
    numeric and boolean types. *)
Theorem C18_type_obeyed : forall m t v v2 t2, coerced m t v v2 t2 ->
  t2 = t \/ (v = GNil /\ t2 = BlankCell) \/ (exists x, v = GTime x /\ t2 = DateCell).
Proof. intros m t v v2 t2 H. destruct H; eauto 6. Qed.

(** C18.  Numbers are preserved: an integer under a float format is the same real number (up to
    2^53, and the nearest float beyond), a float under an integer format is truncated toward 0. *)
Theorem C18_int_to_float : forall m z c, - 2 ^ 63 <= z < 2 ^ 63 ->
  new_cell_with_type m (GInt KInt64 z) FloatCell = Ok c ->
  exists x, c = [GF64 x; GCType FloatCell] /\ f_is_finite x = true /\
    B2R x = RN (IZR z) /\ (Z.abs z <= 2 ^ 53 -> B2R x = IZR z).
Proof.
  intros m z c Hz H. injection H as <-. exists (f_of_Z z).
  assert (Z.abs z <= 2 ^ 1023) by (apply Z.le_trans with (2 ^ 63); [lia|apply Z.pow_le_mono_r; lia]).
  destruct (f_of_Z_round z H) as [E F]. repeat split; auto.
  intros. apply f_of_Z_exact; auto.
Qed.

Theorem C18_float_to_int : forall m x c, f_is_finite x = true -> - 2 ^ 63 <= Ztrunc (B2R x) < 2 ^ 63 ->
  new_cell_with_type m (GF64 x) IntegerCell = Ok c ->
  c = [GInt KInt64 (Ztrunc (B2R x)); GCType IntegerCell].
Proof. intros m x c F Hr H. injection H as <-. rewrite f_to_int64_trunc; auto. Qed.

(** C19 is stated with the display functions, see P_sheet. *)

(** C20.  On cells of one kind, Less is the natural order of that kind and a strict order,
    total up to Equal. *)
Theorem C20_less_means : forall v1 r1 v2 r2,
  (forall a b, v1 = GInt KInt64 a -> v2 = GInt KInt64 b ->
     (cell_less (v1 :: r1) (v2 :: r2) = Ok true <-> a < b)) /\
  (forall a b, v1 = GF64 a -> v2 = GF64 b -> f_is_finite a = true -> f_is_finite b = true ->
     (cell_less (v1 :: r1) (v2 :: r2) = Ok true <-> (B2R a < B2R b)%R)) /\
  (forall a b, v1 = GStr a -> v2 = GStr b ->
     (cell_less (v1 :: r1) (v2 :: r2) = Ok true <-> lex_lt a b)) /\
  (forall a b, v1 = GBool a -> v2 = GBool b ->
     (cell_less (v1 :: r1) (v2 :: r2) = Ok true <-> a = false /\ b = true)).
Proof.
  intros. repeat split; intros; subst; simpl in *.
  - apply Z.ltb_lt. congruence.
  - f_equal. apply Z.ltb_lt. auto.
  - apply flt_real; auto. congruence.
  - f_equal. apply flt_real; auto.
  - apply str_ltb_lex. congruence.
  - f_equal. apply str_ltb_lex. auto.
  - destruct a; [discriminate|reflexivity].
  - destruct a; [discriminate|]. simpl in *. congruence.
  - destruct H1; subst. reflexivity.
Qed.

Theorem C20_irreflexive : forall k c, of_kind k c -> cell_less c c = Ok false.
Proof.
  intros k c H. destruct k; kinds; simpl.
  - destruct x; reflexivity.
  - rewrite Z.ltb_irrefl; auto.
  - rewrite flt_irrefl; auto.
  - rewrite str_ltb_irrefl; auto.
Qed.

Theorem C20_transitive : forall k a b c, of_kind k a -> of_kind k b -> of_kind k c ->
  cell_less a b = Ok true -> cell_less b c = Ok true -> cell_less a c = Ok true.
Proof.
  intros k a b c Ha Hb Hc H1 H2. destruct k; kinds; simpl in *.
  - destruct x3, x1; simpl in *; congruence.
  - f_equal. injection H1 as H1. injection H2 as H2. apply Z.ltb_lt in H1, H2. apply Z.ltb_lt. lia.
  - f_equal. injection H1 as H1. injection H2 as H2. eapply flt_trans; eauto.
  - f_equal. injection H1 as H1. injection H2 as H2. eapply str_ltb_trans; eauto.
Qed.

(** an integer cell whose number a float64 can hold; other kinds are unrestricted *)
Definition exact_int (c : list goval) : Prop :=
  forall z r, c = GInt KInt64 z :: r -> Z.abs z <= 2 ^ 53.

Theorem C20_total_up_to_equal : forall k a b, of_kind k a -> of_kind k b ->
  exact_int a -> exact_int b ->
  exists e l1 l2, cell_equal a b = Ok e /\ cell_less a b = Ok l1 /\ cell_less b a = Ok l2 /\
    (e = true <-> l1 = false /\ l2 = false) /\ ~ (l1 = true /\ l2 = true).
Proof. exact total_up_to_equal. Qed.

(** C20, beyond 2^53: two different integers, one less than the other, yet Equal. *)
Theorem C20_total_big_ints_refuted : exists a b,
  of_kind OInt a /\ of_kind OInt b /\ cell_less a b = Ok true /\ cell_equal a b = Ok true.
Proof.
  exists [GInt KInt64 9007199254740992; GCType IntegerCell], [GInt KInt64 9007199254740993; GCType IntegerCell].
  repeat split; try (vm_compute; reflexivity); do 2 eexists; reflexivity.
Qed.

(** C20, across kinds.  A cell holding a boolean, an integer or a finite float stands for a
    number; integers are rounded to the nearest float64 when compared with floats. *)
Definition stands_for (v : goval) (x : R) : Prop :=
  (exists b : bool, v = GBool b /\ x = if b then 1%R else 0%R) \/
  (exists z, v = GInt KInt64 z /\ - 2 ^ 63 <= z < 2 ^ 63 /\ x = round radix2 fexp64 ZnearestE (IZR z)) \/
  (exists f, v = GF64 f /\ f_is_finite f = true /\ x = B2R f).

Lemma of_Z_real : forall z, - 2 ^ 63 <= z <= 2 ^ 63 ->
  B2R (f_of_Z z) = round radix2 fexp64 ZnearestE (IZR z) /\ f_is_finite (f_of_Z z) = true.
Proof.
  intros z H. apply f_of_Z_round.
  apply Z.le_trans with (2 ^ 63)%Z; [lia|]. apply Z.pow_le_mono_r; lia.
Qed.
Lemma RN_two63 : round radix2 fexp64 ZnearestE (IZR (2 ^ 63)) = IZR (2 ^ 63) /\
  round radix2 fexp64 ZnearestE (IZR (- 2 ^ 63)) = IZR (- 2 ^ 63).
Proof.
  assert (G : generic_format radix2 fexp64 (bpow radix2 63)) by (apply generic_format_bpow; unfold fexp64, SpecFloat.fexp, SpecFloat.emin; simpl; lia).
  rewrite opp_IZR. change (IZR (2 ^ 63)) with (bpow radix2 63). split; apply round_generic; try apply valid_rnd_N; auto.
  apply generic_format_opp; auto.
Qed.

Theorem C20_less_numbers : forall v1 r1 v2 r2 x y, stands_for v1 x -> stands_for v2 y ->
  (forall b, v1 <> GBool b) -> ~ (exists a b, v1 = GInt KInt64 a /\ v2 = GInt KInt64 b) ->
  exists l, cell_less (v1 :: r1) (v2 :: r2) = Ok l /\ (l = true <-> (x < y)%R).
Proof.
  intros v1 r1 v2 r2 x y H1 H2 NB NI.
  destruct RN_two63 as [R1 R2].
  assert (B1 : B2R f_max_int64 = IZR (2 ^ 63) /\ f_is_finite f_max_int64 = true).
  { unfold f_max_int64. change two63 with (2 ^ 63). destruct (of_Z_real (2 ^ 63)) as [A B]; [lia|]. rewrite R1 in A. auto. }
  assert (B2 : B2R f_min_int64 = IZR (- 2 ^ 63) /\ f_is_finite f_min_int64 = true).
  { unfold f_min_int64. change (- two63) with (- 2 ^ 63). destruct (of_Z_real (- 2 ^ 63)) as [A B]; [lia|]. rewrite R2 in A. auto. }
  destruct B1 as [B1 F1], B2 as [B2 F2].
  assert (RB : forall z, - 2 ^ 63 <= z < 2 ^ 63 ->
    (IZR (- 2 ^ 63) <= round radix2 fexp64 ZnearestE (IZR z) <= IZR (2 ^ 63))%R).
  { intros z Hz. split.
    - rewrite <- R2. apply round_le; try apply valid_rnd_N; [apply fexp64_valid|apply IZR_le; lia].
    - rewrite <- R1. apply round_le; try apply valid_rnd_N; [apply fexp64_valid|apply IZR_le; lia]. }
  assert (R0 : forall z : Z, (z <= 0)%Z -> (round radix2 fexp64 ZnearestE (IZR z) <= 0)%R).
  { intros z Hz. rewrite <- (round_0 radix2 fexp64 ZnearestE). apply round_le; try apply valid_rnd_N; [apply fexp64_valid|apply IZR_le; lia]. }
  assert (RP : forall z : Z, (0 <= z)%Z -> (0 <= round radix2 fexp64 ZnearestE (IZR z))%R).
  { intros z Hz. rewrite <- (round_0 radix2 fexp64 ZnearestE). apply round_le; try apply valid_rnd_N; [apply fexp64_valid|apply IZR_le; lia]. }
  assert (RO : forall z : Z, (1 <= z)%Z -> (1 <= round radix2 fexp64 ZnearestE (IZR z))%R).
  { intros z Hz. rewrite <- (RN_Z 1) by lia. apply round_le; try apply valid_rnd_N; [apply fexp64_valid|apply IZR_le; lia]. }
  assert (RM : forall z : Z, (z <= -1)%Z -> (round radix2 fexp64 ZnearestE (IZR z) <= -1)%R).
  { intros z Hz. rewrite <- (RN_Z (-1)) by lia. apply round_le; try apply valid_rnd_N; [apply fexp64_valid|apply IZR_le; lia]. }
  destruct H1 as [(b & -> & _)|[(a & -> & Ha & ->)|(f & -> & Ff & ->)]]; [exfalso; eapply NB; reflexivity| |].
  - destruct H2 as [(b & -> & ->)|[(c & -> & Hc & ->)|(g & -> & Fg & ->)]].
    + eexists. split; [reflexivity|]. rewrite Z.ltb_lt. split; intros H.
      * destruct b; [specialize (R0 a)|specialize (RM a)]; lra || (assert (a <= -1) by lia; apply RM in H0; lra) || (assert (a <= 0) by lia; apply R0 in H0; lra).
      * destruct b; [destruct (Z_lt_le_dec a 1) as [|L]; auto; apply RO in L; lra|].
        destruct (Z_lt_le_dec a 0) as [|L]; auto; apply RP in L; lra.
    + exfalso. apply NI. eauto.
    + destruct (of_Z_real a) as [E1 E2]; [lia|]. specialize (RB a Ha). cbn [cell_less idx].
      change (idx (GF64 g :: r2) 0) with (@Ok goval (GF64 g)). cbn [bind].
      destruct (flt g f_min_int64) eqn:L1; [|destruct (fgt g f_max_int64) eqn:L2]; eexists; (split; [reflexivity|]).
      * apply flt_real in L1; auto. split; [discriminate|lra].
      * apply fgt_real in L2; auto. split; auto. intros _. lra.
      * rewrite flt_real by auto. rewrite E1. reflexivity.
  - destruct H2 as [(b & -> & ->)|[(c & -> & Hc & ->)|(g & -> & Fg & ->)]].
    + assert (E : B2R (f_of_Z (if b then 1 else 0)) = (if b then 1 else 0)%R /\ f_is_finite (f_of_Z (if b then 1 else 0)) = true).
      { destruct (of_Z_real (if b then 1 else 0)) as [E1 E2]; [destruct b; lia|]. split; auto. rewrite E1.
        rewrite RN_Z by (destruct b; lia). destruct b; reflexivity. }
      destruct E as [E1 E2]. eexists. split; [reflexivity|]. rewrite flt_real by auto. rewrite E1. reflexivity.
    + destruct (of_Z_real c) as [E1 E2]; [lia|]. specialize (RB c Hc). cbn [cell_less].
      change (idx (GInt KInt64 c :: r2) 0) with (@Ok goval (GInt KInt64 c)). cbn [bind].
      destruct (flt f f_min_int64) eqn:L1; [|destruct (fgt f f_max_int64) eqn:L2]; eexists; (split; [reflexivity|]).
      * apply flt_real in L1; auto. split; auto. intros _. lra.
      * apply fgt_real in L2; auto. split; [discriminate|lra].
      * rewrite flt_real by auto. rewrite E1. reflexivity.
    + eexists. split; [reflexivity|]. apply flt_real; auto.
Qed.

(** C20: true is less than nothing; false is less than every number that is not zero, negative
    ones included, so false and a negative number are each less than the other. *)
Theorem C20_less_false : forall b r1 v2 r2 y, stands_for v2 y ->
  exists l, cell_less (GBool b :: r1) (v2 :: r2) = Ok l /\ (l = true <-> b = false /\ y <> 0%R).
Proof.
  intros b r1 v2 r2 y H2. destruct b; [exists false; split; [reflexivity|]; split; [discriminate|intros [H _]; discriminate]|].
  assert (R1 : forall z : Z, (1 <= z)%Z -> (1 <= round radix2 fexp64 ZnearestE (IZR z))%R).
  { intros z Hz. rewrite <- (RN_Z 1) by lia. apply round_le; try apply valid_rnd_N; [apply fexp64_valid|apply IZR_le; lia]. }
  assert (RM : forall z : Z, (z <= -1)%Z -> (round radix2 fexp64 ZnearestE (IZR z) <= -1)%R).
  { intros z Hz. rewrite <- (RN_Z (-1)) by lia. apply round_le; try apply valid_rnd_N; [apply fexp64_valid|apply IZR_le; lia]. }
  destruct H2 as [(b & -> & ->)|[(c & -> & Hc & ->)|(g & -> & Fg & ->)]].
  - exists b. split; [reflexivity|]. destruct b; split; try discriminate; try (intros [_ H]; lra); intros _; split; auto; lra.
  - eexists. split; [reflexivity|]. destruct (Z.eqb_spec c 0) as [->|N]; simpl negb; split; try discriminate; auto.
    + intros [_ H]. exfalso. apply H. rewrite RN_Z by lia. reflexivity.
    + intros _. split; auto. destruct (Z_lt_le_dec c 1); [assert (c <= -1) by lia; specialize (RM c ltac:(lia))|specialize (R1 c ltac:(lia))]; lra.
  - eexists. split; [reflexivity|]. destruct (feq g f_zero) eqn:E; simpl negb; split; try discriminate; auto.
    + intros [_ H]. exfalso. apply H. apply feq_real in E; auto.
    + intros _. split; auto. intros Q. assert (feq g f_zero = true) by (apply feq_real; auto). congruence.
Qed.
Theorem C20_false_and_negative_refuted : forall z r1 r2, - 2 ^ 63 <= z < 0 ->
  cell_less (GBool false :: r1) (GInt KInt64 z :: r2) = Ok true /\
  cell_less (GInt KInt64 z :: r2) (GBool false :: r1) = Ok true.
Proof.
  intros z r1 r2 H. simpl. split; f_equal.
  - destruct (Z.eqb_spec z 0); [lia|reflexivity].
  - apply Z.ltb_lt. lia.
Qed.

Lemma take_while_all : forall p l, Forall (fun c => p c = true) l -> take_while p l = l.
Proof. induction l; intros H; inversion H; subst; simpl; auto. rewrite H2, IHl; auto. Qed.
Lemma digits_taken : forall l, Forall digit l -> take_while is_digit l = l.
Proof. intros l H. apply take_while_all. eapply Forall_impl; [|exact H]. unfold digit, is_digit. intros; lia. Qed.
Lemma trim_left_first : forall p c l, p c = false -> trim_left p (c :: l) = c :: l.
Proof. intros. simpl. rewrite H. auto. Qed.
Lemma sscanf_d_itoa : forall z, - 2 ^ 63 <= z < 2 ^ 63 -> sscanf_d (itoa z) = Some z.
Proof.
  intros z H. pose proof (parse_int_itoa 64 z ltac:(lia) H) as P.
  unfold itoa in *. destruct (Z.ltb_spec z 0).
  - destruct (utoa_spec (- z) ltac:(lia)) as (D & _ & N).
    unfold sscanf_d. rewrite trim_left_first by reflexivity. rewrite digits_taken by auto.
    destruct (utoa (- z)) eqn:E; [exfalso; apply N; reflexivity|]. cbn [app]. rewrite P. reflexivity.
  - destruct (utoa_spec z ltac:(lia)) as (D & _ & N).
    destruct (utoa z) as [|c l] eqn:E; [exfalso; apply N; reflexivity|].
    assert (Dc : digit c) by (inversion D; auto). unfold digit in Dc.
    unfold sscanf_d. rewrite trim_left_first by (unfold is_space; lia).
    assert (M : match c :: l with 43 :: r => ([43], r) | 45 :: r => ([45], r) | _ => ([], c :: l) end = ([], c :: l)).
    { assert (K : 48 <= c <= 57) by lia. clear - K. destruct c as [|q|q]; try lia. do 6 (destruct q as [q|q|]; try reflexivity; try lia). }
    rewrite M. rewrite digits_taken by auto. cbn [app]. rewrite P. reflexivity.
Qed.
Lemma sscanf_d_word : forall c s, ~ (48 <= c <= 57) -> c <> 43 -> c <> 45 ->
  ~ In c [9; 10; 11; 12; 13; 32] -> sscanf_d (c :: s) = None.
Proof.
  intros c s H1 H2 H3 H4. unfold sscanf_d. simpl In in H4.
  rewrite trim_left_first by (unfold is_space; lia).
  assert (M : match c :: s with 43 :: r => ([43], r) | 45 :: r => ([45], r) | _ => ([], c :: s) end = ([], c :: s)).
  { clear H1 H4. destruct c as [|q|q]; try reflexivity. do 6 (destruct q as [q|q|]; try reflexivity; try congruence). }
  rewrite M. simpl. replace (is_digit c) with false by (unfold is_digit; lia). reflexivity.
Qed.

(** C20: text that is a decimal numeral compares with integers as the number it spells; text
    that begins with another ASCII character than a digit, a sign or white space compares with the decimal text of the integer. *)
Theorem C20_less_text : forall z w r1 r2, - 2 ^ 63 <= z < 2 ^ 63 ->
  cell_less (GStr (itoa z) :: r1) (GInt KInt64 w :: r2) = Ok (z <? w) /\
  cell_less (GInt KInt64 w :: r1) (GStr (itoa z) :: r2) = Ok (w <? z).
Proof.
  intros z w r1 r2 H. simpl. rewrite sscanf_d_itoa by auto. auto.
Qed.
Theorem C20_less_word : forall c s w r1 r2, 0 <= c < 128 ->
  ~ (48 <= c <= 57) -> c <> 43 -> c <> 45 -> ~ In c [9; 10; 11; 12; 13; 32] ->
  (cell_less (GStr (c :: s) :: r1) (GInt KInt64 w :: r2) = Ok true <-> lex_lt (c :: s) (itoa w)) /\
  (cell_less (GInt KInt64 w :: r1) (GStr (c :: s) :: r2) = Ok true <-> lex_lt (itoa w) (c :: s)).
Proof.
  intros c s w r1 r2 _ H1 H2 H3 H4. unfold cell_less.
  change (idx (GInt KInt64 w :: r2) 0) with (Ok (GInt KInt64 w)). change (idx (GStr (c :: s) :: r2) 0) with (Ok (GStr (c :: s))).
  cbn [bind]. rewrite sscanf_d_word by auto.
  split; (split; intros H; [apply str_ltb_lex; congruence|f_equal; apply str_ltb_lex; auto]).
Qed.
(** C20: booleans and text: text is true or false as its spelling says *)
Theorem C20_less_bool_text : forall b s r1 r2,
  cell_less (GBool b :: r1) (GStr s :: r2) = Ok (negb b && bool_string s) /\
  cell_less (GStr s :: r2) (GBool b :: r1) = Ok (b && negb (bool_string s)).
Proof. intros [|] s r1 r2; split; reflexivity. Qed.
Theorem C20_less_blank : forall v r1 r2, (forall t, v <> GTime t) -> (forall k z, v = GInt k z -> k = KInt64) ->
  cell_less (GNil :: r2) (v :: r1) = Ok false /\
  match v with GBool _ | GInt _ _ | GF64 _ | GStr _ | GNil => cell_less (v :: r1) (GNil :: r2) = Ok false | _ => True end.
Proof.
  intros v r1 r2 H K. split; [reflexivity|]. destruct v; auto. destruct b; reflexivity.
  rewrite (K k z eq_refl). reflexivity.
Qed.

(** C20, across kinds: Less is not transitive. *)
Theorem C20_mixed_kinds_refuted : exists a b c,
  reach_cell a /\ reach_cell b /\ reach_cell c /\
  cell_less a b = Ok true /\ cell_less b c = Ok true /\ cell_less a c = Ok false.
Proof.
  exists [GStr (bs "10"); GCType StringCell], [GStr (bs "9"); GCType StringCell], [GInt KInt64 10; GCType IntegerCell].
  repeat split; try (vm_compute; reflexivity).
  - apply (rc_new (GStr (bs "10"))). reflexivity.
  - apply (rc_new (GStr (bs "9"))). reflexivity.
  - apply (rc_new (GInt KInt64 10)). reflexivity.
Qed.

(** C20/C21: comparing any date cell with anything panics. *)
Theorem C20_dates_panic_refuted : forall t r other, cell_less (GTime t :: r) other = Panic.
Proof. reflexivity. Qed.

(** C21.  On integer and float cells, Equal is equality of the two numbers as float64. *)
Definition number_of (c : list goval) (x : f64) : Prop :=
  (exists r, c = GF64 x :: GCType FloatCell :: r) \/
  (exists z r, c = GInt KInt64 z :: GCType IntegerCell :: r /\ x = f_of_Z z).

Theorem C21_equal_numbers : forall a b x y, number_of a x -> number_of b y ->
  cell_equal a b = Ok (feq x y).
Proof.
  intros a b x y [(r & ->)|(z & r & -> & ->)] [(r' & ->)|(z' & r' & -> & ->)];
    unfold cell_equal; rewrite !type_of_pair; reflexivity.
Qed.

Theorem C21_equal_numbers_real : forall a b x y, number_of a x -> number_of b y ->
  f_is_finite x = true -> f_is_finite y = true ->
  (cell_equal a b = Ok true <-> B2R x = B2R y).
Proof.
  intros a b x y Ha Hb Fx Fy. rewrite (C21_equal_numbers a b x y Ha Hb).
  rewrite <- feq_real by auto. split; congruence.
Qed.

(** C21.  Every cell that is not a date and not NaN equals itself. *)
Theorem C21_reflexive : forall c, reach_cell c ->
  (forall t, cell_value c <> GTime t) -> (forall x, cell_value c = GF64 x -> f_is_nan x = false) ->
  cell_equal c c = Ok true.
Proof. exact equal_reflexive. Qed.

(** C21, violated: a number equals a text, but that text does not equal the number ... *)
Theorem C21_symmetry_refuted : exists a b, reach_cell a /\ reach_cell b /\
  cell_equal a b = Ok true /\ cell_equal b a = Ok false.
Proof.
  exists [GInt KInt64 5; GCType IntegerCell], [GStr (bs "abc"); GCType StringCell].
  repeat split; try (vm_compute; reflexivity).
  - apply (rc_new (GInt KInt64 5)). reflexivity.
  - apply (rc_new (GStr (bs "abc"))). reflexivity.
Qed.

(** ... and a blank equals every text and every boolean *)
Theorem C21_blank_equals_text_refuted : forall s,
  cell_equal [GNil; GCType BlankCell] [GStr s; GCType StringCell] = Ok true /\
  cell_equal [GStr s; GCType StringCell] [GNil; GCType BlankCell] = Ok true.
Proof. intros; split; reflexivity. Qed.

(** C22.  Cells made by NewCell, NewCellWithType, SetFormatNumber and SetURL never panic on
    Type, FormatNo and URL, and neither do further SetFormatNumber and SetURL calls. *)
Theorem C22_no_panic : forall c, reach_cell c ->
  (exists t, cell_type c = Ok t) /\ (exists n, format_no c = Ok n /\ 0 <= n < 65536) /\
  (exists u, cell_url c = Ok u) /\ c <> [].
Proof. intros. apply shape_no_panic, reach_shape; auto. Qed.

Theorem C22_setters_total : forall c f l, reach_cell c -> 0 <= f < 65536 ->
  (exists c', set_format_number c f = Ok c' /\ reach_cell c') /\
  (exists c', cell_set_url c l = Ok c' /\ reach_cell c').
Proof.
  intros c f l H Hf. assert (S := reach_shape c H). split.
  - destruct (shape_set_format c f S Hf) as (c' & E & _). exists c'. split; auto. eapply rc_fmt; eauto.
  - destruct (shape_set_url c l S) as (c' & E & _). exists c'. split; auto. eapply rc_url; eauto.
Qed.

(** C22.  SetFormatNumber(f) makes FormatNo return f and keeps value, type, on every cell
    without a hyperlink; SetURL(l) keeps the value and makes URL return l on such a cell. *)
Theorem C22_set_format : forall c f c', reach_cell c ->
  cell_type c <> Ok HyperlinkStringCell -> 0 <= f < 65536 ->
  set_format_number c f = Ok c' ->
  format_no c' = Ok f /\ cell_value c' = cell_value c /\ cell_type c' = cell_type c.
Proof. exact set_format_spec. Qed.

Theorem C22_set_url : forall c l c', reach_cell c -> cell_type c <> Ok HyperlinkStringCell ->
  cell_set_url c l = Ok c' ->
  cell_url c' = Ok (Some l) /\ cell_value c' = cell_value c /\ cell_type c' = Ok HyperlinkStringCell.
Proof. exact set_url_spec. Qed.

(** C22, violated on hyperlinks: the format number of a hyperlinked cell reads as 0, and a second
    SetURL does not change the link. *)
Theorem C22_hyperlink_refuted : forall v f l l2, 0 < f < 65536 ->
  exists c c1 c2, set_format_number [GStr v; GCType StringCell] f = Ok c /\ format_no c = Ok f /\
    cell_set_url c l = Ok c1 /\ format_no c1 = Ok 0 /\
    cell_set_url c1 l2 = Ok c2 /\ cell_url c2 = Ok (Some l).
Proof.
  intros v f l l2 Hf.
  exists [GStr v; GCType StringCell; GInt KUint16 f],
         [GStr v; GCType HyperlinkStringCell; GInt KUint16 f; GStr l],
         [GStr v; GCType HyperlinkStringCell; GInt KUint16 f; GStr l; GStr l2].
  repeat split; try reflexivity.
  unfold set_format_number. destruct (Z.eqb_spec f 0); [lia|reflexivity].
Qed.

(** Non-vacuity *)
Example C17_ex : holds (GU16s [72; 105; 55357; 56832]) (GStr [72; 105; 240; 159; 152; 128]) StringCell.
Proof. apply holds_utf16. discriminate. Qed.
Example C18_ex : new_cell_with_type false (GF64 (fst (parse_float (bs "-3.99")))) IntegerCell
                 = Ok [GInt KInt64 (-3); GCType IntegerCell].
Proof. vm_compute. reflexivity. Qed.
Example C18_ex2 : new_cell_with_type false (GStr (bs "12x")) IntegerCell = Ok [GInt KInt64 0; GCType IntegerCell].
Proof. reflexivity. Qed.
Example C20_ex : of_kind OText [GStr (bs "abc"); GCType StringCell] /\
  cell_less [GStr (bs "abc"); GCType StringCell] [GStr (bs "abd"); GCType StringCell] = Ok true.
Proof. split; [do 2 eexists; reflexivity|reflexivity]. Qed.
Example C20_ex_numbers : stands_for (GInt KInt64 (-3)) (-3) /\ stands_for (GBool true) 1 /\
  cell_less [GInt KInt64 (-3); GCType IntegerCell] [GBool true; GCType BooleanCell] = Ok true /\
  cell_less [GInt KInt64 9; GCType IntegerCell] [GStr (bs "10"); GCType StringCell] = Ok true /\
  cell_less [GInt KInt64 9; GCType IntegerCell] [GStr (bs "x10"); GCType StringCell] = Ok true.
Proof.
  repeat split; try reflexivity.
  - right. left. exists (-3). split; auto. split; [lia|]. rewrite RN_Z by lia. reflexivity.
  - left. exists true. auto.
Qed.
Example C22_ex : reach_cell [GInt KInt64 7; GCType IntegerCell; GInt KUint16 14] /\
  format_no [GInt KInt64 7; GCType IntegerCell; GInt KUint16 14] = Ok 14.
Proof.
  split; [|reflexivity]. apply (rc_fmt [GInt KInt64 7; GCType IntegerCell] 14); [|lia|reflexivity].
  apply (rc_new (GInt KInt64 7)). reflexivity.
Qed.

Print Assumptions C17_new_cell.
Print Assumptions C18_coercion.
Print Assumptions C18_total.
Print Assumptions C18_int_to_float.
Print Assumptions C18_float_to_int.
Print Assumptions C20_less_means.
Print Assumptions C20_less_numbers.
Print Assumptions C20_less_false.
Print Assumptions C20_less_text.
Print Assumptions C20_less_word.
Print Assumptions C20_transitive.
Print Assumptions C20_total_up_to_equal.
Print Assumptions C21_equal_numbers_real.
Print Assumptions C21_reflexive.
Print Assumptions C22_no_panic.
Print Assumptions C22_set_format.
Print Assumptions C22_set_url.
