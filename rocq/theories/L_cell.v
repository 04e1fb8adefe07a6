(** * L_cell: proofs about commonxl cells. *)
From Verif Require Import GoBase L_base GoFloat L_float GoUnicode GoTime M_value M_dates M_fmt M_formats M_cell S_cell.
From Coq Require Import Reals Lra Lia ZifyBool ZifyNat.
Open Scope Z_scope.
Local Opaque convert_to_date f_to_int64 f_of_Z parse_float parse_int feq sprint utf16_string string_of_runes.
Ltac Zify.zify_post_hook ::= Z.div_mod_to_equations.

Lemma ctype_eqb_eq : forall a b, ctype_eqb a b = true <-> a = b.
Proof. destruct a, b; simpl; split; intros; congruence. Qed.

Lemma ctype_eqb_refl : forall a, ctype_eqb a a = true.
Proof. destruct a; reflexivity. Qed.

(** ** NewCell *)

Lemma s64_small : forall z, - 2 ^ 63 <= z < 2 ^ 63 -> s64 z = z.
Proof. intros z H. unfold s64, u64, two63. destruct (Z.ltb_spec (z mod 18446744073709551616) 9223372036854775808); lia. Qed.
Lemma s64_big : forall z, 2 ^ 63 <= z < 2 ^ 64 -> s64 z = z - 2 ^ 64.
Proof. intros z H. unfold s64, u64, two63. destruct (Z.ltb_spec (z mod 18446744073709551616) 9223372036854775808); lia. Qed.

Definition big_uint (v : goval) : Prop := exists z, v = GInt KUint z /\ 2 ^ 63 <= z.

Lemma maxInt64_val : maxInt64 = 2 ^ 63 - 1. Proof. reflexivity. Qed.

Lemma ctype_string_nonempty : forall t, ctype_string t <> [].
Proof. destruct t; discriminate. Qed.

Lemma new_cell_holds : forall value v t, proper value -> ~ big_uint value ->
  (holds value v t <-> new_cell value = Ok [v; GCType t]).
Proof.
  intros value v t Hp Hb. split.
  - intros H. destruct H; try reflexivity;
      try (destruct s; [congruence|reflexivity]); try (destruct u; [congruence|reflexivity]);
      try (destruct r; [congruence|reflexivity]).
    + unfold new_cell. destruct k; cbn; try reflexivity.
      * simpl in Hp. rewrite s64_small by lia. reflexivity.
      * destruct (Z.ltb_spec maxInt64 z); [rewrite maxInt64_val in *; lia|reflexivity].
    + unfold new_cell. destruct k; cbn; simpl in Hp; try lia.
      * exfalso. apply Hb. exists z. auto.
      * destruct (Z.ltb_spec maxInt64 z); [reflexivity|rewrite maxInt64_val in *; lia].
    + destruct t; reflexivity.
  - intros H. unfold new_cell in H.
    destruct value as [|b|k z|x|x|s|s|u|r|x|ct|s|s]; cbn in H; try discriminate;
      try (injection H as <- <-; constructor);
      try (destruct s; injection H as <- <-; constructor; congruence);
      try (destruct u; injection H as <- <-; constructor; congruence);
      try (destruct r; injection H as <- <-; constructor; congruence).
    + destruct k; simpl in Hp; cbn in H; try (injection H as <- <-; constructor; lia).
      * injection H as <- <-.
        assert (~ 2 ^ 63 <= z) by (intro; apply Hb; exists z; auto).
        assert (E : s64 z = z) by (apply s64_small; lia).
        rewrite E. constructor. lia.
      * destruct (Z.ltb_spec maxInt64 z); rewrite maxInt64_val in *; injection H as <- <-;
          constructor; lia.
    + destruct ct; injection H as <- <-; apply holds_ctype.
Qed.

Lemma new_cell_big_uint : forall z, 2 ^ 63 <= z < 2 ^ 64 ->
  new_cell (GInt KUint z) = Ok [GInt KInt64 (z - 2 ^ 64); GCType IntegerCell] /\ z - 2 ^ 64 < 0.
Proof.
  intros z H. split; [|lia]. unfold new_cell. cbn. rewrite s64_big by lia. reflexivity.
Qed.

(** the values NewCell stores *)
Inductive stored : goval -> ctype -> Prop :=
| st_nil : stored GNil BlankCell
| st_bool : forall b, stored (GBool b) BooleanCell
| st_int : forall z, stored (GInt KInt64 z) IntegerCell
| st_float : forall x, stored (GF64 x) FloatCell
| st_str : forall s, s <> [] -> stored (GStr s) StringCell
| st_time : forall t, stored (GTime t) DateCell.

Lemma utf8_enc_nonempty : forall r, utf8_enc r <> [].
Proof.
  intros. unfold utf8_enc. repeat match goal with |- context [if ?b then _ else _] => destruct b end; discriminate.
Qed.

Lemma new_cell_pair_stored : forall value v t, new_cell_pair value = Ok (v, t) ->
  stored v t \/ (exists s, v = GStr s /\ t = StringCell).
Proof.
  intros value v t H. destruct value as [|b|k z|x|x|s|s|u|r|x|ct|s|s]; cbn in H; try discriminate;
    try (injection H as <- <-; left; constructor; fail);
    try (destruct s; injection H as <- <-; left; constructor; congruence).
  - destruct k; try (injection H as <- <-; left; constructor).
    destruct (maxInt64 <? z); injection H as <- <-; left; constructor.
  - destruct u; injection H as <- <-; [left; constructor|right; eauto].
  - destruct r; injection H as <- <-; [left; constructor|right; eauto].
  - destruct (ctype_string ct) eqn:E; injection H as <- <-; [left; constructor|right; eauto].
Qed.

Lemma sfind_true : forall s (m : list (gostr * bool)) b, sfind s m = Some b -> In (s, b) m.
Proof.
  induction m as [|[k v] m IH]; simpl; intros; [discriminate|].
  destruct (str_eqb s k) eqn:E.
  - apply str_eqb_eq in E. subst. injection H as ->. auto.
  - right. auto.
Qed.

Lemma bool_string_truthy : forall s, bool_string s = true <-> truthy_text s.
Proof.
  intros s. unfold bool_string, truthy_text. split.
  - destruct (sfind s bool_strings) as [b|] eqn:E; [|discriminate]. intros ->.
    apply sfind_true in E. unfold bool_strings in E. apply in_map_iff in E.
    destruct E as ([w b] & E & Hin). cbn [fst snd] in E. injection E as <- ->.
    apply in_map. cbn [In] in *.
    repeat (destruct Hin as [Hin|Hin];
            [injection Hin as <-; try discriminate; auto 20|]); try contradiction;
      try (injection Hin as ? ?; discriminate).
  - cbn [map In]. intros H.
    repeat (destruct H as [<-|H]; [reflexivity|]). contradiction.
Qed.

Lemma new_cell_with_type_coerced : forall m value v t t' c,
  new_cell value = Ok [v; GCType t'] ->
  In t [IntegerCell; FloatCell; BooleanCell; StringCell; DateCell] -> t <> t' ->
  new_cell_with_type m value t = Ok c <->
  exists v2 t2, coerced m t v v2 t2 /\ c = [v2; GCType t2].
Proof.
  intros m value v t t' c Hn Ht Hne. unfold new_cell in Hn.
  destruct (new_cell_pair value) as [[v0 t0]| | |] eqn:E; simpl in Hn; try discriminate.
  injection Hn as -> ->.
  assert (S : stored v t' \/ (exists s, v = GStr s /\ t' = StringCell)) by (eapply new_cell_pair_stored; eauto).
  unfold new_cell_with_type. rewrite E. cbn [bind fst snd].
  destruct (ctype_eqb t' t) eqn:Et; [apply ctype_eqb_eq in Et; congruence|].
  clear E Et. cbn [In] in Ht.
  assert (SS : (exists s, v = GStr s /\ t' = StringCell) \/ (t' <> StringCell /\ stored v t')).
  { destruct S as [S|S]; [destruct S|]; eauto; right; split; try congruence; constructor. }
  clear S.
  split.
  - intros H.
    destruct SS as [(s & -> & ->)|[Hns S]].
    + repeat (destruct Ht as [<-|Ht]; [|]); try contradiction; try congruence; cbn in H;
        injection H as <-; do 2 eexists; (split; [|reflexivity]);
        try constructor; try (intros; discriminate).
      apply bool_string_truthy.
    + destruct S; repeat (destruct Ht as [<-|Ht]; [|]); try contradiction; try congruence; cbn in H;
        injection H as <-; do 2 eexists; (split; [|reflexivity]);
        try (constructor; cbn [In]; auto; fail);
        try (constructor; intros; discriminate); try (constructor; cbn [In]; tauto).
      * constructor. destruct (Z.eqb_spec z 0); simpl; split; intros; congruence.
      * constructor. destruct (feq x f_zero); simpl; split; intros; congruence.
  - intros (v2 & t2 & Hc & ->).
    destruct SS as [(s & -> & ->)|[Hns S]].
    + repeat (destruct Ht as [<-|Ht]; [|]); try contradiction; try congruence; inversion Hc; subst; try reflexivity; try (exfalso; congruence).
      * cbn. repeat f_equal.
        match goal with H : _ <-> truthy_text _ |- _ => rewrite <- bool_string_truthy in H;
          destruct (bool_string s), b; auto; destruct H as [H1 H2]; (discriminate H1 || discriminate H2); auto end.
    + destruct S; repeat (destruct Ht as [<-|Ht]; [|]); try contradiction; try congruence;
        inversion Hc; subst; try reflexivity; try (exfalso; congruence);
        try match goal with H : forall b, GBool _ <> GBool b |- _ => exfalso; eapply H; reflexivity end;
        try match goal with H : forall b, GInt _ _ <> GInt _ b |- _ => exfalso; eapply H; reflexivity end;
        try match goal with H : forall b, GF64 _ <> GF64 b |- _ => exfalso; eapply H; reflexivity end.
      all: try (destruct b; reflexivity).
      all: try (match goal with H : In _ _ |- _ => cbn [In] in H;
                  repeat (destruct H as [H|H]; [discriminate H|]); contradiction end).
      * cbn. repeat f_equal.
        match goal with H : _ <-> _ |- _ => destruct (Z.eqb_spec z 0), b; simpl; auto; exfalso;
          destruct H as [H1 H2]; [apply H1 in e; auto | assert (false = true) by auto; discriminate] end.
      * cbn. repeat f_equal.
        match goal with H : _ <-> _ |- _ => destruct (feq x f_zero), b; simpl; auto; exfalso;
          destruct H as [H1 H2]; [assert (true = false) by auto; discriminate
                                 | assert (false = true) by auto; discriminate] end.
Qed.

Lemma new_cell_with_type_same : forall m value v t,
  new_cell value = Ok [v; GCType t] -> new_cell_with_type m value t = Ok [v; GCType t].
Proof.
  intros m value v t H. unfold new_cell in H. unfold new_cell_with_type.
  destruct (new_cell_pair value) as [[v0 t0]| | |]; simpl in H; try discriminate.
  injection H as -> ->. simpl. rewrite ctype_eqb_refl. reflexivity.
Qed.

Lemma new_cell_with_type_ok : forall m value t v0 t0, new_cell_pair value = Ok (v0, t0) ->
  exists v t', new_cell_with_type m value t = Ok [v; GCType t'].
Proof.
  intros m value t v0 t0 E.
  assert (S := new_cell_pair_stored _ _ _ E).
  unfold new_cell_with_type. rewrite E. cbn [bind fst snd].
  destruct S as [S|(s & -> & ->)]; [destruct S|]; destruct t; cbn; eauto.
Qed.

(** ** shape of reachable cells *)
Inductive reach_cell : list goval -> Prop :=
| rc_new : forall v c, new_cell v = Ok c -> reach_cell c
| rc_typed : forall m v t c, new_cell_with_type m v t = Ok c -> reach_cell c
| rc_fmt : forall c f c', reach_cell c -> 0 <= f < 65536 -> set_format_number c f = Ok c' -> reach_cell c'
| rc_url : forall c l c', reach_cell c -> cell_set_url c l = Ok c' -> reach_cell c'.

Inductive shape : list goval -> Prop :=
| sh2 : forall v t, shape [v; GCType t]
| sh3 : forall v t f, 0 <= f < 65536 -> shape [v; GCType t; GInt KUint16 f]
| sh4 : forall v f l ls, 0 <= f < 65536 -> shape (v :: GCType HyperlinkStringCell :: GInt KUint16 f :: GStr l :: map GStr ls).

Lemma new_cell_shape : forall v c, new_cell v = Ok c -> shape c.
Proof.
  intros v c H. unfold new_cell in H. destruct (new_cell_pair v) as [[a b]| | |]; simpl in H; try discriminate.
  injection H as <-. constructor.
Qed.

Lemma typed_shape : forall m v t c, new_cell_with_type m v t = Ok c -> shape c.
Proof.
  intros m v t c H. destruct (new_cell_pair v) as [[a b]| | |] eqn:E.
  - destruct (new_cell_with_type_ok m v t _ _ E) as (x & y & H2). rewrite H2 in H. injection H as <-. constructor.
  - unfold new_cell_with_type in H; rewrite E in H; discriminate.
  - unfold new_cell_with_type in H; rewrite E in H; discriminate.
  - unfold new_cell_with_type in H; rewrite E in H; discriminate.
Qed.

Lemma shape_set_format : forall c f, shape c -> 0 <= f < 65536 ->
  exists c', set_format_number c f = Ok c' /\ shape c'.
Proof.
  intros c f Hc Hf. unfold set_format_number.
  destruct (Z.eqb_spec f 0).
  - destruct Hc; match goal with |- context [zlen ?l <? 2] => destruct (Z.ltb_spec (zlen l) 2) as [Hl|_] end;
      try (exfalso; rewrite !zlen_cons in Hl; match type of Hl with context [zlen ?l] => pose proof (zlen_nonneg _ l) end; lia);
      eexists; (split; [reflexivity|]); constructor.
  - destruct Hc.
    + eexists; split; [reflexivity|]. constructor; auto.
    + eexists; split; [reflexivity|]. constructor; auto.
    + destruct (Z.eqb_spec (zlen (v :: GCType HyperlinkStringCell :: GInt KUint16 f0 :: GStr l :: map GStr ls)) 2).
      * rewrite !zlen_cons in e. pose proof (zlen_nonneg _ (map GStr ls)). lia.
      * unfold set_idx. rewrite !zlen_cons. pose proof (zlen_nonneg _ (map GStr ls)).
        destruct (Z.leb_spec 0 2); [|lia]. destruct (Z.ltb_spec 2 (1 + (1 + (1 + (1 + zlen (map GStr ls)))))); [|lia].
        eexists; split; [reflexivity|]. cbn. constructor; auto.
Qed.

Lemma shape_set_url : forall c l, shape c -> exists c', cell_set_url c l = Ok c' /\ shape c'.
Proof.
  intros c l Hc. unfold cell_set_url. destruct Hc.
  - eexists; split; [reflexivity|]. apply (sh4 v 0 l []). lia.
  - eexists; split; [reflexivity|]. apply (sh4 v f l []). auto.
  - unfold set_idx. rewrite !zlen_cons. pose proof (zlen_nonneg _ (map GStr ls)).
    destruct (Z.leb_spec 0 1); [|lia]. destruct (Z.ltb_spec 1 (1 + (1 + (1 + (1 + zlen (map GStr ls)))))); [|lia].
    cbn [andb bind upd]. rewrite (eq_refl : Z.to_nat 1 = 1%nat). cbn [upd]. rewrite !zlen_cons.
    destruct (Z.eqb_spec (1 + (1 + (1 + (1 + zlen (map GStr ls))))) 2); [lia|].
    eexists; split; [reflexivity|]. cbn [app].
    change [GStr l] with (map GStr [l]). rewrite <- map_app. constructor; auto.
Qed.

Lemma reach_shape : forall c, reach_cell c -> shape c.
Proof.
  induction 1; eauto using new_cell_shape, typed_shape.
  - destruct (shape_set_format c f IHreach_cell H0) as (c2 & E & S). congruence.
  - destruct (shape_set_url c l IHreach_cell) as (c2 & E & S). congruence.
Qed.

Lemma shape_type : forall c, shape c -> exists v t r, c = v :: GCType t :: r /\ cell_type c = Ok t.
Proof.
  intros c H; destruct H; do 3 eexists; (split; [reflexivity|]).
  - reflexivity.
  - reflexivity.
  - unfold cell_type. rewrite !zlen_cons. pose proof (zlen_nonneg _ (map GStr ls)).
    destruct (Z.ltb_spec (1 + (1 + (1 + (1 + zlen (map GStr ls))))) 2); [lia|].
    reflexivity.
Qed.

Lemma shape_no_panic : forall c, shape c ->
  (exists t, cell_type c = Ok t) /\ (exists n, format_no c = Ok n /\ 0 <= n < 65536) /\
  (exists u, cell_url c = Ok u) /\ c <> [].
Proof.
  intros c H. destruct (shape_type c H) as (v & t & r & E & Ht).
  split; [eauto|]. split; [|split].
  - destruct H; unfold format_no.
    + exists 0. split; [reflexivity|lia].
    + exists f. split; [reflexivity|lia].
    + exists 0. split; [|lia]. rewrite !zlen_cons. pose proof (zlen_nonneg _ (map GStr ls)).
      destruct (Z.eqb_spec (1 + (1 + (1 + (1 + zlen (map GStr ls))))) 3); [lia|reflexivity].
  - unfold cell_url. rewrite Ht. cbn [bind]. destruct (ctype_eqb t HyperlinkStringCell && (4 <=? zlen c)) eqn:Eb; [|eauto].
    apply andb_true_iff in Eb. destruct Eb as [_ Eb]. apply Z.leb_le in Eb.
    destruct H; try (exfalso; rewrite !zlen_cons, zlen_nil in Eb; lia); eexists; reflexivity.
  - subst; discriminate.
Qed.

(** ** Less *)
Lemma str_ltb_lex : forall a b, str_ltb a b = true <-> lex_lt a b.
Proof.
  induction a as [|x a IH]; intros [|y b]; cbn [str_ltb].
  - split; [discriminate|]. intros ([|z p] & [(c & r & E & E2)|(c & d & r1 & r2 & E & E2 & _)]);
      try discriminate E; try discriminate E2.
  - split; auto. intros _. exists []. left. exists y, b. auto.
  - split; [discriminate|]. intros ([|z p] & [(c & r & E & E2)|(c & d & r1 & r2 & E & E2 & _)]);
      try discriminate E; try discriminate E2.
  - split.
    + destruct (Z.ltb_spec x y).
      * intros _. exists []. right. exists x, y, a, b. auto.
      * destruct (Z.eqb_spec x y); [subst|discriminate].
        intros H1. apply IH in H1. destruct H1 as (p & [(c & r & E & E2)|(c & d & r1 & r2 & E & E2 & L)]); subst.
        -- exists (y :: p). left. exists c, r. auto.
        -- exists (y :: p). right. exists c, d, r1, r2. auto.
    + intros (p & [(c & r & E & E2)|(c & d & r1 & r2 & E & E2 & L)]).
      * subst p. injection E2 as -> ->. destruct (Z.ltb_spec x x); auto.
        rewrite Z.eqb_refl. apply IH. exists a. left. eauto.
      * destruct p as [|z p]; simpl in E, E2.
        -- injection E as -> ->. injection E2 as -> ->. destruct (Z.ltb_spec c d); auto. lia.
        -- injection E as -> ->. injection E2 as -> ->. destruct (Z.ltb_spec z z); auto.
           rewrite Z.eqb_refl. apply IH. exists p. right. exists c, d, r1, r2. auto.
Qed.

Lemma str_ltb_irrefl : forall a, str_ltb a a = false.
Proof. induction a; simpl; auto. rewrite Z.ltb_irrefl, Z.eqb_refl. auto. Qed.

Lemma str_ltb_trans : forall a b c, str_ltb a b = true -> str_ltb b c = true -> str_ltb a c = true.
Proof.
  induction a as [|x a IH]; intros [|y b] [|z c]; simpl; intros; try discriminate; auto.
  destruct (Z.ltb_spec x y), (Z.ltb_spec y z), (Z.ltb_spec x z); auto; try lia;
    destruct (Z.eqb_spec x y), (Z.eqb_spec y z), (Z.eqb_spec x z); subst; try lia; try discriminate; eauto.
Qed.

Lemma str_ltb_total : forall a b, str_ltb a b = false -> str_ltb b a = false -> a = b.
Proof.
  induction a as [|x a IH]; intros [|y b]; simpl; intros; try discriminate; auto.
  destruct (Z.ltb_spec x y), (Z.ltb_spec y x); try discriminate; try lia.
  destruct (Z.eqb_spec x y), (Z.eqb_spec y x); try lia. subst. f_equal. auto.
Qed.

Definition is_inf (x : f64) : option bool :=
  match x with BinarySingleNaN.B754_infinity s => Some s | _ => None end.

Lemma flt_trans : forall a b c, flt a b = true -> flt b c = true -> flt a c = true.
Proof.
  intros a b c H1 H2.
  destruct (f_is_finite a) eqn:Fa, (f_is_finite b) eqn:Fb, (f_is_finite c) eqn:Fc.
  - apply flt_real in H1; auto. apply flt_real in H2; auto. apply flt_real; auto. lra.
  - destruct c as [s|[]| |]; try discriminate; destruct a; try discriminate; destruct b; try discriminate; auto;
     destruct s; discriminate.
  - destruct b as [s|[]| |]; try discriminate; destruct a; try discriminate; destruct c; try discriminate;
     repeat match goal with s : bool |- _ => destruct s end; discriminate.
  - destruct b as [s|[]| |]; try discriminate; destruct a; try discriminate; destruct c as [|[]| |]; try discriminate;
     repeat match goal with s : bool |- _ => destruct s end; try discriminate; reflexivity.
  - destruct a as [s|[]| |]; try discriminate; destruct c; try discriminate; destruct b; try discriminate;
     repeat match goal with s : bool |- _ => destruct s end; try discriminate; reflexivity.
  - destruct a as [s|[]| |]; try discriminate; destruct c as [|[]| |]; try discriminate; destruct b; try discriminate;
     repeat match goal with s : bool |- _ => destruct s end; try discriminate; reflexivity.
  - destruct a as [s|[]| |]; try discriminate; destruct b as [|[]| |]; try discriminate; destruct c; try discriminate;
     repeat match goal with s : bool |- _ => destruct s end; try discriminate; reflexivity.
  - destruct a as [s|[]| |]; try discriminate; destruct b as [|[]| |]; try discriminate; destruct c as [|[]| |]; discriminate.
Qed.

Lemma flt_irrefl : forall a, flt a a = false.
Proof.
  intros a. destruct (f_is_finite a) eqn:Fa.
  - destruct (flt a a) eqn:E; auto. apply flt_real in E; auto. lra.
  - destruct a as [|[]| |]; try discriminate; reflexivity.
Qed.

Local Transparent feq.
(** for non-NaN floats, feq is "neither is less" *)
Lemma feq_not_lt : forall a b, f_is_nan a = false -> f_is_nan b = false ->
  feq a b = negb (flt a b) && negb (flt b a).
Proof.
  intros a b Ha Hb.
  destruct (f_is_finite a) eqn:Fa, (f_is_finite b) eqn:Fb.
  - unfold feq, flt. rewrite !fcmp_real by auto.
    rewrite (Flocq.Core.Raux.Rcompare_sym (B2R b) (B2R a)).
    destruct (Flocq.Core.Raux.Rcompare (B2R a) (B2R b)); reflexivity.
  - destruct b as [|[]| |]; try discriminate; destruct a as [[]| | |[]]; try discriminate; try reflexivity.
  - destruct a as [|[]| |]; try discriminate; destruct b as [[]| | |[]]; try discriminate; try reflexivity.
  - destruct a as [|[]| |]; try discriminate; destruct b as [|[]| |]; try discriminate; reflexivity.
Qed.

Local Opaque feq.
Lemma feq_refl : forall a, f_is_nan a = false -> feq a a = true.
Proof. intros. rewrite feq_not_lt; auto. rewrite flt_irrefl. reflexivity. Qed.

Ltac kinds :=
  repeat match goal with
  | H : of_kind _ _ |- _ => unfold of_kind in H
  | H : exists _, _ |- _ => destruct H
  | H : _ /\ _ |- _ => destruct H
  end; subst.

Lemma type_of_pair : forall v t r, cell_type (v :: GCType t :: r) = Ok t.
Proof.
  intros. unfold cell_type. rewrite !zlen_cons. pose proof (zlen_nonneg _ r).
  destruct (Z.ltb_spec (1 + (1 + zlen r)) 2); [lia|]. reflexivity.
Qed.

Lemma flt_asym : forall a b, flt a b = true -> flt b a = true -> False.
Proof. intros a b H1 H2. assert (H := flt_trans _ _ _ H1 H2). rewrite flt_irrefl in H. discriminate. Qed.

Lemma f_of_Z_inj_lt : forall a b, Z.abs a <= 2 ^ 53 -> Z.abs b <= 2 ^ 53 ->
  feq (f_of_Z a) (f_of_Z b) = (a =? b).
Proof.
  intros a b Ha Hb. destruct (f_of_Z_exact a Ha) as [Ea Fa]. destruct (f_of_Z_exact b Hb) as [Eb Fb].
  destruct (Z.eqb_spec a b).
  - subst. apply feq_real; auto.
  - destruct (feq (f_of_Z a) (f_of_Z b)) eqn:E; auto. apply feq_real in E; auto.
    rewrite Ea, Eb in E. apply eq_IZR in E. congruence.
Qed.

Lemma total_up_to_equal : forall k a b, of_kind k a -> of_kind k b ->
  (forall z r, a = GInt KInt64 z :: r -> Z.abs z <= 2 ^ 53) ->
  (forall z r, b = GInt KInt64 z :: r -> Z.abs z <= 2 ^ 53) ->
  exists e l1 l2, cell_equal a b = Ok e /\ cell_less a b = Ok l1 /\ cell_less b a = Ok l2 /\
    (e = true <-> l1 = false /\ l2 = false) /\ ~ (l1 = true /\ l2 = true).
Proof.
  intros k a b Ha Hb Xa Xb. unfold cell_equal. destruct k; kinds; rewrite !type_of_pair; cbn [bind ctype_eqb orb].
  - destruct x1, x; do 3 eexists; repeat split; try reflexivity; try discriminate; try (intros []; discriminate).
  - specialize (Xa _ _ eq_refl). specialize (Xb _ _ eq_refl).
    exists (x1 =? x), (x1 <? x), (x <? x1). split; [|repeat split; lia].
    change (Ok (feq (f_of_Z x1) (f_of_Z x)) = Ok (x1 =? x)).
    rewrite f_of_Z_inj_lt by auto. reflexivity.
  - exists (feq x1 x), (flt x1 x), (flt x x1). split; [reflexivity|]. split; [reflexivity|]. split; [reflexivity|].
    rewrite feq_not_lt by auto. split.
    + destruct (flt x1 x), (flt x x1); simpl; split; auto; try discriminate; intros []; discriminate.
    + intros [E1 E2]. eapply flt_asym; eauto.
  - do 3 eexists. split; [reflexivity|]. split; [reflexivity|]. split; [reflexivity|].
    destruct (str_ltb x1 x) eqn:E1, (str_ltb x x1) eqn:E2; simpl; split; try (intros []; discriminate);
      try (split; auto; intros []; discriminate); try (split; [discriminate|intros []; discriminate]); auto.
    + exfalso. assert (H := str_ltb_trans _ _ _ E1 E2). rewrite str_ltb_irrefl in H. discriminate.
    + exfalso. assert (H := str_ltb_trans _ _ _ E1 E2). rewrite str_ltb_irrefl in H. discriminate.
Qed.

(** the value kinds cells hold *)
Definition comparable_value (v : goval) : Prop :=
  match v with GNil | GBool _ | GInt KInt64 _ | GF64 _ | GStr _ => True | _ => False end.

(** value and type of reachable cells fit together *)
Definition fits (v : goval) (t : ctype) : Prop :=
  (comparable_value v \/ exists x, v = GTime x) /\
  (t = IntegerCell -> exists z, v = GInt KInt64 z) /\
  (t = FloatCell -> exists x, v = GF64 x).

Lemma stored_fits : forall v t, stored v t \/ (exists s, v = GStr s /\ t = StringCell) -> fits v t.
Proof.
  intros v t [H|(s & -> & ->)]; [destruct H|]; unfold fits; repeat split; simpl; eauto; try discriminate.
Qed.

Lemma typed_fits : forall m value t v t', new_cell_with_type m value t = Ok [v; GCType t'] -> fits v t'.
Proof.
  intros m value t v t' H. unfold new_cell_with_type in H.
  destruct (new_cell_pair value) as [[v0 t0]| | |] eqn:E; try discriminate. cbn [bind fst snd] in H.
  assert (S := new_cell_pair_stored _ _ _ E).
  destruct (ctype_eqb t0 t) eqn:Et.
  - injection H as <- <-. apply stored_fits; auto.
  - destruct S as [S|(s & -> & ->)]; [destruct S|]; destruct t; cbn in Et; try discriminate; cbn in H;
      injection H as <- <-; unfold fits; repeat split; simpl; eauto; try discriminate.
Qed.

Lemma reach_fits : forall c, reach_cell c -> exists v t r, c = v :: GCType t :: r /\ fits v t.
Proof.
  induction 1.
  - unfold new_cell in H. destruct (new_cell_pair v) as [[a b]| | |] eqn:E; try discriminate.
    injection H as <-. do 3 eexists. split; [reflexivity|]. apply stored_fits. eapply new_cell_pair_stored; eauto.
  - assert (S := typed_shape _ _ _ _ H). destruct (new_cell_pair v) as [[a b]| | |] eqn:E;
      try (unfold new_cell_with_type in H; rewrite E in H; discriminate).
    destruct (new_cell_with_type_ok m v t _ _ E) as (x & y & H2). rewrite H2 in H. injection H as <-.
    do 3 eexists. split; [reflexivity|]. eapply typed_fits; eauto.
  - destruct IHreach_cell as (v & t & r & -> & F). unfold set_format_number in H1.
    destruct (f =? 0).
    + rewrite !zlen_cons in H1. pose proof (zlen_nonneg _ r).
      destruct (Z.ltb_spec (1 + (1 + zlen r)) 2); [lia|]. injection H1 as <-. exists v, t, []. auto.
    + destruct (zlen (v :: GCType t :: r) =? 2).
      * injection H1 as <-. exists v, t, (r ++ [GInt KUint16 f]). auto.
      * unfold set_idx in H1. destruct (_ && _); [|discriminate]. injection H1 as <-.
        exists v, t, (upd r 0 (GInt KUint16 f)). auto.
  - destruct IHreach_cell as (v & t & r & -> & F). unfold cell_set_url in H0.
    unfold set_idx in H0. rewrite !zlen_cons in H0. pose proof (zlen_nonneg _ r).
    destruct (Z.ltb_spec 1 (1 + (1 + zlen r))); [|lia]. cbn [andb Z.leb Z.compare bind] in H0.
    rewrite (eq_refl : (0 <=? 1) = true) in H0. cbn [andb bind] in H0.
    rewrite (eq_refl : Z.to_nat 1 = 1%nat) in H0. cbn [upd] in H0.
    assert (fits v HyperlinkStringCell).
    { destruct F as (A & _ & _). split; auto. split; discriminate. }
    destruct (_ =? 2); injection H0 as <-; cbn [app]; do 3 eexists; (split; [reflexivity|auto]).
Qed.

Lemma equal_reflexive : forall c, reach_cell c ->
  (forall t, cell_value c <> GTime t) -> (forall x, cell_value c = GF64 x -> f_is_nan x = false) ->
  cell_equal c c = Ok true.
Proof.
  intros c Hr Ht Hn. destruct (reach_fits c Hr) as (v & t & r & -> & (A & B & C)). cbn [cell_value] in *.
  destruct A as [A|[x A]]; [|exfalso; eapply Ht; eauto].
  unfold cell_equal. rewrite type_of_pair. cbn [bind].
  destruct (ctype_eqb t FloatCell) eqn:E1.
  - apply ctype_eqb_eq in E1. destruct (C E1) as [x ->].
    change (Ok (feq x x) = Ok true). rewrite feq_refl; auto.
  - destruct (ctype_eqb t IntegerCell) eqn:E2.
    + apply ctype_eqb_eq in E2. destruct (B E2) as [z ->].
      replace (false || false || true || true) with true by reflexivity.
      change (Ok (feq (f_of_Z z) (f_of_Z z)) = Ok true). rewrite feq_refl; auto using f_of_Z_not_nan.
    + cbn [orb]. unfold cell_less. rewrite !idx_0. destruct v; try contradiction; cbn [bind Bool.eqb]; auto.
      * destruct b; cbn; auto.
      * destruct k; try contradiction. rewrite Z.ltb_irrefl. auto.
      * rewrite flt_irrefl. auto.
      * rewrite str_ltb_irrefl. auto.
Qed.

Lemma set_format_spec : forall c f c', reach_cell c ->
  cell_type c <> Ok HyperlinkStringCell -> 0 <= f < 65536 ->
  set_format_number c f = Ok c' ->
  format_no c' = Ok f /\ cell_value c' = cell_value c /\ cell_type c' = cell_type c.
Proof.
  intros c f c' Hr Ht Hf H. assert (S := reach_shape c Hr).
  unfold set_format_number in H. destruct S.
  - destruct (Z.eqb_spec f 0); injection H as <-; subst; repeat split; reflexivity.
  - destruct (Z.eqb_spec f 0); injection H as <-; subst; repeat split; reflexivity.
  - rewrite type_of_pair in Ht. congruence.
Qed.

Lemma set_url_spec : forall c l c', reach_cell c -> cell_type c <> Ok HyperlinkStringCell ->
  cell_set_url c l = Ok c' ->
  cell_url c' = Ok (Some l) /\ cell_value c' = cell_value c /\ cell_type c' = Ok HyperlinkStringCell.
Proof.
  intros c l c' Hr Ht H. assert (S := reach_shape c Hr). unfold cell_set_url in H. destruct S.
  - injection H as <-. repeat split; reflexivity.
  - injection H as <-. repeat split; reflexivity.
  - rewrite type_of_pair in Ht. congruence.
Qed.
