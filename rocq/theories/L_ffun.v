(** * L_ffun: formatting functions neither panic nor run out of fuel on printable values. *)
From Verif Require Import GoBase GoFloat GoUnicode GoTime L_base L_float M_value M_dates M_numbers L_numbers
  M_fmt M_formats M_cell M_sheet S_cell S_sheet L_sheet S_formats L_formats.

Local Opaque convert_to_date f_of_Z fmul f_of_dec.

Definition printable (v : goval) : Prop := sprint v <> [].

Lemma app_ne_r : forall A (a b : list A), b <> [] -> a ++ b <> [].
Proof. intros A a b H E. apply app_eq_nil in E. tauto. Qed.
Lemma app_ne_l : forall A (a b : list A), a <> [] -> a ++ b <> [].
Proof. intros A a b H E. apply app_eq_nil in E. tauto. Qed.

Lemma digits_fuel_ne : forall f n acc, acc <> [] -> digits_fuel f n acc <> [].
Proof.
  induction f; intros; simpl; auto. destruct (n <? 10); [discriminate|]. apply IHf. discriminate.
Qed.
Lemma utoa_ne : forall n, utoa n <> [].
Proof.
  intros. unfold utoa. simpl. destruct (n <? 10); [discriminate|]. apply digits_fuel_ne. discriminate.
Qed.
Lemma itoa_ne : forall n, itoa n <> [].
Proof. intros. unfold itoa. destruct (n <? 0); [discriminate|]. apply utoa_ne. Qed.
Lemma pad_left_ne : forall c w s, s <> [] -> pad_left c w s <> [].
Proof. intros. unfold pad_left. apply app_ne_r. auto. Qed.
Lemma place_point_ne : forall p n, place_point p n <> [].
Proof.
  intros. unfold place_point. destruct (p <=? 0).
  - apply pad_left_ne, utoa_ne.
  - apply app_ne_r. discriminate.
Qed.
Lemma nan_text_ne : forall x, nan_text x <> [].
Proof. intros [s|[]| |s m e H]; discriminate. Qed.
Lemma format_f_ne : forall p x, format_f p x <> [].
Proof.
  intros. unfold format_f. destruct (f_is_finite x); [|apply nan_text_ne].
  destruct (f_ratio x) as [[s n] d]. destruct s; [discriminate|]. apply place_point_ne.
Qed.
Lemma e_text_ne : forall v d e, d <> [] -> e_text v d e <> [].
Proof. intros v [|c [|c2 r]] e H; [congruence|discriminate|discriminate]. Qed.
Lemma format_e_ne : forall v p x, 0 <= p -> format_e v p x <> [].
Proof.
  intros. unfold format_e. destruct (f_is_finite x); [|apply nan_text_ne].
  destruct (f_ratio x) as [[s n] d]. destruct s; [discriminate|].
  destruct (n =? 0).
  - apply e_text_ne. unfold zeros. destruct (Z.to_nat (p + 1)) eqn:E; [lia|discriminate].
  - destruct (sig_digits (p + 1) n d). apply e_text_ne, utoa_ne.
Qed.
Lemma fixed_text_ne : forall q k, fixed_text q k <> [].
Proof.
  intros. unfold fixed_text. destruct (0 <=? _); [apply app_ne_l, utoa_ne|apply place_point_ne].
Qed.
Lemma g_text_ne : forall e q k, g_text e q k <> [].
Proof.
  intros. unfold g_text. destruct (_ || _); [apply e_text_ne, utoa_ne|apply fixed_text_ne].
Qed.
Lemma format_g_shortest_ne : forall x, format_g_shortest x <> [].
Proof.
  intros. unfold format_g_shortest. destruct (f_is_finite x); [|apply nan_text_ne].
  destruct (f_ratio x) as [[s n] d]. destruct s; [discriminate|].
  destruct (n =? 0); [discriminate|]. destruct (shortest x). apply g_text_ne.
Qed.

Lemma time_string_ne : forall t, time_string t <> [].
Proof.
  intros t. unfold time_string, time_format.
  set (l := layout_chunks _ _).
  assert (E : exists a b, l = a ++ CTZ :: b).
  { unfold l. vm_compute. eexists [CLongYear; CLit 45; CZeroMonth; CLit 45; CZeroDay; CLit 32; CHour; CLit 58; CZeroMinute; CLit 58; CZeroSecond; _; CLit 32; CZone 0 2; CLit 32], []. reflexivity. }
  destruct E as (a & b & ->). rewrite flat_map_app. apply app_ne_r. discriminate.
Qed.

(** stored cell values print as something *)
Lemma printable_basic : forall v, match v with
  | GNil | GBool _ | GInt _ _ | GF64 _ | GTime _ => True
  | GStr s => s <> []
  | _ => False end -> printable v.
Proof.
  intros [|b|k z|x|x|s|s|u|r|t|ct|s|s] H; try contradiction; unfold printable; cbn [sprint]; auto.
  - discriminate.
  - destruct b; discriminate.
  - apply itoa_ne.
  - apply format_g_shortest_ne.
  - apply time_string_ne.
Qed.

Definition fmt_ok (fs : sfmt) : bool :=
  match fm_prec fs with
  | Some p => (0 <=? p) && negb (match fm_verb fs with VD => true | _ => false end)
  | None => true
  end.

Lemma sprintf_int_ne : forall fs k z, fmt_ok fs = true -> sprintf_int fs k z <> [].
Proof.
  intros [w p v pc] k z H. unfold sprintf_int, fmt_ok in *. cbn [fm_prec fm_verb fm_wid fm_pct] in *.
  apply app_ne_l. destruct v; [|discriminate|discriminate].
  destruct p as [p|]; [rewrite andb_false_r in H; discriminate|].
  unfold int_text. apply pad_left_ne, itoa_ne.
Qed.
Lemma sprintf_float_ne : forall fs x, fmt_ok fs = true -> sprintf_float fs x <> [].
Proof.
  intros [w p v pc] x H. unfold sprintf_float, fmt_ok in *. cbn [fm_prec fm_verb fm_wid fm_pct] in *.
  apply app_ne_l. destruct v; [discriminate|apply pad_left_ne, format_f_ne|].
  apply pad_left_ne, format_e_ne. destruct p; [|lia]. apply andb_true_iff in H as [H _]. lia.
Qed.
Lemma sprintf_text_ne : forall fs mul v, fmt_ok fs = true -> printable v -> sprintf_text fs mul v <> [].
Proof.
  intros fs mul v H Hv. unfold sprintf_text.
  destruct v as [|b|k z|x|x|s|s|u|r|t|ct|s|s]; auto.
  - destruct k; auto; apply sprintf_int_ne; auto.
  - destruct (wants_int fs); [apply sprintf_int_ne|apply sprintf_float_ne]; auto.
Qed.

Lemma commas_loop_len : forall f e s, (List.length s <= List.length (commas_loop f e s))%nat.
Proof.
  induction f; intros; simpl; auto. destruct (3 <? e); auto.
  eapply Nat.le_trans; [|apply IHf]. rewrite app_length. simpl. unfold ztake, zdrop.
  rewrite <- (firstn_skipn (Z.to_nat (e - 3)) s) at 1. rewrite app_length. lia.
Qed.
Lemma add_commas_ne : forall s, s <> [] -> exists t, add_commas s = Ok t /\ t <> [].
Proof.
  intros [|c r] H; [congruence|]. unfold add_commas. cbv zeta.
  destruct (c =? 45); eexists; split; try reflexivity; [discriminate|].
  intro E. match type of E with commas_loop ?f ?e ?s = [] => pose proof (commas_loop_len f e s) as L end.
  rewrite E in L. simpl in L. lia.
Qed.

(** formatting functions that yield a non-empty text *)
Fixpoint ff_num (f : ffun) : bool :=
  match f with
  | FSprintf fs _ => fmt_ok fs
  | FCommas g => ff_num g
  | _ => false
  end.
Fixpoint ff_safe (f : ffun) : bool :=
  match f with
  | FStatic _ | FIdent | FSprintf _ _ | FTime _ | FCnTime _ => true
  | FSurround _ g _ => ff_safe g
  | FNegParens g | FCommas g => ff_num g
  | FZeroDash g => ff_safe g
  | FFrac n => (0 <=? n) && (n <=? 15)
  | FSwitch a b c d => ff_safe a && ff_safe b && ff_safe c && ff_safe d
  end.

Lemma ff_num_ok : forall m f v, ff_num f = true -> printable v -> exists s, ff_eval m f v = Ok s /\ s <> [].
Proof.
  induction f; intros v H Hv; simpl in H; try discriminate.
  - destruct (IHf v H Hv) as (s & E & N). simpl. rewrite E. cbn [bind]. apply add_commas_ne; auto.
  - simpl. eexists. split; [reflexivity|]. apply sprintf_text_ne; auto.
Qed.

Lemma ff_safe_ok : forall m f v, ff_safe f = true -> printable v -> exists s, ff_eval m f v = Ok s.
Proof.
  induction f; intros v H Hv; cbn [ff_safe] in H; cbn [ff_eval]; eauto.
  - destruct (IHf v H Hv) as [s E]. rewrite E. simpl. eauto.
  - destruct (ff_num_ok m f v H Hv) as (s & E & N). rewrite E. simpl.
    destruct s as [|c r]; [congruence|]. unfold neg_parens.
    destruct c as [|[[p|p|]|p|]|]; try (eexists; reflexivity).
    repeat match goal with |- context [match ?p with _ => _ end] => destruct p end; eexists; reflexivity.
  - destruct (ff_num_ok m f v H Hv) as (s & E & N). rewrite E. simpl.
    destruct (add_commas_ne s N) as (t & Et & _). eauto.
  - destruct (to_f64 v) as [y|]; eauto. destruct (feq y f_zero); eauto.
  - unfold frac_text. destruct (to_f64 v) as [x|]; eauto.
    destruct (whole_fraction_total frac_fuel x n n) as [[[w a] b] E]; try lia.
    { unfold frac_fuel. apply Nat.leb_le. vm_compute. reflexivity. }
    rewrite E. cbn [bind]. destruct (a =? 0); eauto. destruct (w =? 0); eauto.
  - apply andb_true_iff in H as [H H4]. apply andb_true_iff in H as [H H3]. apply andb_true_iff in H as [H1 H2].
    destruct (to_f64 v) as [y|]; eauto. destruct (feq y f_zero); eauto. destruct (flt y f_zero); eauto.
Qed.

Lemma last_index_ge : forall p q l i best, (forall c, q c = true -> p c = true) -> -1 <= best -> best <= i ->
  0 <= i -> index_from q i l <= last_index_from p i best l /\ -1 <= last_index_from p i best l.
Proof.
  intros p q. induction l as [|c r IH]; intros i best Hpq Hb Hi H0; simpl; [lia|].
  assert (MON : forall l i b b', b <= b' -> last_index_from p i b l <= last_index_from p i b' l).
  { induction l as [|c' r' IH']; intros; simpl; auto. apply IH'. destruct (p c'); lia. }
  destruct (q c) eqn:Q.
  - rewrite (Hpq c Q). split.
    + assert (G : forall l j b, b <= j -> b <= last_index_from p j b l).
      { induction l as [|c' r' IH']; intros; simpl; [lia|].
        destruct (p c'); [|apply IH'; lia]. eapply Z.le_trans; [|apply IH']; lia. }
      apply G. lia.
    + specialize (IH (i + 1) i Hpq). lia.
  - destruct (p c); apply IH; auto; lia.
Qed.
Lemma dot_prec : forall s, 0 <= last_index_any (bs "0.") s - index_byte 46 s.
Proof.
  intros. unfold last_index_any, index_byte, index_where.
  destruct (last_index_ge (fun c => existsb (Z.eqb c) (bs "0.")) (Z.eqb 46) s 0 (-1)) as [A _]; try lia.
  - intros c H. apply Z.eqb_eq in H. subst c. reflexivity.
Qed.

Lemma make_section_safe : forall s, ff_safe (fst (make_section s)) = true.
Proof.
  intros s. unfold make_section. cbv zeta.
  destruct (contains_any (bs "ymdhs") _); auto.
  destruct (contains_any (bs ".Ee") (rm_brackets s)) eqn:CE; cbn [fst snd].
  - destruct (sur_split _) as [pre [post|]].
    + assert (G : forall v w mul, ff_safe (if containsb (bs ",") (rm_exp (rm_brackets s))
        then FCommas (FSprintf (mkFmt w (Some (last_index_any (bs "0.") (remove_byte 44 (rm_exp (rm_brackets s))) -
                 index_byte 46 (remove_byte 44 (rm_exp (rm_brackets s))))) (if v : bool then VE else VF) false) mul)
        else FSprintf (mkFmt w (Some (last_index_any (bs "0.") (remove_byte 44 (rm_exp (rm_brackets s))) -
                 index_byte 46 (remove_byte 44 (rm_exp (rm_brackets s))))) (if v then VE else VF) false) mul) = true).
      { intros. destruct (containsb _ _); auto. cbn [ff_safe ff_num]. unfold fmt_ok. cbn [fm_prec fm_verb].
        pose proof (dot_prec (remove_byte 44 (rm_exp (rm_brackets s)))).
        apply andb_true_iff. split; [apply Z.leb_le; auto|]. destruct v; reflexivity. }
      destruct (_ || _); cbn [fst ff_safe]; apply G.
    + destruct (str_eqb _ _); auto.
  - destruct (sur_split _) as [pre [post|]].
    + destruct (_ || _); cbn [fst ff_safe]; destruct (containsb (bs ",") _); auto.
    + destruct (str_eqb _ _); auto.
Qed.

Lemma make_formatter_safe : forall s, ff_safe (fst (make_formatter s)) = true.
Proof.
  intros s. unfold make_formatter. cbv zeta. destruct (containsb _ _); [|apply make_section_safe].
  destruct (split_byte 59 (rm_brackets s)) as [|p rest]; [apply make_section_safe|].
  pose proof (make_section_safe p) as Hp. destruct (make_section p) as [pos ct]. cbn [fst] in *.
  unfold switch_fmt. cbn [ff_safe].
  assert (G : forall i d, ff_safe d = true -> ff_safe (nth i (map (fun q => fst (make_section q)) rest) d) = true).
  { intros i d Hd. destruct (nth_in_or_default i (map (fun q => fst (make_section q)) rest) d) as [H|H].
    - apply in_map_iff in H as (q & E & _). rewrite <- E. apply make_section_safe.
    - rewrite H. auto. }
  rewrite Hp, !G; auto.
Qed.

Lemma go_formatters_safe : forall id ff, zfind id go_formatters = Some ff -> ff_safe ff = true.
Proof.
  intros id ff H. apply zfind_In in H.
  assert (A : forallb (fun p => ff_safe (snd p)) go_formatters = true) by (vm_compute; reflexivity).
  rewrite forallb_forall in A. apply (A (id, ff)); auto.
Qed.

Lemma zfind_zput : forall A (m : list (Z * A)) k v k', zfind k' (zput k v m) = if k' =? k then Some v else zfind k' m.
Proof. reflexivity. Qed.

Lemma fx_codes_safe : forall x, reach_fx x -> forall id ff, zfind id (fx_codes x) = Some ff -> ff_safe ff = true.
Proof.
  induction 1; intros i ff E.
  - discriminate.
  - simpl in E. eauto.
  - unfold fx_add in E. destruct (str_eqb _ _).
    + cbn [fst fx_codes] in E. rewrite zfind_zput in E. destruct (i =? id); [injection E as <-; reflexivity|eauto].
    + destruct (zfind id go_formatters); [cbn [fst] in E; eauto|].
      destruct (zfind id (fx_codes x)); [cbn [fst] in E; eauto|].
      pose proof (make_formatter_safe code) as M. destruct (make_formatter code) as [f ct].
      cbn [fst fx_codes] in *. rewrite zfind_zput in E. destruct (i =? id); [injection E as <-; auto|eauto].
Qed.

Lemma fx_apply_safe : forall x id v, reach_fx x -> snd (fx_get x id) = true -> printable v ->
  exists s, fx_apply x id v = Ok (s, true).
Proof.
  intros x id v Hx Hk Hv. unfold fx_apply, fx_get in *.
  destruct (zfind id go_formatters) as [ff|] eqn:E.
  - destruct (ff_safe_ok (fx_1904 x) ff v (go_formatters_safe _ _ E) Hv) as [s Es]. rewrite Es. simpl. eauto.
  - destruct (zfind id (fx_codes x)) as [ff|] eqn:E2; [|discriminate].
    destruct (ff_safe_ok (fx_1904 x) ff v (fx_codes_safe x Hx _ _ E2) Hv) as [s Es]. rewrite Es. simpl. eauto.
Qed.

(** the values stored by Put are printable *)
Lemma utf8_enc_ne : forall r, utf8_enc r <> [].
Proof. intros. unfold utf8_enc. repeat (destruct (_ <? _); try discriminate). Qed.
Lemma string_of_runes_ne : forall r, r <> [] -> string_of_runes r <> [].
Proof. intros [|a r] H; [congruence|]. simpl. apply app_ne_l, utf8_enc_ne. Qed.
Lemma utf16_string_ne : forall u, u <> [] -> utf16_string u <> [].
Proof.
  intros [|a r] H; [congruence|]. unfold utf16_string. apply string_of_runes_ne. simpl.
  destruct (_ && _); [|destruct (_ && _); discriminate].
  destruct r as [|b r]; [discriminate|]. destruct (_ && _); discriminate.
Qed.

Lemma holds_printable : forall v v0 t0, holds v v0 t0 -> printable v0.
Proof.
  intros v v0 t0 H. apply printable_basic. destruct H; auto.
  - apply utf16_string_ne; auto.
  - apply string_of_runes_ne; auto.
  - destruct t; discriminate.
Qed.
Lemma coerced_printable : forall m t v v' t', printable v -> coerced m t v v' t' -> printable v'.
Proof.
  intros m t v v' t' Hv H. destruct H; auto; try (apply printable_basic; exact I).
  - apply printable_basic. destruct b; discriminate.
Qed.

Lemma put_cell_string_ok : forall x v f c, reach_fx x -> snd (fx_get x f) = true -> put_cell_spec x v f c ->
  exists s, cell_string x c = Ok s.
Proof.
  intros x v f c Hx Hk [[Hm ->]|(Hn & v0 & t0 & v' & t' & Hh & -> & Hc)].
  - unfold cell_string. simpl. destruct Hm as [->|[->|[->| ->]]]; eauto.
  - assert (PV : printable v').
    { pose proof (holds_printable _ _ _ Hh) as P0.
      destruct (if f =? 0 then None else fx_cell_type x f) as [ct|].
      - destruct (ctype_eqb t0 ct).
        + destruct Hc as [-> _]. auto.
        + eapply coerced_printable; eauto.
      - destruct Hc as [-> _]. auto. }
    assert (FN : exists n, format_no ([v'; GCType t'] ++ (if f =? 0 then [] else [GInt KUint16 f])) = Ok n /\ n = f).
    { destruct (Z.eqb_spec f 0); simpl; eexists; split; try reflexivity. auto. }
    assert (CT : cell_type ([v'; GCType t'] ++ (if f =? 0 then [] else [GInt KUint16 f])) = Ok t').
    { destruct (f =? 0); reflexivity. }
    assert (NS : t' <> StaticCell).
    { destruct (if f =? 0 then None else fx_cell_type x f) as [ct|].
      - destruct (ctype_eqb t0 ct).
        + destruct Hc as [_ ->]. destruct Hh; discriminate.
        + destruct Hc; discriminate.
      - destruct Hc as [_ ->]. destruct Hh; discriminate. }
    destruct FN as (n & FN & En). rewrite En in FN.
    destruct (fx_apply_safe x f v' Hx Hk PV) as [s Es].
    unfold cell_string. rewrite CT. cbn [bind].
    destruct t'; try congruence; eauto; rewrite FN; cbn [bind app cell_value]; rewrite Es; cbn [bind]; eauto.
Qed.
