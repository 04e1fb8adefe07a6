(** * P_times: property C79 for the built-in formats that P_display leaves out: Chinese times (32 to
    35, 55, 56), tenths of seconds (47, 80) and the Buddhist year (81). *)
From Verif Require Import GoBase GoFloat GoUnicode GoTime L_base L_float M_value M_dates M_fmt M_formats M_cell M_sheet
  S_cell S_sheet S_formats S_dates S_display L_calendar L_dates P_dates L_cell L_sheet L_formats P_formats P_display.
From Coq Require Import Reals Lra Lia ZifyBool ZifyNat.
From Flocq Require Import Core IEEE754.BinarySingleNaN.
Local Open Scope Z_scope.
Local Opaque convert_to_date.

(** ** Chinese times, 24 hours *)
Lemma time_shown : forall x id lay val, serial val -> zfind id go_formatters = Some (FTime lay) -> fx_cell_type x id = Some DateCell -> (id =? 0) = false ->
  let t := convert_to_date (fx_1904 x) val in shown x id val (moment_at t) (time_format lay t) /\ 1900 <= t_year t.
Proof.
  intros x id lay val [F HR] Z1 T1 N0 t. destruct (serial_moment (fx_1904 x) val F HR) as [HM HY]. split; [|exact HY].
  destruct (date_cell x id lay val Z1 T1 N0) as (c & A & B & C). exists c. auto.
Qed.
Ltac no_hour := cbv; intros Q; repeat (destruct Q as [Q|Q]; [discriminate|]); exact Q.
(** Formats 32 and 33 show the quotes around the words and two digits of the hour. *)
Theorem C79_time_words_refuted : forall x id code val, reach_fx x -> In (id, code) (hour_words DHour []) -> serial val ->
  exists p t, shown x id val p t /\
    (exists code2, In (id, code2) (hour_words DHour2 [34]) /\ code_shows p code2 t) /\ ~ code_shows p code t.
Proof.
  intros x id code val _ Hin HS. set (t := convert_to_date (fx_1904 x) val).
  assert (K : exists lay code2, zfind id go_formatters = Some (FTime lay) /\ fx_cell_type x id = Some DateCell /\ (id =? 0) = false /\
    In (id, code2) (hour_words DHour2 [34]) /\ layout_chunks (List.length lay) lay = flat_map tok_chunks code2 /\ ~ In DHour code2 /\
    forall p s, code_shows p code2 s -> 0 <= mo_hour p < 24 -> ~ code_shows p code s).
  { cbv [hour_words In] in Hin.
    repeat (destruct Hin as [Hin|Hin]; [injection Hin as <- <-; do 2 eexists; split; [reflexivity|]; split; [reflexivity|]; split; [reflexivity|];
      split; [cbv [hour_words In]; in_list|]; split; [vm_compute; reflexivity|]; split; [no_hour|];
      intros p s (l1 & B & E1) HB (l2 & C & E2);
      repeat match goal with H : Forall2 _ (_ :: _) _ |- _ => inversion H; subst; clear H end;
      repeat match goal with H : Forall2 _ [] _ |- _ => inversion H; subst; clear H end;
      cbn [concat] in E2; cbn [tok_shows] in *; subst;
      match goal with H : nat_numeral (mo_hour p) ?u |- _ => assert (zlen u <= 2) end;
      [match goal with H : nat_numeral (mo_hour p) ?u |- _ => destruct H as (U1 & U2 & U3 & U4) end;
       destruct (nat_numeral_len _ U1 U2 U4) as [Q|Q];
         [rewrite Q; unfold zlen; cbn; lia|rewrite U3 in Q;
          match goal with |- zlen ?u <= 2 => destruct (Z_le_dec (zlen u) 2); [assumption|]; exfalso;
            assert (10 ^ 2 <= 10 ^ (zlen u - 1)) by (apply Z.pow_le_mono_r; lia); change (10 ^ 2) with 100 in *; lia end]
      |apply (f_equal (@zlen Z)) in E2; rewrite !zlen_app in E2; unfold two_digits, zlen in *; cbn in E2; lia]|]).
    destruct Hin. }
  destruct K as (lay & code2 & Z1 & T1 & N0 & I2 & L2 & NH & ND). destruct (time_shown x id lay val HS Z1 T1 N0) as [A HY].
  assert (CS : code_shows (moment_at t) code2 (time_format lay t)) by (apply layout_shows; auto).
  do 2 eexists. split; [exact A|]. split; [eauto|]. apply ND; [exact CS|]. destruct (hour_at (convert_to_date (fx_1904 x) val)) as [E H]. rewrite <- E. exact H.
Qed.

(** ** Chinese times, 12 hours *)
Lemma replace1_absent : forall c k r u, ~ In c u -> replace1 (c :: k) r u = u.
Proof.
  intros c k r u. induction u as [|x u IH]; intros N; [reflexivity|]. cbn [In] in N. cbn [replace1 prefixb]. destruct (Z.eqb_spec c x) as [->|_]; [tauto|]. cbn [andb]. rewrite IH by tauto. reflexivity.
Qed.
Definition plain_tok (k : dtok) : Prop := match k with DHour12 | DMin2 | DSec2 => True | DTxt u => ~ In 65 u /\ ~ In 80 u | _ => False end.
Lemma two_plain : forall n c, 0 <= n < 100 -> In c (two_digits n) -> 48 <= c <= 57.
Proof. intros n c H I. unfold two_digits in I. cbn [In] in I. assert (0 <= n / 10 <= 9) by lia. assert (0 <= n mod 10 < 10) by lia. lia. Qed.
Lemma plain_text : forall t code s, Forall plain_tok code -> code_shows (moment_at t) code s -> ~ In 65 s /\ ~ In 80 s.
Proof.
  intros t code s F (l & S & ->). destruct (hour_at t) as [EH RH], (min_at t) as [EM RM], (sec_at t) as [ES RS].
  assert (G : forall c, In c (concat l) -> c <> 65 /\ c <> 80).
  { induction S as [|k u code l K S IH]; cbn [concat]; intros c I; [destruct I|]. inversion F as [|? ? P F']; subst. apply in_app_or in I. destruct I as [I|I]; [|auto].
    destruct k; cbn [plain_tok tok_shows] in *; try tauto.
    - destruct K as (_ & D & _). rewrite Forall_forall in D. specialize (D c I). unfold is_dig in D. lia.
    - subst u. rewrite <- EM in I. apply two_plain in I; lia.
    - subst u. rewrite <- ES in I. apply two_plain in I; lia.
    - subst u. destruct P as [P1 P2]. split; intros ->; auto. }
  split; intros I; specialize (G _ I); lia.
Qed.
(** Formats 34, 35, 55 and 56 show the half of the day in Chinese and the hour on a 12-hour clock, as
    their codes say, but with the quotes around the words. *)
Theorem C79_noon_words_refuted : forall x id code val, reach_fx x -> In (id, code) (noon_words []) -> serial val ->
  exists p s code2, shown x id val p (half_day p ++ s) /\ In (id, code2) (noon_words [34]) /\ code_shows p code2 s /\ ~ code_shows p code s.
Proof.
  intros x id code val _ Hin HS. set (t := convert_to_date (fx_1904 x) val). destruct HS as [F HR]. destruct (serial_moment (fx_1904 x) val F HR) as [HM HY].
  assert (K : exists lay code2, zfind id go_formatters = Some (FCnTime lay) /\ fx_cell_type x id = Some DateCell /\ (id =? 0) = false /\
    In (id, code2) (noon_words [34]) /\ layout_chunks (List.length lay) lay = CPM :: flat_map tok_chunks code2 /\ ~ In DHour code2 /\ Forall plain_tok code2 /\
    forall p s, code_shows p code2 s -> ~ code_shows p code s).
  { cbv [noon_words In app] in Hin.
    repeat (destruct Hin as [Hin|Hin]; [injection Hin as <- <-; do 2 eexists; split; [reflexivity|]; split; [reflexivity|]; split; [reflexivity|];
      split; [cbv [noon_words In app]; in_list|]; split; [vm_compute; reflexivity|]; split; [no_hour|];
      split; [repeat (apply Forall_cons; [first [exact I|split; intros Q; cbv in Q; repeat (destruct Q as [Q|Q]; [discriminate|]); exact Q]|]); apply Forall_nil|];
      intros p s (l1 & B & E1) (l2 & C & E2);
      repeat match goal with H : Forall2 _ (_ :: _) _ |- _ => inversion H; subst; clear H end;
      repeat match goal with H : Forall2 _ [] _ |- _ => inversion H; subst; clear H end;
      repeat match goal with H1 : tok_shows ?p ?k ?a, H2 : tok_shows ?p ?k ?b |- _ => assert (a = b) by (eapply tok_len; eauto); subst; clear H2 end;
      cbn [concat] in E2; apply (f_equal (@zlen Z)) in E2; rewrite !zlen_app in E2; cbn [tok_shows D] in *; subst;
      unfold zlen in E2; cbn in E2; lia|]).
    destruct Hin. }
  destruct K as (lay & code2 & Z1 & T1 & N0 & I2 & L2 & NH & PL & ND).
  set (s := flat_map (render_chunk t) (flat_map tok_chunks code2)).
  assert (CS : code_shows (moment_at t) code2 s).
  { exists (map (fun k => flat_map (render_chunk t) (tok_chunks k)) code2). split.
    - clear - HY NH. assert (HY' : 1900 <= t_year t) by exact HY. clear HY. induction code2 as [|k toks IH]; cbn [map]; constructor.
      + apply tok_render; auto. intros ->. apply NH. left. auto.
      + apply IH. intros I. apply NH. right. auto.
    - unfold s. clear. induction code2 as [|k toks IH]; cbn [map flat_map concat]; auto. rewrite flat_map_app, IH. auto. }
  assert (TF : time_format lay t = (if 12 <=? t_hour t then bs "PM" else bs "AM") ++ s) by (unfold time_format; rewrite L2; reflexivity).
  destruct (plain_text t code2 s PL CS) as [NA NP].
  assert (CN : replace1 (bs "PM") (bs "下午") (replace1 (bs "AM") (bs "上午") (time_format lay t)) = half_day (moment_at t) ++ s).
  { rewrite TF. unfold half_day. destruct (hour_at t) as [<- RH]. destruct (Z.leb_spec 12 (t_hour t)), (Z.ltb_spec (t_hour t) 12); try lia.
    - change (bs "PM" ++ s) with (80 :: 77 :: s). change (bs "AM") with [65; 77]. rewrite replace1_absent by (cbn [In]; intuition lia). reflexivity.
    - change (replace1 (bs "AM") (bs "上午") (bs "AM" ++ s)) with (bs "上午" ++ s). change (bs "PM") with [80; 77]. apply replace1_absent. intros I. apply in_app_or in I. destruct I as [I|I]; [|auto]. cbv in I. intuition lia. }
  exists (moment_at t), s, code2. split; [|split; [exact I2|split; [exact CS|exact (ND _ _ CS)]]].
  exists [GTime t; GCType DateCell; GInt KUint16 id]. rewrite <- CN. split; [|split; [|split; [exact HM|]]].
  - unfold make_put_cell. rewrite T1, N0. unfold new_cell_with_type. simpl. unfold set_format_number. simpl. rewrite ?N0. reflexivity.
  - unfold cell_string. simpl. unfold fx_apply. rewrite Z1. reflexivity.
  - unfold fx_apply. rewrite Z1. reflexivity.
Qed.

(** ** tenths of seconds *)
Lemma pad9_first : forall n, 0 <= n < 1000000000 -> firstn 1 (pad_int 9 n) = [48 + n / 100000000].
Proof.
  intros n H. unfold pad_int. destruct (Z.ltb_spec n 0); [lia|]. rewrite Z.abs_eq by lia. cbn [app].
  destruct (utoa_numeral n ltac:(lia)) as (U1 & U2 & U3 & U4).
  assert (L9 : zlen (utoa n) <= 9).
  { destruct (nat_numeral_len _ U1 U2 U4) as [Q|Q]; [rewrite Q; unfold zlen; cbn; lia|]. rewrite U3 in Q.
    destruct (Z_le_dec (zlen (utoa n)) 9); auto. exfalso. assert (10 ^ 9 <= 10 ^ (zlen (utoa n) - 1)) by (apply Z.pow_le_mono_r; lia). change (10 ^ 9) with 1000000000 in *. lia. }
  set (l := repeat 48 (Z.to_nat (9 - zlen (utoa n))) ++ utoa n).
  assert (D : Forall is_dig l) by (apply Forall_app; split; [apply Forall_forall; intros c I; apply repeat_spec in I; subst; unfold is_dig; lia|exact U2]).
  assert (V : value l = n) by (unfold value, l; rewrite value_zeros; exact U3).
  assert (L : zlen l = 9). { unfold l. rewrite zlen_app. unfold zlen at 1. rewrite repeat_length. lia. }
  destruct l as [|c r]; [discriminate|]. cbn [firstn]. rewrite zlen_cons in L. inversion D as [|? ? Dc Dr]; subst. unfold is_dig in Dc.
  assert (B : (c - 48) * 10 ^ zlen r <= value (c :: r) < (c - 48 + 1) * 10 ^ zlen r).
  { unfold value. cbn [value_from]. replace (0 * 10 + (c - 48)) with (c - 48) by lia. apply value_from_bound; [lia|exact Dr]. }
  replace (zlen r) with 8 in B by lia. change (10 ^ 8) with 100000000 in B. f_equal. rewrite <- (Z.div_unique (value (c :: r)) 100000000 (c - 48) (value (c :: r) - (c - 48) * 100000000)); lia.
Qed.
(** Formats 47 and 80 (mmss.0 and mm:ss.0) show the tenth of the second, cut off, but nothing at all
    when it is zero, where their codes ask for a point and a zero. *)
Theorem C79_tenths_refuted : forall x id sep val, reach_fx x -> In (id, sep) [(47, []); (80, [D ":"])] -> serial val ->
  exists p t u, shown x id val p t /\ code_shows p ([DMin2] ++ sep ++ [DSec2]) u /\ 0 <= mo_tenth p <= 9 /\
    t = u ++ (if mo_tenth p =? 0 then [] else [46; 48 + mo_tenth p]) /\
    (t = u ++ [46; 48 + mo_tenth p] <-> mo_tenth p <> 0).
Proof.
  intros x id sep val _ Hin HS. set (t := convert_to_date (fx_1904 x) val). set (code := [DMin2] ++ sep ++ [DSec2]).
  assert (K : exists lay, zfind id go_formatters = Some (FTime lay) /\ fx_cell_type x id = Some DateCell /\ (id =? 0) = false /\
    layout_chunks (List.length lay) lay = flat_map tok_chunks code ++ [CFrac true 1 46] /\ ~ In DHour code).
  { cbv [In] in Hin. unfold code. destruct Hin as [E|[E|[]]]; injection E as <- <-; eexists; split; try reflexivity; split; try reflexivity; split; try reflexivity; (split; [vm_compute; reflexivity|no_hour]). }
  destruct K as (lay & Z1 & T1 & N0 & L2 & NH). destruct (time_shown x id lay val HS Z1 T1 N0) as [A HY]. fold t in A, HY.
  set (u := flat_map (render_chunk t) (flat_map tok_chunks code)).
  assert (CS : code_shows (moment_at t) code u).
  { exists (map (fun k => flat_map (render_chunk t) (tok_chunks k)) code). split.
    - clearbody code t. clear - HY NH. induction code as [|k toks IH]; cbn [map]; constructor.
      + apply tok_render; auto. intros ->. apply NH. left. auto.
      + apply IH. intros I. apply NH. right. auto.
    - unfold u. clearbody code. clear. induction code as [|k toks IH]; cbn [map flat_map concat]; auto. rewrite flat_map_app, IH. auto. }
  assert (TN : mo_tenth (moment_at t) = t_nanos t / 100000000 /\ 0 <= mo_tenth (moment_at t) <= 9).
  { pose proof (t_ns_range t). unfold mo_tenth, t_nanos, ns_per_sec. cbn [moment_at mo_ns]. lia. }
  destruct TN as [TN TB].
  assert (TF : time_format lay t = u ++ (if mo_tenth (moment_at t) =? 0 then [] else [46; 48 + mo_tenth (moment_at t)])).
  { unfold time_format. rewrite L2, flat_map_app. fold u. f_equal. cbn [flat_map render_chunk]. rewrite app_nil_r. change (Z.to_nat 1) with 1%nat.
    rewrite pad9_first by (unfold t_nanos, ns_per_sec; apply Z.mod_pos_bound; lia). rewrite <- TN. set (d := mo_tenth (moment_at t)) in *. clearbody d.
    assert (d = 0 \/ d = 1 \/ d = 2 \/ d = 3 \/ d = 4 \/ d = 5 \/ d = 6 \/ d = 7 \/ d = 8 \/ d = 9) as Q by lia.
    repeat (destruct Q as [->|Q]; [reflexivity|]). rewrite Q. reflexivity. }
  exists (moment_at t), (time_format lay t), u. split; [exact A|]. split; [exact CS|]. split; [exact TB|]. split; [exact TF|]. rewrite TF.
  destruct (Z.eqb_spec (mo_tenth (moment_at t)) 0) as [E|E]; split; intros Q; auto; [|congruence].
  apply app_inv_head in Q. discriminate.
Qed.

(** ** the Buddhist year *)
(** Format 81 (d/m/bb) shows the year of the common era. *)
Theorem C79_buddhist_refuted : forall x val, reach_fx x -> serial val ->
  exists p t, shown x 81 val p t /\ code_shows p [DDay; D "/"; DMonth; D "/"; DYear2] t /\
    forall u, code_shows p [DDay; D "/"; DMonth; D "/"] u -> t <> u ++ buddhist2 p.
Proof.
  intros x val _ HS. destruct (time_shown x 81 (bs "2/1/06") val HS eq_refl eq_refl eq_refl) as [A HY]. set (t := convert_to_date (fx_1904 x) val) in *.
  assert (CS : code_shows (moment_at t) [DDay; D "/"; DMonth; D "/"; DYear2] (time_format (bs "2/1/06") t)) by (apply layout_shows; [exact HY|no_hour|vm_compute; reflexivity]).
  do 2 eexists. split; [exact A|]. split; [exact CS|]. intros u CU E. destruct CS as (l1 & S1 & E1). change [DDay; D "/"; DMonth; D "/"; DYear2] with ([DDay; D "/"; DMonth; D "/"] ++ [DYear2]) in S1.
  apply Forall2_app_inv_l in S1. destruct S1 as (a & b & S1 & S2 & ->). destruct CU as (l2 & S3 & ->). rewrite (code_len _ _ _ _ S3 S1) in E. rewrite E1, concat_app in E. apply app_inv_head in E.
  inversion S2 as [|? y ? l3 Y S4]; subst. inversion S4; subst. cbn [tok_shows concat] in *. subst y. unfold buddhist2, two_digits in E. cbn [app] in E.
  injection E as Q1 Q2. clear - Q1 Q2. set (y := mo_year (moment_at t)) in *. clearbody y. lia.
Qed.

(** ** examples *)
Local Transparent convert_to_date f_of_Z.
Example ex_C79_times : shows2 32 (GF64 (fh 88395)) (bs "12""时""00""分""") && shows2 34 (GF64 (fh 88395)) (bs "下午 12""时""00""分""") &&
  shows2 56 (GF64 (fh 88396)) (bs "上午 12""时""00""分""00""秒") && shows2 47 (GF64 (fh 88395)) (bs "0000") && shows2 81 (GF64 (fh 88396)) (bs "2/1/21") = true.
Proof. vm_compute. reflexivity. Qed.

Print Assumptions C79_time_words_refuted.
Print Assumptions C79_noon_words_refuted.
Print Assumptions C79_tenths_refuted.
Print Assumptions C79_buddhist_refuted.
