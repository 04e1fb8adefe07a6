(** * P_xrobust: C87 — XLSX sheets and styles of any content: exactly which tokens stop the
    reader; and the XLSX part of C86. *)
From Verif Require Import GoBase L_base GoPath GoFloat L_float GoUnicode GoTime M_grate M_value M_dates M_fmt M_formats M_cell M_sheet M_xls M_xlsx S_cell L_cell S_sheet L_sheet S_grid L_grid S_xls L_xls
  S_xlsx L_xlsxref L_xlsx L_xlsxpkg L_simple P_sheet P_xlsx S_xrobust.
From Coq Require Import Lia ZifyBool ZifyNat.
Local Opaque f_of_bits fdiv f_of_Z put set_value fx_add parse_float ref_to_indexes resize.

(** ** references *)
Lemma reversed_panics : forall r, reversed r <-> ref_to_indexes r = Panic.
Proof.
  intros r. rewrite C58_panics. unfold reversed, c_ref. split.
  - intros (a & dg & m & t & E & A & B & C & D & F). exists a, dg, m, t. unfold digit. repeat split; auto; lia.
  - intros (a & dg & m & t & E & (A & B & C & D) & F). exists a, dg, m, t. unfold digit in *. repeat split; auto; lia.
Qed.
Lemma ref_cases : forall r, (reversed r /\ ref_to_indexes r = Panic) \/ (~ reversed r /\ exists c k, ref_to_indexes r = Ok (c, k)).
Proof.
  intros r. rewrite reversed_panics. destruct (C58_total r) as [H|(c & k & H)]; [left; auto|right]. split; [congruence|eauto].
Qed.

(** ** sheets *)
Lemma idx_shape : forall A (l : list A) i, (exists x, idx l i = Ok x) \/ idx l i = Panic.
Proof. intros A l i. destruct (Z_lt_dec i 0); [right; apply idx_out; lia|]. destruct (Z_lt_dec i (zlen l)); [left; apply idx_in; lia|right; apply idx_out; lia]. Qed.
Lemma put_negative : forall s r c v f, reach_fx (sh_fx s) -> good_value v -> r < 0 \/ c < 0 -> put s r c v f = Panic.
Proof.
  intros s r c v f FX GV H. Local Transparent put. unfold put. set (s' := grow_for s r c). assert (E : sh_fx s' = sh_fx s) by (unfold s', grow_for; destruct (_ || _); reflexivity). rewrite E.
  destruct (make_put_cell_spec (sh_fx s) v f FX GV) as (cl & -> & _). cbn [bind]. unfold put_cell.
  destruct (Z_lt_dec r 0); [rewrite idx_out by lia; reflexivity|]. destruct (idx_shape _ (sh_rows s') r) as [(x & ->)| ->]; cbn [bind]; [|reflexivity]. rewrite set_idx_bad by lia. reflexivity.
Qed.
Local Opaque put.
Lemma put_good : forall s r c v f, reach_sheet s -> 0 <= r -> 0 <= c -> 0 <= f < 65536 -> good_value v -> exists s', put s r c v f = Ok s' /\ reach_sheet s' /\ sh_fx s' = sh_fx s /\ content s' r c <> [] /\ r < sh_nrows s' /\ c < sh_ncols s'.
Proof.
  intros s r c v f R Hr Hc Hf Hg. destruct (reach_sheet_inv s R) as (W & Fx & L). destruct (make_put_cell_spec (sh_fx s) v f Fx Hg) as (cl & Em & Hs).
  destruct (put_ok s r c v f cl W Hr Hc Em) as (s1 & P & W1 & N1 & N2 & F1 & Cu & Ct). exists s1. split; [exact P|]. split; [eapply rs_put; eauto; cbn; auto|]. split; [exact F1|]. split; [|lia].
  rewrite Ct, !Z.eqb_refl. destruct Hs as [[_ ->]|[_ (v0 & t0 & v' & t' & _ & -> & _)]]; discriminate.
Qed.
Definition neg_write (w : pwrite) : Prop := match w with (r, c, _, _) => r < 0 \/ c < 0 end.
Lemma put_all_cases : forall ws s, reach_sheet s -> Forall (fun w : pwrite => match w with (_, _, v, f) => 0 <= f < 65536 /\ good_value v end) ws ->
  (Exists neg_write ws /\ put_all s ws = Panic) \/ (~ Exists neg_write ws /\ exists s', put_all s ws = Ok s' /\ reach_sheet s' /\ sh_fx s' = sh_fx s).
Proof.
  induction ws as [|[[[r c] v] f] ws IH]; intros s R F.
  - right. split; [intros X; inversion X|]. exists s. auto.
  - inversion F as [|? ? H0 F2]; subst. cbn beta iota in H0. destruct H0 as [H1 H2]. cbn [put_all]. destruct (reach_sheet_inv s R) as (W & Fx & L).
    destruct (Z_lt_dec r 0) as [N|N]; [left; split; [left; cbn; auto|rewrite put_negative; auto]|]. destruct (Z_lt_dec c 0) as [N2|N2]; [left; split; [left; cbn; auto|rewrite put_negative; auto]|].
    destruct (put_good s r c v f R ltac:(lia) ltac:(lia) H1 H2) as (s1 & -> & R1 & F1 & _). cbn [bind]. destruct (IH s1 R1 F2) as [[E P]|[E (s2 & P & R2 & F3)]].
    + left. split; [right; exact E|exact P].
    + right. split; [intros X; inversion X; subst; [cbn in *; lia|contradiction]|]. exists s2. split; [exact P|]. split; [exact R2|congruence].
Qed.
Lemma in_upto : forall a b x, In x (upto a b) <-> a <= x <= b.
Proof.
  intros a b x. unfold upto. assert (G : forall n a, In x (count_from a n) <-> a <= x < a + Z.of_nat n).
  { induction n as [|n IH]; intros a0; cbn [count_from In]; [lia|]. rewrite IH. lia. }
  rewrite G. lia.
Qed.
Lemma mark_good : forall r0 c0 r1 c1, Forall (fun w : pwrite => match w with (_, _, v, f) => 0 <= f < 65536 /\ good_value v end) (merge_writes r0 c0 r1 c1).
Proof.
  intros. unfold merge_writes. apply Forall_flat_map, Forall_forall. intros r _. apply Forall_flat_map, Forall_forall. intros c _. unfold merge_mark_at.
  assert (G : forall t, 0 <= 0 < 65536 /\ good_value (GStr t)) by (intros; split; [lia|apply good_str]).
  destruct (_ && _); [constructor|]. destruct (c =? c0); [destruct (r =? r1)|destruct (c =? c1)]; repeat first [apply Forall_nil|apply Forall_cons|apply G].
Qed.
Lemma mark_neg : forall r0 c0 r1 c1, Exists neg_write (merge_writes r0 c0 r1 c1) <-> exists c r, c0 <= c <= c1 /\ r0 <= r <= r1 /\ (c, r) <> (c0, r0) /\ (c < 0 \/ r < 0).
Proof.
  intros. rewrite Exists_exists. unfold merge_writes. split.
  - intros (w & I & N). apply in_flat_map in I. destruct I as (r & Hr & I). apply in_flat_map in I. destruct I as (c & Hc & I). apply in_upto in Hr, Hc. exists c, r. split; [exact Hc|]. split; [exact Hr|].
    unfold merge_mark_at in I. destruct ((r =? r0) && (c =? c0)) eqn:E; [contradiction|]. split; [intros X; injection X as -> ->; lia|].
    destruct (c =? c0); [destruct (r =? r1)|destruct (c =? c1)]; destruct I as [<-|[]]; cbn in N; lia.
  - intros (c & r & Hc & Hr & NE & N). assert (E : (r =? r0) && (c =? c0) = false) by (destruct (Z.eqb_spec r r0), (Z.eqb_spec c c0); cbn; auto; subst; congruence).
    assert (exists w, In w (merge_mark_at r0 c0 r1 c1 r c) /\ neg_write w) as (w & I & NW).
    { unfold merge_mark_at. rewrite E. destruct (c =? c0); [destruct (r =? r1)|destruct (c =? c1)]; (eexists; split; [left; reflexivity|cbn; lia]). }
    exists w. split; [|exact NW]. apply in_flat_map. exists r. split; [apply in_upto; exact Hr|]. apply in_flat_map. exists c. split; [apply in_upto; exact Hc|exact I].
Qed.

(** ** the token loop *)
Definition matches (x : xctx) (st : xps) : Prop := xp_cell st = cx_ref x /\ xp_type st = cx_type x /\ xp_maxcol st = cx_col x /\ xp_maxrow st = cx_row x.
Definition inv (d : xdoc) (seen : bool) (st : xps) : Prop :=
  reach_sheet (xp_sheet st) /\ 0 <= xp_fno st < 65536 /\ (seen = false -> xp_sheet st = empty_sheet (xd_fmt d) /\ xp_cell st = []).
Definition next_seen (seen : bool) (t : xtok) : bool :=
  match t with XStart n _ => seen || existsb (str_eqb n) [bs "dimension"; bs "c"; bs "mergeCell"; bs "hyperlink"] | _ => seen end.

Lemma resize_any : forall x r c, reach_fx x -> reach_sheet (resize (empty_sheet x) r c).
Proof.
  intros x r c H. assert (E : resize (empty_sheet x) r c = resize (empty_sheet x) (Z.max 1 r) (Z.max 1 c)).
  { Local Transparent resize. unfold resize. cbn [empty_sheet sh_rows sh_fx widen_rows]. destruct (Z.leb_spec r 0); destruct (Z.leb_spec c 0); destruct (Z.leb_spec (Z.max 1 r) 0); destruct (Z.leb_spec (Z.max 1 c) 0); try lia; replace (Z.max 1 r) with (if r <=? 0 then 1 else r) by (destruct (Z.leb_spec r 0); lia); replace (Z.max 1 c) with (if c <=? 0 then 1 else c) by (destruct (Z.leb_spec c 0); lia); repeat match goal with |- context[?a <=? ?b] => destruct (Z.leb_spec a b); try lia end; reflexivity. }
  rewrite E. apply rs_resize; [apply rs_new; exact H| |]; cbn [empty_sheet sh_nrows sh_ncols]; lia.
Qed.
Local Opaque resize.
Lemma split_shape : forall sep l, exists a b, split_byte sep l = a :: b.
Proof. intros. destruct (split_byte sep l) as [|a b] eqn:E; [destruct (split_byte_nonempty sep l E)|eauto]. Qed.
Lemma str_case : forall a b, (a = b /\ str_eqb a b = true) \/ (a <> b /\ str_eqb a b = false).
Proof. intros a b. destruct (str_eqb a b) eqn:E; [left; split; auto; apply str_eqb_eq; auto|right; split; auto; intros ->; rewrite str_eqb_refl in E; discriminate]. Qed.

Lemma chars_step : forall d x st v seen, inv d seen st -> matches x st ->
  (fatal_text (zlen (xd_strings d)) x v /\ sheet_chars d st v = Panic) \/
  (~ fatal_text (zlen (xd_strings d)) x v /\ exists st', sheet_chars d st v = Ok st' /\ inv d seen st' /\ matches x st').
Proof.
  intros d x st v seen (R & F & B) (M1 & M2 & M3 & M4). unfold sheet_chars, fatal_text. rewrite M1 in *. destruct (cx_ref x) as [|b0 cell] eqn:EC.
  { right. split; [tauto|]. exists st. split; [reflexivity|]. split; [split; [exact R|]; split; [exact F|rewrite M1; auto]|repeat split; congruence]. }
  set (ref := b0 :: cell) in *. assert (NE : ref <> []) by discriminate. assert (SEEN : seen = true) by (destruct seen; auto; destruct (B eq_refl); discriminate). subst seen.
  destruct (ref_cases ref) as [[RV ->]|[NR (c & r & ER)]]; [left; split; [split; auto|reflexivity]|]. rewrite ER. cbn [bind]. rewrite M2.
  assert (SAME : forall s', reach_sheet s' -> inv d true (with_sheet st s') /\ matches x (with_sheet st s')).
  { intros s' R'. split; [split; [exact R'|]; split; [exact F|discriminate]|]. repeat split; cbn; congruence. }
  assert (POS : forall c' r', at_pos ref c' r' -> c' = c /\ r' = r) by (intros c' r' P; unfold at_pos in P; rewrite ER in P; injection P; auto).
  destruct ((0 <=? c) && (0 <=? r)) eqn:EP.
  2:{ right. split; [|exists st; split; [reflexivity|]; split; [split; [exact R|]; split; [exact F|discriminate]|repeat split; congruence]].
      intros (_ & [H|(c' & r' & P & H1 & H2 & _)]); [contradiction|]. destruct (POS _ _ P) as [-> ->]. lia. }
  assert (PUT : forall val, good_value val -> exists st', (s <- put (xp_sheet st) r c val (xp_fno st) ;; Ok (with_sheet st s)) = Ok st' /\ inv d true st' /\ matches x st').
  { intros val GV. destruct (put_good (xp_sheet st) r c val (xp_fno st) R ltac:(lia) ltac:(lia) F GV) as (s1 & -> & R1 & _). cbn [bind]. eexists. split; [reflexivity|]. apply SAME, R1. }
  unfold cell_text_value. destruct (str_case (cx_type x) (bs "b")) as [[TB ->]|[TB ->]].
  { destruct v as [|b v]; [left; split; [split; [auto|right; exists c, r; split; [exact ER|]; split; [lia|]; split; [lia|left; auto]]|reflexivity]|]. rewrite idx_0. cbn [bind].
    right. split; [|apply PUT, good_bool]. intros (_ & [H|(c' & r' & P & _ & _ & [[_ H]|[H _]])]); [contradiction|discriminate|]. rewrite TB in H. discriminate. }
  destruct (str_case (cx_type x) (bs "n")) as [[TN ->]|[TN ->]].
  { right. split; [intros (_ & [H|(c' & r' & P & _ & _ & [[H _]|[H _]])]); [contradiction|congruence|rewrite TN in H; discriminate]|].
    destruct (parse_float v) as [fl []]; cbn [bind]; apply PUT; try apply good_str; apply good_f64. }
  destruct (str_case (cx_type x) (bs "s")) as [[TS ->]|[TS ->]].
  { change (fst (parse_int 64 v)) with (number v). destruct (Z_lt_dec (number v) 0) as [H|H].
    { left. split; [split; [auto|right; exists c, r; split; [exact ER|]; split; [lia|]; split; [lia|right; split; [auto|lia]]]|]. rewrite idx_out by lia. reflexivity. }
    destruct (Z_lt_dec (number v) (zlen (xd_strings d))) as [H0|H0].
    2:{ left. split; [split; [auto|right; exists c, r; split; [exact ER|]; split; [lia|]; split; [lia|right; split; [auto|lia]]]|]. rewrite idx_out by lia. reflexivity. }
    right. split; [intros (_ & [H1|(c' & r' & P & _ & _ & [[H1 _]|[_ H1]])]); [contradiction|congruence|lia]|]. destruct (idx_in _ (xd_strings d) (number v) ltac:(lia)) as (t & ->). cbn [bind]. apply PUT, good_str. }
  right. split; [intros (_ & [H|(c' & r' & P & _ & _ & [[H _]|[H _]])]); [contradiction|congruence|congruence]|].
  destruct (str_eqb (cx_type x) []); [|apply PUT, good_str]. exists st. split; [reflexivity|]. split; [split; [exact R|]; split; [exact F|discriminate]|repeat split; congruence].
Qed.

Lemma a1_sound : ~ reversed (bs "A1").
Proof. rewrite reversed_panics. Local Transparent ref_to_indexes. vm_compute. discriminate. Qed.
Local Opaque ref_to_indexes.
Lemma range_one : forall ref, range_start ref = range_end ref \/ exists a b l, split_byte 58 ref = a :: b :: l.
Proof. intros ref. unfold range_start, range_end. destruct (split_byte 58 ref) as [|a [|b l]]; eauto. Qed.
Lemma dimension_step : forall d x st a, reach_fx (xd_fmt d) -> inv d false st -> matches x st ->
  (reversed (range_end (get_attr a (bs "ref"))) /\ sheet_dimension st a = Panic) \/
  (~ reversed (range_end (get_attr a (bs "ref"))) /\ exists st', sheet_dimension st a = Ok st' /\ inv d true st' /\ matches (remember x (XStart (bs "dimension") a)) st').
Proof.
  intros d x st a HX (R & F & B) (M1 & M2 & M3 & M4). destruct (B eq_refl) as [ES EC]. unfold sheet_dimension. cbn [remember]. change (str_eqb (bs "dimension") (bs "c")) with false. change (str_eqb (bs "dimension") (bs "dimension")) with true. cbn iota zeta.
  rewrite ES. set (ref := get_attr a (bs "ref")) in *. destruct (str_case ref (bs "A1")) as [[EA ->]|[EA ->]].
  { right. rewrite EA. split; [exact a1_sound|]. eexists. split; [reflexivity|]. split; [split; [apply resize_any; exact HX|split; [exact F|discriminate]]|repeat split; auto]. }
  assert (E : (if zlen (split_byte 58 ref) =? 1 then d0 <- idx (split_byte 58 ref) 0 ;; ref_to_indexes d0 else d1 <- idx (split_byte 58 ref) 1 ;; ref_to_indexes d1) = ref_to_indexes (range_end ref)).
  { unfold range_end. destruct (split_shape 58 ref) as (p & q & ->). destruct q as [|q l]; [reflexivity|]. rewrite !zlen_cons. pose proof (zlen_nonneg _ l). destruct (Z.eqb_spec (1 + (1 + zlen l)) 1); [lia|]. reflexivity. }
  rewrite E. unfold pos_of. destruct (ref_cases (range_end ref)) as [[RV ->]|[NR (c & r & ->)]]; [left; auto|right]. split; [exact NR|]. cbn [bind]. eexists. split; [reflexivity|]. split; [split; [apply resize_any; exact HX|split; [exact F|discriminate]]|repeat split; auto].
Qed.
Lemma c_step : forall d x st a seen, Forall w16 (xd_xfs d) -> inv d seen st -> matches x st ->
  (number (get_attr a (bs "s")) < 0 /\ sheet_c d st a = Panic) \/
  (~ number (get_attr a (bs "s")) < 0 /\ exists st', sheet_c d st a = Ok st' /\ inv d true st' /\ matches (remember x (XStart (bs "c") a)) st').
Proof.
  intros d x st a seen HW (R & F & B) (M1 & M2 & M3 & M4). unfold sheet_c, int_attr. change (fst (parse_int 64 (get_attr a (bs "s")))) with (number (get_attr a (bs "s"))). set (k := number _).
  pose proof (zlen_nonneg _ (xd_xfs d)). cbn [remember]. change (str_eqb (bs "c") (bs "c")) with true. cbn iota.
  assert (G : forall f, 0 <= f < 65536 -> inv d true (mkXps (if str_eqb (get_attr a (bs "t")) [] then bs "n" else get_attr a (bs "t")) (get_attr a (bs "r")) f (xp_maxcol st) (xp_maxrow st) (xp_sheet st)) /\
    matches (mkCtx (get_attr a (bs "r")) (match get_attr a (bs "t") with [] => bs "n" | ty => ty end) (cx_col x) (cx_row x)) (mkXps (if str_eqb (get_attr a (bs "t")) [] then bs "n" else get_attr a (bs "t")) (get_attr a (bs "r")) f (xp_maxcol st) (xp_maxrow st) (xp_sheet st))).
  { intros f Hf. split; [split; [exact R|split; [exact Hf|discriminate]]|]. unfold matches. cbn [xp_cell xp_type xp_maxcol xp_maxrow cx_ref cx_type cx_col cx_row]. repeat split; auto. destruct (get_attr a (bs "t")); reflexivity. }
  destruct (Z.ltb_spec k (zlen (xd_xfs d))).
  - destruct (Z_lt_dec k 0); [left; split; [auto|rewrite idx_out by lia; reflexivity]|right]. split; [lia|]. destruct (idx_in _ (xd_xfs d) k ltac:(lia)) as (f & E). rewrite E. cbn [bind]. eexists. split; [reflexivity|]. apply G.
    rewrite Forall_forall in HW. apply idx_inv in E. assert (I : In f (xd_xfs d)) by (eapply nth_error_In; apply E). apply HW in I. exact I.
  - right. split; [lia|]. cbn [bind]. eexists. split; [reflexivity|]. apply G. lia.
Qed.
Lemma merge_step : forall d x st a seen, inv d seen st -> matches x st ->
  (fatal_merge x (get_attr a (bs "ref")) /\ sheet_merge st a = Panic) \/
  (~ fatal_merge x (get_attr a (bs "ref")) /\ exists st', sheet_merge st a = Ok st' /\ inv d true st' /\ matches x st').
Proof.
  intros d x st a seen (R & F & B) (M1 & M2 & M3 & M4). unfold sheet_merge, fatal_merge. set (ref := get_attr a (bs "ref")).
  assert (E0 : idx (split_byte 58 ref) 0 = Ok (range_start ref)) by (unfold range_start; destruct (split_shape 58 ref) as (p & q & ->); reflexivity). rewrite E0. cbn [bind].
  destruct (ref_cases (range_start ref)) as [[RV ->]|[NR (c0 & r0 & ER)]]; [left; auto|]. rewrite ER. cbn [bind].
  assert (E : (if 1 <? zlen (split_byte 58 ref) then d1 <- idx (split_byte 58 ref) 1 ;; ref_to_indexes d1 else Ok (c0, r0)) = ref_to_indexes (range_end ref)).
  { revert ER. unfold range_start, range_end. destruct (split_shape 58 ref) as (p & q & ->). destruct q as [|q l]; [intros ->; reflexivity|]. rewrite !zlen_cons. pose proof (zlen_nonneg _ l). destruct (Z.ltb_spec 1 (1 + (1 + zlen l))); [|lia]. reflexivity. }
  rewrite E. destruct (ref_cases (range_end ref)) as [[RV ->]|[NR2 (c1 & r1 & ER1)]]; [left; auto|]. rewrite ER1. cbn [bind]. rewrite M3, M4.
  replace (if cx_row x <? r1 then cx_row x else r1) with (Z.min r1 (cx_row x)) by (destruct (Z.ltb_spec (cx_row x) r1); lia). replace (if cx_col x <? c1 then cx_col x else c1) with (Z.min c1 (cx_col x)) by (destruct (Z.ltb_spec (cx_col x) c1); lia).
  destruct (put_all_cases (merge_writes r0 c0 (Z.min r1 (cx_row x)) (Z.min c1 (cx_col x))) (xp_sheet st) R (mark_good _ _ _ _)) as [[N ->]|[N (s' & -> & R' & _)]]; rewrite mark_neg in N.
  - left. split; [|reflexivity]. right. right. destruct N as (c & r & N). exists c0, r0, c1, r1, c, r. split; [exact ER|]. split; [exact ER1|]. exact N.
  - right. split.
    + intros [H|[H|(c0' & r0' & c1' & r1' & c & r & P0 & P1 & H)]]; [contradiction|contradiction|]. unfold at_pos in *. rewrite ER in P0. rewrite ER1 in P1. injection P0 as <- <-. injection P1 as <- <-. apply N. exists c, r. exact H.
    + cbn [bind]. eexists. split; [reflexivity|]. split; [split; [exact R'|split; [exact F|discriminate]]|repeat split; auto].
Qed.
Lemma link_step : forall d links x st a seen, inv d seen st -> matches x st ->
  (fatal_link (get_attr a (bs "ref")) /\ sheet_link links st a = Panic) \/
  (~ fatal_link (get_attr a (bs "ref")) /\ exists st', sheet_link links st a = Ok st' /\ inv d true st' /\ matches x st').
Proof.
  intros d links x st a seen (R & F & B) (M1 & M2 & M3 & M4). unfold sheet_link, fatal_link. set (ref := get_attr a (bs "ref")). set (link := match sfind _ _ with Some l => l | None => [] end). clearbody link.
  destruct (ref_cases ref) as [[RV ->]|[NR (c & r & ER)]]; [left; auto|]. rewrite ER. cbn [bind]. destruct (reach_sheet_inv _ R) as (W & Fx & L).
  destruct (Z_lt_dec c 0) as [N|N]; [left; split; [right; exists c, r; split; [exact ER|auto]|rewrite put_negative; auto; apply good_str]|]. destruct (Z_lt_dec r 0) as [N2|N2]; [left; split; [right; exists c, r; split; [exact ER|auto]|rewrite put_negative; auto; apply good_str]|].
  right. split; [intros [H|(c' & r' & P & H)]; [contradiction|]; unfold at_pos in P; rewrite ER in P; injection P as <- <-; lia|].
  destruct (put_good (xp_sheet st) r c (GStr link) 0 R ltac:(lia) ltac:(lia) ltac:(lia) (good_str _)) as (s1 & -> & R1 & F1 & NE & N3 & N4). cbn [bind].
  assert (U : exists s2, set_url s1 r c link = Ok s2).
  { destruct (reach_sheet_inv _ R1) as (W1 & _ & L1). destruct (set_url_cases s1 r c link W1 L1) as [[_ E]|[(_ & _ & _ & _ & v0 & t0 & rest & s2 & _ & _ & E)|(_ & _ & H & _)]]; eauto. exfalso. destruct H as [H|[H|[H|H]]]; try lia. contradiction. }
  destruct U as (s2 & E2). rewrite E2. cbn [bind]. eexists. split; [reflexivity|]. split; [split; [eapply rs_url; eauto|split; [exact F|discriminate]]|repeat split; auto].
Qed.

Lemma step_cases : forall d links x st t seen, reach_fx (xd_fmt d) -> Forall w16 (xd_xfs d) -> inv d seen st -> matches x st -> (forall a, t = XStart (bs "dimension") a -> seen = false) ->
  (fatal (zlen (xd_strings d)) x t /\ sheet_tok d links st t = Panic) \/
  (~ fatal (zlen (xd_strings d)) x t /\ exists st', sheet_tok d links st t = Ok st' /\ inv d (next_seen seen t) st' /\ matches (remember x t) st').
Proof.
  intros d links x st t seen HX HW I M HD. destruct t as [n a|n|v|]; cbn [sheet_tok fatal next_seen].
  - destruct (str_case n (bs "dimension")) as [[-> E]|[ND ED]].
    { rewrite E. rewrite (HD a eq_refl) in *. change (existsb (str_eqb (bs "dimension")) [bs "dimension"; bs "c"; bs "mergeCell"; bs "hyperlink"]) with true.
      destruct (dimension_step d x st a HX I M) as [[H ->]|[H H1]]; [left; split; [tauto|reflexivity]|right]. split; [|exact H1]. intros [[X _]|[[_ X]|[[X _]|[X _]]]]; try discriminate; contradiction. }
    rewrite ED. destruct (str_case n (bs "c")) as [[-> E]|[NC EC]].
    { rewrite E. replace (seen || existsb (str_eqb (bs "c")) [bs "dimension"; bs "c"; bs "mergeCell"; bs "hyperlink"]) with true by (destruct seen; reflexivity).
      destruct (c_step d x st a seen HW I M) as [[H ->]|[H H1]]; [left; split; [tauto|reflexivity]|right]. split; [|exact H1]. intros [[_ X]|[[X _]|[[X _]|[X _]]]]; try discriminate; contradiction. }
    rewrite EC. cbn [remember]. rewrite EC, ED. destruct (str_case n (bs "mergeCell")) as [[-> E]|[NM EM]].
    { rewrite E. replace (seen || existsb (str_eqb (bs "mergeCell")) [bs "dimension"; bs "c"; bs "mergeCell"; bs "hyperlink"]) with true by (destruct seen; reflexivity).
      destruct (merge_step d x st a seen I M) as [[H ->]|[H H1]]; [left; split; [tauto|reflexivity]|right]. split; [|exact H1]. intros [[X _]|[[X _]|[[_ X]|[X _]]]]; try discriminate; contradiction. }
    rewrite EM. destruct (str_case n (bs "hyperlink")) as [[-> E]|[NH EH]].
    { rewrite E. replace (seen || existsb (str_eqb (bs "hyperlink")) [bs "dimension"; bs "c"; bs "mergeCell"; bs "hyperlink"]) with true by (destruct seen; reflexivity).
      destruct (link_step d links x st a seen I M) as [[H ->]|[H H1]]; [left; split; [tauto|reflexivity]|right]. split; [|exact H1]. intros [[X _]|[[X _]|[[X _]|[_ X]]]]; try discriminate; contradiction. }
    rewrite EH. right. split; [tauto|]. exists st. split; [reflexivity|]. cbn [existsb]. rewrite ED, EC, EM, EH. cbn [orb]. rewrite orb_false_r. auto.
  - right. split; [tauto|]. destruct I as (R & F & B). destruct M as (M1 & M2 & M3 & M4). eexists. split; [reflexivity|]. cbn [remember]. destruct (str_eqb n (bs "c")); [|split; [split; auto|repeat split; auto]].
    split; [split; [exact R|split; [exact F|]]|repeat split; auto]. cbn [xp_sheet xp_cell]. intros S. split; [apply B, S|reflexivity].
  - apply chars_step; auto.
  - right. split; [tauto|]. exists st. auto.
Qed.
Lemma dim_next : forall t l seen, dim_first (t :: l) seen -> (forall a, t = XStart (bs "dimension") a -> seen = false) /\ dim_first l (next_seen seen t).
Proof.
  intros [n a|n|v|] l seen H; cbn [dim_first next_seen] in *; try (split; [discriminate|exact H]). destruct (str_case n (bs "dimension")) as [[-> E]|[N E]]; rewrite E in H.
  - destruct H as [-> H]. split; [auto|]. exact H.
  - split; [intros a' X; injection X; congruence|]. cbn [existsb] in *. rewrite E. exact H.
Qed.
Lemma toks_cases : forall d links l x st seen, reach_fx (xd_fmt d) -> Forall w16 (xd_xfs d) -> inv d seen st -> matches x st -> dim_first l seen ->
  ((exists pre t post, l = pre ++ t :: post /\ fatal (zlen (xd_strings d)) (fold_left remember pre x) t) /\ sheet_toks d links l st = Panic) \/
  ((forall pre t post, l = pre ++ t :: post -> ~ fatal (zlen (xd_strings d)) (fold_left remember pre x) t) /\ exists st', sheet_toks d links l st = Ok st' /\ reach_sheet (xp_sheet st')).
Proof.
  intros d links. induction l as [|t l IH]; intros x st seen HX HW I M D.
  - right. split; [intros [|? ?] ? ? E; discriminate|]. exists st. split; [reflexivity|]. apply I.
  - destruct (dim_next _ _ _ D) as [D1 D2]. cbn [sheet_toks]. destruct (step_cases d links x st t seen HX HW I M D1) as [[F ->]|[F (st' & -> & I' & M')]]; cbn [bind].
    + left. split; [|reflexivity]. exists [], t, l. auto.
    + destruct (IH (remember x t) st' _ HX HW I' M' D2) as [[(pre & t1 & post & E & F1) P]|[N P]].
      * left. split; [|exact P]. exists (t :: pre), t1, post. split; [rewrite E; reflexivity|exact F1].
      * right. split; [|exact P]. intros [|t0 pre] t1 post E; injection E as <- E; [exact F|]. cbn [fold_left]. apply (N pre t1 post E).
Qed.

(** ** C87 *)
(** Reading a sheet part whose dimension element comes at most once and first panics exactly when
    one of its tokens is fatal where it stands; otherwise Get gives a sheet and the error of the
    XML decoder, if any. *)
Theorem C87_exact : forall d docname toks e, reach_fx (xd_fmt d) -> Forall w16 (xd_xfs d) -> open_xml (xd_zip d) docname = inl (mkXml toks e) -> dim_first toks false ->
  (parse_xsheet d docname = Panic <-> exists pre t post, toks = pre ++ t :: post /\ fatal (zlen (xd_strings d)) (context pre) t) /\
  (parse_xsheet d docname <> Panic -> exists s, parse_xsheet d docname = Ok (s, end_err e) /\ reach_sheet s).
Proof.
  intros d docname toks e HX HW E D. unfold parse_xsheet. rewrite E. cbn [xm_toks xm_end]. unfold context.
  assert (I : inv d false (xps0 (xd_fmt d))) by (split; [apply rs_new; exact HX|split; [cbn; lia|auto]]). assert (M : matches ctx0 (xps0 (xd_fmt d))) by (repeat split).
  destruct (toks_cases d (sheet_links (xd_zip d) docname) toks ctx0 (xps0 (xd_fmt d)) false HX HW I M D) as [[F ->]|[F (st & -> & R)]]; cbn [bind].
  - split; [split; auto|congruence].
  - split; [split; [discriminate|intros (pre & t & post & A & B); destruct (F pre t post A B)]|]. intros _. eexists. split; [reflexivity|exact R].
Qed.

(** *** styles *)
Definition sec_step (s : Z) (t : xtok) : Z :=
  match t with
  | XStart n _ => if str_eqb n (bs "cellStyleXfs") then 1 else if str_eqb n (bs "cellXfs") then 2 else s
  | XEnd n => if str_eqb n (bs "cellStyleXfs") || str_eqb n (bs "cellXfs") then 0 else s
  | _ => s
  end.
Definition good_sty (st : sty) : Prop := reach_fx (sy_fmt st) /\ Forall w16 (sy_xfs st) /\ (sy_section st = 0 \/ sy_section st = 1 \/ sy_section st = 2).
Lemma u16_w16 : forall z, w16 (u16 z).
Proof. intros. unfold w16, u16. apply Z.mod_pos_bound. lia. Qed.
Lemma style_step : forall t st, good_sty st ->
  (fatal_style (sy_section st) t /\ (forall l, styles_loop (t :: l) st = Panic)) \/
  (~ fatal_style (sy_section st) t /\ exists st', (forall l, styles_loop (t :: l) st = styles_loop l st') /\ good_sty st' /\ sy_section st' = sec_step (sy_section st) t).
Proof.
  intros t st (RX & RW & RS). destruct t as [n a|n|v|]; cbn [fatal_style sec_step styles_loop].
  - unfold style_start. destruct (str_case n (bs "numFmt")) as [[-> E]|[N1 E1]].
    { rewrite E. right. split; [intros [[X _]|[X _]]; discriminate|]. cbn [bind]. eexists. split; [reflexivity|]. split; [|reflexivity]. split; [apply rf_add; exact RX|]. split; auto. }
    rewrite E1. destruct (str_case n (bs "cellStyleXfs")) as [[-> E]|[N2 E2]].
    { rewrite E. right. split; [intros [[X _]|[X _]]; discriminate|]. cbn [bind]. eexists. split; [reflexivity|]. split; [|reflexivity]. split; [exact RX|]. split; [cbn; auto|cbn; auto]. }
    rewrite E2. destruct (str_case n (bs "cellXfs")) as [[-> E]|[N3 E3]].
    { rewrite E. unfold int_attr. change (fst (parse_int 64 (get_attr a (bs "count")))) with (number (get_attr a (bs "count"))). set (k := number (get_attr a (bs "count"))). change (2 ^ 48) with 281474976710656. change (2 ^ 47) with 140737488355328.
      destruct ((k <? 0) || (281474976710656 <? 2 * k)) eqn:EK; [left; split; [left; split; [reflexivity|lia]|reflexivity]|]. right. split; [intros [[_ X]|[X _]]; [lia|discriminate]|]. cbn [bind]. eexists. split; [reflexivity|]. split; [|reflexivity]. split; [exact RX|]. split; [cbn; auto|cbn; auto]. }
    rewrite E3. destruct (str_case n (bs "xf")) as [[-> E]|[N4 E4]].
    { rewrite E. unfold style_xf, int_attr. change (fst (parse_int 64 (get_attr a (bs "xfId")))) with (number (get_attr a (bs "xfId"))). set (k := number (get_attr a (bs "xfId"))). pose proof (zlen_nonneg _ (sy_base st)).
      destruct RS as [RS|[RS|RS]]; rewrite RS; cbn [Z.eqb Pos.eqb].
      - left. split; [right; auto|reflexivity].
      - right. split; [intros [[X _]|[_ [X|[X _]]]]; discriminate|]. cbn [bind]. eexists. split; [reflexivity|]. split; [|cbn [sy_section]; reflexivity]. split; [exact RX|]. split; auto.
      - destruct (Z_lt_dec k 0) as [NK|NK].
        { left. split; [right; split; [reflexivity|right; split; [reflexivity|exact NK]]|]. intros l. destruct (Z.ltb_spec k (zlen (sy_base st))); [|lia]. rewrite idx_out by lia. reflexivity. }
        right. split; [intros [[X _]|[_ [X|[_ X]]]]; try discriminate; contradiction|].
        assert (B : exists y, (if k <? zlen (sy_base st) then idx (sy_base st) k else Ok []) = Ok y) by (destruct (Z.ltb_spec k (zlen (sy_base st))); [apply idx_in; lia|eauto]). destruct B as (y & ->). cbn [bind].
        eexists. split; [reflexivity|]. split; [|cbn [sy_section]; reflexivity]. split; [exact RX|]. cbn [sy_xfs sy_section]. split; [|auto]. apply Forall_app. split; [exact RW|]. constructor; [apply u16_w16|constructor]. }
    rewrite E4. right. split; [tauto|]. cbn [bind]. eexists. split; [reflexivity|]. split; [split; auto|reflexivity].
  - right. split; [tauto|]. eexists. split; [reflexivity|]. unfold style_end. destruct (_ || _); (split; [split; auto|reflexivity]).
  - right. split; [tauto|]. eexists. split; [reflexivity|]. split; [split; auto|reflexivity].
  - right. split; [tauto|]. eexists. split; [reflexivity|]. split; [split; auto|reflexivity].
Qed.
Lemma styles_cases : forall l st, good_sty st ->
  ((exists pre t post, l = pre ++ t :: post /\ fatal_style (fold_left sec_step pre (sy_section st)) t) /\ styles_loop l st = Panic) \/
  ((forall pre t post, l = pre ++ t :: post -> ~ fatal_style (fold_left sec_step pre (sy_section st)) t) /\ exists st', styles_loop l st = Ok st' /\ good_sty st').
Proof.
  induction l as [|t l IH]; intros st G.
  - right. split; [intros [|? ?] ? ? E; discriminate|]. exists st. auto.
  - destruct (style_step t st G) as [[F E]|[F (st' & E & G' & S)]]; rewrite E; [left; split; [exists [], t, l; auto|reflexivity]|]. destruct (IH st' G') as [[(pre & t1 & post & E1 & F1) P]|[N P]]; rewrite S in *.
    + left. split; [|exact P]. exists (t :: pre), t1, post. split; [rewrite E1; reflexivity|exact F1].
    + right. split; [|exact P]. intros [|t0 pre] t1 post E1; injection E1 as <- E1; [exact F|]. cbn [fold_left]. apply (N pre t1 post E1).
Qed.
(** Reading a styles part panics exactly when one of its tokens is fatal where it stands. *)
Theorem C87_styles : forall x d, reach_fx (xd_fmt d) ->
  (parse_styles x d = Panic <-> exists pre t post, xm_toks x = pre ++ t :: post /\ fatal_style (section_of pre) t) /\
  (parse_styles x d <> Panic -> match end_err (xm_end x) with
                                | Some e => parse_styles x d = Err e
                                | None => exists d', parse_styles x d = Ok d' /\ reach_fx (xd_fmt d') /\ Forall w16 (xd_xfs d') /\ xd_zip d' = xd_zip d /\ xd_sheets d' = xd_sheets d
                                end).
Proof.
  intros x d HX. unfold parse_styles. assert (G : good_sty (mkSty [] 0 [] (xd_fmt d))) by (split; [exact HX|split; [constructor|left; reflexivity]]).
  destruct (styles_cases (xm_toks x) _ G) as [[F ->]|[F (st & -> & R)]]; cbn [bind sy_section] in *; change (fold_left sec_step) with (fold_left sec_step) in *.
  - split; [split; auto|congruence].
  - split.
    + split; [destruct (end_err (xm_end x)); discriminate|]. intros (pre & t & post & A & B). destruct (F pre t post A B).
    + intros _. destruct (end_err (xm_end x)); [reflexivity|]. eexists. split; [reflexivity|]. destruct R as (R1 & R2 & _). auto.
Qed.

(** *** packages *)
Definition sound_parts (P : list xtok -> Prop) (z : xzip) : Prop := forall name x, open_xml z name = inl x -> P (xm_toks x).
Definition loaded (z : xzip) (d : xdoc) : Prop := reach_fx (xd_fmt d) /\ Forall w16 (xd_xfs d) /\ xd_zip d = z.
Lemma workbook_loaded : forall z l d, loaded z d -> match workbook_loop l d with Ok d' => loaded z d' | Err _ => True | Panic | NoFuel => False end.
Proof.
  intros z. induction l as [|t l IH]; intros d L; [exact L|]. destruct t as [n a|n|v|]; cbn [workbook_loop]; try (apply IH; exact L). destruct (str_eqb n (bs "sheet")); [|apply IH; exact L].
  destruct (map_attr a (bs "id")); [|exact I]. destruct (map_attr a (bs "name")); [|exact I]. apply IH. exact L.
Qed.
Lemma parts_loaded : forall z (f : xml -> xdoc -> res xdoc) l d, (forall name x d, open_xml z name = inl x -> loaded z d -> match f x d with Ok d' => loaded z d' | Err _ => True | Panic | NoFuel => False end) ->
  loaded z d -> match parse_parts f l d with Ok d' => loaded z d' | Err _ => True | Panic | NoFuel => False end.
Proof.
  intros z f. induction l as [|n l IH]; intros d H L; [exact L|]. cbn [parse_parts]. unfold need. destruct L as (L1 & L2 & L3). rewrite L3. destruct (open_xml z n) as [x|e] eqn:E; [|exact I].
  pose proof (H n x d E (conj L1 (conj L2 L3))) as Q. destruct (f x d) as [d'|e'| |]; cbn [bind]; [apply IH; [exact H|exact Q]|exact I|exact Q|exact Q].
Qed.
Lemma rels_loaded : forall z b l d, loaded z d -> loaded z (rels_loop b l d).
Proof. intros z b. induction l as [|t l IH]; intros d L; [exact L|]. destruct t; cbn [rels_loop]; auto. apply IH. destruct (str_eqb _ _); [exact L|exact L]. Qed.
(** Opening an archive whose parts have no fatal style tokens gives a document or an error. *)
Theorem C87_open : forall order z, sound_parts styles_sound z -> match open_xlsx order (XZip z) with Ok d => loaded z d | Err _ => True | Panic | NoFuel => False end.
Proof.
  intros order z SP. cbn [open_xlsx]. unfold open_doc. destruct (open_xml z (bs "_rels/.rels")) as [x|e]; [|exact I]. unfold parse_rels. destruct (end_err (xm_end x)); [exact I|].
  assert (L0 : loaded z (new_xdoc z)) by (split; [apply rf_new|split; [constructor|reflexivity]]). pose proof (rels_loaded z [] (xm_toks x) _ L0) as L1. set (d1 := rels_loop [] (xm_toks x) (new_xdoc z)) in *. clearbody d1.
  destruct (xd_primary d1) as [|p0 p]; [exact I|]. cbv zeta. unfold need at 1. destruct (open_xml z _) as [x2|]; [|exact I]. destruct (end_err (xm_end x2)); [exact I|].
  match goal with |- context[rels_loop ?b ?l d1] => pose proof (rels_loaded z b l _ L1) as L2; set (d2 := rels_loop b l d1) in *; clearbody d2 end.
  unfold need at 1. destruct (open_xml z (xd_primary d2)) as [x3|]; [|exact I]. unfold parse_workbook. pose proof (workbook_loaded z (xm_toks x3) d2 L2) as W. destruct (workbook_loop (xm_toks x3) d2) as [d3|e3| |]; cbn [bind]; try exact I; try contradiction.
  destruct (end_err (xm_end x3)); cbn [bind]; [exact I|].
  pose proof (parts_loaded z parse_styles (order (live_values [] (rels_of (xd_rels d3) rel_styles))) d3) as Q. match type of Q with ?A -> _ => assert (H : A) end.
  { intros name y d Hy (Y1 & Y2 & Y3). destruct (C87_styles y d Y1) as [[S1 _] S2]. assert (NP : parse_styles y d <> Panic).
    { intros X. destruct (S1 X) as (pre & t & post & A & B). exact (SP name y Hy pre t post A B). }
    specialize (S2 NP). destruct (end_err (xm_end y)); [rewrite S2; exact I|]. destruct S2 as (d' & -> & A & B & C & _). split; auto. split; auto. congruence. }
  specialize (Q H W). destruct (parse_parts parse_styles _ d3) as [d4|e4| |]; cbn [bind]; try exact I; try contradiction.
  apply (parts_loaded z parse_shared); [|exact Q]. intros name y d Hy L. unfold parse_shared. destruct (end_err (xm_end y)); [exact I|]. exact L.
Qed.
(** Whatever is done with the document after that, getting a sheet by any name never panics when
    no sheet part has a fatal token; the sheets are ordinary ones. *)
Theorem C87_get : forall order z d h o name, open_xlsx order (XZip z) = Ok d -> sound_parts styles_sound z -> sound_parts (sheet_sound (zlen (xd_strings d))) z ->
  do_ops (mkXO d false) h = Ok o ->
  match doc_get o name with
  | Ok (o', (i, _)) => exists s, coll o' i = Some s /\ reach_sheet s
  | Err e => e = ENoSheet /\ ~ In name (doc_list o)
  | Panic | NoFuel => False
  end.
Proof.
  intros order z d h o name E SP SS H. pose proof (C87_open order z SP) as L. rewrite E in L. destruct L as (L1 & L2 & L3). pose proof (C64_opened_fresh _ _ _ E) as F.
  pose proof (ops_tracked h _ [] _ _ (tracked_refl _ F) H) as T. cbn [app] in T.
  assert (PX : forall doc, exists s e, parse_xsheet d doc = Ok (s, e) /\ reach_sheet s).
  { intros doc. destruct (open_xml (xd_zip d) doc) as [[toks e]|e] eqn:EO.
    - assert (S : sheet_sound (zlen (xd_strings d)) toks) by (rewrite L3 in EO; apply (SS doc _ EO)). destruct S as [D N]. destruct (C87_exact d doc toks e L1 L2 EO D) as [[X1 _] X2].
      destruct X2 as (s & X2 & X3); [|eauto]. intros X. destruct (X1 X) as (pre & t & post & A & B). exact (N pre t post A B).
    - unfold parse_xsheet. rewrite EO. eexists. eexists. split; [reflexivity|]. apply rs_new. exact L1. }
  assert (ADV : forall n s, reach_sheet s -> reach_sheet (advance n s)).
  { induction n as [|n IH]; intros s R; [exact R|]. rewrite advance_S. destruct (next (advance n s)) as [b s'] eqn:EN. cbn [snd]. eapply rs_next; [apply IH, R|exact EN]. }
  pose proof (tracked_names _ _ _ T) as NM. destruct (doc_get o name) as [[o' [i e]]|e| |] eqn:G.
  - destruct (get_tracked _ _ _ _ _ _ _ T G) as (_ & a & b & sh & H1 & H2 & H3 & H4 & H5 & H6). cbn [xo_doc] in *. destruct (PX (xh_doc a)) as (s & e1 & P & R). assert (s = sh) by congruence. subst s.
    exists (advance (nexts i h) sh). split; [unfold coll; rewrite H3, H6; reflexivity|]. apply ADV, R.
  - destruct T as (C & D & Ln & TT). cbn [xo_closed xo_doc] in *. unfold doc_get in G. rewrite C in G. destruct (find_sheet (xd_sheets (xo_doc o)) name 0) as [[i s]|] eqn:FS.
    + destruct (xh_err s); [discriminate|]. rewrite D, parse_ws in G. destruct (PX (xh_doc s)) as (s1 & e1 & P & _). rewrite P in G. discriminate.
    + injection G as <-. split; [reflexivity|]. unfold doc_list. rewrite C. clear - FS. revert FS. generalize 0%nat. induction (xd_sheets (xo_doc o)) as [|y l IH]; intros n FS I; [exact I|]. cbn [find_sheet] in FS. destruct (str_case (xh_name y) name) as [[EN B]|[NE B]]; rewrite B in FS; [discriminate|].
      cbn [map In] in I. destruct I as [I|I]; [contradiction|]. exact (IH _ FS I).
  - destruct T as (C & D & Ln & TT). cbn [xo_closed xo_doc] in *. unfold doc_get in G. rewrite C in G. destruct (find_sheet (xd_sheets (xo_doc o)) name 0) as [[i s]|]; [|discriminate]. destruct (xh_err s); [discriminate|]. rewrite D, parse_ws in G. destruct (PX (xh_doc s)) as (s1 & e1 & P & _). rewrite P in G. discriminate.
  - destruct T as (C & D & Ln & TT). cbn [xo_closed xo_doc] in *. unfold doc_get in G. rewrite C in G. destruct (find_sheet (xd_sheets (xo_doc o)) name 0) as [[i s]|]; [|discriminate]. destruct (xh_err s); [discriminate|]. rewrite D, parse_ws in G. destruct (PX (xh_doc s)) as (s1 & e1 & P & _). rewrite P in G. discriminate.
Qed.

(** A dimension element after the cells makes the sheet smaller than its rows: Get succeeds and
    reading the first record panics. *)
Theorem C87_late_dimension_refuted : forall d docname a c r v b rest e, reach_fx (xd_fmt d) -> open_xml (xd_zip d) docname = inl (mkXml (XStart (bs "c") a :: XChars v :: XEnd (bs "c") :: XStart (bs "dimension") b :: rest) e) ->
  has_attr a "r" (a1 c r) -> coord_ok c -> coord_ok r -> 2 <= c -> has_attr a "t" (bs "str") -> no_attr a "s" -> xd_xfs d = [] -> has_attr b "ref" (bs "A1") -> Forall silent rest ->
  exists s s', parse_xsheet d docname = Ok (s, end_err e) /\ next s = (true, s') /\ raw s' = Panic /\ strings s' = Panic.
Proof.
  intros d docname a c r v b rest e HX E HR Hc Hr C1 HT HS X0 HB SL. unfold parse_xsheet. rewrite E. cbn [xm_toks xm_end sheet_toks sheet_tok]. repeat match goal with |- context[str_eqb (bs ?u) (bs ?v)] => let q := eval vm_compute in (str_eqb (bs u) (bs v)) in change (str_eqb (bs u) (bs v)) with q end. cbn iota.
  unfold sheet_c. rewrite (get_has _ _ _ HT), (get_has _ _ _ HR), (get_no _ _ HS), X0. change (int_attr 64 [] <? zlen (@nil Z)) with false. cbn [bind]. change (str_eqb (bs "str") []) with false. cbn iota. unfold sheet_chars. cbn [xp_cell xp_type xp_fno xps0 xp_sheet xp_maxcol xp_maxrow].
  destruct (a1 c r) as [|u l] eqn:EA. { pose proof (ref_a1 c r Hc Hr) as RA. rewrite EA in RA. Local Transparent ref_to_indexes. vm_compute in RA. injection RA. unfold coord_ok in *. lia. }
  Local Opaque ref_to_indexes. rewrite <- EA, ref_a1 by auto. cbn [bind]. unfold coord_ok in *. replace ((0 <=? c) && (0 <=? r)) with true by lia. unfold cell_text_value. repeat match goal with |- context[str_eqb (bs ?u) ?v] => let q := eval vm_compute in (str_eqb (bs u) v) in change (str_eqb (bs u) v) with q end. cbn iota. cbn [bind].
  destruct (make_put_cell_spec (xd_fmt d) (GStr v) 0 HX (good_str v)) as (cl & Em & _). destruct (put_ok (empty_sheet (xd_fmt d)) r c (GStr v) 0 cl (wf_empty _) ltac:(lia) ltac:(lia) Em) as (s1 & -> & W & N1 & N2 & F1 & Cu & Ct). cbn [bind].
  unfold sheet_dimension. rewrite (get_has _ _ _ HB). change (str_eqb (bs "A1") (bs "A1")) with true. cbn iota. cbn [bind with_sheet xp_type xp_cell xp_fno xp_sheet]. rewrite silent_toks by exact SL. cbn [bind xp_sheet].
  cbn [empty_sheet sh_nrows sh_ncols] in *. destruct W as [(_ & W & _)|(W1 & W2 & W3 & W4 & W5)]; [lia|]. destruct (sh_rows s1) as [|row rows] eqn:ER; [change (zlen (@nil (list (list goval)))) with 0 in W3; lia|]. inversion W4 as [|? ? LR _]; subst.
  assert (RZ : exists rows', sh_rows (resize s1 1 1) = row :: rows' /\ sh_ncols (resize s1 1 1) = 1 /\ sh_cur (resize s1 1 1) = 0 /\ sh_fx (resize s1 1 1) = sh_fx s1).
  { Local Transparent resize. unfold resize. rewrite ER. cbn [widen_rows sh_rows sh_ncols sh_cur sh_fx]. change (1 <? 0) with false. change (1 <=? 0) with false. cbn iota. unfold blank_row at 1. replace (Z.to_nat (1 - zlen row)) with 0%nat by lia. cbn [repeat]. rewrite app_nil_r. cbn [app]. eexists. repeat split. }
  destruct RZ as (rows' & R1 & R2 & R3 & R4). eexists. eexists. split; [reflexivity|]. unfold next. rewrite R1, R2, R3, R4. change (0 + 1) with 1. pose proof (zlen_nonneg _ rows'). rewrite zlen_cons. destruct (Z.ltb_spec (1 + zlen rows') 1); [lia|]. split; [reflexivity|].
  destruct row as [|x1 [|x2 row]]; [change (zlen (@nil (list goval))) with 0 in LR; lia|rewrite zlen_cons in LR; change (zlen (@nil (list goval))) with 0 in LR; lia|].
  unfold raw, strings, row_map. cbn [sh_rows sh_cur sh_ncols sh_fx]. change (1 - 1) with 0. rewrite idx_0. cbn [bind fill_row]. change (1 <=? 0) with false. change (1 <=? 0 + 1) with true. cbn iota. split; [reflexivity|].
  assert (B0 : x1 = []) by (pose proof (Ct 0 0) as Q; unfold content, get_cell in Q; rewrite ER in Q; cbn in Q; replace ((r =? 0) && (c =? 0)) with false in Q by lia; exact Q).
  assert (B1 : x2 = []) by (pose proof (Ct 0 1) as Q; unfold content, get_cell in Q; rewrite ER in Q; cbn in Q; replace ((r =? 0) && (c =? 1)) with false in Q by lia; exact Q).
  subst x1 x2. reflexivity.
Qed.

(** ** C86 *)
(** All the rows and columns announced are made, whatever else the part contains. *)
Theorem C86_dimension_xlsx_refuted : forall d docname a c r rest e, reach_fx (xd_fmt d) -> open_xml (xd_zip d) docname = inl (mkXml (XStart (bs "dimension") a :: rest) e) -> Forall silent rest ->
  has_attr a "ref" (a1_range 0 0 c r) -> coord_ok c -> coord_ok r -> 1 <= c -> 1 <= r ->
  exists s, parse_xsheet d docname = Ok (s, end_err e) /\ zlen (sh_rows s) = r + 1 /\ Forall (fun row => zlen row = c) (sh_rows s).
Proof.
  intros d docname a c r rest e HX E SL HA Hc Hr C1 R1. destruct (dim_step d (sheet_links (xd_zip d) docname) (xd_fmt d) (DimRange a 0 0 c r)) as (s0 & E0 & ES); [cbn [xdim_ok]; split; [exact HA|]; unfold coord_ok in *; lia|].
  unfold parse_xsheet. rewrite E. cbn [xm_toks xm_end xdim_toks sheet_toks] in *. cbn [sheet_tok] in E0 |- *. change (str_eqb (bs "dimension") (bs "dimension")) with true in *. change (str_eqb (bs "dimension") (bs "c")) with false in *. cbn iota in E0 |- *.
  destruct (sheet_dimension (xps0 (xd_fmt d)) a) as [st| | |]; try discriminate. cbn [bind] in E0 |- *. injection E0 as ->. rewrite silent_toks by exact SL. cbn [bind xp_sheet]. eexists. split; [reflexivity|]. rewrite ES. cbn [xdim_last fst snd].
  unfold resize. cbn [empty_sheet sh_rows sh_fx widen_rows]. replace (r <=? 0) with false by lia. replace (c <=? 0) with false by lia. cbn [app]. change (zlen (@nil (list (list goval)))) with 0. split.
  - unfold zlen. rewrite repeat_length. lia.
  - apply Forall_forall. intros x I. apply repeat_spec in I. subst x. unfold blank_row, zlen. rewrite repeat_length. lia.
Qed.

(** A package with odd but harmless parts: a dimension without meaning, a cell without reference,
    one with a reference that is no reference, one outside the style table, an unknown type, a
    boolean that is no boolean, an R1C1 reference, text after the value, a merged region that ends
    before it starts, and an xf of an unknown parent. *)
Definition el (n : string) (a : list xattr) : list xtok := [XStart (bs n) a; XEnd (bs n)].
Definition txt (n : string) (a : list xattr) (t : string) : list xtok := [XStart (bs n) a; XChars (bs t); XEnd (bs n)].
Definition kv (k v : string) : xattr := (bs k, bs v).
Definition rel_of (id ty tgt : string) : list xtok := [XStart (bs "Relationship") [(bs "Id", bs id); (bs "Type", rel_prefix ++ bs ty); (bs "Target", bs tgt)]; XEnd (bs "Relationship")].
Definition odd_sheet : list xtok :=
  el "dimension" [kv "ref" "nowhere"] ++ txt "c" [] "7" ++ txt "c" [kv "r" "here"] "8" ++ txt "c" [kv "r" "B2"; kv "s" "99"; kv "t" "zz"] "text" ++
  txt "c" [kv "r" "A3"; kv "t" "b"] "maybe" ++ txt "c" [kv "r" "R1C1"; kv "t" "b"] "1" ++ txt "c" [kv "r" "C1"; kv "t" "s"] "1" ++ [XChars (bs "  ")] ++
  el "mergeCell" [kv "ref" "C3:A1"] ++ el "mergeCell" [kv "ref" "zz"] ++ el "hyperlink" [kv "ref" "D4"; kv "id" "none"].
Definition odd_zip : xzip :=
  [(bs "_rels/.rels", inl (mkXml (rel_of "r1" "officeDocument" "w.xml") EEOF)); (bs "_rels/w.xml.rels", inl (mkXml (rel_of "s1" "worksheet" "s.xml" ++ rel_of "y" "styles" "y.xml" ++ rel_of "t" "sharedStrings" "t.xml") EEOF));
   (bs "w.xml", inl (mkXml (el "sheet" [kv "name" "S"; kv "id" "s1"] ++ el "sheet" [kv "name" "gone"; kv "id" "s9"]) EEOF));
   (bs "y.xml", inl (mkXml ([XStart (bs "cellXfs") [(bs "count", bs "3")]] ++ el "xf" [kv "xfId" "5"] ++ [XEnd (bs "cellXfs")]) EEOF));
   (bs "t.xml", inl (mkXml ([XStart (bs "si") []] ++ txt "t" [] "a" ++ [XEnd (bs "si"); XStart (bs "si") []] ++ txt "t" [] "b" ++ [XEnd (bs "si")]) EEOF));
   (bs "s.xml", inl (mkXml odd_sheet (ELeaf 99)))].
Definition odd_doc : xdoc := match open_xlsx (fun l => l) (XZip odd_zip) with Ok d => d | _ => new_xdoc [] end.
Example ex_C87_opens : open_xlsx (fun l => l) (XZip odd_zip) = Ok odd_doc /\ zlen (xd_strings odd_doc) = 2 /\ doc_list (mkXO odd_doc false) = [bs "S"; bs "gone"].
Proof. vm_compute. auto. Qed.
Lemma odd_parts : forall (P : list xtok -> Prop), (forall k n x, nth_error odd_zip k = Some (n, inl x) -> P (xm_toks x)) -> sound_parts P odd_zip.
Proof.
  intros P H name x E. assert (G : forall z, open_xml z name = inl x -> exists k n, nth_error z k = Some (n, inl x)).
  { induction z as [|[n q] z IH]; cbn [open_xml]; [discriminate|]. destruct (str_eqb n name); [intros ->; exists 0%nat, n; reflexivity|]. intros Q. destruct (IH Q) as (k & m & R). exists (S k), m. exact R. }
  destruct (G _ E) as (k & n & R). exact (H k n x R).
Qed.
Example ex_C87_styles : sound_parts styles_sound odd_zip.
Proof.
  apply odd_parts. intros k n x E pre t post EX F. destruct (C87_styles x (new_xdoc []) rf_new) as [[_ A] _]. assert (B : parse_styles x (new_xdoc []) = Panic) by (apply A; exists pre, t, post; auto). clear - E B.
  Local Transparent fx_add. destruct k as [|[|[|[|[|[|k]]]]]]; cbn [nth_error odd_zip] in E; try (destruct k; discriminate E); injection E as _ <-; vm_compute in B; discriminate B.
Qed.
Example ex_C87_sheets : sound_parts (sheet_sound 2) odd_zip.
Proof.
  pose proof (C87_open (fun l => l) odd_zip ex_C87_styles) as L. destruct ex_C87_opens as (E1 & E2 & _). rewrite E1 in L. destruct L as (L1 & L2 & L3).
  apply odd_parts. intros k n x E. assert (ND : match x with mkXml toks e => open_xml odd_zip n = inl (mkXml toks e) /\ dim_first toks false end).
  { destruct k as [|[|[|[|[|[|k]]]]]]; cbn [nth_error odd_zip] in E; try (destruct k; discriminate E); injection E as <- <-; (split; [reflexivity|vm_compute; auto]). }
  destruct x as [toks e]. destruct ND as [EO D]. rewrite <- L3 in EO. split; [exact D|]. intros pre t post EX F. destruct (C87_exact odd_doc n toks e L1 L2 EO D) as [[_ A] _].
  assert (B : parse_xsheet odd_doc n = Panic) by (apply A; exists pre, t, post; rewrite E2; auto). clear - E B.
  Local Transparent ref_to_indexes put set_value parse_float. destruct k as [|[|[|[|[|[|k]]]]]]; cbn [nth_error odd_zip] in E; try (destruct k; discriminate E); injection E as <- _ _; vm_compute in B; discriminate B.
Qed.
(** and a fatal token *)
Example ex_C87_fatal : let pre := el "row" [] ++ [XStart (bs "c") [kv "r" "A1"; kv "t" "s"]; XStart (bs "v") []] in
  context pre = mkCtx (bs "A1") (bs "s") 0 0 /\ fatal 2 (context pre) (XChars (bs "2")) /\ ~ fatal 2 (context pre) (XChars (bs "1")) /\ fatal 2 (context pre) (XStart (bs "hyperlink") [kv "ref" "A1:B2"]).
Proof.
  intros pre. assert (C : context pre = mkCtx (bs "A1") (bs "s") 0 0) by (vm_compute; reflexivity). rewrite C. split; [reflexivity|]. split; [|split].
  - split; [discriminate|]. right. exists 0, 0. split; [vm_compute; reflexivity|]. split; [lia|]. split; [lia|]. right. split; [reflexivity|]. change (number (bs "2")) with 2. lia.
  - intros (_ & [H|(c & r & _ & _ & _ & [[H _]|[_ H]])]); [|discriminate|change (number (bs "1")) with 1 in H; lia]. exact (a1_sound H).
  - right. right. right. split; [reflexivity|]. right. exists 0, (-1). split; [vm_compute; reflexivity|]. lia.
Qed.
Print Assumptions C87_exact.
Print Assumptions C87_styles.
Print Assumptions C87_open.
Print Assumptions C87_get.
Print Assumptions C87_late_dimension_refuted.
Print Assumptions C86_dimension_xlsx_refuted.
