(** * L_xls: the sheet reader on well-formed substreams. *)
From Verif Require Import GoBase L_base GoFloat L_float GoUnicode GoTime M_grate M_value M_dates M_fmt M_formats M_cell M_sheet S_cell L_cell S_sheet L_sheet
  S_grid L_grid S_crypto M_biff S_biff L_biff M_xlstr S_xlstr L_xlstr M_hlink S_hlink L_hlink M_xls S_xls P_xlstr P_hlink.
From Coq Require Import Lia ZifyBool ZifyNat.
Local Opaque f_of_bits fdiv f_of_Z put set_value.

(** closed comparisons *)
Ltac zdec1 := match goal with
  | |- context [Z.eqb ?a ?b] => let v := eval vm_compute in (Z.eqb a b) in
      match v with true => change (Z.eqb a b) with true | false => change (Z.eqb a b) with false end
  end.
Ltac zdec := repeat zdec1; cbn [andb negb]; cbv iota.

(** ** fields *)
Lemma range_at : forall d pre m post a b, dat d = pre ++ m ++ post -> a = zlen pre -> b = a + zlen m -> sl_range d a b = Ok (mkSl m (post ++ spare d)).
Proof. intros [d sp] pre m post a b E -> ->. cbn [dat] in E. subst d. cbn [spare]. apply sl_range_mid; lia. Qed.
Lemma from_at : forall d pre post a, dat d = pre ++ post -> a = zlen pre -> sl_from d a = Ok (mkSl post (spare d)).
Proof. intros [d sp] pre post a E ->. cbn [dat] in E. subst d. cbn [spare]. apply sl_from_app; reflexivity. Qed.
Lemma byte_at : forall d pre x post a, dat d = pre ++ x :: post -> a = zlen pre -> sl_idx d a = Ok x.
Proof. intros [d sp] pre x post a E ->. cbn [dat] in E. subst d. unfold sl_idx. cbn [dat]. apply idx_app_exact; reflexivity. Qed.
Lemma field16_at : forall d pre x post a, dat d = pre ++ put16 x ++ post -> a = zlen pre -> w16 x -> field16 d a = Ok x.
Proof. intros d pre x post a E Ha W. unfold field16. rewrite (range_at d pre (put16 x) post) by auto. cbn [bind dat]. apply le16_put16'. exact W. Qed.
Lemma field32_at : forall d pre x post a, dat d = pre ++ put32 x ++ post -> a = zlen pre -> w32 x -> field32 d a = Ok x.
Proof. intros d pre x post a E Ha W. unfold field32. rewrite (range_at d pre (put32 x) post) by auto. cbn [bind dat]. apply le32_put32'. exact W. Qed.
Lemma from16_at : forall d pre x post a, dat d = pre ++ put16 x ++ post -> a = zlen pre -> w16 x -> from16 d a = Ok x.
Proof. intros d pre x post a E Ha W. unfold from16. rewrite (from_at d pre (put16 x ++ post)) by auto. cbn [bind dat]. apply le16_put16. exact W. Qed.
Lemma from32_at : forall d pre x post a, dat d = pre ++ put32 x ++ post -> a = zlen pre -> w32 x -> from32 d a = Ok x.
Proof. intros d pre x post a E Ha W. unfold from32. rewrite (from_at d pre (put32 x ++ post)) by auto. cbn [bind dat]. apply le32_put32. exact W. Qed.
Lemma from64_at : forall d pre x post a, dat d = pre ++ put64 x ++ post -> a = zlen pre -> 0 <= x < 18446744073709551616 -> from64 d a = Ok x.
Proof. intros d pre x post a E Ha W. unfold from64. rewrite (from_at d pre (put64 x ++ post)) by auto. cbn [bind dat]. apply le64_put64. exact W. Qed.
Lemma coords_at : forall d r c x rest, dat d = coords r c x ++ rest -> w16 r -> w16 c -> w16 x ->
  field16 d 0 = Ok r /\ field16 d 2 = Ok c /\ field16 d 4 = Ok x /\ from16 d 4 = Ok x.
Proof.
  intros d r c x rest E Hr Hc Hx. unfold coords in E. rewrite <- !app_assoc in E. repeat split.
  - apply (field16_at d [] r (put16 c ++ put16 x ++ rest)); auto.
  - apply (field16_at d (put16 r) c (put16 x ++ rest)); auto.
  - apply (field16_at d (put16 r ++ put16 c) x rest); auto.
  - apply (from16_at d (put16 r ++ put16 c) x rest); auto.
Qed.

(** ** the pieces of the specification agree with the model *)
Lemma rk_value_ok : forall r, w32 r -> rk_goval r = rk_value r.
Proof.
  intros r H. unfold rk_value. pose proof (Z.mod_pos_bound r 4 ltac:(lia)).
  destruct (Z.eqb_spec (r mod 4) 2); [apply C49_integer; auto|]. destruct (Z.eqb_spec (r mod 4) 0); [apply C49_double; auto|].
  destruct (Z.eqb_spec (r mod 4) 1); [apply C49_double_100; auto|]. apply C49_integer_100_refuted; auto. lia.
Qed.
Lemma err_text_ok : forall c, berr_label c = err_text c.
Proof.
  intros c. unfold berr_label, err_text. cbn [find fst]. repeat match goal with |- context [c =? ?n] => destruct (c =? n); [reflexivity|] end. reflexivity.
Qed.
Lemma xf_fmt_ok : forall w xf, 0 <= xf -> xf_fmt w xf = xf_format (wb_xfs w) xf.
Proof.
  intros w xf H. unfold xf_fmt, xf_format. destruct (Z.ltb_spec xf (zlen (wb_xfs w))); auto. symmetry. apply nth_overflow. unfold zlen in *. lia.
Qed.
Lemma upto_zrange : forall a b, upto a b = zrange a b.
Proof.
  intros a b. unfold upto, zrange. generalize (Z.to_nat (b - a + 1)) as n. intros n.
  assert (G : forall n k, count_from (a + Z.of_nat k) n = map (fun i => a + Z.of_nat i) (seq k n)).
  { clear. induction n as [|n IH]; intros k; cbn [count_from seq map]; [reflexivity|]. f_equal. rewrite <- IH. f_equal. lia. }
  rewrite <- G. f_equal. lia.
Qed.
Definition as_gop (p : pwrite) : gop := match p with (r, c, v, f) => (r, c, WPut v f) end.
Lemma put_all_writes : forall l s, put_all s l = run_writes s (map as_gop l).
Proof.
  induction l as [|[[[r c] v] f] l IH]; intros s; cbn [put_all map as_gop run_writes run_write]; [reflexivity|]. destruct (put s r c v f); cbn [bind]; auto.
Qed.
Lemma map_flat_map : forall A B C (g : B -> C) (f : A -> list B) l, map g (flat_map f l) = flat_map (fun x => map g (f x)) l.
Proof. intros. induction l as [|x l IH]; cbn [flat_map map]; [reflexivity|]. rewrite map_app, IH. reflexivity. Qed.
Lemma region_writes_ok : forall r0 r1 c0 c1 tl,
  map as_gop (region_writes r0 r1 c0 c1 tl) = region_cells (r0, r1, c0, c1) (match tl with None => [] | Some v => [WPut v 0] end).
Proof.
  intros. unfold region_writes, region_cells. rewrite map_flat_map, (upto_zrange r0 r1), (upto_zrange c0 c1). apply flat_map_ext. intros r. rewrite map_flat_map. apply flat_map_ext. intros c.
  unfold region_mark, mark_at. destruct ((r =? r0) && (c =? c0)); [destruct tl; reflexivity|]. destruct (c =? c0); [destruct (r =? r1); reflexivity|]. destruct (c =? c1); reflexivity.
Qed.
Lemma clip_row : forall mr r, (if r =? 65535 then u16 (u16 mr - 1) else r) = (if r =? 65535 then (mr - 1) mod 65536 else r).
Proof. intros. unfold u16. rewrite Zminus_mod_idemp_l. reflexivity. Qed.
Lemma clip_col : forall mc c, (if c =? 255 then u16 (u16 mc - 1) else c) = (if c =? 255 then (mc - 1) mod 65536 else c).
Proof. intros. unfold u16. rewrite Zminus_mod_idemp_l. reflexivity. Qed.
Lemma run_writes_app_ext : forall a b s, run_writes s (a ++ b) = (s <- run_writes s a ;; run_writes s b).
Proof. exact run_writes_app. Qed.
Lemma bind_ok : forall A (m : res A), (x <- m ;; Ok x) = m.
Proof. intros A [| | |]; reflexivity. Qed.
Lemma bind_assoc : forall A B C (m : res A) (f : A -> res B) (g : B -> res C), (x <- (y <- m ;; f y) ;; g x) = (y <- m ;; x <- f y ;; g x).
Proof. intros A B C [| | |]; reflexivity. Qed.

(** ** records *)
Definition typed (l : list brec) (fs : list frec) : Prop := map payload l = fs /\ Forall (fun r => b_size r = sl_len (b_data r)) l.
Lemma typed_nil : forall l, typed l [] -> l = [].
Proof. intros [|r l] [E _]; [reflexivity|discriminate]. Qed.
Lemma typed_cons : forall l ty p fs, typed l ((ty, p) :: fs) -> exists sz d l', l = mkRec ty sz d :: l' /\ dat d = p /\ sz = zlen p /\ typed l' fs.
Proof.
  intros [|[t z d] l] ty p fs [E F]; [discriminate|]. cbn [map] in E. unfold payload in E at 1. cbn [b_type b_data] in E.
  pose proof (f_equal (fun l => fst (hd (0, []) l)) E) as E1. pose proof (f_equal (fun l => snd (hd (0, []) l)) E) as E2. pose proof (f_equal (@tl frec) E) as E3. cbn [hd fst snd tl] in E1, E2, E3.
  inversion F; subst. cbn [b_size b_data] in *. exists z, d, l. repeat split; auto.
Qed.
Lemma typed_app : forall l a b, typed l (a ++ b) -> exists l1 l2, l = l1 ++ l2 /\ typed l1 a /\ typed l2 b.
Proof.
  intros l a b [E F]. apply map_eq_app in E. destruct E as (l1 & l2 & -> & E1 & E2). apply Forall_app in F. destruct F. exists l1, l2. repeat split; auto.
Qed.

(** a record with no effect *)
Lemma skip_rec : forall w mr mc st r rest, skip_type (b_type r) -> sheet_rec w mr mc st r rest = Ok st /\ (b_type r =? RecTypeBOF) = false.
Proof.
  intros w mr mc st r rest (_ & N & _). unfold cell_types, BOF, EOFR in N. cbn [In] in N. unfold sheet_rec.
  unfold RecTypeBoolErr, RecTypeMulRk, RecTypeNumber, RecTypeRK, RecTypeFormula, RecTypeString, RecTypeLabelSst, RecTypeHLink, RecTypeMergeCells, RecTypeBOF.
  repeat match goal with |- context [b_type r =? ?n] => destruct (Z.eqb_spec (b_type r) n); [exfalso; apply N; intuition congruence|] end. split; reflexivity.
Qed.
Lemma skip_recs : forall w mr mc l rest st, Forall (fun r => skip_type (b_type r)) l ->
  sheet_recs w mr mc (l ++ rest) false 0 st = sheet_recs w mr mc rest false 0 st.
Proof.
  intros w mr mc l rest st F. induction F as [|r l H F IH]; [reflexivity|]. cbn [app sheet_recs]. change (0 <? 0) with false. cbv iota.
  destruct (skip_rec w mr mc st r (l ++ rest) H) as [E B]. rewrite B, E. cbn [bind]. exact IH.
Qed.
Lemma typed_types : forall l fs (P : Z -> Prop), typed l fs -> Forall (fun r => P (fst r)) fs -> Forall (fun r => P (b_type r)) l.
Proof.
  intros l fs P [E _] F. subst fs. induction l as [|r l IH]; constructor; inversion F; auto.
Qed.
Definition no_cont (l : list brec) : Prop := match l with [] => True | r :: _ => b_type r <> RecTypeContinue end.

Lemma embedded_recs : forall w mr mc l rest st n, Forall (fun r => b_type r <> BOF /\ b_type r <> EOFR) l -> 0 < n ->
  sheet_recs w mr mc (l ++ rest) false n st = sheet_recs w mr mc rest false n st.
Proof.
  intros w mr mc l rest st n F Hn. induction F as [|r l [H1 H2] F IH]; [reflexivity|]. cbn [app sheet_recs]. destruct (Z.ltb_spec 0 n); [|lia].
  destruct (Z.eqb_spec (b_type r) RecTypeEOF) as [E|_]; [elim H2; exact E|]. exact IH.
Qed.

(** ** texts of formulas *)
Lemma flag_even : forall r w, (Z.land (2 * r + flag w) 1 =? 0) = negb w.
Proof. intros. rewrite land1. destruct w; reflexivity. Qed.

Definition cont_rec (c : Z * bool * list Z) : frec := (CONTINUE, (2 * fst (fst c) + flag (snd (fst c))) :: enc_units (snd (fst c)) (snd c)).
Definition more_text (more : list (Z * bool * list Z)) : gostr := flat_map (fun c => chunk_text (snd (fst c)) (snd c)) more.
Lemma conts_ok : forall more l rest ucap, typed l (map cont_rec more) -> no_cont rest -> 8224 <= ucap ->
  Forall (fun c => chunk_ok (snd (fst c)) (snd c)) more -> string_conts (l ++ rest) ucap = Ok (more_text more).
Proof.
  induction more as [|[[res w] us] more IH]; intros l rest ucap T NC HU F.
  - apply typed_nil in T. subst l. cbn [app more_text flat_map]. destruct rest as [|r rest]; [reflexivity|]. cbn [string_conts no_cont] in *. destruct (Z.eqb_spec (b_type r) RecTypeContinue); [congruence|]. reflexivity.
  - cbn [map] in T. unfold cont_rec in T at 1. cbn [fst snd] in T. apply typed_cons in T. destruct T as (sz & d & l' & -> & Ed & _ & T). inversion F as [|? ? C F']; subst. cbn [fst snd] in C. destruct C as [U L].
    cbn [app string_conts b_type b_data]. change (CONTINUE =? RecTypeContinue) with true. cbn [negb]. cbv iota.
    rewrite (byte_at d [] _ _ 0 Ed eq_refl). cbn [bind].
    rewrite (from_at d [2 * res + flag w] (enc_units w us) 1 Ed eq_refl). cbn [bind dat]. rewrite flag_even. rewrite (IH l' rest ucap T NC HU F').
    unfold more_text. cbn [flat_map fst snd]. destruct w; cbn [negb enc_units chunk_text] in *.
    + specialize (L eq_refl). unfold sl_len. cbn [dat]. rewrite zlen_units16. replace (2 * zlen us / 2) with (zlen us) by (rewrite Z.mul_comm, Z.div_mul; lia).
      destruct (Z.ltb_spec ucap (zlen us)); [lia|]. rewrite to_nat_zlen. rewrite <- (app_nil_r (flat_map put16 us)). rewrite (units_len_ok us [] _ U). cbn [bind]. reflexivity.
    + reflexivity.
Qed.

(** ** one cell record *)
Lemma mul_rk_ok : forall w d row col tl vs pre i s, zlen pre = 4 + i * 6 -> 0 <= i ->
  dat d = pre ++ flat_map (fun v => put16 (fst v) ++ put32 (snd v)) vs ++ tl -> Forall (fun v => w16 (fst v) /\ w32 (snd v)) vs ->
  mul_rk w s d row col i (List.length vs) =
  run_writes s (map (fun p => (row, col + Z.of_nat (fst p), WPut (rk_value (snd (snd p))) (xf_format (wb_xfs w) (fst (snd p))))) (combine (seq (Z.to_nat i) (List.length vs)) vs)).
Proof.
  induction vs as [|[xf rk] vs IH]; intros pre i s HP HI E F; [reflexivity|]. inversion F as [|? ? [W1 W2] F']; subst. cbn [fst snd] in *.
  cbn [List.length mul_rk seq combine map run_writes run_write fst snd]. cbn [flat_map fst snd] in E. rewrite <- !app_assoc in E.
  rewrite (from16_at d pre xf _ (4 + i * 6) E) by auto. cbn [bind].
  rewrite (from32_at d (pre ++ put16 xf) rk (flat_map (fun v : Z * Z => put16 (fst v) ++ put32 (snd v)) vs ++ tl) (4 + i * 6 + 2)); [|rewrite <- app_assoc; exact E|rewrite zlen_app, zlen_put16; lia|auto]. cbn [bind].
  rewrite rk_value_ok by auto. rewrite xf_fmt_ok by (unfold w16 in W1; lia). rewrite Z2Nat.id by lia. destruct (put s row (col + i) _ _) as [s1|e| |]; cbn [bind]; auto.
  rewrite (IH ((pre ++ put16 xf) ++ put32 rk) (i + 1) s1).
  - replace (Z.to_nat (i + 1)) with (S (Z.to_nat i)) by lia. reflexivity.
  - rewrite !zlen_app, zlen_put16, zlen_put32. lia.
  - lia.
  - rewrite <- !app_assoc. exact E.
  - exact F'.
Qed.
Lemma merge_ok : forall mr mc regs tl d s, dat d = flat_map region_bytes regs ++ tl -> Forall region_ok regs ->
  merge_cells s d mr mc (List.length regs) = run_writes s (flat_map (fun g => region_cells (clip mr mc g) []) regs).
Proof.
  induction regs as [|[[[r0 r1] c0] c1] regs IH]; intros tl d s E F; [reflexivity|]. inversion F as [|? ? RO F']; subst. cbn [region_ok] in RO. destruct RO as (W1 & W2 & W3 & W4).
  cbn [List.length merge_cells flat_map]. cbn [flat_map region_bytes] in E. rewrite <- !app_assoc in E.
  rewrite (field16_at d [] r0 _ 0 E) by auto. rewrite (field16_at d (put16 r0) r1 _ 2 E) by auto. cbn [bind].
  erewrite (field16_at d (put16 r0 ++ put16 r1) c0); [|rewrite <- app_assoc; exact E|reflexivity|auto]. cbn [bind].
  rewrite (from16_at d (put16 r0 ++ put16 r1 ++ put16 c0) c1 (flat_map region_bytes regs ++ tl) 6); [|rewrite <- !app_assoc; exact E|reflexivity|auto]. cbn [bind].
  rewrite (from_at d (put16 r0 ++ put16 r1 ++ put16 c0 ++ put16 c1) (flat_map region_bytes regs ++ tl) 8); [|rewrite <- !app_assoc; exact E|reflexivity]. cbn [bind].
  rewrite run_writes_app, put_all_writes, region_writes_ok, clip_row, clip_col. cbn [clip]. destruct (run_writes s _) as [s1|e| |]; cbn [bind]; auto.
  apply (IH tl); auto.
Qed.

Ltac start T sz d l' Ed Es := apply typed_cons in T; destruct T as (sz & d & l' & -> & Ed & Es & T).
Ltac one T := cbn [app sheet_recs b_type b_size b_data]; change (0 <? 0) with false; cbv iota.
(** one record that is not BOF, outside embedded substreams *)
Lemma step_rec : forall w mr mc ty sz d l st, ty <> BOF ->
  sheet_recs w mr mc (mkRec ty sz d :: l) false 0 st = (st <- sheet_rec w mr mc st (mkRec ty sz d) l ;; sheet_recs w mr mc l false 0 st).
Proof. intros. cbn [sheet_recs b_type]. change (0 <? 0) with false. cbv iota. destruct (Z.eqb_spec ty RecTypeBOF); [elim H; exact e|reflexivity]. Qed.

Definition fval_head (row col fno : Z) (v : fval) : list gop :=
  match v with
  | FNum bits => [(row, col, WPut (GF64 (f_of_bits bits)) fno)]
  | FBool b _ _ _ _ => [(row, col, WPut (GBool (negb (b =? 0))) fno)]
  | FErr c _ _ _ _ => [(row, col, WPut (GStr (err_text c)) 0)]
  | FBlank _ _ _ _ _ _ => []
  | FNoText _ _ _ _ _ | FText _ _ _ _ _ _ _ _ _ _ => [(row, col, WPut (GStr []) fno)]
  end.
Lemma num_top : forall bits, 0 <= bits < 18446744073709551616 -> bits / 2 ^ 48 <> 65535 ->
  exists a b, put64 bits = firstn 6 (put64 bits) ++ [a; b] /\ (a <> 255 \/ b <> 255).
Proof.
  intros bits H N. unfold put64, put32. do 2 eexists. split; [reflexivity|]. set (h := bits / 4294967296) in *.
  assert (HH : bits / 2 ^ 48 = h / 65536) by (unfold h; rewrite Z.div_div by lia; reflexivity). rewrite HH in N. assert (0 <= h < 4294967296) by (unfold h; lia). clearbody h. lia.
Qed.
Lemma formula_ok : forall w s d row col xf v tail, dat d = coords row col xf ++ fval_bytes v ++ tail -> w16 row -> w16 col -> w16 xf -> fval_ok v ->
  formula_rec w s d = (s <- run_writes s (fval_head row col (xf_format (wb_xfs w) xf) v) ;; Ok (s, row, col)).
Proof.
  intros w s d row col xf v tail E W1 W2 W3 OK. unfold formula_rec. destruct (coords_at d row col xf _ E W1 W2 W3) as (F1 & F2 & F3 & F4). rewrite F1, F2, F3. cbn [bind].
  rewrite (from_at d (coords row col xf) (fval_bytes v ++ tail) 6 E eq_refl). cbn [bind]. rewrite xf_fmt_ok by (unfold w16 in *; lia).
  destruct v as [bits|b a1 a2 a3 a4|c a1 a2 a3 a4|t a1 a2 a3 a4 a5|a1 a2 a3 a4 a5|a1 a2 a3 a4 a5 mids res wd us more]; cbn [fval_bytes fval_ok fval_head run_writes run_write] in *; unfold sl_idx; cbn [dat].
  - destruct OK as [HB HN]. destruct (num_top bits HB HN) as (a & b & P & C). rewrite le64_put64 by auto. cbn [bind].
    rewrite (idx_app_exact _ (firstn 6 (put64 bits)) a (b :: tail) 6) || idtac.
    rewrite P at 1. rewrite <- app_assoc. cbn [app]. rewrite (idx_app_exact _ (firstn 6 (put64 bits)) a (b :: tail) 6) by reflexivity. cbn [bind].
    destruct (Z.eqb_spec a 255) as [A|A]; cbn [negb]; [|rewrite bind_ok; reflexivity].
    rewrite P at 1. replace ((firstn 6 (put64 bits) ++ [a; b]) ++ tail) with ((firstn 6 (put64 bits) ++ [a]) ++ b :: tail) by (rewrite <- !app_assoc; reflexivity).
    rewrite (idx_app_exact _ (firstn 6 (put64 bits) ++ [a]) b tail 7) by reflexivity. cbn [bind].
    destruct (Z.eqb_spec b 255) as [B|B]; cbn [negb]; [exfalso; destruct C; auto|]. rewrite bind_ok. reflexivity.
  - change (idx ([1; a1; b; a2; a3; a4; 255; 255] ++ tail) 6) with (@Ok Z 255). change (idx ([1; a1; b; a2; a3; a4; 255; 255] ++ tail) 7) with (@Ok Z 255).
    change (idx ([1; a1; b; a2; a3; a4; 255; 255] ++ tail) 0) with (@Ok Z 1). change (idx ([1; a1; b; a2; a3; a4; 255; 255] ++ tail) 2) with (@Ok Z b). cbn [bind]. zdec. rewrite bind_ok. reflexivity.
  - change (idx ([2; a1; c; a2; a3; a4; 255; 255] ++ tail) 6) with (@Ok Z 255). change (idx ([2; a1; c; a2; a3; a4; 255; 255] ++ tail) 7) with (@Ok Z 255).
    change (idx ([2; a1; c; a2; a3; a4; 255; 255] ++ tail) 0) with (@Ok Z 2). change (idx ([2; a1; c; a2; a3; a4; 255; 255] ++ tail) 2) with (@Ok Z c). cbn [bind]. zdec. rewrite bind_ok, err_text_ok. reflexivity.
  - change (idx ([t; a1; a2; a3; a4; a5; 255; 255] ++ tail) 6) with (@Ok Z 255). change (idx ([t; a1; a2; a3; a4; a5; 255; 255] ++ tail) 7) with (@Ok Z 255).
    change (idx ([t; a1; a2; a3; a4; a5; 255; 255] ++ tail) 0) with (@Ok Z t). cbn [bind]. change (255 =? 255) with true. cbn [negb]. destruct (Z.eqb_spec t 0); [lia|]. destruct (Z.eqb_spec t 1); [lia|]. destruct (Z.eqb_spec t 2); [lia|]. reflexivity.
  - change (idx ([0; a1; a2; a3; a4; a5; 255; 255] ++ tail) 6) with (@Ok Z 255). change (idx ([0; a1; a2; a3; a4; a5; 255; 255] ++ tail) 7) with (@Ok Z 255).
    change (idx ([0; a1; a2; a3; a4; a5; 255; 255] ++ tail) 0) with (@Ok Z 0). cbn [bind]. zdec. rewrite bind_ok. reflexivity.
  - change (idx ([0; a1; a2; a3; a4; a5; 255; 255] ++ tail) 6) with (@Ok Z 255). change (idx ([0; a1; a2; a3; a4; a5; 255; 255] ++ tail) 7) with (@Ok Z 255).
    change (idx ([0; a1; a2; a3; a4; a5; 255; 255] ++ tail) 0) with (@Ok Z 0). cbn [bind]. zdec. rewrite bind_ok. reflexivity.
Qed.
Lemma crec_step : forall w mr mc c l rest st, crec_ok (zlen (wb_strings w)) c -> typed l (crec_recs c) -> no_cont rest -> 8224 <= p_ucap st ->
  exists row col ucap, 8224 <= ucap /\
  sheet_recs w mr mc (l ++ rest) false 0 st =
  (s <- run_writes (p_sheet st) (crec_writes go_trim (wb_strings w) (wb_xfs w) mr mc c) ;; sheet_recs w mr mc rest false 0 (mkPst s row col ucap)).
Proof.
  intros w mr mc c l rest [s row0 col0 ucap0] OK T NC HU. cbn [p_sheet p_ucap] in *.
  destruct c as [row col xf bits|row col xf rk|row col vs lc|row col xf i|row col xf v e|row col xf v tail|regs tail|r0 r1 c0 c1 h|b0 b1 tail|ty p conts|p body q]; cbn [crec_ok crec_recs crec_writes] in *.
  - destruct OK as (W1 & W2 & W3 & W4). start T sz d l' Ed Es. apply typed_nil in T. subst l'. exists row0, col0, ucap0. split; auto. cbn [app]. rewrite step_rec by discriminate.
    unfold sheet_rec. cbn [b_type b_data p_sheet p_row p_col p_ucap]. zdec. destruct (coords_at d row col xf _ Ed W1 W2 W3) as (F1 & F2 & F3 & F4). rewrite F1, F2, F3. cbn [bind].
    rewrite (from64_at d (coords row col xf) bits [] 6) by (rewrite ?app_nil_r; auto). cbn [bind]. rewrite xf_fmt_ok by (unfold w16 in *; lia). cbn [run_writes run_write]. rewrite bind_ok. destruct (put _ _ _ _ _); reflexivity.
  - destruct OK as (W1 & W2 & W3 & W4). start T sz d l' Ed Es. apply typed_nil in T. subst l'. exists row0, col0, ucap0. split; auto. cbn [app]. rewrite step_rec by discriminate.
    unfold sheet_rec. cbn [b_type b_data p_sheet p_row p_col p_ucap]. zdec. destruct (coords_at d row col xf _ Ed W1 W2 W3) as (F1 & F2 & F3 & F4). rewrite F1, F2, F4. cbn [bind].
    rewrite (from32_at d (coords row col xf) rk [] 6) by (rewrite ?app_nil_r; auto). cbn [bind]. rewrite xf_fmt_ok by (unfold w16 in *; lia). rewrite rk_value_ok by auto. cbn [run_writes run_write]. rewrite bind_ok. destruct (put _ _ _ _ _); reflexivity.
  - destruct OK as (W1 & W2 & W3 & W4). start T sz d l' Ed Es. apply typed_nil in T. subst l'. exists row0, col0, ucap0. split; auto. cbn [app]. rewrite step_rec by discriminate.
    unfold sheet_rec. cbn [b_type b_data b_size p_sheet p_row p_col p_ucap]. zdec. 
    rewrite (field16_at d [] row _ 0 Ed) by auto. rewrite (field16_at d (put16 row) col _ 2 Ed) by auto. cbn [bind].
    assert (ZV : zlen (flat_map (fun v : Z * Z => put16 (fst v) ++ put32 (snd v)) vs) = 6 * zlen vs).
    { clear. induction vs as [|v vs IH]; [reflexivity|]. cbn [flat_map]. rewrite zlen_app, IH, zlen_cons, zlen_app, zlen_put16, zlen_put32. lia. }
    replace (Z.to_nat (u16 (sz - 6) / 6)) with (List.length vs).
    2:{ rewrite Es, !zlen_app, !zlen_put16, ZV. pose proof (zlen_nonneg _ vs). unfold u16. rewrite Z.mod_small by lia. replace (2 + (2 + (6 * zlen vs + 2)) - 6) with (zlen vs * 6) by lia. rewrite Z.div_mul by lia. symmetry. apply to_nat_zlen. }
    rewrite (mul_rk_ok w d row col (put16 lc) vs (put16 row ++ put16 col) 0 s); [|reflexivity|lia|rewrite <- app_assoc; exact Ed|exact W3].
    destruct (run_writes s _); reflexivity.
  - destruct OK as (W1 & W2 & W3 & W4 & W5). start T sz d l' Ed Es. apply typed_nil in T. subst l'. exists row0, col0, ucap0. split; auto. cbn [app]. rewrite step_rec by discriminate.
    unfold sheet_rec. cbn [b_type b_data p_sheet p_row p_col p_ucap]. zdec. destruct (coords_at d row col xf _ Ed W1 W2 W3) as (F1 & F2 & F3 & F4). rewrite F1, F2, F3. cbn [bind].
    rewrite (from32_at d (coords row col xf) i [] 6) by (rewrite ?app_nil_r; auto). cbn [bind]. destruct (Z.ltb_spec (zlen (wb_strings w)) i); [lia|].
    unfold w32 in W4. destruct (idx_in _ (wb_strings w) i) as [t Et]; [lia|]. rewrite Et. cbn [bind]. apply idx_inv in Et. destruct Et as [_ Et]. rewrite (nth_error_nth _ _ [] Et).
    rewrite xf_fmt_ok by (unfold w16 in *; lia). destruct t as [|b t]; [reflexivity|]. cbn [str_eqb]. cbn [run_writes run_write]. rewrite bind_ok. destruct (put _ _ _ _ _); reflexivity.
  - destruct OK as (W1 & W2 & W3). start T sz d l' Ed Es. apply typed_nil in T. subst l'. exists row0, col0, ucap0. split; auto. cbn [app]. rewrite step_rec by discriminate.
    unfold sheet_rec. cbn [b_type b_data p_sheet p_row p_col p_ucap]. zdec. destruct (coords_at d row col xf _ Ed W1 W2 W3) as (F1 & F2 & F3 & F4). rewrite F1, F2, F3. cbn [bind].
    rewrite (byte_at d (coords row col xf ++ [v]) e [] 7) by (rewrite <- ?app_assoc; auto). cbn [bind]. rewrite (byte_at d (coords row col xf) v [e] 6) by auto. cbn [bind].
    rewrite xf_fmt_ok by (unfold w16 in *; lia). rewrite err_text_ok. destruct (e =? 0); cbn [run_writes run_write]; rewrite bind_ok; destruct (put _ _ _ _ _); reflexivity.
  - destruct OK as (W1 & W2 & W3 & W4). start T sz d l' Ed Es. pose proof (formula_ok w s d row col xf v tail Ed W1 W2 W3 W4) as FO.
    assert (G : sheet_recs w mr mc (({| b_type := 6; b_size := sz; b_data := d |} :: l') ++ rest) false 0 (mkPst s row0 col0 ucap0) =
      (s' <- run_writes s (fval_head row col (xf_format (wb_xfs w) xf) v) ;; sheet_recs w mr mc (l' ++ rest) false 0 (mkPst s' row col ucap0))).
    { cbn [app]. rewrite step_rec by discriminate. unfold sheet_rec. cbn [b_type b_data p_sheet p_row p_col p_ucap]. zdec. rewrite FO. destruct (run_writes s _); reflexivity. }
    rewrite G. clear G FO.
    destruct v as [bits|b a1 a2 a3 a4|c a1 a2 a3 a4|t a1 a2 a3 a4 a5|a1 a2 a3 a4 a5|a1 a2 a3 a4 a5 mids res wd us more]; cbn [fval_recs] in T;
      try (apply typed_nil in T; subst l'; exists row, col, ucap0; split; [exact HU|reflexivity]).
    cbn [fval_ok] in W4. destruct W4 as (SM & LN & HD & HM & FM). cbn [fval_head].
    apply typed_app in T. destruct T as (l1 & l2 & -> & T1 & T). start T sz2 d2 l3 Ed2 Es2.
    exists row, col, (if wd then Z.max ucap0 (zlen us + zlen (flat_map snd more)) else ucap0). split; [destruct wd; lia|].
    cbn [run_writes run_write]. rewrite !bind_assoc. destruct (put s row col (GStr []) (xf_format (wb_xfs w) xf)) as [s1|er| |]; cbn [bind]; auto.
    rewrite <- app_assoc. rewrite skip_recs by (eapply typed_types; eauto). cbn [app]. rewrite step_rec by discriminate.
    unfold sheet_rec. cbn [b_type b_data p_sheet p_row p_col p_ucap]. zdec. unfold string_head.
    pose proof (zlen_nonneg _ us). pose proof (zlen_nonneg _ (flat_map snd more)).
    rewrite (field16_at d2 [] _ _ 0 Ed2) by (auto; unfold w16; lia). cbn [bind].
    rewrite (byte_at d2 (put16 (zlen us + zlen (flat_map snd more))) (2 * res + flag wd) (enc_units wd us) 2 Ed2 eq_refl). cbn [bind].
    rewrite (from_at d2 (put16 (zlen us + zlen (flat_map snd more)) ++ [2 * res + flag wd]) (enc_units wd us) 3); [|rewrite <- app_assoc; exact Ed2|reflexivity]. cbn [bind dat]. rewrite flag_even.
    destruct wd; cbn [negb enc_units].
    + rewrite (HM eq_refl) in *. cbn [flat_map map chunk_text] in *. apply typed_nil in T. subst l3. change (zlen (@nil Z)) with 0 in *. rewrite Z.add_0_r, to_nat_zlen, app_nil_r. rewrite <- (app_nil_r (flat_map put16 us)). rewrite (units_len_ok us [] _ HD). cbn [bind app].
      replace (string_conts rest (Z.max ucap0 (zlen us))) with (@Ok gostr []).
      2:{ destruct rest as [|r rest]; [reflexivity|]. cbn [string_conts no_cont] in *. destruct (Z.eqb_spec (b_type r) RecTypeContinue); [congruence|]. reflexivity. }
      cbn [bind]. rewrite app_nil_r. destruct (set_value s1 row col _); reflexivity.
    + cbn [bind]. rewrite (conts_ok more l3 rest ucap0 T NC HU FM). cbn [bind chunk_text]. unfold more_text.
      destruct (set_value s1 row col _) as [s2|er| |]; cbn [bind]; auto. apply skip_recs. eapply (typed_types l3 (map cont_rec more) skip_type); [exact T|].
      apply Forall_forall. intros x Hx. apply in_map_iff in Hx. destruct Hx as (q & <- & _). unfold cont_rec. cbn [fst]. unfold skip_type, CONTINUE, cell_types, global_types, BOF, EOFR, FILEPASS. cbn [In]. split; [lia|]. split; intuition congruence.
  - destruct OK as [W1 W2]. start T sz d l' Ed Es. apply typed_nil in T. subst l'. exists row0, col0, ucap0. split; auto. cbn [app]. rewrite step_rec by discriminate.
    unfold sheet_rec. cbn [b_type b_data p_sheet p_row p_col p_ucap]. zdec. pose proof (zlen_nonneg _ regs). rewrite (field16_at d [] (zlen regs) _ 0 Ed) by (auto; unfold w16; lia). cbn [bind].
    rewrite (from_at d (put16 (zlen regs)) _ 2 Ed) by auto. cbn [bind]. rewrite to_nat_zlen. rewrite (merge_ok mr mc regs tail) by auto. destruct (run_writes s _); reflexivity.
  - destruct OK as [RO HO]. cbn [region_ok] in RO. destruct RO as (W1 & W2 & W3 & W4). start T sz d l' Ed Es. apply typed_nil in T. subst l'. exists row0, col0, ucap0. split; auto. cbn [app]. rewrite step_rec by discriminate.
    unfold sheet_rec. cbn [b_type b_data p_sheet p_row p_col p_ucap]. zdec. unfold hlink_rec. cbn [region_bytes] in Ed. rewrite <- !app_assoc in Ed.
    rewrite (field16_at d [] r0 _ 0 Ed) by auto. rewrite (field16_at d (put16 r0) r1 _ 2 Ed) by auto. cbn [bind].
    erewrite (field16_at d (put16 r0 ++ put16 r1) c0); [|rewrite <- app_assoc; exact Ed|reflexivity|auto]. cbn [bind].
    rewrite (from16_at d (put16 r0 ++ put16 r1 ++ put16 c0) c1 (hl_bytes h) 6); [|rewrite <- !app_assoc; exact Ed|reflexivity|auto]. cbn [bind].
    destruct (Z.ltb_spec mc c0), (Z.leb_spec c0 mc); try lia; [reflexivity|]. destruct (Z.ltb_spec mr r0), (Z.leb_spec r0 mr); try lia; [reflexivity|]. cbn [andb].
    rewrite (from_at d (put16 r0 ++ put16 r1 ++ put16 c0 ++ put16 c1) (hl_bytes h) 8); [|rewrite <- !app_assoc; exact Ed|reflexivity]. cbn [bind].
    destruct (C54_hyperlinks h [] (spare d) HO) as (dt & lt & ED & TD & TL). rewrite app_nil_r in ED. rewrite ED. apply C54_trim_unique in TD. apply C54_trim_unique in TL. subst dt lt.
    rewrite put_all_writes, region_writes_ok, clip_row, clip_col. cbn [clip]. destruct (run_writes s _); reflexivity.
  - start T sz d l' Ed Es. apply typed_nil in T. subst l'. exists row0, col0, ucap0. split; [exact HU|]. cbn [app]. rewrite step_rec by discriminate. reflexivity.
  - destruct OK as [W1 W2]. exists row0, col0, ucap0. split; auto. cbn [run_writes bind]. apply skip_recs. eapply typed_types; [exact T|]. constructor; auto.
    apply Forall_forall. intros x Hx. apply in_map_iff in Hx. destruct Hx as (q & <- & _). cbn [fst]. unfold skip_type, CONTINUE, cell_types, global_types, BOF, EOFR, FILEPASS. cbn [In]. split; [lia|]. split; intuition congruence.
  - exists row0, col0, ucap0. split; auto. cbn [run_writes bind]. start T sz d l' Ed Es. apply typed_app in T. destruct T as (l1 & l2 & -> & T1 & T2). start T2 sz2 d2 l3 Ed2 Es2. apply typed_nil in T2. subst l3.
    cbn [app]. rewrite <- app_assoc. cbn [app sheet_recs b_type]. change (0 <? 0) with false. change (BOF =? RecTypeBOF) with true. cbv iota. change (0 + 1) with 1. rewrite embedded_recs; [|eapply (typed_types l1 body (fun t => t <> BOF /\ t <> EOFR)); eauto|lia].
    cbn [sheet_recs b_type]. change (0 <? 1) with true. change (EOFR =? RecTypeEOF) with true. cbv iota. reflexivity.
Qed.

(** ** all cell records *)
Lemma crec_head : forall c nstr, crec_ok nstr c -> exists ty p fs, crec_recs c = (ty, p) :: fs /\ ty <> CONTINUE.
Proof.
  intros c nstr OK. destruct c; cbn [crec_recs crec_ok] in *; try (do 3 eexists; split; [reflexivity|discriminate]). do 3 eexists. split; [reflexivity|]. apply OK.
Qed.
Lemma no_cont_crecs : forall cs nstr l rest, Forall (crec_ok nstr) cs -> typed l (flat_map crec_recs cs) -> no_cont rest -> no_cont (l ++ rest).
Proof.
  intros [|c cs] nstr l rest F T N; cbn [flat_map] in T.
  - apply typed_nil in T. subst l. exact N.
  - inversion F as [|? ? OK F']; subst. destruct (crec_head c nstr OK) as (ty & p & fs & E & NC). rewrite E in T. cbn [app] in T. start T sz d l' Ed Es. cbn [app no_cont b_type]. exact NC.
Qed.
Lemma crecs_steps : forall w mr mc cs l rest st, Forall (crec_ok (zlen (wb_strings w))) cs -> typed l (flat_map crec_recs cs) -> no_cont rest -> 8224 <= p_ucap st ->
  exists row col ucap, 8224 <= ucap /\
  sheet_recs w mr mc (l ++ rest) false 0 st =
  (s <- run_writes (p_sheet st) (flat_map (crec_writes go_trim (wb_strings w) (wb_xfs w) mr mc) cs) ;; sheet_recs w mr mc rest false 0 (mkPst s row col ucap)).
Proof.
  intros w mr mc cs. induction cs as [|c cs IH]; intros l rest st F T N HU; cbn [flat_map] in *.
  - apply typed_nil in T. subst l. destruct st as [s row col ucap]. exists row, col, ucap. split; [exact HU|reflexivity].
  - inversion F as [|? ? OK F']; subst. apply typed_app in T. destruct T as (l1 & l2 & -> & T1 & T2). rewrite <- app_assoc.
    destruct (crec_step w mr mc c l1 (l2 ++ rest) st OK T1 (no_cont_crecs cs _ l2 rest F' T2 N) HU) as (row & col & ucap & HU' & E). rewrite E. rewrite run_writes_app.
    destruct (run_writes (p_sheet st) _) as [s1|er| |]; cbn [bind]; try (exists row, col, ucap; split; [exact HU'|reflexivity]).
    destruct (IH l2 rest (mkPst s1 row col ucap) F' T2 N HU') as (row' & col' & ucap' & HU2 & E2). exists row', col', ucap'. split; [exact HU2|exact E2].
Qed.

(** ** the first pass *)
Definition plain_type (ty : Z) : Prop := ty <> BOF /\ ty <> 129 /\ ty <> 512.
Lemma scan_plain : forall l rest s mr mc, Forall (fun r => plain_type (b_type r)) l -> scan_dims (l ++ rest) false 0 s mr mc = scan_dims rest false 0 s mr mc.
Proof.
  intros l rest s mr mc F. induction F as [|r l (H1 & H2 & H3) F IH]; [reflexivity|]. cbn [app scan_dims]. change (0 <? 0) with false. cbv iota.
  destruct (Z.eqb_spec (b_type r) RecTypeBOF) as [E|_]; [elim H1; exact E|]. destruct (Z.eqb_spec (b_type r) RecTypeWsBool) as [E|_]; [elim H2; exact E|]. destruct (Z.eqb_spec (b_type r) RecTypeDimensions) as [E|_]; [elim H3; exact E|]. exact IH.
Qed.
Lemma skip_plain : forall ty, skip_type ty -> plain_type ty.
Proof. intros ty (_ & N & _). unfold cell_types in N. cbn [In] in N. unfold plain_type. intuition. Qed.
Lemma cont_plain : plain_type CONTINUE.
Proof. repeat split; discriminate. Qed.
Lemma scan_embedded : forall l rest s mr mc n, Forall (fun r => b_type r <> BOF /\ b_type r <> EOFR) l -> 0 < n ->
  scan_dims (l ++ rest) false n s mr mc = scan_dims rest false n s mr mc.
Proof.
  intros l rest s mr mc n F Hn. induction F as [|r l [H1 H2] F IH]; [reflexivity|]. cbn [app scan_dims]. destruct (Z.ltb_spec 0 n); [|lia].
  destruct (Z.eqb_spec (b_type r) RecTypeEOF) as [E|_]; [elim H2; exact E|]. exact IH.
Qed.
Lemma scan_crec : forall c nstr l rest s mr mc, crec_ok nstr c -> typed l (crec_recs c) -> scan_dims (l ++ rest) false 0 s mr mc = scan_dims rest false 0 s mr mc.
Proof.
  intros c nstr l rest s mr mc OK T.
  destruct c as [row col xf bits|row col xf rk|row col vs lc|row col xf i|row col xf v e|row col xf v tail|regs tail|r0 r1 c0 c1 h|b0 b1 tail|ty p conts|p body q]; cbn [crec_ok crec_recs] in *;
  try (apply scan_plain; apply (typed_types l _ plain_type T); constructor; [repeat split; discriminate|constructor]).
  - apply scan_plain. apply (typed_types l _ plain_type T). constructor; [repeat split; discriminate|]. destruct OK as (_ & _ & _ & OK). destruct v; cbn [fval_recs fval_ok] in *; try constructor.
    destruct OK as (SM & _). apply Forall_app. split; [eapply Forall_impl; [|exact SM]; cbn; intros; apply skip_plain; auto|]. constructor; [repeat split; discriminate|].
    apply Forall_forall. intros x Hx. apply in_map_iff in Hx. destruct Hx as (q & <- & _). apply cont_plain.
  - start T sz d l' Ed Es. apply typed_nil in T. subst l'. cbn [app scan_dims b_type b_data]. change (0 <? 0) with false. zdec. rewrite (byte_at d [b0] b1 tail 1 Ed eq_refl). cbn [bind]. rewrite OK. reflexivity.
  - apply scan_plain. apply (typed_types l _ plain_type T). constructor; [apply skip_plain, OK|]. apply Forall_forall. intros x Hx. apply in_map_iff in Hx. destruct Hx as (q & <- & _). apply cont_plain.
  - start T sz d l' Ed Es. apply typed_app in T. destruct T as (l1 & l2 & -> & T1 & T2). start T2 sz2 d2 l3 Ed2 Es2. apply typed_nil in T2. subst l3.
    cbn [app]. rewrite <- app_assoc. cbn [app scan_dims b_type]. change (0 <? 0) with false. change (BOF =? RecTypeBOF) with true. cbv iota. change (0 + 1) with 1. rewrite scan_embedded; [|eapply (typed_types l1 body (fun t => t <> BOF /\ t <> EOFR)); eauto|lia].
    cbn [scan_dims b_type]. change (0 <? 1) with true. change (EOFR =? RecTypeEOF) with true. cbv iota. reflexivity.
Qed.
Lemma scan_crecs : forall cs nstr l rest s mr mc, Forall (crec_ok nstr) cs -> typed l (flat_map crec_recs cs) -> scan_dims (l ++ rest) false 0 s mr mc = scan_dims rest false 0 s mr mc.
Proof.
  induction cs as [|c cs IH]; intros nstr l rest s mr mc F T; cbn [flat_map] in T.
  - apply typed_nil in T. subst l. reflexivity.
  - inversion F; subst. apply typed_app in T. destruct T as (l1 & l2 & -> & T1 & T2). rewrite <- app_assoc. rewrite (scan_crec c nstr) by auto. eapply IH; eauto.
Qed.

(** ** a whole sheet *)
Lemma good_xf : forall xfs xf, Forall w16 xfs -> 0 <= xf_format xfs xf < 65536.
Proof.
  intros xfs xf F. unfold xf_format. destruct (nth_in_or_default (Z.to_nat xf) xfs 0) as [H|H]; [rewrite Forall_forall in F; apply F, H|rewrite H; lia].
Qed.
Lemma good_rk : forall r, w32 r -> good_value (rk_value r).
Proof.
  intros r H. unfold rk_value. destruct (r mod 4 =? 2).
  - split; [|split; [discriminate|split; [discriminate|intros (z & E & _); discriminate]]]. unfold w32 in H. cbn [proper]. unfold in_kind, rk_signed. change (2 ^ 29) with 536870912. change (2 ^ 30) with 1073741824. cbn. destruct (Z.ltb_spec (r / 4) 536870912); lia.
  - destruct (r mod 4 =? 0); [apply good_f64|]. destruct (r mod 4 =? 1); apply good_f64.
Qed.
Lemma good_region : forall g tl, 0 <= fst (fst (fst g)) -> 0 <= snd (fst g) -> Forall (fun w => good_write (0, 0, w)) tl -> Forall good_write (region_cells g tl).
Proof.
  intros [[[r0 r1] c0] c1] tl H1 H2 F. cbn [fst snd] in *. unfold region_cells. apply Forall_forall. intros o Ho. apply in_flat_map in Ho. destruct Ho as (r & Hr & Ho). apply in_flat_map in Ho. destruct Ho as (c & Hc & Ho).
  apply in_map_iff in Ho. destruct Ho as (w & <- & Hw). unfold zrange in Hr, Hc. apply in_map_iff in Hr. destruct Hr as (i & <- & _). apply in_map_iff in Hc. destruct Hc as (j & <- & _).
  assert (G : good_write (0, 0, w)).
  { destruct ((_ =? r0) && _); [rewrite Forall_forall in F; auto|]. destruct Hw as [<-|[]]. split; [cbn; lia|]. split; [cbn; lia|]. cbn [snd]. split; [lia|apply good_str]. }
  destruct G as (_ & _ & G). split; [cbn; lia|]. split; [cbn; lia|]. exact G.
Qed.
Lemma good1 : forall r c v f, 0 <= r -> 0 <= c -> 0 <= f < 65536 -> good_value v -> good_write (r, c, WPut v f).
Proof. intros. split; [auto|]. split; [auto|]. split; auto. Qed.
Lemma clip_lo : forall mr mc g, fst (fst (fst (clip mr mc g))) = fst (fst (fst g)) /\ snd (fst (clip mr mc g)) = snd (fst g).
Proof. intros mr mc [[[r0 r1] c0] c1]. split; reflexivity. Qed.
Lemma good_crec : forall strs xfs mr mc c, Forall w16 xfs -> crec_ok (zlen strs) c -> Forall good_write (crec_writes go_trim strs xfs mr mc c).
Proof.
  intros strs xfs mr mc c FX OK. assert (GX := fun xf => good_xf xfs xf FX).
  destruct c as [row col xf bits|row col xf rk|row col vs lc|row col xf i|row col xf v e|row col xf v tail|regs tail|r0 r1 c0 c1 h|b0 b1 tail|ty p conts|p body q]; cbn [crec_ok crec_writes] in *; unfold w16 in *.
  - constructor; [apply good1; try lia; auto; apply good_f64|constructor].
  - constructor; [apply good1; try lia; auto; apply good_rk; apply OK|constructor].
  - destruct OK as (W1 & W2 & F & _). apply Forall_forall. intros o Ho. apply in_map_iff in Ho. destruct Ho as ([k v] & <- & Hk). cbn [fst snd]. apply in_combine_r in Hk. rewrite Forall_forall in F. specialize (F v Hk).
    apply good1; try lia; auto. apply good_rk, F.
  - destruct (nth _ strs _); constructor; [apply good1; try lia; auto; apply good_str|constructor].
  - destruct (e =? 0); (constructor; [apply good1; try lia; auto|constructor]); [apply good_bool|apply good_str].
  - destruct v; repeat constructor; cbn [fst snd]; try lia; try apply good_xf; auto; try apply good_f64; try apply good_bool; try apply good_str; discriminate.
  - destruct OK as [F _]. induction F as [|g regs R F IH]; cbn [flat_map]; [constructor|]. apply Forall_app. split; [|exact IH]. destruct g as [[[r0 r1] c0] c1]. unfold region_ok, w16 in R. apply good_region; [cbn; lia|cbn; lia|constructor].
  - destruct ((c0 <=? mc) && (r0 <=? mr)); [|constructor]. destruct OK as [R _]. unfold region_ok, w16 in R. apply good_region; [cbn; lia|cbn; lia|]. constructor; [apply good1; try lia; apply good_str|constructor].
  - constructor.
  - constructor.
  - constructor.
Qed.
Lemma good_crecs : forall strs xfs mr mc cs, Forall w16 xfs -> Forall (crec_ok (zlen strs)) cs -> Forall good_write (flat_map (crec_writes go_trim strs xfs mr mc) cs).
Proof. intros strs xfs mr mc cs FX F. induction F; cbn [flat_map]; [constructor|]. apply Forall_app. split; [apply good_crec; auto|auto]. Qed.

Lemma parse_sheet_ok : forall w ss l sh, reach_fx (wb_fx w) -> Forall w16 (wb_xfs w) -> idx (wb_streams w) ss = Ok l -> typed l (xs_recs sh) -> xs_ok (zlen (wb_strings w)) sh ->
  exists s, parse_sheet w ss = Ok (Some s) /\ displays (wb_fx w) (xs_writes go_trim (wb_strings w) (wb_xfs w) sh) (xs_rows sh) (xs_cols sh) s.
Proof.
  intros w ss l sh HX HF HI T [F D]. unfold xs_recs in T. start T sz d l0 Ed Es. apply typed_app in T. destruct T as (la & l1 & -> & TA & T). apply typed_app in T. destruct T as (ld & l2 & -> & TD & T). apply typed_app in T. destruct T as (lc & l3 & -> & TC & TE).
  start TE sz3 d3 l4 Ed3 Es3. apply typed_nil in TE. subst l4. unfold xs_all in F. apply Forall_app in F. destruct F as [FA FC].
  set (mr := xs_rows sh). set (mc := xs_cols sh).
  set (s0 := match xs_dims sh with None => empty_sheet (wb_fx w) | Some _ => resize (empty_sheet (wb_fx w)) mr mc end).
  unfold parse_sheet. rewrite HI. cbn [bind].
  set (eofr := {| b_type := EOFR; b_size := sz3; b_data := d3 |}) in *.
  assert (SD : scan_dims ({| b_type := BOF; b_size := sz; b_data := d |} :: la ++ ld ++ lc ++ [eofr]) true 0 (empty_sheet (wb_fx w)) 0 0 = Ok (Some (s0, mr, mc))).
  { cbn [scan_dims b_type]. change (0 <? 0) with false. zdec. rewrite (scan_crecs (xs_pre sh) (zlen (wb_strings w))) by auto.
    assert (SR : forall s mr mc, scan_dims (lc ++ [eofr]) false 0 s mr mc = Ok (Some (s, mr, mc))) by (intros; rewrite (scan_crecs (xs_cells sh) (zlen (wb_strings w))) by auto; reflexivity).
    unfold s0, mr, mc, xs_rows, xs_cols in *. destruct (xs_dims sh) as [[[[[r0 mr'] c0] mc'] tl]|]; cbn [dims_recs dims_ok] in *.
    - destruct D as (W1 & W2 & W3 & W4). start TD szd dd ld' Edd Esd. apply typed_nil in TD. subst ld'. cbn [app scan_dims b_type b_data]. change (0 <? 0) with false. zdec.
      rewrite (field32_at dd [] r0 _ 0 Edd) by auto. rewrite (field32_at dd (put32 r0) mr' _ 4 Edd) by auto. cbn [bind].
      erewrite (field16_at dd (put32 r0 ++ put32 mr') c0); [|rewrite <- app_assoc; exact Edd|reflexivity|auto]. cbn [bind].
      rewrite (field16_at dd (put32 r0 ++ put32 mr' ++ put16 c0) mc' tl 10); [|rewrite <- !app_assoc; exact Edd|reflexivity|auto]. cbn [bind]. apply SR.
    - apply typed_nil in TD. subst ld. cbn [app]. apply SR. }
  rewrite SD. cbn [bind]. cbn [sheet_recs b_type]. change (0 <? 0) with false. change (BOF =? RecTypeBOF) with true. cbv iota.
  assert (NE : no_cont [eofr]) by discriminate.
  assert (ND : no_cont (ld ++ lc ++ [eofr])).
  { destruct (xs_dims sh) as [[[[[r0 mr'] c0] mc'] tl]|]; cbn [dims_recs] in TD; [start TD szd dd ld' Edd Esd; discriminate|]. apply typed_nil in TD. subst ld. cbn [app]. apply (no_cont_crecs (xs_cells sh) (zlen (wb_strings w))); auto. }
  destruct (crecs_steps w mr mc (xs_pre sh) la (ld ++ lc ++ [eofr]) (mkPst s0 0 0 8224) FA TA ND) as (row & col & ucap & HU & E); [cbn; lia|]. rewrite E. cbn [p_sheet].
  assert (DS : forall st, sheet_recs w mr mc (ld ++ lc ++ [eofr]) false 0 st = sheet_recs w mr mc (lc ++ [eofr]) false 0 st).
  { intros st. destruct (xs_dims sh) as [[[[[r0 mr'] c0] mc'] tl]|]; cbn [dims_recs] in TD; [|apply typed_nil in TD; subst ld; reflexivity]. start TD szd dd ld' Edd Esd. apply typed_nil in TD. subst ld'. reflexivity. }
  assert (GW : Forall good_write (xs_writes go_trim (wb_strings w) (wb_xfs w) sh)) by (apply good_crecs; [auto|unfold xs_all; apply Forall_app; auto]).
  assert (RW : exists s, run_writes s0 (xs_writes go_trim (wb_strings w) (wb_xfs w) sh) = Ok s /\ displays (wb_fx w) (xs_writes go_trim (wb_strings w) (wb_xfs w) sh) mr mc s).
  { unfold s0, mr, mc, xs_rows, xs_cols in *. destruct (xs_dims sh) as [[[[[r0 mr'] c0] mc'] tl]|]; cbn [dims_ok] in D; [apply writes_display; auto; unfold w32, w16 in D; lia|apply writes_display0; auto]. }
  destruct RW as (s & RW & DI). unfold xs_writes, xs_all in RW. rewrite flat_map_app, run_writes_app in RW. fold mr mc in RW.
  destruct (run_writes s0 _) as [s1|er| |]; cbn [bind] in *; try discriminate. rewrite DS.
  destruct (crecs_steps w mr mc (xs_cells sh) lc [eofr] (mkPst s1 row col ucap) FC TC NE HU) as (row2 & col2 & ucap2 & HU2 & E2). rewrite E2. cbn [p_sheet]. rewrite RW. cbn [bind].
  exists s. split; [reflexivity|exact DI].
Qed.
