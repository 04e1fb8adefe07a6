(** * P_amount: property C113 — decimal amounts are shown and read back exactly *)
From Coq Require Import Permutation Reals Lra Psatz.
From Flocq Require Import Core Relative IEEE754.BinarySingleNaN.
From Verif Require Import P_formats M_tsv P_tsv GoBase GoFloat M_grate M_value M_fmt M_formats M_cell M_sheet M_simple M_biff M_xls M_xlsx M_open M_cmd S_cell S_sheet S_grid S_formats S_display S_text S_custom L_base L_float L_round S_simple S_grate S_cfb S_open P_simple P_open P_refuse P_cmd P_custom P_again S_numtext S_general P_numtext L_short P_general S_trip P_trip S_xlstr M_xlstr P_xlstr S_amount.
Open Scope Z_scope.
Local Opaque f_of_dec.

(** ** the decimal shown is the amount *)
Lemma value_spelled : forall l, value l = spelled l.
Proof.
  intros l. rewrite <- dec_spelled. unfold value, dec_val. generalize 0. induction l as [|c l IH]; intros a; [reflexivity|]. cbn [value_from fold_left]. rewrite IH. f_equal. lia.
Qed.
Lemma amount_close : forall v neg n p, amount v neg n p -> 0 <= p <= 300 -> (Rabs (Rabs (B2R v) * IZR (10 ^ p) - IZR n) <= / 4)%R.
Proof.
  intros v neg n p (F & N & NR) P. destruct NR as (S & R1 & R2). assert (FT : fits64 (dec_value neg n p 0)).
  { destruct (Rlt_le_dec (Rabs (near64 (dec_value neg n p 0))) (bpow radix2 1024)); [auto|]. rewrite R2 in F by (unfold fits64; lra). discriminate. }
  destruct (R1 FT) as [_ V]. clear R1 R2 FT. set (Q := IZR (10 ^ p)). assert (Q0 : (1 <= Q)%R) by (apply IZR_le; pose proof (Z.pow_pos_nonneg 10 p); lia).
  assert (Q1 : (Q <= IZR (10 ^ 300))%R) by (apply IZR_le; apply Z.pow_le_mono_r; lia).
  assert (N0 : (0 <= IZR n <= IZR (10 ^ 15))%R) by (split; apply IZR_le; lia).
  assert (AD : (Rabs (dec_value neg n p 0) * Q = IZR n)%R).
  { rewrite dec_value_neg, Rabs_mult. assert (D : (dec_value false n p 0 * Q = IZR n)%R) by (unfold dec_value, Q; destruct (Z.leb_spec p 0); [assert (p = 0) by lia; subst p; rewrite Z.sub_diag; simpl; lra|rewrite Z.sub_0_r; fold Q; field; lra]).
    assert (0 <= dec_value false n p 0)%R by (assert (dec_value false n p 0 = IZR n * / Q)%R as -> by (apply Rmult_eq_reg_r with Q; [rewrite D; field; lra|lra]); apply Rmult_le_pos; [lra|apply Rlt_le, Rinv_0_lt_compat; lra]).
    rewrite (Rabs_pos_eq (dec_value _ _ _ _)) by assumption. destruct neg; [rewrite Rabs_left by lra|rewrite Rabs_pos_eq by lra]; lra. }
  destruct (error_N_FLT radix2 (-1074) 53 ltac:(reflexivity) (fun x => negb (Z.even x)) (dec_value neg n p 0)) as (eps & eta & E1 & E2 & _ & E3).
  assert (E4 : near64 (dec_value neg n p 0) = (dec_value neg n p 0 * (1 + eps) + eta)%R) by exact E3. rewrite V, E4. clear E3 E4 V.
  set (D := dec_value neg n p 0) in *. clearbody D.
  assert (B1 : (Rabs (Rabs (D * (1 + eps) + eta) - Rabs D) <= Rabs D * Rabs eps + Rabs eta)%R).
  { eapply Rle_trans; [apply Rabs_triang_inv2|]. replace (D * (1 + eps) + eta - D)%R with (D * eps + eta)%R by ring. eapply Rle_trans; [apply Rabs_triang|]. rewrite Rabs_mult. lra. }
  rewrite <- AD, <- Rmult_minus_distr_r, Rabs_mult, (Rabs_pos_eq Q) by lra.
  assert (B2 : (Rabs D * Rabs eps * Q <= / 8)%R).
  { replace (Rabs D * Rabs eps * Q)%R with (IZR n * Rabs eps)%R by (rewrite <- AD; ring). change (bpow radix2 (-53 + 1)) with (/ 4503599627370496)%R in E1. pose proof (Rabs_pos eps). assert (IZR (10 ^ 15) = 1000000000000000)%R as T by reflexivity. rewrite T in N0. apply Rle_trans with (1000000000000000 * (/ 2 * / 4503599627370496))%R; [apply Rmult_le_compat; [apply N0|apply Rabs_pos|apply N0|exact E1]|clear; lra]. }
  assert (B3 : (Rabs eta * Q <= / 8)%R).
  { apply Rle_trans with (/ 2 * bpow radix2 (-1074) * IZR (10 ^ 300))%R; [apply Rmult_le_compat; [apply Rabs_pos|lra|exact E2|exact Q1]|].
    assert (IZR (10 ^ 300) <= bpow radix2 1000)%R by (change (bpow radix2 1000) with (IZR (2 ^ 1000)); apply IZR_le; vm_compute; discriminate).
    pose proof (bpow_gt_0 radix2 (-1074)). assert (bpow radix2 (-1074) * bpow radix2 1000 = bpow radix2 (-74))%R by (rewrite <- bpow_plus; reflexivity). assert (bpow radix2 (-74) <= bpow radix2 (-3))%R by (apply bpow_le; lia). change (bpow radix2 (-3)) with (/ 8)%R in *. nra. }
  assert (0 <= Q)%R by lra. nra.
Qed.
Lemma amount_shown : forall v neg n p t, amount v neg n p -> 0 <= p <= 300 -> shows_fixed p (B2R v) (Bsign v) t ->
  exists ip fp, t = (if neg then [45] else []) ++ ip ++ [46] ++ fp /\ amount_digits n p ip fp.
Proof.
  intros v neg n p t A P (ip & fp & E & NE & D1 & D2 & L & Z0 & B). pose proof (amount_close v neg n p A P) as C. destruct A as (F & N & (S & _)). rewrite S in E. exists ip, fp. split; [exact E|].
  repeat split; auto. rewrite <- value_spelled. set (m := value (ip ++ fp)) in *. clearbody m.
  assert (T : (Rabs (IZR (m - n)) < 1)%R) by (rewrite minus_IZR; replace (IZR m - IZR n)%R with ((IZR m - Rabs (B2R v) * IZR (10 ^ p)) + (Rabs (B2R v) * IZR (10 ^ p) - IZR n))%R by ring; eapply Rle_lt_trans; [apply Rabs_triang|]; lra).
  rewrite <- abs_IZR in T. apply lt_IZR in T. lia.
Qed.
Lemma digits_numeral : forall neg n p ip fp, amount_digits n p ip fp -> S_numtext.numeral ((if neg : bool then [45] else []) ++ ip ++ [46] ++ fp) neg n p 0.
Proof.
  intros neg n p ip fp (D1 & D2 & NE & L & V & _). subst n p. assert (H := a_numeral (if neg then [45] else []) neg ip (46 :: fp) fp [] 0). rewrite app_nil_r in H. apply H; auto.
  - destruct neg; constructor.
  - constructor; assumption.
  - destruct ip; [congruence|discriminate].
  - constructor.
Qed.
Lemma amount_read : forall v neg n p t z0, amount v neg n p -> S_numtext.numeral t neg n p 0 -> M_simple.scan_one t (DF64 z0) = (DF64 v, None).
Proof.
  intros v neg n p t z0 (F & N & NR) H. destruct (C109_scan_float t neg n p 0 z0 H ltac:(left; simpl; lia)) as (a & NA & A1 & _). destruct NR as (S & R1 & R2). assert (FT : fits64 (dec_value neg n p 0)).
  { destruct (Rlt_le_dec (Rabs (near64 (dec_value neg n p 0))) (bpow radix2 1024)); [auto|]. rewrite R2 in F by (unfold fits64; lra). discriminate. }
  rewrite (A1 FT). destruct NA as (S2 & Q1 & _). destruct (Q1 FT) as [F2 V2]. destruct (R1 FT) as [_ V1]. do 2 f_equal. apply B2R_Bsign_inj; auto; congruence.
Qed.

(** ** C113 *)
(** An amount with two decimals under 0.00, 0.00 with separators of thousands, and a custom code
    with its number of decimals is shown as exactly that amount. *)
Theorem C113_shown : forall x id v neg n, In id [2; 60] -> amount v neg n 2 ->
  exists ip fp, amount_digits n 2 ip fp /\ fx_apply x id (GF64 v) = Ok (minus neg ++ ip ++ bs "." ++ fp, true).
Proof.
  intros x id v neg n I A. destruct (C67_two_decimals x id v I (proj1 A)) as (t & E & S). destruct (amount_shown v neg n 2 t A ltac:(lia) S) as (ip & fp & T & D). exists ip, fp. split; [exact D|]. rewrite E, T. reflexivity.
Qed.
Lemma split_point : forall a a' b b', Forall (fun c => 48 <= c <= 57) a -> Forall (fun c => 48 <= c <= 57) a' -> a ++ 46 :: b = a' ++ 46 :: b' -> a = a' /\ b = b'.
Proof.
  induction a as [|c a IH]; intros [|c' a'] b b' H H' E; cbn [app] in E; injection E; intros; subst; auto.
  - inversion H'; lia.
  - inversion H; lia.
  - inversion H; inversion H'; subst. destruct (IH a' b b') as [-> ->]; auto.
Qed.
Lemma amount_split : forall v neg n p ip fp, amount v neg n p -> 0 <= p <= 300 -> Forall (fun c => 48 <= c <= 57) ip -> shows_fixed p (B2R v) (Bsign v) (minus (Bsign v) ++ ip ++ [46] ++ fp) ->
  amount_digits n p ip fp /\ minus (Bsign v) = minus neg.
Proof.
  intros v neg n p ip fp A P D S. destruct (amount_shown v neg n p _ A P S) as (ip' & fp' & T & G). destruct A as (_ & _ & (E & _)). rewrite E in *. unfold minus in *.
  assert (T' : ip ++ [46] ++ fp = ip' ++ [46] ++ fp') by (destruct neg; cbn [app] in T |- *; congruence).
  destruct (split_point ip ip' fp fp' D) as [-> ->]; [|exact T'|auto]. destruct G as (G & _). eapply Forall_impl; [|exact G]. unfold dig. auto.
Qed.
Theorem C113_separated : forall x id v neg n, In id [4; 62] -> amount v neg n 2 ->
  exists ip fp u, amount_digits n 2 ip fp /\ in_thousands ip u /\ fx_apply x id (GF64 v) = Ok (minus neg ++ u ++ bs "." ++ fp, true).
Proof.
  intros x id v neg n I A. destruct (C23_builtin_floats x id v I (proj1 A)) as (ip & fp & u & S & D & T & E). destruct (amount_split v neg n 2 ip fp A ltac:(lia) D S) as [G M]. exists ip, fp, u. split; [exact G|]. split; [exact T|]. rewrite E, M. reflexivity.
Qed.
Theorem C113_custom : forall x id pre group p post v neg n, reach_fx x -> free_id x id ->
  lits_ok pre -> lits_ok post -> ~ In LPct pre -> ~ In LPct post -> 1 <= Z.of_nat p <= 300 -> amount v neg n (Z.of_nat p) ->
  let code := number_code pre group (Fixed p) post in let x' := fst (fx_add x id code) in
  snd (fx_add x id code) = None /\
  exists ip fp u, amount_digits n (Z.of_nat p) ip fp /\ grouped group ip u /\
    let t := lits_show pre ++ minus neg ++ u ++ bs "." ++ fp ++ lits_show post in
    puts x' id (GF64 v) t /\ fx_apply x' id (GF64 v) = Ok (t, true).
Proof.
  intros x id pre group p post v neg n R FI L1 L2 N1 N2 P A code x'. destruct (C82_decimals x id pre group p post v R FI L1 L2 N1 N2 ltac:(lia) (proj1 A)) as (E & ip & fp & u & S & D & G & T). split; [exact E|].
  destruct (amount_split v neg n (Z.of_nat p) ip fp A ltac:(lia)) as [DG M]; [eapply Forall_impl; [|exact D]; unfold is_dig; intros; lia|exact S|]. exists ip, fp, u. split; [exact DG|]. split; [exact G|]. rewrite M in T. exact T.
Qed.
(** Such a text without separators is read back as the same float64. *)
Theorem C113_read : forall v neg n p ip fp z0, amount v neg n p -> amount_digits n p ip fp -> M_simple.scan_one (minus neg ++ ip ++ bs "." ++ fp) (DF64 z0) = (DF64 v, None).
Proof. intros v neg n p ip fp z0 A D. eapply amount_read; [exact A|]. exact (digits_numeral neg n p ip fp D). Qed.
(** An amount with two decimals that a sheet shows under 0.00 comes back exactly from the text that
    grate2tsv writes for the sheet. *)
Lemma holds_float : forall v v0 t0, holds (GF64 v) v0 t0 -> v0 = GF64 v /\ t0 = FloatCell.
Proof. intros v v0 t0 H. inversion H; auto. Qed.
Lemma amount_text : forall x id v neg n t, In id [2; 60] -> amount v neg n 2 -> write_text x (WPut (GF64 v) id) t -> exists ip fp, amount_digits n 2 ip fp /\ t = minus neg ++ ip ++ bs "." ++ fp.
Proof.
  intros x id v neg n t I A (ty & code & [([M|[M|[M|M]]] & _)|(_ & v' & t' & (v0 & t0 & H & ST) & _ & _ & AP & _)]); try discriminate M. destruct (holds_float _ _ _ H) as [-> ->].
  destruct (C113_shown x id v neg n I A) as (ip & fp & D & E). exists ip, fp. split; [exact D|].
  assert (CT : fx_cell_type x id = Some FloatCell) by (destruct I as [<-|[<-|[]]]; reflexivity). rewrite CT in ST. destruct ST as [(_ & ct & C1 & C2 & _)|(-> & -> & _)]; [congruence|].
  rewrite (AP ltac:(discriminate)) in E. congruence.
Qed.
Theorem C113_exported : forall fuel sizes sp1 sp2 sp3 unzip order iter rd srt hist openf fn s tables t x ws rows cols fl md5hex r c id v neg n,
  sorts_by_priority srt -> Permutation hist (stock fuel sizes sp1 sp2 sp3 unzip order iter rd) -> any_order iter -> normal fl ->
  openf fn = Ok s -> holds_tables s tables -> In t tables -> tb_single t = false -> text_rows x ws rows cols (tb_rows t) -> fits (kept fl (tb_rows t)) ->
  0 <= r -> 0 <= c -> last_write ws r c = Some (WPut (GF64 v) id) -> In id [2; 60] -> amount v neg n 2 ->
  exists o, In o (fst (process_file md5hex (fun _ => None) fl (fun fn => open_book (openf fn)) fn)) /\ o_path o = out_path md5hex fn (tb_name t) /\
    forall w e, os_file w (o_path o) = FileData (o_data o) None -> ~ compound (o_data o) -> unzip (o_data o) = inr e ->
      exists f, fst (open_file (registered srt hist) (o_path o) w) = Ok (SrcSimple f) /\
        read_at fl (tb_rows t) (extent (Z.max 1 cols) (map (fun o : gop => snd (fst o)) ws)) r c (fun d => exists z0, d = DF64 z0) (fun _ d' => d' = DF64 v) f.
Proof.
  intros fuel sizes sp1 sp2 sp3 unzip order iter rd srt hist openf fn s tables t x ws rows cols fl md5hex r c id v neg n HS HP HI HN EO HT IT ST TR HF Hr Hc LW ID AM.
  destruct (C90_commands openf fn s tables EO HT) as (_ & W). destruct (W md5hex fl (proj1 HN)) as (rs & E & _). rewrite E. cbn [fst].
  destruct (C66_rows fl (tb_rows t)) as (nc & WR & _). eexists. split; [apply in_flat_map; exists t; split; [exact IT|]; unfold written_table; rewrite ST; left; reflexivity|]. split; [reflexivity|]. cbn [o_path o_data]. intros w e OS NC HU.
  eapply (trip_at fuel sizes sp1 sp2 sp3 unzip order iter rd srt hist _ w x ws rows cols); try eassumption; [exists (DF64 v), v; reflexivity|].
  intros t0 d (z0 & ->) WT. destruct (amount_text x id v neg n t0 ID AM WT) as (ip & fp & D & ->). pose proof (digits_numeral neg n 2 ip fp D) as NU. destruct (numeral_graphic _ _ _ _ _ NU) as [G NE]. split; [exact G|]. split; [exact NE|].
  rewrite (C113_read v neg n 2 ip fp z0 AM D). split; reflexivity.
Qed.
(** A whole number under 0 is shown as its numeral, and comes back as the same integer. *)
Theorem C113_whole : forall x id v z t, In id [1; 59] -> f_is_finite v = true -> B2R v = IZR z -> - 2 ^ 63 <= z < 2 ^ 63 ->
  write_text x (WPut (GF64 v) id) t -> t = itoa z /\ forall z0, M_simple.scan_one t (DInt z0) = (DInt z, None).
Proof.
  intros x id v z t I F V R (ty & code & [([M|[M|[M|M]]] & _)|(_ & v' & t' & (v0 & t0 & H & ST) & _ & _ & AP & _)]); try discriminate M. destruct (holds_float _ _ _ H) as [-> ->].
  assert (CT : fx_cell_type x id = Some IntegerCell) by (destruct I as [<-|[<-|[]]]; reflexivity). rewrite CT in ST. destruct ST as [(_ & ct & C1 & C2 & CO)|(_ & _ & [->|[C|C]])]; [|destruct I as [I|[I|[]]]; discriminate I|discriminate C|discriminate C].
  injection C1 as <-. inversion CO; subst; [|exfalso; match goal with K : In _ _ |- _ => idtac | _ => idtac end; congruence..].
  assert (TI : f_to_int64 v = z) by (rewrite f_to_int64_trunc; rewrite ?V, ?Ztrunc_IZR; auto; change two63 with (2 ^ 63); lia). rewrite TI in AP. specialize (AP ltac:(discriminate)).
  assert (E : t = itoa z).
  { assert (A : fx_apply x id (GInt KInt64 z) = Ok (itoa z, true)); [|rewrite A in AP; congruence]. clear - I.
    assert (E : sprintf_text (sf_d false) 1 (GInt KInt64 z) = itoa z).
    { unfold sprintf_text, sprintf_int, sf_d, int_text. cbn [fm_verb fm_prec fm_wid fm_pct]. unfold pad_left. replace (Z.to_nat (0 - zlen (itoa z))) with 0%nat by (pose proof (zlen_nonneg _ (itoa z)); lia). cbn [repeat]. rewrite !app_nil_r. reflexivity. }
    destruct I as [<-|[<-|[]]]; unfold fx_apply; simpl zfind; cbv iota; cbn [ff_eval]; rewrite E; reflexivity. }
  split; [exact E|]. intros z0. rewrite E. destruct C09_scan_values as (_ & SI & _). apply SI. change two63 with (2 ^ 63). lia.
Qed.
Theorem C113_whole_exported : forall fuel sizes sp1 sp2 sp3 unzip order iter rd srt hist openf fn s tables t x ws rows cols fl md5hex r c id v z,
  sorts_by_priority srt -> Permutation hist (stock fuel sizes sp1 sp2 sp3 unzip order iter rd) -> any_order iter -> normal fl ->
  openf fn = Ok s -> holds_tables s tables -> In t tables -> tb_single t = false -> text_rows x ws rows cols (tb_rows t) -> fits (kept fl (tb_rows t)) ->
  0 <= r -> 0 <= c -> last_write ws r c = Some (WPut (GF64 v) id) -> In id [1; 59] -> f_is_finite v = true -> B2R v = IZR z -> - 2 ^ 63 <= z < 2 ^ 63 ->
  exists o, In o (fst (process_file md5hex (fun _ => None) fl (fun fn => open_book (openf fn)) fn)) /\ o_path o = out_path md5hex fn (tb_name t) /\
    forall w e, os_file w (o_path o) = FileData (o_data o) None -> ~ compound (o_data o) -> unzip (o_data o) = inr e ->
      exists f, fst (open_file (registered srt hist) (o_path o) w) = Ok (SrcSimple f) /\
        read_at fl (tb_rows t) (extent (Z.max 1 cols) (map (fun o : gop => snd (fst o)) ws)) r c (fun d => exists z0, d = DInt z0) (fun _ d' => d' = DInt z) f.
Proof.
  intros fuel sizes sp1 sp2 sp3 unzip order iter rd srt hist openf fn s tables t x ws rows cols fl md5hex r c id v z HS HP HI HN EO HT IT ST TR HF Hr Hc LW ID FV V RZ.
  destruct (C90_commands openf fn s tables EO HT) as (_ & W). destruct (W md5hex fl (proj1 HN)) as (rs & E & _). rewrite E. cbn [fst].
  destruct (C66_rows fl (tb_rows t)) as (nc & WR & _). eexists. split; [apply in_flat_map; exists t; split; [exact IT|]; unfold written_table; rewrite ST; left; reflexivity|]. split; [reflexivity|]. cbn [o_path o_data]. intros w e OS NC HU.
  eapply (trip_at fuel sizes sp1 sp2 sp3 unzip order iter rd srt hist _ w x ws rows cols); try eassumption; [exists (DInt z), z; reflexivity|].
  intros t0 d (z0 & ->) WT. destruct (C113_whole x id v z t0 ID FV V RZ WT) as (-> & SC). destruct (itoa_graphic z) as [G NE]. split; [exact G|]. split; [exact NE|]. rewrite SC. split; reflexivity.
Qed.
(** A text with any other character than those of numbers is refused. *)
Lemma mant_keeps : forall hex s m nd nf dot us c, ~ number_char c -> In c s -> In c (snd (scan_mant hex s m nd nf dot us)).
Proof.
  intros hex s. induction s as [|d s IH]; intros m nd nf dot us c NC I; [destruct I|]. cbn [scan_mant].
  assert (K : c <> d -> In c s) by (intros N; destruct I; [congruence|assumption]).
  destruct (Z.eqb_spec d 95) as [->|N1]; [apply IH; [exact NC|apply K; intros ->; apply NC; right; right; right; cbn; auto]|].
  destruct (Z.eqb_spec d 46) as [->|N2].
  - destruct dot; [exact I|]. apply IH; [exact NC|]. apply K. intros ->. apply NC. right. right. right. cbn. auto.
  - destruct (if hex then hexval d else if is_digit d then Some (d - 48) else None) as [v|] eqn:E; [|exact I]. apply IH; [exact NC|]. apply K. intros ->. apply NC. unfold number_char. destruct hex.
    + unfold hexval, lower, is_digit in E. destruct ((65 <=? d) && (d <=? 90)) eqn:L; [lia|]. destruct ((48 <=? d) && (d <=? 57)) eqn:L2; [lia|]. destruct ((97 <=? d) && (d <=? 102)) eqn:L3; [lia|discriminate].
    + unfold is_digit in E. destruct ((48 <=? d) && (d <=? 57)) eqn:L2; [lia|discriminate].
Qed.
Lemma exp_keeps : forall s e us c, ~ number_char c -> In c s -> In c (snd (scan_exp s e us)).
Proof.
  induction s as [|d s IH]; intros e us c NC I; [destruct I|]. cbn [scan_exp].
  assert (K : c <> d -> In c s) by (intros N; destruct I; [congruence|assumption]).
  destruct (Z.eqb_spec d 95) as [->|N1]; [apply IH; [exact NC|apply K; intros ->; apply NC; right; right; right; cbn; auto]|].
  destruct (is_digit d) eqn:D; [|exact I]. apply IH; [exact NC|]. apply K. intros ->. apply NC. unfold is_digit in D. left. lia.
Qed.
Lemma sign_keeps : forall s c, ~ number_char c -> In c s -> In c (snd (take_sign s)).
Proof.
  intros s c NC I. destruct s as [|d s]; [destruct I|]. destruct (Z.eq_dec d 43) as [->|N1]; [destruct I as [<-|I]; [destruct NC; right; right; right; cbn; auto|exact I]|]. destruct (Z.eq_dec d 45) as [->|N2]; [destruct I as [<-|I]; [destruct NC; right; right; right; cbn; auto|exact I]|].
  assert (E : take_sign (d :: s) = (false, d :: s)); [|rewrite E; exact I]. unfold take_sign. clear - N1 N2. destruct d as [|q|q]; try reflexivity. do 6 (destruct q as [q|q|]; try reflexivity; try (exfalso; congruence)).
Qed.
Lemma word_keeps : forall b w c, ~ number_char c -> In c b -> Forall (fun a => 97 <= a <= 122) w -> str_eqb (map lower b) w = false.
Proof.
  intros b w c NC I W. destruct (str_eqb (map lower b) w) eqn:E; [|reflexivity]. exfalso. apply str_eqb_eq in E. apply (in_map lower) in I. rewrite E in I. rewrite Forall_forall in W. specialize (W _ I). apply NC. unfold number_char. unfold lower in W. destruct ((65 <=? c) && (c <=? 90)) eqn:L; lia.
Qed.
Lemma parse_refused : forall t c, ~ number_char c -> In c t -> parse_float t = (f_zero, PSyntax).
Proof.
  intros t c NC I. unfold parse_float. pose proof (sign_keeps t c NC I) as I2. destruct (take_sign t) as [neg b]. cbn [snd] in I2. cbv zeta.
  rewrite (word_keeps b (bs "inf") c NC I2 ltac:(vm_compute; repeat (constructor; [split; discriminate|]); constructor)), (word_keeps b (bs "infinity") c NC I2 ltac:(vm_compute; repeat (constructor; [split; discriminate|]); constructor)), (word_keeps t (bs "nan") c NC I ltac:(vm_compute; repeat (constructor; [split; discriminate|]); constructor)). cbn [orb].
  set (hb := match b with 48 :: x :: (_ :: _) as r => if lower x =? 120 then (true, skipn 2 b) else (false, b) | _ => (false, b) end).
  assert (I3 : In c (snd hb)).
  { unfold hb. destruct b as [|a b1]; [exact I2|]. destruct (Z.eq_dec a 48) as [->|NA].
    - destruct b1 as [|x [|y b2]]; try exact I2. destruct (lower x =? 120) eqn:EX; [|exact I2]. cbn [snd skipn]. destruct I2 as [<-|[<-|I2]]; [destruct NC; left; lia| |exact I2]. exfalso. apply NC. unfold number_char. unfold lower in EX. destruct ((65 <=? x) && (x <=? 90)) eqn:L; lia.
    - assert (E : (match a :: b1 with 48 :: x :: (_ :: _) as r => if lower x =? 120 then (true, skipn 2 (a :: b1)) else (false, a :: b1) | _ => (false, a :: b1) end) = (false, a :: b1)); [|rewrite E; exact I2]. clear - NA. destruct a as [|q|q]; try reflexivity. do 6 (destruct q as [q|q|]; try reflexivity; try (exfalso; congruence)). }
  clearbody hb. destruct hb as [hex body]. cbn [snd] in I3. pose proof (mant_keeps hex body 0 0 0 false false c NC I3) as I4. destruct (scan_mant hex body 0 0 0 false false) as [[[[m nd] nf] us1] r]. cbn [snd] in I4.
  destruct (nd =? 0); [reflexivity|]. destruct r as [|d r1]; [destruct I4|]. destruct (lower d =? (if hex then 112 else 101)) eqn:ED; [|reflexivity].
  assert (I5 : In c r1). { destruct I4 as [<-|I4]; [|exact I4]. exfalso. apply NC. unfold number_char. unfold lower in ED. destruct ((65 <=? d) && (d <=? 90)) eqn:L; [lia|]. destruct hex; lia. }
  pose proof (sign_keeps r1 c NC I5) as I6. destruct (take_sign r1) as [en r2]. cbn [snd] in I6. destruct r2 as [|d2 r3]; [reflexivity|]. destruct (is_digit d2); [|reflexivity].
  pose proof (exp_keeps (d2 :: r3) 0 us1 c NC I6) as I7. destruct (scan_exp (d2 :: r3) 0 us1) as [[e us2] r4]. cbn [snd] in I7. destruct r4; [destruct I7|reflexivity].
Qed.
Theorem C113_refused : forall t c z0, In c t -> ~ number_char c -> M_simple.scan_one t (DF64 z0) = (DF64 f_zero, Some errNumSyntax).
Proof. intros t c z0 I NC. cbn [M_simple.scan_one]. rewrite (parse_refused t c NC I). reflexivity. Qed.
(** So with separators of thousands no amount from a thousand on can be read. *)
Lemma thousands_comma : forall ip u, in_thousands ip u -> 4 <= zlen ip -> In 44 u.
Proof.
  intros ip u (g & gs & E & -> & L & F) Hz. destruct gs as [|g2 gs]; [exfalso; subst ip; cbn [List.concat] in Hz; rewrite app_nil_r in Hz; lia|].
  change (join [44] (g :: g2 :: gs)) with (g ++ [44] ++ join [44] (g2 :: gs)). apply in_or_app. right. left. reflexivity.
Qed.
Theorem C113_separators_refuted : forall x id v neg n z0, In id [4; 62] -> amount v neg n 2 -> 100000 <= n ->
  exists t, fx_apply x id (GF64 v) = Ok (t, true) /\ M_simple.scan_one t (DF64 z0) = (DF64 f_zero, Some errNumSyntax).
Proof.
  intros x id v neg n z0 I A N. destruct (C113_separated x id v neg n I A) as (ip & fp & u & D & T & E). eexists. split; [exact E|]. apply C113_refused with 44.
  - apply in_or_app. right. apply in_or_app. left. apply (thousands_comma ip u T). destruct D as (D1 & D2 & _ & L & V & _).
    destruct (Z_le_gt_dec 4 (zlen ip)) as [|G]; [assumption|exfalso]. rewrite spelled_app, L in V. pose proof (spelled_lt ip D1). pose proof (spelled_lt fp D2). rewrite L in *. pose proof (spelled_nonneg ip D1).
    assert (10 ^ zlen ip <= 10 ^ 3) by (apply Z.pow_le_mono_r; lia). change (10 ^ 3) with 1000 in *. change (10 ^ 2) with 100 in *. lia.
  - unfold number_char. cbn. intros [?|[?|[?|C]]]; [lia..|]. repeat (destruct C as [C|C]; [discriminate C|]). exact C.
Qed.

(** ** amounts in workbooks *)
Lemma dec_small : forall neg n p, 0 <= n < 10 ^ 15 -> 0 <= p -> (Rabs (dec_value neg n p 0) <= bpow radix2 1023)%R.
Proof.
  intros neg n p N P. apply Rle_trans with (IZR (10 ^ 15)); [|apply Rle_trans with (bpow radix2 50); [change (bpow radix2 50) with (IZR (2 ^ 50)); apply IZR_le; vm_compute; discriminate|apply bpow_le; lia]].
  assert (Q0 : (1 <= IZR (10 ^ p))%R) by (apply IZR_le; pose proof (Z.pow_pos_nonneg 10 p); lia). assert (I : (0 < / IZR (10 ^ p) <= 1)%R) by (split; [apply Rinv_0_lt_compat; lra|rewrite <- Rinv_1; apply Rinv_le; lra]).
  assert (N0 : (0 <= IZR n <= IZR (10 ^ 15))%R) by (split; apply IZR_le; lia).
  assert (E : dec_value false n p 0 = (IZR n * / IZR (10 ^ p))%R) by (unfold dec_value; destruct (Z.leb_spec p 0); [assert (p = 0) by lia; subst p; rewrite Z.sub_diag; simpl; lra|rewrite Z.sub_0_r; ring]).
  assert (B : (0 <= dec_value false n p 0 <= IZR (10 ^ 15))%R) by (rewrite E; split; [apply Rmult_le_pos; lra|apply Rle_trans with (IZR n * 1)%R; [apply Rmult_le_compat_l; lra|lra]]).
  rewrite dec_value_neg, Rabs_mult. rewrite (Rabs_pos_eq (dec_value _ _ _ _)) by apply B. destruct neg; [rewrite Rabs_left by lra|rewrite Rabs_pos_eq by lra]; lra.
Qed.
Lemma dec_fits : forall neg n p, 0 <= n < 10 ^ 15 -> 0 <= p -> fits64 (dec_value neg n p 0).
Proof. intros neg n p N P. unfold fits64. change near64 with RN. apply bpow_emax_big. apply dec_small; auto. Qed.
(** A number cell of an XLSX sheet whose text is a decimal numeral, however it is spelled, of an amount
    with p decimals gets the float64 that is this amount. *)
Theorem C113_xlsx : forall strs t neg m nf x n p, S_numtext.numeral t neg m nf x -> Z.abs x < 100000 \/ zlen t <= 9000 ->
  0 <= n < 10 ^ 15 -> 0 <= p -> dec_value neg m nf x = dec_value neg n p 0 ->
  exists v, cell_text_value strs (bs "n") t = Ok (Some (GF64 v)) /\ amount v neg n p.
Proof.
  intros strs t neg m nf x n p H L N P E. destruct (C109_xlsx_number strs t neg m nf x H L) as (a & NA & A1 & _). rewrite E in NA, A1.
  pose proof (dec_fits neg n p N P) as FT. exists a. split; [exact (A1 FT)|]. split; [exact (proj1 (proj1 (proj2 NA) FT))|]. split; [exact N|exact NA].
Qed.
(** An RK number of an XLS sheet stored as a whole double to be divided by 100 is the amount with two
    decimals. *)
Lemma sign_of_whole : forall (v : f64) z, f_is_finite v = true -> z <> 0 -> B2R v = IZR z -> Bsign v = (z <? 0).
Proof.
  intros v z F NZ V. destruct v as [s|s| |s m e B]; try discriminate F.
  - simpl in V. symmetry in V. apply eq_IZR_R0 in V. contradiction.
  - change (Bsign (B754_finite s m e B)) with s. destruct s.
    + assert (B2R (B754_finite true m e B) < 0)%R by (unfold B2R; apply F2R_lt_0; reflexivity). rewrite V in H. apply lt_IZR in H. symmetry. apply Z.ltb_lt. exact H.
    + assert (0 < B2R (B754_finite false m e B))%R by (unfold B2R; apply F2R_gt_0; reflexivity). rewrite V in H. apply lt_IZR in H. symmetry. apply Z.ltb_ge. lia.
Qed.
Theorem C113_rk : forall r z, 0 <= r < 4294967296 -> r mod 4 = 1 -> f_is_finite (rk_double r) = true -> B2R (rk_double r) = IZR z -> z <> 0 -> Z.abs z < 10 ^ 15 ->
  exists v, rk_goval r = GF64 v /\ amount v (z <? 0) (Z.abs z) 2.
Proof.
  intros r z R M F V NZ B. rewrite (C49_double_100 r R M). eexists. split; [reflexivity|]. pose proof (sign_of_whole _ z F NZ V) as SV. set (w := rk_double r) in *. clearbody w.
  destruct (f_of_Z_exact 100 ltac:(lia)) as [EH FH]. assert (SH : Bsign (f_of_Z 100) = false) by (apply (sign_of_whole _ 100 FH); [lia|exact EH]). set (h := f_of_Z 100) in *. clearbody h.
  assert (DV : (B2R w / B2R h)%R = dec_value (z <? 0) (Z.abs z) 2 0).
  { rewrite V, EH, dec_value_neg. unfold dec_value. change (2 <=? 0) with false. change (IZR (10 ^ (2 - 0))) with 100%R. destruct (Z.ltb_spec z 0); [rewrite Z.abs_neq by lia; rewrite opp_IZR|rewrite Z.abs_eq by lia]; field. }
  assert (N : 0 <= Z.abs z < 10 ^ 15) by lia. pose proof (dec_fits (z <? 0) (Z.abs z) 2 N ltac:(lia)) as FT. pose proof (dec_small (z <? 0) (Z.abs z) 2 N ltac:(lia)) as SM.
  assert (H0 : B2R h <> 0%R) by (rewrite EH; apply IZR_neq; lia). pose proof (Bdiv_correct 53 1024 prec53 prec_emax mode_NE w h H0) as C. simpl round_mode in C. rewrite Rlt_bool_true in C by (rewrite DV; apply bpow_emax_big; exact SM).
  destruct C as (C1 & C2 & C3). change (Bdiv mode_NE w h) with (fdiv w h) in *. assert (FD : f_is_finite (fdiv w h) = true) by (unfold f_is_finite; rewrite C2; exact F).
  assert (SD : Bsign (fdiv w h) = (z <? 0)) by (rewrite C3; [rewrite SV, SH; apply xorb_false_r|destruct (fdiv w h); try discriminate FD; reflexivity]).
  split; [exact FD|]. split; [exact N|]. split; [exact SD|]. split; [|intros Q; contradiction]. intros _. split; [exact FD|]. rewrite C1, DV. reflexivity.
Qed.

(** ** amounts *)
Local Transparent f_of_dec.
Example ex_C113 : amount (fl (bs "-1234567.89")) true 123456789 2 /\ amount_digits 123456789 2 (bs "1234567") (bs "89").
Proof.
  split; [|repeat split; try discriminate; repeat constructor; vm_compute; discriminate].
  destruct (C109_scan_float (bs "-1234567.89") true 123456789 2 0 f_zero) as (a & NA & A1 & A2).
  - apply (digits_numeral true 123456789 2 (bs "1234567") (bs "89")). repeat split; try discriminate; repeat constructor; vm_compute; discriminate.
  - left. simpl. lia.
  - assert (EA : a = fl (bs "-1234567.89")).
    { destruct (Rlt_le_dec (Rabs (near64 (dec_value true 123456789 2 0))) (bpow radix2 1024)) as [L|L].
      - specialize (A1 L). change (M_simple.scan_one (bs "-1234567.89") (DF64 f_zero)) with (DF64 (fst (parse_float (bs "-1234567.89"))), num_err (snd (parse_float (bs "-1234567.89")))) in A1. apply (f_equal (fun q => match fst q with DF64 z => z | _ => a end)) in A1. cbn [fst] in A1. rewrite <- A1. reflexivity.
      - exfalso. assert (NF : ~ fits64 (dec_value true 123456789 2 0)) by (unfold fits64; lra). specialize (A2 NF). assert (C : snd (M_simple.scan_one (bs "-1234567.89") (DF64 f_zero)) = None) by (vm_compute; reflexivity). rewrite A2 in C. discriminate C. }
    subst a. split; [vm_compute; reflexivity|]. split; [lia|exact NA].
Qed.
Example ex_C113_whole : let v := f_of_Z 123456789012 in f_is_finite v = true /\ B2R v = IZR 123456789012 /\ write_text new_formatter (WPut (GF64 v) 1) (bs "123456789012").
Proof.
  intros v. destruct (f_of_Z_exact 123456789012 ltac:(lia)) as [E F]. split; [exact F|]. split; [exact E|].
  assert (TI : f_to_int64 v = 123456789012) by (vm_compute; reflexivity).
  exists (bs "integer"), (bs "0"). right. split; [intros [C|[C|[C|C]]]; discriminate C|]. exists (GInt KInt64 123456789012), IntegerCell. split.
  { exists (GF64 v), FloatCell. split; [constructor|]. left. split; [discriminate|]. exists IntegerCell. split; [reflexivity|]. split; [discriminate|]. rewrite <- TI. constructor. }
  split; [reflexivity|]. split; [discriminate|]. split; [intros _; vm_compute; reflexivity|]. left. exists (bs "0"). split; [right; left; reflexivity|reflexivity].
Qed.

(** 1.2345E+3 is 1234.50; the RK number 40934801 is 1234 over 100 *)
Example ex_C113_xlsx : S_numtext.numeral (bs "1.2345E+3") false 12345 4 3 /\ dec_value false 12345 4 3 = dec_value false 123450 2 0.
Proof.
  split.
  - assert (H := a_numeral [] false (bs "1") (bs ".2345") (bs "2345") (bs "E+3") 3). assert (D : forall l, forallb (fun c => (48 <=? c) && (c <=? 57)) l = true -> Forall dig l) by (intros l E; apply Forall_forall; intros c I; rewrite forallb_forall in E; specialize (E c I); apply andb_prop in E; unfold dig; lia).
    apply H; [constructor|apply D; reflexivity|apply (ft_some (bs "2345")); apply D; reflexivity|discriminate|].
    apply (ep_some 69 (bs "+3") 3); [right; reflexivity|]. apply (an_int [43] false (bs "3")); [constructor|apply D; reflexivity|discriminate].
  - unfold dec_value. change (4 <=? 3) with false. change (2 <=? 0) with false. change (IZR (10 ^ (4 - 3))) with 10%R. change (IZR (10 ^ (2 - 0))) with 100%R. lra.
Qed.
Example ex_C113_rk : let r := 1083394048 + 1 in r mod 4 = 1 /\ f_is_finite (rk_double r) = true /\ B2R (rk_double r) = IZR 1234.
Proof. intros r. split; [reflexivity|]. split; [vm_compute; reflexivity|]. assert (E : rk_double r = f_of_Z 1234) by (apply B2SF_inj; vm_compute; reflexivity). rewrite E. exact (proj1 (f_of_Z_exact 1234 ltac:(lia))). Qed.

Print Assumptions C113_shown.
Print Assumptions C113_separated.
Print Assumptions C113_custom.
Print Assumptions C113_read.
Print Assumptions C113_exported.
Print Assumptions C113_whole.
Print Assumptions C113_whole_exported.
Print Assumptions C113_refused.
Print Assumptions C113_separators_refuted.
Print Assumptions C113_xlsx.
Print Assumptions C113_rk.
