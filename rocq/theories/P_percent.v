(** * P_percent: property C115 — percentages are shown exactly *)
From Coq Require Import Permutation Reals Lra Psatz.
From Flocq Require Import Core Relative IEEE754.BinarySingleNaN.
From Verif Require Import P_formats M_tsv P_tsv GoBase GoFloat M_grate M_value M_fmt M_formats M_cell M_sheet M_simple M_biff M_xls M_xlsx M_open M_cmd S_cell S_sheet S_grid S_formats S_display S_text S_custom L_base L_float L_round S_simple S_grate S_cfb S_open P_simple P_open P_refuse P_cmd P_text P_custom P_again S_numtext S_general P_numtext L_short P_general S_trip P_trip S_xlstr M_xlstr P_xlstr S_amount P_amount.
From Verif Require P_codes.
Open Scope Z_scope.
Local Opaque f_of_dec.

(** the product with 100, rounded, is still next to the amount *)
Lemma percent_close : forall v neg n p, amount v neg n (p + 2) -> 0 <= p <= 298 ->
  (Rabs (Rabs (RN (B2R v * 100)) * IZR (10 ^ p) - IZR n) <= 3 / 8)%R /\ (Rabs (B2R v * 100) <= bpow radix2 51)%R.
Proof.
  intros v neg n p A P. pose proof (amount_close v neg n (p + 2) A ltac:(lia)) as C. destruct A as (_ & N & _). rewrite Z.pow_add_r in C by lia. rewrite mult_IZR in C. change (IZR (10 ^ 2)) with 100%R in C.
  set (Q := IZR (10 ^ p)) in *. assert (Q0 : (1 <= Q)%R) by (apply IZR_le; pose proof (Z.pow_pos_nonneg 10 p); lia). assert (Q1 : (Q <= IZR (10 ^ 298))%R) by (apply IZR_le; apply Z.pow_le_mono_r; lia).
  assert (N0 : (0 <= IZR n <= 1000000000000000)%R) by (split; apply IZR_le; lia).
  set (D := (B2R v * 100)%R). assert (AD : (Rabs D = Rabs (B2R v) * 100)%R) by (unfold D; rewrite Rabs_mult, (Rabs_pos_eq 100) by lra; reflexivity).
  assert (C2 : (Rabs (Rabs D * Q - IZR n) <= / 4)%R) by (replace (Rabs D * Q)%R with (Rabs (B2R v) * (Q * 100))%R by (rewrite AD; ring); exact C). clear C AD. clearbody D. apply Rabs_le_inv in C2.
  assert (DQ : (Rabs D * Q <= 1000000000000001)%R) by lra. pose proof (Rabs_pos D) as D0. split.
  - destruct (error_N_FLT radix2 (-1074) 53 ltac:(reflexivity) (fun x => negb (Z.even x)) D) as (eps & eta & E1 & E2 & _ & E3).
    assert (E4 : RN D = (D * (1 + eps) + eta)%R) by exact E3. rewrite E4. clear E3 E4.
    assert (B1 : (Rabs (Rabs (D * (1 + eps) + eta) - Rabs D) <= Rabs D * Rabs eps + Rabs eta)%R).
    { eapply Rle_trans; [apply Rabs_triang_inv2|]. replace (D * (1 + eps) + eta - D)%R with (D * eps + eta)%R by ring. eapply Rle_trans; [apply Rabs_triang|]. rewrite Rabs_mult. lra. }
    assert (B2 : (Rabs D * Q * Rabs eps <= 9 / 80)%R).
    { change (bpow radix2 (-53 + 1)) with (/ 4503599627370496)%R in E1. apply Rle_trans with (1000000000000001 * (/ 2 * / 4503599627370496))%R; [apply Rmult_le_compat; [apply Rmult_le_pos; lra|apply Rabs_pos|exact DQ|exact E1]|clear; lra]. }
    assert (B3 : (Rabs eta * Q <= / 80)%R).
    { apply Rle_trans with (/ 2 * bpow radix2 (-1074) * IZR (10 ^ 298))%R; [apply Rmult_le_compat; [apply Rabs_pos|lra|exact E2|exact Q1]|].
      assert (IZR (10 ^ 298) <= bpow radix2 1000)%R by (change (bpow radix2 1000) with (IZR (2 ^ 1000)); apply IZR_le; vm_compute; discriminate).
      pose proof (bpow_gt_0 radix2 (-1074)). assert (bpow radix2 (-1074) * bpow radix2 1000 = bpow radix2 (-74))%R by (rewrite <- bpow_plus; reflexivity). assert (bpow radix2 (-74) <= bpow radix2 (-7))%R by (apply bpow_le; lia). change (bpow radix2 (-7)) with (/ 128)%R in *. nra. }
    replace (Rabs (D * (1 + eps) + eta) * Q - IZR n)%R with ((Rabs (D * (1 + eps) + eta) - Rabs D) * Q + (Rabs D * Q - IZR n))%R by ring.
    eapply Rle_trans; [apply Rabs_triang|]. rewrite Rabs_mult, (Rabs_pos_eq Q) by lra. assert (B4 : (Rabs (Rabs D * Q - IZR n) <= / 4)%R) by (apply Rabs_le; lra).
    assert (B5 : (Rabs (Rabs (D * (1 + eps) + eta) - Rabs D) * Q <= (Rabs D * Rabs eps + Rabs eta) * Q)%R) by (apply Rmult_le_compat_r; lra).
    replace ((Rabs D * Rabs eps + Rabs eta) * Q)%R with (Rabs D * Q * Rabs eps + Rabs eta * Q)%R in B5 by ring. lra.
  - apply Rle_trans with (1000000000000001)%R; [|change (bpow radix2 51) with 2251799813685248%R; lra]. apply Rle_trans with (Rabs D * Q)%R; [|exact DQ]. rewrite <- (Rmult_1_r (Rabs D)) at 1. apply Rmult_le_compat_l; lra.
Qed.
Lemma percent_split : forall v neg n p t, amount v neg n (p + 2) -> 0 <= p <= 298 -> shows_fixed p (RN (B2R v * 100)) (Bsign v) t ->
  exists ip fp, t = (if neg then [45] else []) ++ ip ++ [46] ++ fp /\ amount_digits n p ip fp.
Proof.
  intros v neg n p t A P (ip & fp & E & NE & D1 & D2 & L & Z0 & B). destruct (percent_close v neg n p A P) as [C _]. destruct A as (F & N & (S & _)). rewrite S in E. exists ip, fp. split; [exact E|].
  repeat split; auto. rewrite <- value_spelled. set (m := value (ip ++ fp)) in *. clearbody m. set (X := (Rabs (RN (B2R v * 100)) * IZR (10 ^ p))%R) in *. clearbody X.
  assert (T : (Rabs (IZR (m - n)) < 1)%R) by (rewrite minus_IZR; replace (IZR m - IZR n)%R with ((IZR m - X) + (X - IZR n))%R by ring; eapply Rle_lt_trans; [apply Rabs_triang|]; lra).
  rewrite <- abs_IZR in T. apply lt_IZR in T. lia.
Qed.

(** ** C115 *)
(** A share with four decimals under 0.00% is shown as exactly that percentage. *)
Theorem C115_shown : forall x id v neg n, In id [10; 68] -> amount v neg n 4 ->
  exists ip fp, amount_digits n 2 ip fp /\ fx_apply x id (GF64 v) = Ok (minus neg ++ ip ++ bs "." ++ fp ++ bs "%", true).
Proof.
  intros x id v neg n I A. destruct (percent_close v neg n 2 A ltac:(lia)) as [_ B]. destruct (C29_decimals x id v I (proj1 A)) as [G _]. destruct G as (t & E & S).
  { unfold too_large. intros C. assert (Rabs (RN (B2R v * 100)) < bpow radix2 1024)%R by (apply bpow_emax_big; apply Rle_trans with (1 := B); apply bpow_le; lia). lra. }
  destruct (percent_split v neg n 2 t A ltac:(lia) S) as (ip & fp & T & D). exists ip, fp. split; [exact D|]. rewrite E, T. unfold minus. rewrite <- !app_assoc. reflexivity.
Qed.
(** ... and so under every custom percent code with p decimals, for shares with p + 2 decimals. *)
Theorem C115_custom : forall x id pre group p post v neg n, reach_fx x -> free_id x id ->
  lits_ok pre -> lits_ok post -> In LPct pre \/ In LPct post -> 1 <= Z.of_nat p <= 298 -> amount v neg n (Z.of_nat p + 2) ->
  let code := number_code pre group (Fixed p) post in let x' := fst (fx_add x id code) in
  snd (fx_add x id code) = None /\
  exists ip fp u, amount_digits n (Z.of_nat p) ip fp /\ grouped group ip u /\
    let t := lits_show pre ++ minus neg ++ u ++ bs "." ++ fp ++ lits_show post in
    puts x' id (GF64 v) t /\ fx_apply x' id (GF64 v) = Ok (t, true).
Proof.
  intros x id pre group p post v neg n X I L1 L2 N P A code x'. destruct (percent_close v neg n (Z.of_nat p) A ltac:(lia)) as [_ B].
  assert (B2 : (Rabs (B2R v) <= bpow radix2 1000)%R) by (rewrite Rabs_mult, (Rabs_pos_eq 100) in B by lra; pose proof (Rabs_pos (B2R v)); apply Rle_trans with (bpow radix2 51); [lra|apply bpow_le; lia]).
  destruct (C82_percent x id pre group p post v X I L1 L2 N ltac:(lia) (proj1 A) B2) as (E & ip & fp & u & S & D & G & R). split; [exact E|].
  destruct (percent_split v neg n (Z.of_nat p) _ A ltac:(lia) S) as (ip' & fp' & T & D').
  assert (SV : Bsign v = neg) by (destruct A as (_ & _ & (SV & _)); exact SV). rewrite SV in T, R. unfold minus in T. apply app_inv_head in T.
  assert (K : ip = ip' /\ fp = fp') by (apply split_point; [| |exact T]; [exact D|exact (proj1 D')]). destruct K as [-> ->].
  exists ip', fp', u. split; [exact D'|]. split; [exact G|exact R].
Qed.
(** Such a text is not a number for Scan: the amount does not come back from it. *)
Theorem C115_not_read_refuted : forall x id v neg n z0, In id [10; 68] -> amount v neg n 4 ->
  exists t, fx_apply x id (GF64 v) = Ok (t, true) /\ M_simple.scan_one t (DF64 z0) = (DF64 f_zero, Some errNumSyntax).
Proof.
  intros x id v neg n z0 I A. destruct (C115_shown x id v neg n I A) as (ip & fp & _ & E). eexists. split; [exact E|]. apply C113_refused with 37.
  - apply in_or_app. right. apply in_or_app. right. apply in_or_app. right. apply in_or_app. right. left. reflexivity.
  - unfold number_char. cbn. intros [?|[?|[?|C]]]; [lia..|]. repeat (destruct C as [C|C]; [discriminate C|]). exact C.
Qed.

(** the float64 read from a numeral is an amount *)
Lemma fl_amount : forall (neg : bool) n p ip fp, amount_digits n p ip fp -> 0 <= n < 10 ^ 15 ->
  let s := (if neg then [45] else []) ++ ip ++ [46] ++ fp in
  snd (M_simple.scan_one s (DF64 f_zero)) = None -> f_is_finite (fl s) = true -> amount (fl s) neg n p.
Proof.
  intros neg n p ip fp D N s OK F. destruct (C109_scan_float s neg n p 0 f_zero) as (a & NA & A1 & A2).
  - apply (digits_numeral neg n p ip fp). exact D.
  - left. simpl. lia.
  - assert (EA : a = fl s).
    { destruct (Rlt_le_dec (Rabs (near64 (dec_value neg n p 0))) (bpow radix2 1024)) as [L|L].
      - specialize (A1 L). cbn [M_simple.scan_one] in A1. destruct (parse_float s) as [z e] eqn:EP. assert (EF : fl s = z) by (unfold fl; rewrite EP; reflexivity). rewrite EF. clear EF F. apply (f_equal (fun q => match fst q with DF64 z => z | _ => a end)) in A1. cbn [fst] in A1. rewrite <- A1. reflexivity.
      - exfalso. assert (NF : ~ fits64 (dec_value neg n p 0)) by (unfold fits64; lra). specialize (A2 NF). rewrite A2 in OK. discriminate OK. }
    subst a. split; [exact F|]. split; [exact N|exact NA].
Qed.
Ltac digits := repeat split; try discriminate; repeat constructor; try (vm_compute; discriminate); try (intros r E; injection E as E; subst; reflexivity).

(** Whole percentages under 0% are shown as they are or one less: never more, never further off. *)
Theorem C115_whole : forall x id v neg n, In id [9; 67] -> amount v neg n 2 ->
  exists t k, fx_apply x id (GF64 v) = Ok (t ++ bs "%", true) /\ (k = n \/ k = n - 1) /\ 0 <= k /\ S_formats.numeral (if neg then - k else k) t.
Proof.
  intros x id v neg n I A. destruct (percent_close v neg n 0 A ltac:(lia)) as [C B]. destruct (C29_truncates x id v I (proj1 A)) as (t & E & N). cbv zeta in N.
  set (w := RN (B2R v * 100)) in *. change (IZR (10 ^ 0)) with 1%R in C. rewrite Rmult_1_r in C. apply Rabs_le_inv in C.
  assert (N15 : 0 <= n < 10 ^ 15) by exact (proj1 (proj2 A)). set (k := Ztrunc (Rabs w)).
  assert (K0 : 0 <= k) by (unfold k; rewrite <- (Ztrunc_IZR 0); apply Ztrunc_le; apply Rabs_pos).
  assert (K1 : (IZR k <= Rabs w < IZR k + 1)%R) by (unfold k; rewrite Ztrunc_floor by apply Rabs_pos; split; [apply Zfloor_lb|apply Zfloor_ub]).
  assert (K2 : k < n + 1) by (apply lt_IZR; rewrite plus_IZR; lra). assert (K3 : n - 1 < k + 1) by (apply lt_IZR; rewrite minus_IZR, plus_IZR; lra).
  assert (K4 : Ztrunc w = if neg then - k else k).
  { assert (SG : if neg then (w <= 0)%R else (0 <= w)%R).
    { destruct A as (F & _ & (SV & _)). assert (SB : if neg then (B2R v * 100 <= 0)%R else (0 <= B2R v * 100)%R).
      { destruct neg.
        - destruct (Rle_lt_dec (B2R v) 0) as [|L]; [lra|]. destruct (P_codes.pos_class v F L) as [_ S]. rewrite S in SV. discriminate SV.
        - destruct (Rle_lt_dec 0 (B2R v)) as [|L]; [lra|]. destruct (P_codes.neg_class v F L) as [_ S]. rewrite S in SV. discriminate SV. }
      assert (R0 : RN 0 = 0%R) by (apply round_0; typeclasses eauto).
      unfold w. destruct neg; rewrite <- R0; apply round_le; try typeclasses eauto; exact SB. }
    unfold k. destruct neg; [rewrite (Rabs_left1 w SG), Ztrunc_opp; lia|rewrite (Rabs_pos_eq w SG); reflexivity]. }
  rewrite K4 in N. assert (RG : (- 2 ^ 63 <=? (if neg then - k else k)) && ((if neg then - k else k) <? 2 ^ 63) = true) by (assert (k < 2 ^ 63) by lia; destruct neg; lia).
  rewrite RG in N. exists t, k. split; [exact E|]. split; [lia|]. split; [exact K0|exact N].
Qed.

(** Violated for whole percentages: 0% cuts, so that 0.29 is shown as 28%. *)
Theorem C115_whole_refuted : exists v, amount v false 29 2 /\ forall x id, In id [9; 67] -> fx_apply x id (GF64 v) = Ok (bs "28%", true).
Proof.
  exists (fl (bs "0.29")). split.
  - apply (fl_amount false 29 2 (bs "0") (bs "29")); [digits|lia|vm_compute; reflexivity|vm_compute; reflexivity].
  - intros x id I. destruct I as [<-|[<-|[]]]; vm_compute; reflexivity.
Qed.

(** a share of -12.35 per cent, and 1234.567 per cent under #,##0.000% *)
Example ex_C115 : amount (fl (bs "-0.1235")) true 1235 4 /\ fx_apply new_formatter 10 (GF64 (fl (bs "-0.1235"))) = Ok (bs "-12.35%", true).
Proof. split; [|vm_compute; reflexivity]. apply (fl_amount true 1235 4 (bs "0") (bs "1235")); [digits|lia|vm_compute; reflexivity|vm_compute; reflexivity]. Qed.
Example ex_C115_custom : amount (fl (bs "12.34567")) false 1234567 5 /\ number_code [] true (Fixed 3) [LPct] = bs "#,##0.000%" /\
  lits_ok [LPct] /\ fx_apply (fst (fx_add new_formatter 170 (bs "#,##0.000%"))) 170 (GF64 (fl (bs "12.34567"))) = Ok (bs "1,234.567%", true).
Proof.
  split; [apply (fl_amount false 1234567 5 (bs "12") (bs "34567")); [digits|lia|vm_compute; reflexivity|vm_compute; reflexivity]|].
  split; [reflexivity|]. split; [|vm_compute; reflexivity]. repeat constructor.
Qed.

Print Assumptions C115_shown.
Print Assumptions C115_custom.
Print Assumptions C115_not_read_refuted.
Print Assumptions C115_whole.
Print Assumptions C115_whole_refuted.
