(** * P_sciamount: property C116 — scientific notation is exact and reads back *)
From Coq Require Import Permutation Reals Lra Psatz.
From Flocq Require Import Core Relative IEEE754.BinarySingleNaN.
From Verif Require Import P_formats M_tsv P_tsv GoBase GoFloat M_grate M_value M_fmt M_formats M_cell M_sheet M_simple M_biff M_xls M_xlsx M_open M_cmd S_cell S_sheet S_grid S_formats S_display S_text S_custom L_base L_float L_round S_simple S_grate S_cfb S_open P_simple P_open P_refuse P_cmd P_text P_custom P_again S_numtext S_general P_numtext L_short P_general S_trip P_trip S_xlstr M_xlstr P_xlstr S_amount P_amount S_sciamount.
From Verif Require P_display.
Open Scope Z_scope.
Local Opaque f_of_dec.

Lemma dec_abs : forall neg n p k, 0 <= n -> (Rabs (dec_value neg n p k) * powerRZ 10 (p - k) = IZR n)%R.
Proof.
  intros neg n p k N. assert (D : dec_value false n p k = (IZR n * powerRZ 10 (k - p))%R).
  { unfold dec_value. destruct (Z.leb_spec p k); [rewrite P10_Z by lia; lra|]. rewrite <- P10_Z by lia. replace (k - p) with (- (p - k)) by lia. rewrite powerRZ_neg' . lra. }
  assert (0 <= IZR n)%R by (apply IZR_le; lia). pose proof (P10_pos (k - p)). rewrite dec_value_neg, Rabs_mult, D. rewrite (Rabs_pos_eq (IZR n * _)) by (apply Rmult_le_pos; lra).
  assert (S : (Rabs (if neg then -1 else 1) = 1)%R) by (destruct neg; [rewrite Rabs_left; lra|rewrite Rabs_pos_eq; lra]). rewrite S, Rmult_1_l, Rmult_assoc, <- P10_add. replace (k - p + (p - k)) with 0 by lia. simpl. lra.
Qed.
Lemma sci_fits : forall v neg n p k, sci_amount v neg n p k -> fits64 (dec_value neg n p k) /\ Bsign v = neg /\ B2R v = near64 (dec_value neg n p k).
Proof.
  intros v neg n p k (F & N & (S & R1 & R2)). assert (FT : fits64 (dec_value neg n p k)).
  { destruct (Rlt_le_dec (Rabs (near64 (dec_value neg n p k))) (bpow radix2 1024)); [auto|]. rewrite R2 in F by (unfold fits64; lra). discriminate. }
  destruct (R1 FT) as [_ V]. auto.
Qed.
(** the float64, scaled, is next to n: by less than 1/20 for the smallest n, by less than 1/4 for all *)
Lemma sci_close : forall v neg n p k, sci_amount v neg n p k -> 0 <= p <= 14 -> -290 <= k ->
  (Rabs (Rabs (B2R v) * powerRZ 10 (p - k) - IZR n) <= IZR n * / 9000000000000000 + / 1000)%R.
Proof.
  intros v neg n p k A P K. destruct (sci_fits v neg n p k A) as (_ & _ & V). destruct A as (_ & N & _). assert (N0 : 0 <= n) by (pose proof (Z.pow_pos_nonneg 10 p); lia).
  pose proof (dec_abs neg n p k N0) as AD. set (Q := powerRZ 10 (p - k)) in *. assert (Q0 : (0 < Q)%R) by apply P10_pos.
  assert (Q1 : (Q <= IZR (10 ^ 304))%R) by (rewrite <- P10_Z by lia; apply P10_le; lia). clearbody Q.
  destruct (error_N_FLT radix2 (-1074) 53 ltac:(reflexivity) (fun x => negb (Z.even x)) (dec_value neg n p k)) as (eps & eta & E1 & E2 & _ & E3).
  assert (E4 : near64 (dec_value neg n p k) = (dec_value neg n p k * (1 + eps) + eta)%R) by exact E3. rewrite V, E4. clear E3 E4 V.
  set (D := dec_value neg n p k) in *. clearbody D. assert (NR : (0 <= IZR n)%R) by (apply IZR_le; lia).
  assert (B1 : (Rabs (Rabs (D * (1 + eps) + eta) - Rabs D) <= Rabs D * Rabs eps + Rabs eta)%R).
  { eapply Rle_trans; [apply Rabs_triang_inv2|]. replace (D * (1 + eps) + eta - D)%R with (D * eps + eta)%R by ring. eapply Rle_trans; [apply Rabs_triang|]. rewrite Rabs_mult. lra. }
  replace (Rabs (D * (1 + eps) + eta) * Q - IZR n)%R with ((Rabs (D * (1 + eps) + eta) - Rabs D) * Q)%R by (rewrite <- AD; ring). rewrite Rabs_mult, (Rabs_pos_eq Q) by lra.
  apply Rle_trans with ((Rabs D * Rabs eps + Rabs eta) * Q)%R; [apply Rmult_le_compat_r; lra|]. replace ((Rabs D * Rabs eps + Rabs eta) * Q)%R with (IZR n * Rabs eps + Rabs eta * Q)%R by (rewrite <- AD; ring).
  apply Rplus_le_compat.
  - apply Rmult_le_compat_l; [exact NR|]. assert (E5 : (Rabs eps <= / 2 * / 4503599627370496)%R) by exact E1. apply Rle_trans with (1 := E5). clear. lra.
  - apply Rle_trans with (/ 2 * bpow radix2 (-1074) * IZR (10 ^ 304))%R; [apply Rmult_le_compat; [apply Rabs_pos|lra|exact E2|exact Q1]|].
    assert (IZR (10 ^ 304) <= bpow radix2 1010)%R by (change (bpow radix2 1010) with (IZR (2 ^ 1010)); apply IZR_le; vm_compute; discriminate).
    pose proof (bpow_gt_0 radix2 (-1074)). assert (bpow radix2 (-1074) * bpow radix2 1010 = bpow radix2 (-64))%R by (rewrite <- bpow_plus; reflexivity). assert (bpow radix2 (-64) <= bpow radix2 (-10))%R by (apply bpow_le; lia). change (bpow radix2 (-10)) with (/ 1024)%R in *. nra.
Qed.
Lemma spelled_bounds : forall c fp p, dig c -> c <> 48 -> Forall dig fp -> zlen fp = p -> 10 ^ p <= spelled (c :: fp) < 10 ^ (p + 1).
Proof.
  intros c fp p C NZ F L. pose proof (spelled_lt fp F). pose proof (spelled_nonneg fp F). pose proof (zlen_nonneg _ fp). cbn [spelled]. rewrite L in *. unfold dig in C. rewrite Z.pow_add_r by lia. assert (0 < 10 ^ p) by (apply Z.pow_pos_nonneg; lia). nia.
Qed.
Lemma sci_shown_exact : forall v neg n p k k' t, sci_amount v neg n p k -> 1 <= p <= 14 -> -290 <= k ->
  shows_sci p (B2R v) (Bsign v) k' t -> sci_text neg n p k t.
Proof.
  intros v neg n p k k' t A P K (c & fp & e & T & D1 & D2 & L & D3 & VE & L2 & LZ & _ & NZ & B & B20).
  pose proof (sci_close v neg n p k A ltac:(lia) K) as C. destruct (sci_fits v neg n p k A) as (_ & S & _). destruct A as (_ & N & _). rewrite S in T. rewrite value_spelled in B, B20, VE.
  assert (P0 : 1 <= 10 ^ p) by (pose proof (Z.pow_pos_nonneg 10 p); lia). assert (P1 : 10 ^ p <= 10 ^ 14) by (apply Z.pow_le_mono_r; lia). assert (P2 : 10 ^ (p + 1) = 10 * 10 ^ p) by (rewrite Z.pow_add_r by lia; lia).
  rewrite P2 in N. set (q := 10 ^ p) in *.
  assert (R1 : (1 <= IZR q <= 100000000000000)%R) by (split; apply IZR_le; lia). assert (R2 : (IZR q <= IZR n <= 10 * IZR q - 1)%R) by (split; [apply IZR_le; lia|rewrite <- mult_IZR, <- minus_IZR; apply IZR_le; lia]).
  set (a := (Rabs (B2R v) * powerRZ 10 (p - k))%R) in *. apply Rabs_le_inv in C.
  assert (A0 : (0 < a)%R) by lra. assert (X0 : B2R v <> 0%R) by (intros E; unfold a in A0; rewrite E, Rabs_R0 in A0; lra). specialize (NZ X0).
  assert (M : 10 ^ p <= spelled (c :: fp) < 10 ^ (p + 1)) by (apply spelled_bounds; auto). rewrite P2 in M. fold q in M.
  set (m := spelled (c :: fp)) in *. assert (R3 : (IZR q <= IZR m <= 10 * IZR q - 1)%R) by (split; [apply IZR_le; lia|rewrite <- mult_IZR, <- minus_IZR; apply IZR_le; lia]).
  set (X := (Rabs (B2R v) * powerRZ 10 (p - k'))%R) in *. assert (XA : X = (a * powerRZ 10 (k - k'))%R) by (unfold X, a; rewrite Rmult_assoc, <- P10_add; do 2 f_equal; lia).
  assert (EK : k' = k).
  { destruct (Z.lt_trichotomy k' k) as [G|[G|G]]; [exfalso|exact G|exfalso].
    - assert (X1 : (10 * a <= X)%R) by (rewrite XA, Rmult_comm; apply Rmult_le_compat_l; [lra|]; apply Rle_trans with (powerRZ 10 1); [simpl; lra|apply P10_le; lia]).
      apply Rabs_le_inv in B. lra.
    - assert (X1 : (X <= a * / 10)%R) by (rewrite XA; apply Rmult_le_compat_l; [lra|]; apply Rle_trans with (powerRZ 10 (-1)); [apply P10_le; lia|simpl; lra]).
      assert (X2 : (0 < X)%R) by (rewrite XA; apply Rmult_lt_0_compat; [lra|apply P10_pos]).
      assert (X3 : (X < IZR q)%R) by lra. specialize (B20 (conj X2 X3)). apply Rabs_le_inv in B20. lra. }
  subst k'. replace (k - k) with 0 in XA by lia. simpl in XA. rewrite Rmult_1_r in XA. apply Rabs_le_inv in B.
  assert (EM : m = n) by (assert (m < n + 1) by (apply lt_IZR; rewrite plus_IZR; lra); assert (n < m + 1) by (apply lt_IZR; rewrite plus_IZR; lra); lia).
  exists c, fp, e. split; [exact T|]. split; [exact D1|]. split; [exact D2|]. split; [exact L|]. split; [exact EM|]. split; [exact D3|]. split; [exact VE|]. split; [exact L2|exact LZ].
Qed.
Lemma sci_numeral : forall neg n p k t, sci_text neg n p k t -> S_numtext.numeral t neg n p k.
Proof.
  intros neg n p k t (c & fp & e & T & D1 & D2 & L & V & D3 & VE & L2 & _). subst t n p.
  assert (H := a_numeral (if neg then [45] else []) neg [c] (46 :: fp) fp (69 :: (if k <? 0 then [45] else [43]) ++ e) k).
  replace ([c; 46] ++ fp ++ [69; if k <? 0 then 45 else 43] ++ e) with ([c] ++ (46 :: fp) ++ 69 :: (if k <? 0 then [45] else [43]) ++ e) by (destruct (k <? 0); reflexivity). apply H.
  - destruct neg; constructor.
  - constructor; [exact D1|constructor].
  - constructor. exact D2.
  - discriminate.
  - constructor; [right; reflexivity|]. assert (NE : e <> []) by (intros ->; rewrite zlen_nil in L2; lia). destruct (Z.ltb_spec k 0).
    + replace k with (- spelled e) by lia. apply (an_int [45] true e); [constructor|exact D3|exact NE].
    + replace k with (spelled e) by lia. apply (an_int [43] false e); [constructor|exact D3|exact NE].
Qed.

(** ** C116 *)
(** A number with three digits and any exponent from -290 on is shown by 0.00E+00 as exactly it. *)
Theorem C116_shown : forall x v neg n k, sci_amount v neg n 2 k -> -290 <= k ->
  exists t, fx_apply x 11 (GF64 v) = Ok (t, true) /\ sci_text neg n 2 k t.
Proof.
  intros x v neg n k A K. destruct (P_display.C81_scientific x v (proj1 A)) as (t & k' & E & S). exists t. split; [exact E|]. apply (sci_shown_exact v neg n 2 k k' t A ltac:(lia) K S).
Qed.
(** ... and so by every custom scientific code with p digits behind the point. *)
Theorem C116_custom : forall x id pre p low minus z post v neg n k, reach_fx x -> free_id x id ->
  lits_ok pre -> lits_ok post -> ~ In LPct pre -> ~ In LPct post -> 1 <= Z.of_nat p <= 14 -> sci_amount v neg n (Z.of_nat p) k -> -290 <= k ->
  let code := number_code pre false (Sci p low minus z) post in let x' := fst (fx_add x id code) in
  snd (fx_add x id code) = None /\
  exists t, sci_text neg n (Z.of_nat p) k t /\
    puts x' id (GF64 v) (lits_show pre ++ t ++ lits_show post) /\
    fx_apply x' id (GF64 v) = Ok (lits_show pre ++ t ++ lits_show post, true).
Proof.
  intros x id pre p low minus z post v neg n k X I L1 L2 N1 N2 P A K code x'.
  destruct (C82_scientific x id pre p low minus z post v X I L1 L2 N1 N2 ltac:(lia) (proj1 A)) as (E & t & k' & S & R). split; [exact E|].
  exists t. split; [apply (sci_shown_exact v neg n (Z.of_nat p) k k' t A P K S)|exact R].
Qed.
(** The text is read by Scan as the float64 it came from. *)
Theorem C116_read : forall v neg n p k t z0, sci_amount v neg n p k -> Z.abs k < 100000 -> sci_text neg n p k t ->
  M_simple.scan_one t (DF64 z0) = (DF64 v, None).
Proof.
  intros v neg n p k t z0 A K T. destruct (C109_scan_float t neg n p k z0 (sci_numeral _ _ _ _ _ T) (or_introl K)) as (a & NA & A1 & _).
  destruct (sci_fits v neg n p k A) as (FT & S & V). rewrite (A1 FT). destruct NA as (S2 & Q1 & _). destruct (Q1 FT) as [F2 V2]. do 2 f_equal. apply B2R_Bsign_inj; [exact F2|exact (proj1 A)| |]; congruence.
Qed.
(** Together: what 0.00E+00 shows of such a number comes back as it. *)
Theorem C116_back : forall x v neg n k z0, sci_amount v neg n 2 k -> -290 <= k < 100000 ->
  exists t, fx_apply x 11 (GF64 v) = Ok (t, true) /\ M_simple.scan_one t (DF64 z0) = (DF64 v, None).
Proof.
  intros x v neg n k z0 A K. destruct (C116_shown x v neg n k A ltac:(lia)) as (t & E & T). exists t. split; [exact E|]. apply (C116_read v neg n 2 k t z0 A ltac:(lia) T).
Qed.

Lemma fl_sci : forall neg n p k t, sci_text neg n p k t -> Z.abs k < 100000 -> 10 ^ p <= n < 10 ^ (p + 1) ->
  snd (M_simple.scan_one t (DF64 f_zero)) = None -> f_is_finite (fl t) = true -> sci_amount (fl t) neg n p k.
Proof.
  intros neg n p k t T K N OK F. destruct (C109_scan_float t neg n p k f_zero (sci_numeral _ _ _ _ _ T) (or_introl K)) as (a & NA & A1 & A2).
  assert (EA : a = fl t).
  { destruct (Rlt_le_dec (Rabs (near64 (dec_value neg n p k))) (bpow radix2 1024)) as [L|L].
    - specialize (A1 L). cbn [M_simple.scan_one] in A1. destruct (parse_float t) as [z e] eqn:EP. assert (EF : fl t = z) by (unfold fl; rewrite EP; reflexivity). rewrite EF. clear EF F. apply (f_equal (fun q => match fst q with DF64 z => z | _ => a end)) in A1. cbn [fst] in A1. rewrite <- A1. reflexivity.
    - exfalso. assert (NF : ~ fits64 (dec_value neg n p k)) by (unfold fits64; lra). specialize (A2 NF). rewrite A2 in OK. discriminate OK. }
  subst a. split; [exact F|]. split; [exact N|exact NA].
Qed.
(** -6.02E+23, and 1.00E-07, the smallest of its power of ten *)
Example ex_C116 : sci_amount (fl (bs "-6.02E+23")) true 602 2 23 /\ sci_amount (fl (bs "1.00E-07")) false 100 2 (-7) /\
  fx_apply new_formatter 11 (GF64 (fl (bs "-6.02E+23"))) = Ok (bs "-6.02E+23", true) /\ fx_apply new_formatter 11 (GF64 (fl (bs "1.00E-07"))) = Ok (bs "1.00E-07", true).
Proof.
  split; [|split; [|split; vm_compute; reflexivity]].
  - apply fl_sci; [|lia|lia|vm_compute; reflexivity|vm_compute; reflexivity]. exists 54, (bs "02"), (bs "23"). repeat split; try discriminate; repeat constructor; vm_compute; discriminate.
  - apply fl_sci; [|lia|lia|vm_compute; reflexivity|vm_compute; reflexivity]. exists 49, (bs "00"), (bs "07"). repeat split; try discriminate; repeat constructor; try (vm_compute; discriminate). intros r E. injection E as <-. reflexivity.
Qed.

Print Assumptions C116_shown.
Print Assumptions C116_custom.
Print Assumptions C116_read.
Print Assumptions C116_back.
