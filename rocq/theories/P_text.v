(** * P_text: C19 (texts under every format) and C29 (percent formats on all finite numbers). *)
From Verif Require Import GoBase GoFloat GoUnicode GoTime L_base L_float M_grate M_value M_dates M_numbers L_numbers
  M_fmt M_formats M_cell M_sheet S_cell L_cell S_sheet L_sheet S_formats L_formats L_ffun L_simple P_formats.
From Coq Require Import Reals Lra Psatz.
From Flocq Require Import Core IEEE754.BinarySingleNaN.
Open Scope Z_scope.

Local Opaque convert_to_date f_of_Z fmul format_f parse_float parse_int time_format.

(** ** C29 *)
(** 100 * v overflows float64 *)
Definition too_large (v : f64) : Prop := (bpow radix2 1024 <= Rabs (RN (B2R v * 100)))%R.
Lemma fmul_100_all : forall v, f_is_finite v = true ->
  let y := fmul v (f_of_Z 100) in
  ((~ too_large v) -> B2R y = RN (B2R v * 100) /\ f_is_finite y = true /\ Bsign y = Bsign v) /\
  (too_large v -> y = B754_infinity (Bsign v)).
Proof.
  Local Transparent fmul.
  intros x F. cbv zeta. destruct (f_of_Z_exact 100) as [O1 O2]; [lia|].
  assert (OS : Bsign (f_of_Z 100) = false) by (vm_compute; reflexivity).
  pose proof (Bmult_correct 53 1024 prec53 prec_emax mode_NE x (f_of_Z 100)) as Hc.
  simpl round_mode in Hc. change (BinarySingleNaN.B2R (f_of_Z 100)) with (B2R (f_of_Z 100)) in Hc. rewrite O1 in Hc.
  unfold too_large. fold (RN (B2R x * 100)) in Hc |- *. change (round radix2 (SpecFloat.fexp 53 1024) ZnearestE (BinarySingleNaN.B2R x * 100)) with (RN (B2R x * 100)) in Hc.
  split; intros H.
  - rewrite Rlt_bool_true in Hc by (change 1024 with 1024 in H; lra).
    destruct Hc as (H1 & H2 & H3). unfold fmul, f_is_finite in *. rewrite H2, F, O2. split; auto. split; auto.
    rewrite H3; [rewrite OS; apply xorb_false_r|].
    rewrite F, O2 in H2. simpl in H2. destruct (Bmult mode_NE x (f_of_Z 100)); auto; discriminate.
  - rewrite Rlt_bool_false in Hc by lra. rewrite OS, xorb_false_r in Hc. unfold fmul. unfold binary_overflow in Hc. simpl in Hc.
    destruct (Bmult mode_NE x (f_of_Z 100)); simpl in Hc; try discriminate. congruence.
  Local Opaque fmul.
Qed.
(** "0.00%" (formats 10 and 68), every finite number: the hundredfold as a float64, correctly rounded to two
    decimals; when the hundredfold is not a float64, the sign and Inf *)
Theorem C29_decimals : forall x id v, In id [10; 68] -> f_is_finite v = true ->
  (~ too_large v -> exists t, fx_apply x id (GF64 v) = Ok (t ++ bs "%", true) /\ shows_fixed 2 (RN (B2R v * 100)) (Bsign v) t) /\
  (too_large v -> fx_apply x id (GF64 v) = Ok (bs (if Bsign v then "-Inf%" else "+Inf%"), true)).
Proof.
  intros x id v Hid F. destruct (fmul_100_all v F) as [G1 G2]. split; intros H.
  - destruct (G1 H) as (E1 & E2 & E3). destruct (two_decimals _ E2) as (t & Ht & _ & Es). rewrite E1, E3 in Ht. exists t. split; auto.
    destruct Hid as [<-|[<-|[]]]; unfold fx_apply; simpl zfind; cbv iota; cbn [ff_eval sprintf_text];
      change (wants_int (sf_42f true)) with false; cbv iota; rewrite Es; reflexivity.
  - specialize (G2 H). destruct Hid as [<-|[<-|[]]]; unfold fx_apply; simpl zfind; cbv iota; cbn [ff_eval sprintf_text];
      change (wants_int (sf_42f true)) with false; cbv iota; rewrite G2; destruct (Bsign v); vm_compute; reflexivity.
Qed.
(** "0%" (formats 9 and 67), every finite number whose hundredfold has an int64 part: truncated; any
    other finite number is shown as the least int64 (amd64, see GoFloat) *)
Theorem C29_truncates : forall x id v, In id [9; 67] -> f_is_finite v = true ->
  exists t, fx_apply x id (GF64 v) = Ok (t ++ bs "%", true) /\
    numeral (let n := Ztrunc (RN (B2R v * 100)) in if (- 2 ^ 63 <=? n) && (n <? 2 ^ 63) then n else - 2 ^ 63) t.
Proof.
  intros x id v Hid F. set (n := Ztrunc (RN (B2R v * 100))). cbv zeta.
  assert (TI : f_to_int64 (fmul v (f_of_Z 100)) = if (- 2 ^ 63 <=? n) && (n <? 2 ^ 63) then n else - 2 ^ 63).
  { destruct (fmul_100_all v F) as [G1 G2]. destruct (Rlt_le_dec (Rabs (RN (B2R v * 100))) (bpow radix2 1024)) as [L|L].
    - destruct (G1 ltac:(unfold too_large; lra)) as (E1 & E2 & _). unfold n. rewrite <- E1. unfold f_to_int64, f_is_finite in *.
      destruct (fmul v (f_of_Z 100)) as [s|s| |s m e Hm] eqn:E; try discriminate.
      + cbn [BinarySingleNaN.B2R]. change (B2R (B754_zero s)) with 0%R. rewrite (Ztrunc_IZR 0). reflexivity.
      + cbv zeta. replace (Btrunc (B754_finite s m e Hm)) with (Ztrunc (L_float.B2R (B754_finite s m e Hm))) by (symmetry; apply eq_IZR; rewrite (Btrunc_correct 53 1024 prec_emax); apply round_FIX_IZR). reflexivity.
    - rewrite (G2 L). cbn [f_to_int64]. assert (N : 2 ^ 63 <= Z.abs n).
      { unfold n. rewrite <- (Ztrunc_IZR (2 ^ 63)). rewrite <- Ztrunc_abs. apply Ztrunc_le. apply Rle_trans with (2 := L). rewrite IZR_pow2 by lia. apply bpow_le. lia. }
      replace ((- 2 ^ 63 <=? n) && (n <? 2 ^ 63)) with (n =? - 2 ^ 63) by lia. destruct (Z.eqb_spec n (- 2 ^ 63)); unfold two63; lia. }
  set (z := if (- 2 ^ 63 <=? n) && (n <? 2 ^ 63) then n else - 2 ^ 63) in *. exists (itoa z). split; [|apply itoa_numeral].
  assert (S : sprintf_int (sf_d true) KInt64 z = itoa z ++ bs "%").
  { unfold sprintf_int, sf_d, int_text. cbn [fm_verb fm_prec fm_wid fm_pct]. unfold pad_left.
    set (s := itoa _). replace (Z.to_nat (0 - zlen s)) with 0%nat by (pose proof (zlen_nonneg _ s); lia). reflexivity. }
  destruct Hid as [<-|[<-|[]]]; unfold fx_apply; simpl zfind; cbv iota; cbn [ff_eval sprintf_text];
    change (wants_int (sf_d true)) with true; cbv iota; rewrite TI, S; reflexivity.
Qed.

(** ** C19 *)
(** What a text (not empty, not a merge mark) is stored as, in every format. *)
Theorem C19_stored : forall x f s, reach_fx x -> s <> [] -> ~ merge_mark (GStr s) ->
  let cell v t := [v; GCType t] ++ (if f =? 0 then [] else [GInt KUint16 f]) in
  make_put_cell x (GStr s) f = Ok
    match (if f =? 0 then None else fx_cell_type x f) with
    | Some IntegerCell => cell (GInt KInt64 (fst (parse_int 64 s))) IntegerCell
    | Some FloatCell => cell (GF64 (fst (parse_float s))) FloatCell
    | Some DateCell => cell (GStr s) DateCell
    | _ => cell (GStr s) StringCell
    end.
Proof.
  intros x f s Hx Hs Hm cell. assert (IM : is_merge_mark s = false) by (destruct (is_merge_mark s) eqn:E; auto; apply is_merge_mark_spec in E; contradiction).
  unfold make_put_cell. rewrite IM. destruct s as [|a s]; [congruence|]. assert (NC : new_cell (GStr (a :: s)) = Ok [GStr (a :: s); GCType StringCell]) by reflexivity.
  destruct (fx_cell_type x f) as [ct|] eqn:T.
  - destruct (f =? 0) eqn:F0. { rewrite NC. cbn [bind]. rewrite set_format_pair. unfold cell. rewrite F0. reflexivity. }
    pose proof (fx_cell_type_range _ _ _ Hx T) as R. destruct R as [<-|[<-|[<-|[<-|[]]]]]; unfold new_cell_with_type; cbn -[set_format_number parse_int parse_float]; rewrite set_format_pair; unfold cell; rewrite F0; reflexivity.
  - rewrite NC. cbn [bind]. rewrite set_format_pair. unfold cell. destruct (f =? 0); reflexivity.
Qed.
Lemma shown_stored : forall x f s v t, make_put_cell x (GStr s) f = Ok ([v; GCType t] ++ (if f =? 0 then [] else [GInt KUint16 f])) -> In t [IntegerCell; FloatCell; StringCell; DateCell] ->
  (c <- make_put_cell x (GStr s) f ;; cell_string x c) = ('(u, ok) <- fx_apply x f v ;; Ok (if ok : bool then u else sprint v)).
Proof.
  intros x f s v t E H. rewrite E. cbn [bind]. unfold cell_string. destruct (Z.eqb_spec f 0) as [->|N].
  - change (cell_type ([v; GCType t] ++ [])) with (Ok t). change (format_no ([v; GCType t] ++ [])) with (Ok 0). change (cell_value ([v; GCType t] ++ [])) with v. cbn [bind]. destruct H as [<-|[<-|[<-|[<-|[]]]]]; reflexivity.
  - change (cell_type ([v; GCType t] ++ [GInt KUint16 f])) with (Ok t). change (format_no ([v; GCType t] ++ [GInt KUint16 f])) with (Ok f). change (cell_value ([v; GCType t] ++ [GInt KUint16 f])) with v. cbn [bind]. destruct H as [<-|[<-|[<-|[<-|[]]]]]; reflexivity.
Qed.
(** a text is shown as it is under format f *)
Definition text_survives (x : formatter) (f : Z) (s : gostr) : Prop := (c <- make_put_cell x (GStr s) f ;; cell_string x c) = Ok s.
(** Under a date format a text that reads as a number is shown as that day, any other as a message. *)
Theorem C19_dates : forall x f lay s, reach_fx x -> zfind f go_formatters = Some (FTime lay) -> s <> [] -> ~ merge_mark (GStr s) ->
  (c <- make_put_cell x (GStr s) f ;; cell_string x c) = Ok (match parse_float s with
    | (y, PNone) => time_format lay (convert_to_date (fx_1904 x) y)
    | _ => bs "MUST BE time.Time OR numeric TO FORMAT CORRECTLY" end).
Proof.
  intros x f lay s Hx Hf Hs Hm. pose proof (C19_stored x f s Hx Hs Hm) as E. cbv zeta in E.
  assert (T : f <> 0 /\ fx_cell_type x f = Some DateCell).
  { assert (A : forallb (fun p => match snd p with FTime _ => negb (fst p =? 0) && match zfind (fst p) builtin_types with Some DateCell => true | _ => false end | _ => true end) go_formatters = true) by (vm_compute; reflexivity).
    rewrite forallb_forall in A. specialize (A _ (zfind_In _ _ _ _ Hf)). cbn [fst snd] in A. unfold fx_cell_type. destruct (zfind f builtin_types) as [[]|]; try (rewrite andb_false_r in A; discriminate). split; [lia|reflexivity]. }
  destruct T as [N T]. rewrite T in E. destruct (Z.eqb_spec f 0) as [|_]; [contradiction|].
  rewrite (shown_stored x f s (GStr s) DateCell) by (try (rewrite E; destruct (Z.eqb_spec f 0); [contradiction|reflexivity]); cbn; auto).
  unfold fx_apply. rewrite Hf. cbn [ff_eval bind]. unfold time_text, to_f64. destruct (parse_float s) as [y []]; reflexivity.
Qed.
(** Under a number format (built in or added) all texts that are no numbers are shown as zero is. *)
Theorem C19_numbers_refuted : forall x f s, reach_fx x -> 0 < f -> s <> [] -> ~ merge_mark (GStr s) ->
  (fx_cell_type x f = Some IntegerCell /\ snd (parse_int 64 s) = PSyntax \/ fx_cell_type x f = Some FloatCell /\ snd (parse_float s) = PSyntax) ->
  (c <- make_put_cell x (GStr s) f ;; cell_string x c) = (c <- make_put_cell x (GStr (bs "0")) f ;; cell_string x c).
Proof.
  intros x f s Hx H0 Hs Hm HT. assert (M0 : ~ merge_mark (GStr (bs "0"))) by (intros Q; apply is_merge_mark_spec in Q; discriminate).
  rewrite (C19_stored x f s Hx Hs Hm), (C19_stored x f (bs "0") Hx ltac:(discriminate) M0). destruct (Z.eqb_spec f 0); [lia|].
  destruct HT as [[-> HP]|[-> HP]].
  - rewrite (parse_int_syntax s HP). replace (fst (parse_int 64 (bs "0"))) with 0 by (vm_compute; reflexivity). reflexivity.
  - assert (P0 : fst (parse_float s) = f_zero).
    { Local Transparent parse_float. unfold parse_float in *. destruct (take_sign s) as [neg b]. cbv zeta in *.
      destruct (_ || _); [discriminate HP|]. destruct (str_eqb _ _); [discriminate HP|].
      match type of HP with context [let '(hex, body) := ?t in _] => destruct t as [hex body] end.
      destruct (scan_mant _ _ _ _ _ _ _) as [[[[m nd] nfrac] us1] r]. destruct (nd =? 0); [reflexivity|].
      repeat match goal with
      | H : snd (match ?r with _ => _ end) = _ |- _ => destruct r; try reflexivity; try discriminate H
      | H : snd (if ?b then _ else _) = _ |- _ => destruct b; try reflexivity; try discriminate H
      | H : snd (let '(_, _) := ?r in _) = _ |- _ => destruct r
      end. }
    rewrite P0. replace (fst (parse_float (bs "0"))) with f_zero by (vm_compute; reflexivity). reflexivity.
Qed.
(** Among the built-in formats, exactly General and the text format leave every text as it is. *)
Definition x_stored (t : ctype) : goval := match t with IntegerCell => GInt KInt64 0 | FloatCell => GF64 f_zero | _ => GStr (bs "x") end.
Lemma others_change : forall b, forallb (fun p => (fst p =? 0) || (fst p =? 49) || match zfind (fst p) builtin_types with
  | Some t => match ff_eval b (snd p) (x_stored t) with Ok u => negb (str_eqb u (bs "x")) | _ => true end
  | None => false end) go_formatters = true.
Proof. intros []; vm_compute; reflexivity. Qed.
Theorem C19_exact : forall x f, reach_fx x -> builtin f ->
  ((forall s, s <> [] -> ~ merge_mark (GStr s) -> text_survives x f s) <-> f = 0 \/ f = 49).
Proof.
  intros x f Hx Hb. split.
  - intros H. assert (Mx : ~ merge_mark (GStr (bs "x"))) by (intros Q; apply is_merge_mark_spec in Q; discriminate).
    specialize (H (bs "x") ltac:(discriminate) Mx). unfold text_survives in H.
    unfold builtin in Hb. destruct (zfind f go_formatters) as [ff|] eqn:E; [|congruence]. pose proof (others_change (fx_1904 x)) as A. rewrite forallb_forall in A.
    specialize (A _ (zfind_In _ _ _ _ E)). cbn [fst snd] in A. destruct (Z.eqb_spec f 0); [auto|]. destruct (Z.eqb_spec f 49); [auto|]. cbn [orb] in A. exfalso.
    destruct (zfind f builtin_types) as [t|] eqn:T; [|discriminate].
    pose proof (C19_stored x f (bs "x") Hx ltac:(discriminate) Mx) as S. cbv zeta in S. unfold fx_cell_type in S. rewrite T in S. destruct (Z.eqb_spec f 0) as [|_]; [contradiction|].
    pose proof (builtin_types_range f t (zfind_In _ _ _ _ T)) as R.
    assert (S' : make_put_cell x (GStr (bs "x")) f = Ok ([x_stored t; GCType t] ++ (if f =? 0 then [] else [GInt KUint16 f]))).
    { rewrite S. destruct (Z.eqb_spec f 0); [contradiction|]. destruct R as [<-|[<-|[<-|[<-|[]]]]]; cbn [x_stored]; reflexivity. }
    rewrite (shown_stored x f _ _ _ S' R) in H. unfold fx_apply in H. rewrite E in H. destruct (ff_eval _ _ _) as [u| | |]; cbn [bind] in H; try discriminate.
    injection H as ->. discriminate A.
  - intros [-> | ->] s Hs Hm; destruct (text_shown x 0 s Hx ltac:(cbn; auto) Hs Hm) as (c & C1 & C2); destruct (text_shown x 49 s Hx ltac:(cbn; auto) Hs Hm) as (c' & C1' & C2'); unfold text_survives.
    + rewrite C1. exact C2.
    + rewrite C1'. exact C2'.
Qed.
(** A format added as General (in any case) leaves texts as they are too. *)
Theorem C19_general : forall x id code s, reach_fx x -> ~ builtin id -> zfind id builtin_types = None -> zfind id (fx_types x) = None ->
  to_lower code = bs "general" -> s <> [] -> ~ merge_mark (GStr s) -> text_survives (fst (fx_add x id code)) id s.
Proof.
  intros x id code s Hx Hb Ht Hn Hc Hs Hm. set (x' := fst (fx_add x id code)). assert (Hx' : reach_fx x') by (apply rf_add; auto).
  assert (EX : x' = mkFormatter (fx_1904 x) (zput id FIdent (fx_codes x)) (fx_types x)) by (unfold x', fx_add; rewrite Hc; reflexivity).
  pose proof (C19_stored x' id s Hx' Hs Hm) as S. cbv zeta in S.
  assert (T : fx_cell_type x' id = None) by (unfold fx_cell_type; rewrite Ht, EX; exact Hn). rewrite T in S.
  assert (S' : make_put_cell x' (GStr s) id = Ok ([GStr s; GCType StringCell] ++ (if id =? 0 then [] else [GInt KUint16 id]))) by (rewrite S; destruct (id =? 0); reflexivity).
  unfold text_survives. rewrite (shown_stored _ _ _ _ _ S') by (cbn; auto). unfold fx_apply.
  assert (B : zfind id go_formatters = None) by (unfold builtin in Hb; destruct (zfind id go_formatters); auto; exfalso; apply Hb; discriminate).
  rewrite B, EX. cbn [fx_codes fx_1904]. rewrite zfind_zput, Z.eqb_refl. reflexivity.
Qed.

(** ** Examples *)
Definition shown_text (x : formatter) (f : Z) (s : gostr) : res gostr := c <- make_put_cell x (GStr s) f ;; cell_string x c.
Local Transparent convert_to_date f_of_Z fmul format_f parse_float parse_int time_format.
Example ex_C19_cases :
  shown_text new_formatter 0 (bs "n/a") = Ok (bs "n/a") /\ shown_text new_formatter 3 (bs "n/a") = Ok (bs "0") /\
  shown_text new_formatter 4 (bs "n/a") = Ok (bs "0.00") /\ shown_text new_formatter 14 (bs "43835") = Ok (bs "01-05-20") /\
  shown_text new_formatter 3 (bs "007") = Ok (bs "7").
Proof. repeat split; vm_compute; reflexivity. Qed.
Example ex_C19_general : text_survives (fst (fx_add new_formatter 170 (bs "GENERAL"))) 170 (bs "n/a").
Proof. vm_compute. reflexivity. Qed.
Example ex_C29_large : too_large (fst (parse_float (bs "1e307"))) /\
  fx_apply new_formatter 10 (GF64 (fst (parse_float (bs "1e307")))) = Ok (bs "+Inf%", true).
Proof.
  split; [|vm_compute; reflexivity]. set (v := fst (parse_float (bs "1e307"))).
  assert (F : f_is_finite v = true) by (vm_compute; reflexivity). destruct (fmul_100_all v F) as [G1 _].
  destruct (Rlt_le_dec (Rabs (RN (B2R v * 100))) (bpow radix2 1024)) as [L|L]; [|exact L]. exfalso.
  destruct (G1 ltac:(unfold too_large; lra)) as (_ & E & _). vm_compute in E. discriminate.
Qed.
Example ex_C29_negative : fx_apply new_formatter 9 (GF64 (fst (parse_float (bs "-0.125")))) = Ok (bs "-12%", true) /\
  fx_apply new_formatter 9 (GF64 (fst (parse_float (bs "1e20")))) = Ok (bs "-9223372036854775808%", true).
Proof. split; vm_compute; reflexivity. Qed.

Print Assumptions C29_decimals.
Print Assumptions C29_truncates.
Print Assumptions C19_stored.
Print Assumptions C19_dates.
Print Assumptions C19_numbers_refuted.
Print Assumptions C19_exact.
Print Assumptions C19_general.
