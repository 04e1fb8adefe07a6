(** * P_dates: properties C30, C31. *)
From Verif Require Import GoBase GoFloat GoTime L_base L_float L_numbers M_dates S_dates L_calendar L_dates.
From Coq Require Import Reals Lra Psatz.
From Flocq Require Import Core IEEE754.BinarySingleNaN.
Local Open Scope Z_scope.

(** the calendar date a time.Time shows *)
Definition date_of (t : Z) : Z * Z * Z := (t_year t, t_month t, t_mday t).

Lemma date_of_days : forall d r, 0 <= r < ns_per_day -> date_of (d * ns_per_day + r) = civil_from_days d.
Proof.
  intros d r Hr. unfold date_of, t_year, t_month, t_mday, t_day.
  replace ((d * ns_per_day + r) / ns_per_day) with d.
  - destruct (civil_from_days d) as [[y m] a]. reflexivity.
  - rewrite Z.add_comm, Z_div_plus_full by (unfold ns_per_day; lia). rewrite Z.div_small by auto. lia.
Qed.
Lemma epoch_days : forall m, epoch m = civil_from_days (if m then -24107 else -25569).
Proof. intros []; reflexivity. Qed.

(** C30.  An integral serial n is midnight of the day n days after the epoch of its mode,
    counting calendar days one at a time; negative n counts back. *)
Theorem C30_integral_serials : forall (m : bool) (n : Z) (val : f64), f_is_finite val = true -> B2R val = IZR n ->
  (if m then -2416481 else -2415019) <= n <= 2 ^ 40 ->
  let t := convert_to_date m val in
  days_later n (epoch m) (date_of t) /\ t_ns t = 0.
Proof.
  intros m n val F E Hn. cbv zeta.
  assert (R : in_range m (IZR n)).
  { unfold in_range. destruct m; split; apply IZR_le; lia. }
  rewrite convert_real by (auto; rewrite E; auto). rewrite E, conv_int by auto.
  set (e := if m then -24107 else -25569).
  split.
  - rewrite <- (Z.add_0_r ((e + n) * ns_per_day)), date_of_days by (unfold ns_per_day; lia).
    rewrite epoch_days. fold e. apply civil_days_later.
  - unfold t_ns. apply Z_mod_mult.
Qed.

(** C30, fractions.  From serial 61 (1900-03-01) on, a serial falls on the day of its integral part. *)
Theorem C30_fractional_serials : forall (m : bool) (val : f64), f_is_finite val = true -> (61 <= B2R val <= IZR (2 ^ 40))%R ->
  days_later (Zfloor (B2R val)) (epoch m) (date_of (convert_to_date m val)).
Proof.
  intros m val F [H1 H2].
  assert (R : in_range m (B2R val)) by (split; auto; destruct m; lra).
  rewrite convert_real by auto. unfold conv_r.
  assert (T : 61 <= Ztrunc (B2R val)) by (rewrite <- (Ztrunc_IZR 61); apply Ztrunc_le; auto).
  destruct (Z.ltb_spec (Ztrunc (B2R val)) 61); [lia|].
  pose proof (day_time_lt _ (frac_grid _ (B2R_format val) H1)) as D.
  rewrite date_of_days by auto. rewrite epoch_days. rewrite <- Ztrunc_floor by lra. apply civil_days_later.
Qed.

(** the time of day is the fraction of a day, to the nanosecond (2 ns) *)
Theorem C30_time_of_day : forall (m : bool) (val : f64), f_is_finite val = true -> (61 <= B2R val <= IZR (2 ^ 40))%R ->
  (Rabs (IZR (t_ns (convert_to_date m val)) - 86400000000000 * (B2R val - IZR (Zfloor (B2R val)))) <= 2)%R.
Proof.
  intros m val F [H1 H2].
  assert (R : in_range m (B2R val)) by (split; auto; destruct m; lra).
  rewrite convert_real by auto. unfold conv_r.
  assert (T : 61 <= Ztrunc (B2R val)) by (rewrite <- (Ztrunc_IZR 61); apply Ztrunc_le; auto).
  destruct (Z.ltb_spec (Ztrunc (B2R val)) 61); [lia|].
  pose proof (frac_grid _ (B2R_format val) H1) as G.
  pose proof (day_time_lt _ G) as D.
  unfold t_ns. rewrite Z.add_comm, Z_mod_plus_full, Z.mod_small by auto.
  rewrite <- Ztrunc_floor by lra. set (f := (B2R val - IZR (Ztrunc (B2R val)))%R) in *.
  unfold day_time, ns_per_day. set (p := (IZR 86400000000000 * f)%R).
  assert (P : (0 <= p <= bpow radix2 50)%R).
  { unfold p. assert (B47 : bpow radix2 (-47) = (/ 140737488355328)%R) by reflexivity.
    rewrite <- IZR_pow2 by lia. change (2 ^ 50) with 1125899906842624. nra. }
  pose proof (RN_err p P) as E.
  assert (Q : (0 <= RN p)%R) by (rewrite <- RN_0; apply RN_le; lra).
  rewrite Ztrunc_floor by auto. pose proof (Zfloor_lb (RN p)). pose proof (Zfloor_ub (RN p)).
  apply Rabs_le_inv in E. fold p. apply Rabs_le. lra.
Qed.

(** C31.  The conversion is monotone. *)
Theorem C31_monotone : forall (m : bool) (a b : f64), f_is_finite a = true -> f_is_finite b = true ->
  ((if m then -2416481 else -2415019) <= B2R a)%R -> (B2R b <= IZR (2 ^ 40))%R ->
  (B2R a <= B2R b)%R -> convert_to_date m a <= convert_to_date m b.
Proof.
  intros m a b Fa Fb Ha Hb H.
  assert (Ra : in_range m (B2R a)) by (split; lra). assert (Rb : in_range m (B2R b)) by (split; lra).
  rewrite !convert_real by auto. apply conv_mono; auto.
Qed.

Definition fz (z : Z) : f64 := f_of_Z z.
Definition fh (z : Z) : f64 := f_norm z (-1).
Example ex_C30 :
  date_of (convert_to_date false (fz 0)) = (1899, 12, 30) /\
  date_of (convert_to_date false (fz 60)) = (1900, 2, 28) /\
  date_of (convert_to_date false (fz 61)) = (1900, 3, 1) /\
  date_of (convert_to_date false (fz 44197)) = (2021, 1, 1) /\
  date_of (convert_to_date true (fz 60)) = (1904, 3, 1) /\
  t_hour (convert_to_date false (fh 88395)) = 12 /\
  B2R (fz 44197) = IZR 44197.
Proof. repeat split; try (vm_compute; reflexivity). apply (f_of_Z_exact 44197). lia. Qed.
Example ex_days : days_later 366 (1904, 1, 1) (1905, 1, 1) /\ days_later (-1) (1900, 1, 1) (1899, 12, 31) /\
  days_later 59 (1900, 1, 1) (1900, 3, 1).
Proof. repeat split; [left|right|left]; split; try lia; vm_compute; reflexivity. Qed.

Print Assumptions C30_integral_serials.
Print Assumptions C30_fractional_serials.
Print Assumptions C30_time_of_day.
Print Assumptions C31_monotone.
