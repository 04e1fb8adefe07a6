(** * P_hex: property C114 — hexadecimal numerals, and all texts together *)
From Verif Require Import GoBase GoFloat L_base L_float L_round S_numtext S_accept M_value M_cell M_simple P_simple P_cell M_xlsx P_numtext P_accept.
From Coq Require Import Reals Lia Lra.
From Flocq Require Import Core IEEE754.BinarySingleNaN.
Open Scope Z_scope.
Local Opaque f_norm Z.pow.

(** ** the hexadecimal case of ParseFloat *)
Definition fin_hex (ok neg : bool) (m nf e : Z) (us : bool) : f64 * perr :=
  if us && negb ok then (f_zero, PSyntax)
  else let a := f_norm m (e - 4 * nf) in let v := if neg then fneg a else a in if f_is_finite v then (v, PNone) else (v, PRange).
Definition hex_rest (ok neg : bool) (b : gostr) : f64 * perr :=
  let '(m, nd, nf, us1, r) := scan_mant true b 0 0 0 false false in
  if nd =? 0 then (f_zero, PSyntax) else
  match r with
  | [] => (f_zero, PSyntax)
  | c :: r1 =>
      if lower c =? 112 then
        let '(en, r2) := take_sign r1 in
        match r2 with
        | d :: _ => if is_digit d then
            let '(e, us2, r3) := scan_exp r2 0 us1 in
            match r3 with [] => fin_hex ok neg m nf (if en then - e else e) us2 | _ => (f_zero, PSyntax) end
          else (f_zero, PSyntax)
        | [] => (f_zero, PSyntax)
        end
      else (f_zero, PSyntax)
  end.
Lemma parse_hex : forall sg neg x c r, sign_text sg neg -> x = 120 \/ x = 88 ->
  parse_float (sg ++ 48 :: x :: c :: r) = hex_rest (us_ok true (c :: r) 48) neg (c :: r).
Proof.
  intros sg neg x c r S X. set (b := 48 :: x :: c :: r). assert (T : take_sign (sg ++ b) = (neg, b)) by (destruct S; reflexivity).
  assert (D : dig 48) by (unfold dig; lia). assert (Ib : In 48 b) by (left; reflexivity). assert (It : In 48 (sg ++ b)) by (apply in_or_app; right; exact Ib).
  unfold parse_float. rewrite T. cbv zeta. rewrite (digit_no_word b 48 (bs "inf") Ib D F_inf), (digit_no_word b 48 (bs "infinity") Ib D F_infinity), (digit_no_word (sg ++ b) 48 (bs "nan") It D F_nan). cbn [orb].
  assert (U : underscore_ok b = us_ok true (c :: r) 48) by (unfold b; destruct X as [->| ->]; reflexivity). rewrite U.
  assert (H : match b with 48 :: x :: (_ :: _) as r => if lower x =? 120 then (true, skipn 2 b) else (false, b) | _ => (false, b) end = (true, c :: r)) by (unfold b; destruct X as [->| ->]; reflexivity).
  rewrite H. set (ok := us_ok true (c :: r) 48). clearbody ok. set (s := c :: r). clearbody s. clear. unfold hex_rest, fin_hex. destruct (scan_mant true s 0 0 0 false false) as [[[[m nd] nf] us1] r0].
  destruct (nd =? 0); [reflexivity|]. destruct r0 as [|d r1]; [cbn [andb negb]; destruct (us1 && negb ok); reflexivity|]. destruct (lower d =? 112); [|reflexivity].
  destruct (take_sign r1) as [en r2]. destruct r2 as [|d2 r2]; [reflexivity|]. destruct (is_digit d2); [|reflexivity]. destruct (scan_exp (d2 :: r2) 0 us1) as [[e us2] r3]. destruct r3; cbn [andb negb]; reflexivity.
Qed.

(** ** digits *)
Lemma hexval_some : forall c v, hexval c = Some v -> hdig c /\ v = hval c.
Proof.
  intros c v H. unfold hexval in H. cbv zeta in H. unfold is_digit, lower in H. unfold hdig, hval.
  destruct ((65 <=? c) && (c <=? 90)) eqn:L.
  - replace ((48 <=? c + 32) && (c + 32 <=? 57)) with false in H by lia. destruct ((97 <=? c + 32) && (c + 32 <=? 102)) eqn:K; [|discriminate H]. injection H as <-. split; [lia|]. replace (c <=? 57) with false by lia. replace (c <=? 70) with true by lia. lia.
  - destruct ((48 <=? c) && (c <=? 57)) eqn:K; [injection H as <-; split; [lia|]; replace (c <=? 57) with true by lia; reflexivity|].
    destruct ((97 <=? c) && (c <=? 102)) eqn:K2; [|discriminate H]. injection H as <-. split; [lia|]. replace (c <=? 57) with false by lia. replace (c <=? 70) with false by lia. reflexivity.
Qed.
Lemma hexval_hdig : forall c, hdig c -> hexval c = Some (hval c).
Proof.
  intros c H. destruct (hexval c) as [v|] eqn:E; [apply hexval_some in E; f_equal; apply E|]. exfalso. unfold hexval in E. cbv zeta in E. unfold is_digit, lower, hdig in *.
  destruct ((65 <=? c) && (c <=? 90)) eqn:L.
  - destruct ((48 <=? c + 32) && (c + 32 <=? 57)); [discriminate E|]. destruct ((97 <=? c + 32) && (c + 32 <=? 102)) eqn:K; [discriminate E|lia].
  - destruct ((48 <=? c) && (c <=? 57)) eqn:K; [discriminate E|]. destruct ((97 <=? c) && (c <=? 102)) eqn:K2; [discriminate E|lia].
Qed.
Lemma hdig_us : forall c, hdig c -> c <> 95 /\ c <> 46. Proof. unfold hdig. lia. Qed.
Lemma hmant_shape : forall s m nd nf dot us, let '(m', nd', nf', us', r) := scan_mant true s m nd nf dot us in
  (forall us0, scan_mant true (plain s) m nd nf dot us0 = (m', nd', nf', us0, plain r)) /\
  (match r with c :: _ => c <> 95 | [] => True end) /\
  exists pre ip ft fd, s = pre ++ r /\ plain s = ip ++ ft ++ plain r /\ Forall hdig ip /\ (if dot then ft = [] /\ fd = [] else hfrac ft fd) /\ nd' = nd + zlen (ip ++ fd) /\ (us' = us || existsb (fun c => c =? 95) pre).
Proof.
  assert (B : forall nd us, nd = nd + zlen (@nil Z ++ []) /\ us = us || existsb (fun c => c =? 95) []) by (intros; change (zlen ([] ++ [])) with 0; cbn [existsb]; rewrite orb_false_r; split; [lia|reflexivity]).
  assert (BF : forall dot : bool, if dot then @nil Z = [] /\ @nil Z = [] else hfrac [] []) by (intros []; [auto|constructor]).
  induction s as [|c s IH]; intros m nd nf dot us.
  - cbn [scan_mant]. split; [reflexivity|]. split; [exact I|]. exists [], [], [], []. split; [reflexivity|]. split; [reflexivity|]. split; [exact (Forall_nil _)|]. split; [apply BF|apply B].
  - cbn [scan_mant]. destruct (Z.eqb_spec c 95) as [->|N].
    + specialize (IH m nd nf dot true). destruct (scan_mant true s m nd nf dot true) as [[[[m' nd'] nf'] us'] r]. destruct IH as (A & H & pre & ip & ft & fd & D1 & D2 & D3 & D4 & D5 & D6).
      rewrite plain_us. split; [exact A|]. split; [exact H|]. exists (95 :: pre), ip, ft, fd. cbn [app existsb]. rewrite D1 at 1. repeat split; auto. rewrite D6. destruct us; reflexivity.
    + rewrite plain_cons by auto. destruct (Z.eqb_spec c 46) as [->|N2].
      * destruct dot.
        -- cbn [scan_mant]. rewrite plain_cons by lia. split; [reflexivity|]. split; [lia|]. exists [], [], [], []. split; [reflexivity|]. split; [rewrite ?plain_cons by lia; reflexivity|]. split; [exact (Forall_nil _)|]. split; [auto|apply B].
        -- specialize (IH m nd nf true us). destruct (scan_mant true s m nd nf true us) as [[[[m' nd'] nf'] us'] r]. destruct IH as (A & H & pre & ip & ft & fd & D1 & D2 & D3 & [D4 D4'] & D5 & D6). subst ft fd.
           split; [intros us0; cbn [scan_mant]; exact (A us0)|]. split; [exact H|].
           exists (46 :: pre), [], (46 :: ip), ip. cbn [app existsb]. rewrite D1 at 1. rewrite D2. split; [reflexivity|]. split; [reflexivity|]. split; [constructor|]. split; [constructor; exact D3|]. rewrite app_nil_r in D5. split; [exact D5|]. exact D6.
      * destruct (hexval c) as [v|] eqn:DG.
        -- specialize (IH (m * 16 + v) (nd + 1) (if dot then nf + 1 else nf) dot us). destruct (scan_mant true s (m * 16 + v) (nd + 1) (if dot then nf + 1 else nf) dot us) as [[[[m' nd'] nf'] us'] r]. destruct IH as (A & H & pre & ip & ft & fd & D1 & D2 & D3 & D4 & D5 & D6).
           split; [intros us0; cbn [scan_mant]; replace (c =? 95) with false by lia; replace (c =? 46) with false by lia; rewrite DG; exact (A us0)|]. split; [exact H|].
           exists (c :: pre), (c :: ip), ft, fd. cbn [app existsb]. rewrite D1 at 1. rewrite D2. split; [reflexivity|]. split; [reflexivity|]. split; [constructor; [exact (proj1 (hexval_some _ _ DG))|exact D3]|]. split; [exact D4|]. split; [rewrite zlen_cons; lia|]. replace (c =? 95) with false by lia. exact D6.
        -- rewrite plain_cons by auto. split; [intros us0; cbn [scan_mant]; replace (c =? 95) with false by lia; replace (c =? 46) with false by lia; rewrite DG; reflexivity|]. split; [exact N|]. exists [], [], [], []. split; [reflexivity|]. split; [rewrite ?plain_cons by auto; reflexivity|]. split; [exact (Forall_nil _)|]. split; [apply BF|apply B].
Qed.
Lemma hmant_digits : forall ds rest m nd nf dot us, Forall hdig ds ->
  scan_mant true (ds ++ rest) m nd nf dot us =
  scan_mant true rest (m * 16 ^ zlen ds + hspelled ds) (nd + zlen ds) (if dot then nf + zlen ds else nf) dot us.
Proof.
  induction ds as [|c ds IH]; intros rest m nd nf dot us H.
  - cbn [app hspelled]. rewrite zlen_nil. change (16 ^ 0) with 1. rewrite Z.mul_1_r, !Z.add_0_r. destruct dot; reflexivity.
  - inversion H as [|? ? D H']; subst. cbn [app scan_mant]. destruct (hdig_us c D). replace (c =? 95) with false by lia. replace (c =? 46) with false by lia.
    rewrite (hexval_hdig c) by auto. rewrite IH by auto. rewrite zlen_cons. pose proof (zlen_nonneg _ ds). cbn [hspelled]. rewrite Z.pow_add_r by lia. change (16 ^ 1) with 16.
    f_equal; try lia. destruct dot; lia.
Qed.
Lemma hspelled_app : forall a b, hspelled (a ++ b) = hspelled a * 16 ^ zlen b + hspelled b.
Proof.
  induction a as [|c a IH]; intros b; [reflexivity|]. cbn [app hspelled]. rewrite IH, zlen_app, Z.pow_add_r by apply zlen_nonneg. ring.
Qed.
Lemma hspelled_nonneg : forall l, Forall hdig l -> 0 <= hspelled l.
Proof.
  induction l as [|c l IH]; intros H; [cbn; lia|]. inversion H as [|? ? D H']; subst. cbn [hspelled]. specialize (IH H'). assert (0 <= hval c) by (unfold hdig, hval in *; destruct (Z.leb_spec c 57); [lia|destruct (Z.leb_spec c 70); lia]). assert (0 < 16 ^ zlen l) by (apply Z.pow_pos_nonneg; [lia|apply zlen_nonneg]). nia.
Qed.
Lemma hmant_numeral : forall ip ft fd p et, Forall hdig ip -> hfrac ft fd -> p = 112 \/ p = 80 ->
  scan_mant true (ip ++ ft ++ p :: et) 0 0 0 false false = (hspelled (ip ++ fd), zlen (ip ++ fd), zlen fd, false, p :: et).
Proof.
  intros ip ft fd p et Di F P. rewrite hmant_digits by auto. rewrite Z.mul_0_l, !Z.add_0_l. assert (S : forall m nd nf dot us, scan_mant true (p :: et) m nd nf dot us = (m, nd, nf, us, p :: et)) by (intros; destruct P as [->| ->]; reflexivity). destruct F as [|fd Df].
  - cbn [app]. rewrite S, app_nil_r. reflexivity.
  - cbn [app scan_mant]. change (46 =? 95) with false. change (46 =? 46) with true. cbn iota. rewrite hmant_digits by auto. rewrite S, hspelled_app, zlen_app, Z.add_0_l. reflexivity.
Qed.

(** ** underscores *)
Definition hex_is (c : Z) : bool := is_digit c || (true && (97 <=? lower c) && (lower c <=? 102)).
Lemma is_hdig : forall c, hex_is c = true <-> hdig c.
Proof. intros c. unfold hex_is, is_digit, lower, hdig. destruct ((65 <=? c) && (c <=? 90)) eqn:L; lia. Qed.
Definition hcls (p : option Z) : Z := match p with None => 94 | Some c => if hex_is c then 48 else if c =? 95 then 95 else 33 end.
Definition hstarts (s : gostr) : Prop := exists e s', s = e :: s' /\ hdig e.
Definition hgood (p : option Z) (s : gostr) : Prop :=
  forall a b, s = a ++ 95 :: b -> (exists d, last_of p a = Some d /\ hdig d) /\ hstarts b.
Lemma hgood_cons : forall p c s, hgood p (c :: s) <-> (c = 95 -> (exists d, p = Some d /\ hdig d) /\ hstarts s) /\ hgood (Some c) s.
Proof.
  intros p c s. split.
  - intros G. split; [intros ->; exact (G [] s eq_refl)|]. intros a b E. apply (G (c :: a) b). rewrite E. reflexivity.
  - intros [H G] [|c' a] b E; cbn [app] in E; injection E as -> ->; [exact (H eq_refl)|exact (G a b eq_refl)].
Qed.
Lemma hcls_48 : forall p, hcls p = 48 <-> exists d, p = Some d /\ hdig d.
Proof.
  intros [c|]; cbn [hcls].
  - destruct (hex_is c) eqn:D; [split; [intros _; exists c; split; [reflexivity|apply is_hdig; exact D]|reflexivity]|]. split; [destruct (c =? 95); discriminate|intros (d & E & K); injection E as <-; apply is_hdig in K; congruence].
  - split; [discriminate|intros (d & E & _); discriminate E].
Qed.
Lemma hcls_95 : forall p, hcls p = 95 <-> p = Some 95.
Proof.
  intros [c|]; cbn [hcls].
  - destruct (hex_is c) eqn:D; [split; [discriminate|intros E; injection E as ->; discriminate D]|]. destruct (Z.eqb_spec c 95) as [->|N]; split; auto; try discriminate. intros E. injection E as ->. lia.
  - split; discriminate.
Qed.
Lemma us_hgood : forall s p, us_ok true s (hcls p) = true <-> hgood p s /\ (p = Some 95 -> hstarts s).
Proof.
  induction s as [|c s IH]; intros p.
  - cbn [us_ok]. rewrite negb_true_iff, Z.eqb_neq, hcls_95. split.
    + intros N. split; [intros [|a0 a] b E; discriminate E|intros C; contradiction].
    + intros [_ H] C. destruct (H C) as (e & s' & E & _). discriminate E.
  - cbn [us_ok]. fold (hex_is c). rewrite hgood_cons. destruct (hex_is c) eqn:D.
    + assert (K : hcls (Some c) = 48) by (cbn [hcls]; rewrite D; reflexivity). rewrite <- K, IH. assert (c <> 95) by (intros ->; discriminate D). split.
      * intros [G _]. split; [split; [intros C; contradiction|exact G]|]. intros _. exists c, s. split; [reflexivity|apply is_hdig; exact D].
      * intros [[_ G] _]. split; [exact G|]. intros E. injection E as E. contradiction.
    + assert (ND : ~ hstarts (c :: s)) by (intros (e & s' & E & Q); injection E as <- <-; apply is_hdig in Q; congruence).
      destruct (Z.eqb_spec c 95) as [->|N].
      * destruct (Z.eqb_spec (hcls p) 48) as [K|K].
        -- change 95 with (hcls (Some 95)) at 1. rewrite IH. split.
           ++ intros [G H]. split; [split; [intros _; split; [apply hcls_48; exact K|apply H; reflexivity]|exact G]|]. intros ->. discriminate K.
           ++ intros [[H G] _]. split; [exact G|]. intros _. apply H. reflexivity.
        -- split; [discriminate|]. intros [[H _] _]. exfalso. apply K. apply hcls_48. apply H. reflexivity.
      * destruct (Z.eqb_spec (hcls p) 95) as [K|K].
        -- split; [discriminate|]. intros [_ H]. exfalso. apply ND. apply H. apply hcls_95. exact K.
        -- assert (E33 : hcls (Some c) = 33) by (cbn [hcls]; rewrite D; replace (c =? 95) with false by lia; reflexivity). rewrite <- E33, IH. rewrite <- !hcls_95. split.
           ++ intros [G _]. split; [split; [intros C; contradiction|exact G]|]. intros C. contradiction.
           ++ intros [[_ G] _]. split; [exact G|]. rewrite E33. discriminate.
Qed.
Lemma us_48 : forall s, us_ok true s 48 = true <-> hgood (Some 48) s.
Proof. intros s. change 48 with (hcls (Some 48)) at 1. rewrite us_hgood. intuition discriminate. Qed.
Lemma hex_us : forall sg neg x s, sign_text sg neg -> x = 120 \/ x = 88 -> (hex_underscores (sg ++ 48 :: x :: s) <-> us_ok true s 48 = true).
Proof.
  intros sg neg x s S X. rewrite us_48. split.
  - intros H a b E. destruct (H (sg ++ 48 :: x :: a) b) as [A B]; [rewrite E, <- app_assoc; reflexivity|]. split; [|exact B].
    destruct a as [|a0 a] using rev_ind; [exists 48; split; [reflexivity|unfold hdig; lia]|]. clear IHa. destruct A as [(a' & d & A & D)|(sg' & neg' & x' & S' & X' & A)].
    + exists d. split; [|exact D]. unfold last_of. rewrite fold_left_app. cbn. f_equal. change (sg ++ 48 :: x :: a ++ [a0]) with (sg ++ (48 :: x :: a) ++ [a0]) in A. rewrite app_assoc in A. apply app_inj_tail in A. apply A.
    + exfalso. apply (f_equal (@List.length Z)) in A as L. destruct S, S'; cbn in A; try (injection A; intros; subst; try discriminate; destruct a; discriminate); try discriminate A; cbn in L; rewrite ?app_length in L; cbn in L; lia.
  - intros G a b E. assert (K : exists a', a = sg ++ 48 :: x :: a' /\ s = a' ++ 95 :: b).
    { destruct S; cbn [app] in E; [destruct a as [|u [|v a]]|destruct a as [|w [|u [|v a]]]|destruct a as [|w [|u [|v a]]]]; cbn [app] in E; injection E; intros; subst; try lia; eexists; split; reflexivity. }
    destruct K as (a' & -> & E2). destruct (G a' b E2) as [(d & L & D) B]. split; [|exact B]. destruct (last_snoc a' (Some 48) d L) as [[a2 ->]|[-> _]]; [left; exists (sg ++ 48 :: x :: a2), d; split; [rewrite <- app_assoc; reflexivity|exact D]|right; exists sg, neg, x; auto].
Qed.

(** ** acceptance *)
Lemma p_lower : forall c, lower c = 112 -> c = 112 \/ c = 80.
Proof. intros c H. unfold lower in H. destruct ((65 <=? c) && (c <=? 90)) eqn:L; lia. Qed.
Lemma hgood_adj : forall p pre c r, hgood p (pre ++ c :: 95 :: r) -> hdig c.
Proof.
  intros p pre c r G. destruct (G (pre ++ [c]) r) as [(d & L & D) _]; [rewrite <- app_assoc; reflexivity|]. unfold last_of in L. rewrite fold_left_app in L. cbn in L. injection L as ->. exact D.
Qed.
Lemma hexp_sign : forall p pre c r, hgood p (pre ++ c :: r) -> ~ hdig c ->
  take_sign (plain r) = (fst (take_sign r), plain (snd (take_sign r))) /\ match snd (take_sign r) with d :: _ => d <> 95 | [] => True end.
Proof.
  intros p pre c r G NC. destruct (sign_shape r) as (sg & neg & E & S & R). rewrite E. cbn [fst snd]. set (b := snd (take_sign r)) in *. clearbody b. subst r.
  assert (N : match b with d :: _ => d <> 95 | [] => True end).
  { destruct b as [|d b]; [exact I|]. intros ->. destruct S; cbn [app] in G; [apply hgood_adj in G; contradiction| |];
    [change (pre ++ c :: 43 :: 95 :: b) with (pre ++ [c] ++ 43 :: 95 :: b) in G|change (pre ++ c :: 45 :: 95 :: b) with (pre ++ [c] ++ 45 :: 95 :: b) in G]; rewrite app_assoc in G; apply hgood_adj in G; unfold hdig in G; lia. }
  split; [|exact N]. rewrite (sign_plain sg neg b S). destruct S; [|reflexivity|reflexivity]. cbn [app] in *. destruct b as [|d b]; [reflexivity|]. rewrite plain_cons by exact N.
  clear - E. destruct (Z.eq_dec d 43) as [->|N1]; [apply (f_equal (fun q => List.length (snd q))) in E; cbn in E; lia|]. destruct (Z.eq_dec d 45) as [->|N2]; [discriminate E|].
  unfold take_sign. destruct d as [|q|q]; try reflexivity. do 6 (destruct q as [q|q|]; try reflexivity; try (exfalso; congruence)).
Qed.
Lemma finh_any : forall neg m nf e us us', fin_hex true neg m nf e us = fin_hex true neg m nf e us'.
Proof. intros. unfold fin_hex. rewrite !andb_false_r. reflexivity. Qed.
Lemma hrest_plain : forall neg b, hgood (Some 48) b -> hex_rest true neg b = hex_rest true neg (plain b).
Proof.
  intros neg b G. unfold hex_rest. pose proof (hmant_shape b 0 0 0 false false) as M. destruct (scan_mant true b 0 0 0 false false) as [[[[m nd] nf] us1] r].
  destruct M as (A & H & pre & ip & ft & fd & D1 & _). rewrite (A false). destruct (nd =? 0); [reflexivity|]. destruct r as [|c r1]; [reflexivity|]. rewrite plain_cons by exact H.
  destruct (Z.eqb_spec (lower c) 112) as [C|C]; [|reflexivity]. assert (NC : ~ hdig c) by (destruct (p_lower c C) as [->| ->]; unfold hdig; lia).
  rewrite D1 in G. destruct (hexp_sign _ pre c r1 G NC) as [T N]. rewrite T. destruct (take_sign r1) as [en r2]. cbn [fst snd] in *. destruct r2 as [|d r2]; [reflexivity|]. rewrite plain_cons by exact N.
  destruct (is_digit d) eqn:DG; [|reflexivity]. rewrite <- (plain_cons d r2) by exact N. pose proof (exp_shape (d :: r2) 0 us1) as X. destruct (scan_exp (d :: r2) 0 us1) as [[e us2] r3]. destruct X as (X1 & X2 & _). rewrite (X1 false).
  destruct r3 as [|c3 r3]; [apply finh_any|]. rewrite plain_cons by exact X2. reflexivity.
Qed.
Lemma hgood_none : forall s, ~ In 95 s -> us_ok true s 48 = true.
Proof. intros s N. apply us_48. intros a b ->. exfalso. apply N. apply in_or_app. right. left. reflexivity. Qed.
Lemma hrest_taken : forall neg b, snd (hex_rest (us_ok true b 48) neg b) <> PSyntax ->
  us_ok true b 48 = true /\ exists ip ft fd p et x, Forall hdig ip /\ hfrac ft fd /\ ip ++ fd <> [] /\ (p = 112 \/ p = 80) /\ int_numeral et x /\ plain b = ip ++ ft ++ p :: et.
Proof.
  intros neg b H. unfold hex_rest in H. pose proof (hmant_shape b 0 0 0 false false) as M. destruct (scan_mant true b 0 0 0 false false) as [[[[m nd] nf] us1] r].
  destruct M as (_ & NR & pre & ip & ft & fd & D1 & D2 & D3 & D4 & D5 & D6). rewrite Z.add_0_l in D5. cbn [orb] in D6.
  destruct (Z.eqb_spec nd 0) as [Q|Q]; [cbn in H; congruence|]. assert (NE : ip ++ fd <> []) by (intros E; rewrite E in D5; apply Q; exact D5).
  destruct r as [|c r1]; [cbn in H; congruence|].
  destruct (Z.eqb_spec (lower c) 112) as [C|C]; [|cbn in H; congruence]. destruct (sign_shape r1) as (sg & en & E & S & R). rewrite E in H. set (r2 := snd (take_sign r1)) in *. clearbody r2. clear E.
  destruct r2 as [|d r2]; [cbn in H; congruence|]. destruct (is_digit d) eqn:DG; [|cbn in H; congruence].
  pose proof (exp_shape (d :: r2) 0 us1) as X. destruct (scan_exp (d :: r2) 0 us1) as [[e us2] r3]. destruct X as (_ & _ & X3). destruct r3; [|cbn in H; congruence]. destruct (X3 eq_refl) as [X4 X5].
  split.
  - destruct us2; [unfold fin_hex in H; destruct (us_ok true b 48); [reflexivity|cbn in H; congruence]|]. symmetry in X5. apply orb_false_iff in X5. destruct X5 as [U1 U2].
    apply hgood_none. rewrite D1, R. intros I. apply in_app_or in I. destruct I as [I|[I|I]]; [rewrite U1 in D6; symmetry in D6; apply (ex95 _ D6 I)|congruence|]. apply in_app_or in I. destruct I as [I|I]; [|apply (ex95 _ U2 I)].
    destruct S; cbn in I; intuition discriminate.
  - exists ip, ft, fd, c, (sg ++ plain (d :: r2)), (if en then - spelled (plain (d :: r2)) else spelled (plain (d :: r2))). split; [exact D3|]. split; [exact D4|]. split; [exact NE|]. split; [apply p_lower; exact C|]. split.
    + constructor; [exact S|exact X4|]. rewrite plain_cons by (intros ->; discriminate DG). discriminate.
    + rewrite D2, plain_cons by exact NR. rewrite R, (sign_plain sg en _ S). reflexivity.
Qed.
(** what a hexadecimal numeral is read as *)
Lemma hrest_numeral : forall neg ip ft fd p et x, Forall hdig ip -> hfrac ft fd -> ip ++ fd <> [] -> p = 112 \/ p = 80 -> int_numeral et x ->
  exists e, (Z.abs x < 100000 -> e = x) /\ forall ok, hex_rest true neg (ip ++ ft ++ p :: et) = fin_hex true neg (hspelled (ip ++ fd)) (zlen fd) e ok.
Proof.
  intros neg ip ft fd p et x Di F NE P I. unfold hex_rest. rewrite (hmant_numeral ip ft fd p et Di F P).
  assert (ND : (zlen (ip ++ fd) =? 0) = false). { destruct (ip ++ fd) as [|c l]; [congruence|]. rewrite zlen_cons. pose proof (zlen_nonneg _ l). lia. }
  rewrite ND. replace (lower p =? 112) with true by (destruct P as [->| ->]; reflexivity).
  destruct (sign_of_int et x I) as (en & ds & ET & DX & NX & -> & _). rewrite ET. destruct (scan_exp_digits ds 0 false DX ltac:(lia)) as (r & ER & A1 & _). rewrite Z.mul_0_l, Z.add_0_l in A1. pose proof (spelled_nonneg _ DX) as NN.
  destruct ds as [|d ds]; [congruence|]. rewrite dig_is by (inversion DX; auto). rewrite ER. exists (if en then - r else r). split; [intros L; rewrite A1; [reflexivity|destruct en; lia]|]. intros ok. apply finh_any.
Qed.

(** ** values *)
Lemma f_norm_near : forall neg m nf x, 0 <= m -> is_near64 (if neg : bool then fneg (f_norm m (x - 4 * nf)) else f_norm m (x - 4 * nf)) neg (hex_value neg m nf x).
Proof.
  intros neg m nf x M. set (e := x - 4 * nf). assert (A : is_near64 (f_norm m e) false (IZR m * bpow radix2 e)%R).
  { pose proof (f_norm_rounds m e) as R. pose proof (f_norm_sign m e M) as S. change (F2R (Float radix2 m e)) with (IZR m * bpow radix2 e)%R in R. unfold rounds_to in R. unfold is_near64, fits64. change near64 with RN. split; [exact S|].
    destruct (Rlt_bool_spec (Rabs (RN (IZR m * bpow radix2 e))) (bpow radix2 1024)) as [L|L].
    - split; [intros _; auto|intros C; contradiction].
    - split; [intros C; lra|]. intros _. rewrite R in S |- *. simpl in S. rewrite S. reflexivity. }
  unfold hex_value. fold e. pose proof (f_norm_num m e) as NN. set (a := f_norm m e) in *. clearbody a. set (v := (IZR m * bpow radix2 e)%R) in *. clearbody v. destruct neg; [|rewrite Rmult_1_l; exact A].
  replace (-1 * v)%R with (- v)%R by ring. destruct A as (S & R1 & R2). assert (O : near64 (- v) = (- near64 v)%R) by (unfold near64; apply round_NE_opp). assert (FF : fits64 (- v) <-> fits64 v) by (unfold fits64; rewrite O, Rabs_Ropp; reflexivity).
  split; [unfold fneg; rewrite Bsign_Bopp by exact NN; rewrite S; reflexivity|]. split.
  - intros F. apply FF in F. destruct (R1 F) as [Q1 Q2]. unfold fneg. rewrite is_finite_Bopp, B2R_Bopp, Q2, O. auto.
  - intros F. rewrite R2 by (intros C; apply F, FF; exact C). reflexivity.
Qed.
Lemma hex_parts : forall t neg m nf x, hex_numeral (plain t) neg m nf x -> hexed t -> hex_underscores t ->
  exists sg c body ip ft fd p et, sign_text sg neg /\ (c = 120 \/ c = 88) /\ t = sg ++ 48 :: c :: body /\ plain body = ip ++ ft ++ p :: et /\
    Forall hdig ip /\ hfrac ft fd /\ ip ++ fd <> [] /\ (p = 112 \/ p = 80) /\ int_numeral et x /\ m = hspelled (ip ++ fd) /\ nf = zlen fd /\ body <> [] /\ us_ok true body 48 = true.
Proof.
  intros t neg m nf x H (sg & sn & c & y & r & S & C & E) U. assert (PT : plain t = sg ++ 48 :: c :: plain (y :: r)) by (rewrite E, (sign_plain sg sn _ S), !plain_cons by lia; reflexivity).
  assert (US : us_ok true (y :: r) 48 = true) by (apply (hex_us sg sn c (y :: r) S C); rewrite <- E; exact U).
  rewrite PT in H. set (b := plain (y :: r)) in *. remember (sg ++ 48 :: c :: b) as w eqn:W. destruct H as [sg2 neg2 c2 ip ft fd p et x S2 C2 D F NE P I].
  assert (K : sg2 = sg /\ neg2 = sn /\ c2 = c /\ ip ++ ft ++ p :: et = b) by (destruct S, S2; cbn [app] in W; injection W; intros; subst; try discriminate; try lia; auto). destruct K as (-> & -> & -> & B).
  exists sg, c, (y :: r), ip, ft, fd, p, et. repeat split; auto. discriminate.
Qed.
Lemma parse_hex_numeral : forall t neg m nf x, hexed t -> hex_underscores t -> hex_numeral (plain t) neg m nf x ->
  exists e, (Z.abs x < 100000 -> e = x) /\ parse_float t = fin_hex true neg m nf e false /\ 0 <= m.
Proof.
  intros t neg m nf x X U H. destruct (hex_parts t neg m nf x H X U) as (sg & c & body & ip & ft & fd & p & et & S & C & E & B & D & F & NE & P & I & -> & -> & NB & US).
  destruct body as [|y r]; [congruence|]. rewrite E, (parse_hex sg neg c y r S C), US. assert (G : hgood (Some 48) (y :: r)) by (apply us_48; exact US). rewrite (hrest_plain neg _ G), B.
  destruct (hrest_numeral neg ip ft fd p et x D F NE P I) as (e & E1 & E2). exists e. split; [exact E1|]. split; [apply E2|]. apply hspelled_nonneg. apply Forall_app. split; [exact D|destruct F; [constructor|assumption]].
Qed.
Lemma taken_hexed : forall t, hexed t -> ~ taken t.
Proof.
  intros t X [W|(_ & neg & m & nf & x & H)]; [|exact (taken_dec t neg m nf x H X)]. destruct X as (sg & neg & x & c & r & S & C & ->).
  assert (I : In 48 (sg ++ 48 :: x :: c :: r)) by (apply in_or_app; right; left; reflexivity). set (t := sg ++ 48 :: x :: c :: r) in *. clearbody t.
  assert (L : forall w s, in_letters w s -> Forall (fun d => 97 <= d <= 122) w -> ~ In 48 s) by (intros w s H; induction H as [|d e w s Hd H IH]; [intros _ []|]; intros F [Q|Q]; inversion F; subst; [lia|eapply IH; eauto]).
  destruct W as [(sg1 & neg1 & w & S1 & W & ->)|W]; [|exact (L _ _ W F_nan I)]. apply in_app_or in I. destruct I as [I|I]; [destruct S1; cbn in I; intuition discriminate|]. destruct W as [W|W]; [exact (L _ _ W F_inf I)|exact (L _ _ W F_infinity I)].
Qed.
Lemma parse_all : forall t, snd (parse_float t) <> PSyntax <-> taken t \/ hex_taken t.
Proof.
  intros t. destruct (Classical_Prop.classic (hexed t)) as [X|N].
  - split.
    + intros H. right. split; [exact X|]. destruct X as (sg & neg & x & c & r & S & C & ->). rewrite (parse_hex sg neg x c r S C) in H. destruct (hrest_taken neg (c :: r) H) as (U & ip & ft & fd & p & et & e & A1 & A2 & A3 & A4 & A5 & A6).
      split; [apply (hex_us sg neg x (c :: r) S C); exact U|]. exists neg, (hspelled (ip ++ fd)), (zlen fd), e. rewrite (sign_plain sg neg _ S), !plain_cons with (c := 48) by lia. rewrite (plain_cons x) by lia. rewrite A6. constructor; auto.
    + intros [T|(_ & U & neg & m & nf & x & H)]; [exfalso; exact (taken_hexed t X T)|]. destruct (parse_hex_numeral t neg m nf x X U H) as (e & _ & -> & _). unfold fin_hex. cbn [andb]. destruct (f_is_finite _); discriminate.
  - rewrite (parse_taken t N). split; [auto|]. intros [T|(X & _)]; [exact T|contradiction].
Qed.

(** ** C114, all texts *)
(** Scan into a float64 refuses exactly the texts that are neither taken for decimal numbers or words
    nor for hexadecimal numbers. *)
Theorem C114_all : forall t z0, exists a e, scan_one t (DF64 z0) = (DF64 a, e) /\
  (e = None \/ e = Some errNumRange \/ e = Some errNumSyntax) /\ (e = Some errNumSyntax <-> ~ (taken t \/ hex_taken t)).
Proof.
  intros t z0. pose proof (parse_all t) as P. cbn [scan_one]. destruct (parse_float t) as [a p]. cbn [snd] in P. exists a, (num_err p). split; [reflexivity|].
  destruct p; cbn [num_err].
  - split; [auto|]. split; [discriminate|]. intros N. exfalso. apply N, P. discriminate.
  - split; [auto|]. split; [intros _ C; apply P in C; congruence|reflexivity].
  - split; [auto|]. split; [discriminate|]. intros N. exfalso. apply N, P. discriminate.
Qed.
(** A hexadecimal numeral is read as the nearest float64. *)
Theorem C114_hex : forall t z0 neg m nf x, hexed t -> hex_underscores t -> hex_numeral (plain t) neg m nf x -> Z.abs x < 100000 ->
  exists a, is_near64 a neg (hex_value neg m nf x) /\
    (fits64 (hex_value neg m nf x) -> scan_one t (DF64 z0) = (DF64 a, None)) /\
    (~ fits64 (hex_value neg m nf x) -> scan_one t (DF64 z0) = (DF64 a, Some errNumRange)).
Proof.
  intros t z0 neg m nf x X U H L. destruct (parse_hex_numeral t neg m nf x X U H) as (e & E & P & M). rewrite (E L) in P. clear E. eexists. split; [apply (f_norm_near neg m nf x M)|].
  destruct (f_norm_near neg m nf x M) as (_ & R1 & R2). cbn [scan_one]. rewrite P. unfold fin_hex. cbn [andb]. set (a := if neg then fneg (f_norm m (x - 4 * nf)) else f_norm m (x - 4 * nf)) in *. clearbody a.
  split; intros F; [pose proof (proj1 (R1 F)) as K; change (f_is_finite a = true) in K; rewrite K|rewrite (R2 F)]; reflexivity.
Qed.
(** A number cell of an XLSX sheet keeps exactly the texts as texts that are not taken for numbers or
    are too large. *)
Theorem C114_xlsx_all : forall strs t, exists w, cell_text_value strs (bs "n") t = Ok (Some w) /\
  (w = GStr t \/ exists a, w = GF64 a) /\ (~ (taken t \/ hex_taken t) -> w = GStr t) /\ (forall a z0, w = GF64 a <-> scan_one t (DF64 z0) = (DF64 a, None)).
Proof.
  intros strs t. unfold cell_text_value. change (str_eqb (bs "n") (bs "b")) with false. change (str_eqb (bs "n") (bs "n")) with true. cbn iota. pose proof (parse_all t) as P. cbn [scan_one]. destruct (parse_float t) as [a p]. cbn [snd] in P.
  destruct p; eexists; (split; [reflexivity|]); (split; [eauto|]); (split; [first [reflexivity|intros N; exfalso; apply N, P; discriminate]|]); cbn [num_err].
  - intros a0 z0. split; intros E; [injection E as ->|injection E as ->]; reflexivity.
  - intros a0 z0. split; discriminate.
  - intros a0 z0. split; discriminate.
Qed.
(** -0x_1.8p3 is -12 *)
Example ex_C114_hex : hexed (bs "-0x_1.8p3") /\ hex_underscores (bs "-0x_1.8p3") /\ hex_numeral (plain (bs "-0x_1.8p3")) true 24 1 3 /\ hex_value true 24 1 3 = (-12)%R /\
  ~ (taken (bs "0x12") \/ hex_taken (bs "0x12")) /\ ~ (taken (bs "0x1p_3") \/ hex_taken (bs "0x1p_3")).
Proof.
  assert (R : forall t, snd (parse_float t) = PSyntax -> ~ (taken t \/ hex_taken t)) by (intros t P C; apply parse_all in C; contradiction).
  assert (D : forall l, forallb is_digit l = true -> Forall dig l) by (intros l E; apply Forall_forall; intros c I; apply is_dig; rewrite forallb_forall in E; exact (E c I)).
  assert (DH : forall l, forallb hex_is l = true -> Forall hdig l) by (intros l E; apply Forall_forall; intros c I; apply is_hdig; rewrite forallb_forall in E; exact (E c I)).
  split; [exists [45], true, 120, 95, (bs "1.8p3"); repeat split; try constructor; reflexivity|]. split; [apply (hex_us [45] true 120 (bs "_1.8p3") st_minus); [left; reflexivity|reflexivity]|]. split.
  { apply (a_hex [45] true 120 (bs "1") (bs ".8") (bs "8") 112 (bs "3") 3); [constructor|auto|apply DH; reflexivity|apply (hf_some (bs "8")); apply DH; reflexivity|discriminate|auto|].
    apply (an_int [] false (bs "3")); [constructor|apply D; reflexivity|discriminate]. }
  split; [unfold hex_value; change (bpow radix2 (3 - 4 * 1)) with (/ 2)%R; lra|]. split; apply R; vm_compute; reflexivity.
Qed.
Print Assumptions C114_all.
Print Assumptions C114_hex.
Print Assumptions C114_xlsx_all.
