(** * P_accept: property C114 — exactly which texts are taken for numbers *)
From Verif Require Import M_grate M_dates M_fmt M_formats M_sheet S_cell L_cell S_sheet S_formats L_formats P_formats P_text GoBase GoFloat L_base L_float L_round S_numtext S_accept M_value M_cell M_simple P_simple P_cell M_xlsx P_numtext.
From Coq Require Import Reals Lia.
Open Scope Z_scope.
Local Opaque f_of_dec Z.pow.

(** ** without hexadecimal numerals *)
Definition fin_dec (ok neg : bool) (m nf e : Z) (us : bool) : f64 * perr :=
  if us && negb ok then (f_zero, PSyntax)
  else let v := f_of_dec neg m (e - nf) in if f_is_finite v then (v, PNone) else (v, PRange).
Definition rest_parse (ok neg : bool) (b : gostr) : f64 * perr :=
  let '(m, nd, nf, us1, r) := scan_mant false b 0 0 0 false false in
  if nd =? 0 then (f_zero, PSyntax) else
  match r with
  | [] => fin_dec ok neg m nf 0 us1
  | c :: r1 =>
      if lower c =? 101 then
        let '(en, r2) := take_sign r1 in
        match r2 with
        | d :: _ => if is_digit d then
            let '(e, us2, r3) := scan_exp r2 0 us1 in
            match r3 with [] => fin_dec ok neg m nf (if en then - e else e) us2 | _ => (f_zero, PSyntax) end
          else (f_zero, PSyntax)
        | [] => (f_zero, PSyntax)
        end
      else (f_zero, PSyntax)
  end.
Lemma sign_shape : forall s, exists sg neg, take_sign s = (neg, snd (take_sign s)) /\ sign_text sg neg /\ s = sg ++ snd (take_sign s).
Proof.
  intros s. destruct s as [|c s]; [exists [], false; repeat split; constructor|].
  destruct (Z.eq_dec c 43) as [->|N1]; [exists [43], false; repeat split; constructor|].
  destruct (Z.eq_dec c 45) as [->|N2]; [exists [45], true; repeat split; constructor|].
  assert (E : take_sign (c :: s) = (false, c :: s)).
  { clear - N1 N2. unfold take_sign. destruct c as [|q|q]; try reflexivity. do 6 (destruct q as [q|q|]; try reflexivity; try (exfalso; congruence)). }
  exists [], false. rewrite E. repeat split; constructor.
Qed.
Lemma x_lower : forall x, lower x = 120 -> x = 120 \/ x = 88.
Proof. intros x H. unfold lower in H. destruct ((65 <=? x) && (x <=? 90)) eqn:L; lia. Qed.
Definition hexb (b : gostr) : Prop := exists x c r, b = 48 :: x :: c :: r /\ (x = 120 \/ x = 88).
Lemma hexed_b : forall sg neg b, sign_text sg neg -> ~ hexed (sg ++ b) -> ~ hexb b.
Proof. intros sg neg b S N (x & c & r & -> & X). apply N. exists sg, neg, x, c, r. auto. Qed.
Lemma parse_dec : forall s, ~ hexed s -> parse_float s =
  let '(neg, b) := take_sign s in
  if str_eqb (map lower b) (bs "inf") || str_eqb (map lower b) (bs "infinity") then (f_inf neg, PNone)
  else if str_eqb (map lower s) (bs "nan") then (f_nan, PNone) else rest_parse (underscore_ok b) neg b.
Proof.
  intros s N. unfold parse_float. destruct (sign_shape s) as (sg & neg & E & SG & S). rewrite E. set (b := snd (take_sign s)) in *. clearbody b. cbv zeta.
  destruct (_ || _); [reflexivity|]. destruct (str_eqb (map lower s) _); [reflexivity|].
  assert (H : match b with 48 :: x :: (_ :: _) as r => if lower x =? 120 then (true, skipn 2 b) else (false, b) | _ => (false, b) end = (false, b)).
  { rewrite S in N. apply (hexed_b sg neg b SG) in N. clear - N.
    destruct b as [|a [|x [|y b]]]; try reflexivity; try (destruct a as [|q|q]; try reflexivity; do 6 (destruct q as [q|q|]; try reflexivity)).
    destruct (Z.eqb_spec (lower x) 120) as [X|X]; [|reflexivity]. exfalso. apply N. exists x, y, b. split; [reflexivity|apply x_lower; exact X]. }
  rewrite H. unfold rest_parse, fin_dec. destruct (scan_mant false b 0 0 0 false false) as [[[[m nd] nf] us1] r].
  destruct (nd =? 0); [reflexivity|]. destruct r as [|c r1]; [cbn [andb negb]; reflexivity|]. destruct (lower c =? 101); [|reflexivity].
  destruct (take_sign r1) as [en r2]. destruct r2 as [|d r2]; [reflexivity|]. destruct (is_digit d); [|reflexivity]. destruct (scan_exp (d :: r2) 0 us1) as [[e us2] r3]. destruct r3; cbn [andb negb]; reflexivity.
Qed.

(** ** underscores *)
Lemma plain_cons : forall c s, c <> 95 -> plain (c :: s) = c :: plain s.
Proof. intros c s H. unfold plain. cbn [filter]. replace (c =? 95) with false by lia. reflexivity. Qed.
Lemma plain_us : forall s, plain (95 :: s) = plain s. Proof. reflexivity. Qed.
Lemma plain_same : forall s, ~ In 95 s -> plain s = s.
Proof. induction s as [|c s IH]; intros H; [reflexivity|]. rewrite plain_cons by (intros ->; apply H; left; reflexivity). rewrite IH; [reflexivity|]. intros I. apply H. right. exact I. Qed.
(** what the scan of the digits leaves, and what it read *)
Lemma mant_shape : forall s m nd nf dot us, let '(m', nd', nf', us', r) := scan_mant false s m nd nf dot us in
  (forall us0, scan_mant false (plain s) m nd nf dot us0 = (m', nd', nf', us0, plain r)) /\
  (us = true -> us' = true) /\ (us' = false -> ~ In 95 s \/ In 95 r) /\ (match r with c :: _ => c <> 95 | [] => True end) /\
  exists pre ip ft fd, s = pre ++ r /\ plain s = ip ++ ft ++ plain r /\ Forall dig ip /\ (if dot then ft = [] /\ fd = [] else frac_text ft fd) /\ nd' = nd + zlen (ip ++ fd) /\ (us' = us || existsb (fun c => c =? 95) pre).
Proof.
  induction s as [|c s IH]; intros m nd nf dot us.
  - cbn. split; [reflexivity|]. split; [auto|]. split; [auto|]. split; [exact I|]. exists [], [], [], []. split; [reflexivity|]. split; [first [reflexivity|rewrite plain_cons by (assumption||lia); reflexivity]|]. split; [exact (Forall_nil _)|]. split; [first [exact ft_none|split; reflexivity|destruct dot; [split; reflexivity|exact ft_none]]|]. split; [change (zlen ([] ++ [])) with 0; lia|cbn [existsb]; rewrite orb_false_r; reflexivity].
  - cbn [scan_mant]. destruct (Z.eqb_spec c 95) as [->|N].
    + specialize (IH m nd nf dot true). destruct (scan_mant false s m nd nf dot true) as [[[[m' nd'] nf'] us'] r]. destruct IH as (A & B & _ & H & pre & ip & ft & fd & D1 & D2 & D3 & D4 & D5 & D6).
      rewrite plain_us. split; [exact A|]. split; [intros _; auto|]. split; [intros C; rewrite B in C by reflexivity; discriminate C|]. split; [exact H|]. exists (95 :: pre), ip, ft, fd. cbn [app existsb]. rewrite D1 at 1. repeat split; auto. rewrite D6. destruct us; reflexivity.
    + rewrite plain_cons by auto. destruct (Z.eqb_spec c 46) as [->|N2].
      * destruct dot.
        -- cbn [scan_mant]. rewrite plain_cons by lia. split; [reflexivity|]. split; [auto|]. split; [intros _; destruct (in_dec Z.eq_dec 95 (46 :: s)); auto|]. split; [lia|]. exists [], [], [], []. split; [reflexivity|]. split; [first [reflexivity|rewrite plain_cons by (assumption||lia); reflexivity]|]. split; [exact (Forall_nil _)|]. split; [first [exact ft_none|split; reflexivity|destruct dot; [split; reflexivity|exact ft_none]]|]. split; [change (zlen ([] ++ [])) with 0; lia|cbn [existsb]; rewrite orb_false_r; reflexivity].
        -- specialize (IH m nd nf true us). destruct (scan_mant false s m nd nf true us) as [[[[m' nd'] nf'] us'] r]. destruct IH as (A & B & C & H & pre & ip & ft & fd & D1 & D2 & D3 & [D4 D4'] & D5 & D6). subst ft fd.
           split; [intros us0; cbn [scan_mant]; exact (A us0)|]. split; [exact B|]. split; [intros F; destruct (C F) as [K|K]; [left; intros [Q|Q]; [lia|contradiction]|right; exact K]|]. split; [exact H|].
           exists (46 :: pre), [], (46 :: ip), ip. cbn [app existsb]. rewrite D1 at 1. rewrite D2. split; [reflexivity|]. split; [reflexivity|]. split; [constructor|]. split; [constructor; exact D3|]. rewrite app_nil_r in D5. split; [exact D5|]. exact D6.
      * destruct (is_digit c) eqn:DG.
        -- specialize (IH (m * 10 + (c - 48)) (nd + 1) (if dot then nf + 1 else nf) dot us). destruct (scan_mant false s (m * 10 + (c - 48)) (nd + 1) (if dot then nf + 1 else nf) dot us) as [[[[m' nd'] nf'] us'] r]. destruct IH as (A & B & C & H & pre & ip & ft & fd & D1 & D2 & D3 & D4 & D5 & D6).
           split; [intros us0; cbn [scan_mant]; replace (c =? 95) with false by lia; replace (c =? 46) with false by lia; rewrite DG; exact (A us0)|]. split; [exact B|]. split; [intros F; destruct (C F) as [K|K]; [left; intros [Q|Q]; [lia|contradiction]|right; exact K]|]. split; [exact H|].
           exists (c :: pre), (c :: ip), ft, fd. cbn [app existsb]. rewrite D1 at 1. rewrite D2. split; [reflexivity|]. split; [reflexivity|]. split; [constructor; [unfold is_digit in DG; unfold dig; lia|exact D3]|]. split; [exact D4|]. split; [rewrite zlen_cons; lia|]. replace (c =? 95) with false by lia. exact D6.
        -- rewrite plain_cons by auto. split; [intros us0; cbn [scan_mant]; replace (c =? 95) with false by lia; replace (c =? 46) with false by lia; rewrite DG; reflexivity|]. split; [auto|]. split; [intros _; destruct (in_dec Z.eq_dec 95 (c :: s)); auto|]. split; [exact N|]. exists [], [], [], []. split; [reflexivity|]. split; [first [reflexivity|rewrite plain_cons by (assumption||lia); reflexivity]|]. split; [exact (Forall_nil _)|]. split; [first [exact ft_none|split; reflexivity|destruct dot; [split; reflexivity|exact ft_none]]|]. split; [change (zlen ([] ++ [])) with 0; lia|cbn [existsb]; rewrite orb_false_r; reflexivity].
Qed.
Lemma exp_shape : forall s e us, let '(e', us', r) := scan_exp s e us in
  (forall us0, scan_exp (plain s) e us0 = (e', us0, plain r)) /\ (match r with c :: _ => c <> 95 | [] => True end) /\
  (r = [] -> Forall dig (plain s) /\ us' = us || existsb (fun c => c =? 95) s).
Proof.
  induction s as [|c s IH]; intros e us.
  - cbn. rewrite orb_false_r. repeat split; auto.
  - cbn [scan_exp]. destruct (Z.eqb_spec c 95) as [->|N].
    + specialize (IH e true). destruct (scan_exp s e true) as [[e' us'] r]. destruct IH as (A & B & C). rewrite plain_us. split; [exact A|]. split; [exact B|]. intros R. destruct (C R) as [C1 C2]. split; [exact C1|]. rewrite C2. cbn. destruct us; reflexivity.
    + rewrite plain_cons by auto. destruct (is_digit c) eqn:DG.
      * specialize (IH (if e <? 10000 then e * 10 + (c - 48) else e) us). destruct (scan_exp s (if e <? 10000 then e * 10 + (c - 48) else e) us) as [[e' us'] r]. destruct IH as (A & B & C). split; [intros us0; cbn [scan_exp]; replace (c =? 95) with false by lia; rewrite DG; exact (A us0)|]. split; [exact B|].
        intros R. destruct (C R) as [C1 C2]. split; [constructor; [unfold is_digit in DG; unfold dig; lia|exact C1]|]. cbn [existsb]. replace (c =? 95) with false by lia. exact C2.
      * rewrite plain_cons by auto. split; [intros us0; cbn [scan_exp]; replace (c =? 95) with false by lia; rewrite DG; reflexivity|]. split; [exact N|]. discriminate.
Qed.
(** the check of underscores *)
Definition cls (p : option Z) : Z := match p with None => 94 | Some c => if is_digit c then 48 else if c =? 95 then 95 else 33 end.
Definition last_of (p : option Z) (a : gostr) : option Z := fold_left (fun _ c => Some c) a p.
Definition starts (s : gostr) : Prop := exists e s', s = e :: s' /\ dig e.
Definition good (p : option Z) (s : gostr) : Prop :=
  forall a b, s = a ++ 95 :: b -> (exists d, last_of p a = Some d /\ dig d) /\ starts b.
Lemma good_cons : forall p c s, good p (c :: s) <-> (c = 95 -> (exists d, p = Some d /\ dig d) /\ starts s) /\ good (Some c) s.
Proof.
  intros p c s. split.
  - intros G. split; [intros ->; exact (G [] s eq_refl)|]. intros a b E. apply (G (c :: a) b). rewrite E. reflexivity.
  - intros [H G] [|c' a] b E; cbn [app] in E; injection E as -> ->; [exact (H eq_refl)|exact (G a b eq_refl)].
Qed.
Lemma is_dig : forall c, is_digit c = true <-> dig c.
Proof. intros c. unfold is_digit, dig. lia. Qed.
Lemma cls_48 : forall p, cls p = 48 <-> exists d, p = Some d /\ dig d.
Proof.
  intros [c|]; cbn.
  - destruct (is_digit c) eqn:D; [split; [intros _; exists c; split; [reflexivity|apply is_dig; exact D]|reflexivity]|]. split; [destruct (c =? 95); discriminate|intros (d & E & K); injection E as <-; apply is_dig in K; congruence].
  - split; [discriminate|intros (d & E & _); discriminate E].
Qed.
Lemma cls_95 : forall p, cls p = 95 <-> p = Some 95.
Proof.
  intros [c|]; cbn.
  - destruct (is_digit c) eqn:D; [split; [discriminate|intros E; injection E as ->; discriminate D]|]. destruct (Z.eqb_spec c 95) as [->|N]; split; auto; try discriminate. intros E. injection E as ->. lia.
  - split; discriminate.
Qed.
Lemma us_good : forall s p, us_ok false s (cls p) = true <-> good p s /\ (p = Some 95 -> starts s).
Proof.
  induction s as [|c s IH]; intros p.
  - cbn [us_ok]. rewrite negb_true_iff, Z.eqb_neq, cls_95. split.
    + intros N. split; [intros [|a0 a] b E; discriminate E|intros C; contradiction].
    + intros [_ H] C. destruct (H C) as (e & s' & E & _). discriminate E.
  - cbn [us_ok andb]. rewrite orb_false_r. rewrite good_cons. destruct (is_digit c) eqn:D.
    + assert (K : cls (Some c) = 48) by (cbn; rewrite D; reflexivity). rewrite <- K, IH. assert (c <> 95) by (intros ->; discriminate D). split.
      * intros [G _]. split; [split; [intros C; contradiction|exact G]|]. intros _. exists c, s. split; [reflexivity|apply is_dig; exact D].
      * intros [[_ G] _]. split; [exact G|]. intros E. injection E as E. contradiction.
    + assert (ND : ~ starts (c :: s)) by (intros (e & s' & E & Q); injection E as <- <-; apply is_dig in Q; congruence).
      destruct (Z.eqb_spec c 95) as [->|N].
      * destruct (Z.eqb_spec (cls p) 48) as [K|K].
        -- change 95 with (cls (Some 95)) at 1. rewrite IH. split.
           ++ intros [G H]. split; [split; [intros _; split; [apply cls_48; exact K|apply H; reflexivity]|exact G]|]. intros ->. discriminate K.
           ++ intros [[H G] _]. split; [exact G|]. intros _. apply H. reflexivity.
        -- split; [discriminate|]. intros [[H _] _]. exfalso. apply K. apply cls_48. apply H. reflexivity.
      * destruct (Z.eqb_spec (cls p) 95) as [K|K].
        -- split; [discriminate|]. intros [_ H]. exfalso. apply ND. apply H. apply cls_95. exact K.
        -- assert (E33 : cls (Some c) = 33) by (cbn; rewrite D; replace (c =? 95) with false by lia; reflexivity). rewrite <- E33, IH. rewrite <- !cls_95. split.
           ++ intros [G _]. split; [split; [intros C; contradiction|exact G]|]. intros C. contradiction.
           ++ intros [[_ G] _]. split; [exact G|]. rewrite E33. discriminate.
Qed.
Lemma last_snoc : forall a p d, last_of p a = Some d -> (exists a', a = a' ++ [d]) \/ a = [] /\ p = Some d.
Proof.
  intros a. induction a as [|c a IH]; intros p d H; [right; auto|]. cbn in H. destruct (IH _ _ H) as [[a' ->]|[-> E]]; left; [exists (c :: a'); reflexivity|injection E as ->; exists []; reflexivity].
Qed.
Lemma between_good : forall t, between_digits t <-> good None t.
Proof.
  intros t. split; intros H a b E.
  - destruct (H a b E) as (a' & d & e & b' & -> & -> & D1 & D2). split; [exists d; split; [unfold last_of; rewrite fold_left_app; reflexivity|exact D1]|exists e, b'; auto].
  - destruct (H a b E) as [(d & L & D1) (e & b' & -> & D2)]. destruct (last_snoc a None d L) as [[a' ->]|[_ C]]; [|discriminate C]. exists a', d, e, b'. auto.
Qed.
Lemma us_33 : forall s, us_ok false s 33 = us_ok false s 94. Proof. intros [|c s]; reflexivity. Qed.
Lemma between_sign : forall sg neg b, sign_text sg neg -> (between_digits (sg ++ b) <-> us_ok false b 94 = true).
Proof.
  intros sg neg b S. rewrite between_good. destruct S; cbn [app].
  - change 94 with (cls None). rewrite us_good. intuition discriminate.
  - rewrite good_cons. rewrite <- us_33. change 33 with (cls (Some 43)). rewrite us_good. intuition discriminate.
  - rewrite good_cons. rewrite <- us_33. change 33 with (cls (Some 45)). rewrite us_good. intuition discriminate.
Qed.

(** ** numerals with underscores *)
Lemma b_lower : forall x, lower x = 98 \/ lower x = 111 -> In x [98; 66; 111; 79].
Proof. intros x H. unfold lower in H. cbn [In]. destruct ((65 <=? x) && (x <=? 90)) eqn:L; lia. Qed.
Lemma rest_ok : forall neg b, ~ hexb b -> rest_parse (underscore_ok b) neg b = rest_parse (us_ok false b 94) neg b.
Proof.
  intros neg b N. assert (D : underscore_ok b = us_ok false b 94 \/ (exists x r, b = 48 :: x :: r /\ In x [98; 66; 111; 79]) \/ b = [48; 120] \/ b = [48; 88]).
  { destruct b as [|a [|x r]]; [left; reflexivity|left|].
    - destruct a as [|q|q]; try reflexivity. do 6 (destruct q as [q|q|]; try reflexivity).
    - destruct (Z.eq_dec a 48) as [->|NA]; [|left; destruct a as [|q|q]; try reflexivity; do 6 (destruct q as [q|q|]; try reflexivity; try (exfalso; congruence))].
      unfold underscore_ok. destruct (Z.eqb_spec (lower x) 120) as [X|X]; [right; right; apply x_lower in X; destruct r as [|c r]; [destruct X as [->| ->]; auto|exfalso; apply N; exists x, c, r; auto]|].
      destruct ((lower x =? 98) || (lower x =? 111)) eqn:B; [right; left; exists x, r; split; [reflexivity|apply b_lower; lia]|left; reflexivity]. }
  destruct D as [->|[(x & r & -> & I)|[->| ->]]]; [reflexivity| |reflexivity|reflexivity]. cbn [In] in I. destruct I as [<-|[<-|[<-|[<-|[]]]]]; reflexivity.
Qed.
Lemma good_adj : forall p pre c r, good p (pre ++ c :: 95 :: r) -> dig c.
Proof.
  intros p pre c r G. destruct (G (pre ++ [c]) r) as [(d & L & D) _]; [rewrite <- app_assoc; reflexivity|]. unfold last_of in L. rewrite fold_left_app in L. cbn in L. injection L as ->. exact D.
Qed.
Lemma e_lower : forall c, lower c = 101 -> c = 101 \/ c = 69.
Proof. intros c H. unfold lower in H. destruct ((65 <=? c) && (c <=? 90)) eqn:L; lia. Qed.
Lemma sign_plain : forall sg neg b, sign_text sg neg -> plain (sg ++ b) = sg ++ plain b.
Proof. intros sg neg b S. destruct S; reflexivity. Qed.
(** the sign of an exponent when no underscore stands behind the e or the sign *)
Lemma exp_sign : forall p pre c r, good p (pre ++ c :: r) -> ~ dig c ->
  take_sign (plain r) = (fst (take_sign r), plain (snd (take_sign r))) /\ match snd (take_sign r) with d :: _ => d <> 95 | [] => True end.
Proof.
  intros p pre c r G NC. destruct (sign_shape r) as (sg & neg & E & S & R). rewrite E. cbn [fst snd]. set (b := snd (take_sign r)) in *. clearbody b. subst r.
  assert (N : match b with d :: _ => d <> 95 | [] => True end).
  { destruct b as [|d b]; [exact I|]. intros ->. destruct S; cbn [app] in G; [apply good_adj in G; contradiction| |];
    [change (pre ++ c :: 43 :: 95 :: b) with (pre ++ [c] ++ 43 :: 95 :: b) in G|change (pre ++ c :: 45 :: 95 :: b) with (pre ++ [c] ++ 45 :: 95 :: b) in G]; rewrite app_assoc in G; apply good_adj in G; unfold dig in G; lia. }
  split; [|exact N]. rewrite (sign_plain sg neg b S). destruct S; [|reflexivity|reflexivity]. cbn [app] in *. destruct b as [|d b]; [reflexivity|]. rewrite plain_cons by exact N.
  clear - E. destruct (Z.eq_dec d 43) as [->|N1]; [apply (f_equal (fun q => List.length (snd q))) in E; cbn in E; lia|]. destruct (Z.eq_dec d 45) as [->|N2]; [discriminate E|].
  unfold take_sign. destruct d as [|q|q]; try reflexivity. do 6 (destruct q as [q|q|]; try reflexivity; try (exfalso; congruence)).
Qed.
Lemma fin_any : forall neg m nf e us us', fin_dec true neg m nf e us = fin_dec true neg m nf e us'.
Proof. intros. unfold fin_dec. rewrite !andb_false_r. reflexivity. Qed.
Lemma rest_plain : forall neg b, good None b -> rest_parse true neg b = rest_parse true neg (plain b).
Proof.
  intros neg b G. unfold rest_parse. pose proof (mant_shape b 0 0 0 false false) as M. destruct (scan_mant false b 0 0 0 false false) as [[[[m nd] nf] us1] r].
  destruct M as (A & _ & _ & H & pre & ip & ft & fd & D1 & _). rewrite (A false). destruct (nd =? 0); [reflexivity|]. destruct r as [|c r1]; [apply fin_any|]. rewrite plain_cons by exact H.
  destruct (Z.eqb_spec (lower c) 101) as [C|C]; [|reflexivity]. assert (NC : ~ dig c) by (destruct (e_lower c C) as [->| ->]; unfold dig; lia).
  rewrite D1 in G. destruct (exp_sign None pre c r1 G NC) as [T N]. rewrite T. destruct (take_sign r1) as [en r2]. cbn [fst snd] in *. destruct r2 as [|d r2]; [reflexivity|]. rewrite plain_cons by exact N.
  destruct (is_digit d) eqn:DG; [|reflexivity]. rewrite <- (plain_cons d r2) by exact N. pose proof (exp_shape (d :: r2) 0 us1) as X. destruct (scan_exp (d :: r2) 0 us1) as [[e us2] r3]. destruct X as (X1 & X2 & _). rewrite (X1 false).
  destruct r3 as [|c3 r3]; [apply fin_any|]. rewrite plain_cons by exact X2. reflexivity.
Qed.
Lemma ex95 : forall s, existsb (fun c => c =? 95) s = false -> ~ In 95 s.
Proof. induction s as [|c s IH]; [intros _ []|]. intros H [E|E]; cbn in H; [subst; discriminate H|]. apply orb_false_iff in H. apply (IH (proj2 H) E). Qed.
Lemma good_none : forall s, ~ In 95 s -> us_ok false s 94 = true.
Proof. intros s N. change 94 with (cls None). apply us_good. split; [|discriminate]. intros a b ->. exfalso. apply N. apply in_or_app. right. left. reflexivity. Qed.
Lemma rest_taken : forall neg b, snd (rest_parse (us_ok false b 94) neg b) <> PSyntax ->
  us_ok false b 94 = true /\ exists ip ft fd et x, Forall dig ip /\ frac_text ft fd /\ ip ++ fd <> [] /\ exp_part et x /\ plain b = ip ++ ft ++ et.
Proof.
  intros neg b H. unfold rest_parse in H. pose proof (mant_shape b 0 0 0 false false) as M. destruct (scan_mant false b 0 0 0 false false) as [[[[m nd] nf] us1] r].
  destruct M as (_ & _ & _ & NR & pre & ip & ft & fd & D1 & D2 & D3 & D4 & D5 & D6). rewrite Z.add_0_l in D5. cbn [orb] in D6.
  destruct (Z.eqb_spec nd 0) as [Q|Q]; [cbn in H; congruence|]. assert (NE : ip ++ fd <> []) by (intros E; rewrite E in D5; apply Q; exact D5).
  destruct r as [|c r1].
  - split.
    + destruct us1; [|apply good_none; rewrite D1, app_nil_r; apply ex95; symmetry; exact D6]. unfold fin_dec in H. destruct (us_ok false b 94); [reflexivity|cbn in H; congruence].
    + exists ip, ft, fd, [], 0. repeat split; auto. constructor.
  - destruct (Z.eqb_spec (lower c) 101) as [C|C]; [|cbn in H; congruence]. destruct (sign_shape r1) as (sg & en & E & S & R). rewrite E in H. set (r2 := snd (take_sign r1)) in *. clearbody r2. clear E.
    destruct r2 as [|d r2]; [cbn in H; congruence|]. destruct (is_digit d) eqn:DG; [|cbn in H; congruence].
    pose proof (exp_shape (d :: r2) 0 us1) as X. destruct (scan_exp (d :: r2) 0 us1) as [[e us2] r3]. destruct X as (_ & _ & X3). destruct r3; [|cbn in H; congruence]. destruct (X3 eq_refl) as [X4 X5].
    split.
    + destruct us2; [unfold fin_dec in H; destruct (us_ok false b 94); [reflexivity|cbn in H; congruence]|]. symmetry in X5. apply orb_false_iff in X5. destruct X5 as [U1 U2].
      apply good_none. rewrite D1, R. intros I. apply in_app_or in I. destruct I as [I|[I|I]]; [rewrite U1 in D6; symmetry in D6; apply (ex95 _ D6 I)|congruence|]. apply in_app_or in I. destruct I as [I|I]; [|apply (ex95 _ U2 I)].
      destruct S; cbn in I; intuition discriminate.
    + exists ip, ft, fd, (c :: sg ++ plain (d :: r2)), (if en then - spelled (plain (d :: r2)) else spelled (plain (d :: r2))). split; [exact D3|]. split; [exact D4|]. split; [exact NE|]. split.
      * constructor; [apply e_lower; exact C|]. constructor; [exact S|exact X4|]. rewrite plain_cons by (intros ->; discriminate DG). discriminate.
      * rewrite D2, plain_cons by exact NR. rewrite R, (sign_plain sg en _ S). reflexivity.
Qed.

(** ** words *)
Lemma lower_letter : forall c d, 97 <= d <= 122 -> (lower c = d <-> c = d \/ c = d - 32).
Proof. intros c d R. unfold lower. destruct ((65 <=? c) && (c <=? 90)) eqn:L; lia. Qed.
Lemma letters_lower : forall w t, Forall (fun d => 97 <= d <= 122) w -> (map lower t = w <-> in_letters w t).
Proof.
  induction w as [|d w IH]; intros t F.
  - split; [destruct t; [constructor|discriminate]|intros H; inversion H; reflexivity].
  - inversion F as [|? ? Fd Fw]; subst. split.
    + destruct t as [|c t]; [discriminate|]. cbn. intros E. injection E as E1 E2. constructor; [apply lower_letter; auto|apply IH; auto].
    + intros H. inversion H as [|? ? ? ? H1 H2]; subst. cbn. f_equal; [apply lower_letter; auto|apply IH; auto].
Qed.
Lemma word_eqb : forall w t, Forall (fun d => 97 <= d <= 122) w -> (str_eqb (map lower t) w = true <-> in_letters w t).
Proof. intros w t F. rewrite str_eqb_eq. apply letters_lower. exact F. Qed.
Lemma F_inf : Forall (fun d => 97 <= d <= 122) (bs "inf"). Proof. repeat constructor; vm_compute; discriminate. Qed.
Lemma F_infinity : Forall (fun d => 97 <= d <= 122) (bs "infinity"). Proof. repeat constructor; vm_compute; discriminate. Qed.
Lemma F_nan : Forall (fun d => 97 <= d <= 122) (bs "nan"). Proof. repeat constructor; vm_compute; discriminate. Qed.

Lemma plain_in : forall c t, In c (plain t) <-> In c t /\ c <> 95.
Proof. intros c t. unfold plain. rewrite filter_In, negb_true_iff, Z.eqb_neq. reflexivity. Qed.
Lemma sign_take : forall t, good None t -> take_sign (plain t) = (fst (take_sign t), plain (snd (take_sign t))).
Proof.
  intros t G. refine (proj1 (exp_sign None [] 33 t _ _)); [|unfold dig; lia]. cbn [app]. apply good_cons. split; [discriminate|]. assert (U : us_ok false t 94 = true) by (change 94 with (cls None); apply us_good; split; [exact G|discriminate]).
  rewrite <- us_33 in U. change 33 with (cls (Some 33)) in U. apply us_good in U. apply U.
Qed.
Lemma hexb_plain : forall b, good None b -> ~ hexb b -> ~ hexb (plain b).
Proof.
  intros b G N (x & c & r & E & X). destruct b as [|a b]; [discriminate E|]. apply good_cons in G. destruct G as [G1 G2]. assert (A : a <> 95) by (intros ->; destruct (G1 eq_refl) as [(d & C & _) _]; discriminate C).
  rewrite plain_cons in E by exact A. injection E as -> E. destruct b as [|y b]; [discriminate E|]. apply good_cons in G2. destruct G2 as [G2 _]. destruct (Z.eq_dec y 95) as [->|Y].
  - destruct (G2 eq_refl) as [_ (e & b' & -> & De)]. rewrite plain_us, plain_cons in E by (unfold dig in De; lia). injection E as -> _. unfold dig in De. lia.
  - rewrite plain_cons in E by exact Y. injection E as -> E. destruct b as [|z b]; [discriminate E|]. apply N. exists x, z, b. auto.
Qed.
Lemma hexed_plain : forall t, between_digits t -> ~ hexed t -> ~ hexed (plain t).
Proof.
  intros t B N (sg & neg & x & c & r & S & X & E). destruct (sign_shape t) as (sg1 & neg1 & T1 & S1 & T). set (b := snd (take_sign t)) in *. assert (EB : plain b = 48 :: x :: c :: r).
  { pose proof (sign_take t (proj1 (between_good t) B)) as Q. rewrite E, T1 in Q. cbn [fst] in Q. assert (K : take_sign (sg ++ 48 :: x :: c :: r) = (neg, 48 :: x :: c :: r)) by (destruct S; reflexivity). rewrite K in Q. apply (f_equal snd) in Q. cbn [snd] in Q. symmetry. exact Q. }
  clearbody b. rewrite T in N, B. apply (between_sign sg1 neg1 b S1) in B. change 94 with (cls None) in B. apply us_good in B. apply (hexed_b sg1 neg1 b S1) in N. apply (hexb_plain b (proj1 B) N). exists x, c, r. auto.
Qed.
Lemma taken_dec : forall t neg m nf x, numeral (plain t) neg m nf x -> ~ hexed t.
Proof.
  intros t neg m nf x H (sg & sn & c & y & r & S & C & E). assert (I : In c (plain t)) by (apply plain_in; split; [rewrite E; apply in_or_app; right; right; left; reflexivity|lia]).
  destruct H as [sg2 neg2 ip ft fd et x S2 D F NE X]. assert (FN : Forall numch (sg2 ++ ip ++ ft ++ et)) by (apply Forall_app; split; [eapply sign_numch; eauto|eapply body_numch; eauto]).
  rewrite Forall_forall in FN. destruct (numch_lower c (FN c I)) as (_ & _ & K). destruct C as [->| ->]; apply K; reflexivity.
Qed.
Lemma digit_no_word : forall s d w, In d s -> dig d -> Forall (fun d => 97 <= d <= 122) w -> str_eqb (map lower s) w = false.
Proof.
  intros s d w I D F. destruct (str_eqb (map lower s) w) eqn:E; [|reflexivity]. exfalso. apply str_eqb_eq in E. apply (in_map lower) in I. rewrite E in I. rewrite Forall_forall in F. specialize (F _ I). unfold lower, dig in *. destruct ((65 <=? d) && (d <=? 90)) eqn:L; lia.
Qed.
Lemma parse_plain : forall t, ~ hexed t -> between_digits t -> parse_float t = parse_float (plain t).
Proof.
  intros t NX B. destruct (in_dec Z.eq_dec 95 t) as [I|I]; [|rewrite plain_same by exact I; reflexivity].
  destruct (in_split _ _ I) as (a & r & E). destruct (B a r E) as (a' & d & _ & _ & Ea & _ & D & _). assert (Id : In d t) by (rewrite E, Ea, <- app_assoc; apply in_or_app; right; left; reflexivity). clear a r a' E Ea I.
  rewrite (parse_dec t NX), (parse_dec (plain t) (hexed_plain t B NX)). pose proof B as G. apply between_good in G. rewrite (sign_take t G). destruct (sign_shape t) as (sg & neg & E & S & T). rewrite E. cbn [fst snd]. set (b := snd (take_sign t)) in *. clearbody b.
  assert (Ib : In d b) by (rewrite T in Id; apply in_app_or in Id; destruct Id as [K|K]; [|exact K]; exfalso; unfold dig in D; destruct S; cbn in K; intuition lia).
  assert (d <> 95) by (unfold dig in D; lia). assert (Ip : In d (plain b)) by (apply plain_in; auto). assert (It : In d (plain t)) by (apply plain_in; auto).
  rewrite (digit_no_word b d (bs "inf") Ib D F_inf), (digit_no_word b d (bs "infinity") Ib D F_infinity), (digit_no_word t d (bs "nan") Id D F_nan).
  rewrite (digit_no_word (plain b) d (bs "inf") Ip D F_inf), (digit_no_word (plain b) d (bs "infinity") Ip D F_infinity), (digit_no_word (plain t) d (bs "nan") It D F_nan). cbn [orb].
  assert (NB : ~ hexb b) by (rewrite T in NX; exact (hexed_b sg neg b S NX)).
  assert (NP : ~ hexb (plain b)) by (apply hexb_plain; [|exact NB]; apply between_good in G; rewrite T in G; apply (between_sign sg neg b S) in G; change 94 with (cls None) in G; apply us_good in G; apply G).
  rewrite (rest_ok neg b NB), (rest_ok neg (plain b) NP). rewrite (good_none (plain b)) by (rewrite plain_in; tauto).
  assert (U : us_ok false b 94 = true) by (apply (between_sign sg neg b S); rewrite <- T; exact B). rewrite U. apply rest_plain. change 94 with (cls None) in U. apply us_good in U. apply U.
Qed.
Lemma word_head : forall sg neg w, sign_text sg neg -> (in_letters (bs "inf") w \/ in_letters (bs "infinity") w) -> take_sign (sg ++ w) = (neg, w).
Proof.
  intros sg neg w S H. destruct S; try reflexivity. cbn [app]. assert (K : exists c w', w = c :: w' /\ (c = 105 \/ c = 73)) by (destruct H as [H|H]; inversion H as [|? c ? w' Hc ?]; subst; exists c, w'; split; auto; change (105 - 32) with 73 in Hc; lia).
  destruct K as (c & w' & -> & [->| ->]); reflexivity.
Qed.
Lemma parse_inf : forall sg neg w, sign_text sg neg -> (in_letters (bs "inf") w \/ in_letters (bs "infinity") w) -> parse_float (sg ++ w) = (f_inf neg, PNone).
Proof.
  intros sg neg w S H. unfold parse_float. rewrite (word_head sg neg w S H). cbv zeta. destruct H as [H|H]; [apply (word_eqb _ _ F_inf) in H|apply (word_eqb _ _ F_infinity) in H]; rewrite H; rewrite ?orb_true_r; reflexivity.
Qed.
Lemma parse_nan : forall t, in_letters (bs "nan") t -> parse_float t = (f_nan, PNone).
Proof.
  intros t H. assert (T : take_sign t = (false, t)) by (inversion H as [|? c ? w' Hc ?]; subst; assert (c = 110 \/ c = 78) as [->| ->] by lia; reflexivity).
  apply (word_eqb _ _ F_nan) in H. unfold parse_float. rewrite T. cbv zeta. rewrite H. apply str_eqb_eq in H. rewrite H. reflexivity.
Qed.
Lemma parse_taken : forall t, ~ hexed t -> (snd (parse_float t) <> PSyntax <-> taken t).
Proof.
  intros t NX. split.
  - rewrite (parse_dec t NX). destruct (sign_shape t) as (sg & neg & E & S & T). rewrite E. set (b := snd (take_sign t)) in *. clearbody b. intros H.
    destruct (str_eqb (map lower b) (bs "inf") || str_eqb (map lower b) (bs "infinity")) eqn:W.
    { left. left. exists sg, neg, b. split; [exact S|]. split; [|exact T]. apply orb_true_iff in W. destruct W as [W|W]; [left; apply (word_eqb _ _ F_inf)|right; apply (word_eqb _ _ F_infinity)]; exact W. }
    destruct (str_eqb (map lower t) (bs "nan")) eqn:W2; [left; right; apply (word_eqb _ _ F_nan); exact W2|]. right.
    assert (NB : ~ hexb b) by (rewrite T in NX; exact (hexed_b sg neg b S NX)). rewrite (rest_ok neg b NB) in H.
    destruct (rest_taken neg b H) as (U & ip & ft & fd & et & x & A1 & A2 & A3 & A4 & A5). split; [rewrite T; apply (between_sign sg neg b S); exact U|].
    exists neg, (spelled (ip ++ fd)), (zlen fd), x. rewrite T, (sign_plain sg neg b S), A5. constructor; auto.
  - intros [[(sg & neg & w & S & H & ->)|H]|(B & neg & m & nf & x & H)].
    + rewrite (parse_inf sg neg w S H). discriminate.
    + rewrite (parse_nan t H). discriminate.
    + rewrite (parse_plain t NX B). destruct (parse_numeral _ _ _ _ _ H) as (e & _ & _ & ->). cbn [snd]. destruct (f_is_finite _); discriminate.
Qed.

(** ** C114 *)
(** Scan into a float64 refuses a text as no number exactly when it is not taken for one. *)
Theorem C114_scan : forall t z0, ~ hexed t -> exists a e, scan_one t (DF64 z0) = (DF64 a, e) /\
  (e = None \/ e = Some errNumRange \/ e = Some errNumSyntax) /\ (e = Some errNumSyntax <-> ~ taken t).
Proof.
  intros t z0 NX. pose proof (parse_taken t NX) as P. cbn [scan_one]. destruct (parse_float t) as [a p]. cbn [snd] in P. exists a, (num_err p). split; [reflexivity|].
  destruct p; cbn [num_err].
  - split; [auto|]. split; [discriminate|]. intros N. exfalso. apply N, P. discriminate.
  - split; [auto|]. split; [intros _ C; apply P in C; congruence|reflexivity].
  - split; [auto|]. split; [discriminate|]. intros N. exfalso. apply N, P. discriminate.
Qed.
(** The underscores do not change the number; the words are what they say. *)
Theorem C114_number : forall t z0 neg m nf x, between_digits t -> numeral (plain t) neg m nf x -> Z.abs x < 100000 \/ zlen t <= 9000 ->
  exists a, is_near64 a neg (dec_value neg m nf x) /\
    (fits64 (dec_value neg m nf x) -> scan_one t (DF64 z0) = (DF64 a, None)) /\
    (~ fits64 (dec_value neg m nf x) -> scan_one t (DF64 z0) = (DF64 a, Some errNumRange)).
Proof.
  intros t z0 neg m nf x B H L. pose proof (taken_dec t neg m nf x H) as NX. cbn [scan_one]. rewrite (parse_plain t NX B). apply (C109_scan_float (plain t) neg m nf x z0 H).
  destruct L as [L|L]; [left; exact L|right]. assert (zlen (plain t) <= zlen t); [|lia]. clear. induction t as [|c t IH]; [unfold plain; cbn; lia|]. unfold plain in *. cbn [filter]. destruct (negb (c =? 95)); rewrite ?zlen_cons; lia.
Qed.
Theorem C114_word : forall z0,
  (forall sg neg w, sign_text sg neg -> in_letters (bs "inf") w \/ in_letters (bs "infinity") w -> scan_one (sg ++ w) (DF64 z0) = (DF64 (f_inf neg), None)) /\
  (forall t, in_letters (bs "nan") t -> scan_one t (DF64 z0) = (DF64 f_nan, None)).
Proof. intros z0. split; [intros sg neg w S H|intros t H]; cbn [scan_one]; [rewrite (parse_inf sg neg w S H)|rewrite (parse_nan t H)]; reflexivity. Qed.
(** A number cell of an XLSX sheet keeps its text as a text exactly when the text is not taken for a
    number or the number is too large for a float64. *)
Theorem C114_xlsx : forall strs t, ~ hexed t ->
  (~ taken t -> cell_text_value strs (bs "n") t = Ok (Some (GStr t))) /\
  (number_word t -> exists a, f_is_finite a = false /\ cell_text_value strs (bs "n") t = Ok (Some (GF64 a))) /\
  (forall neg m nf x, between_digits t -> numeral (plain t) neg m nf x -> Z.abs x < 100000 \/ zlen t <= 9000 ->
    exists a, is_near64 a neg (dec_value neg m nf x) /\
      (fits64 (dec_value neg m nf x) -> cell_text_value strs (bs "n") t = Ok (Some (GF64 a))) /\
      (~ fits64 (dec_value neg m nf x) -> cell_text_value strs (bs "n") t = Ok (Some (GStr t)))).
Proof.
  intros strs t NX. unfold cell_text_value. change (str_eqb (bs "n") (bs "b")) with false. change (str_eqb (bs "n") (bs "n")) with true. cbn iota. split; [|split].
  - intros N. pose proof (parse_taken t NX) as P. destruct (parse_float t) as [a p]. cbn [snd] in P. destruct p; [exfalso; apply N, P; discriminate|reflexivity|reflexivity].
  - intros [(sg & neg & w & S & H & ->)|H]; [rewrite (parse_inf sg neg w S H); exists (f_inf neg)|rewrite (parse_nan t H); exists f_nan]; split; reflexivity.
  - intros neg m nf x B H L. destruct (C114_number t f_zero neg m nf x B H L) as (a & NA & A1 & A2). exists a. split; [exact NA|]. cbn [scan_one] in A1, A2. destruct (parse_float t) as [v p].
    split; intros F; [specialize (A1 F); injection A1 as -> E|specialize (A2 F); injection A2 as -> E]; destruct p; cbn in E; try discriminate E; reflexivity.
Qed.

(** Under a number format a text that is not taken for a number is shown like 0, and under a date
    format as a complaint. *)
Theorem C114_formats_refuted : forall x f s, reach_fx x -> s <> [] -> ~ merge_mark (GStr s) -> ~ hexed s -> ~ taken s ->
  (0 < f -> fx_cell_type x f = Some FloatCell ->
     (c <- make_put_cell x (GStr s) f ;; cell_string x c) = (c <- make_put_cell x (GStr (bs "0")) f ;; cell_string x c)) /\
  (forall lay, zfind f go_formatters = Some (FTime lay) ->
     (c <- make_put_cell x (GStr s) f ;; cell_string x c) = Ok (bs "MUST BE time.Time OR numeric TO FORMAT CORRECTLY")).
Proof.
  intros x f s X N M NX T. assert (P : snd (parse_float s) = PSyntax) by (pose proof (parse_taken s NX) as Q; destruct (snd (parse_float s)); [exfalso; apply T, Q; discriminate|reflexivity|exfalso; apply T, Q; discriminate]).
  split; [intros F C; apply C19_numbers_refuted; auto|]. intros lay L. rewrite (C19_dates x f lay s X L N M). destruct (parse_float s) as [y e]. cbn [snd] in P. rewrite P. reflexivity.
Qed.

(** ** texts *)
Example ex_C114 : ~ hexed (bs "-1_234.5e2") /\ between_digits (bs "-1_234.5e2") /\ numeral (plain (bs "-1_234.5e2")) true 12345 1 2 /\
  number_word (bs "+iNF") /\ ~ taken (bs "1,000") /\ ~ taken (bs "12 ") /\ ~ taken (bs "1_") /\ ~ taken (bs "1e_2") /\ ~ taken [].
Proof.
  assert (D : forall l, forallb is_digit l = true -> Forall dig l) by (intros l E; apply Forall_forall; intros c I; apply is_dig; rewrite forallb_forall in E; exact (E c I)).
  assert (X : forall t, existsb (fun c => (c =? 120) || (c =? 88)) t = false -> ~ hexed t).
  { intros t E (sg & neg & x & c & r & S & K & ->). apply (f_equal negb) in E. rewrite (proj2 (existsb_exists _ _)) in E; [discriminate E|]. exists x. split; [apply in_or_app; right; right; left; reflexivity|destruct K as [->| ->]; reflexivity]. }
  assert (R : forall t, existsb (fun c => (c =? 120) || (c =? 88)) t = false -> snd (parse_float t) = PSyntax -> ~ taken t).
  { intros t E P C. apply parse_taken in C; [contradiction|]. apply X. exact E. }
  split; [apply X; reflexivity|]. split.
  { change (bs "-1_234.5e2") with ([45] ++ bs "1_234.5e2"). apply (between_sign [45] true (bs "1_234.5e2") st_minus). reflexivity. }
  split.
  { change (plain (bs "-1_234.5e2")) with ([45] ++ bs "1234" ++ bs ".5" ++ bs "e2"). apply (a_numeral [45] true (bs "1234") (bs ".5") (bs "5") (bs "e2") 2); [constructor|apply D; reflexivity|apply (ft_some (bs "5")); apply D; reflexivity|discriminate|].
    apply (ep_some 101 (bs "2") 2); [auto|]. apply (an_int [] false (bs "2")); [constructor|apply D; reflexivity|discriminate]. }
  split.
  { left. exists [43], false, (bs "iNF"). split; [constructor|]. split; [|reflexivity]. left. unfold in_letters. vm_compute. repeat (constructor; [auto|]). constructor. }
  repeat split; apply R; vm_compute; reflexivity.
Qed.
Print Assumptions C114_scan.
Print Assumptions C114_number.
Print Assumptions C114_word.
Print Assumptions C114_xlsx.
Print Assumptions C114_formats_refuted.
