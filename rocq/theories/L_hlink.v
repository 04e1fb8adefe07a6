(** * L_hlink: lemmas about M_hlink. *)
From Verif Require Import GoBase GoUnicode L_base M_hlink S_hlink L_xlstr.
From Coq Require Import ZifyBool.

Lemma units_len_ok : forall us rest sp, Forall (fun u => 0 <= u < 65536) us ->
  units_len (List.length us) (mkSl (units16 us ++ rest) sp) = Ok (us, mkSl rest sp).
Proof.
  induction us as [|u us IH]; intros rest sp F; [reflexivity|]. inversion F; subst. cbn [List.length units_len]. unfold units16 in *. cbn [flat_map]. rewrite <- app_assoc. cbn [dat].
  rewrite le16_put16 by lia. cbn [bind]. rewrite sl_from_app by reflexivity. cbn [bind]. rewrite IH by auto. reflexivity.
Qed.
Lemma zlen_units16 : forall us, zlen (units16 us) = 2 * zlen us.
Proof. induction us as [|u us IH]; [reflexivity|]. unfold units16 in *. cbn [flat_map]. rewrite zlen_app, zlen_put16, zlen_cons, IH. lia. Qed.
Lemma units_off_ok : forall us pre rest sp no, Forall (fun u => 0 <= u < 65536) us -> no = zlen pre ->
  units_off (List.length us) (mkSl (pre ++ units16 us ++ rest) sp) no = Ok (us, no + 2 * zlen us).
Proof.
  induction us as [|u us IH]; intros pre rest sp no F ->; cbn [List.length units_off]; [rewrite Z.mul_0_r, Z.add_0_r; reflexivity|]. inversion F; subst.
  rewrite sl_from_app by reflexivity. cbn [bind dat]. unfold units16. cbn [flat_map]. rewrite <- app_assoc. rewrite le16_put16 by lia. cbn [bind].
  rewrite (app_assoc pre (put16 u)). fold (units16 us). rewrite IH by (auto; rewrite zlen_app; reflexivity). cbn [bind]. rewrite zlen_cons. do 2 f_equal. lia.
Qed.
Lemma to_nat_zlen : forall A (l : list A), Z.to_nat (zlen l) = List.length l.
Proof. intros. unfold zlen. lia. Qed.

Lemma le32_put32' : forall u, 0 <= u < 4294967296 -> le32 (put32 u) = Ok u.
Proof. intros. rewrite <- (app_nil_r (put32 u)). apply le32_put32; auto. Qed.

(** ** the terminator *)
Lemma utf16_decode_app0 : forall n us, (List.length us <= n)%nat -> utf16_decode (us ++ [0]) = utf16_decode us ++ [0].
Proof.
  induction n as [|n IH]; intros [|u us] H; try reflexivity; [cbn in H; lia|]. cbn [List.length] in H. cbn [app utf16_decode].
  destruct ((55296 <=? u) && (u <? 56320)) eqn:E1.
  - destruct us as [|v us].
    + cbn [app]. change ((56320 <=? 0) && (0 <? 57344)) with false. cbv iota. reflexivity.
    + cbn [app]. destruct ((56320 <=? v) && (v <? 57344)) eqn:E2.
      * cbn [app]. rewrite IH by (cbn in H; lia). reflexivity.
      * change (v :: us ++ [0]) with ((v :: us) ++ [0]). rewrite IH by lia. reflexivity.
  - rewrite IH by lia. destruct ((56320 <=? u) && (u <? 57344)); reflexivity.
Qed.
Lemma utf16_string_app0 : forall us, utf16_string (us ++ [0]) = utf16_string us ++ [0].
Proof.
  intros. unfold utf16_string. rewrite (utf16_decode_app0 (List.length us)) by lia. unfold string_of_runes. rewrite flat_map_app. reflexivity.
Qed.
Lemma hl_string_ok : forall us rest sp, fits16 us ->
  hl_string (mkSl (hstring us ++ rest) sp) = Ok (utf16_string us ++ [0], mkSl rest sp).
Proof.
  intros us rest sp [F L]. unfold hl_string, hstring. rewrite <- app_assoc. rewrite sl_to_ok by reflexivity. cbn [bind dat]. pose proof (zlen_nonneg _ us).
  rewrite le32_put32' by lia. cbn [bind]. rewrite sl_from_app by reflexivity. cbn [bind].
  replace (zlen us + 1) with (zlen (us ++ [0])) by (rewrite zlen_app; reflexivity). rewrite to_nat_zlen, units_len_ok.
  - cbn [bind]. rewrite utf16_string_app0. reflexivity.
  - apply Forall_app. split; auto. repeat constructor; lia.
Qed.

(** ** trimming *)
Lemma trim_byte_spec : forall b, trim_byte b = true <-> blankb b.
Proof. intros b. unfold trim_byte, blankb. cbn [In]. rewrite !orb_true_iff, !Z.eqb_eq. intuition. Qed.
Lemma trim_left_spec : forall s, exists a, s = a ++ trim_left s /\ Forall blankb a /\ (forall x t, trim_left s = x :: t -> ~ blankb x).
Proof.
  induction s as [|b s (a & E & F & N)]; [exists []; split; [reflexivity|]; split; [constructor|]; discriminate|]. cbn [trim_left].
  destruct (trim_byte b) eqn:T.
  - exists (b :: a). split; [cbn [app]; congruence|]. split; auto. constructor; auto. apply trim_byte_spec; auto.
  - exists []. split; [reflexivity|]. split; [constructor|]. intros x t X. injection X as -> ->. rewrite <- trim_byte_spec, T. discriminate.
Qed.
Lemma trim_left_app : forall a s, Forall blankb a -> trim_left (a ++ s) = trim_left s.
Proof. induction 1 as [|b a H F IH]; [reflexivity|]. cbn [app trim_left]. apply trim_byte_spec in H. rewrite H. exact IH. Qed.
Lemma trim_left_id : forall s, (forall x t, s = x :: t -> ~ blankb x) -> trim_left s = s.
Proof. intros [|b s] H; [reflexivity|]. cbn [trim_left]. destruct (trim_byte b) eqn:T; auto. apply trim_byte_spec in T. exfalso. eapply H; eauto. Qed.
Lemma Forall_rev' : forall (P : Z -> Prop) l, Forall P l -> Forall P (rev l).
Proof. intros. apply Forall_rev. auto. Qed.
Lemma go_trim_trimmed : forall s, trimmed s (go_trim s).
Proof.
  intros s. unfold go_trim. destruct (trim_left_spec s) as (a & Ea & Fa & Na). set (s1 := trim_left s) in *.
  destruct (trim_left_spec (rev s1)) as (b & Eb & Fb & Nb). set (s2 := trim_left (rev s1)) in *.
  assert (E1 : s1 = rev s2 ++ rev b) by (rewrite <- rev_app_distr, <- Eb, rev_involutive; reflexivity).
  split; [|split].
  - exists a, (rev b). split; [rewrite Ea at 1; rewrite E1; reflexivity|]. split; auto. apply Forall_rev; auto.
  - intros x t' X. apply (Na x (t' ++ rev b)). rewrite E1, X. reflexivity.
  - intros x t' X. apply (Nb x (rev t')). rewrite <- (rev_involutive s2), X, rev_app_distr. reflexivity.
Qed.
Lemma go_trim_app0 : forall s, go_trim (s ++ [0]) = go_trim s.
Proof.
  intros s. unfold go_trim. assert (B : Forall blankb [0]) by (constructor; [unfold blankb; cbn; auto 10|constructor]).
  assert (E : trim_left (s ++ [0]) = trim_left s ++ [0] \/ (trim_left (s ++ [0]) = [] /\ trim_left s = [])).
  { induction s as [|x s IH]; [right; auto|]. cbn [app trim_left]. destruct (trim_byte x); auto. }
  destruct E as [->|[-> ->]]; auto. rewrite rev_app_distr. rewrite trim_left_app by exact B. reflexivity.
Qed.

Lemma str_eqb_refl : forall s, str_eqb s s = true.
Proof. intros. apply str_eqb_eq. reflexivity. Qed.

(** ** flags *)
Lemma land_other : forall o k, Z.land o 409 = 0 -> Z.land k 409 = k -> forall m, Z.land m 409 = m -> 0 <= o -> 0 <= k -> Z.land (o + k) m = Z.land k m.
Proof.
  intros o k Ho Hk m Hm Po Pk.
  assert (D : Z.land o k = 0). { rewrite <- Hk, Z.land_comm, <- Z.land_assoc, (Z.land_comm 409), Ho, Z.land_0_r. reflexivity. }
  rewrite Z.add_nocarry_lxor by exact D. rewrite Z.lxor_lor by exact D. rewrite Z.land_lor_distr_l.
  replace (Z.land o m) with 0; [reflexivity|]. rewrite <- Hm, Z.land_comm, <- Z.land_assoc, (Z.land_comm 409), Ho, Z.land_0_r. reflexivity.
Qed.
Lemma hl_flags_bits : forall h, hl_ok h ->
  negb (Z.land (hl_flags h) 16 =? 0) = is_someb (hl_disp h) /\ negb (Z.land (hl_flags h) 128 =? 0) = is_someb (hl_frame h) /\
  negb (Z.land (hl_flags h) 1 =? 0) = is_someb (hl_target h) /\ negb (Z.land (hl_flags h) 8 =? 0) = is_someb (hl_loc h) /\
  negb (Z.land (hl_flags h) 256 =? 0) = match hl_target h with Some (TString _) => true | _ => false end /\
  0 <= hl_flags h < 4294967296.
Proof.
  intros h (_ & RO & LO & _).
  set (k := flag_if (is_someb (hl_target h)) 1 + flag_if (is_someb (hl_loc h)) 8 + flag_if (is_someb (hl_disp h)) 16 + flag_if (is_someb (hl_frame h)) 128 + flag_if (match hl_target h with Some (TString _) => true | _ => false end) 256).
  assert (E : hl_flags h = hl_other h + k) by (unfold hl_flags, k; lia). rewrite E.
  assert (K : Z.land k 409 = k /\ 0 <= k <= 409 /\ negb (Z.land k 16 =? 0) = is_someb (hl_disp h) /\ negb (Z.land k 128 =? 0) = is_someb (hl_frame h) /\
    negb (Z.land k 1 =? 0) = is_someb (hl_target h) /\ negb (Z.land k 8 =? 0) = is_someb (hl_loc h) /\
    negb (Z.land k 256 =? 0) = match hl_target h with Some (TString _) => true | _ => false end).
  { unfold k. destruct (hl_target h) as [[|us e|a b m p]|], (hl_loc h), (hl_disp h), (hl_frame h); vm_compute; intuition congruence. }
  destruct K as (K1 & K2 & K3 & K4 & K5 & K6 & K7).
  rewrite !(land_other (hl_other h) k) by (auto; lia). repeat split; auto; lia.
Qed.
