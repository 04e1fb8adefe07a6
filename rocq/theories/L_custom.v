(** * L_custom: proofs about custom format codes. *)
From Verif Require Import GoBase GoFloat GoUnicode GoTime L_base M_value M_dates M_numbers M_fmt M_formats
  S_formats S_dates S_display S_custom P_display.
From Coq Require Import Lia ZifyBool ZifyNat.
Local Open Scope Z_scope.

(** ** Replacing a run of one letter *)
Lemma prefixb_app : forall p s, prefixb p (p ++ s) = true.
Proof. induction p; intros; simpl; auto. rewrite Z.eqb_refl. apply IHp. Qed.

Definition starts (c : Z) (s : gostr) : bool := match s with x :: _ => x =? c | [] => false end.

Lemma prefix_run_short : forall c k n s, (n < k)%nat -> starts c s = false ->
  prefixb (repeat c k) (repeat c n ++ s) = false.
Proof.
  induction k as [|k IH]; intros n s Hn Hs; [lia|]. destruct n as [|n]; simpl.
  - destruct s as [|x s]; auto. simpl in Hs. rewrite Z.eqb_sym, Hs. auto.
  - rewrite Z.eqb_refl. apply IH; auto. lia.
Qed.
Lemma replace1_unfold : forall p r x s, replace1 p r (x :: s) =
  if prefixb p (x :: s) then r ++ skipn (List.length p) (x :: s) else x :: replace1 p r s.
Proof. reflexivity. Qed.
Lemma replace1_skip : forall c k r u s, (0 < k)%nat -> ~ In c u ->
  replace1 (repeat c k) r (u ++ s) = u ++ replace1 (repeat c k) r s.
Proof.
  intros c k r u s Hk. induction u as [|x u IH]; intros Hu; [reflexivity|].
  rewrite <- !app_comm_cons, replace1_unfold. destruct k as [|k]; [lia|].
  assert (E : prefixb (repeat c (S k)) (x :: u ++ s) = false).
  { simpl. destruct (Z.eqb_spec c x) as [->|]; auto. exfalso. apply Hu. left. auto. }
  rewrite E. f_equal. apply IH. intros H. apply Hu. right. auto.
Qed.
Lemma replace1_short : forall c k r n s, (n < k)%nat -> starts c s = false ->
  replace1 (repeat c k) r (repeat c n ++ s) = repeat c n ++ replace1 (repeat c k) r s.
Proof.
  induction n as [|n IH]; intros s Hn Hs; [reflexivity|].
  change (repeat c (S n) ++ s) with (c :: repeat c n ++ s). rewrite replace1_unfold.
  change (c :: repeat c n ++ s) with (repeat c (S n) ++ s) at 1.
  rewrite prefix_run_short by auto. simpl. f_equal. apply IH; auto. lia.
Qed.
Lemma skipn_repeat_app : forall (c : Z) k n s, (k <= n)%nat -> skipn k (repeat c n ++ s) = repeat c (n - k) ++ s.
Proof.
  induction k as [|k IH]; intros n s H; [rewrite Nat.sub_0_r; reflexivity|].
  destruct n as [|n]; [lia|]. simpl. apply IH. lia.
Qed.
Lemma replace1_hit : forall c k r n s, (0 < k <= n)%nat ->
  replace1 (repeat c k) r (repeat c n ++ s) = r ++ repeat c (n - k) ++ s.
Proof.
  intros c k r n s H. destruct n as [|n]; [lia|].
  change (repeat c (S n) ++ s) with (c :: repeat c n ++ s) at 1. rewrite replace1_unfold.
  change (c :: repeat c n ++ s) with (repeat c (S n) ++ s).
  assert (P : prefixb (repeat c k) (repeat c (S n) ++ s) = true).
  { replace (repeat c (S n)) with (repeat c k ++ repeat c (S n - k)) by (rewrite <- repeat_app; f_equal; lia).
    rewrite <- app_assoc. apply prefixb_app. }
  rewrite P, repeat_length, skipn_repeat_app by lia. auto.
Qed.

(** a piece: some text without the letter, then n times the letter *)
Definition piece (c : Z) (s : gostr) (n : nat) : Prop := exists u, s = u ++ repeat c n /\ ~ In c u.

Lemma piece_alone : forall c k r s n, (0 < k)%nat -> piece c s n ->
  (n < k)%nat -> replace1 (repeat c k) r s = s.
Proof.
  intros c k r s n Hk (u & -> & Hu) Hn. rewrite replace1_skip by auto. f_equal.
  rewrite <- (app_nil_r (repeat c n)). rewrite replace1_short by auto. f_equal. destruct k; [lia|]. reflexivity.
Qed.
Lemma piece_miss : forall c k r s n t, (0 < k)%nat -> piece c s n -> (n < k)%nat -> ((0 < n)%nat -> starts c t = false) ->
  replace1 (repeat c k) r (s ++ t) = s ++ replace1 (repeat c k) r t.
Proof.
  intros c k r s n t Hk (u & -> & Hu) Hn Ht. rewrite <- !app_assoc, replace1_skip by auto. f_equal.
  destruct n as [|n]; [reflexivity|]. apply replace1_short; auto. apply Ht. lia.
Qed.
Lemma piece_hit : forall c k r s n t, (0 < k)%nat -> piece c s n -> (k <= n)%nat ->
  replace1 (repeat c k) r (s ++ t) = replace1 (repeat c k) r s ++ t.
Proof.
  intros c k r s n t Hk (u & -> & Hu) Hn. rewrite <- app_assoc, replace1_skip by auto.
  rewrite (replace1_skip c k r u (repeat c n)) by auto.
  rewrite <- (app_nil_r (repeat c n)) at 2. rewrite !replace1_hit by lia. rewrite app_nil_r, <- !app_assoc. auto.
Qed.

(** replacing in the concatenation is replacing piece by piece, if at most one piece has a run
    that is long enough and runs do not continue in the next piece *)
Section Pieces.
Variables (A : Type) (c : Z) (k : nat) (r : gostr) (f : A -> gostr) (run : A -> nat).
Fixpoint no_overlap (l : list A) : Prop :=
  match l with
  | a :: l' => ((0 < run a)%nat -> starts c (concat (map f l')) = false) /\ no_overlap l'
  | [] => True
  end.
Lemma no_hit : forall l, (0 < k)%nat -> (forall a, In a l -> piece c (f a) (run a)) ->
  (forall a, In a l -> (run a < k)%nat) -> map (fun a => replace1 (repeat c k) r (f a)) l = map f l.
Proof.
  intros l Hk HP HN. apply map_ext_in. intros a Ha. eapply piece_alone; eauto.
Qed.
Lemma replace_pieces : forall l, (0 < k)%nat -> (forall a, In a l -> piece c (f a) (run a)) -> no_overlap l ->
  (List.length (filter (fun a => (k <=? run a)%nat) l) <= 1)%nat ->
  replace1 (repeat c k) r (concat (map f l)) = concat (map (fun a => replace1 (repeat c k) r (f a)) l).
Proof.
  induction l as [|a l IH]; intros Hk HP HO HL.
  - simpl. destruct k; [lia|]. reflexivity.
  - cbn [map concat]. destruct HO as [HO1 HO2]. cbn [filter] in HL.
    destruct (Nat.leb_spec k (run a)) as [Q|Q].
    + rewrite (piece_hit c k r (f a) (run a)); auto; [|apply HP; left; auto]. f_equal. f_equal. symmetry. apply no_hit; auto.
      * intros b Hb. apply HP. right. auto.
      * intros b Hb. destruct (Nat.leb_spec k (run b)) as [Q2|]; auto. exfalso.
        cbn [List.length] in HL. assert (In b (filter (fun a => (k <=? run a)%nat) l)).
        { apply filter_In. split; auto. apply Nat.leb_le. auto. }
        destruct (filter (fun a => (k <=? run a)%nat) l); [contradiction|cbn [List.length] in HL; lia].
    + rewrite (piece_miss c k r (f a) (run a)); auto; [|apply HP; left; auto].
      rewrite (piece_alone c k r (f a) (run a)); auto; [|apply HP; left; auto].
      f_equal. apply IH; auto. intros b Hb. apply HP. right. auto.
Qed.
End Pieces.

(** ** The replacement table of date formats, run by run *)
Definition reps (ampm : bool) : list (Z * nat * gostr) :=
  [ (104, 2%nat, if ampm then bs "03" else bs "15"); (104, 1%nat, if ampm then bs "3" else bs "15");
    (115, 2%nat, bs "05"); (115, 1%nat, bs "5"); (109, 5%nat, bs "Jan"); (109, 4%nat, bs "January");
    (109, 3%nat, bs "Jan"); (109, 2%nat, bs "01"); (109, 1%nat, bs "1"); (100, 4%nat, bs "Monday");
    (100, 3%nat, bs "Mon"); (100, 2%nat, bs "02"); (100, 1%nat, bs "2"); (121, 4%nat, bs "2006");
    (121, 2%nat, bs "06") ].
Lemma dfreps_runs : forall ampm, dfreps ampm = map (fun q => (repeat (fst (fst q)) (snd (fst q)), snd q)) (reps ampm).
Proof. intros []; reflexivity. Qed.

Definition step (s : gostr) (q : Z * nat * gostr) : gostr := replace1 (repeat (fst (fst q)) (snd (fst q))) (snd q) s.
Lemma fold_dfreps : forall ampm s, fold_left (fun s r => replace1 (fst r) (snd r) s) (dfreps ampm) s = fold_left step (reps ampm) s.
Proof.
  intros ampm s. rewrite dfreps_runs. generalize (reps ampm). intros l. revert s.
  induction l as [|q l IH]; intros s; [reflexivity|]. cbn [map fold_left]. rewrite IH. reflexivity.
Qed.

(** the text of a field after the minutes have been replaced, and after j replacements *)
Definition fld0 (f : fld) : gostr := match f with Min2 => bs "04" | Min1 => bs "4" | _ => fld_text f end.
Definition fstage (ampm : bool) (j : nat) (f : fld) : gostr := fold_left step (firstn j (reps ampm)) (fld0 f).
Definition istage (ampm : bool) (j : nat) (i : item) : gostr :=
  match i with Fld f => fstage ampm j f | _ => item_text i end.

Definition trail (c : Z) (s : gostr) : nat := List.length (take_while (Z.eqb c) (rev s)).
Definition irun (c : Z) (ampm : bool) (j : nat) (i : item) : nat :=
  match i with Fld f => trail c (fstage ampm j f) | _ => 0%nat end.

Definition all_flds : list fld := [Yyyy; Yy; Mmmm; Mmm; Mm; M1; Ddd; Dd; D1; Hh; H1; Min2; Min1; Ss; S1].
Lemma all_flds_in : forall f, In f all_flds.
Proof. intros []; cbv [all_flds In]; tauto. Qed.
Definition follow_flds (f g : fld) : bool :=
  negb (letter f =? letter g) && negb (match f with Mmmm => letter g =? 121 | _ => false end) &&
  negb (match f, g with M1, S1 => true | _, _ => false end).
Lemma follow_flds_spec : forall f g, follows (Fld f) (Fld g) -> follow_flds f g = true.
Proof.
  intros f g (H1 & H2 & H3). unfold follow_flds. apply Z.eqb_neq in H1. rewrite H1.
  assert ((match f with Mmmm => letter g =? 121 | _ => false end) = false) as ->.
  { destruct f; auto. apply Z.eqb_neq. intros E. apply H2. auto. }
  assert ((match f, g with M1, S1 => true | _, _ => false end) = false) as ->; [|reflexivity].
  destruct f; auto. destruct g; auto. exfalso. auto.
Qed.

Definition chk_piece (ampm : bool) (j : nat) (c : Z) (f : fld) : bool :=
  let s := fstage ampm j f in
  let u := firstn (List.length s - trail c s) s in
  str_eqb s (u ++ repeat c (trail c s)) && negb (existsb (Z.eqb c) u) && negb (zlen s =? 0).
Definition chk_next (ampm : bool) (j : nat) (c : Z) (f g : fld) : bool :=
  negb (follow_flds f g) || (trail c (fstage ampm j f) =? 0)%nat || negb (starts c (fstage ampm j g)).
Definition chk_one (ampm : bool) (j : nat) (c : Z) (k : nat) (f g : fld) : bool :=
  negb (k <=? trail c (fstage ampm j f))%nat || negb (k <=? trail c (fstage ampm j g))%nat ||
  (fld_class f =? fld_class g)%nat.
Definition chk_all : bool :=
  forallb (fun ampm => forallb (fun j =>
    match nth_error (reps ampm) j with
    | Some (c, k, _) => (0 <? k)%nat && existsb (Z.eqb c) (bs "ymdhs") &&
        forallb (fun f => chk_piece ampm j c f &&
          forallb (fun g => chk_next ampm j c f g && chk_one ampm j c k f g) all_flds) all_flds
    | None => true
    end) (seq 0 15)) [true; false].
Lemma chk_all_ok : chk_all = true.
Proof. vm_compute. reflexivity. Qed.

Definition is_fld (i : item) : bool := match i with Fld _ => true | _ => false end.
Lemma plain_not_in : forall u (l : gostr) c, Forall plain_byte u -> incl l (bs "ymdhsJMPpZ0123456789-.,""\*_[];@") -> In c l -> ~ In c u.
Proof.
  intros u l c HF Hl Hc Hu. rewrite Forall_forall in HF. destruct (HF c Hu) as [A _]. apply A. apply Hl. auto.
Qed.
Ltac incl_tac := intros ? ?; cbv [In bs] in *; simpl in *; tauto.
Lemma item_letters : forall i c, is_fld i = false -> item_ok i -> In c (bs "ymdhs") -> ~ In c (item_text i).
Proof.
  intros i c Hf Hi Hc HIn. destruct i; try discriminate; cbn [item_text item_ok] in *.
  - destruct HIn as [<-|[]]. cbv [separators bs In] in *. simpl in *. lia.
  - destruct HIn as [HIn|[HIn|[]]]; subst; cbv [separators bs In] in *; simpl in *; lia.
  - destruct Hi as [_ Hi]. apply in_app_or in HIn as [HIn|HIn]; [destruct HIn as [<-|[]]; simpl in Hc; lia|].
    apply in_app_or in HIn as [HIn|HIn]; [|destruct HIn as [<-|[]]; simpl in Hc; lia].
    revert HIn. eapply plain_not_in; eauto. incl_tac.
  - cbv [bs In] in *. simpl in *. lia.
Qed.
Lemma item_ne : forall i, item_text i <> [].
Proof. intros [f| | | |]; try discriminate. destruct f; discriminate. Qed.

Lemma take_while_all : forall (p : Z -> bool) l, Forall (fun c => p c = false) l -> take_while p l = [].
Proof. intros p [|x l] H; auto. inversion H; subst. simpl. rewrite H2. auto. Qed.

Local Opaque fstage chk_piece chk_next chk_one reps.
Lemma chk_use : forall ampm j c k r, nth_error (reps ampm) j = Some (c, k, r) ->
  (0 < k)%nat /\ In c (bs "ymdhs") /\ (forall f, chk_piece ampm j c f = true) /\
  (forall f g, chk_next ampm j c f g = true) /\ (forall f g, chk_one ampm j c k f g = true).
Proof.
  intros ampm j c k r E. pose proof chk_all_ok as H. unfold chk_all in H. rewrite forallb_forall in H.
  specialize (H ampm ltac:(destruct ampm; simpl; auto)). rewrite forallb_forall in H.
  assert (HJ : In j (seq 0 15)).
  { apply in_seq. assert (j < List.length (reps ampm))%nat by (apply nth_error_Some; congruence).
    replace (List.length (reps ampm)) with 15%nat in * by (destruct ampm; reflexivity). lia. }
  specialize (H j HJ). rewrite E in H. apply andb_true_iff in H as [H H3]. apply andb_true_iff in H as [H1 H2].
  split; [apply Nat.ltb_lt; auto|]. split.
  { apply existsb_exists in H2 as (x & Hx & Q). apply Z.eqb_eq in Q. subst. auto. }
  rewrite forallb_forall in H3.
  assert (K : forall f, chk_piece ampm j c f = true /\ forall g, chk_next ampm j c f g = true /\ chk_one ampm j c k f g = true).
  { intros f. specialize (H3 f (all_flds_in f)). apply andb_true_iff in H3 as [A B]. split; auto. intros g.
    rewrite forallb_forall in B. specialize (B g (all_flds_in g)). apply andb_true_iff in B. auto. }
  split; [intros f; apply K|]. split; intros f g; apply (K f).
Qed.

Local Transparent fstage chk_piece chk_next chk_one reps.
Lemma starts_In : forall c s, starts c s = true -> In c s.
Proof. intros c [|x s] H; [discriminate|]. simpl in H. left. lia. Qed.
Lemma starts_app : forall c s t, s <> [] -> starts c (s ++ t) = starts c s.
Proof. intros c [|x s] t H; [congruence|reflexivity]. Qed.

Lemma istage_piece : forall ampm j c i, (forall f, chk_piece ampm j c f = true) -> In c (bs "ymdhs") -> item_ok i ->
  piece c (istage ampm j i) (irun c ampm j i) /\ istage ampm j i <> [].
Proof.
  intros ampm j c i HC Hc Hi. destruct (is_fld i) eqn:E.
  - destruct i; try discriminate. specialize (HC f). unfold chk_piece in HC. cbn [istage irun].
    apply andb_true_iff in HC as [HC H3]. apply andb_true_iff in HC as [H1 H2]. apply str_eqb_eq in H1. split.
    + eexists. split; [exact H1|]. intros HI. apply negb_true_iff in H2.
      assert (existsb (Z.eqb c) (firstn (List.length (fstage ampm j f) - trail c (fstage ampm j f)) (fstage ampm j f)) = true); [|congruence].
      apply existsb_exists. exists c. split; auto. apply Z.eqb_refl.
    + intros Q. rewrite Q in H3. discriminate.
  - assert (EI : istage ampm j i = item_text i) by (destruct i; auto; discriminate).
    rewrite EI. split; [|apply item_ne]. exists (item_text i). split.
    + replace (irun c ampm j i) with 0%nat by (destruct i; auto; discriminate). rewrite app_nil_r. auto.
    + apply item_letters; auto.
Qed.

Lemma istage_overlap : forall ampm j c code, (forall f, chk_piece ampm j c f = true) ->
  (forall f g, chk_next ampm j c f g = true) -> In c (bs "ymdhs") ->
  Forall item_ok code -> adjacent_ok code ->
  no_overlap item c (istage ampm j) (irun c ampm j) code.
Proof.
  intros ampm j c code HC HN Hc. induction code as [|a code IH]; intros HF HA; [exact I|].
  inversion HF as [|? ? Ha HF']; subst. cbn [no_overlap]. split.
  - intros Hr. destruct code as [|b code]; [reflexivity|]. inversion HF' as [|? ? Hb HF'']; subst.
    destruct HA as [HA _]. cbn [map concat].
    destruct (istage_piece ampm j c b HC Hc Hb) as [_ NE]. rewrite starts_app by auto.
    destruct a as [f| | | |]; cbn [irun] in Hr; try lia.
    destruct (starts c (istage ampm j b)) eqn:Q; auto. exfalso.
    destruct b as [g| | | |]; try (apply starts_In in Q; revert Q; cbn [istage]; apply item_letters; auto).
    specialize (HN f g). unfold chk_next in HN. rewrite (follow_flds_spec _ _ HA) in HN. cbn [istage] in Q. rewrite Q in HN.
    destruct (Nat.eqb_spec (trail c (fstage ampm j f)) 0); [lia|discriminate].
  - apply IH; auto. destruct code; [exact I|apply HA].
Qed.

Lemma filter_le : forall A (p q : A -> bool) l, (forall a, In a l -> p a = true -> q a = true) ->
  (List.length (filter p l) <= List.length (filter q l))%nat.
Proof.
  induction l as [|a l IH]; intros H; [apply le_n|]. simpl.
  assert (H' : forall a, In a l -> p a = true -> q a = true) by (intros b Hb; apply H; right; auto). specialize (IH H').
  destruct (p a) eqn:P; [rewrite (H a) by (auto; left; auto); simpl; lia|]. destruct (q a); simpl; lia.
Qed.
Lemma filter_none : forall A (p : A -> bool) l, (forall a, In a l -> p a = false) -> filter p l = [].
Proof.
  induction l as [|a l IH]; intros H; auto. simpl. rewrite (H a) by (left; auto). apply IH. intros b Hb. apply H. right. auto.
Qed.

Lemma stage_step : forall ampm j c k r code, nth_error (reps ampm) j = Some (c, k, r) ->
  Forall item_ok code -> once code -> adjacent_ok code ->
  step (concat (map (istage ampm j) code)) (c, k, r) = concat (map (istage ampm (S j)) code).
Proof.
  intros ampm j c k r code E HF HO HA. destruct (chk_use _ _ _ _ _ E) as (Hk & Hc & C1 & C2 & C3).
  unfold step. cbn [fst snd]. rewrite (replace_pieces item c k r (istage ampm j) (irun c ampm j)); auto.
  - f_equal. apply map_ext_in. intros i Hi. rewrite Forall_forall in HF. specialize (HF i Hi).
    destruct (is_fld i) eqn:F.
    + destruct i; try discriminate. cbn [istage]. unfold fstage.
      assert (L : forall l n q, nth_error l n = Some q -> forall s, fold_left step (firstn (S n) l) s = step (fold_left step (firstn n l) s) q).
      { clear. induction l as [|x l IH]; intros n q Q s; [destruct n; discriminate|]. destruct n as [|n].
        - injection Q as <-. reflexivity.
        - cbn [firstn fold_left]. apply (IH n q Q). }
      rewrite (L _ _ _ E). reflexivity.
    + assert (EI : forall j, istage ampm j i = item_text i) by (destruct i; auto; discriminate). rewrite !EI.
      apply (piece_alone c k r _ 0%nat); auto. exists (item_text i). split; [symmetry; apply app_nil_r|]. apply item_letters; auto.
  - intros i Hi. rewrite Forall_forall in HF. apply istage_piece; auto.
  - apply istage_overlap; auto.
  - destruct (existsb (fun i => (k <=? irun c ampm j i)%nat) code) eqn:X.
    + apply existsb_exists in X as (i & Hi & Q). destruct i as [f| | | |]; cbn [irun] in Q; try (apply Nat.leb_le in Q; lia).
      eapply Nat.le_trans; [|apply (HO (fld_class f))]. apply filter_le. intros b Hb Qb.
      destruct b as [g| | | |]; cbn [irun] in Qb; try (apply Nat.leb_le in Qb; lia).
      specialize (C3 f g). unfold chk_one in C3. rewrite Q, Qb in C3. cbn [negb orb] in C3. cbn [of_class].
      apply Nat.eqb_eq in C3. apply Nat.eqb_eq. auto.
    + rewrite filter_none; [simpl; lia|]. intros a Ha. destruct (k <=? irun c ampm j a)%nat eqn:Y; auto.
      assert (existsb (fun i => (k <=? irun c ampm j i)%nat) code = true); [|congruence]. apply existsb_exists. exists a. auto.
Qed.

Lemma all_stages : forall ampm code, Forall item_ok code -> once code -> adjacent_ok code ->
  fold_left step (reps ampm) (concat (map (istage ampm 0) code)) = concat (map (istage ampm 15) code).
Proof.
  intros ampm code HF HO HA.
  assert (K : forall j, (j <= 15)%nat -> fold_left step (firstn j (reps ampm)) (concat (map (istage ampm 0) code)) = concat (map (istage ampm j) code)).
  { induction j as [|j IH]; intros Hj; [reflexivity|].
    destruct (nth_error (reps ampm) j) as [[[c k] r]|] eqn:E.
    2: { apply nth_error_None in E. destruct ampm; simpl in E; lia. }
    assert (L : forall l n q, nth_error l n = Some q -> forall s, fold_left step (firstn (S n) l) s = step (fold_left step (firstn n l) s) q).
    { clear. induction l as [|x l IH]; intros n q Q s; [destruct n; discriminate|]. destruct n as [|n].
      - injection Q as <-. reflexivity.
      - cbn [firstn fold_left]. apply (IH n q Q). }
    rewrite (L _ _ _ E). rewrite IH by lia. apply (stage_step ampm j c k r); auto. }
  rewrite <- (K 15%nat) by lia. destruct ampm; reflexivity.
Qed.

(** ** Minutes *)
Lemma T_app : forall a b, code_text (a ++ b) = code_text a ++ code_text b.
Proof. intros. unfold code_text. rewrite map_app, concat_app. auto. Qed.
Lemma T_cons : forall a b, code_text (a :: b) = item_text a ++ code_text b.
Proof. reflexivity. Qed.
Lemma fld_letter : forall f, exists n, (0 < n)%nat /\ fld_text f = repeat (letter f) n.
Proof.
  intros []; unfold letter, fld_text; cbn;
  first [exists 1%nat; split; [lia|reflexivity] | exists 2%nat; split; [lia|reflexivity]
        | exists 3%nat; split; [lia|reflexivity] | exists 4%nat; split; [lia|reflexivity]].
Qed.
(** the letters of the classes *)
Definition class_letter (k : nat) : Z := nth k (bs "ymddhms") 0.
Lemma letter_class : forall f, letter f = class_letter (fld_class f).
Proof. intros []; reflexivity. Qed.

Lemma T_not_in : forall c l, In c (bs "ymdhs") -> Forall item_ok l ->
  (forall f, In (Fld f) l -> letter f <> c) -> ~ In c (code_text l).
Proof.
  intros c l Hc HF HL HI. unfold code_text in HI. apply in_concat in HI as (t & Ht & HI).
  apply in_map_iff in Ht as (i & <- & Hi). rewrite Forall_forall in HF. destruct (is_fld i) eqn:E.
  - destruct i; try discriminate. cbn [item_text] in HI. destruct (fld_letter f) as (n & _ & Q). rewrite Q in HI.
    apply repeat_spec in HI. apply (HL f Hi). auto.
  - revert HI. apply item_letters; auto.
Qed.
Lemma lacks_letter : forall k l f, lacks k l -> In (Fld f) l -> fld_class f <> k.
Proof.
  intros k l f HL HI. unfold lacks in HL. rewrite Forall_forall in HL. specialize (HL _ HI). cbn [of_class] in HL.
  apply Nat.eqb_neq in HL. auto.
Qed.
Lemma T_lacks_h : forall l, Forall item_ok l -> lacks 4 l -> ~ In 104 (code_text l).
Proof.
  intros l HF HL. apply T_not_in; auto; [simpl; tauto|]. intros f Hf. pose proof (lacks_letter _ _ _ HL Hf).
  destruct f; try discriminate; simpl in *; congruence.
Qed.
Lemma T_lacks_s : forall l, Forall item_ok l -> lacks 6 l -> ~ In 115 (code_text l).
Proof.
  intros l HF HL. apply T_not_in; auto; [simpl; tauto|]. intros f Hf. pose proof (lacks_letter _ _ _ HL Hf).
  destruct f; try discriminate; simpl in *; congruence.
Qed.

Lemma item_bytes : forall i, item_ok i -> Forall (fun c => c <> 10 /\ c <> 91 /\ c <> 59 /\ c <> 42 /\ c <> 95) (item_text i).
Proof.
  intros i Hi. destruct i as [f|c|c|u|]; cbn [item_text item_ok] in *.
  - apply Forall_forall. intros x Hx. destruct f; cbv [bs fld_text] in Hx; simpl in Hx; lia.
  - repeat constructor; cbv [separators bs In] in Hi; simpl in Hi; lia.
  - repeat constructor; cbv [separators bs In] in Hi; simpl in Hi; lia.
  - destruct Hi as [_ Hi]. apply Forall_app. split; [repeat constructor; lia|]. apply Forall_app. split; [|repeat constructor; lia].
    eapply Forall_impl; [|exact Hi]. intros c [H1 H2].
    assert (forall x, In x (bs "[;*_") -> c <> x).
    { intros x Hx ->. apply H1. cbv [bs In] in *; simpl in *; tauto. }
    repeat split; auto; apply H; cbv [bs In]; simpl; tauto.
  - apply Forall_forall. intros x Hx. cbv [bs] in Hx. simpl in Hx. lia.
Qed.
Lemma T_bytes : forall l, Forall item_ok l -> Forall (fun c => c <> 10 /\ c <> 91 /\ c <> 59 /\ c <> 42 /\ c <> 95) (code_text l).
Proof.
  induction l as [|i l IH]; intros H; [constructor|]. inversion H; subst. rewrite T_cons. apply Forall_app. split; auto. apply item_bytes; auto.
Qed.

Lemma last_idx_none : forall set l i best, Forall (fun c => existsb (Z.eqb c) set = false) l ->
  last_index_from (fun c => existsb (Z.eqb c) set) i best l = best.
Proof. induction l as [|x l IH]; intros i best H; auto. inversion H as [|? ? E H2]; subst. cbn [last_index_from]. rewrite E. auto. Qed.
Lemma last_idx_app : forall p a b i best,
  last_index_from p i best (a ++ b) = last_index_from p (i + zlen a) (last_index_from p i best a) b.
Proof.
  induction a as [|x a IH]; intros b i best; [simpl; f_equal; unfold zlen; simpl; lia|].
  rewrite <- app_comm_cons. cbn [last_index_from]. rewrite IH, zlen_cons. f_equal. lia.
Qed.
Lemma take_while_id : forall (p : Z -> bool) l, Forall (fun c => p c = true) l -> take_while p l = l.
Proof. induction l as [|x l IH]; intros H; auto. inversion H; subst. simpl. rewrite H2, IH; auto. Qed.
Lemma mins_skip : forall u i s, ~ In 104 u -> mins_from i (u ++ s) = mins_from (i + zlen u) s.
Proof.
  induction u as [|x u IH]; intros i s H; [simpl; f_equal; unfold zlen; simpl; lia|].
  rewrite <- app_comm_cons. cbn [mins_from]. destruct (Z.eqb_spec x 104); [exfalso; apply H; left; auto|].
  rewrite IH by (intros Q; apply H; right; auto). f_equal. rewrite zlen_cons. lia.
Qed.
Lemma mins_none_s : forall s i, ~ In 115 s -> mins_from i s = None.
Proof.
  induction s as [|x s IH]; intros i H; [reflexivity|]. cbn [mins_from].
  assert (HS : ~ In 115 s) by (intros Q; apply H; right; auto).
  destruct (x =? 104); [|auto].
  assert (E : last_index_any [115] (take_while (fun x => negb (x =? 10)) s) = -1).
  { unfold last_index_any. apply last_idx_none. apply Forall_forall. intros c Hc. simpl.
    destruct (Z.eqb_spec c 115); auto. subst. exfalso. apply HS. clear - Hc.
    induction s as [|y s IH]; [contradiction|]. simpl in Hc. destruct (negb (y =? 10)); [|contradiction].
    destruct Hc as [->|Hc]; [left; auto|right; auto]. }
  rewrite E. set (m := index_byte _ _). destruct (Z.leb_spec 0 m), (Z.ltb_spec m (-1)); try lia; cbn [andb]; auto.
Qed.
Lemma mins_none_h : forall s i, ~ In 104 s -> mins_from i s = None.
Proof. intros s i H. rewrite <- (app_nil_r s). rewrite mins_skip by auto. reflexivity. Qed.

Lemma index_before : forall p u x s i, p x = true -> i <= index_from p i (u ++ x :: s) <= i + zlen u.
Proof.
  intros p u x s. induction u as [|y u IH]; intros i H; simpl.
  - rewrite H. unfold zlen. simpl. lia.
  - destruct (p y); [rewrite zlen_cons; pose proof (zlen_nonneg _ u); lia|]. specialize (IH (i + 1) H). rewrite zlen_cons. lia.
Qed.

Lemma mins_found : forall pre ht mid m s post,
  ~ In 104 pre -> Forall (fun c => c <> 10) (ht ++ mid ++ 109 :: m ++ s ++ 115 :: post) -> ~ In 115 post ->
  mins_match (pre ++ 104 :: ht ++ mid ++ 109 :: m ++ s ++ 115 :: post) =
  Some (zlen pre, zlen (pre ++ 104 :: ht ++ mid ++ 109 :: m ++ s ++ [115])).
Proof.
  intros pre ht mid m s post Hp Hn Hs. unfold mins_match. rewrite mins_skip by auto. cbn [mins_from].
  rewrite Z.eqb_refl. rewrite take_while_id.
  2: { eapply Forall_impl; [|exact Hn]. cbv beta. intros c Hc. destruct (Z.eqb_spec c 10); auto; contradiction. }
  assert (M : 0 <= index_byte 109 (ht ++ mid ++ 109 :: m ++ s ++ 115 :: post) <= zlen (ht ++ mid)).
  { unfold index_byte, index_where. rewrite app_assoc. apply (index_before (Z.eqb 109) (ht ++ mid) 109 (m ++ s ++ 115 :: post) 0). reflexivity. }
  assert (E : last_index_any [115] (ht ++ mid ++ 109 :: m ++ s ++ 115 :: post) = zlen (ht ++ mid ++ 109 :: m ++ s)).
  { unfold last_index_any.
    replace (ht ++ mid ++ 109 :: m ++ s ++ 115 :: post) with ((ht ++ mid ++ 109 :: m ++ s) ++ 115 :: post) by (rewrite <- !app_assoc; simpl; rewrite <- !app_assoc; reflexivity).
    rewrite last_idx_app. cbn [last_index_from].
    change (existsb (Z.eqb 115) [115]) with true. cbv iota.
    rewrite last_idx_none; [lia|]. apply Forall_forall. intros c Hc. simpl. destruct (Z.eqb_spec c 115); auto. subst. contradiction. }
  rewrite E. pose proof (zlen_nonneg _ m). pose proof (zlen_nonneg _ s).
  repeat (rewrite ?zlen_app, ?zlen_cons in *).
  destruct (Z.leb_spec 0 (index_byte 109 (ht ++ mid ++ 109 :: m ++ s ++ 115 :: post))); [|lia].
  match goal with |- context [Z.ltb ?a ?b] => destruct (Z.ltb_spec a b) end; [|lia]. cbn [andb]. f_equal. f_equal; unfold zlen; simpl; lia.
Qed.

Definition mrun0 (i : item) : nat := match i with Fld Min2 => 2 | Fld Min1 => 1 | _ => 0 end.
Definition mtext1 (i : item) : gostr := match i with Fld Min2 => bs "04" | _ => item_text i end.
Definition mrun1 (i : item) : nat := match i with Fld Min1 => 1 | _ => 0 end.
Lemma no_m : forall i, item_ok i -> of_class 1 i = false -> of_class 5 i = false -> ~ In 109 (item_text i).
Proof.
  intros i Hi H1 H5. destruct (is_fld i) eqn:E; [|apply item_letters; auto; simpl; tauto].
  destruct i; try discriminate. destruct f; try discriminate; cbv; lia.
Qed.
Lemma piece0 : forall c s, ~ In c s -> piece c s 0.
Proof. intros c s H. exists s. split; auto. rewrite app_nil_r. auto. Qed.
Lemma m_overlap : forall f run l, Forall item_ok l -> adjacent_ok l ->
  (forall i, (0 < run i)%nat -> exists g, i = Fld g /\ letter g = 109) -> (forall i, f i <> []) ->
  (forall i, In i l -> starts 109 (f i) = true -> starts 109 (item_text i) = true) ->
  no_overlap item 109 f run l.
Proof.
  intros f run l HF HA HR HN HS. induction l as [|a l IH]; [exact I|].
  inversion HF as [|? ? Ha HF']; subst. cbn [no_overlap]. split.
  - intros Hr. destruct (HR a Hr) as (g & -> & Hg). destruct l as [|b l]; [reflexivity|]. cbn [map concat].
    rewrite starts_app by auto. destruct (starts 109 (f b)) eqn:Q; auto. exfalso.
    apply HS in Q; [|right; left; auto]. inversion HF' as [|? ? Hb HF'']; subst. destruct HA as [HA _].
    destruct (is_fld b) eqn:EB.
    + destruct b; try discriminate. destruct HA as [HA _]. rewrite Hg in HA. cbn [item_text] in Q.
      destruct (fld_letter f0) as (n & Hn & Qn). rewrite Qn in Q. destruct n; [lia|]. simpl in Q. lia.
    + apply starts_In in Q. revert Q. apply item_letters; auto. simpl. tauto.
  - apply IH; auto; [destruct l; [exact I|apply HA]|]. intros i Hi. apply HS. right. auto.
Qed.

Lemma minutes_inner : forall b inn, Forall item_ok inn -> lacks 1 inn -> once inn -> adjacent_ok inn ->
  replace1 (bs "m") (bs "4") (replace1 (bs "mm") (bs "04") (code_text inn)) = concat (map (istage b 0) inn).
Proof.
  intros b inn HF HL HO HA. unfold code_text.
  assert (CL : forall i, In i inn -> of_class 1 i = false) by (unfold lacks in HL; rewrite Forall_forall in HL; auto).
  assert (OK : forall i, In i inn -> item_ok i) by (rewrite Forall_forall in HF; auto).
  assert (CNT : forall run : item -> nat, (forall i, (0 < run i)%nat -> of_class 5 i = true) -> forall k, (0 < k)%nat ->
     (List.length (filter (fun a => (k <=? run a)%nat) inn) <= 1)%nat).
  { intros run Hrun k Hk. eapply Nat.le_trans; [|apply (HO 5%nat)]. apply filter_le. intros a _ Q. apply Hrun. apply Nat.leb_le in Q. lia. }
  change (bs "mm") with (repeat 109 2). change (bs "m") with (repeat 109 1).
  rewrite (replace_pieces item 109 2 (bs "04") item_text mrun0); auto.
  - assert (E : map (fun a => replace1 (repeat 109 2) (bs "04") (item_text a)) inn = map mtext1 inn).
    { apply map_ext_in. intros i Hi. destruct (of_class 5 i) eqn:Q5.
      - destruct i as [f| | | |]; try discriminate. destruct f; try discriminate; reflexivity.
      - pose proof (no_m i (OK i Hi) (CL i Hi) Q5).
        assert (mtext1 i = item_text i) as -> by (destruct i as [f| | | |]; auto; destruct f; auto; discriminate).
        apply (piece_alone 109 2 _ _ 0); auto. apply piece0. auto. }
    rewrite E. rewrite (replace_pieces item 109 1 (bs "4") mtext1 mrun1); auto.
    + f_equal. apply map_ext_in. intros i Hi. destruct (of_class 5 i) eqn:Q5.
      * destruct i as [f| | | |]; try discriminate. destruct f; try discriminate; reflexivity.
      * pose proof (no_m i (OK i Hi) (CL i Hi) Q5).
        assert (mtext1 i = item_text i) as -> by (destruct i as [f| | | |]; auto; destruct f; auto; discriminate).
        assert (istage b 0 i = item_text i) as -> by (destruct i as [f| | | |]; auto; destruct f; auto; discriminate).
        apply (piece_alone 109 1 _ _ 0); auto. apply piece0. auto.
    + intros i Hi. destruct (of_class 5 i) eqn:Q5.
      * destruct i as [f| | | |]; try discriminate. destruct f; try discriminate.
        -- apply piece0. cbv. lia.
        -- exists []. split; [reflexivity|auto].
      * assert (mrun1 i = 0%nat) as -> by (destruct i as [f| | | |]; auto; destruct f; auto; discriminate).
        assert (mtext1 i = item_text i) as -> by (destruct i as [f| | | |]; auto; destruct f; auto; discriminate).
        apply piece0. apply no_m; auto.
    + apply m_overlap; auto.
      * intros i H. destruct i as [f| | | |]; try (simpl in H; lia). destruct f; simpl in H; try lia. eauto.
      * intros i. destruct i as [f| | | |]; try (apply item_ne). destruct f; discriminate.
      * intros i _. destruct i as [f| | | |]; auto. destruct f; auto; discriminate.
    + apply CNT; [|lia]. intros i H. destruct i as [f| | | |]; try (simpl in H; lia). destruct f; simpl in H; try lia. auto.
  - intros i Hi. destruct (of_class 5 i) eqn:Q5.
    + destruct i as [f| | | |]; try discriminate. destruct f; try discriminate; exists []; split; auto.
    + assert (mrun0 i = 0%nat) as -> by (destruct i as [f| | | |]; auto; destruct f; auto; discriminate).
      apply piece0. apply no_m; auto.
  - apply m_overlap; auto.
    + intros i H. destruct i as [f| | | |]; try (simpl in H; lia). destruct f; simpl in H; try lia; eauto.
    + apply item_ne.
  - apply CNT; [|lia]. intros i H. destruct i as [f| | | |]; try (simpl in H; lia). destruct f; simpl in H; try lia; auto.
Qed.

Lemma no_minutes : forall b l, lacks 5 l -> code_text l = concat (map (istage b 0) l).
Proof.
  intros b l H. unfold code_text. f_equal. apply map_ext_in. intros i Hi. unfold lacks in H. rewrite Forall_forall in H.
  specialize (H i Hi). destruct i as [f| | | |]; auto. destruct f; auto; discriminate.
Qed.

Lemma once_parts : forall k a x b, once (a ++ x :: b) -> of_class k x = true -> lacks k a /\ lacks k b.
Proof.
  intros k a x b HO Hx. specialize (HO k). rewrite filter_app in HO. cbn [filter] in HO. rewrite Hx in HO.
  rewrite app_length in HO. cbn [List.length] in HO.
  assert (Z1 : filter (of_class k) a = []) by (destruct (filter (of_class k) a); auto; simpl in HO; lia).
  assert (Z2 : filter (of_class k) b = []) by (destruct (filter (of_class k) b); auto; simpl in HO; lia).
  assert (L : forall l, filter (of_class k) l = [] -> lacks k l).
  { clear. induction l as [|i l IH]; intros H; [constructor|]. simpl in H. destruct (of_class k i) eqn:E; [discriminate|].
    constructor; auto. apply IH. auto. }
  auto.
Qed.
Lemma once_app_l : forall a b, once (a ++ b) -> once a.
Proof. intros a b H k. specialize (H k). rewrite filter_app, app_length in H. lia. Qed.
Lemma once_app_r : forall a b, once (a ++ b) -> once b.
Proof. intros a b H k. specialize (H k). rewrite filter_app, app_length in H. lia. Qed.
Lemma adjacent_app_l : forall a b, adjacent_ok (a ++ b) -> adjacent_ok a.
Proof.
  induction a as [|x a IH]; intros b H; [exact I|]. destruct a as [|y a]; [exact I|].
  destruct H as [H1 H2]. split; auto. apply (IH b). exact H2.
Qed.
Lemma adjacent_app_r : forall a b, adjacent_ok (a ++ b) -> adjacent_ok b.
Proof.
  induction a as [|x a IH]; intros b H; auto. apply IH. simpl in H. destruct (a ++ b); [exact I|apply H].
Qed.

(** the first part of date_layout *)
Definition fix_minutes (s : gostr) : gostr :=
  match mins_match s with
  | Some (a, b) =>
      ztake a s ++ replace1 (bs "m") (bs "4") (replace1 (bs "mm") (bs "04") (zdrop a (ztake b s))) ++ zdrop b s
  | None => s
  end.

Lemma minutes_fixed : forall b code, Forall item_ok code -> once code -> adjacent_ok code -> minutes_placed code ->
  fix_minutes (code_text code) = concat (map (istage b 0) code).
Proof.
  intros b code HF HO HA [(pre & h & mid1 & m & mid2 & s & post & E & Ch & Cm & Cs & L1 & L2)|[H5 H46]].
  - subst code.
    set (inn := Fld h :: mid1 ++ Fld m :: mid2 ++ [Fld s]).
    assert (EC : pre ++ Fld h :: mid1 ++ Fld m :: mid2 ++ Fld s :: post = pre ++ inn ++ post).
    { unfold inn. rewrite <- app_comm_cons, <- app_assoc, <- app_comm_cons, <- app_assoc. reflexivity. }
    assert (F4 : lacks 4 pre).
    { apply (once_parts 4 pre (Fld h) (mid1 ++ Fld m :: mid2 ++ Fld s :: post)); auto. cbn [of_class]. rewrite Ch. reflexivity. }
    assert (F6 : lacks 6 post).
    { apply (once_parts 6 (pre ++ Fld h :: mid1 ++ Fld m :: mid2) (Fld s) post); [|cbn [of_class]; rewrite Cs; reflexivity].
      rewrite <- app_assoc, <- app_comm_cons, <- app_assoc, <- app_comm_cons. exact HO. }
    assert (F5 : lacks 5 pre /\ lacks 5 post).
    { destruct (once_parts 5 (pre ++ Fld h :: mid1) (Fld m) (mid2 ++ Fld s :: post)) as [A B].
      - rewrite <- app_assoc, <- app_comm_cons. exact HO.
      - cbn [of_class]. rewrite Cm. reflexivity.
      - split; [eapply Forall_app in A as [A _]; exact A|]. eapply Forall_app in B as [_ B]. inversion B; auto. }
    destruct F5 as [F5a F5b]. rewrite EC in *. clear EC.
    pose proof HF as HF0. apply Forall_app in HF0 as [FP HF0]. apply Forall_app in HF0 as [FI FQ].
    assert (LI : lacks 1 inn).
    { unfold inn. constructor; [cbn [of_class]; rewrite Ch; reflexivity|]. apply Forall_app. split; auto.
      constructor; [cbn [of_class]; rewrite Cm; reflexivity|]. apply Forall_app. split; auto.
      constructor; [cbn [of_class]; rewrite Cs; reflexivity|constructor]. }
    assert (OI : once inn) by (apply once_app_r in HO; apply once_app_l in HO; auto).
    assert (AI : adjacent_ok inn) by (apply adjacent_app_r in HA; apply adjacent_app_l in HA; auto).
    assert (M : mins_match (code_text (pre ++ inn ++ post)) = Some (zlen (code_text pre), zlen (code_text (pre ++ inn)))).
    { pose proof (T_bytes _ HF) as TB.
      assert (exists ht, fld_text h = 104 :: ht) as [ht Eh] by (destruct h; try discriminate; eexists; reflexivity).
      assert (exists mt, fld_text m = 109 :: mt) as [mt Em] by (destruct m; try discriminate; eexists; reflexivity).
      assert (exists st, fld_text s = st ++ [115]) as [st Es].
      { destruct s; try discriminate; [exists [115]|exists []]; reflexivity. }
      assert (TI : code_text inn = 104 :: ht ++ code_text mid1 ++ 109 :: (mt ++ code_text mid2) ++ st ++ [115]).
      { unfold inn. rewrite T_cons. cbn [item_text]. rewrite Eh, T_app, T_cons. cbn [item_text]. rewrite Em, T_app, T_cons.
        cbn [item_text]. rewrite Es. unfold code_text at 3. cbn [map concat]. rewrite app_nil_r.
        rewrite <- !app_comm_cons, <- !app_assoc. reflexivity. }
      rewrite !T_app, TI in *.
      assert (EE : code_text pre ++ (104 :: ht ++ code_text mid1 ++ 109 :: (mt ++ code_text mid2) ++ st ++ [115]) ++ code_text post =
        code_text pre ++ 104 :: ht ++ code_text mid1 ++ 109 :: (mt ++ code_text mid2) ++ st ++ 115 :: code_text post).
      { rewrite <- !app_comm_cons, <- !app_assoc, <- !app_comm_cons, <- !app_assoc. reflexivity. }
      rewrite EE in *. rewrite mins_found; [reflexivity|apply T_lacks_h; auto| |apply T_lacks_s; auto].
      apply Forall_app in TB as [_ TB]. inversion TB as [|? ? _ TB']; subst. eapply Forall_impl; [|exact TB']. cbv beta. tauto. }
    unfold fix_minutes. rewrite M. rewrite !T_app, !app_assoc.
    rewrite <- (app_assoc (code_text pre)). rewrite ztake_app_exact.
    rewrite (app_assoc (code_text pre) (code_text inn) (code_text post)).
    rewrite ztake_app_exact, !zdrop_app_exact. rewrite (minutes_inner b inn) by auto.
    rewrite (no_minutes b pre), (no_minutes b post) by auto. rewrite !map_app, !concat_app, <- !app_assoc. reflexivity.
  - unfold fix_minutes. assert (mins_match (code_text code) = None) as ->.
    { destruct H46 as [H4|H6]; [apply mins_none_h, T_lacks_h|apply mins_none_s, T_lacks_s]; auto. }
    apply no_minutes. auto.
Qed.

(** ** AM/PM *)
Definition has_ampm (l : list item) : bool := existsb (fun i => match i with AmPm => true | _ => false end) l.
Lemma containsb_not : forall sub s c, In c sub -> ~ In c s -> containsb sub s = false.
Proof.
  intros sub s c Hc. induction s as [|x s IH]; intros H.
  - simpl. destruct sub; [contradiction|reflexivity].
  - cbn [containsb]. rewrite IH by (intros Q; apply H; right; auto). rewrite orb_false_r.
    assert (P : forall p l, In c p -> ~ In c l -> prefixb p l = false).
    { clear. induction p as [|y p IHp]; intros l Hp Hl; [contradiction|]. destruct l as [|z l]; [reflexivity|]. simpl.
      destruct (Z.eqb_spec y z) as [->|]; auto. apply IHp; [|intros Q; apply Hl; right; auto].
      destruct Hp as [->|]; auto. exfalso. apply Hl. left. auto. }
    apply P; auto.
Qed.
Lemma containsb_app : forall sub a b, containsb sub (a ++ sub ++ b) = true.
Proof.
  intros sub a b. induction a as [|x a IH].
  - simpl app. destruct (sub ++ b) eqn:E; cbn [containsb]; rewrite <- E, prefixb_app; reflexivity.
  - rewrite <- app_comm_cons. cbn [containsb]. rewrite IH. apply orb_true_r.
Qed.
Lemma item_77 : forall b i, item_ok i -> i <> AmPm -> ~ In 77 (istage b 0 i).
Proof.
  intros b i Hi Hn HI. destruct i as [f|c|c|u|]; cbn [istage item_text item_ok] in *.
  - destruct f; cbv in HI; lia.
  - destruct HI as [HI|[]]. subst c. cbv [separators bs In] in Hi; simpl in Hi; lia.
  - destruct HI as [HI|[HI|[]]]; [lia|]. subst c. cbv [separators bs In] in Hi; simpl in Hi; lia.
  - destruct Hi as [_ Hi]. apply in_app_or in HI as [HI|HI]; [destruct HI as [HI|[]]; lia|].
    apply in_app_or in HI as [HI|HI]; [|destruct HI as [HI|[]]; lia].
    rewrite Forall_forall in Hi. destruct (Hi _ HI) as [A _]. apply A. cbv [bs In]. simpl. tauto.
  - congruence.
Qed.
Lemma ampm_flag : forall b code, Forall item_ok code ->
  containsb (bs "AM") (concat (map (istage b 0) code)) || containsb (bs "PM") (concat (map (istage b 0) code)) = has_ampm code.
Proof.
  intros b code HF. destruct (has_ampm code) eqn:E.
  - unfold has_ampm in E. apply existsb_exists in E as (i & Hi & Q). destruct i; try discriminate.
    apply in_split in Hi as (l1 & l2 & ->). rewrite map_app, concat_app. cbn [map concat istage item_text].
    change (bs "AM/PM") with (bs "AM" ++ bs "/PM"). rewrite <- app_assoc. rewrite containsb_app. reflexivity.
  - assert (N : ~ In 77 (concat (map (istage b 0) code))).
    { intros HI. apply in_concat in HI as (t & Ht & HI). apply in_map_iff in Ht as (i & <- & Hi).
      rewrite Forall_forall in HF. revert HI. apply item_77; auto. intros ->.
      unfold has_ampm in E. assert (existsb (fun i => match i with AmPm => true | _ => false end) code = true); [|congruence].
      apply existsb_exists. exists AmPm. auto. }
    rewrite (containsb_not (bs "AM") _ 77), (containsb_not (bs "PM") _ 77); auto; cbv [bs In]; simpl; tauto.
Qed.

(** ** Cleaning: quotes and backslashes *)
Definition final (ampm : bool) (i : item) : gostr := istage ampm 15 i.
Definition unquoted (ampm : bool) (i : item) : gostr := match i with Quo u => u | _ => final ampm i end.
Definition lay (ampm : bool) (i : item) : gostr := match i with Quo u => u | Esc c => [c] | _ => final ampm i end.

Lemma final_flds : forallb (fun b => forallb (fun f =>
    forallb (fun c => negb (existsb (Z.eqb c) [34; 42; 95; 92; 10])) (fstage b 15 f) && negb (zlen (fstage b 15 f) =? 0)) all_flds) [true; false] = true.
Proof. vm_compute. reflexivity. Qed.
Lemma final_fld : forall b f, Forall (fun c => ~ In c [34; 42; 95; 92; 10]) (fstage b 15 f) /\ fstage b 15 f <> [].
Proof.
  intros b f. pose proof final_flds as H. rewrite forallb_forall in H. specialize (H b ltac:(destruct b; simpl; auto)).
  rewrite forallb_forall in H. specialize (H f (all_flds_in f)). apply andb_true_iff in H as [H1 H2]. split.
  - rewrite forallb_forall in H1. apply Forall_forall. intros c Hc HI. specialize (H1 c Hc). apply negb_true_iff in H1.
    assert (existsb (Z.eqb c) [34; 42; 95; 92; 10] = true); [|congruence]. apply existsb_exists. exists c. split; auto. apply Z.eqb_refl.
  - intros E. rewrite E in H2. discriminate.
Qed.

Definition no_q (s : gostr) : Prop := ~ In 34 s.
Lemma non_esc_word : forall w b s, w <> [] -> no_q w -> starts 34 s = false ->
  non_esc_from b (w ++ s) = w ++ non_esc_from false s.
Proof.
  induction w as [|x w IH]; intros b s Hne Hq Hs; [congruence|]. unfold no_q in *.
  rewrite <- !app_comm_cons. cbn [non_esc_from]. destruct (Z.eqb_spec x 34); [exfalso; apply Hq; left; auto|].
  destruct w as [|y w].
  - simpl app. destruct s as [|z s]; [reflexivity|]. simpl in Hs. rewrite Hs. reflexivity.
  - rewrite <- app_comm_cons. destruct (Z.eqb_spec y 34); [exfalso; apply Hq; right; left; auto|].
    rewrite app_comm_cons. rewrite IH; auto; [discriminate|]. intros Q. apply Hq. right. auto.
Qed.
Lemma non_esc_quote : forall w b s, w <> [] -> no_q w ->
  non_esc_from b (w ++ 34 :: s) = w ++ non_esc_from false s.
Proof.
  induction w as [|x w IH]; intros b s Hne Hq; [congruence|]. unfold no_q in *.
  rewrite <- !app_comm_cons. cbn [non_esc_from]. destruct (Z.eqb_spec x 34); [exfalso; apply Hq; left; auto|].
  destruct w as [|y w].
  - reflexivity.
  - rewrite <- app_comm_cons. destruct (Z.eqb_spec y 34); [exfalso; apply Hq; right; left; auto|].
    rewrite app_comm_cons. rewrite IH; auto; [discriminate|]. intros Q. apply Hq. right. auto.
Qed.

Definition is_quo (i : item) : bool := match i with Quo _ => true | _ => false end.
Lemma final_no_q : forall b i, item_ok i -> is_quo i = false -> no_q (final b i) /\ final b i <> [].
Proof.
  intros b i Hi Hq. unfold final. destruct i as [f|c|c|u|]; try discriminate; cbn [istage item_text item_ok] in *.
  - destruct (final_fld b f) as [H1 H2]. split; auto. intros HI. rewrite Forall_forall in H1. apply (H1 34 HI). simpl. auto.
  - split; [|discriminate]. intros [Q34|[]]. subst c. cbv [separators bs In] in Hi; simpl in Hi; lia.
  - split; [|discriminate]. intros [Q34|[Q34|[]]]; [lia|]. subst c. cbv [separators bs In] in Hi; simpl in Hi; lia.
  - split; [|discriminate]. cbv. lia.
Qed.
Lemma quo_no_q : forall u, item_ok (Quo u) -> no_q u /\ u <> [].
Proof.
  intros u [H1 H2]. split; auto. intros HI. rewrite Forall_forall in H2. destruct (H2 _ HI) as [A _]. apply A. cbv [bs In]; simpl; tauto.
Qed.

Lemma non_esc_code : forall b n code w st, (List.length code <= n)%nat -> Forall item_ok code -> adjacent_ok code ->
  w <> [] -> no_q w ->
  non_esc_from st (w ++ concat (map (final b) code)) = w ++ concat (map (unquoted b) code).
Proof.
  induction n as [|n IH]; intros code w st Hn HF HA Hw Hq.
  { destruct code; [|simpl in Hn; lia]. simpl concat. rewrite !app_nil_r. rewrite <- (app_nil_r w) at 1.
    rewrite non_esc_word by auto. simpl. apply app_nil_r. }
  destruct code as [|i code].
  { simpl concat. rewrite !app_nil_r. rewrite <- (app_nil_r w) at 1. rewrite non_esc_word by auto. simpl. apply app_nil_r. }
  inversion HF as [|? ? Hi HF']; subst. cbn [List.length] in Hn. cbn [map concat].
  assert (HA' : adjacent_ok code) by (destruct code; [exact I|apply HA]).
  destruct (is_quo i) eqn:E.
  - destruct i; try discriminate. unfold final at 1. cbn [istage item_text unquoted]. rewrite <- !app_assoc.
    change ([34] ++ u ++ [34] ++ concat (map (final b) code)) with (34 :: (u ++ 34 :: concat (map (final b) code))).
    destruct (quo_no_q u Hi) as [U1 U2].
    rewrite non_esc_quote, non_esc_quote by auto. f_equal. f_equal.
    destruct code as [|j code]; [reflexivity|]. inversion HF' as [|? ? Hj HF'']; subst. destruct HA as [HA _].
    assert (Ej : is_quo j = false) by (destruct j; auto; contradiction).
    destruct (final_no_q b j Hj Ej) as [J1 J2]. cbn [map concat].
    rewrite (IH code (final b j)); auto; [|simpl in Hn; lia|destruct code; [exact I|apply HA']].
    destruct j; try discriminate; reflexivity.
  - destruct (final_no_q b i Hi E) as [J1 J2]. rewrite app_assoc. rewrite (IH code (w ++ final b i)); auto; [|lia| |].
    + rewrite <- app_assoc. destruct i; try discriminate; reflexivity.
    + intros Q. apply app_eq_nil in Q as [Q _]. auto.
    + unfold no_q in *. rewrite in_app_iff. tauto.
Qed.
Lemma non_esc_all : forall b code, Forall item_ok code -> adjacent_ok code ->
  non_esc (concat (map (final b) code)) = concat (map (unquoted b) code).
Proof.
  intros b code HF HA. unfold non_esc. destruct code as [|i code]; [reflexivity|].
  inversion HF as [|? ? Hi HF']; subst. cbn [map concat].
  assert (HA' : adjacent_ok code) by (destruct code; [exact I|apply HA]).
  destruct (is_quo i) eqn:E.
  - destruct i; try discriminate. unfold final at 1. cbn [istage item_text unquoted]. rewrite <- !app_assoc.
    change ([34] ++ u ++ [34] ++ concat (map (final b) code)) with (34 :: (u ++ 34 :: concat (map (final b) code))).
    destruct (quo_no_q u Hi) as [U1 U2]. cbn [non_esc_from]. rewrite Z.eqb_refl.
    rewrite non_esc_quote by auto. f_equal.
    destruct code as [|j code]; [reflexivity|]. inversion HF' as [|? ? Hj HF'']; subst. destruct HA as [HA _].
    assert (Ej : is_quo j = false) by (destruct j; auto; contradiction).
    destruct (final_no_q b j Hj Ej) as [J1 J2]. cbn [map concat].
    rewrite (non_esc_code b (List.length code) code (final b j)); auto; [|destruct code; [exact I|apply HA']].
    destruct j; try discriminate; reflexivity.
  - destruct (final_no_q b i Hi E) as [J1 J2]. rewrite (non_esc_code b (List.length code)); auto.
    destruct i; try discriminate; reflexivity.
Qed.

Lemma squash_id : forall s n, (List.length s <= n)%nat -> Forall (fun c => c <> 42 /\ c <> 95) s -> squash_fuel n s = s.
Proof.
  induction s as [|x s IH]; intros n Hn H; [destruct n; reflexivity|]. inversion H as [|? ? [H1 H2] H3]; subst.
  destruct n as [|n]; [simpl in Hn; lia|]. cbn [squash_fuel].
  destruct (Z.eqb_spec x 42), (Z.eqb_spec x 95); try contradiction. cbn [orb]. f_equal. apply IH; auto. simpl in Hn. lia.
Qed.
Lemma fix_esc_word : forall w s n, (List.length (w ++ s) <= n)%nat -> Forall (fun c => c <> 92) w ->
  fix_esc_fuel n (w ++ s) = w ++ fix_esc_fuel (n - List.length w) s.
Proof.
  induction w as [|x w IH]; intros s n Hn H; [simpl; rewrite Nat.sub_0_r; auto|]. inversion H as [|? ? H1 H3]; subst.
  destruct n as [|n]; [simpl in Hn; lia|]. rewrite <- !app_comm_cons. cbn [fix_esc_fuel].
  destruct (Z.eqb_spec x 92); [contradiction|]. f_equal. rewrite IH; auto. simpl in Hn. lia.
Qed.
Lemma unquoted_no92 : forall b i, item_ok i -> (forall c, i <> Esc c) -> Forall (fun c => c <> 92) (unquoted b i).
Proof.
  intros b i Hi Hn. destruct i as [f|c|c|u|]; cbn [unquoted item_ok] in *.
  - destruct (final_fld b f) as [H1 _]. eapply Forall_impl; [|exact H1]. cbv beta. intros x Hx ->. apply Hx. simpl. auto.
  - repeat constructor. cbv [separators bs In] in Hi; simpl in Hi; lia.
  - exfalso. eapply Hn. reflexivity.
  - destruct Hi as [_ Hi]. eapply Forall_impl; [|exact Hi]. intros x [A _] ->. apply A. cbv [bs In]; simpl; tauto.
  - apply Forall_forall. intros x Hx ->. cbv in Hx. lia.
Qed.
Lemma dec1_ascii : forall c r, 0 <= c < 128 -> dot_width (c :: r) = if c =? 10 then None else Some 1%nat.
Proof.
  intros c r H. unfold dot_width, utf8_dec1. destruct (c =? 10); auto. destruct (Z.ltb_spec c 128); [reflexivity|lia].
Qed.
Lemma fix_esc_code : forall b code n, (List.length (concat (map (unquoted b) code)) <= n)%nat -> Forall item_ok code ->
  fix_esc_fuel n (concat (map (unquoted b) code)) = concat (map (lay b) code).
Proof.
  induction code as [|i code IH]; intros n Hn HF; [destruct n; reflexivity|]. inversion HF as [|? ? Hi HF']; subst.
  cbn [map concat] in *. assert (D : (exists c, i = Esc c) \/ forall c, i <> Esc c).
  { destruct i; try (right; discriminate). left; eauto. }
  destruct D as [[c ->]|D].
  - cbn [unquoted lay] in *. unfold final in *. cbn [istage item_text] in *. cbn [item_ok] in Hi.
    assert (R : 0 <= c < 128 /\ c <> 10) by (cbv [separators bs In] in Hi; simpl in Hi; lia).
    rewrite <- !app_comm_cons in *. simpl app in *. destruct n as [|n]; [simpl in Hn; lia|]. cbn [fix_esc_fuel]. rewrite Z.eqb_refl.
    rewrite dec1_ascii by lia. destruct (Z.eqb_spec c 10); [lia|]. cbn [firstn skipn app]. f_equal.
    apply IH; auto. simpl in Hn. lia.
  - rewrite fix_esc_word; auto; [|apply unquoted_no92; auto]. rewrite IH; auto.
    + destruct i; try reflexivity. exfalso. eapply D. reflexivity.
    + rewrite app_length in Hn. lia.
Qed.
Lemma clean_code : forall b code, Forall item_ok code -> adjacent_ok code ->
  clean_text (concat (map (final b) code)) = concat (map (lay b) code).
Proof.
  intros b code HF HA. unfold clean_text. rewrite non_esc_all by auto. unfold squash. rewrite squash_id; auto.
  - apply fix_esc_code; auto.
  - clear HA. induction HF as [|i code Hi HF IH]; [constructor|]. cbn [map concat]. apply Forall_app. split; auto.
    destruct i as [f|c|c|u|]; cbn [unquoted].
    + destruct (final_fld b f) as [H1 _]. eapply Forall_impl; [|exact H1]. cbv beta. simpl. intros x Hx. lia.
    + pose proof (item_bytes _ Hi) as Q. eapply Forall_impl; [|exact Q]. cbv beta. tauto.
    + pose proof (item_bytes _ Hi) as Q. eapply Forall_impl; [|exact Q]. cbv beta. tauto.
    + pose proof (item_bytes _ Hi) as Q. cbn [item_text] in Q. apply Forall_app in Q as [_ Q]. apply Forall_app in Q as [Q _].
      eapply Forall_impl; [|exact Q]. cbv beta. tauto.
    + apply Forall_forall. intros x Hx. cbv in Hx. lia.
Qed.

Lemma date_layout_code : forall code, date_code code ->
  date_layout (code_text code) = concat (map (lay (has_ampm code)) code).
Proof.
  intros code (HF & HO & HA & HM & _). unfold date_layout. fold (fix_minutes (code_text code)).
  rewrite (minutes_fixed (has_ampm code)) by auto. cbv zeta. rewrite ampm_flag by auto.
  rewrite fold_dfreps. rewrite all_stages by auto. apply clean_code; auto.
Qed.

(** ** Layouts, piece by piece *)
Lemma std_chunk_pos : forall s ch n, std_chunk s = Some (ch, n) -> (1 <= n)%nat.
Proof.
  intros [|c r] ch n H; [discriminate|]. unfold std_chunk in H.
  repeat match type of H with
  | (if ?b then _ else _) = _ => destruct b
  | match ?x with _ => _ end = _ => destruct x
  end; try discriminate; injection H as <- <-; lia.
Qed.
Lemma layout_fuel : forall m s n1 n2, (List.length s <= m)%nat -> (List.length s <= n1)%nat -> (List.length s <= n2)%nat ->
  layout_chunks n1 s = layout_chunks n2 s.
Proof.
  induction m as [|m IH]; intros s n1 n2 Hm H1 H2.
  - destruct s; [destruct n1, n2; reflexivity|simpl in Hm; lia].
  - destruct s as [|c r]; [destruct n1, n2; reflexivity|]. destruct n1 as [|n1]; [simpl in H1; lia|]. destruct n2 as [|n2]; [simpl in H2; lia|].
    cbn [List.length] in *. cbn [layout_chunks]. destruct (std_chunk (c :: r)) as [[ch n]|] eqn:E.
    + apply std_chunk_pos in E. f_equal. apply IH; rewrite skipn_length; cbn [List.length]; lia.
    + f_equal. apply IH; lia.
Qed.
Definition LC (s : gostr) : list chunk := layout_chunks (List.length s) s.
Lemma LC_cons : forall c r, LC (c :: r) =
  match std_chunk (c :: r) with Some (ch, n) => ch :: LC (skipn n (c :: r)) | None => CLit c :: LC r end.
Proof.
  intros c r. unfold LC. cbn [List.length layout_chunks]. destruct (std_chunk (c :: r)) as [[ch n]|] eqn:E; [|reflexivity].
  apply std_chunk_pos in E. f_equal. apply (layout_fuel (List.length r)); rewrite ?skipn_length; cbn [List.length]; lia.
Qed.

Definition tame (s : gostr) : Prop :=
  starts 57 s = false /\ (forall r, s = 48 :: r -> exists d r', r = d :: r' /\ 49 <= d <= 54).
Lemma lay_flds : forallb (fun b => forallb (fun f =>
    match fstage b 15 f with
    | [] => false
    | x :: r => negb (x =? 57) && negb (starts_lower (fstage b 15 f)) &&
                match r with d :: _ => negb (x =? 48) || ((49 <=? d) && (d <=? 54)) | [] => negb (x =? 48) end
    end) all_flds) [true; false] = true.
Proof. vm_compute. reflexivity. Qed.
Lemma lay_fld : forall b f R, tame (fstage b 15 f ++ R) /\ starts_lower (fstage b 15 f ++ R) = false.
Proof.
  intros b f R. pose proof lay_flds as H. rewrite forallb_forall in H. specialize (H b ltac:(destruct b; simpl; auto)).
  rewrite forallb_forall in H. specialize (H f (all_flds_in f)). destruct (fstage b 15 f) as [|x r]; [discriminate|].
  apply andb_true_iff in H as [H H3]. apply andb_true_iff in H as [H1 H2]. rewrite <- app_comm_cons. split; [split|].
  - simpl. apply negb_true_iff. auto.
  - intros r0 E. injection E as Ex Er. subst x r0. destruct r as [|d r]; [discriminate|]. exists d, (r ++ R). split; auto. simpl in H3. lia.
  - apply negb_true_iff in H2. exact H2.
Qed.

Lemma plain_chunk : forall c r, plain_byte c -> std_chunk (c :: r) = None.
Proof.
  intros c r [H _]. assert (D : forall x, In x (bs "JM012345_PpZ-.,") -> (c =? x) = false).
  { intros x Hx. apply Z.eqb_neq. intros ->. apply H. cbv [bs In] in *. simpl in *. tauto. }
  unfold std_chunk. rewrite !D by (cbv [bs In]; simpl; tauto). reflexivity.
Qed.
Lemma LC_text : forall u R, Forall plain_byte u -> LC (u ++ R) = map CLit u ++ LC R.
Proof.
  induction u as [|c u IH]; intros R H; [reflexivity|]. inversion H; subst. rewrite <- app_comm_cons, LC_cons, plain_chunk by auto.
  simpl. f_equal. auto.
Qed.
Lemma LC_sep : forall c R, In c separators -> tame R -> LC (c :: R) = CLit c :: LC R.
Proof.
  intros c R Hc [T1 T2]. rewrite LC_cons. assert (std_chunk (c :: R) = None) as ->; [|reflexivity].
  assert (P07 : forall t, prefixb (48 :: 55 :: t) R = false).
  { intros t. destruct R as [|x R]; [reflexivity|]. cbn [prefixb]. destruct (Z.eqb_spec 48 x) as [<-|]; [|reflexivity].
    destruct (T2 R eq_refl) as (d & r' & -> & Hd). cbn [prefixb andb]. destruct (Z.eqb_spec 55 d); [lia|reflexivity]. }
  assert (PF : match R with
     | [] => @None (chunk * nat)
     | ch :: _ => if (ch =? 48) || (ch =? 57) then
         match skipn (count_run ch R) R with
         | d :: _ => if (48 <=? d) && (d <=? 57) then None else Some (CFrac (ch =? 57) (Z.of_nat (count_run ch R)) c, S (count_run ch R))
         | [] => Some (CFrac (ch =? 57) (Z.of_nat (count_run ch R)) c, S (count_run ch R)) end else None end = None).
  { destruct R as [|x R]; [reflexivity|]. simpl in T1. rewrite T1. destruct (Z.eqb_spec x 48) as [->|]; [|reflexivity]. cbn [orb].
    destruct (T2 R eq_refl) as (d & r' & -> & Hd). cbn [count_run]. rewrite Z.eqb_refl. destruct (Z.eqb_spec d 48); [lia|].
    cbn [skipn]. destruct (Z.leb_spec 48 d), (Z.leb_spec d 57); try lia. reflexivity. }
  cbv [separators bs In] in Hc. simpl in Hc. destruct Hc as [<-|[<-|[<-|[<-|[<-|[<-|[]]]]]]]; unfold std_chunk; cbn [Z.eqb Pos.eqb orb]; auto.
  change (bs "-070000") with (45 :: 48 :: 55 :: bs "0000"). change (bs "-07:00:00") with (45 :: 48 :: 55 :: bs ":00:00").
  change (bs "-0700") with (45 :: 48 :: 55 :: bs "00"). change (bs "-07:00") with (45 :: 48 :: 55 :: bs ":00").
  change (bs "-07") with (45 :: 48 :: 55 :: []).
  assert (PC : forall t, prefixb (45 :: 48 :: 55 :: t) (45 :: R) = false).
  { intros t. change (prefixb (45 :: 48 :: 55 :: t) (45 :: R)) with (prefixb (48 :: 55 :: t) R). apply P07. }
  rewrite !PC. reflexivity.
Qed.

Definition fld_chunk (b : bool) (f : fld) : chunk :=
  match f with
  | Yyyy => CLongYear | Yy => CYear | Mmmm => CLongMonth | Mmm => CMonth | Mm => CZeroMonth | M1 => CNumMonth
  | Ddd => CWeekDay | Dd => CZeroDay | D1 => CDay | Hh => if b then CZeroHour12 else CHour
  | H1 => if b then CHour12 else CHour | Min2 => CZeroMinute | Min1 => CMinute | Ss => CZeroSecond | S1 => CSecond
  end.
Definition fld_lay (b : bool) (f : fld) : gostr :=
  bs match f with
     | Yyyy => "2006" | Yy => "06" | Mmmm => "January" | Mmm => "Jan" | Mm => "01" | M1 => "1"
     | Ddd => "Mon" | Dd => "02" | D1 => "2" | Hh => if b then "03" else "15"
     | H1 => if b then "3" else "15" | Min2 => "04" | Min1 => "4" | Ss => "05" | S1 => "5"
     end.
Lemma fld_lay_ok : forall b f, fstage b 15 f = fld_lay b f.
Proof. intros [] []; vm_compute; reflexivity. Qed.

Lemma std_fld : forall b f R, tame R -> (f = M1 -> starts 53 R = false) -> (f = Mmm \/ f = Ddd -> starts_lower R = false) ->
  std_chunk (fld_lay b f ++ R) = Some (fld_chunk b f, List.length (fld_lay b f)).
Proof.
  intros b f R [T1 T2] HM HL. destruct f; try (destruct b; reflexivity); try reflexivity.
  - (* Mmm *) specialize (HL (or_introl eq_refl)). change (fld_lay b Mmm ++ R) with (74 :: 97 :: 110 :: R).
    unfold std_chunk. cbn [Z.eqb Pos.eqb].
    assert (prefixb (bs "January") (74 :: 97 :: 110 :: R) = false) as ->.
    { change (prefixb (bs "uary") R = false). destruct R as [|x R]; [reflexivity|]. simpl in HL.
      change (bs "uary") with (117 :: bs "ary"). cbn [prefixb]. destruct (Z.eqb_spec 117 x) as [<-|]; [discriminate|reflexivity]. }
    change (prefixb (bs "Jan") (74 :: 97 :: 110 :: R)) with true. cbn [skipn]. rewrite HL. reflexivity.
  - (* M1 *) specialize (HM eq_refl). change (fld_lay b M1 ++ R) with (49 :: R). unfold std_chunk. cbn [Z.eqb Pos.eqb].
    assert (prefixb (bs "15") (49 :: R) = false) as ->; [|reflexivity].
    change (prefixb [53] R = false). destruct R as [|x R]; [reflexivity|]. simpl in HM. cbn [prefixb]. rewrite Z.eqb_sym, HM. reflexivity.
  - (* Ddd *) specialize (HL (or_intror eq_refl)). change (fld_lay b Ddd ++ R) with (77 :: 111 :: 110 :: R).
    unfold std_chunk. cbn [Z.eqb Pos.eqb].
    assert (prefixb (bs "Monday") (77 :: 111 :: 110 :: R) = false) as ->.
    { change (prefixb (bs "day") R = false). destruct R as [|x R]; [reflexivity|]. simpl in HL.
      change (bs "day") with (100 :: bs "ay"). cbn [prefixb]. destruct (Z.eqb_spec 100 x) as [<-|]; [discriminate|reflexivity]. }
    change (prefixb (bs "Mon") (77 :: 111 :: 110 :: R)) with true. cbn [skipn]. rewrite HL. reflexivity.
  - (* D1 *) change (fld_lay b D1 ++ R) with (50 :: R). unfold std_chunk. cbn [Z.eqb Pos.eqb].
    assert (prefixb (bs "2006") (50 :: R) = false) as ->; [|reflexivity].
    change (prefixb (48 :: 48 :: bs "6") R = false). destruct R as [|x R]; [reflexivity|]. cbn [prefixb].
    destruct (Z.eqb_spec 48 x) as [<-|]; [|reflexivity]. destruct (T2 R eq_refl) as (d & r' & -> & Hd).
    cbn [prefixb andb]. destruct (Z.eqb_spec 48 d); [lia|reflexivity].
Qed.

Lemma tame_code : forall b code, Forall item_ok code -> tame (concat (map (lay b) code)).
Proof.
  intros b [|i code] HF; [split; [reflexivity|discriminate]|]. inversion HF as [|? ? Hi HF']; subst. cbn [map concat].
  destruct i as [f|c|c|u|]; cbn [lay item_ok] in *; unfold final; cbn [istage item_text].
  - apply lay_fld.
  - cbv [separators bs In] in Hi; simpl in Hi. split; [simpl; lia|]. intros r E. injection E as E _. lia.
  - cbv [separators bs In] in Hi; simpl in Hi. split; [simpl; lia|]. intros r E. injection E as E _. lia.
  - destruct Hi as [Hu Hi]. destruct u as [|x u]; [congruence|]. inversion Hi as [|? ? [H1 _] _]; subst. rewrite <- app_comm_cons. split.
    + simpl. destruct (Z.eqb_spec x 57); auto. subst. exfalso. apply H1. cbv [bs In]; simpl; tauto.
    + intros r E. injection E as E _. subst. exfalso. apply H1. cbv [bs In]; simpl; tauto.
  - split; [reflexivity|discriminate].
Qed.
Lemma LC_fld : forall b f R, tame R -> (f = M1 -> starts 53 R = false) -> (f = Mmm \/ f = Ddd -> starts_lower R = false) ->
  LC (fld_lay b f ++ R) = fld_chunk b f :: LC R.
Proof.
  intros b f R H1 H2 H3. pose proof (std_fld b f R H1 H2 H3) as H.
  assert (NE : fld_lay b f <> []) by (destruct f, b; discriminate).
  destruct (fld_lay b f) as [|x r] eqn:E; [congruence|]. rewrite <- app_comm_cons in *. rewrite LC_cons, H.
  f_equal. f_equal. rewrite app_comm_cons. rewrite skipn_app, skipn_all, Nat.sub_diag. reflexivity.
Qed.

Lemma next_start : forall b a code, Forall item_ok (a :: code) -> adjacent_ok (a :: code) ->
  (a = Fld M1 -> starts 53 (concat (map (lay b) code)) = false) /\
  (a = Fld Mmm \/ a = Fld Ddd -> starts_lower (concat (map (lay b) code)) = false).
Proof.
  intros b a code HF HA. inversion HF as [|? ? Ha HF']; subst. destruct code as [|j code]; [split; reflexivity|].
  inversion HF' as [|? ? Hj HF'']; subst. destruct HA as [HA _]. cbn [map concat].
  destruct j as [g|c|c|u|]; cbn [lay item_ok] in *; unfold final; cbn [istage item_text].
  - split; [|intros _; apply lay_fld]. intros ->. destruct HA as (A1 & A2 & A3). rewrite fld_lay_ok.
    destruct g; try reflexivity; try (destruct b; reflexivity); try (exfalso; apply A1; reflexivity).
    exfalso. auto.
  - cbv [separators bs In] in Hj; simpl in Hj. split; intros _; simpl; lia.
  - cbv [separators bs In] in Hj; simpl in Hj. split; intros _; simpl; lia.
  - destruct Hj as [Hu Hj]. destruct u as [|x u]; [congruence|]. inversion Hj as [|? ? [H1 _] _]; subst. rewrite <- app_comm_cons. split.
    + intros _. simpl. destruct (Z.eqb_spec x 53); auto. subst. exfalso. apply H1. cbv [bs In]; simpl; tauto.
    + intros [->| ->]; cbn [follows hd] in HA; simpl; destruct (Z.leb_spec 97 x), (Z.leb_spec x 122); try reflexivity; exfalso; apply HA; auto.
  - split; reflexivity.
Qed.

Lemma chunks_code : forall b code, Forall item_ok code -> adjacent_ok code ->
  LC (concat (map (lay b) code)) = flat_map tok_chunks (flat_map (item_shows b) code).
Proof.
  intros b. induction code as [|i code IH]; intros HF HA; [reflexivity|].
  destruct (next_start b i code HF HA) as [N1 N2].
  inversion HF as [|? ? Hi HF']; subst. assert (HA' : adjacent_ok code) by (destruct code; [exact I|apply HA]).
  specialize (IH HF' HA'). pose proof (tame_code b code HF') as HT. cbn [map concat flat_map]. rewrite flat_map_app, <- IH.
  destruct i as [f|c|c|u|]; cbn [lay item_ok] in *; unfold final; cbn [istage item_text].
  - rewrite fld_lay_ok, LC_fld; auto; [|intros ->; auto|intros [->| ->]; auto].
    destruct f; try (destruct b; reflexivity); reflexivity.
  - apply LC_sep; auto.
  - apply LC_sep; auto.
  - rewrite LC_text by apply Hi. cbn [item_shows item_means flat_map tok_chunks]. rewrite app_nil_r. reflexivity.
  - change (bs "AM/PM" ++ concat (map (lay b) code)) with (65 :: 77 :: 47 :: 80 :: 77 :: concat (map (lay b) code)).
    rewrite LC_cons. change (std_chunk (65 :: 77 :: 47 :: 80 :: 77 :: concat (map (lay b) code))) with (@None (chunk * nat)).
    cbv iota. rewrite LC_cons. change (std_chunk (77 :: 47 :: 80 :: 77 :: concat (map (lay b) code))) with (@None (chunk * nat)).
    cbv iota. rewrite LC_cons. change (std_chunk (47 :: 80 :: 77 :: concat (map (lay b) code))) with (@None (chunk * nat)).
    cbv iota. rewrite LC_cons. change (std_chunk (80 :: 77 :: concat (map (lay b) code))) with (Some (CPM, 2%nat)).
    reflexivity.
Qed.

(** ** The formatter of a date code *)
Lemma code_text_incl : forall i code, In i code -> incl (item_text i) (code_text code).
Proof. intros i code H c Hc. unfold code_text. apply in_concat. exists (item_text i). split; auto. apply in_map. auto. Qed.
Lemma rm_delim_id : forall o c s n, (List.length s <= n)%nat -> ~ In o s -> rm_delim n o c s = s.
Proof.
  induction s as [|x s IH]; intros n Hn H; [destruct n; reflexivity|]. destruct n as [|n]; [simpl in Hn; lia|].
  cbn [rm_delim]. destruct (Z.eqb_spec x o); [exfalso; apply H; left; auto|]. f_equal. apply IH; [simpl in Hn; lia|].
  intros Q. apply H. right. auto.
Qed.
Lemma contains_any_in : forall set s c, In c set -> In c s -> contains_any set s = true.
Proof.
  intros set s c Hc Hs. apply in_split in Hs as (a & b & ->). unfold contains_any, index_any, index_where.
  pose proof (index_before (fun c => existsb (Z.eqb c) set) a c b 0). apply Z.leb_le. apply H.
  apply existsb_exists. exists c. split; auto. apply Z.eqb_refl.
Qed.
(** removing quoted text keeps the fields *)
Lemma rm_literals_code : forall code n, (List.length (code_text code) <= n)%nat -> Forall item_ok code ->
  forall f, In (Fld f) code -> In (letter f) (rm_delim n 34 34 (code_text code)).
Proof.
  intros code. remember (List.length code) as m eqn:Em. assert (Hm : (List.length code <= m)%nat) by lia. clear Em.
  assert (W : forall w s n, (List.length (w ++ s) <= n)%nat -> no_q w -> rm_delim n 34 34 (w ++ s) = w ++ rm_delim (n - List.length w) 34 34 s).
  { induction w as [|x w IHw]; intros s n Hn Hq; [simpl; rewrite Nat.sub_0_r; auto|]. destruct n as [|n]; [simpl in Hn; lia|].
    rewrite <- !app_comm_cons. cbn [rm_delim]. destruct (Z.eqb_spec x 34); [exfalso; apply Hq; left; auto|]. f_equal.
    apply IHw; [simpl in Hn; lia|]. intros Q. apply Hq. right. auto. }
  revert code Hm. induction m as [|m IH]; intros code Hm n Hn HF f Hf.
  { destruct code; [contradiction|simpl in Hm; lia]. }
  destruct code as [|i code]; [contradiction|]. inversion HF as [|? ? Hi HF']; subst. rewrite T_cons in *.
  destruct (is_quo i) eqn:E.
  - destruct i; try discriminate. destruct Hf as [Hf|Hf]; [discriminate|]. cbn [item_text] in *. rewrite <- !app_assoc in *.
    change ([34] ++ u ++ [34] ++ code_text code) with (34 :: (u ++ 34 :: code_text code)) in *.
    destruct n as [|n]; [simpl in Hn; lia|]. cbn [rm_delim]. rewrite Z.eqb_refl.
    assert (EI : index_byte 34 (u ++ 34 :: code_text code) = zlen u).
    { unfold index_byte, index_where. pose proof (L_formats.index_from_app (Z.eqb 34) u (34 :: code_text code) 0) as Q.
      rewrite Q; [reflexivity| |right; eauto]. apply Forall_forall. intros x Hx. apply Z.eqb_neq. intros <-.
      destruct (quo_no_q u Hi) as [Q1 _]. apply Q1. auto. }
    rewrite EI. pose proof (zlen_nonneg _ u). destruct (Z.ltb_spec (zlen u) 0); [lia|].
    replace (zdrop (zlen u + 1) (u ++ 34 :: code_text code)) with (code_text code).
    2: { replace (u ++ 34 :: code_text code) with ((u ++ [34]) ++ code_text code) by (rewrite <- app_assoc; reflexivity).
         symmetry. apply zdrop_app_exact'. rewrite zlen_app. unfold zlen. simpl. lia. }
    apply IH; auto; [simpl in Hm; lia|]. cbn [List.length] in Hn. rewrite app_length in Hn. cbn [List.length] in Hn. lia.
  - assert (Q : no_q (item_text i)).
    { intros HI. destruct i as [g|c|c|u|]; try discriminate; cbn [item_text item_ok] in *.
      - destruct g; cbv in HI; lia.
      - destruct HI as [HI|[]]. subst c. cbv [separators bs In] in Hi; simpl in Hi; lia.
      - destruct HI as [HI|[HI|[]]]; [lia|]. subst c. cbv [separators bs In] in Hi; simpl in Hi; lia.
      - cbv in HI. lia. }
    rewrite W by auto. destruct Hf as [->|Hf].
    + apply in_or_app. left. cbn [item_text]. destruct f; cbv; lia.
    + apply in_or_app. right. apply IH; auto; [simpl in Hm; lia|]. rewrite app_length in Hn. lia.
Qed.

Lemma date_code_formatter : forall code, date_code code ->
  to_lower (code_text code) <> bs "general" /\
  make_formatter (code_text code) = (FTime (concat (map (lay (has_ampm code)) code)), DateCell).
Proof.
  intros code HD. pose proof (date_layout_code code HD) as HL. destruct HD as (HF & HO & HA & HM & f & Hf).
  pose proof (T_bytes _ HF) as TB. rewrite Forall_forall in TB. split.
  - intros E. assert (I1 : In (letter f) (code_text code)).
    { apply (code_text_incl (Fld f)); auto. cbn [item_text]. destruct (fld_letter f) as (n & Hn & Q). rewrite Q. destruct n; [lia|]. left. auto. }
    assert (I2 : In (letter f) (bs "general")).
    { rewrite <- E. unfold to_lower. apply in_map_iff. exists (letter f). split; auto.
      rewrite letter_class. destruct f; reflexivity. }
    destruct f; cbv in I2; lia.
  - assert (B : rm_brackets (code_text code) = code_text code).
    { unfold rm_brackets. apply rm_delim_id; auto. intros Q. apply TB in Q. tauto. }
    unfold make_formatter. rewrite B.
    rewrite (containsb_not (bs ";") _ 59); [|left; reflexivity|intros Q; apply TB in Q; tauto].
    unfold make_section. rewrite B. unfold rm_literals.
    rewrite (contains_any_in (bs "ymdhs") _ (letter f)).
    + rewrite HL. reflexivity.
    + destruct f; cbv [bs In]; cbn; tauto.
    + apply rm_literals_code; auto.
Qed.
