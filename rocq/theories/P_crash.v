(** * P_crash: properties C93 and C94, what grate2tsv has written at any moment and when it ends early *)
From Verif Require Import GoBase L_base M_tsv M_disk P_tsv.
From Coq Require Import Lia ZifyBool ZifyNat Permutation.

(** ** runs *)
Lemma dstep_gsteps : forall jobs panics faulty a s t, gsteps jobs a (d_g s) -> dstep jobs panics faulty s t -> gsteps jobs a (d_g t).
Proof. intros jobs pn fy a s t G T. destruct T; cbn [d_g] in *; try exact G; eapply gsteps_step; eassumption. Qed.
Lemma dsteps_gsteps : forall jobs panics faulty s t, dsteps jobs panics faulty s t -> gsteps jobs (d_g s) (d_g t).
Proof. intros jobs pn fy s t S. induction S as [s|a b c S IH T]; [constructor|exact (dstep_gsteps _ _ _ _ _ _ IH T)]. Qed.
Lemma dsteps_app : forall jobs panics faulty a b c, dsteps jobs panics faulty a b -> dsteps jobs panics faulty b c -> dsteps jobs panics faulty a c.
Proof. intros jobs pn fy a b c A B. revert A. induction B as [s|x y z B IH T]; intros A; [exact A|]. exact (dsteps_step _ _ _ _ _ _ (IH A) T). Qed.

(** ** what is known of reachable states *)
Lemma nodup_app : forall A (a b : list A), NoDup (a ++ b) <-> NoDup a /\ NoDup b /\ (forall x, In x a -> ~ In x b).
Proof.
  intros A a b. induction a as [|x a IH]; cbn [app]; [split; [intros H; split; [constructor|split; [exact H|intros ? []]]|tauto]|].
  split.
  - intros H. inversion H as [|? ? H1 H2]; subst. apply IH in H2. destruct H2 as (A1 & A2 & A3). rewrite in_app_iff in H1. split; [constructor; tauto|]. split; [exact A2|]. intros y [<-|I]; [tauto|auto].
  - intros (H1 & H2 & H3). inversion H1 as [|? ? H4 H5]; subst. constructor; [rewrite in_app_iff; intros [I|I]; [tauto|exact (H3 x (or_introl eq_refl) I)]|]. apply IH. split; [exact H5|]. split; [exact H2|]. intros y I. apply H3. right. exact I.
Qed.
Lemma fm_split : forall A B (f g : A -> list B) l, Permutation (flat_map (fun x => f x ++ g x) l) (flat_map f l ++ flat_map g l).
Proof.
  intros A B f g l. induction l as [|a l IH]; [constructor|]. cbn [flat_map]. rewrite IH. rewrite <- !app_assoc. apply Permutation_app_head. rewrite !app_assoc. apply Permutation_app_tail. apply Permutation_app_comm.
Qed.
Section reach.
Variable jobs : nat -> job.
Variables n m : nat.
Variable fs0 : list gostr.
Definition valid (x : nat * nat) : Prop := (fst x < n)%nat /\ (snd x < List.length (j_outs (jobs (fst x))))%nat.
Lemma nodup_pairs : forall (i : nat) k, NoDup (map (pair i) (seq 0 k)).
Proof. intros i k. apply FinFun.Injective_map_NoDup; [intros a b E; injection E; auto|apply seq_NoDup]. Qed.
Definition touched (w : wpc) : list (nat * nat) := handed jobs w ++ inhand w.
Lemma touched_cur : forall w x, wok jobs w -> In x (touched w) -> In (fst x) (cur w) /\ (snd x < List.length (j_outs (jobs (fst x))))%nat.
Proof.
  intros w x K H. unfold touched in H. apply in_app_iff in H. destruct w as [|i k|i k|i|i r| |]; cbn [handed inhand cur wok] in *; try (destruct H as [[]|[]]; fail).
  - destruct H as [H|[]]. apply in_map_iff in H. destruct H as (j & <- & H). apply in_seq in H. cbn. split; [auto|lia].
  - destruct H as [H|[<-|[]]]; [apply in_map_iff in H; destruct H as (j & <- & H); apply in_seq in H|]; cbn; (split; [auto|lia]).
  - destruct H as [H|[]]. apply in_map_iff in H. destruct H as (j & <- & H). apply in_seq in H. cbn. split; [auto|lia].
Qed.
Lemma touched_nodup : forall w, NoDup (touched w).
Proof.
  intros w. unfold touched. destruct w as [|i k|i k|i|i r| |]; cbn [handed inhand app]; try constructor; try (rewrite app_nil_r; apply nodup_pairs).
  rewrite <- seq_pair_S. apply nodup_pairs.
Qed.
Lemma fm_in_cur : forall ws x, Forall (wok jobs) ws -> In x (flat_map touched ws) -> In (fst x) (flat_map cur ws) /\ (snd x < List.length (j_outs (jobs (fst x))))%nat.
Proof.
  intros ws x F H. apply in_flat_map in H. destruct H as (w & I & H). rewrite Forall_forall in F. destruct (touched_cur _ _ (F w I) H) as (A & B). split; [apply in_flat_map; eauto|exact B].
Qed.
Lemma all_nodup : forall ws order, Forall (wok jobs) ws -> NoDup (flat_map cur ws ++ order) -> NoDup (flat_map touched ws ++ flat_map (outs_of jobs) order).
Proof.
  intros ws order F. induction F as [|w ws K F IH]; intros N.
  - cbn [flat_map app] in *. induction N as [|i l I N IH]; [constructor|]. cbn [flat_map]. apply nodup_app. split; [apply nodup_pairs|]. split; [exact IH|].
    intros x H1 H2. apply in_map_iff in H1. destruct H1 as (k & <- & _). apply in_flat_map in H2. destruct H2 as (j & J & H2). apply in_map_iff in H2. destruct H2 as (k2 & E & _). injection E as <- _. contradiction.
  - cbn [flat_map] in *. rewrite <- !app_assoc in *. apply nodup_app in N. destruct N as (N1 & N2 & N3). apply nodup_app. split; [apply touched_nodup|]. split; [exact (IH N2)|].
    intros x H1 H2. destruct (touched_cur _ _ K H1) as (A & _). apply (N3 _ A). apply in_app_iff in H2. apply in_app_iff. destruct H2 as [H2|H2]; [left; exact (proj1 (fm_in_cur _ _ F H2))|right].
    apply in_flat_map in H2. destruct H2 as (j & J & H2). apply in_map_iff in H2. destruct H2 as (k2 & <- & _). exact J.
Qed.
(** outputs created: each once, and outputs of given files; flushed and closed ones were created *)
Lemma created_ok : forall s, ginv jobs n fs0 s -> NoDup (g_created s) /\ (forall x, In x (g_created s) -> valid x) /\ (forall x, In x (g_flushed s) -> In x (g_created s)) /\ (forall x, In x (g_closed s) -> In x (g_flushed s)) /\
  (forall i k, In (WSend i k) (g_ws s) -> In (i, k) (g_created s)) /\ (forall x, g_cl s = CFlush x -> In x (g_created s)).
Proof.
  intros s (order & I1 & I2 & I3 & I4 & I5 & I6 & I7 & I8).
  assert (P : Permutation (g_created s) (flat_map touched (g_ws s) ++ flat_map (outs_of jobs) order)).
  { unfold touched. rewrite fm_split. rewrite I4, <- I3. rewrite !app_assoc. apply Permutation_app_tail. apply Permutation_app_comm. }
  assert (N : NoDup (flat_map cur (g_ws s) ++ order)) by (pose proof (Permutation_NoDup I1 (seq_NoDup n 0)) as N; apply nodup_app in N; tauto).
  split; [symmetry in P; exact (Permutation_NoDup P (all_nodup _ _ I7 N))|]. split.
  { intros x H. apply (Permutation_in _ P) in H. apply in_app_iff in H. assert (L : forall i, In i (flat_map cur (g_ws s) ++ order) -> (i < n)%nat).
    { intros i Hi. assert (S0 : In i (seq 0 n)) by (apply (Permutation_in _ (Permutation_sym I1)); apply in_app_iff; right; exact Hi). apply in_seq in S0. lia. }
    destruct H as [H|H]; [destruct (fm_in_cur _ _ I7 H) as (A & B); split; [apply L; apply in_app_iff; auto|exact B]|].
    apply in_flat_map in H. destruct H as (i & Hi & H). apply in_map_iff in H. destruct H as (k & <- & H). apply in_seq in H. split; cbn; [apply L; apply in_app_iff; auto|lia]. }
  split; [intros x H; apply (Permutation_in _ (Permutation_sym I4)); rewrite I5 in H; apply in_app_iff; right; apply in_app_iff; right; apply in_app_iff; apply in_app_iff in H; destruct H as [H|H]; [right; exact H|left; destruct (g_cl s); try contradiction; exact H]|].
  split; [intros x H; rewrite I5; apply in_app_iff; auto|].
  split; [intros i k H; apply (Permutation_in _ (Permutation_sym I4)); apply in_app_iff; left; apply in_flat_map; exists (WSend i k); split; [exact H|left; reflexivity]|].
  intros x H. apply (Permutation_in _ (Permutation_sym I4)). rewrite H. cbn [infl]. rewrite !in_app_iff. right. right. left. left. reflexivity.
Qed.
End reach.

(** a file that panics is never done *)
Definition pending (g : gst) (i : nat) : Prop := In i (mtodo (g_main g)) \/ exists k, In (WProc i k) (g_ws g) \/ In (WSend i k) (g_ws g).
Lemma pending_step : forall jobs panics g g' i, gstep jobs g g' -> returned panics g' -> panics i = true -> pending g i -> pending g' i.
Proof.
  intros jobs pn g g' i T R P H. unfold pending in *. unfold returned in R.
  assert (M : forall pre w post v, (exists k, In (WProc i k) (pre ++ w :: post) \/ In (WSend i k) (pre ++ w :: post)) -> (forall k, w <> WProc i k /\ w <> WSend i k) -> exists k, In (WProc i k) (pre ++ v :: post) \/ In (WSend i k) (pre ++ v :: post)).
  { intros pre w post v (k & J) N. exists k. rewrite !in_app_iff in *. cbn [In] in *. destruct (N k) as (N1 & N2). destruct J as [[J|[J|J]]|[J|[J|J]]]; try contradiction; auto. }
  destruct T; cbn [g_main g_ws mtodo] in *; try exact H.
  - destruct H as [[<-|H]|H]; [right; exists 0%nat; left; apply in_app_iff; right; left; reflexivity|left; exact H|right; apply (M _ _ _ _ H); split; discriminate].
  - destruct H as [H|H]; [left; exact H|right; apply (M _ _ _ _ H); split; discriminate].
  - destruct H as [H|H]; [left; exact H|right; apply (M _ _ _ _ H); split; discriminate].
  - destruct H as [H|H]; [left; exact H|right]. destruct (Nat.eq_dec i0 i) as [->|N]; [exists k; right; apply in_app_iff; right; left; reflexivity|apply (M _ _ _ _ H); split; congruence].
  - destruct H as [H|H]; [left; exact H|right]. destruct (Nat.eq_dec i0 i) as [->|N]; [exists (S k); left; apply in_app_iff; right; left; reflexivity|apply (M _ _ _ _ H); split; congruence].
  - destruct H as [H|H]; [left; exact H|right]. destruct (Nat.eq_dec i0 i) as [->|N]; [|apply (M _ _ _ _ H); split; congruence].
    rewrite Forall_forall in R. specialize (R (WLock i)). cbn in R. rewrite R in P; [discriminate|]. apply in_app_iff. right. left. reflexivity.
  - destruct H as [H|H]; [left; exact H|right; apply (M _ _ _ _ H); split; discriminate].
  - destruct H as [H|H]; [left; exact H|right; apply (M _ _ _ _ H); split; discriminate].
  - destruct H as [H|H]; [left; exact H|right; apply (M _ _ _ _ H); split; discriminate].
Qed.
Lemma returned_step : forall jobs panics faulty s t, dstep jobs panics faulty s t -> returned panics (d_g s) -> returned panics (d_g t).
Proof.
  intros jobs pn fy s t T R. destruct T as [g g' off d T E1 E2 R'|g g' off d x T E|g off d i k l I L1 L2|g g' off d x T E|g g' off d x l F T E L1 L2]; cbn [d_g] in *; try exact R'; try exact R; unfold returned in *.
  - assert (X : forall l : list (nat * nat), l = l ++ [x] -> False) by (intros l H; apply (f_equal (@List.length _)) in H; rewrite app_length in H; cbn in H; lia).
    destruct T; cbn [g_created g_ws] in *; try (exfalso; exact (X _ E)). apply Forall_app in R. destruct R as (A & B). inversion B; subst. apply Forall_app. split; [exact A|]. constructor; [exact I|assumption].
  - assert (X : forall l : list (nat * nat), l = l ++ [x] -> False) by (intros l H; apply (f_equal (@List.length _)) in H; rewrite app_length in H; cbn in H; lia).
    destruct T; cbn [g_flushed g_ws] in *; try (exfalso; exact (X _ E)). exact R.
  - assert (X : forall l : list (nat * nat), l = l ++ [x] -> False) by (intros l' H; apply (f_equal (@List.length _)) in H; rewrite app_length in H; cbn in H; lia).
    destruct T; cbn [g_flushed g_ws] in *; try (exfalso; exact (X _ E)). exact R.
Qed.
Lemma returned_start : forall panics nfiles nworkers fs0, returned panics (gstart nfiles nworkers fs0).
Proof. intros. unfold returned, gstart. cbn [g_ws]. apply Forall_forall. intros w H. apply repeat_spec in H. subst. exact I. Qed.
Lemma reach_ok : forall jobs panics faulty n m fs0 d0 s, dsteps jobs panics faulty (dstart n m fs0 d0) s ->
  gsteps jobs (gstart n m fs0) (d_g s) /\ ginv jobs n fs0 (d_g s) /\ returned panics (d_g s) /\ (forall i, (i < n)%nat -> panics i = true -> pending (d_g s) i).
Proof.
  intros jobs pn fy n m fs0 d0 s S. pose proof (dsteps_gsteps _ _ _ _ _ S) as G. cbn [dstart d_g] in G. split; [exact G|]. split; [exact (ginv_reach _ _ _ _ _ G)|].
  clear G. remember (dstart n m fs0 d0) as s0 eqn:E. induction S as [s|a b c S IH T].
  - subst. split; [apply returned_start|]. intros i L _. left. cbn [dstart d_g gstart g_main mtodo]. apply in_seq. lia.
  - destruct (IH E) as (R & P). pose proof (returned_step _ _ _ _ _ T R) as R'. split; [exact R'|]. intros i L Q. specialize (P i L Q). destruct T; cbn [d_g] in *; try exact P; eapply pending_step; eassumption.
Qed.
Lemma pending_cur : forall jobs n fs0 g i order, Permutation (seq 0 n) (mtodo (g_main g) ++ flat_map cur (g_ws g) ++ order) -> ginv jobs n fs0 g -> pending g i -> ~ In i order.
Proof.
  intros jobs n fs0 g i order P _ H I. pose proof (Permutation_NoDup P (seq_NoDup n 0)) as N. rewrite app_assoc in N. apply nodup_app in N. destruct N as (_ & _ & N). apply (N i); [|exact I]. apply in_app_iff. destruct H as [H|(k & [H|H])]; [left; exact H| |]; right; apply in_flat_map; [exists (WProc i k)|exists (WSend i k)]; (split; [exact H|left; reflexivity]).
Qed.

(** ** C93 *)
(** The results file at any moment of any run, so also when the program is killed or panics: what it
    held, then the lines of some of the files, each file's lines whole and together and no file
    twice, then some first lines of one more.  Every output of these files has been created.  No
    line is from a file that panics. *)
Theorem C93_results : forall jobs panics faulty nfiles nworkers fs0 d0 s, dsteps jobs panics faulty (dstart nfiles nworkers fs0 d0) s ->
  exists done_ part, g_stats (d_g s) = fs0 ++ flat_map (fun i => j_lines (jobs i)) done_ ++ part /\
    NoDup done_ /\ Forall (fun i => (i < nfiles)%nat /\ panics i = false /\ forall k, (k < List.length (j_outs (jobs i)))%nat -> In (i, k) (g_created (d_g s))) done_ /\
    (part = [] \/ exists i rest, j_lines (jobs i) = part ++ rest /\ ~ In i done_ /\ (i < nfiles)%nat /\ panics i = false /\ forall k, (k < List.length (j_outs (jobs i)))%nat -> In (i, k) (g_created (d_g s))).
Proof.
  intros jobs pn fy n m fs0 d0 s S. destruct (reach_ok _ _ _ _ _ _ _ _ S) as (_ & GI & _ & PE). pose proof GI as GI2. destruct GI as (order & I1 & I2 & I3 & I4 & I5 & I6 & I7 & I8).
  pose proof (Permutation_NoDup I1 (seq_NoDup n 0)) as N. rewrite app_assoc in N. apply nodup_app in N. destruct N as (_ & N & _).
  assert (O : Forall (fun i => (i < n)%nat /\ pn i = false /\ forall k, (k < List.length (j_outs (jobs i)))%nat -> In (i, k) (g_created (d_g s))) order).
  { apply Forall_forall. intros i I. assert (L : (i < n)%nat) by (assert (S0 : In i (seq 0 n)) by (apply (Permutation_in _ (Permutation_sym I1)); rewrite !in_app_iff; auto); apply in_seq in S0; lia).
    split; [exact L|]. split; [destruct (pn i) eqn:Q; [|reflexivity]; destruct (pending_cur _ _ _ _ _ _ I1 GI2 (PE i L Q) I)|].
    intros k K. apply (Permutation_in _ (Permutation_sym I4)). apply in_app_iff. right. apply (Permutation_in _ I3). apply in_app_iff. right. apply in_flat_map. exists i. split; [exact I|]. apply in_map. apply in_seq. lia. }
  destruct (g_locked (d_g s)).
  - destruct I2 as (pre & i & r & dn & W & Oe & J & St). subst order. exists dn, pre. apply nodup_app in N. destruct N as (N1 & _ & N3). apply Forall_app in O. destruct O as (O1 & O2). inversion O2 as [|? ? (A & B & C) _]; subst.
    split; [exact St|]. split; [exact N1|]. split; [exact O1|]. right. exists i, r. split; [exact J|]. split; [intros Q; apply (N3 i Q); left; reflexivity|]. auto.
  - destruct I2 as (_ & St). exists order, []. rewrite app_nil_r. auto.
Qed.

(** the paths of the outputs are all different *)
Definition distinct_paths (jobs : nat -> job) (n : nat) : Prop := forall x y, valid jobs n x -> valid jobs n y -> opath jobs x = opath jobs y -> x = y.
Lemma write_next : forall (t : bytes) off k, 0 <= off -> 0 <= k -> off + k <= zlen t -> write_at off (ztake k (zdrop off t)) (ztake off t) = ztake (off + k) t.
Proof.
  intros t off k H1 H2 H3. pose proof (ztake_zdrop _ off t) as E. assert (L : zlen (ztake off t) = off) by (rewrite zlen_ztake; lia). revert E L. generalize (ztake off t) (zdrop off t). intros a b E L. subst t. unfold write_at.
  rewrite (ztake_all _ a off) by lia. rewrite L. replace (off - off) with 0 by lia. cbn [Z.to_nat repeat app]. rewrite (zdrop_all _ a) by (pose proof (zlen_nonneg _ (ztake k b)); lia). rewrite app_nil_r.
  rewrite ztake_app_ge by lia. replace (off + k - zlen a) with k by lia. reflexivity.
Qed.
Definition dinv (jobs : nat -> job) (faulty : bool) (n : nat) (d0 : disk) (s : dst) : Prop :=
  (forall p, (forall x, valid jobs n x -> opath jobs x <> p) -> d_disk s p = d0 p) /\
  forall x, valid jobs n x ->
    (~ In x (g_created (d_g s)) -> d_disk s (opath jobs x) = d0 (opath jobs x)) /\
    (In x (g_created (d_g s)) -> 0 <= d_off s x <= zlen (otext jobs x) /\ d_disk s (opath jobs x) = Some (ztake (d_off s x) (otext jobs x)) /\
       (faulty = false -> In x (g_flushed (d_g s)) -> d_off s x = zlen (otext jobs x)) /\
       (faulty = false -> zlen (otext jobs x) < bufio_size -> d_off s x = 0 \/ d_off s x = zlen (otext jobs x)) /\
       (~ In x (g_flushed (d_g s)) -> zlen (otext jobs x) < bufio_size -> d_off s x = 0)).
Lemma dset_eq : forall d p b, dset d p b p = Some b.
Proof. intros. unfold dset. destruct (path_dec p p); [reflexivity|congruence]. Qed.
Lemma dset_ne : forall d p b q, p <> q -> dset d p b q = d q.
Proof. intros. unfold dset. destruct (path_dec p q); [congruence|reflexivity]. Qed.
Lemma oset_eq : forall f x v, oset f x v x = v.
Proof. intros. unfold oset. destruct (out_dec x x); [reflexivity|congruence]. Qed.
Lemma oset_ne : forall f x v y, x <> y -> oset f x v y = f y.
Proof. intros. unfold oset. destruct (out_dec x y); [congruence|reflexivity]. Qed.
Lemma snoc_ne : forall A (l : list A) x, l = l ++ [x] -> False.
Proof. intros A l x H. apply (f_equal (@List.length _)) in H. rewrite app_length in H. cbn in H. lia. Qed.
Lemma snoc_inj : forall A (l : list A) x y, l ++ [x] = l ++ [y] -> x = y.
Proof. intros A l x y H. apply app_inv_head in H. congruence. Qed.
Lemma created_snoc : forall jobs g g' x, gstep jobs g g' -> g_created g' = g_created g ++ [x] -> g_flushed g' = g_flushed g.
Proof. intros jobs g g' x T E. destruct T; cbn [g_created g_flushed] in *; try reflexivity; exfalso; exact (snoc_ne _ _ _ E). Qed.
Lemma flushed_snoc : forall jobs g g' x, gstep jobs g g' -> g_flushed g' = g_flushed g ++ [x] -> g_created g' = g_created g /\ g_cl g = CFlush x.
Proof. intros jobs g g' x T E. destruct T; cbn [g_created g_flushed g_cl] in *; try (exfalso; exact (snoc_ne _ _ _ E)). apply snoc_inj in E. subst. split; reflexivity. Qed.
Lemma dinv_step : forall jobs panics faulty n fs0 d0 s t, distinct_paths jobs n -> ginv jobs n fs0 (d_g s) -> ginv jobs n fs0 (d_g t) -> dstep jobs panics faulty s t -> dinv jobs faulty n d0 s -> dinv jobs faulty n d0 t.
Proof.
  intros jobs pn fy n fs0 d0 s t D G1 G2 T (I0 & I1). destruct (created_ok _ _ _ _ G1) as (N1 & V1 & F1 & C1 & W1 & X1). destruct (created_ok _ _ _ _ G2) as (N2 & V2 & F2 & C2 & W2 & X2).
  destruct T as [g g' off d T E1 E2 R'|g g' off d x T E|g off d i k l I L1 L2|g g' off d x T E|g g' off d x l F T E L1 L2]; cbn [d_g d_off d_disk] in *.
  - split; [exact I0|]. intros x V. cbn [d_g d_off d_disk]. rewrite E1, E2. exact (I1 x V).
  - pose proof (created_snoc _ _ _ _ T E) as E2. assert (Vx : valid jobs n x) by (apply V2; rewrite E; apply in_app_iff; right; left; reflexivity).
    assert (Nx : ~ In x (g_created g)) by (rewrite E in N2; apply nodup_app in N2; destruct N2 as (_ & _ & N2); intros C; apply (N2 x C); left; reflexivity).
    split; [intros p H; cbn [d_disk]; rewrite dset_ne by exact (H x Vx); exact (I0 p H)|]. intros y V. cbn [d_g d_off d_disk]. rewrite E, E2. destruct (out_dec x y) as [->|Ne].
    + split; [intros C; exfalso; apply C; apply in_app_iff; right; left; reflexivity|]. intros _. rewrite oset_eq, dset_eq, ztake_0. pose proof (zlen_nonneg _ (otext jobs y)). split; [lia|]. split; [reflexivity|]. split; [intros _ C; destruct (Nx (F1 _ C))|]. split; auto.
    + assert (Np : opath jobs x <> opath jobs y) by (intros C; exact (Ne (D x y Vx V C))). rewrite oset_ne, dset_ne by assumption. destruct (I1 y V) as (A & B). split; [intros C; apply A; intros C2'; apply C; apply in_app_iff; left; exact C2'|]. intros C. apply B. apply in_app_iff in C. destruct C as [C|[C|[]]]; [exact C|congruence].
  - pose proof (W1 _ _ I) as Cx. set (x := (i, k)) in *. pose proof (V1 _ Cx) as Vx. destruct (I1 x Vx) as (_ & B). destruct (B Cx) as (B1 & B2 & B3 & B4 & B5). cbn [d_g d_off d_disk] in *. unfold bufio_size in L1.
    split; [intros p H; unfold dwrite; cbn [d_disk]; rewrite dset_ne by exact (H x Vx); exact (I0 p H)|]. intros y V. cbn [d_g d_off d_disk]. destruct (out_dec x y) as [<-|Ne].
    + split; [intros C; contradiction|]. intros _. rewrite oset_eq. unfold dwrite. rewrite dset_eq, B2, write_next by lia. split; [lia|]. split; [reflexivity|]. split; [intros Fy C; specialize (B3 Fy C); lia|]. unfold bufio_size. split; lia.
    + assert (Np : opath jobs x <> opath jobs y) by (intros C; exact (Ne (D x y Vx V C))). unfold dwrite. rewrite oset_ne, dset_ne by assumption. exact (I1 y V).
  - destruct (flushed_snoc _ _ _ _ T E) as (E2 & Cl). pose proof (X1 _ Cl) as Cx. pose proof (V1 _ Cx) as Vx. destruct (I1 x Vx) as (_ & B). destruct (B Cx) as (B1 & B2 & B3 & B4 & B5). cbn [d_g d_off d_disk] in *.
    split; [intros p H; unfold dwrite; cbn [d_disk]; rewrite dset_ne by exact (H x Vx); exact (I0 p H)|]. intros y V. cbn [d_g d_off d_disk]. rewrite E, E2. destruct (out_dec x y) as [<-|Ne].
    + split; [intros C; contradiction|]. intros _. rewrite oset_eq. unfold dwrite. rewrite dset_eq, B2. pose proof (zlen_nonneg _ (otext jobs x)). split; [lia|]. split.
      { rewrite <- (ztake_all _ (zdrop (off x) (otext jobs x)) (zlen (otext jobs x) - off x)) by (rewrite zlen_zdrop; lia). rewrite write_next by lia. do 2 f_equal. lia. }
      split; [auto|]. split; [auto|]. intros C. exfalso. apply C. apply in_app_iff. right. left. reflexivity.
    + assert (Np : opath jobs x <> opath jobs y) by (intros C; exact (Ne (D x y Vx V C))). unfold dwrite. rewrite oset_ne, dset_ne by assumption. destruct (I1 y V) as (A1 & A2). split; [exact A1|]. intros C. destruct (A2 C) as (Q1 & Q2 & Q3 & Q4 & Q5). split; [exact Q1|]. split; [exact Q2|]. split; [intros Fy Q; apply Q3; [exact Fy|]; apply in_app_iff in Q; destruct Q as [Q|[Q|[]]]; [exact Q|congruence]|]. split; [exact Q4|]. intros Q. apply Q5. intros Q'. apply Q. apply in_app_iff. left. exact Q'.
  - destruct (flushed_snoc _ _ _ _ T E) as (E2 & Cl). pose proof (X1 _ Cl) as Cx. pose proof (V1 _ Cx) as Vx. destruct (I1 x Vx) as (_ & B). destruct (B Cx) as (B1 & B2 & B3 & B4 & B5). cbn [d_g d_off d_disk] in *.
    split; [intros p H; unfold dwrite; cbn [d_disk]; rewrite dset_ne by exact (H x Vx); exact (I0 p H)|]. intros y V. cbn [d_g d_off d_disk]. rewrite E, E2. destruct (out_dec x y) as [<-|Ne].
    + split; [intros C; contradiction|]. intros _. rewrite oset_eq. unfold dwrite. rewrite dset_eq, B2, write_next by lia. split; [lia|]. split; [reflexivity|]. split; [congruence|]. split; [congruence|]. intros C. exfalso. apply C. apply in_app_iff. right. left. reflexivity.
    + assert (Np : opath jobs x <> opath jobs y) by (intros C; exact (Ne (D x y Vx V C))). unfold dwrite. rewrite oset_ne, dset_ne by assumption. destruct (I1 y V) as (A1 & A2). split; [exact A1|]. intros C. destruct (A2 C) as (Q1 & Q2 & Q3 & Q4 & Q5). split; [exact Q1|]. split; [exact Q2|]. split; [congruence|]. split; [congruence|]. intros Q. apply Q5. intros Q'. apply Q. apply in_app_iff. left. exact Q'.
Qed.
Lemma dinv_reach : forall jobs panics faulty n m fs0 d0 s, distinct_paths jobs n -> dsteps jobs panics faulty (dstart n m fs0 d0) s -> dinv jobs faulty n d0 s.
Proof.
  intros jobs pn fy n m fs0 d0 s D S. remember (dstart n m fs0 d0) as s0 eqn:E. revert E. induction S as [s|a b c S IH T]; intros E.
  - subst. split; [reflexivity|]. intros x V. split; [reflexivity|]. intros [].
  - subst a. destruct (reach_ok _ _ _ _ _ _ _ _ S) as (_ & G1 & _). destruct (reach_ok _ _ _ _ _ _ _ _ (dsteps_step _ _ _ _ _ _ S T)) as (_ & G2 & _). exact (dinv_step _ _ _ _ _ _ _ _ D G1 G2 T (IH eq_refl)).
Qed.
(** The output files at any moment of any run: a file is touched only if it is the path of some
    output; one whose turn has not come is as before; one created holds a first part of its text,
    and all of it once flushed.  One shorter than the buffer is empty or whole, so it is empty from
    its creation until it is flushed. *)
Theorem C93_files : forall jobs panics faulty nfiles nworkers fs0 d0 s, distinct_paths jobs nfiles -> dsteps jobs panics faulty (dstart nfiles nworkers fs0 d0) s ->
  (forall p, (forall x, valid jobs nfiles x -> opath jobs x <> p) -> d_disk s p = d0 p) /\
  forall x, valid jobs nfiles x ->
    (~ In x (g_created (d_g s)) -> d_disk s (opath jobs x) = d0 (opath jobs x)) /\
    (In x (g_created (d_g s)) -> exists now later, otext jobs x = now ++ later /\ d_disk s (opath jobs x) = Some now /\
       (zlen (otext jobs x) < bufio_size -> ~ In x (g_flushed (d_g s)) -> now = []) /\
       (faulty = false -> zlen (otext jobs x) < bufio_size -> now = [] \/ later = [])) /\
    (faulty = false -> In x (g_flushed (d_g s)) -> d_disk s (opath jobs x) = Some (otext jobs x)).
Proof.
  intros jobs pn fy n m fs0 d0 s D S. destruct (dinv_reach _ _ _ _ _ _ _ _ D S) as (I0 & I1). destruct (reach_ok _ _ _ _ _ _ _ _ S) as (_ & GI & _). destruct (created_ok _ _ _ _ GI) as (_ & _ & F & _).
  split; [exact I0|]. intros x V. destruct (I1 x V) as (A & B). split; [exact A|]. split.
  - intros C. destruct (B C) as (B1 & B2 & B3 & B4 & B5). exists (ztake (d_off s x) (otext jobs x)), (zdrop (d_off s x) (otext jobs x)). split; [symmetry; apply ztake_zdrop|]. split; [exact B2|]. split.
    + intros L N. rewrite (B5 N L). apply ztake_0.
    + intros Fy L. destruct (B4 Fy L) as [E|E]; rewrite E; [left; apply ztake_0|right; apply zdrop_all; lia].
  - intros Fy C. destruct (B (F _ C)) as (B1 & B2 & B3 & _). rewrite B2, (B3 Fy C), ztake_all by lia. reflexivity.
Qed.
(** when the program ends by itself and no write failed, every output is whole *)
Theorem C93_exit : forall jobs panics nfiles nworkers fs0 d0 s, distinct_paths jobs nfiles -> dsteps jobs panics false (dstart nfiles nworkers fs0 d0) s -> g_main (d_g s) = MExit ->
  (forall x, valid jobs nfiles x -> d_disk s (opath jobs x) = Some (otext jobs x)) /\ (forall p, (forall x, valid jobs nfiles x -> opath jobs x <> p) -> d_disk s p = d0 p) /\
  exists order, Permutation (seq 0 nfiles) order /\ g_stats (d_g s) = fs0 ++ flat_map (fun i => j_lines (jobs i)) order.
Proof.
  intros jobs pn n m fs0 d0 s D S E. destruct (reach_ok _ _ _ _ _ _ _ _ S) as (G & _). destruct (C65_exit _ _ _ _ _ G E) as (O & _ & F & _). destruct (C93_files _ _ _ _ _ _ _ _ D S) as (P & Q). split; [|split; [exact P|exact O]].
  intros x V. destruct (Q x V) as (_ & _ & W). apply W; [reflexivity|]. apply (Permutation_in _ (Permutation_sym F)). apply in_flat_map. exists (fst x). destruct x as [i k]. destruct V as (V1 & V2). cbn [fst snd] in *. split; [apply in_seq; lia|]. apply in_map. apply in_seq. lia.
Qed.

(** *** runs of the disk system *)
Lemma gstep_kind : forall jobs g g', gstep jobs g g' -> (g_created g' = g_created g /\ g_flushed g' = g_flushed g) \/ (exists x, g_created g' = g_created g ++ [x]) \/ (exists x, g_flushed g' = g_flushed g ++ [x]).
Proof. intros jobs g g' T. destruct T; cbn [g_created g_flushed]; eauto. Qed.
(** a step of the goroutines is a step of the program, unless a file panics there *)
Lemma lift_step : forall jobs panics faulty s g', gstep jobs (d_g s) g' -> returned panics (d_g s) -> Forall (wok jobs) (g_ws (d_g s)) -> dies jobs panics s \/ exists t, dstep jobs panics faulty s t /\ d_g t = g'.
Proof.
  intros jobs pn fy s g' T R K. assert (X : returned pn g' \/ dies jobs pn s).
  { unfold returned, dies in *. destruct s as [g off d]. cbn [d_g] in *. clear off d.
    destruct T; cbn [g_ws] in *; try (left; exact R);
      try (left; apply Forall_app in R; destruct R as (R1 & R2); inversion R2; subst; apply Forall_app; split; [exact R1|constructor; [exact Logic.I|assumption]]; fail).
    destruct (pn i) eqn:P.
    - right. exists i, k. split; [apply in_app_iff; right; left; reflexivity|]. split; [|exact P]. rewrite Forall_forall in K. specialize (K (WProc i k)). cbn [wok] in K. assert (In (WProc i k) (pre ++ WProc i k :: post)) as Q by (apply in_app_iff; right; left; reflexivity). specialize (K Q). lia.
    - left. apply Forall_app in R. destruct R as (R1 & R2). inversion R2; subst. apply Forall_app. split; [exact R1|constructor; [exact P|assumption]]. }
  destruct X as [X|X]; [|left; exact X]. destruct s as [g off d]. cbn [d_g] in *. right. destruct (gstep_kind _ _ _ T) as [(E1 & E2)|[(x & E)|(x & E)]].
  - exists (mkD g' off d). split; [apply DPlain; assumption|reflexivity].
  - eexists (mkD g' _ _). split; [eapply DCreate; eassumption|reflexivity].
  - eexists (mkD g' _ _). split; [eapply DFlush; eassumption|reflexivity].
Qed.
Lemma dies_or_exits : forall jobs panics faulty nfiles nworkers fs0 d0 s, (1 <= nworkers)%nat -> dsteps jobs panics faulty (dstart nfiles nworkers fs0 d0) s ->
  exists t, dsteps jobs panics faulty s t /\ (dies jobs panics t \/ g_main (d_g t) = MExit).
Proof.
  intros jobs pn fy n m fs0 d0 s M. remember (d_g s) as g eqn:Eg. revert s Eg. induction g as [g IH] using (well_founded_ind (C65_terminates jobs)). intros s -> S.
  assert (D : g_main (d_g s) = MExit \/ g_main (d_g s) <> MExit) by (destruct (g_main (d_g s)); auto; right; discriminate). destruct D as [D|D]; [exists s; split; [constructor|auto]|].
  destruct (reach_ok _ _ _ _ _ _ _ _ S) as (G & GI & R & _). destruct (C65_no_deadlock _ _ _ _ _ M G D) as (g' & T).
  destruct (lift_step _ pn fy s g' T R ltac:(destruct GI as (? & _ & _ & _ & _ & _ & _ & K & _); exact K)) as [X|(t & X & E)]; [exists s; split; [constructor|auto]|].
  destruct (IH g' T t (eq_sym E) (dsteps_step _ _ _ _ _ _ S X)) as (u & U & V). exists u. split; [|exact V]. exact (dsteps_app _ _ _ _ _ _ (dsteps_step _ _ _ _ _ _ (dsteps_refl _ _ _ s) X) U).
Qed.
(** ** C94 *)
(** as soon as one of the files panics the program does not come to its end: whatever it has done,
    it can only go on to a state where it dies *)
Theorem C94_dies : forall jobs panics faulty nfiles nworkers fs0 d0 i, (1 <= nworkers)%nat -> (i < nfiles)%nat -> panics i = true ->
  forall s, dsteps jobs panics faulty (dstart nfiles nworkers fs0 d0) s ->
  g_main (d_g s) <> MExit /\ (exists t, dsteps jobs panics faulty s t /\ dies jobs panics t) /\ (dies jobs panics s \/ exists t, dstep jobs panics faulty s t).
Proof.
  intros jobs pn fy n m fs0 d0 i M L P. assert (NE : forall s, dsteps jobs pn fy (dstart n m fs0 d0) s -> g_main (d_g s) <> MExit).
  { intros s S E. destruct (reach_ok _ _ _ _ _ _ _ _ S) as (_ & GI & _ & PE). destruct GI as (order & _ & _ & _ & _ & _ & _ & _ & I8). rewrite E in I8. destruct I8 as (A & _). apply alive_nil in A. rewrite Forall_forall in A.
    destruct (PE i L P) as [Q|(k & [Q|Q])]; [rewrite E in Q; destruct Q|apply A in Q; discriminate|apply A in Q; discriminate]. }
  intros s S. split; [exact (NE s S)|]. split.
  - destruct (dies_or_exits _ _ _ _ _ _ _ _ M S) as (t & T & [X|X]); [eauto|]. destruct (NE t (dsteps_app _ _ _ _ _ _ S T) X).
  - destruct (reach_ok _ _ _ _ _ _ _ _ S) as (G & GI & R & _). destruct (C65_no_deadlock _ _ _ _ _ M G (NE s S)) as (g' & T).
    destruct (lift_step _ pn fy s g' T R ltac:(destruct GI as (? & _ & _ & _ & _ & _ & _ & K & _); exact K)) as [X|(t & X & E)]; eauto.
Qed.
(** with no file that panics the program can always go on to its end, and dies nowhere *)
Theorem C94_survives : forall jobs panics faulty nfiles nworkers fs0 d0, (1 <= nworkers)%nat -> (forall i, (i < nfiles)%nat -> panics i = false) ->
  forall s, dsteps jobs panics faulty (dstart nfiles nworkers fs0 d0) s -> ~ dies jobs panics s /\ exists t, dsteps jobs panics faulty s t /\ g_main (d_g t) = MExit.
Proof.
  intros jobs pn fy n m fs0 d0 M P. assert (ND : forall s, dsteps jobs pn fy (dstart n m fs0 d0) s -> ~ dies jobs pn s).
  { intros s S (i & k & I & _ & Q). destruct (reach_ok _ _ _ _ _ _ _ _ S) as (_ & GI & _). destruct GI as (order & I1 & _). rewrite P in Q; [discriminate|]. assert (H : In i (seq 0 n)); [|apply in_seq in H; lia]. apply (Permutation_in _ (Permutation_sym I1)). rewrite !in_app_iff. right. left. apply in_flat_map. exists (WProc i k). split; [exact I|left; reflexivity]. }
  intros s S. split; [exact (ND s S)|]. destruct (dies_or_exits _ _ _ _ _ _ _ _ M S) as (t & T & [X|X]); [|eauto]. destruct (ND t (dsteps_app _ _ _ _ _ _ S T) X).
Qed.
(** no run is endless *)
Definition left_of (jobs : nat -> job) (off : nat * nat -> Z) (w : wpc) : nat := match w with WSend i k => Z.to_nat (zlen (otext jobs (i, k)) - off (i, k)) | _ => 0%nat end.
Lemma left_le : forall jobs off x v ws, off x <= v -> (list_sum (map (left_of jobs (oset off x v)) ws) <= list_sum (map (left_of jobs off) ws))%nat.
Proof.
  intros jobs off x v ws L. induction ws as [|w ws IH]; [reflexivity|]. cbn [map]. rewrite !ls_cons. assert ((left_of jobs (oset off x v) w <= left_of jobs off w)%nat); [|lia]. destruct w as [|i k|i k|i|i r| |]; cbn [left_of]; try lia. destruct (out_dec x (i, k)) as [->|N]; [rewrite oset_eq; lia|rewrite oset_ne by exact N; lia].
Qed.
Lemma left_lt : forall jobs off i k v ws, In (WSend i k) ws -> off (i, k) < v <= zlen (otext jobs (i, k)) -> (list_sum (map (left_of jobs (oset off (i, k) v)) ws) < list_sum (map (left_of jobs off) ws))%nat.
Proof.
  intros jobs off i k v ws I L. apply in_split in I. destruct I as (a & b & ->). rewrite !map_app. cbn [map]. rewrite !list_sum_app, !ls_cons. pose proof (left_le jobs off (i, k) v a ltac:(lia)). pose proof (left_le jobs off (i, k) v b ltac:(lia)). cbn [left_of] in *. rewrite oset_eq. lia.
Qed.
Theorem C94_terminates : forall jobs panics faulty, well_founded (fun t s => dstep jobs panics faulty s t).
Proof.
  intros jobs pn fy. assert (A : forall g N off d, (list_sum (map (left_of jobs off) (g_ws g)) < N)%nat -> Acc (fun t s => dstep jobs pn fy s t) (mkD g off d)).
  { induction g as [g IH] using (well_founded_ind (C65_terminates jobs)). assert (IH' : forall g' off d, gstep jobs g g' -> Acc (fun t s => dstep jobs pn fy s t) (mkD g' off d)) by (intros g' off d T; exact (IH g' T _ off d (Nat.lt_succ_diag_r _))).
    induction N as [|N IN]; intros off d L; [lia|]. constructor. intros t T. inversion T; subst; try (apply IH'; assumption). apply IN. unfold bufio_size in *. pose proof (left_lt jobs off i k (off (i, k) + n) (g_ws g) ltac:(assumption) ltac:(lia)). lia. }
  intros [g off d]. exact (A g _ off d (Nat.lt_succ_diag_r _)).
Qed.

(** *** what goes wrong *)
Lemma dcons : forall jobs panics faulty a b c, dstep jobs panics faulty a b -> dsteps jobs panics faulty b c -> dsteps jobs panics faulty a c.
Proof. intros jobs pn fy a b c A B. exact (dsteps_app _ _ _ _ _ _ (dsteps_step _ _ _ _ _ _ (dsteps_refl _ _ _ a) A) B). Qed.
Section bad.
Variable jobs : nat -> job.
Variable panics : nat -> bool.
Variable faulty : bool.
Notation run := (dsteps jobs panics faulty).
Ltac ret := repeat constructor; try assumption; try (apply Forall_forall; let w := fresh in let H := fresh in intros w H; apply repeat_spec in H; subst; exact Logic.I).
(** the lines of a file are written *)
Lemma run_lines : forall mn i r ws wg fs buf cl cr fd cd off d, returned panics (mkG mn (WIdle :: ws) wg true fs buf cl cr fd cd) -> run (mkD (mkG mn (WWrite i r :: ws) wg true fs buf cl cr fd cd) off d) (mkD (mkG mn (WIdle :: ws) wg false (fs ++ r) buf cl cr fd cd) off d).
Proof.
  intros mn i r ws wg fs buf cl cr fd cd off d R. unfold returned in R. cbn [g_ws] in R. inversion R; subst. revert fs. induction r as [|x r IH]; intros fs.
  - rewrite app_nil_r. eapply dcons; [apply DPlain; [apply (GUnlock jobs mn [])|reflexivity|reflexivity|constructor; [exact I|assumption]]|constructor].
  - eapply dcons; [apply DPlain; [apply (GLine jobs mn [])|reflexivity|reflexivity|constructor; [exact I|assumption]]|]. replace (fs ++ x :: r) with ((fs ++ [x]) ++ r) by (rewrite <- app_assoc; reflexivity). apply IH.
Qed.
(** the outputs of a file are created, and wait in the cleanup channel *)
Lemma run_outs : forall mn i ws wg fs cl cr fd cd off d q k buf, returned panics (mkG mn (WIdle :: ws) wg false fs buf cl cr fd cd) -> panics i = false -> (q + k = List.length (j_outs (jobs i)))%nat -> zlen buf + Z.of_nat q <= cleanup_cap ->
  (forall j, (j < k)%nat -> d (opath jobs (i, j)) = Some []) ->
  exists buf' cr' off' d', run (mkD (mkG mn (WProc i k :: ws) wg false fs buf cl cr fd cd) off d) (mkD (mkG mn (WLock i :: ws) wg false fs buf' cl cr' fd cd) off' d') /\
    (forall j, (j < List.length (j_outs (jobs i)))%nat -> d' (opath jobs (i, j)) = Some []).
Proof.
  intros mn i ws wg fs cl cr fd cd off d q k buf R P. revert cr off d k buf R. induction q as [|q IH]; intros cr off d k buf R E L D.
  - exists buf, cr, off, d. split; [|intros j Lj; apply D; lia]. unfold returned in R. cbn [g_ws] in R. inversion R; subst. eapply dcons; [apply DPlain; [apply (GProcessed jobs mn []); lia|reflexivity|reflexivity|constructor; [exact P|assumption]]|constructor].
  - unfold returned in R. cbn [g_ws] in R. inversion R; subst.
    destruct (IH (cr ++ [(i, k)]) (oset off (i, k) 0) (dset d (opath jobs (i, k)) []) (S k) (buf ++ [(i, k)])) as (b' & c' & o' & d' & S & F).
    + constructor; [exact I|assumption].
    + lia.
    + rewrite zlen_app. change (zlen [(i, k)]) with 1. lia.
    + intros j Lj. destruct (Nat.eq_dec j k) as [->|N]; [apply dset_eq|]. unfold dset. destruct (path_dec _ _); [reflexivity|]. apply D. lia.
    + exists b', c', o', d'. split; [|exact F]. eapply dcons; [eapply DCreate; [apply (GCreate jobs mn []); lia|reflexivity]|]. cbn [app]. eapply dcons; [apply DPlain; [apply (GHand jobs mn []); lia|reflexivity|reflexivity|constructor; [exact I|assumption]]|]. exact S.
Qed.
Lemma run_first : forall n m fs0 d0, panics 0%nat = false -> zlen (j_outs (jobs 0%nat)) <= cleanup_cap ->
  exists wg buf cr off d, run (dstart (S n) (S m) fs0 d0) (mkD (mkG (MSend (seq 1 n)) (WIdle :: repeat WIdle m) wg false (fs0 ++ j_lines (jobs 0%nat)) buf CRecv cr [] []) off d) /\
    (forall j, (j < List.length (j_outs (jobs 0%nat)))%nat -> d (opath jobs (0%nat, j)) = Some []).
Proof.
  intros n m fs0 d0 P L. assert (R : forall lk fs buf cl cr fd cd mn wg, returned panics (mkG mn (WIdle :: repeat WIdle m) wg lk fs buf cl cr fd cd)) by (intros; unfold returned; cbn [g_ws]; ret).
  assert (R0 := R true [] [] CRecv [] [] [] MExit 0). unfold returned in R0. cbn [g_ws] in R0. inversion R0; subst.
  destruct (run_outs (MSend (seq 1 n)) 0 (repeat WIdle m) (Z.of_nat (S m)) fs0 CRecv [] [] [] (fun _ => 0) d0 (List.length (j_outs (jobs 0%nat))) 0 [] ltac:(apply R) P ltac:(lia) ltac:(unfold zlen in *; cbn [List.length]; lia) ltac:(intros; lia)) as (b & c & o & d & RU & F).
  exists (Z.of_nat (S m)), b, c, o, d. split; [|exact F]. unfold dstart, gstart. cbn [seq repeat].
  eapply dcons; [apply DPlain; [apply (GSend jobs 0%nat (seq 1 n) [])|reflexivity|reflexivity|constructor; [exact I|assumption]]|]. cbn [app].
  eapply dsteps_app; [exact RU|]. eapply dcons; [apply DPlain; [apply (GLock jobs _ [])|reflexivity|reflexivity|constructor; [exact I|assumption]]|]. cbn [app]. apply run_lines. apply R.
Qed.
End bad.
(** results.txt lists a file's sheets while their output files are still empty: if the program is
    killed then, what it reports is not there (and an older output of the same path is gone) *)
Theorem C93_reported_unwritten_refuted : forall jobs panics faulty nfiles nworkers fs0 d0, (1 <= nfiles)%nat -> (1 <= nworkers)%nat -> panics 0%nat = false -> zlen (j_outs (jobs 0%nat)) <= 100 ->
  Forall (fun o => zlen (o_data o) < bufio_size) (j_outs (jobs 0%nat)) ->
  exists s, dsteps jobs panics faulty (dstart nfiles nworkers fs0 d0) s /\ g_stats (d_g s) = fs0 ++ j_lines (jobs 0%nat) /\ g_flushed (d_g s) = [] /\
    forall k, (k < List.length (j_outs (jobs 0%nat)))%nat -> d_disk s (opath jobs (0%nat, k)) = Some [].
Proof.
  intros jobs pn fy n m fs0 d0 N M P L _. destruct n as [|n]; [lia|]. destruct m as [|m]; [lia|]. destruct (run_first jobs pn fy n m fs0 d0 P L) as (wg & b & c & o & d & S & F). eexists. split; [exact S|]. split; [reflexivity|]. split; [reflexivity|exact F].
Qed.
(** a panic in the second file: the first is reported, and its outputs are empty for good *)
Theorem C94_reported_empty_refuted : forall jobs panics faulty nfiles nworkers fs0 d0, (2 <= nfiles)%nat -> (1 <= nworkers)%nat -> panics 0%nat = false -> panics 1%nat = true -> j_outs (jobs 1%nat) = [] -> zlen (j_outs (jobs 0%nat)) <= 100 ->
  Forall (fun o => zlen (o_data o) < bufio_size) (j_outs (jobs 0%nat)) ->
  exists s, dsteps jobs panics faulty (dstart nfiles nworkers fs0 d0) s /\ dies jobs panics s /\ g_stats (d_g s) = fs0 ++ j_lines (jobs 0%nat) /\
    forall k, (k < List.length (j_outs (jobs 0%nat)))%nat -> d_disk s (opath jobs (0%nat, k)) = Some [].
Proof.
  intros jobs pn fy n m fs0 d0 N M P P1 O L _. destruct n as [|[|n]]; [lia|lia|]. destruct m as [|m]; [lia|]. destruct (run_first jobs pn fy (S n) m fs0 d0 P L) as (wg & b & c & o & d & S & F). eexists. split.
  - eapply dsteps_step; [exact S|]. cbn [seq]. apply DPlain; [apply (GSend jobs 1%nat (seq 2 n) [])|reflexivity|reflexivity|]. unfold returned. cbn [g_ws app]. constructor; [exact I|]. apply Forall_forall. intros w H. apply repeat_spec in H. subst. exact I.
  - split; [exists 1%nat, 0%nat; split; [left; reflexivity|]; split; [rewrite O; reflexivity|exact P1]|]. split; [reflexivity|exact F].
Qed.
(** a panic in the first file: nothing at all may be left of the others *)
Theorem C94_lost_refuted : forall jobs panics faulty nfiles nworkers fs0 d0, (1 <= nfiles)%nat -> (1 <= nworkers)%nat -> panics 0%nat = true -> j_outs (jobs 0%nat) = [] ->
  exists s, dsteps jobs panics faulty (dstart nfiles nworkers fs0 d0) s /\ dies jobs panics s /\ g_stats (d_g s) = fs0 /\ d_disk s = d0.
Proof.
  intros jobs pn fy n m fs0 d0 N M P O. destruct n as [|n]; [lia|]. destruct m as [|m]; [lia|]. eexists. split.
  - eapply dsteps_step; [constructor|]. unfold dstart, gstart. cbn [seq repeat]. apply DPlain; [apply (GSend jobs 0%nat (seq 1 n) [])|reflexivity|reflexivity|]. unfold returned. cbn [g_ws app]. constructor; [exact I|]. apply Forall_forall. intros w H. apply repeat_spec in H. subst. exact I.
  - split; [exists 0%nat, 0%nat; split; [left; reflexivity|]; split; [rewrite O; reflexivity|exact P]|]. split; reflexivity.
Qed.
Lemma otext_nth : forall jobs i k o, nth_error (j_outs (jobs i)) k = Some o -> opath jobs (i, k) = o_path o /\ otext jobs (i, k) = o_data o.
Proof. intros jobs i k o E. unfold opath, otext, out_of. cbn [fst snd]. rewrite E. split; reflexivity. Qed.
Ltac plain t := apply DPlain; [t|reflexivity|reflexivity|repeat constructor; assumption].
(** Two sheets whose outputs have the same path (C66_collision_refuted): both are created before the
    first is flushed, or not.  In the first case the file holds the second text and then, if the
    first one is longer, the rest of the first; in the second case the second text. *)
Theorem C93_collision_refuted : forall jobs panics faulty fs0 d0 o1 o2, panics 0%nat = false -> j_outs (jobs 0%nat) = [o1; o2] -> o_path o1 = o_path o2 -> zlen (o_data o1) < bufio_size -> zlen (o_data o2) < bufio_size ->
  (exists s, dsteps jobs panics faulty (dstart 1 1 fs0 d0) s /\ g_main (d_g s) = MExit /\ d_disk s (o_path o1) = Some (o_data o2 ++ zdrop (zlen (o_data o2)) (o_data o1))) /\
  (exists s, dsteps jobs panics faulty (dstart 1 1 fs0 d0) s /\ g_main (d_g s) = MExit /\ d_disk s (o_path o1) = Some (o_data o2)).
Proof.
  intros jobs pn fy fs0 d0 o1 o2 P O E _ _. destruct (otext_nth jobs 0 0 o1 ltac:(rewrite O; reflexivity)) as (P1 & T1). destruct (otext_nth jobs 0 1 o2 ltac:(rewrite O; reflexivity)) as (P2 & T2).
  assert (L : List.length (j_outs (jobs 0%nat)) = 2%nat) by (rewrite O; reflexivity).
  assert (R : forall mn lk wg fs buf cl cr fd cd, returned pn (mkG mn [WIdle] wg lk fs buf cl cr fd cd)) by (intros; unfold returned; repeat constructor).
  assert (WA : forall a b : bytes, write_at 0 b a = b ++ zdrop (zlen b) a).
  { intros a b. unfold write_at. rewrite ztake_0. pose proof (zlen_nonneg _ a). replace (Z.to_nat (0 - zlen a)) with 0%nat by lia. reflexivity. }
  split; eexists; split.
  - unfold dstart, gstart. cbn [seq repeat]. eapply dcons; [plain ltac:(apply (GSend jobs 0%nat [] []))|]. cbn [app].
    eapply dcons; [eapply DCreate; [apply (GCreate jobs _ []); lia|reflexivity]|]. cbn [app]. eapply dcons; [plain ltac:(apply (GHand jobs _ []); unfold cleanup_cap, zlen; cbn [List.length app]; lia)|]. cbn [app].
    eapply dcons; [eapply DCreate; [apply (GCreate jobs _ []); lia|reflexivity]|]. cbn [app]. eapply dcons; [plain ltac:(apply (GHand jobs _ []); unfold cleanup_cap, zlen; cbn [List.length app]; lia)|]. cbn [app].
    eapply dcons; [plain ltac:(apply (GProcessed jobs _ []); lia)|]. cbn [app]. eapply dcons; [plain ltac:(apply (GLock jobs _ []))|]. cbn [app]. eapply dsteps_app; [apply run_lines; apply R|].
    eapply dcons; [plain ltac:(apply GCloseNames)|]. eapply dcons; [plain ltac:(apply (GNoMore jobs _ []); exact I)|]. cbn [app]. eapply dcons; [plain ltac:(apply (GFin jobs _ []))|]. cbn [app]. change (Z.of_nat 1 - 1) with 0. eapply dcons; [plain ltac:(apply GWait)|].
    eapply dcons; [plain ltac:(apply GTake)|]. eapply dcons; [eapply DFlush; [apply GFlush|reflexivity]|]. eapply dcons; [plain ltac:(apply GClose)|].
    eapply dcons; [plain ltac:(apply GTake)|]. eapply dcons; [eapply DFlush; [apply GFlush|reflexivity]|]. eapply dcons; [plain ltac:(apply GClose)|].
    eapply dcons; [plain ltac:(apply GDrained; exact I)|]. eapply dcons; [plain ltac:(apply GDone)|]. constructor.
  - split; [reflexivity|]. cbn [d_disk]. rewrite P1, P2, T1, T2. unfold dwrite. rewrite E. rewrite !dset_eq. rewrite oset_ne, oset_eq by discriminate. rewrite oset_ne, oset_eq by discriminate. rewrite !zdrop_0, !WA. rewrite (zdrop_all _ []) by (apply zlen_nonneg). rewrite app_nil_r. reflexivity.
  - unfold dstart, gstart. cbn [seq repeat]. eapply dcons; [plain ltac:(apply (GSend jobs 0%nat [] []))|]. cbn [app].
    eapply dcons; [eapply DCreate; [apply (GCreate jobs _ []); lia|reflexivity]|]. cbn [app]. eapply dcons; [plain ltac:(apply (GHand jobs _ []); unfold cleanup_cap, zlen; cbn [List.length app]; lia)|]. cbn [app].
    eapply dcons; [plain ltac:(apply GTake)|]. eapply dcons; [eapply DFlush; [apply GFlush|reflexivity]|]. eapply dcons; [plain ltac:(apply GClose)|].
    eapply dcons; [eapply DCreate; [apply (GCreate jobs _ []); lia|reflexivity]|]. cbn [app]. eapply dcons; [plain ltac:(apply (GHand jobs _ []); unfold cleanup_cap, zlen; cbn [List.length app]; lia)|]. cbn [app].
    eapply dcons; [plain ltac:(apply (GProcessed jobs _ []); lia)|]. cbn [app]. eapply dcons; [plain ltac:(apply (GLock jobs _ []))|]. cbn [app]. eapply dsteps_app; [apply run_lines; apply R|].
    eapply dcons; [plain ltac:(apply GCloseNames)|]. eapply dcons; [plain ltac:(apply (GNoMore jobs _ []); exact I)|]. cbn [app]. eapply dcons; [plain ltac:(apply (GFin jobs _ []))|]. cbn [app]. change (Z.of_nat 1 - 1) with 0. eapply dcons; [plain ltac:(apply GWait)|].
    eapply dcons; [plain ltac:(apply GTake)|]. eapply dcons; [eapply DFlush; [apply GFlush|reflexivity]|]. eapply dcons; [plain ltac:(apply GClose)|].
    eapply dcons; [plain ltac:(apply GDrained; exact I)|]. eapply dcons; [plain ltac:(apply GDone)|]. constructor.
  - split; [reflexivity|]. cbn [d_disk]. rewrite P1, P2, T1, T2. unfold dwrite. rewrite E. rewrite !dset_eq. rewrite oset_eq. rewrite !zdrop_0, !WA. rewrite (zdrop_all _ []) by (apply zlen_nonneg). rewrite app_nil_r. reflexivity.
Qed.
(** a full disk is not noticed: the program ends as usual, the sheet is reported as written, and
    its file is empty *)
Theorem C93_write_errors_refuted : forall jobs panics fs0 d0 o, panics 0%nat = false -> j_outs (jobs 0%nat) = [o] ->
  exists s, dsteps jobs panics true (dstart 1 1 fs0 d0) s /\ g_main (d_g s) = MExit /\ g_stats (d_g s) = fs0 ++ j_lines (jobs 0%nat) /\ d_disk s (o_path o) = Some [].
Proof.
  intros jobs pn fs0 d0 o P O. destruct (otext_nth jobs 0 0 o ltac:(rewrite O; reflexivity)) as (P1 & T1).
  assert (L : List.length (j_outs (jobs 0%nat)) = 1%nat) by (rewrite O; reflexivity).
  assert (R : forall mn lk wg fs buf cl cr fd cd, returned pn (mkG mn [WIdle] wg lk fs buf cl cr fd cd)) by (intros; unfold returned; repeat constructor).
  eexists; split.
  - unfold dstart, gstart. cbn [seq repeat]. eapply dcons; [plain ltac:(apply (GSend jobs 0%nat [] []))|]. cbn [app].
    eapply dcons; [eapply DCreate; [apply (GCreate jobs _ []); lia|reflexivity]|]. cbn [app]. eapply dcons; [plain ltac:(apply (GHand jobs _ []); unfold cleanup_cap, zlen; cbn [List.length app]; lia)|]. cbn [app].
    eapply dcons; [plain ltac:(apply (GProcessed jobs _ []); lia)|]. cbn [app]. eapply dcons; [plain ltac:(apply (GLock jobs _ []))|]. cbn [app]. eapply dsteps_app; [apply run_lines; apply R|].
    eapply dcons; [plain ltac:(apply GCloseNames)|]. eapply dcons; [plain ltac:(apply (GNoMore jobs _ []); exact I)|]. cbn [app]. eapply dcons; [plain ltac:(apply (GFin jobs _ []))|]. cbn [app]. change (Z.of_nat 1 - 1) with 0. eapply dcons; [plain ltac:(apply GWait)|].
    eapply dcons; [plain ltac:(apply GTake)|]. eapply dcons; [eapply (DFail _ _ _ _ _ _ _ _ 0); [reflexivity|apply GFlush|reflexivity|lia|rewrite oset_eq; apply zlen_nonneg]|]. eapply dcons; [plain ltac:(apply GClose)|].
    eapply dcons; [plain ltac:(apply GDrained; exact I)|]. eapply dcons; [plain ltac:(apply GDone)|]. constructor.
  - split; [reflexivity|]. split; [reflexivity|]. cbn [d_disk]. rewrite P1. unfold dwrite. rewrite !dset_eq, oset_eq. reflexivity.
Qed.

(** ** examples *)
(** a workbook with two sheets that share a path *)
Definition ex_two : gbook := mkBook (Ok [bs "a b"; bs "a-b"]) (fun s => Ok (mkSheet false (if str_eqb s (bs "a b") then [[bs "first"; bs "row"]] else [[bs "x"]]))).
Definition ex_open (fn : gostr) : res gbook := if str_eqb fn (bs "bad.xls") then Panic else Ok ex_two.
Definition ex_md5 (s : gostr) : gostr := bs "d41d8cd98f00b204e9800998ecf8427e".
Definition ex_names (i : nat) : gostr := match i with O => bs "f.xls" | _ => bs "bad.xls" end.
Definition ex_jobs (i : nat) : job := tsv_job ex_md5 (fun _ => None) default_flags ex_open (fun _ => bs "e") (bs "now") (ex_names i).
Definition ex_panics (i : nat) : bool := tsv_panics ex_md5 (fun _ => None) default_flags ex_open (ex_names i).
Example ex_C93_collision : exists o1 o2, j_outs (ex_jobs 0) = [o1; o2] /\ ex_panics 0 = false /\ o_path o1 = bs "results/d4/1d/f.a_b.tsv" /\ o_path o2 = o_path o1 /\
  o_data o1 = bs "first" ++ [9] ++ bs "row" ++ [10] /\ o_data o2 = bs "x" ++ [10] /\ o_data o2 ++ zdrop (zlen (o_data o2)) (o_data o1) = bs "x" ++ [10] ++ bs "rst" ++ [9] ++ bs "row" ++ [10].
Proof. do 2 eexists. split; [reflexivity|]. repeat split; reflexivity. Qed.
Example ex_C94 : ex_panics 0 = false /\ ex_panics 1 = true /\ j_outs (ex_jobs 1) = [] /\ List.length (j_lines (ex_jobs 0)) = 2%nat.
Proof. repeat split; reflexivity. Qed.
(** two files with one output each *)
Definition ex_two_jobs (i : nat) : job := match i with O => mkJob [mkOut (bs "p") (bs "text")] [bs "line"] | _ => mkJob [mkOut (bs "q") (bs "other")] [bs "line 2"] end.
Example ex_C93 : distinct_paths ex_two_jobs 2 /\ exists s, dsteps ex_two_jobs (fun _ => false) false (dstart 2 3 [stats_header] (fun _ => None)) s /\ g_main (d_g s) = MExit /\ d_disk s (bs "q") = Some (bs "other").
Proof.
  assert (D : distinct_paths ex_two_jobs 2).
  { intros [i k] [j l] (V1 & V2) (W1 & W2) E. cbn [fst snd] in *. destruct i as [|[|]]; [| |lia]; (destruct j as [|[|]]; [| |lia]); cbn in V2, W2; (destruct k; [|lia]); (destruct l; [|lia]); try reflexivity; cbn in E; discriminate E. }
  split; [exact D|]. destruct (C94_survives ex_two_jobs (fun _ => false) false 2 3 [stats_header] (fun _ => None) ltac:(lia) (fun _ _ => eq_refl) _ (dsteps_refl _ _ _ _)) as (_ & s & S & E). exists s. split; [exact S|]. split; [exact E|].
  destruct (C93_exit _ _ _ _ _ _ _ D S E) as (A & _). apply (A (1, 0)%nat). split; cbn; lia.
Qed.

Print Assumptions C93_results.
Print Assumptions C93_files.
Print Assumptions C93_exit.
Print Assumptions C93_reported_unwritten_refuted.
Print Assumptions C93_collision_refuted.
Print Assumptions C93_write_errors_refuted.
Print Assumptions C94_dies.
Print Assumptions C94_survives.
Print Assumptions C94_terminates.
Print Assumptions C94_reported_empty_refuted.
Print Assumptions C94_lost_refuted.
