(** * P_outpool: property C102, the pooled outputs of grate2tsv *)
From Verif Require Import GoBase L_base M_tsv M_outpool P_tsv P_crash.
From Coq Require Import Lia ZifyBool ZifyNat Permutation.

(** ** who has a struct *)
Definition full (h : oheap) (a : nat) (x : nat * nat) : Prop := h a = mkOb (Some x) (Some x).
Definition waddr (w : pw) : list nat := match w with PGot _ _ a | PSet _ _ a | PFull _ _ a | PRows _ _ a _ => [a] | _ => [] end.
Definition caddr (c : pcl) : list nat := match c with PcFlush a | PcClose a | PcPut a => [a] | _ => [] end.
Definition held (s : pst) : list nat := flat_map waddr (p_ws s) ++ p_buf s ++ caddr (p_cl s) ++ p_free s.
(** ** the corresponding state of M_tsv *)
Definition wrel (h : oheap) (p : pw) (w : wpc) : Prop :=
  match p with
  | PPlain v => w = v /\ (forall i k, v <> WSend i k)
  | PFile i k => w = WSend i k
  | PGot i k a => w = WSend i k
  | PSet i k a => w = WSend i k /\ ob_f (h a) = Some (i, k)
  | PFull i k a => w = WSend i k /\ full h a (i, k)
  | PRows i k a x => w = WSend i k /\ full h a (i, k) /\ x = (i, k)
  end.
Definition crel (h : oheap) (p : pcl) (c : cpc) : Prop :=
  match p with
  | PcRecv => c = CRecv
  | PcFlush a => exists x, c = CFlush x /\ full h a x
  | PcClose a => exists x, c = CClose x /\ full h a x
  | PcPut _ => c = CRecv
  | PcDone => c = CDone
  | PcEnd => c = CEnd
  end.
Record prel (s : pst) (g : gst) : Prop := mkRel {
  r_main : g_main g = p_main s; r_ws : Forall2 (wrel (p_heap s)) (p_ws s) (g_ws g); r_wg : g_wg g = p_wg s; r_locked : g_locked g = p_locked s; r_stats : g_stats g = p_stats s;
  r_buf : Forall2 (full (p_heap s)) (p_buf s) (g_buf g); r_cl : crel (p_heap s) (p_cl s) (g_cl g);
  r_created : g_created g = p_created s; r_flushed : g_flushed g = p_flushed s; r_closed : g_closed g = p_closed s;
  r_once : forall a, (count_occ Nat.eq_dec (held s) a <= 1)%nat; r_below : forall a, (p_next s <= a)%nat -> count_occ Nat.eq_dec (held s) a = 0%nat }.

Lemma oput_same : forall h a o, oput h a o a = o.
Proof. intros. unfold oput. rewrite Nat.eqb_refl. reflexivity. Qed.
Lemma oput_other : forall h a o b, a <> b -> oput h a o b = h b.
Proof. intros. unfold oput. destruct (Nat.eqb_spec a b); congruence. Qed.
Lemma full_other : forall h a o b x, a <> b -> full h b x -> full (oput h a o) b x.
Proof. unfold full. intros. rewrite oput_other; assumption. Qed.
Lemma buf_other : forall h a o buf g, ~ In a buf -> Forall2 (full h) buf g -> Forall2 (full (oput h a o)) buf g.
Proof. intros h a o buf g N F. induction F as [|b x buf g E F IH]; constructor; [apply full_other; [intros ->; apply N; left; reflexivity|exact E]|apply IH; intros I; apply N; right; exact I]. Qed.
Lemma wrel_other : forall h a o p w, ~ In a (waddr p) -> wrel h p w -> wrel (oput h a o) p w.
Proof.
  intros h a o p w N R. destruct p as [v|i k|i k b|i k b|i k b|i k b x]; cbn [wrel waddr] in *; auto; try (rewrite oput_other; [exact R|intros ->; apply N; left; reflexivity]).
  - destruct R as (A & B). split; [exact A|]. apply full_other; [intros ->; apply N; left; reflexivity|exact B].
  - destruct R as (A & B & C). split; [exact A|]. split; [|exact C]. apply full_other; [intros ->; apply N; left; reflexivity|exact B].
Qed.
Lemma ws_other : forall h a o ps ws, ~ In a (flat_map waddr ps) -> Forall2 (wrel h) ps ws -> Forall2 (wrel (oput h a o)) ps ws.
Proof. intros h a o ps ws N F. induction F as [|p w ps ws E F IH]; constructor; cbn [flat_map] in N; rewrite in_app_iff in N; [apply wrel_other; tauto|apply IH; tauto]. Qed.
Lemma cl_other : forall h a o p c, ~ In a (caddr p) -> crel h p c -> crel (oput h a o) p c.
Proof.
  intros h a o p c N R. destruct p as [|b|b|b| |]; cbn [crel caddr] in *; auto; destruct R as (x & A & B); exists x; (split; [exact A|]); apply full_other; auto; intros ->; apply N; left; reflexivity.
Qed.
Lemma f2len : forall A B (R : A -> B -> Prop) l m, Forall2 R l m -> List.length l = List.length m.
Proof. intros A B R l m F. induction F; cbn; congruence. Qed.
Lemma cnt0 : forall l a, count_occ Nat.eq_dec l a = 0%nat -> ~ In a l.
Proof. intros l a E. apply (count_occ_not_In Nat.eq_dec). exact E. Qed.
Lemma cnt1 : forall a, count_occ Nat.eq_dec [a] a = 1%nat.
Proof. intros. cbn. destruct (Nat.eq_dec a a); congruence. Qed.

Lemma prel_start : forall n m fs0, prel (pstart n m fs0) (gstart n m fs0).
Proof.
  intros n m fs0.
  assert (Z0 : flat_map waddr (repeat (PPlain WIdle) m) = []) by (induction m; cbn; auto).
  constructor; cbn [pstart gstart p_main p_ws p_wg p_locked p_stats p_buf p_cl p_created p_flushed p_closed p_heap p_next p_free g_main g_ws g_wg g_locked g_stats g_buf g_cl g_created g_flushed g_closed crel held]; auto.
  - induction m; cbn; constructor; auto. cbn. split; [reflexivity|]. intros; discriminate.
  - intros a. unfold held. cbn. rewrite Z0. cbn. lia.
  - intros a _. unfold held. cbn. rewrite Z0. reflexivity.
Qed.

Ltac psimp := cbn [p_main p_ws p_wg p_locked p_stats p_buf p_cl p_created p_flushed p_closed p_heap p_next p_free g_main g_ws g_wg g_locked g_stats g_buf g_cl g_created g_flushed g_closed] in *.
Ltac hsimp := unfold held in *; psimp; rewrite ?fm_cons in *; cbn [waddr caddr app] in *.
(** counting: a struct moves from one place to another *)
Ltac atmost O := let b := fresh "b" in intros b; specialize (O b); hsimp; cnt_norm; lia.
Ltac below O := let b := fresh "b" in let L := fresh "L" in intros b L; specialize (O b); psimp; try specialize (O L); hsimp; cnt_norm; lia.
Ltac split_ws W := apply Forall2_app_inv_l in W; let gpre := fresh "gpre" in let grest := fresh "grest" in let Wa := fresh "Wa" in let Wb := fresh "Wb" in
  destruct W as (gpre & grest & Wa & Wb & ->); inversion Wb as [|? ?gw ? ?gpost ?Wc ?Wd]; subst; clear Wb.

(** what is left of the steps that are none of M_tsv's *)
Definition wstage (p : pw) : nat := match p with PFile _ _ => 5 | PGot _ _ _ => 3 | PSet _ _ _ => 2 | PFull _ _ _ => 1 | _ => 0 end.
Definition cstage (c : pcl) : nat := match c with PcPut _ => 2 | _ => 0 end.
Definition pstage (s : pst) : nat := (list_sum (map wstage (p_ws s)) + cstage (p_cl s) + List.length (p_free s))%nat.
Ltac stg := unfold pstage; psimp; rewrite ?map_app; cbn [map]; rewrite ?list_sum_app, ?app_length, ?ls_cons; cbn [wstage cstage List.length]; lia.

Section sim.
Variable jobs : nat -> job.
(** one step is one step of M_tsv, or none *)
Lemma prel_step : forall s t g, pstep jobs s t -> prel s g -> (prel t g /\ (pstage t < pstage s)%nat) \/ exists g', gstep jobs g g' /\ prel t g'.
Proof.
  intros s t g T [R1 R2 R3 R4 R5 R6 R7 R8 R9 R10 R11 R12]. destruct g as [gm gws gwg glk gfs gbuf gcl gcr gfd gcd].
  destruct T; psimp; subst.
  - (* PSend *) split_ws R2. destruct Wc as (-> & _). right. eexists. split; [apply GSend|]. constructor; psimp; auto; [|atmost R11|below R12]. apply Forall2_app; [assumption|constructor; [cbn; split; [reflexivity|intros; discriminate]|assumption]].
  - right. eexists. split; [apply GCloseNames|]. constructor; psimp; auto.
  - right. eexists. split; [apply GWait|]. constructor; psimp; auto.
  - cbn [crel] in R7. subst. right. eexists. split; [apply GDone|]. constructor; psimp; auto; reflexivity.
  - split_ws R2. destruct Wc as (-> & _). right. eexists. split; [apply GNoMore; assumption|]. constructor; psimp; auto; [|atmost R11|below R12]. apply Forall2_app; [assumption|constructor; [cbn; split; [reflexivity|intros; discriminate]|assumption]].
  - split_ws R2. destruct Wc as (-> & _). right. eexists. split; [apply GFin|]. constructor; psimp; auto; [|atmost R11|below R12]. apply Forall2_app; [assumption|constructor; [cbn; split; [reflexivity|intros; discriminate]|assumption]].
  - split_ws R2. destruct Wc as (-> & _). right. eexists. split; [apply GProcessed; assumption|]. constructor; psimp; auto; [|atmost R11|below R12]. apply Forall2_app; [assumption|constructor; [cbn; split; [reflexivity|intros; discriminate]|assumption]].
  - split_ws R2. destruct Wc as (-> & _). right. eexists. split; [apply GLock|]. constructor; psimp; auto; [|atmost R11|below R12]. apply Forall2_app; [assumption|constructor; [cbn; split; [reflexivity|intros; discriminate]|assumption]].
  - split_ws R2. destruct Wc as (-> & _). right. eexists. split; [apply GLine|]. constructor; psimp; auto; [|atmost R11|below R12]. apply Forall2_app; [assumption|constructor; [cbn; split; [reflexivity|intros; discriminate]|assumption]].
  - split_ws R2. destruct Wc as (-> & _). right. eexists. split; [apply GUnlock|]. constructor; psimp; auto; [|atmost R11|below R12]. apply Forall2_app; [assumption|constructor; [cbn; split; [reflexivity|intros; discriminate]|assumption]].
  - (* PCreate *) split_ws R2. destruct Wc as (-> & _). right. eexists. split; [apply GCreate; assumption|]. constructor; psimp; auto; [|atmost R11|below R12]. apply Forall2_app; [assumption|constructor; [reflexivity|assumption]].
  - (* PGetOld *) split_ws R2. cbn [wrel] in Wc. subst. left. split; [|stg]. constructor; psimp; auto; [|atmost R11|below R12]. apply Forall2_app; [assumption|constructor; [reflexivity|assumption]].
  - (* PGetNew *) pose proof (R12 n ltac:(psimp; lia)) as N. hsimp. cnt_norm. split_ws R2. cbn [wrel] in Wc. subst. left. split; [|stg].
    constructor; psimp; auto.
    + apply Forall2_app; [apply ws_other; [apply cnt0; lia|assumption]|constructor; [reflexivity|apply ws_other; [apply cnt0; lia|assumption]]].
    + apply buf_other; [apply cnt0; lia|assumption].
    + apply cl_other; [apply cnt0; lia|assumption].
    + intros b. specialize (R11 b). hsimp. cnt_norm. destruct (Nat.eq_dec n b) as [<-|D]; [rewrite cnt1; lia|]. assert (Z1 : count_occ Nat.eq_dec [n] b = 0%nat) by (cbn; destruct (Nat.eq_dec n b); congruence). lia.
    + intros b L. assert (D : n <> b) by lia. specialize (R12 b ltac:(lia)). hsimp. cnt_norm. assert (Z1 : count_occ Nat.eq_dec [n] b = 0%nat) by (cbn; destruct (Nat.eq_dec n b); congruence). lia.
  - (* PSetF *) pose proof (R11 a) as N. hsimp. cnt_norm. rewrite cnt1 in N. split_ws R2. cbn [wrel] in Wc. subst. left. split; [|stg].
    constructor; psimp; auto; [| | |atmost R11|below R12].
    + apply Forall2_app; [apply ws_other; [apply cnt0; lia|assumption]|constructor; [cbn; rewrite oput_same; auto|apply ws_other; [apply cnt0; lia|assumption]]].
    + apply buf_other; [apply cnt0; lia|assumption].
    + apply cl_other; [apply cnt0; lia|assumption].
  - (* PSetB *) pose proof (R11 a) as N. hsimp. cnt_norm. rewrite cnt1 in N. split_ws R2. destruct Wc as (-> & Ef). left. split; [|stg].
    constructor; psimp; auto; [| | |atmost R11|below R12].
    + apply Forall2_app; [apply ws_other; [apply cnt0; lia|assumption]|constructor; [cbn; unfold full; rewrite oput_same, Ef; auto|apply ws_other; [apply cnt0; lia|assumption]]].
    + apply buf_other; [apply cnt0; lia|assumption].
    + apply cl_other; [apply cnt0; lia|assumption].
  - (* PWriter *) split_ws R2. destruct Wc as (-> & Ef). left. split; [|stg]. constructor; psimp; auto; [|atmost R11|below R12].
    apply Forall2_app; [assumption|constructor; [|assumption]]. cbn [wrel]. split; [reflexivity|]. split; [exact Ef|]. rewrite Ef in H. cbn in H. congruence.
  - (* PHand *) split_ws R2. destruct Wc as (-> & Ef & Ew). right. eexists. split; [apply GHand|].
    { unfold zlen in *. rewrite <- (f2len _ _ _ _ _ R6). assumption. }
    constructor; psimp; auto; [| |atmost R11|below R12].
    + apply Forall2_app; [assumption|constructor; [cbn; split; [reflexivity|intros; discriminate]|assumption]].
    + apply Forall2_app; [assumption|constructor; [exact Ef|constructor]].
  - (* PTake *) cbn [crel] in R7. subst. inversion R6 as [|? x ? gb Ex Fb]; subst. right. eexists. split; [apply GTake|]. constructor; psimp; auto; [|atmost R11|below R12]. exists x. auto.
  - (* PFlush *) destruct R7 as (y & -> & Ey). rewrite Ey in H. cbn in H. injection H as ->. right. eexists. split; [apply GFlush|]. constructor; psimp; auto. exists x. auto.
  - (* PClose *) destruct R7 as (y & -> & Ey). rewrite Ey in H. cbn in H. injection H as ->. right. eexists. split; [apply GClose|]. constructor; psimp; auto. reflexivity.
  - (* PPut *) cbn [crel] in R7. subst. left. split; [|stg]. constructor; psimp; auto; reflexivity.
  - (* PDrained *) cbn [crel] in R7. subst. inversion R6; subst. right. eexists. split; [apply GDrained; assumption|]. constructor; psimp; auto. reflexivity.
  - (* PLose *) left. split; [|stg]. constructor; psimp; auto; [atmost R11|below R12].
Qed.
Lemma prel_run : forall n m fs0 s, psteps jobs (pstart n m fs0) s -> exists g, gsteps jobs (gstart n m fs0) g /\ prel s g.
Proof.
  intros n m fs0 s S. remember (pstart n m fs0) as s0 eqn:E. induction S as [s|a b c S IH T]; [subst; exists (gstart n m fs0); split; [constructor|apply prel_start]|].
  destruct (IH E) as (g & G & R). destruct (prel_step _ _ _ T R) as [(R' & _)|(g' & G' & R')]; [exists g; auto|]. exists g'. split; [exact (gsteps_step jobs _ _ _ G G')|exact R'].
Qed.

(** ** some goroutine can go on *)
Definition plain (p : pw) : Prop := match p with PPlain _ => True | _ => False end.
Lemma plain_dec : forall ps, Forall plain ps \/ exists pre p post, ps = pre ++ p :: post /\ ~ plain p.
Proof.
  induction ps as [|p ps [F|(pre & q & post & -> & N)]]; [left; constructor| |right; exists (p :: pre), q, post; auto].
  destruct p; [left; constructor; [exact I|exact F]|right; eexists [], _, ps; split; [reflexivity|]; intros []..].
Qed.
Lemma plain_ws : forall h ps ws, Forall plain ps -> Forall2 (wrel h) ps ws -> ps = map PPlain ws.
Proof. intros h ps ws P F. induction F as [|p w ps ws E F IH]; [reflexivity|]. inversion P as [|? ? A B]; subst. destruct p; try contradiction. destruct E as (-> & _). cbn. f_equal. apply IH. exact B. Qed.
Lemma prel_go : forall n0 fs0 s g g', ginv jobs n0 fs0 g -> prel s g -> gstep jobs g g' -> exists t, pstep jobs s t.
Proof.
  intros n0 fs0 s g g' IV [R1 R2 R3 R4 R5 R6 R7 R8 R9 R10 R11 R12] T. destruct s as [m ps wg lk fs buf cl cr fd cd h n fr]. psimp.
  assert (CL : forall c, g_cl g = c -> match c with CRecv => cl = PcRecv \/ exists t, pstep jobs (mkP m ps wg lk fs buf cl cr fd cd h n fr) t | CFlush _ | CClose _ => exists t, pstep jobs (mkP m ps wg lk fs buf cl cr fd cd h n fr) t | CDone => cl = PcDone | CEnd => True end).
  { intros c E. rewrite E in R7. destruct cl; cbn [crel] in R7; subst; auto.
    - destruct R7 as (x0 & -> & Ef). eexists. apply (PFlush jobs _ _ _ _ _ _ x0). rewrite Ef. reflexivity.
    - destruct R7 as (x0 & -> & Ef). eexists. apply (PClose jobs _ _ _ _ _ _ x0). rewrite Ef. reflexivity.
    - right. eexists. apply PPut. }
  destruct (plain_dec ps) as [P|(pre & p & post & -> & N)].
  - pose proof (plain_ws _ _ _ P R2) as E. subst ps.
    assert (NS : forall i k, ~ In (WSend i k) (g_ws g)).
    { clear - R2. induction (g_ws g) as [|w ws IH]; intros i k; [intros []|]. inversion R2 as [|? ? ? ? A B]; subst. destruct A as (_ & A). intros [->|H]; [exact (A _ _ eq_refl)|exact (IH B _ _ H)]. }
    clear P R2 R7 R11 R12.
    destruct T; psimp; subst; try (rewrite map_app in *; cbn [map] in * ).
    + eexists; apply PSend.
    + eexists; apply PCloseNames.
    + eexists; apply PWait.
    + specialize (CL _ eq_refl). cbn in CL. subst cl. eexists; apply PDone.
    + eexists; apply PNoMore; assumption.
    + eexists; apply PFin.
    + eexists; apply PCreate; assumption.
    + exfalso. apply (NS i k). apply in_app_iff. right. left. reflexivity.
    + eexists; apply PProcessed; assumption.
    + eexists; apply PLock.
    + eexists; apply PLine.
    + eexists; apply PUnlock.
    + destruct (CL _ eq_refl) as [->|G]; [|exact G]. inversion R6; subst. eexists; apply PTake.
    + exact (CL _ eq_refl).
    + exact (CL _ eq_refl).
    + destruct (CL _ eq_refl) as [->|G]; [|exact G]. inversion R6; subst. eexists; apply PDrained; assumption.
  - apply Forall2_app_inv_l in R2. destruct R2 as (gpre & grest & Wa & Wb & E). inversion Wb as [|? gw ? gpost Wc Wd]; subst.
    destruct p as [v|i k|i k a|i k a|i k a|i k a x]; [exfalso; apply N; exact I|eexists; apply PGetNew|eexists; apply PSetF|eexists; apply PSetB| |].
    + destruct Wc as (_ & Ef). eexists. apply PWriter. rewrite Ef. reflexivity.
    + destruct (Z.lt_ge_cases (zlen buf) cleanup_cap) as [L|L]; [eexists; apply PHand; exact L|].
      destruct Wc as (-> & _). destruct IV as (order & _ & _ & _ & _ & _ & _ & _ & I8). rewrite E, fm_cons in I8.
      assert (AL : flat_map alive gpre ++ alive (WSend i k) ++ flat_map alive gpost <> []) by (intros A; apply app_eq_nil in A; destruct A as (_ & A); discriminate).
      assert (CN : g_cl g <> CDone /\ g_cl g <> CEnd) by (destruct (g_main g); tauto).
      specialize (CL _ eq_refl). destruct (g_cl g); try (exact CL); try (destruct CN; congruence).
      destruct CL as [->|G]; [|exact G]. destruct buf as [|b buf]; [unfold zlen, cleanup_cap in L; cbn in L; lia|]. eexists. apply PTake.
Qed.

(** ** C102 *)
(** the commands of C65, with pooled outputs: every run shows the same files created, flushed and
    closed and the same results file as a run of M_tsv, so C65 and C93 hold of it *)
Theorem C102_refines : forall nfiles nworkers fs0 s, psteps jobs (pstart nfiles nworkers fs0) s ->
  exists g, gsteps jobs (gstart nfiles nworkers fs0) g /\ g_main g = p_main s /\ g_stats g = p_stats s /\ g_created g = p_created s /\ g_flushed g = p_flushed s /\ g_closed g = p_closed s.
Proof. intros n m fs0 s S. destruct (prel_run _ _ _ _ S) as (g & G & [R1 R2 R3 R4 R5 R6 R7 R8 R9 R10 R11 R12]). exists g. auto 10. Qed.
(** at any moment, under every schedule and whatever the pool returns or loses: a worker writes the
    rows of an output to the writer of that output; the struct the clean-up goroutine has got holds
    the file and the writer of one and the same output, that was created, and no worker writes to it
    any more; nobody else has got this struct, neither a worker nor the pool; and no struct is in use
    without file or writer *)
Theorem C102_own : forall nfiles nworkers fs0 s, psteps jobs (pstart nfiles nworkers fs0) s ->
  (forall i k a w, In (PRows i k a w) (p_ws s) -> w = (i, k)) /\
  (forall a, p_cl s = PcFlush a \/ p_cl s = PcClose a ->
     exists x, ob_b (p_heap s a) = Some x /\ ob_f (p_heap s a) = Some x /\ In x (p_created s) /\ ~ In x (p_closed s) /\
       (forall i k b w, In (PRows i k b w) (p_ws s) -> w <> x /\ b <> a) /\ ~ In a (p_free s) /\ ~ In a (p_buf s)) /\
  ~ pnil s.
Proof.
  intros n m fs0 s S. destruct (prel_run _ _ _ _ S) as (g & G & [R1 R2 R3 R4 R5 R6 R7 R8 R9 R10 R11 R12]). pose proof (ginv_reach _ _ _ _ _ G) as IV.
  assert (W : forall i k a w, In (PRows i k a w) (p_ws s) -> w = (i, k) /\ In (WSend i k) (g_ws g)).
  { intros i k a w H. clear - R2 H. induction R2 as [|p v ps ws E F IH]; [destruct H|]. destruct H as [->|H]; [destruct E as (-> & _ & ->); cbn; auto|destruct (IH H); cbn; auto]. }
  split; [intros i k a w H; exact (proj1 (W _ _ _ _ H))|].
  assert (C : forall a, p_cl s = PcFlush a \/ p_cl s = PcClose a -> exists x, full (p_heap s) a x /\ infl (g_cl g) = [x]).
  { intros a [E|E]; rewrite E in R7; destruct R7 as (x & -> & Ex); exists x; auto. }
  split.
  - intros a E. destruct (C a E) as (x & Ex & Ec). exists x. rewrite Ex. split; [reflexivity|]. split; [reflexivity|].
    destruct (created_ok jobs n fs0 g IV) as (ND & _). destruct IV as (order & _ & _ & _ & I4 & _). pose proof (Permutation_NoDup I4 ND) as N2. rewrite Ec in *.
    split; [rewrite <- R8; apply (Permutation_in _ (Permutation_sym I4)); rewrite !in_app_iff; right; right; left; left; reflexivity|].
    apply nodup_app in N2. destruct N2 as (_ & N2 & N3). apply nodup_app in N2. destruct N2 as (_ & N2 & _). apply nodup_app in N2. destruct N2 as (_ & _ & N4).
    split; [rewrite <- R10; apply N4; left; reflexivity|].
    pose proof (R11 a) as O. unfold held in O. rewrite !count_occ_app in O. assert (O1 : count_occ Nat.eq_dec (caddr (p_cl s)) a = 1%nat) by (destruct E as [E|E]; rewrite E; apply cnt1).
    split; [|split; apply cnt0; lia]. intros i k b w H. destruct (W _ _ _ _ H) as (-> & Hs). split.
    + intros <-. apply (N3 (i, k)); [apply in_flat_map; exists (WSend i k); split; [exact Hs|left; reflexivity]|]. rewrite !in_app_iff. right. left. left. reflexivity.
    + intros ->. assert (Z0 : ~ In a (flat_map waddr (p_ws s))) by (apply cnt0; lia). apply Z0. apply in_flat_map. exists (PRows i k a (i, k)). split; [exact H|left; reflexivity].
  - intros N. unfold pnil in N. destruct (p_cl s) as [|a|a|a| |]; try exact N; [destruct (C a (or_introl eq_refl)) as (x & Ex & _)|destruct (C a (or_intror eq_refl)) as (x & Ex & _)]; rewrite Ex in N; discriminate.
Qed.
(** no struct is in two hands at a time *)
Theorem C102_once : forall nfiles nworkers fs0 s, psteps jobs (pstart nfiles nworkers fs0) s -> NoDup (held s).
Proof. intros n m fs0 s S. destruct (prel_run _ _ _ _ S) as (g & G & [R1 R2 R3 R4 R5 R6 R7 R8 R9 R10 R11 R12]). apply (NoDup_count_occ Nat.eq_dec). exact R11. Qed.
(** when the program ends every output of every file has been created, flushed and closed, once *)
Theorem C102_exit : forall nfiles nworkers fs0 s, psteps jobs (pstart nfiles nworkers fs0) s -> p_main s = MExit ->
  (exists order, Permutation (seq 0 nfiles) order /\ p_stats s = fs0 ++ flat_map (fun i => j_lines (jobs i)) order) /\
  let all := flat_map (fun i => map (pair i) (seq 0 (List.length (j_outs (jobs i))))) (seq 0 nfiles) in
  Permutation (p_created s) all /\ Permutation (p_flushed s) all /\ Permutation (p_closed s) all /\ NoDup all.
Proof.
  intros n m fs0 s S E. destruct (C102_refines _ _ _ _ S) as (g & G & E1 & E2 & E3 & E4 & E5). rewrite <- E2, <- E3, <- E4, <- E5. apply (C65_exit jobs n m fs0 g G). congruence.
Qed.
(** and it does end: no run goes on for ever, and every run can be continued up to the end *)
Lemma related_acc : forall g, Acc (fun t s => gstep jobs s t) g -> forall c s, (pstage s <= c)%nat -> prel s g -> Acc (fun t s => pstep jobs s t) s.
Proof.
  intros g A. induction A as [g _ IH]. induction c as [|c IHc]; intros s L R; constructor; intros t T; (destruct (prel_step _ _ _ T R) as [(R' & L')|(g' & G' & R')]; [|exact (IH g' G' _ t (le_n _) R')]); [lia|apply IHc; [lia|exact R']].
Qed.
Theorem C102_terminates : forall nfiles nworkers fs0 s, psteps jobs (pstart nfiles nworkers fs0) s -> Acc (fun t s => pstep jobs s t) s.
Proof. intros n m fs0 s S. destruct (prel_run _ _ _ _ S) as (g & G & R). exact (related_acc g (C65_terminates jobs g) _ s (le_n _) R). Qed.
Theorem C102_exits : forall nfiles nworkers fs0, (1 <= nworkers)%nat -> forall s, psteps jobs (pstart nfiles nworkers fs0) s ->
  (p_main s <> MExit -> exists t, pstep jobs s t) /\ exists t, psteps jobs s t /\ p_main t = MExit.
Proof.
  intros n m fs0 M s S.
  assert (GO : forall s, psteps jobs (pstart n m fs0) s -> p_main s <> MExit -> exists t, pstep jobs s t).
  { clear s S. intros s S D. destruct (prel_run _ _ _ _ S) as (g & G & R). pose proof (ginv_reach _ _ _ _ _ G) as IV. destruct (C65_no_deadlock jobs n m fs0 g M G) as (g' & T); [rewrite (r_main _ _ R); exact D|]. exact (prel_go _ _ _ _ _ IV R T). }
  split; [apply GO; exact S|].
  pose proof (C102_terminates _ _ _ _ S) as A. revert S. induction A as [s _ IH]. intros S.
  assert (D : p_main s = MExit \/ p_main s <> MExit) by (destruct (p_main s); auto; right; discriminate). destruct D as [D|D]; [exists s; split; [constructor|exact D]|].
  destruct (GO s S D) as (t & T). destruct (IH t T (psteps_step jobs _ _ _ S T)) as (u & U & E). exists u. split; [|exact E].
  clear - T U. induction U as [u|a b c U IH V]; [exact (psteps_step jobs _ _ _ (psteps_refl jobs s) T)|exact (psteps_step jobs _ _ _ (IH T) V)].
Qed.
End sim.

(** one file with two outputs and one worker: the struct of the first output is returned and used for
    the second, and each output is flushed and closed *)
Definition ex_job : job := mkJob [mkOut (bs "a.tsv") (bs "x"); mkOut (bs "b.tsv") (bs "y")] [bs "line"].
Lemma psteps_cons : forall jobs a b c, pstep jobs a b -> psteps jobs b c -> psteps jobs a c.
Proof. intros jobs a b c T U. induction U as [u|x y z U IH V]; [exact (psteps_step jobs _ _ _ (psteps_refl jobs a) T)|exact (psteps_step jobs _ _ _ (IH T) V)]. Qed.
Example ex_C102 : exists s, psteps (fun _ => ex_job) (pstart 1 1 []) s /\ p_cl s = PcFlush 0 /\ p_heap s 0%nat = mkOb (Some (0, 1)%nat) (Some (0, 1)%nat) /\ p_closed s = [(0, 0)%nat] /\ p_next s = 1%nat.
Proof.
  eexists. split.
  - cbn [pstart seq repeat].
    eapply psteps_cons; [apply (PSend _ 0 [] [] [])|]. cbn [app].
    eapply psteps_cons; [apply (PCreate _ _ [] 0 0 []); cbn; lia|]. cbn [app].
    eapply psteps_cons; [apply (PGetNew _ _ [] 0 0 [])|]. cbn [app].
    eapply psteps_cons; [apply (PSetF _ _ [] 0 0 0 [])|]. cbn [app].
    eapply psteps_cons; [apply (PSetB _ _ [] 0 0 0 [])|]. cbn [app].
    eapply psteps_cons; [apply (PWriter _ _ [] 0 0 0 (0, 0)%nat []); reflexivity|]. cbn [app].
    eapply psteps_cons; [apply (PHand _ _ [] 0 0 0 (0, 0)%nat []); reflexivity|]. cbn [app].
    eapply psteps_cons; [apply (PTake)|]. cbn [app].
    eapply psteps_cons; [apply (PCreate _ _ [] 0 1 []); cbn; lia|]. cbn [app].
    eapply psteps_cons; [apply (PFlush _ _ _ _ _ _ 0 (0, 0)%nat); reflexivity|]. cbn [app].
    eapply psteps_cons; [apply (PClose _ _ _ _ _ _ 0 (0, 0)%nat); reflexivity|]. cbn [app].
    eapply psteps_cons; [apply (PPut)|]. cbn [app].
    eapply psteps_cons; [apply (PGetOld _ _ [] 0 1 [] _ _ _ _ _ _ _ _ _ _ [] 0 [])|]. cbn [app].
    eapply psteps_cons; [apply (PSetF _ _ [] 0 1 0 [])|]. cbn [app].
    eapply psteps_cons; [apply (PSetB _ _ [] 0 1 0 [])|]. cbn [app].
    eapply psteps_cons; [apply (PWriter _ _ [] 0 1 0 (0, 1)%nat []); reflexivity|]. cbn [app].
    eapply psteps_cons; [apply (PHand _ _ [] 0 1 0 (0, 1)%nat []); reflexivity|]. cbn [app].
    eapply psteps_cons; [apply (PTake)|]. cbn [app].
    apply psteps_refl.
  - repeat split.
Qed.

Print Assumptions C102_refines.
Print Assumptions C102_own.
Print Assumptions C102_once.
Print Assumptions C102_exit.
Print Assumptions C102_terminates.
Print Assumptions C102_exits.
