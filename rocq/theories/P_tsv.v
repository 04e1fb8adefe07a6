(** * P_tsv: properties C65, C66 and C72, the commands *)
From Verif Require Import GoBase L_base M_tsv.
From Verif Require M_simple S_simple L_simple P_simple.
From Coq Require Import Lia ZifyBool ZifyNat Permutation.

(** ** C65 *)
Section inv.
Variable jobs : nat -> job.
Definition outs_of (i : nat) : list (nat * nat) := map (pair i) (seq 0 (List.length (j_outs (jobs i)))).
(** jobs a worker is at *)
Definition cur (w : wpc) : list nat := match w with WProc i _ | WSend i _ | WLock i => [i] | _ => [] end.
(** outputs of the current job handed over *)
Definition handed (w : wpc) : list (nat * nat) :=
  match w with WProc i k | WSend i k => map (pair i) (seq 0 k) | WLock i => outs_of i | _ => [] end.
Definition inhand (w : wpc) : list (nat * nat) := match w with WSend i k => [(i, k)] | _ => [] end.
Definition writing (w : wpc) : list (nat * list gostr) := match w with WWrite i r => [(i, r)] | _ => [] end.
Definition alive (w : wpc) : list unit := match w with WEnd => [] | _ => [tt] end.
Definition infl (c : cpc) : list (nat * nat) := match c with CFlush x | CClose x => [x] | _ => [] end.
Definition mtodo (m : mpc) : list nat := match m with MSend t => t | _ => [] end.
Definition wok (w : wpc) : Prop := match w with WProc i k => (k <= List.length (j_outs (jobs i)))%nat | WSend i k => (k < List.length (j_outs (jobs i)))%nat | _ => True end.
Definition ginv (n : nat) (fs0 : list gostr) (s : gst) : Prop :=
  exists order : list nat,
    Permutation (seq 0 n) (mtodo (g_main s) ++ flat_map cur (g_ws s) ++ order) /\
    (if g_locked s then exists pre i r done_, flat_map writing (g_ws s) = [(i, r)] /\ order = done_ ++ [i] /\ j_lines (jobs i) = pre ++ r /\ g_stats s = fs0 ++ flat_map (fun i => j_lines (jobs i)) done_ ++ pre
     else flat_map writing (g_ws s) = [] /\ g_stats s = fs0 ++ flat_map (fun i => j_lines (jobs i)) order) /\
    Permutation (flat_map handed (g_ws s) ++ flat_map outs_of order) (g_buf s ++ infl (g_cl s) ++ g_closed s) /\
    Permutation (g_created s) (flat_map inhand (g_ws s) ++ g_buf s ++ infl (g_cl s) ++ g_closed s) /\
    g_flushed s = g_closed s ++ match g_cl s with CClose x => [x] | _ => [] end /\
    g_wg s = zlen (flat_map alive (g_ws s)) /\
    Forall wok (g_ws s) /\
    match g_main s with
    | MSend _ => Forall (fun w => w <> WFin /\ w <> WEnd) (g_ws s) /\ g_cl s <> CDone /\ g_cl s <> CEnd
    | MWait => g_cl s <> CDone /\ g_cl s <> CEnd
    | MDrain => flat_map alive (g_ws s) = [] /\ g_cl s <> CEnd /\ (g_cl s = CDone -> g_buf s = [])
    | MExit => flat_map alive (g_ws s) = [] /\ g_cl s = CEnd /\ g_buf s = []
    end.
End inv.
Arguments handed jobs !w /.
Lemma fm_cons : forall A B (f : A -> list B) pre w post, flat_map f (pre ++ w :: post) = flat_map f pre ++ f w ++ flat_map f post.
Proof. intros. rewrite flat_map_app. reflexivity. Qed.
Lemma alive_nil : forall ws, flat_map alive ws = [] -> Forall (fun w => w = WEnd) ws.
Proof. induction ws as [|[] ws IH]; cbn; intros; try discriminate; constructor; auto. Qed.
(** permutations by counting *)
Lemma cnt_cons : forall A (d : forall x y : A, {x = y} + {x <> y}) a l x, count_occ d (a :: l) x = (count_occ d [a] x + count_occ d l x)%nat.
Proof. intros. cbn. destruct (d a x); lia. Qed.
Definition pdec : forall x y : nat * nat, {x = y} + {x <> y}.
Proof. decide equality; apply Nat.eq_dec. Defined.
Ltac cnt_norm := rewrite ?count_occ_app in *; repeat match goal with
  | |- context [count_occ ?d (?a :: ?l) ?x] => lazymatch l with [] => fail | _ => rewrite (cnt_cons _ d a l x) end
  | H : context [count_occ ?d (?a :: ?l) ?x] |- _ => lazymatch l with [] => fail | _ => rewrite (cnt_cons _ d a l x) in H end
  | |- context [count_occ ?d [] ?x] => change (count_occ d [] x) with O
  | H : context [count_occ ?d [] ?x] |- _ => change (count_occ d [] x) with O in H
  end; rewrite ?count_occ_app in *.
Ltac perm_by d H := let x := fresh "x" in let E := fresh "E" in apply (Permutation_count_occ d); intros x; pose proof (proj1 (Permutation_count_occ d _ _) H x) as E; clear - E; cnt_norm; lia.

Lemma ginv_start : forall jobs n m fs0, ginv jobs n fs0 (gstart n m fs0).
Proof.
  intros. exists []. cbn [gstart g_main g_ws g_locked g_stats g_buf g_cl g_closed g_created g_flushed g_wg mtodo infl app flat_map].
  assert (Z0 : forall B (f : wpc -> list B), f WIdle = [] -> flat_map f (repeat WIdle m) = []) by (intros B f E; induction m as [|m IH]; cbn; rewrite ?E; auto).
  rewrite !Z0 by reflexivity. cbn [app]. rewrite !app_nil_r. split; [reflexivity|]. split; [split; reflexivity|]. split; [reflexivity|]. split; [reflexivity|]. split; [reflexivity|].
  split; [clear Z0; induction m as [|m IH]; [reflexivity|]; cbn [repeat flat_map alive app]; unfold zlen in *; cbn [List.length]; lia|].
  split; [|split; [|split; discriminate]]; apply Forall_forall; intros w I; apply repeat_spec in I; subst; [exact Logic.I|split; discriminate].
Qed.
Lemma seq_pair_S : forall i k : nat, map (pair i) (seq 0 (S k)) = map (pair i) (seq 0 k) ++ [(i, k)].
Proof. intros. rewrite seq_S, map_app. reflexivity. Qed.
Lemma flat_map_one : forall A B (f : A -> list B) l a, flat_map f (l ++ [a]) = flat_map f l ++ f a.
Proof. intros. rewrite flat_map_app. cbn. rewrite app_nil_r. reflexivity. Qed.
Ltac wk I7 := apply Forall_app in I7; let a := fresh "I7a" in let b := fresh "I7b" in destruct I7 as (a & b); inversion b as [|? ? I7c I7d]; subst; apply Forall_app; split; [exact a|constructor; [|exact I7d]].
Lemma ginv_step : forall jobs n fs0 s t, gstep jobs s t -> ginv jobs n fs0 s -> ginv jobs n fs0 t.
Proof.
  intros jobs n fs0 s t T (order & I1 & I2 & I3 & I4 & I5 & I6 & I7 & I8).
  destruct T; unfold ginv; cbn [g_main g_ws g_locked g_stats g_buf g_cl g_closed g_created g_flushed g_wg mtodo infl] in *; rewrite ?fm_cons in *; cbn [cur handed inhand writing alive app] in *.
  - (* send *) exists order. rewrite ?fm_cons. cbn [cur handed inhand writing alive app seq map]. repeat (split; [first [assumption|perm_by Nat.eq_dec I1]|]). split.
    + wk I7. cbn [wok]. lia.
    + destruct I8 as (F & G). split; [|exact G]. wk F. split; discriminate.
  - (* close(filenameChan) *) exists order. tauto.
  - (* wait *) exists order. split; [assumption|]. repeat (split; [assumption|]). split; [|tauto]. destruct (flat_map alive ws); [reflexivity|unfold zlen in I6; cbn in I6; lia].
  - (* done *) exists order. cbn [infl app] in *. repeat (split; [assumption|]). destruct I8 as (A & _ & B). auto.
  - (* no more names *) exists order. rewrite ?fm_cons. cbn [cur handed inhand writing alive app]. repeat (split; [assumption|]). split; [wk I7; exact I|].
    destruct m; [destruct H|exact I8| |]; rewrite ?fm_cons in I8; cbn [alive app] in I8; destruct I8 as (A & _); apply app_eq_nil in A; destruct A; discriminate.
  - (* worker ends *) exists order. rewrite ?fm_cons. cbn [cur handed inhand writing alive app]. repeat (split; [assumption|]). split; [rewrite I6; unfold zlen; rewrite !app_length; cbn [List.length app]; lia|]. split; [wk I7; exact I|].
    destruct m; [destruct I8 as (F & _); apply Forall_app in F; destruct F as (_ & F); inversion F as [|? ? (C & _) _]; congruence|exact I8| |]; rewrite ?fm_cons in I8; cbn [alive app] in I8; destruct I8 as (A & _); apply app_eq_nil in A; destruct A; discriminate.
  - (* create *) exists order. rewrite ?fm_cons. cbn [cur handed inhand writing alive app]. repeat (split; [first [assumption|perm_by pdec I4]|]). split; [wk I7; exact H|].
    destruct m; [destruct I8 as (F & G); split; [wk F; split; discriminate|exact G]|exact I8| |]; rewrite ?fm_cons in *; exact I8.
  - (* handed to cleanup *) exists order. rewrite ?fm_cons. cbn [cur handed inhand writing alive app]. rewrite seq_pair_S. repeat (split; [first [assumption|perm_by pdec I3|perm_by pdec I4]|]). split; [wk I7; cbn [wok] in *; lia|].
    destruct m; [destruct I8 as (F & G); split; [wk F; split; discriminate|exact G]|exact I8| |]; rewrite ?fm_cons in I8; cbn [alive app] in I8; destruct I8 as (A & _); apply app_eq_nil in A; destruct A; discriminate.
  - (* processed *) exists order. rewrite ?fm_cons. cbn [cur handed inhand writing alive app]. assert (K : map (pair i) (seq 0 k) = outs_of jobs i).
    { apply Forall_app in I7. destruct I7 as (_ & F). inversion F as [|? ? C _]. cbn [wok] in C. unfold outs_of. do 2 f_equal. lia. }
    rewrite K in I3. repeat (split; [assumption|]). split; [wk I7; exact I|].
    destruct m; [destruct I8 as (F & G); split; [wk F; split; discriminate|exact G]|exact I8| |]; rewrite ?fm_cons in *; exact I8.
  - (* lock *) exists (order ++ [i]). rewrite ?fm_cons. cbn [cur handed inhand writing alive app]. destruct I2 as (W & S).
    split; [perm_by Nat.eq_dec I1|]. split; [exists [], i, (j_lines (jobs i)), order; apply app_eq_nil in W; destruct W as (-> & ->); rewrite app_nil_r; auto|].
    split; [rewrite ?flat_map_one; cbn [flat_map]; perm_by pdec I3|]. repeat (split; [assumption|]). split; [wk I7; exact I|].
    destruct m; [destruct I8 as (F & G); split; [wk F; split; discriminate|exact G]|exact I8| |]; rewrite ?fm_cons in *; exact I8.
  - (* a line *) exists order. rewrite ?fm_cons. cbn [cur handed inhand writing alive app]. split; [assumption|]. split.
    { destruct lk; [|destruct I2 as (W & _); apply app_eq_nil in W; destruct W; discriminate]. destruct I2 as (pr & i' & r & dn & W & O & J & S).
      assert (flat_map writing pre = [] /\ flat_map writing post = [] /\ i' = i /\ r = x :: rest) as (-> & -> & -> & ->).
      { destruct (flat_map writing pre) as [|q l]; [cbn [app] in W; injection W as <- <- <-; auto|]. cbn [app] in W. injection W as _ W. destruct l; discriminate. }
      exists (pr ++ [x]), i, rest, dn. split; [reflexivity|]. split; [exact O|]. split; [rewrite J, <- app_assoc; reflexivity|]. rewrite S, <- !app_assoc. reflexivity. }
    repeat (split; [assumption|]). split; [wk I7; exact I|].
    destruct m; [destruct I8 as (F & G); split; [wk F; split; discriminate|exact G]|exact I8| |]; rewrite ?fm_cons in *; exact I8.
  - (* unlock *) exists order. rewrite ?fm_cons. cbn [cur handed inhand writing alive app]. split; [assumption|]. split.
    { destruct lk; [|destruct I2 as (W & _); apply app_eq_nil in W; destruct W; discriminate]. destruct I2 as (pr & i' & r & dn & W & O & J & S).
      assert (flat_map writing pre = [] /\ flat_map writing post = [] /\ i' = i /\ r = []) as (-> & -> & -> & ->).
      { destruct (flat_map writing pre) as [|q l]; [cbn [app] in W; injection W as <- <- <-; auto|]. cbn [app] in W. injection W as _ W. destruct l; discriminate. }
      split; [reflexivity|]. rewrite O, flat_map_one, J, app_nil_r. exact S. }
    repeat (split; [assumption|]). split; [wk I7; exact I|].
    destruct m; [destruct I8 as (F & G); split; [wk F; split; discriminate|exact G]|exact I8| |]; rewrite ?fm_cons in *; exact I8.
  - (* cleanup: receive *) exists order. cbn [infl app] in *. repeat (split; [first [assumption|perm_by pdec I3|perm_by pdec I4]|]).
    destruct m; [destruct I8 as (F & _ & _); split; [exact F|split; discriminate]|split; discriminate| |]; destruct I8 as (F & G & K); [split; [exact F|split; [discriminate|discriminate]]|discriminate].
  - (* flush *) exists order. cbn [infl app] in *. rewrite app_nil_r in I5. subst. repeat (split; [first [assumption|reflexivity]|]).
    destruct m; [destruct I8 as (F & _ & _); split; [exact F|split; discriminate]|split; discriminate| |]; destruct I8 as (F & G & K); [split; [exact F|split; [discriminate|discriminate]]|discriminate].
  - (* close *) exists order. cbn [infl app] in *. rewrite app_nil_r. repeat (split; [first [assumption|perm_by pdec I3|perm_by pdec I4]|]).
    destruct m; [destruct I8 as (F & _ & _); split; [exact F|split; discriminate]|split; discriminate| |]; destruct I8 as (F & G & K); [split; [exact F|split; [discriminate|discriminate]]|discriminate].
  - (* drained *) exists order. cbn [infl app] in *. repeat (split; [assumption|]).
    destruct m; [destruct H|destruct H| |]; destruct I8 as (F & G & K); [split; [exact F|split; [discriminate|reflexivity]]|discriminate].
Qed.
Lemma ginv_reach : forall jobs n m fs0 s, gsteps jobs (gstart n m fs0) s -> ginv jobs n fs0 s.
Proof.
  intros jobs n m fs0 s S. remember (gstart n m fs0) as s0 eqn:E. induction S as [s|a b c S IH T]; [subst; apply ginv_start|exact (ginv_step _ _ _ _ _ T (IH E))].
Qed.

(** when the program ends, however it was scheduled: the results file has grown by the lines of
    the files in some order, each file once and its lines together; and every output of every file
    has been created, flushed and closed, once *)
Theorem C65_exit : forall jobs nfiles nworkers fs0 s, gsteps jobs (gstart nfiles nworkers fs0) s -> g_main s = MExit ->
  (exists order, Permutation (seq 0 nfiles) order /\ g_stats s = fs0 ++ flat_map (fun i => j_lines (jobs i)) order) /\
  let all := flat_map (fun i => map (pair i) (seq 0 (List.length (j_outs (jobs i))))) (seq 0 nfiles) in
  Permutation (g_created s) all /\ Permutation (g_flushed s) all /\ Permutation (g_closed s) all /\ NoDup all.
Proof.
  intros jobs n m fs0 s S E. destruct (ginv_reach _ _ _ _ _ S) as (order & I1 & I2 & I3 & I4 & I5 & I6 & I7 & I8). rewrite E in *. destruct I8 as (A & C & B). rewrite C, B in *. cbn [infl app mtodo] in *. rewrite ?app_nil_r in *.
  apply alive_nil in A. assert (Z0 : forall D (f : wpc -> list D), f WEnd = [] -> flat_map f (g_ws s) = []) by (clear - A; intros D f F; induction A as [|w ws -> A IH]; cbn; rewrite ?F; auto).
  rewrite !Z0 in * by reflexivity. cbn [app] in *. assert (L : g_locked s = false) by (destruct (g_locked s); [destruct I2 as (? & ? & ? & ? & W & _); discriminate|reflexivity]). rewrite L in I2.
  assert (P : Permutation (flat_map (outs_of jobs) order) (flat_map (outs_of jobs) (seq 0 n))) by (apply Permutation_flat_map; symmetry; exact I1).
  split; [exists order; tauto|]. cbn zeta. rewrite I5. rewrite I4, <- I3. split; [exact P|]. split; [exact P|]. split; [exact P|].
  clear. generalize 0%nat at 2. induction n as [|n IH]; intros b; [constructor|]. cbn [seq flat_map].
  assert (D : forall (a : nat) (l : list (nat * nat)), (forall x, In x l -> fst x <> a) -> forall k st, NoDup l -> NoDup (map (pair a) (seq st k) ++ l)).
  { intros a l Hl. induction k as [|k IHk]; intros st N; [exact N|]. cbn [seq map app]. constructor; [|auto]. rewrite in_app_iff, in_map_iff. intros [(y & Ey & Iy)|C]; [injection Ey as ->; apply in_seq in Iy; lia|apply (Hl _ C); reflexivity]. }
  apply D; [|apply IH]. intros x Hx. apply in_flat_map in Hx. destruct Hx as (y & Iy & Hx). apply in_map_iff in Hx. destruct Hx as (z & <- & _). apply in_seq in Iy. cbn. lia.
Qed.

(** ** no deadlock, and no endless run *)
Definition wcost (jobs : nat -> job) (w : wpc) : nat :=
  match w with
  | WIdle => 2 | WFin => 1 | WEnd => 0
  | WProc i k => 5 * (List.length (j_outs (jobs i)) - k) + List.length (j_lines (jobs i)) + 5
  | WSend i k => 5 * (List.length (j_outs (jobs i)) - S k) + List.length (j_lines (jobs i)) + 9
  | WLock i => List.length (j_lines (jobs i)) + 4
  | WWrite i r => List.length r + 3
  end.
Definition ccost (c : cpc) : nat := match c with CRecv => 2 | CFlush _ => 4 | CClose _ => 3 | CDone => 1 | CEnd => 0 end.
Definition mcost (jobs : nat -> job) (m : mpc) : nat := match m with MSend t => 3 + list_sum (map (fun i => wcost jobs (WProc i 0)) t) | MWait => 2 | MDrain => 1 | MExit => 0 end.
Definition gcost (jobs : nat -> job) (s : gst) : nat := mcost jobs (g_main s) + list_sum (map (wcost jobs) (g_ws s)) + ccost (g_cl s) + 3 * List.length (g_buf s).
Lemma ls_cons : forall a l, list_sum (a :: l) = (a + list_sum l)%nat.
Proof. reflexivity. Qed.
Lemma gcost_step : forall jobs s t, gstep jobs s t -> (gcost jobs t < gcost jobs s)%nat.
Proof.
  intros jobs s t T. destruct T; unfold gcost; cbn [g_main g_ws g_cl g_buf mcost ccost map]; rewrite ?map_app, ?app_length; cbn [map]; rewrite ?list_sum_app, ?ls_cons; cbn [wcost List.length]; try lia.
Qed.
Theorem C65_terminates : forall jobs, well_founded (fun t s => gstep jobs s t).
Proof.
  intros jobs. apply (well_founded_lt_compat _ (gcost jobs)). intros t s T. exact (gcost_step jobs s t T).
Qed.

Definition busy (w : wpc) : Prop := w <> WIdle /\ w <> WEnd.
Lemma find_busy : forall ws, (exists pre w post, ws = pre ++ w :: post /\ busy w) \/ Forall (fun w => w = WIdle \/ w = WEnd) ws.
Proof.
  induction ws as [|w ws IH]; [right; constructor|]. assert (D : busy w \/ (w = WIdle \/ w = WEnd)) by (destruct w; auto; left; split; discriminate). destruct D as [D|D]; [left; exists [], w, ws; auto|].
  destruct IH as [(pre & v & post & -> & B)|F]; [left; exists (w :: pre), v, post; auto|right; constructor; auto].
Qed.
Lemma writer_steps : forall jobs m ws wg lk fs buf cl cr fd cd i r l, flat_map writing ws = (i, r) :: l -> exists t, gstep jobs (mkG m ws wg lk fs buf cl cr fd cd) t.
Proof.
  intros jobs m ws wg lk fs buf cl cr fd cd i r l W. assert (H : In (i, r) (flat_map writing ws)) by (rewrite W; left; reflexivity). apply in_flat_map in H. destruct H as (w & I & E). destruct w; try contradiction. destruct E as [E|[]]. injection E as -> ->.
  apply in_split in I. destruct I as (pre & post & ->). destruct r as [|x r]; eexists; [apply GUnlock|apply GLine].
Qed.
Theorem C65_no_deadlock : forall jobs nfiles nworkers fs0 s, (1 <= nworkers)%nat -> gsteps jobs (gstart nfiles nworkers fs0) s -> g_main s <> MExit -> exists t, gstep jobs s t.
Proof.
  intros jobs n m fs0 s M S E. destruct (ginv_reach _ _ _ _ _ S) as (order & I1 & I2 & I3 & I4 & I5 & I6 & I7 & I8).
  assert (LW : List.length (g_ws s) = m).
  { clear - S. remember (gstart n m fs0) as s0 eqn:E. induction S as [s|a b c S IH T]; [subst; apply repeat_length|]. rewrite <- (IH E). destruct T; cbn [g_ws]; rewrite ?app_length; reflexivity. }
  assert (CL : g_cl s <> CDone -> g_cl s <> CEnd -> g_cl s <> CRecv \/ g_buf s <> [] -> exists t, gstep jobs s t).
  { intros A B C. destruct s as [mm ws wg lk fs buf cl cr fd cd]. cbn [g_cl g_buf] in *. destruct cl as [|x|x| |]; try congruence; [|eexists; apply GFlush|eexists; apply GClose]. destruct buf as [|x buf]; [destruct C; congruence|]. eexists. apply GTake. }
  assert (BU : g_cl s <> CDone -> g_cl s <> CEnd -> forall pre w post, g_ws s = pre ++ w :: post -> busy w -> exists t, gstep jobs s t).
  { intros A B pre w post Ew (B1 & B2). destruct s as [mm ws wg lk fs buf cl cr fd cd]. cbn [g_cl g_buf g_ws g_locked] in *. subst ws. destruct w as [|i k|i k|i|i r| |]; try congruence.
    - destruct (Nat.lt_ge_cases k (List.length (j_outs (jobs i)))); eexists; [apply GCreate; assumption|apply GProcessed; lia].
    - destruct (Z.lt_ge_cases (zlen buf) cleanup_cap) as [L|L]; [eexists; apply GHand; exact L|]. apply CL; auto. right. destruct buf; [cbn in L; unfold cleanup_cap, zlen in L; cbn in L; lia|discriminate].
    - destruct lk; [|eexists; apply GLock]. destruct I2 as (? & i' & r & ? & W & _). eapply writer_steps. exact W.
    - destruct r; eexists; [apply GUnlock|apply GLine].
    - eexists. apply GFin. }
  destruct (find_busy (g_ws s)) as [(pre & w & post & Ew & Bw)|F].
  - destruct (g_main s) eqn:Em; [destruct I8 as (_ & C1 & C2); eauto|destruct I8 as (C1 & C2); eauto| |congruence]. destruct I8 as (A & _). rewrite Ew, fm_cons in A. destruct w; destruct Bw; cbn [alive app] in A; apply app_eq_nil in A; destruct A; congruence.
  - destruct (g_main s) as [todo| | |] eqn:Em; [| | |congruence].
    + destruct s as [mm ws wg lk fs buf cl cr fd cd]. cbn [g_main g_ws] in *. subst mm. destruct todo as [|i todo]; [eexists; apply GCloseNames|]. destruct ws as [|w ws]; [cbn in LW; lia|]. inversion F as [|? ? D _]; subst. destruct I8 as (G & _). inversion G as [|? ? (_ & G1) _]; subst. destruct D as [->| ->]; [|congruence]. eexists. apply (GSend jobs i todo []).
    + destruct (flat_map alive (g_ws s)) as [|u l] eqn:A.
      * destruct s as [mm ws wg lk fs buf cl cr fd cd]. cbn [g_main g_ws g_wg] in *. subst mm. rewrite I6. eexists. apply GWait.
      * assert (H : In u (flat_map alive (g_ws s))) by (rewrite A; left; reflexivity). apply in_flat_map in H. destruct H as (w & Iw & Hw). rewrite Forall_forall in F. destruct (F w Iw) as [->| ->]; [|destruct Hw]. apply in_split in Iw. destruct Iw as (pre & post & Ew).
        destruct s as [mm ws wg lk fs buf cl cr fd cd]. cbn [g_main g_ws] in *. subst mm ws. eexists. apply GNoMore. exact I.
    + destruct I8 as (A & C & B). destruct s as [mm ws wg lk fs buf cl cr fd cd]. cbn [g_main g_ws g_cl g_buf] in *. subst mm. destruct cl as [|x|x| |]; [|eexists; apply GFlush|eexists; apply GClose|eexists; apply GDone|congruence].
      destruct buf as [|x buf]; eexists; [apply GDrained; exact I|apply GTake].
Qed.
(** with NumCPU = 1 no worker is started: as soon as there is a file, nothing ever happens *)
Theorem C65_no_workers_refuted : forall jobs nfiles fs0, nparallel_of 1 = 0 /\ (forall s, ~ gstep jobs (gstart (S nfiles) 0 fs0) s).
Proof.
  intros jobs n fs0. split; [reflexivity|]. intros s T. unfold gstart in T. cbn [seq repeat] in T. inversion T; try contradiction; match goal with H : _ ++ _ :: _ = [] |- _ => apply app_eq_nil in H; destruct H; discriminate | H : [] = _ ++ _ :: _ |- _ => exact (app_cons_not_nil _ _ _ H) end.
Qed.
(** so every run that is not cut short ends with exit *)
Theorem C65_exits : forall jobs nfiles nworkers fs0, (1 <= nworkers)%nat -> forall s, gsteps jobs (gstart nfiles nworkers fs0) s ->
  exists t, gsteps jobs s t /\ g_main t = MExit.
Proof.
  intros jobs n m fs0 M s. induction s as [s IH] using (well_founded_ind (C65_terminates jobs)). intros S.
  assert (D : g_main s = MExit \/ g_main s <> MExit) by (destruct (g_main s); auto; right; discriminate). destruct D as [D|D]; [exists s; split; [constructor|exact D]|].
  destruct (C65_no_deadlock jobs n m fs0 s M S D) as (t & T). destruct (IH t T (gsteps_step jobs _ _ _ S T)) as (u & U & E). exists u. split; [|exact E].
  clear - T U. induction U as [u|a b c U IH V]; [exact (gsteps_step jobs _ _ _ (gsteps_refl jobs s) T)|exact (gsteps_step jobs _ _ _ (IH T) V)].
Qed.

(** ** C66: the rows *)
(** what the flags ask for *)
Definition spaced (t s : gostr) : Prop :=
  exists a b, s = List.concat a ++ t ++ List.concat b /\ Forall (fun r => In r space_runes) a /\ Forall (fun r => In r space_runes) b /\
    (forall r x, In r space_runes -> t <> r ++ x) /\ (forall r x, In r space_runes -> t <> x ++ r).
Lemma strip_prefix_spec : forall p l r, strip_prefix p l = Some r <-> l = p ++ r.
Proof.
  induction p as [|a p IH]; intros l r; cbn [strip_prefix app]; [split; intros E; [injection E as ->; reflexivity|subst; reflexivity]|]. destruct l as [|b l]; [split; discriminate|].
  destruct (Z.eqb_spec a b) as [->|N]; [rewrite IH; split; intros E; [subst; reflexivity|injection E as ->; reflexivity]|]. split; [discriminate|]. intros E. injection E as <- _. congruence.
Qed.
Lemma strip_any_some : forall ps l r, strip_any ps l = Some r -> exists p, In p ps /\ l = p ++ r.
Proof.
  induction ps as [|p ps IH]; intros l r E; [discriminate|]. cbn [strip_any] in E. destruct (strip_prefix p l) as [q|] eqn:S.
  - injection E as ->. apply strip_prefix_spec in S. exists p. split; [left; reflexivity|exact S].
  - destruct (IH l r E) as (q & I & H). exists q. split; [right; exact I|exact H].
Qed.
Lemma strip_any_none : forall ps l, strip_any ps l = None -> forall p r, In p ps -> l <> p ++ r.
Proof.
  induction ps as [|q ps IH]; intros l E p r I; [destruct I|]. cbn [strip_any] in E. destruct (strip_prefix q l) eqn:S; [discriminate|]. destruct I as [->|I]; [|eauto]. intros C. apply strip_prefix_spec in C. congruence.
Qed.
Lemma trim_any_spec : forall ps, Forall (fun p => p <> []) ps -> forall fuel l, (List.length l <= fuel)%nat ->
  exists a, l = List.concat a ++ trim_any fuel ps l /\ Forall (fun r => In r ps) a /\ (forall r x, In r ps -> trim_any fuel ps l <> r ++ x).
Proof.
  intros ps NE. induction fuel as [|fuel IH]; intros l L.
  - destruct l; [|cbn in L; lia]. exists []. cbn. split; [reflexivity|]. split; [constructor|]. intros r x I C. symmetry in C. apply app_eq_nil in C. rewrite Forall_forall in NE. destruct C as (C & _). exact (NE r I C).
  - cbn [trim_any]. destruct (strip_any ps l) as [r|] eqn:S.
    + destruct (strip_any_some _ _ _ S) as (p & I & ->). rewrite Forall_forall in NE. specialize (NE p I). rewrite app_length in L. destruct p as [|c p]; [congruence|]. cbn [List.length] in L.
      destruct (IH r ltac:(lia)) as (a & E & F & G). exists ((c :: p) :: a). cbn [List.concat]. rewrite <- app_assoc. split; [f_equal; exact E|]. split; [constructor; assumption|exact G].
    + exists []. split; [reflexivity|]. split; [constructor|]. intros q x I. exact (strip_any_none _ _ S q x I).
Qed.
Lemma rev_concat : forall l : list gostr, rev (List.concat l) = List.concat (rev (map (@rev Z) l)).
Proof. induction l as [|a l IH]; [reflexivity|]. cbn [List.concat map rev]. rewrite rev_app_distr, concat_app, IH. cbn. rewrite app_nil_r. reflexivity. Qed.
Lemma trim_space_spec : forall s, spaced (trim_space s) s.
Proof.
  intros s. unfold trim_space. destruct (trim_any_spec space_runes ltac:(repeat constructor; discriminate) (List.length s) s ltac:(lia)) as (a & E & F & G).
  set (l := trim_any (List.length s) space_runes s) in *.
  destruct (trim_any_spec (map (@rev Z) space_runes) ltac:(repeat constructor; discriminate) (List.length l) (rev l) ltac:(rewrite rev_length; lia)) as (b & E2 & F2 & G2).
  set (t := trim_any (List.length l) (map (@rev Z) space_runes) (rev l)) in *. exists a, (rev (map (@rev Z) b)).
  assert (El : l = rev t ++ List.concat (rev (map (@rev Z) b))) by (rewrite <- (rev_involutive l), E2, rev_app_distr, rev_concat; reflexivity).
  split; [rewrite <- El; exact E|]. split; [exact F|]. split; [|split].
  - apply Forall_rev. apply Forall_forall. intros r I. apply in_map_iff in I. destruct I as (q & <- & I). rewrite Forall_forall in F2. specialize (F2 q I). apply in_map_iff in F2. destruct F2 as (z & <- & I2). rewrite rev_involutive. exact I2.
  - intros r x I C. apply (G r (x ++ List.concat (rev (map (@rev Z) b))) I). rewrite El, C, app_assoc. reflexivity.
  - intros r x I C. apply (G2 (rev r) (rev x) (in_map _ _ _ I)). rewrite <- (rev_involutive t), C, rev_app_distr. reflexivity.
Qed.
(** runs of spaces, tabs and newlines become one space *)
Inductive condensed : gostr -> gostr -> Prop :=
| cd_nil : condensed [] []
| cd_keep : forall c s t, is_nl c = false -> condensed s t -> condensed (c :: s) (c :: t)
| cd_run : forall r s t, r <> [] -> Forall (fun c => is_nl c = true) r -> (forall c s', s = c :: s' -> is_nl c = false) -> condensed s t -> condensed (r ++ s) (32 :: t).
Lemma newlines_spec : forall s, condensed s (newlines_replace s).
Proof.
  intros s. unfold newlines_replace.
  assert (K : forall s, condensed s (runs_to is_nl 32 false s) /\ exists r s', s = r ++ s' /\ Forall (fun c => is_nl c = true) r /\ (forall c s'', s' = c :: s'' -> is_nl c = false) /\ condensed s' (runs_to is_nl 32 true s)).
  { clear s. induction s as [|c s (IH1 & r & s' & E & F & N & IH2)]; cbn [runs_to].
    - split; [constructor|]. exists [], []. repeat split; try constructor. discriminate.
    - destruct (is_nl c) eqn:B.
      + split; [|exists (c :: r), s'; subst; repeat split; auto]. rewrite E. change (c :: r ++ s') with ((c :: r) ++ s'). rewrite <- E. apply cd_run; auto. discriminate.
      + split; [apply cd_keep; assumption|]. exists [], (c :: s). split; [reflexivity|]. split; [constructor|]. split; [intros ? ? H; injection H as -> _; exact B|apply cd_keep; assumption]. }
  apply K.
Qed.
Lemma condensed_plain : forall s t, condensed s t -> Forall (fun c => c <> 9 /\ c <> 10 /\ c <> 13) t.
Proof.
  induction 1; constructor; auto; [|lia]. unfold is_nl in H. lia.
Qed.
Lemma spaced_sub : forall t s c, spaced t s -> In c t -> In c s.
Proof. intros t s c (a & b & -> & _) I. rewrite !in_app_iff. auto. Qed.

Definition keep_row (fl : flags) (row : list gostr) : bool := existsb (fun x => negb (str_eqb (cell_value fl x) [])) row || negb (fl_skip fl).
(** the value of a cell under the default flags *)
Theorem C66_cell : forall fl x, fl_newlines fl = true -> fl_trim fl = true -> exists y, condensed x y /\ spaced (cell_written fl x) y /\ Forall (fun c => c <> 9 /\ c <> 10 /\ c <> 13) (cell_written fl x).
Proof.
  intros fl x E1 E2. unfold cell_written, cell_value. rewrite E1, E2. exists (newlines_replace x). split; [apply newlines_spec|]. split; [apply trim_space_spec|]. apply Forall_forall. intros c I. pose proof (condensed_plain _ _ (newlines_spec x)) as P. rewrite Forall_forall in P. apply P. exact (spaced_sub _ _ _ (trim_space_spec _) I).
Qed.
(** a cell is blank, under the default flags, when it is made of white space *)
Theorem C66_blank : forall fl x, fl_newlines fl = true -> fl_trim fl = true -> (cell_value fl x = [] <-> exists a, x = List.concat a /\ Forall (fun r => In r space_runes) a).
Proof.
  intros fl x E1 E2. unfold cell_value. rewrite E1, E2. split.
  - intros E. destruct (trim_space_spec (newlines_replace x)) as (a & b & Ey & Fa & Fb & _). rewrite E in Ey. cbn [app] in Ey. rewrite <- concat_app in Ey. pose proof (newlines_spec x) as C. rewrite Ey in C. assert (F : Forall (fun r => In r space_runes) (a ++ b)) by (apply Forall_app; auto).
    clear - C F. revert x C. induction F as [|r l I F IH]; intros x C; cbn [List.concat] in C; [inversion C; exists []; split; [reflexivity|constructor]|].
    assert (KEEP : forall p y x, Forall (fun c => c <> 32) p -> condensed x (p ++ y) -> exists x', x = p ++ x' /\ condensed x' y).
    { clear. induction p as [|c p IH]; intros y x F C; [exists x; auto|]. inversion F as [|? ? N F']; subst. inversion C as [|? s0 ? B C0|]; subst; [|congruence]. destruct (IH y s0 F' C0) as (x' & -> & C'). exists x'. auto. }
    destruct (Z.eq_dec (nth 0 r 0) 32) as [E32|N32].
    + assert (r = [32]) as -> by (cbn [In space_runes] in I; repeat (destruct I as [<-|I]; [cbn in E32; try discriminate; reflexivity|]); destruct I).
      cbn [app] in C. inversion C as [|? ? ? B _|rr s t NE Fr N C']; subst; [discriminate B|]. destruct (IH s C') as (a' & -> & Fa). exists (map (fun c => [c]) rr ++ a'). split; [rewrite concat_app; f_equal; clear; induction rr as [|c rr IH]; [reflexivity|cbn; f_equal; exact IH]|].
      apply Forall_app. split; [|exact Fa]. apply Forall_forall. intros z Hz. apply in_map_iff in Hz. destruct Hz as (c & <- & Hc). rewrite Forall_forall in Fr. specialize (Fr c Hc). unfold is_nl in Fr. cbn [In space_runes]. assert (c = 32 \/ c = 10 \/ c = 13 \/ c = 9) as [-> |[-> |[-> | ->]]] by lia; tauto.
    + assert (Fr : Forall (fun c => c <> 32) r) by (cbn [In space_runes] in I; repeat (destruct I as [<-|I]; [try (cbn in N32; congruence); repeat constructor; discriminate|]); destruct I).
      destruct (KEEP r _ x Fr C) as (x' & -> & C'). destruct (IH x' C') as (a' & -> & Fa). exists (r :: a'). split; [reflexivity|constructor; assumption].
  - intros (a & -> & F).
    assert (Y : exists a', newlines_replace (List.concat a) = List.concat a' /\ Forall (fun r => In r space_runes) a').
    { unfold newlines_replace. generalize false. induction F as [|r l I F IH]; intros b; [exists []; split; [reflexivity|constructor]|]. cbn [List.concat].
      cbn [In space_runes] in I. destruct (IH true) as (a1 & E1' & F1). destruct (IH false) as (a2 & E2' & F2).
      repeat (destruct I as [Er|I]; [rewrite <- Er; cbn [app runs_to]; repeat (match goal with |- context [is_nl ?c] => let v := eval compute in (is_nl c) in change (is_nl c) with v; cbv iota end); rewrite ?E1', ?E2'; destruct b; first
         [ exists a1; split; [reflexivity|exact F1] | exists ([32] :: a1); split; [reflexivity|constructor; [cbn; tauto|exact F1]]
         | exists (r :: a2); rewrite <- Er; split; [reflexivity|constructor; [|exact F2]; cbn; tauto ]]|]). destruct I. }
    destruct Y as (a' & E & F'). rewrite E. unfold trim_space.
    assert (T : forall fuel a, (List.length (List.concat a) <= fuel)%nat -> Forall (fun r => In r space_runes) a -> trim_any fuel space_runes (List.concat a) = []).
    { clear. induction fuel as [|fuel IH]; intros a L F; [destruct (List.concat a); [reflexivity|cbn in L; lia]|]. destruct F as [|r l I F]; [reflexivity|]. cbn [List.concat] in *. cbn [trim_any].
      assert (S : strip_any space_runes (r ++ List.concat l) = Some (List.concat l)) by (cbn [In space_runes] in I; repeat (destruct I as [<-|I]; [reflexivity|]); destruct I).
      assert (r <> []) by (cbn [In space_runes] in I; repeat (destruct I as [<-|I]; [discriminate|]); destruct I).
      rewrite S. apply IH; [|exact F]. rewrite app_length in L. destruct r; [congruence|cbn [List.length] in L; lia]. }
    rewrite T by (auto; lia). reflexivity.
Qed.


(** the rows written *)
Lemma write_cells_join : forall row, write_cells 0 row = join [9] row.
Proof.
  intros [|v row]; [reflexivity|]. cbn [write_cells]. change (0 =? 0) with true. cbv iota. cbn [app].
  assert (K : forall row i, 0 < i -> write_cells i row = match row with [] => [] | _ => [9] ++ join [9] row end).
  { clear. induction row as [|v row IH]; intros i L; [reflexivity|]. cbn [write_cells]. replace (i =? 0) with false by lia. rewrite IH by lia. destruct row; [rewrite app_nil_r; reflexivity|]. reflexivity. }
  rewrite K by lia. destruct row; [rewrite app_nil_r; reflexivity|]. reflexivity.
Qed.
Lemma row_scan_spec : forall fl row i nb nc, 0 <= nc -> 0 <= i -> let '(nb', nc') := row_scan fl i row nb nc in
  nb' = nb || existsb (fun x => negb (str_eqb (cell_value fl x) [])) row /\ nc <= nc' /\
  (forall k x, 0 <= k -> idx row k = Ok x -> cell_value fl x <> [] -> i + k <= nc') /\
  (nc' = nc \/ exists k x, idx row k = Ok x /\ cell_value fl x <> [] /\ nc' = i + k).
Proof.
  intros fl. induction row as [|x row IH]; intros i nb nc L Li; cbn [row_scan existsb].
  - rewrite orb_false_r. repeat split; auto; [lia|]. intros k y _ E. unfold idx in E. destruct (0 <=? k); [destruct (Z.to_nat k); discriminate|discriminate].
  - assert (SH : forall k y, 0 < k -> idx (x :: row) k = Ok y -> idx row (k - 1) = Ok y) by (intros k y Lk E; unfold idx in *; replace (0 <=? k) with true in E by lia; replace (0 <=? k - 1) with true by lia; replace (Z.to_nat k) with (S (Z.to_nat (k - 1))) in E by lia; exact E).
    assert (SU : forall k y, idx row k = Ok y -> idx (x :: row) (1 + k) = Ok y) by (intros k y E; unfold idx in *; destruct (0 <=? k) eqn:B; [|discriminate]; replace (0 <=? 1 + k) with true by lia; replace (Z.to_nat (1 + k)) with (S (Z.to_nat k)) by lia; exact E).
    destruct (str_eqb (cell_value fl x) []) eqn:B.
    + specialize (IH (i + 1) nb nc L ltac:(lia)). destruct (row_scan fl (i + 1) row nb nc) as (nb' & nc'). destruct IH as (A1 & A2 & A3 & A4). split; [exact A1|]. split; [exact A2|]. split.
      * intros k y Lk E N. destruct (Z.eq_dec k 0) as [->|]; [unfold idx in E; cbn in E; injection E as ->; apply str_eqb_eq in B; congruence|]. specialize (A3 (k - 1) y ltac:(lia) (SH k y ltac:(lia) E) N). lia.
      * destruct A4 as [A4|(k & y & E & N & ->)]; [auto|]. right. exists (1 + k), y. split; [apply SU; exact E|]. split; [exact N|lia].
    + specialize (IH (i + 1) true (if nc <? i then i else nc) ltac:(destruct (nc <? i); lia) ltac:(lia)). destruct (row_scan fl (i + 1) row true (if nc <? i then i else nc)) as (nb' & nc'). destruct IH as (A1 & A2 & A3 & A4).
      assert (NX : cell_value fl x <> []) by (intros C; rewrite C in B; discriminate).
      split; [rewrite A1; cbn [negb orb]; rewrite orb_true_r; reflexivity|]. split; [destruct (nc <? i) eqn:D; lia|]. split.
      * intros k y Lk E N. destruct (Z.eq_dec k 0) as [->|]; [destruct (nc <? i) eqn:D; lia|]. specialize (A3 (k - 1) y ltac:(lia) (SH k y ltac:(lia) E) N). lia.
      * destruct A4 as [A4|(k & y & E & N & ->)]; [|right; exists (1 + k), y; split; [apply SU; exact E|split; [exact N|lia]]]. destruct (nc <? i) eqn:D; [|auto]. right. exists 0, x. split; [reflexivity|]. split; [exact NX|lia].
Qed.
Definition kept (fl : flags) (rows : list (list gostr)) : list (list gostr) := map (map (cell_written fl)) (filter (keep_row fl) rows).
Theorem C66_rows : forall fl rows, exists ncols,
  write_rows fl rows 0 0 = (flat_map (fun row => join [9] row ++ [10]) (kept fl rows), zlen (kept fl rows), ncols) /\
  (forall row k x, In row rows -> 0 <= k -> idx row k = Ok x -> cell_value fl x <> [] -> k <= ncols) /\
  (ncols = 0 \/ exists row x, In row rows /\ idx row ncols = Ok x /\ cell_value fl x <> []).
Proof.
  intros fl rows.
  assert (K : forall rows nr nc, 0 <= nc -> exists ncols, write_rows fl rows nr nc = (flat_map (fun row => join [9] row ++ [10]) (kept fl rows), nr + zlen (kept fl rows), ncols) /\ nc <= ncols /\
    (forall row k x, In row rows -> 0 <= k -> idx row k = Ok x -> cell_value fl x <> [] -> k <= ncols) /\ (ncols = nc \/ exists row x, In row rows /\ idx row ncols = Ok x /\ cell_value fl x <> [])).
  { clear rows. induction rows as [|row rows IH]; intros nr nc L; cbn [write_rows].
    - exists nc. split; [unfold kept; cbn [filter map flat_map]; change (zlen []) with 0; rewrite Z.add_0_r; reflexivity|]. split; [lia|]. split; [intros ? ? ? []|auto].
    - pose proof (row_scan_spec fl row 0 false nc L ltac:(lia)) as R. destruct (row_scan fl 0 row false nc) as (nb & nc1). destruct R as (R1 & R2 & R3 & R4). cbn [orb] in R1.
      assert (FIN : forall ncols, nc1 <= ncols -> (forall row k x, In row rows -> 0 <= k -> idx row k = Ok x -> cell_value fl x <> [] -> k <= ncols) -> (ncols = nc1 \/ exists row x, In row rows /\ idx row ncols = Ok x /\ cell_value fl x <> []) ->
        nc <= ncols /\ (forall row0 k x, In row0 (row :: rows) -> 0 <= k -> idx row0 k = Ok x -> cell_value fl x <> [] -> k <= ncols) /\ (ncols = nc \/ exists row0 x, In row0 (row :: rows) /\ idx row0 ncols = Ok x /\ cell_value fl x <> [])).
      { intros ncols A B C. split; [lia|]. split.
        - intros r k x [<-|I] Lk E N; [specialize (R3 k x Lk E N); lia|eauto].
        - destruct C as [->|(r & x & I & E)]; [|right; exists r, x; split; [right; exact I|exact E]]. destruct R4 as [->|(k & x & E & N & ->)]; [auto|]. right. exists row, x. split; [left; reflexivity|]. rewrite Z.add_0_l. auto. }
      unfold kept. cbn [filter]. assert (KR : keep_row fl row = nb || negb (fl_skip fl)) by (unfold keep_row; rewrite <- R1; reflexivity). rewrite KR. destruct (nb || negb (fl_skip fl)).
      + destruct (IH (nr + 1) nc1 ltac:(lia)) as (ncols & E & A & B & C). rewrite E. exists ncols. split; [|auto]. cbn [map flat_map]. rewrite write_cells_join. fold (kept fl rows). rewrite <- app_assoc. cbn [app]. replace (nr + 1 + zlen (kept fl rows)) with (nr + zlen (map (cell_written fl) row :: kept fl rows)) by (unfold zlen; cbn [List.length]; lia). reflexivity.
      + destruct (IH nr nc1 ltac:(lia)) as (ncols & E & A & B & C). exists ncols. split; [exact E|auto]. }
  destruct (K rows 0 0 ltac:(lia)) as (ncols & E & _ & A & B). exists ncols. split; [exact E|auto].
Qed.
(** under the default flags the file is one line per kept row, and splitting lines and cells gives
    the kept rows back *)
Theorem C66_lines : forall fl rows, fl_newlines fl = true -> fl_trim fl = true -> fl_skip fl = true -> forall data nr nc, write_rows fl rows 0 0 = (data, nr, nc) ->
  map (split_byte 9) (removelast (split_byte 10 data)) = kept fl rows /\ nr = zlen (removelast (split_byte 10 data)).
Proof.
  intros fl rows E1 E2 E3 data nr nc W. destruct (C66_rows fl rows) as (ncols & W' & _). rewrite W' in W. injection W as <- <- _. clear W'.
  assert (P : Forall (fun row => row <> [] /\ Forall (fun f => ~ In 9 f) row /\ ~ In 10 (join [9] row)) (kept fl rows)).
  { apply Forall_forall. intros row I. unfold kept in I. apply in_map_iff in I. destruct I as (r & <- & I). apply filter_In in I. destruct I as (_ & I). unfold keep_row in I. rewrite E3 in I. cbn [negb] in I. rewrite orb_false_r in I. apply existsb_exists in I. destruct I as (x & I & _).
    assert (Q : Forall (fun f => ~ In 9 f /\ ~ In 10 f) (map (cell_written fl) r)).
    { apply Forall_forall. intros f Hf. apply in_map_iff in Hf. destruct Hf as (y & <- & _). destruct (C66_cell fl y E1 E2) as (_ & _ & _ & F). rewrite Forall_forall in F. split; intros C; specialize (F _ C); lia. }
    split; [destruct r; [destruct I|discriminate]|]. split; [eapply Forall_impl; [|exact Q]; cbn; tauto|]. exact (L_simple.join_no_newline _ Q). }
  assert (S : split_byte 10 (flat_map (fun row => join [9] row ++ [10]) (kept fl rows)) = map (join [9]) (kept fl rows) ++ [[]]).
  { induction P as [|row l (A & B & C) P IH]; [reflexivity|]. cbn [flat_map map app]. rewrite <- app_assoc. cbn [app]. rewrite (L_simple.split_byte_app 10 (join [9] row) _ C), IH. reflexivity. }
  rewrite S, removelast_last. split; [|unfold zlen; rewrite map_length; reflexivity]. rewrite map_map. clear S. induction P as [|row l (A & B & C) P IH]; [reflexivity|]. cbn [map]. rewrite (L_simple.split_join 9 row A B). f_equal. exact IH.
Qed.

(** and the file, opened by grate itself as tab-separated text, has these rows (when OpenTSV
    accepts their shape and no line is too long for it) *)
Theorem C66_reopen : forall it fl rows fn, S_simple.any_order it -> fl_newlines fl = true -> fl_trim fl = true -> fl_skip fl = true ->
  Forall (fun r => zlen (join [9] r) <= 65535) (kept fl rows) -> zlen (kept fl rows) <= 2 ^ 50 -> S_simple.shape_ok (kept fl rows) ->
  forall data nr nc, write_rows fl rows 0 0 = (data, nr, nc) -> M_simple.open_tsv it fn (M_simple.FileData data None) = Ok (M_simple.mkSimple fn (kept fl rows) (-1)).
Proof.
  intros it fl rows fn Hit E1 E2 E3 Hlen Hn Hs data nr nc W. destruct (C66_rows fl rows) as (ncols & W' & _). rewrite W' in W. injection W as <- <- _. clear W'.
  change (flat_map (fun row => join [9] row ++ [10]) (kept fl rows)) with (S_simple.tsv_text (kept fl rows)). apply P_simple.C04_tsv_round_trip; auto.
  unfold S_simple.plain_table. rewrite Forall_forall in *. intros row I. split; [|split; [|split; [auto|]]]; unfold kept in I; apply in_map_iff in I; destruct I as (r & <- & I); apply filter_In in I; destruct I as (_ & I).
  - unfold keep_row in I. rewrite E3 in I. cbn [negb] in I. rewrite orb_false_r in I. apply existsb_exists in I. destruct I as (x & I & _). destruct r; [destruct I|discriminate].
  - apply Forall_forall. intros f Hf. apply in_map_iff in Hf. destruct Hf as (y & <- & _). destruct (C66_cell fl y E1 E2) as (_ & _ & _ & F). rewrite Forall_forall in F. split; intros C; specialize (F _ C); lia.
  - intros x C. assert (J : In 13 (join [9] (map (cell_written fl) r))) by (rewrite C; apply in_or_app; right; left; reflexivity). clear C.
    assert (N : forall l, In 13 (join [9] (map (cell_written fl) l)) -> exists y, In 13 (cell_written fl y)).
    { clear. induction l as [|y l IH]; [intros []|]. cbn [map]. destruct l as [|z l]; [cbn; eauto|]. change (join [9] (cell_written fl y :: map (cell_written fl) (z :: l))) with (cell_written fl y ++ [9] ++ join [9] (map (cell_written fl) (z :: l))). rewrite !in_app_iff. intros [H|[H|H]]; [eauto|destruct H as [H|[]]; discriminate|auto]. }
    destruct (N r J) as (y & Hy). destruct (C66_cell fl y E1 E2) as (_ & _ & _ & F). rewrite Forall_forall in F. specialize (F _ Hy). lia.
Qed.

(** ** C66: the files *)
Definition sheet_out md5hex fl fn (wb : gbook) (s : gostr) : list tsvout :=
  match wb_get wb s with Ok sh => if sh_empty sh then [] else [mkOut (out_path md5hex fn s) (flat_map (fun row => join [9] row ++ [10]) (kept fl (sh_rows sh)))] | _ => [] end.
Definition sheet_stat fl fn (wb : gbook) (s : gostr) (st : stats) : Prop :=
  ps_file st = fn /\ ps_sheet st = s /\
  match wb_get wb s with
  | Ok sh => ps_err st = None /\ ps_rows st = if sh_empty sh then 0 else zlen (kept fl (sh_rows sh))
  | Err e => ps_err st = Some e /\ ps_rows st = 0
  | _ => False
  end.
Theorem C66_files : forall md5hex fl openf fn wb names, fl_pretend fl = false -> openf fn = Ok wb -> wb_list wb = Ok names -> Forall (fun s => wb_get wb s <> Panic /\ wb_get wb s <> NoFuel) names ->
  exists rs, process_file md5hex (fun _ => None) fl openf fn = (flat_map (sheet_out md5hex fl fn wb) names, Ok rs) /\ Forall2 (sheet_stat fl fn wb) names rs.
Proof.
  intros md5hex fl openf fn wb names E1 E2 E3 F. unfold process_file. rewrite E2, E3. clear E2 E3.
  assert (K : forall acc, exists rs, process_sheets md5hex (fun _ => None) fl fn wb names acc = (flat_map (sheet_out md5hex fl fn wb) names, Ok (acc ++ rs)) /\ Forall2 (sheet_stat fl fn wb) names rs).
  { induction F as [|s names (N1 & N2) F IH]; intros acc; cbn [process_sheets flat_map]; [exists []; rewrite app_nil_r; split; [reflexivity|constructor]|]. unfold sheet_out at 1.
    destruct (wb_get wb s) as [sh|e| |] eqn:G; [|destruct (IH (acc ++ [mkStats fn s 0 0 (Some e)])) as (rs & -> & R)|congruence|congruence].
    - destruct (sh_empty sh) eqn:Em.
      + destruct (IH (acc ++ [mkStats fn s 0 0 None])) as (rs & -> & R). rewrite <- app_assoc. cbn [app]. eexists. split; [reflexivity|]. constructor; [|exact R]. unfold sheet_stat. rewrite G, Em. auto.
      + destruct (C66_rows fl (sh_rows sh)) as (nc & -> & _). rewrite E1. destruct (IH (acc ++ [mkStats fn s (zlen (kept fl (sh_rows sh))) nc None])) as (rs & -> & R). rewrite <- app_assoc. cbn [app]. eexists. split; [reflexivity|]. constructor; [|exact R]. unfold sheet_stat. rewrite G, Em. auto.
    - rewrite <- app_assoc. cbn [app]. eexists. split; [reflexivity|]. constructor; [|exact R]. unfold sheet_stat. rewrite G. auto. }
  destruct (K []) as (rs & E & R). exists rs. split; [exact E|exact R].
Qed.
(** with -w=false the flag -r has no effect on what is written: cells keep their tabs and newlines *)
Theorem C66_no_trim_refuted : forall fl, fl_trim fl = false -> (forall x, cell_written fl x = x) /\
  exists rows data nr nc, write_rows (mkFlags false true false true) rows 0 0 = (data, nr, nc) /\ nr = 1 /\ zlen (removelast (split_byte 10 data)) = 2.
Proof.
  intros fl E. split; [intros x; unfold cell_written; rewrite E; reflexivity|]. exists [[[97; 10; 98]]]. do 3 eexists. split; [reflexivity|]. split; reflexivity.
Qed.
(** the reported number of columns is the last column's index *)
Theorem C66_columns_refuted : exists rows data nr nc, write_rows default_flags rows 0 0 = (data, nr, nc) /\ rows = [[bs "a"]; [bs "b"]] /\ nr = 2 /\ nc = 0.
Proof. exists [[bs "a"]; [bs "b"]]. do 3 eexists. split; [reflexivity|]. repeat split; reflexivity. Qed.
(** different sheets, or files of the same name in different directories, are written to the same path *)
Theorem C66_collision_refuted : forall md5hex fn, fn <> bs "a b" -> fn <> bs "a-b" -> out_path md5hex fn (bs "a b") = out_path md5hex fn (bs "a-b") /\
  forall s, s <> bs "x/f.xls" -> s <> bs "y/f.xlsx" -> out_path md5hex (bs "x/f.xls") s = out_path md5hex (bs "y/f.xlsx") s.
Proof.
  assert (N : forall a b, a <> b -> str_eqb a b = false) by (intros a b H; destruct (str_eqb a b) eqn:E; [apply str_eqb_eq in E; congruence|reflexivity]).
  intros md5hex fn H1 H2. split.
  - unfold out_path. rewrite (N (bs "a b")), (N (bs "a-b")) by congruence. reflexivity.
  - intros s H3 H4. unfold out_path. rewrite (N s), (N s) by assumption. reflexivity.
Qed.

(** ** C72: grater *)
Definition file_printed (openf : gostr -> res gbook) (fn : gostr) : list printed :=
  match openf fn with
  | Ok wb => match wb_list wb with
             | Ok names => flat_map (fun s => match wb_get wb s with Ok sh => map (fun row => POut (join [9] row ++ [10])) (sh_rows sh) | Err e => [PErr e] | _ => [] end) names
             | Err e => [PErr e] | _ => []
             end
  | Err e => [PErr e] | _ => []
  end.
Definition never_panics (openf : gostr -> res gbook) (fn : gostr) : Prop :=
  match openf fn with
  | Ok wb => match wb_list wb with Ok names => Forall (fun s => wb_get wb s <> Panic /\ wb_get wb s <> NoFuel) names | Err _ => True | _ => False end
  | Err _ => True | _ => False
  end.
(** every row of every sheet of every file, in order; a file or sheet that fails is reported and the
    others are printed all the same *)
Theorem C72_grater : forall openf fns, Forall (never_panics openf) fns -> grater_files openf fns = Ok (flat_map (file_printed openf) fns).
Proof.
  intros openf fns F. induction F as [|fn fns H F IH]; [reflexivity|]. cbn [grater_files flat_map]. rewrite IH. unfold never_panics in H. generalize (flat_map (file_printed openf) fns). intros rest. unfold file_printed. destruct (openf fn) as [wb|e| |]; try contradiction; [|reflexivity]. destruct (wb_list wb) as [names|e| |]; try contradiction; [|reflexivity].
  assert (K : grater_sheets wb names = Ok (flat_map (fun s => match wb_get wb s with Ok sh => map (fun row => POut (join [9] row ++ [10])) (sh_rows sh) | Err e => [PErr e] | _ => [] end) names)).
  { clear IH. induction H as [|s names (N1 & N2) H IH]; [reflexivity|]. cbn [grater_sheets flat_map]. rewrite IH. unfold grater_sheet. destruct (wb_get wb s); try congruence; reflexivity. }
  rewrite K. reflexivity.
Qed.
(** cells are printed as they are: different sheets may print the same text *)
Theorem C72_ambiguous_refuted : exists r1 r2 : list (list gostr), r1 <> r2 /\ map println_row r1 = map println_row r2.
Proof. exists [[[97; 9; 98]]], [[[97]; [98]]]. split; [discriminate|reflexivity]. Qed.

(** ** examples *)
Definition ex_rows : list (list gostr) := [[bs " a "; [98; 10; 10; 99]]; [[9]; [194; 160]]; [[]; bs "d"]].
Example ex_C66 : write_rows default_flags ex_rows 0 0 = ([97; 9; 98; 32; 99; 10; 9; 100; 10], 2, 1) /\ kept default_flags ex_rows = [[bs "a"; bs "b c"]; [[]; bs "d"]].
Proof. split; reflexivity. Qed.
Definition ex_job (i : nat) : job := mkJob [mkOut (bs "p") [97]] [bs "l1"; bs "l2"].
Example ex_C65 : exists s, gsteps ex_job (gstart 2 3 [stats_header]) s /\ g_main s = MExit.
Proof. apply (C65_exits ex_job 2 3 [stats_header]); [lia|constructor]. Qed.
Example ex_C72 : grater_files (fun fn => if str_eqb fn (bs "x") then Err ENotInFormat else Ok (mkBook (Ok [bs "s"]) (fun _ => Ok (mkSheet false [[bs "a"; bs "b"]])))) [bs "x"; bs "y"] = Ok [PErr ENotInFormat; POut [97; 9; 98; 10]].
Proof. reflexivity. Qed.

Print Assumptions C65_exit.
Print Assumptions C65_terminates.
Print Assumptions C65_no_deadlock.
Print Assumptions C65_exits.
Print Assumptions C65_no_workers_refuted.
Print Assumptions C66_cell.
Print Assumptions C66_blank.
Print Assumptions C66_rows.
Print Assumptions C66_lines.
Print Assumptions C66_reopen.
Print Assumptions C66_files.
Print Assumptions C66_no_trim_refuted.
Print Assumptions C66_columns_refuted.
Print Assumptions C66_collision_refuted.
Print Assumptions C72_grater.
Print Assumptions C72_ambiguous_refuted.
