(** * P_pool: property C56, records of the pool are never shared between workbooks. *)
From Verif Require Import GoBase L_base M_biff M_pool.
From Coq Require Import Lia ZifyBool ZifyNat Permutation.

(** ** what the property says *)
(** the records a workbook holds: those of its substreams and the one being read, or, while it is
    giving them back, those it has not given back yet *)
Definition held (w : wbt) : list nat :=
  match w_pc w with
  | PRel todo _ => todo
  | PNil a todo => a :: todo
  | PGot _ _ _ a | PHead _ _ _ a | PHave _ _ _ a => a :: concat (c_streams (w_st w))
  | PIdle _ | PLoad _ _ _ | PDead => concat (c_streams (w_st w))
  end.
(** the records of the substreams, read through the pointers *)
Definition view (h : heap) (c : cst) : bst := mkBst (c_sub c) (c_nest c) (c_pos c) (map (map h) (c_streams c)) (c_map c).

(** ** invariant *)
Definition apart (p : pstate) : Prop :=
  NoDup (s_free (p_sh p) ++ flat_map held (p_wbs p)) /\ Forall (fun a => (a < s_next (p_sh p))%nat) (s_free (p_sh p) ++ flat_map held (p_wbs p)).
Definition goes_on (h : heap) (c : cst) (raw0 : slice) (dec : bool) (raw : slice) : Prop :=
  exists fuel, (List.length (dat raw) < fuel)%nat /\ split_loop fuel raw dec (view h c) = split_stream raw0 dec.
Definition good_wb (h : heap) (w : wbt) : Prop :=
  let c := w_st w in
  match w_pc w with
  | PIdle ONone => c = cst0
  | PIdle (ODone raw dec) => split_stream raw dec = Ok (LDone (view h c))
  | PIdle (OFilePass raw data) => split_stream raw false = Ok (LFilePass data)
  | PIdle (OErr raw dec e) => split_stream raw dec = Err e
  | PLoad raw0 dec raw => goes_on h c raw0 dec raw
  | PGot raw0 dec raw _ => goes_on h c raw0 dec raw /\ ~ sl_len raw < 4
  | PHead raw0 dec raw a => goes_on h c raw0 dec raw /\ ~ sl_len raw < 4 /\ le16 (dat raw) = Ok (b_type (h a)) /\ le16 (zdrop 2 (dat raw)) = Ok (b_size (h a))
  | PHave raw0 dec raw a => goes_on h c raw0 dec raw /\ ~ sl_len raw < 4 /\ next_record raw = Ok (h a, u16 (4 + b_size (h a)))
  | PRel _ _ | PNil _ _ | PDead => True
  end.

Lemma view_frame : forall h h' c, (forall a, In a (concat (c_streams c)) -> h' a = h a) -> view h' c = view h c.
Proof.
  intros h h' c H. unfold view. f_equal. induction (c_streams c) as [|l ss IH]; [reflexivity|]. cbn [map concat] in *. f_equal; [apply map_ext_in; intros; apply H; apply in_or_app; auto|]. apply IH. intros. apply H. apply in_or_app. auto.
Qed.
Lemma good_frame : forall h h' w, (forall a, In a (held w) -> h' a = h a) -> good_wb h w -> good_wb h' w.
Proof.
  intros h h' [p c] H G. unfold good_wb, held in *. cbn [w_pc w_st] in *. destruct p as [[|raw dec|raw data|raw dec e]|todo nx|a todo|raw0 dec raw|raw0 dec raw a|raw0 dec raw a|raw0 dec raw a|]; auto; unfold goes_on in *.
  - rewrite (view_frame h h') by auto. exact G.
  - rewrite (view_frame h h') by auto. exact G.
  - rewrite (view_frame h h') by (intros; apply H; right; auto). exact G.
  - rewrite (view_frame h h') by (intros; apply H; right; auto). rewrite (H a) by (left; reflexivity). exact G.
  - rewrite (view_frame h h') by (intros; apply H; right; auto). rewrite (H a) by (left; reflexivity). exact G.
Qed.

(** the steps on pointers are the steps of M_biff on records *)
Lemma view_enter : forall h c r, view h (c_enter c r) = enter (view h c) r.
Proof.
  intros h c r. unfold c_enter, enter, view. cbn [st_sub st_nest st_pos st_streams st_map]. destruct (b_type r =? RecTypeEOF); [reflexivity|]. destruct (b_type r =? RecTypeBOF); [|reflexivity]. destruct (c_nest c =? 0); [|reflexivity].
  cbn [c_sub c_nest c_pos c_streams c_map st_sub st_nest st_pos st_streams st_map]. unfold zlen. rewrite map_length, map_app. reflexivity.
Qed.
Lemma map_set_idx : forall A B (f : A -> B) l i x, set_idx (map f l) i (f x) = match set_idx l i x with Ok l => Ok (map f l) | Err e => Err e | Panic => Panic | NoFuel => NoFuel end.
Proof.
  intros A B f l i x. unfold set_idx. unfold zlen. rewrite map_length. destruct ((0 <=? i) && (i <? Z.of_nat (List.length l))); [|reflexivity]. f_equal. generalize (Z.to_nat i). induction l as [|a l IH]; intros [|n]; cbn [map upd]; try reflexivity. rewrite IH. reflexivity.
Qed.
Lemma map_idx : forall A B (f : A -> B) l i, idx (map f l) i = match idx l i with Ok x => Ok (f x) | Err e => Err e | Panic => Panic | NoFuel => NoFuel end.
Proof.
  intros A B f l i. unfold idx. destruct (0 <=? i); [|reflexivity]. rewrite nth_error_map. destruct (nth_error l (Z.to_nat i)); reflexivity.
Qed.
Lemma view_store : forall h c a, store (view h c) (h a) = match c_store c a with Ok c' => Ok (view h c') | Err e => Err e | Panic => Panic | NoFuel => NoFuel end.
Proof.
  intros h c a. unfold store, c_store, view. cbn [st_sub st_nest st_pos st_streams st_map]. rewrite map_idx. destruct (idx (c_streams c) (c_sub c)) as [l| | |]; cbn [bind]; try reflexivity.
  replace (map h l ++ [h a]) with (map h (l ++ [a])) by (rewrite map_app; reflexivity). rewrite map_set_idx. destruct (set_idx (c_streams c) (c_sub c) (l ++ [a])); reflexivity.
Qed.
Lemma concat_set : forall (l : list (list nat)) i x a, nth_error l i = Some x -> Permutation (concat (upd l i (x ++ [a]))) (a :: concat l).
Proof.
  induction l as [|y l IH]; intros [|i] x a E; try discriminate; cbn [nth_error upd concat] in *.
  - injection E as ->. rewrite <- app_assoc. symmetry. apply Permutation_middle.
  - rewrite (IH i x a E). symmetry. apply Permutation_middle.
Qed.
Lemma enter_concat : forall c r, concat (c_streams (c_enter c r)) = concat (c_streams c).
Proof.
  intros c r. unfold c_enter. destruct (b_type r =? RecTypeEOF); [reflexivity|]. destruct (b_type r =? RecTypeBOF); [|reflexivity]. destruct (c_nest c =? 0); [|reflexivity]. cbn [c_streams]. rewrite concat_app. cbn [concat]. rewrite !app_nil_r. reflexivity.
Qed.
Lemma store_concat : forall c a c', c_store c a = Ok c' -> Permutation (concat (c_streams c')) (a :: concat (c_streams c)).
Proof.
  intros c a c' E. unfold c_store in E. unfold idx in E. destruct (0 <=? c_sub c); [|discriminate]. destruct (nth_error (c_streams c) (Z.to_nat (c_sub c))) as [l|] eqn:N; [|discriminate]. cbn [bind] in E. unfold set_idx in E. destruct (_ && _); [|discriminate]. cbn [bind] in E. injection E as <-. cbn [c_streams]. apply concat_set. exact N.
Qed.

(** what one step does to the pool, the heap and the records held *)
Lemma tstep_keeps : forall s w s' w', tstep s w s' w' ->
  exists lost fresh, Permutation (s_free s ++ held w ++ fresh) (s_free s' ++ held w' ++ lost) /\ (s_next s <= s_next s')%nat /\ NoDup fresh /\ Forall (fun a => (s_next s <= a < s_next s')%nat) fresh /\
    (forall a, s_heap s' a = s_heap s a \/ In a (held w) \/ (s_next s <= a)%nat).
Proof.
  intros s w s' w' T. destruct T; unfold held; cbn [w_pc w_st s_free s_next s_heap]; rewrite ?app_nil_r.
  - exists [], []. rewrite ?app_nil_r. repeat split; auto; solve [constructor].
  - exists [], []. rewrite ?app_nil_r. repeat split; auto; solve [constructor].
  - exists [], []. rewrite ?app_nil_r. repeat split; auto; try solve [constructor]. intros b. unfold hput. destruct (Nat.eqb_spec a b); [subst; right; left; left; reflexivity|auto].
  - exists [], []. rewrite ?app_nil_r. cbn [app]. repeat split; auto; try solve [constructor]. symmetry. apply Permutation_middle.
  - exists [], []. rewrite ?app_nil_r. cbn [app]. repeat split; auto; try solve [constructor]. symmetry. apply Permutation_middle.
  - exists [], []. cbn [cst0 c_streams concat]. rewrite ?app_nil_r. repeat split; auto; solve [constructor].
  - exists [], []. cbn [cst0 c_streams concat]. rewrite ?app_nil_r. repeat split; auto; solve [constructor].
  - exists [], []. rewrite ?app_nil_r. repeat split; auto; solve [constructor].
  - exists [], []. rewrite ?app_nil_r. repeat split; auto; try solve [constructor]. rewrite <- !app_assoc. apply Permutation_app_head. cbn [app]. symmetry. transitivity (a :: f2 ++ concat (c_streams c)); [|reflexivity]. symmetry. apply Permutation_middle.
  - exists [], [n]. rewrite ?app_nil_r. repeat split; auto.
    + apply Permutation_app_head. symmetry. apply Permutation_cons_append.
    + constructor; [intros []|constructor].
    + intros b. unfold hput. destruct (Nat.eqb_spec n b); [subst; right; right; lia|auto].
  - exists [], []. rewrite ?app_nil_r. repeat split; auto; try solve [constructor]. intros b. unfold hput. destruct (Nat.eqb_spec a b); [subst; right; left; left; reflexivity|auto].
  - exists [], []. rewrite ?app_nil_r. cbn [app]. repeat split; auto; try solve [constructor]. symmetry. apply Permutation_middle.
  - exists [], []. rewrite ?app_nil_r. repeat split; auto; try solve [constructor]. intros b. unfold hput. destruct (Nat.eqb_spec a b); [subst; right; left; left; reflexivity|auto].
  - exists [a], []. rewrite ?app_nil_r. repeat split; auto; try solve [constructor]. apply Permutation_app_head. apply Permutation_cons_append.
  - exists [a], []. rewrite ?app_nil_r, enter_concat. repeat split; auto; try solve [constructor]. apply Permutation_app_head. apply Permutation_cons_append.
  - exists [], []. rewrite ?app_nil_r. repeat split; auto; try solve [constructor]. apply Permutation_app_head. rewrite (store_concat _ _ _ H1), enter_concat. reflexivity.
  - exists [a], []. rewrite ?app_nil_r. repeat split; auto; try solve [constructor]. apply Permutation_app_head. apply Permutation_cons_append.
Qed.

Lemma perm_mid : forall (A : Type) (f p w q x : list A), Permutation ((f ++ p ++ w ++ q) ++ x) ((f ++ w ++ x) ++ p ++ q).
Proof.
  intros. rewrite <- !app_assoc. apply Permutation_app_head. rewrite (app_assoc p w), (Permutation_app_comm p w), <- !app_assoc. apply Permutation_app_head. rewrite app_assoc. apply Permutation_app_comm.
Qed.
Lemma apart_step : forall p q, pstep p q -> apart p -> apart q.
Proof.
  intros p q S (N & L). destruct S as [s s' pre w w' post T|s ws|h n f1 a f2 ws]; unfold apart; cbn [p_sh p_wbs] in *.
  - destruct (tstep_keeps s w s' w' T) as (lost & fresh & P & LE & NF & FF & _).
    rewrite !flat_map_app in *. cbn [flat_map] in *.
    assert (Q : Permutation ((s_free s ++ flat_map held pre ++ held w ++ flat_map held post) ++ fresh) ((s_free s' ++ flat_map held pre ++ held w' ++ flat_map held post) ++ lost)).
    { rewrite perm_mid, P. symmetry. apply perm_mid. }
    assert (N1 : NoDup ((s_free s ++ flat_map held pre ++ held w ++ flat_map held post) ++ fresh)).
    { clear Q P. induction (s_free s ++ flat_map held pre ++ held w ++ flat_map held post) as [|x l IH]; [exact NF|]. inversion N; inversion L; subst. cbn [app]. constructor; [|apply IH; assumption].
      rewrite in_app_iff. intros [C|C]; [contradiction|]. rewrite Forall_forall in FF. specialize (FF x C). lia. }
    assert (L1 : Forall (fun a => (a < s_next s')%nat) ((s_free s ++ flat_map held pre ++ held w ++ flat_map held post) ++ fresh)).
    { apply Forall_app. split; [eapply Forall_impl; [|exact L]; cbn; lia|eapply Forall_impl; [|exact FF]; cbn; lia]. }
    rewrite Q in N1, L1. apply Forall_app in L1. destruct L1 as (L1 & _). split; [|exact L1].
    clear - N1. induction (s_free s' ++ flat_map held pre ++ held w' ++ flat_map held post) as [|x l IH]; constructor; inversion N1; subst; auto. intros C. apply H1. apply in_or_app. auto.
  - rewrite flat_map_app. cbn [flat_map]. unfold w_new at 1, held at 2. unfold w_new, held at 3. cbn [w_pc w_st cst0 c_streams concat]. rewrite ?app_nil_r. auto.
  - cbn [s_free s_next] in *. rewrite <- app_assoc in *. cbn [app] in *. split; [eapply NoDup_remove_1; exact N|]. rewrite Forall_app in *. destruct L as (L1 & L2). inversion L2; subst. auto.
Qed.

(** ** each step follows the loop of M_biff *)
Lemma le16_len : forall d r, le16 d = Ok r -> (2 <= List.length d)%nat.
Proof. intros [|a [|b d]] r E; try discriminate; cbn; lia. Qed.
Lemma goes_on_unfold : forall h c raw0 dec raw, goes_on h c raw0 dec raw -> exists fuel, (List.length (dat raw) <= fuel)%nat /\ split_loop (S fuel) raw dec (view h c) = split_stream raw0 dec.
Proof. intros h c raw0 dec raw ([|fuel] & L & E); [lia|]. exists fuel. split; [lia|exact E]. Qed.
Lemma next_record_have : forall raw ty size body d, ~ sl_len raw < 4 -> le16 (dat raw) = Ok ty -> le16 (zdrop 2 (dat raw)) = Ok size -> sl_from raw 4 = Ok body -> ~ sl_len body < size ->
  sl_range raw 4 (u16 (4 + size)) = Ok d -> next_record raw = Ok (mkRec ty size d, u16 (4 + size)).
Proof.
  intros raw ty size body d L E1 E2 E3 E4 E5. unfold next_record. replace (sl_len raw <? 4) with false by lia. rewrite E1. cbn [bind]. rewrite E2. cbn [bind]. rewrite E3. cbn [bind]. replace (sl_len body <? size) with false by lia. rewrite E5. reflexivity.
Qed.
Lemma range_le : forall s lo hi d, sl_range s lo hi = Ok d -> lo <= hi.
Proof. intros s lo hi d E. unfold sl_range in E. destruct (_ && _) eqn:B; [lia|discriminate]. Qed.
Lemma from_shorter : forall s n d, sl_from s n = Ok d -> 4 <= n -> (List.length (dat d) < List.length (dat s))%nat.
Proof.
  intros s n d E L. unfold sl_from in E. destruct (_ && _) eqn:B; [|discriminate]. injection E as <-. cbn [dat]. unfold zdrop, sl_len, zlen in *. rewrite skipn_length. lia.
Qed.
Lemma next_record_size : forall raw r no, next_record raw = Ok (r, no) -> 4 <= no.
Proof.
  intros raw r no E. unfold next_record in E. destruct (_ <? 4); [discriminate|]. destruct (le16 (dat raw)); cbn [bind] in E; try discriminate. destruct (le16 (zdrop 2 (dat raw))); cbn [bind] in E; try discriminate. destruct (sl_from raw 4); cbn [bind] in E; try discriminate. destruct (_ <? _); [discriminate|].
  destruct (sl_range raw 4 _) eqn:R; cbn [bind] in E; try discriminate. injection E as _ <-. exact (range_le _ _ _ _ R).
Qed.

Lemma good_step : forall s w s' w', tstep s w s' w' -> NoDup (held w) -> (forall a, In a (held w) -> (a < s_next s)%nat) -> good_wb (s_heap s) w -> good_wb (s_heap s') w'.
Proof.
  intros s w s' w' T ND LT G. destruct T; unfold good_wb, held in *; cbn [w_pc w_st s_heap s_next s_free] in *; auto.
  - (* begin *) exists (S (List.length (dat raw))). split; [lia|reflexivity].
  - (* end *) destruct (goes_on_unfold _ _ _ _ _ G) as (fuel & L & E). rewrite <- E. cbn [split_loop]. unfold next_record. replace (sl_len raw <? 4) with true by lia. reflexivity.
  - (* get, new *) split; [|assumption]. unfold goes_on in *. rewrite (view_frame h); [exact G|]. intros a I. unfold hput. destruct (Nat.eqb_spec n a); [|reflexivity]. subst. specialize (LT a I). lia.
  - (* head *) destruct G as (G & L). unfold goes_on in *. inversion ND; subst. rewrite (view_frame h); [|intros b I; unfold hput; destruct (Nat.eqb_spec a b); [subst; contradiction|reflexivity]].
    unfold hput. rewrite Nat.eqb_refl. cbn [b_type b_size]. auto.
  - (* short *) destruct G as (G & L & E1 & E2). destruct (goes_on_unfold _ _ _ _ _ G) as (fuel & Lf & E). rewrite <- E. cbn [split_loop]. unfold next_record. replace (sl_len raw <? 4) with false by lia. rewrite E1. cbn [bind]. rewrite E2. cbn [bind]. rewrite H. cbn [bind]. replace (_ <? _) with true by lia. reflexivity.
  - (* data *) destruct G as (G & L & E1 & E2). unfold goes_on in *. inversion ND; subst. rewrite (view_frame h); [|intros b I; unfold hput; destruct (Nat.eqb_spec a b); [subst; contradiction|reflexivity]].
    unfold hput. rewrite Nat.eqb_refl. cbn [b_type b_size]. split; [exact G|]. split; [exact L|]. exact (next_record_have _ _ _ _ _ L E1 E2 H H0 H1).
  - (* file pass *) destruct G as (G & L & E1). destruct (goes_on_unfold _ _ _ _ _ G) as (fuel & Lf & E). rewrite <- E. cbn [split_loop]. rewrite E1, H. cbn [bind]. rewrite H0. reflexivity.
  - (* store *) destruct G as (G & L & E1). destruct (goes_on_unfold _ _ _ _ _ G) as (fuel & Lf & E). exists fuel. split; [pose proof (from_shorter _ _ _ H (next_record_size _ _ _ E1)); lia|]. rewrite <- E. cbn [split_loop]. rewrite E1, H. cbn [bind].
    replace ((b_type (h a) =? RecTypeFilePass) && negb dec) with false by (destruct H0 as [N|N]; [rewrite (proj2 (Z.eqb_neq _ _) N)|rewrite N; cbn [negb]; rewrite andb_false_r]; reflexivity).
    rewrite <- view_enter, view_store, H1. reflexivity.
Qed.

Definition sound (p : pstate) : Prop := apart p /\ Forall (good_wb (s_heap (p_sh p))) (p_wbs p).
Lemma nodup_app : forall A (l m : list A), NoDup (l ++ m) -> NoDup l /\ NoDup m /\ (forall x, In x l -> ~ In x m).
Proof.
  induction l as [|a l IH]; intros m N; cbn [app] in N; [split; [constructor|split; [exact N|intros x []]]|]. inversion N; subst. destruct (IH m H2) as (N1 & N2 & D). split; [|split; [exact N2|]].
  - constructor; auto. intros I. apply H1. apply in_or_app. auto.
  - intros x [->|I]; [intros I; apply H1; apply in_or_app; auto|apply D; exact I].
Qed.
Lemma sound_step : forall p q, pstep p q -> sound p -> sound q.
Proof.
  intros p q S (A & G). split; [exact (apart_step p q S A)|]. destruct A as (N & L). destruct S as [s s' pre w w' post T|s ws|h n f1 a f2 ws]; cbn [p_sh p_wbs] in *.
  - rewrite flat_map_app in N, L. cbn [flat_map] in N, L. apply nodup_app in N. destruct N as (_ & N & _). rewrite Forall_app in L. destruct L as (_ & L).
    apply nodup_app in N. destruct N as (_ & N & D1). pose proof (fun x I => D1 x I) as D1'. apply nodup_app in N. destruct N as (NW & _ & D2).
    rewrite !Forall_app in L. destruct L as (L1 & L2 & L3). rewrite Forall_forall in L1, L2, L3.
    destruct (tstep_keeps s w s' w' T) as (_ & _ & _ & _ & _ & _ & HP).
    apply Forall_app in G. destruct G as (G1 & G2). inversion G2 as [|? ? GW G3]; subst.
    apply Forall_app. split; [|constructor].
    + rewrite Forall_forall in *. intros v I. apply (good_frame (s_heap s)); [|auto]. intros a Ha. assert (Hf : In a (flat_map held pre)) by (apply in_flat_map; exists v; auto).
      destruct (HP a) as [E|[E|E]]; [exact E| |]; [exfalso; apply (D1 a Hf); apply in_or_app; auto|specialize (L1 a Hf); lia].
    + apply (good_step s w s' w' T); auto.
    + rewrite Forall_forall in *. intros v I. apply (good_frame (s_heap s)); [|auto]. intros a Ha. assert (Hf : In a (flat_map held post)) by (apply in_flat_map; exists v; auto).
      destruct (HP a) as [E|[E|E]]; [exact E| |]; [exfalso; apply (D2 a E); auto|specialize (L3 a Hf); lia].
  - apply Forall_app. split; [exact G|]. constructor; [reflexivity|constructor].
  - exact G.
Qed.
Lemma sound_reach : forall p, psteps pstart p -> sound p.
Proof.
  intros p S. remember pstart as p0 eqn:E. induction S as [s|a b c S IH T]; [|exact (sound_step b c T (IH E))]. subst. repeat split; constructor.
Qed.

(** ** C56 *)
(** no record is held twice, by two workbooks or by one, and no held record is in the pool *)
Theorem C56_exclusive : forall p, psteps pstart p -> forall i j wi wj a, nth_error (p_wbs p) i = Some wi -> nth_error (p_wbs p) j = Some wj -> In a (held wi) ->
  ~ In a (s_free (p_sh p)) /\ NoDup (held wi) /\ (In a (held wj) -> i = j).
Proof.
  intros p reach i j wi wj a Ei Ej I. destruct (sound_reach p reach) as ((N & _) & _). apply nodup_app in N. destruct N as (_ & N & D).
  assert (F : forall ws k w, nth_error ws k = Some w -> In a (held w) -> In a (flat_map held ws)) by (intros ws k w E H; apply in_flat_map; exists w; split; [exact (nth_error_In _ _ E)|exact H]).
  split; [intros C; exact (D a C (F _ _ _ Ei I))|]. clear D. revert i j Ei Ej. induction (p_wbs p) as [|w ws IH]; intros [|i] [|j] Ei Ej; try discriminate; cbn [nth_error flat_map] in *; apply nodup_app in N; destruct N as (N1 & N2 & D); try (injection Ei as ->); try (injection Ej as ->).
  - auto.
  - split; [exact N1|]. intros I2. exfalso. exact (D a I (F _ _ _ Ej I2)).
  - split; [clear - N2 Ei; revert i Ei; induction ws as [|v ws IH]; intros [|i] E; try discriminate; cbn [nth_error flat_map] in *; apply nodup_app in N2; destruct N2 as (M1 & M2 & _); [injection E as ->; exact M1|eauto]|]. intros I2. exfalso. exact (D a I2 (F _ _ _ Ei I)).
  - destruct (IH N2 i j Ei Ej) as (A & B). split; [exact A|]. intros I2. f_equal. auto.
Qed.
(** a workbook that has been read holds the records of its own file, as if it were alone *)
Theorem C56_read : forall p, psteps pstart p -> forall w raw dec, In w (p_wbs p) -> w_pc w = PIdle (ODone raw dec) -> split_stream raw dec = Ok (LDone (view (s_heap (p_sh p)) (w_st w))).
Proof.
  intros p reach w raw dec I E. destruct (sound_reach p reach) as (_ & G). rewrite Forall_forall in G. specialize (G w I). unfold good_wb in G. rewrite E in G. exact G.
Qed.
(** and a call that found the file encrypted or cut off found what it finds alone *)
Theorem C56_outcome : forall p, psteps pstart p -> forall w, In w (p_wbs p) ->
  (forall raw data, w_pc w = PIdle (OFilePass raw data) -> split_stream raw false = Ok (LFilePass data)) /\ (forall raw dec e, w_pc w = PIdle (OErr raw dec e) -> split_stream raw dec = Err e).
Proof.
  intros p reach w I. destruct (sound_reach p reach) as (_ & G). rewrite Forall_forall in G. specialize (G w I). split; intros * E; unfold good_wb in G; rewrite E in G; exact G.
Qed.
(** a step of one workbook leaves the records of every other as they are *)
Theorem C56_frame : forall p, psteps pstart p -> forall s s' pre w w' post v a, p = mkP s (pre ++ w :: post) -> tstep s w s' w' -> In v (pre ++ post) -> In a (held v) -> s_heap s' a = s_heap s a.
Proof.
  intros p reach s s' pre w w' post v a Ep T I Ha. destruct (sound_reach p reach) as ((N & L) & _). rewrite Ep in N, L. cbn [p_sh p_wbs] in N, L. apply nodup_app in N. destruct N as (_ & N & _). rewrite Forall_app in L. destruct L as (_ & L). rewrite Forall_forall in L.
  destruct (tstep_keeps s w s' w' T) as (_ & _ & _ & _ & _ & _ & HP). assert (Hf : In a (flat_map held (pre ++ w :: post))) by (apply in_flat_map; exists v; split; [rewrite in_app_iff in *; destruct I; [auto|right; right; auto]|auto]).
  destruct (HP a) as [E|[E|E]]; [exact E| |specialize (L a Hf); lia]. exfalso. rewrite flat_map_app in N. cbn [flat_map] in N. apply nodup_app in N. destruct N as (_ & N & D1). apply nodup_app in N. destruct N as (_ & _ & D2).
  apply in_app_or in I. destruct I as [I|I]; [apply (D1 a); [apply in_flat_map; exists v; auto|apply in_or_app; auto]|apply (D2 a E); apply in_flat_map; exists v; auto].
Qed.

(** ** a schedule: A reads a file of one record; B starts to read; A is closed; B reads its second
    record into the record A gave back *)
Definition ex_fileA : slice := mkSl [9; 8; 2; 0; 65; 66] [].
Definition ex_fileB : slice := mkSl [9; 8; 1; 0; 67; 10; 0; 0; 0] [].
Example ex_C56 : exists p wa wb, psteps pstart p /\ p_wbs p = [wa; wb] /\ w_pc wa = PIdle ONone /\ w_pc wb = PIdle (ODone ex_fileB false) /\ concat (c_streams (w_st wb)) = [1; 0]%nat /\
  map (map b_data) (st_streams (view (s_heap (p_sh p)) (w_st wb))) = [[mkSl [67] [10; 0; 0; 0]; mkSl [] []]].
Proof.
  assert (R : forall (P : pstate -> Prop), (exists p, psteps pstart p /\ P p) -> exists p, P p /\ psteps pstart p) by (intros P (p & A & B); eauto).
  destruct (R (fun p => exists wa wb, p_wbs p = [wa; wb] /\ w_pc wa = PIdle ONone /\ w_pc wb = PIdle (ODone ex_fileB false) /\ concat (c_streams (w_st wb)) = [1; 0]%nat /\
     map (map b_data) (st_streams (view (s_heap (p_sh p)) (w_st wb))) = [[mkSl [67] [10; 0; 0; 0]; mkSl [] []]])) as (p & (wa & wb & H) & S); [|exists p, wa, wb; tauto].
  assert (S1 : psteps pstart (mkP (mkShared (fun _ => zero_rec) 0%nat []) [w_new; w_new])) by (eapply psteps_step; [eapply psteps_step; [apply psteps_refl|apply PNew]|apply (PNew _ [w_new])]).
  assert (K : forall s s' wa wa' wb, psteps pstart (mkP s [wa; wb]) -> tstep s wa s' wa' -> psteps pstart (mkP s' [wa'; wb])) by (intros s s' wa wa' wb A B; exact (psteps_step _ _ _ A (PStep s s' [] wa wa' [wb] B))).
  assert (L : forall s s' wa wb wb', psteps pstart (mkP s [wa; wb]) -> tstep s wb s' wb' -> psteps pstart (mkP s' [wa; wb'])) by (intros s s' wa wb wb' A B; exact (psteps_step _ _ _ A (PStep s s' [wa] wb wb' [] B))).
  (* A: open and read *)
  eapply K in S1; [|exact (TLoad _ _ _ ex_fileA false)]. eapply K in S1; [|apply TBegin]. eapply K in S1; [|apply TGetNew; vm_compute; discriminate]. eapply K in S1; [|eapply THead; vm_compute; reflexivity].
  eapply K in S1; [|eapply TData; [vm_compute; reflexivity|vm_compute; discriminate|vm_compute; reflexivity]].
  eapply K in S1; [|eapply TStore; [vm_compute; reflexivity|left; vm_compute; discriminate|vm_compute; reflexivity]].
  eapply K in S1; [|apply TEnd; reflexivity].
  (* B: open, read one record *)
  eapply L in S1; [|exact (TLoad _ _ _ ex_fileB false)]. eapply L in S1; [|apply TBegin]. eapply L in S1; [|apply TGetNew; vm_compute; discriminate]. eapply L in S1; [|eapply THead; vm_compute; reflexivity].
  eapply L in S1; [|eapply TData; [vm_compute; reflexivity|vm_compute; discriminate|vm_compute; reflexivity]].
  (* A: closed *)
  eapply K in S1; [|apply TClose]. eapply K in S1; [|apply TNil].
  eapply L in S1; [|eapply TStore; [vm_compute; reflexivity|left; vm_compute; discriminate|vm_compute; reflexivity]].
  eapply K in S1; [|apply TPutNil]. eapply K in S1; [|apply TClosed].
  (* B: the record of A *)
  eapply L in S1; [|apply (TGetOld _ _ [] _ []); vm_compute; discriminate]. eapply L in S1; [|eapply THead; vm_compute; reflexivity].
  eapply L in S1; [|eapply TData; [vm_compute; reflexivity|vm_compute; discriminate|vm_compute; reflexivity]].
  eapply L in S1; [|eapply TStore; [vm_compute; reflexivity|left; vm_compute; discriminate|vm_compute; reflexivity]].
  eapply L in S1; [|apply TEnd; reflexivity].
  eexists. split; [exact S1|]. eexists _, _. repeat split.
Qed.

Print Assumptions C56_exclusive.
Print Assumptions C56_read.
Print Assumptions C56_outcome.
Print Assumptions C56_frame.
