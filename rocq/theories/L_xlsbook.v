(** * L_xlsbook: the loader's second pass on well-formed workbook globals. *)
From Verif Require Import GoBase L_base GoFloat L_float GoUnicode GoTime M_grate M_value M_dates M_fmt M_formats M_cell M_sheet S_cell L_cell S_sheet L_sheet
  S_grid L_grid S_crypto M_biff S_biff L_biff P_biff M_xlstr S_xlstr L_xlstr M_hlink S_hlink L_hlink M_xls S_xls P_xlstr P_hlink L_xls.
From Coq Require Import Lia ZifyBool ZifyNat.
Local Opaque f_of_bits fdiv f_of_Z put set_value fx_add.

Definition as_bsheet (s : Z * Z * Z * gostr) : bsheet := match s with (pos, hidden, ty, name) => mkBS pos hidden ty name end.
(** the effect of one global record *)
Definition after_g (w : wbook) (g : grec) : wbook :=
  match g with
  | GFormat id res wd us => mkWB (wb_sheets w) (wb_strings w) (wb_date w) (fst (fx_add (wb_fx w) id (utf16_string us))) (wb_xfs w) (wb_streams w) (wb_map w)
  | GXf font fmt tail => mkWB (wb_sheets w) (wb_strings w) (wb_date w) (wb_fx w) (wb_xfs w ++ [fmt]) (wb_streams w) (wb_map w)
  | GSheet pos hidden ty res wd us => mkWB (wb_sheets w ++ [mkBS pos hidden ty (utf16_string us)]) (wb_strings w) (wb_date w) (wb_fx w) (wb_xfs w) (wb_streams w) (wb_map w)
  | GDate m tail => mkWB (wb_sheets w) (wb_strings w) m (wb_fx w) (wb_xfs w) (wb_streams w) (wb_map w)
  | GSst total items => mkWB (wb_sheets w) (map (fun x => item_text (snd x)) items) (wb_date w) (wb_fx w) (wb_xfs w) (wb_streams w) (wb_map w)
  | _ => w
  end.

Lemma nonempty : forall d p x, dat d = x ++ p -> 0 < zlen x -> (sl_len d =? 0) = false.
Proof. intros d p x E H. unfold sl_len. rewrite E, zlen_app. pose proof (zlen_nonneg _ p). lia. Qed.
Lemma continues_app : forall ps l rest, typed l (map (fun q => (CONTINUE, q)) ps) -> no_cont rest -> map dat (continues (l ++ rest)) = ps.
Proof.
  induction ps as [|p ps IH]; intros l rest T N; cbn [map] in T.
  - apply typed_nil in T. subst l. destruct rest as [|r rest]; [reflexivity|]. cbn [app continues no_cont] in *. destruct (Z.eqb_spec (b_type r) RecTypeContinue); [congruence|reflexivity].
  - start T sz d l' Ed Es. cbn [app continues b_type b_data]. change (CONTINUE =? RecTypeContinue) with true. cbv iota. cbn [map]. rewrite Ed, IH by auto. reflexivity.
Qed.
Lemma load_continue : forall w r rest, b_type r = CONTINUE -> load_rec w r rest = Ok w.
Proof. intros w r rest E. unfold load_rec. rewrite E. destruct (sl_len (b_data r) =? 0); [reflexivity|]. zdec. reflexivity. Qed.
Lemma load_continues : forall ps w l rest, typed l (map (fun q => (CONTINUE, q)) ps) -> load_recs w (l ++ rest) = load_recs w rest.
Proof.
  induction ps as [|p ps IH]; intros w l rest T; cbn [map] in T.
  - apply typed_nil in T. subst l. reflexivity.
  - start T sz d l' Ed Es. cbn [app load_recs]. rewrite load_continue by reflexivity. cbn [bind]. apply IH. exact T.
Qed.
Lemma load_other : forall w r rest, ~ In (b_type r) global_types -> b_type r <> BOF -> load_rec w r rest = Ok w.
Proof.
  intros w r rest N NB. unfold global_types in N. cbn [In] in N. unfold load_rec. destruct (sl_len (b_data r) =? 0); [reflexivity|].
  destruct (Z.eqb_spec (b_type r) RecTypeSST) as [E|_]; [exfalso; apply N; left; symmetry; exact E|].
  destruct (b_type r =? RecTypeContinue); [reflexivity|]. destruct (b_type r =? RecTypeEOF); [reflexivity|].
  destruct (Z.eqb_spec (b_type r) RecTypeBOF) as [E|_]; [elim NB; exact E|].
  unfold RecTypeCodePage, RecTypeDate1904, RecTypeFormat, RecTypeXF, RecTypeBoundSheet8.
  repeat match goal with |- context [b_type r =? ?n] => destruct (Z.eqb_spec (b_type r) n) as [E|_]; [exfalso; apply N; rewrite E; intuition|] end. reflexivity.
Qed.
Lemma load_bof : forall w r rest, b_type r = BOF -> dat (b_data r) = [] \/ bof_ok (dat (b_data r)) -> load_rec w r rest = Ok w.
Proof.
  intros w [ty sz d] rest E H. cbn [b_type b_data] in *. subst ty. unfold load_rec. cbn [b_type b_data]. destruct H as [H|(dt & bu & yr & tl & H & W1 & W2 & Y & L)].
  - unfold sl_len. rewrite H. reflexivity.
  - rewrite (nonempty d _ _ H) by reflexivity. zdec. unfold check_bof.
    rewrite (range_at d [] (put16 1536) _ 0 2 H) by reflexivity. cbn [bind dat]. change (le16 (put16 1536)) with (@Ok Z 1536). cbn [bind].
    rewrite (range_at d (put16 1536) (put16 dt) _ 2 4 H) by reflexivity. cbn [bind dat]. rewrite le16_put16' by exact W1. cbn [bind].
    erewrite (range_at d (put16 1536 ++ put16 dt) (put16 bu)); [|rewrite <- app_assoc; exact H|reflexivity|reflexivity]. cbn [bind dat]. rewrite le16_put16' by exact W2. cbn [bind].
    erewrite (range_at d (put16 1536 ++ put16 dt ++ put16 bu) (put16 yr)); [|rewrite <- !app_assoc; exact H|reflexivity|reflexivity]. cbn [bind dat]. rewrite le16_put16' by lia. cbn [bind].
    assert (TL : exists x y, tl = x ++ y /\ zlen x = 8) by (exists (ztake 8 tl), (zdrop 8 tl); split; [symmetry; apply ztake_zdrop|apply zlen_ztake; lia]). destruct TL as (x & y & -> & Lx).
    rewrite (range_at d (put16 1536 ++ put16 dt ++ put16 bu ++ put16 yr) x y 8 16); [|rewrite <- !app_assoc; exact H|reflexivity|lia]. cbn [bind dat].
    assert (LX : exists v, le64 x = Ok v).
    { destruct x as [|x0 [|x1 [|x2 [|x3 [|x4 [|x5 [|x6 [|x7 [|x8 x]]]]]]]]]; try (vm_compute in Lx; discriminate). 
      1: (eexists; reflexivity). exfalso. rewrite !zlen_cons in Lx. pose proof (zlen_nonneg _ x). lia. }
    destruct LX as (v & ->). cbn [bind]. change (1536 =? 1536) with true. cbn [negb]. destruct Y as [-> | ->]; reflexivity.
Qed.

Lemma grec_step : forall w g l rest, grec_ok g -> typed l (grec_recs g) -> no_cont rest -> load_recs w (l ++ rest) = load_recs (after_g w g) rest.
Proof.
  intros w g l rest OK T N. destruct g as [id res wd us|font fmt tail|pos hidden ty res wd us|m tail|cp tail|total items|ty p conts]; cbn [grec_ok grec_recs after_g] in *.
  - destruct OK as (W1 & W2 & W3). start T sz d l' Ed Es. apply typed_nil in T. subst l'. cbn [app load_recs]. unfold load_rec. cbn [b_type b_data]. rewrite (nonempty d _ _ Ed) by reflexivity. zdec.
    rewrite Ed at 1. rewrite le16_put16 by exact W1. cbn [bind]. rewrite (from_at d (put16 id) _ 2 Ed eq_refl). cbn [bind]. rewrite <- (app_nil_r (long_string res wd us)). rewrite C47_long by auto. reflexivity.
  - start T sz d l' Ed Es. apply typed_nil in T. subst l'. cbn [app load_recs]. unfold load_rec. cbn [b_type b_data]. rewrite (nonempty d _ _ Ed) by reflexivity. zdec.
    rewrite (from_at d (put16 font) _ 2 Ed eq_refl). cbn [bind dat]. rewrite le16_put16 by exact OK. reflexivity.
  - destruct OK as (W1 & W2 & W3). start T sz d l' Ed Es. apply typed_nil in T. subst l'. cbn [app load_recs]. unfold load_rec. cbn [b_type b_data]. rewrite (nonempty d _ _ Ed) by reflexivity. zdec.
    destruct d as [dd sp]. cbn [dat] in Ed. subst dd. rewrite sl_to_ok by reflexivity. cbn [bind dat]. rewrite le32_put32' by exact W1. cbn [bind].
    rewrite (byte_at _ (put32 pos) hidden (ty :: short_string res wd us) 4) by reflexivity. cbn [bind]. rewrite (byte_at _ (put32 pos ++ [hidden]) ty (short_string res wd us) 5) by reflexivity. cbn [bind].
    rewrite (from_at _ (put32 pos ++ [hidden; ty]) (short_string res wd us) 6) by reflexivity. cbn [bind spare]. rewrite <- (app_nil_r (short_string res wd us)). rewrite C47_short by auto. reflexivity.
  - start T sz d l' Ed Es. apply typed_nil in T. subst l'. cbn [app load_recs]. unfold load_rec. cbn [b_type b_data]. rewrite (nonempty d _ _ Ed) by reflexivity. zdec. rewrite Ed at 1. rewrite le16_put16 by exact OK. reflexivity.
  - start T sz d l' Ed Es. apply typed_nil in T. subst l'. cbn [app load_recs]. unfold load_rec. cbn [b_type b_data]. rewrite (nonempty d _ _ Ed) by reflexivity. zdec. rewrite Ed at 1. rewrite le16_put16 by exact OK. reflexivity.
  - destruct OK as (W1 & W2 & W3). destruct (sst_records total items) as [|p ps] eqn:ES.
    { exfalso. unfold sst_records in ES. destruct (layout items) as [|y ys] eqn:EL; [exact (layout_nonnil _ EL)|]. rewrite glue_one in ES. discriminate. }
    start T sz d l' Ed Es. cbn [app load_recs].
    assert (NP : (sl_len d =? 0) = false).
    { unfold sst_records in ES. destruct (layout items) as [|y ys] eqn:EL; [exfalso; exact (layout_nonnil _ EL)|]. rewrite glue_one in ES. apply (f_equal (hd [])) in ES. cbn [hd] in ES. rewrite <- ES in Ed. rewrite <- !app_assoc in Ed. apply (nonempty d _ _ Ed). reflexivity. }
    assert (PS : parse_sst (d :: continues (l' ++ rest)) = Ok (map (fun x => item_text (snd x)) items)).
    { apply (C48_shared_strings total); auto. cbn [map]. rewrite (continues_app ps) by auto. rewrite Ed. auto. }
    unfold load_rec. cbn [b_type b_data]. rewrite NP. zdec. rewrite PS. cbn [bind]. apply (load_continues ps). exact T.
  - destruct OK as (W1 & W2 & W3 & W4). start T sz d l' Ed Es. cbn [app load_recs]. rewrite load_other by auto. cbn [bind]. apply (load_continues conts). exact T.
Qed.
Lemma grec_head : forall g, grec_ok g -> exists ty p fs, grec_recs g = (ty, p) :: fs /\ ty <> CONTINUE.
Proof.
  intros g OK. destruct g; cbn [grec_recs grec_ok] in *; try (do 3 eexists; split; [reflexivity|discriminate]).
  - destruct (sst_records total items) as [|p ps] eqn:ES; [|do 3 eexists; split; [reflexivity|discriminate]].
    exfalso. unfold sst_records in ES. destruct (layout items) as [|y ys] eqn:EL; [exact (layout_nonnil _ EL)|]. rewrite glue_one in ES. discriminate.
  - do 3 eexists. split; [reflexivity|]. apply OK.
Qed.
Lemma no_cont_grecs : forall gs l rest, Forall grec_ok gs -> typed l (flat_map grec_recs gs) -> no_cont rest -> no_cont (l ++ rest).
Proof.
  intros [|g gs] l rest F T N; cbn [flat_map] in T.
  - apply typed_nil in T. subst l. exact N.
  - inversion F as [|? ? OK F']; subst. destruct (grec_head g OK) as (ty & p & fs & E & NC). rewrite E in T. cbn [app] in T. start T sz d l' Ed Es. exact NC.
Qed.
Lemma grecs_steps : forall gs w l rest, Forall grec_ok gs -> typed l (flat_map grec_recs gs) -> no_cont rest -> load_recs w (l ++ rest) = load_recs (fold_left after_g gs w) rest.
Proof.
  induction gs as [|g gs IH]; intros w l rest F T N; cbn [flat_map fold_left] in *.
  - apply typed_nil in T. subst l. reflexivity.
  - inversion F as [|? ? OK F']; subst. apply typed_app in T. destruct T as (l1 & l2 & -> & T1 & T2). rewrite <- app_assoc. rewrite (grec_step w g) by (auto; eapply no_cont_grecs; eauto). apply IH; auto.
Qed.
Lemma load_globals : forall p gs q w l, bof_ok p -> Forall grec_ok gs -> typed l (globals_recs p gs q) -> load_recs w l = Ok (fold_left after_g gs w).
Proof.
  intros p gs q w l B F T. unfold globals_recs in T. start T sz d l' Ed Es. apply typed_app in T. destruct T as (l1 & l2 & -> & T1 & T2). start T2 sz2 d2 l3 Ed2 Es2. apply typed_nil in T2. subst l3.
  cbn [load_recs]. rewrite load_bof by (auto; right; cbn [b_data]; rewrite Ed; exact B). cbn [bind]. rewrite (grecs_steps gs) by (auto; discriminate). cbn [load_recs].
  rewrite load_other; [reflexivity| |discriminate]. cbn [b_type]. unfold global_types, EOFR, FILEPASS. cbn [In]. intuition discriminate.
Qed.
Lemma load_local : forall fs w l, Forall local_rec fs -> typed l fs -> load_recs w l = Ok w.
Proof.
  induction fs as [|[ty p] fs IH]; intros w l F T.
  - apply typed_nil in T. subst l. reflexivity.
  - inversion F as [|? ? [N B] F']; subst. cbn [fst snd] in *. start T sz d l' Ed Es. cbn [load_recs].
    assert (E : load_rec w (mkRec ty sz d) l' = Ok w).
    { destruct (Z.eq_dec ty BOF) as [->|NB]; [apply load_bof; [reflexivity|cbn [b_data]; rewrite Ed; auto]|apply load_other; auto]. }
    rewrite E. cbn [bind]. apply IH; auto.
Qed.
Lemma load_locals : forall gs w ls, Forall (Forall local_rec) gs -> map (map payload) ls = gs -> Forall (Forall (fun r => b_size r = sl_len (b_data r))) ls -> load_streams w ls = Ok w.
Proof.
  induction gs as [|g gs IH]; intros w [|l ls] F M S; try discriminate; [reflexivity|]. injection M as M1 M2. inversion F; subst. inversion S; subst. cbn [load_streams].
  erewrite (load_local (map payload l)); [|auto|split; auto]. cbn [bind]. apply IH; auto.
Qed.

(** ** the accumulated effect *)
Lemma after_sheets : forall gs w, wb_sheets (fold_left after_g gs w) = wb_sheets w ++ map as_bsheet (g_sheets gs).
Proof.
  induction gs as [|g gs IH]; intros w; cbn [fold_left]; [unfold g_sheets; cbn; rewrite app_nil_r; reflexivity|]. rewrite IH. unfold g_sheets. destruct g; cbn [after_g wb_sheets flat_map map app]; auto. rewrite <- app_assoc. reflexivity.
Qed.
Lemma after_xfs : forall gs w, wb_xfs (fold_left after_g gs w) = wb_xfs w ++ g_xfs gs.
Proof.
  induction gs as [|g gs IH]; intros w; cbn [fold_left]; [unfold g_xfs; cbn; rewrite app_nil_r; reflexivity|]. rewrite IH. unfold g_xfs. destruct g; cbn [after_g wb_xfs flat_map map app]; auto. rewrite <- app_assoc. reflexivity.
Qed.
Lemma after_strings : forall gs w, wb_strings (fold_left after_g gs w) = match g_strings gs with Some l => l | None => wb_strings w end.
Proof.
  induction gs as [|g gs IH]; intros w; cbn [fold_left g_strings]; [reflexivity|]. rewrite IH. destruct (g_strings gs); [reflexivity|]. destruct g; reflexivity.
Qed.
Lemma after_fx : forall gs w, wb_fx (fold_left after_g gs w) = fold_left (fun x f => fst (fx_add x (fst f) (snd f))) (g_formats gs) (wb_fx w).
Proof.
  induction gs as [|g gs IH]; intros w; cbn [fold_left]; [reflexivity|]. rewrite IH. unfold g_formats. destruct g; cbn [after_g wb_fx flat_map app fold_left fst snd]; reflexivity.
Qed.
Lemma after_date : forall gs w, wb_date (fold_left after_g gs w) = last (g_date gs) (wb_date w).
Proof.
  induction gs as [|g gs IH]; intros w; cbn [fold_left]; [reflexivity|]. rewrite IH. unfold g_date. destruct g; cbn [after_g wb_date flat_map app]; try reflexivity. rewrite last_cons'. reflexivity.
Qed.
Lemma after_frame : forall gs w, wb_streams (fold_left after_g gs w) = wb_streams w /\ wb_map (fold_left after_g gs w) = wb_map w.
Proof. induction gs as [|g gs IH]; intros w; cbn [fold_left]; [split; reflexivity|]. destruct (IH (after_g w g)) as [-> ->]. destruct g; split; reflexivity. Qed.
Lemma reach_formats : forall l x, reach_fx x -> reach_fx (fold_left (fun x (f : Z * gostr) => fst (fx_add x (fst f) (snd f))) l x).
Proof. induction l as [|f l IH]; intros x H; cbn [fold_left]; auto. apply IH. constructor. exact H. Qed.
Lemma xfs_fit : forall gs, Forall grec_ok gs -> Forall w16 (g_xfs gs).
Proof. intros gs F. induction F as [|g gs OK F IH]; [constructor|]. unfold g_xfs. cbn [flat_map]. apply Forall_app. split; [|exact IH]. destruct g; constructor; [exact OK|constructor]. Qed.
