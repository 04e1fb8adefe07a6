(** * L_grid: running writes on a sheet. *)
From Verif Require Import GoBase L_base GoFloat L_float GoUnicode GoTime M_grate M_value M_dates M_fmt M_formats M_cell M_sheet S_cell L_cell S_sheet L_sheet S_grid.
From Coq Require Import Lia ZifyBool ZifyNat.

(** WText is Put("") followed by Set, WLink is Put followed by SetURL *)
Definition run_write (s : sheet) (o : gop) : res sheet :=
  match o with
  | (r, c, WPut v f) => put s r c v f
  | (r, c, WText t f) => s <- put s r c (GStr []) f ;; set_value s r c (GStr t)
  | (r, c, WLink t) => s <- put s r c (GStr t) 0 ;; set_url s r c t
  end.
Fixpoint run_writes (s : sheet) (l : list gop) : res sheet :=
  match l with
  | [] => Ok s
  | o :: l => s <- run_write s o ;; run_writes s l
  end.
Lemma run_writes_app : forall a b s, run_writes s (a ++ b) = (s <- run_writes s a ;; run_writes s b).
Proof. induction a as [|o a IH]; intros; cbn [app run_writes bind]; [reflexivity|]. destruct (run_write s o); cbn [bind]; auto. Qed.

Lemma good_str : forall t, good_value (GStr t).
Proof. intros. repeat split; try discriminate. intros (z & E & _). discriminate. Qed.
Lemma good_bool : forall b, good_value (GBool b).
Proof. intros. repeat split; try discriminate. intros (z & E & _). discriminate. Qed.
Lemma good_f64 : forall x, good_value (GF64 x).
Proof. intros. repeat split; try discriminate. intros (z & E & _). discriminate. Qed.

Definition pos_ok (s : sheet) (r c : Z) : Prop := 0 <= r < sh_nrows s /\ 0 <= c < sh_ncols s.
Lemma run_write_ok : forall x s r c w, reach_fx x -> wf s -> sh_fx s = x -> sh_cur s = 0 -> (forall r c, cell_long (content s r c)) ->
  good_write (r, c, w) ->
  exists s', run_write s (r, c, w) = Ok s' /\ wf s' /\ sh_fx s' = x /\ sh_cur s' = 0 /\ (forall r c, cell_long (content s' r c)) /\
    wrote x w (content s' r c) /\ (forall r' c', (r', c') <> (r, c) -> content s' r' c' = content s r' c') /\
    sh_nrows s' = Z.max (sh_nrows s) (r + 1) /\ sh_ncols s' = Z.max (sh_ncols s) (c + 1).
Proof.
  intros x s r c w Hx Hw Hf Hc Hl (Gr & Gc & G). cbn [fst snd] in Gr, Gc, G. destruct w as [v f|t f|t]; cbn [run_write].
  - destruct G as [Rf Gv]. destruct (make_put_cell_spec (sh_fx s) v f ltac:(congruence) Gv) as (cl & Em & Hs).
    destruct (put_ok s r c v f cl Hw Gr Gc Em) as (s1 & P & W1 & N1 & N2 & F1 & Cu & Ct).
    exists s1. split; auto. split; auto. split; [congruence|]. split; [rewrite Cu, Hc; destruct (_ && _); auto|]. split; [|split; [|split; [|auto]]].
    + intros r' c'. rewrite Ct. destruct ((r =? r') && (c =? c')); auto. apply cell_ok_long. eapply put_cell_spec_ok; [exact Rf|exact Hs].
    + cbn [wrote]. rewrite Ct, !Z.eqb_refl. cbn [andb]. rewrite <- Hf. exact Hs.
    + intros r' c' N. rewrite Ct. destruct (Z.eqb_spec r r'), (Z.eqb_spec c c'); cbn [andb]; auto. congruence.
  - destruct (make_put_cell_spec (sh_fx s) (GStr []) f ltac:(congruence) (good_str [])) as (cl & Em & Hs).
    destruct (put_ok s r c (GStr []) f cl Hw Gr Gc Em) as (s1 & P & W1 & N1 & N2 & F1 & Cu & Ct). rewrite P. cbn [bind].
    assert (L1 : forall r' c', cell_long (content s1 r' c')).
    { intros r' c'. rewrite Ct. destruct ((r =? r') && (c =? c')); auto. apply cell_ok_long. eapply put_cell_spec_ok; [exact G|exact Hs]. }
    assert (CL : exists v' t', cl = [v'; GCType t'] ++ (if f =? 0 then [] else [GInt KUint16 f])).
    { destruct Hs as [[M _]|[_ (v0 & t0 & v' & t' & _ & E & _)]]; [|eauto]. exfalso. destruct M as [M|[M|[M|M]]]; discriminate. }
    destruct CL as (v' & t' & ->).
    assert (C1 : content s1 r c = [v'; GCType t'] ++ (if f =? 0 then [] else [GInt KUint16 f])) by (rewrite Ct, !Z.eqb_refl; reflexivity).
    destruct (set_value_cases s1 r c (GStr t) W1 L1) as [[[H|H] _]|[(_ & _ & _ & _ & v0 & t0 & rest & s2 & Ec & P2 & E)|(_ & _ & H & _)]]; try lia.
    2:{ rewrite C1 in H. destruct H as [H|[H|[H|H]]]; try lia. discriminate. }
    rewrite E. exists s2. destruct (put_cell_frame _ _ _ _ _ W1 P2) as (W2 & (D1 & D2 & D3 & F2 & S2) & Cx).
    split; auto. split; auto. split; [congruence|]. split; [rewrite D3 || idtac|].
    { first [rewrite Cu, Hc; destruct (_ && _); reflexivity | congruence]. }
    split; [|split; [|split; [|split; congruence]]].
    + intros r' c'. destruct (Z.eq_dec r' r); [destruct (Z.eq_dec c' c)|].
      * subst. rewrite Cx. right. eauto.
      * rewrite S2 by congruence. auto.
      * rewrite S2 by congruence. auto.
    + cbn [wrote]. rewrite Cx. rewrite C1 in Ec. cbn [app] in Ec. injection Ec as _ _ <-. reflexivity.
    + intros r' c' N. rewrite S2 by congruence. rewrite Ct. destruct (Z.eqb_spec r r'), (Z.eqb_spec c c'); cbn [andb]; auto. congruence.
  - destruct (make_put_cell_spec (sh_fx s) (GStr t) 0 ltac:(congruence) (good_str t)) as (cl & Em & Hs).
    destruct (put_ok s r c (GStr t) 0 cl Hw Gr Gc Em) as (s1 & P & W1 & N1 & N2 & F1 & Cu & Ct). rewrite P. cbn [bind].
    assert (L1 : forall r' c', cell_long (content s1 r' c')).
    { intros r' c'. rewrite Ct. destruct ((r =? r') && (c =? c')); auto. apply cell_ok_long. eapply put_cell_spec_ok; [|exact Hs]. lia. }
    assert (CL : exists t', cl = [match t with [] => GNil | _ => GStr t end; GCType t']).
    { destruct Hs as [[M ->]|[_ (v0 & t0 & v' & t' & Hh & -> & E)]].
      - exists StaticCell. destruct t; [|reflexivity]. exfalso. destruct M as [M|[M|[M|M]]]; discriminate.
      - change (0 =? 0) with true in *. cbn iota in *. destruct E as [-> ->]. exists t0. cbn [app]. inversion Hh; subst; [destruct t; [contradiction|reflexivity]|reflexivity]. }
    destruct CL as (t' & ->).
    assert (C1 : content s1 r c = [match t with [] => GNil | _ => GStr t end; GCType t']) by (rewrite Ct, !Z.eqb_refl; reflexivity).
    destruct (set_url_cases s1 r c t W1 L1) as [[[H|H] _]|[(_ & _ & _ & _ & v0 & t0 & rest & s2 & Ec & P2 & E)|(_ & _ & H & _)]]; try lia.
    2:{ rewrite C1 in H. destruct H as [H|[H|[H|H]]]; try lia. discriminate. }
    rewrite E. exists s2. destruct (put_cell_frame _ _ _ _ _ W1 P2) as (W2 & (D1 & D2 & D3 & F2 & S2) & Cx).
    split; auto. split; auto. split; [congruence|]. split; [rewrite D3 || idtac|].
    { first [rewrite Cu, Hc; destruct (_ && _); reflexivity | congruence]. }
    split; [|split; [|split; [|split; congruence]]].
    + intros r' c'. destruct (Z.eq_dec r' r); [destruct (Z.eq_dec c' c)|].
      * subst. rewrite Cx. right. unfold linked. eauto.
      * rewrite S2 by congruence. auto.
      * rewrite S2 by congruence. auto.
    + cbn [wrote]. rewrite Cx. rewrite C1 in Ec. injection Ec as <- _ <-. reflexivity.
    + intros r' c' N. rewrite S2 by congruence. rewrite Ct. destruct (Z.eqb_spec r r'), (Z.eqb_spec c c'); cbn [andb]; auto. congruence.
Qed.

Lemma extent_max : forall l a b, extent (Z.max a b) l = Z.max b (extent a l).
Proof. induction l as [|i l IH]; intros; cbn [extent fold_right]; [lia|]. fold (extent (Z.max a b) l) (extent a l). rewrite IH. lia. Qed.
Lemma extent_ge : forall l a, a <= extent a l.
Proof. induction l as [|i l IH]; intros; cbn [extent fold_right]; [lia|]. fold (extent a l). specialize (IH a). lia. Qed.
Definition wrow (o : gop) : Z := fst (fst o).
Definition wcol (o : gop) : Z := snd (fst o).
Lemma run_writes_ok : forall x ws s, reach_fx x -> wf s -> sh_fx s = x -> sh_cur s = 0 -> (forall r c, cell_long (content s r c)) ->
  Forall good_write ws ->
  exists s', run_writes s ws = Ok s' /\ wf s' /\ sh_fx s' = x /\ sh_cur s' = 0 /\ (forall r c, cell_long (content s' r c)) /\
    (forall r c, match last_write ws r c with Some w => wrote x w (content s' r c) | None => content s' r c = content s r c end) /\
    (forall r c, last_write ws r c <> None -> pos_ok s' r c) /\
    sh_nrows s' = extent (sh_nrows s) (map wrow ws) /\ sh_ncols s' = extent (sh_ncols s) (map wcol ws).
Proof.
  induction ws as [|[[r c] w] ws IH]; intros s Hx Hw Hf Hc Hl F.
  - exists s. cbn. repeat split; auto; try lia; congruence.
  - inversion F as [|? ? G F']; subst. destruct (run_write_ok (sh_fx s) s r c w Hx Hw eq_refl Hc Hl G) as (s1 & R1 & W1 & F1 & C1 & L1 & Wr & Fr & N1 & N2).
    destruct (IH s1) as (s' & R & W' & F2 & C' & L' & Co & Po & M1 & M2); auto; try congruence.
    exists s'. cbn [run_writes]. rewrite R1. cbn [bind]. split; auto. split; auto. split; [congruence|]. split; auto. split; auto. split; [|split; [|cbn [map extent fold_right]; change (wrow (r, c, w)) with r; change (wcol (r, c, w)) with c; fold (extent (sh_nrows s) (map wrow ws)) (extent (sh_ncols s) (map wcol ws));
      rewrite M1, M2, N1, N2, !extent_max; split; lia]].
    + intros r' c'. cbn [last_write]. specialize (Co r' c'). destruct (last_write ws r' c') as [w'|]; [auto|].
      destruct (Z.eqb_spec r r'), (Z.eqb_spec c c'); cbn [andb]; [subst; rewrite Co; auto|..]; rewrite Co; apply Fr; congruence.
    + intros r' c'. cbn [last_write]. specialize (Po r' c'). destruct (last_write ws r' c') as [w'|]; [auto|].
      destruct G as (Gr & Gc & _). cbn [fst snd] in Gr, Gc. destruct (Z.eqb_spec r r'), (Z.eqb_spec c c'); cbn [andb]; try congruence. intros _. subst r' c'. pose proof (extent_ge (map wrow ws) (sh_nrows s1)). pose proof (extent_ge (map wcol ws) (sh_ncols s1)). split; lia.
Qed.

Lemma displays_content : forall x ws rows cols s, sh_fx s = x -> wf s -> sh_cur s = 0 ->
  (forall r c, match last_write ws r c with Some w => wrote x w (content s r c) | None => content s r c = [] end) ->
  (forall r c, last_write ws r c <> None -> pos_ok s r c) -> (rows <= sh_nrows s) -> (cols <= sh_ncols s) ->
  (ws = [] /\ rows <= 0 /\ cols <= 0 /\ sh_nrows s = 0 \/ sh_nrows s = extent (Z.max 1 rows) (map wrow ws) /\ sh_ncols s = extent (Z.max 1 cols) (map wcol ws)) ->
  displays x ws rows cols s.
Proof.
  intros x ws rows cols s FX W Cu C D NR NC Z0. split; [exact FX|]. split.
  { unfold is_empty. destruct W as [(E1 & E2 & E3 & E4)|(A1 & B & C1 & D1 & E)].
    - destruct Z0 as [(-> & R & K & _)|[Z1 Z2]]; [cbn [map extent fold_right]; lia|]. pose proof (extent_ge (map wrow ws) (Z.max 1 rows)). lia.
    - destruct Z0 as [(_ & _ & _ & Z0)|[Z1 Z2]]; [lia|]. unfold wrow, wcol in *. rewrite <- Z1, <- Z2. lia. }
  exists (sh_rows s). split; [|split; [|split]].
  - assert (G : sh_rows s = map (map (fun c => c)) (skipn (Z.to_nat (sh_cur s)) (sh_rows s))).
    { rewrite Cu. simpl. rewrite <- (map_id (sh_rows s)) at 1. apply map_ext. intros. symmetry. apply map_id. }
    rewrite G. apply delivers_map; auto. intros. unfold cell_clone. rewrite map_id. reflexivity.
  - intros r c row cl Er Ec. specialize (C (Z.of_nat r) (Z.of_nat c)).
    assert (Ect : content s (Z.of_nat r) (Z.of_nat c) = cl).
    { unfold content, get_cell. rewrite (idx_ok _ (sh_rows s) (Z.of_nat r) row); [|lia|rewrite Nat2Z.id; auto].
      cbn [bind]. rewrite (idx_ok _ row (Z.of_nat c) cl); [auto|lia|rewrite Nat2Z.id; auto]. }
    rewrite Ect in C. exact C.
  - intros r c Hr.
    assert (P : pos_ok s r c) by (destruct Hr as [Hr|[? ?]]; [apply D; auto|split; lia]). destruct P as [Dr Dc].
    destruct W as [(E1 & E2 & E3 & E4)|(A1 & B & C1 & D1 & E)]; [lia|].
    destruct (idx_in _ (sh_rows s) r ltac:(lia)) as [row Erow]. apply idx_inv in Erow as [_ Erow].
    assert (zlen row = sh_ncols s) by (rewrite Forall_forall in D1; apply D1; eapply nth_error_In; eauto).
    destruct (idx_in _ row c ltac:(lia)) as [cl Ecl]. apply idx_inv in Ecl as [_ Ecl]. eauto.
  - destruct W as [(E1 & E2 & E3 & E4)|(A1 & B & C1 & D1 & E)].
    + destruct Z0 as [(-> & R & K & _)|[Z1 Z2]]; [left; auto|]. pose proof (extent_ge (map wrow ws) (Z.max 1 rows)). lia.
    + destruct Z0 as [(_ & _ & _ & Z0)|[Z1 Z2]]; [lia|]. right. split; [unfold wrow in Z1; rewrite C1; lia|]. unfold wcol in Z2. rewrite <- Z2. exact D1.
Qed.

(** the grid shown by a sheet that starts empty, is resized once or not, and then written *)
Lemma writes_display : forall x ws rows cols, reach_fx x -> Forall good_write ws -> 0 <= rows -> 0 <= cols ->
  exists s, run_writes (resize (empty_sheet x) rows cols) ws = Ok s /\ displays x ws rows cols s.
Proof.
  intros x ws rows cols Hx F HR HC.
  destruct (grows_wf (empty_sheet x) [OResize rows cols]) as (s2 & R & W & Fx); auto; [constructor; auto; constructor|apply wf_empty|]. cbn [run_ops run_op bind] in R. injection R as <-.
  assert (B : forall r c, content (resize (empty_sheet x) rows cols) r c = []) by (intros; apply resize_content_blank; reflexivity).
  destruct (run_writes_ok x ws (resize (empty_sheet x) rows cols)) as (s' & R & W' & F2 & C' & L' & Co & Po & M1 & M2); auto.
  { intros. left. apply B. }
  exists s'. split; auto. apply displays_content; auto.
  - intros r c. specialize (Co r c). destruct (last_write ws r c); auto. rewrite Co. apply B.
  - pose proof (extent_ge (map wrow ws) (sh_nrows (resize (empty_sheet x) rows cols))). unfold resize in *. cbn [sh_nrows] in *. destruct (Z.leb_spec rows 0); lia.
  - pose proof (extent_ge (map wcol ws) (sh_ncols (resize (empty_sheet x) rows cols))). unfold resize in *. cbn [sh_ncols] in *. destruct (Z.leb_spec cols 0); lia.
  - right. rewrite M1, M2. unfold resize. cbn [sh_nrows sh_ncols]. split; f_equal; [destruct (Z.leb_spec rows 0)|destruct (Z.leb_spec cols 0)]; lia.
Qed.
Lemma writes_display0 : forall x ws, reach_fx x -> Forall good_write ws ->
  exists s, run_writes (empty_sheet x) ws = Ok s /\ displays x ws 0 0 s.
Proof.
  intros x ws Hx F.
  destruct (run_writes_ok x ws (empty_sheet x)) as (s' & R & W' & F2 & C' & L' & Co & Po & M1 & M2); auto; [apply wf_empty|intros; left; apply content_empty|].
  exists s'. split; auto. apply displays_content; auto.
  - intros r c. specialize (Co r c). destruct (last_write ws r c); auto. rewrite Co. apply content_empty.
  - rewrite M1. apply (extent_ge (map wrow ws) 0).
  - rewrite M2. apply (extent_ge (map wcol ws) 0).
  - destruct ws as [|[[r c] w] ws]; [left; rewrite M1; repeat split; lia|]. right. rewrite M1, M2. cbn [empty_sheet sh_nrows sh_ncols].
    inversion F as [|? ? (Gr & Gc & _)]; subst. cbn [fst snd] in Gr, Gc. cbn [map extent fold_right].
    fold (extent (Z.max 1 0) (map wrow ws)) (extent (Z.max 1 0) (map wcol ws)) (extent 0 (map wrow ws)) (extent 0 (map wcol ws)).
    change (Z.max 1 0) with (Z.max 0 1). rewrite !extent_max. change (wrow (r, c, w)) with r; change (wcol (r, c, w)) with c. pose proof (extent_ge (map wrow ws) 0). pose proof (extent_ge (map wcol ws) 0). split; lia.
Qed.
Lemma last_write_app : forall a b r c, last_write (a ++ b) r c = match last_write b r c with Some w => Some w | None => last_write a r c end.
Proof.
  induction a as [|[[r' c'] w] a IH]; intros; cbn [app last_write]; [destruct (last_write b r c); auto|]. rewrite IH. destruct (last_write b r c); auto.
Qed.
