(** * P_sheet: properties C10-C16 (commonxl sheets). *)
From Verif Require Import GoBase L_base GoFloat L_float GoUnicode GoTime M_grate M_value M_dates M_fmt M_formats M_cell M_sheet S_cell L_cell S_sheet L_sheet.
From Coq Require Import Lia ZifyBool ZifyNat.
Open Scope Z_scope.

(** C10.  For every sequence of Put calls on a new sheet (any order, any positions, any repeats):
    no call panics, and reading the sheet with Next/Raw gives a grid that has, at every position
    put, the cell for the last value put there, and blank cells everywhere else. *)
Theorem C10_last_put_wins : forall x ops, reach_fx x -> Forall good_put ops ->
  exists s grid, run_ops (empty_sheet x) ops = Ok s /\ delivers raw s grid /\
    (forall r c row cl, nth_error grid r = Some row -> nth_error row c = Some cl ->
       match last_put ops (Z.of_nat r) (Z.of_nat c) with
       | Some (v, f) => put_cell_spec x v f cl
       | None => cl = []
       end) /\
    (forall r c, last_put ops r c <> None ->
       exists row cl, nth_error grid (Z.to_nat r) = Some row /\ nth_error row (Z.to_nat c) = Some cl).
Proof.
  intros x ops Hx Hl.
  destruct (run_puts_spec x ops (empty_sheet x) Hx (wf_empty x) eq_refl Hl) as (s & R & W & F & C & D & _ & _ & Cu).
  specialize (Cu eq_refl).
  exists s, (sh_rows s). split; auto. split; [|split].
  - assert (G : sh_rows s = map (map (fun c => c)) (skipn (Z.to_nat (sh_cur s)) (sh_rows s))).
    { rewrite Cu. simpl. rewrite <- (map_id (sh_rows s)) at 1. apply map_ext. intros. symmetry. apply map_id. }
    rewrite G. apply delivers_map; auto. intros. unfold cell_clone. rewrite map_id. reflexivity.
  - intros r c row cl Er Ec. specialize (C (Z.of_nat r) (Z.of_nat c)).
    assert (Ect : content s (Z.of_nat r) (Z.of_nat c) = cl).
    { unfold content, get_cell. rewrite (idx_ok _ (sh_rows s) (Z.of_nat r) row); [|lia|rewrite Nat2Z.id; auto].
      cbn [bind]. rewrite (idx_ok _ row (Z.of_nat c) cl); [auto|lia|rewrite Nat2Z.id; auto]. }
    rewrite Ect in C. destruct (last_put ops _ _) as [[v f]|]; auto. rewrite C.
    unfold content, get_cell, empty_sheet. simpl. destruct (Z.of_nat r); try reflexivity.
    unfold idx. destruct (_ <=? _); auto. destruct (Z.to_nat _); auto.
  - intros r c Hr. destruct (D r c Hr) as [Dr Dc].
    destruct W as [(E1 & E2 & E3 & E4)|(A1 & B & C1 & D1 & E)]; [lia|].
    destruct (idx_in _ (sh_rows s) r ltac:(lia)) as [row Erow]. apply idx_inv in Erow as [_ Erow].
    assert (zlen row = sh_ncols s) by (rewrite Forall_forall in D1; apply D1; eapply nth_error_In; eauto).
    destruct (idx_in _ row c ltac:(lia)) as [cl Ecl]. apply idx_inv in Ecl as [_ Ecl]. eauto.
Qed.

(** The reader never sees two different grids: Next/Raw are deterministic. *)
Theorem C10_grid_unique : forall A (obs : sheet -> res A) s l1 l2,
  delivers obs s l1 -> delivers obs s l2 -> l1 = l2.
Proof. intros. eapply delivers_fun; eauto. Qed.

Definition ex_ops : list sop :=
  [OPut 2 1 (GStr (bs "old")) 0; OPut 0 3 (GInt KInt 7) 2; OPut 2 1 (GF64 (f_of_Z 5)) 1].
Example ex_C10_good : Forall good_put ex_ops.
Proof.
  assert (forall v : goval, proper v -> v <> GNil -> (forall t, v <> GOther t) ->
     ~ (exists z, v = GInt KUint z /\ 2 ^ 63 <= z) -> good_value v) by (unfold good_value; auto).
  repeat constructor; simpl; try lia; try (intros; discriminate); try (intros (z & E & _); discriminate).
Qed.
Example ex_C10 : exists s, run_ops (empty_sheet new_formatter) ex_ops = Ok s /\
  sh_nrows s = 3 /\ sh_ncols s = 4 /\
  get_cell s 2 1 = Ok [GInt KInt64 5; GCType IntegerCell; GInt KUint16 1] /\
  get_cell s 0 3 = Ok [GF64 (f_of_Z 7); GCType FloatCell; GInt KUint16 2] /\ get_cell s 1 1 = Ok [].
Proof. eexists. repeat split; vm_compute; reflexivity. Qed.

(** C11.  After any sequence of Put calls and non-shrinking Resize calls, wherever the cursor is,
    every record read with Types, Formats and Raw has exactly NumCols entries and none of these
    calls panics; all three deliver the same number of records. *)
Theorem C11_rectangular : forall x ops s, reach_fx x -> grows (empty_sheet x) ops ->
  run_ops (empty_sheet x) ops = Ok s ->
  exists rt rf rr, delivers types s rt /\ delivers formats s rf /\ delivers raw s rr /\
    List.length rt = List.length rr /\ List.length rf = List.length rr /\
    Forall (fun l => zlen l = sh_ncols s) rt /\ Forall (fun l => zlen l = sh_ncols s) rf /\
    Forall (fun l => zlen l = sh_ncols s) rr.
Proof.
  intros x ops s Hx Hg Hr.
  destruct (grows_wf _ _ Hg Hx (wf_empty x)) as (s' & R & W & F). rewrite Hr in R. injection R as <-.
  assert (Hc : forall r c, cell_ok (content s r c)).
  { eapply grows_cells; eauto; [apply wf_empty|]. intros r c. left. unfold content, get_cell, empty_sheet. simpl.
    unfold idx. destruct (_ <=? _); auto. destruct (Z.to_nat _); auto. }
  set (rows := skipn (Z.to_nat (sh_cur s)) (sh_rows s)).
  assert (HF : Forall (fun r : list (list goval) => zlen r = sh_ncols s) rows).
  { destruct W as [(E1 & E2 & E3 & E4)|(A1 & B & C1 & D1 & E)].
    - unfold rows. rewrite E1. rewrite skipn_nil. constructor.
    - unfold rows. apply Forall_forall. intros r Hin. rewrite Forall_forall in D1. apply D1.
      rewrite <- (firstn_skipn (Z.to_nat (sh_cur s)) (sh_rows s)). apply in_or_app. auto. }
  assert (Hmap : forall A (g : list goval -> A), Forall (fun l => zlen l = sh_ncols s) (map (map g) rows)).
  { intros. apply Forall_map. eapply Forall_impl; [|exact HF]. simpl. intros. rewrite zlen_map. auto. }
  exists (map (map (fun c => match (t <- cell_type c ;; Ok (ctype_string t)) with Ok s => s | _ => [] end)) rows),
         (map (map (fun c => match cell_format c with Ok s => s | _ => [] end)) rows),
         (map (map (fun c : list goval => cell_clone c)) rows).
  repeat split; try apply Hmap; try (rewrite !map_length; reflexivity).
  - apply delivers_map; auto. intros r c _ _. destruct (cell_ok_type _ (Hc r c)) as [t ->]. reflexivity.
  - apply delivers_map; auto. intros r c _ _. unfold cell_format.
    destruct (cell_ok_format _ (Hc r c)) as (n & -> & _). reflexivity.
  - apply delivers_map; auto.
Qed.

(** C11.  Strings on the current record has NumCols entries whenever it returns. *)
Theorem C11_strings_width : forall s l, strings s = Ok l -> zlen l = Z.max 0 (sh_ncols s).
Proof.
  intros s l H. unfold strings, row_map in H.
  destruct (idx _ _) as [r| | |]; simpl in H; try discriminate.
  assert (forall (f : list goval -> res gostr) n r i o, fill_row f n i r = Ok o -> i + zlen o <= Z.max i n).
  { clear. induction r as [|c r IH]; simpl; intros i o H; [injection H as <-; rewrite zlen_nil; lia|].
    destruct (f c); simpl in H; try discriminate. destruct (Z.leb_spec n i); [discriminate|].
    destruct (fill_row f n (i + 1) r) eqn:E; simpl in H; try discriminate. injection H as <-.
    apply IH in E. rewrite zlen_cons. lia. }
  destruct (fill_row _ _ _ r) as [o| | |] eqn:E; simpl in H; try discriminate. injection H as <-.
  apply H0 in E. pose proof (zlen_nonneg _ o). rewrite zlen_app, zlen_repeat. lia.
Qed.

(** C11, the violated part: after a shrinking Resize the first record cannot be read. *)
Theorem C11_shrink_panics_refuted : forall x r c v, reach_fx x -> good_value v -> 0 <= r -> 1 <= c ->
  exists s s1, put (empty_sheet x) r c v 0 = Ok s /\ next (resize s 1 c) = (true, s1) /\
    types s1 = Panic /\ formats s1 = Panic /\ raw s1 = Panic.
Proof.
  intros x r c v Hx Hg Hr Hc.
  destruct (make_put_cell_spec x v 0 Hx Hg) as (cl & Em & Hs).
  destruct (put_ok (empty_sheet x) r c v 0 cl (wf_empty x) Hr ltac:(lia) Em) as (s & P & W & N1 & N2 & F & Cu & Ct).
  simpl in N1, N2. exists s.
  destruct W as [(E1 & E2 & E3 & E4)|(A1 & B & C1 & D1 & E)]; [lia|].
  destruct (sh_rows s) as [|row rest] eqn:Er; [rewrite zlen_nil in C1; lia|].
  inversion D1 as [|? ? Hrow Hrest]; subst.
  exists (mkSheet (sh_fx s) 1 c (sh_rows (resize s 1 c)) 1).
  split; auto.
  assert (ER : exists tl, sh_rows (resize s 1 c) = row :: tl).
  { unfold resize. rewrite Er. cbn [widen_rows sh_rows]. destruct (Z.ltb_spec 1 0); [lia|].
    unfold blank_row at 1. replace (Z.to_nat (c - zlen row)) with 0%nat by lia. simpl. rewrite app_nil_r. eauto. }
  destruct ER as [tl ER]. rewrite ER.
  assert (NX : next (resize s 1 c) = (true, mkSheet (sh_fx s) 1 c (row :: tl) 1)).
  { rewrite next_true.
    - rewrite ER. unfold resize. cbn [sh_fx sh_nrows sh_ncols sh_cur].
      destruct (Z.leb_spec 1 0); [lia|]. destruct (Z.leb_spec c 0); [lia|]. reflexivity.
    - rewrite ER. rewrite zlen_cons. pose proof (zlen_nonneg _ tl). unfold resize. cbn [sh_cur]. lia. }
  split; auto.
  assert (FP : forall A (f : list goval -> res A) l i n, (forall y, In y l -> exists z, f y = Ok z) ->
             n < i + zlen l -> i <= n -> fill_row f n i l = Panic).
  { clear. induction l as [|a l IH]; intros i n Hf Hn Hi; [rewrite zlen_nil in Hn; lia|].
    simpl. destruct (Hf a) as [z ->]; [left; auto|]. cbn [bind]. destruct (Z.leb_spec n i); auto.
    rewrite IH; auto; [intros; apply Hf; right; auto|rewrite zlen_cons in Hn; lia|lia]. }
  assert (Hok : forall y, In y row -> cell_ok y).
  { intros y Hy. apply In_nth_error in Hy as [k Hk]. specialize (Ct 0 (Z.of_nat k)).
    assert (Ey : content s 0 (Z.of_nat k) = y).
    { unfold content, get_cell. rewrite Er, idx_0. cbn [bind].
      rewrite (idx_ok _ row (Z.of_nat k) y); [auto|lia|rewrite Nat2Z.id; auto]. }
    rewrite Ey in Ct. subst y.
    destruct ((r =? 0) && (c =? Z.of_nat k)); [apply (put_cell_spec_ok x v 0); [lia|exact Hs]|]. left.
    unfold content, get_cell, empty_sheet. reflexivity. }
  unfold types, formats, raw, row_map. cbn [sh_rows sh_cur sh_ncols]. replace (1 - 1) with 0 by lia. rewrite idx_0. cbn [bind].
  repeat split.
  - rewrite FP; auto; try lia. intros y Hy. destruct (cell_ok_type _ (Hok y Hy)) as [t ->]. eexists; reflexivity.
  - rewrite FP; auto; try lia. intros y Hy. unfold cell_format. destruct (cell_ok_format _ (Hok y Hy)) as (t & -> & _). eexists; reflexivity.
  - rewrite FP; auto; try lia. intros y Hy. eexists; reflexivity.
Qed.

(** C12, the violated part: every non-empty sheet built by Put calls delivers NumRows + 1 records,
    the last of them blank. *)
Theorem C12_extra_record_refuted : forall x ops, reach_fx x -> Forall good_put ops -> ops <> [] ->
  exists s grid row, run_ops (empty_sheet x) ops = Ok s /\ delivers raw s grid /\
    zlen grid = sh_nrows s + 1 /\ nth_error grid (Z.to_nat (sh_nrows s)) = Some row /\ Forall (fun c => c = []) row.
Proof.
  intros x ops Hx Hl Hne.
  destruct (run_puts_spec x ops (empty_sheet x) Hx (wf_empty x) eq_refl Hl) as (s & R & W & F & C & D & _ & _ & Cu).
  specialize (Cu eq_refl).
  assert (Hdel : delivers raw s (sh_rows s)).
  { assert (G : sh_rows s = map (map (fun c => c)) (skipn (Z.to_nat (sh_cur s)) (sh_rows s))).
    { rewrite Cu. simpl. rewrite <- (map_id (sh_rows s)) at 1. apply map_ext. intros. symmetry. apply map_id. }
    rewrite G. apply delivers_map; auto. intros. unfold cell_clone. rewrite map_id. reflexivity. }
  assert (Hlp : exists r c, last_put ops r c <> None).
  { destruct ops as [|o l]; [congruence|]. inversion Hl; subst. destruct o as [r c v f|]; [|contradiction].
    exists r, c. simpl. rewrite !Z.eqb_refl. simpl. destruct (last_put l r c); congruence. }
  destruct Hlp as (r0 & c0 & Hlp). destruct (D _ _ Hlp) as [D1 D2].
  destruct W as [(E1 & E2 & E3 & E4)|(A1 & B & C1 & D3 & E)]; [lia|].
  destruct (idx_in _ (sh_rows s) (sh_nrows s) ltac:(lia)) as [row Erow].
  exists s, (sh_rows s), row. split; auto. split; auto. split; auto.
  pose proof (idx_inv _ _ _ _ Erow) as [_ En]. split; auto.
  apply Forall_forall. intros cl Hin. apply In_nth_error in Hin as [k Hk].
  specialize (C (sh_nrows s) (Z.of_nat k)).
  assert (Ect : content s (sh_nrows s) (Z.of_nat k) = cl).
  { unfold content, get_cell. rewrite Erow. cbn [bind]. rewrite (idx_ok _ row (Z.of_nat k) cl); [auto|lia|rewrite Nat2Z.id; auto]. }
  rewrite Ect in C. specialize (D (sh_nrows s) (Z.of_nat k)).
  destruct (last_put ops (sh_nrows s) (Z.of_nat k)) as [[v f]|].
  - exfalso. assert (0 <= sh_nrows s < sh_nrows s) by (apply D; congruence). lia.
  - rewrite C. unfold content, get_cell, empty_sheet. simpl. unfold idx. destruct (_ <=? _); auto. destruct (Z.to_nat _); auto.
Qed.

(** C12.  Number of records from any cursor position; then Next stays false and the sheet,
    including the current record, is unchanged. *)
Theorem C12_records : forall x ops s, reach_fx x -> grows (empty_sheet x) ops ->
  run_ops (empty_sheet x) ops = Ok s -> ops <> [] ->
  exists l, delivers raw s l /\ zlen l = sh_nrows s + 1 - sh_cur s /\ 0 <= sh_cur s <= sh_nrows s + 1.
Proof.
  intros x ops s Hx Hg Hr Hne.
  destruct (grows_wf _ _ Hg Hx (wf_empty x)) as (s' & R & W & F). rewrite Hr in R. injection R as <-.
  exists (map (map (fun c : list goval => cell_clone c)) (skipn (Z.to_nat (sh_cur s)) (sh_rows s))).
  split; [apply delivers_map; auto|].
  assert (Hpos : 1 <= sh_nrows s).
  { destruct W as [(E1 & E2 & E3 & E4)|(A1 & B & C1 & D3 & E)]; [exfalso|lia].
    assert (forall s l s1, grows s l -> reach_fx (sh_fx s) -> wf s -> run_ops s l = Ok s1 -> sh_nrows s <= sh_nrows s1 /\ (l <> [] -> 1 <= sh_nrows s1)).
    { clear. intros s l s1 Hg. revert s1. induction Hg; intros s1 Hx Hw Hrun.
      - simpl in Hrun. injection Hrun as <-. split; [lia|congruence].
      - destruct H as (Hr & Hcc & Hf & Hgo).
        destruct (make_put_cell_spec (sh_fx s) v f Hx Hgo) as (cl & Em & Hs).
        destruct (put_ok s r c v f cl Hw Hr Hcc Em) as (s2 & P & W1 & N1 & N2 & F1 & Cu & Ct).
        rewrite H0 in P. injection P as ->. simpl in Hrun. rewrite H0 in Hrun. cbn [bind] in Hrun.
        destruct (IHHg s1) as [I1 I2]; auto; [congruence|].
        assert (0 <= sh_nrows s) by (destruct Hw as [Hw|Hw]; lia). split; [lia|intros; lia].
      - simpl in Hrun. destruct (grows_wf s [OResize r c]) as (s2 & R & W & F); auto.
        { constructor; auto. constructor. }
        simpl in R. injection R as <-. destruct (IHHg s1) as [I1 I2]; auto.
        assert (sh_nrows (resize s r c) = if r <=? 0 then 1 else r) as EN by reflexivity.
        destruct (Z.leb_spec r 0); rewrite EN in *; split; intros; lia. }
    destruct (H _ _ _ Hg Hx (wf_empty x) Hr) as [_ H1]. specialize (H1 Hne). lia. }
  destruct W as [(E1 & E2 & E3 & E4)|(A1 & B & C1 & D3 & E)]; [lia|].
  rewrite zlen_map. unfold zlen in *. rewrite skipn_length. lia.
Qed.

Theorem C12_stays_at_end : forall s s', next s = (false, s') -> s' = s /\ next s' = (false, s').
Proof. intros s s' H. unfold next in *. destruct (_ <? _) eqn:E; [|discriminate]. injection H as <-. rewrite E. auto. Qed.

Definition types_of (s : sheet) : list (res (list gostr)) :=
  let s1 := snd (next s) in let s2 := snd (next s1) in let s3 := snd (next s2) in
  let s4 := snd (next s3) in let s5 := snd (next s4) in
  [types s1; types s2; types s3; types s4; types s5].
Example ex_C12 : match run_ops (empty_sheet new_formatter) ex_ops with
  | Ok s => sh_nrows s = 3 /\
     types_of s = let bl := bs "blank" in
       [Ok [bl; bl; bl; bs "float"]; Ok [bl; bl; bl; bl]; Ok [bl; bs "integer"; bl; bl]; Ok [bl; bl; bl; bl]; Ok [bl; bl; bl; bl]]
  | _ => False end.
Proof. vm_compute. auto. Qed.

(** C13.  Put at (r, c) on any reachable sheet: it succeeds, stores the cell at (r, c), grows the
    sheet to exactly cover (r, c), keeps the cursor if (r, c) was inside and rewinds it otherwise,
    keeps every other cell, and the new positions are blank. *)
Theorem C13_put_frame : forall s r c v f, reach_sheet s -> good_put (OPut r c v f) ->
  exists s' cl, put s r c v f = Ok s' /\
    sh_nrows s' = Z.max (sh_nrows s) (r + 1) /\ sh_ncols s' = Z.max (sh_ncols s) (c + 1) /\
    (r < sh_nrows s /\ c < sh_ncols s -> sh_cur s' = sh_cur s) /\
    (~ (r < sh_nrows s /\ c < sh_ncols s) -> sh_cur s' = 0) /\
    get_cell s' r c = Ok cl /\ put_cell_spec (sh_fx s) v f cl /\
    (forall r' c', (r', c') <> (r, c) -> inside s r' c' -> get_cell s' r' c' = get_cell s r' c') /\
    (forall r' c', (r', c') <> (r, c) -> inside s' r' c' -> ~ inside s r' c' -> get_cell s' r' c' = Ok []).
Proof.
  intros s r c v f Hs (Hr & Hc & Hf & Hg). destruct (reach_sheet_inv _ Hs) as (W & Fx & L).
  destruct (make_put_cell_spec (sh_fx s) v f Fx Hg) as (cl & Em & Hsp).
  destruct (put_ok s r c v f cl W Hr Hc Em) as (s1 & P & W1 & N1 & N2 & F1 & Cu & Ct).
  exists s1, cl. split; auto. split; auto. split; auto.
  assert (Hcell : forall r' c', inside s1 r' c' -> get_cell s1 r' c' = Ok (if (r =? r') && (c =? c') then cl else content s r' c')).
  { intros r' c' [I1 I2]. rewrite content_get by auto. rewrite Ct. auto. }
  assert (Hne : forall r' c', (r', c') <> (r, c) -> (r =? r') && (c =? c') = false).
  { intros r' c' E. destruct (Z.eqb_spec r r'); auto. destruct (Z.eqb_spec c c'); auto. subst. congruence. }
  split; [|split; [|split; [|split; [auto|split]]]].
  - intros H. rewrite Cu. replace ((r <? sh_nrows s) && (c <? sh_ncols s)) with true by lia. auto.
  - intros H. rewrite Cu. replace ((r <? sh_nrows s) && (c <? sh_ncols s)) with false by lia. auto.
  - rewrite Hcell; [|unfold inside; lia]. rewrite !Z.eqb_refl. auto.
  - intros r' c' E [I1 I2]. rewrite Hcell; [|unfold inside; lia]. rewrite Hne by auto.
    rewrite content_get; auto.
  - intros r' c' E I1 I2. rewrite Hcell by auto. rewrite Hne by auto. f_equal.
    unfold content. destruct (get_cell s r' c') eqn:G; auto. apply get_cell_wf_inv in G; auto.
    exfalso. apply I2. split; tauto.
Qed.

Example ex_C13 : exists s, reach_sheet s /\ sh_cur s = 1 /\ inside s 2 1 /\ ~ inside s 7 1 /\
  good_put (OPut 7 1 (GBool true) 14).
Proof.
  destruct (C13_put_frame (empty_sheet new_formatter) 2 1 (GBool true) 0) as (s & cl & P & N1 & N2 & Cu & Cu2 & G & Sp & _).
  { constructor. constructor. }
  { repeat split; try lia; try discriminate; intros; try discriminate. intros (z & E & _); discriminate. }
  simpl in N1, N2.
  assert (R : reach_sheet s).
  { eapply rs_put; [apply (rs_new new_formatter); constructor| |exact P].
    repeat split; try lia; try discriminate; intros; try discriminate. intros (z & E & _); discriminate. }
  exists (mkSheet (sh_fx s) (sh_nrows s) (sh_ncols s) (sh_rows s) 1).
  assert (sh_cur s = 0) by (apply Cu2; simpl; lia).
  destruct (reach_sheet_inv _ R) as (W & _ & _).
  destruct W as [W|(A & B & C & D & E)]; [lia|].
  split.
  - apply (rs_next s true); auto. rewrite next_true by lia. rewrite H. reflexivity.
  - split; [reflexivity|]. unfold inside. simpl. repeat split; try lia; try discriminate; intros; try discriminate.
    intros (z & E1 & _); discriminate.
Qed.

(** C14.  Set on any reachable sheet: positions beyond the sheet are ignored; a filled cell gets
    the new value and type string, keeps its format, and nothing else changes; in every other
    case it panics, in particular for col = NumCols and for never-filled cells. *)
Theorem C14_set : forall s r c v, reach_sheet s ->
  ((sh_nrows s < r \/ sh_ncols s < c) -> set_value s r c v = Ok s) /\
  (forall v0 t0 rest, inside s r c -> get_cell s r c = Ok (v0 :: GCType t0 :: rest) ->
     exists s', set_value s r c v = Ok s' /\ get_cell s' r c = Ok (v :: GCType StringCell :: rest) /\
       sh_nrows s' = sh_nrows s /\ sh_ncols s' = sh_ncols s /\ sh_cur s' = sh_cur s /\
       forall r' c', (r', c') <> (r, c) -> inside s r' c' -> get_cell s' r' c' = get_cell s r' c').
Proof.
  intros s r c v Hs. destruct (reach_sheet_inv _ Hs) as (W & Fx & L).
  destruct (set_value_cases s r c v W L) as [[Hb E]|[(B1 & B2 & H1 & H2 & v0 & t0 & rest & s1 & Ec & P & E)|(B1 & B2 & Hp & E)]].
  - split; auto. intros v0 t0 rest [I1 I2] _. lia.
  - split; [lia|]. intros v1 t1 rest1 [I1 I2] G. rewrite content_get, Ec in G by auto. injection G as <- <- <-.
    exists s1. destruct (put_cell_frame _ _ _ _ _ W P) as (W1 & (N1 & N2 & Cu & F & S) & Cx).
    split; auto. rewrite (content_get s1) by (auto; lia). rewrite Cx. repeat split; auto.
    intros r' c' Hne [J1 J2]. rewrite (content_get s1), (content_get s) by (auto; lia). rewrite S; auto.
  - split; [lia|]. intros v0 t0 rest [I1 I2] G. rewrite content_get in G by auto. 
    destruct Hp as [Hp|[Hp|[Hp|Hp]]]; try lia. rewrite Hp in G. discriminate.
Qed.

(** C14, the violated part, exactly: when Set and SetURL panic. *)
Theorem C14_set_panics_refuted : forall s r c v link, reach_sheet s -> r <= sh_nrows s -> c <= sh_ncols s ->
  (set_value s r c v = Panic <-> r < 0 \/ c < 0 \/ c = sh_ncols s \/ get_cell s r c = Ok []) /\
  (set_url s r c link = Panic <-> r < 0 \/ c < 0 \/ c = sh_ncols s \/ get_cell s r c = Ok []).
Proof.
  intros s r c v link Hs B1 B2. destruct (reach_sheet_inv _ Hs) as (W & Fx & L).
  assert (Hc : (r < 0 \/ c < 0 \/ c = sh_ncols s \/ content s r c = []) <-> (r < 0 \/ c < 0 \/ c = sh_ncols s \/ get_cell s r c = Ok [])).
  { destruct (Z_lt_dec r 0); [tauto|]. destruct (Z_lt_dec c 0); [tauto|]. destruct (Z.eq_dec c (sh_ncols s)); [tauto|].
    rewrite content_get by (auto; lia). split; intros [?|[?|[?|H]]]; auto; repeat right; congruence. }
  rewrite <- Hc. clear Hc. split.
  - destruct (set_value_cases s r c v W L) as [[Hb E]|[(_ & _ & H1 & H2 & v0 & t0 & rest & s1 & Ec & P & E)|(_ & _ & Hp & E)]].
    + lia.
    + rewrite E, Ec. split; [discriminate|]. intros [?|[?|[?|?]]]; try lia. discriminate.
    + rewrite E. tauto.
  - destruct (set_url_cases s r c link W L) as [[Hb E]|[(_ & _ & H1 & H2 & v0 & t0 & rest & s1 & Ec & P & E)|(_ & _ & Hp & E)]].
    + lia.
    + rewrite E, Ec. split; [discriminate|]. intros [?|[?|[?|?]]]; try lia. discriminate.
    + rewrite E. tauto.
Qed.

(** C14.  SetURL: the same frame; the cell keeps its value, becomes a hyperlink cell and its URL
    is the link (when it had no link before, i.e. at most a format number after the type). *)
Theorem C14_set_url : forall s r c link, reach_sheet s ->
  ((sh_nrows s < r \/ sh_ncols s < c) -> set_url s r c link = Ok s) /\
  (forall v0 t0 rest, inside s r c -> get_cell s r c = Ok (v0 :: GCType t0 :: rest) -> zlen rest <= 1 ->
     exists s' cl, set_url s r c link = Ok s' /\ get_cell s' r c = Ok cl /\
       cell_value cl = v0 /\ cell_type cl = Ok HyperlinkStringCell /\ cell_url cl = Ok (Some link) /\
       sh_nrows s' = sh_nrows s /\ sh_ncols s' = sh_ncols s /\ sh_cur s' = sh_cur s /\
       forall r' c', (r', c') <> (r, c) -> inside s r' c' -> get_cell s' r' c' = get_cell s r' c').
Proof.
  intros s r c v Hs. destruct (reach_sheet_inv _ Hs) as (W & Fx & L).
  destruct (set_url_cases s r c v W L) as [[Hb E]|[(B1 & B2 & H1 & H2 & v0 & t0 & rest & s1 & Ec & P & E)|(B1 & B2 & Hp & E)]].
  - split; auto. intros v0 t0 rest [I1 I2] _. lia.
  - split; [lia|]. intros v1 t1 rest1 [I1 I2] G Hlen. rewrite content_get, Ec in G by auto. injection G as <- <- <-.
    exists s1, (linked v v0 rest). destruct (put_cell_frame _ _ _ _ _ W P) as (W1 & (N1 & N2 & Cu & F & S) & Cx).
    split; auto. rewrite (content_get s1) by (auto; lia). rewrite Cx. split; auto.
    assert (rest = [] \/ exists q, rest = [q]) as Hrest.
    { destruct rest as [|q [|q2 rest]]; eauto. rewrite !zlen_cons in Hlen. pose proof (zlen_nonneg _ rest). lia. }
    split; [reflexivity|].
    split; [destruct Hrest as [->|[q ->]]; reflexivity|].
    split; [destruct Hrest as [->|[q ->]]; reflexivity|].
    repeat split; auto.
    intros r' c' Hne [J1 J2]. rewrite (content_get s1), (content_get s) by (auto; lia). rewrite S; auto.
  - split; [lia|]. intros v0 t0 rest [I1 I2] G. rewrite content_get in G by auto. 
    destruct Hp as [Hp|[Hp|[Hp|Hp]]]; try lia. rewrite Hp in G. discriminate.
Qed.

Example ex_C14 : match run_ops (empty_sheet new_formatter) [OPut 0 3 (GStr (bs "a")) 0; OPut 2 1 (GInt KInt 7) 1] with
  | Ok s => (exists s', set_value s 2 1 (GStr (bs "x")) = Ok s' /\
             get_cell s' 2 1 = Ok [GStr (bs "x"); GCType StringCell; GInt KUint16 1]) /\
            set_value s 2 4 (GStr (bs "x")) = Panic /\ set_value s 0 0 (GStr (bs "x")) = Panic /\
            set_value s 2 5 (GStr (bs "x")) = Ok s
  | _ => False end.
Proof. vm_compute. repeat split. eexists. split; reflexivity. Qed.

(** C15.  Scan on a record of n cells into at most n destinations: there is a number k of
    destinations that are filled with the first k values, each of matching type; Scan succeeds
    iff k covers all destinations, and otherwise destination k does not match the value. *)
Theorem C15_scan : forall s ds row, idx (sh_rows s) (sh_cur s - 1) = Ok row -> zlen ds <= zlen row ->
  exists k e, scan s ds = Ok (firstn k (map cell_value row), e) /\ (k <= List.length ds)%nat /\
    (forall i d c, (i < k)%nat -> nth_error ds i = Some d -> nth_error row i = Some c -> scannable d (cell_value c)) /\
    (e = None <-> k = List.length ds) /\
    (forall d c, nth_error ds k = Some d -> nth_error row k = Some c -> ~ scannable d (cell_value c)).
Proof.
  intros s ds row Hrow Hlen. unfold scan. rewrite Hrow. cbn [bind].
  assert (G : forall ds pre post, zlen ds <= zlen post ->
    exists k e, scan_loop (zlen pre) (pre ++ post) ds = Ok (firstn k (map cell_value post), e) /\ (k <= List.length ds)%nat /\
    (forall i d c, (i < k)%nat -> nth_error ds i = Some d -> nth_error post i = Some c -> scannable d (cell_value c)) /\
    (e = None <-> k = List.length ds) /\
    (forall d c, nth_error ds k = Some d -> nth_error post k = Some c -> ~ scannable d (cell_value c))).
  { clear. induction ds as [|d ds IH]; intros pre post Hlen.
    - exists 0%nat, None. simpl. repeat split; auto; try lia; try discriminate.
    - destruct post as [|c post]; [rewrite zlen_cons, zlen_nil in Hlen; pose proof (zlen_nonneg _ ds); lia|].
      rewrite !zlen_cons in Hlen. cbn [scan_loop]. rewrite (idx_app_exact _ pre c post) by auto. cbn [bind].
      destruct (scan_one d (cell_value c)) as [v|e] eqn:E.
      + assert (v = cell_value c /\ scannable d (cell_value c)) as [-> Hs].
        { unfold scan_one in E. destruct d; destruct (cell_value c) as [| |k z| | | | | | | | | |]; try discriminate; try (destruct k; try discriminate);
            injection E as <-; split; simpl; auto. }
        destruct (IH (pre ++ [c]) post) as (k & e & E1 & Hk & Hall & He & Hbad); [lia|].
        rewrite <- app_assoc in E1. simpl app in E1. rewrite zlen_app, zlen_cons, zlen_nil in E1.
        replace (zlen pre + (1 + 0)) with (zlen pre + 1) in E1 by lia. rewrite E1. cbn [bind].
        exists (S k), e. simpl. repeat split; auto; try lia.
        * intros i d' c' Hi. destruct i; simpl; [intros Ed Ec; injection Ed as <-; injection Ec as <-; auto|]. apply Hall. lia.
        * intros H. apply He in H. lia.
        * intros H. apply He. lia.
      + exists 0%nat, (Some e). simpl. repeat split; auto; try lia; try discriminate.
        intros d' c' Ed Ec. injection Ed as <-. injection Ec as <-. intro Hs.
        unfold scan_one in E. destruct d; destruct (cell_value c) as [| |k z| | | | | | | | | |]; simpl in Hs; try contradiction; try discriminate;
          try (destruct k; try contradiction; discriminate). }
  destruct (G ds [] row Hlen) as (k & e & E & H). exists k, e. simpl app in E. rewrite zlen_nil in E. rewrite E. auto.
Qed.

(** C15.  With more destinations than cells Scan panics, unless an earlier value mismatches. *)
Theorem C15_scan_too_many_refuted : forall s ds row, idx (sh_rows s) (sh_cur s - 1) = Ok row ->
  zlen row < zlen ds ->
  (forall i d c, nth_error ds i = Some d -> nth_error row i = Some c -> scannable d (cell_value c)) ->
  scan s ds = Panic.
Proof.
  intros s ds row Hrow Hlen Hall. unfold scan. rewrite Hrow. cbn [bind].
  assert (G : forall ds pre post, zlen post < zlen ds ->
    (forall i d c, nth_error ds i = Some d -> nth_error post i = Some c -> scannable d (cell_value c)) ->
    scan_loop (zlen pre) (pre ++ post) ds = Panic).
  { clear. induction ds as [|d ds IH]; intros pre post Hlen Hall.
    - rewrite zlen_nil in Hlen. pose proof (zlen_nonneg _ post). lia.
    - cbn [scan_loop]. destruct post as [|c post].
      + rewrite app_nil_r. rewrite idx_out by lia. reflexivity.
      + rewrite (idx_app_exact _ pre c post) by auto. cbn [bind].
        assert (Hs : scannable d (cell_value c)) by (apply (Hall 0%nat); reflexivity).
        assert (E : scan_one d (cell_value c) = inl (cell_value c)).
        { destruct d; destruct (cell_value c) as [| |k z| | | | | | | | | |]; simpl in *; try contradiction; auto;
            destruct k; try contradiction; auto. }
        rewrite E. rewrite !zlen_cons in Hlen.
        specialize (IH (pre ++ [c]) post ltac:(lia)). rewrite <- app_assoc in IH. simpl app in IH.
        rewrite zlen_app, zlen_cons, zlen_nil in IH. replace (zlen pre + (1 + 0)) with (zlen pre + 1) in IH by lia.
        rewrite IH; auto. intros i d' c' Ed Ec. apply (Hall (S i)); auto. }
  apply (G ds [] row); auto.
Qed.

Example ex_C15 : match run_ops (empty_sheet new_formatter)
    [OPut 0 0 (GStr (bs "a")) 0; OPut 0 1 (GInt KInt 5) 0; OPut 0 2 (GBool true) 0] with
  | Ok s => let s := snd (next s) in
            scan s [SString; SInt64; SBool] = Ok ([GStr (bs "a"); GInt KInt64 5; GBool true], None) /\
            (exists e, scan s [SString; SFloat64; SBool] = Ok ([GStr (bs "a")], Some e)) /\
            scan s [SString; SInt64; SBool; SBool] = Panic
  | _ => False end.
Proof. vm_compute. repeat split. eexists. reflexivity. Qed.

(** C16.  IsEmpty is true exactly when no value was ever put outside A1. *)
Theorem C16_is_empty : forall x ops s, reach_fx x -> Forall good_put ops ->
  run_ops (empty_sheet x) ops = Ok s ->
  (is_empty s = true <-> forall r c v f, In (OPut r c v f) ops -> r = 0 /\ c = 0).
Proof.
  intros x ops s Hx Hl Hr.
  assert (G : forall ops s0, wf s0 -> reach_fx (sh_fx s0) -> Forall good_put ops -> run_ops s0 ops = Ok s ->
     (is_empty s = true <-> is_empty s0 = true /\ forall r c v f, In (OPut r c v f) ops -> r = 0 /\ c = 0)).
  { clear. induction ops as [|o ops IH]; intros s0 W Fx Hl Hr.
    - simpl in Hr. injection Hr as ->. simpl. intuition.
    - inversion Hl; subst. destruct o as [r c v f|]; [|contradiction]. destruct H1 as (Hr1 & Hc & Hf & Hg).
      destruct (make_put_cell_spec (sh_fx s0) v f Fx Hg) as (cl & Em & Hsp).
      destruct (put_ok s0 r c v f cl W Hr1 Hc Em) as (s1 & P & W1 & N1 & N2 & F1 & Cu & Ct).
      simpl in Hr. rewrite P in Hr. cbn [bind] in Hr.
      rewrite (IH s1); auto; [|congruence]. unfold is_empty. rewrite N1, N2.
      assert (0 <= sh_nrows s0 /\ 0 <= sh_ncols s0) by (destruct W as [W|W]; lia).
      split; intros [A B].
      + split; [lia|]. intros r' c' v' f' [E|Hin]; [injection E as <- <- <- <-; lia|eauto].
      + destruct (B r c v f (or_introl eq_refl)). split; [lia|]. intros; eapply B; right; eauto. }
  rewrite (G ops (empty_sheet x)); auto; [|apply wf_empty]. split; [tauto|]. intros. split; auto.
Qed.

(** C16, the violated part: a sheet with a value in A1 is reported empty. *)
Theorem C16_A1_dropped_refuted : forall x v f, reach_fx x -> good_put (OPut 0 0 v f) ->
  exists s cl, put (empty_sheet x) 0 0 v f = Ok s /\ is_empty s = true /\
    get_cell s 0 0 = Ok cl /\ put_cell_spec x v f cl.
Proof.
  intros x v f Hx Hg.
  destruct (C13_put_frame (empty_sheet x) 0 0 v f (rs_new x Hx) Hg) as (s & cl & P & N1 & N2 & _ & _ & G & Sp & _).
  exists s, cl. repeat split; auto. simpl in N1, N2. unfold is_empty. rewrite N1, N2. reflexivity.
Qed.

Print Assumptions C10_last_put_wins.
Print Assumptions C11_rectangular.
Print Assumptions C12_records.
Print Assumptions C13_put_frame.
Print Assumptions C14_set.
Print Assumptions C15_scan.
Print Assumptions C16_is_empty.
