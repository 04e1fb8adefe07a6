(** * L_sheet: proofs about commonxl.Sheet. *)
From Verif Require Import GoBase L_base GoFloat L_float GoUnicode GoTime M_grate M_value M_dates M_fmt M_formats M_cell M_sheet S_cell L_cell S_sheet.
From Coq Require Import Lia ZifyBool ZifyNat.
Open Scope Z_scope.

Lemma idx_inv : forall A (l : list A) i x, idx l i = Ok x ->
  0 <= i < zlen l /\ nth_error l (Z.to_nat i) = Some x.
Proof.
  intros A l i x H. unfold idx in H. destruct (Z.leb_spec 0 i); [|discriminate].
  destruct (nth_error l (Z.to_nat i)) eqn:E; [|discriminate]. injection H as ->.
  split; auto. unfold zlen. assert (Z.to_nat i < List.length l)%nat by (apply nth_error_Some; congruence). lia.
Qed.

Lemma idx_app1 : forall A (a b : list A) i, 0 <= i < zlen a -> idx (a ++ b) i = idx a i.
Proof.
  intros A a b i H. unfold idx, zlen in *. destruct (Z.leb_spec 0 i); [|lia].
  rewrite nth_error_app1 by lia. reflexivity.
Qed.
Lemma idx_app2 : forall A (a b : list A) i, zlen a <= i -> idx (a ++ b) i = idx b (i - zlen a).
Proof.
  intros A a b i H. pose proof (zlen_nonneg _ a). unfold idx, zlen in *.
  destruct (Z.leb_spec 0 i); [|lia]. destruct (Z.leb_spec 0 (i - Z.of_nat (List.length a))); [|lia].
  rewrite nth_error_app2 by lia. replace (Z.to_nat i - List.length a)%nat with (Z.to_nat (i - Z.of_nat (List.length a))) by lia.
  reflexivity.
Qed.
Lemma idx_repeat : forall A (x : A) n i, 0 <= i < Z.of_nat n -> idx (repeat x n) i = Ok x.
Proof.
  intros. apply idx_ok; [lia|]. apply nth_error_repeat. lia.
Qed.

Lemma set_idx_ok : forall A (l : list A) i x, 0 <= i < zlen l -> set_idx l i x = Ok (upd l (Z.to_nat i) x).
Proof.
  intros. unfold set_idx. destruct (Z.leb_spec 0 i); [|lia]. destruct (Z.ltb_spec i (zlen l)); [|lia]. reflexivity.
Qed.
Lemma set_idx_bad : forall A (l : list A) i x, ~ 0 <= i < zlen l -> set_idx l i x = Panic.
Proof.
  intros. unfold set_idx. destruct (Z.leb_spec 0 i); destruct (Z.ltb_spec i (zlen l)); auto; lia.
Qed.
Lemma idx_upd : forall A (l : list A) i j x, 0 <= i < zlen l -> 0 <= j ->
  idx (upd l (Z.to_nat i) x) j = if i =? j then Ok x else idx l j.
Proof.
  intros A l i j x Hi Hj. unfold idx. destruct (Z.leb_spec 0 j); [|lia].
  rewrite nth_error_upd. destruct (Z.eqb_spec i j).
  - subst. rewrite Nat.eqb_refl. unfold zlen in *. destruct (Nat.ltb_spec (Z.to_nat j) (List.length l)); [|lia]. reflexivity.
  - destruct (Nat.eqb_spec (Z.to_nat i) (Z.to_nat j)); [lia|]. reflexivity.
Qed.
Lemma zlen_upd : forall A (l : list A) n x, zlen (upd l n x) = zlen l.
Proof. intros. unfold zlen. rewrite upd_length. auto. Qed.

(** ** well-formed sheets *)
Definition wf (s : sheet) : Prop :=
  (sh_rows s = [] /\ sh_nrows s = 0 /\ sh_ncols s = 0 /\ sh_cur s = 0) \/
  (1 <= sh_nrows s /\ 1 <= sh_ncols s /\ zlen (sh_rows s) = sh_nrows s + 1 /\
   Forall (fun r : list (list goval) => zlen r = sh_ncols s) (sh_rows s) /\
   0 <= sh_cur s <= zlen (sh_rows s)).

Lemma wf_empty : forall x, wf (empty_sheet x).
Proof. intros. left. auto. Qed.

(** content of a position, blank outside *)
Definition content (s : sheet) (r c : Z) : list goval :=
  match get_cell s r c with Ok x => x | _ => [] end.

Lemma widen_spec : forall l i rows cols ncols, 0 <= i -> i + zlen l <= rows + 1 ->
  Forall (fun r : list (list goval) => zlen r = ncols) l -> ncols <= cols ->
  widen_rows i rows cols l = map (fun r => r ++ blank_row (cols - ncols)) l.
Proof.
  induction l as [|r l IH]; intros i rows cols ncols Hi Hl HF Hc; simpl; auto.
  rewrite zlen_cons in Hl. pose proof (zlen_nonneg _ l).
  inversion HF; subst. destruct (Z.ltb_spec rows i); [lia|].
  f_equal. apply IH; auto; lia.
Qed.

Lemma zlen_blank_row : forall n, 0 <= n -> zlen (blank_row n) = n.
Proof. intros. unfold blank_row. rewrite zlen_repeat. lia. Qed.

Lemma resize_grow : forall s rows cols, wf s -> sh_nrows s <= rows -> sh_ncols s <= cols ->
  1 <= rows -> 1 <= cols ->
  let s' := resize s rows cols in
  wf s' /\ sh_nrows s' = rows /\ sh_ncols s' = cols /\ sh_cur s' = 0 /\ sh_fx s' = sh_fx s /\
  zlen (sh_rows s') = rows + 1 /\
  (forall r c, content s' r c = content s r c) /\
  (forall r, 0 <= r <= rows -> exists row, idx (sh_rows s') r = Ok row /\ zlen row = cols).
Proof.
  intros s rows cols Hw Hr Hc H1 H2 s'.
  assert (Hwid : exists nc, Forall (fun r : list (list goval) => zlen r = nc) (sh_rows s) /\ 0 <= nc <= cols /\
                 zlen (sh_rows s) <= rows + 1).
  { destruct Hw as [(E1 & E2 & E3 & E4)|(A & B & C & D & E)].
    - exists 0. rewrite E1. split; [constructor|]. rewrite zlen_nil. lia.
    - exists (sh_ncols s). split; auto. lia. }
  destruct Hwid as (nc & HF & Hnc & Hzl).
  set (old := map (fun r => r ++ blank_row (cols - nc)) (sh_rows s)) in *.
  assert (Es : s' = mkSheet (sh_fx s) rows cols
     (old ++ repeat (blank_row cols) (Z.to_nat (rows + 1 - zlen (sh_rows s)))) 0).
  { unfold s', resize. rewrite (widen_spec (sh_rows s) 0 rows cols nc) by (auto; lia).
    destruct (Z.leb_spec rows 0); [lia|]. destruct (Z.leb_spec cols 0); [lia|].
    rewrite zlen_map. reflexivity. }
  clearbody s'.
  assert (Lold : zlen old = zlen (sh_rows s)) by (unfold old; apply zlen_map).
  assert (Lall : zlen (sh_rows s') = rows + 1).
  { subst s'. simpl. rewrite zlen_app, zlen_repeat, Lold. lia. }
  assert (FA : Forall (fun r : list (list goval) => zlen r = cols) (sh_rows s')).
  { subst s'. simpl. apply Forall_app. split.
    - unfold old. apply Forall_map. eapply Forall_impl; [|exact HF]. simpl. intros a Ea.
      rewrite zlen_app, zlen_blank_row; lia.
    - apply Forall_forall. intros y Hy. apply repeat_spec in Hy. subst. apply zlen_blank_row. lia. }
  assert (Wf' : wf s').
  { right. rewrite Lall. rewrite Es in FA |- *. simpl in *. repeat split; try lia. exact FA. }
  split; auto. do 4 (split; [rewrite Es; reflexivity|]). split; auto. split.
  - intros r c. unfold content, get_cell. subst s'. simpl sh_rows.
    destruct (Z_lt_dec r 0) as [Hneg|Hneg].
    { rewrite !idx_out by lia. reflexivity. }
    destruct (Z_lt_dec r (zlen (sh_rows s))) as [Hin|Hout].
    + rewrite idx_app1 by lia.
      destruct (idx_in _ (sh_rows s) r ltac:(lia)) as [row Erow]. rewrite Erow.
      assert (Eold : idx old r = Ok (row ++ blank_row (cols - nc))).
      { apply idx_inv in Erow. destruct Erow as [_ Erow]. apply idx_ok; [lia|]. unfold old. erewrite map_nth_error; eauto. }
      rewrite Eold. cbn [bind].
      destruct (Z_lt_dec c 0). { rewrite !idx_out by lia. reflexivity. }
      assert (zlen row = nc).
      { apply idx_inv in Erow. destruct Erow as [_ Erow]. rewrite Forall_forall in HF. apply HF. eapply nth_error_In; eauto. }
      destruct (Z_lt_dec c (zlen row)).
      * rewrite idx_app1 by lia. reflexivity.
      * rewrite idx_app2 by lia. rewrite (idx_out _ row c) by lia.
        destruct (Z_lt_dec c cols).
        -- unfold blank_row. rewrite idx_repeat by lia. reflexivity.
        -- rewrite idx_out; auto. rewrite zlen_blank_row; lia.
    + rewrite idx_app2 by lia. rewrite (idx_out _ (sh_rows s) r) by lia. cbn [bind].
      destruct (Z_lt_dec r (rows + 1)).
      * rewrite idx_repeat by lia. cbn [bind].
        destruct (Z_le_dec 0 c); [destruct (Z_lt_dec c cols)|].
        -- unfold blank_row. rewrite idx_repeat by lia. reflexivity.
        -- rewrite idx_out; auto. rewrite zlen_blank_row; lia.
        -- rewrite idx_out; auto. lia.
      * rewrite idx_out; auto. rewrite zlen_repeat. lia.
  - intros r Hrr. destruct (idx_in _ (sh_rows s') r) as [row E]; [rewrite Lall; lia|].
    exists row. split; auto. apply idx_inv in E. destruct E as [_ E].
    rewrite Forall_forall in FA. apply FA. eapply nth_error_In; eauto.
Qed.

Lemma put_cell_ok : forall s r c x, wf s -> 0 <= r <= sh_nrows s -> 0 <= c < sh_ncols s ->
  exists s', put_cell s r c x = Ok s' /\ wf s' /\ sh_nrows s' = sh_nrows s /\ sh_ncols s' = sh_ncols s /\
    sh_cur s' = sh_cur s /\ sh_fx s' = sh_fx s /\ zlen (sh_rows s') = zlen (sh_rows s) /\
    forall r' c', content s' r' c' = if (r =? r') && (c =? c') then x else content s r' c'.
Proof.
  intros s r c x Hw Hr Hc. unfold put_cell.
  destruct Hw as [(E1 & E2 & E3 & E4)|(A & B & C & D & E)]; [lia|].
  destruct (idx_in _ (sh_rows s) r ltac:(lia)) as [row Erow]. rewrite Erow. cbn [bind].
  assert (Lrow : zlen row = sh_ncols s).
  { apply idx_inv in Erow. destruct Erow as [_ Erow]. rewrite Forall_forall in D. apply D. eapply nth_error_In; eauto. }
  rewrite set_idx_ok by lia. cbn [bind]. rewrite set_idx_ok by lia. cbn [bind].
  eexists; split; [reflexivity|].
  assert (FA : Forall (fun r0 : list (list goval) => zlen r0 = sh_ncols s)
                 (upd (sh_rows s) (Z.to_nat r) (upd row (Z.to_nat c) x))).
  { apply Forall_forall. intros y Hy. apply In_nth_error in Hy. destruct Hy as [n Hn].
    rewrite nth_error_upd in Hn. destruct (Nat.eqb _ n).
    - destruct (Nat.ltb _ _); [|discriminate]. injection Hn as <-. rewrite zlen_upd. auto.
    - rewrite Forall_forall in D. apply D. eapply nth_error_In; eauto. }
  split; [right; simpl; rewrite zlen_upd; auto|].
  simpl. rewrite zlen_upd. repeat split; auto.
  intros r' c'. unfold content, get_cell. simpl sh_rows.
  destruct (Z_lt_dec r' 0).
  { rewrite !idx_out by lia. destruct (Z.eqb_spec r r'); [lia|]. reflexivity. }
  rewrite idx_upd by lia. destruct (Z.eqb_spec r r').
  - subst r'. rewrite Erow. cbn [bind]. destruct (Z_lt_dec c' 0).
    { rewrite !idx_out by lia. destruct (Z.eqb_spec c c'); [lia|]. reflexivity. }
    rewrite idx_upd by lia. destruct (Z.eqb_spec c c'); reflexivity.
  - reflexivity.
Qed.

Lemma put_ok : forall s r c v f x, wf s -> 0 <= r -> 0 <= c ->
  make_put_cell (sh_fx s) v f = Ok x ->
  exists s', put s r c v f = Ok s' /\ wf s' /\
    sh_nrows s' = Z.max (sh_nrows s) (r + 1) /\ sh_ncols s' = Z.max (sh_ncols s) (c + 1) /\
    sh_fx s' = sh_fx s /\
    sh_cur s' = (if (r <? sh_nrows s) && (c <? sh_ncols s) then sh_cur s else 0) /\
    forall r' c', content s' r' c' = if (r =? r') && (c =? c') then x else content s r' c'.
Proof.
  intros s r c v f x Hw Hr Hc Hx. unfold put, grow_for.
  assert (N : 0 <= sh_nrows s /\ 0 <= sh_ncols s) by (destruct Hw as [H|H]; lia).
  destruct ((sh_nrows s <=? r) || (sh_ncols s <=? c)) eqn:Eg.
  - set (rows := if sh_nrows s <=? r then r + 1 else sh_nrows s).
    set (cols := if sh_ncols s <=? c then c + 1 else sh_ncols s).
    assert (rows = Z.max (sh_nrows s) (r + 1)) by (unfold rows; destruct (Z.leb_spec (sh_nrows s) r); lia).
    assert (cols = Z.max (sh_ncols s) (c + 1)) by (unfold cols; destruct (Z.leb_spec (sh_ncols s) c); lia).
    destruct (resize_grow s rows cols Hw ltac:(lia) ltac:(lia) ltac:(lia) ltac:(lia)) as
      (W & E1 & E2 & E3 & E4 & E5 & E6 & _).
    rewrite E4, Hx. cbn [bind].
    destruct (put_cell_ok (resize s rows cols) r c x W) as (s' & P & W' & F1 & F2 & F3 & F4 & F5 & F6); [lia|lia|].
    exists s'. rewrite P. split; auto. split; auto. split; [lia|]. split; [lia|]. split; [congruence|].
    split.
    + replace ((r <? sh_nrows s) && (c <? sh_ncols s)) with false by lia. congruence.
    + intros. rewrite F6, E6. reflexivity.
  - rewrite Hx. cbn [bind].
    destruct (put_cell_ok s r c x Hw) as (s' & P & W' & F1 & F2 & F3 & F4 & F5 & F6); [lia|lia|].
    exists s'. rewrite P. split; auto. split; auto. split; [lia|]. split; [lia|]. split; [congruence|].
    split; auto.
    replace ((r <? sh_nrows s) && (c <? sh_ncols s)) with true by lia. congruence.
Qed.

(** ** the stored cell *)
Lemma is_merge_mark_spec : forall s, is_merge_mark s = true <-> merge_mark (GStr s).
Proof.
  intros s. unfold is_merge_mark, merge_mark. rewrite !orb_true_iff, !str_eqb_eq.
  unfold end_row_merged, end_column_merged, continue_row_merged, continue_column_merged.
  split; [intros [[[->| ->]| ->]| ->]; auto|]. intros [H|[H|[H|H]]]; injection H as ->; auto.
Qed.

Lemma make_section_type : forall s, In (snd (make_section s)) [IntegerCell; FloatCell; StringCell; DateCell].
Proof.
  intros s. unfold make_section. cbv zeta.
  destruct (contains_any (bs "ymdhs") (rm_literals (rm_brackets s))); [simpl; auto|].
  destruct (contains_any (bs ".Ee") (rm_brackets s)); cbn [fst snd].
  - destruct (sur_split _) as [pre [post|]].
    + destruct (_ || _); simpl; auto.
    + destruct (str_eqb _ _); simpl; auto.
  - destruct (sur_split _) as [pre [post|]].
    + destruct (_ || _); simpl; auto.
    + destruct (str_eqb _ _); simpl; auto.
Qed.

Lemma make_formatter_type : forall s, In (snd (make_formatter s)) [IntegerCell; FloatCell; StringCell; DateCell].
Proof.
  intros s. unfold make_formatter. destruct (containsb _ _).
  - destruct (split_byte 59 (rm_brackets s)) as [|p rest].
    + apply make_section_type.
    + pose proof (make_section_type p). destruct (make_section p). auto.
  - apply make_section_type.
Qed.

Lemma zfind_In : forall A (m : list (Z * A)) k v, zfind k m = Some v -> In (k, v) m.
Proof.
  induction m as [|[k' v'] m IH]; simpl; intros; [discriminate|].
  destruct (Z.eqb_spec k k'); [injection H as ->; subst; auto|auto].
Qed.

Lemma fx_types_range : forall x, reach_fx x ->
  forall id ct, In (id, ct) (fx_types x) -> In ct [IntegerCell; FloatCell; StringCell; DateCell].
Proof.
  induction 1; intros i ct Hin; simpl in *; auto; try contradiction.
  - eauto.
  - unfold fx_add in Hin. destruct (str_eqb _ _); [eapply IHreach_fx; eauto|].
    destruct (zfind id go_formatters); [eapply IHreach_fx; eauto|].
    destruct (zfind id (fx_codes x)); [eapply IHreach_fx; eauto|].
    pose proof (make_formatter_type code) as T. destruct (make_formatter code) as [ff c0]. simpl in *.
    destruct Hin as [E|Hin]; [injection E as <- <-; auto|eapply IHreach_fx; eauto].
Qed.

Lemma builtin_types_range : forall id ct, In (id, ct) builtin_types -> In ct [IntegerCell; FloatCell; StringCell; DateCell].
Proof.
  assert (H : forallb (fun p => existsb (ctype_eqb (snd p)) [IntegerCell; FloatCell; StringCell; DateCell]) builtin_types = true) by reflexivity.
  rewrite forallb_forall in H. intros id ct Hin. apply H in Hin. simpl in Hin.
  destruct ct; simpl in *; auto; discriminate.
Qed.

Lemma fx_cell_type_range : forall x id ct, reach_fx x -> fx_cell_type x id = Some ct ->
  In ct [IntegerCell; FloatCell; StringCell; DateCell].
Proof.
  intros x id ct Hx H. unfold fx_cell_type in H. destruct (zfind id builtin_types) eqn:E.
  - injection H as ->. apply zfind_In in E. eapply builtin_types_range; eauto.
  - apply zfind_In in H. eapply fx_types_range; eauto.
Qed.

Lemma good_new_cell : forall v, good_value v -> exists v0 t0, new_cell v = Ok [v0; GCType t0] /\ holds v v0 t0.
Proof.
  intros v (Hp & Hn & Ho & Hb).
  assert (exists v0 t0, new_cell v = Ok [v0; GCType t0]) as (v0 & t0 & E).
  { assert (exists p, new_cell_pair v = Ok p) as [[v1 t1] Ep].
    { destruct v as [|b|k z|x|x|s|s|u|r|x|ct|s|s]; simpl; eauto; try congruence.
      destruct k; eauto. destruct (maxInt64 <? z); eauto. }
    exists v1, t1. unfold new_cell. rewrite Ep. reflexivity. }
  exists v0, t0. split; auto. apply new_cell_holds; auto.
Qed.

Lemma set_format_pair : forall v t f, 
  set_format_number [v; GCType t] f = Ok ([v; GCType t] ++ (if f =? 0 then [] else [GInt KUint16 f])).
Proof. intros. unfold set_format_number. destruct (f =? 0); reflexivity. Qed.

Definition put_plain (x : formatter) (value : goval) (f : Z) : res (list goval) :=
  c <- match fx_cell_type x f with
       | Some ct => if f =? 0 then new_cell value else new_cell_with_type (fx_1904 x) value ct
       | None => new_cell value
       end ;;
  set_format_number c f.

Lemma put_plain_spec : forall x v f, reach_fx x -> good_value v ->
  exists v0 t0 v' t', holds v v0 t0 /\
    put_plain x v f = Ok ([v'; GCType t'] ++ (if f =? 0 then [] else [GInt KUint16 f])) /\
     match (if f =? 0 then None else fx_cell_type x f) with
     | None => v' = v0 /\ t' = t0
     | Some ct => if ctype_eqb t0 ct then v' = v0 /\ t' = t0 else coerced (fx_1904 x) ct v0 v' t'
     end.
Proof.
  intros x v f Hx Hg. destruct (good_new_cell v Hg) as (v0 & t0 & En & Hh).
  unfold put_plain. destruct (fx_cell_type x f) as [ct|] eqn:Et.
  - destruct (Z.eqb_spec f 0).
    + exists v0, t0, v0, t0. rewrite En. cbn [bind]. rewrite set_format_pair. subst f. auto.
    + assert (Hct := fx_cell_type_range _ _ _ Hx Et).
      destruct (ctype_eqb t0 ct) eqn:Ec.
      * apply ctype_eqb_eq in Ec. subst ct. rewrite (new_cell_with_type_same _ _ _ _ En). cbn [bind].
        rewrite set_format_pair. exists v0, t0, v0, t0. rewrite ctype_eqb_refl.
        destruct (Z.eqb_spec f 0); [lia|]. auto.
      * assert (ct <> t0) by (intro; subst; rewrite ctype_eqb_refl in Ec; discriminate).
        assert (exists c, new_cell_with_type (fx_1904 x) v ct = Ok c) as [c Ecc].
        { unfold new_cell in En. destruct (new_cell_pair v) as [[a b]| | |] eqn:Ep; try discriminate.
          destruct (new_cell_with_type_ok (fx_1904 x) v ct _ _ Ep) as (q & t1 & Eq). eauto. }
        assert (In ct [IntegerCell; FloatCell; BooleanCell; StringCell; DateCell]) by (simpl in *; intuition).
        destruct (proj1 (new_cell_with_type_coerced (fx_1904 x) v v0 ct t0 c En H0 H) Ecc) as (v2 & t2 & Hco & ->).
        rewrite Ecc. cbn [bind]. rewrite set_format_pair.
        exists v0, t0, v2, t2. destruct (Z.eqb_spec f 0); [lia|]. rewrite Ec. auto.
  - exists v0, t0, v0, t0. rewrite En. cbn [bind]. rewrite set_format_pair. destruct (f =? 0); auto.
Qed.

Lemma make_put_cell_spec : forall x v f, reach_fx x -> good_value v ->
  exists c, make_put_cell x v f = Ok c /\ put_cell_spec x v f c.
Proof.
  intros x v f Hx Hg.
  destruct (put_plain_spec x v f Hx Hg) as (v0 & t0 & v' & t' & Hh & Ep & Hm).
  assert (Hnm : (exists s, v = GStr s /\ is_merge_mark s = true) \/ ~ merge_mark v).
  { destruct v as [| | | | |s| | | | | | |]; try (right; intros [H|[H|[H|H]]]; discriminate).
    destruct (is_merge_mark s) eqn:E; eauto. right. intro H. apply is_merge_mark_spec in H. congruence. }
  destruct Hnm as [(s & -> & Em)|Hnm].
  - exists [GStr s; GCType StaticCell]. unfold make_put_cell. rewrite Em. split.
    + apply is_merge_mark_spec in Em. destruct Em as [H|[H|[H|H]]]; injection H as ->; reflexivity.
    + left. split; auto. apply is_merge_mark_spec; auto.
  - exists ([v'; GCType t'] ++ (if f =? 0 then [] else [GInt KUint16 f])). split.
    + unfold make_put_cell. rewrite <- Ep. destruct v; auto.
      destruct (is_merge_mark s) eqn:E; auto. exfalso. apply Hnm, is_merge_mark_spec; auto.
    + right. split; auto. exists v0, t0, v', t'. auto.
Qed.

(** ** building *)
Lemma run_puts_spec : forall x l s, reach_fx x -> wf s -> sh_fx s = x -> Forall good_put l ->
  exists s', run_ops s l = Ok s' /\ wf s' /\ sh_fx s' = x /\
    (forall r c, match last_put l r c with
                 | Some (v, f) => put_cell_spec x v f (content s' r c)
                 | None => content s' r c = content s r c
                 end) /\
    (forall r c, last_put l r c <> None -> 0 <= r < sh_nrows s' /\ 0 <= c < sh_ncols s') /\
    sh_nrows s <= sh_nrows s' /\ sh_ncols s <= sh_ncols s' /\ (sh_cur s = 0 -> sh_cur s' = 0).
Proof.
  induction l as [|o l IH]; intros s Hx Hw Ef Hl.
  - exists s. simpl. repeat split; auto; try lia; congruence.
  - inversion Hl as [|? ? Ho Hl']; subst. destruct o as [r c v f|]; [|contradiction].
    destruct Ho as (Hr & Hc & Hf & Hg).
    destruct (make_put_cell_spec (sh_fx s) v f Hx Hg) as (cl & Em & Hs).
    destruct (put_ok s r c v f cl Hw Hr Hc Em) as (s1 & P & W1 & N1 & N2 & F1 & Cu & Ct).
    destruct (IH s1) as (s' & R & W' & F' & C' & D' & G1 & G2 & G3); auto; try congruence.
    exists s'. simpl. rewrite P. cbn [bind]. rewrite R. split; auto. split; auto. split; auto.
    split; [|split; [|split; [lia|split; [lia|]]]].
    + intros r' c'. specialize (C' r' c'). destruct (last_put l r' c') as [[v1 f1]|]; auto.
      rewrite Ct in C'. destruct ((r =? r') && (c =? c')); [|auto]. rewrite C'. auto.
    + intros r' c'. specialize (D' r' c'). destruct (last_put l r' c') as [[v1 f1]|]; auto.
      destruct ((r =? r') && (c =? c')) eqn:E; [|congruence]. intros _. lia.
    + intros Z0. apply G3. rewrite Cu, Z0. destruct (_ && _); auto.
Qed.

(** ** reading *)
Lemma next_true : forall s, sh_cur s < zlen (sh_rows s) ->
  next s = (true, mkSheet (sh_fx s) (sh_nrows s) (sh_ncols s) (sh_rows s) (sh_cur s + 1)).
Proof. intros. unfold next. destruct (Z.ltb_spec (zlen (sh_rows s)) (sh_cur s + 1)); [lia|reflexivity]. Qed.
Lemma next_false : forall s, zlen (sh_rows s) <= sh_cur s -> next s = (false, s).
Proof. intros. unfold next. destruct (Z.ltb_spec (zlen (sh_rows s)) (sh_cur s + 1)); [reflexivity|lia]. Qed.

Lemma fill_row_ok : forall A B (f : A -> res B) n l i out, i + zlen l <= n ->
  Forall2 (fun c b => f c = Ok b) l out -> fill_row f n i l = Ok out.
Proof.
  induction l as [|a l IH]; intros i out Hn HF; inversion HF; subst; simpl; auto.
  rewrite H1. cbn [bind]. rewrite zlen_cons in Hn. pose proof (zlen_nonneg _ l).
  destruct (Z.leb_spec n i); [lia|]. rewrite (IH (i + 1) l'); auto. lia.
Qed.

Lemma Forall2_zlen : forall A B (R : A -> B -> Prop) a b, Forall2 R a b -> zlen a = zlen b.
Proof. induction 1; auto. rewrite !zlen_cons. lia. Qed.

Lemma row_map_ok : forall A (f : list goval -> res A) d s row out,
  idx (sh_rows s) (sh_cur s - 1) = Ok row -> zlen row = sh_ncols s ->
  Forall2 (fun c b => f c = Ok b) row out -> row_map f d s = Ok out.
Proof.
  intros A f d s row out E L HF. unfold row_map. rewrite E. cbn [bind].
  rewrite (fill_row_ok _ _ f (sh_ncols s) row 0 out) by (auto; lia). cbn [bind].
  rewrite <- (Forall2_zlen _ _ _ _ _ HF), L.
  replace (sh_ncols s - sh_ncols s) with 0 by lia. simpl. rewrite app_nil_r. reflexivity.
Qed.

Lemma skipn_cons_nth : forall A (l : list A) n x, nth_error l n = Some x -> skipn n l = x :: skipn (S n) l.
Proof. induction l; destruct n; simpl; intros; try discriminate; try congruence. apply IHl; auto. Qed.

(** any per-cell observation of a well-formed sheet *)
Lemma delivers_map : forall A (f : list goval -> res A) d s g, wf s ->
  (forall r c, 0 <= r <= sh_nrows s -> 0 <= c < sh_ncols s -> f (content s r c) = Ok (g (content s r c))) ->
  delivers (row_map f d) s (map (map g) (skipn (Z.to_nat (sh_cur s)) (sh_rows s))).
Proof.
  intros A f d s g Hw Hf.
  remember (List.length (sh_rows s) - Z.to_nat (sh_cur s))%nat as k eqn:Ek.
  revert s Hw Hf Ek. induction k; intros s Hw Hf Ek.
  - assert (zlen (sh_rows s) <= sh_cur s).
    { unfold zlen. destruct Hw as [(E1 & E2 & E3 & E4)|(A1 & B & C & D & E)]; [rewrite E1; simpl; lia|lia]. }
    rewrite skipn_all2 by (unfold zlen in *; lia). simpl. eapply dl_end. apply next_false. auto.
  - assert (Hc : 0 <= sh_cur s < zlen (sh_rows s)).
    { unfold zlen. destruct Hw as [(E1 & E2 & E3 & E4)|(A1 & B & C & D & E)]; [rewrite E1 in Ek; simpl in Ek; lia|lia]. }
    destruct Hw as [(E1 & E2 & E3 & E4)|(A1 & B & C & D & E)]; [rewrite E1, zlen_nil in Hc; lia|].
    destruct (idx_in _ (sh_rows s) (sh_cur s) Hc) as [row Erow].
    pose proof (idx_inv _ _ _ _ Erow) as [_ En].
    rewrite (skipn_cons_nth _ _ _ _ En). cbn [map].
    set (s1 := mkSheet (sh_fx s) (sh_nrows s) (sh_ncols s) (sh_rows s) (sh_cur s + 1)).
    apply (dl_more _ s s1).
    + apply next_true. lia.
    + assert (Lrow : zlen row = sh_ncols s) by (rewrite Forall_forall in D; apply D; eapply nth_error_In; eauto).
      apply row_map_ok with (row := row).
      * simpl. replace (sh_cur s + 1 - 1) with (sh_cur s) by lia. auto.
      * auto.
      * assert (Hcell : forall n cl, nth_error row n = Some cl -> f cl = Ok (g cl)).
        { intros n cl Hn. assert (n < List.length row)%nat by (apply nth_error_Some; congruence).
          assert (Ec : content s (sh_cur s) (Z.of_nat n) = cl).
          { unfold content, get_cell. rewrite Erow. cbn [bind]. rewrite (idx_ok _ row (Z.of_nat n) cl); auto; [lia|].
            rewrite Nat2Z.id. auto. }
          rewrite <- Ec. apply Hf; unfold zlen in *; lia. }
        clear - Hcell. induction row as [|a row IH]; simpl; constructor.
        -- apply (Hcell 0%nat). reflexivity.
        -- apply IH. intros n cl Hn. apply (Hcell (S n)). auto.
    + replace (S (Z.to_nat (sh_cur s))) with (Z.to_nat (sh_cur s1)) by (simpl; lia).
      apply (IHk s1).
      * right. simpl. repeat split; auto; lia.
      * intros. apply Hf; auto.
      * simpl. lia.
Qed.

Lemma delivers_fun : forall A (obs : sheet -> res A) s l1, delivers obs s l1 -> forall l2, delivers obs s l2 -> l1 = l2.
Proof.
  induction 1; intros l2 H2; inversion H2; subst; auto; try congruence.
  assert (s' = s'0) by congruence. subst. f_equal; [congruence|auto].
Qed.

(** ** Set *)
Lemma content_get : forall s r c, wf s -> 0 <= r <= sh_nrows s -> 0 <= c < sh_ncols s ->
  get_cell s r c = Ok (content s r c).
Proof.
  intros s r c Hw Hr Hc. unfold content, get_cell.
  destruct Hw as [(E1 & E2 & E3 & E4)|(A1 & B & C & D & E)]; [lia|].
  destruct (idx_in _ (sh_rows s) r ltac:(lia)) as [row Erow]. rewrite Erow. cbn [bind].
  assert (zlen row = sh_ncols s).
  { apply idx_inv in Erow. destruct Erow as [_ En]. rewrite Forall_forall in D; apply D; eapply nth_error_In; eauto. }
  destruct (idx_in _ row c ltac:(lia)) as [x Ex]. rewrite Ex. auto.
Qed.

(** ** growing *)
Lemma grows_wf : forall s l, grows s l -> reach_fx (sh_fx s) -> wf s ->
  exists s', run_ops s l = Ok s' /\ wf s' /\ sh_fx s' = sh_fx s.
Proof.
  induction 1; intros Hx Hw.
  - exists s. auto.
  - destruct H as (Hr & Hc & Hf & Hg).
    destruct (make_put_cell_spec (sh_fx s) v f Hx Hg) as (cl & Em & Hs).
    destruct (put_ok s r c v f cl Hw Hr Hc Em) as (s1 & P & W1 & N1 & N2 & F1 & Cu & Ct).
    rewrite H0 in P. injection P as ->. destruct IHgrows as (s'' & R & W & F); auto; [congruence|].
    exists s''. simpl. rewrite H0. cbn [bind]. rewrite R. repeat split; auto. congruence.
  - assert (W : wf (resize s r c) /\ sh_fx (resize s r c) = sh_fx s).
    { split; [|reflexivity]. destruct (Z_le_dec 1 r), (Z_le_dec 1 c); 
        try (destruct (resize_grow s r c Hw) as (W & _); auto; fail);
        (destruct Hw as [(E1 & E2 & E3 & E4)|(A1 & B & C & D & E)]; [|lia]).
      - unfold resize. rewrite E1. cbn [widen_rows]. destruct (Z.leb_spec r 0); [lia|]. destruct (Z.leb_spec c 0); [|lia].
        right. cbn [sh_nrows sh_ncols sh_rows sh_cur app]. rewrite zlen_nil, zlen_repeat. repeat split; try lia.
        apply Forall_forall. intros y Hy. apply repeat_spec in Hy. subst. apply zlen_blank_row. lia.
      - unfold resize. rewrite E1. cbn [widen_rows]. destruct (Z.leb_spec r 0); [|lia]. destruct (Z.leb_spec c 0); [lia|].
        right. cbn [sh_nrows sh_ncols sh_rows sh_cur app]. rewrite zlen_nil, zlen_repeat. repeat split; try lia. 
        apply Forall_forall. intros y Hy. apply repeat_spec in Hy. subst. apply zlen_blank_row. lia.
      - unfold resize. rewrite E1. cbn [widen_rows]. destruct (Z.leb_spec r 0); [|lia]. destruct (Z.leb_spec c 0); [|lia].
        right. cbn [sh_nrows sh_ncols sh_rows sh_cur app]. rewrite zlen_nil, zlen_repeat. repeat split; try lia.
        apply Forall_forall. intros y Hy. apply repeat_spec in Hy. subst. apply zlen_blank_row. lia. }
    destruct W as [W F]. destruct IHgrows as (s'' & R & W2 & F2); auto.
    exists s''. simpl. rewrite R. auto.
Qed.

(** ** cells of a sheet built by Put *)
Definition cell_ok (c : list goval) : Prop :=
  c = [] \/ exists v t f, 0 <= f < 65536 /\ c = [v; GCType t] ++ (if f =? 0 then [] else [GInt KUint16 f]).

Lemma put_cell_spec_ok : forall x v f c, 0 <= f < 65536 -> put_cell_spec x v f c -> cell_ok c.
Proof.
  intros x v f c Hf [[_ ->]|[_ (v0 & t0 & v' & t' & _ & -> & _)]]; right.
  - exists v, StaticCell, 0. split; [lia|reflexivity].
  - exists v', t', f. auto.
Qed.

Lemma grows_cells : forall s l, grows s l -> reach_fx (sh_fx s) -> wf s -> (forall r c, cell_ok (content s r c)) ->
  forall s', run_ops s l = Ok s' -> forall r c, cell_ok (content s' r c).
Proof.
  induction 1; intros Hx Hw Hc sx Hrun.
  - simpl in Hrun. injection Hrun as <-. auto.
  - destruct H as (Hr & Hcc & Hf & Hg).
    destruct (make_put_cell_spec (sh_fx s) v f Hx Hg) as (cl & Em & Hs).
    destruct (put_ok s r c v f cl Hw Hr Hcc Em) as (s1 & P & W1 & N1 & N2 & F1 & Cu & Ct).
    rewrite H0 in P. injection P as ->. simpl in Hrun. rewrite H0 in Hrun. cbn [bind] in Hrun.
    eapply IHgrows; eauto; [congruence|]. intros r' c'. rewrite Ct. destruct ((r =? r') && (c =? c')); auto.
    eapply put_cell_spec_ok; [exact Hf|exact Hs].
  - simpl in Hrun.
    destruct (grows_wf s [OResize r c]) as (s2 & R & W & F); auto.
    { constructor; auto. constructor. }
    simpl in R. injection R as <-.
    eapply IHgrows; eauto. intros r' c'.
    destruct Hw as [(E1 & E2 & E3 & E4)|Hw].
    + left. unfold resize. rewrite E1. cbn [widen_rows]. unfold content, get_cell. cbn [sh_rows app].
      destruct (Z_le_dec 0 r'); [|rewrite idx_out by lia; auto].
      set (cc := if c <=? 0 then 1 else c). set (n := Z.to_nat _).
      destruct (Z_lt_dec r' (Z.of_nat n)); [|rewrite idx_out by (rewrite zlen_repeat; lia); auto].
      rewrite idx_repeat by lia. cbn [bind]. unfold blank_row.
      destruct (Z_le_dec 0 c'); [|rewrite idx_out by lia; auto].
      destruct (Z_lt_dec c' (Z.of_nat (Z.to_nat cc))); [|rewrite idx_out by (rewrite zlen_repeat; lia); auto].
      rewrite idx_repeat by lia. auto.
    + destruct (resize_grow s r c) as (_ & _ & _ & _ & _ & _ & E & _); [right; auto|auto|auto|lia|lia|].
      rewrite E. auto.
Qed.

Lemma cell_ok_type : forall c, cell_ok c -> exists t, cell_type c = Ok t.
Proof. intros c [->|(v & t & f & _ & ->)]; [exists BlankCell; reflexivity|]. exists t. destruct (f =? 0); reflexivity. Qed.
Lemma cell_ok_format : forall c, cell_ok c -> exists n, format_no c = Ok n /\ 0 <= n < 65536.
Proof.
  intros c [->|(v & t & f & Hf & ->)]; [exists 0; split; [reflexivity|lia]|]. exists f.
  destruct (Z.eqb_spec f 0); [subst|]; split; auto.
Qed.

(** ** reachable sheets *)
Definition cell_long (c : list goval) : Prop := c = [] \/ exists v t r, c = v :: GCType t :: r.
Lemma cell_ok_long : forall c, cell_ok c -> cell_long c.
Proof. intros c [->|(v & t & f & _ & ->)]; [left; auto|right; simpl; eauto]. Qed.

Lemma content_empty : forall x r c, content (empty_sheet x) r c = [].
Proof.
  intros. unfold content, get_cell, empty_sheet. simpl. unfold idx. destruct (_ <=? _); auto. destruct (Z.to_nat _); auto.
Qed.

Lemma resize_content_blank : forall s r c, sh_rows s = [] -> forall r' c', content (resize s r c) r' c' = [].
Proof.
  intros s r c E1 r' c'. unfold resize. rewrite E1. cbn [widen_rows]. unfold content, get_cell. cbn [sh_rows app].
  destruct (Z_le_dec 0 r'); [|rewrite idx_out by lia; auto].
  set (cc := if c <=? 0 then 1 else c). set (n := Z.to_nat _).
  destruct (Z_lt_dec r' (Z.of_nat n)); [|rewrite idx_out by (rewrite zlen_repeat; lia); auto].
  rewrite idx_repeat by lia. cbn [bind]. unfold blank_row.
  destruct (Z_le_dec 0 c'); [|rewrite idx_out by lia; auto].
  destruct (Z_lt_dec c' (Z.of_nat (Z.to_nat cc))); [|rewrite idx_out by (rewrite zlen_repeat; lia); auto].
  rewrite idx_repeat by lia. auto.
Qed.

Lemma get_cell_wf_inv : forall s r c x, wf s -> get_cell s r c = Ok x -> 
  0 <= r <= sh_nrows s /\ 0 <= c < sh_ncols s /\ content s r c = x.
Proof.
  intros s r c x Hw H. unfold content. rewrite H. unfold get_cell in H.
  destruct (idx (sh_rows s) r) as [row| | |] eqn:E; simpl in H; try discriminate.
  destruct (idx_inv _ _ _ _ E) as [Hr En]. destruct (idx_inv _ _ _ _ H) as [Hc _].
  destruct Hw as [(E1 & E2 & E3 & E4)|(A1 & B & C & D & E0)].
  - rewrite E1 in En. destruct (Z.to_nat r); discriminate.
  - assert (zlen row = sh_ncols s) by (rewrite Forall_forall in D; apply D; eapply nth_error_In; eauto).
    repeat split; lia.
Qed.

Lemma set_idx0 : forall A (a : A) l v, set_idx (a :: l) 0 v = Ok (v :: l).
Proof. intros. rewrite set_idx_ok; [reflexivity|]. rewrite zlen_cons. pose proof (zlen_nonneg _ l). lia. Qed.
Lemma set_idx1 : forall A (a b : A) l v, set_idx (a :: b :: l) 1 v = Ok (a :: v :: l).
Proof. intros. rewrite set_idx_ok; [reflexivity|]. rewrite !zlen_cons. pose proof (zlen_nonneg _ l). lia. Qed.

Definition same_elsewhere (s s' : sheet) (r c : Z) : Prop :=
  sh_nrows s' = sh_nrows s /\ sh_ncols s' = sh_ncols s /\ sh_cur s' = sh_cur s /\ sh_fx s' = sh_fx s /\
  forall r' c', (r', c') <> (r, c) -> content s' r' c' = content s r' c'.

Lemma put_cell_frame : forall s r c x s', wf s -> put_cell s r c x = Ok s' ->
  wf s' /\ same_elsewhere s s' r c /\ content s' r c = x.
Proof.
  intros s r c x s' Hw H.
  assert (Hin : 0 <= r <= sh_nrows s /\ 0 <= c < sh_ncols s).
  { unfold put_cell in H. destruct (idx (sh_rows s) r) as [row| | |] eqn:E; simpl in H; try discriminate.
    destruct (idx_inv _ _ _ _ E) as [Hr En].
    destruct (Z_le_dec 0 c); [destruct (Z_lt_dec c (zlen row))|].
    - destruct Hw as [(E1 & E2 & E3 & E4)|(A1 & B & C & D & E0)].
      + rewrite E1 in En. destruct (Z.to_nat r); discriminate.
      + assert (zlen row = sh_ncols s) by (rewrite Forall_forall in D; apply D; eapply nth_error_In; eauto). lia.
    - rewrite set_idx_bad in H by lia. discriminate.
    - rewrite set_idx_bad in H by lia. discriminate. }
  destruct (put_cell_ok s r c x Hw) as (s1 & P & W & N1 & N2 & Cu & F & _ & Ct); try tauto.
  rewrite H in P. injection P as ->. split; auto. split; [|rewrite Ct, !Z.eqb_refl; auto].
  repeat split; auto. intros r' c' Hne. rewrite Ct.
  destruct (Z.eqb_spec r r'); auto. destruct (Z.eqb_spec c c'); auto. subst. congruence.
Qed.

Lemma set_value_cases : forall s r c v, wf s -> (forall r c, cell_long (content s r c)) ->
  (sh_nrows s < r \/ sh_ncols s < c) /\ set_value s r c v = Ok s \/
  (r <= sh_nrows s /\ c <= sh_ncols s /\ 0 <= r /\ 0 <= c < sh_ncols s /\
   exists v0 t0 rest s', content s r c = v0 :: GCType t0 :: rest /\
     put_cell s r c (v :: GCType StringCell :: rest) = Ok s' /\ set_value s r c v = Ok s') \/
  (r <= sh_nrows s /\ c <= sh_ncols s /\ (r < 0 \/ c < 0 \/ c = sh_ncols s \/ content s r c = []) /\ set_value s r c v = Panic).
Proof.
  intros s r c v Hw Hl. unfold set_value.
  destruct (Z.ltb_spec (sh_nrows s) r); [left; auto|]. destruct (Z.ltb_spec (sh_ncols s) c); [left; auto|].
  simpl orb. cbn iota. right.
  destruct (get_cell s r c) as [x| | |] eqn:E.
  - destruct (get_cell_wf_inv _ _ _ _ Hw E) as (Hr & Hc & Ec). cbn [bind].
    destruct (Hl r c) as [El|(v0 & t0 & rest & El)].
    + right. rewrite Ec in El. subst x. rewrite El. repeat split; auto.
    + left. rewrite Ec in El. subst x. rewrite El. rewrite set_idx0. cbn [bind]. rewrite set_idx1. cbn [bind].
      destruct (put_cell_ok s r c (v :: GCType StringCell :: rest) Hw) as (s1 & P & _); [lia|lia|].
      repeat split; try lia. exists v0, t0, rest, s1. auto.
  - unfold get_cell in E. destruct (idx _ r) as [row| | |] eqn:E1; simpl in E; try discriminate.
    + unfold idx in E. destruct (_ <=? _); try discriminate. destruct (nth_error _ _); discriminate.
    + unfold idx in E1. destruct (_ <=? _); try discriminate. destruct (nth_error _ _); discriminate.
  - right. repeat split; auto.
    destruct (Z_lt_dec r 0); auto. destruct (Z_lt_dec c 0); auto. destruct (Z.eq_dec c (sh_ncols s)); auto.
    exfalso. rewrite content_get in E; auto; try lia. discriminate.
  - unfold get_cell in E. destruct (idx _ r) as [row| | |] eqn:E1; simpl in E; try discriminate.
    + unfold idx in E. destruct (_ <=? _); try discriminate. destruct (nth_error _ _); discriminate.
    + unfold idx in E1. destruct (_ <=? _); try discriminate. destruct (nth_error _ _); discriminate.
Qed.

Definition linked (link : gostr) (v : goval) (rest : list goval) : list goval :=
  v :: GCType HyperlinkStringCell :: match rest with [] => [GInt KUint16 0; GStr link] | _ => rest ++ [GStr link] end.

Lemma cell_set_url_long : forall v t rest link,
  cell_set_url (v :: GCType t :: rest) link = Ok (linked link v rest).
Proof.
  intros. unfold cell_set_url, linked. rewrite set_idx1. cbn [bind]. rewrite !zlen_cons.
  destruct rest as [|a rest].
  - rewrite zlen_nil. reflexivity.
  - rewrite zlen_cons. pose proof (zlen_nonneg _ rest). destruct (Z.eqb_spec (1 + (1 + (1 + zlen rest))) 2); [lia|]. reflexivity.
Qed.

Lemma set_url_cases : forall s r c v, wf s -> (forall r c, cell_long (content s r c)) ->
  (sh_nrows s < r \/ sh_ncols s < c) /\ set_url s r c v = Ok s \/
  (r <= sh_nrows s /\ c <= sh_ncols s /\ 0 <= r /\ 0 <= c < sh_ncols s /\
   exists v0 t0 rest s', content s r c = v0 :: GCType t0 :: rest /\
     put_cell s r c (linked v v0 rest) = Ok s' /\ set_url s r c v = Ok s') \/
  (r <= sh_nrows s /\ c <= sh_ncols s /\ (r < 0 \/ c < 0 \/ c = sh_ncols s \/ content s r c = []) /\ set_url s r c v = Panic).
Proof.
  intros s r c v Hw Hl. unfold set_url.
  destruct (Z.ltb_spec (sh_nrows s) r); [left; auto|]. destruct (Z.ltb_spec (sh_ncols s) c); [left; auto|].
  simpl orb. cbn iota. right.
  destruct (get_cell s r c) as [x| | |] eqn:E.
  - destruct (get_cell_wf_inv _ _ _ _ Hw E) as (Hr & Hc & Ec). cbn [bind].
    destruct (Hl r c) as [El|(v0 & t0 & rest & El)].
    + right. rewrite Ec in El. subst x. rewrite El. repeat split; auto.
    + left. rewrite Ec in El. subst x. rewrite El. rewrite cell_set_url_long. cbn [bind].
      destruct (put_cell_ok s r c (linked v v0 rest) Hw) as (s1 & P & _); [lia|lia|].
      repeat split; try lia. exists v0, t0, rest, s1. auto.
  - unfold get_cell in E. destruct (idx _ r) as [row| | |] eqn:E1; simpl in E; try discriminate.
    + unfold idx in E. destruct (_ <=? _); try discriminate. destruct (nth_error _ _); discriminate.
    + unfold idx in E1. destruct (_ <=? _); try discriminate. destruct (nth_error _ _); discriminate.
  - right. repeat split; auto.
    destruct (Z_lt_dec r 0); auto. destruct (Z_lt_dec c 0); auto. destruct (Z.eq_dec c (sh_ncols s)); auto.
    exfalso. rewrite content_get in E; auto; try lia. discriminate.
  - unfold get_cell in E. destruct (idx _ r) as [row| | |] eqn:E1; simpl in E; try discriminate.
    + unfold idx in E. destruct (_ <=? _); try discriminate. destruct (nth_error _ _); discriminate.
    + unfold idx in E1. destruct (_ <=? _); try discriminate. destruct (nth_error _ _); discriminate.
Qed.

Lemma reach_sheet_inv : forall s, reach_sheet s ->
  wf s /\ reach_fx (sh_fx s) /\ forall r c, cell_long (content s r c).
Proof.
  induction 1.
  - split; [apply wf_empty|]. split; auto. intros. left. apply content_empty.
  - destruct IHreach_sheet as (W & Fx & L). destruct H0 as (Hr & Hc & Hf & Hg).
    destruct (make_put_cell_spec (sh_fx s) v f Fx Hg) as (cl & Em & Hs).
    destruct (put_ok s r c v f cl W Hr Hc Em) as (s1 & P & W1 & N1 & N2 & F1 & Cu & Ct).
    rewrite H1 in P. injection P as ->. split; auto. split; [congruence|].
    intros r' c'. rewrite Ct. destruct ((r =? r') && (c =? c')); auto.
    apply cell_ok_long. eapply put_cell_spec_ok; [exact Hf|exact Hs].
  - destruct IHreach_sheet as (W & Fx & L).
    destruct (grows_wf s [OResize r c]) as (s2 & R & W2 & F); auto.
    { constructor; auto. constructor. }
    simpl in R. injection R as <-. split; auto. split; auto. intros r' c'.
    destruct W as [(E1 & E2 & E3 & E4)|W].
    + left. apply resize_content_blank; auto.
    + destruct (resize_grow s r c) as (_ & _ & _ & _ & _ & _ & E & _); [right; auto|auto|auto|lia|lia|].
      rewrite E. auto.
  - destruct IHreach_sheet as (W & Fx & L). unfold next in H0. destruct (Z.ltb_spec (zlen (sh_rows s)) (sh_cur s + 1)).
    + injection H0 as <- <-. auto.
    + injection H0 as <- <-. split; [|auto].
      destruct W as [(E1 & E2 & E3 & E4)|(A1 & B & C & D & E)].
      * rewrite E1, zlen_nil, E4 in H1. lia.
      * right. simpl. repeat split; auto; lia.
  - destruct IHreach_sheet as (W & Fx & L).
    destruct (set_value_cases s r c v W L) as [[_ E]|[(_ & _ & _ & _ & v0 & t0 & rest & s1 & Ec & P & E)|(_ & _ & _ & E)]].
    + rewrite H0 in E. injection E as ->. auto.
    + rewrite H0 in E. injection E as ->. destruct (put_cell_frame _ _ _ _ _ W P) as (W1 & (_ & _ & _ & F & S) & Cx).
      split; auto. split; [congruence|]. intros r' c'.
      destruct (Z.eq_dec r' r); [destruct (Z.eq_dec c' c)|].
      * subst. rewrite Cx. right. eauto.
      * rewrite S by congruence. auto.
      * rewrite S by congruence. auto.
    + congruence.
  - destruct IHreach_sheet as (W & Fx & L).
    destruct (set_url_cases s r c v W L) as [[_ E]|[(_ & _ & _ & _ & v0 & t0 & rest & s1 & Ec & P & E)|(_ & _ & _ & E)]].
    + rewrite H0 in E. injection E as ->. auto.
    + rewrite H0 in E. injection E as ->. destruct (put_cell_frame _ _ _ _ _ W P) as (W1 & (_ & _ & _ & F & S) & Cx).
      split; auto. split; [congruence|]. intros r' c'.
      destruct (Z.eq_dec r' r); [destruct (Z.eq_dec c' c)|].
      * subst. rewrite Cx. right. unfold linked. eauto.
      * rewrite S by congruence. auto.
      * rewrite S by congruence. auto.
    + congruence.
Qed.
